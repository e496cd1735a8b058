(** Concrete multiplications, used to show that hypotheses can be met. *)
From Coq Require Import SpecFloat.
From Verif Require Import Base SidePair SpecArith SizeUtil SizeUtilFacts SpecMatrix SpecPack BlockMap SpecBlockMap ThreadCount
  Mat MatFacts Scalars Pack PackFacts MulParams Kernel Multiplier IntOps FloatOps TrMul TrMulMachine SpecMachine TrMulRun SpecRound SpecMul TrMulFacts FrontEndFacts EntryFacts MulFacts MulProps.

Definition ex_mat {V} (rows cols stride : Z) (o : order) (zp : Z) (f : Z -> V) : mat V :=
  {| m_data := {| blen := stride * (match o with ColMajor => cols | RowMajor => rows end); bdat := f |};
     m_layout := {| ml_rows := rows; ml_cols := cols; ml_stride := stride; ml_order := o |}; m_zp := zp |}.

(** 9x5 times 5x10, uint8 in and out, per-channel bias and multipliers. *)
Definition ex_l := ex_mat 9 5 6 RowMajor 3 (fun x => (x * 37 + 11) mod 256).
Definition ex_r := ex_mat 5 10 5 ColMajor 200 (fun x => (x * 91 + 5) mod 256).
Definition ex_dst o := ex_mat 9 10 11 o 120 (fun x => x mod 7).
Definition ex_mp : mul_params Z := {|
  mp_bias := Some {| blen := 9; bdat := fun x => 1000 * x - 2000 |};
  mp_mult_pc := Some {| blen := 9; bdat := fun x => 1500000000 + 1000000 * x |}; mp_mult := 0;
  mp_exp_pc := Some {| blen := 9; bdat := fun x => -8 - x mod 2 |}; mp_exp := 0;
  mp_min := 2; mp_max := 250; mp_chan := ChRow; mp_perchannel := true; mp_rounding_log2 := 0 |}.
Definition ex_ops ar := int_ops ar true (mk_sp u8 u8) (mk_sp s8 s8) u8.
Definition ex_config n := {| c_dbg := true; c_opts := default_opts; c_ahead := true; c_fat := true;
  c_strategy := StrategyForceMax; c_max_threads := n;
  c_cache := {| local_cache_size := 16; last_level_cache_size := 64 |} |}.
Definition ex_garbage {V} (v : V) : garbage V := {| g_chan := fun _ => v; g_exp := fun _ => 55; g_packed := fun _ _ => v; g_sums := fun _ _ => v |}.
Definition ex_kl := standard_cpp_kernel_layout Variant1.
(** Three threads in turns; a compare-exchange fails spuriously every now and then. *)
Definition ex_sched : list (Z * bool) := concat (repeat [(2, true); (0, false); (1, false); (2, false)] 80).

Ltac zdec := cbn -[Z.mul Z.add Z.sub Z.pow int_max]; unfold int_max; lia.

Lemma pow2_of : forall n, n = 2 ^ Z.log2 n -> power_of_two n.
Proof. intros n H. exists (Z.log2 n). split; [apply Z.log2_nonneg|exact H]. Qed.

Lemma channel_array_exact : forall {A} (z : A -> bool) b n cap, (forall x, b = Some x -> blen x = n) ->
  is_round_up n 1 cap -> channel_array z b n cap.
Proof.
  intros A z b n cap H Hc x E. unfold is_round_up in Hc. rewrite (H x E).
  split; [lia|]. intros i Hi. lia.
Qed.

Definition good_threads n := 1 <= n <= 1000.

Lemma ex_valid : forall ar o n, good_threads n -> valid_call (ex_config n) (ex_ops ar) ex_kl ex_l ex_r (ex_dst o) ex_mp.
Proof.
  intros ar o n Hn. unfold good_threads in Hn. constructor.
  - constructor.
    + split; [|split]; [..|reflexivity]; (split; [apply pow2_of; reflexivity|]; split; [apply pow2_of; reflexivity|zdec]).
    + split; [|split]; unfold valid_matrix, valid_layout, inner_size, outer_size; try destruct o; zdec.
    + destruct o; zdec.
    + intros k m s Hk Hm. assert (k = lhs ex_kl) as -> by (destruct Hk; assumption).
      assert (0 <= m <= 10) by (destruct Hm as [-> | ->]; destruct o; zdec). split; zdec.
    + intros []; vm_compute; repeat split; discriminate.
    + split; [zdec|]. split; [destruct o; zdec|]. intros cap Hc.
      assert (forall {A} (z : A -> bool) b, (forall x, b = Some x -> blen x = 9) -> channel_array z b (channel_count ex_mp (m_layout (ex_dst o))) cap) as CA.
      { intros A z b Hb. apply channel_array_exact; [exact Hb|exact Hc]. }
      split; [|split]; apply CA; intros x E; apply (f_equal (option_map blen)) in E; change (Some 9 = Some (blen x)) in E; congruence.
    + reflexivity.
  - destruct o; zdec.
  - cbn. unfold int_max. lia.
  - intros R C t HR HC Ht. apply is_round_up_eq in HR; [|destruct o; zdec]. apply is_round_up_eq in HC; [|destruct o; zdec].
    subst R C. cbn [ex_config c_max_threads] in Ht.
    destruct o; cbn; (constructor; try (exists 2); unfold local_cache_size, int_max; try lia; try reflexivity; vm_compute; repeat split; discriminate).
Qed.

Lemma ex_operands : integer_operands (mk_sp u8 u8) (mk_sp s8 s8) ex_l ex_r.
Proof.
  assert (B : forall n, it_lo u8 <= n mod 256 <= it_hi u8).
  { intros n. pose proof (Z.mod_pos_bound n 256 ltac:(lia)). change (it_lo u8) with 0. change (it_hi u8) with 255. lia. }
  split; [intros []; split; try reflexivity; right; auto|].
  split; (split; [vm_compute; split; discriminate|intros i j _; apply B]).
Qed.

Lemma ex_bounds : valid_bounds u8 ex_mp.
Proof. vm_compute. repeat split; discriminate. Qed.

Lemma ex_no_overflow : forall o D i j, is_round_up (ml_rows (m_layout ex_r)) (kl_rows (lhs ex_kl)) D -> in_matrix (m_layout (ex_dst o)) i j ->
  4 * D * max_abs (lhs (mk_sp s8 s8)) * max_abs (rhs (mk_sp s8 s8)) + Z.abs (bias_at ex_mp i j) <= int_max.
Proof.
  intros o D i j HD [I J]. apply is_round_up_eq in HD; [|zdec]. subst D.
  change (4 * round_up (ml_rows (m_layout ex_r)) (kl_rows (lhs ex_kl)) * max_abs (lhs (mk_sp s8 s8)) * max_abs (rhs (mk_sp s8 s8))) with 524288.
  change (bias_at ex_mp i j) with (1000 * i - 2000). change (ml_rows (m_layout (ex_dst o))) with 9 in I. unfold int_max. lia.
Qed.

(** A rounded quotient always exists. *)
Definition rounded n d := (2 * n + d) / (2 * d).
Lemma rounded_nearest : forall n d, 0 < d -> nearest_ties_up n d (rounded n d).
Proof.
  intros n d Hd. unfold nearest_ties_up, rounded. pose proof (Z.div_mod (2 * n + d) (2 * d) ltac:(lia)).
  pose proof (Z.mod_pos_bound (2 * n + d) (2 * d) ltac:(lia)). lia.
Qed.

Definition i32b z := (int_min <=? z) && (z <=? int_max).
Lemma i32b_ok : forall z, i32b z = true -> is_i32 z.
Proof. intros z. unfold i32b, is_i32. lia. Qed.

Definition representableb (mp : mul_params Z) (dzp i j acc : Z) : bool :=
  let s := rounded (acc * multiplier_at mp i j) (2 ^ (31 - exponent_at mp i j)) in
  i32b acc && i32b (multiplier_at mp i j) && (-31 <=? exponent_at mp i j) && (exponent_at mp i j <=? 30) && i32b s && i32b (s + dzp).
Lemma representableb_ok : forall mp dzp i j acc, representableb mp dzp i j acc = true -> representable u8 mp dzp i j acc.
Proof.
  intros mp dzp i j acc H. unfold representableb in H. cbv zeta in H. rewrite !Bool.andb_true_iff in H.
  destruct H as (((((A & B) & C) & D) & E) & F). split; [apply i32b_ok; exact A|]. split.
  - intros _. split; [apply i32b_ok; exact B|]. lia.
  - eexists. split; [unfold scaled_to; cbn [ity_eqb u8 s32]; apply rounded_nearest; apply Z.pow_pos_nonneg; lia|].
    split; apply i32b_ok; assumption.
Qed.

Lemma all_cells : forall (P : Z -> Z -> bool) rows cols, forallb (fun i => forallb (P i) (zrange 0 cols)) (zrange 0 rows) = true ->
  forall i j, 0 <= i < rows -> 0 <= j < cols -> P i j = true.
Proof.
  intros P rows cols H i j Hi Hj. rewrite forallb_forall in H. specialize (H i). rewrite zrange_In in H. specialize (H Hi).
  rewrite forallb_forall in H. apply H. apply zrange_In. exact Hj.
Qed.

Lemma ex_representable : forall o i j, in_matrix (m_layout (ex_dst o)) i j ->
  representable u8 ex_mp (m_zp (ex_dst o)) i j (SpecMul.exact_acc ex_l ex_r ex_mp i j).
Proof.
  intros o i j [I J]. apply representableb_ok. change (m_zp (ex_dst o)) with 120.
  apply (all_cells (fun i j => representableb ex_mp 120 i j (SpecMul.exact_acc ex_l ex_r ex_mp i j)) 9 10); [vm_compute; reflexivity|exact I|exact J].
Qed.

(** The operands stored in the other order. *)
Definition ex_l' := ex_mat 9 5 9 ColMajor 3 (fun x => ((x mod 9 * 6 + x / 9) * 37 + 11) mod 256).
Definition ex_r' := ex_mat 5 10 12 RowMajor 200 (fun x => ((x mod 12 * 5 + x / 12) * 91 + 5) mod 256).
Lemma ex_same : same_entries ex_l ex_l' /\ same_entries ex_r ex_r'.
Proof.
  split; (split; [reflexivity|]; split; [reflexivity|]; split; [reflexivity|]); intros i j [I J]; apply Z.eqb_eq.
  - apply (all_cells (fun i j => entry ex_l i j =? entry ex_l' i j) 9 5); [vm_compute; reflexivity|exact I|exact J].
  - apply (all_cells (fun i j => entry ex_r i j =? entry ex_r' i j) 5 10); [vm_compute; reflexivity|exact I|exact J].
Qed.

Definition content {V} (m : mat V) := map (bdat (m_data m)) (zrange 0 (blen (m_data m))).

(** A product of single-precision matrices 2x3 and 3x2 with bias. *)
Definition f32 (x : Z) : spec_float := f_of_Z 24 128 x.
Definition ex_fl := ex_mat 2 3 3 RowMajor 0 (fun x => f32 ((x - 2) * 5000011)).
Definition ex_fr := ex_mat 3 2 2 RowMajor 0 (fun x => f32 (7 - 3 * x)).
Definition ex_fdst o := ex_mat 2 2 2 o 0 (fun _ => S754_nan).
Definition ex_fmp : mul_params spec_float := {|
  mp_bias := Some {| blen := 2; bdat := fun x => f32 (x + 1) |};
  mp_mult_pc := None; mp_mult := 0; mp_exp_pc := None; mp_exp := 0;
  mp_min := S754_infinity true; mp_max := S754_infinity false; mp_chan := ChCol; mp_perchannel := false; mp_rounding_log2 := 0 |}.

Lemma ex_fvalid : forall o n, good_threads n -> valid_call (ex_config n) f32_ops ex_kl ex_fl ex_fr (ex_fdst o) ex_fmp.
Proof.
  intros o n Hn. unfold good_threads in Hn. constructor.
  - constructor.
    + split; [|split]; [..|reflexivity]; (split; [apply pow2_of; reflexivity|]; split; [apply pow2_of; reflexivity|zdec]).
    + split; [|split]; unfold valid_matrix, valid_layout, inner_size, outer_size; try destruct o; zdec.
    + destruct o; zdec.
    + intros k m s Hk Hm. assert (k = lhs ex_kl) as -> by (destruct Hk; assumption).
      assert (0 <= m <= 10) by (destruct Hm as [-> | ->]; destruct o; zdec). split; zdec.
    + intros []; vm_compute; repeat split; discriminate.
    + split; [zdec|]. split; [destruct o; zdec|]. intros cap Hc.
      split; [|split; intros x E; discriminate E].
      apply channel_array_exact; [|exact Hc]. intros x E. apply (f_equal (option_map blen)) in E.
      change (Some 2 = Some (blen x)) in E. change (blen x = 2). congruence.
    + reflexivity.
  - destruct o; zdec.
  - cbn. unfold int_max. lia.
  - intros R C t HR HC Ht. apply is_round_up_eq in HR; [|destruct o; zdec]. apply is_round_up_eq in HC; [|destruct o; zdec].
    subst R C. cbn [ex_config c_max_threads] in Ht.
    destruct o; cbn; (constructor; try (exists 2); unfold local_cache_size, int_max; try lia; try reflexivity; vm_compute; repeat split; discriminate).
Qed.

(** * Witnesses *)

(** uint8, all entries equal to the zero point 255: the exact result is 0, but the products
    of the entries sum up to 33026 * 255 * 255 > int_max. *)
Definition of_l := ex_mat 1 33026 33026 RowMajor 255 (fun _ => 255).
Definition of_r := ex_mat 33026 1 33026 ColMajor 255 (fun _ => 255).
Definition of_dst := ex_mat 1 1 1 ColMajor 0 (fun _ => 9).
Definition of_mp : mul_params Z := {|
  mp_bias := None; mp_mult_pc := None; mp_mult := 0; mp_exp_pc := None; mp_exp := 0;
  mp_min := - 2 ^ 31; mp_max := int_max; mp_chan := ChRow; mp_perchannel := false; mp_rounding_log2 := 0 |}.
Definition of_ops ar := int_ops ar true (mk_sp u8 u8) (mk_sp u8 u8) s32.
Definition of_kl := standard_cpp_kernel_layout StandardCpp.

Lemma of_valid : forall ar, valid_call (ex_config 1) (of_ops ar) of_kl of_l of_r of_dst of_mp.
Proof.
  intros ar. constructor.
  - constructor.
    + split; [|split]; [..|reflexivity]; (split; [apply pow2_of; reflexivity|]; split; [apply pow2_of; reflexivity|zdec]).
    + split; [|split]; unfold valid_matrix, valid_layout, inner_size, outer_size; zdec.
    + zdec.
    + intros k m s Hk Hm. assert (k = lhs of_kl) as -> by (destruct Hk; assumption).
      assert (m = 1) by (destruct Hm as [-> | ->]; zdec). split; zdec.
    + intros []; vm_compute; repeat split; discriminate.
    + split; [zdec|]. split; [zdec|]. intros cap Hc. split; [|split]; intros x E; discriminate E.
    + reflexivity.
  - zdec.
  - zdec.
  - intros R C t HR HC Ht. apply is_round_up_eq in HR; [|zdec]. apply is_round_up_eq in HC; [|zdec].
    subst R C. cbn [ex_config c_max_threads] in Ht.
    cbn; (constructor; try (exists 0); unfold local_cache_size, int_max; try lia; try reflexivity; vm_compute; repeat split; discriminate).
Qed.

Lemma accumulation_overflow : exists c dbg st pt dt kl l r dst mp,
  let o := int_ops checked dbg st pt dt in
  valid_call c o kl l r dst mp /\ integer_operands st pt l r /\ valid_bounds dt mp /\
  (forall i j, in_matrix (m_layout dst) i j -> representable dt mp (m_zp dst) i j (SpecMul.exact_acc l r mp i j)) /\
  (exists ref, reference_mul o l r mp dst = Ok ref) /\
  forall g sched x, mul c o kl g sched l r dst mp <> Ok (Some x).
Proof.
  exists (ex_config 1), true, (mk_sp u8 u8), (mk_sp u8 u8), s32, of_kl, of_l, of_r, of_dst, of_mp. cbv zeta.
  pose proof (of_valid checked) as HV. unfold of_ops in HV. split; [exact HV|].
  split. { split; [intros []; split; try reflexivity; left; reflexivity|]. split; (split; [vm_compute; split; discriminate|intros; vm_compute; split; discriminate]). }
  split. { vm_compute. repeat split; discriminate. }
  split. { intros i j [I J]. change (ml_rows (m_layout of_dst)) with 1 in I. change (ml_cols (m_layout of_dst)) with 1 in J.
    replace i with 0 by lia. replace j with 0 by lia.
    assert (E : SpecMul.exact_acc of_l of_r of_mp 0 0 = 0) by (vm_compute; reflexivity). rewrite E.
    split; [vm_compute; split; discriminate|]. split; [discriminate|]. exists 0. vm_compute. repeat split; discriminate. }
  split. { eexists. vm_compute. reflexivity. }
  intros g sched x E.
  destruct (mul_partial _ _ _ of_kl g of_l of_r of_dst of_mp (valid_call_ok _ _ _ _ _ _ _ _ HV) (valid_call_domain _ _ _ _ _ _ _ _ HV) _ _ E)
    as [[_ DEF] _].
  destruct (DEF 0 0) as (v & Ev). { vm_compute. repeat split; discriminate. }
  assert (B : mul_entry (int_ops checked true (mk_sp u8 u8) (mk_sp u8 u8) s32) 1 of_l of_r of_mp ColMajor 0 0 0 = UB) by (vm_compute; reflexivity).
  change (kl_rows (lhs of_kl)) with 1 in Ev. change (ml_order (m_layout of_dst)) with ColMajor in Ev. change (m_zp of_dst) with 0 in Ev.
  rewrite B in Ev. discriminate Ev.
Qed.

(** A product of depth 0: the reference stores the bias. *)
Definition em_l := ex_mat 3 0 3 ColMajor 5 (fun _ => 0).
Definition em_r := ex_mat 0 4 1 ColMajor 6 (fun _ => 0).
Definition em_dst := ex_mat 3 4 3 ColMajor 0 (fun _ => 9).
Definition em_mp : mul_params Z := {|
  mp_bias := Some {| blen := 3; bdat := fun x => 10 * x |}; mp_mult_pc := None; mp_mult := 0; mp_exp_pc := None; mp_exp := 0;
  mp_min := - 2 ^ 31; mp_max := int_max; mp_chan := ChRow; mp_perchannel := false; mp_rounding_log2 := 0 |}.

Lemma em_well_formed : well_formed_call true (of_ops checked) ex_kl em_l em_r em_dst em_mp.
Proof.
  constructor.
  - split; [|split]; [..|reflexivity]; (split; [apply pow2_of; reflexivity|]; split; [apply pow2_of; reflexivity|zdec]).
  - split; [|split]; unfold valid_matrix, valid_layout, inner_size, outer_size; zdec.
  - zdec.
  - intros k m s Hk Hm. assert (k = lhs ex_kl) as -> by (destruct Hk; assumption).
    assert (0 <= m <= 4) by (destruct Hm as [-> | ->]; zdec). split; zdec.
  - intros []; vm_compute; repeat split; discriminate.
  - split; [zdec|]. split; [zdec|]. intros cap Hc. split; [|split; intros x E; discriminate E].
    apply channel_array_exact; [|exact Hc]. intros x E. apply (f_equal (option_map blen)) in E.
    change (Some 3 = Some (blen x)) in E. change (blen x = 3). congruence.
  - reflexivity.
Qed.

Lemma empty_product_differs : exists c o kl (l r dst ref : mat Z) mp,
  well_formed_call (c_dbg c) o kl l r dst mp /\ 1 <= c_max_threads c /\
  reference_mul o l r mp dst = Ok ref /\ (exists i j, in_matrix (m_layout dst) i j /\ entry ref i j <> entry dst i j) /\
  forall g sched, mul c o kl g sched l r dst mp = Abort.
Proof.
  assert (R : exists ref, reference_mul (of_ops checked) em_l em_r em_mp em_dst = Ok ref /\ m_layout ref = m_layout em_dst /\ entry ref 2 3 = 20).
  { eexists. split; [vm_compute; reflexivity|]. split; [vm_compute; reflexivity|]. vm_compute. reflexivity. }
  destruct R as (ref & R & L & E).
  exists (ex_config 1), (of_ops checked), ex_kl, em_l, em_r, em_dst, ref, em_mp. split; [exact em_well_formed|]. split; [zdec|].
  split; [exact R|]. split.
  - exists 2, 3. split; [vm_compute; repeat split; discriminate|]. rewrite E. vm_compute. discriminate.
  - intros g sched. apply empty_product_aborts; [exact em_well_formed|]. right. right. reflexivity.
Qed.
