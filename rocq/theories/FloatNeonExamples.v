(** Concrete multiplications of floats on the AArch64 paths. *)
From Coq Require Import ZArith List Bool Lia SpecFloat.
From Verif Require Import Base SidePair SpecArith SizeUtil SizeUtilFacts SpecMatrix SpecPack BlockMap SpecBlockMap ThreadCount
  Mat MatFacts Scalars Pack PackFacts MulParams Kernel FloatOps TrMul TrMulMachine SpecMachine TrMulRun SpecRound SpecMul
  TrMulFacts FrontEndFacts EntryFacts MulFacts MulProps ExampleMul FloatExact X86Mul FloatX86Mul SpecFloatX86 FloatX86Examples SpecFloatExact FloatExactExamples SpecFloatError FloatError FloatErrorExamples FloatNeonError Neon64 NeonPack Tune SpecFloatNeon FloatNeonMul.
Import ListNotations.
Open Scope Z_scope.

(** 11x9 by 9x10. *)
Definition nx_l := fx_mat 11 9.
Definition nx_r := fx_mat 9 10.
Definition nx_dst (o : order) := fx_mat 11 10 o (fun _ _ => S754_nan).
(** A bias for each row. *)
Definition nx_mp (bias : option (Z -> spec_float)) (lo hi : spec_float) : mul_params spec_float := {|
  mp_bias := match bias with Some f => Some {| blen := 11; bdat := f |} | None => None end;
  mp_mult_pc := None; mp_mult := 0; mp_exp_pc := None; mp_exp := 0;
  mp_min := lo; mp_max := hi; mp_chan := ChRow; mp_perchannel := false; mp_rounding_log2 := 0 |}.

Lemma nx_call : forall ol or od fl fr bias lo hi n, good_threads n -> valid_call (ex_config n) f32_ops neon_blocks (nx_l ol fl) (nx_r or fr) (nx_dst od) (nx_mp bias lo hi).
Proof.
  intros ol or od fl fr bias lo hi n Hn. unfold good_threads in Hn. constructor.
  - constructor.
    + split; [|split]; [..|reflexivity]; (split; [apply pow2_of; reflexivity|]; split; [apply pow2_of; reflexivity|zdec]).
    + split; [|split]; unfold valid_matrix, valid_layout, inner_size, outer_size; [destruct ol|destruct or|destruct od]; zdec.
    + zdec.
    + intros k m s Hk Hm. assert (k = lhs neon_blocks) as -> by (destruct Hk; assumption).
      assert (0 <= m <= 11) by (destruct Hm as [-> | ->]; zdec). split; zdec.
    + intros []; vm_compute; repeat split; discriminate.
    + split; [zdec|]. split; [zdec|]. intros cap Hc.
      assert (forall {A} (z : A -> bool) b, (forall x, b = Some x -> blen x = 11) -> channel_array z b (channel_count (nx_mp bias lo hi) (m_layout (nx_dst od))) cap) as CA.
      { intros A z b Hb. apply channel_array_exact; [exact Hb|exact Hc]. }
      split; [|split]; apply CA; intros x E; apply (f_equal (option_map blen)) in E; cbn in E; destruct bias; cbn in E; congruence.
    + reflexivity.
  - zdec.
  - cbn. unfold int_max. lia.
  - intros R C t HR HC Ht. apply is_round_up_eq in HR; [|destruct od; zdec]. apply is_round_up_eq in HC; [|destruct od; zdec].
    subst R C. cbn [ex_config c_max_threads] in Ht.
    destruct od; cbn; (constructor; try (first [exists 3; split; [lia | reflexivity] | exists 4; split; [lia | reflexivity]]); unfold local_cache_size, int_max; try lia; try reflexivity; vm_compute; repeat split; discriminate).
Qed.

Definition floats (f : Z -> Z -> spec_float) : Prop := forall i j, is_float (f i j).
Lemma fx_floats : forall rows cols o f, floats f -> all_floats (m_data (fx_mat rows cols o f)).
Proof. intros rows cols o f H i. destruct o; apply H. Qed.
Lemma f32_float : forall z, Z.abs z <= 2 ^ 24 -> is_float (f32 z).
Proof. intros z H. apply (scaled_number z 0 H). lia. Qed.

Lemma nx_valid : forall ol or od fl fr bias lo hi n g, good_threads n -> floats fl -> floats fr -> (forall b i, bias = Some b -> is_float (b i)) -> is_float lo -> is_float hi ->
  is_float g -> neon_mul (ex_config n) (ex_garbage g) (nx_l ol fl) (nx_r or fr) (nx_dst od) (nx_mp bias lo hi).
Proof.
  intros ol or od fl fr bias lo hi n g Hn Hl Hr Hb H1 H2 Hg. constructor.
  - apply nx_call. exact Hn.
  - vm_compute. discriminate.
  - intros _. vm_compute. discriminate.
  - intros _. vm_compute. discriminate.
  - apply fx_floats. exact Hl.
  - apply fx_floats. exact Hr.
  - apply fx_floats. intros i j. reflexivity.
  - intros b E i. destruct bias as [f|]; [|discriminate]. injection E as <-. apply (Hb f i eq_refl).
  - split; assumption.
  - intros i. split; [exact Hg|intros s; exact Hg].
Qed.

(** All calls with the same tuning, registers that held pointers, and what else. *)
Definition nx_left (k : Z) : leftover := {| lo_xs := fun q => Ptr (Z.to_nat k) (Z.of_nat q); lo_vs := fun q => repeat (Z.of_nat q) 16; lo_fl := {| f_eq := false; f_lt := None |}; lo_upper := fun q => 77 + k |}.
Definition nx_ci (t : tuning) : circumstances := {| ci_pack_tuning := fun _ _ => t; ci_pack_regs := fun _ a b => nx_left (a + b); ci_tuning := fun _ _ => t;
  ci_regs := fun a b => nx_left (a - b); ci_tmp := fun _ _ i => i mod 256 |}.
Definition nx_run (dotprod : bool) (t : tuning) (ol or od : order) (fl fr : Z -> Z -> spec_float) (mp : mul_params spec_float) : mat spec_float :=
  match mul_float_neon (ex_config 1) dotprod (nx_ci t) (ex_garbage S754_nan) one_thread (nx_l ol fl) (nx_r or fr) (nx_dst od) mp with Ok (Some x) => x | _ => nx_dst od end.
(** Blocks with their first row below 8 on the one kind of processor, the others on the other. *)
Definition nx_ci2 : circumstances := {| ci_pack_tuning := fun s a => if a <? 8 then TGeneric else TA55ish; ci_pack_regs := fun _ a b => nx_left (a + b);
  ci_tuning := fun a b => if a <? 8 then TGeneric else TA55ish; ci_regs := fun a b => nx_left (a - b); ci_tmp := fun _ _ i => i mod 256 |}.

(** Quarters times eighths, biases in 1/32. *)
Definition px_a (i k : Z) : Z := (37 * i + 91 * k) mod 512 - 256.
Definition px_b (k j : Z) : Z := (53 * k - 29 * j) mod 512 - 256.
Definition px_c (i j : Z) : Z := (1234 * i) mod 4096.
Definition px_l (o : order) := nx_l o (fun i k => scaled_float (px_a i k) (-2)).
Definition px_r (o : order) := nx_r o (fun k j => scaled_float (px_b k j) (-3)).
Definition px_mp := nx_mp (Some (fun i => scaled_float (px_c i 0) (-5))).
Lemma px_a_range : forall i k, -256 <= px_a i k < 256.
Proof. intros i k. unfold px_a. pose proof (Z.mod_pos_bound (37 * i + 91 * k) 512 ltac:(lia)). lia. Qed.
Lemma px_b_range : forall i k, -256 <= px_b i k < 256.
Proof. intros i k. unfold px_b. pose proof (Z.mod_pos_bound (53 * i - 29 * k) 512 ltac:(lia)). lia. Qed.
Lemma px_c_range : forall i j, 0 <= px_c i j < 4096.
Proof. intros i j. unfold px_c. apply Z.mod_pos_bound. lia. Qed.
Lemma px_valid : forall ol or od lo hi n g, good_threads n -> is_float lo -> is_float hi -> is_float g ->
  neon_mul (ex_config n) (ex_garbage g) (px_l ol) (px_r or) (nx_dst od) (px_mp lo hi).
Proof.
  intros ol or od lo hi n g Hn H1 H2 Hg. apply nx_valid; try assumption.
  - intros i k. pose proof (px_a_range i k). apply scaled_number; lia.
  - intros i k. pose proof (px_b_range i k). apply scaled_number; lia.
  - intros b i E. injection E as <-. pose proof (px_c_range i 0). apply scaled_number; lia.
Qed.
Lemma px_scaled : forall ol or od lo hi, scaled_integers (px_l ol) (px_r or) (nx_dst od) (px_mp lo hi) px_a px_b px_c (-2) (-3).
Proof.
  intros ol or od lo hi. constructor.
  - intros i k (Hi & Hk). cbn in Hi, Hk. unfold px_l, nx_l. rewrite fx_entry by lia. pose proof (px_a_range i k). apply scaled_number; lia.
  - intros k j (Hk & Hj). cbn in Hk, Hj. unfold px_r, nx_r. rewrite fx_entry by lia. pose proof (px_b_range k j). apply scaled_number; lia.
  - intros i j (Hi & Hj). cbn in Hi, Hj. pose proof (px_c_range i 0). apply (scaled_number (px_c i 0) (-5)); lia.
  - lia.
Qed.
Lemma px_small : forall ol or od, small_sums (px_l ol) (px_r or) (nx_dst od) px_a px_b px_c.
Proof.
  intros ol or od i j (Hi & Hj). cbn in Hi, Hj.
  assert (A : forallb (fun i => forallb (fun j => sum_of (fun k => Z.abs (px_a i k * px_b k j)) 9 + Z.abs (px_c i j) <=? 2 ^ 24) (zrange 0 10)) (zrange 0 11) = true) by (vm_compute; reflexivity).
  rewrite forallb_forall in A. specialize (A i ltac:(apply zrange_In; lia)). cbv beta in A. rewrite forallb_forall in A. specialize (A j ltac:(apply zrange_In; lia)). cbv beta in A.
  change (ml_rows (m_layout (px_r or))) with 9. lia.
Qed.

(** Operands of 24 bits. *)
Definition rx_a (i k : Z) : Z := (16777215 - 1000 * i - 777 * k) mod 2 ^ 24.
Definition rx_b (k j : Z) : Z := if Z.even k then (16000001 + 30 * k - 41 * j) mod 2 ^ 24 else - ((15987654 + 17 * k) mod 2 ^ 24).
Definition rx_c (i j : Z) : Z := (12345677 + i) mod 2 ^ 24.
Definition rx_l (o : order) := nx_l o (fun i k => scaled_float (rx_a i k) (-12)).
Definition rx_r (o : order) := nx_r o (fun k j => scaled_float (rx_b k j) (-13)).
Definition rx_mp := nx_mp (Some (fun i => scaled_float (rx_c i 0) (-3))).
Definition rx_au (i k : Z) : Z := rx_a i k * 2 ^ 137.
Definition rx_bu (k j : Z) : Z := rx_b k j * 2 ^ 136.
Definition rx_cu (i j : Z) : Z := rx_c i j * 2 ^ 146.
Lemma rx_a_range : forall i k, Z.abs (rx_a i k) <= 2 ^ 24.
Proof. intros i k. unfold rx_a. pose proof (Z.mod_pos_bound (16777215 - 1000 * i - 777 * k) (2 ^ 24) ltac:(lia)). lia. Qed.
Lemma rx_b_range : forall k j, Z.abs (rx_b k j) <= 2 ^ 24.
Proof.
  intros k j. unfold rx_b. pose proof (Z.mod_pos_bound (16000001 + 30 * k - 41 * j) (2 ^ 24) ltac:(lia)). pose proof (Z.mod_pos_bound (15987654 + 17 * k) (2 ^ 24) ltac:(lia)).
  destruct (Z.even k); lia.
Qed.
Lemma rx_c_range : forall i j, Z.abs (rx_c i j) <= 2 ^ 24.
Proof. intros i j. unfold rx_c. pose proof (Z.mod_pos_bound (12345677 + i) (2 ^ 24) ltac:(lia)). lia. Qed.
Lemma rx_valid : forall ol or od lo hi n g, good_threads n -> is_float lo -> is_float hi -> is_float g ->
  neon_mul (ex_config n) (ex_garbage g) (rx_l ol) (rx_r or) (nx_dst od) (rx_mp lo hi).
Proof.
  intros ol or od lo hi n g Hn H1 H2 Hg. apply nx_valid; try assumption.
  - intros i k. apply scaled_number; [apply rx_a_range|lia].
  - intros i k. apply scaled_number; [apply rx_b_range|lia].
  - intros b i E. injection E as <-. apply scaled_number; [apply rx_c_range|lia].
Qed.
Lemma rx_finite : forall ol or od lo hi, finite_values (rx_l ol) (rx_r or) (nx_dst od) (rx_mp lo hi) rx_au rx_bu rx_cu.
Proof.
  intros ol or od lo hi. constructor.
  - intros i k (Hi & Hk). cbn in Hi, Hk. unfold rx_l, nx_l. rewrite fx_entry by lia. apply (scaled_units (rx_a i k) (-12)); [apply rx_a_range|lia].
  - intros k j (Hk & Hj). cbn in Hk, Hj. unfold rx_r, nx_r. rewrite fx_entry by lia. apply (scaled_units (rx_b k j) (-13)); [apply rx_b_range|lia].
  - intros i j (Hi & Hj). cbn in Hi, Hj. apply (scaled_units (rx_c i 0) (-3)); [apply rx_c_range|lia].
Qed.
Lemma rx_range : forall or od i j, in_matrix (m_layout (nx_dst od)) i j ->
  no_overflow (ml_rows (m_layout (rx_r or)) + 1) (magnitude (rx_r or) rx_au rx_bu rx_cu i j) /\ magnitude (rx_r or) rx_au rx_bu rx_cu i j < 2 ^ 425.
Proof.
  intros or od i j (Hi & Hj). cbn in Hi, Hj.
  assert (A : forallb (fun i => forallb (fun j => (magnitude (rx_r or) rx_au rx_bu rx_cu i j <? 2 ^ 425) && (0 <=? magnitude (rx_r or) rx_au rx_bu rx_cu i j)) (zrange 0 10)) (zrange 0 11) = true) by (destruct or; vm_compute; reflexivity).
  rewrite forallb_forall in A. specialize (A i ltac:(apply zrange_In; lia)). cbv beta in A. rewrite forallb_forall in A. specialize (A j ltac:(apply zrange_In; lia)). cbv beta in A.
  apply andb_true_iff in A. destruct A as (A & A'). apply Z.ltb_lt in A. apply Z.leb_le in A'. split; [|exact A].
  apply no_overflow_simple; [change (ml_rows (m_layout (rx_r or))) with 9; lia|lia].
Qed.
