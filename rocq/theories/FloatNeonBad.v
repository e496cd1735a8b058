(** What does not hold of multiplications of floats on the AArch64 paths. *)
From Coq Require Import ZArith List Bool Lia SpecFloat.
From Verif Require Import Base SidePair SpecArith SizeUtil SizeUtilFacts SpecMatrix SpecPack BlockMap SpecBlockMap
  Mat MatFacts Scalars MulParams Kernel FloatOps TrMul TrMulRun SpecRound SpecMul PackProps TrMulFacts FrontEndFacts MulFacts MulProps ExampleMul X86Mul FloatX86Mul SpecFloatX86 FloatX86Examples
  Tune SpecFloatNeon FloatNeonMul FloatNeonMore FloatNeonExamples.
Import ListNotations.
Open Scope Z_scope.

(** 2^24 + 1 - 2^24, at depths 4, 5, 6: the unrolled kernel adds the product of depth 4 after that of depth 7. *)
Definition order_l (i k : Z) : spec_float := if k =? 4 then f32 (2 ^ 12) else if k =? 5 then f32 1 else if k =? 6 then f32 (- 2 ^ 12) else f32 0.
Definition order_r (k j : Z) : spec_float := if k =? 5 then f32 1 else f32 (2 ^ 12).
Lemma order_floats : floats order_l /\ floats order_r.
Proof.
  split; intros i k; [unfold order_l; destruct (k =? 4), (k =? 5), (k =? 6)|unfold order_r; destruct (i =? 5)]; reflexivity.
Qed.
Lemma order_valid : neon_mul (ex_config 1) (ex_garbage S754_nan) (nx_l RowMajor order_l) (nx_r ColMajor order_r) (nx_dst ColMajor) (nx_mp None minus_inf inf).
Proof. destruct order_floats. apply nx_valid; try assumption; try reflexivity; [unfold good_threads; lia|discriminate]. Qed.
(** Two cells of the result, if there is one. *)
Definition cells (o : res (option (mat spec_float))) (p q : Z) : option (spec_float * spec_float) :=
  match o with Ok (Some x) => Some (bdat (m_data x) p, bdat (m_data x) q) | _ => None end.
Lemma cells_run : forall o p q u v, cells o p q = Some (u, v) -> exists x, o = Ok (Some x) /\ bdat (m_data x) p = u /\ bdat (m_data x) q = v.
Proof. intros [[x|]| |] p q u v E; try discriminate. injection E as <- <-. exists x. auto. Qed.

Lemma order_run : forall t, exists x, mul_float_neon (ex_config 1) false (nx_ci t) (ex_garbage S754_nan) one_thread (nx_l RowMajor order_l) (nx_r ColMajor order_r) (nx_dst ColMajor) (nx_mp None minus_inf inf) = Ok (Some x) /\
  entry x 0 0 = f32 0 /\ entry x 4 0 = if unrolled t then f32 1 else f32 0.
Proof.
  intros t. pose proof (fun x => neon_completed _ false (nx_ci t) _ _ _ _ _ order_valid one_thread x) as NC. cbv beta in NC. set (o := mul_float_neon _ _ _ _ _ _ _ _ _) in *.
  assert (E : cells o 0 4 = Some (f32 0, if unrolled t then f32 1 else f32 0)) by (unfold o; destruct t; vm_compute; reflexivity). clearbody o.
  apply cells_run in E. destruct E as (x & E & X0 & X4). exists x. split; [exact E|].
  assert (L : m_layout x = m_layout (nx_dst ColMajor)).
  { destruct (NC x E) as (L & _). exact L. }
  unfold entry. rewrite L. split; [exact X0|exact X4].
Qed.

(** The processor on which a block is computed matters. *)
Lemma tuning_matters : exists c l r dst mp g, neon_mul c g l r dst mp /\ exists dotprod ci ci' sched x y,
  mul_float_neon c dotprod ci g sched l r dst mp = Ok (Some x) /\ mul_float_neon c dotprod ci' g sched l r dst mp = Ok (Some y) /\
  in_matrix (m_layout dst) 4 0 /\ entry x 4 0 = f_of_Z 24 128 1 /\ entry y 4 0 = f_of_Z 24 128 0.
Proof.
  exists (ex_config 1), (nx_l RowMajor order_l), (nx_r ColMajor order_r), (nx_dst ColMajor), (nx_mp None minus_inf inf), (ex_garbage S754_nan). split; [exact order_valid|].
  destruct (order_run TGeneric) as (x & Ex & _ & X). destruct (order_run TA55ish) as (y & Ey & _ & Y).
  exists false, (nx_ci TGeneric), (nx_ci TA55ish), one_thread, x, y. split; [exact Ex|]. split; [exact Ey|]. split; [split; cbn; lia|]. split; [exact X|exact Y].
Qed.

(** So does the place of a row within the destination. *)
Lemma place_matters : exists c l r dst mp g, neon_mul c g l r dst mp /\ mp_bias mp = None /\ (forall k, 0 <= k < ml_rows (m_layout r) -> entry l 0 k = entry l 4 k) /\
  exists dotprod ci sched x, (forall a b, ci_tuning ci a b = TGeneric) /\ mul_float_neon c dotprod ci g sched l r dst mp = Ok (Some x) /\
  in_matrix (m_layout dst) 0 0 /\ in_matrix (m_layout dst) 4 0 /\ entry x 0 0 = f_of_Z 24 128 0 /\ entry x 4 0 = f_of_Z 24 128 1.
Proof.
  exists (ex_config 1), (nx_l RowMajor order_l), (nx_r ColMajor order_r), (nx_dst ColMajor), (nx_mp None minus_inf inf), (ex_garbage S754_nan). split; [exact order_valid|].
  split; [reflexivity|]. split; [intros k Hk; cbn in Hk; unfold nx_l; rewrite !fx_entry by lia; reflexivity|].
  destruct (order_run TGeneric) as (x & Ex & X0 & X). exists false, (nx_ci TGeneric), one_thread, x. split; [reflexivity|]. split; [exact Ex|].
  split; [split; cbn; lia|]. split; [split; cbn; lia|]. split; [exact X0|exact X].
Qed.

(** A row of stride 2^29: packing computes the offset of the fourth row, which does not exist. *)
Definition wide_mp : mul_params spec_float := {|
  mp_bias := None; mp_mult_pc := None; mp_mult := 0; mp_exp_pc := None; mp_exp := 0;
  mp_min := minus_inf; mp_max := inf; mp_chan := ChRow; mp_perchannel := false; mp_rounding_log2 := 0 |}.
Definition wide_l := ex_mat 1 1 (2 ^ 29) RowMajor 0 (fun _ : Z => f32 1).
Definition wide_r := ex_mat 1 1 1 ColMajor 0 (fun _ : Z => f32 2).
Definition wide_dst := ex_mat 1 1 1 ColMajor 0 (fun _ : Z => S754_nan).
Lemma wide_call : valid_call (ex_config 1) f32_ops neon_blocks wide_l wide_r wide_dst wide_mp.
Proof.
  constructor.
  - constructor.
    + split; [|split]; [..|reflexivity]; (split; [apply pow2_of; reflexivity|]; split; [apply pow2_of; reflexivity|zdec]).
    + split; [|split]; unfold valid_matrix, valid_layout, inner_size, outer_size; zdec.
    + zdec.
    + intros k m s Hk Hm. assert (k = lhs neon_blocks) as -> by (destruct Hk; assumption).
      assert (0 <= m <= 2) by (destruct Hm as [-> | ->]; zdec). split; zdec.
    + intros []; vm_compute; repeat split; discriminate.
    + split; [zdec|]. split; [zdec|]. intros cap Hc. split; [|split]; intros x E; discriminate.
    + reflexivity.
  - zdec.
  - cbn. unfold int_max. lia.
  - intros R C t HR HC Ht. apply is_round_up_eq in HR; [|zdec]. apply is_round_up_eq in HC; [|zdec].
    subst R C. cbn [ex_config c_max_threads] in Ht.
    cbn; (constructor; try (first [exists 3; split; [lia | reflexivity] | exists 4; split; [lia | reflexivity]]); unfold local_cache_size, int_max; try lia; try reflexivity; vm_compute; repeat split; discriminate).
Qed.
Lemma wide_stride : exists c l r dst mp g, valid_call c f32_ops neon_blocks l r dst mp /\ all_floats (m_data l) /\ all_floats (m_data r) /\ all_floats (m_data dst) /\
  4 * ml_stride (m_layout dst) <= int_max /\ last_offset (ml_stride (m_layout l)) (ml_rows (m_layout l)) = int_max + 1 /\ exists dotprod ci sched, mul_float_neon c dotprod ci g sched l r dst mp = UB.
Proof.
  exists (ex_config 1), wide_l, wide_r, wide_dst, wide_mp, (ex_garbage S754_nan). split; [exact wide_call|]. do 3 (split; [intros i; reflexivity|]).
  split; [vm_compute; discriminate|]. split; [reflexivity|]. exists false, (nx_ci TGeneric), one_thread. vm_compute. reflexivity.
Qed.
