(** What does not hold of multiplications of floats on the x86 paths. *)
From Coq Require Import ZArith List Bool Lia SpecFloat.
From Verif Require Import Base SidePair SpecArith SizeUtil SizeUtilFacts SpecMatrix SpecPack BlockMap SpecBlockMap
  Mat MatFacts Scalars MulParams Kernel FloatOps TrMul TrMulRun SpecRound SpecMul PackProps TrMulFacts FrontEndFacts MulFacts MulProps ExampleMul X86Mul FloatX86Mul SpecFloatX86 FloatX86Examples FloatMulProps.
Import ListNotations.
Open Scope Z_scope.

Lemma fx_same : forall rows cols o o' f, rows <= 23 -> cols <= 23 -> same_entries (fx_mat rows cols o f) (fx_mat rows cols o' f).
Proof. intros rows cols o o' f Hr Hc. split; [reflexivity|]. split; [reflexivity|]. split; [reflexivity|]. intros i j (Hi & Hj). cbn in Hi, Hj. rewrite !fx_entry by lia. reflexivity. Qed.

(** NaN is stored as the upper bound. *)
Lemma nan_lost : forall p, exists c l r dst mp, float_vector_mul c p l r dst mp /\ mp_bias mp = None /\ exists g sched x ref,
  mul_float_x86 c p g sched l r dst mp = Ok (Some x) /\ reference_mul f32_ops l r mp dst = Ok ref /\
  entry ref 0 0 = S754_nan /\ entry x 0 0 = S754_infinity false.
Proof.
  intros p. exists (ex_config 1), (fx_l RowMajor (fun _ _ => inf)), (fx_r ColMajor (fun _ _ => f32 0)), (fx_dst ColMajor), (fx_mp None minus_inf inf).
  split; [apply fx_vector; unfold good_threads; lia|]. split; [reflexivity|].
  exists (ex_garbage S754_nan), one_thread, (fx_run p RowMajor ColMajor ColMajor (fun _ _ => inf) (fun _ _ => f32 0) (fx_mp None minus_inf inf)),
    (fx_ref RowMajor ColMajor ColMajor (fun _ _ => inf) (fun _ _ => f32 0) (fx_mp None minus_inf inf)).
  unfold fx_run, fx_ref. destruct p; vm_compute; auto.
Qed.

(** One rounding instead of two: 4097 * 4097 - (2^24 + 2^13) is 1, or 0. *)
Definition fused_l (i k : Z) : spec_float := if k =? 0 then f32 (- (2 ^ 24 + 2 ^ 13)) else if k =? 1 then f32 4097 else f32 0.
Definition fused_r (k j : Z) : spec_float := if k =? 0 then f32 1 else f32 4097.
Lemma fused_differs : forall p, p <> PathAvx -> exists c l r dst mp, float_vector_mul c p l r dst mp /\ mp_bias mp = None /\ exists g sched x ref,
  mul_float_x86 c p g sched l r dst mp = Ok (Some x) /\ reference_mul f32_ops l r mp dst = Ok ref /\
  entry ref 0 0 = f_of_Z 24 128 0 /\ entry x 0 0 = f_of_Z 24 128 1.
Proof.
  intros p Hp. exists (ex_config 1), (fx_l RowMajor fused_l), (fx_r ColMajor fused_r), (fx_dst ColMajor), (fx_mp None minus_inf inf).
  split; [apply fx_vector; unfold good_threads; lia|]. split; [reflexivity|].
  exists (ex_garbage S754_nan), one_thread, (fx_run p RowMajor ColMajor ColMajor fused_l fused_r (fx_mp None minus_inf inf)), (fx_ref RowMajor ColMajor ColMajor fused_l fused_r (fx_mp None minus_inf inf)).
  unfold fx_run, fx_ref. destruct p; [congruence|vm_compute; auto..].
Qed.

(** The bias comes first instead of last: (1 + 2^24) - 2^24 is 0. *)
Definition bias_l (i k : Z) : spec_float := if k =? 0 then f32 (2 ^ 24) else if k =? 1 then f32 (- 2 ^ 24) else f32 0.
Lemma bias_differs : forall p, exists c l r dst mp, float_vector_mul c p l r dst mp /\ exists g sched x ref,
  mul_float_x86 c p g sched l r dst mp = Ok (Some x) /\ reference_mul f32_ops l r mp dst = Ok ref /\
  entry ref 0 0 = f_of_Z 24 128 1 /\ entry x 0 0 = f_of_Z 24 128 0.
Proof.
  intros p. exists (ex_config 1), (fx_l RowMajor bias_l), (fx_r ColMajor (fun _ _ => f32 1)), (fx_dst ColMajor), (fx_mp (Some (fun _ => f32 1)) minus_inf inf).
  split; [apply fx_vector; unfold good_threads; lia|].
  exists (ex_garbage S754_nan), one_thread, (fx_run p RowMajor ColMajor ColMajor bias_l (fun _ _ => f32 1) (fx_mp (Some (fun _ => f32 1)) minus_inf inf)),
    (fx_ref RowMajor ColMajor ColMajor bias_l (fun _ _ => f32 1) (fx_mp (Some (fun _ => f32 1)) minus_inf inf)).
  unfold fx_run, fx_ref. destruct p; vm_compute; auto.
Qed.

(** kAvx: the sign of a zero depends on how an operand is stored. *)
Lemma avx_storage_matters : exists c l l' r dst mp, float_vector_mul c PathAvx l r dst mp /\ float_vector_mul c PathAvx l' r dst mp /\ same_entries l l' /\
  exists g sched x y, mul_float_x86 c PathAvx g sched l r dst mp = Ok (Some x) /\ mul_float_x86 c PathAvx g sched l' r dst mp = Ok (Some y) /\
  entry x 0 0 = S754_zero true /\ entry y 0 0 = S754_zero false.
Proof.
  set (z := fun _ _ : Z => S754_zero true). set (one := fun _ _ : Z => f32 1). set (mp := fx_mp (Some (fun _ => S754_zero true)) minus_inf inf).
  exists (ex_config 1), (fx_l RowMajor z), (fx_l ColMajor z), (fx_r ColMajor one), (fx_dst ColMajor), mp.
  split; [apply fx_vector; unfold good_threads; lia|]. split; [apply fx_vector; unfold good_threads; lia|]. split; [apply fx_same; lia|].
  exists (ex_garbage S754_nan), one_thread, (fx_run PathAvx RowMajor ColMajor ColMajor z one mp), (fx_run PathAvx ColMajor ColMajor ColMajor z one mp).
  unfold fx_run. vm_compute. auto.
Qed.

(** A stride of 2^31 bytes is negative. *)
Definition wide_dst : mat spec_float := ex_mat 2 2 (2 ^ 29) ColMajor 0 (fun _ => S754_nan).
Definition wide_l := ex_mat 2 3 3 RowMajor 0 (fun x => f32 x).
Definition wide_r := ex_mat 3 2 3 ColMajor 0 (fun x => f32 x).
Lemma stride_wraps : forall p, exists c l r dst mp, valid_call c f32_ops (float_blocks p) l r dst mp /\
  (exists g sched, mul_float_x86 c p g sched l r dst mp = UB) /\
  forall g sched, exists out, mul c f32_ops (float_blocks p) g sched l r dst mp = Ok out.
Proof.
  intros p. exists (ex_config 1), wide_l, wide_r, wide_dst, (fx_mp None minus_inf inf).
  assert (V : valid_call (ex_config 1) f32_ops (float_blocks p) wide_l wide_r wide_dst (fx_mp None minus_inf inf)).
  { constructor.
    - constructor.
      + destruct p; (split; [|split]; [..|reflexivity]; (split; [apply pow2_of; reflexivity|]; split; [apply pow2_of; reflexivity|zdec])).
      + split; [|split]; unfold valid_matrix, valid_layout, inner_size, outer_size; zdec.
      + zdec.
      + intros k m s Hk Hm. assert (k = lhs (float_blocks p)) as -> by (destruct p; destruct Hk; assumption).
        assert (0 <= m <= 19) by (destruct Hm as [-> | ->]; zdec). destruct p; split; zdec.
      + intros []; vm_compute; repeat split; discriminate.
      + split; [zdec|]. split; [zdec|]. intros cap Hc. split; [|split]; intros x E; discriminate E.
      + reflexivity.
    - zdec.
    - cbn. unfold int_max. lia.
    - intros R C t HR HC Ht. apply is_round_up_eq in HR; [|destruct p; zdec]. apply is_round_up_eq in HC; [|destruct p; zdec].
      subst R C. cbn [ex_config c_max_threads] in Ht.
      destruct p; cbn; (constructor; try (first [exists 3; split; [lia | reflexivity] | exists 4; split; [lia | reflexivity]]); unfold local_cache_size, int_max; try lia; try reflexivity; vm_compute; repeat split; discriminate). }
  split; [exact V|]. split.
  - exists (ex_garbage S754_nan), one_thread. destruct p; vm_compute; reflexivity.
  - intros g sched. destruct (float_mul_is_reference 24 128 4 ltac:(lia) _ _ _ _ _ _ V eq_refl eq_refl) as (ref & _ & H & _).
    destruct (H g sched) as (out & E & _). exists out. exact E.
Qed.
