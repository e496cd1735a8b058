(** Concrete multiplications of floats on the x86 paths, and witnesses of what does not hold. *)
From Coq Require Import ZArith List Bool Lia SpecFloat.
From Verif Require Import Base SidePair SpecArith SizeUtil SizeUtilFacts SpecMatrix SpecPack BlockMap SpecBlockMap ThreadCount
  Mat MatFacts Scalars Pack PackFacts MulParams Kernel FloatOps TrMul TrMulMachine SpecMachine TrMulRun SpecRound SpecMul
  TrMulFacts FrontEndFacts EntryFacts MulFacts MulProps ExampleMul X86Mul FloatX86Mul SpecFloatX86.
Import ListNotations.
Open Scope Z_scope.

(** 19x7 by 7x5. The functions take row and column; strides are 23. *)
Definition fx_mat (rows cols : Z) (o : order) (f : Z -> Z -> spec_float) : mat spec_float :=
  ex_mat rows cols 23 o 0 (fun x => match o with ColMajor => f (x mod 23) (x / 23) | RowMajor => f (x / 23) (x mod 23) end).
Definition fx_l := fx_mat 19 7.
Definition fx_r := fx_mat 7 5.
Definition fx_dst (o : order) := fx_mat 19 5 o (fun _ _ => S754_nan).
(** A bias for each column. *)
Definition fx_mp (bias : option (Z -> spec_float)) (lo hi : spec_float) : mul_params spec_float := {|
  mp_bias := match bias with Some f => Some {| blen := 5; bdat := f |} | None => None end;
  mp_mult_pc := None; mp_mult := 0; mp_exp_pc := None; mp_exp := 0;
  mp_min := lo; mp_max := hi; mp_chan := ChCol; mp_perchannel := false; mp_rounding_log2 := 0 |}.

Lemma fx_entry : forall rows cols o f i j, 0 <= i < 23 -> 0 <= j < 23 -> entry (fx_mat rows cols o f) i j = f i j.
Proof.
  intros rows cols o f i j Hi Hj. unfold entry, fx_mat, position. destruct o; cbn [ex_mat m_data m_layout ml_order ml_stride bdat].
  - f_equal; symmetry; [apply (Z.mod_unique_pos _ _ j); lia | apply (Z.div_unique_pos _ _ _ i); lia].
  - f_equal; symmetry; [apply (Z.div_unique_pos _ _ _ j); lia | apply (Z.mod_unique_pos _ _ i); lia].
Qed.

Lemma fx_vector : forall p ol or od fl fr bias lo hi n, good_threads n ->
  float_vector_mul (ex_config n) p (fx_l ol fl) (fx_r or fr) (fx_dst od) (fx_mp bias lo hi).
Proof.
  intros p ol or od fl fr bias lo hi n Hn. unfold good_threads in Hn. constructor.
  - constructor.
    + constructor.
      * destruct p; (split; [|split]; [..|reflexivity]; (split; [apply pow2_of; reflexivity|]; split; [apply pow2_of; reflexivity|zdec])).
      * split; [|split]; unfold valid_matrix, valid_layout, inner_size, outer_size; [destruct ol|destruct or|destruct od]; zdec.
      * zdec.
      * intros k m s Hk Hm. assert (k = lhs (float_blocks p)) as -> by (destruct p; destruct Hk; assumption).
        assert (0 <= m <= 19) by (destruct Hm as [-> | ->]; zdec). destruct p; split; zdec.
      * intros []; vm_compute; repeat split; discriminate.
      * split; [zdec|]. split; [zdec|]. intros cap Hc.
        assert (forall {A} (z : A -> bool) b, (forall x, b = Some x -> blen x = 5) -> channel_array z b (channel_count (fx_mp bias lo hi) (m_layout (fx_dst od))) cap) as CA.
        { intros A z b Hb. apply channel_array_exact; [exact Hb|exact Hc]. }
        split; [|split]; apply CA; intros x E; apply (f_equal (option_map blen)) in E; cbn in E; destruct bias; cbn in E; congruence.
      * reflexivity.
    + zdec.
    + cbn. unfold int_max. lia.
    + intros R C t HR HC Ht. apply is_round_up_eq in HR; [|destruct p, od; zdec]. apply is_round_up_eq in HC; [|destruct p, od; zdec].
      subst R C. cbn [ex_config c_max_threads] in Ht.
      destruct p, od; cbn; (constructor; try (first [exists 3; split; [lia | reflexivity] | exists 4; split; [lia | reflexivity]]); unfold local_cache_size, int_max; try lia; try reflexivity; vm_compute; repeat split; discriminate).
  - vm_compute. discriminate.
Qed.

Definition inf : spec_float := S754_infinity false.
Definition minus_inf : spec_float := S754_infinity true.

(** Enough steps for one thread. *)
Definition one_thread : list (Z * bool) := repeat (0, false) 400.
Definition fx_run (p : x86_path) (ol or od : order) (fl fr : Z -> Z -> spec_float) (mp : mul_params spec_float) : mat spec_float :=
  match mul_float_x86 (ex_config 1) p (ex_garbage S754_nan) one_thread (fx_l ol fl) (fx_r or fr) (fx_dst od) mp with Ok (Some x) => x | _ => fx_dst od end.
Definition fx_ref (ol or od : order) (fl fr : Z -> Z -> spec_float) (mp : mul_params spec_float) : mat spec_float :=
  match reference_mul f32_ops (fx_l ol fl) (fx_r or fr) mp (fx_dst od) with Ok x => x | _ => fx_dst od end.
