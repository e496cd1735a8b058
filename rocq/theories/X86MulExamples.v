(** Concrete multiplications on the x86 paths. *)
From Coq Require Import ZArith List Bool Lia.
From Verif Require Import Base SidePair SpecArith SizeUtil SizeUtilFacts SpecMatrix SpecPack BlockMap SpecBlockMap ThreadCount
  Mat MatFacts Scalars Pack PackFacts MulParams Kernel Multiplier IntOps TrMul TrMulMachine SpecMachine TrMulRun SpecRound SpecMul
  TrMulFacts FrontEndFacts EntryFacts MulFacts MulProps ExampleMul SpecSimd SpecKernel SpecPackX86 X86Mul SpecX86Mul.
Open Scope Z_scope.

(** The operands of [ex_valid]: uint8 in and out. *)
Lemma ex_vector_call : forall p o n, good_threads n ->
  valid_call (ex_config n) (int_ops checked true (mk_sp u8 u8) (vector_types (mk_sp u8 u8)) u8) (vector_blocks p) ex_l ex_r (ex_dst o) ex_mp.
Proof.
  intros p o n Hn. destruct (ex_valid checked o n Hn) as [[W1 W2 W3 W4 W5 W6 W7] N T B]. constructor; try assumption.
  - constructor; try assumption.
    + destruct p; (split; [|split]; [..|reflexivity]; (split; [apply pow2_of; reflexivity|]; split; [apply pow2_of; reflexivity|zdec])).
    + intros k m s Hk Hm. assert (k = lhs (vector_blocks p)) as -> by (destruct p; destruct Hk; assumption).
      assert (0 <= m <= 10) by (destruct Hm as [-> | ->]; destruct o; zdec). destruct p; split; zdec.
  - intros R C t HR HC Ht. unfold good_threads in Hn. apply is_round_up_eq in HR; [|destruct p, o; zdec]. apply is_round_up_eq in HC; [|destruct p, o; zdec].
    subst R C. cbn [ex_config c_max_threads] in Ht.
    destruct p, o; cbn; (constructor; try (first [exists 3; split; [lia | reflexivity] | exists 4; split; [lia | reflexivity]]); unfold local_cache_size, int_max; try lia; try reflexivity; vm_compute; repeat split; discriminate).
Qed.

Lemma ex_vector : forall p o n, good_threads n -> vector_mul (ex_config n) p (mk_sp u8 u8) u8 ex_l ex_r (ex_dst o) ex_mp.
Proof.
  intros p o n Hn. constructor.
  - apply ex_vector_call. exact Hn.
  - unfold vector_operands, bytes. destruct o; cbn; auto.
  - apply ex_operands.
  - auto.
  - intros s D HD. apply is_round_up_eq in HD; [|lia]. subst D. destruct s; vm_compute; discriminate.
  - intros D HD. apply is_round_up_eq in HD; [|lia]. subst D. vm_compute. split; discriminate.
  - exact ex_bounds.
  - change (mp_perchannel ex_mp) with true. split; [discriminate|]. eexists. eexists. split; [reflexivity|]. split; [reflexivity|].
    change (channel_count ex_mp (m_layout (ex_dst o))) with 9. intros i Hi. cbn [bdat]. unfold fixed_point, exponent, int_max. split; [lia|]. pose proof (Z.mod_pos_bound i 2 ltac:(lia)). lia.
  - destruct p, o; vm_compute; discriminate.
Qed.

Lemma ex_vector_garbage : forall o v, -128 <= v <= 127 -> vector_garbage o (mk_sp u8 u8) (ex_garbage v).
Proof. intros o v Hv s i. destruct o, s; cbn; lia. Qed.

Lemma ex_entry_fits : forall o i j, in_matrix (m_layout (ex_dst o)) i j ->
  entry_fits (exact_acc ex_l ex_r ex_mp i j) (exponent_at ex_mp i j) /\ representable u8 ex_mp (m_zp (ex_dst o)) i j (exact_acc ex_l ex_r ex_mp i j).
Proof.
  intros o i j I. pose proof (ex_representable o i j I) as R. split; [|exact R]. destruct R as (R1 & _). split; [exact R1|].
  assert (E : exponent_at ex_mp i j < 0) by (change (exponent_at ex_mp i j) with (-8 - i mod 2); pose proof (Z.mod_pos_bound i 2 ltac:(lia)); lia).
  rewrite Z.max_r by lia. change (2 ^ 0) with 1. rewrite Z.mul_1_r. split; [lia | exact R1].
Qed.

(** int8 by int16, int32 out, on AVX-512: the operand of int16 on the right, or on the left of a row-major destination. *)
Definition ex16_st (o : order) : sp ity := match o with ColMajor => mk_sp s8 s16 | RowMajor => mk_sp s16 s8 end.
Definition ex16_8 (rows cols : Z) (o : order) := ex_mat rows cols 23 o 0 (fun x => (x * 37 + 11) mod 256 - 128).
Definition ex16_16 (rows cols : Z) (o : order) := ex_mat rows cols 23 o 0 (fun x => (x * 3791 + 5) mod 65536 - 32768).
Definition ex16_l (o : order) := match o with ColMajor => ex16_8 19 7 RowMajor | RowMajor => ex16_16 19 7 RowMajor end.
Definition ex16_r (o : order) := match o with ColMajor => ex16_16 7 5 ColMajor | RowMajor => ex16_8 7 5 ColMajor end.
Definition ex16_dst o := ex_mat 19 5 19 o 0 (fun x => x).
Definition ex16_mp : mul_params Z := {|
  mp_bias := Some {| blen := 5; bdat := fun x => 1000 * x - 2000 |};
  mp_mult_pc := None; mp_mult := 0; mp_exp_pc := None; mp_exp := 0;
  mp_min := int_min; mp_max := int_max; mp_chan := ChCol; mp_perchannel := false; mp_rounding_log2 := 0 |}.

Lemma ex16_vector : forall p o n, p <> PathAvx -> good_threads n -> vector_mul (ex_config n) p (ex16_st o) s32 (ex16_l o) (ex16_r o) (ex16_dst o) ex16_mp.
Proof.
  intros p o n Hp Hn. unfold good_threads in Hn. constructor.
  - constructor.
    + constructor.
      * destruct p; (split; [|split]; [..|reflexivity]; (split; [apply pow2_of; reflexivity|]; split; [apply pow2_of; reflexivity|zdec])).
      * split; [|split]; unfold valid_matrix, valid_layout, inner_size, outer_size; destruct o; zdec.
      * destruct o; zdec.
      * intros k m s Hk Hm. assert (k = lhs (vector_blocks p)) as -> by (destruct p; destruct Hk; assumption).
        assert (0 <= m <= 19) by (destruct Hm as [-> | ->]; destruct o; zdec). destruct p, o; split; zdec.
      * destruct o; intros []; vm_compute; repeat split; discriminate.
      * split; [zdec|]. split; [destruct o; zdec|]. intros cap Hc.
        assert (forall {A} (z : A -> bool) b, (forall x, b = Some x -> blen x = 5) -> channel_array z b (channel_count ex16_mp (m_layout (ex16_dst o))) cap) as CA.
        { intros A z b Hb. apply channel_array_exact; [exact Hb|exact Hc]. }
        split; [|split]; apply CA; intros x E; apply (f_equal (option_map blen)) in E; cbn in E; congruence.
      * destruct o; reflexivity.
    + destruct o; zdec.
    + cbn. unfold int_max. lia.
    + intros R C t HR HC Ht. apply is_round_up_eq in HR; [|destruct p, o; zdec]. apply is_round_up_eq in HC; [|destruct p, o; zdec].
      subst R C. cbn [ex_config c_max_threads] in Ht.
      destruct p, o; cbn; (constructor; try (first [exists 3; split; [lia | reflexivity] | exists 4; split; [lia | reflexivity]]); unfold local_cache_size, int_max; try lia; try reflexivity; vm_compute; repeat split; discriminate).
  - unfold vector_operands, bytes. destruct o; cbn; auto.
  - assert (B8 : forall x, it_lo s8 <= x mod 256 - 128 <= it_hi s8) by (intros x; pose proof (Z.mod_pos_bound x 256 ltac:(lia)); change (it_lo s8) with (-128); change (it_hi s8) with 127; lia).
    assert (B16 : forall x, it_lo s16 <= x mod 65536 - 32768 <= it_hi s16) by (intros x; pose proof (Z.mod_pos_bound x 65536 ltac:(lia)); change (it_lo s16) with (-32768); change (it_hi s16) with 32767; lia).
    destruct o; (split; (split; [vm_compute; split; discriminate|intros i j _; first [apply B8 | apply B16]])).
  - auto.
  - intros s D HD. apply is_round_up_eq in HD; [|lia]. subst D. destruct s, o; vm_compute; discriminate.
  - intros D HD. apply is_round_up_eq in HD; [|lia]. subst D. destruct o; vm_compute; split; discriminate.
  - vm_compute. repeat split; discriminate.
  - cbn. congruence.
  - destruct p, o; vm_compute; discriminate.
Qed.

Lemma ex16_garbage : forall o v, -128 <= v <= 127 -> vector_garbage o (ex16_st o) (ex_garbage v).
Proof. intros o v Hv s i. destruct o, s; cbn; lia. Qed.

Lemma ex16_i32 : forall o i j, in_matrix (m_layout (ex16_dst o)) i j -> is_i32 (exact_acc (ex16_l o) (ex16_r o) ex16_mp i j).
Proof.
  intros o i j [I J]. apply i32b_ok.
  apply (all_cells (fun i j => i32b (exact_acc (ex16_l o) (ex16_r o) ex16_mp i j)) 19 5); [destruct o; vm_compute; reflexivity|exact I|exact J].
Qed.
