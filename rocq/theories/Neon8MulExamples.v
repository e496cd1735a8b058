(** Concrete multiplications of bytes on the path kNeonDotprod. *)
From Coq Require Import ZArith List Bool Lia.
From Verif Require Import Base SidePair SpecArith SizeUtil SizeUtilFacts SpecMatrix SpecPack BlockMap SpecBlockMap ThreadCount
  Mat MatFacts Scalars Pack PackFacts MulParams Kernel Multiplier IntOps TrMul TrMulMachine SpecMachine TrMulRun SpecRound SpecMul
  TrMulFacts FrontEndFacts EntryFacts MulFacts MulProps ExampleMul SpecSimd SpecKernel SpecPackX86 X86MulExamples Tune Neon64 NeonPack FloatNeonMul SpecNeonMul.
Open Scope Z_scope.

(** The operands of [ex_valid]: uint8 in and out. *)
Lemma ex_dot_call : forall o n, good_threads n ->
  valid_call (ex_config n) (int_ops checked true (mk_sp u8 u8) (mk_sp s8 s8) u8) dot_blocks ex_l ex_r (ex_dst o) ex_mp.
Proof.
  intros o n Hn. destruct (ex_valid checked o n Hn) as [[W1 W2 W3 W4 W5 W6 W7] N T B]. constructor; try assumption.
  - constructor; try assumption.
    + split; [|split]; [..|reflexivity]; (split; [apply pow2_of; reflexivity|]; split; [apply pow2_of; reflexivity|zdec]).
    + intros k m s Hk Hm. assert (k = lhs dot_blocks) as -> by (destruct Hk; assumption).
      assert (0 <= m <= 10) by (destruct Hm as [-> | ->]; destruct o; zdec). split; zdec.
  - intros R C t HR HC Ht. unfold good_threads in Hn. apply is_round_up_eq in HR; [|destruct o; zdec]. apply is_round_up_eq in HC; [|destruct o; zdec].
    subst R C. cbn [ex_config c_max_threads] in Ht.
    destruct o; cbn; (constructor; try (first [exists 3; split; [lia | reflexivity] | exists 4; split; [lia | reflexivity]]); unfold local_cache_size, int_max; try lia; try reflexivity; vm_compute; repeat split; discriminate).
Qed.

Lemma ex_dot : forall o n, good_threads n -> dot_mul (ex_config n) (mk_sp u8 u8) u8 ex_l ex_r (ex_dst o) ex_mp.
Proof.
  intros o n Hn. constructor.
  - apply ex_dot_call. exact Hn.
  - unfold byte_type. auto.
  - apply ex_operands.
  - auto.
  - intros D HD. apply is_round_up_eq in HD; [|lia]. subst D. vm_compute; discriminate.
  - intros D HD. apply is_round_up_eq in HD; [|lia]. subst D. vm_compute. split; discriminate.
  - exact ex_bounds.
  - intros _. vm_compute. discriminate.
  - intros _. vm_compute. split; discriminate.
  - change (mp_perchannel ex_mp) with true. split; [discriminate|]. eexists. eexists. split; [reflexivity|]. split; [reflexivity|].
    change (channel_count ex_mp (m_layout (ex_dst o))) with 9. intros i Hi. cbn [bdat]. unfold fixed_point, exponent, int_max. split; [lia|]. pose proof (Z.mod_pos_bound i 2 ltac:(lia)). lia.
  - destruct o; vm_compute; discriminate.
  - intros i _. change (it_lo u8) with 0. change (it_hi u8) with 255. cbn [ex_dst ex_mat m_data bdat]. pose proof (Z.mod_pos_bound i 7 ltac:(lia)). lia.
  - intros _. vm_compute. discriminate.
  - intros _. vm_compute. discriminate.
Qed.

Lemma ex_dot_garbage : forall v, -128 <= v <= 127 -> dot_garbage (ex_garbage v).
Proof. intros v Hv s i. cbn. lia. Qed.

(** Registers that held pointers, and what else. *)
Definition ex_dot_left (k : Z) : leftover := {| lo_xs := fun q => Ptr (Z.to_nat k) (Z.of_nat q); lo_vs := fun q => repeat (Z.of_nat q) 16;
  lo_fl := {| f_eq := false; f_lt := None |}; lo_upper := fun q => if (q =? 46)%nat || (q =? 47)%nat then k * 2 ^ 32 else 77 + k |}.
(** Every core packs with the one or the other program; the registers hold something. *)
Definition ex_dot_ci : circumstances := {| ci_pack_tuning := fun s a => if a <? 8 then TGeneric else TA55ish;
  ci_pack_regs := fun _ a b => ex_dot_left (a + b); ci_tuning := fun i _ => if i <? 8 then TGeneric else TX1;
  ci_regs := fun a b => ex_dot_left (a - b); ci_tmp := fun _ _ i => i mod 256 |}.
Lemma ex_dot_circumstances : dot_circumstances ex_dot_ci.
Proof. intros i j. cbn. split; [destruct (i <? 8); discriminate|]. split; apply Z.mod_mul; discriminate. Qed.

(** int8 by uint8, int32 out; the columns of the left operand and the rows of the right one are contiguous. *)
Definition exd_l := ex_mat 19 7 23 ColMajor (-4) (fun x => (x * 37 + 11) mod 256 - 128).
Definition exd_r := ex_mat 7 5 6 RowMajor 77 (fun x => (x * 91 + 5) mod 256).
Definition exd_dst o := ex_mat 19 5 19 o 0 (fun x => x).
Definition exd_mp : mul_params Z := {|
  mp_bias := Some {| blen := 5; bdat := fun x => 1000 * x - 2000 |};
  mp_mult_pc := None; mp_mult := 0; mp_exp_pc := None; mp_exp := 0;
  mp_min := int_min; mp_max := int_max; mp_chan := ChCol; mp_perchannel := false; mp_rounding_log2 := 0 |}.

Lemma exd_dot : forall o n, good_threads n -> dot_mul (ex_config n) (mk_sp s8 u8) s32 exd_l exd_r (exd_dst o) exd_mp.
Proof.
  intros o n Hn. unfold good_threads in Hn. constructor.
  - constructor.
    + constructor.
      * split; [|split]; [..|reflexivity]; (split; [apply pow2_of; reflexivity|]; split; [apply pow2_of; reflexivity|zdec]).
      * split; [|split]; unfold valid_matrix, valid_layout, inner_size, outer_size; destruct o; zdec.
      * destruct o; zdec.
      * intros k m s Hk Hm. assert (k = lhs dot_blocks) as -> by (destruct Hk; assumption).
        assert (0 <= m <= 19) by (destruct Hm as [-> | ->]; destruct o; zdec). split; zdec.
      * intros []; vm_compute; repeat split; discriminate.
      * split; [zdec|]. split; [destruct o; zdec|]. intros cap Hc.
        assert (forall {A} (z : A -> bool) b, (forall x, b = Some x -> blen x = 5) -> channel_array z b (channel_count exd_mp (m_layout (exd_dst o))) cap) as CA.
        { intros A z b Hb. apply channel_array_exact; [exact Hb|exact Hc]. }
        split; [|split]; apply CA; intros x E; apply (f_equal (option_map blen)) in E; cbn in E; congruence.
      * reflexivity.
    + destruct o; zdec.
    + cbn. unfold int_max. lia.
    + intros R C t HR HC Ht. apply is_round_up_eq in HR; [|destruct o; zdec]. apply is_round_up_eq in HC; [|destruct o; zdec].
      subst R C. cbn [ex_config c_max_threads] in Ht.
      destruct o; cbn; (constructor; try (first [exists 3; split; [lia | reflexivity] | exists 4; split; [lia | reflexivity]]); unfold local_cache_size, int_max; try lia; try reflexivity; vm_compute; repeat split; discriminate).
  - unfold byte_type. cbn. auto.
  - assert (B8 : forall x, it_lo s8 <= x mod 256 - 128 <= it_hi s8) by (intros x; pose proof (Z.mod_pos_bound x 256 ltac:(lia)); change (it_lo s8) with (-128); change (it_hi s8) with 127; lia).
    assert (BU : forall x, it_lo u8 <= x mod 256 <= it_hi u8) by (intros x; pose proof (Z.mod_pos_bound x 256 ltac:(lia)); change (it_lo u8) with 0; change (it_hi u8) with 255; lia).
    split; (split; [vm_compute; split; discriminate|intros i j _; first [apply B8 | apply BU]]).
  - auto.
  - intros D HD. apply is_round_up_eq in HD; [|lia]. subst D. vm_compute; discriminate.
  - intros D HD. apply is_round_up_eq in HD; [|lia]. subst D. vm_compute; split; discriminate.
  - vm_compute. repeat split; discriminate.
  - congruence.
  - congruence.
  - cbn. congruence.
  - destruct o; vm_compute; discriminate.
  - intros i Hi. assert (0 <= i < 361) by (destruct o; cbn in Hi; lia). change (it_lo s32) with (-2147483648). change (it_hi s32) with 2147483647.
    cbn [exd_dst ex_mat m_data bdat]. lia.
  - intros E. discriminate E.
  - intros E. discriminate E.
Qed.

Lemma exd_i32 : forall o i j, in_matrix (m_layout (exd_dst o)) i j -> is_i32 (exact_acc exd_l exd_r exd_mp i j).
Proof.
  intros o i j [I J]. apply i32b_ok.
  apply (all_cells (fun i j => i32b (exact_acc exd_l exd_r exd_mp i j)) 19 5); [vm_compute; reflexivity|exact I|exact J].
Qed.

Lemma ex_dot_fits : forall o i j, in_matrix (m_layout (ex_dst o)) i j ->
  dot_fits (exact_acc ex_l ex_r ex_mp i j) (exponent_at ex_mp i j) /\ representable u8 ex_mp (m_zp (ex_dst o)) i j (exact_acc ex_l ex_r ex_mp i j).
Proof.
  intros o i j I. pose proof (ex_representable o i j I) as R. split; [|exact R]. destruct R as (R1 & _). split; [exact R1|].
  assert (E : exponent_at ex_mp i j < -1) by (change (exponent_at ex_mp i j) with (-8 - i mod 2); pose proof (Z.mod_pos_bound i 2 ltac:(lia)); lia).
  rewrite Z.max_r by lia. change (2 ^ 0) with 1. rewrite Z.mul_1_r. split; [lia | exact R1].
Qed.
