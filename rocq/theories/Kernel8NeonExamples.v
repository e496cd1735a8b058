(** Calls of the 8-bit kernels for AArch64: one that the theorem covers, and ones that it does not. *)
From Coq Require Import ZArith List Bool Lia.
From Verif Require Import Base SidePair SizeUtil Mat Scalars Pack IntOps MulParams Kernel MatFacts.
From Verif Require Import SpecRound SpecMatrix SpecPack SpecMul SpecSimd SpecPackX86 SpecKernel SpecKernelNeon.
From Verif Require Import Kernel8bit Kernel8bitIsa Kernel8bitExamples Neon64 NeonPack NeonKernel8Code CpuInfo Tune Kernel8Neon NeonDeclBad SpecKernel.
Import ListNotations.
Open Scope Z_scope.

Lemma ex_covers : forall n f zp, sums_cover (ex_packed n f zp).
Proof. intros n f zp b E. injection E as <-. apply Z.le_refl. Qed.

Lemma ex_neon_call : forall dt chan rows cols ec zp, 8 < rows <= 16 -> (ec = 8 /\ 0 < cols) \/ (ec = 16 /\ 8 < cols) -> cols <= 16 ->
  dt = u8 \/ dt = s8 \/ dt = s16 -> it_lo dt <= zp <= it_hi dt ->
  neon_call 8 dt (ex_packed 8 ex_lhs 3) (ex_packed 8 ex_rhs (-2)) ex_lhs ex_rhs (ex_params chan (it_lo dt) (it_hi dt)) 0 0 16 ec (ex_dst rows cols) zp ex_buf.
Proof.
  intros dt chan rows cols ec zp Hr Hc Hc16 Hdt Hz. constructor.
  - apply (ex_call 8 s8 dt chan rows cols ec); auto; lia.
  - reflexivity.
  - apply ex_covers.
  - apply ex_covers.
  - discriminate.
  - intros _. destruct Hdt as [-> | [-> | ->]]; vm_compute; discriminate.
  - intros _. exact Hz.
  - intros i _. cbn [ex_buf bdat]. destruct Hdt as [-> | [-> | ->]]; vm_compute; split; discriminate.
Qed.

(** int32 results, no sums of the left-hand side as the zero point of the right-hand side is 0. *)
Definition nx_sumless (f : Z -> Z -> Z) (zp : Z) : pmat Z := {| p_data := p_data (ex_packed 8 f zp); p_sums := None; p_layout := p_layout (ex_packed 8 f zp); p_zp := zp |}.
Definition nx_plain (lo hi : Z) : mul_params Z := {|
  mp_bias := None; mp_mult_pc := None; mp_mult := 2 ^ 30; mp_exp_pc := None; mp_exp := 0; mp_perchannel := false; mp_chan := ChRow; mp_min := lo; mp_max := hi; mp_rounding_log2 := 4 |}.
Definition nx_call (lp : pmat Z) (dt : ity) (lo hi : Z) : Prop := vector_call 8 s8 dt lp (ex_packed 8 ex_rhs 0) ex_lhs ex_rhs (nx_plain lo hi) 0 0 16 8 (ex_dst 13 1) ex_buf.

Lemma nx_call_ok : forall lp dt lo hi, lp = nx_sumless ex_lhs 3 \/ lp = ex_packed 8 ex_lhs 3 -> dst_type dt -> it_lo dt <= lo <= it_hi dt -> it_lo dt <= hi <= it_hi dt -> nx_call lp dt lo hi.
Proof.
  intros lp dt lo hi HL HT H1 H2. pose proof (ex_call 8 s8 s8 ChRow 13 1 8 ltac:(lia) ltac:(auto) ltac:(lia) ltac:(lia) ltac:(lia) ltac:(auto)) as C.
  assert (LB : packed_blocks 8 s8 lp /\ holds lp ex_lhs 0 13) by (pose proof (vk_lhs _ _ _ _ _ _ _ _ _ _ _ _ _ _ C) as (A & B & _); destruct HL as [-> | ->]; exact (conj A B)).
  constructor.
  - split; [apply LB|]. split; [apply LB|]. intros H. exfalso. apply H. reflexivity.
  - split; [apply (ex_blocks 8 s8 ex_rhs 0 (or_introl eq_refl)); intros k c; unfold ex_rhs; pose proof (Z.mod_pos_bound (5 * k + 2 * c) 13); change (it_lo s8) with (-128); change (it_hi s8) with 127; lia|].
    split; [apply holdsb_ok; vm_compute; reflexivity|apply ex_sums].
  - destruct HL as [-> | ->]; reflexivity.
  - destruct HL as [-> | ->]; exact (vk_rows _ _ _ _ _ _ _ _ _ _ _ _ _ _ C).
  - exact (vk_cols _ _ _ _ _ _ _ _ _ _ _ _ _ _ C).
  - exact HT.
  - exact (vk_layout _ _ _ _ _ _ _ _ _ _ _ _ _ _ C).
  - split; [discriminate|]. intros _. vm_compute. repeat split; discriminate.
  - split; assumption.
  - destruct HL as [-> | ->]; vm_compute; discriminate.
  - destruct HT as [-> | [-> | [-> | ->]]]; vm_compute; discriminate.
  - destruct HL as [-> | ->]; vm_compute; repeat split; discriminate.
Qed.

Definition stored (r : res (buf Z)) (q : Z) : Z := match r with Ok d => bdat d q | _ => -1000 end.
Lemma wrong_entry : forall (P : Z -> Z -> Z -> Prop) dl (r : res (buf Z)) v, stored r 0 = v -> v <> -1000 -> ~ P 0 0 v -> in_matrix dl 0 0 -> ml_order dl = ColMajor ->
  exists d, r = Ok d /\ ~ block_computed P 0 0 16 8 dl ex_buf d.
Proof.
  intros P dl r v E N H I O. destruct r as [d| |]; cbn [stored] in E; try (exfalso; apply N; symmetry; exact E). exists d. split; [reflexivity|]. intros (_ & B & _). apply H.
  specialize (B 0 0 ltac:(lia) ltac:(lia) I). unfold position in B. rewrite O in B. change (0 * ml_stride dl + 0) with 0 in B. rewrite E in B. exact B.
Qed.

(** The comparison with the type of int32 results is jumped over: they are requantized and stored as bytes. *)
Lemma int32_without_sums : exists lp rp L R mp dl dst d, vector_call 8 s8 s32 lp rp L R mp 0 0 16 8 dl dst /\ 0 < pl_rows (p_layout lp) /\ sums_cover lp /\ sums_cover rp /\ typed s32 dst /\
  ml_cols dl = 1 /\ mp_chan mp = ChRow /\
  kernel_8bit_neon true true TGeneric ex_leftover (fun _ => 5) s32 lp rp mp 0 0 16 8 dl 0 dst = Ok d /\
  ~ block_computed (fun i j => neon_result s32 mp 0 i j (exact_accumulator (pl_rows (p_layout lp)) (p_zp lp) (p_zp rp) L R mp i j)) 0 0 16 8 dl dst d.
Proof.
  exists (nx_sumless ex_lhs 3), (ex_packed 8 ex_rhs 0), ex_lhs, ex_rhs, (nx_plain (- 2 ^ 31) (2 ^ 31 - 1)), (ex_dst 13 1), ex_buf.
  destruct (wrong_entry (fun i j => neon_result s32 (nx_plain (- 2 ^ 31) (2 ^ 31 - 1)) 0 i j (exact_accumulator 8 3 0 ex_lhs ex_rhs (nx_plain (- 2 ^ 31) (2 ^ 31 - 1)) i j)) (ex_dst 13 1)
    (kernel_8bit_neon true true TGeneric ex_leftover (fun _ => 5) s32 (nx_sumless ex_lhs 3) (ex_packed 8 ex_rhs 0) (nx_plain (- 2 ^ 31) (2 ^ 31 - 1)) 0 0 16 8 (ex_dst 13 1) 0 ex_buf)
    (stored (kernel_8bit_neon true true TGeneric ex_leftover (fun _ => 5) s32 (nx_sumless ex_lhs 3) (ex_packed 8 ex_rhs 0) (nx_plain (- 2 ^ 31) (2 ^ 31 - 1)) 0 0 16 8 (ex_dst 13 1) 0 ex_buf) 0)
    eq_refl ltac:(vm_compute; discriminate) ltac:(vm_compute; discriminate) ltac:(vm_compute; repeat split; discriminate) eq_refl) as (d & E & N).
  exists d. split; [apply nx_call_ok; [left; reflexivity|right; right; right; reflexivity|vm_compute; split; discriminate|vm_compute; split; discriminate]|].
  split; [reflexivity|]. split; [discriminate|]. split; [apply ex_covers|]. split; [intros i _; vm_compute; split; discriminate|]. split; [reflexivity|]. split; [reflexivity|]. split; [exact E|exact N].
Qed.

(** The compiler may leave anything in the upper half of the register holding the int32 variable row; the statement adds the whole register to pointers. *)
Definition nx_upper (k : nat) : leftover := {| lo_xs := lo_xs ex_leftover; lo_vs := lo_vs ex_leftover; lo_fl := lo_fl ex_leftover; lo_upper := fun j => if Nat.eqb j k then 1 else 0 |}.
Lemma upper_half : exists g dt lp rp L R mp dl dst, neon_call 8 dt lp rp L R mp 0 0 16 8 dl 4 dst /\ ml_cols dl = 1 /\ mp_chan mp = ChRow /\
  (forall k, k <> 46%nat -> lo_upper g k = 0) /\ kernel_8bit_neon true true TGeneric g (fun _ => 5) dt lp rp mp 0 0 16 8 dl 4 dst = UB.
Proof.
  exists (nx_upper 46), s8, (ex_packed 8 ex_lhs 3), (ex_packed 8 ex_rhs (-2)), ex_lhs, ex_rhs, (ex_params ChRow (-128) 127), (ex_dst 13 1), ex_buf.
  split; [apply ex_neon_call; auto; vm_compute; intuition discriminate|]. split; [reflexivity|]. split; [reflexivity|]. split.
  - intros k Hk. cbn [nx_upper lo_upper]. apply Nat.eqb_neq in Hk. rewrite Hk. reflexivity.
  - vm_compute. reflexivity.
Qed.

(** No levels of depth: the loop loads from the packed matrices all the same. *)
Definition nx_shallow (f : Z -> Z -> Z) (zp : Z) : pmat Z := {|
  p_data := {| blen := 0; bdat := fun _ => 0 |}; p_sums := Some {| blen := 16; bdat := fun _ => 0 |};
  p_layout := {| pl_rows := 0; pl_cols := 16; pl_stride := 0; pl_order := ColMajor; pl_kernel := {| kl_order := ColMajor; kl_rows := 4; kl_cols := 8 |} |}; p_zp := zp |}.
Lemma shallow_blocks : forall f zp, packed_blocks 8 s8 (nx_shallow f zp).
Proof.
  intros f zp. unfold packed_blocks, nx_shallow. cbn [p_layout pl_kernel pl_order pl_stride pl_rows pl_cols p_data blen bdat]. unfold int_max. repeat split; try lia.
  - exists 0. reflexivity.
  - exists 2. reflexivity.
Qed.
Lemma depth_zero : exists dt lp rp L R mp dl dst, vector_call 8 s8 dt lp rp L R mp 0 0 16 8 dl dst /\ sums_cover lp /\ sums_cover rp /\ typed dt dst /\
  ml_cols dl = 1 /\ mp_chan mp = ChRow /\ pl_rows (p_layout lp) = 0 /\ kernel_8bit_neon true true TGeneric ex_leftover (fun _ => 5) dt lp rp mp 0 0 16 8 dl 4 dst = UB.
Proof.
  exists s8, (nx_shallow ex_lhs 3), (nx_shallow ex_rhs (-2)), ex_lhs, ex_rhs, (ex_params ChRow (-128) 127), (ex_dst 13 1), ex_buf.
  pose proof (ex_call 8 s8 s8 ChRow 13 1 8 ltac:(lia) ltac:(auto) ltac:(lia) ltac:(lia) ltac:(lia) ltac:(auto)) as C. split.
  - constructor.
    + split; [apply shallow_blocks|]. split; [intros k c Hk; exfalso; cbn in Hk; lia|]. intros _. eexists. split; [reflexivity|]. split; [discriminate|]. reflexivity.
    + split; [apply shallow_blocks|]. split; [intros k c Hk; exfalso; cbn in Hk; lia|]. intros _. eexists. split; [reflexivity|]. split; [discriminate|]. reflexivity.
    + reflexivity.
    + exact (vk_rows _ _ _ _ _ _ _ _ _ _ _ _ _ _ C).
    + exact (vk_cols _ _ _ _ _ _ _ _ _ _ _ _ _ _ C).
    + auto.
    + exact (vk_layout _ _ _ _ _ _ _ _ _ _ _ _ _ _ C).
    + exact (vk_params _ _ _ _ _ _ _ _ _ _ _ _ _ _ C).
    + exact (vk_bounds _ _ _ _ _ _ _ _ _ _ _ _ _ _ C).
    + vm_compute. discriminate.
    + vm_compute. discriminate.
    + vm_compute. repeat split; discriminate.
  - split; [intros b E; injection E as <-; discriminate|]. split; [intros b E; injection E as <-; discriminate|]. split; [intros i _; vm_compute; split; discriminate|].
    split; [reflexivity|]. split; [reflexivity|]. split; [reflexivity|]. vm_compute. reflexivity.
Qed.

(** A lower bound above the upper one: the upper one is stored, not the lower one as on x86. *)
Lemma inverted_bounds : exists lp rp L R mp dl dst d, vector_call 8 s8 s8 lp rp L R mp 0 0 16 8 dl dst /\ 0 < pl_rows (p_layout lp) /\ sums_cover lp /\ sums_cover rp /\ typed s8 dst /\
  ml_cols dl = 1 /\ mp_chan mp = ChRow /\
  kernel_8bit_neon true true TGeneric ex_leftover (fun _ => 5) s8 lp rp mp 0 0 16 8 dl 0 dst = Ok d /\
  ~ block_computed (fun i j => neon_result s8 mp 0 i j (exact_accumulator (pl_rows (p_layout lp)) (p_zp lp) (p_zp rp) L R mp i j)) 0 0 16 8 dl dst d.
Proof.
  exists (ex_packed 8 ex_lhs 3), (ex_packed 8 ex_rhs 0), ex_lhs, ex_rhs, (nx_plain 100 50), (ex_dst 13 1), ex_buf.
  destruct (wrong_entry (fun i j => neon_result s8 (nx_plain 100 50) 0 i j (exact_accumulator 8 3 0 ex_lhs ex_rhs (nx_plain 100 50) i j)) (ex_dst 13 1)
    (kernel_8bit_neon true true TGeneric ex_leftover (fun _ => 5) s8 (ex_packed 8 ex_lhs 3) (ex_packed 8 ex_rhs 0) (nx_plain 100 50) 0 0 16 8 (ex_dst 13 1) 0 ex_buf) 50
    ltac:(vm_compute; reflexivity) ltac:(discriminate)) as (d & E & N).
  - intros (q & _ & H). unfold clamped in H. cbn [nx_plain mp_min mp_max] in H. lia.
  - vm_compute; repeat split; discriminate.
  - reflexivity.
  - exists d. split; [apply nx_call_ok; [right; reflexivity|right; left; reflexivity|vm_compute; split; discriminate|vm_compute; split; discriminate]|].
    split; [reflexivity|]. split; [apply ex_covers|]. split; [apply ex_covers|]. split; [intros i _; vm_compute; split; discriminate|]. split; [reflexivity|]. split; [reflexivity|]. split; [exact E|exact N].
Qed.

(** The results of a call on 13 rows. *)
Lemma column_result : exists d, kernel_8bit_neon true true TGeneric ex_leftover (fun _ => 5) s8 (ex_packed 8 ex_lhs 3) (ex_packed 8 ex_rhs (-2)) (ex_params ChRow (-128) 127) 0 0 16 8 (ex_dst 13 1) 4 ex_buf = Ok d /\
  map (bdat d) (zrange 0 14) = [-4; -1; -15; -81; -39; 4; 1; -24; 11; 35; 2; 2; 22; 99].
Proof.
  assert (E : match kernel_8bit_neon true true TGeneric ex_leftover (fun _ => 5) s8 (ex_packed 8 ex_lhs 3) (ex_packed 8 ex_rhs (-2)) (ex_params ChRow (-128) 127) 0 0 16 8 (ex_dst 13 1) 4 ex_buf with
    Ok d => map (bdat d) (zrange 0 14) | _ => [-1000] end = [-4; -1; -15; -81; -39; 4; 1; -24; 11; 35; 2; 2; 22; 99]).
  { vm_compute. reflexivity. }
  destruct (kernel_8bit_neon _ _ _ _ _ _ _ _ _ _ _ _ _ _ _ _); try discriminate E. eexists. split; [reflexivity|exact E].
Qed.
