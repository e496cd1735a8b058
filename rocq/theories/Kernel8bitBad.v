(** Calls of the 8-bit x86 kernels outside the hypotheses of the theorems; the theorems for each
    instruction set. *)
From Coq Require Import ZArith List Bool Lia.
From Verif Require Import Base SidePair SizeUtil Mat Scalars Pack IntOps MulParams Multiplier Kernel MatFacts.
From Verif Require Import SpecRound SpecMatrix SpecPack SpecMul SpecSimd SpecKernel.
From Verif Require Import Kernel8bit Kernel8bitAvx Kernel8bitIsa Kernel8bitAvx2Facts Kernel8bitAvxFacts Kernel8bitAvx512Facts.
From Verif Require Import Kernel8bitProps Kernel8bitPortable Kernel8bitExamples.
Import ListNotations.
Open Scope Z_scope.

Lemma avx2_computes : forall dbg rt dt lp rp L R mp sr sc er ec dl dzp dst, rhs_type true rt ->
  vector_call 8 rt dt lp rp L R mp sr sc er ec dl dst ->
  exists dst', kernel_x86 dbg avx2 rt dt lp rp mp sr sc er ec dl dzp dst = Ok dst' /\
    block_computed (fun i j => vector_result dt mp dzp i j
      (exact_accumulator (pl_rows (p_layout lp)) (p_zp lp) (p_zp rp) L R mp i j)) sr sc er ec dl dst dst'.
Proof. intros. eapply kernel_x86_computes; [exact avx2_ok | eassumption | assumption]. Qed.

Lemma avx_computes : forall dbg dt lp rp L R mp sr sc er ec dl dzp dst,
  vector_call 8 s8 dt lp rp L R mp sr sc er ec dl dst ->
  exists dst', kernel_x86 dbg avx s8 dt lp rp mp sr sc er ec dl dzp dst = Ok dst' /\
    block_computed (fun i j => vector_result dt mp dzp i j
      (exact_accumulator (pl_rows (p_layout lp)) (p_zp lp) (p_zp rp) L R mp i j)) sr sc er ec dl dst dst'.
Proof. intros. eapply kernel_x86_computes; [exact avx_ok | left; reflexivity | assumption]. Qed.

Lemma avx512_computes : forall dbg rt dt lp rp L R mp sr sc er ec dl dzp dst, rhs_type true rt ->
  vector_call 16 rt dt lp rp L R mp sr sc er ec dl dst ->
  exists dst', kernel_x86 dbg avx512 rt dt lp rp mp sr sc er ec dl dzp dst = Ok dst' /\
    block_computed (fun i j => vector_result dt mp dzp i j
      (exact_accumulator (pl_rows (p_layout lp)) (p_zp lp) (p_zp rp) L R mp i j)) sr sc er ec dl dst dst'.
Proof. intros. eapply kernel_x86_computes; [exact avx512_ok | eassumption | assumption]. Qed.

(** One of the kernels, with right-hand sides it takes. *)
Lemma kernel_known : forall v rt, vector_kernel v rt -> exists wide, isa_ok v wide /\ rhs_type wide rt.
Proof.
  intros v rt [(-> & H) | [(-> & ->) | (-> & H)]].
  - exists true. split; [exact avx2_ok | exact H].
  - exists false. split; [exact avx_ok | left; reflexivity].
  - exists true. split; [exact avx512_ok | exact H].
Qed.

Lemma portable_same_int32 : forall v rt, vector_kernel v rt -> forall dbg dbg' st pt lp rp L R mp sr sc er ec dl dst,
  vector_call (v_n v) rt s32 lp rp L R mp sr sc er ec dl dst -> mp_min mp = int_min -> mp_max mp = int_max ->
  exists d d0, kernel_x86 dbg v rt s32 lp rp mp sr sc er ec dl 0 dst = Ok d /\
    kernel_run dbg' (int_ops wrapping dbg' st pt s32) (v_n v) (v_n v) lp rp mp sr sc er ec dl 0 dst = Ok d0 /\
    blen d = blen d0 /\ forall q, bdat d q = bdat d0 q.
Proof.
  intros v rt H dbg dbg' st pt lp rp L R mp sr sc er ec dl dst C E1 E2. destruct (kernel_known v rt H) as (wide & Hv & Hr).
  exact (kernels_agree_int32 v wide dbg dbg' st pt rt s32 lp rp L R mp sr sc er ec dl dst Hv Hr C eq_refl E1 E2).
Qed.

Lemma portable_within_one : forall v rt, vector_kernel v rt -> forall dbg dbg' st pt dt lp rp L R mp sr sc er ec dl dzp dst,
  vector_call (v_n v) rt dt lp rp L R mp sr sc er ec dl dst -> dt <> s32 -> it_lo dt <= dzp <= it_hi dt ->
  (forall i j, sr <= i < er -> sc <= j < ec -> in_matrix dl i j ->
     entry_fits (exact_accumulator (pl_rows (p_layout lp)) (p_zp lp) (p_zp rp) L R mp i j) (exponent_at mp i j)) ->
  exists d d0, kernel_x86 dbg v rt dt lp rp mp sr sc er ec dl dzp dst = Ok d /\
    kernel_run dbg' (int_ops wrapping dbg' st pt dt) (v_n v) (v_n v) lp rp mp sr sc er ec dl dzp dst = Ok d0 /\
    blen d = blen d0 /\ (forall q, bdat d0 q <= bdat d q <= bdat d0 q + 1) /\
    (forall i j, sr <= i < er -> sc <= j < ec -> in_matrix dl i j -> 0 <= exponent_at mp i j ->
       bdat d (position dl i j) = bdat d0 (position dl i j)).
Proof.
  intros v rt H dbg dbg' st pt dt lp rp L R mp sr sc er ec dl dzp dst C N Z F. destruct (kernel_known v rt H) as (wide & Hv & Hr).
  exact (kernels_within_one v wide dbg dbg' st pt rt dt lp rp L R mp sr sc er ec dl dzp dst Hv Hr C N Z F).
Qed.

(** Examples. *)
Definition plain_params (lo hi : Z) : mul_params Z := {|
  mp_bias := None; mp_mult_pc := None; mp_mult := 2 ^ 30; mp_exp_pc := None; mp_exp := -1;
  mp_perchannel := false; mp_chan := ChRow; mp_min := lo; mp_max := hi; mp_rounding_log2 := 4 |}.

Lemma int32_call : forall n rt, n = 8 \/ n = 16 -> rt = s8 \/ rt = s16 ->
  vector_call n rt s32 (ex_packed n ex_lhs 3) (ex_packed n ex_rhs (-2)) ex_lhs ex_rhs (plain_params int_min int_max)
    0 0 (2 * n) n (ex_dst (2 * n) 3) ex_buf.
Proof.
  intros n rt Hn Hrt. destruct (ex_call n rt s8 ChRow (2 * n) 3 n Hn Hrt) as [A1 A2 A3 A4 A5 A6 A7 A8 A9 A10 A11 A12]; try lia.
  { right. left. reflexivity. }
  constructor; try assumption.
  - right. right. right. reflexivity.
  - split; [intros b E; discriminate|]. cbn [plain_params mp_perchannel]. intros E. congruence.
  - cbn [ex_dst ml_stride]. change (it_bits s32 / 8) with 4. unfold int_max. nia.
Qed.

(** The zero point of an int32 destination: the kernel of AVX2 ignores it, the portable kernel adds it. *)
Definition s8s : sp ity := {| lhs := s8; rhs := s8 |}.

Definition value_at (r : res (buf Z)) (q : Z) : option Z := match r with Ok d => Some (bdat d q) | _ => None end.

Lemma value_at_ok : forall r q x, value_at r q = Some x -> exists d, r = Ok d /\ bdat d q = x.
Proof. intros [d | |] q x H; [|discriminate..]. exists d. split; [reflexivity|]. unfold value_at in H. congruence. Qed.

Lemma int32_zero_point : exists lp rp L R mp dl dst d d0,
  vector_call 8 s8 s32 lp rp L R mp 0 0 16 8 dl dst /\ mp_min mp = int_min /\ mp_max mp = int_max /\
  kernel_x86 true avx2 s8 s32 lp rp mp 0 0 16 8 dl 5 dst = Ok d /\
  kernel_run true (int_ops checked true s8s s8s s32) 8 8 lp rp mp 0 0 16 8 dl 5 dst = Ok d0 /\
  bdat d0 0 = bdat d 0 + 5.
Proof.
  exists (ex_packed 8 ex_lhs 3), (ex_packed 8 ex_rhs (-2)), ex_lhs, ex_rhs, (plain_params int_min int_max), (ex_dst 16 3), ex_buf.
  destruct (value_at_ok (kernel_x86 true avx2 s8 s32 (ex_packed 8 ex_lhs 3) (ex_packed 8 ex_rhs (-2)) (plain_params int_min int_max) 0 0 16 8 (ex_dst 16 3) 5 ex_buf) 0 (-72)) as (d & E & B); [vm_compute; reflexivity|].
  destruct (value_at_ok (kernel_run true (int_ops checked true s8s s8s s32) 8 8 (ex_packed 8 ex_lhs 3) (ex_packed 8 ex_rhs (-2)) (plain_params int_min int_max) 0 0 16 8 (ex_dst 16 3) 5 ex_buf) 0 (-67)) as (d0 & E0 & B0); [vm_compute; reflexivity|].
  exists d, d0. split; [exact (int32_call 8 s8 (or_introl eq_refl) (or_introl eq_refl))|]. split; [reflexivity|]. split; [reflexivity|].
  split; [exact E|]. split; [exact E0|]. rewrite B, B0. reflexivity.
Qed.

(** The portable kernel may round the other way: less by one. *)
Lemma quantized_call : vector_call 8 s8 s8 (ex_packed 8 ex_lhs 3) (ex_packed 8 ex_rhs (-2)) ex_lhs ex_rhs (plain_params (-128) 127) 0 0 16 8 (ex_dst 16 3) ex_buf.
Proof.
  destruct (ex_call 8 s8 s8 ChRow 16 3 8 (or_introl eq_refl) (or_introl eq_refl)) as [A1 A2 A3 A4 A5 A6 A7 A8 A9 A10 A11 A12]; try lia.
  { right. left. reflexivity. }
  constructor; try assumption. split; [intros b E; discriminate|]. cbn [plain_params mp_perchannel mp_mult mp_exp]. intros _.
  vm_compute. repeat split; intro; discriminate.
Qed.

Lemma quantized_differs : exists lp rp L R mp dl dst d d0,
  vector_call 8 s8 s8 lp rp L R mp 0 0 16 8 dl dst /\
  (forall i j, 0 <= i < 16 -> 0 <= j < 8 -> in_matrix dl i j ->
     entry_fits (exact_accumulator (pl_rows (p_layout lp)) (p_zp lp) (p_zp rp) L R mp i j) (exponent_at mp i j)) /\
  kernel_x86 true avx2 s8 s8 lp rp mp 0 0 16 8 dl 0 dst = Ok d /\
  kernel_run true (int_ops checked true s8s s8s s8) 8 8 lp rp mp 0 0 16 8 dl 0 dst = Ok d0 /\
  bdat d 1 = bdat d0 1 + 1.
Proof.
  exists (ex_packed 8 ex_lhs 3), (ex_packed 8 ex_rhs (-2)), ex_lhs, ex_rhs, (plain_params (-128) 127), (ex_dst 16 3), ex_buf.
  destruct (value_at_ok (kernel_x86 true avx2 s8 s8 (ex_packed 8 ex_lhs 3) (ex_packed 8 ex_rhs (-2)) (plain_params (-128) 127) 0 0 16 8 (ex_dst 16 3) 0 ex_buf) 1 1) as (d & E & B); [vm_compute; reflexivity|].
  destruct (value_at_ok (kernel_run true (int_ops checked true s8s s8s s8) 8 8 (ex_packed 8 ex_lhs 3) (ex_packed 8 ex_rhs (-2)) (plain_params (-128) 127) 0 0 16 8 (ex_dst 16 3) 0 ex_buf) 1 0) as (d0 & E0 & B0); [vm_compute; reflexivity|].
  exists d, d0. split; [exact quantized_call|]. split; [|split; [exact E|]; split; [exact E0|]; rewrite B, B0; reflexivity].
  intros i j Hi Hj _. revert i j Hi Hj.
  assert (H : forallb (fun i => forallb (fun j => let a := exact_accumulator 8 3 (-2) ex_lhs ex_rhs (plain_params (-128) 127) i j in (int_min <=? a) && (a <=? int_max)) (zrange 0 8)) (zrange 0 16) = true) by (vm_compute; reflexivity).
  intros i j Hi Hj. rewrite forallb_forall in H. specialize (H i ltac:(apply zrange_In; exact Hi)). rewrite forallb_forall in H. specialize (H j ltac:(apply zrange_In; exact Hj)).
  cbv zeta in H. cbn [ex_packed p_layout pl_rows p_zp]. unfold entry_fits, is_i32, exponent_at. cbn [plain_params mp_perchannel mp_exp].
  change (Z.max (-1) 0) with 0. change (2 ^ 0) with 1. rewrite Z.mul_1_r. lia.
Qed.

(** A destination whose columns are so far apart that eight of them do not fit in an int32. *)
Definition far_dst : mat_layout := {| ml_rows := 16; ml_cols := 8; ml_stride := 2 ^ 26; ml_order := ColMajor |}.

Lemma far_columns : exists lp rp mp dl dst,
  packed_blocks 8 s8 lp /\ packed_blocks 8 s8 rp /\ p_zp lp = 0 /\ p_zp rp = 0 /\ params_cover s32 mp 16 /\
  valid_layout dl /\ ml_order dl = ColMajor /\ ml_stride dl * ml_cols dl <= blen dst /\ ml_rows dl = 16 /\ ml_cols dl = 8 /\
  kernel_x86 true avx2 s8 s32 lp rp mp 0 0 16 8 dl 0 dst = UB /\
  exists d0, kernel_run true (int_ops checked true s8s s8s s32) 8 8 lp rp mp 0 0 16 8 dl 0 dst = Ok d0.
Proof.
  exists (ex_packed 8 ex_lhs 0), (ex_packed 8 ex_rhs 0), (plain_params int_min int_max), far_dst, {| blen := 2 ^ 30; bdat := fun _ => 0 |}.
  split; [apply ex_blocks; [left; reflexivity|]; intros k c; change (it_lo s8) with (-128); change (it_hi s8) with 127; unfold ex_lhs; pose proof (Z.mod_pos_bound (7 * k + 3 * c) 11); lia|].
  split; [apply ex_blocks; [left; reflexivity|]; intros k c; change (it_lo s8) with (-128); change (it_hi s8) with 127; unfold ex_rhs; pose proof (Z.mod_pos_bound (5 * k + 2 * c) 13); lia|].
  split; [reflexivity|]. split; [reflexivity|]. split; [split; [intros b E; discriminate | intros E; congruence]|].
  split; [vm_compute; repeat split; intro; discriminate|]. split; [reflexivity|]. split; [vm_compute; intro; discriminate|].
  split; [reflexivity|]. split; [reflexivity|]. split; [vm_compute; reflexivity|].
  destruct (value_at_ok (kernel_run true (int_ops checked true s8s s8s s32) 8 8 (ex_packed 8 ex_lhs 0) (ex_packed 8 ex_rhs 0) (plain_params int_min int_max) 0 0 16 8 far_dst 0
    {| blen := 2 ^ 30; bdat := fun _ => 0 |}) 0 (-25)) as (d0 & E0 & _); [vm_compute; reflexivity|]. exists d0. exact E0.
Qed.

(** Zero points of -128 (zero in uint8) and a depth of 2^17: the product of the three is not an int32. *)
Definition deep (zp : Z) : pmat Z := {|
  p_data := {| blen := 2 ^ 20; bdat := fun _ => -128 |};
  p_sums := Some {| blen := 8; bdat := fun _ => - 2 ^ 24 |};
  p_layout := {| pl_rows := 2 ^ 17; pl_cols := 8; pl_stride := 2 ^ 17; pl_order := ColMajor; pl_kernel := {| kl_order := ColMajor; kl_rows := 4; kl_cols := 8 |} |};
  p_zp := zp |}.

Lemma deep_blocks : forall zp, packed_blocks 8 s8 (deep zp).
Proof.
  intros zp. unfold packed_blocks, deep. cbn [p_layout pl_kernel pl_order pl_stride pl_rows pl_cols p_data blen bdat].
  split; [reflexivity|]. split; [reflexivity|]. split; [reflexivity|]. split; [vm_compute; intro; discriminate|]. split; [exists (2 ^ 15); reflexivity|].
  split; [vm_compute; intro; discriminate|]. split; [exists 1; reflexivity|]. split; [vm_compute; intro; discriminate|]. split; [vm_compute; intro; discriminate|].
  intros q _. vm_compute. split; intro; discriminate.
Qed.

Lemma deep_zero_points : exists lp rp mp dl dst,
  packed_blocks 8 s8 lp /\ packed_blocks 8 s8 rp /\ p_zp lp = -128 /\ p_zp rp = -128 /\ params_cover s32 mp 8 /\
  valid_layout dl /\ ml_order dl = ColMajor /\ ml_stride dl * ml_cols dl <= blen dst /\
  kernel_x86 true avx2 s8 s32 lp rp mp 0 0 8 8 dl 0 dst = UB /\
  forall i j, 0 <= i < 8 -> 0 <= j < 8 -> exact_accumulator (pl_rows (p_layout lp)) (-128) (-128) (fun _ _ => -128) (fun _ _ => -128) mp i j = 0.
Proof.
  exists (deep (-128)), (deep (-128)), (plain_params int_min int_max), (ex_dst 8 8), ex_buf.
  split; [apply deep_blocks|]. split; [apply deep_blocks|]. split; [reflexivity|]. split; [reflexivity|].
  split; [split; [intros b E; discriminate | intros E; congruence]|].
  split; [vm_compute; repeat split; intro; discriminate|]. split; [reflexivity|]. split; [vm_compute; intro; discriminate|].
  split; [vm_compute; reflexivity|]. intros i j _ _. unfold exact_accumulator, bias_at. cbn [plain_params mp_bias].
  change (-128 - -128) with 0. change (0 * 0) with 0. induction (zrange 0 (pl_rows (p_layout (deep (-128))))) as [|x l IH]; [reflexivity|]. cbn [map zsum fold_right] in *. exact IH.
Qed.
