(** The kernels of kNeon add two products of bytes in 16 bits. *)
From Coq Require Import ZArith List Bool Lia.
From Verif Require Import Base SidePair Mat Scalars Pack IntOps MulParams Kernel SpecArith SpecMatrix SpecPack SpecPackX86 PackX86Examples Neon64 NeonPack SpecPackNeon NeonPackExamples Tune Kernel8Neon NeonDeclBad.
Import ListNotations.
Open Scope Z_scope.

(** SMULL, SMLAL2: the sum of two products, in 16 bits, is exact unless all four factors are -128. *)
Lemma pair_exact : forall a b c d, -128 <= a <= 127 -> -128 <= b <= 127 -> -128 <= c <= 127 -> -128 <= d <= 127 ->
  (wrap_s 16 (wrap_s 16 (a * b) + c * d) = a * b + c * d <-> ~ (a = -128 /\ b = -128 /\ c = -128 /\ d = -128)).
Proof.
  intros a b c d Ha Hb Hc Hd.
  assert (B : forall x y, -128 <= x <= 127 -> -128 <= y <= 127 -> -16256 <= x * y <= 16384 /\ (x * y = 16384 -> x = -128 /\ y = -128)) by (intros; nia).
  destruct (B a b Ha Hb) as [B1 B2]. destruct (B c d Hc Hd) as [B3 B4].
  assert (R : forall x, -32768 <= x <= 32767 -> wrap_s 16 x = x) by (intros; apply Base.wrap_s_id; [lia|]; unfold smin, smax; change (2 ^ (16 - 1)) with 32768; lia).
  rewrite (R (a * b)) by lia. split.
  - intros E (-> & -> & -> & ->). vm_compute in E. discriminate E.
  - intros N. apply R. destruct (Z.eq_dec (a * b) 16384) as [E1|E1]; [|lia]. destruct (Z.eq_dec (c * d) 16384) as [E2|E2]; [|lia].
    exfalso. apply N. destruct (B2 E1), (B4 E2). repeat split; assumption.
Qed.

(** Sixteen levels of [cols] columns, all [v]. *)
Definition px_src (v cols : Z) : mat Z :=
  {| m_data := {| blen := 16 * cols; bdat := fun _ => v |}; m_layout := {| ml_rows := 16; ml_cols := cols; ml_stride := 16; ml_order := ColMajor |}; m_zp := 0 |}.
Definition px_dst : pmat Z := ex_neon_dst bytes_16x4 true 16 4 0.
Definition px_params : mul_params Z := {|
  mp_bias := None; mp_mult_pc := None; mp_mult := 0; mp_exp_pc := None; mp_exp := 0; mp_perchannel := false; mp_chan := ChRow; mp_min := int_min; mp_max := int_max; mp_rounding_log2 := 4 |}.
Definition px_layout (cols : Z) : mat_layout := {| ml_rows := 4; ml_cols := cols; ml_stride := 4; ml_order := ColMajor |}.
Definition px_out (cols : Z) : buf Z := {| blen := 4 * cols; bdat := fun _ => 7 |}.

Lemma px_call : forall v cols, 1 <= cols <= 4 -> SpecPackNeon.neon_call bytes_16x4 s8 s8 (px_src v cols) px_dst 0 4.
Proof.
  intros v cols H. unfold SpecPackNeon.neon_call, valid_matrix, packed_for, packed_layout_of, is_round_up, valid_layout, outer_size, inner_size, typed; cbn;
  repeat split; try (unfold int_max; lia); try discriminate; try (intros; unfold int_max; lia);
  try (intros b E; injection E as <-; cbn; intros; lia).
  all: try (match goal with H : Some _ = Some _ |- _ => injection H as <- end; cbn; lia).
  all: try (first [exists 1; reflexivity|exists 0; reflexivity]).
  change (16 * cols <= int_max). unfold int_max. lia.
Qed.

Definition px_entries (r : res (buf Z)) : list Z := match r with Ok d => map (bdat d) (zrange 0 (blen d)) | _ => [] end.
Definition px_result (v : Z) (t : tuning) (cols : Z) : res (buf Z) :=
  l <- pack_neon true neon_16x4 false ex_left s8 (px_src v 4) px_dst 0 4 ;; r <- pack_neon true neon_16x4 false ex_left s8 (px_src v cols) px_dst 0 4 ;;
  kernel_8bit_neon true false t ex_leftover (fun _ => 5) s32 l r px_params 0 0 4 4 (px_layout cols) 0 (px_out cols).

Lemma ok_parts : forall v t cols d, px_result v t cols = Ok d -> exists l r,
  pack_neon true neon_16x4 false ex_left s8 (px_src v 4) px_dst 0 4 = Ok l /\ pack_neon true neon_16x4 false ex_left s8 (px_src v cols) px_dst 0 4 = Ok r /\
  kernel_8bit_neon true false t ex_leftover (fun _ => 5) s32 l r px_params 0 0 4 4 (px_layout cols) 0 (px_out cols) = Ok d.
Proof.
  intros v t cols d. unfold px_result. destruct (pack_neon true neon_16x4 false ex_left s8 (px_src v 4) px_dst 0 4) as [l| |]; try discriminate. cbn [bind].
  destruct (pack_neon true neon_16x4 false ex_left s8 (px_src v cols) px_dst 0 4) as [r| |]; try discriminate. cbn [bind]. intros H. exists l, r. split; [reflexivity|]. split; [reflexivity|exact H].
Qed.

Lemma run_ok : forall (r : res (buf Z)) w, hd_error (px_entries r) = Some w -> exists d, r = Ok d /\ bdat d 0 = w.
Proof.
  intros [d| |] w H; cbn in H; try discriminate. exists d. split; [reflexivity|]. unfold zrange in H. destruct (Z.to_nat (blen d - 0)); cbn in H; [discriminate|injection H as H; exact H].
Qed.

Lemma wrong_values : forall t cols, cols = 1 \/ cols = 4 -> hd_error (px_entries (px_result (-128) t cols)) = Some (-262144).
Proof. intros t cols [-> | ->]; destruct t; vm_compute; reflexivity. Qed.

(** With all operands -128 each of the kernels stores the opposite of the product. *)
Lemma wrong_product : forall t cols, cols = 1 \/ cols = 4 ->
  exists lsrc rsrc lp rp l r d,
    SpecPackNeon.neon_call bytes_16x4 s8 s8 lsrc lp 0 4 /\ SpecPackNeon.neon_call bytes_16x4 s8 s8 rsrc rp 0 4 /\
    pack_neon true neon_16x4 false ex_left s8 lsrc lp 0 4 = Ok l /\ pack_neon true neon_16x4 false ex_left s8 rsrc rp 0 4 = Ok r /\
    kernel_8bit_neon true false t ex_leftover (fun _ => 5) s32 l r px_params 0 0 4 4 (px_layout cols) 0 (px_out cols) = Ok d /\
    zsum (map (fun k => entry lsrc k 0 * entry rsrc k 0) (zrange 0 16)) = 262144 /\ bdat d 0 = -262144.
Proof.
  intros t cols Hc. destruct (run_ok _ _ (wrong_values t cols Hc)) as (d & Ed & Dd).
  destruct (ok_parts _ _ _ _ Ed) as (l & r & El & Er & Ed2).
  exists (px_src (-128) 4), (px_src (-128) cols), px_dst, px_dst, l, r, d. split; [apply px_call; lia|]. split; [apply px_call; lia|]. split; [exact El|]. split; [exact Er|]. split; [exact Ed2|].
  split; [vm_compute; reflexivity|exact Dd].
Qed.

(** With -127 in place of -128 they store the product. *)
Lemma right_product : map (fun t => map (fun c => px_entries (px_result (-127) t c)) [1; 4]) [TGeneric; TA55ish; TX1] = repeat [repeat 258064 4; repeat 258064 16] 3.
Proof. vm_compute. reflexivity. Qed.
