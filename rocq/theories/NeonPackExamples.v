(** Concrete calls of the packing functions for AArch64. *)
From Coq Require Import ZArith List Bool Lia.
From Verif Require Import Base SidePair Mat Scalars IntOps Pack SpecArith SpecMatrix SpecPack Kernel8bit PackX86Examples SpecPackX86 Neon64 NeonPack SpecPackNeon.
Import ListNotations.
Open Scope Z_scope.

(** A packed matrix, with sums unless it is one of words. *)
Definition ex_neon_dst (kl : kernel_layout) (sums : bool) (rows cols zp : Z) : pmat Z :=
  {| p_data := const_buf (rows * cols) 77; p_sums := if sums then Some (const_buf cols 55) else None;
     p_layout := {| pl_order := ColMajor; pl_rows := rows; pl_cols := cols; pl_stride := rows; pl_kernel := kl |}; p_zp := zp |}.
(** Registers with pointers and numbers left in them. *)
Definition ex_left (block_col : Z) : leftover :=
  {| lo_xs := fun k => if Nat.even k then Int (Z.of_nat k * 1234567891) else Ptr k 3; lo_vs := fun k => repeat (Z.of_nat k + block_col) 16;
     lo_fl := {| f_eq := true; f_lt := None |}; lo_upper := fun k => Z.of_nat k * 77777 + block_col |}.

Ltac ex_neon := unfold neon_call, valid_matrix, packed_for, packed_layout_of, is_round_up, valid_layout, outer_size, inner_size, typed; cbn;
  repeat split; try (unfold int_max; lia); try discriminate; try (intros; unfold int_max; lia);
  try (intros b E; injection E as <-; cbn; intros; lia);
  try (match goal with H : Some _ = Some _ |- _ => injection H as <- end; cbn; lia).

Lemma ex_16x4_call : neon_call bytes_16x4 s8 u8 (ex_src u8 ColMajor 37 5 40 200) (ex_neon_dst bytes_16x4 true 48 8 72) 4 8.
Proof. ex_neon; [exists 3|exists 2|exists 1|exists 2]; reflexivity. Qed.
Lemma ex_4x8_call : neon_call bytes_4x8 s8 s8 (ex_src s8 ColMajor 22 11 40 3) (ex_neon_dst bytes_4x8 true 24 16 3) 8 16.
Proof. ex_neon; [exists 6|exists 2|exists 1|exists 2]; reflexivity. Qed.
Lemma ex_float_call : neon_call floats_1x8 s32 s32 (ex_src s32 ColMajor 7 3 9 0) (ex_neon_dst floats_1x8 false 7 8 0) 0 8.
Proof. ex_neon; [exists 7|exists 1|exists 0|exists 1]; reflexivity. Qed.

(** What the machine computes for them. *)
Definition ex_entries (st pt : ity) (src : mat Z) (p : pmat Z) (c : Z) : list (res Z) :=
  map (fun r => Ok (filled_value st pt src (p_zp p) r c)) (zrange 0 (pl_rows (p_layout p))).
Lemma ex_16x4_runs : fst (ex_column (pack_neon true neon_16x4 false ex_left u8 (ex_src u8 ColMajor 37 5 40 200) (ex_neon_dst bytes_16x4 true 48 8 72) 4 8) 4) =
  ex_entries u8 s8 (ex_src u8 ColMajor 37 5 40 200) (ex_neon_dst bytes_16x4 true 48 8 72) 4.
Proof. vm_compute. reflexivity. Qed.
Lemma ex_float_runs : fst (ex_column (pack_neon true neon_float true ex_left s32 (ex_src s32 ColMajor 7 3 9 0) (ex_neon_dst floats_1x8 false 7 8 0) 0 8) 2) =
  ex_entries s32 s32 (ex_src s32 ColMajor 7 3 9 0) (ex_neon_dst floats_1x8 false 7 8 0) 2.
Proof. vm_compute. reflexivity. Qed.
