(** Concrete calls of the x86 packing functions. *)
From Coq Require Import ZArith List Bool Lia.
From Verif Require Import Base SidePair Mat Scalars IntOps Pack SpecArith SpecMatrix SpecPack Kernel8bit PackX86 SpecPackX86.
Import ListNotations.
Open Scope Z_scope.

(** A matrix of [t] with zero point [zp], with pseudo-random entries. *)
Definition ex_src (t : ity) (ord : order) (rows cols stride zp : Z) : mat Z :=
  {| m_data := {| blen := stride * (match ord with ColMajor => cols | RowMajor => rows end); bdat := fun i => it_conv t (i * 7919 / 13 + i * i) |};
     m_layout := {| ml_rows := rows; ml_cols := cols; ml_stride := stride; ml_order := ord |}; m_zp := zp |}.

(** A packed matrix of the right size. *)
Definition ex_dst (rows cols n zp : Z) : pmat Z :=
  {| p_data := const_buf (rows * cols) 77; p_sums := Some (const_buf cols 55);
     p_layout := {| pl_order := ColMajor; pl_rows := rows; pl_cols := cols; pl_stride := rows; pl_kernel := blocks_of n |}; p_zp := zp |}.

(** The entries of column [c], and its sum. *)
Definition ex_column (p : res (pmat Z)) (c : Z) : list (res Z) * option Z :=
  match p with
  | Ok p => (map (fun r => pelement true p r c) (zrange 0 (pl_rows (p_layout p))), match p_sums p with Some b => Some (bdat b c) | None => None end)
  | _ => ([], None)
  end.

Ltac ex_call := unfold pack_call, valid_matrix, packed_for, packed_layout_of, is_round_up, valid_layout, outer_size, inner_size; cbn;
  repeat split; try (unfold int_max; lia); try (intros b E; injection E as <-; cbn; lia).

Lemma ex_col_call : pack_call 8 s8 (ex_src u8 ColMajor 37 11 40 200) (ex_dst 40 16 8 72) 0 16.
Proof. ex_call; [exists 10|exists 2|exists 0|exists 2]; reflexivity. Qed.

Lemma ex_col512_call : pack_call 16 s8 (ex_src u8 ColMajor 37 21 40 200) (ex_dst 40 32 16 72) 16 32.
Proof. ex_call; [exists 10|exists 2|exists 1|exists 2]; reflexivity. Qed.

Lemma ex_row_call : pack_call 8 s8 (ex_src u8 RowMajor 9 27 30 200) (ex_dst 12 32 8 72) 8 32.
Proof. ex_call; [exists 3|exists 4|exists 1|exists 4]; reflexivity. Qed.
