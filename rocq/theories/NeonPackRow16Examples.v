(** Concrete calls of the packing function for row-major matrices on kNeon. *)
From Coq Require Import ZArith List Bool Lia.
From Verif Require Import Base SidePair Mat Scalars IntOps Pack SpecArith SpecMatrix SpecPack PackX86Examples SpecPackX86 NeonPackExamples NeonPackRow16 SpecPackNeonRow16.
Import ListNotations.
Open Scope Z_scope.

Ltac ex_row16 := unfold row16_call, valid_matrix, packed_for, packed_layout_of, is_round_up, valid_layout, outer_size, inner_size; cbn;
  repeat split; try (unfold int_max; lia); try discriminate; try (intros b E; injection E as <-; cbn; lia).

(** 21 rows and 15 columns of uint8, packed from column 4 on: eight columns at once, three alone, one of padding. *)
Lemma ex_row16_call : row16_call 4 (ex_src u8 RowMajor 21 15 18 200) (ex_neon_dst (sixteens 4) true 32 16 72) 4 16.
Proof. ex_row16; [exists 2|exists 4|exists 1|exists 4]; reflexivity. Qed.
(** The same for the blocks of two columns of 32-bit ARM. *)
Lemma ex_row16_call2 : row16_call 2 (ex_src s8 RowMajor 16 13 18 3) (ex_neon_dst (sixteens 2) true 16 14 3) 2 14.
Proof. ex_row16; [exists 1|exists 7|exists 1|exists 7]; reflexivity. Qed.

Definition ex_row16_entries (st : ity) (src : mat Z) (p : pmat Z) (c : Z) : list (res Z) :=
  map (fun r => Ok (if c <? ml_cols (m_layout src) then packed_value st s8 src (p_zp p) r c else 0)) (zrange 0 (pl_rows (p_layout p))).
Lemma ex_row16_runs : map (fun c => fst (ex_column (pack_row16_neon true 4 u8 (ex_src u8 RowMajor 21 15 18 200) (ex_neon_dst (sixteens 4) true 32 16 72) 4 16) c)) [4; 7; 11; 12; 14; 15] =
  map (ex_row16_entries u8 (ex_src u8 RowMajor 21 15 18 200) (ex_neon_dst (sixteens 4) true 32 16 72)) [4; 7; 11; 12; 14; 15].
Proof. vm_compute. reflexivity. Qed.
Lemma ex_row16_sums : map (fun c => snd (ex_column (pack_row16_neon true 4 u8 (ex_src u8 RowMajor 21 15 18 200) (ex_neon_dst (sixteens 4) true 32 16 72) 4 16) c)) [3; 4; 12; 15] =
  [Some 55; Some (zsum (map (fun r => packed_value u8 s8 (ex_src u8 RowMajor 21 15 18 200) 72 r 4) (zrange 0 32)));
   Some (zsum (map (fun r => packed_value u8 s8 (ex_src u8 RowMajor 21 15 18 200) 72 r 12) (zrange 0 32))); Some 0].
Proof. vm_compute. reflexivity. Qed.
