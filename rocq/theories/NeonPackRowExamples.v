(** Concrete calls of the packing function for row-major matrices on kNeonDotprod. *)
From Coq Require Import ZArith List Bool Lia.
From Verif Require Import Base SidePair Mat Scalars IntOps Pack SpecArith SpecMatrix SpecPack PackX86Examples SpecPackX86 Neon64 NeonPack SpecPackNeon NeonPackExamples NeonPackRow SpecPackNeonRow.
Import ListNotations.
Open Scope Z_scope.

Ltac ex_row := unfold neon_row_call, valid_matrix, packed_for, packed_layout_of, is_round_up, valid_layout, outer_size, inner_size, typed; cbn;
  repeat split; try (unfold int_max; lia); try discriminate; try (intros; unfold int_max; lia);
  try (eexists; split; [reflexivity|]; cbn; intros; lia).

(** Nine rows and 27 columns of uint8, packed from column 8 on; the last block is partly padding. *)
Lemma ex_neon_row_call : neon_row_call u8 (ex_src u8 RowMajor 9 27 30 200) (ex_neon_dst bytes_4x8 true 12 32 72) 8 32.
Proof. ex_row; try (first [exists 3; reflexivity|exists 4; reflexivity|exists 1; reflexivity]). intros x E. injection E as <-. cbn. lia. Qed.
Lemma ex_neon_row_runs : map (fun c => fst (ex_column (pack_row_neon true ex_left u8 (ex_src u8 RowMajor 9 27 30 200) (ex_neon_dst bytes_4x8 true 12 32 72) 8 32) c)) [8; 25; 26; 27; 31] =
  map (ex_entries u8 s8 (ex_src u8 RowMajor 9 27 30 200) (ex_neon_dst bytes_4x8 true 12 32 72)) [8; 25; 26; 27; 31].
Proof. vm_compute. reflexivity. Qed.
