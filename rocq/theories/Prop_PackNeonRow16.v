(** C69: packing row-major matrices for kNeon. *)
From Coq Require Import ZArith List Bool.
From Verif Require Import Base SidePair Mat Scalars IntOps Pack SpecMatrix SpecPack SpecPackX86 PackX86Examples NeonPackExamples NeonPackRow16 SpecPackNeonRow16 NeonPackRow16Props NeonPackRow16Examples.
Import ListNotations.
Open Scope Z_scope.

(** The columns asked for are packed with their sums, padding columns are zero, and nothing else is written; for blocks of four
    columns (64-bit ARM) and of two (32-bit). *)
Theorem C69_rows : forall dbg n st src p a b, n = 2 \/ n = 4 -> st = u8 \/ st = s8 -> row16_call n src p a b ->
  exists q, pack_row16_neon dbg n st src p a b = Ok q /\ columns_packed st s8 src a b p q /\ padding_zero src a b q.
Proof. exact rows16_packed. Qed.
Print Assumptions C69_rows.

(** The columns of the source are packed as by the portable function. *)
Theorem C69_as_portable : forall dbg dbg' n s sts pts dt src p a b, n = 2 \/ n = 4 -> get s sts = u8 \/ get s sts = s8 -> get s pts = s8 -> row16_call n src p a b ->
  exists q q', pack_row16_neon dbg n (get s sts) src p a b = Ok q /\ run_pack dbg' (int_ops wrapping dbg' sts pts dt) s n src p a b = Ok q' /\ same_columns src a b q q'.
Proof. exact rows16_as_portable. Qed.
Print Assumptions C69_as_portable.

Example C69_nonvacuous : row16_call 4 (ex_src u8 RowMajor 21 15 18 200) (ex_neon_dst (sixteens 4) true 32 16 72) 4 16.
Proof. exact ex_row16_call. Qed.
Example C69_nonvacuous2 : row16_call 2 (ex_src s8 RowMajor 16 13 18 3) (ex_neon_dst (sixteens 2) true 16 14 3) 2 14.
Proof. exact ex_row16_call2. Qed.
Example C69_runs : map (fun c => fst (ex_column (pack_row16_neon true 4 u8 (ex_src u8 RowMajor 21 15 18 200) (ex_neon_dst (sixteens 4) true 32 16 72) 4 16) c)) [4; 7; 11; 12; 14; 15] =
  map (ex_row16_entries u8 (ex_src u8 RowMajor 21 15 18 200) (ex_neon_dst (sixteens 4) true 32 16 72)) [4; 7; 11; 12; 14; 15].
Proof. exact ex_row16_runs. Qed.
