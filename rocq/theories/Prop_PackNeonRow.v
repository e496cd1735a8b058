(** C67: packing row-major matrices for the AArch64 dot-product kernels. *)
From Coq Require Import ZArith List Bool.
From Verif Require Import Base SidePair Mat Scalars IntOps Pack SpecMatrix SpecPack SpecPackX86 Neon64 NeonPack SpecPackNeon NeonPackProps PackX86Examples NeonPackExamples
  NeonPackRow SpecPackNeonRow NeonPackRowProps NeonPackRowMore NeonPackRowExamples.
Import ListNotations.
Open Scope Z_scope.

(** Whatever the registers hold before, the columns asked for are packed, their padding included, and nothing else is written. *)
Theorem C67_rows : forall dbg gs st src p a b, st = s8 \/ st = u8 -> neon_row_call st src p a b ->
  exists q, pack_row_neon dbg gs st src p a b = Ok q /\ columns_filled st s8 src a b p q.
Proof. exact neon_packs_rows. Qed.
Print Assumptions C67_rows.

(** The portable function leaves the same in memory. *)
Theorem C67_as_portable : forall dbg dbg' s sts pts dt gs src p a b, get s pts = s8 -> get s sts = s8 \/ get s sts = u8 -> neon_row_call (get s sts) src p a b ->
  exists q q', pack_row_neon dbg gs (get s sts) src p a b = Ok q /\ run_pack dbg' (int_ops wrapping dbg' sts pts dt) s 8 src p a b = Ok q' /\
    p_layout q = p_layout q' /\ p_zp q = p_zp q' /\ same_buffers q q'.
Proof. exact neon_rows_as_portable. Qed.
Print Assumptions C67_as_portable.

(** Nine rows and 27 columns of uint8, packed from column 8 on. *)
Example C67_nonvacuous : neon_row_call u8 (ex_src u8 RowMajor 9 27 30 200) (ex_neon_dst bytes_4x8 true 12 32 72) 8 32.
Proof. exact ex_neon_row_call. Qed.
Example C67_runs : map (fun c => fst (ex_column (pack_row_neon true ex_left u8 (ex_src u8 RowMajor 9 27 30 200) (ex_neon_dst bytes_4x8 true 12 32 72) 8 32) c)) [8; 25; 26; 27; 31] =
  map (ex_entries u8 s8 (ex_src u8 RowMajor 9 27 30 200) (ex_neon_dst bytes_4x8 true 12 32 72)) [8; 25; 26; 27; 31].
Proof. exact ex_neon_row_runs. Qed.
