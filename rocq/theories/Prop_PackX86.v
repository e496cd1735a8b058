(** C51: packing with vector instructions. *)
From Coq Require Import ZArith List Bool.
From Verif Require Import Base SidePair Mat Scalars IntOps Pack SpecMatrix SpecPack PackX86 SpecPackX86
  PackX86Portable PackX86Bad PackX86Examples.
Import ListNotations.
Open Scope Z_scope.

(** The four functions for column-major sources pack the columns asked for. With blocks of sixteen
    columns, the product of the zero point and the rows has to fit in an int. *)
Theorem C51_column_major : forall dbg k n pt st src p a b, column_function k n pt st -> ml_order (m_layout src) = ColMajor ->
  pack_call n pt src p a b -> (n = 16 -> p_sums p <> None -> int_min <= p_zp p * pl_rows (p_layout p) <= int_max) ->
  exists q, pack_col_x86 dbg k st src p a b = Ok q /\ columns_packed st pt src a b p q.
Proof. exact columns_are_packed. Qed.
Print Assumptions C51_column_major.

(** The three functions for row-major sources. *)
Theorem C51_row_major : forall dbg k n st src p a b, row_function k n -> st = u8 \/ st = s8 -> ml_order (m_layout src) = RowMajor ->
  pack_call n s8 src p a b -> it_lo st <= m_zp src <= it_hi st -> p_zp p = it_conv s8 (m_zp src - middle st) ->
  pl_rows (p_layout p) <= 2 ^ 24 -> p_sums p <> None ->
  exists q, pack_row_x86 dbg k st src p a b = Ok q /\ columns_packed st s8 src a b p q.
Proof. exact rows_are_packed. Qed.
Print Assumptions C51_row_major.

(** They pack the same columns as the portable function. *)
Theorem C51_column_major_as_portable : forall dbg dbg' k n s sts pts dt src p a b, column_function k n (get s pts) (get s sts) -> ml_order (m_layout src) = ColMajor ->
  pack_call n (get s pts) src p a b -> (n = 16 -> p_sums p <> None -> int_min <= p_zp p * pl_rows (p_layout p) <= int_max) ->
  exists q q', pack_col_x86 dbg k (get s sts) src p a b = Ok q /\ run_pack dbg' (int_ops wrapping dbg' sts pts dt) s n src p a b = Ok q' /\
    same_columns src a b q q'.
Proof. exact columns_as_portable. Qed.
Print Assumptions C51_column_major_as_portable.

Theorem C51_row_major_as_portable : forall dbg dbg' k n s sts pts dt src p a b, row_function k n -> get s sts = u8 \/ get s sts = s8 -> get s pts = s8 ->
  ml_order (m_layout src) = RowMajor -> pack_call n s8 src p a b -> it_lo (get s sts) <= m_zp src <= it_hi (get s sts) ->
  p_zp p = it_conv s8 (m_zp src - middle (get s sts)) -> pl_rows (p_layout p) <= 2 ^ 24 -> p_sums p <> None ->
  exists q q', pack_row_x86 dbg k (get s sts) src p a b = Ok q /\ run_pack dbg' (int_ops wrapping dbg' sts pts dt) s n src p a b = Ok q' /\
    same_columns src a b q q'.
Proof. exact rows_as_portable. Qed.
Print Assumptions C51_row_major_as_portable.

(** Without the bound on the product, the AVX-512 function overflows an int. *)
Theorem C51_tall_column_refuted : exists src p, ml_order (m_layout src) = ColMajor /\ pack_call 16 s8 src p 0 16 /\ p_zp p = it_conv s8 (m_zp src - middle u8) /\
  (exists s, p_sums p = Some s) /\ forall dbg, pack_col_x86 dbg avx512_col u8 src p 0 16 = UB.
Proof. exact tall_refutes. Qed.
Print Assumptions C51_tall_column_refuted.

(** Without sums, the functions for row-major sources write through a null pointer. *)
Theorem C51_no_sums_refuted : exists src p, ml_order (m_layout src) = RowMajor /\ pack_call 8 s8 src p 0 8 /\ p_zp p = it_conv s8 (m_zp src - middle s8) /\
  (forall dbg, pack_row_x86 dbg avx2_row s8 src p 0 8 = UB /\ pack_row_x86 dbg avx_row s8 src p 0 8 = UB).
Proof. exact unsummed_refutes. Qed.
Print Assumptions C51_no_sums_refuted.

(** Calls meeting the hypotheses, and some of what they pack. *)
Example C51_column_call : column_function avx2_col 8 s8 u8 /\ pack_call 8 s8 (ex_src u8 ColMajor 37 11 40 200) (ex_dst 40 16 8 72) 0 16.
Proof. split; [right; left; repeat split; right; reflexivity|exact ex_col_call]. Qed.

Example C51_column_call_512 : column_function avx512_col 16 s8 u8 /\ pack_call 16 s8 (ex_src u8 ColMajor 37 21 40 200) (ex_dst 40 32 16 72) 16 32 /\
  int_min <= p_zp (ex_dst 40 32 16 72) * pl_rows (p_layout (ex_dst 40 32 16 72)) <= int_max.
Proof. split; [right; right; left; repeat split; right; reflexivity|]. split; [exact ex_col512_call|]. split; intros H; discriminate H. Qed.

Example C51_row_call : row_function avx2_row 8 /\ pack_call 8 s8 (ex_src u8 RowMajor 9 27 30 200) (ex_dst 12 32 8 72) 8 32 /\
  p_zp (ex_dst 12 32 8 72) = it_conv s8 (m_zp (ex_src u8 RowMajor 9 27 30 200) - middle u8).
Proof. split; [right; left; split; reflexivity|]. split; [exact ex_row_call|reflexivity]. Qed.

Example C51_row_runs : ex_column (pack_row_x86 true avx2_row u8 (ex_src u8 RowMajor 9 27 30 200) (ex_dst 12 32 8 72) 8 32) 20 =
  ex_column (run_pack true (int_ops wrapping true (mk_sp u8 u8) (mk_sp s8 s8) s32) Lhs 8 (ex_src u8 RowMajor 9 27 30 200) (ex_dst 12 32 8 72) 8 32) 20.
Proof. vm_compute. reflexivity. Qed.

Example C51_column_runs : ex_column (pack_col_x86 true avx512_col u8 (ex_src u8 ColMajor 37 21 40 200) (ex_dst 40 32 16 72) 16 32) 20 =
  ex_column (run_pack true (int_ops wrapping true (mk_sp u8 u8) (mk_sp s8 s8) s32) Lhs 16 (ex_src u8 ColMajor 37 21 40 200) (ex_dst 40 32 16 72) 16 32) 20.
Proof. vm_compute. reflexivity. Qed.
