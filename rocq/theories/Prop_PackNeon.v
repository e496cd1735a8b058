(** C61: packing on AArch64. *)
From Coq Require Import ZArith List Bool.
From Verif Require Import Base SidePair Mat Scalars IntOps Pack SpecMatrix SpecPack SpecPackX86 Neon64 NeonPack SpecPackNeon NeonPackProps PackX86Examples NeonPackExamples.
Import ListNotations.
Open Scope Z_scope.

(** The functions for column-major sources, for both tunings and whatever the registers hold before, pack the columns
    asked for, their padding included, and write nothing else. *)
Theorem C61_columns : forall dbg k kl pt st a55 gs src p a b, neon_function k kl pt st -> neon_call kl pt st src p a b -> (kl_cols kl = 8 -> blocks_fit src b) ->
  exists q, pack_neon dbg k a55 gs st src p a b = Ok q /\ columns_filled st pt src a b p q.
Proof. exact neon_packs_columns. Qed.
Print Assumptions C61_columns.

(** Those for bytes leave in memory what the portable function leaves. *)
Theorem C61_as_portable : forall dbg dbg' k kl s sts pts dt a55 gs src p a b, get s pts = s8 -> neon_function k kl (get s pts) (get s sts) ->
  neon_call kl (get s pts) (get s sts) src p a b -> (kl_cols kl = 8 -> blocks_fit src b) ->
  exists q q', pack_neon dbg k a55 gs (get s sts) src p a b = Ok q /\ run_pack dbg' (int_ops wrapping dbg' sts pts dt) s (kl_cols kl) src p a b = Ok q' /\
    p_layout q = p_layout q' /\ p_zp q = p_zp q' /\ same_buffers q q'.
Proof. exact neon_as_portable. Qed.
Print Assumptions C61_as_portable.

(** With blocks of eight columns, the offset of a block that is all padding can overflow an int. *)
Theorem C61_wide_stride_refuted : forall dbg k kl pt st a55 gs, neon_function k kl pt st -> kl_cols kl = 8 -> st <> u8 ->
  exists src p a b, neon_call kl pt st src p a b /\ pack_neon dbg k a55 gs st src p a b = UB.
Proof. exact neon_wide_stride_refuted. Qed.
Print Assumptions C61_wide_stride_refuted.

(** Calls meeting the hypotheses, and columns they pack. *)
Example C61_16x4 : neon_function neon_16x4 bytes_16x4 s8 u8 /\ neon_call bytes_16x4 s8 u8 (ex_src u8 ColMajor 37 5 40 200) (ex_neon_dst bytes_16x4 true 48 8 72) 4 8.
Proof. split; [left; repeat split; right; reflexivity|exact ex_16x4_call]. Qed.
Example C61_4x8 : neon_function neon_4x8 bytes_4x8 s8 s8 /\ neon_call bytes_4x8 s8 s8 (ex_src s8 ColMajor 22 11 40 3) (ex_neon_dst bytes_4x8 true 24 16 3) 8 16 /\
  blocks_fit (ex_src s8 ColMajor 22 11 40 3) 16.
Proof. split; [right; left; repeat split; left; reflexivity|]. split; [exact ex_4x8_call|intros H; discriminate H]. Qed.
Example C61_float : neon_function neon_float floats_1x8 s32 s32 /\ neon_call floats_1x8 s32 s32 (ex_src s32 ColMajor 7 3 9 0) (ex_neon_dst floats_1x8 false 7 8 0) 0 8 /\
  blocks_fit (ex_src s32 ColMajor 7 3 9 0) 8.
Proof. split; [right; right; repeat split|]. split; [exact ex_float_call|intros H; discriminate H]. Qed.
Example C61_16x4_runs : fst (ex_column (pack_neon true neon_16x4 false ex_left u8 (ex_src u8 ColMajor 37 5 40 200) (ex_neon_dst bytes_16x4 true 48 8 72) 4 8) 4) =
  ex_entries u8 s8 (ex_src u8 ColMajor 37 5 40 200) (ex_neon_dst bytes_16x4 true 48 8 72) 4.
Proof. exact ex_16x4_runs. Qed.
Example C61_float_runs : fst (ex_column (pack_neon true neon_float true ex_left s32 (ex_src s32 ColMajor 7 3 9 0) (ex_neon_dst floats_1x8 false 7 8 0) 0 8) 2) =
  ex_entries s32 s32 (ex_src s32 ColMajor 7 3 9 0) (ex_neon_dst floats_1x8 false 7 8 0) 2.
Proof. exact ex_float_runs. Qed.
