(** Calls of the x86 packing functions outside the hypotheses of the theorems, and examples. *)
From Coq Require Import ZArith List Bool Lia.
From Verif Require Import Base SidePair SizeUtilFacts BlockMapFacts Mat MatFacts Scalars IntOps Pack SpecArith SpecMatrix SpecPack PackFacts PackProps MulParams Kernel Simd
  MemcpyPackFacts Kernel8bitProps Kernel8bit Kernel8bitIsa Kernel8bitFacts PackX86 PackX86Laws PackX86Facts PackX86Block PackX86Props PackX86RowLaws PackX86RowProps SpecPackX86.
Import ListNotations.
Open Scope Z_scope.

Section Overflow.
Variables (dbg : bool) (src zerobuf data0 : buf Z) (z xor off stride remaining rows po soff : Z) (sums : buf Z).
Let k := avx512_col.
Let W := 16.
Let R := c_rows k.
Let nontr := R * (rows / R).
Let r4 := rows4 rows.
Hypothesis Hxor : good_xor 1 xor.
Hypothesis Hz : forall i, bdat zerobuf i = z.
Hypothesis Hzl : 32 <= blen zerobuf.
Hypothesis Hzr : in_bits 8 z.
Hypothesis Hrows : 0 <= rows.
Hypothesis Hsrc : forall c, 0 <= c < 16 -> c < remaining -> 0 <= off + c * stride /\ off + c * stride + rows <= blen src.
Hypothesis Hpo : 0 <= po.
Hypothesis Hdata : po + 16 * r4 <= blen data0.
Hypothesis Hsoff : 0 <= soff.
Hypothesis Hsums : soff + 16 <= blen sums.
Hypothesis Hrem : 0 < remaining <= 8.
Hypothesis Hmax : rows + 3 <= int_max /\ 16 * nontr <= int_max.
Hypothesis Hbad : P k xor z * r4 < int_min \/ int_max < P k xor z * r4.

Lemma pad_overflow : pack_block dbg k src zerobuf xor off stride remaining rows po soff data0 (Some sums) = UB.
Proof.
  pose proof avx512_col_laws as K. fold k in K.
  assert (NF : 0 <= nontr /\ nontr <= rows /\ rows <= r4).
  { unfold nontr, r4, rows4. change R with 32. pose proof (Z.div_mod rows 32 ltac:(clear; lia)). pose proof (Z.mod_pos_bound rows 32 ltac:(clear; lia)).
    pose proof (Z.div_mod (rows + 3) 4 ltac:(clear; lia)). pose proof (Z.mod_pos_bound (rows + 3) 4 ltac:(clear; lia)). pose proof (Z.div_pos rows 32 Hrows ltac:(clear; lia)). clear - H H0 H1 H2 H3. lia. }
  unfold pack_block. change (c_width k) with 16. fold R.
  destruct (half_pack_ok k slots_512 rep_512 K dbg src zerobuf data0 (const_buf (R * 16) 0) z xor off stride remaining rows po 0) with (soff := soff) (sums := Some sums)
    as (d1 & t1 & s1 & E1 & [L1 _] & _ & S1); try assumption.
  { intros c Hc1 Hc2. apply Hsrc; [|exact Hc2]. clear - Hc1. lia. }
  { left. change (c_width k) with 16. fold R nontr. clear - Hdata NF. lia. }
  { clear. lia. }
  { change (c_width k) with 16. fold R. cbn [const_buf blen]. change R with 32. clear. lia. }
  { intros b Eb. injection Eb as <-. clear - Hsums. lia. }
  rewrite E1. cbn [bind]. clear E1. change (16 =? 8) with false. cbv iota. replace (8 <? remaining) with false by (clear - Hrem; lia).
  assert (Hlx : Z.lxor z xor = P k xor z) by (apply (lxor_P k slots_512 rep_512 K); assumption).
  unfold bread. replace ((0 <=? 0) && (0 <? blen zerobuf)) with true by (clear - Hzl; lia). rewrite Hz. cbn [bind]. cbv zeta. rewrite Hlx.
  destruct (zero_half_ok k slots_512 rep_512 K src zerobuf d1 z xor off stride remaining rows soff None Hz Hrows) with (zp := P k xor z) (data := d1) (p := po + 32)
    as (d2 & E2 & _); try assumption.
  { intros b Eb. discriminate. }
  { apply Hrem. }
  { intros _ H. clear - H Hrem. lia. }
  { intros _ _ H. contradiction. }
  { reflexivity. }
  { clear - Hpo. lia. }
  { left. change (c_width k) with 16. fold R nontr. rewrite L1. clear - Hdata NF. lia. }
  { apply Hmax. }
  rewrite E2. cbn [bind]. unfold summed in S1. destruct s1 as [b1|]; [|destruct S1].
  rewrite i32_ok by (destruct Hmax as [M1 _]; clear - M1 Hrows; unfold int_min; lia). cbn [bind].
  replace (Z.land (rows + 3) (Z.lnot 3)) with r4.
  2: { unfold r4, rows4. change (Z.lnot 3) with (Z.lnot (2 ^ 2 - 1)). rewrite land_lnot_pow2 by (clear; lia). change (2 ^ 2) with 4. ring. }
  rewrite forto_step by (clear; lia). rewrite i32_ub by (clear - Hbad; lia). reflexivity.
Qed.
End Overflow.

(** One column of 2^24 + 4 bytes, with the zero point of an unsigned matrix whose zero point is 0. *)
Definition tall_src : mat Z :=
  {| m_data := const_buf 16777220 0; m_layout := {| ml_rows := 16777220; ml_cols := 1; ml_stride := 16777220; ml_order := ColMajor |}; m_zp := 0 |}.
Definition tall_dst : pmat Z :=
  {| p_data := const_buf 268435520 0; p_sums := Some (const_buf 16 0);
     p_layout := {| pl_order := ColMajor; pl_rows := 16777220; pl_cols := 16; pl_stride := 16777220; pl_kernel := blocks_of 16 |}; p_zp := -128 |}.

Lemma tall_call : pack_call 16 s8 tall_src tall_dst 0 16.
Proof.
  unfold pack_call, valid_matrix, packed_for, packed_layout_of, is_round_up, valid_layout, outer_size, inner_size. cbn.
  repeat split; try (unfold int_max; lia); try (exists 4194305; reflexivity); try (exists 1; reflexivity); try (exists 0; reflexivity).
  intros b E. injection E as <-. cbn [const_buf blen]. lia.
Qed.

Lemma tall_ub : forall dbg, pack_col_x86 dbg avx512_col u8 tall_src tall_dst 0 16 = UB.
Proof.
  intros dbg. unfold pack_col_x86. cbn [tall_src tall_dst m_layout m_data ml_order ml_stride ml_rows ml_cols p_layout p_zp p_data p_sums pl_order pl_stride].
  change (c_width avx512_col) with 16. change (order_eqb ColMajor ColMajor) with true. rewrite !dcheck_true by reflexivity. cbn [bind].
  rewrite i32_ok by (unfold int_min, int_max; lia). cbn [bind]. change (Z.rem (16 - 0) 16 =? 0) with true. change (Z.rem 0 16 =? 0) with true. rewrite !dcheck_true by reflexivity. cbn [bind].
  unfold forstep. change ((16 - 0 + 16 - 1) / 16) with 1. rewrite forto_step by lia. change (0 + 0 * 16) with 0.
  rewrite !i32_ok by (change (Z.land 0 (Z.lnot (16 - 1))) with 0; unfold int_min, int_max; lia). cbn [bind].
  change (Z.land 0 (Z.lnot (16 - 1))) with 0. change (16777220 * 0) with 0. change (1 - 0) with 1.
  rewrite (pad_overflow dbg (const_buf 16777220 0) (const_buf 32 (it_conv (packed_type avx512_col) (Z.lxor (-128) (input_xor_of u8)))) (const_buf 268435520 0)
    (it_conv (packed_type avx512_col) (Z.lxor (-128) (input_xor_of u8))) (input_xor_of u8) 0 16777220 1 16777220 0 0 (const_buf 16 0)); [reflexivity|..].
  - right. split; reflexivity.
  - reflexivity.
  - cbn [const_buf blen]. lia.
  - change (it_conv (packed_type avx512_col) (Z.lxor (-128) (input_xor_of u8))) with 0. unfold in_bits. cbn. lia.
  - lia.
  - intros c Hc Hc'. cbn [const_buf blen]. lia.
  - lia.
  - cbn [const_buf blen]. unfold rows4. change ((16777220 + 3) / 4) with 4194305. lia.
  - lia.
  - cbn [const_buf blen]. lia.
  - lia.
  - change (c_rows avx512_col) with 32. change (16777220 / 32) with 524288. unfold int_max. lia.
  - left. change (it_conv (packed_type avx512_col) (Z.lxor (-128) (input_xor_of u8))) with 0. change (P avx512_col (input_xor_of u8) 0) with (-128). unfold rows4. change ((16777220 + 3) / 4) with 4194305. unfold int_min. lia.
Qed.

Lemma tall_refutes : exists src p, ml_order (m_layout src) = ColMajor /\ pack_call 16 s8 src p 0 16 /\ p_zp p = it_conv s8 (m_zp src - middle u8) /\
  (exists s, p_sums p = Some s) /\ forall dbg, pack_col_x86 dbg avx512_col u8 src p 0 16 = UB.
Proof.
  exists tall_src, tall_dst. split; [reflexivity|]. split; [exact tall_call|]. split; [reflexivity|]. split; [eexists; reflexivity|]. exact tall_ub.
Qed.

(** A packed matrix without sums. *)
Definition unsummed_src : mat Z :=
  {| m_data := const_buf 32 1; m_layout := {| ml_rows := 4; ml_cols := 8; ml_stride := 8; ml_order := RowMajor |}; m_zp := 0 |}.
Definition unsummed_dst : pmat Z :=
  {| p_data := const_buf 32 0; p_sums := None;
     p_layout := {| pl_order := ColMajor; pl_rows := 4; pl_cols := 8; pl_stride := 4; pl_kernel := blocks_of 8 |}; p_zp := 0 |}.

Lemma unsummed_refutes : exists src p, ml_order (m_layout src) = RowMajor /\ pack_call 8 s8 src p 0 8 /\ p_zp p = it_conv s8 (m_zp src - middle s8) /\
  (forall dbg, pack_row_x86 dbg avx2_row s8 src p 0 8 = UB /\ pack_row_x86 dbg avx_row s8 src p 0 8 = UB).
Proof.
  exists unsummed_src, unsummed_dst. split; [reflexivity|]. split.
  - unfold pack_call, valid_matrix, packed_for, packed_layout_of, is_round_up, valid_layout, outer_size, inner_size. cbn.
    repeat split; try (unfold int_max; lia); try (exists 1; reflexivity); try (exists 0; reflexivity). intros b E. discriminate.
  - split; [reflexivity|]. intros dbg. destruct dbg; split; reflexivity.
Qed.
