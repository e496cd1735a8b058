(** The x86 packing functions, one theorem for each order, and against the portable ones. *)
From Coq Require Import ZArith List Bool Lia.
From Verif Require Import Base SidePair Mat MatFacts Scalars IntOps Pack SpecArith SpecMatrix SpecPack PackFacts PackProps SimdFacts
  PackX86 PackX86Laws PackX86Props PackX86RowLaws PackX86RowProps SpecPackX86.
Import ListNotations.
Open Scope Z_scope.

Lemma columns_are_packed : forall dbg k n pt st src p a b, column_function k n pt st -> ml_order (m_layout src) = ColMajor ->
  pack_call n pt src p a b -> (n = 16 -> p_sums p <> None -> int_min <= p_zp p * pl_rows (p_layout p) <= int_max) ->
  exists q, pack_col_x86 dbg k st src p a b = Ok q /\ columns_packed st pt src a b p q.
Proof.
  intros dbg k n pt st src p a b [(-> & -> & -> & Hst)|[(-> & -> & -> & Hst)|[(-> & -> & -> & Hst)|(-> & -> & -> & ->)]]] Ho Hc Hs.
  - apply (pack_col_packed avx_col slots_256 rep_256 avx_col_laws); try assumption. destruct Hst as [-> | ->]; [right; reflexivity|left; split; reflexivity].
  - apply (pack_col_packed avx2_col slots_256 rep_256 avx2_col_laws); try assumption. destruct Hst as [-> | ->]; [right; reflexivity|left; split; reflexivity].
  - apply (pack_col_packed avx512_col slots_512 rep_512 avx512_col_laws); try assumption. destruct Hst as [-> | ->]; [right; reflexivity|left; split; reflexivity].
  - apply (pack_col_packed avx512_col16 slots16_512 rep_512 avx512_col16_laws); try assumption. right; reflexivity.
Qed.

Lemma rows_are_packed : forall dbg k n st src p a b, row_function k n -> st = u8 \/ st = s8 -> ml_order (m_layout src) = RowMajor ->
  pack_call n s8 src p a b -> it_lo st <= m_zp src <= it_hi st -> p_zp p = it_conv s8 (m_zp src - middle st) ->
  pl_rows (p_layout p) <= 2 ^ 24 -> p_sums p <> None ->
  exists q, pack_row_x86 dbg k st src p a b = Ok q /\ columns_packed st s8 src a b p q.
Proof.
  intros dbg k n st src p a b Hk Hst Ho Hc Hm Hz Hr Hs. destruct (p_sums p) as [s|] eqn:Es; [|contradiction].
  assert (K : row_laws k /\ n = r_width k) by (destruct Hk as [[-> ->]|[[-> ->]|[-> ->]]]; split; try reflexivity; [exact avx_row_laws|exact avx2_row_laws|exact avx512_row_laws]).
  destruct K as [K ->]. apply (pack_row_packed k K dbg st src p a b Hst Ho Hc Hm Hz Hr s Es).
Qed.

Lemma accumulate_wrapping : forall l acc, wrap_s 32 acc = acc -> accumulate (fun a v => wrapping (a + v)) acc l = Ok (wrap_s 32 (acc + zsum l)).
Proof.
  induction l as [|x l IH]; intros acc H; cbn [accumulate zsum].
  - rewrite Z.add_0_r, H. reflexivity.
  - unfold wrapping at 1. cbn [bind]. rewrite IH by (apply wrap_s_s; lia). f_equal.
    rewrite <- (SimdFacts.wrap_s_mod 32 (wrap_s 32 (acc + x) + zsum l)), <- (SimdFacts.wrap_s_mod 32 (acc + (x + zsum l))) by lia. f_equal.
    rewrite Z.add_mod, Base.wrap_s_mod, <- Z.add_mod by lia. f_equal. ring.
Qed.

Lemma value_is_entry : forall dbg s sts pts dt src zp r c, symmetric_zero_point (get s sts) = middle (get s sts) -> 0 < it_bits (get s pts) -> it_signed (get s pts) = true ->
  it_lo (get s pts) <= zp <= it_hi (get s pts) -> c < ml_cols (m_layout src) ->
  packed_entry (int_ops wrapping dbg sts pts dt) s src zp r c = packed_value (get s sts) (get s pts) src zp r c.
Proof.
  intros dbg s sts pts dt src zp r c Hm Hb Hs Hz Hc. unfold packed_entry, packed_value. replace (c <? ml_cols (m_layout src)) with true by lia. rewrite andb_true_r.
  cbn [int_ops o_pack o_of_zp]. destruct (r <? ml_rows (m_layout src)).
  - unfold pack_int. rewrite Hm. unfold symmetric_zero_point. rewrite Hs. f_equal. lia.
  - apply it_conv_id; [exact Hb|exact Hz].
Qed.

Lemma columns_packed_portable : forall dbg dbg' s sts pts dt n src p a b q, valid_kernel_layout (blocks_of n) ->
  symmetric_zero_point (get s sts) = middle (get s sts) -> 0 < it_bits (get s pts) -> it_signed (get s pts) = true ->
  pack_call n (get s pts) src p a b -> columns_packed (get s sts) (get s pts) src a b p q ->
  exists q', run_pack dbg (int_ops wrapping dbg' sts pts dt) s n src p a b = Ok q' /\ same_columns src a b q q'.
Proof.
  intros dbg dbg' s sts pts dt n src p a b q Hk Hmid Hbits Hsg (HV & HP & Hz & Hab & Hb & Da & Db) C.
  set (o := int_ops wrapping dbg' sts pts dt).
  assert (SE : forall r c, c < ml_cols (m_layout src) -> packed_entry o s src (p_zp p) r c = packed_value (get s sts) (get s pts) src (p_zp p) r c)
    by (intros; apply value_is_entry; assumption).
  assert (SS : forall c, packed_sum o s src (p_zp p) (pl_rows (p_layout p)) c = Ok (wrap_s 32 (zsum (map (fun r => packed_entry o s src (p_zp p) r c) (zrange 0 (pl_rows (p_layout p)))))))
    by (intros c; unfold packed_sum; cbn [o int_ops o_sum_add o_sum0]; rewrite accumulate_wrapping by reflexivity; rewrite Z.add_0_l; reflexivity).
  destruct (run_pack_ranges Z dbg o s (blocks_of n) src Hk HV p [(a, b)] HP) as (q' & E & EL & EZ & ELen & V & Rest & S).
  - intros a' b' [H|[]]. injection H as <- <-. cbn [blocks_of kl_cols]. repeat split; try assumption; apply Hab.
  - intros c _. eexists. apply SS.
  - cbn [pack_ranges blocks_of kl_cols] in E. destruct (run_pack dbg o s n src p a b) as [q1| |] eqn:E1; cbn [bind] in E; try discriminate. injection E as ->.
    exists q'. split; [reflexivity|]. split.
    + intros r c Hr Hc Hcc. destruct (cp_shape _ _ _ _ _ _ _ C) as (EL' & _ & _). rewrite EL' in Hr. rewrite (cp_values _ _ _ _ _ _ _ C r c Hr Hc Hcc).
      assert (CC : covered [(a, b)] c) by (exists a, b; split; [left; reflexivity|exact Hc]).
      specialize (V r c Hr CC). rewrite SE in V by exact Hcc. symmetry. unfold pelement in *. rewrite EL in *.
      assert (PL : playout_ok (p_layout p)) by (apply (packed_for_ok src (blocks_of n) p Hk HV HP)).
      rewrite poffset_ok in * by (try exact PL; try exact Hr; lia). exact V.
    + pose proof (cp_sums _ _ _ _ _ _ _ C) as CS. destruct (p_sums p) as [s0|]; destruct (p_sums q) as [s1|]; try (destruct CS; fail); destruct (p_sums q') as [s2|]; try (destruct S; fail); [|exact Logic.I].
      destruct CS as (_ & CS1 & CS2). destruct S as (_ & S1 & S2). intros c Hc. destruct (Z_lt_le_dec c a) as [L|L]; [|destruct (Z_lt_le_dec c b) as [L'|L']].
      * rewrite CS2, S2; [reflexivity| |lia]. intros (a' & b' & [H|[]] & Hab'). injection H as <- <-. lia.
      * rewrite CS1 by lia. assert (CC : covered [(a, b)] c) by (exists a, b; split; [left; reflexivity|lia]). specialize (S1 c CC). rewrite SS in S1. injection S1 as <-.
        do 2 f_equal. apply map_ext_in. intros r _. symmetry. apply SE. lia.
      * rewrite CS2, S2; [reflexivity| |lia]. intros (a' & b' & [H|[]] & Hab'). injection H as <- <-. lia.
Qed.

Lemma column_blocks : forall k n pt st, column_function k n pt st -> valid_kernel_layout (blocks_of n) /\ symmetric_zero_point st = middle st /\ 0 < it_bits pt /\ it_signed pt = true.
Proof.
  intros k n pt st H. assert (B : (n = 8 \/ n = 16) /\ (pt = s8 \/ pt = s16) /\ (st = s8 \/ st = u8 \/ st = s16)) by (destruct H as [(_ & -> & -> & [-> | ->])|[(_ & -> & -> & [-> | ->])|[(_ & -> & -> & [-> | ->])|(_ & -> & -> & ->)]]]; auto).
  destruct B as (Hn & Hp & Hst). split; [|split; [destruct Hst as [->|[-> | ->]]; reflexivity|destruct Hp as [-> | ->]; split; reflexivity]].
  unfold valid_kernel_layout. cbn [blocks_of kl_rows kl_cols]. split; [exists 2; lia|]. destruct Hn as [-> | ->]; (split; [|lia]); [exists 3|exists 4]; lia.
Qed.

Lemma row_blocks : forall k n, row_function k n -> valid_kernel_layout (blocks_of n).
Proof.
  intros k n H. assert (Hn : n = 8 \/ n = 16) by (destruct H as [[_ ->]|[[_ ->]|[_ ->]]]; auto).
  unfold valid_kernel_layout. cbn [blocks_of kl_rows kl_cols]. split; [exists 2; lia|]. destruct Hn as [-> | ->]; (split; [|lia]); [exists 3|exists 4]; lia.
Qed.

Lemma columns_as_portable : forall dbg dbg' k n s sts pts dt src p a b, column_function k n (get s pts) (get s sts) -> ml_order (m_layout src) = ColMajor ->
  pack_call n (get s pts) src p a b -> (n = 16 -> p_sums p <> None -> int_min <= p_zp p * pl_rows (p_layout p) <= int_max) ->
  exists q q', pack_col_x86 dbg k (get s sts) src p a b = Ok q /\ run_pack dbg' (int_ops wrapping dbg' sts pts dt) s n src p a b = Ok q' /\
    same_columns src a b q q'.
Proof.
  intros dbg dbg' k n s sts pts dt src p a b Hk Ho Hc Hs. destruct (columns_are_packed dbg k n _ _ src p a b Hk Ho Hc Hs) as (q & E & C).
  destruct (column_blocks _ _ _ _ Hk) as (V & M & B & Sg). destruct (columns_packed_portable dbg' dbg' s sts pts dt n src p a b q V M B Sg Hc C) as (q' & E' & S).
  exists q, q'. split; [exact E|]. split; assumption.
Qed.

Lemma rows_as_portable : forall dbg dbg' k n s sts pts dt src p a b, row_function k n -> get s sts = u8 \/ get s sts = s8 -> get s pts = s8 ->
  ml_order (m_layout src) = RowMajor -> pack_call n s8 src p a b -> it_lo (get s sts) <= m_zp src <= it_hi (get s sts) ->
  p_zp p = it_conv s8 (m_zp src - middle (get s sts)) -> pl_rows (p_layout p) <= 2 ^ 24 -> p_sums p <> None ->
  exists q q', pack_row_x86 dbg k (get s sts) src p a b = Ok q /\ run_pack dbg' (int_ops wrapping dbg' sts pts dt) s n src p a b = Ok q' /\
    same_columns src a b q q'.
Proof.
  intros dbg dbg' k n s sts pts dt src p a b Hk Hst Hpt Ho Hc Hm Hz Hr Hs. destruct (rows_are_packed dbg k n _ src p a b Hk Hst Ho Hc Hm Hz Hr Hs) as (q & E & C).
  pose proof (row_blocks _ _ Hk) as V. rewrite <- Hpt in Hc, C. destruct (columns_packed_portable dbg' dbg' s sts pts dt n src p a b q V) as (q' & E' & S); try assumption; try (rewrite Hpt; reflexivity); try (destruct Hst as [-> | ->]; reflexivity).
  exists q, q'. split; [exact E|]. split; assumption.
Qed.
