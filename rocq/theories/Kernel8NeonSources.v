(** One column of kNeon's kernels, from the sources on. *)
From Coq Require Import ZArith List Bool Lia.
From Verif Require Import Base SidePair Mat Scalars Pack IntOps MulParams Kernel MatFacts IntEntryFacts X86FrontFacts.
From Verif Require Import SpecArith SpecRound SpecMatrix SpecPack SpecMul SpecSimd SpecPackX86 SpecPackNeon SpecPackNeonRow16 SpecKernel SpecKernelNeon SpecNeonSums SpecNeonCol4 SpecNeonSources.
From Verif Require Import Kernel8bit Kernel8bitExamples Neon64 NeonPack NeonPackProps NeonPackRow16 NeonPackRow16Props NeonKernel8Code CpuInfo Tune Kernel8Neon NeonDeclBad Kernel8NeonExamples Kernel8NeonSums Kernel8NeonCol4Props Kernel8NeonCol4More.
Import ListNotations.
Open Scope Z_scope.

Lemma filled_is_packed : forall st src zp r c, c < ml_cols (m_layout src) -> filled_value st s8 src zp r c = packed_value st s8 src zp r c.
Proof. intros st src zp r c H. unfold filled_value, packed_value. replace (c <? ml_cols (m_layout src)) with true by (symmetry; apply Z.ltb_lt; lia). rewrite andb_true_r. reflexivity. Qed.

Lemma operand_sums_kept : forall st src p a b q, neon_operand st src p a b q ->
  p_zp q = p_zp p /\ (p_sums p <> None -> p_sums q <> None) /\
  forall s', p_sums q = Some s' -> pl_cols (p_layout q) <= blen s' /\
    forall c, a <= c < b -> c < ml_cols (m_layout src) ->
      bdat s' c = wrap_s 32 (zsum (map (fun k => packed_value st s8 src (p_zp p) k c) (zrange 0 (pl_rows (p_layout p))))).
Proof.
  intros st src p a b q (Hst & Hr & [(dbg & a55 & gs & C & E) | (dbg & C & T & E)]).
  - assert (Hk : neon_function neon_16x4 bytes_16x4 s8 st) by (left; repeat split; assumption).
    assert (Hf : kl_cols bytes_16x4 = 8 -> blocks_fit src b) by (intros E1; discriminate E1).
    destruct (neon_packs_columns dbg neon_16x4 bytes_16x4 s8 st a55 gs src p a b Hk C Hf) as (q' & E' & [(S1 & S2 & S3) _ _ Su]). assert (q' = q) by congruence. subst q'.
    destruct C as (_ & _ & (_ & _ & Hb) & _). split; [exact S2|]. rewrite S1.
    destruct (p_sums p) as [s|]; destruct (p_sums q) as [s2|]; try contradiction.
    + split; [discriminate|]. intros s' Es. injection Es as <-. destruct Su as (U1 & U2 & _). split; [rewrite U1; apply Hb; reflexivity|].
      intros c Hc Hn. rewrite (U2 c Hc). f_equal. f_equal. apply map_ext. intros k. apply filled_is_packed. exact Hn.
    + split; [intros N; exfalso; apply N; reflexivity|discriminate].
  - destruct (rows16_packed dbg 4 st src p a b (or_intror eq_refl) ltac:(tauto) C) as (q' & E' & [(S1 & S2 & S3) _ Su _ _] & _). assert (q' = q) by congruence. subst q'.
    destruct C as (_ & _ & (_ & _ & Hb) & _). split; [exact S2|]. rewrite S1.
    destruct (p_sums p) as [s|]; destruct (p_sums q) as [s2|]; try contradiction.
    + split; [discriminate|]. intros s' Es. injection Es as <-. destruct Su as (U1 & U2 & _). split; [rewrite U1; apply Hb; reflexivity|].
      intros c Hc Hn. apply U2; assumption.
    + split; [intros N; exfalso; apply N; reflexivity|discriminate].
Qed.

Lemma wrap_mod32 : forall z, (wrap_s 32 z) mod 2 ^ 32 = z mod 2 ^ 32.
Proof. intros z. apply Base.wrap_s_mod. lia. Qed.

Lemma sources_cells : forall dt lst rst lsrc rsrc lp rp la lb l r mp sr er dl dst_zp dst,
  sources_call dt lst rst lsrc rsrc lp rp la lb l r mp sr er dl dst_zp dst ->
  cells_call dt l r (packed_value lst s8 lsrc (p_zp lp)) (packed_value rst s8 rsrc (p_zp rp)) mp sr 0 er 4 dl dst_zp dst /\
  p_zp l = p_zp lp /\ p_zp r = p_zp rp /\ p_layout l = p_layout lp /\ p_layout r = p_layout rp.
Proof.
  intros dt lst rst lsrc rsrc lp rp la lb l r mp sr er dl dst_zp dst [OL OR HD (N1 & N2 & N3) (R1 & R2 & R3 & R4 & R5) (Q1 & Q2) Z0 Hdt Hlay (Hch & Hpar) Hb Hmm Hz Hby Hty].
  destruct (operand_cells _ _ _ _ _ _ OL) as (Pl & Sl & La & Lb & Vl). destruct (operand_cells _ _ _ _ _ _ OR) as (Pr & Sr & Ra & Rb & Vr).
  destruct (operand_sums_kept _ _ _ _ _ _ OL) as (Zl & Kl & Ul). destruct (operand_sums_kept _ _ _ _ _ _ OR) as (Zr & Kr & Ur).
  split; [|repeat split; assumption]. constructor; try assumption.
  - split; [exact Pl|]. split; [apply Vl; lia|]. intros Hzp. rewrite Zr in Hzp. specialize (Kl (Q1 (or_introl Hzp))).
    destruct (p_sums l) as [s|]; [|exfalso; apply Kl; reflexivity]. exists s. split; [reflexivity|]. destruct (Ul s eq_refl) as (U1 & U2). split; [exact U1|].
    intros c Hc. rewrite (U2 c) by lia. rewrite Sl. apply wrap_mod32.
  - split; [exact Pr|]. split; [apply Vr; lia|]. intros Hzp. rewrite Zl in Hzp. specialize (Kr (Q2 Hzp)).
    destruct (p_sums r) as [s|]; [|exfalso; apply Kr; reflexivity]. exists s. split; [reflexivity|]. destruct (Ur s eq_refl) as (U1 & U2). split; [exact U1|].
    intros c Hc. rewrite (U2 c) by lia. rewrite Sr. apply wrap_mod32.
  - rewrite Sl, Sr. exact HD.
  - unfold whole_blocks. rewrite Sl. split; [lia|]. split; [exact R3|]. split; [exact R4|]. lia.
  - unfold whole_blocks. rewrite Sr. split; [lia|]. split; [exists 0; reflexivity|]. split; [exists 1; reflexivity|]. lia.
  - rewrite Hch. exact Hpar.
  - rewrite Zl, Zr, Sl. exact Z0.
  - intros s E. apply Ul. exact E.
  - intros s E. apply Ur. exact E.
  - intros E. apply Kl, Q1. right. exact E.
Qed.

Lemma sources_column : forall dbg t g tmp dt lst rst lsrc rsrc lp rp la lb l r mp sr er dl dst_zp dst,
  sources_call dt lst rst lsrc rsrc lp rp la lb l r mp sr er dl dst_zp dst -> lo_upper g 46 mod 2 ^ 32 = 0 -> lo_upper g 47 mod 2 ^ 32 = 0 ->
  exists dst', kernel_8bit_neon dbg false t g tmp dt l r mp sr 0 er 4 dl dst_zp dst = Ok dst' /\
    block_computed (fun i j => neon_result dt mp dst_zp i j
      (cells_accumulator (pl_rows (p_layout lp)) (p_zp lp) (p_zp rp) (packed_value lst s8 lsrc (p_zp lp)) (packed_value rst s8 rsrc (p_zp rp)) mp i j)) sr 0 er 4 dl dst dst'.
Proof.
  intros dbg t g tmp dt lst rst lsrc rsrc lp rp la lb l r mp sr er dl dst_zp dst C U1 U2.
  destruct (sources_cells _ _ _ _ _ _ _ _ _ _ _ _ _ _ _ _ _ C) as (X & Zl & Zr & Sl & Sr). destruct C as [_ _ _ (_ & N2 & _) _ _ _ _ _ (Hch & _) _ _ _ _ _].
  destruct (column_computes4 dbg t g tmp dt l r _ _ mp sr 0 er 4 dl dst_zp dst X N2 Hch U1 U2) as (d & E & B). exists d. split; [exact E|]. rewrite Zl, Zr, Sl in B. exact B.
Qed.

Lemma conv_byte : forall st z, (st = s8 \/ st = u8) -> it_lo st <= z <= it_hi st -> it_conv s8 (z - middle st) = z - middle st /\ (z - middle st = -128 <-> z = it_lo st).
Proof.
  intros st z [-> | ->].
  - change (it_lo s8) with (-128). change (it_hi s8) with 127. change (middle s8) with 0. intros H. split; [|lia]. rewrite Z.sub_0_r.
    change (it_conv s8 z) with (wrap_s 8 z). apply Base.wrap_s_id; [lia|]. change (smin 8) with (-128). change (smax 8) with 127. lia.
  - change (it_lo u8) with 0. change (it_hi u8) with 255. change (middle u8) with 128. intros H. split; [|lia].
    change (it_conv s8 (z - 128)) with (wrap_s 8 (z - 128)). apply Base.wrap_s_id; [lia|]. change (smin 8) with (-128). change (smax 8) with 127. lia.
Qed.

Lemma packed_minus : forall st src zp k c, (st = s8 \/ st = u8) -> values_of st src -> zp = m_zp src - middle st -> 0 <= k -> 0 <= c < ml_cols (m_layout src) ->
  packed_value st s8 src zp k c - zp = (if k <? ml_rows (m_layout src) then entry src k c - m_zp src else 0) /\
  (packed_value st s8 src zp k c = -128 <-> if k <? ml_rows (m_layout src) then entry src k c = it_lo st else m_zp src = it_lo st).
Proof.
  intros st src zp k c Hst (V0 & V) -> Hk Hc. unfold packed_value. destruct (Z.ltb_spec k (ml_rows (m_layout src))) as [L|L].
  - destruct (conv_byte st (entry src k c) Hst (V k c (conj (conj Hk L) Hc))) as (-> & I). split; [lia|exact I].
  - destruct (conv_byte st (m_zp src) Hst V0) as (_ & I). split; [lia|exact I].
Qed.

Lemma source_accumulates : forall lst rst lsrc rsrc lp rp mp D i j, (lst = s8 \/ lst = u8) -> (rst = s8 \/ rst = u8) -> matching_sources lst rst lsrc rsrc lp rp ->
  0 <= ml_rows (m_layout lsrc) <= D -> 0 <= i < ml_cols (m_layout lsrc) -> 0 <= j < ml_cols (m_layout rsrc) ->
  exact_accumulator D (p_zp lp) (p_zp rp) (packed_value lst s8 lsrc (p_zp lp)) (packed_value rst s8 rsrc (p_zp rp)) mp i j = source_accumulator lsrc rsrc mp i j.
Proof.
  intros lst rst lsrc rsrc lp rp mp D i j Hl Hr (Vl & Vr & Zl & Zr & Hd) HD Hi Hj. unfold exact_accumulator, source_accumulator. f_equal.
  rewrite (zrange_split 0 (ml_rows (m_layout lsrc)) D) by lia. rewrite map_app, zsum_app.
  rewrite (zsum_zeros _ (zrange (ml_rows (m_layout lsrc)) D)).
  - rewrite Z.add_0_r. f_equal. apply map_ext_in. intros k Hk. apply zrange_In in Hk.
    destruct (packed_minus lst lsrc _ k i Hl Vl Zl ltac:(lia) Hi) as (-> & _). destruct (packed_minus rst rsrc _ k j Hr Vr Zr ltac:(lia) Hj) as (-> & _).
    rewrite Hd. replace (k <? ml_rows (m_layout lsrc)) with true by (symmetry; apply Z.ltb_lt; lia). reflexivity.
  - intros k Hk. apply zrange_In in Hk. destruct (packed_minus lst lsrc _ k i Hl Vl Zl ltac:(lia) Hi) as (-> & _).
    replace (k <? ml_rows (m_layout lsrc)) with false by (symmetry; apply Z.ltb_ge; lia). reflexivity.
Qed.

Lemma operand_rows : forall st src p a b q, neon_operand st src p a b q -> (st = s8 \/ st = u8) /\ 0 <= ml_rows (m_layout src) <= pl_rows (p_layout p).
Proof.
  intros st src p a b q (Hst & Hr & H). split; [exact Hst|].
  assert (G : valid_matrix src /\ packed_for src bytes_16x4 p) by (destruct H as [(dbg & a55 & gs & (HV & _ & HP & _) & _) | (dbg & (HV & _ & HP & _) & _)]; split; assumption).
  destruct G as (((G1 & _) & _) & ((_ & _ & _ & G2 & _) & _)). unfold is_round_up in G2. cbn [bytes_16x4 kl_rows kl_cols] in G2. lia.
Qed.

Lemma sources_exact : forall dbg t g tmp dt lst rst lsrc rsrc lp rp la lb l r mp sr er dl dst_zp dst,
  sources_call dt lst rst lsrc rsrc lp rp la lb l r mp sr er dl dst_zp dst -> lo_upper g 46 mod 2 ^ 32 = 0 -> lo_upper g 47 mod 2 ^ 32 = 0 ->
  matching_sources lst rst lsrc rsrc lp rp ->
  (forall i k, sr <= i < er -> in_matrix (m_layout lsrc) k i -> entry lsrc k i <> it_lo lst \/ entry rsrc k 0 <> it_lo rst) ->
  m_zp lsrc <> it_lo lst \/ m_zp rsrc <> it_lo rst ->
  exists dst', kernel_8bit_neon dbg false t g tmp dt l r mp sr 0 er 4 dl dst_zp dst = Ok dst' /\
    block_computed (fun i j => neon_result dt mp dst_zp i j (source_accumulator lsrc rsrc mp i j)) sr 0 er 4 dl dst dst'.
Proof.
  intros dbg t g tmp dt lst rst lsrc rsrc lp rp la lb l r mp sr er dl dst_zp dst C U1 U2 M H1 H2.
  destruct (sources_cells _ _ _ _ _ _ _ _ _ _ _ _ _ _ _ _ _ C) as (X & Zl & Zr & Sl & Sr).
  destruct C as [OL OR _ (N1 & N2 & N3) _ _ _ _ _ (Hch & _) _ _ _ _ _].
  destruct (operand_rows _ _ _ _ _ _ OL) as (Tl & Dl). destruct (operand_rows _ _ _ _ _ _ OR) as (Tr & _).
  assert (X1 : 0 <= sr) by (destruct X as [_ _ _ (W & _) _ _ _ _ _ _ _ _ _ _ _ _ _]; lia).
  destruct (column_exact dbg t g tmp dt l r _ _ mp sr 0 er 4 dl dst_zp dst X N2 Hch U1 U2) as (d & E & B1 & B2 & B3).
  - intros i k Hi Hm Hk. rewrite Sl in Hk. destruct M as (Vl & Vr & Ml & Mr & Hd).
    destruct (packed_minus lst lsrc (p_zp lp) k i Tl Vl Ml ltac:(lia) ltac:(lia)) as (_ & Il). destruct (packed_minus rst rsrc (p_zp rp) k 0 Tr Vr Mr ltac:(lia) ltac:(lia)) as (_ & Ir).
    rewrite Hd in Ir. destruct (Z.ltb_spec k (ml_rows (m_layout lsrc))) as [L|L].
    + destruct (H1 i k Hi) as [A|A]; [split; lia| |]; [left; rewrite Il; exact A|right; rewrite Ir; exact A].
    + destruct H2 as [A|A]; [left; rewrite Il; exact A|right; rewrite Ir; exact A].
  - exists d. split; [exact E|]. split; [exact B1|]. split; [|exact B3]. intros i j Hi Hj Hm. specialize (B2 i j Hi Hj Hm). rewrite Zl, Zr, Sl in B2.
    destruct Hm as (Hm1 & Hm2). rewrite (source_accumulates lst rst lsrc rsrc lp rp mp _ i j Tl Tr M Dl) in B2; [exact B2|lia|lia].
Qed.

(** ** Both zero points lowest: the padding overflows *)
Lemma padding_overflows : forall u v n D, (16 | D) -> D - 16 < n <= D -> 0 < D -> 0 < n ->
  (forall k, 0 <= k < D -> (u k = -128 /\ v k = -128 <-> n <= k)) -> overflows u v D = padding_pairs n.
Proof.
  intros u v n D (q & HD) Hn HD0 Hn0 H. subst D. unfold overflows. set (b := q * 16 - 16).
  assert (Hlow : forall k, 0 <= k < q * 16 -> lowest_at u v k = (k mod 16 <? 8) && (n <=? k)).
  { intros k Hk. unfold lowest_at. destruct (Z.ltb_spec (k mod 16) 8) as [L|L]; [|reflexivity].
    assert (Hk8 : k + 8 < q * 16).
    { pose proof (Z.div_mod k 16 ltac:(lia)). assert (k / 16 < q) by (apply Z.div_lt_upper_bound; lia). lia. }
    pose proof (H k Hk) as I. pose proof (H (k + 8) ltac:(lia)) as J. cbn [andb].
    destruct (Z.leb_spec n k) as [N|N].
    - destruct (proj2 I N) as (-> & ->). destruct (proj2 J ltac:(lia)) as (-> & ->). reflexivity.
    - destruct (Z.eqb_spec (u k) (-128)) as [A|A]; [|reflexivity]. destruct (Z.eqb_spec (v k) (-128)) as [B|B]; [|reflexivity].
      exfalso. pose proof (proj1 I (conj A B)). lia. }
  rewrite (zrange_split 0 b (q * 16)) by (unfold b; lia). rewrite map_app, zsum_app.
  rewrite (zsum_zeros _ (zrange 0 b)).
  2:{ intros k Hk. apply zrange_In in Hk. rewrite Hlow by (unfold b in Hk; lia). replace (n <=? k) with false by (symmetry; apply Z.leb_gt; unfold b in Hk; lia). rewrite andb_false_r. reflexivity. }
  rewrite Z.add_0_l. replace (q * 16) with (b + 16) by (unfold b; lia). rewrite SimdFloatFacts.zrange_shift.
  rewrite (map_ext_in _ (fun e => if (e <? 8) && (n - b <=? e) then 1 else 0)).
  2:{ intros e He. apply zrange_In in He. rewrite Hlow by (unfold b; lia).
      assert (Em : (b + e) mod 16 = e) by (unfold b; replace (q * 16 - 16 + e) with (e + (q - 1) * 16) by lia; rewrite Z.mod_add, Z.mod_small; lia).
      rewrite Em. replace (n <=? b + e) with (n - b <=? e) by (apply eq_true_iff_eq; rewrite !Z.leb_le; lia). reflexivity. }
  assert (Hd : 1 <= n - b <= 16) by (unfold b; lia).
  assert (Hm : n mod 16 = (n - b) mod 16) by (unfold b; replace (n - (q * 16 - 16)) with (n + (1 - q) * 16) by lia; rewrite Z.mod_add; lia).
  unfold padding_pairs. rewrite Hm. clear - Hd. remember (n - b) as d. clear Heqd.
  assert (C : d = 1 \/ d = 2 \/ d = 3 \/ d = 4 \/ d = 5 \/ d = 6 \/ d = 7 \/ d = 8 \/ d = 9 \/ d = 10 \/ d = 11 \/ d = 12 \/ d = 13 \/ d = 14 \/ d = 15 \/ d = 16) by lia.
  repeat (destruct C as [C|C]; [subst d; reflexivity|]). subst d. reflexivity.
Qed.

Lemma operand_round : forall st src p a b q, neon_operand st src p a b q ->
  (16 | pl_rows (p_layout p)) /\ pl_rows (p_layout p) - 16 < ml_rows (m_layout src) <= pl_rows (p_layout p) /\ 0 < pl_rows (p_layout p).
Proof.
  intros st src p a b q (Hst & Hr & H).
  assert (G : packed_for src bytes_16x4 p) by (destruct H as [(dbg & a55 & gs & (_ & _ & HP & _) & _) | (dbg & (_ & _ & HP & _) & _)]; assumption).
  destruct G as ((_ & _ & _ & (G1 & G2) & _) & _). split; [exact G1|]. split; [exact G2|exact Hr].
Qed.

Lemma sources_lowest : forall dbg t g tmp dt lst rst lsrc rsrc lp rp la lb l r mp sr er dl dst_zp dst,
  sources_call dt lst rst lsrc rsrc lp rp la lb l r mp sr er dl dst_zp dst -> lo_upper g 46 mod 2 ^ 32 = 0 -> lo_upper g 47 mod 2 ^ 32 = 0 ->
  matching_sources lst rst lsrc rsrc lp rp ->
  (forall i k, sr <= i < er -> in_matrix (m_layout lsrc) k i -> entry lsrc k i <> it_lo lst \/ entry rsrc k 0 <> it_lo rst) ->
  m_zp lsrc = it_lo lst -> m_zp rsrc = it_lo rst ->
  exists dst', kernel_8bit_neon dbg false t g tmp dt l r mp sr 0 er 4 dl dst_zp dst = Ok dst' /\
    block_computed (fun i j => neon_result dt mp dst_zp i j (source_accumulator lsrc rsrc mp i j - 65536 * padding_pairs (ml_rows (m_layout lsrc)))) sr 0 er 4 dl dst dst'.
Proof.
  intros dbg t g tmp dt lst rst lsrc rsrc lp rp la lb l r mp sr er dl dst_zp dst C U1 U2 M H1 L1 L2.
  destruct (sources_column dbg t g tmp dt lst rst lsrc rsrc lp rp la lb l r mp sr er dl dst_zp dst C U1 U2) as (d & E & B1 & B2 & B3).
  exists d. split; [exact E|]. split; [exact B1|]. split; [|exact B3]. intros i j Hi Hj Hm. specialize (B2 i j Hi Hj Hm).
  destruct C as [OL OR _ (N1 & N2 & N3) (R1 & _) _ _ _ _ _ _ _ _ _ _].
  destruct (operand_rows _ _ _ _ _ _ OL) as (Tl & Dl). destruct (operand_rows _ _ _ _ _ _ OR) as (Tr & _). destruct (operand_round _ _ _ _ _ _ OL) as (G1 & G2 & G3).
  destruct Hm as (Hm1 & Hm2). unfold cells_accumulator in B2. rewrite (source_accumulates lst rst lsrc rsrc lp rp mp _ i j Tl Tr M Dl) in B2 by lia.
  destruct (Z.eq_dec (ml_rows (m_layout lsrc)) 0) as [Z0|Z0]; [exfalso; destruct G1 as (qq & G1); lia|].
  rewrite (padding_overflows _ _ (ml_rows (m_layout lsrc))) in B2; [exact B2|exact G1|exact G2|exact G3|lia|].
  intros k Hk. destruct M as (Vl & Vr & Ml & Mr & Hd).
  destruct (packed_minus lst lsrc (p_zp lp) k i Tl Vl Ml ltac:(lia) ltac:(lia)) as (_ & Il). destruct (packed_minus rst rsrc (p_zp rp) k j Tr Vr Mr ltac:(lia) ltac:(lia)) as (_ & Ir).
  rewrite Hd in Ir. rewrite Il, Ir. destruct (Z.ltb_spec k (ml_rows (m_layout lsrc))) as [L|L].
  - split; [|lia]. intros (A & B). exfalso. replace j with 0 in B by lia. destruct (H1 i k ltac:(lia)) as [X|X]; [split; lia| |]; contradiction.
  - split; [intros _; exact L|]. intros _. split; assumption.
Qed.
