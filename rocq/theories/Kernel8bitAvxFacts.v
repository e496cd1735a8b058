(** The instruction sequences of the 8-bit kernels for AVX. *)
From Coq Require Import ZArith List Bool Lia.
From Verif Require Import Base SidePair Mat Scalars IntOps MulParams Simd SimdRequant SimdFacts RequantFacts AvxFacts
  Kernel8bit Kernel8bitAvx Kernel8bitIsa Kernel8bitAvx2Facts.
Import ListNotations.
Open Scope Z_scope.

(** The 256-bit operations made of two halves. *)
Lemma halves_shuffle : forall a b, length a = 32%nat -> length b = 32%nat ->
  avx_mm256_shuffle_epi8 a b = shuffle_epi8 a b.
Proof.
  intros a b Ha Hb.
  assert (X : forall v, length v = 32%nat -> extracti128 v 0 = firstn 16 v /\ extracti128 v 1 = skipn 16 v).
  { intros v Hv. dlist v. split; reflexivity. }
  unfold avx_mm256_shuffle_epi8, avx_halves2, set_m128i. cbv zeta.
  destruct (X a Ha) as [-> ->], (X b Hb) as [-> ->]. dlist a. dlist b. reflexivity.
Qed.

Lemma avx_cvt8_16 : forall l, length l = 16%nat -> Forall (in_bits 8) l -> avx_mm256_cvtepi8_epi16 (of_lanes 1 l) = of_lanes 2 l.
Proof.
  intros l H F. unfold avx_mm256_cvtepi8_epi16, avx_mm_cvtepi8_epi16, set_m128i. cbv zeta.
  replace (low_bytes 8 (of_lanes 1 l)) with (of_lanes 1 (firstn 8 l)) by (dlist l; reflexivity).
  replace (low_bytes 8 (unpackhi_epi64 (of_lanes 1 l) (setzero 16))) with (of_lanes 1 (skipn 8 l)) by (dlist l; cbn [skipn]; symmetry; move_bytes).
  rewrite <- (firstn_skipn 8 l) in F. apply Forall_app in F. destruct F as [F1 F2].
  rewrite !cvt8_16 by assumption. rewrite <- of_lanes_app, firstn_skipn. reflexivity.
Qed.

Lemma avx_permute : forall a b, avx_mm256_permute2x128 a b 0x20 = permute2x128 a b 0x20 /\
  avx_mm256_permute2x128 a b 0x31 = permute2x128 a b 0x31.
Proof. intros a b. split; reflexivity. Qed.

Lemma avx_shuffle32 : forall a imm, length a = 32%nat -> avx_mm256_shuffle_epi32 a imm = shuffle_epi32 a imm.
Proof.
  intros a imm H. unfold avx_mm256_shuffle_epi32, set_m128i, shuffle_epi32, in_lanes.
  dlist a. cbn [extracti128 pick chunks chunks_aux length firstn skipn map concat nth app]. rewrite !app_nil_r. reflexivity.
Qed.

Lemma avx_split : forall l, length l = 32%nat -> Forall (in_bits 8) l -> avx_split_lhs (of_lanes 1 l) = (of_lanes 2 (sel low_idx l), of_lanes 2 (sel high_idx l)).
Proof.
  intros l H F. unfold avx_split_lhs. cbv zeta. rewrite halves_shuffle by (rewrite ?of_lanes_length, ?H; reflexivity).
  rewrite split_move by exact H. rewrite !extract128_bytes by (try reflexivity; lia).
  rewrite !avx_cvt8_16 by (first [reflexivity | apply (Forall_nth0 _ _ (fun k => _ + k)%nat); [apply in_bits_0; lia|]; apply (Forall_nth0 _ _ (fun k => k)); [apply in_bits_0; lia|exact F]]).
  match goal with |- (avx_mm256_permute2x128 ?a ?b _, _) = _ => destruct (avx_permute a b) as [-> ->] end.
  rewrite permute20, permute31 by reflexivity. reflexivity.
Qed.

Lemma avx_rhs_ok : forall r, length r = 32%nat -> Forall (in_bits 8) r -> avx_rhs_data (of_lanes 1 r) = of_lanes 2 r.
Proof.
  intros r H F. unfold avx_rhs_data. rewrite !extract128_bytes by (try assumption; lia).
  rewrite !avx_cvt8_16 by (first [reflexivity | apply (Forall_nth0 _ _ (fun k => _ + k)%nat); [apply in_bits_0; lia|exact F]]).
  rewrite <- of_lanes_app. f_equal. dlist r. reflexivity.
Qed.

Lemma permute_length : forall a imm, length a = 16%nat -> imm = 0 \/ imm = 0x11 -> length (permute2x128 (of_lanes 2 a) (of_lanes 2 a) imm) = 32%nat.
Proof.
  intros a imm H [-> | ->]; rewrite ?permute00, ?permute11 by exact H; rewrite of_lanes_length, app_length, ?firstn_length, ?skipn_length, H; reflexivity.
Qed.

Lemma avx_columns_ok : forall r, length r = 32%nat ->
  avx_columns (of_lanes 2 r) = map (fun j => (dup_words 8 r (4 * j), dup_words 8 r (4 * j + 2))) (seq 0 8).
Proof.
  intros r H. rewrite <- avx2_columns_ok by exact H. unfold avx_columns, avx2_columns. cbv zeta.
  rewrite !extract256_words by (try assumption; lia).
  rewrite !avx_shuffle32 by (apply permute_length; [reflexivity | first [left; reflexivity | right; reflexivity]]). reflexivity.
Qed.

Lemma avx_column_ok : forall l h d d' a, length l = 16%nat -> length h = 16%nat -> length d = 16%nat -> length d' = 16%nat -> length a = 8%nat ->
  Forall (in_bits 16) l -> Forall (in_bits 16) h -> Forall (in_bits 16) d -> Forall (in_bits 16) d' ->
  avx_mul_add_column (of_lanes 2 l, of_lanes 2 h) (of_lanes 2 d, of_lanes 2 d') (L4 a) =
  mul_add_column (of_lanes 2 l, of_lanes 2 h) (of_lanes 2 d, of_lanes 2 d') (L4 a).
Proof.
  intros l h d d' a Hl Hh Hd Hd' Ha Fl Fh Fd Fd'. unfold avx_mul_add_column, mul_add_column, set_m128i. cbn [fst snd]. cbv zeta.
  rewrite !extract128_words by (try assumption; lia).
  replace (extracti128 (L4 a) 0) with (L4 (firstn 4 a)) by (dlist a; unfold L4; cbn [firstn]; symmetry; move_bytes).
  replace (extracti128 (L4 a) 1) with (L4 (skipn 4 a)) by (dlist a; unfold L4; cbn [skipn]; symmetry; move_bytes).
  rewrite !madd_lanes by (first [assumption | apply (Forall_nth0 _ _ (fun k => _ + k)%nat); [apply in_bits_0; lia|assumption]]).
  rewrite !add_L4. unfold L4. rewrite <- of_lanes_app. f_equal. dlist l. dlist h. dlist d. dlist d'. dlist a. reflexivity.
Qed.

Lemma Forall_sel : forall w idx l, 0 < w -> Forall (in_bits w) l -> Forall (in_bits w) (sel idx l).
Proof. intros. apply (Forall_nth0 _ _ (fun k => k)); [apply in_bits_0; lia|assumption]. Qed.

Lemma avx_column : forall l r j a, length a = 8%nat -> Forall (in_bits 8) l -> Forall (in_bits 16) r ->
  avx_mul_add_column (of_lanes 2 (sel low_idx l), of_lanes 2 (sel high_idx l)) (dup_words 8 r (4 * j), dup_words 8 r (4 * j + 2)) (L4 a) =
  L4 (map2 (step_lane l r j) (seq 0 8) a).
Proof.
  intros l r j a Ha Fl Fr. rewrite <- avx2_column by assumption. unfold dup_words.
  apply avx_column_ok; try reflexivity; try exact Ha; try (apply Forall_sel; [lia | apply in8_in16; exact Fl]);
    apply Forall_dup; apply Forall_nth1; try apply in_bits_0; try lia; exact Fr.
Qed.

Lemma avx_step_ok : forall size l r accs, rhs_size_ok false size -> length l = 32%nat -> length r = 32%nat ->
  Forall (in_bits 8) l -> Forall (in_bits (8 * size)) r -> length accs = 8%nat -> Forall (fun a => length a = 8%nat) accs ->
  avx_step size (of_lanes 1 l) (of_lanes (Z.to_nat size) r) (map L4 accs) =
  map L4 (map2 (fun j a => map2 (step_lane l r j) (seq 0 8) a) (seq 0 8) accs).
Proof.
  intros size l r accs [-> | [Hf _]] Hl Hr Fl Fr Ha Fa; [|discriminate]. change (8 * 1) with 8 in Fr. change (Z.to_nat 1) with 1%nat.
  unfold avx_step. rewrite avx_split, avx_rhs_ok, avx_columns_ok by assumption.
  rewrite map2_map_l, map2_map_r, map_map2. eapply map2_ext_Forall; [exact Fa|]. intros j a La.
  apply avx_column; try assumption. apply in8_in16. exact Fr.
Qed.

Lemma avx_madd : forall a b, length a = 16%nat -> length b = 16%nat -> Forall (in_bits 16) a -> Forall (in_bits 16) b ->
  avx_mm256_madd_epi16 (of_lanes 2 a) (of_lanes 2 b) = L4 (pair_sums (map2 Z.mul a b)).
Proof.
  intros a b Ha Hb Fa Fb. unfold avx_mm256_madd_epi16, avx_halves2, set_m128i. cbv zeta.
  rewrite !extract128_words by (try assumption; lia).
  rewrite !madd_lanes by (apply (Forall_nth0 _ _ (fun k => _ + k)%nat); [apply in_bits_0; lia|assumption]).
  unfold L4. rewrite <- of_lanes_app. f_equal. dlist a. dlist b. reflexivity.
Qed.

Lemma avx_add_L4 : forall a b, length a = 8%nat -> length b = 8%nat -> avx_mm256_add_epi32 (L4 a) (L4 b) = L4 (map2 Z.add a b).
Proof. intros. rewrite <- add_L4. apply avx_binop4; assumption. Qed.

Lemma avx_step1_ok : forall size l r a, rhs_size_ok false size -> length l = 32%nat -> length r = 4%nat ->
  Forall (in_bits 8) l -> Forall (in_bits (8 * size)) r -> length a = 8%nat ->
  avx_step1 size (of_lanes 1 l) (of_lanes (Z.to_nat size) r) (L4 a) = L4 (map2 (step_lane l r 0) (seq 0 8) a).
Proof.
  intros size l r a [-> | [Hf _]] Hl Hr Fl Fr Ha; [|discriminate].
  assert (Hs : rhs_size_ok true 1) by (left; reflexivity).
  pose proof (avx2_rhs1_ok 1 r Hs Hr Fr) as E. unfold avx2_rhs_data1 in E. cbn [Z.eqb Pos.eqb] in E.
  unfold avx_step1. cbv zeta. unfold avx_rhs_data1, avx_mm_cvtepi8_epi16. rewrite E, avx_split by assumption.
  change (8 * 1) with 8 in Fr. pose proof (in8_in16 r Fr) as F16. unfold dup_pair.
  rewrite !pair_lane by (try assumption; rewrite Hr; try reflexivity; lia).
  rewrite <- (avx2_column l r 0 a Ha Fl F16). unfold mul_add_column. cbn [fst snd].
  change (2 * (2 * 0))%nat with (4 * 0)%nat. change (2 * (2 * 0 + 1))%nat with (4 * 0 + 2)%nat. unfold dup_words.
  assert (D : forall k, Forall (in_bits 16) (concat (repeat [nth k r 0; nth (k + 1) r 0] 8))).
  { intros k. apply Forall_dup; apply Forall_nth1; try apply in_bits_0; try lia; exact F16. }
  assert (Sl : forall idx, Forall (in_bits 16) (sel idx l)) by (intros; apply Forall_sel; [lia | apply in8_in16; exact Fl]).
  rewrite !avx_madd by (first [reflexivity | apply D | apply Sl]).
  rewrite !madd_lanes by (first [apply D | apply Sl]).
  rewrite (avx_add_L4 a) by (try exact Ha; reflexivity). rewrite <- !add_L4.
  rewrite (add_L4 a). apply avx_binop4; [|reflexivity]. dlist a. reflexivity.
Qed.

Lemma avx_bias_ok : forall bs j, length bs = 8%nat -> 0 <= j < 8 -> avx_bias_col (L4 bs) j = L4 (repeat (nth (Z.to_nat j) bs 0) 8).
Proof.
  intros bs j Hb Hj. unfold avx_bias_col, L4. rewrite slanes_of_lanes by lia. change (8 * Z.of_nat 4) with 32. rewrite set1_lanes.
  apply of_lanes_ext. change (8 * Z.of_nat 4) with 32. cbn [repeat map]. cut (wrap_u 32 (nth (Z.to_nat j) (map (wrap_s 32) bs) 0) = wrap_u 32 (nth (Z.to_nat j) bs 0)); [intros ->; reflexivity|].
  rewrite (nth_indep (map (wrap_s 32) bs) 0 (wrap_s 32 0)) by (rewrite map_length; lia). rewrite map_nth. apply wrap_u_s. lia.
Qed.

Lemma avx_ok : isa_ok avx false.
Proof.
  constructor; cbn [avx v_n v_align v_add v_sub v_mullo v_min v_max v_bias_col v_step v_load1 v_step1 v_requant v_requant1 v_store_full v_store].
  - left. reflexivity.
  - right. reflexivity.
  - exact avx_add_L4.
  - intros. rewrite <- sub_L4. apply avx_binop4; assumption.
  - intros. rewrite <- mullo_L4. apply avx_binop4; assumption.
  - intros. rewrite <- min_L4. apply avx_binop4; assumption.
  - intros. rewrite <- max_L4. apply avx_binop4; assumption.
  - exact avx_bias_ok.
  - exact avx_step_ok.
  - intros. lia.
  - exact avx_step1_ok.
  - apply requant_row_ok. exact avx_lanes.
  - apply requant_col_ok. exact avx_lanes.
  - intros ms es zp a H1 H2 H3 H4 H5. apply avx_lanes; assumption.
  - apply avx_store_full_ok. exact halves_shuffle.
  - apply avx_store_ok. exact halves_shuffle.
Qed.
