(** The AVX versions of the 256-bit operations, and the AVX requantization. *)
From Coq Require Import ZArith List Bool Lia.
From Verif Require Import Base Simd SimdRequant SimdFacts RequantFacts.
Import ListNotations.
Open Scope Z_scope.

(** ** AVX: the 256-bit operations made of 128-bit ones *)

Lemma halves4 : forall F g, (forall a b, length a = 4%nat -> length b = 4%nat -> F (of_lanes 4 a) (of_lanes 4 b) = of_lanes 4 (map2 g a b)) ->
  forall a b, length a = 8%nat -> length b = 8%nat -> avx_halves2 F (of_lanes 4 a) (of_lanes 4 b) = of_lanes 4 (map2 g a b).
Proof.
  intros F g H a b Ha Hb. destruct (eight a Ha) as (a0 & a1 & a2 & a3 & a4 & a5 & a6 & a7 & ->).
  destruct (eight b Hb) as (b0 & b1 & b2 & b3 & b4 & b5 & b6 & b7 & ->).
  unfold avx_halves2, set_m128i. rewrite !extract128_lanes4 by (cbn; lia). cbn [chunks chunks_aux length firstn skipn nth].
  rewrite !H by reflexivity. rewrite <- of_lanes_app. reflexivity.
Qed.
Lemma halves8 : forall F g, (forall a b, length a = 2%nat -> length b = 2%nat -> F (of_lanes 8 a) (of_lanes 8 b) = of_lanes 8 (map2 g a b)) ->
  forall a b, length a = 4%nat -> length b = 4%nat -> avx_halves2 F (of_lanes 8 a) (of_lanes 8 b) = of_lanes 8 (map2 g a b).
Proof.
  intros F g H a b Ha Hb. destruct (four a Ha) as (a0 & a1 & a2 & a3 & ->).
  destruct (four b Hb) as (b0 & b1 & b2 & b3 & ->).
  unfold avx_halves2, set_m128i. rewrite !extract128_lanes8 by (cbn; lia). cbn [chunks chunks_aux length firstn skipn nth].
  rewrite !H by reflexivity. rewrite <- of_lanes_app. reflexivity.
Qed.

Lemma avx_binop4 : forall f a b, length a = 8%nat -> length b = 8%nat ->
  avx_halves2 (binop 4 f) (of_lanes 4 a) (of_lanes 4 b) = binop 4 f (of_lanes 4 a) (of_lanes 4 b).
Proof.
  intros f a b Ha Hb. rewrite binop_lanes by lia. apply halves4; auto. intros. apply binop_lanes. lia.
Qed.
Lemma avx_binop8 : forall f a b, length a = 4%nat -> length b = 4%nat ->
  avx_halves2 (binop 8 f) (of_lanes 8 a) (of_lanes 8 b) = binop 8 f (of_lanes 8 a) (of_lanes 8 b).
Proof.
  intros f a b Ha Hb. rewrite binop_lanes by lia. apply halves8; auto. intros. apply binop_lanes. lia.
Qed.

(** 128-bit registers of four 32-bit lanes. *)
Lemma chunk16 : forall a, length a = 4%nat -> chunks 16 (of_lanes 4 a) = [of_lanes 4 a].
Proof.
  intros a Ha. change 16%nat with (4 * 4)%nat. rewrite chunks_lanes by lia. destruct (four a Ha) as (a0 & a1 & a2 & a3 & ->). reflexivity.
Qed.
Lemma pick8_of4 : forall a i, (i < 2)%nat -> length a = 4%nat -> pick 8 (of_lanes 4 a) [i] = of_lanes 4 (nth i (chunks 2 a) []).
Proof.
  intros a i Hi Ha. apply (pick_group 2 4 a i); try lia. destruct (four a Ha) as (a0 & a1 & a2 & a3 & ->). cbn. lia.
Qed.
Lemma unpacklo64_4 : forall a0 a1 a2 a3 b0 b1 b2 b3,
  unpacklo_epi64 (of_lanes 4 [a0; a1; a2; a3]) (of_lanes 4 [b0; b1; b2; b3]) = of_lanes 4 [a0; a1; b0; b1].
Proof.
  intros. unfold unpacklo_epi64, in_lanes2. rewrite !chunk16 by reflexivity. cbn [map2 concat]. rewrite app_nil_r.
  rewrite !pick8_of4 by (try reflexivity; lia). rewrite <- of_lanes_app. reflexivity.
Qed.
Lemma unpackhi64_4 : forall a0 a1 a2 a3 b0 b1 b2 b3,
  unpackhi_epi64 (of_lanes 4 [a0; a1; a2; a3]) (of_lanes 4 [b0; b1; b2; b3]) = of_lanes 4 [a2; a3; b2; b3].
Proof.
  intros. unfold unpackhi_epi64, in_lanes2. rewrite !chunk16 by reflexivity. cbn [map2 concat]. rewrite app_nil_r.
  rewrite !pick8_of4 by (try reflexivity; lia). rewrite <- of_lanes_app. reflexivity.
Qed.
Lemma unpacklo32_4 : forall a0 a1 a2 a3 b0 b1 b2 b3,
  unpacklo_epi32 (of_lanes 4 [a0; a1; a2; a3]) (of_lanes 4 [b0; b1; b2; b3]) = of_lanes 4 [a0; b0; a1; b1].
Proof.
  intros. unfold unpacklo_epi32, in_lanes2. rewrite !chunk16 by reflexivity. cbn [map2 concat]. rewrite app_nil_r.
  rewrite !pick_lanes by lia. rewrite <- !of_lanes_app. reflexivity.
Qed.
Lemma unpackhi32_4 : forall a0 a1 a2 a3 b0 b1 b2 b3,
  unpackhi_epi32 (of_lanes 4 [a0; a1; a2; a3]) (of_lanes 4 [b0; b1; b2; b3]) = of_lanes 4 [a2; b2; a3; b3].
Proof.
  intros. unfold unpackhi_epi32, in_lanes2. rewrite !chunk16 by reflexivity. cbn [map2 concat]. rewrite app_nil_r.
  rewrite !pick_lanes by lia. rewrite <- !of_lanes_app. reflexivity.
Qed.
Lemma shuffle32_4 : forall a imm, length a = 4%nat ->
  shuffle_epi32 (of_lanes 4 a) imm = of_lanes 4 (map (fun k => nth (imm_field imm k) a 0) [0; 1; 2; 3]%nat).
Proof.
  intros a imm Ha. unfold shuffle_epi32, in_lanes. rewrite chunk16 by exact Ha. cbn [map concat]. rewrite app_nil_r.
  rewrite pick_lanes by lia. reflexivity.
Qed.

Lemma avx_cvt : forall a, length a = 4%nat -> avx_mm256_cvtepi32_epi64 (of_lanes 4 a) = cvtepi32_epi64 (of_lanes 4 a).
Proof.
  intros a Ha. destruct (four a Ha) as (a0 & a1 & a2 & a3 & ->).
  unfold avx_mm256_cvtepi32_epi64, avx_mm_cvtepi32_epi64, set_m128i. cbv zeta.
  change (setzero 16) with (of_lanes 4 [0; 0; 0; 0]). rewrite unpackhi64_4.
  rewrite !pick8_of4 by (try reflexivity; lia). cbn [chunks chunks_aux length firstn skipn nth].
  rewrite !cvtepi32_epi64_lanes. rewrite <- of_lanes_app. reflexivity.
Qed.

Lemma avx_slli64 : forall a c, length a = 4%nat -> avx_mm256_slli_epi64 (of_lanes 8 a) c = slli_epi64 (of_lanes 8 a) c.
Proof.
  intros a c Ha. destruct (four a Ha) as (a0 & a1 & a2 & a3 & ->).
  unfold avx_mm256_slli_epi64, set_m128i, slli_epi64. rewrite !extract128_lanes8 by (cbn; lia).
  cbn [chunks chunks_aux length firstn skipn nth]. rewrite !slli_lanes by lia. rewrite <- of_lanes_app. reflexivity.
Qed.

(** Two 64-bit lanes of 32-bit ones. *)
Lemma join4 : forall a b l, of_lanes 4 (a :: b :: l) = of_lanes 8 [wrap_u 32 a + 2 ^ 32 * b] ++ of_lanes 4 l.
Proof.
  intros a b l. rewrite of_lanes_8_4. cbn [halve]. rewrite <- of_lanes_app. cbn [app]. apply of_lanes_ext. cbn [map].
  change (8 * Z.of_nat 4) with 32. f_equal; [|f_equal].
  - unfold wrap_u. rewrite (Z.mul_comm (2 ^ 32)), Z_mod_plus_full, Z.mod_mod by lia. reflexivity.
  - f_equal. unfold wrap_u. rewrite (Z.mul_comm (2 ^ 32)), Z.div_add by lia.
    rewrite Z.div_small by (apply Z.mod_pos_bound; lia). reflexivity.
Qed.
Lemma count_of_4 : forall c, count_of (of_lanes 4 [c; 0; 0; 0]) = wrap_u 32 c.
Proof.
  intros c. unfold count_of. rewrite join4, (join4 0 0 []). change (of_lanes 4 []) with (@nil Z).
  rewrite app_nil_r, <- of_lanes_app. cbn [app].
  rewrite ulanes_of_lanes by lia. cbn [map nth]. rewrite Z.mul_0_r, Z.add_0_r. apply wrap_u64_id. unfold wrap_u.
  pose proof (Z.mod_pos_bound c (2 ^ 32) ltac:(lia)). change (2 ^ 64) with (2 ^ 32 * 2 ^ 32). lia.
Qed.
Lemma count_of_8 : forall a l, count_of (of_lanes 8 (a :: l)) = wrap_u 64 a.
Proof. intros a l. unfold count_of. rewrite ulanes_of_lanes by lia. reflexivity. Qed.

Lemma blend_first : forall b0 b1 b2 b3, blend_epi32 (of_lanes 4 [0; 0; 0; 0]) (of_lanes 4 [b0; b1; b2; b3]) 1 = of_lanes 4 [b0; 0; 0; 0].
Proof. intros. unfold blend_epi32. rewrite blend_lanes by lia. reflexivity. Qed.

Lemma avx_sllv_half : forall a b, length a = 4%nat -> length b = 4%nat ->
  avx_mm_sllv_epi32 (of_lanes 4 a) (of_lanes 4 b) =
  of_lanes 4 (map2 (fun x c => if wrap_u 32 c <? 32 then x * 2 ^ wrap_u 32 c else 0) a b).
Proof.
  intros a b Ha Hb. destruct (four a Ha) as (a0 & a1 & a2 & a3 & ->). destruct (four b Hb) as (b0 & b1 & b2 & b3 & ->).
  unfold avx_mm_sllv_epi32. cbv zeta. change (setzero 16) with (of_lanes 4 [0; 0; 0; 0]).
  rewrite !shuffle32_4 by reflexivity.
  change (map (fun k => nth (imm_field 1 k) ?l 0) [0; 1; 2; 3]%nat) with [nth 1 l 0; nth 0 l 0; nth 0 l 0; nth 0 l 0].
  change (map (fun k => nth (imm_field 2 k) ?l 0) [0; 1; 2; 3]%nat) with [nth 2 l 0; nth 0 l 0; nth 0 l 0; nth 0 l 0].
  change (map (fun k => nth (imm_field 3 k) ?l 0) [0; 1; 2; 3]%nat) with [nth 3 l 0; nth 0 l 0; nth 0 l 0; nth 0 l 0].
  change (map (fun k => nth (imm_field 48 k) ?l 0) [0; 1; 2; 3]%nat) with [nth 0 l 0; nth 0 l 0; nth 3 l 0; nth 0 l 0].
  cbn [nth]. rewrite !blend_first. unfold sll_epi32. rewrite !count_of_4, !slli_lanes by lia. cbn [map].
  rewrite unpacklo32_4, unpackhi32_4, unpacklo64_4. reflexivity.
Qed.
Lemma avx_sllv : forall a b, length a = 8%nat -> length b = 8%nat ->
  avx_mm256_sllv_epi32 (of_lanes 4 a) (of_lanes 4 b) = sllv_epi32 (of_lanes 4 a) (of_lanes 4 b).
Proof.
  intros a b Ha Hb. unfold sllv_epi32. rewrite sllv_lanes by lia. apply halves4; auto. apply avx_sllv_half.
Qed.

Lemma chunk16_8 : forall a b, chunks 16 (of_lanes 8 [a; b]) = [of_lanes 8 [a; b]].
Proof. intros a b. change 16%nat with (2 * 8)%nat. rewrite chunks_lanes by lia. reflexivity. Qed.

Lemma avx_srlv_half : forall a b, length a = 2%nat -> length b = 2%nat ->
  avx_mm_srlv_epi64 (of_lanes 8 a) (of_lanes 8 b) =
  of_lanes 8 (map2 (fun x c => if wrap_u 64 c <? 64 then wrap_u 64 x / 2 ^ wrap_u 64 c else 0) a b).
Proof.
  intros a b Ha Hb. destruct a as [|a0 [|a1 [|]]]; try discriminate. destruct b as [|b0 [|b1 [|]]]; try discriminate.
  unfold avx_mm_srlv_epi64, unpackhi_epi64, unpacklo_epi64, in_lanes2, permute_pd, srl_epi64. cbv zeta.
  change (setzero 16) with (of_lanes 8 [0; 0]). rewrite !chunk16_8. cbn [map2 concat]. rewrite !app_nil_r.
  rewrite !pick_lanes by lia. cbn [map nth]. rewrite <- of_lanes_app. cbn [app]. rewrite !count_of_8.
  rewrite !srli_lanes by lia. cbn [map]. rewrite pick_lanes by lia.
  change (map (fun i => nth i ?l 0) [Z.to_nat (1 mod 2); Z.to_nat (1 / 2 mod 2)]) with [nth 1 l 0; nth 0 l 0].
  cbn [nth]. rewrite !chunk16_8. cbn [map2 concat]. rewrite !app_nil_r. rewrite !pick_lanes by lia. cbn [map nth].
  rewrite <- of_lanes_app. reflexivity.
Qed.
Lemma avx_srlv : forall a b, length a = 4%nat -> length b = 4%nat ->
  avx_mm256_srlv_epi64 (of_lanes 8 a) (of_lanes 8 b) = srlv_epi64 (of_lanes 8 a) (of_lanes 8 b).
Proof.
  intros a b Ha Hb. unfold srlv_epi64. rewrite srlv_lanes by lia. apply halves8; auto. apply avx_srlv_half.
Qed.

(** blend of 64-bit halves: two 32-bit lanes at a time. *)
Lemma blend64_high : forall a0 a1 a2 a3 b0 b1 b2 b3,
  blend 8 (of_lanes 4 [a0; a1; a2; a3]) (of_lanes 4 [b0; b1; b2; b3]) 2 = of_lanes 4 [a0; a1; b2; b3].
Proof.
  intros. unfold blend. change 8%nat with (2 * 4)%nat. rewrite !chunks_lanes by lia.
  cbn [chunks chunks_aux length firstn skipn map zseq map2 fst snd]. testbits. cbv iota. cbn [concat]. rewrite app_nil_r.
  rewrite <- of_lanes_app. reflexivity.
Qed.

Lemma avx_srav : forall a b, length a = 8%nat -> length b = 8%nat ->
  avx_mm256_srav_epi32 (of_lanes 4 a) (of_lanes 4 b) = srav_epi32 (of_lanes 4 a) (of_lanes 4 b).
Proof.
  intros a b Ha Hb. destruct (eight a Ha) as (a0 & a1 & a2 & a3 & a4 & a5 & a6 & a7 & ->).
  destruct (eight b Hb) as (b0 & b1 & b2 & b3 & b4 & b5 & b6 & b7 & ->).
  unfold avx_mm256_srav_epi32, srav_epi32, srai_epi32, set_m128i. cbv zeta.
  rewrite !extract128_lanes4 by (cbn; lia). cbn [chunks chunks_aux length firstn skipn nth].
  rewrite ulanes_of_lanes by lia. cbn [map nth]. change (8 * Z.of_nat 4) with 32.
  rewrite !srai_lanes by lia. cbn [map]. unfold blend_epi32. rewrite !blend_lanes by lia.
  cbn [map2 zseq length fst snd]. testbits. cbv iota. cbn [fst snd]. rewrite !blend64_high.
  rewrite <- of_lanes_app. rewrite srav_lanes by lia. reflexivity.
Qed.

Lemma avx_blend : forall a b, length a = 8%nat -> length b = 8%nat ->
  avx_mm256_blend_epi32 (of_lanes 4 a) (of_lanes 4 b) 0xaa = blend_epi32 (of_lanes 4 a) (of_lanes 4 b) 0xaa.
Proof.
  intros a b Ha Hb. destruct (eight a Ha) as (a0 & a1 & a2 & a3 & a4 & a5 & a6 & a7 & ->).
  destruct (eight b Hb) as (b0 & b1 & b2 & b3 & b4 & b5 & b6 & b7 & ->).
  unfold avx_mm256_blend_epi32, set_m128i, blend_epi32. cbv zeta.
  rewrite !extract128_lanes4 by (cbn; lia). cbn [chunks chunks_aux length firstn skipn nth].
  rewrite !blend_lanes by lia. rewrite <- of_lanes_app. reflexivity.
Qed.

Lemma avx_even_odds : forall a0 a1 a2 a3 a4 a5 a6 a7,
  avx_permute_epi32_even_odds (of_lanes 4 [a0; a1; a2; a3; a4; a5; a6; a7]) = of_lanes 4 [a0; a2; a4; a6; a1; a3; a5; a7].
Proof.
  intros. unfold avx_permute_epi32_even_odds, set_m128i. cbv zeta. rewrite !extract128_lanes4 by (cbn; lia).
  cbn [chunks chunks_aux length firstn skipn nth]. rewrite !shuffle32_4 by reflexivity.
  change (map (fun k => nth (imm_field 216 k) ?l 0) [0; 1; 2; 3]%nat) with [nth 0 l 0; nth 2 l 0; nth 1 l 0; nth 3 l 0].
  cbn [nth]. rewrite unpackhi64_4, unpacklo64_4. rewrite <- of_lanes_app. reflexivity.
Qed.

Ltac vstep_avx :=
  rewrite ?avx_binop4, ?avx_binop8, ?avx_sllv, ?avx_srlv, ?avx_srav, ?avx_cvt, ?avx_slli64, ?avx_blend by reflexivity;
  unfold sllv_epi32, srlv_epi64, srav_epi32, slli_epi64, blend_epi32; vstep.

Lemma avx_rrs : forall rs ks, length rs = 8%nat -> length ks = 8%nat -> all_i32 rs -> all_shifts ks ->
  avx_rounding_right_shift (of_lanes 4 rs) (of_lanes 4 ks) = of_lanes 4 (map2 rrs_lane rs ks).
Proof.
  intros rs ks Hr Hk Ar Ak. rewrite <- avx2_rrs by assumption.
  destruct (eight rs Hr) as (r0 & r1 & r2 & r3 & r4 & r5 & r6 & r7 & ->).
  destruct (eight ks Hk) as (k0 & k1 & k2 & k3 & k4 & k5 & k6 & k7 & ->).
  unfold avx2_rounding_right_shift, avx_rounding_right_shift, avx_mm256_cmpgt_epi32, avx_mm256_sub_epi32, avx_mm256_add_epi32,
    cmpgt_epi32, sub_epi32, add_epi32, sllv_epi32, srav_epi32. cbv zeta.
  change (setzero 32) with (of_lanes 4 (repeat 0 8)). repeat vstep.
  repeat vstep_avx. reflexivity.
Qed.

Lemma avx_lanes : forall xs ms es zp, length xs = 8%nat -> length ms = 8%nat -> length es = 8%nat ->
  Forall is_mult ms -> Forall is_exp es ->
  avx_apply_multiplier (of_lanes 4 ms) (of_lanes 4 es) zp (of_lanes 4 xs) =
  of_lanes 4 (map3 (fun x m e => x86_lane x m e + zp) xs ms es).
Proof.
  intros xs ms es zp Hx Hm He Am Ae. destruct (eight xs Hx) as (x0 & x1 & x2 & x3 & x4 & x5 & x6 & x7 & ->).
  destruct (eight ms Hm) as (m0 & m1 & m2 & m3 & m4 & m5 & m6 & m7 & ->).
  destruct (eight es He) as (e0 & e1 & e2 & e3 & e4 & e5 & e6 & e7 & ->).
  unfold avx_apply_multiplier, avx_mm256_max_epi32, avx_mm256_sub_epi32, avx_mm256_mul_epi32, avx_mm256_add_epi64,
    avx_mm256_add_epi32, max_epi32, sub_epi32, mul_epi32, add_epi64. cbv zeta.
  change (setzero 32) with (of_lanes 4 (repeat 0 8)).
  repeat match goal with H : Forall _ (_ :: _) |- _ => inversion H; clear H; subst end.
  repeat vstep. repeat vstep_avx.
  rewrite !extract128_lanes4 by (cbn; lia).
  cbn [chunks chunks_aux length firstn skipn nth]. repeat vstep_avx.
  rewrite !left_shift_lane by assumption. rewrite !right_shift_lane by assumption.
  change (wrap_u 64 (wrap_s 32 31)) with 31. change (31 <? 64) with true. change (30 <? 64) with true. change (32 <? 64) with true.
  cbv iota.
  rewrite !mul_lane by (try assumption; apply wrap_s32_range).
  rewrite !of_lanes_8_4. cbn [halve]. rewrite !high_lane. rewrite avx_blend by reflexivity. unfold blend_epi32.
  rewrite blend_lanes by lia. cbn [map2 zseq length fst snd].
  testbits. cbv iota. rewrite avx_even_odds.
  match goal with |- context [avx_rounding_right_shift (of_lanes 4 ?l) _] =>
    rewrite (of_lanes_ext 4 l [product x0 m0 e0; product x1 m1 e1; product x2 m2 e2; product x3 m3 e3;
                               product x4 m4 e4; product x5 m5 e5; product x6 m6 e6; product x7 m7 e7]) end.
  2: { cbn [map]. change (8 * Z.of_nat 4) with 32. unfold product.
       rewrite !scaled_lane by (try assumption; apply wrap_s32_range). reflexivity. }
  rewrite avx_rrs; try reflexivity.
  - cbn [map2]. replace (if zp =? 0 then of_lanes 4 [0; 0; 0; 0; 0; 0; 0; 0] else of_lanes 4 [zp; zp; zp; zp; zp; zp; zp; zp])
      with (of_lanes 4 [zp; zp; zp; zp; zp; zp; zp; zp])
      by (destruct (zp =? 0) eqn:Ez; [apply Z.eqb_eq in Ez; subst zp|]; reflexivity).
    unfold add_epi32. rewrite avx_binop4 by reflexivity. rewrite binop_lanes by lia. cbn [map2 map3]. apply of_lanes_ext. cbn [map].
    change (8 * Z.of_nat 4) with 32. rewrite !wrap_u_add. reflexivity.
  - unfold all_i32. repeat apply Forall_cons; try (apply product_range; assumption). apply Forall_nil.
  - unfold all_shifts, is_exp in *. repeat apply Forall_cons; try lia. apply Forall_nil.
Qed.
