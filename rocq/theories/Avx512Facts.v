(** The AVX-512 requantization, lane by lane. *)
From Coq Require Import ZArith List Bool Lia.
From Verif Require Import Base Simd SimdRequant SimdFacts RequantFacts.
Import ListNotations.
Open Scope Z_scope.

Lemma sixteen : forall {A} (l : list A), length l = 16%nat ->
  exists a b, l = a ++ b /\ length a = 8%nat /\ length b = 8%nat.
Proof.
  intros A l H. exists (firstn 8 l), (skipn 8 l). rewrite firstn_skipn, firstn_length, skipn_length. repeat split; lia.
Qed.

Lemma nudge_lane_64 : forall k, 0 <= k <= 31 ->
  wrap_s 64 (if wrap_s 64 0 <? wrap_s 64 k
             then if wrap_u 64 (wrap_s 64 k - wrap_s 64 1) <? 64 then 1 * 2 ^ wrap_u 64 (wrap_s 64 k - wrap_s 64 1) else 0
             else 0)
  = if 0 <? k then 2 ^ (k - 1) else 0.
Proof.
  intros k Hk. change (wrap_s 64 0) with 0. change (wrap_s 64 1) with 1. rewrite (wrap_s64_id k) by lia.
  destruct (0 <? k) eqn:E; [|reflexivity]. apply Z.ltb_lt in E. rewrite wrap_u64_id by lia.
  destruct (k - 1 <? 64) eqn:E2; [|apply Z.ltb_ge in E2; lia]. rewrite Z.mul_1_l.
  pose proof (pow2_le (k - 1) 30 ltac:(lia)). change (2 ^ 30) with 1073741824 in *. apply wrap_s64_id. lia.
Qed.

Lemma rrs_lane_64 : forall r k, int_min <= r <= int_max -> 0 <= k <= 31 ->
  (if wrap_s 64 (wrap_s 64 2147483647 - (if 0 <? k then 2 ^ (k - 1) else 0)) <? wrap_s 64 r
   then if wrap_u 64 (wrap_s 64 31 - wrap_s 64 k) <? 64 then 1 * 2 ^ wrap_u 64 (wrap_s 64 31 - wrap_s 64 k) else 0
   else wrap_s 64 (wrap_s 64 r + (if 0 <? k then 2 ^ (k - 1) else 0)) / 2 ^ Z.min (wrap_u 64 k) (64 - 1))
  = rrs_lane r k.
Proof.
  intros r k Hr Hk. change (wrap_s 64 2147483647) with int_max. change (wrap_s 64 31) with 31.
  assert (B63 : 2 ^ 63 = 9223372036854775808) by reflexivity.
  rewrite (wrap_s64_id k) by lia. rewrite (wrap_s64_id r) by (unfold int_min, int_max in *; lia).
  unfold rrs_lane. cbv zeta.
  assert (N : 0 <= (if 0 <? k then 2 ^ (k - 1) else 0) <= 1073741824).
  { destruct (0 <? k) eqn:E; [|lia]. apply Z.ltb_lt in E. pose proof (pow2_le (k - 1) 30 ltac:(lia)).
    change (2 ^ 30) with 1073741824 in *. lia. }
  set (nu := if 0 <? k then 2 ^ (k - 1) else 0) in *.
  rewrite (wrap_s64_id (int_max - nu)) by (unfold int_min, int_max; lia).
  destruct (int_max - nu <? r) eqn:E.
  - rewrite wrap_u64_id by lia. destruct (31 - k <? 64) eqn:E2; [|apply Z.ltb_ge in E2; lia]. apply Z.mul_1_l.
  - apply Z.ltb_ge in E. rewrite wrap_s64_id by (unfold int_min, int_max in *; lia).
    rewrite wrap_u64_id by lia. rewrite Z.min_l by lia. reflexivity.
Qed.

Lemma avx512_rrs : forall rs ks, length rs = 8%nat -> length ks = 8%nat -> all_i32 rs -> all_shifts ks ->
  avx512_rounding_right_shift (of_lanes 8 rs) (of_lanes 8 ks) = of_lanes 8 (map2 rrs_lane rs ks).
Proof.
  intros rs ks Hr Hk Ar Ak. destruct (eight rs Hr) as (r0 & r1 & r2 & r3 & r4 & r5 & r6 & r7 & ->).
  destruct (eight ks Hk) as (k0 & k1 & k2 & k3 & k4 & k5 & k6 & k7 & ->).
  unfold avx512_rounding_right_shift, sub_epi64, sllv_epi64, srav_epi64. cbv zeta.
  change (setzero 64) with (of_lanes 8 (repeat 0 8)).
  repeat vstep. unfold all_i32, all_shifts in *.
  repeat match goal with H : Forall _ (_ :: _) |- _ => inversion H; clear H; subst end.
  rewrite !nudge_lane_64 by assumption. rewrite !rrs_lane_64 by assumption. reflexivity.
Qed.

(** Eight lanes of the accumulators, the multipliers and the right shifts. *)
Lemma scaled_lane_64 : forall a m, int_min <= a <= int_max -> is_mult m ->
  wrap_s 64 (wrap_s 64 (wrap_s 32 (wrap_s 64 a) * wrap_s 32 (wrap_s 64 m)) + wrap_s 64 (2 ^ 30)) / 2 ^ Z.min (wrap_u 64 31) (64 - 1)
  = (a * m + 2 ^ 30) / 2 ^ 31.
Proof.
  intros a m Ha Hm. pose proof (product_bound a m Ha Hm) as B. unfold is_mult in Hm.
  assert (B62 : 2 ^ 62 = 4611686018427387904) by reflexivity.
  assert (B63 : 2 ^ 63 = 9223372036854775808) by reflexivity.
  assert (B30 : 2 ^ 30 = 1073741824) by reflexivity.
  rewrite (wrap_s64_id a), (wrap_s64_id m) by (unfold int_min, int_max in *; lia).
  rewrite (wrap_s32_id a), (wrap_s32_id m) by (unfold int_min, int_max in *; lia).
  rewrite (wrap_s64_id (a * m)) by lia. rewrite (wrap_s64_id (2 ^ 30)) by lia. rewrite wrap_s64_id by lia. reflexivity.
Qed.

Lemma avx512_half : forall accs ms ks, length accs = 8%nat -> length ms = 8%nat -> length ks = 8%nat ->
  all_i32 accs -> Forall is_mult ms -> all_shifts ks ->
  cvtepi64_epi32 (avx512_rounding_right_shift
    (srav_epi64 (add_epi64 (mul_epi32 (of_lanes 8 accs) (of_lanes 8 ms)) (of_lanes 8 (repeat (2 ^ 30) 8))) (of_lanes 8 (repeat 31 8)))
    (of_lanes 8 ks)) =
  of_lanes 4 (map3 (fun a m k => rrs_lane ((a * m + 2 ^ 30) / 2 ^ 31) k) accs ms ks).
Proof.
  intros accs ms ks Hx Hm Hk Ax Am Ak. destruct (eight accs Hx) as (x0 & x1 & x2 & x3 & x4 & x5 & x6 & x7 & ->).
  destruct (eight ms Hm) as (m0 & m1 & m2 & m3 & m4 & m5 & m6 & m7 & ->).
  destruct (eight ks Hk) as (k0 & k1 & k2 & k3 & k4 & k5 & k6 & k7 & ->).
  unfold mul_epi32, add_epi64, srav_epi64. unfold all_i32 in Ax.
  assert (F : all_i32 (map2 (fun a m => (a * m + 2 ^ 30) / 2 ^ 31) [x0; x1; x2; x3; x4; x5; x6; x7] [m0; m1; m2; m3; m4; m5; m6; m7])).
  { cbn [map2].
    assert (P : forall a m, int_min <= a <= int_max -> is_mult m -> int_min <= (a * m + 2 ^ 30) / 2 ^ 31 <= int_max).
    { intros a m Ha Hm'. pose proof (product_range a m 0 Hm') as R. unfold product, shifted in R. change (2 ^ Z.max 0 0) with 1 in R.
      rewrite Z.mul_1_r, wrap_s32_id in R by exact Ha. exact R. }
    repeat match goal with H : Forall _ (_ :: _) |- _ => inversion H; clear H; subst end.
    unfold all_i32. repeat apply Forall_cons; try (apply P; assumption). apply Forall_nil. }
  repeat match goal with H : Forall _ (_ :: _) |- _ => inversion H; clear H; subst end.
  repeat vstep. rewrite !scaled_lane_64 by assumption. cbn [map2] in F.
  rewrite avx512_rrs; auto. cbn [map2 map3]. apply cvtepi64_epi32_lanes.
Qed.

(** The shifts and the wide halves. *)
Lemma map2_repeat : forall {A B C} (f : A -> B -> C) l z, map2 f l (repeat z (length l)) = map (fun x => f x z) l.
Proof. intros A B C f l z. induction l as [|x l IH]; [reflexivity|]. cbn [length repeat map2 map]. rewrite IH. reflexivity. Qed.
Lemma map2_repeat_l : forall {A B C} (f : A -> B -> C) l z, map2 f (repeat z (length l)) l = map (f z) l.
Proof. intros A B C f l z. induction l as [|x l IH]; [reflexivity|]. cbn [length repeat map2 map]. rewrite IH. reflexivity. Qed.

Lemma left_shift_v : forall es, length es = 16%nat -> Forall is_exp es ->
  avx512_left_shift (of_lanes 4 es) = of_lanes 4 (map (fun e => Z.max e 0) es).
Proof.
  intros es Hl He. unfold avx512_left_shift, max_epi32. change (setzero 64) with (of_lanes 4 (repeat 0 16)). rewrite <- Hl.
  rewrite binop_lanes by lia. rewrite map2_repeat. f_equal. apply map_ext_in. intros e Hin. rewrite Forall_forall in He.
  specialize (He e Hin). change (8 * Z.of_nat 4) with 32. unfold is_exp in He. change (wrap_s 32 0) with 0.
  rewrite wrap_s32_id by (unfold int_min, int_max; lia). reflexivity.
Qed.
Lemma right_shift_v : forall es, length es = 16%nat -> Forall is_exp es ->
  avx512_right_shift (of_lanes 4 es) = of_lanes 4 (map (fun e => Z.max (- e) 0) es).
Proof.
  intros es Hl He. unfold avx512_right_shift, max_epi32, sub_epi32. change (setzero 64) with (of_lanes 4 (repeat 0 16)). rewrite <- Hl.
  rewrite binop_lanes by lia. rewrite map2_repeat_l. rewrite binop_lanes by lia.
  replace (repeat 0 (length es)) with (repeat 0 (length (map (fun e => wrap_s (8 * Z.of_nat 4) 0 - wrap_s (8 * Z.of_nat 4) e) es)))
    by (rewrite map_length; reflexivity).
  rewrite map2_repeat, map_map. f_equal. apply map_ext_in. intros e Hin. rewrite Forall_forall in He.
  specialize (He e Hin). change (8 * Z.of_nat 4) with 32. apply right_shift_lane. exact He.
Qed.
Lemma sllv_v : forall xs es, Forall is_exp es ->
  sllv_epi32 (of_lanes 4 xs) (of_lanes 4 (map (fun e => Z.max e 0) es)) = of_lanes 4 (map2 shifted xs es).
Proof.
  intros xs es He. unfold sllv_epi32. rewrite sllv_lanes by lia. apply of_lanes_ext. change (8 * Z.of_nat 4) with 32.
  revert xs. induction He as [|e l P _ IH]; intros [|x xs]; [reflexivity..|]. cbn [map map2]. rewrite IH. f_equal.
  unfold is_exp in P. rewrite (wrap_u32_id (Z.max e 0)) by lia. unfold shifted. rewrite wrap_u_s by lia.
  destruct (Z.max e 0 <? 32) eqn:E; [reflexivity | apply Z.ltb_ge in E; lia].
Qed.

Lemma wide_lo : forall a b, length a = 8%nat -> avx512_wide (of_lanes 4 (a ++ b)) 0 = of_lanes 8 (map (wrap_s 32) a).
Proof.
  intros a b Ha. unfold avx512_wide. destruct (eight a Ha) as (x0 & x1 & x2 & x3 & x4 & x5 & x6 & x7 & ->).
  rewrite extract256_lanes4.
  - rewrite cvtepi32_epi64_lanes. cbn [app chunks chunks_aux length firstn skipn nth]. reflexivity.
  - cbn [app chunks chunks_aux length firstn skipn]. lia.
Qed.
Lemma wide_hi : forall a b, length a = 8%nat -> length b = 8%nat -> avx512_wide (of_lanes 4 (a ++ b)) 1 = of_lanes 8 (map (wrap_s 32) b).
Proof.
  intros a b Ha Hb. unfold avx512_wide. destruct (eight a Ha) as (x0 & x1 & x2 & x3 & x4 & x5 & x6 & x7 & ->).
  destruct (eight b Hb) as (y0 & y1 & y2 & y3 & y4 & y5 & y6 & y7 & ->).
  rewrite extract256_lanes4.
  - rewrite cvtepi32_epi64_lanes. cbn [app chunks chunks_aux length firstn skipn nth]. reflexivity.
  - cbn [app chunks chunks_aux length firstn skipn]. lia.
Qed.
Lemma map_wrap_id : forall l, all_i32 l -> map (wrap_s 32) l = l.
Proof.
  intros l H. rewrite <- (map_id l) at 2. apply map_ext_in. intros z Hz. unfold all_i32 in H. rewrite Forall_forall in H.
  apply wrap_s32_id. apply H. exact Hz.
Qed.
Lemma mult_i32 : forall l, Forall is_mult l -> all_i32 l.
Proof. intros l H. unfold all_i32. eapply Forall_impl; [|exact H]. unfold is_mult, int_min, int_max. intros; lia. Qed.
Lemma shifts_i32 : forall l, all_shifts l -> all_i32 l.
Proof. intros l H. unfold all_i32. eapply Forall_impl; [|exact H]. unfold int_min, int_max. intros; lia. Qed.
Lemma right_shifts : forall l, Forall is_exp l -> all_shifts (map (fun e => Z.max (- e) 0) l).
Proof. intros l H. unfold all_shifts. rewrite Forall_map. eapply Forall_impl; [|exact H]. unfold is_exp. intros; lia. Qed.
Lemma shifted_i32 : forall xs es, all_i32 (map2 shifted xs es).
Proof.
  induction xs as [|x xs IH]; intros [|e es]; try apply Forall_nil. cbn [map2]. apply Forall_cons; [apply wrap_s32_range | apply IH].
Qed.
Lemma map2_app : forall {A B C} (f : A -> B -> C) a b c d, length a = length c -> map2 f (a ++ b) (c ++ d) = map2 f a c ++ map2 f b d.
Proof.
  induction a as [|x a IH]; intros b [|y c] d H; try discriminate; [reflexivity|]. cbn [app map2]. rewrite IH by (injection H; auto). reflexivity.
Qed.
Lemma map2_length : forall {A B C} (f : A -> B -> C) a b, length a = length b -> length (map2 f a b) = length a.
Proof. induction a as [|x a IH]; intros [|y b] H; try discriminate; [reflexivity|]. cbn [map2 length]. rewrite IH; auto. Qed.
Lemma map3_app : forall {A B C D} (f : A -> B -> C -> D) a a' b b' c c', length a = length b -> length a = length c ->
  map3 f (a ++ a') (b ++ b') (c ++ c') = map3 f a b c ++ map3 f a' b' c'.
Proof.
  induction a as [|x a IH]; intros a' [|y b] b' [|z c] c' H H2; try discriminate; [reflexivity|]. cbn [app map3].
  rewrite IH by (injection H; injection H2; auto). reflexivity.
Qed.

Lemma offset_v : avx512_offset_vector = of_lanes 8 (repeat (2 ^ 30) 8).
Proof. reflexivity. Qed.
Lemma final_v : forall half, (half < 2)%nat -> avx512_wide avx512_final_right_shift half = of_lanes 8 (repeat 31 8).
Proof. intros [|[|half]] H; [reflexivity | reflexivity | lia]. Qed.

Lemma add_zp16 : forall l zp, length l = 16%nat ->
  avx512_add_dst_zero_point zp (of_lanes 4 l) = of_lanes 4 (map (fun z => z + zp) l).
Proof.
  intros l zp Hl. unfold avx512_add_dst_zero_point. destruct (zp =? 0) eqn:E.
  - apply Z.eqb_eq in E. subst zp. rewrite <- (map_id l) at 1. f_equal. apply map_ext. intros; lia.
  - unfold add_epi32. rewrite set1_lanes. rewrite <- Hl. rewrite binop_lanes by lia. rewrite map2_repeat.
    apply of_lanes_ext. rewrite !map_map. apply map_ext. intros a. change (8 * Z.of_nat 4) with 32. apply wrap_u_add.
Qed.

Lemma lanes_of_parts : forall xs ms es zp,
  map (fun z => z + zp) (map3 (fun a m k => rrs_lane ((a * m + 2 ^ 30) / 2 ^ 31) k) (map2 shifted xs es) ms (map (fun e => Z.max (- e) 0) es))
  = map3 (fun x m e => x86_lane x m e + zp) xs ms es.
Proof.
  induction xs as [|x xs IH]; intros ms [|e es] zp; destruct ms; try reflexivity. cbn [map2 map map3]. f_equal. apply IH.
Qed.
Lemma map3_length : forall {A B C D} (f : A -> B -> C -> D) a b c, length a = length b -> length a = length c -> length (map3 f a b c) = length a.
Proof. induction a as [|x a IH]; intros [|y b] [|z c] H H2; try discriminate; [reflexivity|]. cbn [map3 length]. rewrite IH; auto. Qed.

Lemma avx512_lanes : forall xs ms es zp, length xs = 16%nat -> length ms = 16%nat -> length es = 16%nat ->
  Forall is_mult ms -> Forall is_exp es ->
  avx512_apply_multiplier (of_lanes 4 ms) (of_lanes 4 es) zp (of_lanes 4 xs) =
  of_lanes 4 (map3 (fun x m e => x86_lane x m e + zp) xs ms es).
Proof.
  intros xs ms es zp Hx Hm He Am Ae. unfold avx512_apply_multiplier. cbv zeta.
  rewrite left_shift_v, right_shift_v by assumption. rewrite sllv_v by exact Ae.
  rewrite <- lanes_of_parts, <- add_zp16.
  2: { rewrite map3_length; rewrite ?map2_length, ?map_length; lia. }
  f_equal. rewrite offset_v, !final_v by lia.
  destruct (sixteen xs Hx) as (x1 & x2 & -> & Hx1 & Hx2). destruct (sixteen ms Hm) as (m1 & m2 & -> & Hm1 & Hm2).
  destruct (sixteen es He) as (e1 & e2 & -> & He1 & He2). apply Forall_app in Am. destruct Am as [Am1 Am2].
  apply Forall_app in Ae. destruct Ae as [Ae1 Ae2].
  rewrite map2_app by lia. rewrite map_app.
  rewrite !wide_lo, !wide_hi by (rewrite ?map2_length, ?map_length; lia).
  rewrite !map_wrap_id by (first [apply shifted_i32 | apply mult_i32; assumption | apply shifts_i32, right_shifts; assumption]).
  rewrite !avx512_half by (rewrite ?map2_length, ?map_length; try lia; try apply shifted_i32; try apply right_shifts; assumption).
  unfold insert_high. rewrite <- of_lanes_app. f_equal. symmetry. apply map3_app; rewrite ?map2_length, ?map_length; lia.
Qed.

(** Multipliers by column: one column for all lanes. *)
Lemma perm64 : forall l c, 0 <= c -> permutexvar_epi64 (set1 8 8 (c mod 8)) (of_lanes 8 l) = of_lanes 8 (repeat (nth (Z.to_nat (c mod 8)) l 0) 8).
Proof.
  intros l c Hc. unfold permutexvar_epi64. rewrite set1_lanes, ulanes_of_lanes, pick_lanes by lia. f_equal.
  cbn [repeat map]. change (8 * Z.of_nat 8) with 64. pose proof (Z.mod_pos_bound c 8 ltac:(lia)).
  rewrite wrap_u64_id by lia. rewrite Z.mod_mod by lia. reflexivity.
Qed.
Lemma perm32 : forall l c, 0 <= c < 16 -> permutexvar_epi32 (set1 4 16 c) (of_lanes 4 l) = of_lanes 4 (repeat (nth (Z.to_nat c) l 0) 16).
Proof.
  intros l c Hc. unfold permutexvar_epi32. rewrite set1_lanes, ulanes_of_lanes, pick_lanes by lia. f_equal.
  cbn [repeat map]. change (8 * Z.of_nat 4) with 32. rewrite wrap_u32_id by lia. rewrite Z.mod_small by lia. reflexivity.
Qed.
Lemma wide_col : forall l c, length l = 16%nat -> all_i32 l -> 0 <= c < 16 ->
  permutexvar_epi64 (set1 8 8 (c mod 8)) (avx512_wide (of_lanes 4 l) (if c <? 8 then 0%nat else 1%nat)) =
  of_lanes 8 (repeat (nth (Z.to_nat c) l 0) 8).
Proof.
  intros l c Hl Al Hc. destruct (sixteen l Hl) as (a & b & -> & Ha & Hb). apply Forall_app in Al. destruct Al as [Aa Ab].
  destruct (c <? 8) eqn:E; [apply Z.ltb_lt in E | apply Z.ltb_ge in E].
  - rewrite wide_lo by exact Ha. rewrite map_wrap_id by exact Aa. rewrite perm64 by lia. rewrite Z.mod_small by lia.
    rewrite app_nth1 by lia. reflexivity.
  - rewrite wide_hi by assumption. rewrite map_wrap_id by exact Ab. rewrite perm64 by lia.
    rewrite app_nth2 by lia. replace (c mod 8) with (c - 8) by (apply Z.mod_unique with 1; lia).
    replace (Z.to_nat c - length a)%nat with (Z.to_nat (c - 8)) by lia. reflexivity.
Qed.
Lemma nth_Forall : forall (P : Z -> Prop) l i, Forall P l -> (i < length l)%nat -> P (nth i l 0).
Proof. intros P l i H Hi. rewrite Forall_forall in H. apply H, nth_In, Hi. Qed.
Lemma Forall_repeat : forall (P : Z -> Prop) z n, P z -> Forall P (repeat z n).
Proof. intros P z n H. induction n; [apply Forall_nil | apply Forall_cons; assumption]. Qed.
Lemma map3_repeat : forall {D} (f : Z -> Z -> Z -> D) l m e n, length l = n -> map3 f l (repeat m n) (repeat e n) = map (fun x => f x m e) l.
Proof. intros D f l m e n <-. induction l as [|x l IH]; [reflexivity|]. cbn [length repeat map3 map]. rewrite IH. reflexivity. Qed.

Lemma nth_map0 : forall (f : Z -> Z) l i, f 0 = 0 -> nth i (map f l) 0 = f (nth i l 0).
Proof. intros f l i H. rewrite <- H at 1. apply map_nth. Qed.

Ltac lens := rewrite ?map2_length, ?map_length, ?repeat_length by (rewrite ?repeat_length; lia); rewrite ?repeat_length; lia.

Lemma avx512_lanes_col : forall xs ms es zp col, length xs = 16%nat -> length ms = 16%nat -> length es = 16%nat ->
  Forall is_mult ms -> Forall is_exp es -> 0 <= col < 16 ->
  avx512_apply_multiplier_col (of_lanes 4 ms) (of_lanes 4 es) zp col (of_lanes 4 xs) =
  of_lanes 4 (map (fun x => x86_lane x (nth (Z.to_nat col) ms 0) (nth (Z.to_nat col) es 0) + zp) xs).
Proof.
  intros xs ms es zp col Hx Hm He Am Ae Hc. unfold avx512_apply_multiplier_col. cbv zeta.
  rewrite left_shift_v, right_shift_v by assumption. rewrite perm32 by exact Hc.
  rewrite (nth_map0 (fun e => Z.max e 0)) by reflexivity.
  set (e := nth (Z.to_nat col) es 0). set (m := nth (Z.to_nat col) ms 0).
  assert (Pe : is_exp e) by (apply nth_Forall; [exact Ae | lia]). assert (Pm : is_mult m) by (apply nth_Forall; [exact Am | lia]).
  replace (repeat (Z.max e 0) 16) with (map (fun e => Z.max e 0) (repeat e 16)) by reflexivity.
  rewrite sllv_v by (apply Forall_repeat; exact Pe).
  rewrite !wide_col by (first [assumption | apply mult_i32; assumption | apply shifts_i32, right_shifts; assumption | rewrite map_length; exact He]).
  rewrite (nth_map0 (fun e => Z.max (- e) 0)) by reflexivity.
  fold m. fold e.
  replace (permutexvar_epi64 (set1 8 8 (col mod 8)) avx512_offset_vector) with (of_lanes 8 (repeat (2 ^ 30) 8)).
  2: { rewrite offset_v, perm64 by lia. pose proof (Z.mod_pos_bound col 8 ltac:(lia)). f_equal. f_equal. symmetry.
       apply (repeat_spec 8). apply nth_In. rewrite repeat_length. lia. }
  replace (permutexvar_epi64 (set1 8 8 (col mod 8)) (avx512_wide avx512_final_right_shift (if col <? 8 then 0%nat else 1%nat)))
    with (of_lanes 8 (repeat 31 8)).
  2: { rewrite final_v by (destruct (col <? 8); lia). rewrite perm64 by lia. pose proof (Z.mod_pos_bound col 8 ltac:(lia)).
       f_equal. f_equal. symmetry. apply (repeat_spec 8). apply nth_In. rewrite repeat_length. lia. }
  rewrite <- (map3_repeat (fun x m e => x86_lane x m e + zp) xs m e 16) by exact Hx.
  rewrite <- lanes_of_parts, <- add_zp16.
  2: { rewrite map3_length; lens. }
  f_equal. destruct (sixteen xs Hx) as (x1 & x2 & -> & Hx1 & Hx2).
  change (repeat e 16) with (repeat e 8 ++ repeat e 8). change (repeat m 16) with (repeat m 8 ++ repeat m 8).
  rewrite map2_app by (rewrite repeat_length; lia). rewrite map_app.
  rewrite !wide_lo, !wide_hi by lens.
  rewrite !map_wrap_id by apply shifted_i32.
  change (repeat (Z.max (- e) 0) 8) with (map (fun e => Z.max (- e) 0) (repeat e 8)).
  rewrite !avx512_half by (first [lens | apply shifted_i32 | apply right_shifts, Forall_repeat; assumption | apply Forall_repeat; assumption]).
  unfold insert_high. rewrite <- of_lanes_app. f_equal. symmetry.
  apply map3_app; lens.
Qed.
