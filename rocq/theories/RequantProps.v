(** The requantization of the vector kernels against the reference. *)
From Coq Require Import ZArith List Bool Lia.
From Verif Require Import Base SizeUtilFacts Multiplier SpecRound SpecSimd FinishProps Simd SimdRequant SimdFacts
  RequantFacts AvxFacts Avx512Facts.
Import ListNotations.
Open Scope Z_scope.

Lemma nearest_half : forall n k, 0 <= k -> nearest_ties_up n (2 ^ (k + 1)) ((n + 2 ^ k) / 2 ^ (k + 1)).
Proof.
  intros n k Hk. unfold nearest_ties_up. assert (E : 2 ^ (k + 1) = 2 * 2 ^ k) by (rewrite <- Z.pow_succ_r by lia; f_equal; lia).
  pose proof (pow2_pos k Hk) as P. rewrite E in *. set (h := 2 ^ k) in *.
  pose proof (Z.div_mod (n + h) (2 * h) ltac:(lia)) as D. pose proof (Z.mod_pos_bound (n + h) (2 * h) ltac:(lia)) as M. nia.
Qed.

(** The rounding right shift rounds to nearest, overflow or not. *)
Lemma rrs_value : forall r k, int_min <= r <= int_max -> 0 <= k <= 31 ->
  rrs_lane r k = if k =? 0 then r else (r + 2 ^ (k - 1)) / 2 ^ k.
Proof.
  intros r k Hr Hk. unfold rrs_lane. cbv zeta. destruct (k =? 0) eqn:E0.
  - apply Z.eqb_eq in E0. subst k. change (0 <? 0) with false. cbv iota.
    replace (int_max - 0 <? r) with false by (symmetry; apply Z.ltb_ge; lia). change (2 ^ 0) with 1. rewrite Z.div_1_r. lia.
  - apply Z.eqb_neq in E0. replace (0 <? k) with true by (symmetry; apply Z.ltb_lt; lia).
    destruct (int_max - 2 ^ (k - 1) <? r) eqn:E; [|reflexivity]. apply Z.ltb_lt in E.
    assert (E1 : 2 ^ k = 2 * 2 ^ (k - 1)) by (rewrite <- Z.pow_succ_r by lia; f_equal; lia).
    assert (E2 : 2 ^ 31 = 2 ^ k * 2 ^ (31 - k)) by (rewrite <- Z.pow_add_r by lia; f_equal; lia).
    pose proof (pow2_pos (k - 1) ltac:(lia)) as P. pose proof (pow2_pos (31 - k) ltac:(lia)) as Q.
    apply Z.div_unique with (r + 2 ^ (k - 1) - 2 ^ 31).
    + left. change (2 ^ 31) with 2147483648 in *. unfold int_max in *. lia.
    + rewrite <- E2. lia.
Qed.
Lemma rrs_nearest : forall r k, int_min <= r <= int_max -> 0 <= k <= 31 -> nearest_ties_up r (2 ^ k) (rrs_lane r k).
Proof.
  intros r k Hr Hk. rewrite rrs_value by assumption. destruct (k =? 0) eqn:E.
  - apply Z.eqb_eq in E. subst k. unfold nearest_ties_up. change (2 ^ 0) with 1. lia.
  - apply Z.eqb_neq in E. pose proof (nearest_half r (k - 1) ltac:(lia)) as N. replace (k - 1 + 1) with k in N by lia. exact N.
Qed.

Lemma x86_twice_rounded : forall x m e, fixed_point m -> exponent e -> twice_rounded x m e (x86_lane x m e).
Proof.
  intros x m e Hm He. exists (product x m e). split.
  - unfold product. change (shifted x e) with (shifted_left x e). apply (nearest_half _ 30). lia.
  - apply rrs_nearest; [apply product_range; exact Hm | unfold exponent in He; lia].
Qed.

(** A register of lanes given by [map3]. *)
Lemma nth_map3 : forall {A} (f : Z -> Z -> Z -> A) a b c i d, (i < length a)%nat -> length b = length a -> length c = length a ->
  nth i (map3 f a b c) d = f (nth i a 0) (nth i b 0) (nth i c 0).
Proof.
  induction a as [|x a IH]; intros [|y b] [|z c] i d H Hb Hc; cbn [length] in *; try lia. destruct i; [reflexivity|].
  cbn [map3 nth]. apply IH; lia.
Qed.

Lemma signed_lane : forall l i, (i < length l)%nat -> nth i (slanes 4 (of_lanes 4 l)) 0 = wrap_s 32 (nth i l 0).
Proof.
  intros l i H. rewrite slanes_of_lanes by lia. rewrite (nth_indep _ 0 (wrap_s (8 * Z.of_nat 4) 0)) by (rewrite map_length; exact H).
  apply map_nth.
Qed.

Lemma lanes_twice_rounded : forall n v xs ms es zp, length xs = n -> length ms = n -> length es = n ->
  Forall fixed_point ms -> Forall exponent es ->
  v = of_lanes 4 (map3 (fun x m e => x86_lane x m e + zp) xs ms es) ->
  forall i, (i < n)%nat -> exists r, twice_rounded (nth i xs 0) (nth i ms 0) (nth i es 0) r /\
    nth i (slanes 4 v) 0 = wrap_s 32 (r + zp).
Proof.
  intros n v xs ms es zp Hx Hm He Am Ae -> i Hi. exists (x86_lane (nth i xs 0) (nth i ms 0) (nth i es 0)). split.
  - apply x86_twice_rounded; [apply (nth_Forall fixed_point) | apply (nth_Forall exponent)]; auto; lia.
  - rewrite signed_lane by (rewrite map3_length; lia). rewrite nth_map3 by lia. reflexivity.
Qed.

Lemma avx2_requantizes : forall xs ms es zp, length xs = 8%nat -> length ms = 8%nat -> length es = 8%nat ->
  Forall fixed_point ms -> Forall exponent es -> forall i, (i < 8)%nat ->
  exists r, twice_rounded (nth i xs 0) (nth i ms 0) (nth i es 0) r /\
    nth i (slanes 4 (avx2_apply_multiplier (of_lanes 4 ms) (of_lanes 4 es) zp (of_lanes 4 xs))) 0 = wrap_s 32 (r + zp).
Proof. intros xs ms es zp Hx Hm He Am Ae. apply (lanes_twice_rounded 8); auto. apply avx2_lanes; auto. Qed.

Lemma avx_requantizes : forall xs ms es zp, length xs = 8%nat -> length ms = 8%nat -> length es = 8%nat ->
  Forall fixed_point ms -> Forall exponent es -> forall i, (i < 8)%nat ->
  exists r, twice_rounded (nth i xs 0) (nth i ms 0) (nth i es 0) r /\
    nth i (slanes 4 (avx_apply_multiplier (of_lanes 4 ms) (of_lanes 4 es) zp (of_lanes 4 xs))) 0 = wrap_s 32 (r + zp).
Proof. intros xs ms es zp Hx Hm He Am Ae. apply (lanes_twice_rounded 8); auto. apply avx_lanes; auto. Qed.

Lemma avx512_requantizes : forall xs ms es zp, length xs = 16%nat -> length ms = 16%nat -> length es = 16%nat ->
  Forall fixed_point ms -> Forall exponent es -> forall i, (i < 16)%nat ->
  exists r, twice_rounded (nth i xs 0) (nth i ms 0) (nth i es 0) r /\
    nth i (slanes 4 (avx512_apply_multiplier (of_lanes 4 ms) (of_lanes 4 es) zp (of_lanes 4 xs))) 0 = wrap_s 32 (r + zp).
Proof. intros xs ms es zp Hx Hm He Am Ae. apply (lanes_twice_rounded 16); auto. apply avx512_lanes; auto. Qed.

Lemma avx512_requantizes_columns : forall xs ms es zp col, length xs = 16%nat -> length ms = 16%nat -> length es = 16%nat ->
  Forall fixed_point ms -> Forall exponent es -> 0 <= col < 16 -> forall i, (i < 16)%nat ->
  exists r, twice_rounded (nth i xs 0) (nth (Z.to_nat col) ms 0) (nth (Z.to_nat col) es 0) r /\
    nth i (slanes 4 (avx512_apply_multiplier_col (of_lanes 4 ms) (of_lanes 4 es) zp col (of_lanes 4 xs))) 0 = wrap_s 32 (r + zp).
Proof.
  intros xs ms es zp col Hx Hm He Am Ae Hc i Hi. set (m := nth (Z.to_nat col) ms 0). set (e := nth (Z.to_nat col) es 0).
  assert (Pm : fixed_point m) by (apply (nth_Forall fixed_point); [exact Am | lia]).
  assert (Pe : exponent e) by (apply (nth_Forall exponent); [exact Ae | lia]).
  exists (x86_lane (nth i xs 0) m e). split; [apply x86_twice_rounded; assumption|].
  rewrite avx512_lanes_col by assumption. rewrite signed_lane by (rewrite map_length; lia). fold m. fold e.
  rewrite (nth_indep _ 0 (x86_lane 0 m e + zp)) by (rewrite map_length; lia).
  rewrite (map_nth (fun x => x86_lane x m e + zp)). reflexivity.
Qed.

(** ** NEON *)

Definition neon_lane (x m e : Z) : Z :=
  let k := Z.max (- e) 1 in (neon_shifted x e * m / 2 ^ 31 + 2 ^ (k - 1)) / 2 ^ k.

Lemma wrap_s8_id : forall z, -128 <= z <= 127 -> wrap_s 8 z = z.
Proof. intros z H. apply wrap_s_id; [lia|]. change (2 ^ (8 - 1)) with 128. lia. Qed.

Lemma neon_product : forall a m, is_i32 a -> is_i32 m -> (a <> int_min \/ m <> int_min) ->
  wrap_s 32 (neon_saturate (2 * a * m / 2 ^ 32)) = a * m / 2 ^ 31 /\ is_i32 (a * m / 2 ^ 31).
Proof.
  intros a m Ha Hm Hs.
  assert (E : 2 * a * m / 2 ^ 32 = a * m / 2 ^ 31).
  { change (2 ^ 32) with (2 * 2 ^ 31). rewrite <- Z.mul_assoc. apply Z.div_mul_cancel_l; lia. }
  rewrite E. clear E.
  assert (B : is_i32 (a * m / 2 ^ 31)).
  { unfold is_i32, int_min, int_max in *. change (2 ^ 31) with 2147483648. split.
    - apply Z.div_le_lower_bound; [lia|]. nia.
    - cut (a * m / 2147483648 < 2147483648); [lia|]. apply Z.div_lt_upper_bound; [lia|]. nia. }
  split; [|exact B]. unfold neon_saturate. unfold is_i32 in B. rewrite Z.min_r, Z.max_r by lia. apply wrap_s32_id. exact B.
Qed.

Lemma neon_lane_eq : forall x m e, is_i32 m -> (neon_shifted x e <> int_min \/ m <> int_min) -> exponent e ->
  wrap_s 32 (let c := wrap_s 8 (wrap_s 32 (Z.min (-1) e)) in
    let y := wrap_s 32 (neon_saturate (2 * wrap_s 32 (let c := wrap_s 8 (wrap_s 32 (e - wrap_s 32 (Z.min (-1) e))) in
      if 0 <=? c then x * 2 ^ c else x / 2 ^ (- c)) * m / 2 ^ 32)) in
    if 0 <=? c then y * 2 ^ c else (y + 2 ^ (- c - 1)) / 2 ^ (- c)) = neon_lane x m e.
Proof.
  intros x m e Hm Hs He. unfold exponent in He. cbv zeta. rewrite !(wrap_s32_id (Z.min (-1) e)) by (unfold int_min, int_max; lia).
  rewrite (wrap_s32_id (e - Z.min (-1) e)) by (unfold int_min, int_max; lia).
  rewrite !wrap_s8_id by lia. replace (0 <=? e - Z.min (-1) e) with true by (symmetry; apply Z.leb_le; lia).
  replace (e - Z.min (-1) e) with (Z.max (e + 1) 0) by lia. fold (neon_shifted x e).
  destruct (neon_product (neon_shifted x e) m) as [E B]; auto; [apply wrap_s32_range|]. rewrite E. clear E.
  unfold neon_lane. cbv zeta. replace (0 <=? Z.min (-1) e) with false by (symmetry; apply Z.leb_gt; lia).
  replace (- Z.min (-1) e) with (Z.max (- e) 1) by lia. set (k := Z.max (- e) 1) in *. set (p := neon_shifted x e * m / 2 ^ 31) in *.
  apply wrap_s32_id. pose proof (pow2_le (k - 1) 30 ltac:(lia)) as P. change (2 ^ 30) with 1073741824 in P.
  assert (E1 : 2 ^ k = 2 * 2 ^ (k - 1)) by (rewrite <- Z.pow_succ_r by lia; f_equal; lia). rewrite E1.
  unfold is_i32, int_min, int_max in *. split.
  - apply Z.div_le_lower_bound; [lia|]. nia.
  - apply Z.div_le_upper_bound; [lia|]. nia.
Qed.

Lemma neon_apply_lane : forall n xs ms es i, length xs = n -> length ms = n -> length es = n -> (i < n)%nat ->
  Forall is_i32 ms -> Forall exponent es ->
  (neon_shifted (nth i xs 0) (nth i es 0) <> int_min \/ nth i ms 0 <> int_min) ->
  nth i (neon_apply_multiplier ms es xs) 0 = neon_lane (nth i xs 0) (nth i ms 0) (nth i es 0).
Proof.
  intros n xs ms es i Hx Hm He Hi Am Ae Hs. rewrite <- neon_lane_eq; auto.
  2: { apply (nth_Forall is_i32); [exact Am | lia]. }
  2: { apply (nth_Forall exponent); [exact Ae | lia]. }
  clear Am Ae Hs. unfold neon_apply_multiplier, neon_srshl, neon_sqdmulh, neon_sshl, neon_smin_lanes, neon_sub_lanes, neon_lanes2. cbv zeta.
  revert xs ms es i Hx Hm He Hi. induction n as [|n IH]; [lia|]. intros [|x xs] [|m ms] [|e es] i Hx Hm He Hi; try discriminate.
  cbn [length repeat map2]. destruct i as [|i]; [reflexivity|]. cbn [nth]. apply IH; try lia; auto.
Qed.

Lemma nested_floor : forall n a b c, 0 < a -> 0 < b -> (n / a + c) / b = (n + a * c) / (a * b).
Proof.
  intros n a b c Ha Hb. rewrite <- (Z.div_add n c a) by lia. rewrite Z.div_div by lia. f_equal. lia.
Qed.

Lemma neon_lane_value : forall x m e, neon_lane x m e = (neon_shifted x e * m + 2 ^ (30 + Z.max (- e) 1)) / 2 ^ (31 + Z.max (- e) 1).
Proof.
  intros x m e. unfold neon_lane. cbv zeta. set (k := Z.max (- e) 1). assert (Hk : 1 <= k) by lia.
  pose proof (pow2_pos k ltac:(lia)) as Pk. rewrite nested_floor by lia. rewrite <- !Z.pow_add_r by lia.
  replace (31 + (k - 1)) with (30 + k) by lia. reflexivity.
Qed.
Lemma neon_rounded : forall x m e, rounded_once x m e (neon_lane x m e).
Proof.
  intros x m e. rewrite neon_lane_value. unfold rounded_once.
  pose proof (nearest_half (neon_shifted x e * m) (30 + Z.max (- e) 1) ltac:(lia)) as N.
  replace (30 + Z.max (- e) 1 + 1) with (31 + Z.max (- e) 1) in N by lia. exact N.
Qed.
Lemma rounded_value : forall x m e r, rounded_once x m e r -> r = neon_lane x m e.
Proof.
  intros x m e r H. refine (nearest_unique _ _ _ _ _ H (neon_rounded x m e)). apply pow2_pos. lia.
Qed.

Lemma neon_requantizes : forall xs ms es, length xs = 4%nat -> length ms = 4%nat -> length es = 4%nat ->
  Forall fixed_point ms -> Forall exponent es -> forall i, (i < 4)%nat ->
  rounded_once (nth i xs 0) (nth i ms 0) (nth i es 0) (nth i (neon_apply_multiplier ms es xs) 0).
Proof.
  intros xs ms es Hx Hm He Am Ae i Hi. pose proof (nth_Forall fixed_point ms i Am ltac:(lia)) as Pm. unfold fixed_point in Pm.
  assert (Ai : Forall is_i32 ms) by (eapply Forall_impl; [|exact Am]; unfold fixed_point, is_i32, int_min; intros; lia).
  rewrite (neon_apply_lane 4) by (auto; right; unfold int_min; lia).
  apply neon_rounded.
Qed.

Lemma neon_col : forall ms es col xs, length xs = 4%nat -> length ms = 4%nat -> length es = 4%nat -> (col < 4)%nat ->
  neon_apply_multiplier_col ms es col xs =
  neon_apply_multiplier (repeat (nth col ms 0) 4) (repeat (nth col es 0) 4) xs.
Proof.
  intros ms es col xs Hx Hm He Hc. unfold neon_apply_multiplier_col, neon_apply_multiplier. cbv zeta. rewrite repeat_length.
  destruct (four ms Hm) as (m0 & m1 & m2 & m3 & ->). destruct (four es He) as (e0 & e1 & e2 & e3 & ->).
  cbn [length repeat]. unfold neon_smin_lanes, neon_sub_lanes, neon_lanes2. cbn [map2 length repeat].
  destruct col as [|[|[|[|col]]]]; try reflexivity. lia.
Qed.

Lemma neon_requantizes_columns : forall xs ms es col, length xs = 4%nat -> length ms = 4%nat -> length es = 4%nat ->
  Forall fixed_point ms -> Forall exponent es -> (col < 4)%nat -> forall i, (i < 4)%nat ->
  rounded_once (nth i xs 0) (nth col ms 0) (nth col es 0) (nth i (neon_apply_multiplier_col ms es col xs) 0).
Proof.
  intros xs ms es col Hx Hm He Am Ae Hc i Hi. rewrite neon_col by assumption.
  assert (R : forall z, nth i (repeat z 4) 0 = z) by (intros z; do 4 (destruct i as [|i]; [reflexivity|]); lia).
  rewrite <- (R (nth col ms 0)) at 1. rewrite <- (R (nth col es 0)) at 1. apply neon_requantizes; auto.
  - apply Forall_repeat. apply (nth_Forall fixed_point); [exact Am | lia].
  - apply Forall_repeat. apply (nth_Forall exponent); [exact Ae | lia].
Qed.

(** ** Against the reference *)

Lemma twice_value : forall x m e r, exponent e -> twice_rounded x m e r ->
  r = if Z.max (- e) 0 =? 0 then (shifted_left x e * m + 2 ^ 30) / 2 ^ 31
      else ((shifted_left x e * m + 2 ^ 30) / 2 ^ 31 + 2 ^ (Z.max (- e) 0 - 1)) / 2 ^ Z.max (- e) 0.
Proof.
  intros x m e r He (p & Hp & Hr). pose proof (nearest_half (shifted_left x e * m) 30 ltac:(lia)) as N. change (30 + 1) with 31 in N.
  rewrite (nearest_unique _ (2 ^ 31) _ _ ltac:(lia) Hp N) in Hr. destruct (Z.max (- e) 0 =? 0) eqn:E.
  - apply Z.eqb_eq in E. rewrite E in Hr. unfold nearest_ties_up in Hr. change (2 ^ 0) with 1 in Hr. lia.
  - apply Z.eqb_neq in E. set (k := Z.max (- e) 0) in *.
    pose proof (nearest_half ((shifted_left x e * m + 2 ^ 30) / 2 ^ 31) (k - 1) ltac:(lia)) as Q. replace (k - 1 + 1) with k in Q by lia.
    refine (nearest_unique _ _ _ _ _ Hr Q). apply pow2_pos. lia.
Qed.

Lemma shifted_exact : forall x e, is_i32 (x * 2 ^ Z.max e 0) -> shifted_left x e = x * 2 ^ Z.max e 0.
Proof. intros x e H. unfold shifted_left. apply wrap_s32_id. exact H. Qed.

Lemma fixed_i32 : forall m, fixed_point m -> is_i32 m.
Proof. unfold fixed_point, is_i32, int_min. lia. Qed.

Lemma reference_value : forall dbg x m e, is_i32 x -> is_i32 m -> -31 <= e <= 30 -> is_i32 (qround x m e) ->
  multiply_by_quantized_multiplier dbg x m e = Ok (qround x m e).
Proof.
  intros dbg x m e Hx Hm He Hr. rewrite multiply_value by assumption. unfold is_i32 in Hr.
  replace (in_i32 (qround x m e)) with true by (unfold in_i32; lia). rewrite andb_false_r. f_equal. apply wrap_s32_id. exact Hr.
Qed.

(** Scaling numerator and denominator. *)
Lemma qround_left : forall x m e, 0 <= e <= 30 -> qround x m e = (x * 2 ^ e * m + 2 ^ 30) / 2 ^ 31.
Proof.
  intros x m e He. unfold qround. pose proof (pow2_pos e ltac:(lia)) as P. pose proof (pow2_pos (31 - e) ltac:(lia)) as Q.
  rewrite <- (Z.div_mul_cancel_r (x * m + 2 ^ (30 - e)) (2 ^ (31 - e)) (2 ^ e)) by lia. f_equal.
  - rewrite Z.mul_add_distr_r, <- Z.pow_add_r by lia. f_equal; [lia | f_equal; lia].
  - rewrite <- Z.pow_add_r by lia. f_equal. lia.
Qed.
Lemma in_range_left : forall x m e, fixed_point m -> 0 <= e <= 30 -> is_i32 (x * 2 ^ e) -> is_i32 (qround x m e).
Proof.
  intros x m e Hm He Hs. rewrite qround_left by exact He. pose proof (product_range (x * 2 ^ e) m 0 Hm) as R.
  unfold product, shifted in R. change (2 ^ Z.max 0 0) with 1 in R. rewrite Z.mul_1_r, wrap_s32_id in R by exact Hs. exact R.
Qed.
Lemma in_range_right : forall x m e, is_i32 x -> fixed_point m -> -31 <= e <= 0 -> is_i32 (qround x m e).
Proof.
  intros x m e Hx Hm He. unfold qround. pose proof (pow2_le 0 (- e) ltac:(lia)) as Pk. change (2 ^ 0) with 1 in Pk.
  assert (E1 : 2 ^ (31 - e) = 2147483648 * 2 ^ (- e)) by (change 2147483648 with (2 ^ 31); rewrite <- Z.pow_add_r by lia; f_equal; lia).
  assert (E2 : 2 ^ (30 - e) = 1073741824 * 2 ^ (- e)) by (change 1073741824 with (2 ^ 30); rewrite <- Z.pow_add_r by lia; f_equal; lia).
  rewrite E1, E2. set (h := 2 ^ (- e)) in *. unfold is_i32, fixed_point, int_min, int_max in *. split.
  - apply Z.div_le_lower_bound; [lia|]. nia.
  - apply Z.div_le_upper_bound; [lia|]. nia.
Qed.

(** x86, left shift: the same number, if the shifted accumulator is an int32. *)
Lemma x86_left_exact : forall dbg x m e r, is_i32 x -> fixed_point m -> 0 <= e <= 30 -> is_i32 (x * 2 ^ e) ->
  twice_rounded x m e r -> multiply_by_quantized_multiplier dbg x m e = Ok r.
Proof.
  intros dbg x m e r Hx Hm He Hs Hr. apply twice_value in Hr; [|unfold exponent; lia].
  replace (Z.max (- e) 0 =? 0) with true in Hr by (symmetry; apply Z.eqb_eq; lia).
  rewrite shifted_exact in Hr by (rewrite Z.max_l by lia; exact Hs). rewrite Z.max_l in Hr by lia.
  rewrite reference_value; auto using fixed_i32, in_range_left; [|lia]. rewrite qround_left by exact He. congruence.
Qed.

(** x86, right shift: one more just below the ties. *)
Lemma div_step : forall n c d, 0 < d -> 0 <= c < d -> (n + c) / d = n / d + (if d - c <=? n mod d then 1 else 0).
Proof.
  intros n c d Hd Hc. pose proof (Z.div_mod n d ltac:(lia)) as D. pose proof (Z.mod_pos_bound n d Hd) as M.
  destruct (d - c <=? n mod d) eqn:E; [apply Z.leb_le in E | apply Z.leb_gt in E].
  - symmetry. apply Z.div_unique with (n mod d + c - d); lia.
  - symmetry. apply Z.div_unique with (n mod d + c); lia.
Qed.

Lemma x86_right_step : forall dbg x m k r, is_i32 x -> fixed_point m -> 1 <= k <= 31 -> twice_rounded x m (- k) r ->
  exists r0, multiply_by_quantized_multiplier dbg x m (- k) = Ok r0 /\
    (2 ^ (30 + k) - 2 ^ 30 <= (x * m) mod 2 ^ (31 + k) < 2 ^ (30 + k) -> r = r0 + 1) /\
    (~ 2 ^ (30 + k) - 2 ^ 30 <= (x * m) mod 2 ^ (31 + k) < 2 ^ (30 + k) -> r = r0).
Proof.
  intros dbg x m k r Hx Hm Hk Hr. apply twice_value in Hr; [|unfold exponent; lia].
  replace (Z.max (- - k) 0) with k in Hr by lia. replace (k =? 0) with false in Hr by (symmetry; apply Z.eqb_neq; lia).
  rewrite shifted_exact in Hr by (replace (Z.max (- k) 0) with 0 by lia; change (2 ^ 0) with 1; rewrite Z.mul_1_r; exact Hx).
  replace (Z.max (- k) 0) with 0 in Hr by lia. change (2 ^ 0) with 1 in Hr. rewrite Z.mul_1_r in Hr.
  exists (qround x m (- k)). split.
  { apply reference_value; auto using fixed_i32; [lia|]. apply in_range_right; auto. lia. }
  pose proof (pow2_pos k ltac:(lia)) as Pk. pose proof (pow2_pos (k - 1) ltac:(lia)) as Pk1.
  rewrite nested_floor in Hr by lia. rewrite <- !Z.pow_add_r in Hr by lia.
  replace (31 + (k - 1)) with (30 + k) in Hr by lia. unfold qround.
  replace (30 - - k) with (30 + k) by lia. replace (31 - - k) with (31 + k) by lia.
  replace (x * m + 2 ^ 30 + 2 ^ (30 + k)) with (x * m + 2 ^ (30 + k) + 2 ^ 30) in Hr by lia.
  assert (E1 : 2 ^ (31 + k) = 2 * 2 ^ (30 + k)) by (rewrite <- Z.pow_succ_r by lia; f_equal; lia).
  assert (E2 : 2 ^ (30 + k) = 2 ^ 30 * 2 ^ k) by (apply Z.pow_add_r; lia).
  rewrite div_step in Hr by lia.
  set (n := x * m) in *. set (h := 2 ^ (30 + k)) in *. rewrite E1 in *.
  assert (P30 : 2 ^ 30 = 1073741824) by reflexivity.
  pose proof (Z.mod_pos_bound n (2 * h) ltac:(lia)) as M.
  assert (Q : (n + h) mod (2 * h) = if n mod (2 * h) <? h then n mod (2 * h) + h else n mod (2 * h) - h).
  { pose proof (Z.div_mod n (2 * h) ltac:(lia)) as D.
    destruct (n mod (2 * h) <? h) eqn:E; [apply Z.ltb_lt in E | apply Z.ltb_ge in E].
    - symmetry. apply Z.mod_unique with (n / (2 * h)); lia.
    - symmetry. apply Z.mod_unique with (n / (2 * h) + 1); lia. }
  rewrite Q in Hr. clear Q.
  destruct (n mod (2 * h) <? h) eqn:E; [apply Z.ltb_lt in E | apply Z.ltb_ge in E].
  - destruct (2 * h - 2 ^ 30 <=? n mod (2 * h) + h) eqn:F; [apply Z.leb_le in F | apply Z.leb_gt in F]; split; intros; lia.
  - destruct (2 * h - 2 ^ 30 <=? n mod (2 * h) - h) eqn:F; [apply Z.leb_le in F | apply Z.leb_gt in F]; split; intros; lia.
Qed.

(** NEON: the same number, if the shifted accumulator is an int32. *)
Lemma neon_exact : forall dbg x m e r, is_i32 x -> fixed_point m -> -31 <= e <= 30 -> is_i32 (x * 2 ^ Z.max (e + 1) 0) ->
  rounded_once x m e r -> multiply_by_quantized_multiplier dbg x m e = Ok r.
Proof.
  intros dbg x m e r Hx Hm He Hs Hr. apply rounded_value in Hr. subst r. rewrite neon_lane_value. unfold neon_shifted. rewrite wrap_s32_id by exact Hs.
  destruct (Z_le_gt_dec 0 e) as [H0|H0].
  - rewrite (Z.max_l (e + 1) 0) in * by lia. rewrite (Z.max_r (- e) 1) by lia. change (30 + 1) with 31. change (31 + 1) with 32.
    assert (E : 2 ^ (e + 1) = 2 * 2 ^ e) by (rewrite <- Z.pow_succ_r by lia; f_equal; lia). rewrite E in *.
    assert (Hs' : is_i32 (x * 2 ^ e)) by (unfold is_i32, int_min, int_max in *; lia).

    rewrite reference_value; [|assumption|auto using fixed_i32|lia|apply in_range_left; auto; lia]. rewrite qround_left by lia. f_equal.
    change (2 ^ 32) with (2 * 2 ^ 31). change (2 ^ 31) with (2 * 2 ^ 30) at 2. rewrite <- (Z.div_mul_cancel_l (x * 2 ^ e * m + 2 ^ 30) (2 ^ 31) 2) by lia. f_equal. lia.
  - rewrite (Z.max_r (e + 1) 0) in * by lia. rewrite (Z.max_l (- e) 1) by lia. change (2 ^ 0) with 1. rewrite Z.mul_1_r.
    rewrite reference_value; [|assumption|auto using fixed_i32|lia|apply in_range_right; auto; lia]. unfold qround.
    replace (30 + - e) with (30 - e) by lia. replace (31 + - e) with (31 - e) by lia. reflexivity.
Qed.

(** The claim itself is false of every sequence. *)
Lemma avx2_same_result_refuted : exists x m e r0,
  is_i32 x /\ fixed_point m /\ exponent e /\ multiply_by_quantized_multiplier true x m e = Ok r0 /\
  slanes 4 (avx2_apply_multiplier (set1 4 8 m) (set1 4 8 e) 0 (set1 4 8 x)) = repeat (r0 + 1) 8 /\
  slanes 4 (avx_apply_multiplier (set1 4 8 m) (set1 4 8 e) 0 (set1 4 8 x)) = repeat (r0 + 1) 8 /\
  slanes 4 (avx512_apply_multiplier (set1 4 16 m) (set1 4 16 e) 0 (set1 4 16 x)) = repeat (r0 + 1) 16 /\
  slanes 4 (avx512_apply_multiplier_col (set1 4 16 m) (set1 4 16 e) 0 5 (set1 4 16 x)) = repeat (r0 + 1) 16.
Proof.
  exists 1, (2 ^ 30), (-1), 0. unfold is_i32, fixed_point, exponent, int_min, int_max. repeat split; try lia; vm_compute; reflexivity.
Qed.
Lemma neon_same_result_refuted : exists x m e r0,
  is_i32 x /\ fixed_point m /\ e = 0 /\ multiply_by_quantized_multiplier true x m e = Ok r0 /\ 0 < r0 /\
  neon_apply_multiplier (repeat m 4) (repeat e 4) (repeat x 4) = repeat (- r0) 4 /\
  neon_apply_multiplier_col (repeat m 4) (repeat e 4) 2 (repeat x 4) = repeat (- r0) 4.
Proof.
  exists (2 ^ 30), (2 ^ 30), 0, (2 ^ 29). unfold is_i32, fixed_point, int_min, int_max. repeat split; try lia; vm_compute; reflexivity.
Qed.
Lemma left_overflow_refuted : exists x m e r0,
  is_i32 x /\ fixed_point m /\ exponent e /\ multiply_by_quantized_multiplier true x m e = Ok r0 /\ 0 < r0 /\
  slanes 4 (avx2_apply_multiplier (set1 4 8 m) (set1 4 8 e) 0 (set1 4 8 x)) = repeat (- r0) 8 /\
  slanes 4 (avx_apply_multiplier (set1 4 8 m) (set1 4 8 e) 0 (set1 4 8 x)) = repeat (- r0) 8 /\
  slanes 4 (avx512_apply_multiplier (set1 4 16 m) (set1 4 16 e) 0 (set1 4 16 x)) = repeat (- r0) 16.
Proof.
  exists (2 ^ 30), (2 ^ 30), 1, (2 ^ 30). unfold is_i32, fixed_point, exponent, int_min, int_max. repeat split; try lia; vm_compute; reflexivity.
Qed.
