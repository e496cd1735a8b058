(** The requantization sequences, lane by lane. *)
From Coq Require Import ZArith List Bool Lia.
From Verif Require Import Base Simd SimdRequant SimdFacts.
Import ListNotations.
Open Scope Z_scope.

Lemma eight : forall {A} (l : list A), length l = 8%nat ->
  exists a b c d e f g h, l = [a; b; c; d; e; f; g; h].
Proof.
  intros A l H. do 8 (destruct l as [|? l]; [discriminate|]). destruct l; [|discriminate].
  repeat eexists.
Qed.
Lemma four : forall {A} (l : list A), length l = 4%nat -> exists a b c d, l = [a; b; c; d].
Proof.
  intros A l H. do 4 (destruct l as [|? l]; [discriminate|]). destruct l; [|discriminate].
  repeat eexists.
Qed.

Lemma wrap_s32_id : forall z, int_min <= z <= int_max -> wrap_s 32 z = z.
Proof. intros z H. apply wrap_s_id; [lia|]. change (2 ^ (32 - 1)) with 2147483648. unfold int_min, int_max in H. lia. Qed.
Lemma wrap_s64_id : forall z, - 2 ^ 63 <= z < 2 ^ 63 -> wrap_s 64 z = z.
Proof. intros z H. apply wrap_s_id; [lia | exact H]. Qed.
Lemma wrap_u32_id : forall z, 0 <= z < 2 ^ 32 -> wrap_u 32 z = z.
Proof. intros z H. apply wrap_u_id. exact H. Qed.
Lemma wrap_u64_id : forall z, 0 <= z < 2 ^ 64 -> wrap_u 64 z = z.
Proof. intros z H. apply wrap_u_id. exact H. Qed.
Lemma wrap_s32_range : forall z, int_min <= wrap_s 32 z <= int_max.
Proof. intros z. pose proof (wrap_s_range 32 z ltac:(lia)) as H. change (2 ^ (32 - 1)) with 2147483648 in H. unfold int_min, int_max. lia. Qed.

(** ** The rounding right shift *)

Definition rrs_lane (r k : Z) : Z :=
  let nudge := if 0 <? k then 2 ^ (k - 1) else 0 in
  if int_max - nudge <? r then 2 ^ (31 - k) else (r + nudge) / 2 ^ k.

Lemma mask_bit : forall b : bool, (wrap_s 32 (if b then -1 else 0) <? 0) = b.
Proof. intros [|]; reflexivity. Qed.

Lemma pow2_le : forall a b, 0 <= a <= b -> 0 < 2 ^ a <= 2 ^ b.
Proof. intros a b H. split; [apply Z.pow_pos_nonneg; lia | apply Z.pow_le_mono_r; lia]. Qed.

Lemma rrs_lane_range : forall r k, int_min <= r <= int_max -> 0 <= k <= 31 -> int_min <= rrs_lane r k <= int_max.
Proof.
  intros r k Hr Hk. unfold rrs_lane. cbv zeta.
  assert (P : 0 < 2 ^ k) by (apply Z.pow_pos_nonneg; lia).
  assert (N : 0 <= (if 0 <? k then 2 ^ (k - 1) else 0) < 2 ^ k).
  { destruct (0 <? k) eqn:E; [|lia]. apply Z.ltb_lt in E.
    replace (2 ^ k) with (2 * 2 ^ (k - 1)) by (rewrite <- Z.pow_succ_r by lia; f_equal; lia).
    pose proof (pow2_le (k - 1) 31 ltac:(lia)). lia. }
  destruct (_ <? r) eqn:E.
  - apply Z.ltb_lt in E. destruct (0 <? k) eqn:Ek; [|unfold int_max in *; lia]. apply Z.ltb_lt in Ek.
    pose proof (pow2_le (31 - k) 30 ltac:(lia)). change (2 ^ 30) with 1073741824 in *. unfold int_min, int_max. lia.
  - apply Z.ltb_ge in E. set (nu := if 0 <? k then 2 ^ (k - 1) else 0) in *. split.
    + apply Z.div_le_lower_bound; [lia|]. unfold int_min in *. nia.
    + apply Z.div_le_upper_bound; [lia|]. unfold int_max in *. nia.
Qed.

Lemma nudge_lane : forall k, 0 <= k <= 31 ->
  wrap_s 32 (if wrap_s 32 0 <? wrap_s 32 k
             then if wrap_u 32 (wrap_s 32 k - wrap_s 32 1) <? 32 then 1 * 2 ^ wrap_u 32 (wrap_s 32 k - wrap_s 32 1) else 0
             else 0)
  = if 0 <? k then 2 ^ (k - 1) else 0.
Proof.
  intros k Hk. change (wrap_s 32 0) with 0. change (wrap_s 32 1) with 1.
  rewrite (wrap_s32_id k) by (unfold int_min, int_max; lia).
  destruct (0 <? k) eqn:E; [|reflexivity]. apply Z.ltb_lt in E. rewrite wrap_u32_id by lia.
  destruct (k - 1 <? 32) eqn:E2; [|apply Z.ltb_ge in E2; lia]. rewrite Z.mul_1_l.
  pose proof (pow2_le (k - 1) 30 ltac:(lia)). change (2 ^ 30) with 1073741824 in *.
  apply wrap_s32_id. unfold int_min, int_max. lia.
Qed.

Lemma rrs_lane_32 : forall r k, int_min <= r <= int_max -> 0 <= k <= 31 ->
  (if wrap_s 32 (wrap_s 32 2147483647 - (if 0 <? k then 2 ^ (k - 1) else 0)) <? wrap_s 32 r
   then if wrap_u 32 (wrap_s 32 31 - wrap_s 32 k) <? 32 then 1 * 2 ^ wrap_u 32 (wrap_s 32 31 - wrap_s 32 k) else 0
   else wrap_s 32 (wrap_s 32 r + (if 0 <? k then 2 ^ (k - 1) else 0)) / 2 ^ Z.min (wrap_u 32 k) (32 - 1))
  = rrs_lane r k.
Proof.
  intros r k Hr Hk. change (wrap_s 32 2147483647) with int_max. change (wrap_s 32 31) with 31.
  rewrite (wrap_s32_id k) by (unfold int_min, int_max; lia). rewrite (wrap_s32_id r) by exact Hr.
  unfold rrs_lane. cbv zeta.
  assert (N : 0 <= (if 0 <? k then 2 ^ (k - 1) else 0) <= 1073741824).
  { destruct (0 <? k) eqn:E; [|lia]. apply Z.ltb_lt in E. pose proof (pow2_le (k - 1) 30 ltac:(lia)).
    change (2 ^ 30) with 1073741824 in *. lia. }
  set (nu := if 0 <? k then 2 ^ (k - 1) else 0) in *.
  rewrite (wrap_s32_id (int_max - nu)) by (unfold int_min, int_max; lia).
  destruct (int_max - nu <? r) eqn:E.
  - rewrite wrap_u32_id by lia. destruct (31 - k <? 32) eqn:E2; [|apply Z.ltb_ge in E2; lia]. apply Z.mul_1_l.
  - apply Z.ltb_ge in E. rewrite wrap_s32_id by (unfold int_min, int_max in *; lia).
    rewrite wrap_u32_id by lia. rewrite Z.min_l by lia. reflexivity.
Qed.

Ltac vstep :=
  rewrite ?set1_lanes;
  rewrite ?binop_lanes, ?blendv_lanes, ?sllv_lanes, ?srlv_lanes, ?srav_lanes, ?slli_lanes, ?mask_mov_lanes,
    ?cmpgt_mask_lanes, ?cvtepi32_epi64_lanes, ?cvtepi64_epi32_lanes by lia;
  cbn [map2 map repeat zseq length fst snd];
  change (8 * Z.of_nat 4) with 32; change (8 * Z.of_nat 8) with 64.

Definition all_i32 (l : list Z) : Prop := Forall (fun z => int_min <= z <= int_max) l.
Definition all_shifts (l : list Z) : Prop := Forall (fun k => 0 <= k <= 31) l.

Lemma avx2_rrs : forall rs ks, length rs = 8%nat -> length ks = 8%nat -> all_i32 rs -> all_shifts ks ->
  avx2_rounding_right_shift (of_lanes 4 rs) (of_lanes 4 ks) = of_lanes 4 (map2 rrs_lane rs ks).
Proof.
  intros rs ks Hr Hk Ar Ak. destruct (eight rs Hr) as (r0 & r1 & r2 & r3 & r4 & r5 & r6 & r7 & ->).
  destruct (eight ks Hk) as (k0 & k1 & k2 & k3 & k4 & k5 & k6 & k7 & ->).
  unfold avx2_rounding_right_shift, cmpgt_epi32, sub_epi32, sllv_epi32, add_epi32, srav_epi32. cbv zeta.
  change (setzero 32) with (of_lanes 4 (repeat 0 8)).
  repeat vstep. rewrite !mask_bit.
  unfold all_i32, all_shifts in *.
  repeat match goal with H : Forall _ (_ :: _) |- _ => inversion H; clear H; subst end.
  rewrite !nudge_lane by assumption. rewrite !rrs_lane_32 by assumption. reflexivity.
Qed.

(** ** The fixed-point product *)

(** The accumulator after the left shift, and the first rounding. *)
Definition shifted (x e : Z) : Z := wrap_s 32 (x * 2 ^ Z.max e 0).
Definition product (x m e : Z) : Z := (shifted x e * m + 2 ^ 30) / 2 ^ 31.

Lemma product_range : forall x m e, 0 <= m <= int_max -> int_min <= product x m e <= int_max.
Proof.
  intros x m e Hm. unfold product. pose proof (wrap_s32_range (x * 2 ^ Z.max e 0)) as R. fold (shifted x e) in R.
  change (2 ^ 30) with 1073741824. change (2 ^ 31) with 2147483648. unfold int_min, int_max in *. split.
  - apply Z.div_le_lower_bound; [lia|]. nia.
  - apply Z.div_le_upper_bound; [lia|]. nia.
Qed.

Lemma product_bound : forall a m, int_min <= a <= int_max -> 0 <= m <= int_max -> - 2 ^ 62 <= a * m <= 2 ^ 62.
Proof. intros a m Ha Hm. change (2 ^ 62) with (2147483648 * 2147483648). unfold int_min, int_max in *. nia. Qed.

Definition is_mult (m : Z) : Prop := 0 <= m <= int_max.
Definition is_exp (e : Z) : Prop := -31 <= e <= 31.

Lemma left_shift_lane : forall x e, is_exp e ->
  wrap_s 32 (if wrap_u 32 (Z.max (wrap_s 32 e) (wrap_s 32 0)) <? 32 then x * 2 ^ wrap_u 32 (Z.max (wrap_s 32 e) (wrap_s 32 0)) else 0)
  = shifted x e.
Proof.
  intros x e He. unfold is_exp in He. change (wrap_s 32 0) with 0. rewrite (wrap_s32_id e) by (unfold int_min, int_max; lia).
  rewrite wrap_u32_id by lia. destruct (Z.max e 0 <? 32) eqn:E; [reflexivity | apply Z.ltb_ge in E; lia].
Qed.

Lemma right_shift_lane : forall e, is_exp e ->
  Z.max (wrap_s 32 (wrap_s 32 0 - wrap_s 32 e)) (wrap_s 32 0) = Z.max (- e) 0.
Proof.
  intros e He. unfold is_exp in He. change (wrap_s 32 0) with 0. rewrite (wrap_s32_id e) by (unfold int_min, int_max; lia).
  rewrite wrap_s32_id by (unfold int_min, int_max; lia). reflexivity.
Qed.

(** 64-bit product of two sign-extended lanes. *)
Lemma mul_lane : forall a m, int_min <= a <= int_max -> is_mult m ->
  wrap_s 32 (wrap_s 64 a) * wrap_s 32 (wrap_s 64 (wrap_s 32 m)) = a * m.
Proof.
  intros a m Ha Hm. unfold is_mult in Hm. rewrite (wrap_s32_id m) by (unfold int_min, int_max in *; lia).
  assert (B : 2 ^ 63 = 9223372036854775808) by reflexivity.
  rewrite !wrap_s64_id by (unfold int_min, int_max in *; lia).
  rewrite !wrap_s32_id by (unfold int_min, int_max in *; lia). reflexivity.
Qed.

(** The unsigned shift of the product offset by 2^63, modulo 2^32. *)
Lemma scaled_lane : forall a m, int_min <= a <= int_max -> is_mult m ->
  wrap_u 32 (wrap_u 64 (wrap_s 64 (a * m) + wrap_s 64 (wrap_s 64 (1 * 2 ^ 30) + wrap_s 64 9223372036854775808)) / 2 ^ 31)
  = wrap_u 32 ((a * m + 2 ^ 30) / 2 ^ 31).
Proof.
  intros a m Ha Hm. pose proof (product_bound a m Ha Hm) as B.
  change (wrap_s 64 (wrap_s 64 (1 * 2 ^ 30) + wrap_s 64 9223372036854775808)) with (2 ^ 30 - 2 ^ 63).
  assert (B62 : 2 ^ 62 = 4611686018427387904) by reflexivity.
  assert (B63 : 2 ^ 63 = 9223372036854775808) by reflexivity.
  assert (B30 : 2 ^ 30 = 1073741824) by reflexivity.
  assert (B64 : 2 ^ 64 = 18446744073709551616) by reflexivity.
  rewrite wrap_s64_id by lia.
  replace (wrap_u 64 (a * m + (2 ^ 30 - 2 ^ 63))) with (a * m + 2 ^ 30 + 2 ^ 32 * 2 ^ 31).
  - rewrite Z.div_add by lia. unfold wrap_u. rewrite Zplus_mod. change (2 ^ 32 mod 2 ^ 32) with 0. rewrite Z.add_0_r, Z.mod_mod by lia.
    reflexivity.
  - unfold wrap_u. replace (a * m + (2 ^ 30 - 2 ^ 63)) with (a * m + 2 ^ 30 + 2 ^ 63 + (-1) * 2 ^ 64) by lia.
    rewrite Z_mod_plus_full. rewrite Z.mod_small; lia.
Qed.

Definition x86_lane (x m e : Z) : Z := rrs_lane (product x m e) (Z.max (- e) 0).
Fixpoint map3 {A B C D} (f : A -> B -> C -> D) (a : list A) (b : list B) (c : list C) : list D :=
  match a, b, c with x :: a, y :: b, z :: c => f x y z :: map3 f a b c | _, _, _ => [] end.

Lemma high_lane : forall z, z * 2 ^ 32 / 2 ^ 32 = z.
Proof. intros z. apply Z.div_mul. lia. Qed.

Lemma wrap_u_add : forall a b, wrap_u 32 (wrap_s 32 a + wrap_s 32 b) = wrap_u 32 (a + b).
Proof.
  intros a b. unfold wrap_u. rewrite Zplus_mod. fold (wrap_u 32 (wrap_s 32 a)). fold (wrap_u 32 (wrap_s 32 b)).
  rewrite !wrap_u_s by lia. unfold wrap_u. rewrite <- Zplus_mod. reflexivity.
Qed.

Ltac testbits :=
  repeat match goal with |- context [Z.testbit (Zpos ?p) ?i] =>
    let b := eval vm_compute in (Z.testbit (Zpos p) i) in change (Z.testbit (Zpos p) i) with b end.

Lemma avx2_lanes : forall xs ms es zp, length xs = 8%nat -> length ms = 8%nat -> length es = 8%nat ->
  Forall is_mult ms -> Forall is_exp es ->
  avx2_apply_multiplier (of_lanes 4 ms) (of_lanes 4 es) zp (of_lanes 4 xs) =
  of_lanes 4 (map3 (fun x m e => x86_lane x m e + zp) xs ms es).
Proof.
  intros xs ms es zp Hx Hm He Am Ae. destruct (eight xs Hx) as (x0 & x1 & x2 & x3 & x4 & x5 & x6 & x7 & ->).
  destruct (eight ms Hm) as (m0 & m1 & m2 & m3 & m4 & m5 & m6 & m7 & ->).
  destruct (eight es He) as (e0 & e1 & e2 & e3 & e4 & e5 & e6 & e7 & ->).
  unfold avx2_apply_multiplier, max_epi32, sub_epi32, sllv_epi32, mul_epi32, add_epi64, srlv_epi64, slli_epi64,
    blend_epi32, permutevar8x32. cbv zeta.
  change (setzero 32) with (of_lanes 4 (repeat 0 8)).
  repeat match goal with H : Forall _ (_ :: _) |- _ => inversion H; clear H; subst end.
  repeat vstep.
  rewrite !extract128_lanes4 by (cbn; lia).
  cbn [chunks chunks_aux length firstn skipn nth]. repeat vstep.
  rewrite !left_shift_lane by assumption. rewrite !right_shift_lane by assumption.
  change (wrap_u 64 (wrap_s 32 31)) with 31. change (31 <? 64) with true. change (30 <? 64) with true. change (32 <? 64) with true.
  cbv iota.
  rewrite !mul_lane by (try assumption; apply wrap_s32_range).
  rewrite !of_lanes_8_4. cbn [halve]. rewrite !high_lane. rewrite blend_lanes by lia.
  cbn [map2 zseq length fst snd].
  testbits. cbv iota.
  rewrite ulanes_of_lanes by lia. cbn [map]. rewrite pick_lanes by lia.
  match goal with |- context [map (fun i => nth i ?l 0) ?k] => let k' := eval vm_compute in k in change k with k' end.
  cbn [map nth].
  match goal with |- context [avx2_rounding_right_shift (of_lanes 4 ?l) _] =>
    rewrite (of_lanes_ext 4 l [product x0 m0 e0; product x1 m1 e1; product x2 m2 e2; product x3 m3 e3;
                               product x4 m4 e4; product x5 m5 e5; product x6 m6 e6; product x7 m7 e7]) end.
  2: { cbn [map]. change (8 * Z.of_nat 4) with 32. unfold product.
       rewrite !scaled_lane by (try assumption; apply wrap_s32_range). reflexivity. }
  rewrite avx2_rrs; try reflexivity.
  - cbn [map2]. replace (if zp =? 0 then of_lanes 4 [0; 0; 0; 0; 0; 0; 0; 0] else of_lanes 4 [zp; zp; zp; zp; zp; zp; zp; zp])
      with (of_lanes 4 [zp; zp; zp; zp; zp; zp; zp; zp])
      by (destruct (zp =? 0) eqn:Ez; [apply Z.eqb_eq in Ez; subst zp|]; reflexivity).
    unfold add_epi32. rewrite binop_lanes by lia. cbn [map2 map3]. apply of_lanes_ext. cbn [map].
    change (8 * Z.of_nat 4) with 32. rewrite !wrap_u_add. reflexivity.
  - unfold all_i32. repeat apply Forall_cons; try (apply product_range; assumption). apply Forall_nil.
  - unfold all_shifts, is_exp in *. repeat apply Forall_cons; try lia. apply Forall_nil.
Qed.
