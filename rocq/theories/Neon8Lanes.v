(** The vector instructions of the 8-bit kernels for AArch64, lane by lane. *)
From Coq Require Import ZArith List Bool Lia.
From Verif Require Import Base Mat Simd SimdFacts IntOps SpecRound Kernel8bitFacts RequantFacts SpecSimd SimdRequant RequantProps Neon64 NeonRun NeonTac NeonPack.
Import ListNotations.
Open Scope Z_scope.

(** [m] lanes of [n] bytes. *)
Definition lv (n m : nat) (f : nat -> Z) : vec := of_lanes n (vrow m f).
Notation w4 := (lv 4 4).

Lemma lv_ext : forall n m f g, (forall i, (i < m)%nat -> wrap_u (8 * Z.of_nat n) (f i) = wrap_u (8 * Z.of_nat n) (g i)) -> lv n m f = lv n m g.
Proof.
  intros n m f g H. unfold lv. apply of_lanes_ext. unfold vrow. rewrite !map_map. apply map_ext_in. intros i Hi. apply H. apply in_seq in Hi. lia.
Qed.
Lemma w4_ext : forall f g, (forall i, (i < 4)%nat -> wrap_u 32 (f i) = wrap_u 32 (g i)) -> w4 f = w4 g.
Proof. intros f g H. apply lv_ext, H. Qed.
Lemma w4_eq : forall f g, (forall i, (i < 4)%nat -> f i = g i) -> w4 f = w4 g.
Proof. intros f g H. apply w4_ext. intros i Hi. rewrite H by exact Hi. reflexivity. Qed.
Lemma slanes_lv : forall n m f, (0 < n)%nat -> slanes n (lv n m f) = vrow m (fun i => wrap_s (8 * Z.of_nat n) (f i)).
Proof. intros n m f Hn. unfold lv. rewrite slanes_of_lanes by exact Hn. unfold vrow. rewrite map_map. reflexivity. Qed.
Lemma ulanes_lv : forall n m f, (0 < n)%nat -> ulanes n (lv n m f) = vrow m (fun i => wrap_u (8 * Z.of_nat n) (f i)).
Proof. intros n m f Hn. unfold lv. rewrite ulanes_of_lanes by exact Hn. unfold vrow. rewrite map_map. reflexivity. Qed.
Lemma lv_length : forall n m f, length (lv n m f) = (n * m)%nat.
Proof. intros. unfold lv. rewrite of_lanes_length, vrow_length. reflexivity. Qed.
Lemma full_w4 : forall f, full (w4 f).
Proof. intros f. unfold full. apply lv_length. Qed.

(** ** Arithmetic modulo 2^32 *)
Lemma wrap_u_add : forall w a b, wrap_u w (wrap_u w a + wrap_u w b) = wrap_u w (a + b).
Proof. intros. unfold wrap_u. symmetry. apply Zplus_mod. Qed.
Lemma wrap_s_sum : forall w a b, 0 < w -> wrap_u w (wrap_s w a + wrap_s w b) = wrap_u w (a + b).
Proof. intros w a b H. rewrite <- wrap_u_add, !wrap_u_s, wrap_u_add by exact H. reflexivity. Qed.
Lemma wrap_s_diff : forall w a b, 0 < w -> wrap_u w (wrap_s w a - wrap_s w b) = wrap_u w (a - b).
Proof.
  intros w a b H. unfold wrap_u. rewrite Zminus_mod. fold (wrap_u w (wrap_s w a)). fold (wrap_u w (wrap_s w b)). rewrite !wrap_u_s by exact H.
  unfold wrap_u. symmetry. apply Zminus_mod.
Qed.
Lemma wrap_s_prod : forall w a b, 0 < w -> wrap_u w (wrap_s w a * wrap_s w b) = wrap_u w (a * b).
Proof.
  intros w a b H. unfold wrap_u. rewrite Zmult_mod. fold (wrap_u w (wrap_s w a)). fold (wrap_u w (wrap_s w b)). rewrite !wrap_u_s by exact H.
  unfold wrap_u. symmetry. apply Zmult_mod.
Qed.
Lemma wrap_s_left : forall w a b, 0 < w -> wrap_u w (wrap_s w a + b) = wrap_u w (a + b).
Proof. intros w a b H. rewrite <- wrap_u_add, wrap_u_s, wrap_u_add by exact H. reflexivity. Qed.
Lemma wrap_s_cong : forall w a b, wrap_u w a = wrap_u w b -> wrap_s w a = wrap_s w b.
Proof. intros w a b H. unfold wrap_s, wrap_u in *. rewrite <- (Zplus_mod_idemp_l a), <- (Zplus_mod_idemp_l b), H. reflexivity. Qed.

Lemma v_binary : forall n m h f g, (0 < n)%nat -> of_lanes n (map2 h (slanes n (lv n m f)) (slanes n (lv n m g))) = lv n m (fun i => h (wrap_s (8 * Z.of_nat n) (f i)) (wrap_s (8 * Z.of_nat n) (g i))).
Proof. intros n m h f g Hn. rewrite !slanes_lv by exact Hn. unfold lv, vrow. rewrite map2_same. reflexivity. Qed.
Lemma u_binary : forall n m h f g, (0 < n)%nat -> of_lanes n (map2 h (ulanes n (lv n m f)) (ulanes n (lv n m g))) = lv n m (fun i => h (wrap_u (8 * Z.of_nat n) (f i)) (wrap_u (8 * Z.of_nat n) (g i))).
Proof. intros n m h f g Hn. rewrite !ulanes_lv by exact Hn. unfold lv, vrow. rewrite map2_same. reflexivity. Qed.

Lemma add4 : forall f g, vop_val (VAdd 4) (w4 f) (w4 g) = w4 (fun i => f i + g i).
Proof. intros f g. cbn [vop_val]. rewrite v_binary by lia. apply w4_ext. intros i _. apply wrap_s_sum. lia. Qed.
Lemma sub4 : forall f g, vop_val (VSub 4) (w4 f) (w4 g) = w4 (fun i => f i - g i).
Proof. intros f g. cbn [vop_val]. rewrite v_binary by lia. apply w4_ext. intros i _. apply wrap_s_diff. lia. Qed.
Lemma mul_lane4 : forall f v j y, nth j (slanes 4 v) 0 = wrap_s 32 y -> by_lane Z.mul (w4 f) v j = w4 (fun i => f i * y).
Proof.
  intros f v j y H. unfold by_lane. cbv zeta. rewrite H, slanes_lv by lia. unfold lv at 1. unfold vrow. rewrite map_map. apply w4_ext.
  intros i _. apply wrap_s_prod. lia.
Qed.
Lemma mls_lane4 : forall d f g j, (j < 4)%nat -> mls_lane (w4 d) (w4 f) (w4 g) j = w4 (fun i => d i - f i * g j).
Proof.
  intros d f g j Hj. unfold mls_lane. cbv zeta. rewrite !slanes_lv by lia. rewrite vrow_nth by exact Hj. change (8 * Z.of_nat 4) with 32. unfold vrow. rewrite map2_same. apply w4_ext. intros i _. cbv beta.
  unfold wrap_u. rewrite Zminus_mod. fold (wrap_u 32 (wrap_s 32 (d i))). fold (wrap_u 32 (wrap_s 32 (f i) * wrap_s 32 (g j))). rewrite wrap_s_prod, wrap_u_s by lia.
  unfold wrap_u. symmetry. apply Zminus_mod.
Qed.

(** ** Products of bytes *)
Lemma cons_eq : forall (x y : Z) l l', x = y -> l = l' -> x :: l = y :: l'.
Proof. intros; subst; reflexivity. Qed.
Definition quad (a b : nat -> Z) : Z := a 0%nat * b 0%nat + a 1%nat * b 1%nat + (a 2%nat * b 2%nat + a 3%nat * b 3%nat).
Definition sbyte (f : nat -> Z) (j e : nat) : Z := wrap_s 8 (f (4 * j + e)%nat).
Lemma sdot_lane4 : forall f a b j, (j < 4)%nat -> sdot_lane (w4 f) (lv 1 16 a) (lv 1 16 b) j = w4 (fun i => f i + quad (sbyte a i) (sbyte b j)).
Proof.
  intros f a b j Hj. unfold sdot_lane, sdot. rewrite !slanes_lv by lia.
  assert (E : slanes 1 (concat (repeat (nth j (chunks 4 (lv 1 16 b)) []) 4)) = vrow 16 (fun i => wrap_s 8 (b (4 * j + i mod 4)%nat))).
  { assert (F : nth j (chunks 4 (lv 1 16 b)) [] = of_lanes 1 (vrow 4 (fun e => b (4 * j + e)%nat))) by (destruct j as [|[|[|[|j]]]]; try lia; reflexivity).
    rewrite F. cbn [repeat concat]. rewrite app_nil_r, <- !of_lanes_app. rewrite slanes_of_lanes by lia. reflexivity. }
  rewrite E. change (8 * Z.of_nat 4) with 32. change (8 * Z.of_nat 1) with 8. clear E. unfold vrow at 2 3. rewrite map2_same.
  apply of_lanes_ext. cbn [seq map pair_sums map2 vrow]. unfold vrow. cbn [seq map map2].
  assert (G : forall x y z, y = z -> wrap_u (8 * Z.of_nat 4) (wrap_s 32 x + y) = wrap_u (8 * Z.of_nat 4) (x + z)).
  { intros x y z ->. apply wrap_s_left. lia. }
  repeat (apply cons_eq; [apply G; unfold quad, sbyte; reflexivity|]). reflexivity.
Qed.

(** ** Memory *)
Lemma get_enc1 : forall b o m, get_bytes (enc 1 b) o m = lv 1 m (fun i => bdat b (o + Z.of_nat i)).
Proof.
  intros b o m. unfold get_bytes, lv, of_lanes. rewrite zseq_seq. unfold vrow. rewrite !map_map. generalize (seq 0 m). intros l.
  induction l as [|i l IH]; [reflexivity|]. cbn [map concat]. rewrite <- IH. cbn [bytes_of app enc bdat]. f_equal.
  rewrite Z.div_1_r, Z.mod_1_r. change (256 ^ 0) with 1. rewrite Z.div_1_r. reflexivity.
Qed.
Lemma extend8 : forall f, extend (lv 1 8 f) = lv 1 16 (fun i => if Nat.ltb i 8 then f i else 0).
Proof. reflexivity. Qed.
Lemma get_enc4 : forall b o p, p = 4 * o -> get_bytes (enc 4 b) p 16 = w4 (fun i => bdat b (o + Z.of_nat i)).
Proof.
  intros b o p ->.
  assert (E : forall i e x, 0 <= e < 4 -> x = 4 * i + e -> bdat (enc 4 b) x = bdat b i / 256 ^ e mod 256).
  { intros i e x He ->. cbn [enc bdat]. rewrite (Z.mul_comm 4), Z.div_add_l by lia. rewrite (Z.div_small e 4), Z.add_0_r by lia.
    replace ((i * 4 + e) mod 4) with e by (rewrite Z.add_comm, Z.mod_add by lia; symmetry; apply Z.mod_small; lia). reflexivity. }
  unfold get_bytes. cbn [zseq map]. unfold lv, vrow, of_lanes. cbn [seq map concat app bytes_of].
  repeat match goal with
  | |- bdat (enc 4 b) ?x :: _ = (bdat b ?i / 256 / 256 / 256 mod 256) :: _ => rewrite (E i 3 x) by lia; change (256 ^ 3) with (256 * 256 * 256); rewrite <- !Z.div_div by lia; f_equal
  | |- bdat (enc 4 b) ?x :: _ = (bdat b ?i / 256 / 256 mod 256) :: _ => rewrite (E i 2 x) by lia; change (256 ^ 2) with (256 * 256); rewrite <- !Z.div_div by lia; f_equal
  | |- bdat (enc 4 b) ?x :: _ = (bdat b ?i / 256 mod 256) :: _ => rewrite (E i 1 x) by lia; change (256 ^ 1) with 256; f_equal
  | |- bdat (enc 4 b) ?x :: _ = (bdat b ?i mod 256) :: _ => rewrite (E i 0 x) by lia; change (256 ^ 0) with 1; rewrite Z.div_1_r; f_equal
  end.
Qed.
Lemma enc_byte : forall n b i, 0 <= bdat (enc n b) i < 256.
Proof. intros. cbn [enc bdat]. apply Z.mod_pos_bound. lia. Qed.
Lemma dup_w4 : forall z, of_lanes 4 (repeat z 4) = w4 (fun _ => z).
Proof. reflexivity. Qed.
Lemma zero_w4 : repeat 0 16 = w4 (fun _ => 0).
Proof. reflexivity. Qed.

(** ** Lanes of v13 *)
Lemma lane_s1 : forall v z, full v -> nth 1 (slanes 4 (splice v (4 * 1) (bytes_of 4 z))) 0 = wrap_s 32 z.
Proof.
  intros v z H. unfold splice. rewrite bytes_of_length.
  assert (E : nth 1 (slanes 4 (firstn (4 * 1) v ++ bytes_of 4 z ++ skipn (4 * 1 + 4) v)) 0 = wrap_s 32 (of_bytes (bytes_of 4 z))) by (expand_full; reflexivity).
  rewrite E, of_bytes_of. apply wrap_s_u. lia.
Qed.
Lemma lane_h4 : forall v z, full v -> nth 4 (ulanes 2 (splice v (2 * 4) (bytes_of 2 z))) 0 = wrap_u 16 z.
Proof.
  intros v z H. unfold splice. rewrite bytes_of_length.
  assert (E : nth 4 (ulanes 2 (firstn (2 * 4) v ++ bytes_of 2 z ++ skipn (2 * 4 + 2) v)) 0 = of_bytes (bytes_of 2 z)) by (expand_full; reflexivity).
  rewrite E, of_bytes_of. reflexivity.
Qed.
Lemma lane_h4_s1 : forall v z y, full v -> nth 4 (ulanes 2 (splice (splice v (2 * 4) (bytes_of 2 z)) (4 * 1) (bytes_of 4 y))) 0 = wrap_u 16 z.
Proof.
  intros v z y H. rewrite <- (lane_h4 v z H). expand_full. reflexivity.
Qed.
Lemma full_splice : forall v k n z, full v -> (k + n <= 16)%nat -> full (splice v k (bytes_of n z)).
Proof.
  intros v k n z H Hk. unfold full, splice in *. rewrite bytes_of_length. rewrite !app_length, bytes_of_length, firstn_length, skipn_length, H. lia.
Qed.

(** ** Requantization *)
Definition minus_one : vec := repeat 255 16.
Definition requantized (x m e : vec) : vec :=
  let r := vop_val (Smin 4) minus_one e in vop_val (Srshl 4) (vop_val (Sqdmulh 4) (vop_val (Sshl 4) x (vop_val (VSub 4) e r)) m) r.
Lemma minus_one_w4 : minus_one = w4 (fun _ => -1).
Proof. reflexivity. Qed.
Lemma neon_shifted_wrap : forall x e, neon_shifted (wrap_s 32 x) e = neon_shifted x e.
Proof.
  intros x e. unfold neon_shifted. apply wrap_s_cong. unfold wrap_u. rewrite Zmult_mod. fold (wrap_u 32 (wrap_s 32 x)). rewrite wrap_u_s by lia. unfold wrap_u. symmetry. apply Zmult_mod.
Qed.
Lemma requantize4 : forall f m e, (forall i, (i < 4)%nat -> fixed_point (m i) /\ exponent (e i)) ->
  requantized (w4 f) (w4 m) (w4 e) = w4 (fun i => neon_lane (f i) (m i) (e i)).
Proof.
  intros f m e H. unfold requantized. cbv zeta. rewrite minus_one_w4. cbn [vop_val]. rewrite !v_binary by lia. change (8 * Z.of_nat 4) with 32.
  apply w4_ext. intros i Hi. destruct (H i Hi) as [[Hm1 Hm2] He]. assert (M : is_i32 (m i)) by (unfold is_i32, int_min, int_max in *; lia).
  assert (E : is_i32 (e i)) by (unfold exponent, is_i32, int_min, int_max in *; lia).
  assert (N : neon_lane (f i) (m i) (e i) = neon_lane (wrap_s 32 (f i)) (m i) (e i)) by (unfold neon_lane; rewrite neon_shifted_wrap; reflexivity).
  rewrite N, <- (neon_lane_eq (wrap_s 32 (f i)) (m i) (e i) M) by (try assumption; right; unfold int_min; lia).
  cbv zeta. rewrite (wrap_u_s 32) by lia. f_equal. unfold doubling_high, sat_s, shift_left. cbv zeta. change (8 * Z.of_nat 4) with 32. change (32 - 1) with 31.
  rewrite !(wrap_s32_id (e i)) by exact E. rewrite (wrap_s32_id (m i)) by exact M. change (wrap_s 32 (-1)) with (-1).
  unfold neon_saturate, int_min, int_max. change (2 ^ 31) with 2147483648. change (2147483648 - 1) with 2147483647. change (- (2147483648)) with (-2147483648). reflexivity.
Qed.

(** ** Narrowing *)
Definition joined (f g : nat -> Z) (i : nat) : Z := if Nat.ltb i 4 then f i else g (i - 4)%nat.
Lemma narrow4 : forall u f, narrow u 2 (w4 f) = lv 2 4 (fun i => (if u then sat_u 2 else sat_s 2) (wrap_s 32 (f i))).
Proof. intros u f. unfold narrow. change (2 * 2)%nat with 4%nat. rewrite slanes_lv by lia. unfold lv, vrow. rewrite map_map. reflexivity. Qed.
Lemma narrow2 : forall u f, narrow u 1 (lv 2 8 f) = lv 1 8 (fun i => (if u then sat_u 1 else sat_s 1) (wrap_s 16 (f i))).
Proof. intros u f. unfold narrow. change (2 * 1)%nat with 2%nat. rewrite slanes_lv by lia. unfold lv, vrow. rewrite map_map. reflexivity. Qed.
Lemma join24 : forall f g, firstn 8 (extend (lv 2 4 f)) ++ lv 2 4 g = lv 2 8 (joined f g).
Proof. reflexivity. Qed.
Lemma dup_lv : forall n m z, (n * m = 16)%nat -> extend (of_lanes n (repeat z m)) = lv n m (fun _ => z).
Proof.
  intros n m z H. rewrite extend_full; [unfold lv; rewrite repeat_vrow; reflexivity|]. unfold full. rewrite of_lanes_length, repeat_length. exact H.
Qed.
Lemma first8 : forall f, firstn 8 (lv 1 16 f) = lv 1 8 f.
Proof. reflexivity. Qed.
Lemma sat_s_idem : forall z, wrap_s 16 (sat_s 2 z) = sat_s 2 z.
Proof. intros z. apply wrap_s_small; [lia|]. unfold sat_s. cbv zeta. change (8 * Z.of_nat 2 - 1) with 15. change (16 - 1) with 15. change (2 ^ 15) with 32768. lia. Qed.

(** The nearest number between two bounds. *)
Definition between (lo hi x : Z) : Z := Z.min hi (Z.max lo x).

(** The 8 bytes stored for destinations of type uint8_t and int8_t, kernel_arm64.cc:5947-5972, 6043-6067. *)
Definition narrowed8 (u : bool) (x y z : vec) : vec :=
  extend (narrow u 1 (vop_val (Sqadd 2) (firstn 8 (extend (narrow false 2 x)) ++ narrow false 2 y) z)).
Definition bounded8 (u : bool) (v lo hi : vec) : vec :=
  if u then vop_val (Umin 1) (vop_val (Umax 1) v lo) hi else vop_val (Smin 1) (vop_val (Smax 1) v lo) hi.

Lemma narrowed8_lanes : forall u f g z, -32768 <= z <= 32767 ->
  narrowed8 u (w4 f) (w4 g) (lv 2 8 (fun _ : nat => wrap_u 16 z)) =
  lv 1 16 (fun i => if Nat.ltb i 8 then (if u then sat_u 1 else sat_s 1) (sat_s 2 (sat_s 2 (wrap_s 32 (joined f g i)) + z)) else 0).
Proof.
  intros u f g z Hz. unfold narrowed8. rewrite !narrow4, join24. cbn [vop_val]. rewrite v_binary by lia. change (8 * Z.of_nat 2) with 16.
  rewrite narrow2, extend8. apply lv_ext. intros i Hi. f_equal. destruct (Nat.ltb i 8); [|reflexivity]. rewrite sat_s_idem. rewrite (wrap_s_u 16), (wrap_s_small 16 z) by lia.
  unfold joined. destruct (Nat.ltb i 4); rewrite sat_s_idem; reflexivity.
Qed.
Lemma SU : forall x z, 0 <= z <= 255 -> Z.max 0 (Z.min 255 (Z.max (-32768) (Z.min 32767 (Z.max (-32768) (Z.min 32767 x) + z)))) = Z.max 0 (Z.min 255 (x + z)).
Proof. intros. lia. Qed.
Lemma SS : forall x z, -128 <= z <= 127 -> Z.max (-128) (Z.min 127 (Z.max (-32768) (Z.min 32767 (Z.max (-32768) (Z.min 32767 x) + z)))) = Z.max (-128) (Z.min 127 (x + z)).
Proof. intros. lia. Qed.
Lemma stored8 : forall (u : bool) f g (z lo hi : Z), (if u then 0 <= z <= 255 else -128 <= z <= 127) -> (if u then 0 <= lo <= 255 /\ 0 <= hi <= 255 else -128 <= lo <= 127 /\ -128 <= hi <= 127) ->
  firstn 8 (bounded8 u (narrowed8 u (w4 f) (w4 g) (lv 2 8 (fun _ => wrap_u 16 z))) (lv 1 16 (fun _ => wrap_u 8 lo)) (lv 1 16 (fun _ => wrap_u 8 hi))) =
  lv 1 8 (fun i => between lo hi (wrap_s 32 (joined f g i) + z)).
Proof.
  intros u f g z lo hi Hz Hb. rewrite narrowed8_lanes by (destruct u; lia). unfold bounded8. cbn [vop_val].
  assert (S2 : forall x, sat_s 2 x = Z.max (-32768) (Z.min 32767 x)) by reflexivity.
  assert (U1 : forall x, sat_u 1 x = Z.max 0 (Z.min 255 x)) by reflexivity. assert (S1 : forall x, sat_s 1 x = Z.max (-128) (Z.min 127 x)) by reflexivity.
  assert (WU : forall x, 0 <= x <= 255 -> wrap_u 8 x = x) by (intros x Hx; apply wrap_u_small; change (2 ^ 8) with 256; lia).
  assert (WS : forall x, -128 <= x <= 127 -> wrap_s 8 x = x) by (intros x Hx; apply wrap_s_small; change (2 ^ (8 - 1)) with 128; lia).
  destruct u.
  - rewrite !u_binary by lia. change (8 * Z.of_nat 1) with 8. rewrite first8. apply lv_ext. intros i Hi. f_equal.
    destruct (Nat.ltb_spec i 8); [|lia]. rewrite !(WU lo), !(WU hi) by lia. rewrite (WU (sat_u 1 _)) by (rewrite U1; lia).
    rewrite U1, !S2, SU by lia. rewrite WU by lia. unfold between. lia.
  - rewrite !v_binary by lia. change (8 * Z.of_nat 1) with 8. rewrite first8. apply lv_ext. intros i Hi. f_equal.
    destruct (Nat.ltb_spec i 8); [|lia]. rewrite !(wrap_s_u 8) by lia. rewrite !(WS lo), !(WS hi) by lia. rewrite (WS (sat_s 1 _)) by (rewrite S1; lia).
    rewrite S1, !S2, SS by lia. rewrite WS by lia. unfold between. lia.
Qed.

(** The 16 bytes stored for int16_t, 6138-6158. *)
Definition narrowed16 (x y z : vec) : vec := firstn 8 (extend (narrow false 2 (saddw x z))) ++ narrow false 2 (saddw y z).
Definition bounded16 (v lo hi : vec) : vec := vop_val (Smin 2) (vop_val (Smax 2) v lo) hi.
Lemma saddw_lanes : forall f z, -32768 <= z <= 32767 -> saddw (w4 f) (lv 2 8 (fun _ => wrap_u 16 z)) = w4 (fun i => f i + z).
Proof.
  intros f z Hz. unfold saddw. change (firstn 8 (lv 2 8 (fun _ => wrap_u 16 z))) with (lv 2 4 (fun _ => wrap_u 16 z)). rewrite !slanes_lv by lia.
  unfold vrow. rewrite map2_same. apply w4_ext. intros i _. change (8 * Z.of_nat 4) with 32. change (8 * Z.of_nat 2) with 16. rewrite (wrap_s_u 16), (wrap_s_small 16 z) by lia.
  apply wrap_s_left. lia.
Qed.
Lemma stored16 : forall f g (z lo hi : Z), -32768 <= z <= 32767 -> -32768 <= lo <= 32767 -> -32768 <= hi <= 32767 ->
  bounded16 (narrowed16 (w4 f) (w4 g) (lv 2 8 (fun _ => wrap_u 16 z))) (lv 2 8 (fun _ => wrap_u 32 (wrap_s 16 (wrap_u 16 lo)))) (lv 2 8 (fun _ => wrap_u 32 (wrap_s 16 (wrap_u 16 hi)))) =
  lv 2 8 (fun i => between lo hi (wrap_s 32 (joined f g i + z))).
Proof.
  intros f g z lo hi Hz Hl Hh. unfold narrowed16. rewrite !saddw_lanes by exact Hz. rewrite !narrow4, join24. unfold bounded16. cbn [vop_val]. rewrite !v_binary by lia.
  change (8 * Z.of_nat 2) with 16.
  assert (S2 : forall x, sat_s 2 x = Z.max (-32768) (Z.min 32767 x)) by reflexivity.
  assert (WS : forall x, -32768 <= x <= 32767 -> wrap_s 16 x = x) by (intros x Hx; apply wrap_s_small; change (2 ^ (16 - 1)) with 32768; lia).
  assert (WC : forall x, -32768 <= x <= 32767 -> wrap_s 16 (wrap_u 32 (wrap_s 16 (wrap_u 16 x))) = x).
  { intros x Hx. rewrite (wrap_s_u 16), (WS x) by lia. rewrite <- (WS x Hx) at 2. apply wrap_s_cong. unfold wrap_u. symmetry. apply (Znumtheory.Zmod_div_mod (2 ^ 16) (2 ^ 32)); [lia|lia|]. exists (2 ^ 16). reflexivity. }
  apply lv_ext. intros i Hi. f_equal. rewrite !WC by lia. unfold joined. destruct (Nat.ltb_spec i 4) as [Hi4|Hi4].
  - rewrite (WS (sat_s 2 _)) by (rewrite S2; lia). rewrite S2. rewrite WS by lia. unfold between. lia.
  - rewrite (WS (sat_s 2 _)) by (rewrite S2; lia). rewrite S2. rewrite WS by lia. unfold between. lia.
Qed.
