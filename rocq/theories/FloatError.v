(** Rounding errors of single operations and of sums of products. *)
From Coq Require Import ZArith List Bool Lia SpecFloat.
From Verif Require Import Base FloatOps FloatFacts SimdFloat X86Mul SpecFloatX86 SpecFloatExact FloatExact FloatExactProps SpecFloatRound FloatRound SpecFloatError.
Open Scope Z_scope.

Local Notation B := (2 ^ 24).
Local Notation U := (2 ^ 172).
Local Notation S := (2 ^ 149).

(** ** Single operations *)
Lemma number_at : forall prec emax x z e f, is_number prec emax x z e -> f <= e -> is_number prec emax x (z * 2 ^ (e - f)) f.
Proof.
  intros prec emax x z e f [V N] H. split; [exact V|]. destruct x as [s| | |s m g]; try contradiction; [subst z; reflexivity|].
  apply (same_number_trans _ _ z e); [exact N|]. apply same_number_sym. replace f with (e - (e - f)) at 2 by lia. apply same_number_shift. lia.
Qed.

Lemma rounded_error : forall X r, X <> 0 -> rounded 24 128 X (-298) r -> (B + 1) * Z.abs X + (if X mod S =? 0 then 0 else U) < B * 2 ^ 426 ->
  exists V, is_number 24 128 r V (-149) /\ B * Z.abs (V * S - X) <= Z.abs X + (if X mod S =? 0 then 0 else U).
Proof.
  intros X r HX (n & N & R) H. unfold last_place in *. set (L := Z.log2 (Z.abs X)) in *. set (g := Z.max (L + 1 + -298 - 24) (3 - 128 - 24)) in *.
  assert (Lx : 2 ^ L <= Z.abs X < 2 ^ (L + 1)) by (apply Z.log2_spec; lia). assert (L0 : 0 <= L) by apply Z.log2_nonneg.
  assert (Hg : -149 <= g) by lia. apply (nearest_iff _ _ _ _ (-298)) in N; [|lia..]. destruct N as [N _]. rewrite Z.sub_diag, Z.pow_0_r, Z.mul_1_r in N.
  replace (g - -298) with ((g + 149) + 149) in N by lia. rewrite pow_split in N by lia. set (G := 2 ^ (g + 149)) in *. assert (PG : 0 < G) by (apply pow_pos; lia).
  (* the error *)
  assert (Er : B * Z.abs (n * (G * S) - X) <= Z.abs X + (if X mod S =? 0 then 0 else U)).
  { rewrite <- Z.abs_opp. replace (- (n * (G * S) - X)) with (X - n * (G * S)) by lia. destruct (Z.eq_dec g (-149)) as [E|E].
    - assert (G1 : G = 1) by (unfold G; rewrite E; reflexivity). rewrite G1 in *. destruct (Z.eqb_spec (X mod S) 0) as [M|M]; [|lia].
      apply Z.mod_divide in M; [|lia]. destruct M as [w ->]. assert (w = n) by lia. subst w. replace (n * S - n * (1 * S)) with 0 by lia. lia.
    - assert (G2 : B * (G * S) = 2 * 2 ^ L). { unfold G. rewrite <- pow_split by lia. rewrite <- pow_split by lia. change 2 with (2 ^ 1) at 2. rewrite <- pow_split by lia. f_equal. lia. }
      destruct (X mod S =? 0); lia. }
  assert (Sm : Z.abs (n * (G * S)) < 2 ^ 426) by (destruct (X mod S =? 0); lia).
  assert (O : Z.log2 (Z.abs n) + g < 128).
  { destruct (Z.eq_dec n 0) as [->|Nn].
    - change (Z.log2 (Z.abs 0)) with 0. assert (L < 426); [|lia]. apply (Z.pow_lt_mono_r_iff 2); [lia|lia|]. destruct (X mod S =? 0); lia.
    - assert (Z.log2 (Z.abs n) + (g + 149 + 149) < 426); [|lia]. apply (Z.pow_lt_mono_r_iff 2); [lia|lia|]. pose proof (Z.log2_nonneg (Z.abs n)). rewrite !pow_split by lia. fold G.
      assert (2 ^ Z.log2 (Z.abs n) <= Z.abs n) by (apply Z.log2_spec; lia). rewrite Z.abs_mul in Sm. rewrite (Z.abs_eq (G * S)) in Sm by lia. eapply Z.le_lt_trans; [apply Z.mul_le_mono_nonneg_r; [lia|eassumption]|exact Sm]. }
  rewrite (proj2 (Z.leb_gt _ _)) in R by exact O. destruct R as [R _]. exists (n * G). split.
  - apply (number_at _ _ _ _ _ (-149)) in R; [|exact Hg]. replace (g - -149) with (g + 149) in R by lia. exact R.
  - rewrite <- Z.mul_assoc. exact Er.
Qed.

Lemma zero_error : forall s, is_number 24 128 (S754_zero s) 0 (-149).
Proof. intros s. split; reflexivity. Qed.

Lemma mul_error : forall x y a b, is_number 24 128 x a (-149) -> is_number 24 128 y b (-149) -> (B + 1) * Z.abs (a * b) + U < B * 2 ^ 426 ->
  exists V, is_number 24 128 (fmul 24 128 x y) V (-149) /\ B * Z.abs (V * S - a * b) <= Z.abs (a * b) + U.
Proof.
  intros x y a b N1 N2 H. pose proof (mul_rounded 24 128 ltac:(lia) ltac:(lia) _ _ _ _ _ _ N1 N2) as R. destruct (Z.eqb_spec (a * b) 0) as [E|E].
  - rewrite R, E. exists 0. split; [apply zero_error|lia].
  - destruct (rounded_error _ _ E R) as (V & V1 & V2); [destruct (_ =? 0); lia|]. exists V. split; [exact V1|]. destruct (_ =? 0); lia.
Qed.

Lemma fused_error : forall x y c a b s, is_number 24 128 x a (-149) -> is_number 24 128 y b (-149) -> is_number 24 128 c s (-149) ->
  (B + 1) * Z.abs (a * b + s * S) + U < B * 2 ^ 426 ->
  exists V, is_number 24 128 (fused_mul_add 24 128 x y c) V (-149) /\ B * Z.abs (V * S - (a * b + s * S)) <= Z.abs (a * b + s * S) + U.
Proof.
  intros x y c a b s N1 N2 N3 H. apply (number_at _ _ _ _ _ (-298)) in N3; [|lia]. change (-149 - -298) with 149 in N3.
  pose proof (fused_rounded 24 128 ltac:(lia) ltac:(lia) _ _ _ _ _ _ _ _ N1 N2 N3) as R. destruct (Z.eqb_spec (a * b + s * S) 0) as [E|E].
  - rewrite R, E. exists 0. split; [apply zero_error|lia].
  - destruct (rounded_error _ _ E R) as (V & V1 & V2); [destruct (_ =? 0); lia|]. exists V. split; [exact V1|]. destruct (_ =? 0); lia.
Qed.

Lemma add_error : forall x y a b, is_number 24 128 x a (-149) -> is_number 24 128 y b (-149) -> (B + 1) * Z.abs ((a + b) * S) < B * 2 ^ 426 ->
  exists V, is_number 24 128 (fadd 24 128 x y) V (-149) /\ B * Z.abs (V * S - (a + b) * S) <= Z.abs ((a + b) * S).
Proof.
  intros x y a b N1 N2 H. pose proof (add_rounded 24 128 ltac:(lia) ltac:(lia) _ _ _ _ _ N1 N2) as R. destruct (Z.eqb_spec (a + b) 0) as [E|E].
  - rewrite R, E. exists 0. split; [apply zero_error|lia].
  - assert (R' : rounded 24 128 ((a + b) * S) (-298) (fadd 24 128 x y)).
    { apply (rounded_same 24 128 ltac:(lia) ltac:(lia) (a + b) (-149)); [|exact E|exact R]. apply same_number_sym. apply (same_number_shift (a + b) (-149) 149). lia. }
    assert (M : (a + b) * S mod S = 0) by (apply Z.mod_mul; lia).
    assert (E' : (a + b) * S <> 0) by lia. destruct (rounded_error _ _ E' R') as (V & V1 & V2); rewrite M in *; cbn [Z.eqb] in *; [lia|]. exists V. split; [exact V1|lia].
Qed.

(** ** Powers of [1 + 2^-24] *)
Lemma ratio_mono : forall j n, 0 <= j <= n -> (B + 1) ^ j * B ^ n <= (B + 1) ^ n * B ^ j.
Proof.
  intros j n H. replace n with (j + (n - j)) by lia. rewrite !Z.pow_add_r by lia. assert (Q : B ^ (n - j) <= (B + 1) ^ (n - j)) by (apply Z.pow_le_mono_l; lia).
  assert (P1 : 0 <= (B + 1) ^ j) by (apply Z.pow_nonneg; lia). assert (P2 : 0 <= B ^ j) by (apply Z.pow_nonneg; lia).
  assert (P : 0 <= (B + 1) ^ j * B ^ j) by (apply Z.mul_nonneg_nonneg; assumption). nia.
Qed.

Lemma no_overflow_mono : forall j n w w', 0 <= j <= n -> 0 <= w <= w' -> no_overflow n w' -> no_overflow j w.
Proof.
  intros j n w w' Hj Hw H. unfold no_overflow in *. pose proof (ratio_mono j n Hj) as R.
  assert (P : 0 < B ^ n) by (apply Z.pow_pos_nonneg; lia). assert (P' : 0 < B ^ j) by (apply Z.pow_pos_nonneg; lia). assert (Q : 0 < (B + 1) ^ n) by (apply Z.pow_pos_nonneg; lia).
  assert (Q' : 0 < (B + 1) ^ j) by (apply Z.pow_pos_nonneg; lia).
  apply (Z.mul_lt_mono_pos_r (B ^ n)); [exact P|].
  apply Z.le_lt_trans with ((B + 1) ^ n * B ^ j * w'); [|nia].
  apply Z.le_trans with ((B + 1) ^ j * B ^ n * w'); [nia|]. apply Z.mul_le_mono_nonneg_r; [lia|exact R].
Qed.

Lemma powers : forall m, 0 <= m -> 0 < B ^ m <= (B + 1) ^ m /\ B ^ (m + 1) = B * B ^ m /\ (B + 1) ^ (m + 1) = (B + 1) * (B + 1) ^ m.
Proof.
  intros m Hm. split; [split; [apply Z.pow_pos_nonneg; lia|apply Z.pow_le_mono_l; lia]|]. split; (rewrite Z.pow_add_r by lia; rewrite Z.pow_1_r; lia).
Qed.

(** ** One more rounding: [e] is the error so far, [a] the magnitude, [x] what is rounded. *)
Lemma error_step : forall b P Q e e' w w' a x u, 0 < b -> 0 < Q <= P -> Q * e <= (P - Q) * w -> 0 <= e -> 0 <= w <= w' -> a + u <= w' ->
  0 <= x <= a + e -> b * (e' - e) <= x + u ->
  b * Q * e' <= ((b + 1) * P - b * Q) * w'.
Proof.
  intros b P Q e e' w w' a x u Hb HQ H He Hw Ha Hx He'.
  assert (M1 : Q * (b * (e' - e)) <= Q * (w' + e)) by (apply Z.mul_le_mono_nonneg_l; lia).
  assert (M2 : (P - Q) * w <= (P - Q) * w') by (apply Z.mul_le_mono_nonneg_l; lia).
  assert (M3 : (b + 1) * (Q * e) <= (b + 1) * ((P - Q) * w')) by (apply Z.mul_le_mono_nonneg_l; lia). nia.
Qed.

Lemma overflow_step : forall b P Q e w w' a x u m, 0 < b -> 0 < Q <= P -> Q * e <= (P - Q) * w -> 0 <= w <= w' -> a + u <= w' ->
  0 <= x <= a + e -> 0 <= u -> (b + 1) * P * w' < b * Q * m -> (b + 1) * x + u < b * m.
Proof.
  intros b P Q e w w' a x u m Hb HQ H Hw Ha Hx Hu O.
  assert (M2 : (P - Q) * w <= (P - Q) * w') by (apply Z.mul_le_mono_nonneg_l; lia).
  apply (Z.mul_lt_mono_pos_l Q); [lia|]. assert (M1 : Q * x <= Q * (w' - u + e)) by (apply Z.mul_le_mono_nonneg_l; lia).
  assert (M3 : (b + 1) * (Q * x) <= (b + 1) * (Q * (w' - u) + (P - Q) * w')) by (apply Z.mul_le_mono_nonneg_l; nia). nia.
Qed.

(** A product rounded with error [d], then the sum. *)
Lemma error_step2 : forall b P Q e e' d w v a x, 0 < b -> 0 < Q <= P -> (b + 1) * Q <= b * P -> Q * e <= (P - Q) * w -> 0 <= e -> 0 <= d -> 0 <= w -> 0 <= v -> a <= w + v ->
  b * d <= v -> 0 <= x <= a + e + d -> b * (e' - e - d) <= x ->
  b * Q * e' <= ((b + 1) * P - b * Q) * (w + v).
Proof.
  intros b P Q e e' d w v a x Hb HQ R H He Hd Hw Hv Ha Hbd Hx He'.
  apply (Z.mul_le_mono_pos_l _ _ b); [exact Hb|].
  assert (M1 : Q * (b * (e' - e - d)) <= Q * (w + v + e + d)) by (apply Z.mul_le_mono_nonneg_l; lia).
  assert (M2 : b * (b + 1) * (Q * e) <= b * (b + 1) * ((P - Q) * w)) by (apply Z.mul_le_mono_nonneg_l; nia).
  assert (M3 : (b + 1) * Q * (b * d) <= (b + 1) * Q * v) by (apply Z.mul_le_mono_nonneg_l; nia).
  assert (M4 : (b + 1) * v * ((b + 1) * Q) <= (b + 1) * v * (b * P)) by (apply Z.mul_le_mono_nonneg_l; nia). nia.
Qed.

Lemma overflow_step2 : forall b P Q e d w v a x m, 0 < b -> 0 < Q <= P -> (b + 1) * Q <= b * P -> Q * e <= (P - Q) * w -> 0 <= d -> 0 <= w -> 0 <= v -> a <= w + v ->
  b * d <= v -> 0 <= x <= a + e + d -> (b + 1) * P * (w + v) < b * Q * m -> (b + 1) * x < b * m.
Proof.
  intros b P Q e d w v a x m Hb HQ R H Hd Hw Hv Ha Hbd Hx O.
  apply (Z.mul_lt_mono_pos_l (b * Q)); [nia|].
  assert (M1 : Q * x <= Q * (w + v + e + d)) by (apply Z.mul_le_mono_nonneg_l; lia).
  assert (M1' : b * (b + 1) * (Q * x) <= b * (b + 1) * (Q * (w + v + e + d))) by (apply Z.mul_le_mono_nonneg_l; nia).
  assert (M2 : b * (b + 1) * (Q * e) <= b * (b + 1) * ((P - Q) * w)) by (apply Z.mul_le_mono_nonneg_l; nia).
  assert (M3 : (b + 1) * Q * (b * d) <= (b + 1) * Q * v) by (apply Z.mul_le_mono_nonneg_l; nia).
  assert (M4 : (b + 1) * v * ((b + 1) * Q) <= (b + 1) * v * (b * P)) by (apply Z.mul_le_mono_nonneg_l; nia). nia.
Qed.

(** ** Sums of products *)
Section Sums.
Variables (x y : Z -> spec_float) (a b : Z -> Z) (n : Z) (start : spec_float) (c0 : Z).
Hypothesis Hn : 0 <= n.
Hypothesis Nx : forall k, 0 <= k < n -> is_number 24 128 (x k) (a k) (-149).
Hypothesis Ny : forall k, 0 <= k < n -> is_number 24 128 (y k) (b k) (-149).
Hypothesis Nc : is_number 24 128 start c0 (-149).
Let T m := sum_of (fun k => a k * b k) m + c0 * S.
Let A m := sum_of (fun k => Z.abs (a k * b k)) m + Z.abs c0 * S.
Let W m := A m + m * U.

Lemma magnitude_facts : forall m, 0 <= m -> 0 <= A m /\ Z.abs (T m) <= A m /\ T (m + 1) = T m + a m * b m /\ A (m + 1) = A m + Z.abs (a m * b m).
Proof.
  intros m Hm. unfold T, A. pose proof (sum_of_abs (fun k => a k * b k) m Hm) as [P0 P]. cbv beta in P0, P. rewrite !sum_of_snoc by exact Hm. lia.
Qed.
Lemma magnitude_mono : forall m, 0 <= m <= n -> 0 <= W m <= W n.
Proof.
  intros m Hm. pose proof (magnitude_facts m ltac:(lia)) as (F & _). unfold W, A in *. pose proof (sum_of_mono (fun k => a k * b k) m n Hm) as M. cbv beta in M. lia.
Qed.

Lemma fused_sum : no_overflow n (W n) ->
  exists V, is_number 24 128 (fold_left (fun acc k => fused_mul_add 24 128 (x k) (y k) acc) (zrange 0 n) start) V (-149) /\ within n (W n) (T n) V.
Proof.
  intros O. assert (G : forall m, 0 <= m -> m <= n ->
    exists V, is_number 24 128 (fold_left (fun acc k => fused_mul_add 24 128 (x k) (y k) acc) (zrange 0 m) start) V (-149) /\ within m (W m) (T m) V); [|apply G; lia].
  intros m Hm. pattern m. apply natlike_ind; [| |exact Hm].
  - intros _. exists c0. rewrite zrange_nil by lia. split; [exact Nc|]. unfold within, T. rewrite !Z.pow_0_r, sum_of_empty. lia.
  - clear m Hm. intros m Hm IH L. unfold Z.succ in *. destruct IH as (V & I1 & I2); [lia|]. rewrite zrange_snoc by lia. rewrite fold_left_app. cbn [fold_left].
    set (acc := fold_left _ _ start) in *. clearbody acc.
    pose proof (magnitude_facts m Hm) as (F1 & F2 & F3 & F4). pose proof (magnitude_mono m ltac:(lia)) as M1. pose proof (magnitude_mono (m + 1) ltac:(lia)) as M2.
    pose proof (powers m Hm) as (P1 & P2 & P3). assert (O' : no_overflow (m + 1) (W (m + 1))) by (apply (no_overflow_mono _ n _ (W n)); [lia|exact M2|exact O]).
    assert (Ww : W m <= W (m + 1)) by (unfold W in *; lia). assert (Wa : A (m + 1) + U <= W (m + 1)) by (unfold W; lia).
    unfold within in *. unfold no_overflow in O'. rewrite P2, P3 in *.
    destruct (fused_error (x m) (y m) acc (a m) (b m) V) as (V' & V1 & V2); [apply Nx; lia|apply Ny; lia|exact I1| |].
    + apply (overflow_step B ((B + 1) ^ m) (B ^ m) (Z.abs (V * S - T m)) (W m) (W (m + 1)) (A (m + 1))); try assumption; lia.
    + exists V'. split; [exact V1|].
      apply (error_step B ((B + 1) ^ m) (B ^ m) (Z.abs (V * S - T m)) _ (W m) (W (m + 1)) (A (m + 1)) (Z.abs (a m * b m + V * S)) U); try assumption; lia.
Qed.

Lemma rounded_sum : no_overflow (n + 1) (W n) ->
  exists V, is_number 24 128 (fold_left (fun acc k => fadd 24 128 (fmul 24 128 (x k) (y k)) acc) (zrange 0 n) start) V (-149) /\ within (n + 1) (W n) (T n) V.
Proof.
  intros O. assert (G : forall m, 0 <= m -> m <= n ->
    exists V, is_number 24 128 (fold_left (fun acc k => fadd 24 128 (fmul 24 128 (x k) (y k)) acc) (zrange 0 m) start) V (-149) /\ within (m + 1) (W m) (T m) V); [|apply G; lia].
  intros m Hm. pattern m. apply natlike_ind; [| |exact Hm].
  - intros _. exists c0. rewrite zrange_nil by lia. split; [exact Nc|]. unfold within, T. rewrite sum_of_empty. cbn [Z.add]. rewrite Z.sub_diag.
    pose proof (magnitude_mono 0 ltac:(lia)) as M. change (Z.abs 0) with 0. rewrite !Z.pow_1_r, Z.mul_0_r. lia.
  - clear m Hm. intros m Hm IH L. unfold Z.succ in *. destruct IH as (V & I1 & I2); [lia|]. rewrite zrange_snoc by lia. rewrite fold_left_app. cbn [fold_left].
    set (acc := fold_left _ _ start) in *. clearbody acc.
    pose proof (magnitude_facts m Hm) as (F1 & F2 & F3 & F4). pose proof (magnitude_mono m ltac:(lia)) as M1. pose proof (magnitude_mono (m + 1) ltac:(lia)) as M2.
    pose proof (powers (m + 1) ltac:(lia)) as (P1 & P2 & P3). assert (O' : no_overflow (m + 1 + 1) (W (m + 1))) by (apply (no_overflow_mono _ (n + 1) _ (W n)); [lia|exact M2|exact O]).
    assert (O1 : no_overflow 1 (W (m + 1))) by (apply (no_overflow_mono _ (n + 1) _ (W n)); [lia|exact M2|exact O]).
    assert (We : W (m + 1) = W m + (Z.abs (a m * b m) + U)) by (unfold W in *; lia). assert (Wa : A (m + 1) <= W (m + 1)) by (unfold W; lia).
    pose proof (ratio_mono 1 (m + 1) ltac:(lia)) as R. rewrite !Z.pow_1_r in R.
    unfold within in *. unfold no_overflow in O', O1. rewrite P2, P3 in *. rewrite !Z.pow_1_r in O1.
    destruct (mul_error (x m) (y m) (a m) (b m)) as (p & p1 & p2); [apply Nx; lia|apply Ny; lia|unfold W in *; lia|].
    destruct (add_error (fmul 24 128 (x m) (y m)) acc p V p1 I1) as (V' & V1 & V2).
    + apply (overflow_step2 B ((B + 1) ^ (m + 1)) (B ^ (m + 1)) (Z.abs (V * S - T m)) (Z.abs (p * S - a m * b m)) (W m) (Z.abs (a m * b m) + U) (A (m + 1))); try assumption; try lia.
    + exists V'. split; [exact V1|]. rewrite We.
      apply (error_step2 B ((B + 1) ^ (m + 1)) (B ^ (m + 1)) (Z.abs (V * S - T m)) _ (Z.abs (p * S - a m * b m)) (W m) (Z.abs (a m * b m) + U) (A (m + 1)) (Z.abs ((p + V) * S))); try assumption; lia.
Qed.
End Sums.

(** A bias added last. *)
Lemma bias_error : forall k w t V c v b, 0 <= k -> Z.abs t <= w -> is_number 24 128 v V (-149) -> is_number 24 128 b c (-149) -> within k w t V ->
  no_overflow (k + 1) (w + Z.abs c * S) ->
  exists V', is_number 24 128 (fadd 24 128 v b) V' (-149) /\ within (k + 1) (w + Z.abs c * S) (t + c * S) V'.
Proof.
  intros k w t V c v b Hk Hw N1 N2 I O. pose proof (powers k Hk) as (P1 & P2 & P3). unfold within, no_overflow in *. rewrite P2, P3 in *.
  destruct (add_error v b V c N1 N2) as (V' & V1 & V2).
  - assert (G : (B + 1) * Z.abs ((V + c) * S) + 0 < B * 2 ^ 426); [|lia].
    apply (overflow_step B ((B + 1) ^ k) (B ^ k) (Z.abs (V * S - t)) w (w + Z.abs c * S) (w + Z.abs c * S)); try assumption; lia.
  - exists V'. split; [exact V1|].
    apply (error_step B ((B + 1) ^ k) (B ^ k) (Z.abs (V * S - t)) _ w (w + Z.abs c * S) (w + Z.abs c * S) (Z.abs ((V + c) * S)) 0); try assumption; lia.
Qed.

(** More roundings. *)
Lemma within_mono : forall j k w w' t V, 0 <= j <= k -> 0 <= w <= w' -> within j w t V -> within k w' t V.
Proof.
  intros j k w w' t V Hj Hw H. unfold within in *. replace k with (j + (k - j)) by lia. rewrite !Z.pow_add_r by lia.
  pose proof (powers j ltac:(lia)) as (P1 & _). pose proof (powers (k - j) ltac:(lia)) as (P2 & _).
  set (e := Z.abs _) in *. set (Q := B ^ j) in *. set (P := (B + 1) ^ j) in *. set (Q' := B ^ (k - j)) in *. set (P' := (B + 1) ^ (k - j)) in *.
  clear - H Hw P1 P2. clearbody Q P Q' P'. clearbody e.
  assert (M1 : Q' * (Q * e) <= Q' * ((P - Q) * w)) by (apply Z.mul_le_mono_nonneg_l; lia).
  assert (M2 : (P - Q) * w <= (P - Q) * w') by (apply Z.mul_le_mono_nonneg_l; lia).
  assert (M3 : Q' * ((P - Q) * w) <= Q' * ((P - Q) * w')) by (apply Z.mul_le_mono_nonneg_l; lia).
  assert (M4 : P * Q' <= P * P') by (apply Z.mul_le_mono_nonneg_l; lia).
  assert (M5 : P * Q' * w' <= P * P' * w') by (apply Z.mul_le_mono_nonneg_r; lia). nia.
Qed.

(** The usual simpler bound. *)
Lemma within_simple : forall k w t V, 0 <= k <= 2 ^ 23 -> 0 <= w -> within k w t V -> 2 ^ 23 * Z.abs (V * S - t) <= k * w.
Proof.
  intros k w t V Hk Hw H.
  assert (G : forall m, 0 <= m -> m <= 2 ^ 23 -> (B + 1) ^ m * (B - m) <= B ^ m * B).
  { intros m Hm. pattern m. apply natlike_ind; [intros _; rewrite !Z.pow_0_r; lia| |exact Hm]. clear m Hm. intros m Hm IH L. specialize (IH ltac:(lia)). unfold Z.succ in *.
    pose proof (powers m Hm) as (P1 & P2 & P3). rewrite P2, P3. set (P := (B + 1) ^ m) in *. set (Q := B ^ m) in *. clearbody P Q.
    assert (M : B * (P * (B - m)) <= B * (Q * B)) by (apply Z.mul_le_mono_nonneg_l; lia). nia. }
  specialize (G k ltac:(lia) ltac:(lia)). unfold within in H. pose proof (powers k ltac:(lia)) as (P1 & _). set (P := (B + 1) ^ k) in *. set (Q := B ^ k) in *. set (e := Z.abs _) in *.
  assert (K : 2 ^ 23 * (P - Q) <= k * Q). { clearbody P Q. clear - G P1 Hk. change B with (2 * 2 ^ 23) in G. set (h := 2 ^ 23) in *. assert (0 < h) by (unfold h; lia). clearbody h.
    assert (P * h <= P * (2 * h - k)) by (apply Z.mul_le_mono_nonneg_l; lia). assert ((P - Q) * (2 * h - k) <= Q * k) by lia. 
    assert ((P - Q) * h <= (P - Q) * (2 * h - k)) by (apply Z.mul_le_mono_nonneg_l; lia). lia. }
  assert (e0 : 0 <= e) by (unfold e; lia). clearbody e P Q. clear - H K P1 Hw e0. set (h := 2 ^ 23) in *. assert (0 < h) by (unfold h; lia). clearbody h.
  apply (Z.mul_le_mono_pos_l _ _ Q); [lia|].
  assert (h * (Q * e) <= h * ((P - Q) * w)) by (apply Z.mul_le_mono_nonneg_l; lia). assert (h * (P - Q) * w <= k * Q * w) by (apply Z.mul_le_mono_nonneg_r; lia). lia.
Qed.
