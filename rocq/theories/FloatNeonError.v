(** How close multiplications of floats on the AArch64 paths are to the exact product, and when they are exact. *)
From Coq Require Import ZArith List Bool Lia SpecFloat Permutation.
From Verif Require Import Base SidePair Mat MatFacts Scalars FloatOps FloatFacts MulParams Kernel TrMulRun SpecMatrix SpecMul SimdFloat SimdFloatFacts FloatExact FloatClamp SpecFloatExact SpecFloatError FloatError
  X86Mul FloatX86Mul SpecFloatX86 FloatX86Props FloatX86More FloatExactProps FloatErrorProps Tune SpecFloatNeon FloatWordsFacts KernelFloatNeonProps FloatNeonMul FloatNeonFacts FloatNeonProps FloatNeonMore.
Import ListNotations.
Open Scope Z_scope.

(** ** The order does not matter to exact sums *)
Lemma order_permutation : forall t d i j, Permutation (neon_order t d i j) (zrange 0 d).
Proof.
  intros t d i j. unfold neon_order. destruct (unrolled t && (8 <=? d) && _) eqn:Eb; [|apply Permutation_refl].
  apply andb_true_iff in Eb. destruct Eb as (Eb & _). apply andb_true_iff in Eb. destruct Eb as (_ & Eb). apply Z.leb_le in Eb. cbv zeta.
  pose proof (Z.div_mod d 4 ltac:(lia)) as D4. pose proof (Z.mod_pos_bound d 4 ltac:(lia)) as M4. set (b := 4 * (d / 4) - 4) in *.
  rewrite (zrange_split 0 b d) by lia. apply Permutation_app_head. rewrite (zrange_split b (b + 4) d) by lia. apply Permutation_app_tail.
  rewrite (zrange_cons b) by lia. rewrite (zrange_cons (b + 1)) by lia. rewrite (zrange_cons (b + 1 + 1)) by lia. rewrite (zrange_cons (b + 1 + 1 + 1)) by lia. rewrite zrange_nil by lia.
  replace (b + 1 + 1) with (b + 2) by lia. replace (b + 2 + 1) with (b + 3) by lia.
  apply Permutation_sym. change [b; b + 1; b + 2; b + 3] with ([b] ++ [b + 1; b + 2; b + 3]). apply (Permutation_app_comm [b]).
Qed.

(** The [k]-th product that is added. *)
Definition place (o : list Z) (k : Z) : Z := nth (Z.to_nat k) o 0.
Lemma place_all : forall o n, length o = Z.to_nat n -> 0 <= n -> map (place o) (zrange 0 n) = o.
Proof.
  intros o n H Hn. apply (nth_ext _ _ 0 0); [rewrite map_length, zrange_length, H; f_equal; lia|]. intros k Hk. rewrite map_length, zrange_length in Hk.
  rewrite <- (Nat2Z.id k) at 1. rewrite nth_map_zrange by lia. unfold place. rewrite Nat2Z.id. reflexivity.
Qed.

Lemma sum_as_map : forall f n, sum_of f n = fold_right Z.add 0 (map f (zrange 0 n)).
Proof.
  intros f n. unfold sum_of. rewrite <- (Z.add_0_l (fold_right _ _ _)). generalize 0 at 2 3. induction (zrange 0 n) as [|k ks IH]; intros s; cbn [fold_left map fold_right]; [lia|]. rewrite IH. lia.
Qed.
Lemma sum_permuted : forall f o n, Permutation o (zrange 0 n) -> 0 <= n -> sum_of (fun k => f (place o k)) n = sum_of f n.
Proof.
  intros f o n P Hn. rewrite !sum_as_map. rewrite <- (map_map (place o) f). rewrite place_all; [|rewrite (Permutation_length P), zrange_length; f_equal; lia|exact Hn].
  apply (Permutation_map f) in P. induction P; cbn [fold_right]; lia.
Qed.
Lemma place_in : forall o n k, Permutation o (zrange 0 n) -> 0 <= k < n -> 0 <= place o k < n.
Proof.
  intros o n k P Hk. apply zrange_In. apply (Permutation_in _ P). apply nth_In. rewrite (Permutation_length P), zrange_length. lia.
Qed.
Lemma dot_as_loop : forall o l r n, Permutation o (zrange 0 n) -> 0 <= n ->
  neon_dot o l r = fold_left (fun acc k => fused_mul_add 24 128 (l (place o k)) (r (place o k)) acc) (zrange 0 n) (S754_zero false).
Proof.
  intros o l r n P Hn. unfold neon_dot. assert (K : map (place o) (zrange 0 n) = o) by (apply place_all; [rewrite (Permutation_length P), zrange_length; f_equal; lia|exact Hn]).
  transitivity (fold_left (fun acc k => fused_mul_add 24 128 (l k) (r k) acc) (map (place o) (zrange 0 n)) (S754_zero false)); [rewrite K; reflexivity|]. clear K P.
  generalize (S754_zero false). induction (zrange 0 n) as [|k ks IH]; intros a; cbn [fold_left map]; [reflexivity|]. apply IH.
Qed.

(** ** Errors *)
Lemma neon_value : forall c dotprod ci l r dst mp g, neon_mul c g l r dst mp -> forall sched x, mul_float_neon c dotprod ci g sched l r dst mp = Ok (Some x) ->
  forall i j, in_matrix (m_layout dst) i j -> exists o, Permutation o (zrange 0 (ml_rows (m_layout r))) /\
  entry x i j = neon_finish (neon_bias mp i j) (mp_min mp) (mp_max mp) (neon_dot o (fun k => entry l i k) (fun k => entry r k j)).
Proof.
  intros c dotprod ci l r dst mp g C sched x E i j I. destruct (neon_completed _ _ _ _ _ _ _ _ C _ _ E) as (_ & _ & _ & Hx & _).
  destruct (Hx i j I) as (t & _ & ->). eexists. split; [apply order_permutation|reflexivity].
Qed.

Lemma neon_error : forall cf dotprod ci l r dst mp g a b c, neon_mul cf g l r dst mp -> finite_values l r dst mp a b c ->
  forall sched x, mul_float_neon cf dotprod ci g sched l r dst mp = Ok (Some x) ->
  forall i j, in_matrix (m_layout dst) i j -> no_overflow (ml_rows (m_layout r) + 1) (magnitude r a b c i j) ->
  exists v V, is_number 24 128 v V (-149) /\ within (ml_rows (m_layout r) + 1) (magnitude r a b c i j) (exact_entry r a b c i j) V /\
  entry x i j = smaller (larger v (mp_min mp)) (mp_max mp).
Proof.
  intros cf dotprod ci l r dst mp g a b c C FV sched x E i j I O. destruct (neon_value _ _ _ _ _ _ _ _ C _ _ E i j I) as (o & P & ->).
  pose proof (neon_depth _ _ _ _ _ _ C) as Dp. destruct (neon_shapes _ _ _ _ _ _ C) as (S1 & S2 & S3). pose proof I as (Ii & Ij).
  pose proof (fv_bias _ _ _ _ _ _ _ FV i j I) as Nb. unfold neon_finish. exists (SFadd 24 128 (neon_dot o (fun k => entry l i k) (fun k => entry r k j)) (neon_bias mp i j)). rewrite (dot_as_loop _ _ _ _ P Dp).
  unfold magnitude, exact_entry in *. set (n := ml_rows (m_layout r)) in *.
  assert (NX : forall k, 0 <= k < n -> is_number 24 128 (entry l i (place o k)) (a i (place o k)) (-149)) by (intros k Hk; pose proof (place_in o n k P Hk); apply (fv_lhs _ _ _ _ _ _ _ FV); split; lia).
  assert (NY : forall k, 0 <= k < n -> is_number 24 128 (entry r (place o k) j) (b (place o k) j) (-149)) by (intros k Hk; pose proof (place_in o n k P Hk); apply (fv_rhs _ _ _ _ _ _ _ FV); split; lia).
  pose proof (sum_permuted (fun k => a i k * b k j) o n P Dp) as ET. pose proof (sum_permuted (fun k => Z.abs (a i k * b k j)) o n P Dp) as EW. cbv beta in ET, EW.
  set (t := sum_of (fun k => a i k * b k j) n) in *. set (w := sum_of (fun k => Z.abs (a i k * b k j)) n) in *.
  assert (TW : 0 <= w /\ Z.abs t <= w) by (apply (sum_of_abs (fun k => a i k * b k j) n); lia).
  destruct (fused_sum (fun k => entry l i (place o k)) (fun k => entry r (place o k) j) (fun k => a i (place o k)) (fun k => b (place o k) j) n (S754_zero false) 0) as (V & V1 & V2);
    try assumption; [apply zero_error| |].
  { cbv beta. rewrite EW. apply (no_overflow_mono _ (n + 1) _ (w + Z.abs (c i j) * 2 ^ 149 + n * 2 ^ 172)); [lia|lia|exact O]. }
  cbv beta in V2. rewrite EW, ET in V2. rewrite !Z.mul_0_l, !Z.add_0_r in V2. set (s := fold_left _ _ _) in *. clearbody s.
  destruct (bias_error n (w + n * 2 ^ 172) t V (c i j) s (neon_bias mp i j)) as (V' & B1 & B2); try assumption; try lia.
  - replace (w + n * 2 ^ 172 + Z.abs (c i j) * 2 ^ 149) with (w + Z.abs (c i j) * 2 ^ 149 + n * 2 ^ 172) by lia. exact O.
  - exists V'. split; [exact B1|]. split; [|reflexivity]. replace (w + n * 2 ^ 172 + Z.abs (c i j) * 2 ^ 149) with (w + Z.abs (c i j) * 2 ^ 149 + n * 2 ^ 172) in B2 by lia. exact B2.
Qed.

(** ** Clamping *)
Lemma number_proper : forall x z, is_number 24 128 x z (-149) -> proper x /\ rank x = z.
Proof.
  intros x z N. pose proof N as (V & M). split; [split; [exact V|intros ->; exact M]|]. destruct x as [s| | |s m e]; try contradiction; [symmetry; exact M|].
  pose proof (valid_exponent 24 128 s m e V) as (E & _). unfold fexp, emin in E. unfold same_number in M. rewrite (Z.min_r e (-149)) in M by lia. rewrite Z.sub_diag, Z.pow_0_r, Z.mul_1_r in M.
  unfold rank. replace (e + 149) with (e - -149) by lia. exact M.
Qed.
Lemma proper_number : forall x, proper x -> Z.abs (rank x) < 2 ^ 300 -> is_number 24 128 x (rank x) (-149).
Proof.
  intros x (V & N) B. destruct (rank_finite x V N) as [(s & ->)|(H & _)]; [|exact H]. exfalso. destruct s; cbn [rank] in B; lia.
Qed.
Lemma number_rank : forall x z, is_number 24 128 x z (-149) -> Z.abs z < 2 ^ 300.
Proof. intros x z N. destruct (number_proper x z N) as ((V & Nn) & <-). destruct (rank_finite x V Nn) as [(s & ->)|(_ & B)]; [destruct N as [_ []]|exact B]. Qed.

Lemma neon_clamp_number : forall v lo hi z l h, is_number 24 128 v z (-149) -> is_number 24 128 lo l (-149) -> is_number 24 128 hi h (-149) ->
  is_number 24 128 (smaller (larger v lo) hi) (Z.min (Z.max z l) h) (-149).
Proof.
  intros v lo hi z l h N1 N2 N3. pose proof (number_rank _ _ N1) as B1. pose proof (number_rank _ _ N2) as B2. pose proof (number_rank _ _ N3) as B3.
  apply number_proper in N1. destruct N1 as (P1 & <-). apply number_proper in N2. destruct N2 as (P2 & <-). apply number_proper in N3. destruct N3 as (P3 & <-).
  destruct (larger_rank _ _ P1 P2) as (P4 & R4). destruct (smaller_rank _ _ P4 P3) as (P5 & R5). rewrite <- R4, <- R5. apply proper_number; [exact P5|]. lia.
Qed.

Lemma neon_error_clamped : forall cf dotprod ci l r dst mp g a b c lo hi, neon_mul cf g l r dst mp -> finite_values l r dst mp a b c ->
  is_number 24 128 (mp_min mp) lo (-149) -> is_number 24 128 (mp_max mp) hi (-149) ->
  forall sched x, mul_float_neon cf dotprod ci g sched l r dst mp = Ok (Some x) ->
  forall i j, in_matrix (m_layout dst) i j -> no_overflow (ml_rows (m_layout r) + 1) (magnitude r a b c i j) ->
  exists V, is_number 24 128 (entry x i j) V (-149) /\ V <= hi /\ (lo <= hi -> lo <= V) /\
  within (ml_rows (m_layout r) + 1) (magnitude r a b c i j) (Z.min (Z.max (exact_entry r a b c i j) (lo * 2 ^ 149)) (hi * 2 ^ 149)) V.
Proof.
  intros cf dotprod ci l r dst mp g a b c lo hi C FV Nl Nh sched x E i j I O. destruct (neon_error _ _ _ _ _ _ _ _ _ _ _ C FV _ _ E i j I O) as (v & V & V1 & V2 & ->).
  exists (Z.min (Z.max V lo) hi). split; [apply neon_clamp_number; assumption|]. split; [lia|]. split; [lia|].
  unfold within in *. eapply Z.le_trans; [|exact V2]. apply Z.mul_le_mono_nonneg_l; [apply Z.pow_nonneg; lia|]. lia.
Qed.

Lemma unclamped : forall v V, is_number 24 128 v V (-149) -> smaller (larger v (S754_infinity true)) (S754_infinity false) = v.
Proof. intros v V [_ N]. destruct v as [s| | |s m e]; try contradiction; destruct s; reflexivity. Qed.

Lemma no_overflow_simple : forall n w, 0 <= n < 2 ^ 23 -> 0 <= w < 2 ^ 425 -> no_overflow (n + 1) w.
Proof.
  intros n w Hn Hw. unfold no_overflow.
  assert (G : (2 ^ 24 + 1) ^ (n + 1) <= 2 * (2 ^ 24) ^ (n + 1)).
  { assert (H : forall k, 0 <= k -> k <= 2 ^ 23 -> (2 ^ 24 + 1) ^ k <= 2 * (2 ^ 24) ^ k); [|apply H; lia]. intros k K0 K1. pose proof (powers k K0) as (P1 & _).
    destruct (Z.eq_dec k 0) as [->|Kn]; [rewrite !Z.pow_0_r; lia|].
    pose proof (within_simple k ((2 ^ 24) ^ k) (- ((2 ^ 24 + 1) ^ k - (2 ^ 24) ^ k)) 0 ltac:(lia) ltac:(lia)) as Q. unfold within in Q. rewrite Z.mul_0_l in Q.
    rewrite Z.sub_opp_r, Z.add_0_l, Z.abs_eq in Q by lia. specialize (Q ltac:(lia)). nia. }
  assert (P : 0 < (2 ^ 24) ^ (n + 1)) by (apply Z.pow_pos_nonneg; lia). set (P1 := (2 ^ 24 + 1) ^ (n + 1)) in *. set (Q1 := (2 ^ 24) ^ (n + 1)) in *.
  change (2 ^ 426) with (2 * 2 ^ 425). clear - G P Hw. clearbody P1 Q1. set (h := 2 ^ 425) in *. clearbody h. nia.
Qed.

Lemma neon_error_simple : forall cf dotprod ci l r dst mp g a b c, neon_mul cf g l r dst mp -> finite_values l r dst mp a b c ->
  mp_min mp = S754_infinity true -> mp_max mp = S754_infinity false -> ml_rows (m_layout r) < 2 ^ 23 ->
  forall sched x, mul_float_neon cf dotprod ci g sched l r dst mp = Ok (Some x) ->
  forall i j, in_matrix (m_layout dst) i j -> magnitude r a b c i j < 2 ^ 425 ->
  exists V, is_number 24 128 (entry x i j) V (-149) /\
  2 ^ 23 * Z.abs (V * 2 ^ 149 - exact_entry r a b c i j) <= (ml_rows (m_layout r) + 1) * magnitude r a b c i j.
Proof.
  intros cf dotprod ci l r dst mp g a b c C FV Hl Hh Hd sched x E i j I M. pose proof (neon_depth _ _ _ _ _ _ C) as Dp.
  assert (W0 : 0 <= magnitude r a b c i j) by (unfold magnitude; pose proof (sum_of_abs (fun k => a i k * b k j) (ml_rows (m_layout r)) ltac:(lia)) as [P _]; cbv beta in P; lia).
  destruct (neon_error _ _ _ _ _ _ _ _ _ _ _ C FV _ _ E i j I) as (v & V & V1 & V2 & ->); [apply no_overflow_simple; lia|]. exists V. rewrite Hl, Hh, (unclamped v V V1).
  split; [exact V1|]. apply within_simple in V2; [exact V2|lia|exact W0].
Qed.

(** Close to what the x86 paths store. *)
Lemma neon_x86_close : forall cf cf' p dotprod ci l l' r r' dst dst' mp g a b c,
  float_vector_mul cf p l r dst mp -> neon_mul cf' g l' r' dst' mp -> finite_values l r dst mp a b c -> finite_values l' r' dst' mp a b c ->
  ml_rows (m_layout r) = ml_rows (m_layout r') -> mp_min mp = S754_infinity true -> mp_max mp = S754_infinity false -> ml_rows (m_layout r) < 2 ^ 23 ->
  forall g' sched sched' x y, mul_float_x86 cf p g' sched l r dst mp = Ok (Some x) -> mul_float_neon cf' dotprod ci g sched' l' r' dst' mp = Ok (Some y) ->
  forall i j, in_matrix (m_layout dst) i j -> in_matrix (m_layout dst') i j -> magnitude r a b c i j < 2 ^ 425 ->
  exists V V', is_number 24 128 (entry x i j) V (-149) /\ is_number 24 128 (entry y i j) V' (-149) /\
  2 ^ 22 * Z.abs (V - V') * 2 ^ 149 <= (ml_rows (m_layout r) + 1) * magnitude r a b c i j.
Proof.
  intros cf cf' p dotprod ci l l' r r' dst dst' mp g a b c C C' FV FV' Er Hl Hh Hd g' sched sched' x y E E' i j I I' M.
  destruct (x86_error_simple _ _ _ _ _ _ _ _ _ C FV Hl Hh Hd _ _ _ E i j I M) as (V & V1 & V2).
  unfold magnitude, exact_entry in *. rewrite Er in *.
  destruct (neon_error_simple _ _ _ _ _ _ _ _ _ _ _ C' FV' Hl Hh Hd _ _ E' i j I' M) as (V' & V1' & V2'). unfold magnitude, exact_entry in V2'.
  exists V, V'. split; [exact V1|]. split; [exact V1'|]. lia.
Qed.

(** ** Exact products *)
Lemma neon_exact : forall cf dotprod ci l r dst mp g a b c e f, neon_mul cf g l r dst mp -> scaled_integers l r dst mp a b c e f -> small_sums l r dst a b c ->
  forall sched x, mul_float_neon cf dotprod ci g sched l r dst mp = Ok (Some x) -> forall i j, in_matrix (m_layout dst) i j ->
  exists v, is_number 24 128 v (integer_entry r a b c i j) (e + f) /\ v <> S754_zero true /\ entry x i j = smaller (larger v (mp_min mp)) (mp_max mp).
Proof.
  intros cf dotprod ci l r dst mp g a b c e f C SI SM sched x E i j I. destruct (neon_value _ _ _ _ _ _ _ _ C _ _ E i j I) as (o & P & ->).
  pose proof (neon_depth _ _ _ _ _ _ C) as Dp. destruct (neon_shapes _ _ _ _ _ _ C) as (S1 & S2 & S3). pose proof I as (Ii & Ij).
  destruct (si_bias _ _ _ _ _ _ _ _ _ SI i j I) as (Nb & Zb). pose proof (SM i j I) as B. pose proof (si_scale _ _ _ _ _ _ _ _ _ SI) as Sc.
  unfold neon_finish. exists (SFadd 24 128 (neon_dot o (fun k => entry l i k) (fun k => entry r k j)) (neon_bias mp i j)). rewrite (dot_as_loop _ _ _ _ P Dp). unfold integer_entry. set (n := ml_rows (m_layout r)) in *.
  pose proof (sum_permuted (fun k => a i k * b k j) o n P Dp) as ET. pose proof (sum_permuted (fun k => Z.abs (a i k * b k j)) o n P Dp) as EW. cbv beta in ET, EW.
  destruct (fold_exact (fused_mul_add 24 128) (fun k => entry l i (place o k)) (fun k => entry r (place o k) j)
      (fun k => a i (place o k)) (fun k => b (place o k) j) e f n (S754_zero false) 0) as (F1 & F2).
  - apply (step_exact PathAvx2).
  - lia.
  - exact Sc.
  - intros k Hk. pose proof (place_in o n k P Hk). apply (si_lhs _ _ _ _ _ _ _ _ _ SI). split; lia.
  - intros k Hk. pose proof (place_in o n k P Hk). apply (si_rhs _ _ _ _ _ _ _ _ _ SI). split; lia.
  - split; reflexivity.
  - discriminate.
  - cbv beta. rewrite EW. lia.
  - cbv beta in F1. rewrite Z.add_0_r, ET in F1. pose proof (sum_of_abs (fun k => a i k * b k j) n ltac:(lia)) as [P0 P1]. cbv beta in P0, P1.
    destruct (add_exact 24 128 ltac:(lia) _ _ _ _ _ F1 Nb) as (A1 & A2); [lia|unfold emin; lia|lia|]. split; [exact A1|]. split; [apply A2; left; exact F2|reflexivity].
Qed.

(** Whatever the tunings, threads, memory and storage. *)
Lemma neon_exact_agree : forall cf cf' dotprod dotprod' ci ci' l l' r r' dst dst' mp g g' a b c e f, neon_mul cf g l r dst mp -> neon_mul cf' g' l' r' dst' mp ->
  scaled_integers l r dst mp a b c e f -> scaled_integers l' r' dst' mp a b c e f -> ml_rows (m_layout r) = ml_rows (m_layout r') ->
  small_sums l r dst a b c -> small_sums l' r' dst' a b c ->
  forall sched sched' x y, mul_float_neon cf dotprod ci g sched l r dst mp = Ok (Some x) -> mul_float_neon cf' dotprod' ci' g' sched' l' r' dst' mp = Ok (Some y) ->
  forall i j, in_matrix (m_layout dst) i j -> in_matrix (m_layout dst') i j -> entry x i j = entry y i j.
Proof.
  intros cf cf' dotprod dotprod' ci ci' l l' r r' dst dst' mp g g' a b c e f C C' SI SI' Ed SM SM' sched sched' x y E E' i j I I'.
  destruct (neon_exact _ _ _ _ _ _ _ _ _ _ _ _ _ C SI SM _ _ E i j I) as (v & V1 & V2 & ->).
  destruct (neon_exact _ _ _ _ _ _ _ _ _ _ _ _ _ C' SI' SM' _ _ E' i j I') as (w & W1 & W2 & ->).
  unfold integer_entry in *. rewrite <- Ed in W1. rewrite (exact_value_unique v w _ _ V1 W1 V2 W2). reflexivity.
Qed.

Lemma rank_unique : forall x y, proper x -> proper y -> x <> S754_zero true -> y <> S754_zero true -> rank x = rank y -> x = y.
Proof.
  intros x y (Vx & Nx) (Vy & Ny) Zx Zy H. pose proof (compare_rank x y Vx Vy Nx Ny) as K. rewrite H, Z.compare_refl in K. apply compare_eq in K.
  destruct K as [K | (s & s' & -> & ->)]; [exact K|]. destruct s, s'; congruence.
Qed.
Lemma larger_sign : forall x y, x <> S754_zero true -> y <> S754_zero true -> larger x y <> S754_zero true.
Proof.
  intros x y Hx Hy. unfold larger. destruct (SFcompare x y) as [[]|]; try assumption; [|discriminate]. destruct x as [s| | |]; try assumption. destruct y; try assumption. destruct s; [congruence|discriminate].
Qed.
Lemma smaller_sign : forall x y, x <> S754_zero true -> y <> S754_zero true -> smaller x y <> S754_zero true.
Proof.
  intros x y Hx Hy. unfold smaller. destruct (SFcompare x y) as [[]|]; try assumption; [|discriminate]. destruct x as [s| | |]; try assumption. destruct y as [s'| | |]; try assumption. destruct s, s'; cbn [orb]; congruence.
Qed.

(** The same bits as the x86 paths. *)
Lemma neon_x86_exact : forall cf cf' p dotprod ci l l' r r' dst dst' mp g a b c e f, float_vector_mul cf p l r dst mp -> neon_mul cf' g l' r' dst' mp ->
  plain_bound (mp_min mp) -> plain_bound (mp_max mp) -> SFleb (mp_min mp) (mp_max mp) = true ->
  scaled_integers l r dst mp a b c e f -> scaled_integers l' r' dst' mp a b c e f -> ml_rows (m_layout r) = ml_rows (m_layout r') ->
  small_sums l r dst a b c -> small_sums l' r' dst' a b c ->
  forall g' sched sched' x y, mul_float_x86 cf p g' sched l r dst mp = Ok (Some x) -> mul_float_neon cf' dotprod ci g sched' l' r' dst' mp = Ok (Some y) ->
  forall i j, in_matrix (m_layout dst) i j -> in_matrix (m_layout dst') i j -> entry x i j = entry y i j.
Proof.
  intros cf cf' p dotprod ci l l' r r' dst dst' mp g a b c e f C C' (N1 & Z1) (N2 & Z2) LH SI SI' Ed SM SM' g' sched sched' x y E E' i j I I'.
  destruct (x86_exact _ _ _ _ _ _ _ _ _ _ _ C SI SM _ _ _ E i j I) as (v & V1 & V2 & ->).
  destruct (neon_exact _ _ _ _ _ _ _ _ _ _ _ _ _ C' SI' SM' _ _ E' i j I') as (w & W1 & W2 & ->).
  unfold integer_entry in *. rewrite <- Ed in W1. rewrite <- (exact_value_unique v w _ _ V1 W1 V2 W2).
  assert (Pv : proper v) by (split; [apply V1|apply (number_not_nan _ _ _ V1)]).
  destruct (nm_bounds _ _ _ _ _ _ C') as (B1 & B2). assert (P1 : proper (mp_min mp)) by (split; assumption). assert (P2 : proper (mp_max mp)) by (split; assumption).
  destruct (clamp_rank _ _ _ P1 P2 Pv) as (P3 & K3). destruct (larger_rank _ _ Pv P1) as (P4 & R4). destruct (smaller_rank _ _ P4 P2) as (P5 & R5).
  rewrite leb_rank in LH by assumption. apply Z.leb_le in LH. apply rank_unique; [exact P3|exact P5| | |rewrite K3, R5, R4; lia].
  - unfold vector_clamp. repeat match goal with |- context [if ?b then _ else _] => destruct b end; assumption.
  - apply smaller_sign; [apply larger_sign; assumption|exact Z2].
Qed.
