(** What follows for multiplications of floats on the AArch64 paths: independence, NaN, bounds, the x86 paths. *)
From Coq Require Import ZArith List Bool Lia SpecFloat.
From Verif Require Import Base SidePair Mat MatFacts Scalars FloatOps MulParams Kernel TrMulRun SpecMatrix SpecMul SimdFloat FloatFacts FloatExact FloatClamp SpecFloatExact FloatError
  X86Mul FloatX86Mul SpecFloatX86 FloatX86Props FloatX86More Tune SpecFloatNeon FloatWordsFacts KernelFloatNeonProps FloatNeonMul FloatNeonFacts FloatNeonProps.
Import ListNotations.
Open Scope Z_scope.

Lemma neon_completed : forall c dotprod ci l r dst mp g, neon_mul c g l r dst mp -> forall sched x, mul_float_neon c dotprod ci g sched l r dst mp = Ok (Some x) ->
  neon_product (fun tu => exists a b, tu = ci_tuning ci a b) l r mp dst x.
Proof.
  intros c dotprod ci l r dst mp g C sched x E. destruct (neon_computes c dotprod ci l r dst mp g C sched) as (out & E' & H). rewrite E in E'. injection E' as <-. apply H. reflexivity.
Qed.

Lemma neon_shapes : forall c g l r dst mp, neon_mul c g l r dst mp ->
  ml_cols (m_layout l) = ml_rows (m_layout r) /\ ml_rows (m_layout dst) = ml_rows (m_layout l) /\ ml_cols (m_layout dst) = ml_cols (m_layout r).
Proof. intros c g l r dst mp C. apply (wc_shapes _ _ _ _ _ _ _ (vc_well_formed _ _ _ _ _ _ _ (nm_call _ _ _ _ _ _ C))). Qed.
Lemma neon_depth : forall c g l r dst mp, neon_mul c g l r dst mp -> 0 <= ml_rows (m_layout r).
Proof. intros c g l r dst mp C. pose proof (vc_nonempty _ _ _ _ _ _ _ (nm_call _ _ _ _ _ _ C)). lia. Qed.

(** An entry depends on the values only. *)
Lemma dot_ext : forall o l l' r r', (forall k, In k o -> l k = l' k /\ r k = r' k) -> neon_dot o l r = neon_dot o l' r'.
Proof.
  intros o l l' r r'. unfold neon_dot. generalize (S754_zero false). induction o as [|k o IH]; intros a H; cbn [fold_left]; [reflexivity|].
  destruct (H k (or_introl eq_refl)) as (-> & ->). apply IH. intros k' Hk. apply H. right. exact Hk.
Qed.

Lemma order_same : forall t t' d i j i' j', d < 8 \/ (unrolled t = false /\ unrolled t' = false) \/ (unrolled t = unrolled t' /\ quarter i j = quarter i' j') ->
  neon_order t d i j = neon_order t' d i' j'.
Proof.
  intros t t' d i j i' j' H. unfold neon_order. destruct H as [H | [(H & H') | (H & Q)]].
  - replace (8 <=? d) with false by (symmetry; apply Z.leb_gt; exact H). rewrite !andb_false_r. reflexivity.
  - rewrite H, H'. reflexivity.
  - unfold quarter in Q. rewrite H, Q. reflexivity.
Qed.

Lemma neon_agree : forall c c' dotprod dotprod' ci ci' l l' r r' dst dst' mp g g', neon_mul c g l r dst mp -> neon_mul c' g' l' r' dst' mp ->
  ml_rows (m_layout r) < 8 \/ (exists u, (forall a b, unrolled (ci_tuning ci a b) = u) /\ (forall a b, unrolled (ci_tuning ci' a b) = u)) ->
  same_entries l l' -> same_entries r r' ->
  forall sched sched' x y, mul_float_neon c dotprod ci g sched l r dst mp = Ok (Some x) -> mul_float_neon c' dotprod' ci' g' sched' l' r' dst' mp = Ok (Some y) ->
  forall i j, in_matrix (m_layout dst) i j -> entry x i j = entry y i j.
Proof.
  intros c c' dotprod dotprod' ci ci' l l' r r' dst dst' mp g g' C C' U SL SR sched sched' x y Ex Ey i j I.
  destruct (neon_completed _ _ _ _ _ _ _ _ C _ _ Ex) as (_ & _ & _ & Hx & _). destruct (neon_completed _ _ _ _ _ _ _ _ C' _ _ Ey) as (_ & _ & _ & Hy & _).
  destruct (neon_shapes _ _ _ _ _ _ C) as (S1 & S2 & S3). destruct (neon_shapes _ _ _ _ _ _ C') as (S1' & S2' & S3').
  pose proof SL as (L1 & L2 & _ & L4). pose proof SR as (R1 & R2 & _ & R4). pose proof I as (Ii & Ij).
  destruct (Hx i j I) as (t & (a & b & ->) & ->). destruct (Hy i j) as (t & (a' & b' & ->) & ->); [unfold in_matrix; rewrite S2', S3', <- L1, <- R2, <- S2, <- S3; exact I|].
  unfold neon_entry. f_equal. rewrite <- R1. rewrite (order_same _ (ci_tuning ci' a' b') _ i j i j).
  - apply dot_ext. intros k Hk. apply order_in in Hk; [|apply (neon_depth _ _ _ _ _ _ C)]. rewrite S2 in Ii. rewrite S3 in Ij. split; [apply L4|apply R4]; split; lia.
  - destruct U as [U | (u & U1 & U2)]; [left; exact U|]. right. right. rewrite U1, U2. split; reflexivity.
Qed.

Lemma neon_alike : forall c dotprod ci l r dst mp g, neon_mul c g l r dst mp ->
  forall sched x, mul_float_neon c dotprod ci g sched l r dst mp = Ok (Some x) ->
  forall i j i' j', in_matrix (m_layout dst) i j -> in_matrix (m_layout dst) i' j' ->
  ml_rows (m_layout r) < 8 \/ (forall a b, unrolled (ci_tuning ci a b) = false) \/ ((forall a b, unrolled (ci_tuning ci a b) = true) /\ quarter i j = quarter i' j') ->
  (forall k, 0 <= k < ml_rows (m_layout r) -> entry l i k = entry l i' k /\ entry r k j = entry r k j') -> neon_bias mp i j = neon_bias mp i' j' ->
  entry x i j = entry x i' j'.
Proof.
  intros c dotprod ci l r dst mp g C sched x E i j i' j' I I' U H Hb. destruct (neon_completed _ _ _ _ _ _ _ _ C _ _ E) as (_ & _ & _ & Hx & _).
  destruct (Hx i j I) as (t & (a & b & ->) & ->). destruct (Hx i' j' I') as (t & (a' & b' & ->) & ->). unfold neon_entry. rewrite <- Hb. f_equal.
  rewrite (order_same _ (ci_tuning ci a' b') _ i j i' j').
  - apply dot_ext. intros k Hk. apply order_in in Hk; [|apply (neon_depth _ _ _ _ _ _ C)]. apply H. exact Hk.
  - destruct U as [U | [U | (U & Q)]]; [left; exact U|right; left; auto|right; right; rewrite !U; auto].
Qed.

(** ** NaN *)
Lemma order_all : forall t d i j k, 0 <= k < d -> In k (neon_order t d i j).
Proof.
  intros t d i j k Hk. unfold neon_order. destruct (unrolled t && (8 <=? d) && _) eqn:Eb; [|apply zrange_In; exact Hk].
  cbv zeta. set (b := 4 * (d / 4) - 4).
  destruct (Z_lt_dec k b) as [L|L]; [apply in_or_app; left; apply zrange_In; lia|].
  destruct (Z_lt_dec k (b + 4)) as [L'|L']; [|apply in_or_app; right; apply in_or_app; right; apply zrange_In; lia].
  apply in_or_app. right. apply in_or_app. left. assert (k = b \/ k = b + 1 \/ k = b + 2 \/ k = b + 3) as [->|[->|[->| ->]]] by lia; cbn [In]; auto.
Qed.

Lemma add_nan : forall x, SFadd 24 128 x S754_nan = S754_nan.
Proof. intros []; reflexivity. Qed.
Lemma nan_add : forall x, SFadd 24 128 S754_nan x = S754_nan.
Proof. intros []; reflexivity. Qed.
Lemma fused_nan : forall x y z, x = S754_nan \/ y = S754_nan \/ z = S754_nan -> fused_mul_add 24 128 x y z = S754_nan.
Proof.
  intros x y z [-> | [-> | ->]].
  - destruct y, z; reflexivity.
  - destruct x, z; reflexivity.
  - unfold fused_mul_add. destruct x, y; apply add_nan.
Qed.
Lemma dot_nan : forall o l r k, In k o -> l k = S754_nan \/ r k = S754_nan -> neon_dot o l r = S754_nan.
Proof.
  intros o l r k Hk H. unfold neon_dot. generalize (S754_zero false).
  assert (K : forall o, fold_left (fun acc k => fused_mul_add 24 128 (l k) (r k) acc) o S754_nan = S754_nan).
  { clear. induction o as [|k o IH]; cbn [fold_left]; [reflexivity|]. rewrite fused_nan by auto. exact IH. }
  induction o as [|k' o IH]; intros a; [destruct Hk|]. cbn [fold_left]. destruct Hk as [-> | Hk]; [|apply IH; exact Hk].
  rewrite fused_nan by (destruct H; auto). apply K.
Qed.

Lemma larger_nan : forall x y, x = S754_nan \/ y = S754_nan -> larger x y = S754_nan.
Proof. intros x y [-> | ->]; [reflexivity|]. destruct x; reflexivity. Qed.
Lemma smaller_nan : forall x y, x = S754_nan \/ y = S754_nan -> smaller x y = S754_nan.
Proof. intros x y [-> | ->]; [reflexivity|]. destruct x; reflexivity. Qed.

Lemma neon_nan : forall c dotprod ci l r dst mp g, neon_mul c g l r dst mp ->
  forall sched x, mul_float_neon c dotprod ci g sched l r dst mp = Ok (Some x) -> forall i j, in_matrix (m_layout dst) i j ->
  (exists k, 0 <= k < ml_rows (m_layout r) /\ (entry l i k = S754_nan \/ entry r k j = S754_nan)) \/ neon_bias mp i j = S754_nan \/ mp_min mp = S754_nan \/ mp_max mp = S754_nan ->
  entry x i j = S754_nan.
Proof.
  intros c dotprod ci l r dst mp g C sched x E i j I H. destruct (neon_completed _ _ _ _ _ _ _ _ C _ _ E) as (_ & _ & _ & Hx & _).
  destruct (Hx i j I) as (t & _ & ->). unfold neon_entry, neon_finish. destruct H as [(k & Hk & H) | [H | [H | H]]].
  - rewrite (dot_nan _ _ _ k); [|apply order_all; exact Hk|exact H]. rewrite nan_add. rewrite larger_nan by auto. apply smaller_nan. auto.
  - rewrite H, add_nan. rewrite larger_nan by auto. apply smaller_nan. auto.
  - rewrite H. rewrite larger_nan by auto. apply smaller_nan. auto.
  - rewrite H. apply smaller_nan. auto.
Qed.

(** ** Floats in order: a number for each, other than NaN *)
Definition rank (x : spec_float) : Z :=
  match x with
  | S754_zero _ | S754_nan => 0
  | S754_infinity s => if s then - 2 ^ 300 else 2 ^ 300
  | S754_finite s m e => (if s then Z.neg m else Z.pos m) * 2 ^ (e + 149)
  end.

Lemma rank_number : forall s m e, is_float (S754_finite s m e) -> is_number 24 128 (S754_finite s m e) (rank (S754_finite s m e)) (-149) /\ Z.abs (rank (S754_finite s m e)) < 2 ^ 300.
Proof.
  intros s m e V. pose proof (valid_exponent 24 128 s m e V) as (E & L). assert (L' : -149 <= e) by (unfold fexp, emin in E; lia).
  split.
  - split; [exact V|]. unfold same_number, rank. rewrite Z.min_r by lia. rewrite Z.sub_diag, Z.pow_0_r, Z.mul_1_r. replace (e - -149) with (e + 149) by lia. reflexivity.
  - unfold rank. rewrite Z.abs_mul, (Z.abs_eq (2 ^ _)) by (apply Z.pow_nonneg; lia).
    assert (Hm : Z.abs (if s then Z.neg m else Z.pos m) < 2 ^ 24).
    { replace (Z.abs (if s then Z.neg m else Z.pos m)) with (Z.pos m) by (destruct s; reflexivity).
      assert (D : Z.pos (digits2_pos m) <= 24) by (unfold fexp in E; lia).
      pose proof (digits2_spec m) as B. eapply Z.lt_le_trans; [apply B|]. apply Z.pow_le_mono_r; lia. }
    assert (H2 : 2 ^ (e + 149) <= 2 ^ 253) by (apply Z.pow_le_mono_r; lia).
    assert (H0 : 0 < 2 ^ (e + 149)) by (apply Z.pow_pos_nonneg; lia).
    change (2 ^ 300) with (2 ^ 47 * 2 ^ 253). nia.
Qed.

Lemma rank_finite : forall x, is_float x -> x <> S754_nan -> (exists s, x = S754_infinity s) \/ (is_number 24 128 x (rank x) (-149) /\ Z.abs (rank x) < 2 ^ 300).
Proof.
  intros x V N. destruct x as [s|s| |s m e]; [right|left; eauto|congruence|right; apply rank_number; exact V]. split; [split; reflexivity|reflexivity].
Qed.

Lemma compare_rank : forall x y, is_float x -> is_float y -> x <> S754_nan -> y <> S754_nan -> SFcompare x y = Some (rank x ?= rank y).
Proof.
  intros x y Vx Vy Nx Ny. destruct (rank_finite x Vx Nx) as [(s & ->) | (Hx & Bx)]; destruct (rank_finite y Vy Ny) as [(s' & ->) | (Hy & By)].
  - destruct s, s'; reflexivity.
  - transitivity (Some (if s then Lt else Gt)); [destruct y, s; (destruct Hy; contradiction) || reflexivity|]. f_equal. symmetry. destruct s; [apply Z.compare_lt_iff|apply Z.compare_gt_iff]; cbn [rank]; lia.
  - transitivity (Some (if s' then Gt else Lt)); [destruct x, s'; (destruct Hx; contradiction) || reflexivity|]. f_equal. symmetry. destruct s'; [apply Z.compare_gt_iff|apply Z.compare_lt_iff]; cbn [rank]; lia.
  - apply (compare_number 24 128 ltac:(lia) ltac:(lia) _ _ _ _ (-149)); assumption.
Qed.

Definition proper (x : spec_float) : Prop := is_float x /\ x <> S754_nan.
Lemma leb_rank : forall x y, proper x -> proper y -> SFleb x y = (rank x <=? rank y).
Proof. intros x y (Vx & Nx) (Vy & Ny). unfold SFleb. rewrite compare_rank by assumption. unfold Z.leb. destruct (rank x ?= rank y); reflexivity. Qed.
Lemma ltb_rank : forall x y, proper x -> proper y -> SFltb x y = (rank x <? rank y).
Proof. intros x y (Vx & Nx) (Vy & Ny). unfold SFltb. rewrite compare_rank by assumption. unfold Z.ltb. destruct (rank x ?= rank y); reflexivity. Qed.

Lemma larger_rank : forall x y, proper x -> proper y -> proper (larger x y) /\ rank (larger x y) = Z.max (rank x) (rank y).
Proof.
  intros x y Px Py. pose proof Px as (Vx & Nx). pose proof Py as (Vy & Ny). unfold larger. rewrite compare_rank by assumption. destruct (Z.compare_spec (rank x) (rank y)) as [E|E|E].
  - assert (G : (exists s s', x = S754_zero s /\ y = S754_zero s') \/ match x, y with S754_zero _, S754_zero _ => False | _, _ => True end) by (destruct x; auto; destruct y; auto; left; eauto).
    destruct G as [(s & s' & -> & ->)|G]; [split; [split; [reflexivity|discriminate]|reflexivity]|].
    destruct x, y; try contradiction; (split; [split; assumption|lia]).
  - split; [exact Py|lia].
  - split; [exact Px|lia].
Qed.
Lemma smaller_rank : forall x y, proper x -> proper y -> proper (smaller x y) /\ rank (smaller x y) = Z.min (rank x) (rank y).
Proof.
  intros x y Px Py. pose proof Px as (Vx & Nx). pose proof Py as (Vy & Ny). unfold smaller. rewrite compare_rank by assumption. destruct (Z.compare_spec (rank x) (rank y)) as [E|E|E].
  - assert (G : (exists s s', x = S754_zero s /\ y = S754_zero s') \/ match x, y with S754_zero _, S754_zero _ => False | _, _ => True end) by (destruct x; auto; destruct y; auto; left; eauto).
    destruct G as [(s & s' & -> & ->)|G]; [split; [split; [reflexivity|discriminate]|reflexivity]|].
    destruct x, y; try contradiction; (split; [split; assumption|lia]).
  - split; [exact Px|lia].
  - split; [exact Py|lia].
Qed.
Lemma clamp_rank : forall lo hi x, proper lo -> proper hi -> proper x ->
  proper (vector_clamp lo hi x) /\ rank (vector_clamp lo hi x) = Z.max (rank lo) (Z.min (rank x) (rank hi)).
Proof.
  intros lo hi x Pl Ph Px. unfold vector_clamp. cbv zeta. rewrite (ltb_rank x hi) by assumption. destruct (Z.ltb_spec (rank x) (rank hi)) as [L|L].
  - rewrite (ltb_rank lo x) by assumption. destruct (Z.ltb_spec (rank lo) (rank x)); (split; [assumption|lia]).
  - rewrite (ltb_rank lo hi) by assumption. destruct (Z.ltb_spec (rank lo) (rank hi)); (split; [assumption|lia]).
Qed.
Lemma add_zero_rank : forall x, proper x -> proper (SFadd 24 128 x (S754_zero false)) /\ rank (SFadd 24 128 x (S754_zero false)) = rank x.
Proof. intros [s|s| |s m e] P; [|split; [exact P|reflexivity]..]. destruct s; split; try reflexivity; (split; [reflexivity|discriminate]). Qed.

Lemma is_nan : forall x, x = S754_nan \/ x <> S754_nan.
Proof. intros []; auto; right; discriminate. Qed.

Lemma finish_rank : forall b lo hi d, proper lo -> proper hi -> is_float (SFadd 24 128 d b) ->
  neon_finish b lo hi d = S754_nan /\ SFadd 24 128 d b = S754_nan \/
  proper (SFadd 24 128 d b) /\ proper (neon_finish b lo hi d) /\ rank (neon_finish b lo hi d) = Z.min (Z.max (rank (SFadd 24 128 d b)) (rank lo)) (rank hi).
Proof.
  intros b lo hi d Pl Ph V. unfold neon_finish. destruct (is_nan (SFadd 24 128 d b)) as [->|N]; [left; split; [|reflexivity]; rewrite larger_nan by auto; apply smaller_nan; auto|].
  right. assert (P : proper (SFadd 24 128 d b)) by (split; assumption). split; [exact P|]. destruct (larger_rank _ lo P Pl) as (P1 & R1). destruct (smaller_rank _ hi P1 Ph) as (P2 & R2).
  split; [exact P2|]. rewrite R2, R1. reflexivity.
Qed.

(** ** Bounds *)
Lemma neon_floats : forall c g l r dst mp, neon_mul c g l r dst mp -> forall i j o, is_float (neon_dot o (fun k => entry l i k) (fun k => entry r k j)) /\ is_float (neon_bias mp i j).
Proof.
  intros c g l r dst mp C i j o. split; [apply dot_float; intros k _; split; [apply (nm_lhs _ _ _ _ _ _ C)|apply (nm_rhs _ _ _ _ _ _ C)]|].
  unfold neon_bias. destruct (mp_bias mp) as [b|] eqn:E; [apply (nm_bias _ _ _ _ _ _ C b E)|reflexivity].
Qed.

Lemma neon_bounds : forall c dotprod ci l r dst mp g, neon_mul c g l r dst mp -> mp_min mp <> S754_nan -> mp_max mp <> S754_nan ->
  forall sched x, mul_float_neon c dotprod ci g sched l r dst mp = Ok (Some x) -> forall i j, in_matrix (m_layout dst) i j ->
  entry x i j = S754_nan \/ (SFleb (entry x i j) (mp_max mp) = true /\ (SFleb (mp_min mp) (mp_max mp) = true -> SFleb (mp_min mp) (entry x i j) = true)).
Proof.
  intros c dotprod ci l r dst mp g C N1 N2 sched x E i j I. destruct (neon_completed _ _ _ _ _ _ _ _ C _ _ E) as (_ & _ & _ & Hx & _).
  destruct (Hx i j I) as (t & _ & ->). unfold neon_entry. destruct (neon_floats _ _ _ _ _ _ C i j (neon_order t (ml_rows (m_layout r)) i j)) as (V1 & V2).
  destruct (nm_bounds _ _ _ _ _ _ C) as (B1 & B2). assert (P1 : proper (mp_min mp)) by (split; assumption). assert (P2 : proper (mp_max mp)) by (split; assumption).
  destruct (finish_rank (neon_bias mp i j) _ _ _ P1 P2 (add_valid _ _ V1 V2)) as [(K & _) | (_ & P & K)]; [left; exact K|right].
  rewrite !leb_rank by assumption. rewrite K. split; [apply Z.leb_le; lia|]. intros L. apply Z.leb_le in L. apply Z.leb_le. lia.
Qed.

(** ** The x86 paths *)
Lemma neon_x86 : forall c c' p dotprod ci l l' r r' dst dst' mp g, float_vector_mul c p l r dst mp -> neon_mul c' g l' r' dst' mp -> p <> PathAvx ->
  mp_bias mp = None -> mp_min mp <> S754_nan -> mp_max mp <> S754_nan -> SFleb (mp_min mp) (mp_max mp) = true ->
  ml_rows (m_layout r) < 8 \/ (forall a b, unrolled (ci_tuning ci a b) = false) ->
  same_entries l l' -> same_entries r r' ->
  forall g' sched sched' x y, mul_float_x86 c p g' sched l r dst mp = Ok (Some x) -> mul_float_neon c' dotprod ci g sched' l' r' dst' mp = Ok (Some y) ->
  forall i j, in_matrix (m_layout dst) i j -> entry y i j = S754_nan \/ SFeqb (entry x i j) (entry y i j) = true.
Proof.
  intros c c' p dotprod ci l l' r r' dst dst' mp g C C' Np Hb N1 N2 LH U SL SR g' sched sched' x y Ex Ey i j I.
  destruct (completed _ _ _ _ _ _ C _ _ _ Ex) as (_ & _ & _ & Hx & _). destruct (neon_completed _ _ _ _ _ _ _ _ C' _ _ Ey) as (_ & _ & _ & Hy & _).
  destruct (call_shapes _ _ _ _ _ _ C) as (S1 & S2 & S3). destruct (neon_shapes _ _ _ _ _ _ C') as (S1' & S2' & S3').
  pose proof SL as (L1 & L2 & _ & L4). pose proof SR as (R1 & R2 & _ & R4). pose proof I as (Ii & Ij).
  rewrite Hx by exact I. destruct (Hy i j) as (t & (a & b & ->) & ->); [unfold in_matrix; rewrite S2', S3', <- L1, <- R2, <- S2, <- S3; exact I|].
  unfold neon_entry, float_entry, neon_bias, float_bias. rewrite Hb, fma_dot_plain by exact Np.
  assert (EO : neon_order (ci_tuning ci a b) (ml_rows (m_layout r')) i j = zrange 0 (ml_rows (m_layout r'))).
  { rewrite <- R1. unfold neon_order. destruct U as [U|U]; [replace (8 <=? _) with false by (symmetry; apply Z.leb_gt; exact U); rewrite andb_false_r; reflexivity|]. rewrite U. reflexivity. }
  set (d := neon_dot _ _ _).
  assert (ED : plain_dot p l r (S754_zero false) i j = d).
  { unfold d. rewrite EO, <- R1. unfold plain_dot, neon_dot.
    assert (H : forall k, In k (zrange 0 (ml_rows (m_layout r))) -> 0 <= k < ml_rows (m_layout r)) by (intros k; apply zrange_In).
    generalize (S754_zero false). induction (zrange 0 (ml_rows (m_layout r))) as [|k ks IH]; intros s; cbn [fold_left]; [reflexivity|].
    specialize (H k (or_introl eq_refl)) as Hk. rewrite S2 in Ii. rewrite S3 in Ij. rewrite (L4 i k), (R4 k j) by (split; lia).
    replace (vector_step p (entry l' i k) (entry r' k j) s) with (fused_mul_add 24 128 (entry l' i k) (entry r' k j) s) by (destruct p; congruence || reflexivity).
    apply IH. intros k' K. apply H. right. exact K. }
  rewrite ED. destruct (neon_floats _ _ _ _ _ _ C' i j (neon_order (ci_tuning ci a b) (ml_rows (m_layout r')) i j)) as (V1 & _). fold d in V1.
  destruct (nm_bounds _ _ _ _ _ _ C') as (B1 & B2). assert (P1 : proper (mp_min mp)) by (split; assumption). assert (P2 : proper (mp_max mp)) by (split; assumption).
  destruct (finish_rank (S754_zero false) _ _ d P1 P2 (add_valid _ (S754_zero false) V1 eq_refl)) as [(K & _) | (Q & P & K)]; [left; exact K|right].
  assert (Pd : proper d) by (split; [exact V1|intros ->; apply (proj2 Q); reflexivity]). destruct (add_zero_rank d Pd) as (_ & A). rewrite A in K.
  destruct (clamp_rank _ _ _ P1 P2 Pd) as (P3 & K3). unfold SFeqb. rewrite compare_rank by (apply P3 || apply P).
  rewrite leb_rank in LH by assumption. apply Z.leb_le in LH. rewrite K3, K. replace (_ ?= _) with Eq; [reflexivity|]. symmetry. apply Z.compare_eq_iff. lia.
Qed.
