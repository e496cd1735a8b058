(** Comparing and clamping floats that are numbers. *)
From Coq Require Import ZArith List Bool Lia SpecFloat.
From Verif Require Import Base FloatOps FloatFacts SpecFloatX86 SpecFloatExact FloatExact SpecFloatError FloatError.
Open Scope Z_scope.

Section Compare.
Variables (prec emax : Z).
Hypotheses (Hp : 1 <= prec) (He : prec < emax).

Lemma exponents_order : forall m1 e1 m2 e2 k, k <= e1 ->
  e1 = fexp prec emax (Z.pos (digits2_pos m1) + e1) -> e2 = fexp prec emax (Z.pos (digits2_pos m2) + e2) -> e1 < e2 ->
  Z.pos m1 * 2 ^ (e1 - k) < Z.pos m2 * 2 ^ (e2 - k).
Proof.
  intros m1 e1 m2 e2 k Hk F1 F2 L. unfold fexp in *. pose proof (digits2_spec m1) as [_ U1]. pose proof (digits2_spec m2) as [L2 _].
  set (d1 := Z.pos (digits2_pos m1)) in *. set (d2 := Z.pos (digits2_pos m2)) in *. assert (D1 : 1 <= d1) by (unfold d1; lia). assert (D2 : 1 <= d2) by (unfold d2; lia). clearbody d1 d2.
  assert (A : Z.pos m1 * 2 ^ (e1 - k) < 2 ^ (d1 + (e1 - k))) by (rewrite pow_split by lia; apply Z.mul_lt_mono_pos_r; [apply pow_pos; lia|exact U1]).
  assert (C : 2 ^ ((d2 - 1) + (e2 - k)) <= Z.pos m2 * 2 ^ (e2 - k)) by (rewrite pow_split by lia; apply Z.mul_le_mono_nonneg_r; [apply Z.lt_le_incl, pow_pos; lia|exact L2]).
  assert (M : 2 ^ (d1 + (e1 - k)) <= 2 ^ ((d2 - 1) + (e2 - k))) by (apply Z.pow_le_mono_r; lia). lia.
Qed.

Lemma compare_magnitudes : forall m1 e1 m2 e2 k, k <= e1 -> k <= e2 ->
  e1 = fexp prec emax (Z.pos (digits2_pos m1) + e1) -> e2 = fexp prec emax (Z.pos (digits2_pos m2) + e2) ->
  match Z.compare e1 e2 with Lt => Lt | Gt => Gt | Eq => Pcompare m1 m2 Eq end = (Z.pos m1 * 2 ^ (e1 - k) ?= Z.pos m2 * 2 ^ (e2 - k)).
Proof.
  intros m1 e1 m2 e2 k K1 K2 F1 F2. destruct (Z.compare_spec e1 e2) as [E|L|G].
  - subst e2. pose proof (pow_pos (e1 - k) ltac:(lia)) as P. rewrite <- (Zmult_compare_compat_r _ _ (2 ^ (e1 - k))) by lia. reflexivity.
  - symmetry. apply Z.compare_lt_iff. apply exponents_order; assumption.
  - symmetry. apply Z.compare_gt_iff. apply exponents_order; assumption.
Qed.

Lemma compare_number : forall x y a b f, is_number prec emax x a f -> is_number prec emax y b f -> SFcompare x y = Some (a ?= b).
Proof.
  intros x y a b f [V1 N1] [V2 N2]. destruct x as [sx| | |sx mx ex]; try contradiction; destruct y as [sy| | |sy my ey]; try contradiction.
  - subst a b. reflexivity.
  - subst a. destruct (finite_sign _ _ Hp He _ _ _ _ _ N2) as (Z2 & S2 & _). cbn [SFcompare]. f_equal. symmetry. destruct sy; [apply Z.compare_gt_iff; tauto|apply Z.compare_lt_iff]. assert (~ b < 0) by (rewrite S2; discriminate). lia.
  - subst b. destruct (finite_sign _ _ Hp He _ _ _ _ _ N1) as (Z1 & S1 & _). cbn [SFcompare]. f_equal. symmetry. destruct sx; [apply Z.compare_lt_iff; tauto|apply Z.compare_gt_iff]. assert (~ a < 0) by (rewrite S1; discriminate). lia.
  - apply valid_exponent in V1. apply valid_exponent in V2. destruct V1 as [V1 _]. destruct V2 as [V2 _].
    set (k := Z.min f (Z.min ex ey)). assert (K : k <= f /\ k <= ex /\ k <= ey) by (unfold k; lia).
    apply (same_number_iff _ _ _ _ k) in N1; [|lia..]. apply (same_number_iff _ _ _ _ k) in N2; [|lia..]. pose proof (pow_pos (f - k) ltac:(lia)) as P.
    assert (Q : (a ?= b) = (a * 2 ^ (f - k) ?= b * 2 ^ (f - k))) by (apply Zmult_compare_compat_r; lia). rewrite Q, <- N1, <- N2.
    pose proof (compare_magnitudes mx ex my ey k ltac:(lia) ltac:(lia) V1 V2) as M. pose proof (pow_pos (ex - k) ltac:(lia)) as Px. pose proof (pow_pos (ey - k) ltac:(lia)) as Py.
    cbn [SFcompare]. f_equal. destruct sx, sy.
    + change (Z.neg mx) with (- Z.pos mx). change (Z.neg my) with (- Z.pos my). rewrite !Z.mul_opp_l, Z.compare_opp, (Z.compare_antisym (Z.pos mx * 2 ^ (ex - k))), <- M. destruct (ex ?= ey); reflexivity.
    + symmetry. apply Z.compare_lt_iff. nia.
    + symmetry. apply Z.compare_gt_iff. nia.
    + exact M.
Qed.

Lemma ltb_number : forall x y a b f, is_number prec emax x a f -> is_number prec emax y b f -> SFltb x y = (a <? b).
Proof. intros x y a b f N1 N2. unfold SFltb. rewrite (compare_number _ _ _ _ _ N1 N2). unfold Z.ltb. destruct (a ?= b); reflexivity. Qed.

Lemma clamp_number : forall lo hi v l h z f, is_number prec emax lo l f -> is_number prec emax hi h f -> is_number prec emax v z f ->
  is_number prec emax (vector_clamp lo hi v) (Z.max l (Z.min z h)) f.
Proof.
  intros lo hi v l h z f N1 N2 N3. unfold vector_clamp. rewrite (ltb_number _ _ _ _ _ N3 N2). destruct (Z.ltb_spec z h) as [L|L].
  - rewrite (ltb_number _ _ _ _ _ N1 N3). replace (Z.min z h) with z by lia. destruct (Z.ltb_spec l z) as [M|M]; [replace (Z.max l z) with z by lia|replace (Z.max l z) with l by lia]; assumption.
  - rewrite (ltb_number _ _ _ _ _ N1 N2). replace (Z.min z h) with h by lia. destruct (Z.ltb_spec l h) as [M|M]; [replace (Z.max l h) with h by lia|replace (Z.max l h) with l by lia]; assumption.
Qed.

Lemma ref_clamp_number : forall lo hi v l h z f, is_number prec emax lo l f -> is_number prec emax hi h f -> is_number prec emax v z f ->
  is_number prec emax (fmax (fmin v hi) lo) (Z.max l (Z.min z h)) f.
Proof.
  intros lo hi v l h z f N1 N2 N3. unfold fmax, fmin. rewrite (ltb_number _ _ _ _ _ N2 N3). destruct (Z.ltb_spec h z) as [L|L].
  - rewrite (ltb_number _ _ _ _ _ N2 N1). replace (Z.min z h) with h by lia. destruct (Z.ltb_spec h l) as [M|M]; [replace (Z.max l h) with l by lia|replace (Z.max l h) with h by lia]; assumption.
  - rewrite (ltb_number _ _ _ _ _ N3 N1). replace (Z.min z h) with z by lia. destruct (Z.ltb_spec z l) as [M|M]; [replace (Z.max l z) with l by lia|replace (Z.max l z) with z by lia]; assumption.
Qed.
End Compare.

(** Clamping does not increase the error. *)
Lemma clamp_within : forall k w t V l h, 0 <= k -> within k w t V -> within k w (Z.max (l * 2 ^ 149) (Z.min t (h * 2 ^ 149))) (Z.max l (Z.min V h)).
Proof.
  intros k w t V l h Hk H. unfold within in *. eapply Z.le_trans; [|exact H]. apply Z.mul_le_mono_nonneg_l; [apply Z.pow_nonneg; lia|]. lia.
Qed.
