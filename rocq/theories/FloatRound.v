(** Floating-point operations round their exact results. *)
From Coq Require Import ZArith List Bool Lia SpecFloat.
From Verif Require Import Base FloatOps FloatFacts SimdFloat SpecFloatExact FloatExact SpecFloatRound.
Open Scope Z_scope.

(** ** Shifting right *)
Definition location_of (m n : Z) : location :=
  if m mod 2 ^ n =? 0 then loc_Exact else loc_Inexact (2 * (m mod 2 ^ n) ?= 2 ^ n).

Lemma shr_1_bits : forall m r s, 0 <= m -> shr_1 (Build_shr_record m r s) = Build_shr_record (m / 2) (Z.odd m) (r || s).
Proof.
  intros m r s H. destruct m as [|[p|p|]|p]; try reflexivity; try lia.
  - cbn [shr_1]. rewrite Pos2Z.inj_xI. rewrite (Z.mul_comm 2), Z.div_add_l by lia. change (1 / 2) with 0. rewrite Z.add_0_r. f_equal. rewrite Z.odd_add, Z.odd_mul. cbn. rewrite andb_false_r. reflexivity.
  - cbn [shr_1]. rewrite Pos2Z.inj_xO. rewrite (Z.mul_comm 2), Z.div_mul by lia. f_equal. rewrite Z.odd_mul. cbn. rewrite andb_false_r. reflexivity.
Qed.

Lemma shr_bits : forall n m, 0 <= m -> SpecFloat.iter_pos shr_1 n (Build_shr_record m false false) =
  Build_shr_record (m / 2 ^ Z.pos n) (Z.odd (m / 2 ^ (Z.pos n - 1))) (negb (m mod 2 ^ (Z.pos n - 1) =? 0)).
Proof.
  intros n m Hm. rewrite iter_pos_iter. revert n. apply Pos.peano_ind.
  - cbn [Pos.iter]. rewrite shr_1_bits by exact Hm. change (Z.pos 1 - 1) with 0. rewrite Z.pow_0_r, Z.div_1_r, Z.mod_1_r. reflexivity.
  - intros n IH. rewrite Pos.iter_succ, IH. pose proof (pow_pos (Z.pos n) ltac:(lia)) as P. pose proof (pow_pos (Z.pos n - 1) ltac:(lia)) as P'. rewrite shr_1_bits by (apply Z.div_pos; lia).
    rewrite Pos2Z.inj_succ. replace (Z.succ (Z.pos n) - 1) with (Z.pos n) by lia. rewrite Z.pow_succ_r by lia. f_equal.
    + rewrite Z.div_div by lia. f_equal. lia.
    + assert (E : 2 ^ Z.pos n = 2 ^ (Z.pos n - 1) * 2) by (replace (Z.pos n) with ((Z.pos n - 1) + 1) at 1 by lia; rewrite pow_split by lia; reflexivity).
      rewrite E, Z.rem_mul_r by lia. rewrite (Zmod_odd (m / 2 ^ (Z.pos n - 1))). pose proof (Z.mod_pos_bound m (2 ^ (Z.pos n - 1)) P') as B.
      destruct (Z.odd (m / 2 ^ (Z.pos n - 1))).
      * cbn [orb]. symmetry. apply negb_true_iff. apply Z.eqb_neq. lia.
      * rewrite Z.mul_0_r, Z.add_0_r. reflexivity.
Qed.

Lemma shr_location : forall n m, 0 <= m -> loc_of_shr_record (SpecFloat.iter_pos shr_1 n (Build_shr_record m false false)) = location_of m (Z.pos n).
Proof.
  intros n m Hm. rewrite shr_bits by exact Hm. unfold location_of. pose proof (pow_pos (Z.pos n - 1) ltac:(lia)) as P'.
  assert (E : 2 ^ Z.pos n = 2 ^ (Z.pos n - 1) * 2) by (replace (Z.pos n) with ((Z.pos n - 1) + 1) at 1 by lia; rewrite pow_split by lia; reflexivity).
  rewrite E, Z.rem_mul_r by lia. rewrite (Zmod_odd (m / 2 ^ (Z.pos n - 1))). pose proof (Z.mod_pos_bound m (2 ^ (Z.pos n - 1)) P') as B.
  set (P := 2 ^ (Z.pos n - 1)) in *. set (R := m mod P) in *. clearbody P R. cbn [loc_of_shr_record].
  destruct (Z.odd (m / P)); destruct (Z.eqb_spec R 0) as [R0|R0]; cbn [negb].
  - rewrite R0. rewrite (proj2 (Z.eqb_neq _ _)) by lia. f_equal. symmetry. apply Z.compare_eq_iff. lia.
  - rewrite (proj2 (Z.eqb_neq _ _)) by lia. f_equal. symmetry. apply Z.compare_gt_iff. lia.
  - rewrite R0. rewrite (proj2 (Z.eqb_eq _ _)) by lia. reflexivity.
  - rewrite (proj2 (Z.eqb_neq _ _)) by lia. f_equal. symmetry. apply Z.compare_lt_iff. lia.
Qed.

(** The integer nearest to [m / 2^n]. *)
Lemma nearest_spec : forall m n, 0 <= m -> 0 <= n -> let q := round_nearest_even (m / 2 ^ n) (location_of m n) in
  m / 2 ^ n <= q <= m / 2 ^ n + 1 /\ 2 * Z.abs (m - q * 2 ^ n) <= 2 ^ n /\ (2 * Z.abs (m - q * 2 ^ n) = 2 ^ n -> Z.Even q).
Proof.
  intros m n Hm Hn. pose proof (pow_pos n Hn) as P. pose proof (Z.div_mod m (2 ^ n) ltac:(lia)) as E. pose proof (Z.mod_pos_bound m (2 ^ n) P) as B.
  unfold location_of, round_nearest_even. set (R := m mod 2 ^ n) in *. set (q := m / 2 ^ n) in *. set (p := 2 ^ n) in *. clearbody R q p. cbv zeta.
  destruct (Z.eqb_spec R 0) as [R0|R0].
  - subst R. replace (m - q * p) with 0 by nia. change (Z.abs 0) with 0. split; [lia|]. split; [lia|lia].
  - destruct (Z.compare_spec (2 * R) p) as [C|C|C].
    + destruct (Z.even q) eqn:Ev.
      * replace (m - q * p) with R by nia. rewrite Z.abs_eq by lia. split; [lia|]. split; [lia|]. intros _. apply Z.even_spec. exact Ev.
      * replace (m - (q + 1) * p) with (R - p) by nia. rewrite Z.abs_neq by lia. split; [lia|]. split; [lia|]. intros _. apply Z.even_spec. rewrite Z.even_add, Ev. reflexivity.
    + replace (m - q * p) with R by nia. rewrite Z.abs_eq by lia. split; [lia|]. split; lia.
    + replace (m - (q + 1) * p) with (R - p) by nia. rewrite Z.abs_neq by lia. split; [lia|]. split; lia.
Qed.

Lemma log2_digits : forall m, Z.log2 (Z.pos m) + 1 = Z.pos (digits2_pos m).
Proof.
  intros m. pose proof (digits2_spec m) as [L U]. rewrite (Z.log2_unique (Z.pos m) (Z.pos (digits2_pos m) - 1)); [lia|lia|].
  replace (Z.succ (Z.pos (digits2_pos m) - 1)) with (Z.pos (digits2_pos m)) by lia. lia.
Qed.

Lemma nearest_iff : forall x e n g k, k <= e -> k <= g ->
  (nearest_even x e n g <-> 2 * Z.abs (x * 2 ^ (e - k) - n * 2 ^ (g - k)) <= 2 ^ (g - k) /\ (2 * Z.abs (x * 2 ^ (e - k) - n * 2 ^ (g - k)) = 2 ^ (g - k) -> Z.Even n)).
Proof.
  intros x e n g k H1 H2. unfold nearest_even. cbv zeta. set (w := Z.min e g). assert (Hw : k <= w /\ w <= e /\ w <= g) by (unfold w; lia).
  replace (e - k) with ((e - w) + (w - k)) by lia. replace (g - k) with ((g - w) + (w - k)) by lia. rewrite !pow_split by lia.
  pose proof (pow_pos (w - k) ltac:(lia)) as P. set (p := 2 ^ (w - k)) in *. set (E := 2 ^ (e - w)). set (G := 2 ^ (g - w)). clearbody p E G.
  replace (x * (E * p) - n * (G * p)) with ((x * E - n * G) * p) by lia. rewrite Z.abs_mul, (Z.abs_eq p) by lia. set (d := Z.abs (x * E - n * G)). clearbody d.
  split; intros [A B]; (split; [nia|]); intros C; apply B; nia.
Qed.

Section Rounding.
Variables (prec emax : Z).
Hypotheses (Hp : 1 <= prec) (He : prec < emax).
Notation emin := (emin prec emax).
Notation fexp := (fexp prec emax).
Notation last_place := (last_place prec emax).
Notation rounded := (rounded prec emax).

Lemma last_place_digits : forall (s : bool) m e, last_place (if s then Z.neg m else Z.pos m) e = fexp (Z.pos (digits2_pos m) + e).
Proof.
  intros s m e. unfold SpecFloatRound.last_place, SpecFloat.fexp, SpecFloat.emin. replace (Z.abs (if s then Z.neg m else Z.pos m)) with (Z.pos m) by (destruct s; reflexivity).
  rewrite <- (log2_digits m). lia.
Qed.

(** ** Independence of the representation *)
Lemma log2_number : forall x e x' e', same_number x e x' e' -> x <> 0 -> Z.log2 (Z.abs x) + e = Z.log2 (Z.abs x') + e'.
Proof.
  intros x e x' e' H Hx. unfold same_number in H. set (k := Z.min e e') in *. assert (K : k <= e /\ k <= e') by (unfold k; lia).
  pose proof (pow_pos (e - k) ltac:(lia)) as P1. pose proof (pow_pos (e' - k) ltac:(lia)) as P2.
  assert (Hx' : x' <> 0) by nia. assert (A : Z.abs x * 2 ^ (e - k) = Z.abs x' * 2 ^ (e' - k)) by (rewrite <- (Z.abs_eq (2 ^ (e - k))), <- (Z.abs_eq (2 ^ (e' - k))), <- !Z.abs_mul by lia; congruence).
  pose proof (f_equal Z.log2 A) as L. rewrite !Z.log2_mul_pow2 in L by lia. lia.
Qed.

Lemma last_place_same : forall x e x' e', same_number x e x' e' -> x <> 0 -> last_place x e = last_place x' e'.
Proof. intros x e x' e' H Hx. unfold SpecFloatRound.last_place. pose proof (log2_number _ _ _ _ H Hx). f_equal. lia. Qed.

Lemma sign_same : forall x e x' e', same_number x e x' e' -> (x <? 0) = (x' <? 0).
Proof.
  intros x e x' e' H. unfold same_number in H. pose proof (pow_pos (e - Z.min e e') ltac:(lia)) as P1. pose proof (pow_pos (e' - Z.min e e') ltac:(lia)) as P2.
  destruct (Z.ltb_spec x 0); destruct (Z.ltb_spec x' 0); try reflexivity; nia.
Qed.

Lemma rounded_same : forall x e x' e' r, same_number x e x' e' -> x <> 0 -> rounded x e r -> rounded x' e' r.
Proof.
  intros x e x' e' r H Hx (n & N & R). exists n. rewrite <- (last_place_same _ _ _ _ H Hx), <- (sign_same _ _ _ _ H). split; [|exact R].
  set (g := last_place x e) in *. set (k := Z.min (Z.min e e') g). apply (nearest_iff x' e' n g k); [lia..|]. apply (nearest_iff x e n g k) in N; [|lia..].
  apply (same_number_iff _ _ _ _ k) in H; [|lia..]. rewrite <- H. exact N.
Qed.

(** ** The rounding function *)
Lemma round_finish : forall (s : bool) n c, 0 <= n <= 2 ^ prec -> emin <= c -> c = emin \/ 2 ^ (prec - 1) <= n ->
  let r := let '(mrs, e) := shr_fexp prec emax n c loc_Exact in
           match shr_m mrs with Z0 => S754_zero s | Zpos m => if Zle_bool e (emax - prec) then S754_finite s m e else S754_infinity s | _ => S754_nan end in
  if emax <=? Z.log2 n + c then r = S754_infinity s
  else is_number prec emax r (if s then - n else n) c /\ (n = 0 -> r = S754_zero s).
Proof.
  intros s n c Hn Hc HC. destruct n as [|n|n]; [| |lia].
  - cbv zeta. unfold shr_fexp, shr. cbn [Zdigits2 shr_record_of_loc]. unfold SpecFloat.fexp.
    assert (N : Z.max (0 + c - prec) emin - c <= 0) by lia. assert (C : c = emin) by (destruct HC as [HC|HC]; [exact HC|]; pose proof (pow_pos (prec - 1) ltac:(lia)); lia).
    replace (emax <=? Z.log2 0 + c) with false by (symmetry; apply Z.leb_gt; change (Z.log2 0) with 0; unfold SpecFloat.emin in C; lia).
    destruct (Z.max (0 + c - prec) emin - c) eqn:K; [|exfalso; clear - N; lia|]; cbn [shr_m]; (split; [split; [reflexivity|destruct s; reflexivity]|reflexivity]).
  - pose proof (digits2_spec n) as [L U]. pose proof (log2_digits n) as D. set (d := Z.pos (digits2_pos n)) in *.
    destruct (Z.eq_dec (Z.pos n) (2 ^ prec)) as [Q|Q].
    + (* one more digit *)
      assert (Dd : d = prec + 1). { unfold d. apply digits_unique; [lia|]. replace (prec + 1 - 1) with prec by lia. rewrite Q. split; [lia|]. apply Z.pow_lt_mono_r; lia. }
      assert (F : fexp (d + c) = c + 1) by (rewrite Dd; unfold SpecFloat.fexp; lia).
      cbv zeta. unfold shr_fexp, shr. cbn [Zdigits2 shr_record_of_loc]. fold d. rewrite F. replace (c + 1 - c) with 1 by lia.
      cbn [SpecFloat.iter_pos]. rewrite shr_1_bits by lia. cbn [shr_m].
      assert (H2 : Z.pos n / 2 = 2 ^ (prec - 1)). { rewrite Q. replace prec with ((prec - 1) + 1) at 1 by lia. rewrite pow_split by lia. change (2 ^ 1) with 2. apply Z.div_mul. lia. }
      rewrite H2. pose proof (pow_pos (prec - 1) ltac:(lia)) as P. destruct (2 ^ (prec - 1)) as [|w|w] eqn:Ew; try lia.
      assert (Lw : Z.log2 (Z.pos n) = prec) by lia. rewrite Lw.
      destruct (Z.leb_spec emax (prec + c)) as [O|O].
      * replace (Zle_bool (c + 1) (emax - prec)) with false; [reflexivity|]. symmetry. apply Z.leb_gt. lia.
      * replace (Zle_bool (c + 1) (emax - prec)) with true by (symmetry; apply Z.leb_le; lia). split; [|discriminate].
        assert (Dw : Z.pos (digits2_pos w) = prec). { apply digits_unique; [lia|]. rewrite <- Ew. split; [lia|]. apply Z.pow_lt_mono_r; lia. }
        split.
        -- apply valid_intro; [|lia]. rewrite Dw. unfold SpecFloat.fexp. lia.
        -- assert (Sn : same_number (Z.pos w) (c + 1) (Z.pos n) c). { apply (same_number_iff _ _ _ _ c); [lia..|]. replace (c + 1 - c) with 1 by lia. rewrite Z.sub_diag, Z.pow_0_r, <- Ew, Q.
             replace prec with ((prec - 1) + 1) at 2 by lia. rewrite pow_split by lia. change (2 ^ 1) with 2. lia. }
           destruct s; [|exact Sn]. apply same_number_opp in Sn. exact Sn.
    + assert (Dd : d <= prec) by (unfold d in *; assert (d - 1 < prec) by (apply (Z.pow_lt_mono_r_iff 2); unfold d; lia); unfold d in *; lia).
      assert (F : fexp (d + c) = c).
      { unfold SpecFloat.fexp. destruct HC as [HC|HC]; [lia|]. assert (prec - 1 < d) by (apply (Z.pow_lt_mono_r_iff 2); lia). lia. }
      cbv zeta. unfold shr_fexp, shr. cbn [Zdigits2 shr_record_of_loc]. fold d. rewrite F, Z.sub_diag. cbn [shr_m].
      destruct (Z.leb_spec emax (Z.log2 (Z.pos n) + c)) as [O|O].
      * replace (Zle_bool c (emax - prec)) with false; [reflexivity|]. symmetry. apply Z.leb_gt. unfold SpecFloat.emin in *. lia.
      * assert (Oc : c <= emax - prec). { destruct HC as [HC|HC]; [rewrite HC; unfold SpecFloat.emin; lia|]. assert (prec - 1 < d) by (apply (Z.pow_lt_mono_r_iff 2); lia). lia. }
        replace (Zle_bool c (emax - prec)) with true by (symmetry; apply Z.leb_le; exact Oc). split; [|discriminate].
        split; [apply valid_intro; [fold d; lia|exact Oc]|]. destruct s; reflexivity.
Qed.

Lemma aux_rounded : forall (s : bool) m e, e <= fexp (Z.pos (digits2_pos m) + e) ->
  rounded (if s then Z.neg m else Z.pos m) e (binary_round_aux prec emax s (Z.pos m) e loc_Exact).
Proof.
  intros s m e H. pose proof (last_place_digits s m e) as LP. set (c := fexp (Z.pos (digits2_pos m) + e)) in *. set (d := Z.pos (digits2_pos m)) in *. pose proof (digits2_spec m) as [L U]. fold d in L, U.
  assert (Cm : emin <= c) by (unfold c, SpecFloat.fexp; lia). assert (Cd : d + e - prec <= c) by (unfold c, SpecFloat.fexp; lia).
  pose proof (nearest_spec (Z.pos m) (c - e) ltac:(lia) ltac:(lia)) as N. cbv zeta in N. set (q := round_nearest_even (Z.pos m / 2 ^ (c - e)) (location_of (Z.pos m) (c - e))) in *. destruct N as (N1 & N2 & N3).
  assert (E : exists x, shr_fexp prec emax (Z.pos m) e loc_Exact = (x, c) /\ round_nearest_even (shr_m x) (loc_of_shr_record x) = q).
  { unfold shr_fexp, shr. cbn [Zdigits2 shr_record_of_loc]. fold d. fold c. unfold q. destruct (c - e) as [|n|n] eqn:K; [| |lia].
    - eexists. split; [f_equal; lia|]. cbn [shr_m loc_of_shr_record round_nearest_even]. rewrite Z.pow_0_r, Z.div_1_r. unfold location_of. rewrite Z.pow_0_r, Z.mod_1_r. reflexivity.
    - eexists. split; [f_equal; lia|]. rewrite shr_location, shr_bits by lia. reflexivity. }
  destruct E as (x & E1 & E2). pose proof (pow_pos (c - e) ltac:(lia)) as P.
  assert (Q0 : 0 <= Z.pos m / 2 ^ (c - e)) by (apply Z.div_pos; lia).
  assert (Q1 : Z.pos m / 2 ^ (c - e) < 2 ^ prec).
  { apply Z.div_lt_upper_bound; [lia|]. rewrite <- pow_split by lia. apply Z.lt_le_trans with (2 ^ d); [lia|]. apply Z.pow_le_mono_r; lia. }
  assert (Q2 : c = emin \/ 2 ^ (prec - 1) <= q).
  { destruct (Z.eq_dec c emin) as [|Ne]; [left; assumption|]. right. assert (Cc : c = d + e - prec) by (unfold c, SpecFloat.fexp in *; lia).
    apply Z.le_trans with (Z.pos m / 2 ^ (c - e)); [|lia]. apply Z.div_le_lower_bound; [lia|]. rewrite <- pow_split by lia. replace (c - e + (prec - 1)) with (d - 1) by lia. lia. }
  pose proof (round_finish s q c ltac:(lia) Cm Q2) as F. cbv zeta in F.
  assert (B : binary_round_aux prec emax s (Z.pos m) e loc_Exact = (let '(mrs, e0) := shr_fexp prec emax q c loc_Exact in
    match shr_m mrs with Z0 => S754_zero s | Zpos m => if Zle_bool e0 (emax - prec) then S754_finite s m e0 else S754_infinity s | _ => S754_nan end)) by (unfold binary_round_aux; rewrite E1, E2; reflexivity).
  rewrite <- B in F. clear B E1 E2 x. set (r := binary_round_aux _ _ _ _ _ _) in *. clearbody r.
  assert (Sg : ((if s then Z.neg m else Z.pos m) <? 0) = s) by (destruct s; reflexivity).
  exists (if s then - q else q). rewrite LP, Sg. split.
  - apply (nearest_iff _ _ _ _ e); [lia|lia|]. rewrite Z.sub_diag, Z.pow_0_r, Z.mul_1_r. destruct s; [|split; assumption].
    replace (Z.neg m - - q * 2 ^ (c - e)) with (- (Z.pos m - q * 2 ^ (c - e))) by lia. rewrite Z.abs_opp. split; [exact N2|]. intros T. apply N3 in T. destruct T as [w T]. exists (- w). lia.
  - replace (Z.abs (if s then - q else q)) with q by (destruct s; lia). destruct (emax <=? Z.log2 q + c); [exact F|]. destruct F as (F1 & F2). split; [exact F1|]. intros Z0. apply F2. destruct s; lia.
Qed.

Lemma normalize_rounded : forall m e, m <> 0 -> rounded m e (binary_normalize prec emax m e false).
Proof.
  assert (G : forall (s : bool) m e, rounded (if s then Z.neg m else Z.pos m) e (binary_round prec emax s m e)).
  { intros s m e. unfold binary_round. set (c := fexp (Z.pos (digits2_pos m) + e)). pose proof (align_number m e c) as A. pose proof (align_low m e c) as L.
    destruct (shl_align m e c) as [m' e']. cbn [fst snd] in A, L.
    assert (A' : same_number (if s then Z.neg m' else Z.pos m') e' (if s then Z.neg m else Z.pos m) e) by (destruct s; [apply same_number_opp in A|]; exact A).
    apply (rounded_same _ _ _ _ _ A'); [destruct s; discriminate|]. apply aux_rounded. apply digits_number in A. rewrite A. exact L. }
  intros m e Hm. destruct m as [|m|m]; [lia|apply (G false)|apply (G true)].
Qed.

(** A float is its own rounding. *)
Lemma number_rounded : forall x z e, is_number prec emax x z e -> z <> 0 -> rounded z e x.
Proof.
  intros x z e [V N] Hz. destruct x as [sx| | |s m f]; try contradiction. apply (rounded_same _ _ _ _ _ N); [destruct s; discriminate|].
  pose proof V as V'. apply valid_exponent in V'. destruct V' as (V1 & V2). exists (if s then Z.neg m else Z.pos m). rewrite (last_place_digits s m f), <- V1. split.
  - apply (nearest_iff _ _ _ _ f); [lia..|]. rewrite Z.sub_diag. split; [replace (_ - _) with 0 by lia; cbn; lia|]. replace ((if s then Z.neg m else Z.pos m) * 2 ^ 0 - (if s then Z.neg m else Z.pos m) * 2 ^ 0) with 0 by lia. cbn. lia.
  - replace (Z.abs (if s then Z.neg m else Z.pos m)) with (Z.pos m) by (destruct s; reflexivity). pose proof (log2_digits m) as D.
    replace (emax <=? Z.log2 (Z.pos m) + f) with false; [split; [split; [exact V|destruct s; reflexivity]|destruct s; discriminate]|].
    symmetry. apply Z.leb_gt. unfold SpecFloat.fexp, SpecFloat.emin in V1. lia.
Qed.

(** ** Operations *)
Lemma mul_rounded : forall x y a b e f, is_number prec emax x a e -> is_number prec emax y b f ->
  if a * b =? 0 then fmul prec emax x y = S754_zero (xorb (negative x) (negative y)) else rounded (a * b) (e + f) (fmul prec emax x y).
Proof.
  intros x y a b e f [V1 N1] [V2 N2]. unfold fmul, SFmul.
  destruct x as [sx| | |sx mx ex]; try contradiction; destruct y as [sy| | |sy my ey]; try contradiction; cbn [negative].
  - subst a. reflexivity.
  - subst a. reflexivity.
  - subst b. rewrite Z.mul_0_r. reflexivity.
  - destruct (finite_sign _ _ Hp He _ _ _ _ _ N1) as (Z1 & _). destruct (finite_sign _ _ Hp He _ _ _ _ _ N2) as (Z2 & _). rewrite (proj2 (Z.eqb_neq (a * b) 0)) by (apply Z.neq_mul_0; auto).
    apply valid_exponent in V1. apply valid_exponent in V2.
    apply (rounded_same (if xorb sx sy then Z.neg (mx * my) else Z.pos (mx * my)) (ex + ey)); [|destruct (xorb sx sy); discriminate|].
    + apply (same_number_mul _ _ _ _ _ _ _ _ N1) in N2. destruct sx, sy; exact N2.
    + apply aux_rounded.
      assert (D : Z.pos (digits2_pos mx) + Z.pos (digits2_pos my) - 1 <= Z.pos (digits2_pos (mx * my))).
      { pose proof (digits2_spec mx) as [Lx _]. pose proof (digits2_spec my) as [Ly _]. pose proof (digits2_spec (mx * my)) as [_ U].
        apply Z.lt_succ_r. assert (Z.pos (digits2_pos mx) - 1 + (Z.pos (digits2_pos my) - 1) < Z.pos (digits2_pos (mx * my))); [|lia].
        apply (Z.pow_lt_mono_r_iff 2); [lia|lia|]. rewrite pow_split by lia. rewrite Pos2Z.inj_mul in U.
        pose proof (pow_pos (Z.pos (digits2_pos mx) - 1) ltac:(lia)). pose proof (pow_pos (Z.pos (digits2_pos my) - 1) ltac:(lia)). nia. }
      destruct V1 as [V1 _]. destruct V2 as [V2 _]. unfold SpecFloat.fexp in *. clear - D V1 V2 Hp He. unfold SpecFloat.emin in *. lia.
Qed.

(** Finite operands, the mantissas of any length. *)
Lemma sum_rounded : forall (sx : bool) mx ex (sy : bool) my ey a b f,
  same_number (if sx then Z.neg mx else Z.pos mx) ex a f -> same_number (if sy then Z.neg my else Z.pos my) ey b f ->
  if a + b =? 0 then fadd prec emax (S754_finite sx mx ex) (S754_finite sy my ey) = S754_zero (sx && sy)
  else rounded (a + b) f (fadd prec emax (S754_finite sx mx ex) (S754_finite sy my ey)).
Proof.
  intros sx mx ex sy my ey a b f N1 N2. unfold fadd, SFadd. set (ez := Z.min ex ey).
  assert (A : forall (s : bool) m e z, ez <= e -> same_number (if s then Z.neg m else Z.pos m) e z f ->
    same_number (cond_Zopp s (Z.pos (fst (shl_align m e ez)))) ez z f).
  { intros s m e z L N. pose proof (align_number m e ez) as Q. rewrite align_exponent in Q by exact L.
    destruct s; cbn [cond_Zopp]; [apply same_number_opp in Q|]; (eapply same_number_trans; [exact Q|exact N]). }
  assert (S : same_number (cond_Zopp sx (Z.pos (fst (shl_align mx ex ez))) + cond_Zopp sy (Z.pos (fst (shl_align my ey ez)))) ez (a + b) f)
    by (apply same_number_add; apply A; try assumption; unfold ez; lia).
  apply (finite_sign _ _ Hp He) in N1. apply (finite_sign _ _ Hp He) in N2. destruct N1 as (Z1 & S1 & _). destruct N2 as (Z2 & S2 & _).
  set (M := cond_Zopp sx _ + cond_Zopp sy _) in *. clearbody M. destruct (Z.eqb_spec (a + b) 0) as [Z0|Z0].
  - rewrite Z0 in S. apply same_number_zero in S. subst M. cbn [binary_normalize]. f_equal. destruct sx, sy; try reflexivity. assert (a < 0) by tauto. assert (b < 0) by tauto. lia.
  - assert (HM : M <> 0). { intros ->. apply Z0. apply (same_number_zero (a + b) f ez). apply same_number_sym. exact S. }
    apply (rounded_same _ _ _ _ _ S HM). apply normalize_rounded. exact HM.
Qed.

Lemma add_rounded : forall x y a b f, is_number prec emax x a f -> is_number prec emax y b f ->
  if a + b =? 0 then fadd prec emax x y = S754_zero (negative x && negative y) else rounded (a + b) f (fadd prec emax x y).
Proof.
  intros x y a b f N1 N2. pose proof N1 as [V1 M1]. pose proof N2 as [V2 M2].
  destruct x as [sx| | |sx mx ex]; try contradiction; destruct y as [sy| | |sy my ey]; try contradiction.
  - subst a b. cbn. destruct sx, sy; reflexivity.
  - subst a. rewrite Z.add_0_l. apply (finite_sign _ _ Hp He) in M2. destruct M2 as (Z2 & _). rewrite (proj2 (Z.eqb_neq b 0)) by exact Z2. apply number_rounded; assumption.
  - subst b. rewrite Z.add_0_r. apply (finite_sign _ _ Hp He) in M1. destruct M1 as (Z1 & _). rewrite (proj2 (Z.eqb_neq a 0)) by exact Z1. apply number_rounded; assumption.
  - apply sum_rounded; assumption.
Qed.

Lemma fused_rounded : forall x y c a b s e f, is_number prec emax x a e -> is_number prec emax y b f -> is_number prec emax c s (e + f) ->
  if a * b + s =? 0 then fused_mul_add prec emax x y c = S754_zero (xorb (negative x) (negative y) && negative c)
  else rounded (a * b + s) (e + f) (fused_mul_add prec emax x y c).
Proof.
  intros x y c a b s e f N1 N2 N3. pose proof N1 as [V1 M1]. pose proof N2 as [V2 M2]. pose proof N3 as [V3 M3].
  assert (G : a * b = 0 -> exact_product prec emax x y = S754_zero (xorb (negative x) (negative y)) ->
    fused_mul_add prec emax x y c = fadd prec emax (exact_product prec emax x y) c ->
    if a * b + s =? 0 then fused_mul_add prec emax x y c = S754_zero (xorb (negative x) (negative y) && negative c)
    else rounded (a * b + s) (e + f) (fused_mul_add prec emax x y c)).
  { intros Ha Hz ->. rewrite Hz, Ha. apply (add_rounded (S754_zero _) c 0 s (e + f)); [split; reflexivity|exact N3]. }
  destruct x as [sx| | |sx mx ex]; try contradiction; destruct y as [sy| | |sy my ey]; try contradiction.
  - apply G; [subst a; reflexivity|reflexivity|destruct c; reflexivity].
  - apply G; [subst a; reflexivity|reflexivity|destruct c; reflexivity].
  - apply G; [subst b; apply Z.mul_0_r|reflexivity|destruct c; reflexivity].
  - destruct c as [sc| | |sc mc ec]; try contradiction.
    + subst s. rewrite Z.add_0_r. pose proof (mul_rounded _ _ _ _ _ _ N1 N2) as M. apply (finite_sign _ _ Hp He) in M1. apply (finite_sign _ _ Hp He) in M2. destruct M1 as (Z1 & _). destruct M2 as (Z2 & _).
      rewrite (proj2 (Z.eqb_neq (a * b) 0)) in * by (apply Z.neq_mul_0; auto). exact M.
    + apply (sum_rounded (xorb sx sy) (mx * my) (ex + ey) sc mc ec (a * b) s (e + f)); [|exact M3].
      apply (same_number_mul _ _ _ _ _ _ _ _ M1) in M2. destruct sx, sy; exact M2.
Qed.

(** There is one rounding. *)
Lemma nearest_unique : forall x e n m g, nearest_even x e n g -> nearest_even x e m g -> n = m.
Proof.
  intros x e n m g [N1 N2] [M1 M2]. cbv zeta in *. set (k := Z.min e g) in *. pose proof (pow_pos (g - k) ltac:(lia)) as P. set (G := 2 ^ (g - k)) in *. set (X := x * 2 ^ (e - k)) in *. clearbody G X.
  destruct (Z.eq_dec n m) as [|D]; [assumption|exfalso]. assert (Q : G <= Z.abs (n - m) * G) by nia.
  assert (K : Z.abs (n - m) * G <= Z.abs (X - n * G) + Z.abs (X - m * G)) by (rewrite <- (Z.abs_eq G) at 1 by lia; rewrite <- Z.abs_mul; replace ((n - m) * G) with (n * G - m * G) by lia; lia).
  destruct N2 as [u Hu]; [lia|]. destruct M2 as [w Hw]; [lia|]. assert (A : Z.abs (n - m) = 1) by nia. lia.
Qed.

Lemma rounded_unique : forall x e r r', rounded x e r -> rounded x e r' -> r = r'.
Proof.
  intros x e r r' (n & N & R) (m & M & R'). rewrite (nearest_unique _ _ _ _ _ M N) in R'. destruct (emax <=? _); [congruence|].
  destruct R as [R1 R2]. destruct R' as [R1' R2']. destruct (Z.eq_dec n 0) as [Z|Z]; [rewrite R2, R2' by exact Z; reflexivity|]. apply (number_unique prec emax _ _ _ _ Z R1 R1').
Qed.

Lemma fused_special : forall x y c, let r := fused_mul_add prec emax x y c in
  (x = S754_nan \/ y = S754_nan \/ c = S754_nan -> r = S754_nan) /\
  (forall s, x = S754_infinity s /\ is_zero y \/ is_zero x /\ y = S754_infinity s -> r = S754_nan) /\
  (forall s, (x = S754_infinity s \/ y = S754_infinity s) -> x <> S754_nan -> y <> S754_nan -> ~ is_zero x -> ~ is_zero y ->
    (c = S754_infinity (negb (xorb (negative x) (negative y))) -> r = S754_nan) /\
    (c <> S754_infinity (negb (xorb (negative x) (negative y))) -> c <> S754_nan -> r = S754_infinity (xorb (negative x) (negative y)))) /\
  (forall s, finite x -> finite y -> c = S754_infinity s -> r = S754_infinity s).
Proof.
  intros x y c. cbv zeta. split; [|split; [|split]].
  - intros H. destruct x as [[]|[]| |s1 m1 e1], y as [[]|[]| |s2 m2 e2], c as [[]|[]| |s3 m3 e3]; try reflexivity; exfalso; destruct H as [H|[H|H]]; discriminate.
  - intros s [[-> Z]|[Z ->]]; [destruct y; try contradiction|destruct x; try contradiction]; destruct c; reflexivity.
  - intros s H X1 Y1 X2 Y2. destruct x as [sx|sx| |sx mx ex]; try (exfalso; apply X2; exact I); try congruence; destruct y as [sy|sy| |sy my ey]; try (exfalso; apply Y2; exact I); try congruence; cbn [negative].
    + split; [intros ->; destruct sx, sy; reflexivity|]. intros N1 N2. destruct c as [[]|[]| |]; destruct sx, sy; cbn in *; try congruence; reflexivity.
    + split; [intros ->; destruct sx, sy; reflexivity|]. intros N1 N2. destruct c as [[]|[]| |]; destruct sx, sy; cbn in *; try congruence; reflexivity.
    + split; [intros ->; destruct sx, sy; reflexivity|]. intros N1 N2. destruct c as [[]|[]| |]; destruct sx, sy; cbn in *; try congruence; reflexivity.
    + destruct H; discriminate.
  - intros s X Y ->. destruct x, y; try contradiction; reflexivity.
Qed.
End Rounding.
