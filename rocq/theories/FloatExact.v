(** Floating-point operations whose exact result is a small multiple of a power of two are exact. *)
From Coq Require Import ZArith List Bool Lia SpecFloat.
From Verif Require Import Base FloatOps FloatFacts SimdFloat SpecFloatExact.
Open Scope Z_scope.

Lemma pow_split : forall a b, 0 <= a -> 0 <= b -> 2 ^ (a + b) = 2 ^ a * 2 ^ b.
Proof. intros a b Ha Hb. apply Z.pow_add_r; assumption. Qed.

Lemma pow_pos : forall a, 0 <= a -> 0 < 2 ^ a.
Proof. intros a Ha. apply Z.pow_pos_nonneg; lia. Qed.

Lemma same_number_iff : forall m e m' e' k, k <= e -> k <= e' -> (same_number m e m' e' <-> m * 2 ^ (e - k) = m' * 2 ^ (e' - k)).
Proof.
  intros m e m' e' k H1 H2. unfold same_number. set (n := Z.min e e'). assert (Hn : k <= n /\ n <= e /\ n <= e') by (unfold n; lia).
  replace (e - k) with ((e - n) + (n - k)) by lia. replace (e' - k) with ((e' - n) + (n - k)) by lia.
  rewrite !pow_split by lia. rewrite !Z.mul_assoc. pose proof (pow_pos (n - k) ltac:(lia)) as P. split; intros E.
  - rewrite E. reflexivity.
  - apply Z.mul_cancel_r in E; lia.
Qed.

Lemma same_number_refl : forall m e, same_number m e m e.
Proof. intros. reflexivity. Qed.
Lemma same_number_sym : forall m e m' e', same_number m e m' e' -> same_number m' e' m e.
Proof. intros m e m' e' H. unfold same_number in *. rewrite Z.min_comm. auto. Qed.
Lemma same_number_trans : forall m e m' e' m'' e'', same_number m e m' e' -> same_number m' e' m'' e'' -> same_number m e m'' e''.
Proof.
  intros m e m' e' m'' e'' H1 H2. set (k := Z.min e (Z.min e' e'')).
  apply (same_number_iff _ _ _ _ k) in H1; [|lia..]. apply (same_number_iff _ _ _ _ k) in H2; [|lia..]. apply (same_number_iff _ _ _ _ k); lia.
Qed.
Lemma same_number_opp : forall m e m' e', same_number m e m' e' -> same_number (- m) e (- m') e'.
Proof. intros m e m' e' H. unfold same_number in *. lia. Qed.
Lemma same_number_mul : forall m e z f m' e' z' f', same_number m e z f -> same_number m' e' z' f' -> same_number (m * m') (e + e') (z * z') (f + f').
Proof.
  intros m e z f m' e' z' f' H1 H2. apply (same_number_iff _ _ _ _ (Z.min e f + Z.min e' f')); [lia..|].
  replace (e + e' - (Z.min e f + Z.min e' f')) with ((e - Z.min e f) + (e' - Z.min e' f')) by lia.
  replace (f + f' - (Z.min e f + Z.min e' f')) with ((f - Z.min e f) + (f' - Z.min e' f')) by lia.
  rewrite !pow_split by lia. unfold same_number in *. rewrite (Z.mul_shuffle1 m m'), (Z.mul_shuffle1 z z'), H1, H2. reflexivity.
Qed.
Lemma same_number_add : forall m m' e z z' f, same_number m e z f -> same_number m' e z' f -> same_number (m + m') e (z + z') f.
Proof. intros m m' e z z' f H1 H2. unfold same_number in *. rewrite !Z.mul_add_distr_r, H1, H2. reflexivity. Qed.
Lemma same_number_shift : forall m e k, 0 <= k -> same_number (m * 2 ^ k) (e - k) m e.
Proof.
  intros m e k Hk. apply (same_number_iff _ _ _ _ (e - k)); [lia..|]. replace (e - k - (e - k)) with 0 by lia. replace (e - (e - k)) with k by lia. lia.
Qed.
Lemma same_number_zero : forall m e f, same_number m e 0 f -> m = 0.
Proof. intros m e f H. unfold same_number in H. pose proof (pow_pos (e - Z.min e f) ltac:(lia)). nia. Qed.

(** ** Digits *)
Lemma digits_unique : forall m d, 1 <= d -> 2 ^ (d - 1) <= Z.pos m < 2 ^ d -> Z.pos (digits2_pos m) = d.
Proof.
  intros m d Hd [H1 H2]. pose proof (digits2_spec m) as [L U]. assert (A : d - 1 < Z.pos (digits2_pos m)) by (apply (Z.pow_lt_mono_r_iff 2); lia).
  assert (B : Z.pos (digits2_pos m) - 1 < d) by (apply (Z.pow_lt_mono_r_iff 2); lia). lia.
Qed.

(** Equal numbers end at the same digit. *)
Lemma digits_number : forall m e m' e', same_number (Z.pos m) e (Z.pos m') e' -> Z.pos (digits2_pos m) + e = Z.pos (digits2_pos m') + e'.
Proof.
  assert (G : forall m e m' e', e' <= e -> same_number (Z.pos m) e (Z.pos m') e' -> Z.pos (digits2_pos m) + e = Z.pos (digits2_pos m') + e').
  { intros m e m' e' L E. apply (same_number_iff _ _ _ _ e') in E; [|lia..]. rewrite Z.sub_diag, Z.pow_0_r, Z.mul_1_r in E.
    pose proof (digits2_spec m) as [A B]. pose proof (pow_pos (e - e') ltac:(lia)) as P.
    rewrite (digits_unique m' (Z.pos (digits2_pos m) + (e - e'))); [lia|lia|]. rewrite <- E.
    replace (Z.pos (digits2_pos m) + (e - e') - 1) with ((Z.pos (digits2_pos m) - 1) + (e - e')) by lia. rewrite !pow_split by lia. nia. }
  intros m e m' e' E. destruct (Z_le_gt_dec e' e) as [L|L]; [apply G; assumption|]. symmetry. apply G; [lia|]. apply same_number_sym. exact E.
Qed.

Section Rounding.
Variables (prec emax : Z).
Hypotheses (Hp : 1 <= prec) (He : prec < emax).
Notation emin := (emin prec emax).
Notation fexp := (fexp prec emax).

(** ** A number is one float *)
Lemma valid_exponent : forall s m e, valid_binary prec emax (S754_finite s m e) = true -> e = fexp (Z.pos (digits2_pos m) + e) /\ e <= emax - prec.
Proof.
  intros s m e H. unfold valid_binary, bounded, canonical_mantissa in H. apply andb_true_iff in H. destruct H as [H1 H2]. apply Zeq_bool_eq in H1. apply Zle_bool_imp_le in H2. lia.
Qed.

Lemma valid_intro : forall s m e, e = fexp (Z.pos (digits2_pos m) + e) -> e <= emax - prec -> valid_binary prec emax (S754_finite s m e) = true.
Proof.
  intros s m e H1 H2. unfold valid_binary, bounded, canonical_mantissa. apply andb_true_iff. split; [|apply Zle_imp_le_bool; lia]. rewrite <- H1. apply Zeq_is_eq_bool. reflexivity.
Qed.

Lemma number_unique : forall x y z e, z <> 0 -> is_number prec emax x z e -> is_number prec emax y z e -> x = y.
Proof.
  intros x y z e Hz [V1 N1] [V2 N2]. destruct x as [| | |s m f]; try contradiction. destruct y as [| | |s' m' f']; try contradiction.
  apply valid_exponent in V1. apply valid_exponent in V2. destruct V1 as [V1 _]. destruct V2 as [V2 _].
  assert (E : same_number (if s then Z.neg m else Z.pos m) f (if s' then Z.neg m' else Z.pos m') f') by (apply same_number_trans with z e; [exact N1|apply same_number_sym; exact N2]).
  assert (P : same_number (Z.pos m) f (Z.pos m') f' /\ s = s').
  { pose proof (pow_pos (f - Z.min f f') ltac:(lia)) as P1. pose proof (pow_pos (f' - Z.min f f') ltac:(lia)) as P2.
    clear - E P1 P2. unfold same_number in *. destruct s, s'; try (exfalso; clear - E P1 P2; nia); (split; [lia|reflexivity]). }
  destruct P as [P ->]. pose proof (digits_number _ _ _ _ P) as D. assert (F : f = f') by (rewrite V1, V2, D; reflexivity). subst f'.
  unfold same_number in P. rewrite Z.min_id, Z.sub_diag, Z.pow_0_r in P. f_equal. lia.
Qed.

(** ** Rounding is exact *)
Lemma shr_exact : forall n m, (2 ^ Z.pos n | m) -> 0 <= m -> SpecFloat.iter_pos shr_1 n (Build_shr_record m false false) = Build_shr_record (m / 2 ^ Z.pos n) false false.
Proof.
  intros n m D Hm. rewrite iter_pos_iter. revert D. revert n. apply (Pos.peano_ind (fun n => (2 ^ Z.pos n | m) -> Pos.iter shr_1 (Build_shr_record m false false) n = Build_shr_record (m / 2 ^ Z.pos n) false false)).
  - intros [k D]. cbn [Pos.iter]. subst m. change (2 ^ 1) with 2 in *. rewrite Z.div_mul by lia.
    destruct k as [|k|k]; [reflexivity| |lia]. rewrite Z.mul_comm. reflexivity.
  - intros n IH [k D]. rewrite Pos2Z.inj_succ, Z.pow_succ_r in D by lia. rewrite Pos.iter_succ, IH by (exists (2 * k); lia).
    rewrite Pos2Z.inj_succ, Z.pow_succ_r by lia. pose proof (pow_pos (Z.pos n) ltac:(lia)) as P. subst m.
    replace (k * (2 * 2 ^ Z.pos n)) with ((k * 2) * 2 ^ Z.pos n) by lia. rewrite Z.div_mul by lia.
    replace (k * 2 * 2 ^ Z.pos n) with (k * (2 * 2 ^ Z.pos n)) by lia. rewrite Z.div_mul by lia.
    destruct k as [|k|k]; [reflexivity| |nia]. rewrite Z.mul_comm. reflexivity.
Qed.

(** [m * 2^e] with [e] at most where rounding would cut, equal to a number that ends above the cut. *)
Lemma round_exact : forall s m e z f, same_number (Z.pos m) e z f -> 0 < z < 2 ^ prec -> emin <= f -> f <= emax - prec ->
  e <= fexp (Z.pos (digits2_pos m) + e) ->
  exists m' e', binary_round_aux prec emax s (Z.pos m) e loc_Exact = S754_finite s m' e' /\
    valid_binary prec emax (S754_finite s m' e') = true /\ same_number (Z.pos m') e' z f.
Proof.
  intros s m e z f E Hz Hf Hf' Hc. destruct z as [|z|z]; try lia.
  pose proof (digits_number _ _ _ _ E) as D. set (d := Z.pos (digits2_pos m)) in *. set (c := fexp (d + e)) in *.
  assert (Dz : Z.pos (digits2_pos z) <= prec).
  { pose proof (digits2_spec z) as [L _]. apply Z.lt_succ_r. assert (Z.pos (digits2_pos z) - 1 < prec) by (apply (Z.pow_lt_mono_r_iff 2); lia). lia. }
  assert (Cf : c <= f) by (unfold c, SpecFloat.fexp; lia).
  (* the mantissa is a multiple *)
  assert (Dv : Z.pos m = Z.pos z * 2 ^ (f - c) * 2 ^ (c - e)).
  { apply (same_number_iff _ _ _ _ e) in E; [|lia..]. rewrite Z.sub_diag, Z.pow_0_r, Z.mul_1_r in E. rewrite E, <- Z.mul_assoc, <- pow_split by lia. f_equal. f_equal. lia. }
  pose proof (pow_pos (f - c) ltac:(lia)) as P1. pose proof (pow_pos (c - e) ltac:(lia)) as P2.
  assert (exists w, Z.pos z * 2 ^ (f - c) = Z.pos w) as (w & Ew) by (exists (Z.to_pos (Z.pos z * 2 ^ (f - c))); rewrite Z2Pos.id; [reflexivity|nia]).
  rewrite Ew in Dv.
  assert (Sh : shr_fexp prec emax (Z.pos m) e loc_Exact = (Build_shr_record (Z.pos w) false false, c)).
  { unfold shr_fexp, shr. cbn [Zdigits2]. fold d. fold c. cbn [shr_record_of_loc]. destruct (c - e) as [|n|n] eqn:N; [|..|lia].
    - rewrite Z.pow_0_r, Z.mul_1_r in Dv. rewrite Dv. f_equal. lia.
    - rewrite shr_exact; [|exists (Z.pos w); exact Dv|lia]. rewrite Dv, Z.div_mul by lia. f_equal. lia. }
  assert (Dw : Z.pos (digits2_pos w) + c = d + e).
  { unfold d. symmetry. apply digits_number. apply (same_number_iff _ _ _ _ e); [lia|lia|]. rewrite Z.sub_diag, Z.pow_0_r, Z.mul_1_r. exact Dv. }
  assert (Cw : c = fexp (Z.pos (digits2_pos w) + c)) by (rewrite Dw; reflexivity).
  exists w, c. split; [|split].
  - unfold binary_round_aux. rewrite Sh. cbn [shr_m loc_of_shr_record round_nearest_even].
    assert (Sh2 : shr_fexp prec emax (Z.pos w) c loc_Exact = (Build_shr_record (Z.pos w) false false, c)).
    { unfold shr_fexp, shr. cbn [Zdigits2]. rewrite <- Cw, Z.sub_diag. reflexivity. }
    rewrite Sh2. cbn [shr_m]. replace (Zle_bool c (emax - prec)) with true; [reflexivity|]. symmetry. apply Zle_imp_le_bool. lia.
  - apply valid_intro; [exact Cw|lia].
  - rewrite <- Ew. replace c with (f - (f - c)) at 2 by lia. apply same_number_shift. lia.
Qed.

(** The same for at most [2^prec], and as a number. *)
Lemma aux_exact : forall s m e z f, same_number (Z.pos m) e (Z.abs z) f -> (z < 0 <-> s = true) -> 0 < Z.abs z <= 2 ^ prec -> emin <= f -> f < emax - prec ->
  e <= fexp (Z.pos (digits2_pos m) + e) ->
  is_number prec emax (binary_round_aux prec emax s (Z.pos m) e loc_Exact) z f.
Proof.
  intros s m e z f E Hs Hz Hf Hf' Hc.
  assert (exists z1 f1, same_number (Z.abs z) f z1 f1 /\ 0 < z1 < 2 ^ prec /\ emin <= f1 /\ f1 <= emax - prec) as (z1 & f1 & E1 & Z1 & F1 & F2).
  { destruct (Z.eq_dec (Z.abs z) (2 ^ prec)) as [Q|Q]; [|exists (Z.abs z), f; split; [apply same_number_refl|lia]].
    exists (2 ^ (prec - 1)), (f + 1). split; [|split; [|lia]].
    - rewrite Q. replace prec with ((prec - 1) + 1) at 1 by lia. rewrite pow_split by lia. change (2 ^ 1) with 2. apply (same_number_iff _ _ _ _ f); [lia..|].
      replace (f + 1 - f) with 1 by lia. rewrite Z.sub_diag. lia.
    - split; [apply pow_pos; lia|]. apply Z.pow_lt_mono_r; lia. }
  destruct (round_exact s m e z1 f1) as (m' & e' & R & V & N); [apply same_number_trans with (Z.abs z) f; assumption|assumption..|].
  rewrite R. split; [exact V|]. assert (N' : same_number (Z.pos m') e' (Z.abs z) f) by (apply same_number_trans with z1 f1; [exact N|apply same_number_sym; exact E1]).
  destruct s.
  - assert (z < 0) by (apply Hs; reflexivity). apply same_number_opp in N'. rewrite Z.abs_neq, Z.opp_involutive in N' by lia. exact N'.
  - assert (~ z < 0) by (intros A; apply Hs in A; discriminate). rewrite Z.abs_eq in N' by lia. exact N'.
Qed.

Lemma shift_pos_mul : forall n m, Z.pos (shift_pos n m) = Z.pos m * 2 ^ Z.pos n.
Proof. intros n m. rewrite shift_pos_correct, Z.pow_pos_fold. lia. Qed.

Lemma align_number : forall m e e', same_number (Z.pos (fst (shl_align m e e'))) (snd (shl_align m e e')) (Z.pos m) e.
Proof.
  intros m e e'. unfold shl_align. destruct (e' - e) as [|n|n] eqn:N; try apply same_number_refl. cbn [fst snd]. rewrite shift_pos_mul.
  replace e' with (e - Z.pos n) by lia. apply same_number_shift. lia.
Qed.
Lemma align_exponent : forall m e e', e' <= e -> snd (shl_align m e e') = e'.
Proof. intros m e e' H. unfold shl_align. destruct (e' - e) as [|n|n] eqn:N; cbn [snd]; lia. Qed.
Lemma align_low : forall m e e', snd (shl_align m e e') <= e'.
Proof. intros m e e'. unfold shl_align. destruct (e' - e) as [|n|n] eqn:N; cbn [snd]; lia. Qed.

Lemma normalize_exact : forall m e z f, same_number m e z f -> z <> 0 -> Z.abs z <= 2 ^ prec -> emin <= f -> f < emax - prec ->
  is_number prec emax (binary_normalize prec emax m e false) z f.
Proof.
  assert (G : forall s m e z f, same_number (Z.pos m) e (Z.abs z) f -> (z < 0 <-> s = true) -> z <> 0 -> Z.abs z <= 2 ^ prec -> emin <= f -> f < emax - prec ->
    is_number prec emax (binary_round prec emax s m e) z f).
  { intros s m e z f E Hs Hz Hz' Hf Hf'. unfold binary_round. set (c := fexp (Z.pos (digits2_pos m) + e)).
    pose proof (align_number m e c) as A. pose proof (align_low m e c) as L. destruct (shl_align m e c) as [m' e']. cbn [fst snd] in A, L.
    apply aux_exact; [apply same_number_trans with (Z.pos m) e; assumption|exact Hs|lia|exact Hf|exact Hf'|].
    apply digits_number in A. rewrite A. exact L. }
  intros m e z f E Hz Hz' Hf Hf'. pose proof (pow_pos (e - Z.min e f) ltac:(lia)) as P1. pose proof (pow_pos (f - Z.min e f) ltac:(lia)) as P2.
  destruct m as [|m|m]; cbn [binary_normalize].
  - exfalso. apply Hz. apply (same_number_zero z f e). apply same_number_sym. exact E.
  - assert (0 < z) by (unfold same_number in E; nia). apply G; try assumption; [rewrite Z.abs_eq by lia; exact E|]. split; [lia|discriminate].
  - assert (z < 0) by (unfold same_number in E; nia). apply G; try assumption; [rewrite Z.abs_neq by lia; apply same_number_opp in E; exact E|]. split; [reflexivity|lia].
Qed.

(** ** Operations *)
Lemma number_zero : forall x e, is_number prec emax x 0 e -> exists s, x = S754_zero s.
Proof.
  intros x e [_ H]. destruct x as [s| | |s m f]; try contradiction; [eauto|]. apply same_number_zero in H. destruct s; discriminate.
Qed.
Lemma number_nonzero : forall x z e s, is_number prec emax x z e -> x = S754_zero s -> z = 0.
Proof. intros x z e s [_ H] ->. exact H. Qed.

Lemma finite_sign : forall (s : bool) m e z f, same_number (if s then Z.neg m else Z.pos m) e z f -> z <> 0 /\ (z < 0 <-> s = true) /\ same_number (Z.pos m) e (Z.abs z) f.
Proof.
  intros s m e z f H. pose proof (pow_pos (e - Z.min e f) ltac:(lia)) as P1. pose proof (pow_pos (f - Z.min e f) ltac:(lia)) as P2. unfold same_number in *.
  destruct s.
  - assert (z < 0) by nia. split; [lia|]. split; [tauto|]. rewrite Z.abs_neq by lia. lia.
  - assert (0 < z) by nia. split; [lia|]. split; [split; [lia|discriminate]|]. rewrite Z.abs_eq by lia. lia.
Qed.

Lemma mul_exact : forall x y a b e f, is_number prec emax x a e -> is_number prec emax y b f -> Z.abs (a * b) <= 2 ^ prec ->
  emin <= e + f -> e + f < emax - prec -> is_number prec emax (fmul prec emax x y) (a * b) (e + f).
Proof.
  intros x y a b e f [V1 N1] [V2 N2] B H1 H2. unfold fmul, SFmul.
  destruct x as [sx| | |sx mx ex]; try contradiction; destruct y as [sy| | |sy my ey]; try contradiction.
  - split; [reflexivity|]. cbn. lia.
  - split; [reflexivity|]. cbn. lia.
  - split; [reflexivity|]. cbn. lia.
  - destruct (finite_sign _ _ _ _ _ N1) as (Z1 & S1 & A1). destruct (finite_sign _ _ _ _ _ N2) as (Z2 & S2 & A2).
    apply valid_exponent in V1. apply valid_exponent in V2.
    assert (NZ : a * b <> 0) by (apply Z.neq_mul_0; auto).
    apply aux_exact; [|destruct sx, sy; cbn [xorb] in *; destruct S1, S2; nia || idtac|lia|exact H1|exact H2|].
    + rewrite Pos2Z.inj_mul, Z.abs_mul. apply same_number_mul; assumption.
    + assert (D : Z.pos (digits2_pos mx) + Z.pos (digits2_pos my) - 1 <= Z.pos (digits2_pos (mx * my))).
      { pose proof (digits2_spec mx) as [Lx _]. pose proof (digits2_spec my) as [Ly _]. pose proof (digits2_spec (mx * my)) as [_ U].
        apply Z.lt_succ_r. assert (Z.pos (digits2_pos mx) - 1 + (Z.pos (digits2_pos my) - 1) < Z.pos (digits2_pos (mx * my))); [|lia].
        apply (Z.pow_lt_mono_r_iff 2); [lia|lia|]. rewrite pow_split by lia. rewrite Pos2Z.inj_mul in U.
        pose proof (pow_pos (Z.pos (digits2_pos mx) - 1) ltac:(lia)). pose proof (pow_pos (Z.pos (digits2_pos my) - 1) ltac:(lia)). nia. }
      destruct V1 as [V1 _]. destruct V2 as [V2 _]. unfold SpecFloat.fexp in *. clear - D V1 V2 Hp He. unfold SpecFloat.emin in *. lia.
Qed.

(** Finite operands, the mantissas of any length. *)
Lemma sum_exact : forall (sx : bool) mx ex (sy : bool) my ey a b f,
  same_number (if sx then Z.neg mx else Z.pos mx) ex a f -> same_number (if sy then Z.neg my else Z.pos my) ey b f ->
  Z.abs (a + b) <= 2 ^ prec -> emin <= f -> f < emax - prec ->
  is_number prec emax (fadd prec emax (S754_finite sx mx ex) (S754_finite sy my ey)) (a + b) f /\
  fadd prec emax (S754_finite sx mx ex) (S754_finite sy my ey) <> S754_zero true.
Proof.
  intros sx mx ex sy my ey a b f N1 N2 B H1 H2. unfold fadd, SFadd. set (ez := Z.min ex ey).
  assert (A : forall (s : bool) m e z, ez <= e -> same_number (if s then Z.neg m else Z.pos m) e z f ->
    same_number (cond_Zopp s (Z.pos (fst (shl_align m e ez)))) ez z f).
  { intros s m e z L N. pose proof (align_number m e ez) as Q. rewrite align_exponent in Q by exact L.
    destruct s; cbn [cond_Zopp]; [apply same_number_opp in Q|]; (eapply same_number_trans; [exact Q|exact N]). }
  assert (S : same_number (cond_Zopp sx (Z.pos (fst (shl_align mx ex ez))) + cond_Zopp sy (Z.pos (fst (shl_align my ey ez)))) ez (a + b) f)
    by (apply same_number_add; apply A; try assumption; unfold ez; lia).
  set (M := cond_Zopp sx _ + cond_Zopp sy _) in *. clearbody M. destruct (Z.eq_dec (a + b) 0) as [Z0|Z0].
  - rewrite Z0 in *. apply same_number_zero in S. subst M. split; [|discriminate]. split; reflexivity.
  - pose proof (normalize_exact M ez (a + b) f S Z0 B H1 H2) as N. split; [exact N|]. intros E. apply Z0. apply (number_nonzero _ _ _ _ N E).
Qed.

Lemma add_exact : forall x y a b f, is_number prec emax x a f -> is_number prec emax y b f -> Z.abs (a + b) <= 2 ^ prec ->
  emin <= f -> f < emax - prec -> is_number prec emax (fadd prec emax x y) (a + b) f /\ (x <> S754_zero true \/ y <> S754_zero true -> fadd prec emax x y <> S754_zero true).
Proof.
  intros x y a b f [V1 N1] [V2 N2] B H1 H2.
  destruct x as [sx| | |sx mx ex]; try contradiction; destruct y as [sy| | |sy my ey]; try contradiction.
  - unfold fadd, SFadd. split; [destruct (Bool.eqb sx sy); (split; [reflexivity|cbn; lia])|]. destruct sx, sy; cbn; intros [H|H]; congruence.
  - subst a. split; [split; assumption|]. intros _. discriminate.
  - subst b. rewrite Z.add_0_r. split; [split; assumption|]. intros _. discriminate.
  - destruct (sum_exact _ _ _ _ _ _ _ _ _ N1 N2 B H1 H2) as (S1 & S2). split; [exact S1|]. intros _. exact S2.
Qed.

(** One step of an accumulation: rounded twice, *)
Lemma mul_add_exact : forall x y c a b s e f, is_number prec emax x a e -> is_number prec emax y b f -> is_number prec emax c s (e + f) ->
  Z.abs (a * b) <= 2 ^ prec -> Z.abs (a * b + s) <= 2 ^ prec -> emin <= e + f -> e + f < emax - prec -> c <> S754_zero true ->
  is_number prec emax (mul_add prec emax x y c) (a * b + s) (e + f) /\ mul_add prec emax x y c <> S754_zero true.
Proof.
  intros x y c a b s e f N1 N2 N3 B1 B2 H1 H2 Hc. unfold mul_add.
  destruct (add_exact (fmul prec emax x y) c (a * b) s (e + f)) as (A1 & A2); try assumption; [apply mul_exact; assumption|]. split; [exact A1|]. apply A2. right. exact Hc.
Qed.

(** or once. *)
Lemma fused_exact : forall x y c a b s e f, is_number prec emax x a e -> is_number prec emax y b f -> is_number prec emax c s (e + f) ->
  Z.abs (a * b) <= 2 ^ prec -> Z.abs (a * b + s) <= 2 ^ prec -> emin <= e + f -> e + f < emax - prec -> c <> S754_zero true ->
  is_number prec emax (fused_mul_add prec emax x y c) (a * b + s) (e + f) /\ fused_mul_add prec emax x y c <> S754_zero true.
Proof.
  intros x y c a b s e f N1 N2 N3 B1 B2 H1 H2 Hc.
  assert (G : fused_mul_add prec emax x y c = mul_add prec emax x y c \/
    exists sx mx ex sy my ey, x = S754_finite sx mx ex /\ y = S754_finite sy my ey /\ ((exists sc mc ec, c = S754_finite sc mc ec) \/ exists sc, c = S754_zero sc)).
  { destruct N1 as [_ N1]. destruct N2 as [_ N2]. destruct N3 as [_ N3].
    destruct x as [sx| | |sx mx ex]; try contradiction; destruct y as [sy| | |sy my ey]; try contradiction; destruct c as [sc| | |sc mc ec]; try contradiction;
      try (left; reflexivity); right; exists sx, mx, ex, sy, my, ey; eauto 10. }
  destruct G as [-> | (sx & mx & ex & sy & my & ey & -> & -> & [(sc & mc & ec & ->) | (sc & ->)])]; [apply mul_add_exact; assumption| |].
  - destruct N1 as [_ N1]. destruct N2 as [_ N2]. destruct N3 as [_ N3]. unfold fused_mul_add, exact_product.
    apply sum_exact; try assumption. apply (same_number_mul _ _ _ _ _ _ _ _ N1) in N2. destruct sx, sy; exact N2.
  - pose proof (number_nonzero _ _ _ _ N3 eq_refl) as ->. rewrite Z.add_0_r. pose proof (mul_exact _ _ _ _ _ _ N1 N2 B1 H1 H2) as M. split; [exact M|].
    intros E. apply (number_nonzero _ _ _ _ M) in E. destruct N1 as [_ N1]. destruct N2 as [_ N2]. apply finite_sign in N1. apply finite_sign in N2.
    destruct N1 as (Z1 & _). destruct N2 as (Z2 & _). apply Z.eq_mul_0 in E. destruct E; contradiction.
Qed.
End Rounding.
