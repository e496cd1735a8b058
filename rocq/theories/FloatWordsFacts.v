(** Words and floats. *)
From Coq Require Import ZArith Bool Lia SpecFloat.
From Verif Require Import Base FloatOps SimdFloat FloatFacts FloatExact SpecFloatExact SpecFloatRound FloatRound FloatWords.
Open Scope Z_scope.

Notation valid := (valid_binary 24 128).

(** Which mantissas and exponents are valid. *)
Lemma valid_cases : forall s m e, valid (S754_finite s m e) = true ->
  (e = -149 /\ Z.pos m < 2 ^ 23) \/ (2 ^ 23 <= Z.pos m < 2 ^ 24 /\ -149 <= e <= 104).
Proof.
  intros s m e H. destruct (valid_exponent 24 128 s m e H) as (E & L). unfold fexp, SpecFloat.emin in E.
  pose proof (digits2_spec m) as D. set (d := Z.pos (digits2_pos m)) in *. assert (Hd : 1 <= d) by (unfold d; lia).
  destruct (Z_lt_le_dec d 24) as [Hs|Hs].
  - left. assert (2 ^ d <= 2 ^ 23) by (apply Z.pow_le_mono_r; lia). lia.
  - right. assert (d = 24) by lia. subst d. rewrite H0 in D. change (24 - 1) with 23 in D. lia.
Qed.
Lemma valid_build : forall s m e, (e = -149 /\ Z.pos m < 2 ^ 23) \/ (2 ^ 23 <= Z.pos m < 2 ^ 24 /\ -149 <= e <= 104) -> valid (S754_finite s m e) = true.
Proof.
  intros s m e H. apply valid_intro.
  - unfold fexp, SpecFloat.emin. pose proof (digits2_spec m) as D. set (d := Z.pos (digits2_pos m)) in *. assert (Hd : 1 <= d) by (unfold d; lia).
    destruct H as [(He & Hm)|(Hm & He)].
    + assert (d <= 23). { destruct (Z_le_gt_dec d 23) as [L|G]; [exact L|]. assert (2 ^ 23 <= 2 ^ (d - 1)) by (apply Z.pow_le_mono_r; lia). lia. } lia.
    + assert (d = 24). { apply (digits_unique m 24); [lia|change (24 - 1) with 23; lia]. } lia.
  - destruct H as [(He & Hm)|(Hm & He)]; lia.
Qed.

Lemma float_word_valid : forall w, valid (float_of_word w) = true.
Proof.
  intros w. unfold float_of_word. pose proof (Z.mod_pos_bound w (2 ^ 23) ltac:(lia)) as M. pose proof (Z.mod_pos_bound (w / 2 ^ 23) (2 ^ 8) ltac:(lia)) as E.
  set (m := w mod 2 ^ 23) in *. set (e := (w / 2 ^ 23) mod 2 ^ 8) in *.
  destruct (Z.eqb_spec e 0) as [E0|E0].
  - destruct m as [|p|p] eqn:Em; [reflexivity| |reflexivity]. apply valid_build. left. lia.
  - destruct (Z.eqb_spec e 255) as [E5|E5]; [destruct (m =? 0); reflexivity|].
    destruct (m + 2 ^ 23) as [|p|p] eqn:Em; [reflexivity| |reflexivity]. apply valid_build. right. lia.
Qed.

Lemma word_range : forall x, valid x = true -> 0 <= word_of_float x < 2 ^ 32.
Proof.
  intros [s|s| |s m e] H; unfold word_of_float; try (destruct s; lia); [lia|]. destruct (valid_cases s m e H) as [(He & Hm)|(Hm & He)].
  - destruct (Z.ltb_spec (Z.pos m) (2 ^ 23)); [|lia]. destruct s; lia.
  - destruct (Z.ltb_spec (Z.pos m) (2 ^ 23)); [lia|]. destruct s; lia.
Qed.

Lemma word_parts : forall (s : bool) e m, 0 <= m < 2 ^ 23 -> 0 <= e < 2 ^ 8 ->
  let w := (if s then 2 ^ 31 else 0) + e * 2 ^ 23 + m in Z.odd (w / 2 ^ 31) = s /\ (w / 2 ^ 23) mod 2 ^ 8 = e /\ w mod 2 ^ 23 = m.
Proof.
  intros s e m Hm He w. set (b := if s then 1 else 0). assert (Hb : 0 <= b <= 1) by (unfold b; destruct s; lia).
  assert (Ew : w = (b * 2 ^ 8 + e) * 2 ^ 23 + m) by (unfold w, b; destruct s; lia).
  assert (Q : w / 2 ^ 23 = b * 2 ^ 8 + e) by (rewrite Ew; symmetry; apply (Z.div_unique _ _ _ m); lia).
  split; [|split].
  - assert (Q31 : w / 2 ^ 31 = b) by (rewrite Ew; symmetry; apply (Z.div_unique _ _ _ (e * 2 ^ 23 + m)); lia). rewrite Q31. unfold b. destruct s; reflexivity.
  - rewrite Q. symmetry. apply (Z.mod_unique _ _ b); lia.
  - rewrite Ew. symmetry. apply (Z.mod_unique _ _ (b * 2 ^ 8 + e)); lia.
Qed.

Lemma word_round_trip : forall x, valid x = true -> float_of_word (word_of_float x) = x.
Proof.
  assert (P : forall (s : bool) e m, 0 <= m < 2 ^ 23 -> 0 <= e < 2 ^ 8 -> float_of_word ((if s then 2 ^ 31 else 0) + e * 2 ^ 23 + m) =
    if e =? 0 then match m with Z.pos p => S754_finite s p (-149) | _ => S754_zero s end
    else if e =? 255 then (if m =? 0 then S754_infinity s else S754_nan)
    else match m + 2 ^ 23 with Z.pos p => S754_finite s p (e - 150) | _ => S754_nan end).
  { intros s e m Hm He. destruct (word_parts s e m Hm He) as (A & B & C). unfold float_of_word. rewrite A, B, C. reflexivity. }
  intros [s|s| |s m e] H; [destruct s; reflexivity|destruct s; reflexivity|reflexivity|].
  unfold word_of_float. destruct (valid_cases s m e H) as [(He & Hm)|(Hm & He)].
  - destruct (Z.ltb_spec (Z.pos m) (2 ^ 23)); [|lia]. replace ((if s then 2 ^ 31 else 0) + Z.pos m) with ((if s then 2 ^ 31 else 0) + 0 * 2 ^ 23 + Z.pos m) by lia.
    rewrite P by lia. rewrite He. reflexivity.
  - destruct (Z.ltb_spec (Z.pos m) (2 ^ 23)); [lia|]. rewrite Z.add_assoc, P by lia.
    destruct (Z.eqb_spec (e + 150) 0); [lia|]. destruct (Z.eqb_spec (e + 150) 255); [lia|].
    replace (Z.pos m - 2 ^ 23 + 2 ^ 23) with (Z.pos m) by lia. f_equal. lia.
Qed.

(** ** Results of operations are valid *)
Lemma rounded_valid : forall x e r, rounded 24 128 x e r -> valid r = true.
Proof.
  intros x e r (n & _ & H). destruct (128 <=? _); [subst r; reflexivity|]. destruct H as (H & _). apply H.
Qed.
Lemma self_number : forall (s : bool) m e f, f <= e -> same_number (if s then Z.neg m else Z.pos m) e ((if s then Z.neg m else Z.pos m) * 2 ^ (e - f)) f.
Proof. intros s m e f H. unfold same_number. rewrite Z.min_r, Z.sub_diag by exact H. cbn [Z.pow]. change (2 ^ 0) with 1. rewrite Z.mul_1_r. reflexivity. Qed.

Lemma sum_valid : forall sx mx ex sy my ey, valid (fadd 24 128 (S754_finite sx mx ex) (S754_finite sy my ey)) = true.
Proof.
  intros. set (f := Z.min ex ey).
  pose proof (sum_rounded 24 128 ltac:(lia) ltac:(lia) sx mx ex sy my ey _ _ f (self_number sx mx ex f ltac:(unfold f; lia)) (self_number sy my ey f ltac:(unfold f; lia))) as R.
  destruct (_ + _ =? 0); [rewrite R; reflexivity|]. exact (rounded_valid _ _ _ R).
Qed.
Lemma add_valid : forall x y, valid x = true -> valid y = true -> valid (fadd 24 128 x y) = true.
Proof.
  intros x y Vx Vy. destruct x as [sx|sx| |sx mx ex], y as [sy|sy| |sy my ey]; try reflexivity; try (destruct sx, sy; reflexivity); try assumption.
  apply sum_valid.
Qed.
Lemma mul_valid : forall x y, valid x = true -> valid y = true -> valid (fmul 24 128 x y) = true.
Proof.
  intros x y Vx Vy. destruct x as [sx|sx| |sx mx ex], y as [sy|sy| |sy my ey]; try reflexivity; try (destruct sx, sy; reflexivity).
  assert (N : forall s m e, valid (S754_finite s m e) = true -> is_number 24 128 (S754_finite s m e) ((if s then Z.neg m else Z.pos m) * 2 ^ (e - e)) e) by (intros s m e V; split; [exact V|apply self_number; lia]).
  pose proof (mul_rounded 24 128 ltac:(lia) ltac:(lia) _ _ _ _ _ _ (N _ _ _ Vx) (N _ _ _ Vy)) as R.
  destruct (_ * _ =? 0); [rewrite R; reflexivity|]. exact (rounded_valid _ _ _ R).
Qed.
Lemma fused_valid : forall x y c, valid x = true -> valid y = true -> valid c = true -> valid (fused_mul_add 24 128 x y c) = true.
Proof.
  intros x y c Vx Vy Vc. unfold fused_mul_add.
  assert (S : (forall s m e s' m' e', x = S754_finite s m e -> y = S754_finite s' m' e' -> False) -> valid (fadd 24 128 (exact_product 24 128 x y) c) = true).
  { intros NF. apply add_valid; [|exact Vc]. replace (exact_product 24 128 x y) with (fmul 24 128 x y); [apply mul_valid; assumption|].
    unfold exact_product. destruct x, y; try reflexivity. exfalso. eapply NF; reflexivity. }
  destruct x as [sx|sx| |sx mx ex]; try (apply S; discriminate). destruct y as [sy|sy| |sy my ey]; try (apply S; discriminate).
  destruct c as [sc|sc| |sc mc ec]; [apply mul_valid; assumption|reflexivity|reflexivity|]. apply sum_valid.
Qed.
