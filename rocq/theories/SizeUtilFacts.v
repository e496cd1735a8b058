(** Lemmas about the model of size_util.h. *)
From Verif Require Import Base SizeUtil.

Lemma pow2_pos : forall s, 0 <= s -> 0 < 2 ^ s.
Proof. intros; apply Z.pow_pos_nonneg; lia. Qed.

Lemma clz_spec : forall k n, 0 < n < 2 ^ Z.of_nat k ->
  count_leading_zeros k n = Z.of_nat k - 1 - Z.log2 n.
Proof.
  induction k as [|k IH]; intros n Hn.
  - change (2 ^ Z.of_nat 0) with 1 in Hn. lia.
  - cbn [count_leading_zeros].
    destruct (Z.testbit n (Z.of_nat k)) eqn:E.
    + assert (Z.of_nat k <= Z.log2 n).
      { destruct (Z_lt_le_dec (Z.log2 n) (Z.of_nat k)); auto.
        rewrite Z.bits_above_log2 in E; lia. }
      assert (Z.log2 n < Z.of_nat (S k)) by (apply Z.log2_lt_pow2; lia). lia.
    + assert (Hlt : n < 2 ^ Z.of_nat k).
      { apply Z.log2_lt_pow2; [lia|].
        assert (Z.log2 n < Z.of_nat (S k)) by (apply Z.log2_lt_pow2; lia).
        destruct (Z.eq_dec (Z.log2 n) (Z.of_nat k)); [|lia].
        rewrite <- e, Z.bit_log2 in E by lia. discriminate. }
      rewrite IH by lia. lia.
Qed.

Lemma builtin_clz_ok : forall w n, 0 < w -> 0 < n < 2 ^ w ->
  builtin_clz w n = Ok (w - 1 - Z.log2 n).
Proof.
  intros w n Hw Hn. unfold builtin_clz, wrap_u.
  rewrite Z.mod_small by lia.
  replace (n =? 0) with false by lia.
  rewrite clz_spec; rewrite Z2Nat.id by lia; [reflexivity|lia].
Qed.

Lemma smax_lt_pow : forall w n, 0 < w -> n <= smax w -> n < 2 ^ (w - 1).
Proof. unfold smax; intros; lia. Qed.

Lemma pow_w_split : forall w, 0 < w -> 2 ^ w = 2 * 2 ^ (w - 1).
Proof. intros. rewrite <- Z.pow_succ_r by lia. f_equal; lia. Qed.

Lemma floor_log2_ok : forall dbg w n, 0 < w -> 1 <= n <= smax w ->
  floor_log2 dbg w n = Ok (Z.log2 n).
Proof.
  intros dbg w n Hw Hn. unfold floor_log2.
  rewrite dcheck_ok by lia. cbn [bind].
  pose proof (smax_lt_pow w n Hw ltac:(lia)).
  rewrite builtin_clz_ok; [|lia|rewrite pow_w_split by lia; lia].
  cbn [bind]. f_equal; lia.
Qed.

Lemma ceil_log2_ok : forall dbg w n, 0 < w -> 1 <= n <= smax w ->
  ceil_log2 dbg w n = Ok (Z.log2_up n).
Proof.
  intros dbg w n Hw Hn. unfold ceil_log2.
  rewrite dcheck_ok by lia. cbn [bind].
  destruct (n =? 1) eqn:E.
  - assert (n = 1) by lia. subst. reflexivity.
  - assert (In : in_s w (n - 1) = true).
    { unfold in_s, smin, smax in *. assert (0 < 2 ^ (w - 1)) by (apply pow2_pos; lia). lia. }
    rewrite In, floor_log2_ok by lia. cbn [bind].
    rewrite Z.log2_up_eqn by lia. reflexivity.
Qed.

Lemma land_pred_pow2 : forall k, 0 <= k -> Z.land (2 ^ k) (2 ^ k - 1) = 0.
Proof.
  intros k Hk. replace (2 ^ k - 1) with (Z.ones k) by (rewrite Z.ones_equiv; lia).
  rewrite Z.land_ones by lia. apply Z.mod_same. pose proof (pow2_pos k); lia.
Qed.

(** [is_pot] is exactly "is a power of two". *)
Lemma is_pot_iff : forall n, is_pot n = true <-> exists k, 0 <= k /\ n = 2 ^ k.
Proof.
  intros n; unfold is_pot; split.
  - intros H. assert (Hp : 0 < n) by lia.
    assert (Hl : Z.land n (n - 1) = 0) by lia.
    exists (Z.log2 n). split; [apply Z.log2_nonneg|].
    destruct (Z.log2_spec n Hp) as [H1 H2].
    destruct (Z.eq_dec n (2 ^ Z.log2 n)) as [|Hne]; auto. exfalso.
    assert (T : Z.testbit (Z.land n (n - 1)) (Z.log2 n) = true).
    { rewrite Z.land_spec. rewrite Z.bit_log2 by lia.
      assert (E : Z.log2 (n - 1) = Z.log2 n).
      { apply Z.log2_unique; [apply Z.log2_nonneg|]. rewrite Z.pow_succ_r in * by apply Z.log2_nonneg. lia. }
      rewrite <- E. rewrite Z.bit_log2; auto.
      assert (0 < 2 ^ Z.log2 n) by (apply pow2_pos, Z.log2_nonneg). lia. }
    rewrite Hl, Z.testbit_0_l in T. discriminate.
  - intros (k & Hk & ->). pose proof (pow2_pos k Hk).
    rewrite land_pred_pow2 by auto. lia.
Qed.

Lemma is_pot_pow2 : forall k, 0 <= k -> is_pot (2 ^ k) = true.
Proof. intros. apply is_pot_iff. eauto. Qed.

Lemma pot_log2_ok : forall dbg w k, 0 <= k -> k < w - 1 ->
  pot_log2 dbg w (2 ^ k) = Ok k.
Proof.
  intros dbg w k Hk Hw. unfold pot_log2.
  rewrite dcheck_ok by (apply is_pot_pow2; auto). cbn [bind].
  rewrite floor_log2_ok; [rewrite Z.log2_pow2 by lia; reflexivity|lia|].
  pose proof (pow2_pos k Hk). unfold smax.
  assert (2 ^ k < 2 ^ (w - 1)) by (apply Z.pow_lt_mono_r; lia). lia.
Qed.

Lemma land_lnot_pow2 : forall v k, 0 <= k ->
  Z.land v (Z.lnot (2 ^ k - 1)) = v / 2 ^ k * 2 ^ k.
Proof.
  intros v k Hk.
  replace (2 ^ k - 1) with (Z.ones k) by (rewrite Z.ones_equiv; lia).
  rewrite <- Z.ldiff_land, Z.ldiff_ones_r by lia.
  rewrite Z.shiftl_mul_pow2, Z.shiftr_div_pow2 by lia. reflexivity.
Qed.

Lemma round_down_pot_ok : forall dbg v k, 0 <= k ->
  round_down_pot dbg v (2 ^ k) = Ok (v / 2 ^ k * 2 ^ k).
Proof.
  intros. unfold round_down_pot. rewrite land_pred_pow2 by auto.
  rewrite dcheck_ok by lia. cbn [bind]. rewrite land_lnot_pow2 by auto. reflexivity.
Qed.

Lemma round_up_pot_ok : forall dbg w v k, 0 < w -> 0 <= k ->
  0 <= v -> v + 2 ^ k <= smax w ->
  round_up_pot dbg w v (2 ^ k) = Ok ((v + 2 ^ k - 1) / 2 ^ k * 2 ^ k).
Proof.
  intros dbg w v k Hw Hk Hv Hm. unfold round_up_pot.
  pose proof (pow2_pos k Hk).
  assert (0 < 2 ^ (w - 1)) by (apply pow2_pos; lia).
  replace (in_s w (v + 2 ^ k) && in_s w (v + 2 ^ k - 1)) with true
    by (unfold in_s, smin, smax in *; lia).
  apply round_down_pot_ok; auto.
Qed.

Lemma round_down_pot1_ok : forall dbg w n, 0 < w -> 1 <= n <= smax w ->
  round_down_pot1 dbg w n = Ok (2 ^ Z.log2 n).
Proof.
  intros dbg w n Hw Hn. unfold round_down_pot1.
  rewrite floor_log2_ok by auto. cbn [bind]. unfold one_shl.
  assert (Z.log2 n < w - 1).
  { apply Z.log2_lt_pow2; [lia|]. unfold smax in Hn. lia. }
  pose proof (Z.log2_nonneg n).
  replace (_ && _) with true by lia. reflexivity.
Qed.

Lemma round_up_pot1_ok : forall dbg w n, 2 < w -> 1 <= n <= 2 ^ (w - 2) ->
  round_up_pot1 dbg w n = Ok (2 ^ Z.log2_up n).
Proof.
  intros dbg w n Hw Hn. unfold round_up_pot1.
  assert (E : 2 ^ (w - 1) = 2 * 2 ^ (w - 2)).
  { rewrite <- Z.pow_succ_r by lia. f_equal; lia. }
  assert (0 < 2 ^ (w - 2)) by (apply pow2_pos; lia).
  rewrite ceil_log2_ok by (unfold smax; lia). cbn [bind]. unfold one_shl.
  assert (Z.log2_up n <= w - 2) by (apply Z.log2_up_le_pow2; lia).
  pose proof (Z.log2_up_nonneg n).
  replace (_ && _) with true by lia. reflexivity.
Qed.

(** Above 2^(w-2) rounding up to a power of two does not fit the type. *)
Lemma round_up_pot1_overflow : forall dbg w n, 2 < w -> 2 ^ (w - 2) < n <= smax w ->
  round_up_pot1 dbg w n = UB.
Proof.
  intros dbg w n Hw Hn. unfold round_up_pot1.
  assert (0 < 2 ^ (w - 2)) by (apply pow2_pos; lia).
  rewrite ceil_log2_ok by lia. cbn [bind]. unfold one_shl.
  assert (w - 2 < Z.log2_up n) by (apply Z.log2_up_lt_pow2; lia).
  replace (_ && _) with false by lia. reflexivity.
Qed.



Lemma floor_log2_zero_ub : forall w, floor_log2 false w 0 = UB.
Proof.
  intros. unfold floor_log2, builtin_clz, wrap_u, dcheck; cbn [bind andb].
  rewrite Zmod_0_l. reflexivity.
Qed.
