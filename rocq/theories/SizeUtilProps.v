(** The helpers of size_util.h meet SpecArith. *)
From Verif Require Import Base SizeUtil SizeUtilFacts SpecArith.

Lemma log2_is_floor : forall n, 1 <= n -> is_floor_log2 n (Z.log2 n).
Proof.
  intros n Hn. split; [apply Z.log2_nonneg|]. pose proof (Z.log2_spec n ltac:(lia)) as H.
  rewrite <- Z.add_1_r in H. exact H.
Qed.

Lemma log2_up_is_ceil : forall n, 1 <= n -> is_ceil_log2 n (Z.log2_up n).
Proof.
  intros n Hn. split; [apply Z.log2_up_nonneg|]. split.
  - destruct (Z.eq_dec n 1) as [->|]; [vm_compute; discriminate|].
    pose proof (Z.log2_up_spec n ltac:(lia)). lia.
  - intros j Hj Hn2. apply Z.log2_up_le_pow2; lia.
Qed.

Lemma floor_log2_meets_spec : forall dbg w n, 0 < w -> 1 <= n <= 2 ^ (w - 1) - 1 ->
  exists k, floor_log2 dbg w n = Ok k /\ is_floor_log2 n k.
Proof.
  intros dbg w n Hw Hn. exists (Z.log2 n). split; [apply floor_log2_ok; auto|apply log2_is_floor; lia].
Qed.

Lemma ceil_log2_meets_spec : forall dbg w n, 0 < w -> 1 <= n <= 2 ^ (w - 1) - 1 ->
  exists k, ceil_log2 dbg w n = Ok k /\ is_ceil_log2 n k.
Proof.
  intros dbg w n Hw Hn. exists (Z.log2_up n). split; [apply ceil_log2_ok; auto|apply log2_up_is_ceil; lia].
Qed.

Lemma is_pot_meets_spec : forall n, is_pot n = true <-> power_of_two n.
Proof. exact is_pot_iff. Qed.

Lemma pot_log2_meets_spec : forall dbg w n, 1 <= n <= 2 ^ (w - 1) - 1 -> power_of_two n ->
  exists k, pot_log2 dbg w n = Ok k /\ n = 2 ^ k.
Proof.
  intros dbg w n Hn (k & Hk & ->). exists k. split; [|reflexivity].
  apply pot_log2_ok; auto.
  destruct (Z_lt_le_dec k (w - 1)) as [L|G]; auto. exfalso.
  destruct (Z_lt_le_dec (w - 1) 0).
  - rewrite (Z.pow_neg_r 2 (w - 1)) in Hn by lia. lia.
  - assert (2 ^ (w - 1) <= 2 ^ k) by (apply Z.pow_le_mono_r; lia). lia.
Qed.

Lemma round_down_pot_meets_spec : forall dbg v m, power_of_two m ->
  exists r, round_down_pot dbg v m = Ok r /\ is_round_down v m r.
Proof.
  intros dbg v m (k & Hk & ->). exists (v / 2 ^ k * 2 ^ k). split; [apply round_down_pot_ok; auto|].
  pose proof (pow2_pos k Hk). split; [apply Z.divide_factor_r|].
  pose proof (Z.div_mod v (2 ^ k) ltac:(lia)). pose proof (Z.mod_pos_bound v (2 ^ k) ltac:(lia)). lia.
Qed.

Lemma round_up_pot_meets_spec : forall dbg w v m, 0 < w -> power_of_two m -> 0 <= v ->
  v + m <= 2 ^ (w - 1) - 1 ->
  exists r, round_up_pot dbg w v m = Ok r /\ is_round_up v m r.
Proof.
  intros dbg w v m Hw (k & Hk & ->) Hv Hm. exists ((v + 2 ^ k - 1) / 2 ^ k * 2 ^ k).
  split; [apply round_up_pot_ok; auto|].
  pose proof (pow2_pos k Hk). split; [apply Z.divide_factor_r|].
  pose proof (Z.div_mod (v + 2 ^ k - 1) (2 ^ k) ltac:(lia)).
  pose proof (Z.mod_pos_bound (v + 2 ^ k - 1) (2 ^ k) ltac:(lia)). lia.
Qed.

Lemma round_down_pot1_meets_spec : forall dbg w n, 0 < w -> 1 <= n <= 2 ^ (w - 1) - 1 ->
  exists r, round_down_pot1 dbg w n = Ok r /\ power_of_two r /\
            forall p, power_of_two p -> p <= n -> p <= r.
Proof.
  intros dbg w n Hw Hn. exists (2 ^ Z.log2 n). split; [apply round_down_pot1_ok; auto|].
  split; [exists (Z.log2 n); split; auto using Z.log2_nonneg|].
  intros p (k & Hk & ->) Hp. apply Z.pow_le_mono_r; [lia|]. apply Z.log2_le_pow2; lia.
Qed.

Lemma round_up_pot1_meets_spec : forall dbg w n, 2 < w -> 1 <= n <= 2 ^ (w - 2) ->
  exists r, round_up_pot1 dbg w n = Ok r /\ power_of_two r /\ n <= r /\
            forall p, power_of_two p -> n <= p -> r <= p.
Proof.
  intros dbg w n Hw Hn. exists (2 ^ Z.log2_up n). split; [apply round_up_pot1_ok; auto|].
  split; [exists (Z.log2_up n); split; auto using Z.log2_up_nonneg|].
  split; [apply log2_up_is_ceil; lia|].
  intros p (k & Hk & ->) Hp. apply Z.pow_le_mono_r; [lia|]. apply Z.log2_up_le_pow2; lia.
Qed.

Lemma round_up_pot1_domain : forall dbg w n, 2 < w -> 2 ^ (w - 2) < n <= 2 ^ (w - 1) - 1 ->
  round_up_pot1 dbg w n = UB.
Proof. intros. apply round_up_pot1_overflow; auto. Qed.
