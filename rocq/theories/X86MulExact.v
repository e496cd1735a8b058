(** Multiplications on the x86 paths compared with exact arithmetic and with the portable path. *)
From Coq Require Import ZArith List Bool Lia.
From Verif Require Import Base SidePair SpecArith SpecRound SpecMatrix SpecPack Mat Scalars IntOps MulParams Kernel TrMul TrMulMachine SpecMachine TrMulRun.
From Verif Require Import SpecMul SpecSimd SpecKernel SpecPackX86 X86Mul SpecX86Mul X86MulProps MulProps.
Open Scope Z_scope.

Lemma wrap32_id : forall z, is_i32 z -> wrap_s 32 z = z.
Proof. intros z H. apply Base.wrap_s_id; [lia|]. unfold is_i32 in H. change (smin 32) with int_min. change (smax 32) with int_max. exact H. Qed.

(** There is a nearest integer. *)
Lemma nearest_exists : forall n d, 0 < d -> exists r, nearest_ties_up n d r.
Proof.
  intros n d H. exists ((2 * n + d) / (2 * d)). unfold nearest_ties_up.
  pose proof (Z.div_mod (2 * n + d) (2 * d) ltac:(lia)) as E. pose proof (Z.mod_pos_bound (2 * n + d) (2 * d) ltac:(lia)) as B. nia.
Qed.

Lemma nearest_unique : forall n d r s, 0 < d -> nearest_ties_up n d r -> nearest_ties_up n d s -> r = s.
Proof. unfold nearest_ties_up. intros. nia. Qed.

Lemma clamp_exists : forall lo hi a, exists v, clamped lo hi a v.
Proof.
  intros lo hi a. unfold clamped. destruct (Z_lt_ge_dec hi lo); [exists lo; lia|]. destruct (Z_lt_ge_dec a lo); [exists lo; lia|].
  destruct (Z_lt_ge_dec hi a); [exists hi; lia | exists a; lia].
Qed.

(** Rounding twice gives the nearest integer, or one more. *)
Lemma twice_near : forall x m e q s, entry_fits x e -> fixed_point m -> exponent e ->
  twice_rounded x m e q -> nearest_ties_up (x * m) (2 ^ (31 - e)) s ->
  s <= q <= s + 1 /\ (0 <= e -> q = s).
Proof.
  intros x m e q s (F1 & F2 & F3) Hm He (p & Hp & Hq) Hs. unfold shifted_left in Hp. rewrite (wrap32_id _ F3) in Hp.
  destruct (Z_le_gt_dec 0 e) as [Le | Lt].
  - rewrite Z.max_r in Hq by lia. rewrite Z.max_l in Hp by exact Le. change (2 ^ 0) with 1 in Hq.
    assert (Eq : q = p) by (unfold nearest_ties_up in Hq; lia). subst q.
    assert (E : 2 ^ 31 = 2 ^ (31 - e) * 2 ^ e) by (rewrite <- Z.pow_add_r by lia; f_equal; lia).
    assert (P1 : 0 < 2 ^ e) by (apply Z.pow_pos_nonneg; lia). assert (P2 : 0 < 2 ^ (31 - e)) by (apply Z.pow_pos_nonneg; lia).
    assert (p = s); [|lia].
    apply (nearest_unique (x * m) (2 ^ (31 - e))); [exact P2 | | exact Hs].
    unfold nearest_ties_up in *. rewrite E in Hp. generalize dependent (2 ^ e). generalize dependent (2 ^ (31 - e)). intros. nia.
  - rewrite Z.max_l in Hq by lia. rewrite Z.max_r in Hp by lia. change (2 ^ 0) with 1 in Hp. rewrite Z.mul_1_r in Hp.
    split; [|lia].
    assert (E : 2 ^ (31 - e) = 2 ^ 31 * 2 ^ (- e)) by (rewrite <- Z.pow_add_r by lia; f_equal; lia).
    assert (P : 2 <= 2 ^ (- e)) by (change 2 with (2 ^ 1) at 1; apply Z.pow_le_mono_r; lia).
    rewrite E in Hs. clear E. unfold nearest_ties_up in *. revert Hq Hs P. generalize (2 ^ (- e)). intros h Hq Hs P. change (2 ^ 31) with 2147483648 in *.
    set (n := x * m) in *. clearbody n. rewrite <- !Z.mul_assoc in Hs.
    assert (A1 : h * (2 * s - 1) < h * (2 * q + 1)) by lia. assert (A2 : h * (2 * q - 1) <= h * (2 * s + 1)) by lia.
    split; [apply Z.mul_lt_mono_pos_l in A1; lia | apply Z.mul_le_mono_pos_l in A2; lia].
Qed.

Lemma nearest_bounded : forall x m e q, is_i32 x -> fixed_point m -> e < 0 -> exponent e ->
  twice_rounded x m e q -> - 2 ^ 30 - 1 <= q <= 2 ^ 30 + 1.
Proof.
  intros x m e q Hx Hm Hn He T. unfold exponent in He. replace e with (- (- e)) in T by lia.
  exact (Kernel8bitPortable.right_bounded x m (- e) q Hx Hm ltac:(lia) T).
Qed.

(** The result of an entry and the exact one. *)
Lemma result_near : forall dt mp dzp i j acc v, dt <> s32 -> dt = u8 \/ dt = s8 \/ dt = s16 \/ dt = s32 ->
  it_lo dt <= dzp <= it_hi dt -> fixed_point (multiplier_at mp i j) -> exponent (exponent_at mp i j) ->
  entry_fits acc (exponent_at mp i j) -> representable dt mp dzp i j acc ->
  vector_result dt mp dzp i j acc v ->
  exists v0, exact_result dt mp dzp i j acc v0 /\ v0 <= v <= v0 + 1 /\ (0 <= exponent_at mp i j -> v = v0).
Proof.
  intros dt mp dzp i j acc v N TD Hz Hm He F (_ & _ & s & Hs & Is & Iz) H.
  assert (Ed : ity_eqb dt s32 = false) by (destruct TD as [E | [E | [E | E]]]; [rewrite E; reflexivity.. | congruence]).
  unfold vector_result in H. unfold exact_result, scaled_to in *. rewrite Ed in *. destruct H as (q & Tq & Cq).
  destruct (twice_near _ _ _ _ _ F Hm He Tq Hs) as (B1 & B2).
  destruct (clamp_exists (mp_min mp) (mp_max mp) (s + dzp)) as (v0 & C0). exists v0. split; [exists s; split; assumption|].
  assert (W : wrap_s 32 (q + dzp) = q + dzp).
  { apply wrap32_id. destruct (Z_le_gt_dec 0 (exponent_at mp i j)) as [Le | Lt]; [rewrite (B2 Le); exact Iz|].
    assert (L0 : exponent_at mp i j < 0) by lia. pose proof (nearest_bounded _ _ _ _ (proj1 F) Hm L0 He Tq) as Bq. assert (B : -32768 <= dzp <= 65536).
    { destruct TD as [E | [E | [E | E]]]; [rewrite E in Hz; clear - Hz; cbn in Hz; lia .. | congruence]. }
    unfold is_i32, int_min, int_max. change (2 ^ 30) with 1073741824 in Bq. lia. }
  rewrite W in Cq. unfold clamped in *. split; [|intros Le; rewrite (B2 Le) in Cq]; clear - Cq C0 B1; lia.
Qed.

Section Exact.
Variables (c : config) (p : x86_path) (st : sp ity) (dt : ity) (l r dst : mat Z) (mp : mul_params Z).
Hypothesis C : vector_mul c p st dt l r dst mp.

Lemma multipliers_valid : dt <> s32 -> forall i j, in_matrix (m_layout dst) i j ->
  fixed_point (multiplier_at mp i j) /\ exponent (exponent_at mp i j).
Proof.
  intros N i j (I1 & I2). pose proof (vm_multipliers _ _ _ _ _ _ _ _ C) as M. unfold multiplier_at, exponent_at. destruct (mp_perchannel mp); [|exact (M N)].
  destruct M as (_ & m & e & -> & -> & M). apply M. unfold channel_at, channel_count. destruct (mp_chan mp); assumption.
Qed.

Theorem x86_exact_int32 : dt = s32 -> (forall i j, in_matrix (m_layout dst) i j -> is_i32 (exact_acc l r mp i j)) ->
  forall g, vector_garbage (ml_order (m_layout dst)) st g ->
  forall sched, exists out, mul_x86 c p st dt g sched l r dst mp = Ok out /\
  forall x, out = Some x -> forall i j, in_matrix (m_layout dst) i j -> entry x i j = exact_acc l r mp i j.
Proof.
  intros E H g G sched. destruct (x86_computes c p st dt l r dst mp g C G sched) as (out & R & P). exists out. split; [exact R|].
  intros x Ex i j I. destruct (P x Ex) as (_ & _ & _ & V & _). specialize (V i j I). unfold vector_result in V. rewrite E in V.
  change (ity_eqb s32 s32) with true in V. cbv iota in V. rewrite V. apply wrap32_id. apply H. exact I.
Qed.

Theorem x86_near_exact : dt <> s32 -> it_lo dt <= m_zp dst <= it_hi dt ->
  (forall i j, in_matrix (m_layout dst) i j -> entry_fits (exact_acc l r mp i j) (exponent_at mp i j) /\
     representable dt mp (m_zp dst) i j (exact_acc l r mp i j)) ->
  forall g, vector_garbage (ml_order (m_layout dst)) st g ->
  forall sched, exists out, mul_x86 c p st dt g sched l r dst mp = Ok out /\
  forall x, out = Some x -> forall i j, in_matrix (m_layout dst) i j ->
    exists v, exact_result dt mp (m_zp dst) i j (exact_acc l r mp i j) v /\
      v <= entry x i j <= v + 1 /\ (0 <= exponent_at mp i j -> entry x i j = v).
Proof.
  intros N Hz H g G sched. destruct (x86_computes c p st dt l r dst mp g C G sched) as (out & R & P). exists out. split; [exact R|].
  intros x Ex i j I. destruct (P x Ex) as (_ & _ & _ & V & _). destruct (multipliers_valid N i j I) as (M1 & M2). destruct (H i j I) as (H1 & H2).
  exact (result_near dt mp (m_zp dst) i j _ _ N (vm_dst _ _ _ _ _ _ _ _ C) Hz M1 M2 H1 H2 (V i j I)).
Qed.

Lemma exact_result_unique : forall dzp i j acc v w, exponent_at mp i j <= 31 -> exact_result dt mp dzp i j acc v -> exact_result dt mp dzp i j acc w -> v = w.
Proof.
  intros dzp i j acc v w He (s & S1 & C1) (t & T1 & C2). assert (s = t) as ->.
  { unfold scaled_to in *. destruct (ity_eqb dt s32); [congruence|]. eapply nearest_unique; [|exact S1|exact T1]. apply Z.pow_pos_nonneg; lia. }
  unfold clamped in *. lia.
Qed.

Lemma vector_is_integer : integer_operands st (vector_types st) l r.
Proof.
  split; [|exact (vm_values _ _ _ _ _ _ _ _ C)]. pose proof (vm_types _ _ _ _ _ _ _ _ C) as T. unfold vector_operands, bytes in T.
  assert (A : (lhs st = s8 \/ lhs st = u8 \/ lhs st = s16) /\ (rhs st = s8 \/ rhs st = u8 \/ rhs st = s16)) by (destruct (ml_order (m_layout dst)); tauto).
  destruct A as (A & B). unfold vector_types, packed_as.
  intros []; cbn [get lhs rhs]; [destruct A as [E | [E | E]] | destruct B as [E | [E | E]]]; rewrite E; cbn; split; auto; reflexivity.
Qed.

(** Against the portable path, with the blocks [kl], any memory and any schedules. *)
Theorem x86_near_portable : forall c' dbg kl, valid_call c' (int_ops wrapping dbg st (vector_types st) dt) kl l r dst mp ->
  it_lo dt <= m_zp dst <= it_hi dt -> (dt = s32 -> m_zp dst = 0 /\ mp_min mp = int_min /\ mp_max mp = int_max) ->
  (forall i j, in_matrix (m_layout dst) i j -> (dt <> s32 -> entry_fits (exact_acc l r mp i j) (exponent_at mp i j)) /\
     representable dt mp (m_zp dst) i j (exact_acc l r mp i j)) ->
  forall g g' sched sched' x y, vector_garbage (ml_order (m_layout dst)) st g ->
  mul_x86 c p st dt g sched l r dst mp = Ok (Some x) ->
  mul c' (int_ops wrapping dbg st (vector_types st) dt) kl g' sched' l r dst mp = Ok (Some y) ->
  forall i j, in_matrix (m_layout dst) i j -> entry y i j <= entry x i j <= entry y i j + 1 /\
    (dt = s32 \/ 0 <= exponent_at mp i j -> entry x i j = entry y i j).
Proof.
  intros c' dbg kl V Hz H32 H g g' sched sched' x y G Rx Ry i j I.
  destruct (wrapping_mul_exact c' dbg st (vector_types st) dt kl l r dst mp vector_is_integer V (vm_bounds _ _ _ _ _ _ _ _ C) (fun i j I => proj2 (H i j I))) as (A & _).
  destruct (A g' sched') as (o & Eo & Ho). rewrite Ry in Eo. injection Eo as <-. specialize (Ho y eq_refl i j I).
  destruct (Z.eq_dec (it_bits dt) 32) as [Eb | Nb].
  - assert (E : dt = s32) by (destruct (vm_dst _ _ _ _ _ _ _ _ C) as [E | [E | [E | E]]]; [rewrite E in Eb; discriminate Eb .. | exact E]).
    destruct (x86_exact_int32 E (fun i j I => proj1 (proj2 (H i j I))) g G sched) as (o & Eo' & Hx). rewrite Rx in Eo'. injection Eo' as <-.
    specialize (Hx x eq_refl i j I). destruct Ho as (s & Hs & Hc). unfold scaled_to in Hs. rewrite E in Hs. change (ity_eqb s32 s32) with true in Hs. cbv iota in Hs.
    destruct (H32 E) as (Z0 & B1 & B2). pose proof (proj1 (proj2 (H i j I))) as Ia. unfold is_i32 in Ia. unfold clamped in Hc. rewrite B1, B2, Z0 in Hc. lia.
  - assert (N : dt <> s32) by (intros E; rewrite E in Nb; apply Nb; reflexivity).
    destruct (x86_near_exact N Hz (fun i j I => conj (proj1 (H i j I) N) (proj2 (H i j I))) g G sched) as (o & Eo' & Hx). rewrite Rx in Eo'. injection Eo' as <-.
    destruct (Hx x eq_refl i j I) as (v & Hv & B1 & B2). pose proof (proj2 (multipliers_valid N i j I)) as He.
    assert (v = entry y i j) as -> by (apply (exact_result_unique (m_zp dst) i j (exact_acc l r mp i j)); [unfold exponent in He; lia | exact Hv | exact Ho]).
    split; [exact B1|]. intros [E | Le]; [contradiction | apply B2; exact Le].
Qed.
End Exact.
