(** Multiplications of bytes on the path kNeonDotprod compared with exact arithmetic and with the portable path. *)
From Coq Require Import ZArith List Bool Lia.
From Verif Require Import Base SidePair SpecArith SpecRound SpecMatrix SpecPack Mat Scalars IntOps MulParams Kernel TrMul TrMulMachine SpecMachine TrMulRun.
From Verif Require Import SpecMul SpecSimd SpecPackX86 SpecKernelNeon CpuInfo Tune NeonPack FloatNeonMul Neon8Mul SpecNeonMul Neon8MulProps MulProps X86MulExact SpecKernel.
Open Scope Z_scope.

Lemma once_is_nearest : forall x m e q, dot_fits x e -> exponent e -> rounded_once x m e q -> nearest_ties_up (x * m) (2 ^ (31 - e)) q.
Proof.
  intros x m e q (F1 & F2 & F3) He H. unfold rounded_once, neon_shifted in H. rewrite (wrap32_id _ F3) in H. unfold exponent in He.
  destruct (Z_le_gt_dec 0 e) as [L|L].
  - rewrite Z.max_l, (Z.max_r (- e) 1) in H by lia. change (2 ^ (31 + 1)) with (2 ^ 32) in H.
    assert (E : 2 ^ 32 = 2 ^ (31 - e) * 2 ^ (e + 1)) by (rewrite <- Z.pow_add_r by lia; f_equal; lia).
    assert (P1 : 0 < 2 ^ (e + 1)) by (apply Z.pow_pos_nonneg; lia). assert (P2 : 0 < 2 ^ (31 - e)) by (apply Z.pow_pos_nonneg; lia).
    unfold nearest_ties_up in *. rewrite E in H. clear - H P1 P2. generalize dependent (2 ^ (e + 1)). generalize dependent (2 ^ (31 - e)). intros. nia.
  - rewrite Z.max_r, (Z.max_l (- e) 1) in H by lia. change (2 ^ 0) with 1 in H. rewrite Z.mul_1_r in H. replace (31 - e) with (31 + - e) by lia. exact H.
Qed.

Section Exact.
Variables (c : config) (ci : circumstances) (st : sp ity) (dt : ity) (l r dst : mat Z) (mp : mul_params Z) (g : garbage Z).
Hypothesis C : dot_mul c st dt l r dst mp.
Hypothesis G : dot_garbage g.
Hypothesis CI : dot_circumstances ci.

Lemma dot_multipliers_valid : dt <> s32 -> forall i j, in_matrix (m_layout dst) i j ->
  fixed_point (multiplier_at mp i j) /\ exponent (exponent_at mp i j).
Proof.
  intros N i j (I1 & I2). pose proof (dm_multipliers _ _ _ _ _ _ _ C) as M. unfold multiplier_at, exponent_at. destruct (mp_perchannel mp); [|exact (M N)].
  destruct M as (_ & m & e & -> & -> & M). apply M. unfold channel_at, channel_count. destruct (mp_chan mp); assumption.
Qed.

Theorem dot_exact : dt <> s32 -> (forall i j, in_matrix (m_layout dst) i j -> dot_fits (exact_acc l r mp i j) (exponent_at mp i j)) ->
  forall sched, exists out, mul_dotprod c ci st dt g sched l r dst mp = Ok out /\
  forall x, out = Some x -> forall i j, in_matrix (m_layout dst) i j -> exact_result dt mp (m_zp dst) i j (exact_acc l r mp i j) (entry x i j).
Proof.
  intros N H sched. destruct (dot_computes c ci st dt l r dst mp g C G CI sched) as (out & R & P). exists out. split; [exact R|].
  intros x Ex i j I. destruct (P x Ex) as (_ & _ & _ & V & _). specialize (V i j I). destruct (dot_multipliers_valid N i j I) as (M1 & M2).
  assert (Ed : ity_eqb dt s32 = false) by (destruct (dm_dst _ _ _ _ _ _ _ C) as [E | [E | [E | E]]]; [rewrite E; reflexivity.. | congruence]).
  unfold neon_result in V. unfold exact_result, scaled_to. rewrite Ed in *. destruct V as (q & Q & Cq). exists q. split; [|exact Cq].
  exact (once_is_nearest _ _ _ _ (H i j I) M2 Q).
Qed.

Lemma dot_is_integer : integer_operands st (mk_sp s8 s8) l r.
Proof.
  split; [|exact (dm_values _ _ _ _ _ _ _ C)]. destruct (dm_types _ _ _ _ _ _ _ C) as (A & B). unfold byte_type in A, B.
  intros []; cbn [get lhs rhs]; [destruct A as [E | E] | destruct B as [E | E]]; rewrite E; (split; [reflexivity|unfold packed_as; auto]).
Qed.

(** The portable path stores the same entries. *)
Theorem dot_as_portable : forall c' dbg kl, valid_call c' (int_ops wrapping dbg st (mk_sp s8 s8) dt) kl l r dst mp ->
  (dt = s32 -> m_zp dst = 0 /\ mp_min mp = int_min /\ mp_max mp = int_max) ->
  (forall i j, in_matrix (m_layout dst) i j -> (dt <> s32 -> dot_fits (exact_acc l r mp i j) (exponent_at mp i j)) /\
     representable dt mp (m_zp dst) i j (exact_acc l r mp i j)) ->
  forall g' sched sched' x y, mul_dotprod c ci st dt g sched l r dst mp = Ok (Some x) ->
  mul c' (int_ops wrapping dbg st (mk_sp s8 s8) dt) kl g' sched' l r dst mp = Ok (Some y) ->
  forall i j, in_matrix (m_layout dst) i j -> entry x i j = entry y i j.
Proof.
  intros c' dbg kl V H32 H g' sched sched' x y Rx Ry i j I.
  destruct (wrapping_mul_exact c' dbg st (mk_sp s8 s8) dt kl l r dst mp dot_is_integer V (dm_bounds _ _ _ _ _ _ _ C) (fun i j I => proj2 (H i j I))) as (A & _).
  destruct (A g' sched') as (o & Eo & Ho). rewrite Ry in Eo. injection Eo as <-. specialize (Ho y eq_refl i j I).
  destruct (Z.eq_dec (it_bits dt) 32) as [Eb | Nb].
  - assert (E : dt = s32) by (destruct (dm_dst _ _ _ _ _ _ _ C) as [E | [E | [E | E]]]; [rewrite E in Eb; discriminate Eb .. | exact E]).
    destruct (dot_exact_int32 c ci st dt l r dst mp g C G CI E (fun i j I => proj1 (proj2 (H i j I))) sched) as (o & Eo' & Hx). rewrite Rx in Eo'. injection Eo' as <-.
    specialize (Hx x eq_refl i j I). destruct Ho as (s & Hs & Hc). unfold scaled_to in Hs. rewrite E in Hs. change (ity_eqb s32 s32) with true in Hs. cbv iota in Hs.
    destruct (H32 E) as (Z0 & B1 & B2). pose proof (proj1 (proj2 (H i j I))) as Ia. unfold is_i32 in Ia. unfold clamped in Hc. rewrite B1, B2, Z0 in Hc. lia.
  - assert (N : dt <> s32) by (intros E; rewrite E in Nb; apply Nb; reflexivity).
    destruct (dot_exact N (fun i j I => proj1 (H i j I) N) sched) as (o & Eo' & Hx). rewrite Rx in Eo'. injection Eo' as <-.
    specialize (Hx x eq_refl i j I). pose proof (proj2 (dot_multipliers_valid N i j I)) as He.
    apply (exact_result_unique dt mp (m_zp dst) i j (exact_acc l r mp i j)); [unfold exponent in He; lia | exact Hx | exact Ho].
Qed.
End Exact.
