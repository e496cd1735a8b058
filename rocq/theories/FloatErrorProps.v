(** How far multiplications of floats are from the exact product, on every path. *)
From Coq Require Import ZArith List Bool Lia SpecFloat.
From Verif Require Import Base SidePair SpecArith SizeUtil SizeUtilFacts SpecMatrix SpecPack BlockMap SpecBlockMap Mat MatFacts Scalars Pack PackFacts PackProps
  MulParams Kernel KernelFacts FloatOps FloatFacts TrMul TrMulFacts FrontEndFacts EntryFacts TrMulMachine SpecMachine TrMulRun SpecRound SpecMul RunFacts MulFacts MulProps
  FloatMulProps SimdFloat X86Mul FloatX86Mul SpecFloatX86 FloatX86Props FloatX86More SpecFloatExact FloatExact FloatExactProps SpecFloatRound FloatRound SpecFloatError FloatError FloatClamp.
Import ListNotations.
Open Scope Z_scope.

(** ** The x86 paths *)
Lemma x86_error : forall cf p l r dst mp a b c, float_vector_mul cf p l r dst mp -> finite_values l r dst mp a b c ->
  forall g sched x, mul_float_x86 cf p g sched l r dst mp = Ok (Some x) ->
  forall i j, in_matrix (m_layout dst) i j -> no_overflow (roundings p (ml_rows (m_layout r))) (magnitude r a b c i j) ->
  exists v V, is_number 24 128 v V (-149) /\ within (roundings p (ml_rows (m_layout r))) (magnitude r a b c i j) (exact_entry r a b c i j) V /\
  entry x i j = vector_clamp (mp_min mp) (mp_max mp) v.
Proof.
  intros cf p l r dst mp a b c C FV g sched x E i j I O. destruct (completed _ _ _ _ _ _ C _ _ _ E) as (_ & _ & _ & Hx & _). rewrite Hx by exact I.
  destruct (call_shapes _ _ _ _ _ _ C) as (S1 & S2 & S3). pose proof (vc_nonempty _ _ _ _ _ _ _ (fv_call _ _ _ _ _ _ C)) as (_ & _ & Dp).
  pose proof (fv_bias _ _ _ _ _ _ _ FV i j I) as Nb. pose proof I as (Ii & Ij).
  exists (vector_dot p l r (float_bias mp i j) i j). unfold float_entry, vector_dot.
  set (X := fun k => vector_read p (flipped (ml_order (m_layout l))) (entry l i k)). set (Y := fun k => vector_read p (ml_order (m_layout r)) (entry r k j)).
  assert (NX : forall k, 0 <= k < ml_rows (m_layout r) -> is_number 24 128 (X k) (a i k) (-149)) by (intros k Hk; apply read_number, (fv_lhs _ _ _ _ _ _ _ FV); split; lia).
  assert (NY : forall k, 0 <= k < ml_rows (m_layout r) -> is_number 24 128 (Y k) (b k j) (-149)) by (intros k Hk; apply read_number, (fv_rhs _ _ _ _ _ _ _ FV); split; lia).
  unfold magnitude, exact_entry in *. assert (D0 : 0 <= ml_rows (m_layout r)) by lia.
  assert (G : exists V, is_number 24 128 (fold_left (fun acc k => vector_step p (X k) (Y k) acc) (zrange 0 (ml_rows (m_layout r))) (float_bias mp i j)) V (-149) /\
    within (roundings p (ml_rows (m_layout r))) (sum_of (fun k => Z.abs (a i k * b k j)) (ml_rows (m_layout r)) + Z.abs (c i j) * 2 ^ 149 + ml_rows (m_layout r) * 2 ^ 172)
      (sum_of (fun k => a i k * b k j) (ml_rows (m_layout r)) + c i j * 2 ^ 149) V).
  { destruct p; [apply (rounded_sum X Y (fun k => a i k) (fun k => b k j)); assumption|apply (fused_sum X Y (fun k => a i k) (fun k => b k j)); assumption..]. }
  destruct G as (V & V1 & V2). exists V. split; [exact V1|]. split; [exact V2|reflexivity].
Qed.

(** ** The portable path *)
Definition portable_value (l r : mat spec_float) (mp : mul_params spec_float) (i j : Z) : spec_float :=
  let s := plain_dot PathAvx l r (S754_zero false) i j in
  match mp_bias mp with None => s | Some b => fadd 24 128 s (bdat b (channel_at mp i j)) end.

Lemma portable_entry : forall cf kl l r dst mp, valid_call cf f32_ops kl l r dst mp -> m_zp l = 0 -> m_zp r = 0 -> m_zp dst = 0 ->
  forall g sched x, mul cf f32_ops kl g sched l r dst mp = Ok (Some x) -> forall i j, in_matrix (m_layout dst) i j ->
  entry x i j = fmax (fmin (fadd 24 128 (portable_value l r mp i j) (S754_zero false)) (mp_max mp)) (mp_min mp).
Proof.
  intros cf kl l r dst mp C Zl Zr Zd g sched x E.
  pose proof (valid_call_ok _ _ _ _ _ _ _ _ C) as CO. pose proof (vc_shapes _ _ _ _ _ _ _ C) as (S1 & S2 & S3). pose proof (vc_nonempty _ _ _ _ _ _ _ C) as (_ & _ & Dp).
  pose proof (vc_params _ _ _ _ _ _ _ C) as VP.
  set (F := fun i j => fmax (fmin (fadd 24 128 (portable_value l r mp i j) (S754_zero false)) (mp_max mp)) (mp_min mp)).
  assert (RE : forall i j, inside (m_layout dst) i j -> ref_entry f32_ops l r mp (m_zp dst) i j = Ok (F i j)).
  { intros i j (Ii & Ij). unfold ref_entry. rewrite ref_accum_plain; [|apply (ca_l _ _ _ _ _ _ _ CO)|apply (ca_r _ _ _ _ _ _ _ CO)|assumption..|lia|lia|lia].
    cbn [bind].
    assert (AB : add_bias f32_ops mp (channel_of mp i j) (plain_dot PathAvx l r (S754_zero false) i j) = Ok (portable_value l r mp i j)).
    { unfold portable_value, add_bias. destruct (mp_bias mp) as [bb|] eqn:Eb; [|reflexivity].
      destruct VP as (P0 & _ & P). pose proof (round_up_is (channel_count mp (m_layout dst)) (2 ^ mp_rounding_log2 mp) ltac:(apply pow2_pos; lia)) as R.
      destruct (P _ R) as (A & _). destruct (A bb Eb) as [L _].
      pose proof (round_up_spec (channel_count mp (m_layout dst)) (2 ^ mp_rounding_log2 mp) ltac:(apply pow2_pos; lia)) as [U _].
      unfold channel_count in *. unfold channel_of, channel_at. rewrite bread_ok by (destruct (mp_chan mp); lia). cbn [bind o_add f32_ops float_ops]. reflexivity. }
    rewrite AB. cbn [bind]. unfold finish, apply_multiplier. cbn [o_quant f32_ops float_ops bind o_add_dst_zp o_min o_max o_store].
    rewrite Zd. reflexivity. }
  destruct (reference_ok f32_ops l r mp dst F (ca_d _ _ _ _ _ _ _ CO) ltac:(lia) ltac:(lia) RE) as (ref & Er & R1 & R2 & (W1 & W2 & W3)).
  destruct (float_mul_is_reference 24 128 4 ltac:(lia) cf kl l r dst mp C Zl Zr) as (ref' & Er' & M & _).
  fold f32_ops in Er'. rewrite Er in Er'. injection Er' as <-.
  destruct (M g sched) as (out & Eo & Ho). fold f32_ops in Eo. rewrite E in Eo. injection Eo as <-. destruct (Ho x eq_refl) as (X1 & _ & _ & X4).
  intros i j I. assert (EE : entry x i j = entry ref i j) by (unfold entry; rewrite X1, X4; reflexivity). rewrite EE.
  unfold entry. rewrite position_off, R1. apply W2. exact I.
Qed.

Lemma add_zero_number : forall v V, is_number 24 128 v V (-149) -> is_number 24 128 (fadd 24 128 v (S754_zero false)) V (-149).
Proof. intros v V [N1 N2]. destruct v as [s| | |s m e]; try contradiction; [subst V; destruct s; split; reflexivity|split; assumption]. Qed.

Lemma portable_error : forall cf kl l r dst mp a b c, valid_call cf f32_ops kl l r dst mp -> m_zp l = 0 -> m_zp r = 0 -> m_zp dst = 0 -> finite_values l r dst mp a b c ->
  forall g sched x, mul cf f32_ops kl g sched l r dst mp = Ok (Some x) ->
  forall i j, in_matrix (m_layout dst) i j -> no_overflow (ml_rows (m_layout r) + 2) (magnitude r a b c i j) ->
  exists v V, is_number 24 128 v V (-149) /\ within (ml_rows (m_layout r) + 2) (magnitude r a b c i j) (exact_entry r a b c i j) V /\
  entry x i j = fmax (fmin v (mp_max mp)) (mp_min mp).
Proof.
  intros cf kl l r dst mp a b c C Zl Zr Zd FV g sched x E i j I O. rewrite (portable_entry _ _ _ _ _ _ C Zl Zr Zd _ _ _ E i j I).
  pose proof (vc_shapes _ _ _ _ _ _ _ C) as (S1 & S2 & S3). pose proof (vc_nonempty _ _ _ _ _ _ _ C) as (_ & _ & Dp).
  exists (fadd 24 128 (portable_value l r mp i j) (S754_zero false)). pose proof (fv_bias _ _ _ _ _ _ _ FV i j I) as Nb. pose proof I as (Ii & Ij).
  unfold portable_value, plain_dot. unfold magnitude, exact_entry in *. set (n := ml_rows (m_layout r)) in *.
  assert (NX : forall k, 0 <= k < n -> is_number 24 128 (entry l i k) (a i k) (-149)) by (intros k Hk; apply (fv_lhs _ _ _ _ _ _ _ FV); split; lia).
  assert (NY : forall k, 0 <= k < n -> is_number 24 128 (entry r k j) (b k j) (-149)) by (intros k Hk; apply (fv_rhs _ _ _ _ _ _ _ FV); split; lia).
  set (t := sum_of (fun k => a i k * b k j) n) in *. set (w := sum_of (fun k => Z.abs (a i k * b k j)) n) in *.
  assert (TW : 0 <= w /\ Z.abs t <= w) by (apply (sum_of_abs (fun k => a i k * b k j) n); lia).
  assert (R : exists V, is_number 24 128 (fold_left (fun acc k => vector_step PathAvx (entry l i k) (entry r k j) acc) (zrange 0 n) (S754_zero false)) V (-149) /\ within (n + 1) (w + n * 2 ^ 172) t V).
  { destruct (rounded_sum (fun k => entry l i k) (fun k => entry r k j) (fun k => a i k) (fun k => b k j) n (S754_zero false) 0) as (V & V1 & V2); try assumption; [lia|apply zero_error| |].
    - apply (no_overflow_mono _ (n + 2) _ (w + Z.abs (c i j) * 2 ^ 149 + n * 2 ^ 172)); [lia|fold w; lia|exact O].
    - fold w t in V2. rewrite !Z.mul_0_l, !Z.add_0_r in V2. exists V. split; [exact V1|exact V2]. }
  destruct R as (V & V1 & V2). set (s := fold_left _ _ _) in *. clearbody s. unfold float_bias in Nb. destruct (mp_bias mp) as [bb|].
  - destruct (bias_error (n + 1) (w + n * 2 ^ 172) t V (c i j) s (bdat bb (channel_at mp i j))) as (V' & B1 & B2); try assumption; try lia.
    + replace (n + 1 + 1) with (n + 2) by lia. replace (w + n * 2 ^ 172 + Z.abs (c i j) * 2 ^ 149) with (w + Z.abs (c i j) * 2 ^ 149 + n * 2 ^ 172) by lia. exact O.
    + exists V'. split; [apply add_zero_number; exact B1|]. split; [|reflexivity]. replace (n + 1 + 1) with (n + 2) in B2 by lia.
      replace (w + n * 2 ^ 172 + Z.abs (c i j) * 2 ^ 149) with (w + Z.abs (c i j) * 2 ^ 149 + n * 2 ^ 172) in B2 by lia. exact B2.
  - assert (Q : c i j = 0) by (destruct Nb as [_ Nb]; exact Nb). exists V. split; [apply add_zero_number; exact V1|]. split; [|reflexivity].
    rewrite Q. apply (within_mono (n + 1) _ (w + n * 2 ^ 172)); [lia|lia|]. replace (t + 0 * 2 ^ 149) with t by lia. exact V2.
Qed.

(** ** The simpler bound, unclamped *)
Lemma x86_error_simple : forall cf p l r dst mp a b c, float_vector_mul cf p l r dst mp -> finite_values l r dst mp a b c ->
  mp_min mp = S754_infinity true -> mp_max mp = S754_infinity false -> ml_rows (m_layout r) < 2 ^ 23 ->
  forall g sched x, mul_float_x86 cf p g sched l r dst mp = Ok (Some x) ->
  forall i j, in_matrix (m_layout dst) i j -> magnitude r a b c i j < 2 ^ 425 ->
  exists V, is_number 24 128 (entry x i j) V (-149) /\
  2 ^ 23 * Z.abs (V * 2 ^ 149 - exact_entry r a b c i j) <= (ml_rows (m_layout r) + 1) * magnitude r a b c i j.
Proof.
  intros cf p l r dst mp a b c C FV Hl Hh Hd g sched x E i j I M.
  pose proof (vc_nonempty _ _ _ _ _ _ _ (fv_call _ _ _ _ _ _ C)) as (_ & _ & Dp). destruct (call_shapes _ _ _ _ _ _ C) as (S1 & S2 & S3).
  set (n := ml_rows (m_layout r)) in *. set (w := magnitude r a b c i j) in *. assert (R : 0 <= roundings p n <= n + 1) by (unfold roundings; destruct p; lia).
  assert (W0 : 0 <= w). { unfold w, magnitude. fold n. pose proof (sum_of_abs (fun k => a i k * b k j) n ltac:(lia)) as [P _]. cbv beta in P. lia. }
  assert (O : no_overflow (roundings p n) w).
  { apply (no_overflow_mono _ (n + 1) _ w); [lia|lia|]. unfold no_overflow.
    assert (G : (2 ^ 24 + 1) ^ (n + 1) <= 2 * (2 ^ 24) ^ (n + 1)).
    { assert (H : forall k, 0 <= k -> k <= 2 ^ 23 -> (2 ^ 24 + 1) ^ k <= 2 * (2 ^ 24) ^ k); [|apply H; lia]. intros k K0 K1. pose proof (powers k K0) as (P1 & _).
      destruct (Z.eq_dec k 0) as [->|Kn]; [rewrite !Z.pow_0_r; lia|].
      pose proof (within_simple k ((2 ^ 24) ^ k) (- ((2 ^ 24 + 1) ^ k - (2 ^ 24) ^ k)) 0 ltac:(lia) ltac:(lia)) as Q. unfold within in Q. rewrite Z.mul_0_l in Q.
      rewrite Z.sub_opp_r, Z.add_0_l, Z.abs_eq in Q by lia. specialize (Q ltac:(lia)). nia. }
    assert (P : 0 < (2 ^ 24) ^ (n + 1)) by (apply Z.pow_pos_nonneg; lia). set (P1 := (2 ^ 24 + 1) ^ (n + 1)) in *. set (Q1 := (2 ^ 24) ^ (n + 1)) in *.
    change (2 ^ 426) with (2 * 2 ^ 425). clear - G P M W0. clearbody P1 Q1. set (h := 2 ^ 425) in *. clearbody h. nia. }
  destruct (x86_error _ _ _ _ _ _ _ _ _ C FV _ _ _ E i j I O) as (v & V & V1 & V2 & ->). exists V. rewrite Hl, Hh.
  assert (Q : vector_clamp (S754_infinity true) (S754_infinity false) v = v) by (destruct V1 as [_ V1]; destruct v as [s| | |s m q]; try contradiction; destruct s; reflexivity).
  rewrite Q. split; [exact V1|]. apply (within_mono _ (n + 1) _ w) in V2; [|exact R|lia]. apply within_simple in V2; [exact V2|lia|exact W0].
Qed.

(** ** Two paths *)
Lemma paths_close : forall cf cf' p p' l l' r r' dst dst' mp a b c,
  float_vector_mul cf p l r dst mp -> float_vector_mul cf' p' l' r' dst' mp -> finite_values l r dst mp a b c -> finite_values l' r' dst' mp a b c ->
  ml_rows (m_layout r) = ml_rows (m_layout r') -> mp_min mp = S754_infinity true -> mp_max mp = S754_infinity false -> ml_rows (m_layout r) < 2 ^ 23 ->
  forall g g' sched sched' x y, mul_float_x86 cf p g sched l r dst mp = Ok (Some x) -> mul_float_x86 cf' p' g' sched' l' r' dst' mp = Ok (Some y) ->
  forall i j, in_matrix (m_layout dst) i j -> in_matrix (m_layout dst') i j -> magnitude r a b c i j < 2 ^ 425 ->
  exists V V', is_number 24 128 (entry x i j) V (-149) /\ is_number 24 128 (entry y i j) V' (-149) /\
  2 ^ 22 * Z.abs (V - V') * 2 ^ 149 <= (ml_rows (m_layout r) + 1) * magnitude r a b c i j.
Proof.
  intros cf cf' p p' l l' r r' dst dst' mp a b c C C' FV FV' Er Hl Hh Hd g g' sched sched' x y E E' i j I I' M.
  destruct (x86_error_simple _ _ _ _ _ _ _ _ _ C FV Hl Hh Hd _ _ _ E i j I M) as (V & V1 & V2).
  unfold magnitude, exact_entry in *. rewrite Er in *.
  destruct (x86_error_simple _ _ _ _ _ _ _ _ _ C' FV' Hl Hh Hd _ _ _ E' i j I' M) as (V' & V1' & V2'). unfold magnitude, exact_entry in V2'.
  exists V, V'. split; [exact V1|]. split; [exact V1'|]. lia.
Qed.

(** ** Clamped *)
Lemma x86_error_clamped : forall cf p l r dst mp a b c lo hi, float_vector_mul cf p l r dst mp -> finite_values l r dst mp a b c ->
  is_number 24 128 (mp_min mp) lo (-149) -> is_number 24 128 (mp_max mp) hi (-149) ->
  forall g sched x, mul_float_x86 cf p g sched l r dst mp = Ok (Some x) ->
  forall i j, in_matrix (m_layout dst) i j -> no_overflow (roundings p (ml_rows (m_layout r))) (magnitude r a b c i j) ->
  exists V, is_number 24 128 (entry x i j) V (-149) /\ lo <= V /\ (lo <= hi -> V <= hi) /\
  within (roundings p (ml_rows (m_layout r))) (magnitude r a b c i j) (Z.max (lo * 2 ^ 149) (Z.min (exact_entry r a b c i j) (hi * 2 ^ 149))) V.
Proof.
  intros cf p l r dst mp a b c lo hi C FV Nl Nh g sched x E i j I O. destruct (x86_error _ _ _ _ _ _ _ _ _ C FV _ _ _ E i j I O) as (v & V & V1 & V2 & ->).
  pose proof (vc_nonempty _ _ _ _ _ _ _ (fv_call _ _ _ _ _ _ C)) as (_ & _ & Dp). destruct (call_shapes _ _ _ _ _ _ C) as (S1 & S2 & S3).
  exists (Z.max lo (Z.min V hi)). split; [apply clamp_number; [lia|lia|assumption..]|]. split; [lia|]. split; [lia|].
  apply clamp_within; [unfold roundings; destruct p; lia|exact V2].
Qed.

Lemma portable_error_clamped : forall cf kl l r dst mp a b c lo hi, valid_call cf f32_ops kl l r dst mp -> m_zp l = 0 -> m_zp r = 0 -> m_zp dst = 0 -> finite_values l r dst mp a b c ->
  is_number 24 128 (mp_min mp) lo (-149) -> is_number 24 128 (mp_max mp) hi (-149) ->
  forall g sched x, mul cf f32_ops kl g sched l r dst mp = Ok (Some x) ->
  forall i j, in_matrix (m_layout dst) i j -> no_overflow (ml_rows (m_layout r) + 2) (magnitude r a b c i j) ->
  exists V, is_number 24 128 (entry x i j) V (-149) /\ lo <= V /\ (lo <= hi -> V <= hi) /\
  within (ml_rows (m_layout r) + 2) (magnitude r a b c i j) (Z.max (lo * 2 ^ 149) (Z.min (exact_entry r a b c i j) (hi * 2 ^ 149))) V.
Proof.
  intros cf kl l r dst mp a b c lo hi C Zl Zr Zd FV Nl Nh g sched x E i j I O. destruct (portable_error _ _ _ _ _ _ _ _ _ C Zl Zr Zd FV _ _ _ E i j I O) as (v & V & V1 & V2 & ->).
  pose proof (vc_nonempty _ _ _ _ _ _ _ C) as (_ & _ & Dp). pose proof (vc_shapes _ _ _ _ _ _ _ C) as (S1 & S2 & S3).
  exists (Z.max lo (Z.min V hi)). split; [apply ref_clamp_number; [lia|lia|assumption..]|]. split; [lia|]. split; [lia|].
  apply clamp_within; [lia|exact V2].
Qed.
