(** Multiplications of floats that are small integers times powers of two are exact on every path. *)
From Coq Require Import ZArith List Bool Lia SpecFloat.
From Verif Require Import Base SidePair SpecArith SizeUtil SizeUtilFacts SpecMatrix SpecPack BlockMap SpecBlockMap Mat MatFacts Scalars Pack PackFacts PackProps
  MulParams Kernel KernelFacts FloatOps FloatFacts TrMul TrMulFacts FrontEndFacts EntryFacts TrMulMachine SpecMachine TrMulRun SpecRound SpecMul RunFacts MulFacts MulProps
  FloatMulProps SimdFloat X86Mul FloatX86Mul SpecFloatX86 FloatX86Props FloatX86More SpecFloatExact FloatExact.
Import ListNotations.
Open Scope Z_scope.

(** ** Sums *)
Lemma sum_of_snoc : forall f n, 0 <= n -> sum_of f (n + 1) = sum_of f n + f n.
Proof. intros f n Hn. unfold sum_of. rewrite zrange_snoc by lia. rewrite fold_left_app. reflexivity. Qed.
Lemma sum_of_empty : forall f, sum_of f 0 = 0.
Proof. intros f. unfold sum_of. rewrite zrange_nil by lia. reflexivity. Qed.

Lemma sum_of_abs : forall f n, 0 <= n -> 0 <= sum_of (fun k => Z.abs (f k)) n /\ Z.abs (sum_of f n) <= sum_of (fun k => Z.abs (f k)) n.
Proof.
  intros f n Hn. pattern n. apply natlike_ind; [|clear n Hn; intros n Hn IH|exact Hn].
  - rewrite !sum_of_empty. lia.
  - unfold Z.succ. rewrite !sum_of_snoc by lia. lia.
Qed.
Lemma sum_of_mono : forall f n m, 0 <= n <= m -> sum_of (fun k => Z.abs (f k)) n <= sum_of (fun k => Z.abs (f k)) m.
Proof.
  intros f n m [Hn Hm]. replace m with (n + (m - n)) by lia. assert (H : 0 <= m - n) by lia. revert H. generalize (m - n). clear m Hm. intros m Hm.
  pattern m. apply natlike_ind; [|clear m Hm; intros m Hm IH|exact Hm].
  - rewrite Z.add_0_r. lia.
  - replace (n + Z.succ m) with ((n + m) + 1) by lia. rewrite sum_of_snoc by lia. lia.
Qed.

(** ** Accumulation *)
Definition exact_step (step : spec_float -> spec_float -> spec_float -> spec_float) : Prop := forall x y c a b s e f,
  is_number 24 128 x a e -> is_number 24 128 y b f -> is_number 24 128 c s (e + f) ->
  Z.abs (a * b) <= 2 ^ 24 -> Z.abs (a * b + s) <= 2 ^ 24 -> -149 <= e + f <= 103 -> c <> S754_zero true ->
  is_number 24 128 (step x y c) (a * b + s) (e + f) /\ step x y c <> S754_zero true.

Lemma step_exact : forall p, exact_step (vector_step p).
Proof.
  intros p x y c a b s e f N1 N2 N3 B1 B2 [H1 H2] Hc.
  destruct p; unfold vector_step; [apply mul_add_exact|apply fused_exact..]; try assumption; unfold emin; lia.
Qed.

Lemma fold_exact : forall step x y a b e f n start c0, exact_step step -> 0 <= n -> -149 <= e + f <= 103 ->
  (forall k, 0 <= k < n -> is_number 24 128 (x k) (a k) e) -> (forall k, 0 <= k < n -> is_number 24 128 (y k) (b k) f) ->
  is_number 24 128 start c0 (e + f) -> start <> S754_zero true ->
  sum_of (fun k => Z.abs (a k * b k)) n + Z.abs c0 <= 2 ^ 24 ->
  is_number 24 128 (fold_left (fun acc k => step (x k) (y k) acc) (zrange 0 n) start) (sum_of (fun k => a k * b k) n + c0) (e + f) /\
  fold_left (fun acc k => step (x k) (y k) acc) (zrange 0 n) start <> S754_zero true.
Proof.
  intros step x y a b e f n start c0 St Hn Hs Nx Ny Nc Hc B.
  assert (G : forall m, 0 <= m -> m <= n ->
    is_number 24 128 (fold_left (fun acc k => step (x k) (y k) acc) (zrange 0 m) start) (sum_of (fun k => a k * b k) m + c0) (e + f) /\
    fold_left (fun acc k => step (x k) (y k) acc) (zrange 0 m) start <> S754_zero true); [|apply G; lia].
  intros m Hm. pattern m. apply natlike_ind; [| |exact Hm].
  - intros _. rewrite zrange_nil by lia. rewrite sum_of_empty. split; assumption.
  - clear m Hm. intros m Hm IH L. unfold Z.succ in *. destruct IH as (I1 & I2); [lia|]. rewrite zrange_snoc by lia. rewrite fold_left_app. cbn [fold_left].
    rewrite sum_of_snoc by lia. set (acc := fold_left _ _ start) in *. clearbody acc.
    pose proof (sum_of_mono (fun k => a k * b k) (m + 1) n ltac:(lia)) as M. cbv beta in M. rewrite sum_of_snoc in M by lia. cbv beta in M.
    pose proof (sum_of_abs (fun k => a k * b k) m Hm) as [P0 P]. cbv beta in P0, P.
    replace (sum_of (fun k => a k * b k) m + a m * b m + c0) with (a m * b m + (sum_of (fun k => a k * b k) m + c0)) by lia.
    apply St; try assumption; [apply Nx; lia|apply Ny; lia|lia|lia].
Qed.

Lemma read_number : forall p o x z e, is_number 24 128 x z e -> is_number 24 128 (vector_read p o x) z e.
Proof. intros p o x z e H. destruct p, o; try exact H. destruct x; exact H. Qed.

(** ** The x86 paths *)
Lemma x86_exact : forall cf p l r dst mp a b c e f, float_vector_mul cf p l r dst mp ->
  scaled_integers l r dst mp a b c e f -> small_sums l r dst a b c ->
  forall g sched x, mul_float_x86 cf p g sched l r dst mp = Ok (Some x) -> forall i j, in_matrix (m_layout dst) i j ->
  exists v, is_number 24 128 v (integer_entry r a b c i j) (e + f) /\ v <> S754_zero true /\ entry x i j = vector_clamp (mp_min mp) (mp_max mp) v.
Proof.
  intros cf p l r dst mp a b c e f C SI SM g sched x E i j I. destruct (completed _ _ _ _ _ _ C _ _ _ E) as (_ & _ & _ & Hx & _). rewrite Hx by exact I.
  destruct (call_shapes _ _ _ _ _ _ C) as (S1 & S2 & S3). pose proof (vc_nonempty _ _ _ _ _ _ _ (fv_call _ _ _ _ _ _ C)) as (_ & _ & Dp).
  destruct (si_bias _ _ _ _ _ _ _ _ _ SI i j I) as (Nb & Zb). specialize (SM i j I). pose proof I as (Ii & Ij).
  exists (vector_dot p l r (float_bias mp i j) i j). unfold float_entry, integer_entry, vector_dot.
  destruct (fold_exact (vector_step p) (fun k => vector_read p (flipped (ml_order (m_layout l))) (entry l i k)) (fun k => vector_read p (ml_order (m_layout r)) (entry r k j))
    (fun k => a i k) (fun k => b k j) e f (ml_rows (m_layout r)) (float_bias mp i j) (c i j)) as (F1 & F2); try assumption.
  - apply step_exact.
  - lia.
  - apply (si_scale _ _ _ _ _ _ _ _ _ SI).
  - intros k Hk. apply read_number. apply (si_lhs _ _ _ _ _ _ _ _ _ SI). split; lia.
  - intros k Hk. apply read_number. apply (si_rhs _ _ _ _ _ _ _ _ _ SI). split; lia.
  - split; [exact F1|]. split; [exact F2|]. reflexivity.
Qed.

(** ** The portable path *)
Lemma portable_exact : forall cf kl l r dst mp a b c e f, valid_call cf f32_ops kl l r dst mp -> m_zp l = 0 -> m_zp r = 0 -> m_zp dst = 0 ->
  scaled_integers l r dst mp a b c e f -> small_sums l r dst a b c ->
  forall g sched x, mul cf f32_ops kl g sched l r dst mp = Ok (Some x) -> forall i j, in_matrix (m_layout dst) i j ->
  exists v, is_number 24 128 v (integer_entry r a b c i j) (e + f) /\ v <> S754_zero true /\ entry x i j = fmax (fmin v (mp_max mp)) (mp_min mp).
Proof.
  intros cf kl l r dst mp a b c e f C Zl Zr Zd SI SM g sched x E.
  pose proof (valid_call_ok _ _ _ _ _ _ _ _ C) as CO. pose proof (vc_shapes _ _ _ _ _ _ _ C) as (S1 & S2 & S3). pose proof (vc_nonempty _ _ _ _ _ _ _ C) as (_ & _ & Dp).
  pose proof (vc_params _ _ _ _ _ _ _ C) as VP.
  set (s := fun i j => plain_dot PathAvx l r (S754_zero false) i j).
  set (v := fun i j => match mp_bias mp with None => s i j | Some bb => fadd 24 128 (s i j) (bdat bb (channel_at mp i j)) end).
  assert (NV : forall i j, in_matrix (m_layout dst) i j -> is_number 24 128 (v i j) (integer_entry r a b c i j) (e + f) /\ v i j <> S754_zero true).
  { intros i j I. destruct (si_bias _ _ _ _ _ _ _ _ _ SI i j I) as (Nb & Zb). pose proof (SM i j I) as B. pose proof I as (Ii & Ij). pose proof (si_scale _ _ _ _ _ _ _ _ _ SI) as Sc.
    destruct (fold_exact (vector_step PathAvx) (fun k => entry l i k) (fun k => entry r k j)
      (fun k => a i k) (fun k => b k j) e f (ml_rows (m_layout r)) (S754_zero false) 0) as (F1 & F2).
    - apply step_exact.
    - lia.
    - exact Sc.
    - intros k Hk. apply (si_lhs _ _ _ _ _ _ _ _ _ SI). split; lia.
    - intros k Hk. apply (si_rhs _ _ _ _ _ _ _ _ _ SI). split; lia.
    - split; reflexivity.
    - discriminate.
    - cbv beta. lia.
    - change (fold_left _ _ _) with (s i j) in F1, F2. rewrite Z.add_0_r in F1. unfold v, integer_entry. unfold float_bias in *. destruct (mp_bias mp) as [bb|].
      + pose proof (sum_of_abs (fun k => a i k * b k j) (ml_rows (m_layout r)) ltac:(lia)) as [P0 P]. cbv beta in P0, P.
        destruct (add_exact 24 128 ltac:(lia) _ _ _ _ _ F1 Nb) as (A1 & A2); [lia|unfold emin; lia|lia|]. split; [exact A1|]. apply A2. left. exact F2.
      + assert (Q : c i j = 0) by (destruct Nb as [_ Nb]; exact Nb). rewrite Q, Z.add_0_r. split; assumption. }
  assert (RE : forall i j, inside (m_layout dst) i j -> ref_entry f32_ops l r mp (m_zp dst) i j = Ok (fmax (fmin (v i j) (mp_max mp)) (mp_min mp))).
  { intros i j (Ii & Ij). unfold ref_entry. rewrite ref_accum_plain; [|apply (ca_l _ _ _ _ _ _ _ CO)|apply (ca_r _ _ _ _ _ _ _ CO)|assumption..|lia|lia|lia].
    fold (s i j). cbn [bind]. assert (I : in_matrix (m_layout dst) i j) by (split; assumption).
    assert (AB : add_bias f32_ops mp (channel_of mp i j) (s i j) = Ok (v i j)).
    { unfold v, add_bias. destruct (mp_bias mp) as [bb|] eqn:Eb; [|reflexivity].
      destruct VP as (P0 & _ & P). pose proof (round_up_is (channel_count mp (m_layout dst)) (2 ^ mp_rounding_log2 mp) ltac:(apply pow2_pos; lia)) as R.
      destruct (P _ R) as (A & _). destruct (A bb Eb) as [L _].
      pose proof (round_up_spec (channel_count mp (m_layout dst)) (2 ^ mp_rounding_log2 mp) ltac:(apply pow2_pos; lia)) as [U _].
      unfold channel_count in *. unfold channel_of, channel_at. rewrite bread_ok by (destruct (mp_chan mp); lia). cbn [bind o_add f32_ops float_ops]. reflexivity. }
    rewrite AB. cbn [bind]. unfold finish, apply_multiplier. cbn [o_quant f32_ops float_ops bind o_add_dst_zp o_min o_max o_store].
    rewrite Zd. change (f_of_Z 24 128 0) with fzero. unfold fzero. destruct (NV i j I) as (N1 & N2). rewrite add_zero_ok; [reflexivity|].
    apply valid_acc_ok; [apply N1|exact N2]. }
  destruct (reference_ok f32_ops l r mp dst (fun i j => fmax (fmin (v i j) (mp_max mp)) (mp_min mp)) (ca_d _ _ _ _ _ _ _ CO) ltac:(lia) ltac:(lia) RE) as (ref & Er & R1 & R2 & (W1 & W2 & W3)).
  destruct (float_mul_is_reference 24 128 4 ltac:(lia) cf kl l r dst mp C Zl Zr) as (ref' & Er' & M & _).
  fold f32_ops in Er'. rewrite Er in Er'. injection Er' as <-.
  destruct (M g sched) as (out & Eo & Ho). fold f32_ops in Eo. rewrite E in Eo. injection Eo as <-. destruct (Ho x eq_refl) as (X1 & _ & _ & X4).
  intros i j I. exists (v i j). destruct (NV i j I) as (N1 & N2). split; [exact N1|]. split; [exact N2|].
  assert (EE : entry x i j = entry ref i j) by (unfold entry; rewrite X1, X4; reflexivity). rewrite EE.
  unfold entry. rewrite position_off, R1. apply W2. exact I.
Qed.

(** ** All paths agree *)
Lemma exact_value_unique : forall v w z e, is_number 24 128 v z e -> is_number 24 128 w z e -> v <> S754_zero true -> w <> S754_zero true -> v = w.
Proof.
  intros v w z e N1 N2 Z1 Z2. destruct (Z.eq_dec z 0) as [->|Hz]; [|apply (number_unique 24 128 v w z e Hz N1 N2)].
  apply number_zero in N1. apply number_zero in N2. destruct N1 as (s & ->). destruct N2 as (t & ->). destruct s, t; congruence.
Qed.

Lemma number_not_nan : forall v z e, is_number 24 128 v z e -> v <> S754_nan.
Proof. intros v z e [_ N] ->. exact N. Qed.

Lemma x86_paths_agree : forall cf cf' p p' l l' r r' dst dst' mp a b c e f,
  float_vector_mul cf p l r dst mp -> float_vector_mul cf' p' l' r' dst' mp ->
  scaled_integers l r dst mp a b c e f -> scaled_integers l' r' dst' mp a b c e f -> ml_rows (m_layout r) = ml_rows (m_layout r') ->
  small_sums l r dst a b c -> small_sums l' r' dst' a b c ->
  forall g g' sched sched' x y, mul_float_x86 cf p g sched l r dst mp = Ok (Some x) -> mul_float_x86 cf' p' g' sched' l' r' dst' mp = Ok (Some y) ->
  forall i j, in_matrix (m_layout dst) i j -> in_matrix (m_layout dst') i j -> entry x i j = entry y i j.
Proof.
  intros cf cf' p p' l l' r r' dst dst' mp a b c e f C C' SI SI' Ed SM SM' g g' sched sched' x y E E' i j I I'.
  destruct (x86_exact _ _ _ _ _ _ _ _ _ _ _ C SI SM _ _ _ E i j I) as (v & V1 & V2 & ->).
  destruct (x86_exact _ _ _ _ _ _ _ _ _ _ _ C' SI' SM' _ _ _ E' i j I') as (w & W1 & W2 & ->).
  unfold integer_entry in *. rewrite <- Ed in W1. rewrite (exact_value_unique v w _ _ V1 W1 V2 W2). reflexivity.
Qed.

Lemma portable_agrees : forall cf cf' p kl l l' r r' dst dst' mp a b c e f,
  float_vector_mul cf p l r dst mp -> valid_call cf' f32_ops kl l' r' dst' mp -> m_zp l' = 0 -> m_zp r' = 0 -> m_zp dst' = 0 ->
  plain_bound (mp_min mp) -> plain_bound (mp_max mp) ->
  scaled_integers l r dst mp a b c e f -> scaled_integers l' r' dst' mp a b c e f -> ml_rows (m_layout r) = ml_rows (m_layout r') ->
  small_sums l r dst a b c -> small_sums l' r' dst' a b c ->
  forall g g' sched sched' x y, mul_float_x86 cf p g sched l r dst mp = Ok (Some x) -> mul cf' f32_ops kl g' sched' l' r' dst' mp = Ok (Some y) ->
  forall i j, in_matrix (m_layout dst) i j -> in_matrix (m_layout dst') i j -> entry x i j = entry y i j.
Proof.
  intros cf cf' p kl l l' r r' dst dst' mp a b c e f C C' Zl Zr Zd Bl Bh SI SI' Ed SM SM' g g' sched sched' x y E E' i j I I'.
  destruct (x86_exact _ _ _ _ _ _ _ _ _ _ _ C SI SM _ _ _ E i j I) as (v & V1 & V2 & ->).
  destruct (portable_exact _ _ _ _ _ _ _ _ _ _ _ C' Zl Zr Zd SI' SM' _ _ _ E' i j I') as (w & W1 & W2 & ->).
  unfold integer_entry in *. rewrite <- Ed in W1. rewrite (exact_value_unique v w _ _ V1 W1 V2 W2). apply clamp_ref; try assumption. apply (number_not_nan _ _ _ W1).
Qed.

(** Without clamping the entries are the exact product. *)
Lemma x86_unclamped : forall cf p l r dst mp a b c e f, float_vector_mul cf p l r dst mp ->
  mp_min mp = S754_infinity true -> mp_max mp = S754_infinity false ->
  scaled_integers l r dst mp a b c e f -> small_sums l r dst a b c ->
  forall g sched x, mul_float_x86 cf p g sched l r dst mp = Ok (Some x) -> forall i j, in_matrix (m_layout dst) i j ->
  is_number 24 128 (entry x i j) (integer_entry r a b c i j) (e + f) /\ entry x i j <> S754_zero true.
Proof.
  intros cf p l r dst mp a b c e f C Hl Hh SI SM g sched x E i j I. destruct (x86_exact _ _ _ _ _ _ _ _ _ _ _ C SI SM _ _ _ E i j I) as (v & V1 & V2 & ->).
  rewrite Hl, Hh. assert (Q : vector_clamp (S754_infinity true) (S754_infinity false) v = v) by (destruct V1 as [_ V1]; destruct v as [s| | |s m q]; try contradiction; destruct s; reflexivity).
  rewrite Q. split; assumption.
Qed.
