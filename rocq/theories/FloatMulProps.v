(** Floating-point multiplications against the reference, and integer multiplications
    with undefined signed overflow against exact arithmetic. *)
From Coq Require Import SpecFloat.
From Verif Require Import Base SidePair SpecArith SizeUtil SizeUtilFacts SpecMatrix SpecPack BlockMap SpecBlockMap
  Mat MatFacts Scalars Pack PackFacts PackProps MulParams Kernel KernelFacts TrMul TrMulFacts ChannelFacts FrontEndFacts
  Multiplier IntOps SpecRound FinishProps IntEntryFacts EntryFacts
  TrMulMachine SpecMachine TrMulRun RunFacts MulFacts SpecMul FloatOps FloatFacts MulProps.

Lemma bias_reads : forall {V} (o : ops V) mp (dst : mat_layout) i j, valid_params o mp (channel_count mp dst) -> in_matrix dst i j ->
  forall a, exists v, add_bias o mp (channel_of mp i j) a = (match mp_bias mp with None => Ok a | Some _ => o_add o a v end).
Proof.
  intros V o mp dst i j (P0 & _ & P) [I J] a. unfold add_bias. destruct (mp_bias mp) as [b|] eqn:E; [|exists a; reflexivity].
  pose proof (round_up_is (channel_count mp dst) (2 ^ mp_rounding_log2 mp) ltac:(apply pow2_pos; lia)) as R.
  destruct (P _ R) as (A & _). destruct (A b eq_refl) as [L _].
  pose proof (round_up_spec (channel_count mp dst) (2 ^ mp_rounding_log2 mp) ltac:(apply pow2_pos; lia)) as [U _].
  unfold channel_count in *. unfold channel_of.
  rewrite bread_ok by (destruct (mp_chan mp); lia). cbn [bind]. eauto.
Qed.

Section Floats.
Variables (prec emax size : Z).
Hypothesis Hp : 1 <= prec.
Notation o := (float_ops prec emax size).
Variables (c : config) (kl : sp kernel_layout) (l r dst : mat spec_float) (mp : mul_params spec_float).
Hypothesis H : valid_call c o kl l r dst mp.

Lemma float_kr_pos : 0 < kl_rows (lhs kl).
Proof using H. destruct (wc_kernels _ _ _ _ _ _ _ (vc_well_formed _ _ _ _ _ _ _ H)) as ((P & _) & _). apply power_of_two_pos. exact P. Qed.

(** The reference computes every entry. *)
Lemma float_ref_entry_ok : forall i j, in_matrix (m_layout dst) i j -> exists v, ref_entry o l r mp (m_zp dst) i j = Ok v.
Proof using H.
  intros i j I. pose proof (valid_call_ok _ _ _ _ _ _ _ _ H) as C. pose proof (vc_params _ _ _ _ _ _ _ H) as P.
  unfold ref_entry. assert (A : exists a, ref_accum o l r i j = Ok a).
  { destruct C. unfold ref_accum.
    destruct (forto_inv (fun _ _ => True) (fun k accum =>
       lv <- element l i k ;; rv <- element r k j ;;
       a <- o_ref_sub_zp o Lhs (o_to_acc o Lhs lv) (m_zp l) ;; b <- o_ref_sub_zp o Rhs (o_to_acc o Rhs rv) (m_zp r) ;;
       p <- o_mul o a b ;; o_add o accum p) 0 (ml_cols (m_layout l)) (o_acc0 o)) as (v & E & _); [lia|exact Logic.I|..|eauto].
    intros k a Hk _. destruct I as [I J]. rewrite !element_ok by (auto; lia). eexists. split; [reflexivity|auto]. }
  destruct A as (a & ->). cbn [bind]. destruct (bias_reads o mp (m_layout dst) i j P I a) as (v & ->).
  destruct (mp_bias mp); cbn [o_add float_ops bind]; unfold finish, apply_multiplier; cbn [o_quant float_ops bind o_add_dst_zp];
    eexists; reflexivity.
Qed.

Lemma float_mul_is_reference : m_zp l = 0 -> m_zp r = 0 ->
  exists ref, reference_mul o l r mp dst = Ok ref /\
  (forall g sched, exists out, mul c o kl g sched l r dst mp = Ok out /\ forall x, out = Some x -> same_matrix x ref) /\
  (forall g sched, fair (c_max_threads c) sched ->
     exists n x, mul c o kl g (prefix sched n) l r dst mp = Ok (Some x) /\ same_matrix x ref).
Proof using Hp H.
  intros Zl Zr. pose proof (valid_call_ok _ _ _ _ _ _ _ _ H) as C. pose proof float_kr_pos as K.
  pose proof (vc_shapes _ _ _ _ _ _ _ H) as (S1 & S2 & S3).
  destruct (reference_ok o l r mp dst (fun i j => match ref_entry o l r mp (m_zp dst) i j with Ok v => v | _ => fzero end))
    as (ref & E & _); [destruct C; assumption|lia|lia| |].
  - intros i j I. destruct (float_ref_entry_ok i j I) as (v & ->). reflexivity.
  - exists ref. split; [exact E|]. apply (agree_forward _ c o o kl l r dst mp H ref); auto.
    + intros s x. apply float_sums_ok.
    + intros i j v [I J] Ev. destruct C. rewrite float_mul_entry; auto; lia.
Qed.
End Floats.

Lemma ref_entry_same : forall {V} (o : ops V) l l' r r' mp dzp i j, mat_ok l -> mat_ok l' -> mat_ok r -> mat_ok r' ->
  same_entries l l' -> same_entries r r' ->
  ml_cols (m_layout l) = ml_rows (m_layout r) -> 0 <= i < ml_rows (m_layout l) -> 0 <= j < ml_cols (m_layout r) ->
  ref_entry o l r mp dzp i j = ref_entry o l' r' mp dzp i j.
Proof.
  intros V o l l' r r' mp dzp i j M1 M2 M3 M4 (L1 & L2 & L3 & L4) (R1 & R2 & R3 & R4) Ed I J. unfold ref_entry.
  replace (ref_accum o l' r' i j) with (ref_accum o l r i j); [reflexivity|].
  unfold ref_accum. rewrite <- L2, <- L3, <- R3. apply forto_ext. intros k a Hk.
  rewrite !element_ok by (auto; lia). rewrite <- !entry_ent, (L4 i k), (R4 k j) by (split; lia). reflexivity.
Qed.

(** Storage orders, strides, kernel layouts and configurations do not matter. *)
Lemma float_storage_irrelevant : forall prec emax size c1 c2 kl1 kl2 l1 l2 r1 r2 dst1 dst2 mp g1 g2 s1 s2 x,
  1 <= prec -> let o := float_ops prec emax size in
  valid_call c1 o kl1 l1 r1 dst1 mp -> valid_call c2 o kl2 l2 r2 dst2 mp ->
  m_zp l1 = 0 -> m_zp r1 = 0 -> same_entries l1 l2 -> same_entries r1 r2 -> m_zp dst1 = m_zp dst2 ->
  mul c1 o kl1 g1 s1 l1 r1 dst1 mp = Ok (Some x) ->
  exists out, mul c2 o kl2 g2 s2 l2 r2 dst2 mp = Ok out /\
    forall y, out = Some y -> forall i j, in_matrix (m_layout dst1) i j -> entry y i j = entry x i j.
Proof.
  intros prec emax size c1 c2 kl1 kl2 l1 l2 r1 r2 dst1 dst2 mp g1 g2 s1 s2 x Hp o H1 H2 Zl Zr Hl Hr Hz E.
  pose proof (vc_shapes _ _ _ _ _ _ _ H1) as (A1 & A2 & A3). pose proof (vc_shapes _ _ _ _ _ _ _ H2) as (B1 & B2 & B3).
  pose proof Hl as (L1 & L2 & L3 & _). pose proof Hr as (R1 & R2 & R3 & _).
  pose proof (float_kr_pos _ _ _ _ _ _ _ _ _ H1) as K1. pose proof (float_kr_pos _ _ _ _ _ _ _ _ _ H2) as K2.
  apply (calls_agree c1 c2 o o kl1 kl2 l1 l2 r1 r2 dst1 dst2 mp g1 g2 s1 s2 x H1 H2); auto; try congruence.
  - intros i j v [I J] Ev. destruct (valid_call_ok _ _ _ _ _ _ _ _ H1), (valid_call_ok _ _ _ _ _ _ _ _ H2). unfold o in *.
    rewrite float_mul_entry in Ev by (auto; lia). rewrite float_mul_entry by (auto; lia). rewrite <- Hz, <- Ev.
    symmetry. apply ref_entry_same; auto; lia.
  - intros _ s y Hy. apply float_sums_ok.
Qed.

(** * Signed overflow undefined *)

Lemma valid_call_wraps : forall c dbg st pt dt kl l r dst mp,
  valid_call c (int_ops checked dbg st pt dt) kl l r dst mp -> valid_call c (int_ops wrapping dbg st pt dt) kl l r dst mp.
Proof. intros c dbg st pt dt kl l r dst mp [[A1 A2 A3 A4 A5 A6 A7] B C D]. constructor; [constructor|..]; assumption. Qed.

Lemma checked_mul_exact : forall c dbg st pt dt kl l r dst mp,
  let o := int_ops checked dbg st pt dt in
  valid_call c o kl l r dst mp -> integer_operands st pt l r -> valid_bounds dt mp ->
  (forall D i j, is_round_up (ml_rows (m_layout r)) (kl_rows (lhs kl)) D -> in_matrix (m_layout dst) i j ->
     4 * D * max_abs (lhs pt) * max_abs (rhs pt) + Z.abs (bias_at mp i j) <= int_max) ->
  (forall i j, in_matrix (m_layout dst) i j -> representable dt mp (m_zp dst) i j (SpecMul.exact_acc l r mp i j)) ->
  (forall g sched, exists out, mul c o kl g sched l r dst mp = Ok out /\
     forall x, out = Some x -> forall i j, in_matrix (m_layout dst) i j ->
       exact_result dt mp (m_zp dst) i j (SpecMul.exact_acc l r mp i j) (entry x i j)) /\
  (forall g sched, fair (c_max_threads c) sched -> exists n x, mul c o kl g (prefix sched n) l r dst mp = Ok (Some x)).
Proof.
  intros c dbg st pt dt kl l r dst mp o HC HI HV HB HR.
  pose proof (valid_call_wraps _ _ _ _ _ _ _ _ _ _ HC) as HW.
  pose proof (valid_call_ok _ _ _ _ _ _ _ _ HC) as C. pose proof (valid_call_domain _ _ _ _ _ _ _ _ HC) as D.
  assert (EV : forall i j, inside (m_layout dst) i j -> exists v,
    mul_entry o (kl_rows (lhs kl)) l r mp (ml_order (m_layout dst)) (m_zp dst) i j = Ok v /\
    exact_result dt mp (m_zp dst) i j (SpecMul.exact_acc l r mp i j) v).
  { intros i j I. destruct (finish_exact c dbg st pt dt kl l r dst mp HW i j _ HV I (HR i j I)) as (v & _ & F & X).
    exists v. split; [|exact X]. unfold o. rewrite (checked_entry_value c dbg st pt dt kl l r dst mp HI HC HB i j I). exact F. }
  assert (DEF : mul_defined o kl l r dst mp).
  { split.
    - intros s x Hx. apply (checked_sums_ok c dbg st pt dt kl l r dst mp HI HC HB).
    - intros i j I. destruct (EV i j I) as (v & E & _). eauto. }
  split.
  - intros g sched. destruct (mul_total _ c o kl g l r dst mp C D DEF sched) as (out & E). exists out. split; [exact E|].
    intros x -> i j I. destruct (mul_partial _ c o kl g l r dst mp C D _ _ E) as [_ (P1 & P2 & P3 & P4 & P5)].
    destruct (EV i j I) as (v & Ev & X). unfold entry. rewrite position_off, P1, (P4 i j I).
    unfold mul_value. rewrite Ev. exact X.
  - intros g sched (F1 & k0 & F2). destruct (mul_fair _ c o kl g l r dst mp C D DEF sched k0) as (n & x & E); eauto.
Qed.
