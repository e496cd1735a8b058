(** Whole multiplications in the vocabulary of SpecMul. *)
From Verif Require Import Base SidePair SpecArith SizeUtil SizeUtilFacts SpecMatrix SpecPack BlockMap SpecBlockMap
  Mat MatFacts Scalars Pack PackFacts PackProps MulParams Kernel KernelFacts TrMul TrMulFacts ChannelFacts FrontEndFacts
  Multiplier IntOps SpecRound FinishProps IntEntryFacts EntryFacts
  TrMulMachine SpecMachine TrMulRun RunFacts MulFacts SpecMul.

Lemma channel_array_user : forall {A} (z : A -> bool) b n cap, channel_array z b n cap <-> user_buffer z b n cap.
Proof. reflexivity. Qed.

Lemma valid_params_fit : forall {V} (o : ops V) mp n, valid_params o mp n -> params_fit o mp n.
Proof.
  intros V o mp n (H1 & H2 & H3). split; [exact H1|]. split; [exact H2|].
  destruct (H3 (round_up n (2 ^ mp_rounding_log2 mp))) as (A & B & C).
  - apply round_up_is. apply pow2_pos. lia.
  - constructor; auto.
Qed.

Section Call.
Variables (V : Type) (c : config) (o : ops V) (kl : sp kernel_layout) (l r dst : mat V) (mp : mul_params V).
Hypothesis H : valid_call c o kl l r dst mp.

Lemma vc_params : valid_params o mp (channel_count mp (m_layout dst)).
Proof. apply (wc_params _ _ _ _ _ _ _ (vc_well_formed _ _ _ _ _ _ _ H)). Qed.
Lemma vc_shapes : ml_cols (m_layout l) = ml_rows (m_layout r) /\ ml_rows (m_layout dst) = ml_rows (m_layout l) /\
    ml_cols (m_layout dst) = ml_cols (m_layout r).
Proof. apply (wc_shapes _ _ _ _ _ _ _ (vc_well_formed _ _ _ _ _ _ _ H)). Qed.

Lemma valid_call_ok : call_ok (c_dbg c) o kl l r dst mp.
Proof.
  destruct H as [[(K1 & K2 & K3) (M1 & M2 & M3) (S1 & S2 & S3) F Sz P Zp] (N1 & N2 & N3) T B].
  constructor; auto; try (apply valid_kernel_iff; assumption); try (apply valid_matrix_iff; assumption).
  - intros s s'. assert (E : get s kl = lhs kl \/ get s kl = rhs kl) by (destruct s; auto).
    split; (split; [assumption|]); apply F; auto.
  - intros s. destruct (Sz s). lia.
  - intros s. destruct (Sz s). lia.
  - apply valid_params_fit in P. unfold channels. unfold channel_count in P. exact P.
Qed.

Lemma valid_call_domain : call_domain c o kl l r dst.
Proof.
  destruct H as [[(K1 & K2 & K3) (M1 & M2 & M3) (S1 & S2 & S3) F Sz P Zp] (N1 & N2 & N3) T B].
  constructor; [exact T| |].
  { intros s. destruct (Sz s). lia. }
  intros n Hn. cbv zeta.
  assert (KP : forall s, 0 < kl_cols (get s kl)).
  { intros []; apply power_of_two_pos; [apply K1|apply K2]. }
  pose proof (round_up_is (ml_rows (m_layout dst)) _ (KP Lhs)) as R1.
  pose proof (round_up_is (ml_rows (m_layout dst)) _ (KP Rhs)) as R2.
  pose proof (round_up_is (ml_cols (m_layout dst)) _ (KP Lhs)) as R3.
  pose proof (round_up_is (ml_cols (m_layout dst)) _ (KP Rhs)) as R4.
  unfold packed_dim. unfold row_kernel, col_kernel in B. destruct (ml_order (m_layout dst)); cbn [dside other_side dim get] in *.
  - apply B; auto.
  - apply B; auto.
Qed.
End Call.
Arguments vc_params {V}. Arguments vc_shapes {V}.

Lemma off_dec : forall l x, layout_ok l ->
  (exists i j, inside l i j /\ x = off l i j) \/ (forall i j, inside l i j -> x <> off l i j).
Proof.
  intros l x [H1 H2 H3 H4]. unfold inside, off. destruct (ml_order l).
  - destruct (Z_le_gt_dec (ml_stride l) 0) as [S|S]; [right; intros; nia|].
    pose proof (Z.div_mod x (ml_stride l) ltac:(lia)) as D. pose proof (Z.mod_pos_bound x (ml_stride l) ltac:(lia)) as M.
    set (q := x / ml_stride l) in *. set (m := x mod ml_stride l) in *. clearbody q m.
    destruct (rect_dec 0 (ml_rows l) 0 (ml_cols l) m q) as [R|R].
    + left. exists m, q. split; [exact R|lia].
    + right. intros i j [I J] E. apply R. assert (j = q) by nia. subst j. assert (i = m) by lia. subst i. auto.
  - destruct (Z_le_gt_dec (ml_stride l) 0) as [S|S]; [right; intros; nia|].
    pose proof (Z.div_mod x (ml_stride l) ltac:(lia)) as D. pose proof (Z.mod_pos_bound x (ml_stride l) ltac:(lia)) as M.
    set (q := x / ml_stride l) in *. set (m := x mod ml_stride l) in *. clearbody q m.
    destruct (rect_dec 0 (ml_rows l) 0 (ml_cols l) q m) as [R|R].
    + left. exists q, m. split; [exact R|lia].
    + right. intros i j [I J] E. apply R. assert (i = q) by nia. subst i. assert (j = m) by lia. subst j. auto.
Qed.

Lemma inside_iff : forall l i j, inside l i j <-> in_matrix l i j.
Proof. reflexivity. Qed.

Lemma done_same : forall {V} (o : ops V) kl l r dst mp a b, mat_ok dst ->
  mul_done o kl l r dst mp a -> mul_done o kl l r dst mp b -> same_matrix a b.
Proof.
  intros V o kl l r dst mp a b MD (A1 & A2 & A3 & A4 & A5) (B1 & B2 & B3 & B4 & B5).
  split; [congruence|]. split; [congruence|]. split; [congruence|]. intros x.
  destruct (off_dec (m_layout dst) x (mo_layout _ MD)) as [(i & j & Hin & ->)|N].
  - rewrite A4, B4; auto.
  - rewrite A5, B5; auto.
Qed.

(** * C02 *)

Section Once.
Variables (V : Type) (o : ops V) (kl : sp kernel_layout) (l r dst : mat V) (mp : mul_params V).

Lemma configurations_agree : forall c1 c2 g1 g2 s1 s2 d1,
  valid_call c1 o kl l r dst mp -> valid_call c2 o kl l r dst mp ->
  mul c1 o kl g1 s1 l r dst mp = Ok (Some d1) ->
  exists out, mul c2 o kl g2 s2 l r dst mp = Ok out /\ forall d2, out = Some d2 -> same_matrix d1 d2.
Proof.
  intros c1 c2 g1 g2 s1 s2 d1 H1 H2 E.
  destruct (mul_partial _ c1 o kl g1 l r dst mp (valid_call_ok _ _ _ _ _ _ _ _ H1) (valid_call_domain _ _ _ _ _ _ _ _ H1) _ _ E) as [D F].
  pose proof (valid_call_ok _ _ _ _ _ _ _ _ H2) as C2. pose proof (valid_call_domain _ _ _ _ _ _ _ _ H2) as D2.
  destruct (mul_total _ c2 o kl g2 l r dst mp C2 D2 D s2) as (out & E2). exists out. split; [exact E2|].
  intros d2 ->. destruct (mul_partial _ c2 o kl g2 l r dst mp C2 D2 _ _ E2) as [_ F2].
  apply (done_same o kl l r dst mp); auto. destruct C2; assumption.
Qed.

Lemma fair_schedules_complete : forall c1 c2 g1 g2 s1 d1 sched,
  valid_call c1 o kl l r dst mp -> valid_call c2 o kl l r dst mp ->
  mul c1 o kl g1 s1 l r dst mp = Ok (Some d1) -> fair (c_max_threads c2) sched ->
  exists n d2, mul c2 o kl g2 (prefix sched n) l r dst mp = Ok (Some d2) /\ same_matrix d1 d2.
Proof.
  intros c1 c2 g1 g2 s1 d1 sched H1 H2 E (F1 & k0 & F2).
  destruct (mul_partial _ c1 o kl g1 l r dst mp (valid_call_ok _ _ _ _ _ _ _ _ H1) (valid_call_domain _ _ _ _ _ _ _ _ H1) _ _ E) as [D _].
  destruct (mul_fair _ c2 o kl g2 l r dst mp (valid_call_ok _ _ _ _ _ _ _ _ H2) (valid_call_domain _ _ _ _ _ _ _ _ H2) D sched k0) as (n & d2 & E2); auto.
  exists n, d2. split; [exact E2|].
  destruct (configurations_agree c1 c2 g1 g2 s1 (prefix sched n) d1 H1 H2 E) as (out & E3 & S).
  unfold prefix in E3. rewrite E2 in E3. injection E3 as <-. auto.
Qed.

(** * C03 *)

Lemma writes_only_entries : forall c g sched out, valid_call c o kl l r dst mp ->
  mul c o kl g sched l r dst mp = Ok (Some out) ->
  m_layout out = m_layout dst /\ m_zp out = m_zp dst /\ blen (m_data out) = blen (m_data dst) /\
  forall x, (forall i j, in_matrix (m_layout dst) i j -> position (m_layout dst) i j <> x) ->
    bdat (m_data out) x = bdat (m_data dst) x.
Proof.
  intros c g sched out H E.
  destruct (mul_partial _ c o kl g l r dst mp (valid_call_ok _ _ _ _ _ _ _ _ H) (valid_call_domain _ _ _ _ _ _ _ _ H) _ _ E) as [_ (A & B & C & _ & F)].
  repeat (split; [assumption|]). intros x N. apply F. intros i j I X. apply (N i j I). rewrite position_off. auto.
Qed.

Lemma previous_content_irrelevant : forall c g1 g2 s1 s2 dst' out1 out2,
  valid_call c o kl l r dst mp -> valid_call c o kl l r dst' mp ->
  m_layout dst' = m_layout dst -> m_zp dst' = m_zp dst ->
  mul c o kl g1 s1 l r dst mp = Ok (Some out1) -> mul c o kl g2 s2 l r dst' mp = Ok (Some out2) ->
  forall i j, in_matrix (m_layout dst) i j -> entry out1 i j = entry out2 i j.
Proof.
  intros c g1 g2 s1 s2 dst' out1 out2 H1 H2 EL EZ E1 E2 i j I.
  destruct (mul_partial _ c o kl g1 l r dst mp (valid_call_ok _ _ _ _ _ _ _ _ H1) (valid_call_domain _ _ _ _ _ _ _ _ H1) _ _ E1) as [_ (A1 & B1 & C1 & D1 & _)].
  destruct (mul_partial _ c o kl g2 l r dst' mp (valid_call_ok _ _ _ _ _ _ _ _ H2) (valid_call_domain _ _ _ _ _ _ _ _ H2) _ _ E2) as [_ (A2 & B2 & C2 & D2 & _)].
  unfold entry. rewrite !position_off, A1, A2, EL, (D1 i j I).
  rewrite EL in D2. rewrite (D2 i j I), EZ. reflexivity.
Qed.
End Once.

(** * The reference *)

Lemma reference_ok : forall {V} (o : ops V) l r mp (dst : mat V) (e : Z -> Z -> V), mat_ok dst ->
  ml_rows (m_layout dst) = ml_rows (m_layout l) -> ml_cols (m_layout dst) = ml_cols (m_layout r) ->
  (forall i j, inside (m_layout dst) i j -> ref_entry o l r mp (m_zp dst) i j = Ok (e i j)) ->
  exists d, reference_mul o l r mp dst = Ok d /\ m_layout d = m_layout dst /\ m_zp d = m_zp dst /\
    written (m_layout dst) e (inside (m_layout dst)) (m_data dst) (m_data d).
Proof.
  intros V o l r mp dst e [L B] Hr Hc He.
  destruct (loop2d_ok (fun i j => ref_entry o l r mp (m_zp dst) i j) (m_layout dst) e (m_data dst)
    0 (ml_rows (m_layout l)) 0 (ml_cols (m_layout r)) L B) as (d & E & W).
  - rewrite <- Hr. pose proof (lo_rows _ L). lia.
  - lia.
  - rewrite <- Hc. pose proof (lo_cols _ L). lia.
  - lia.
  - intros i j Hi Hj. apply He. split; lia.
  - unfold reference_mul. rewrite E. eexists. split; [reflexivity|]. cbn [m_layout m_zp m_data].
    split; [auto|]. split; [auto|]. eapply written_iff; [|exact W]. intros i j. cbv beta. unfold inside. rewrite Hr, Hc. tauto.
Qed.

Lemma reference_inv : forall {V} (o : ops V) l r mp (dst d : mat V),
  ml_rows (m_layout dst) = ml_rows (m_layout l) -> ml_cols (m_layout dst) = ml_cols (m_layout r) ->
  reference_mul o l r mp dst = Ok d ->
  forall i j, inside (m_layout dst) i j -> exists v, ref_entry o l r mp (m_zp dst) i j = Ok v.
Proof.
  intros V o l r mp dst d Hr Hc E i j [I J]. unfold reference_mul in E. apply bind_ok in E. destruct E as (b & E & _).
  pose proof (forto_ok_body _ _ _ _ _ E i ltac:(lia)) as (x & y & E1).
  pose proof (forto_ok_body _ _ _ _ _ E1 j ltac:(lia)) as (x' & y' & E2).
  apply bind_ok in E2. destruct E2 as (v & E2 & _). eauto.
Qed.

Definition value_or {V} (z : V) (x : res V) : V := match x with Ok v => v | _ => z end.

(** * Integers *)

Lemma i32_is : forall z, is_i32 z -> smin 32 <= z <= smax 32.
Proof. intros z H. exact H. Qed.

Section Ints.
Variables (dbg : bool) (st pt : sp ity) (dt : ity) (l r : mat Z) (kr : Z).
Hypotheses (Hb : forall s, 0 < it_bits (get s st)).
Hypotheses (Ed : ml_cols (m_layout l) = ml_rows (m_layout r)) (H0 : 0 < ml_rows (m_layout r)).

Lemma wrap_ref_entry : forall mp dzp i j b, mat_ok l -> mat_ok r ->
  0 <= i < ml_rows (m_layout l) -> 0 <= j < ml_cols (m_layout r) -> bias_of mp (channel_of mp i j) = Ok b ->
  ref_entry (int_ops wrapping dbg st pt dt) l r mp dzp i j =
  finish (int_ops wrapping dbg st pt dt) mp dzp (channel_of mp i j) (wrap_s 32 (dot l r i j + b)).
Proof.
  intros mp dzp i j b Ml Mr Hi Hj HB. unfold ref_entry.
  assert (E : ref_accum (int_ops wrapping dbg st pt dt) l r i j = Ok (wrap_s 32 (dot l r i j))).
  { unfold ref_accum, dot. rewrite Ed. apply forto_sum_wrap; [lia|]. intros k a Hk.
    rewrite !element_ok by (auto; lia). cbn [bind int_ops o_ref_sub_zp o_to_acc o_mul o_add]. unfold wrapping. cbn [bind].
    eexists. split; [|reflexivity]. rewrite wrap_mul_l, wrap_mul_r. apply wrap_s_mod. lia. }
  rewrite E. cbn [bind].
  unfold add_bias. unfold bias_of in HB. destruct (mp_bias mp) as [x|].
  - rewrite HB. cbn [bind int_ops o_add]. unfold wrapping. cbn [bind]. rewrite wrap_add_l. reflexivity.
  - injection HB as <-. cbn [bind]. rewrite Z.add_0_r. reflexivity.
Qed.
End Ints.

Lemma dot_exact : forall l r i j, dot l r i j = exact_dot l r i j.
Proof. intros. unfold dot, exact_dot, sum. f_equal. apply map_ext. intros k. rewrite !entry_ent. reflexivity. Qed.

Lemma values_of_entries : forall t m, values_of t m -> entries_in t m.
Proof. intros t m [A B]. split; [|exact A]. intros i j I J. rewrite <- entry_ent. apply B. split; auto. Qed.

Lemma bias_ok : forall (o : ops Z) mp (dst : mat_layout) i j, valid_params o mp (channel_count mp dst) -> in_matrix dst i j ->
  bias_of mp (channel_of mp i j) = Ok (bias_at mp i j).
Proof.
  intros o mp dst i j (P0 & _ & P) [I J]. unfold bias_of, bias_at. destruct (mp_bias mp) as [b|] eqn:E; [|reflexivity].
  pose proof (round_up_is (channel_count mp dst) (2 ^ mp_rounding_log2 mp) ltac:(apply pow2_pos; lia)) as R.
  destruct (P _ R) as (A & _). destruct (A b eq_refl) as [L _].
  pose proof (round_up_spec (channel_count mp dst) (2 ^ mp_rounding_log2 mp) ltac:(apply pow2_pos; lia)) as [U _].
  unfold channel_count in *. unfold channel_of, channel_at. apply bread_ok. destruct (mp_chan mp); lia.
Qed.

Lemma multiplier_ok : forall (o : ops Z) mp (dst : mat_layout) i j, valid_params o mp (channel_count mp dst) -> in_matrix dst i j ->
  channel_multiplier mp (channel_of mp i j) = Ok (multiplier_at mp i j, exponent_at mp i j).
Proof.
  intros o mp dst i j (P0 & _ & P) [I J]. unfold channel_multiplier, multiplier_at, exponent_at.
  pose proof (round_up_is (channel_count mp dst) (2 ^ mp_rounding_log2 mp) ltac:(apply pow2_pos; lia)) as R.
  destruct (P _ R) as (_ & A & B).
  pose proof (round_up_spec (channel_count mp dst) (2 ^ mp_rounding_log2 mp) ltac:(apply pow2_pos; lia)) as [U _].
  unfold multiplier_fixedpoint_perchannel, multiplier_exponent_perchannel, multiplier_fixedpoint, multiplier_exponent in *.
  destruct (mp_perchannel mp) eqn:EP; [|reflexivity].
  unfold channel_count in *. unfold channel_of, channel_at.
  destruct (mp_mult_pc mp) as [b|] eqn:E1; destruct (mp_exp_pc mp) as [x|] eqn:E2;
    try (destruct (A _ eq_refl) as [La _]); try (destruct (B _ eq_refl) as [Lb _]);
    rewrite ?bread_ok by (destruct (mp_chan mp); lia); reflexivity.
Qed.

(** * C01 *)

Section Against.
Variables (V : Type) (c : config) (o o' : ops V) (kl : sp kernel_layout) (l r dst : mat V) (mp : mul_params V).
Hypothesis H : valid_call c o kl l r dst mp.
Let kr := kl_rows (lhs kl).
Let d := ml_order (m_layout dst).

Lemma vc_dims : ml_rows (m_layout dst) = ml_rows (m_layout l) /\ ml_cols (m_layout dst) = ml_cols (m_layout r).
Proof. pose proof (vc_shapes _ _ _ _ _ _ _ H). tauto. Qed.

Lemma agree_forward : forall ref,
  (forall s x, exists v, mul_col_sum o kr l r s x = Ok v) ->
  (forall i j v, inside (m_layout dst) i j -> ref_entry o' l r mp (m_zp dst) i j = Ok v ->
     mul_entry o kr l r mp d (m_zp dst) i j = Ok v) ->
  reference_mul o' l r mp dst = Ok ref ->
  (forall g sched, exists out, mul c o kl g sched l r dst mp = Ok out /\ forall x, out = Some x -> same_matrix x ref) /\
  (forall g sched, fair (c_max_threads c) sched ->
     exists n x, mul c o kl g (prefix sched n) l r dst mp = Ok (Some x) /\ same_matrix x ref).
Proof.
  intros ref HS HE R. pose proof vc_dims as [D1 D2].
  pose proof (valid_call_ok _ _ _ _ _ _ _ _ H) as C. pose proof (valid_call_domain _ _ _ _ _ _ _ _ H) as D.
  assert (MD : mat_ok dst) by (destruct C; assumption).
  pose proof (reference_inv o' l r mp dst ref D1 D2 R) as RI.
  assert (DEF : mul_defined o kl l r dst mp).
  { split; [intros; apply HS|]. intros i j I. destruct (RI i j I) as (v & E). exists v. apply HE; auto. }
  destruct (reference_ok o' l r mp dst (fun i j => value_or (o_acc0 o) (ref_entry o' l r mp (m_zp dst) i j)) MD D1 D2) as (ref' & R' & W).
  { intros i j I. destruct (RI i j I) as (v & E). rewrite E. reflexivity. }
  rewrite R in R'. injection R' as <-. destruct W as (W1 & W2 & W3 & W4 & W5).
  assert (SM : forall x, mul_done o kl l r dst mp x -> same_matrix x ref).
  { intros x F. apply (done_same o kl l r dst mp); auto. split; [exact W1|]. split; [exact W2|]. split; [exact W3|].
    split; [|exact W5]. intros i j I. rewrite (W4 i j I). unfold mul_value. destruct (RI i j I) as (v & E).
    rewrite E. unfold kr, d in HE. rewrite (HE i j v I E). reflexivity. }
  split.
  - intros g sched. destruct (mul_total _ c o kl g l r dst mp C D DEF sched) as (out & E). exists out. split; [exact E|].
    intros x ->. destruct (mul_partial _ c o kl g l r dst mp C D _ _ E) as [_ F]. auto.
  - intros g sched (F1 & k0 & F2). destruct (mul_fair _ c o kl g l r dst mp C D DEF sched k0) as (n & x & E); auto.
    exists n, x. split; [exact E|]. destruct (mul_partial _ c o kl g l r dst mp C D _ _ E) as [_ F]. auto.
Qed.

Lemma agree_backward : forall g sched x,
  (forall i j v, inside (m_layout dst) i j -> mul_entry o kr l r mp d (m_zp dst) i j = Ok v ->
     ref_entry o' l r mp (m_zp dst) i j = Ok v) ->
  mul c o kl g sched l r dst mp = Ok (Some x) ->
  exists ref, reference_mul o' l r mp dst = Ok ref /\ same_matrix x ref.
Proof.
  intros g sched x HE E. pose proof vc_dims as [D1 D2].
  pose proof (valid_call_ok _ _ _ _ _ _ _ _ H) as C. pose proof (valid_call_domain _ _ _ _ _ _ _ _ H) as D.
  assert (MD : mat_ok dst) by (destruct C; assumption).
  destruct (mul_partial _ c o kl g l r dst mp C D _ _ E) as [[_ DEF] F].
  destruct (reference_ok o' l r mp dst (fun i j => mul_value o kr l r mp d (m_zp dst) i j) MD D1 D2) as (ref & R & W).
  { intros i j I. destruct (DEF i j I) as (v & Ev). unfold mul_value. fold kr d in Ev. rewrite Ev. apply HE; auto. }
  exists ref. split; [exact R|]. apply (done_same o kl l r dst mp); auto.
Qed.
End Against.

Section IntegerMul.
Variables (c : config) (dbg : bool) (st pt : sp ity) (dt : ity) (kl : sp kernel_layout) (l r dst : mat Z) (mp : mul_params Z).
Hypothesis HI : integer_operands st pt l r.

Lemma io_bits : forall s, 0 < it_bits (get s st).
Proof. destruct HI as [A _]. intros s. apply A. Qed.
Lemma io_conv : forall s, conv_ok (get s st) (get s pt).
Proof. destruct HI as [A _]. intros s. apply A. Qed.
Lemma io_l : entries_in (lhs st) l.
Proof. destruct HI as (_ & A & _). apply values_of_entries; auto. Qed.
Lemma io_r : entries_in (rhs st) r.
Proof. destruct HI as (_ & _ & A). apply values_of_entries; auto. Qed.

Notation ow := (int_ops wrapping dbg st pt dt).
Notation oc := (int_ops checked dbg st pt dt).

Lemma wrap_sums_ok : forall kr s x, 0 < kr -> 0 < ml_rows (m_layout r) -> exists v, mul_col_sum ow kr l r s x = Ok v.
Proof.
  intros kr s x Hk H0. unfold mul_col_sum. pose proof (round_up_spec (ml_rows (m_layout r)) kr Hk) as [R _].
  destruct s; rewrite wrap_col_sum by lia; eauto.
Qed.

Lemma kr_pos : forall (o : ops Z), valid_call c o kl l r dst mp -> 0 < kl_rows (lhs kl).
Proof. intros o H. destruct H as [[(K1 & _) _ _ _ _ _ _] _ _ _]. apply power_of_two_pos. apply K1. Qed.

Section Wrap.
Hypothesis HW : valid_call c ow kl l r dst mp.

Lemma wrap_entries_agree : forall i j, inside (m_layout dst) i j ->
  mul_entry ow (kl_rows (lhs kl)) l r mp (ml_order (m_layout dst)) (m_zp dst) i j = ref_entry ow l r mp (m_zp dst) i j.
Proof.
  intros i j I. pose proof (valid_call_ok _ _ _ _ _ _ _ _ HW) as C. pose proof (vc_params _ _ _ _ _ _ _ HW) as P.
  pose proof (bias_ok _ _ _ i j P I) as HB. pose proof (kr_pos _ HW) as K. destruct C. destruct I as [I J].
  rewrite (wrap_mul_entry dbg st pt dt l r _ io_bits io_conv io_l io_r ca_depth ca_depth_pos K mp _ _ i j _ ltac:(lia) ltac:(lia) HB).
  rewrite (wrap_ref_entry dbg st pt dt l r ca_depth ca_depth_pos mp _ i j _ ca_l ca_r ltac:(lia) ltac:(lia) HB). reflexivity.
Qed.

Lemma checked_reference_wraps : forall i j v, inside (m_layout dst) i j -> ref_entry oc l r mp (m_zp dst) i j = Ok v ->
  ref_entry ow l r mp (m_zp dst) i j = Ok v.
Proof.
  intros i j v I E. pose proof (valid_call_ok _ _ _ _ _ _ _ _ HW) as C. pose proof (kr_pos _ HW) as K. destruct C. destruct I as [I J].
  destruct (checked_ref_entry dbg st pt dt l r ca_depth ca_depth_pos mp _ i j v ca_l ca_r ltac:(lia) ltac:(lia) E) as (b & HB & I1 & I2 & F).
  rewrite (wrap_ref_entry dbg st pt dt l r ca_depth ca_depth_pos mp _ i j _ ca_l ca_r ltac:(lia) ltac:(lia) HB).
  rewrite wrap_s_id by (try lia; apply i32_is; exact I2). apply finish_checked_wrapping. exact F.
Qed.

Lemma wrapping_mul_is_reference : forall ref, reference_mul ow l r mp dst = Ok ref ->
  (forall g sched, exists out, mul c ow kl g sched l r dst mp = Ok out /\ forall x, out = Some x -> same_matrix x ref) /\
  (forall g sched, fair (c_max_threads c) sched ->
     exists n x, mul c ow kl g (prefix sched n) l r dst mp = Ok (Some x) /\ same_matrix x ref).
Proof.
  intros ref R. apply (agree_forward _ c ow ow kl l r dst mp HW ref); auto.
  - intros s x. apply wrap_sums_ok; [apply (kr_pos _ HW)|]. destruct (valid_call_ok _ _ _ _ _ _ _ _ HW). assumption.
  - intros i j v I E. rewrite wrap_entries_agree; auto.
Qed.

Lemma wrapping_reference_is_mul : forall g sched x, mul c ow kl g sched l r dst mp = Ok (Some x) ->
  exists ref, reference_mul ow l r mp dst = Ok ref /\ same_matrix x ref.
Proof.
  intros g sched x E. apply (agree_backward _ c ow ow kl l r dst mp HW g sched); auto.
  intros i j v I Ev. rewrite <- wrap_entries_agree; auto.
Qed.

Lemma checked_reference_is_wrapping_mul : forall ref, reference_mul oc l r mp dst = Ok ref ->
  (forall g sched, exists out, mul c ow kl g sched l r dst mp = Ok out /\ forall x, out = Some x -> same_matrix x ref) /\
  (forall g sched, fair (c_max_threads c) sched ->
     exists n x, mul c ow kl g (prefix sched n) l r dst mp = Ok (Some x) /\ same_matrix x ref).
Proof.
  intros ref R. apply (agree_forward _ c ow oc kl l r dst mp HW ref); auto.
  - intros s x. apply wrap_sums_ok; [apply (kr_pos _ HW)|]. destruct (valid_call_ok _ _ _ _ _ _ _ _ HW). assumption.
  - intros i j v I E. rewrite wrap_entries_agree by auto. apply checked_reference_wraps; auto.
Qed.

(** The exact result. *)
Lemma finish_exact : forall i j acc, valid_bounds dt mp -> inside (m_layout dst) i j ->
  representable dt mp (m_zp dst) i j acc ->
  exists v, finish ow mp (m_zp dst) (channel_of mp i j) acc = Ok v /\ finish oc mp (m_zp dst) (channel_of mp i j) acc = Ok v /\
    exact_result dt mp (m_zp dst) i j acc v.
Proof.
  intros i j acc (B1 & B2 & B3) I (R1 & R2 & s & S1 & S2 & S3).
  assert (AM : forall ar, apply_multiplier (int_ops ar dbg st pt dt) mp (channel_of mp i j) acc = Ok s).
  { intros ar. unfold apply_multiplier. cbn [int_ops o_quant]. unfold scaled_to in S1. destruct (ity_eqb dt s32).
    - congruence.
    - rewrite (multiplier_ok _ mp (m_layout dst) i j (vc_params _ _ _ _ _ _ _ HW) I). cbn [bind].
      destruct (R2 eq_refl) as [M E].
      destruct (multiply_rounds dbg acc _ _ R1 M E) as (q & N & Q & _).
      assert (q = s) by (eapply nearest_unique; [|exact N|exact S1]; apply pow2_pos; lia). subst q. apply Q. exact S2. }
  exists (Z.max (Z.min (s + m_zp dst) (mp_max mp)) (mp_min mp)).
  assert (EC : it_conv dt (Z.max (Z.min (s + m_zp dst) (mp_max mp)) (mp_min mp)) = Z.max (Z.min (s + m_zp dst) (mp_max mp)) (mp_min mp)).
  { apply it_conv_id; auto. lia. }
  unfold finish. rewrite !AM. cbn [bind int_ops o_add_dst_zp o_min o_max o_store].
  rewrite checked_ok by exact S3. unfold wrapping. rewrite wrap_s_id by (try lia; exact S3). cbn [bind]. rewrite EC.
  split; [reflexivity|]. split; [reflexivity|]. exists s. split; [exact S1|]. apply clamp_value.
Qed.

Lemma wrapping_mul_exact : valid_bounds dt mp ->
  (forall i j, in_matrix (m_layout dst) i j -> representable dt mp (m_zp dst) i j (SpecMul.exact_acc l r mp i j)) ->
  (forall g sched, exists out, mul c ow kl g sched l r dst mp = Ok out /\
     forall x, out = Some x -> forall i j, in_matrix (m_layout dst) i j ->
       exact_result dt mp (m_zp dst) i j (SpecMul.exact_acc l r mp i j) (entry x i j)) /\
  (forall g sched, fair (c_max_threads c) sched -> exists n x, mul c ow kl g (prefix sched n) l r dst mp = Ok (Some x)).
Proof.
  intros HV HR. pose proof (valid_call_ok _ _ _ _ _ _ _ _ HW) as C. pose proof (valid_call_domain _ _ _ _ _ _ _ _ HW) as D.
  assert (EV : forall i j, inside (m_layout dst) i j -> exists v,
    mul_entry ow (kl_rows (lhs kl)) l r mp (ml_order (m_layout dst)) (m_zp dst) i j = Ok v /\
    exact_result dt mp (m_zp dst) i j (SpecMul.exact_acc l r mp i j) v).
  { intros i j I. destruct (finish_exact i j _ HV I (HR i j I)) as (v & F & _ & X). exists v. split; [|exact X].
    pose proof (bias_ok _ _ _ i j (vc_params _ _ _ _ _ _ _ HW) I) as HB. pose proof (kr_pos _ HW) as K. destruct C. destruct I as [I J].
    rewrite (wrap_mul_entry dbg st pt dt l r _ io_bits io_conv io_l io_r ca_depth ca_depth_pos K mp _ _ i j _ ltac:(lia) ltac:(lia) HB).
    rewrite dot_exact. unfold SpecMul.exact_acc in F.
    rewrite wrap_s_id; [exact F|lia|]. apply i32_is. apply (HR i j). split; auto. }
  assert (DEF : mul_defined ow kl l r dst mp).
  { split.
    - intros s x _. apply wrap_sums_ok; [apply (kr_pos _ HW)|]. destruct C. assumption.
    - intros i j I. destruct (EV i j I) as (v & E & _). eauto. }
  split.
  - intros g sched. destruct (mul_total _ c ow kl g l r dst mp C D DEF sched) as (out & E). exists out. split; [exact E|].
    intros x -> i j I. destruct (mul_partial _ c ow kl g l r dst mp C D _ _ E) as [_ (A1 & A2 & A3 & A4 & A5)].
    unfold entry. rewrite position_off, A1, (A4 i j I). unfold mul_value. destruct (EV i j I) as (v & Ev & X). rewrite Ev. exact X.
  - intros g sched (F1 & k0 & F2). apply (mul_fair _ c ow kl g l r dst mp C D DEF sched k0); auto.
Qed.
End Wrap.

Section Check.
Hypothesis HC : valid_call c oc kl l r dst mp.
Hypothesis HB : forall D i j, is_round_up (ml_rows (m_layout r)) (kl_rows (lhs kl)) D -> in_matrix (m_layout dst) i j ->
  4 * D * max_abs (lhs pt) * max_abs (rhs pt) + Z.abs (bias_at mp i j) <= int_max.

Lemma checked_bound : forall i j, in_matrix (m_layout dst) i j ->
  4 * (round_up (ml_rows (m_layout r)) (kl_rows (lhs kl)) * (it_abs (lhs pt) * it_abs (rhs pt))) + Z.abs (bias_at mp i j) <= int_max.
Proof.
  intros i j I. pose proof (HB _ i j (round_up_is (ml_rows (m_layout r)) _ (kr_pos _ HC)) I) as B.
  change max_abs with it_abs in B. rewrite !Z.mul_assoc. exact B.
Qed.

Lemma checked_sums_ok : forall s x, exists v, mul_col_sum oc (kl_rows (lhs kl)) l r s x = Ok v.
Proof.
  intros s x. unfold mul_col_sum. pose proof (kr_pos _ HC) as K.
  pose proof (round_up_spec (ml_rows (m_layout r)) _ K) as [R _].
  pose proof (vc_nonempty _ _ _ _ _ _ _ HC) as (N1 & N2 & N3).
  pose proof (checked_bound 0 0 ltac:(split; lia)) as B.
  assert (Hpb : forall s, 0 < it_bits (get s pt)) by (intros s'; eapply conv_bits; [apply io_bits|apply io_conv]).
  pose proof (it_abs_pos _ (Hpb Lhs)) as PA. pose proof (it_abs_pos _ (Hpb Rhs)) as PB. cbn [get] in PA, PB.
  set (D := round_up _ _) in *. assert (D0 : 0 <= D) by lia. clearbody D.
  assert (DA : D * it_abs (lhs pt) <= D * (it_abs (lhs pt) * it_abs (rhs pt))).
  { apply Z.mul_le_mono_nonneg_l; [lia|]. transitivity (it_abs (lhs pt) * 1); [lia|]. apply Z.mul_le_mono_nonneg_l; lia. }
  assert (DB : D * it_abs (rhs pt) <= D * (it_abs (lhs pt) * it_abs (rhs pt))).
  { apply Z.mul_le_mono_nonneg_l; [lia|]. transitivity (1 * it_abs (rhs pt)); [lia|]. apply Z.mul_le_mono_nonneg_r; lia. }
  assert (N : 0 <= D * (it_abs (lhs pt) * it_abs (rhs pt))) by (apply Z.mul_nonneg_nonneg; [lia|apply Z.mul_nonneg_nonneg; lia]).
  destruct s; rewrite (checked_col_sum dbg st pt dt Hpb); eauto; cbn [get]; lia.
Qed.

Lemma checked_entry_value : forall i j, inside (m_layout dst) i j ->
  mul_entry oc (kl_rows (lhs kl)) l r mp (ml_order (m_layout dst)) (m_zp dst) i j =
  finish oc mp (m_zp dst) (channel_of mp i j) (SpecMul.exact_acc l r mp i j).
Proof.
  intros i j I. pose proof (valid_call_ok _ _ _ _ _ _ _ _ HC) as C.
  pose proof (bias_ok _ _ _ i j (vc_params _ _ _ _ _ _ _ HC) I) as Hbias. pose proof (kr_pos _ HC) as K.
  pose proof (checked_bound i j I) as B. destruct C. destruct I as [I J].
  rewrite (checked_mul_entry dbg st pt dt l r _ io_bits io_conv io_l io_r ca_depth ca_depth_pos K mp _ _ i j _ ltac:(lia) ltac:(lia) Hbias B).
  unfold SpecMul.exact_acc. rewrite dot_exact. reflexivity.
Qed.

Lemma checked_mul_is_reference : forall ref, reference_mul oc l r mp dst = Ok ref ->
  (forall g sched, exists out, mul c oc kl g sched l r dst mp = Ok out /\ forall x, out = Some x -> same_matrix x ref) /\
  (forall g sched, fair (c_max_threads c) sched ->
     exists n x, mul c oc kl g (prefix sched n) l r dst mp = Ok (Some x) /\ same_matrix x ref).
Proof.
  intros ref R. apply (agree_forward _ c oc oc kl l r dst mp HC ref); auto using checked_sums_ok.
  intros i j v I E. pose proof (valid_call_ok _ _ _ _ _ _ _ _ HC) as C. rewrite checked_entry_value by auto.
  pose proof (bias_ok _ _ _ i j (vc_params _ _ _ _ _ _ _ HC) I) as Hbias. pose proof (kr_pos _ HC) as K.
  destruct C. destruct I as [I J].
  destruct (checked_ref_entry dbg st pt dt l r ca_depth ca_depth_pos mp _ i j v ca_l ca_r ltac:(lia) ltac:(lia) E) as (b & Hb & I1 & I2 & F).
  assert (b = bias_at mp i j) by congruence. subst b. rewrite dot_exact in F. exact F.
Qed.
End Check.
End IntegerMul.

(** * C04 *)

Lemma same_transpose : forall {V} (a b : mat V), same_entries a b -> same_entries (transpose_mat a) (transpose_mat b).
Proof.
  intros V a b (A & B & C & D). split; [exact B|]. split; [exact A|]. split; [exact C|].
  intros i j [I J]. rewrite !entry_ent, !ent_transpose, <- !entry_ent. apply D. split; auto.
Qed.

Section Same.
Context {V : Type} (o : ops V).

Lemma pval_same : forall s (m m' : mat V) zp k c, same_entries m m' -> 0 <= k -> 0 <= c ->
  pval o s m zp k c = pval o s m' zp k c.
Proof.
  intros s m m' zp k c (A & B & C & D) Hk Hc. unfold pval. rewrite <- A, <- B.
  destruct (k <? ml_rows (m_layout m)) eqn:E1; destruct (c <? ml_cols (m_layout m)) eqn:E2; cbn [andb]; try reflexivity.
  rewrite <- !entry_ent, (D k c); auto. split; lia.
Qed.

Lemma col_sum_same : forall s (m m' : mat V) zp n c, same_entries m m' -> 0 <= c ->
  col_sum o s m zp n c = col_sum o s m' zp n c.
Proof.
  intros s m m' zp n c H Hc. unfold col_sum. apply forto_ext. intros k a Hk. rewrite (pval_same s m m') by (auto; lia). reflexivity.
Qed.

Lemma spec_entry_same : forall l l' r r' zl zr depth mp dzp i j, same_entries l l' -> same_entries r r' -> 0 <= i -> 0 <= j ->
  spec_entry o l r zl zr depth mp dzp i j = spec_entry o l' r' zl zr depth mp dzp i j.
Proof.
  intros l l' r r' zl zr depth mp dzp i j Hl Hr Hi Hj. unfold spec_entry.
  replace (spec_accum o l r zl zr depth i j) with (spec_accum o l' r' zl zr depth i j).
  2: { unfold spec_accum. apply forto_ext. intros k a Hk.
       rewrite (pval_same Lhs l l'), (pval_same Rhs r r') by (auto; lia). reflexivity. }
  unfold spec_zp_terms. rewrite (col_sum_same Lhs l l'), (col_sum_same Rhs r r') by auto. reflexivity.
Qed.
End Same.

Lemma mul_entry_same : forall {V} (o : ops V) kr l l' r r' mp d dzp i j, same_entries l l' -> same_entries r r' ->
  0 <= i -> 0 <= j -> mul_entry o kr l r mp d dzp i j = mul_entry o kr l' r' mp d dzp i j.
Proof.
  intros V o kr l l' r r' mp d dzp i j Hl Hr Hi Hj. unfold mul_entry. pose proof (same_transpose _ _ Hl) as Hl'.
  pose proof Hl as (_ & _ & Zl & _). pose proof Hr as (Rr & _ & Zr & _). rewrite <- Zl, <- Zr, <- Rr.
  destruct d; apply spec_entry_same; auto.
Qed.

Lemma mul_col_sum_same : forall {V} (o : ops V) kr l l' r r' s x, same_entries l l' -> same_entries r r' -> 0 <= x ->
  mul_col_sum o kr l r s x = mul_col_sum o kr l' r' s x.
Proof.
  intros V o kr l l' r r' s x Hl Hr Hx. unfold mul_col_sum. pose proof (same_transpose _ _ Hl) as Hl'.
  pose proof Hl as (_ & _ & Zl & _). pose proof Hr as (Rr & _ & Zr & _). rewrite <- Zl, <- Zr, <- Rr.
  destruct s; apply col_sum_same; auto.
Qed.

(** Two calls whose entries agree. *)
Lemma calls_agree : forall {V} c1 c2 (o1 o2 : ops V) kl1 kl2 l1 l2 r1 r2 dst1 dst2 mp g1 g2 s1 s2 x,
  valid_call c1 o1 kl1 l1 r1 dst1 mp -> valid_call c2 o2 kl2 l2 r2 dst2 mp ->
  ml_rows (m_layout dst1) = ml_rows (m_layout dst2) -> ml_cols (m_layout dst1) = ml_cols (m_layout dst2) ->
  (forall i j v, inside (m_layout dst1) i j ->
     mul_entry o1 (kl_rows (lhs kl1)) l1 r1 mp (ml_order (m_layout dst1)) (m_zp dst1) i j = Ok v ->
     mul_entry o2 (kl_rows (lhs kl2)) l2 r2 mp (ml_order (m_layout dst2)) (m_zp dst2) i j = Ok v) ->
  (mul_defined o1 kl1 l1 r1 dst1 mp ->
   forall s y, 0 <= y < packed_dim kl2 (m_layout dst2) s -> exists v, mul_col_sum o2 (kl_rows (lhs kl2)) l2 r2 s y = Ok v) ->
  mul c1 o1 kl1 g1 s1 l1 r1 dst1 mp = Ok (Some x) ->
  exists out, mul c2 o2 kl2 g2 s2 l2 r2 dst2 mp = Ok out /\
    forall y, out = Some y -> forall i j, in_matrix (m_layout dst1) i j -> entry y i j = entry x i j.
Proof.
  intros V c1 c2 o1 o2 kl1 kl2 l1 l2 r1 r2 dst1 dst2 mp g1 g2 s1 s2 x H1 H2 R C HE HS E1.
  destruct (mul_partial _ c1 o1 kl1 g1 l1 r1 dst1 mp (valid_call_ok _ _ _ _ _ _ _ _ H1) (valid_call_domain _ _ _ _ _ _ _ _ H1) _ _ E1) as [D1 F1].
  pose proof (valid_call_ok _ _ _ _ _ _ _ _ H2) as C2. pose proof (valid_call_domain _ _ _ _ _ _ _ _ H2) as M2.
  assert (EQ : forall l, inside (m_layout dst2) l = inside (m_layout dst1) l) by (intros; unfold inside; rewrite R, C; reflexivity).
  assert (D2 : mul_defined o2 kl2 l2 r2 dst2 mp).
  { split; [apply HS; exact D1|]. destruct D1 as [_ D1]. intros i j I. rewrite EQ in I.
    destruct (D1 i j I) as (v & E). exists v. apply HE; auto. }
  destruct (mul_total _ c2 o2 kl2 g2 l2 r2 dst2 mp C2 M2 D2 s2) as (out & E2). exists out. split; [exact E2|].
  intros y -> i j I. destruct (mul_partial _ c2 o2 kl2 g2 l2 r2 dst2 mp C2 M2 _ _ E2) as [_ F2].
  destruct F1 as (A1 & _ & _ & B1 & _). destruct F2 as (A2 & _ & _ & B2 & _).
  unfold entry. rewrite !position_off, A1, A2, (B1 i j I), (B2 i j) by (rewrite EQ; exact I).
  unfold mul_value. destruct D1 as [_ D1]. destruct (D1 i j I) as (v & E). rewrite E, (HE i j v I E). reflexivity.
Qed.

Lemma storage_irrelevant : forall {V} c1 c2 (o : ops V) kl l1 l2 r1 r2 dst1 dst2 mp g1 g2 s1 s2 x,
  valid_call c1 o kl l1 r1 dst1 mp -> valid_call c2 o kl l2 r2 dst2 mp ->
  same_entries l1 l2 -> same_entries r1 r2 ->
  ml_order (m_layout dst1) = ml_order (m_layout dst2) -> m_zp dst1 = m_zp dst2 ->
  mul c1 o kl g1 s1 l1 r1 dst1 mp = Ok (Some x) ->
  exists out, mul c2 o kl g2 s2 l2 r2 dst2 mp = Ok out /\
    forall y, out = Some y -> forall i j, in_matrix (m_layout dst1) i j -> entry y i j = entry x i j.
Proof.
  intros V c1 c2 o kl l1 l2 r1 r2 dst1 dst2 mp g1 g2 s1 s2 x H1 H2 Hl Hr Ho Hz E.
  pose proof (vc_shapes _ _ _ _ _ _ _ H1) as (A1 & A2 & A3). pose proof (vc_shapes _ _ _ _ _ _ _ H2) as (B1 & B2 & B3).
  pose proof Hl as (L1 & L2 & _). pose proof Hr as (R1 & R2 & _).
  apply (calls_agree c1 c2 o o kl kl l1 l2 r1 r2 dst1 dst2 mp g1 g2 s1 s2 x H1 H2); auto; try congruence.
  - intros i j v [I J] Ev. rewrite <- Ho, <- Hz. rewrite <- (mul_entry_same o _ l1 l2 r1 r2) by (auto; lia). exact Ev.
  - intros [D _] s y Hy. rewrite <- (mul_col_sum_same o _ l1 l2 r1 r2) by (auto; lia). apply D.
    replace (packed_dim kl (m_layout dst1) s) with (packed_dim kl (m_layout dst2) s); [exact Hy|].
    unfold packed_dim. rewrite Ho. replace (dim (m_layout dst2) s) with (dim (m_layout dst1) s); [reflexivity|].
    unfold dim. destruct s; congruence.
Qed.

Lemma same_dot : forall l l' r r' i j, same_entries l l' -> same_entries r r' -> ml_cols (m_layout l) = ml_rows (m_layout r) ->
  0 <= i < ml_rows (m_layout l) -> 0 <= j < ml_cols (m_layout r) -> dot l r i j = dot l' r' i j.
Proof.
  intros l l' r r' i j (L1 & L2 & L3 & L4) (R1 & R2 & R3 & R4) Ed I J. unfold dot. rewrite <- R1, <- L3, <- R3.
  apply sum_ext. intros k Hk. rewrite <- !entry_ent. rewrite (L4 i k), (R4 k j); auto; split; auto; lia.
Qed.

Lemma integer_storage_irrelevant : forall c1 c2 dbg st pt dt kl1 kl2 l1 l2 r1 r2 dst1 dst2 mp g1 g2 s1 s2 x,
  let o := int_ops wrapping dbg st pt dt in
  valid_call c1 o kl1 l1 r1 dst1 mp -> valid_call c2 o kl2 l2 r2 dst2 mp ->
  integer_operands st pt l1 r1 -> integer_operands st pt l2 r2 ->
  same_entries l1 l2 -> same_entries r1 r2 -> m_zp dst1 = m_zp dst2 ->
  mul c1 o kl1 g1 s1 l1 r1 dst1 mp = Ok (Some x) ->
  exists out, mul c2 o kl2 g2 s2 l2 r2 dst2 mp = Ok out /\
    forall y, out = Some y -> forall i j, in_matrix (m_layout dst1) i j -> entry y i j = entry x i j.
Proof.
  intros c1 c2 dbg st pt dt kl1 kl2 l1 l2 r1 r2 dst1 dst2 mp g1 g2 s1 s2 x o H1 H2 I1 I2 Hl Hr Hz E.
  pose proof (vc_shapes _ _ _ _ _ _ _ H1) as (A1 & A2 & A3). pose proof (vc_shapes _ _ _ _ _ _ _ H2) as (B1 & B2 & B3).
  pose proof Hl as (L1 & L2 & _). pose proof Hr as (R1 & R2 & _).
  pose proof (kr_pos c1 kl1 l1 r1 dst1 mp _ H1) as K1. pose proof (kr_pos c2 kl2 l2 r2 dst2 mp _ H2) as K2.
  apply (calls_agree c1 c2 o o kl1 kl2 l1 l2 r1 r2 dst1 dst2 mp g1 g2 s1 s2 x H1 H2); auto; try congruence.
  - intros i j v I Ev. pose proof (bias_ok _ _ _ i j (vc_params _ _ _ _ _ _ _ H1) I) as HB. destruct I as [I J].
    destruct (valid_call_ok _ _ _ _ _ _ _ _ H1). unfold o in *.
    rewrite (wrap_mul_entry dbg st pt dt l1 r1 _ (io_bits _ _ _ _ I1) (io_conv _ _ _ _ I1) (io_l _ _ _ _ I1) (io_r _ _ _ _ I1)
      ca_depth ca_depth_pos K1 mp _ _ i j _ ltac:(lia) ltac:(lia) HB) in Ev.
    rewrite (wrap_mul_entry dbg st pt dt l2 r2 _ (io_bits _ _ _ _ I2) (io_conv _ _ _ _ I2) (io_l _ _ _ _ I2) (io_r _ _ _ _ I2)
      B1 ltac:(lia) K2 mp _ _ i j _ ltac:(lia) ltac:(lia) HB).
    rewrite <- Hz, <- (same_dot l1 l2 r1 r2 i j) by (auto; lia). exact Ev.
  - intros _ s y Hy. apply wrap_sums_ok; auto. apply (vc_nonempty _ _ _ _ _ _ _ H2).
Qed.

(** * C36 and C43 *)

Lemma serves_stand_for : forall {V} (o : ops V) copied mp mp' n req, params_serve o copied mp mp' n req ->
  params_stand_for o copied mp mp' n req.
Proof. intros V o copied mp mp' n req []. constructor; auto. Qed.

Lemma is_round_up_eq : forall n k x, 0 < k -> is_round_up n k x -> x = round_up n k.
Proof. intros n k x Hk [D R]. apply round_up_unique; [exact Hk|lia|]. apply Z.mod_divide; [lia|exact D]. Qed.

Lemma channel_arrays_safe : forall {V} dbg (o : ops V) required n cap fresh freshz mp,
  valid_params o mp n -> 0 <= n <= required -> is_round_up n (2 ^ mp_rounding_log2 mp) cap ->
  exists mp', ensure_per_channel_buffers dbg o required n fresh freshz mp = Ok (mp', cap <? required) /\
    params_stand_for o (cap <? required) mp mp' n required /\ mp_chan mp' = mp_chan mp.
Proof.
  intros V dbg o required n cap fresh freshz mp P Hn Hc. apply valid_params_fit in P. destruct P as (P1 & P2 & P3).
  assert (Pk : 0 < 2 ^ mp_rounding_log2 mp) by (apply pow2_pos; lia).
  rewrite (is_round_up_eq n _ cap Pk Hc).
  destruct (ensure_per_channel_ok dbg o required n fresh freshz mp _ P1 eq_refl Hn P2 P3) as (mp' & E & S).
  exists mp'. split; [exact E|]. split; [apply serves_stand_for; exact S|]. destruct S. assumption.
Qed.

Lemma create_layout_any : forall dbg src k, kernel_layout_ok k -> layout_ok src ->
  (ml_rows src + kl_rows k) * (ml_cols src + kl_cols k) <= int_max ->
  exists l, create_packed_layout dbg src k = Ok l /\ playout_ok l /\
    pl_rows l = round_up (ml_rows src) (kl_rows k) /\ pl_cols l = round_up (ml_cols src) (kl_cols k).
Proof.
  intros dbg src k K [L1 L2 _ _] F. destruct (kernel_pos k K) as [P1 P2].
  pose proof (round_up_spec (ml_rows src) _ P1) as [R1 _]. pose proof (round_up_spec (ml_cols src) _ P2) as [R2 _].
  destruct (create_packed_layout_ok dbg src k) as (l & E & L & E1 & E2 & E3); auto.
  - eapply Z.le_trans; [|exact F]. transitivity ((ml_rows src + kl_rows k) * 1); [lia|]. apply Z.mul_le_mono_nonneg_l; lia.
  - eapply Z.le_trans; [|exact F]. transitivity (1 * (ml_cols src + kl_cols k)); [lia|]. apply Z.mul_le_mono_nonneg_r; lia.
  - eapply Z.le_trans; [|exact F]. apply Z.mul_le_mono_nonneg; lia.
  - exists l. auto.
Qed.

Section Any.
Variables (V : Type) (dbg : bool) (o : ops V) (kl : sp kernel_layout) (l r dst : mat V) (mp : mul_params V).
Hypothesis H : well_formed_call dbg o kl l r dst mp.

Lemma front_end_any : forall fresh freshz, exists t, exists adv : bool,
  mul_front_end dbg o kl fresh freshz l r dst mp = Ok (t, adv) /\
  (forall s, playout_ok (get s (tp_packed_layout t)) /\
     pl_rows (get s (tp_packed_layout t)) = round_up (ml_rows (m_layout r)) (kl_rows (lhs kl)) /\
     0 <= pl_cols (get s (tp_packed_layout t)) /\
     pl_cols (get s (tp_packed_layout t)) * o_sums_size (tp_ops t) s <= int_max /\
     1 <= o_data_size (tp_ops t) s <= 8 /\ 0 < o_sums_size (tp_ops t) s) /\
  pl_cols (get (dside (ml_order (m_layout dst)) Lhs) (tp_packed_layout t)) =
     round_up (ml_rows (m_layout dst)) (kl_cols (row_kernel kl (m_layout dst))) /\
  pl_cols (get (dside (ml_order (m_layout dst)) Rhs) (tp_packed_layout t)) =
     round_up (ml_cols (m_layout dst)) (kl_cols (col_kernel kl (m_layout dst))) /\
  (let n := channel_count mp (m_layout dst) in
   let req := round_up n (kl_cols (channel_kernel kl mp (m_layout dst))) in
   adv = (round_up n (2 ^ mp_rounding_log2 mp) <? req) /\ params_stand_for o adv mp (tp_mp t) n req).
Proof.
  intros fresh freshz. destruct H as [(K1 & K2 & K3) (M1 & M2 & M3) (S1 & S2 & S3) F Sz P Zp].
  apply valid_kernel_iff in K1. apply valid_kernel_iff in K2.
  apply valid_matrix_iff in M1. apply valid_matrix_iff in M2. apply valid_matrix_iff in M3.
  destruct (kernel_pos _ K1) as [P1 P2]. destruct (kernel_pos _ K2) as [P3 P4].
  apply valid_params_fit in P.
  assert (E0 : dcheck dbg (o_validate o (m_zp l) (m_zp r) (m_zp dst)) = Ok tt).
  { destruct dbg; [|reflexivity]. rewrite (Zp eq_refl). reflexivity. }
  unfold mul_front_end. rewrite E0. cbn [bind].
  assert (Sum : forall k n s, k = lhs kl \/ k = rhs kl -> n = ml_rows (m_layout dst) \/ n = ml_cols (m_layout dst) ->
    0 <= round_up n (kl_cols k) /\ round_up n (kl_cols k) * o_sums_size o s <= int_max).
  { intros k n s Hk Hn. destruct (F k n s Hk Hn) as [_ F2]. destruct (Sz s) as (_ & _ & Z1).
    assert (0 < kl_cols k) by (destruct Hk as [-> | ->]; lia). pose proof (round_up_spec n (kl_cols k) ltac:(lia)) as [R _].
    assert (0 <= n) by (destruct M3 as [[D1 D2 _ _] _]; destruct Hn; lia).
    split; [lia|]. eapply Z.le_trans; [|exact F2]. apply Z.mul_le_mono_nonneg_r; lia. }
  pose proof (mat_ok_transpose _ M1) as M1'.
  unfold create_trmul_params, channel_kernel, row_kernel, col_kernel, channel_count in *.
  destruct (ml_order (m_layout dst)) eqn:Eo; cbn [dside other_side get].
  - unfold create_trmul_params_col_major. rewrite Eo. rewrite dcheck_ok by reflexivity. cbn [bind].
    destruct (create_layout_any dbg (m_layout (transpose_mat l)) (lhs kl) K1 (mo_layout _ M1')) as (pl & El & Ol & Rl & Cl).
    { cbn [transpose_mat m_layout transpose_layout ml_rows ml_cols]. rewrite S1, <- S2. apply (F (lhs kl) _ Lhs); auto. }
    destruct (create_layout_any dbg (m_layout r) (rhs kl) K2 (mo_layout _ M2)) as (pr & Er & Or & Rr & Cr).
    { rewrite <- S3. apply (F (rhs kl) _ Rhs); auto. }
    cbn [transpose_mat m_layout transpose_layout ml_rows ml_cols] in Rl, Cl. rewrite S1 in Rl. rewrite <- S2 in Cl. rewrite K3 in Rr. rewrite <- S3 in Cr.
    rewrite El, Er. cbn [bind].
    set (cs := match mp_chan mp with ChRow => Lhs | ChCol => Rhs end).
    assert (En : ml_cols (m_layout (get cs (mk_sp (transpose_mat l) r))) = match mp_chan mp with ChRow => ml_rows (m_layout dst) | ChCol => ml_cols (m_layout dst) end).
    { unfold cs. destruct (mp_chan mp); cbn [get lhs rhs transpose_mat m_layout transpose_layout ml_rows ml_cols]; auto. }
    assert (Er2 : pl_cols (get cs (mk_sp pl pr)) = round_up (match mp_chan mp with ChRow => ml_rows (m_layout dst) | ChCol => ml_cols (m_layout dst) end)
       (kl_cols (match mp_chan mp with ChRow => lhs kl | ChCol => rhs kl end))).
    { unfold cs. destruct (mp_chan mp); cbn [get lhs rhs]; auto. }
    rewrite En, Er2.
    destruct P as (Q1 & Q2 & Q3).
    destruct (ensure_per_channel_ok dbg o (round_up (match mp_chan mp with ChRow => ml_rows (m_layout dst) | ChCol => ml_cols (m_layout dst) end)
       (kl_cols (match mp_chan mp with ChRow => lhs kl | ChCol => rhs kl end))) (match mp_chan mp with ChRow => ml_rows (m_layout dst) | ChCol => ml_cols (m_layout dst) end) fresh freshz (set_channel_dimension mp (mp_chan mp)) _ Q1 eq_refl) as (mp' & E & S); [|exact Q2| |].
    { destruct M3 as [[D1 D2 _ _] _].
      destruct (mp_chan mp); [pose proof (round_up_spec (ml_rows (m_layout dst)) (kl_cols (lhs kl)) ltac:(lia))|pose proof (round_up_spec (ml_cols (m_layout dst)) (kl_cols (rhs kl)) ltac:(lia))]; lia. }
    { destruct Q3 as [U1 U2 U3]. constructor; auto. }
    rewrite E. cbn [bind]. eexists. eexists. split; [reflexivity|]. cbn [tp_ops tp_packed_layout tp_mp get lhs rhs].
    split.
    { intros []; cbn [get lhs rhs].
      - destruct (Sum (lhs kl) (ml_rows (m_layout dst)) Lhs); auto. destruct (Sz Lhs). rewrite Cl. split; [exact Ol|]. split; [exact Rl|]. lia.
      - destruct (Sum (rhs kl) (ml_cols (m_layout dst)) Rhs); auto. destruct (Sz Rhs). rewrite Cr. split; [exact Or|]. split; [exact Rr|]. lia. }
    split; [exact Cl|]. split; [exact Cr|]. cbv zeta. split; [reflexivity|]. apply serves_stand_for in S. destruct S. constructor; auto.
  - unfold create_trmul_params_col_major. cbn [transpose_layout ml_order]. rewrite Eo. cbn [transpose_order]. rewrite dcheck_ok by reflexivity. cbn [bind].
    destruct (create_layout_any dbg (m_layout (transpose_mat l)) (rhs kl) K2 (mo_layout _ M1')) as (pl & El & Ol & Rl & Cl).
    { cbn [transpose_mat m_layout transpose_layout ml_rows ml_cols]. rewrite S1, <- S2. apply (F (rhs kl) _ Lhs); auto. }
    destruct (create_layout_any dbg (m_layout r) (lhs kl) K1 (mo_layout _ M2)) as (pr & Er & Or & Rr & Cr).
    { rewrite <- S3. apply (F (lhs kl) _ Rhs); auto. }
    cbn [transpose_mat m_layout transpose_layout ml_rows ml_cols] in Rl, Cl. rewrite S1, K3 in Rl. rewrite <- S2 in Cl. rewrite <- S3 in Cr.
    rewrite El, Er. cbn [bind].
    set (cs := match transpose_channel (mp_chan mp) with ChRow => Lhs | ChCol => Rhs end).
    assert (En : ml_cols (m_layout (get cs (mk_sp r (transpose_mat l)))) = match mp_chan mp with ChRow => ml_rows (m_layout dst) | ChCol => ml_cols (m_layout dst) end).
    { unfold cs. destruct (mp_chan mp); cbn [transpose_channel get lhs rhs transpose_mat m_layout transpose_layout ml_rows ml_cols]; auto. }
    assert (Er2 : pl_cols (get cs (mk_sp pr pl)) = round_up (match mp_chan mp with ChRow => ml_rows (m_layout dst) | ChCol => ml_cols (m_layout dst) end)
       (kl_cols (match mp_chan mp with ChRow => rhs kl | ChCol => lhs kl end))).
    { unfold cs. destruct (mp_chan mp); cbn [transpose_channel get lhs rhs]; auto. }
    rewrite En, Er2.
    destruct P as (Q1 & Q2 & Q3).
    destruct (ensure_per_channel_ok dbg (swap_ops o) (round_up (match mp_chan mp with ChRow => ml_rows (m_layout dst) | ChCol => ml_cols (m_layout dst) end)
       (kl_cols (match mp_chan mp with ChRow => rhs kl | ChCol => lhs kl end))) (match mp_chan mp with ChRow => ml_rows (m_layout dst) | ChCol => ml_cols (m_layout dst) end) fresh freshz (set_channel_dimension mp (transpose_channel (mp_chan mp))) _ Q1 eq_refl) as (mp' & E & S); [|exact Q2| |].
    { destruct M3 as [[D1 D2 _ _] _].
      destruct (mp_chan mp); [pose proof (round_up_spec (ml_rows (m_layout dst)) (kl_cols (rhs kl)) ltac:(lia))|pose proof (round_up_spec (ml_cols (m_layout dst)) (kl_cols (lhs kl)) ltac:(lia))]; lia. }
    { destruct Q3 as [U1 U2 U3]. constructor; auto. }
    rewrite E. cbn [bind]. eexists. eexists. split; [reflexivity|]. cbn [tp_ops tp_packed_layout tp_mp get lhs rhs].
    split.
    { intros []; cbn [get lhs rhs swap_ops o_sums_size o_data_size other_side].
      - destruct (Sum (lhs kl) (ml_cols (m_layout dst)) Rhs); auto. destruct (Sz Rhs). rewrite Cr. split; [exact Or|]. split; [exact Rr|]. lia.
      - destruct (Sum (rhs kl) (ml_rows (m_layout dst)) Lhs); auto. destruct (Sz Lhs). rewrite Cl. split; [exact Ol|]. split; [exact Rl|]. lia. }
    split; [exact Cl|]. split; [exact Cr|]. cbv zeta. split; [reflexivity|]. apply serves_stand_for in S. destruct S. constructor; auto.
Qed.

(** The arrays the kernels of a call see, and the advisory. *)
Lemma call_channel_arrays : forall fresh freshz cap req,
  let n := channel_count mp (m_layout dst) in
  is_round_up n (2 ^ mp_rounding_log2 mp) cap -> is_round_up n (kl_cols (channel_kernel kl mp (m_layout dst))) req ->
  exists t, mul_front_end dbg o kl fresh freshz l r dst mp = Ok (t, cap <? req) /\
    params_stand_for o (cap <? req) mp (tp_mp t) n req.
Proof.
  intros fresh freshz cap req n Hc Hr. destruct (front_end_any fresh freshz) as (t & adv & E & _ & _ & _ & A & S).
  fold n in A, S. exists t.
  assert (P : 0 < 2 ^ mp_rounding_log2 mp).
  { destruct (wc_params _ _ _ _ _ _ _ H) as (P1 & _). apply pow2_pos. lia. }
  assert (K : 0 < kl_cols (channel_kernel kl mp (m_layout dst))).
  { destruct (wc_kernels _ _ _ _ _ _ _ H) as (K1 & K2 & _). unfold channel_kernel, row_kernel, col_kernel.
    destruct (mp_chan mp); destruct (ml_order (m_layout dst)); apply power_of_two_pos; first [apply K1|apply K2]. }
  rewrite (is_round_up_eq n _ cap P Hc), (is_round_up_eq n _ req K Hr). rewrite <- A. auto.
Qed.

Lemma allocate_empty : forall t s f fs, playout_ok (get s (tp_packed_layout t)) ->
  pl_rows (get s (tp_packed_layout t)) = 0 \/ pl_cols (get s (tp_packed_layout t)) = 0 ->
  @allocate_packed V t s f fs = Abort.
Proof.
  intros t s f fs L Z. unfold allocate_packed, data_bytes, pflat_size. rewrite (po_order _ L), (po_stride _ L).
  assert (Z' : pl_rows (get s (tp_packed_layout t)) * pl_cols (get s (tp_packed_layout t)) = 0) by (destruct Z as [-> | ->]; lia).
  rewrite Z'. reflexivity.
Qed.

Lemma allocate_nonempty : forall t s f fs, playout_ok (get s (tp_packed_layout t)) ->
  0 < pl_rows (get s (tp_packed_layout t)) -> 0 < pl_cols (get s (tp_packed_layout t)) ->
  pl_cols (get s (tp_packed_layout t)) * o_sums_size (tp_ops t) s <= int_max ->
  1 <= o_data_size (tp_ops t) s <= 8 -> 0 < o_sums_size (tp_ops t) s ->
  exists p, @allocate_packed V t s f fs = Ok p.
Proof.
  intros t s f fs L R C F D S. unfold allocate_packed, data_bytes, sums_bytes, pflat_size. rewrite (po_order _ L), (po_stride _ L).
  pose proof (po_flat _ L) as Fl. unfold int_max in *.
  set (a := pl_rows (get s (tp_packed_layout t))) in *. set (b := pl_cols (get s (tp_packed_layout t))) in *.
  assert (0 < a * b) by (apply Z.mul_pos_pos; lia).
  rewrite (i64_ok (a * b)) by lia. cbn [bind].
  assert (0 < a * b * o_data_size (tp_ops t) s <= 2147483647 * 8).
  { split; [apply Z.mul_pos_pos; lia|]. apply Z.mul_le_mono_nonneg; lia. }
  rewrite i64_ok by lia. cbn [bind]. rewrite (proj2 (Z.eqb_neq _ _)) by lia. cbn [negb rcheck bind].
  assert (0 < b * o_sums_size (tp_ops t) s) by (apply Z.mul_pos_pos; lia).
  rewrite i32_ok by (unfold int_min, int_max; lia). cbn [bind].
  rewrite (proj2 (Z.eqb_neq _ 0)) by lia. cbn [negb rcheck bind]. eauto.
Qed.
End Any.

Lemma round_up_zero_iff : forall n k, 0 < k -> 0 <= n -> (round_up n k = 0 <-> n = 0).
Proof. intros n k Hk Hn. pose proof (round_up_spec n k Hk) as [R _]. split; [lia|]. intros ->. unfold round_up. apply Z.mul_eq_0. left. apply Z.div_small. lia. Qed.

(** A product with an empty operand aborts. *)
Lemma empty_product_aborts : forall {V} c (o : ops V) kl g sched l r dst mp,
  well_formed_call (c_dbg c) o kl l r dst mp ->
  ml_rows (m_layout dst) = 0 \/ ml_cols (m_layout dst) = 0 \/ ml_rows (m_layout r) = 0 ->
  mul c o kl g sched l r dst mp = Abort.
Proof.
  intros V c o kl g sched l r dst mp H Z. unfold mul, mul_by.
  destruct (front_end_any V _ o kl l r dst mp H (g_chan g) (g_exp g)) as (t & adv & E & L & C1 & C2 & _).
  rewrite E. cbn [bind]. unfold prepare_packed_matrices.
  assert (KP : forall s, 0 < kl_rows (get s kl) /\ 0 < kl_cols (get s kl)).
  { destruct (wc_kernels _ _ _ _ _ _ _ H) as (K1 & K2 & _). intros []; apply kernel_pos, valid_kernel_iff; assumption. }
  assert (D : 0 <= ml_rows (m_layout dst) /\ 0 <= ml_cols (m_layout dst) /\ 0 <= ml_rows (m_layout r)).
  { destruct (wc_matrices _ _ _ _ _ _ _ H) as (_ & M2 & M3). apply valid_matrix_iff in M2, M3.
    destruct M2 as [[A1 A2 _ _] _]. destruct M3 as [[B1 B2 _ _] _]. auto. }
  pose proof (L Lhs) as (L1 & R1 & Cl & F1 & D1 & S1). pose proof (L Rhs) as (L2 & R2 & Cr & F2 & D2 & S2).
  pose proof (round_up_zero_iff (ml_rows (m_layout r)) _ (proj1 (KP Lhs)) ltac:(tauto)) as RZ. cbn [get] in RZ.
  destruct (Z.eq_dec (pl_cols (get Lhs (tp_packed_layout t))) 0) as [E0|N0].
  { rewrite allocate_empty; auto. }
  destruct (Z.eq_dec (ml_rows (m_layout r)) 0) as [E1|N1].
  { rewrite allocate_empty; auto. left. rewrite R1. tauto. }
  assert (RP : 0 < round_up (ml_rows (m_layout r)) (kl_rows (lhs kl))).
  { pose proof (round_up_spec (ml_rows (m_layout r)) (kl_rows (lhs kl)) (proj1 (KP Lhs))). lia. }
  destruct (allocate_nonempty V t Lhs (g_packed g Lhs) (g_sums g Lhs) L1 ltac:(lia) ltac:(lia) F1 D1 S1) as (p & Ep). rewrite Ep. cbn [bind].
  rewrite allocate_empty; auto. right.
  assert (X : pl_cols (get Rhs (tp_packed_layout t)) = 0 \/ pl_cols (get Lhs (tp_packed_layout t)) = 0); [|tauto].
  unfold row_kernel, col_kernel in *.
  destruct (ml_order (m_layout dst)); cbn [dside other_side] in *; rewrite C1, C2.
  - rewrite !round_up_zero_iff by (try apply (KP Lhs); try apply (KP Rhs); tauto). tauto.
  - rewrite !round_up_zero_iff by (try apply (KP Lhs); try apply (KP Rhs); tauto). tauto.
Qed.
