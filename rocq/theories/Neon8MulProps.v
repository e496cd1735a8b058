(** ruy::Mul of bytes with the AArch64 dot-product kernels, whatever the schedule. *)
From Coq Require Import ZArith List Bool Lia.
From Verif Require Import Base SidePair SizeUtil SizeUtilFacts Mat MatFacts Scalars IntOps Pack SpecArith SpecRound SpecMatrix SpecPack SpecMul SpecSimd PackFacts PackProps
  MulParams Kernel KernelFacts PackX86 SpecPackX86 TrMul TrMulFacts TrMulMachine TrMulRun RunFacts ChannelFacts FrontEndFacts MulFacts MulProps RunBy X86Mul X86PackFacts
  X86MulFacts SpecX86Mul X86FrontFacts X86MulProps NeonPack SpecPackNeon Tune FloatNeonMul Kernel8Neon Neon8Mul SpecKernelNeon SpecNeonMul SpecKernel Neon8MulFacts.
Import ListNotations.
Open Scope Z_scope.

Lemma prepared_sums : forall {V} (t : tparams V) f fs dst m, prepare_packed_matrices t f fs dst = Ok m ->
  forall s b i, p_sums (get s (tm_packed m)) = Some b -> bdat b i = fs s i.
Proof.
  assert (A : forall V (t : tparams V) s f fs p, allocate_packed t s f fs = Ok p -> forall b i, p_sums p = Some b -> bdat b i = fs i).
  { intros V t s f fs p E b i Eb. unfold allocate_packed in E.
    repeat match type of E with (bind ?x _) = _ => destruct x; cbn [bind] in E; try discriminate E end. injection E as <-. cbn [p_sums] in Eb. injection Eb as <-. reflexivity. }
  intros V t f fs dst m E. unfold prepare_packed_matrices in E.
  destruct (allocate_packed t Lhs _ _) as [pl| |] eqn:El; cbn [bind] in E; try discriminate.
  destruct (allocate_packed t Rhs _ _) as [pr| |] eqn:Er; cbn [bind] in E; try discriminate. injection E as <-.
  intros []; cbn [tm_packed get lhs rhs]; intros b i; [apply (A _ _ _ _ _ _ El)|apply (A _ _ _ _ _ _ Er)].
Qed.

Lemma rounded : forall n r, is_round_up n 8 r -> r = 8 * ((n + 7) / 8).
Proof. intros n r ([k ->] & H). rewrite Z.mul_comm. f_equal. apply Z.div_unique with (r := n + 7 - 8 * k); [left; lia|ring]. Qed.

Lemma byte_types : forall st, byte_type (lhs st) -> byte_type (rhs st) -> vector_types st = mk_sp s8 s8.
Proof. intros [a b] [Ha | Ha] [Hb | Hb]; cbn in Ha, Hb; subst; reflexivity. Qed.

Section DotMul.
Variables (c : config) (ci : circumstances) (st : sp ity) (dt : ity) (l r dst : mat Z) (mp : mul_params Z) (g : garbage Z).
Hypothesis C : dot_mul c st dt l r dst mp.
Hypothesis G : dot_garbage g.
Hypothesis CI : dot_circumstances ci.
Let p := PathAvx.
Local Notation d := (ml_order (m_layout dst)).
Let o := int_ops checked (c_dbg c) st (x86_packed_types st) dt.
Let kl := mk_sp (x86_layout p) (x86_layout p).
Let st' := trmul_types d st.
Let nch := channels (mp_chan mp) (ml_rows (m_layout dst)) (ml_cols (m_layout dst)).

Lemma d_types : vector_types st = mk_sp s8 s8.
Proof. destruct (dm_types _ _ _ _ _ _ _ C) as (A & B). apply byte_types; assumption. Qed.

(** The blocks and types are those of AVX. *)
Lemma VM : vector_mul c p st dt l r dst mp.
Proof.
  constructor.
  - rewrite d_types. apply (dm_call _ _ _ _ _ _ _ C).
  - destruct (dm_types _ _ _ _ _ _ _ C) as (A & B). unfold vector_operands, bytes. destruct (ml_order (m_layout dst)); auto.
  - apply (dm_values _ _ _ _ _ _ _ C).
  - apply (dm_dst _ _ _ _ _ _ _ C).
  - intros s D HD. rewrite d_types. pose proof (dm_depth _ _ _ _ _ _ _ C D HD) as H. destruct s; exact H.
  - apply (dm_zero_points _ _ _ _ _ _ _ C).
  - apply (dm_bounds _ _ _ _ _ _ _ C).
  - apply (dm_multipliers _ _ _ _ _ _ _ C).
  - apply (dm_dst_bytes _ _ _ _ _ _ _ C).
Qed.

Lemma VG : vector_garbage (ml_order (m_layout dst)) st g.
Proof. intros s i. cbv zeta. rewrite d_types. destruct (G s i) as (H & _). destruct (ml_order (m_layout dst)), s; exact H. Qed.

Let dv_call := v_call _ _ _ _ _ _ _ _ VM.
Let dv_sources := v_sources _ _ _ _ _ _ _ _ VM.

Lemma d_bytes : forall s, byte_type (get s st').
Proof. destruct (dm_types _ _ _ _ _ _ _ C) as (A & B). intros s. unfold st', trmul_types. case (ml_order (m_layout dst)); destruct s; assumption. Qed.

Lemma d_fits : forall s, ml_order (m_layout (get s (mk_sp (transpose_mat l) r))) = ColMajor ->
  last_four (ml_stride (m_layout (get s (mk_sp (transpose_mat l) r)))) (ml_cols (m_layout (get s (mk_sp (transpose_mat l) r)))) <= int_max.
Proof.
  intros []; cbn [get lhs rhs].
  - intros E. apply (dm_lhs_offsets _ _ _ _ _ _ _ C). cbn [transpose_mat m_layout transpose_layout ml_order] in E. destruct (ml_order (m_layout l)); [discriminate|reflexivity].
  - apply (dm_rhs_offsets _ _ _ _ _ _ _ C).
Qed.

Lemma dot_front : exists t adv m,
  mul_front_end (c_dbg c) o kl (g_chan g) (g_exp g) l r dst mp = Ok (t, adv) /\
  prepare_packed_matrices t (g_packed g) (g_sums g) (m_data dst) = Ok m /\ x86_problem c p st dt l r dst mp t m /\ dot_params st' dt t /\ dot_mem st' dt t m.
Proof.
  destruct (x86_front c p st dt l r dst mp g VM VG) as (t & adv & m & E1 & E2 & Q). exists t, adv, m. split; [exact E1|]. split; [exact E2|]. split; [exact Q|].
  pose proof (xq_params _ _ _ _ _ _ _ _ _ _ Q) as X. destruct (xq_serve _ _ _ _ _ _ _ _ _ _ Q) as (adv' & Sv). split.
  - constructor.
    + exact X.
    + exact d_bytes.
    + rewrite (xq_rows _ _ _ _ _ _ _ _ _ _ Q). pose proof (vc_nonempty _ _ _ _ _ _ _ dv_call) as (_ & _ & Dp).
      pose proof (round_up_is (ml_rows (m_layout r)) 4 ltac:(lia)) as (_ & RU). lia.
    + intros N. rewrite (ps_min _ _ _ _ _ _ Sv), (ps_max _ _ _ _ _ _ Sv). exact (dm_order _ _ _ _ _ _ _ C N).
    + intros N. rewrite (xq_dzp _ _ _ _ _ _ _ _ _ _ Q). exact (dm_dst_zp _ _ _ _ _ _ _ C N).
    + intros s. pose proof (xp_ok _ _ _ _ X) as T1. pose proof (to_cols _ _ T1 s) as TC. pose proof (po_cols_al _ (to_pl _ _ T1 s)) as TA. rewrite (to_kernel _ _ T1 s) in TA.
      cbv beta in TC, TA. rewrite (kl_side _ _ _ _ X) in TC, TA. cbn [x86_layout kl_cols] in TC, TA. change (x86_width p) with 8 in TC, TA.
      rewrite (xq_src _ _ _ _ _ _ _ _ _ _ Q), (src_side st) in *. intros Eo. pose proof (d_fits _ Eo) as F. unfold last_four in F. unfold blocks_fit.
      rewrite (rounded (ml_cols (m_layout (get (dside (ml_order (m_layout dst)) s) (mk_sp (transpose_mat l) r)))) (pl_cols (get s (tp_packed_layout t)))); [exact F|].
      split; [apply Z.mod_divide; [lia|exact TA]|lia].
  - split; [apply (xq_mem _ _ _ _ _ _ _ _ _ _ Q)|]. split.
    + rewrite (xq_dst _ _ _ _ _ _ _ _ _ _ Q). apply (dm_dst_typed _ _ _ _ _ _ _ C).
    + intros s b Eb i _. rewrite (prepared_sums _ _ _ _ _ E2 s b i Eb). apply G.
Qed.

(** What is stored, in the user's terms. *)
Lemma dot_entry_user : forall t m i j v, x86_problem c p st dt l r dst mp t m -> in_matrix (m_layout dst) i j ->
  dentry d (fun a b => dot_entry st' dt t a b v) i j -> neon_result dt mp (m_zp dst) i j (exact_acc l r mp i j) v.
Proof.
  intros t m i j v Q I H. destruct (xq_serve _ _ _ _ _ _ _ _ _ _ Q) as (adv & S). pose proof (channels_count dst mp i j I) as CH.
  pose proof (wc_shapes _ _ _ _ _ _ _ (vc_well_formed _ _ _ _ _ _ _ dv_call)) as (Sd & Sr & Sc). destruct dv_sources as (VS & _).
  pose proof (round_up_is (ml_rows (m_layout r)) 4 ltac:(lia)) as (_ & RU). pose proof (vc_nonempty _ _ _ _ _ _ _ dv_call) as (_ & _ & Dp).
  destruct I as (Hi & Hj). pose proof (vm_values _ _ _ _ _ _ _ _ VM) as ((VL & VL') & (VR & VR')).
  set (a := match d with ColMajor => i | RowMajor => j end). set (b := match d with ColMajor => j | RowMajor => i end).
  assert (H' : dot_entry st' dt t a b v) by (unfold a, b; unfold dentry in H; case_eq (ml_order (m_layout dst)); intros Ed; rewrite Ed in H; exact H). clear H.
  assert (CA : channel_at (tp_mp t) a b = channel_at mp i j).
  { unfold channel_at. rewrite (ps_chan _ _ _ _ _ _ S). cbn [set_channel_dimension mp_chan]. unfold dchan, a, b. case (ml_order (m_layout dst)); case (mp_chan mp); reflexivity. }
  assert (AB : bias_at (tp_mp t) a b = bias_at mp i j).
  { unfold bias_at. rewrite CA. pose proof (ps_bias _ _ _ _ _ _ S) as SB. cbn [set_channel_dimension mp_bias] in SB.
    destruct (mp_bias mp), (mp_bias (tp_mp t)); try contradiction; [|reflexivity]. apply SB. exact CH. }
  pose proof (ps_flag _ _ _ _ _ _ S) as EF. cbn [set_channel_dimension mp_perchannel] in EF.
  assert (AM : dt <> s32 -> multiplier_at (tp_mp t) a b = multiplier_at mp i j /\ exponent_at (tp_mp t) a b = exponent_at mp i j).
  { intros N. unfold multiplier_at, exponent_at. rewrite CA, EF. destruct (mp_perchannel mp) eqn:Ep.
    - pose proof (ps_mult _ _ _ _ _ _ S (proj2 (quant_none _ _ _ _ _ _ _ _ VM) N)) as SM. pose proof (ps_exp _ _ _ _ _ _ S (proj2 (quant_none _ _ _ _ _ _ _ _ VM) N)) as SE.
      unfold multiplier_fixedpoint_perchannel, multiplier_exponent_perchannel in SM, SE. cbn [set_channel_dimension mp_perchannel mp_mult_pc mp_exp_pc] in SM, SE.
      rewrite EF, Ep in SM, SE. split.
      + destruct (mp_mult_pc mp), (mp_mult_pc (tp_mp t)); try contradiction; [|reflexivity]. apply SM. exact CH.
      + destruct (mp_exp_pc mp), (mp_exp_pc (tp_mp t)); try contradiction; [|reflexivity]. apply SE. exact CH.
    - pose proof (ps_m _ _ _ _ _ _ S) as E1. pose proof (ps_e _ _ _ _ _ _ S) as E2. unfold multiplier_fixedpoint, multiplier_exponent in E1, E2.
      cbn [set_channel_dimension mp_perchannel mp_mult mp_exp] in E1, E2. rewrite EF, Ep in E1, E2. auto. }
  unfold dot_entry in H'. rewrite (xq_dzp _ _ _ _ _ _ _ _ _ _ Q) in H'.
  assert (AC : exact_accumulator (pl_rows (get Lhs (tp_packed_layout t))) (get Lhs (tp_packed_zp t)) (get Rhs (tp_packed_zp t))
      (x86_value st' t Lhs) (x86_value st' t Rhs) (tp_mp t) a b = exact_acc l r mp i j).
  { unfold exact_accumulator, exact_acc. rewrite AB. f_equal. rewrite (xq_rows _ _ _ _ _ _ _ _ _ _ Q).
    pose proof (xp_zp _ _ _ _ (xq_params _ _ _ _ _ _ _ _ _ _ Q)) as ZP.
    assert (ZE : forall s, get s (tp_packed_zp t) = m_zp (get s (tp_src t)) - middle (get s st')).
    { intros s. destruct (ZP s) as (Z1 & Z2). rewrite Z2. apply shifted_range; [apply (xp_source _ _ _ _ (xq_params _ _ _ _ _ _ _ _ _ _ Q))|exact Z1]. }
    unfold x86_value.
    assert (TR : forall k x, entry (transpose_mat l) k x = entry l x k) by (intros; rewrite !entry_ent; apply ent_transpose).
    assert (VT : forall k x, in_matrix (m_layout (transpose_mat l)) k x -> it_lo (lhs st) <= entry (transpose_mat l) k x <= it_hi (lhs st))
      by (intros k x (A & B); rewrite TR; apply VL'; split; assumption).
    rewrite !(ZE Lhs), !(ZE Rhs). unfold st'. rewrite !(xq_src _ _ _ _ _ _ _ _ _ _ Q), !(src_side st), !get_st'. unfold dside, a, b, exact_dot.
    case (ml_order (m_layout dst)); cbn [other_side get lhs rhs].
    - rewrite padded_dot; try assumption; try reflexivity; try (apply VS); cbn [transpose_mat m_layout transpose_layout ml_rows ml_cols]; try lia; try (apply (VS Lhs)); try (apply (VS Rhs)).
      rewrite Sd. f_equal. apply map_ext. intros k. rewrite TR. reflexivity.
    - rewrite padded_dot; try assumption; try reflexivity; try (apply VS); cbn [transpose_mat m_layout transpose_layout ml_rows ml_cols]; try lia; try (apply (VS Lhs)); try (apply (VS Rhs)).
      f_equal. apply map_ext. intros k. rewrite TR. apply Z.mul_comm. }
  rewrite AC in H'. unfold neon_result in *. rewrite (ps_min _ _ _ _ _ _ S), (ps_max _ _ _ _ _ _ S) in H'. cbn [set_channel_dimension mp_min mp_max] in H'.
  destruct (ity_eqb dt s32) eqn:Ed; [exact H'|]. assert (N : dt <> s32) by (intros EQ; rewrite EQ in Ed; discriminate Ed). destruct (AM N) as (E1 & E2). rewrite E1, E2 in H'. exact H'.
Qed.

Lemma dot_done_user : forall t m m', x86_problem c p st dt l r dst mp t m -> computed (tp_dst_layout t) (dot_entry st' dt t) (inside (tp_dst_layout t)) (tm_dst m) (tm_dst m') ->
  dot_product dt l r mp dst {| m_data := tm_dst m'; m_layout := m_layout dst; m_zp := m_zp dst |}.
Proof.
  intros t m m' Q (W1 & W2 & W3). rewrite (xq_dst _ _ _ _ _ _ _ _ _ _ Q), (xq_layout _ _ _ _ _ _ _ _ _ _ Q) in *.
  assert (OD : forall i j, off (sub_layout d (m_layout dst)) (dentry d (fun a _ => a) i j) (dentry d (fun _ b => b) i j) = position (m_layout dst) i j).
  { intros i j. rewrite position_off. unfold sub_layout, dentry. case (ml_order (m_layout dst)); [reflexivity|]. apply off_transpose. }
  assert (ID : forall i j, in_matrix (m_layout dst) i j <-> inside (sub_layout d (m_layout dst)) (dentry d (fun a _ => a) i j) (dentry d (fun _ b => b) i j)).
  { intros i j. unfold sub_layout, dentry, in_matrix, inside. case (ml_order (m_layout dst)); [reflexivity|]. cbn [transpose_layout ml_rows ml_cols]. tauto. }
  assert (DD : forall i j, i = dentry d (fun a _ => a) (dentry d (fun a _ => a) i j) (dentry d (fun _ b => b) i j) /\
                           j = dentry d (fun _ b => b) (dentry d (fun a _ => a) i j) (dentry d (fun _ b => b) i j)) by (intros i j; unfold dentry; case (ml_order (m_layout dst)); auto).
  unfold dot_product. cbn [m_layout m_zp m_data]. split; [reflexivity|]. split; [reflexivity|]. split; [exact W1|]. split.
  - intros i j I. apply (dot_entry_user t m i j _ Q I). unfold entry. cbn [m_data m_layout]. rewrite <- OD.
    specialize (W2 _ _ (proj1 (ID i j) I)). unfold dentry in *. case_eq (ml_order (m_layout dst)); intros Ed; rewrite Ed in W2; exact W2.
  - intros q Hq. apply W3. intros i j I. destruct (DD i j) as (Ei & Ej). set (i' := dentry d (fun a _ => a) i j) in *. set (j' := dentry d (fun _ b => b) i j) in *.
    rewrite Ei, Ej in I |- *. rewrite OD. apply Hq. apply ID. exact I.
Qed.

Lemma dot_unfold : forall sched, mul_dotprod c ci st dt g sched l r dst mp =
  mul_by (fun t => tm_pack_dot (c_dbg c) ci st' t) (fun t => tm_kernel_dot (c_dbg c) (c_fat c) ci dt t) c o kl g sched l r dst mp.
Proof. intros sched. unfold mul_dotprod. cbv zeta. fold st'. unfold o. change (x86_packed_types st) with (vector_types st). rewrite d_types. reflexivity. Qed.

Theorem dot_computes : forall sched, exists out, mul_dotprod c ci st dt g sched l r dst mp = Ok out /\
  forall x, out = Some x -> dot_product dt l r mp dst x.
Proof.
  intros sched. rewrite dot_unfold. destruct dot_front as (t & adv & m & E1 & E2 & Q & DP & DM). unfold mul_by. rewrite E1. cbn [bind]. rewrite E2. cbn [bind].
  destruct (dot_trmul_ok (c_dbg c) (c_fat c) ci st' dt t DP CI c (xq_domain _ _ _ _ _ _ _ _ _ _ Q) sched m DM) as (out & E & H).
  rewrite E. cbn [bind]. eexists. split; [reflexivity|]. intros d' Ed'. destruct out as [m'|]; [|discriminate]. injection Ed' as <-.
  destruct (H m' eq_refl) as (_ & W). exact (dot_done_user t m m' Q W).
Qed.

Theorem dot_fair : forall sg N0, (forall i k, 0 <= i < c_max_threads c -> exists k', (k <= k')%nat /\ fst (sg k') = i) ->
  (forall k, (N0 <= k)%nat -> snd (sg k) = false) ->
  exists k out, mul_dotprod c ci st dt g (map sg (seq 0 k)) l r dst mp = Ok (Some out).
Proof.
  intros sg N0 FA VI. destruct dot_front as (t & adv & m & E1 & E2 & Q & DP & DM).
  destruct (dot_trmul_fair (c_dbg c) (c_fat c) ci st' dt t DP CI c (xq_domain _ _ _ _ _ _ _ _ _ _ Q) sg N0 m DM FA VI) as (k & m' & E).
  exists k. eexists. rewrite dot_unfold. unfold mul_by. rewrite E1. cbn [bind]. rewrite E2. cbn [bind]. rewrite E. reflexivity.
Qed.

(** int32 destinations hold the exact accumulators. *)
Theorem dot_exact_int32 : dt = s32 -> (forall i j, in_matrix (m_layout dst) i j -> is_i32 (exact_acc l r mp i j)) ->
  forall sched, exists out, mul_dotprod c ci st dt g sched l r dst mp = Ok out /\
  forall x, out = Some x -> forall i j, in_matrix (m_layout dst) i j -> entry x i j = exact_acc l r mp i j.
Proof.
  intros E32 R sched. destruct (dot_computes sched) as (out & E & H). exists out. split; [exact E|]. intros x Ex i j I.
  destruct (H x Ex) as (_ & _ & _ & V & _). specialize (V i j I). unfold neon_result in V. rewrite E32 in V. cbn in V. rewrite V.
  apply Base.wrap_s_id; [lia|]. exact (R i j I).
Qed.
End DotMul.
