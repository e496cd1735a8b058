(** ruy::Mul on the x86 paths, whatever the schedule. *)
From Coq Require Import ZArith List Bool Lia.
From Verif Require Import Base SidePair SizeUtil SizeUtilFacts Mat MatFacts Scalars IntOps Pack SpecArith SpecRound SpecMatrix SpecPack SpecMul SpecSimd SpecKernel PackFacts PackProps
  MulParams Kernel KernelFacts PackX86 SpecPackX86 TrMul TrMulFacts TrMulMachine TrMulRun RunFacts ChannelFacts FrontEndFacts MulFacts MulProps RunBy X86Mul X86PackFacts
  X86MulFacts SpecX86Mul X86FrontFacts.
Import ListNotations.
Open Scope Z_scope.

Lemma i32_factor : forall x d, 1 <= d -> is_i32 (x * d) -> is_i32 x.
Proof. unfold is_i32, int_min, int_max. intros. nia. Qed.

Section X86Mul.
Variables (c : config) (p : x86_path) (st : sp ity) (dt : ity) (l r dst : mat Z) (mp : mul_params Z) (g : garbage Z).
Hypothesis C : vector_mul c p st dt l r dst mp.
Hypothesis G : vector_garbage (ml_order (m_layout dst)) st g.
Let d := ml_order (m_layout dst).
Let o := int_ops checked (c_dbg c) st (x86_packed_types st) dt.
Let kl := mk_sp (x86_layout p) (x86_layout p).
Let st' := trmul_types d st.
Let nch := channels (mp_chan mp) (ml_rows (m_layout dst)) (ml_cols (m_layout dst)).

Lemma v_call : valid_call c o kl l r dst mp.
Proof. pose proof (vm_call _ _ _ _ _ _ _ _ C) as H. unfold o, kl. destruct p; exact H. Qed.

Lemma v_sources : (forall s, x86_source (get s st)) /\ x86_has_kernel p (x86_packed (lhs st')) (x86_packed (rhs st')) = true.
Proof.
  pose proof (vm_types _ _ _ _ _ _ _ _ C) as H. fold d in H. unfold vector_operands, bytes in H. unfold st', trmul_types, x86_source.
  assert (K : forall a b, (a = s8 \/ a = u8) -> (b = s8 \/ b = u8) \/ b = s16 /\ p <> PathAvx -> x86_has_kernel p (x86_packed a) (x86_packed b) = true).
  { clear. intros a b [-> | ->] [[-> | ->] | [-> N]]; destruct p; try reflexivity; congruence. }
  destruct d; cbn [lhs rhs]; (split; [intros []; cbn [get lhs rhs]; destruct H as (H1 & H2); tauto|apply K; apply H]).
Qed.

Lemma get_st' : forall s, get s st' = get (dside d s) st.
Proof. intros []; unfold st', dside, trmul_types; destruct d; reflexivity. Qed.

Lemma src_side : forall s, get s (tsides d (mk_sp (transpose_mat l) r)) = get (dside d s) (mk_sp (transpose_mat l) r).
Proof. intros []; unfold dside, tsides; destruct d; reflexivity. Qed.

Lemma src_depth : forall s, ml_rows (m_layout (get s (mk_sp (transpose_mat l) r))) = ml_rows (m_layout r).
Proof. pose proof (wc_shapes _ _ _ _ _ _ _ (vc_well_formed _ _ _ _ _ _ _ v_call)) as (E & _). intros []; cbn [get lhs rhs]; [exact E|reflexivity]. Qed.

Lemma src_zp : forall s, m_zp (get s (mk_sp (transpose_mat l) r)) = match s with Lhs => m_zp l | Rhs => m_zp r end.
Proof. intros []; reflexivity. Qed.

Lemma zp_user : forall s, it_lo (get s st) <= m_zp (get s (mk_sp (transpose_mat l) r)) <= it_hi (get s st).
Proof. pose proof (vm_values _ _ _ _ _ _ _ _ C) as ((A & _) & (B & _)). intros []; cbn [get lhs rhs]; assumption. Qed.

Lemma pack_zp_ok : forall s, o_pack_zp o s (m_zp (get s (mk_sp (transpose_mat l) r))) =
  it_conv (x86_packed (get s st)) (m_zp (get s (mk_sp (transpose_mat l) r)) - middle (get s st)).
Proof.
  intros s. cbn [o int_ops o_pack_zp]. unfold pack_int. replace (get s (x86_packed_types st)) with (x86_packed (get s st)) by (destruct s; reflexivity).
  destruct (x86_source_facts _ (proj1 v_sources s)) as (M & _ & Sg & _). rewrite M. unfold symmetric_zero_point at 1. rewrite Sg. f_equal. lia.
Qed.

(** The TrMul of the call. *)
Record x86_problem (t : tparams Z) (m : tmem Z) : Prop := {
  xq_params : x86_params p st' dt t;
  xq_domain : trmul_domain c t;
  xq_mem : x86_mem st' t m;
  xq_dst : tm_dst m = m_data dst;
  xq_src : tp_src t = tsides d (mk_sp (transpose_mat l) r);
  xq_layout : tp_dst_layout t = sub_layout d (m_layout dst);
  xq_dzp : tp_dst_zp t = m_zp dst;
  xq_rows : forall s, pl_rows (get s (tp_packed_layout t)) = round_up (ml_rows (m_layout r)) 4;
  xq_serve : exists adv, params_serve (dops d o) adv (set_channel_dimension mp (dchan d (mp_chan mp))) (tp_mp t) nch
      (pl_cols (get (channel_side (tp_mp t)) (tp_packed_layout t)))
}.

Lemma quant_none : o_quant (dops d o) <> None <-> dt <> s32.
Proof.
  replace (o_quant (dops d o)) with (o_quant o) by (destruct d; reflexivity). cbn [o int_ops o_quant].
  destruct (vm_dst _ _ _ _ _ _ _ _ C) as [-> | [-> | [-> | ->]]]; split; intros H; try discriminate; destruct (H eq_refl).
Qed.

Lemma zero_fixed : fixed_point 0 /\ exponent 0.
Proof. unfold fixed_point, exponent, int_max. lia. Qed.

Lemma cover_ok : forall t adv, let req := pl_cols (get (channel_side (tp_mp t)) (tp_packed_layout t)) in
  params_serve (dops d o) adv (set_channel_dimension mp (dchan d (mp_chan mp))) (tp_mp t) nch req ->
  adv = (round_up nch (2 ^ mp_rounding_log2 mp) <? req) -> params_cover dt (tp_mp t) req.
Proof.
  intros t adv req S Eadv. pose proof (valid_call_ok Z c o kl l r dst mp v_call) as CO.
  destruct (ca_params _ _ _ _ _ _ _ CO) as (Q1 & Q2 & [U1 U2 U3]). fold nch in Q2, U1, U2, U3.
  split.
  - intros b Eb. pose proof (ps_bias _ _ _ _ _ _ S) as SB. rewrite Eb in SB. cbn [set_channel_dimension mp_bias] in SB. destruct (mp_bias mp); [|contradiction]. apply SB.
  - pose proof (ps_flag _ _ _ _ _ _ S) as EF. cbn [set_channel_dimension mp_perchannel] in EF. rewrite EF.
    pose proof (vm_multipliers _ _ _ _ _ _ _ _ C) as VM. destruct (mp_perchannel mp) eqn:Ep.
    + destruct VM as (N & m & e & Em & Ee & VM). split; [exact N|].
      pose proof (ps_mult _ _ _ _ _ _ S (proj2 quant_none N)) as SM. pose proof (ps_exp _ _ _ _ _ _ S (proj2 quant_none N)) as SE.
      unfold multiplier_fixedpoint_perchannel, multiplier_exponent_perchannel in SM, SE, U2, U3. cbn [set_channel_dimension mp_perchannel mp_mult_pc mp_exp_pc] in SM, SE.
      rewrite EF, Ep, Em in SM. rewrite EF, Ep, Ee in SE. rewrite Ep in U2, U3.
      destruct (mp_mult_pc (tp_mp t)) as [m'|]; [|contradiction]. destruct (mp_exp_pc (tp_mp t)) as [e'|]; [|contradiction].
      cbn [serves] in SM, SE. destruct SM as (L1 & A1 & B1). destruct SE as (L2 & A2 & B2).
      exists m', e'. split; [reflexivity|]. split; [reflexivity|]. split; [exact L1|]. split; [exact L2|].
      intros i Hi. destruct (Z_lt_le_dec i nch) as [Hn|Hn].
      * rewrite A1, A2 by lia. apply VM. exact (conj (proj1 Hi) Hn).
      * destruct adv.
        -- rewrite B1, B2 by lia. apply zero_fixed.
        -- subst m' e'. destruct (U2 m Em) as (_ & Z1). destruct (U3 e Ee) as (_ & Z2).
           assert (i < round_up nch (2 ^ mp_rounding_log2 mp)) by (clear - Eadv Hi; lia).
           specialize (Z1 i ltac:(lia)). specialize (Z2 i ltac:(lia)). cbv beta in Z1, Z2.
           replace (bdat m i) with 0 by lia. replace (bdat e i) with 0 by lia. apply zero_fixed.
    + intros N. pose proof (ps_m _ _ _ _ _ _ S) as E1. pose proof (ps_e _ _ _ _ _ _ S) as E2. unfold multiplier_fixedpoint, multiplier_exponent in E1, E2.
      cbn [set_channel_dimension mp_perchannel mp_mult mp_exp] in E1, E2. rewrite EF, Ep in E1, E2. rewrite E1, E2. apply VM, N.
Qed.

Lemma x86_front : exists t adv m,
  mul_front_end (c_dbg c) o kl (g_chan g) (g_exp g) l r dst mp = Ok (t, adv) /\
  prepare_packed_matrices t (g_packed g) (g_sums g) (m_data dst) = Ok m /\ x86_problem t m.
Proof.
  pose proof (valid_call_ok Z c o kl l r dst mp v_call) as CO. pose proof (valid_call_domain Z c o kl l r dst mp v_call) as CD.
  destruct (front_end_domain Z c o kl g l r dst mp CO CD) as (t & adv & m & E1 & E2 & T1 & TD & MM & Md & T6 & _).
  destruct (front_end_full (c_dbg c) o kl (g_chan g) (g_exp g) l r dst mp CO) as (t2 & adv2 & E1' & _ & _ & To & Tk & Ts & _ & Tz & Tp & Tr & Sv & Ea).
  rewrite E1 in E1'. injection E1' as <- <-. fold d in To, Tk, Ts, Tp, T6, Sv. fold nch in Sv, Ea. cbn [kl lhs x86_layout kl_rows] in Tr.
  exists t, adv, m. split; [exact E1|]. split; [exact E2|].
  destruct v_sources as (VS & VK). pose proof (round_up_is (ml_rows (m_layout r)) 4 ltac:(lia)) as RU.
  pose proof (vc_nonempty _ _ _ _ _ _ _ v_call) as (_ & _ & Dp).
  assert (ZP : forall s, it_lo (get s st') <= m_zp (get s (tp_src t)) <= it_hi (get s st') /\
    get s (tp_packed_zp t) = it_conv (x86_packed (get s st')) (m_zp (get s (tp_src t)) - middle (get s st'))).
  { intros s. rewrite get_st', Ts, src_side. split; [apply zp_user|]. rewrite <- pack_zp_ok, Tp. destruct s; unfold dside, tsides; destruct d; reflexivity. }
  assert (X : x86_params p st' dt t).
  { constructor.
    - exact T1.
    - exact Tk.
    - exact VK.
    - intros s. rewrite get_st'. apply VS.
    - intros dbg dbg' s src q a b. rewrite To. unfold st', dops, trmul_types. destruct d; [destruct s; reflexivity|]. unfold o. rewrite run_pack_swap. destruct s; reflexivity.
    - intros s. rewrite Tr, Ts, src_side, src_depth. exact RU.
    - exact ZP.
    - intros s. rewrite Tr, get_st'. pose proof (vm_depth _ _ _ _ _ _ _ _ C (dside d s) _ RU) as H.
      replace (get (dside d s) (vector_types st)) with (x86_packed (get (dside d s) st)) in H by (destruct (dside d s); reflexivity). exact H.
    - apply (vm_dst _ _ _ _ _ _ _ _ C).
    - rewrite T6. unfold d. destruct (ml_order (m_layout dst)) eqn:Eo; cbn [sub_layout]; [exact Eo|]. cbn [transpose_layout ml_order]. rewrite Eo. reflexivity.
    - exact (cover_ok t adv Sv Ea).
    - rewrite (ps_min _ _ _ _ _ _ Sv), (ps_max _ _ _ _ _ _ Sv). cbn [set_channel_dimension mp_min mp_max]. apply (vm_bounds _ _ _ _ _ _ _ _ C).
    - pose proof (vm_dst_bytes _ _ _ _ _ _ _ _ C) as H. rewrite T6. replace (ml_stride (sub_layout d (m_layout dst))) with (ml_stride (m_layout dst)) by (destruct d; reflexivity).
      destruct p; exact H.
    - assert (PR : is_i32 (lhs (tp_packed_zp t) * rhs (tp_packed_zp t) * round_up (ml_rows (m_layout r)) 4)).
      { pose proof (vm_zero_points _ _ _ _ _ _ _ _ C _ RU) as H. rewrite Tp.
        assert (P1 : forall s, o_pack_zp o s (m_zp (get s (mk_sp (transpose_mat l) r))) = m_zp (get s (mk_sp (transpose_mat l) r)) - middle (get s st))
          by (intros s; rewrite pack_zp_ok; apply shifted_range; [apply VS|apply zp_user]).
        pose proof (P1 Lhs) as P1l. pose proof (P1 Rhs) as P1r. cbn [get lhs rhs] in P1l, P1r. change (m_zp (transpose_mat l)) with (m_zp l) in P1l.
        rewrite P1l, P1r. destruct d; cbn [tsides lhs rhs]; [exact H|]. rewrite (Z.mul_comm (m_zp r - _)). exact H. }
      rewrite Tr. split; [|exact PR]. eapply i32_factor; [|exact PR]. destruct RU as (_ & RU). lia. }
  constructor; try assumption.
  - split; [exact MM|]. pose proof (prepared_data _ _ _ _ _ E2) as PD. split; intros s; [|apply PD].
    intros i _. rewrite (proj1 (PD s) i), get_st'. specialize (G s i). cbv zeta in G. fold d in G.
    replace (match d with ColMajor => s | RowMajor => other_side s end) with (dside d s) in G by reflexivity.
    replace (get (dside d s) (vector_types st)) with (x86_packed (get (dside d s) st)) in G by (destruct (dside d s); reflexivity). exact G.
  - exists adv. exact Sv.
Qed.

Lemma channels_count : forall i j, in_matrix (m_layout dst) i j -> 0 <= channel_at mp i j < nch.
Proof. intros i j (Hi & Hj). unfold nch, channels, channel_at. destruct (mp_chan mp); lia. Qed.

(** What is stored, in the user's terms. *)
Lemma entry_user : forall t m i j v, x86_problem t m -> in_matrix (m_layout dst) i j ->
  dentry d (fun a b => x86_entry st' dt t a b v) i j -> vector_result dt mp (m_zp dst) i j (exact_acc l r mp i j) v.
Proof.
  intros t m i j v Q I H. destruct (xq_serve _ _ Q) as (adv & S). pose proof (channels_count i j I) as CH.
  pose proof (wc_shapes _ _ _ _ _ _ _ (vc_well_formed _ _ _ _ _ _ _ v_call)) as (Sd & Sr & Sc). destruct v_sources as (VS & _).
  pose proof (round_up_is (ml_rows (m_layout r)) 4 ltac:(lia)) as (_ & RU). pose proof (vc_nonempty _ _ _ _ _ _ _ v_call) as (_ & _ & Dp).
  destruct I as (Hi & Hj). pose proof (vm_values _ _ _ _ _ _ _ _ C) as ((VL & VL') & (VR & VR')).
  set (a := match d with ColMajor => i | RowMajor => j end). set (b := match d with ColMajor => j | RowMajor => i end).
  assert (H' : x86_entry st' dt t a b v) by (unfold a, b; unfold dentry in H; case_eq d; intros Ed; rewrite Ed in H; exact H). clear H.
  assert (CA : channel_at (tp_mp t) a b = channel_at mp i j).
  { unfold channel_at. rewrite (ps_chan _ _ _ _ _ _ S). cbn [set_channel_dimension mp_chan]. unfold dchan, a, b. case d; case (mp_chan mp); reflexivity. }
  assert (AB : bias_at (tp_mp t) a b = bias_at mp i j).
  { unfold bias_at. rewrite CA. pose proof (ps_bias _ _ _ _ _ _ S) as SB. cbn [set_channel_dimension mp_bias] in SB.
    destruct (mp_bias mp), (mp_bias (tp_mp t)); try contradiction; [|reflexivity]. apply SB. exact CH. }
  pose proof (ps_flag _ _ _ _ _ _ S) as EF. cbn [set_channel_dimension mp_perchannel] in EF.
  assert (AM : dt <> s32 -> multiplier_at (tp_mp t) a b = multiplier_at mp i j /\ exponent_at (tp_mp t) a b = exponent_at mp i j).
  { intros N. unfold multiplier_at, exponent_at. rewrite CA, EF. destruct (mp_perchannel mp) eqn:Ep.
    - pose proof (ps_mult _ _ _ _ _ _ S (proj2 quant_none N)) as SM. pose proof (ps_exp _ _ _ _ _ _ S (proj2 quant_none N)) as SE.
      unfold multiplier_fixedpoint_perchannel, multiplier_exponent_perchannel in SM, SE. cbn [set_channel_dimension mp_perchannel mp_mult_pc mp_exp_pc] in SM, SE.
      rewrite EF, Ep in SM, SE. split.
      + destruct (mp_mult_pc mp), (mp_mult_pc (tp_mp t)); try contradiction; [|reflexivity]. apply SM. exact CH.
      + destruct (mp_exp_pc mp), (mp_exp_pc (tp_mp t)); try contradiction; [|reflexivity]. apply SE. exact CH.
    - pose proof (ps_m _ _ _ _ _ _ S) as E1. pose proof (ps_e _ _ _ _ _ _ S) as E2. unfold multiplier_fixedpoint, multiplier_exponent in E1, E2.
      cbn [set_channel_dimension mp_perchannel mp_mult mp_exp] in E1, E2. rewrite EF, Ep in E1, E2. auto. }
  unfold x86_entry in H'. rewrite (xq_dzp _ _ Q) in H'.
  assert (AC : exact_accumulator (pl_rows (get Lhs (tp_packed_layout t))) (get Lhs (tp_packed_zp t)) (get Rhs (tp_packed_zp t))
      (x86_value st' t Lhs) (x86_value st' t Rhs) (tp_mp t) a b = exact_acc l r mp i j).
  { unfold exact_accumulator, exact_acc. rewrite AB. f_equal. rewrite (xq_rows _ _ Q).
    pose proof (xp_zp _ _ _ _ (xq_params _ _ Q)) as ZP.
    assert (ZE : forall s, get s (tp_packed_zp t) = m_zp (get s (tp_src t)) - middle (get s st')).
    { intros s. destruct (ZP s) as (Z1 & Z2). rewrite Z2. apply shifted_range; [apply (xp_source _ _ _ _ (xq_params _ _ Q))|exact Z1]. }
    unfold x86_value.
    assert (TR : forall k x, entry (transpose_mat l) k x = entry l x k) by (intros; rewrite !entry_ent; apply ent_transpose).
    assert (VT : forall k x, in_matrix (m_layout (transpose_mat l)) k x -> it_lo (lhs st) <= entry (transpose_mat l) k x <= it_hi (lhs st))
      by (intros k x (A & B); rewrite TR; apply VL'; split; assumption).
    rewrite !(ZE Lhs), !(ZE Rhs). rewrite !(xq_src _ _ Q), !src_side, !get_st'. unfold dside, a, b, exact_dot.
    case d; cbn [other_side get lhs rhs].
    - rewrite padded_dot; try assumption; try reflexivity; try (apply VS); cbn [transpose_mat m_layout transpose_layout ml_rows ml_cols]; try lia; try (apply (VS Lhs)); try (apply (VS Rhs)).
      rewrite Sd. f_equal. apply map_ext. intros k. rewrite TR. reflexivity.
    - rewrite padded_dot; try assumption; try reflexivity; try (apply VS); cbn [transpose_mat m_layout transpose_layout ml_rows ml_cols]; try lia; try (apply (VS Lhs)); try (apply (VS Rhs)).
      f_equal. apply map_ext. intros k. rewrite TR. apply Z.mul_comm. }
  rewrite AC in H'. unfold vector_result in *. rewrite (ps_min _ _ _ _ _ _ S), (ps_max _ _ _ _ _ _ S) in H'. cbn [set_channel_dimension mp_min mp_max] in H'.
  destruct (ity_eqb dt s32) eqn:Ed; [exact H'|]. assert (N : dt <> s32) by (intros EQ; rewrite EQ in Ed; discriminate Ed). destruct (AM N) as (E1 & E2). rewrite E1, E2 in H'. exact H'.
Qed.

Lemma x86_unfold : forall sched, mul_x86 c p st dt g sched l r dst mp =
  mul_by (fun t => tm_pack_x86 (c_dbg c) p st' t) (fun t => tm_kernel_x86 (c_dbg c) (c_fat c) p (x86_packed (rhs st')) dt t) c o kl g sched l r dst mp.
Proof.
  intros sched. pose proof (proj2 v_sources) as K. unfold mul_x86. cbv zeta. fold d st' o kl. cbn [x86_packed_types lhs rhs]. rewrite K. reflexivity.
Qed.

Lemma done_user : forall t m m', x86_problem t m -> computed (tp_dst_layout t) (x86_entry st' dt t) (inside (tp_dst_layout t)) (tm_dst m) (tm_dst m') ->
  vector_product dt l r mp dst {| m_data := tm_dst m'; m_layout := m_layout dst; m_zp := m_zp dst |}.
Proof.
  intros t m m' Q (W1 & W2 & W3). rewrite (xq_dst _ _ Q), (xq_layout _ _ Q) in *.
  assert (OD : forall i j, off (sub_layout d (m_layout dst)) (dentry d (fun a _ => a) i j) (dentry d (fun _ b => b) i j) = position (m_layout dst) i j).
  { intros i j. rewrite position_off. unfold sub_layout, dentry. case d; [reflexivity|]. apply off_transpose. }
  assert (ID : forall i j, in_matrix (m_layout dst) i j <-> inside (sub_layout d (m_layout dst)) (dentry d (fun a _ => a) i j) (dentry d (fun _ b => b) i j)).
  { intros i j. unfold sub_layout, dentry, in_matrix, inside. case d; [reflexivity|]. cbn [transpose_layout ml_rows ml_cols]. tauto. }
  assert (DD : forall i j, i = dentry d (fun a _ => a) (dentry d (fun a _ => a) i j) (dentry d (fun _ b => b) i j) /\
                           j = dentry d (fun _ b => b) (dentry d (fun a _ => a) i j) (dentry d (fun _ b => b) i j)) by (intros i j; unfold dentry; case d; auto).
  unfold vector_product. cbn [m_layout m_zp m_data]. split; [reflexivity|]. split; [reflexivity|]. split; [exact W1|]. split.
  - intros i j I. apply (entry_user t m i j _ Q I). unfold entry. cbn [m_data m_layout]. rewrite <- OD.
    specialize (W2 _ _ (proj1 (ID i j) I)). unfold dentry in *. case_eq d; intros Ed; rewrite Ed in W2; exact W2.
  - intros q Hq. apply W3. intros i j I. destruct (DD i j) as (Ei & Ej). set (i' := dentry d (fun a _ => a) i j) in *. set (j' := dentry d (fun _ b => b) i j) in *.
    rewrite Ei, Ej in I |- *. rewrite OD. apply Hq. apply ID. exact I.
Qed.

Theorem x86_computes : forall sched, exists out, mul_x86 c p st dt g sched l r dst mp = Ok out /\
  forall d', out = Some d' -> vector_product dt l r mp dst d'.
Proof.
  intros sched. rewrite x86_unfold. destruct x86_front as (t & adv & m & E1 & E2 & Q). unfold mul_by. rewrite E1. cbn [bind]. rewrite E2. cbn [bind].
  destruct (x86_trmul_ok (c_dbg c) (c_fat c) p st' dt t (xq_params _ _ Q) c (xq_domain _ _ Q) sched m (xq_mem _ _ Q)) as (out & E & H).
  cbn [get] in E. rewrite E. cbn [bind]. eexists. split; [reflexivity|]. intros d' Ed'. destruct out as [m'|]; [|discriminate]. injection Ed' as <-.
  destruct (H m' eq_refl) as (_ & W). exact (done_user t m m' Q W).
Qed.

Theorem x86_fair : forall sg N0, (forall i k, 0 <= i < c_max_threads c -> exists k', (k <= k')%nat /\ fst (sg k') = i) ->
  (forall k, (N0 <= k)%nat -> snd (sg k) = false) ->
  exists k out, mul_x86 c p st dt g (map sg (seq 0 k)) l r dst mp = Ok (Some out).
Proof.
  intros sg N0 FA VI. destruct x86_front as (t & adv & m & E1 & E2 & Q).
  destruct (x86_trmul_fair (c_dbg c) (c_fat c) p st' dt t (xq_params _ _ Q) c (xq_domain _ _ Q) sg N0 m (xq_mem _ _ Q) FA VI) as (k & m' & E).
  cbn [get] in E. exists k. eexists. rewrite x86_unfold. unfold mul_by. rewrite E1. cbn [bind]. rewrite E2. cbn [bind]. rewrite E. reflexivity.
Qed.
End X86Mul.
