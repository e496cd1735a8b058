(** ruy::Mul of floats on the x86 paths, whatever the schedule. *)
From Coq Require Import ZArith List Bool Lia SpecFloat.
From Verif Require Import Base SidePair SizeUtil SizeUtilFacts Mat MatFacts Scalars FloatOps FloatFacts Pack SpecArith SpecRound SpecMatrix SpecPack SpecMul
  PackFacts PackProps MulParams Kernel KernelFacts TrMul TrMulFacts TrMulMachine TrMulRun RunFacts ChannelFacts FrontEndFacts MulFacts MulProps RunBy
  X86Mul X86MulFacts X86FrontFacts SimdFloat KernelFloatX86 KernelFloatFacts KernelFloatProps FloatX86Mul SpecFloatX86 FloatX86Facts.
Import ListNotations.
Open Scope Z_scope.

Lemma step_comm : forall p a b acc, vector_step p a b acc = vector_step p b a acc.
Proof.
  intros p a b acc. assert (F : fused_mul_add 24 128 a b acc = fused_mul_add 24 128 b a acc).
  { unfold fused_mul_add. pose proof (mul_comm 24 128 a b) as E.
    assert (EP : exact_product 24 128 a b = exact_product 24 128 b a).
    { unfold exact_product. destruct a, b; try exact E. rewrite (xorb_comm s s0), (Pos.mul_comm m m0), (Z.add_comm e e0). reflexivity. }
    rewrite EP, E. destruct a, b, acc; reflexivity. }
  destruct p; [|exact F|exact F]. unfold vector_step. pose proof (mul_comm 24 128 a b) as E. unfold fmul in E. rewrite E. reflexivity.
Qed.

Lemma madd_step : forall p a b acc, fs_madd (float_scalars p) a b acc = vector_step p a b acc.
Proof. intros []; reflexivity. Qed.

Section FloatMul.
Variables (c : config) (p : x86_path) (l r dst : mat spec_float) (mp : mul_params spec_float) (g : garbage spec_float).
Hypothesis C : float_vector_mul c p l r dst mp.
Let d := ml_order (m_layout dst).
Let o := f32_ops.
Let kl := mk_sp (float_layout p) (float_layout p).
Let nch := channels (mp_chan mp) (ml_rows (m_layout dst)) (ml_cols (m_layout dst)).

Lemma f_call : valid_call c o kl l r dst mp.
Proof. pose proof (fv_call _ _ _ _ _ _ C) as H. unfold o, kl. destruct p; exact H. Qed.

Lemma f_side : forall s, get s (tsides d (mk_sp (transpose_mat l) r)) = get (dside d s) (mk_sp (transpose_mat l) r).
Proof. intros []; unfold dside, tsides; destruct d; reflexivity. Qed.

Lemma f_depth : forall s, ml_rows (m_layout (get s (mk_sp (transpose_mat l) r))) = ml_rows (m_layout r).
Proof. pose proof (wc_shapes _ _ _ _ _ _ _ (vc_well_formed _ _ _ _ _ _ _ f_call)) as (E & _). intros []; cbn [get lhs rhs]; [exact E|reflexivity]. Qed.

(** The TrMul of the call. *)
Record float_problem (t : tparams spec_float) (m : tmem spec_float) : Prop := {
  fq_params : float_params p t;
  fq_domain : trmul_domain c t;
  fq_mem : tmem_ok t m;
  fq_dst : tm_dst m = m_data dst;
  fq_src : tp_src t = tsides d (mk_sp (transpose_mat l) r);
  fq_layout : tp_dst_layout t = sub_layout d (m_layout dst);
  fq_rows : forall s, pl_rows (get s (tp_packed_layout t)) = ml_rows (m_layout r);
  fq_serve : exists adv, params_serve (dops d o) adv (set_channel_dimension mp (dchan d (mp_chan mp))) (tp_mp t) nch
      (pl_cols (get (channel_side (tp_mp t)) (tp_packed_layout t)))
}.

Lemma float_front : exists t adv m,
  mul_front_end (c_dbg c) o kl (g_chan g) (g_exp g) l r dst mp = Ok (t, adv) /\
  prepare_packed_matrices t (g_packed g) (g_sums g) (m_data dst) = Ok m /\ float_problem t m.
Proof.
  pose proof (valid_call_ok spec_float c o kl l r dst mp f_call) as CO. pose proof (valid_call_domain spec_float c o kl l r dst mp f_call) as CD.
  destruct (front_end_domain spec_float c o kl g l r dst mp CO CD) as (t & adv & m & E1 & E2 & T1 & TD & MM & Md & T6 & _).
  destruct (front_end_full (c_dbg c) o kl (g_chan g) (g_exp g) l r dst mp CO) as (t2 & adv2 & E1' & _ & _ & To & Tk & Ts & _ & Tz & Tp & Tr & Sv & Ea).
  rewrite E1 in E1'. injection E1' as <- <-. fold d in To, Tk, Ts, Tp, T6, Sv. fold nch in Sv, Ea. cbn [kl lhs float_layout kl_rows] in Tr.
  pose proof (vc_nonempty _ _ _ _ _ _ _ f_call) as (_ & _ & Dp).
  assert (Tr' : forall s, pl_rows (get s (tp_packed_layout t)) = ml_rows (m_layout r)).
  { intros s. rewrite Tr. pose proof (round_up_spec (ml_rows (m_layout r)) 1 ltac:(lia)) as RU. clear - RU. lia. }
  exists t, adv, m. split; [exact E1|]. split; [exact E2|].
  assert (X : float_params p t).
  { constructor.
    - exact T1.
    - exact Tk.
    - intros dbg s src q a b. rewrite To. unfold dops. destruct d; [reflexivity|]. destruct s; reflexivity.
    - intros s. rewrite Tr', Ts, f_side, f_depth. reflexivity.
    - rewrite Tr'. clear - Dp. lia.
    - rewrite T6. unfold d. destruct (ml_order (m_layout dst)) eqn:Eo; cbn [sub_layout]; [exact Eo|]. cbn [transpose_layout ml_order]. rewrite Eo. reflexivity.
    - pose proof (fv_stride _ _ _ _ _ _ C) as H. rewrite T6. replace (ml_stride (sub_layout d (m_layout dst))) with (ml_stride (m_layout dst)) by (destruct d; reflexivity). exact H.
    - intros b Eb. pose proof (ps_bias _ _ _ _ _ _ Sv) as SB. rewrite Eb in SB. cbn [set_channel_dimension mp_bias] in SB. destruct (mp_bias mp); [|contradiction]. apply SB. }
  constructor; try assumption. exists adv. exact Sv.
Qed.

Lemma f_channels : forall i j, in_matrix (m_layout dst) i j -> 0 <= channel_at mp i j < nch.
Proof. intros i j (Hi & Hj). unfold nch, channels, channel_at. destruct (mp_chan mp); lia. Qed.

(** What is stored, in the user's terms. *)
Lemma f_entry_user : forall t m i j v, float_problem t m -> in_matrix (m_layout dst) i j ->
  dentry d (fun a b => f_entry p t a b v) i j -> v = float_entry p l r mp i j.
Proof.
  intros t m i j v Q I H. destruct (fq_serve _ _ Q) as (adv & S). pose proof (f_channels i j I) as CH.
  set (a := match d with ColMajor => i | RowMajor => j end). set (b := match d with ColMajor => j | RowMajor => i end).
  assert (H' : f_entry p t a b v) by (unfold a, b; unfold dentry in H; case_eq d; intros Ed; rewrite Ed in H; exact H). clear H.
  assert (CA : channel_at (tp_mp t) a b = channel_at mp i j).
  { unfold channel_at. rewrite (ps_chan _ _ _ _ _ _ S). cbn [set_channel_dimension mp_chan]. unfold dchan, a, b. case d; case (mp_chan mp); reflexivity. }
  assert (AB : bias_value (fs_zero (float_scalars p)) (tp_mp t) a b = float_bias mp i j).
  { unfold bias_value, float_bias. fold (channel_at (tp_mp t) a b). rewrite CA. pose proof (ps_bias _ _ _ _ _ _ S) as SB. cbn [set_channel_dimension mp_bias] in SB.
    destruct (mp_bias mp), (mp_bias (tp_mp t)); try contradiction; [|reflexivity]. apply SB. exact CH. }
  unfold f_entry, kernel_value in H'. rewrite AB, (ps_min _ _ _ _ _ _ S), (ps_max _ _ _ _ _ _ S), (fq_rows _ _ Q) in H'. cbn [set_channel_dimension mp_min mp_max] in H'.
  rewrite H'. unfold float_entry, vector_clamp. cbn [float_scalars fs_min fs_max]. unfold max_ps, min_ps.
  set (x := fold_left _ _ _). replace (vector_dot p l r (float_bias mp i j) i j) with x; [reflexivity|].
  unfold x, vector_dot. clear H' AB CA. generalize (float_bias mp i j). induction (zrange 0 (ml_rows (m_layout r))) as [|k ks IH]; intros s0; cbn [fold_left]; [reflexivity|].
  rewrite IH. f_equal. rewrite madd_step. unfold f_value. rewrite !(fq_src _ _ Q), !f_side. rewrite !entry_ent. unfold dside, a, b.
  assert (FO : ml_order (m_layout (transpose_mat l)) = flipped (ml_order (m_layout l))) by (cbn [transpose_mat m_layout transpose_layout ml_order]; destruct (ml_order (m_layout l)); reflexivity).
  case d; cbn [other_side get lhs rhs]; rewrite ent_transpose, FO; [reflexivity|]. apply step_comm.
Qed.

Lemma f_done_user : forall t m m', float_problem t m -> computed (tp_dst_layout t) (f_entry p t) (inside (tp_dst_layout t)) (tm_dst m) (tm_dst m') ->
  float_product p l r mp dst {| m_data := tm_dst m'; m_layout := m_layout dst; m_zp := m_zp dst |}.
Proof.
  intros t m m' Q (W1 & W2 & W3). rewrite (fq_dst _ _ Q), (fq_layout _ _ Q) in *.
  assert (OD : forall i j, off (sub_layout d (m_layout dst)) (dentry d (fun a _ => a) i j) (dentry d (fun _ b => b) i j) = position (m_layout dst) i j).
  { intros i j. rewrite position_off. unfold sub_layout, dentry. case d; [reflexivity|]. apply off_transpose. }
  assert (ID : forall i j, in_matrix (m_layout dst) i j <-> inside (sub_layout d (m_layout dst)) (dentry d (fun a _ => a) i j) (dentry d (fun _ b => b) i j)).
  { intros i j. unfold sub_layout, dentry, in_matrix, inside. case d; [reflexivity|]. cbn [transpose_layout ml_rows ml_cols]. tauto. }
  assert (DD : forall i j, i = dentry d (fun a _ => a) (dentry d (fun a _ => a) i j) (dentry d (fun _ b => b) i j) /\
                           j = dentry d (fun _ b => b) (dentry d (fun a _ => a) i j) (dentry d (fun _ b => b) i j)) by (intros i j; unfold dentry; case d; auto).
  unfold float_product. cbn [m_layout m_zp m_data]. split; [reflexivity|]. split; [reflexivity|]. split; [exact W1|]. split.
  - intros i j I. apply (f_entry_user t m i j _ Q I). unfold entry. cbn [m_data m_layout]. rewrite <- OD.
    specialize (W2 _ _ (proj1 (ID i j) I)). unfold dentry in *. case_eq d; intros Ed; rewrite Ed in W2; exact W2.
  - intros q Hq. apply W3. intros i j I. destruct (DD i j) as (Ei & Ej). set (i' := dentry d (fun a _ => a) i j) in *. set (j' := dentry d (fun _ b => b) i j) in *.
    rewrite Ei, Ej in I |- *. rewrite OD. apply Hq. apply ID. exact I.
Qed.

Theorem float_computes : forall sched, exists out, mul_float_x86 c p g sched l r dst mp = Ok out /\
  forall x, out = Some x -> float_product p l r mp dst x.
Proof.
  intros sched. destruct float_front as (t & adv & m & E1 & E2 & Q). unfold mul_float_x86, mul_by. fold o kl. rewrite E1. cbn [bind]. rewrite E2. cbn [bind].
  destruct (float_trmul_ok (c_dbg c) (c_fat c) p t (fq_params _ _ Q) c (fq_domain _ _ Q) sched m (fq_mem _ _ Q)) as (out & E & H).
  cbn [get] in E. rewrite E. cbn [bind]. eexists. split; [reflexivity|]. intros d' Ed'. destruct out as [m'|]; [|discriminate]. injection Ed' as <-.
  destruct (H m' eq_refl) as (_ & W). exact (f_done_user t m m' Q W).
Qed.

Theorem float_fair : forall sg N0, (forall i k, 0 <= i < c_max_threads c -> exists k', (k <= k')%nat /\ fst (sg k') = i) ->
  (forall k, (N0 <= k)%nat -> snd (sg k) = false) ->
  exists k out, mul_float_x86 c p g (map sg (seq 0 k)) l r dst mp = Ok (Some out).
Proof.
  intros sg N0 FA VI. destruct float_front as (t & adv & m & E1 & E2 & Q).
  destruct (float_trmul_fair (c_dbg c) (c_fat c) p t (fq_params _ _ Q) c (fq_domain _ _ Q) sg N0 m (fq_mem _ _ Q) FA VI) as (k & m' & E).
  cbn [get] in E. exists k. eexists. unfold mul_float_x86, mul_by. fold o kl. rewrite E1. cbn [bind]. rewrite E2. cbn [bind]. rewrite E. reflexivity.
Qed.
End FloatMul.
