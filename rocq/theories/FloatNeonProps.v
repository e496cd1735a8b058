(** ruy::Mul of floats on the AArch64 paths, whatever the schedule. *)
From Coq Require Import ZArith List Bool Lia SpecFloat.
From Verif Require Import Base SidePair SizeUtil SizeUtilFacts Mat MatFacts Scalars FloatOps FloatFacts Pack SpecArith SpecRound SpecMatrix SpecPack SpecMul
  PackFacts PackProps MulParams Kernel KernelFacts TrMul TrMulFacts TrMulMachine TrMulRun RunFacts ChannelFacts FrontEndFacts MulFacts MulProps RunBy
  X86Mul X86MulFacts X86FrontFacts SimdFloat SpecFloatX86 FloatX86Props KernelFloatFacts KernelFloatProps CpuInfo Tune SpecFloatNeon KernelFloatNeonProps FloatNeonMul FloatNeonFacts.
Import ListNotations.
Open Scope Z_scope.

Lemma fused_comm : forall a b acc, fused_mul_add 24 128 a b acc = fused_mul_add 24 128 b a acc.
Proof. exact (step_comm PathAvx2). Qed.

Lemma dot_comm : forall o l r, neon_dot o l r = neon_dot o r l.
Proof.
  intros o l r. unfold neon_dot. generalize (S754_zero false). induction o as [|k o IH]; intros a; cbn [fold_left]; [reflexivity|]. rewrite fused_comm. apply IH.
Qed.

Lemma order_comm : forall t d i j, neon_order t d i j = neon_order t d j i.
Proof. intros t d i j. unfold neon_order. rewrite (andb_comm (i mod 8 <? 4)). reflexivity. Qed.

(** ** The biases given to the kernels *)
Lemma loop_floats : forall (f : Z -> buf spec_float -> res (buf spec_float)) n d d', all_floats d -> (forall i x y, all_floats x -> f i x = Ok y -> all_floats y) ->
  forto 0 n f d = Ok d' -> all_floats d'.
Proof.
  intros f n d d' Hd Hf E. destruct (Z_le_gt_dec 0 n) as [L|G]; [|rewrite forto_empty in E by lia; congruence].
  apply (forto_ok_ind (fun _ x => all_floats x) f 0 n d d' L Hd); [|exact E]. intros i x y _ Hx Ey. eapply Hf; eassumption.
Qed.

Lemma write_floats : forall b i v b', all_floats b -> is_float v -> bwrite b i v = Ok b' -> all_floats b'.
Proof.
  intros b i v b' Hb Hv E. unfold bwrite in E. destruct (_ && _); [|discriminate]. injection E as <-. intros j. cbn [bdat]. destruct (j =? i); [exact Hv|apply Hb].
Qed.

Lemma grown_floats : forall fresh b n req b', (forall i, is_float (fresh i)) -> all_floats b ->
  grow_buffer (S754_zero false) fresh (Some b) n req = Ok (Some b') -> all_floats b'.
Proof.
  intros fresh b n req b' Hf Hb E. unfold grow_buffer, bcopy, bzero in E.
  destruct (forto 0 n _ _) as [d1| |] eqn:E1; cbn [bind] in E; try discriminate.
  destruct (forto 0 (req - n) _ _) as [d2| |] eqn:E2; cbn [bind] in E; try discriminate. injection E as <-.
  eapply loop_floats; [| |exact E2].
  - eapply loop_floats; [| |exact E1]; [exact Hf|]. intros i x y Hx Ey. cbv beta in Ey. destruct (bread b (0 + i)) as [v| |] eqn:Ev; cbn [bind] in Ey; try discriminate.
    eapply write_floats; [exact Hx| |exact Ey]. unfold bread in Ev. destruct (_ && _); [|discriminate]. injection Ev as <-. apply Hb.
  - intros i x y Hx Ey. eapply write_floats; [exact Hx| |exact Ey]. reflexivity.
Qed.

Lemma ensured_floats : forall dbg o req n fresh freshz mp mp' adv, o_quant o = None -> o_acc0 o = S754_zero false -> (forall i, is_float (fresh i)) ->
  (forall b, mp_bias mp = Some b -> all_floats b) -> ensure_per_channel_buffers dbg o req n fresh freshz mp = Ok (mp', adv) ->
  forall b, mp_bias mp' = Some b -> all_floats b.
Proof.
  intros dbg o req n fresh freshz mp mp' adv Hq H0 Hf Hb E b Eb. unfold ensure_per_channel_buffers in E.
  destruct (capacity_rounding mp) as [rd| |]; cbn [bind] in E; try discriminate.
  destruct (round_up_pot dbg 32 n rd) as [uc| |]; cbn [bind] in E; try discriminate.
  do 3 (match type of E with context [assert_zero_tail ?a ?b ?c ?d ?e] => destruct (assert_zero_tail a b c d e) as [[]| |]; cbn [bind] in E; try discriminate end).
  destruct (req <=? uc); [injection E as <- <-; apply Hb, Eb|]. rewrite Hq, H0 in E.
  destruct (mp_bias mp) as [b0|] eqn:Eb0; cbn [bind] in E; [|injection E as <- <-; congruence].
  destruct (grow_buffer (S754_zero false) fresh (Some b0) n req) as [[nb|]| |] eqn:Eg; cbn [bind] in E; try discriminate; injection E as <- <-; cbn [set_bias mp_bias] in Eb; [|discriminate].
  injection Eb as <-. eapply grown_floats; [exact Hf|exact (Hb b0 eq_refl)|exact Eg].
Qed.

Lemma front_biases : forall dbg kl fresh freshz l r dst mp t adv, (forall i, is_float (fresh i)) -> (forall b, mp_bias mp = Some b -> all_floats b) ->
  mul_front_end dbg f32_ops kl fresh freshz l r dst mp = Ok (t, adv) -> forall b, mp_bias (tp_mp t) = Some b -> all_floats b.
Proof.
  intros dbg kl fresh freshz l r dst mp t adv Hf Hb E. unfold mul_front_end, create_trmul_params, create_trmul_params_col_major in E.
  destruct (dcheck dbg (o_validate f32_ops (m_zp l) (m_zp r) (m_zp dst))) as [[]| |]; cbn [bind] in E; try discriminate.
  destruct (ml_order (m_layout dst));
  repeat match type of E with
  | bind ?x _ = _ => lazymatch x with
      | ensure_per_channel_buffers _ _ _ _ _ _ _ => fail
      | _ => destruct x; cbn [bind] in E; try discriminate end
  end;
  match type of E with context [ensure_per_channel_buffers ?a ?b ?c ?d ?e ?f ?g] => destruct (ensure_per_channel_buffers a b c d e f g) as [[mp' adv']| |] eqn:Ee; cbn [bind] in E; try discriminate end;
  injection E as <- <-; cbn [tp_mp]; (eapply ensured_floats; [| | | |exact Ee]; [reflexivity|reflexivity|exact Hf|exact Hb]).
Qed.

Lemma rounded : forall n r, is_round_up n 8 r -> r = 8 * ((n + 7) / 8).
Proof.
  intros n r ([k ->] & H). rewrite Z.mul_comm. f_equal. apply Z.div_unique with (r := n + 7 - 8 * k); [left; lia|ring].
Qed.

Section NeonMul.
Variables (c : config) (dotprod : bool) (ci : circumstances) (l r dst : mat spec_float) (mp : mul_params spec_float) (g : garbage spec_float).
Hypothesis C : neon_mul c g l r dst mp.
Let d := ml_order (m_layout dst).
Let o := f32_ops.
Let kl := mk_sp neon_layout neon_layout.
Let nch := channels (mp_chan mp) (ml_rows (m_layout dst)) (ml_cols (m_layout dst)).

Lemma n_call : valid_call c o kl l r dst mp.
Proof. exact (nm_call _ _ _ _ _ _ C). Qed.

Lemma n_side : forall s, get s (tsides d (mk_sp (transpose_mat l) r)) = get (dside d s) (mk_sp (transpose_mat l) r).
Proof. intros []; unfold dside, tsides; destruct d; reflexivity. Qed.

Lemma n_depth : forall s, ml_rows (m_layout (get s (mk_sp (transpose_mat l) r))) = ml_rows (m_layout r).
Proof. pose proof (wc_shapes _ _ _ _ _ _ _ (vc_well_formed _ _ _ _ _ _ _ n_call)) as (E & _). intros []; cbn [get lhs rhs]; [exact E|reflexivity]. Qed.

Record neon_problem (t : tparams spec_float) (m : tmem spec_float) : Prop := {
  nq_params : neon_tparams t;
  nq_domain : trmul_domain c t;
  nq_mem : n_memory t m;
  nq_dst : tm_dst m = m_data dst;
  nq_src : tp_src t = tsides d (mk_sp (transpose_mat l) r);
  nq_layout : tp_dst_layout t = sub_layout d (m_layout dst);
  nq_rows : forall s, pl_rows (get s (tp_packed_layout t)) = ml_rows (m_layout r);
  nq_serve : exists adv, params_serve (dops d o) adv (set_channel_dimension mp (dchan d (mp_chan mp))) (tp_mp t) nch
      (pl_cols (get (channel_side (tp_mp t)) (tp_packed_layout t)))
}.

Lemma allocated : forall (t : tparams spec_float) s f f' p, allocate_packed t s f f' = Ok p -> bdat (p_data p) = f.
Proof.
  intros t s f f' p E. unfold allocate_packed, rcheck in E.
  repeat match type of E with
  | bind ?x _ = _ => destruct x; cbn [bind] in E; try discriminate
  end. injection E as <-. reflexivity.
Qed.

Lemma prepared : forall (t : tparams spec_float) f f' b m, prepare_packed_matrices t f f' b = Ok m -> forall s, bdat (p_data (get s (tm_packed m))) = f s.
Proof.
  intros t f f' b m E. unfold prepare_packed_matrices in E.
  destruct (allocate_packed t Lhs (f Lhs) (f' Lhs)) as [p1| |] eqn:E1; cbn [bind] in E; try discriminate.
  destruct (allocate_packed t Rhs (f Rhs) (f' Rhs)) as [p2| |] eqn:E2; cbn [bind] in E; try discriminate.
  injection E as <-. intros []; cbn [tm_packed get lhs rhs]; eapply allocated; eassumption.
Qed.

Lemma n_fits : forall s, ml_order (m_layout (get s (mk_sp (transpose_mat l) r))) = ColMajor ->
  last_offset (ml_stride (m_layout (get s (mk_sp (transpose_mat l) r)))) (ml_cols (m_layout (get s (mk_sp (transpose_mat l) r)))) <= int_max.
Proof.
  intros []; cbn [get lhs rhs].
  - intros E. apply (nm_lhs_offsets _ _ _ _ _ _ C). cbn [transpose_mat m_layout transpose_layout ml_order] in E. destruct (ml_order (m_layout l)); [discriminate|reflexivity].
  - apply (nm_rhs_offsets _ _ _ _ _ _ C).
Qed.

Lemma neon_front : exists t adv m,
  mul_front_end (c_dbg c) o kl (g_chan g) (g_exp g) l r dst mp = Ok (t, adv) /\
  prepare_packed_matrices t (g_packed g) (g_sums g) (m_data dst) = Ok m /\ neon_problem t m.
Proof.
  pose proof (valid_call_ok spec_float c o kl l r dst mp n_call) as CO. pose proof (valid_call_domain spec_float c o kl l r dst mp n_call) as CD.
  destruct (front_end_domain spec_float c o kl g l r dst mp CO CD) as (t & adv & m & E1 & E2 & T1 & TD & MM & Md & T6 & _).
  destruct (front_end_full (c_dbg c) o kl (g_chan g) (g_exp g) l r dst mp CO) as (t2 & adv2 & E1' & _ & _ & To & Tk & Ts & _ & Tz & Tp & Tr & Sv & Ea).
  rewrite E1 in E1'. injection E1' as <- <-. fold d in To, Tk, Ts, Tp, T6, Sv. fold nch in Sv, Ea. cbn [kl lhs neon_layout kl_rows] in Tr.
  pose proof (vc_nonempty _ _ _ _ _ _ _ n_call) as (_ & _ & Dp).
  assert (Tr' : forall s, pl_rows (get s (tp_packed_layout t)) = ml_rows (m_layout r)).
  { intros s. rewrite Tr. pose proof (round_up_spec (ml_rows (m_layout r)) 1 ltac:(lia)) as RU. clear - RU. lia. }
  exists t, adv, m. split; [exact E1|]. split; [exact E2|].
  assert (FS : forall s, all_floats (m_data (get s (mk_sp (transpose_mat l) r)))).
  { intros []; cbn [get lhs rhs]; [exact (nm_lhs _ _ _ _ _ _ C)|exact (nm_rhs _ _ _ _ _ _ C)]. }
  assert (X : neon_tparams t).
  { constructor.
    - exact T1.
    - exact Tk.
    - intros s. rewrite Tr', Ts, n_side, n_depth. reflexivity.
    - rewrite Tr'. clear - Dp. lia.
    - rewrite T6. unfold d. destruct (ml_order (m_layout dst)) eqn:Eo; cbn [sub_layout]; [exact Eo|]. cbn [transpose_layout ml_order]. rewrite Eo. reflexivity.
    - pose proof (nm_stride _ _ _ _ _ _ C) as H. rewrite T6. replace (ml_stride (sub_layout d (m_layout dst))) with (ml_stride (m_layout dst)) by (destruct d; reflexivity). exact H.
    - intros b Eb. pose proof (ps_bias _ _ _ _ _ _ Sv) as SB. rewrite Eb in SB. cbn [set_channel_dimension mp_bias] in SB. destruct (mp_bias mp); [|contradiction]. apply SB.
    - intros s. pose proof (to_cols _ _ T1 s) as TC. pose proof (po_cols_al _ (to_pl _ _ T1 s)) as TA. rewrite (to_kernel _ _ T1 s) in TA. rewrite Tk in TC, TA.
      assert (K8 : kl_cols (get s kl) = 8) by (destruct s; reflexivity). cbv beta in TC, TA. fold kl in TC, TA. rewrite K8 in TC, TA. rewrite Ts, n_side in *. intros Eo.
      pose proof (n_fits _ Eo) as F. unfold last_offset in F. rewrite (rounded (ml_cols (m_layout (get (dside d s) (mk_sp (transpose_mat l) r)))) (pl_cols (get s (tp_packed_layout t)))); [exact F|].
      split; [apply Z.mod_divide; [lia|exact TA]|lia].
    - intros s. rewrite Ts, n_side. apply FS.
    - apply (front_biases _ _ _ _ _ _ _ _ _ _ (fun i => proj1 (nm_fresh _ _ _ _ _ _ C i)) (nm_bias _ _ _ _ _ _ C) E1).
    - rewrite (ps_min _ _ _ _ _ _ Sv). apply (nm_bounds _ _ _ _ _ _ C).
    - rewrite (ps_max _ _ _ _ _ _ Sv). apply (nm_bounds _ _ _ _ _ _ C). }
  constructor; try assumption.
  - split; [exact MM|]. split.
    + intros s i. rewrite (prepared _ _ _ _ _ E2). apply (nm_fresh _ _ _ _ _ _ C).
    + rewrite Md. apply (nm_dst _ _ _ _ _ _ C).
  - exists adv. exact Sv.
Qed.

Lemma n_channels : forall i j, in_matrix (m_layout dst) i j -> 0 <= channel_at mp i j < nch.
Proof. intros i j (Hi & Hj). unfold nch, channels, channel_at. destruct (mp_chan mp); lia. Qed.

(** What is stored, in the user's terms. *)
Lemma n_entry_user : forall t m i j v, neon_problem t m -> in_matrix (m_layout dst) i j ->
  dentry d (fun a b => n_entry ci t a b v) i j -> exists tu, (exists a b, tu = ci_tuning ci a b) /\ v = neon_entry tu l r mp i j.
Proof.
  intros t m i j v Q I H. destruct (nq_serve _ _ Q) as (adv & S). pose proof (n_channels i j I) as CH.
  set (a := match d with ColMajor => i | RowMajor => j end). set (b := match d with ColMajor => j | RowMajor => i end).
  assert (H' : n_entry ci t a b v) by (unfold a, b; unfold dentry in H; case_eq d; intros Ed; rewrite Ed in H; exact H). clear H.
  assert (CA : channel_at (tp_mp t) a b = channel_at mp i j).
  { unfold channel_at. rewrite (ps_chan _ _ _ _ _ _ S). cbn [set_channel_dimension mp_chan]. unfold dchan, a, b. case d; case (mp_chan mp); reflexivity. }
  assert (AB : bias_value (S754_zero false) (tp_mp t) a b = neon_bias mp i j).
  { unfold bias_value, neon_bias. fold (channel_at (tp_mp t) a b). rewrite CA. pose proof (ps_bias _ _ _ _ _ _ S) as SB. cbn [set_channel_dimension mp_bias] in SB.
    destruct (mp_bias mp), (mp_bias (tp_mp t)); try contradiction; [|reflexivity]. apply SB. exact CH. }
  destruct H' as (x & y & H'). exists (ci_tuning ci x y). split; [eauto|].
  unfold neon_value in H'. rewrite AB, (ps_min _ _ _ _ _ _ S), (ps_max _ _ _ _ _ _ S), (nq_rows _ _ Q) in H'. cbn [set_channel_dimension mp_min mp_max] in H'.
  rewrite H'. unfold neon_entry. f_equal. rewrite !(nq_src _ _ Q), !n_side. unfold dside, a, b. clear. unfold neon_dot.
  assert (EE : forall s k q, ent (get s (mk_sp (transpose_mat l) r)) k q = match s with Lhs => entry l q k | Rhs => entry r k q end).
  { intros [] k q; cbn [get lhs rhs]; rewrite ?ent_transpose, entry_ent; reflexivity. }
  case d; cbn [other_side].
  - generalize (S754_zero false). induction (neon_order (ci_tuning ci x y) (ml_rows (m_layout r)) i j) as [|k ks IH]; intros s0; cbn [fold_left]; [reflexivity|]. rewrite !EE. apply IH.
  - rewrite order_comm. generalize (S754_zero false). induction (neon_order (ci_tuning ci x y) (ml_rows (m_layout r)) i j) as [|k ks IH]; intros s0; cbn [fold_left]; [reflexivity|]. rewrite !EE, fused_comm. apply IH.
Qed.

Lemma n_done_user : forall t m m', neon_problem t m -> computed (tp_dst_layout t) (n_entry ci t) (inside (tp_dst_layout t)) (tm_dst m) (tm_dst m') ->
  neon_product (fun tu => exists a b, tu = ci_tuning ci a b) l r mp dst {| m_data := tm_dst m'; m_layout := m_layout dst; m_zp := m_zp dst |}.
Proof.
  intros t m m' Q (W1 & W2 & W3). rewrite (nq_dst _ _ Q), (nq_layout _ _ Q) in *.
  assert (OD : forall i j, off (sub_layout d (m_layout dst)) (dentry d (fun a _ => a) i j) (dentry d (fun _ b => b) i j) = position (m_layout dst) i j).
  { intros i j. rewrite position_off. unfold sub_layout, dentry. case d; [reflexivity|]. apply off_transpose. }
  assert (ID : forall i j, in_matrix (m_layout dst) i j <-> inside (sub_layout d (m_layout dst)) (dentry d (fun a _ => a) i j) (dentry d (fun _ b => b) i j)).
  { intros i j. unfold sub_layout, dentry, in_matrix, inside. case d; [reflexivity|]. cbn [transpose_layout ml_rows ml_cols]. tauto. }
  assert (DD : forall i j, i = dentry d (fun a _ => a) (dentry d (fun a _ => a) i j) (dentry d (fun _ b => b) i j) /\
                           j = dentry d (fun _ b => b) (dentry d (fun a _ => a) i j) (dentry d (fun _ b => b) i j)) by (intros i j; unfold dentry; case d; auto).
  unfold neon_product. cbn [m_layout m_zp m_data]. split; [reflexivity|]. split; [reflexivity|]. split; [exact W1|]. split.
  - intros i j I. apply (n_entry_user t m i j _ Q I). unfold entry. cbn [m_data m_layout]. rewrite <- OD.
    specialize (W2 _ _ (proj1 (ID i j) I)). unfold dentry in *. case_eq d; intros Ed; rewrite Ed in W2; exact W2.
  - intros q Hq. apply W3. intros i j I. destruct (DD i j) as (Ei & Ej). set (i' := dentry d (fun a _ => a) i j) in *. set (j' := dentry d (fun _ b => b) i j) in *.
    rewrite Ei, Ej in I |- *. rewrite OD. apply Hq. apply ID. exact I.
Qed.

Theorem neon_computes : forall sched, exists out, mul_float_neon c dotprod ci g sched l r dst mp = Ok out /\
  forall x, out = Some x -> neon_product (fun tu => exists a b, tu = ci_tuning ci a b) l r mp dst x.
Proof.
  intros sched. destruct neon_front as (t & adv & m & E1 & E2 & Q). unfold mul_float_neon, mul_by. fold o kl. rewrite E1. cbn [bind]. rewrite E2. cbn [bind].
  destruct (neon_trmul_ok (c_dbg c) (c_fat c) dotprod ci t (nq_params _ _ Q) c (nq_domain _ _ Q) sched m (nq_mem _ _ Q)) as (out & E & H).
  cbn [get] in E. rewrite E. cbn [bind]. eexists. split; [reflexivity|]. intros d' Ed'. destruct out as [m'|]; [|discriminate]. injection Ed' as <-.
  destruct (H m' eq_refl) as (_ & W). exact (n_done_user t m m' Q W).
Qed.

Theorem neon_fair : forall sg N0, (forall i k, 0 <= i < c_max_threads c -> exists k', (k <= k')%nat /\ fst (sg k') = i) ->
  (forall k, (N0 <= k)%nat -> snd (sg k) = false) ->
  exists k out, mul_float_neon c dotprod ci g (map sg (seq 0 k)) l r dst mp = Ok (Some out).
Proof.
  intros sg N0 FA VI. destruct neon_front as (t & adv & m & E1 & E2 & Q).
  destruct (neon_trmul_fair (c_dbg c) (c_fat c) dotprod ci t (nq_params _ _ Q) c (nq_domain _ _ Q) sg N0 m (nq_mem _ _ Q) FA VI) as (k & m' & E).
  cbn [get] in E. exists k. eexists. unfold mul_float_neon, mul_by. fold o kl. rewrite E1. cbn [bind]. rewrite E2. cbn [bind]. rewrite E. reflexivity.
Qed.
End NeonMul.
