(** From the user's call on an x86 path to its TrMul. *)
From Coq Require Import ZArith List Bool Lia.
From Verif Require Import Base SidePair SizeUtil SizeUtilFacts Mat MatFacts Scalars IntOps Pack SpecArith SpecRound SpecMatrix SpecPack SpecMul SpecSimd SpecKernel PackFacts PackProps
  MulParams Kernel KernelFacts PackX86 SpecPackX86 TrMul TrMulFacts TrMulMachine TrMulRun RunFacts ChannelFacts FrontEndFacts MulFacts MulProps RunBy X86Mul X86PackFacts
  X86MulFacts SpecX86Mul.
Import ListNotations.
Open Scope Z_scope.

Definition dchan (d : order) (ch : channel_dimension) : channel_dimension := match d with ColMajor => ch | RowMajor => transpose_channel ch end.
Definition dops {V} (d : order) (o : ops V) : ops V := match d with ColMajor => o | RowMajor => swap_ops o end.

(** All that the front end hands over. *)
Lemma front_end_full : forall {V} dbg (o : ops V) kl fresh freshz l r dst mp, call_ok dbg o kl l r dst mp ->
  let d := ml_order (m_layout dst) in
  exists t adv, mul_front_end dbg o kl fresh freshz l r dst mp = Ok (t, adv) /\
    tparams_ok t /\ sizes_ok t /\ tp_ops t = dops d o /\ tp_kl t = kl /\ tp_src t = tsides d (mk_sp (transpose_mat l) r) /\
    tp_dst_layout t = sub_layout d (m_layout dst) /\ tp_dst_zp t = m_zp dst /\
    tp_packed_zp t = tsides d (mk_sp (o_pack_zp o Lhs (m_zp l)) (o_pack_zp o Rhs (m_zp r))) /\
    (forall s, pl_rows (get s (tp_packed_layout t)) = round_up (ml_rows (m_layout r)) (kl_rows (lhs kl))) /\
    params_serve (dops d o) adv (set_channel_dimension mp (dchan d (mp_chan mp))) (tp_mp t)
      (channels (mp_chan mp) (ml_rows (m_layout dst)) (ml_cols (m_layout dst)))
      (pl_cols (get (channel_side (tp_mp t)) (tp_packed_layout t))) /\
    adv = (round_up (channels (mp_chan mp) (ml_rows (m_layout dst)) (ml_cols (m_layout dst))) (2 ^ mp_rounding_log2 mp) <?
           pl_cols (get (channel_side (tp_mp t)) (tp_packed_layout t))).
Proof.
  intros V dbg o kl fresh freshz l r dst mp C d. unfold mul_front_end.
  assert (E0 : dcheck dbg (o_validate o (m_zp l) (m_zp r) (m_zp dst)) = Ok tt).
  { destruct dbg; [|reflexivity]. rewrite (ca_valid _ _ _ _ _ _ _ C eq_refl). reflexivity. }
  rewrite E0. cbn [bind]. unfold create_trmul_params. unfold d. clear d.
  destruct (ml_order (m_layout dst)) eqn:Eo; cbn [sub_layout tsides dops dchan].
  - destruct (create_col_major_ok V dbg o kl fresh freshz (transpose_mat l) r (m_layout dst) (m_zp dst) mp (mp_chan mp)
      (ml_rows (m_layout r))) as (t & adv & E & T1 & T2 & T3 & T4 & T5 & T6 & T7 & T8 & T9 & T10 & T11 & T12).
    + apply (ca_kl _ _ _ _ _ _ _ C).
    + apply (ca_kr _ _ _ _ _ _ _ C).
    + apply (ca_krows _ _ _ _ _ _ _ C).
    + apply mat_ok_transpose, (ca_l _ _ _ _ _ _ _ C).
    + apply (ca_r _ _ _ _ _ _ _ C).
    + apply (mo_layout _ (ca_d _ _ _ _ _ _ _ C)).
    + auto.
    + apply (ca_depth _ _ _ _ _ _ _ C).
    + reflexivity.
    + apply (ca_depth_pos _ _ _ _ _ _ _ C).
    + apply (ca_rows _ _ _ _ _ _ _ C).
    + apply (ca_cols _ _ _ _ _ _ _ C).
    + apply (ca_fits _ _ _ _ _ _ _ C Lhs Lhs).
    + apply (ca_fits _ _ _ _ _ _ _ C Rhs Rhs).
    + apply (ca_data _ _ _ _ _ _ _ C).
    + apply (ca_sums _ _ _ _ _ _ _ C).
    + apply (ca_params _ _ _ _ _ _ _ C).
    + assert (Ec : channel_side (tp_mp t) = match mp_chan mp with ChRow => Lhs | ChCol => Rhs end)
        by (unfold channel_side; rewrite (ps_chan _ _ _ _ _ _ T11); reflexivity).
      exists t, adv. rewrite Ec. repeat (split; [assumption|]). exact T12.
  - destruct (create_col_major_ok V dbg (swap_ops o) kl fresh freshz r (transpose_mat l)
      (transpose_layout (m_layout dst)) (m_zp dst) mp (transpose_channel (mp_chan mp))
      (ml_rows (m_layout r))) as (t & adv & E & T1 & T2 & T3 & T4 & T5 & T6 & T7 & T8 & T9 & T10 & T11 & T12).
    + apply (ca_kl _ _ _ _ _ _ _ C).
    + apply (ca_kr _ _ _ _ _ _ _ C).
    + apply (ca_krows _ _ _ _ _ _ _ C).
    + apply (ca_r _ _ _ _ _ _ _ C).
    + apply mat_ok_transpose, (ca_l _ _ _ _ _ _ _ C).
    + apply layout_ok_transpose, (mo_layout _ (ca_d _ _ _ _ _ _ _ C)).
    + cbn [transpose_layout ml_order]. rewrite Eo. reflexivity.
    + reflexivity.
    + apply (ca_depth _ _ _ _ _ _ _ C).
    + apply (ca_depth_pos _ _ _ _ _ _ _ C).
    + apply (ca_cols _ _ _ _ _ _ _ C).
    + apply (ca_rows _ _ _ _ _ _ _ C).
    + apply (ca_fits _ _ _ _ _ _ _ C Lhs Rhs).
    + apply (ca_fits _ _ _ _ _ _ _ C Rhs Lhs).
    + intros s. apply (ca_data _ _ _ _ _ _ _ C).
    + intros s. apply (ca_sums _ _ _ _ _ _ _ C).
    + rewrite channels_transpose.
      destruct (ca_params _ _ _ _ _ _ _ C) as (Q1 & Q2 & [U1 U2 U3]). split; [exact Q1|]. split; [exact Q2|].
      constructor; auto.
    + assert (Ec : channel_side (tp_mp t) = match transpose_channel (mp_chan mp) with ChRow => Lhs | ChCol => Rhs end)
        by (unfold channel_side; rewrite (ps_chan _ _ _ _ _ _ T11); reflexivity).
      cbn [transpose_layout ml_rows ml_cols] in T11, T12. rewrite channels_transpose in T11, T12.
      exists t, adv. rewrite Ec. repeat (split; [assumption|]). exact T12.
Qed.

Lemma allocated_data : forall {V} (t : tparams V) s f fs p, allocate_packed t s f fs = Ok p ->
  (forall i, bdat (p_data p) i = f i) /\ p_sums p <> None.
Proof.
  intros V t s f fs p E. unfold allocate_packed in E.
  destruct (data_bytes _ _) as [db| |]; cbn [bind] in E; try discriminate.
  destruct (rcheck (negb (db =? 0))) as [[]| |]; cbn [bind] in E; try discriminate.
  destruct (sums_bytes _ _) as [sb| |]; cbn [bind] in E; try discriminate.
  destruct (rcheck (negb (sb =? 0))) as [[]| |]; cbn [bind] in E; try discriminate.
  destruct (pflat_size _) as [n| |]; cbn [bind] in E; try discriminate. injection E as <-. split; [reflexivity|discriminate].
Qed.

Lemma prepared_data : forall {V} (t : tparams V) f fs dst m, prepare_packed_matrices t f fs dst = Ok m ->
  forall s, (forall i, bdat (p_data (get s (tm_packed m))) i = f s i) /\ p_sums (get s (tm_packed m)) <> None.
Proof.
  intros V t f fs dst m E. unfold prepare_packed_matrices in E.
  destruct (allocate_packed t Lhs _ _) as [pl| |] eqn:El; cbn [bind] in E; try discriminate.
  destruct (allocate_packed t Rhs _ _) as [pr| |] eqn:Er; cbn [bind] in E; try discriminate. injection E as <-.
  intros []; cbn [tm_packed get lhs rhs]; [apply (allocated_data _ _ _ _ _ El)|apply (allocated_data _ _ _ _ _ Er)].
Qed.

(** Padding adds nothing, and shifting both entries and zero points changes nothing. *)
Lemma zsum_zeros : forall (f : Z -> Z) l, (forall x, In x l -> f x = 0) -> zsum (map f l) = 0.
Proof. intros f l. induction l as [|x l IH]; intros H; cbn [map zsum]; [reflexivity|]. rewrite (H x) by (left; reflexivity). rewrite IH; [lia|]. intros y Hy. apply H. right. exact Hy. Qed.

Lemma shifted_range : forall st z, x86_source st -> it_lo st <= z <= it_hi st -> it_conv (x86_packed st) (z - middle st) = z - middle st.
Proof.
  intros st z H Hz. apply it_conv_id; [apply (x86_source_facts _ H)|]. destruct H as [-> | [-> | ->]].
  - change (it_lo s8) with (-128) in *. change (it_hi s8) with 127 in *. change (it_lo (x86_packed s8)) with (-128). change (it_hi (x86_packed s8)) with 127. change (middle s8) with 0. lia.
  - change (it_lo u8) with 0 in *. change (it_hi u8) with 255 in *. change (it_lo (x86_packed u8)) with (-128). change (it_hi (x86_packed u8)) with 127. change (middle u8) with 128. lia.
  - change (it_lo s16) with (-32768) in *. change (it_hi s16) with 32767 in *. change (it_lo (x86_packed s16)) with (-32768). change (it_hi (x86_packed s16)) with 32767. change (middle s16) with 0. lia.
Qed.

Lemma padded_dot : forall s1 s2 (m1 m2 : mat Z) z1 z2 D a b, x86_source s1 -> x86_source s2 ->
  (forall i j, in_matrix (m_layout m1) i j -> it_lo s1 <= entry m1 i j <= it_hi s1) ->
  (forall i j, in_matrix (m_layout m2) i j -> it_lo s2 <= entry m2 i j <= it_hi s2) ->
  ml_rows (m_layout m2) = ml_rows (m_layout m1) -> 0 <= ml_rows (m_layout m1) <= D ->
  z1 = m_zp m1 - middle s1 -> z2 = m_zp m2 - middle s2 ->
  0 <= a < ml_cols (m_layout m1) -> 0 <= b < ml_cols (m_layout m2) ->
  zsum (map (fun k => (packed_value s1 (x86_packed s1) m1 z1 k a - z1) * (packed_value s2 (x86_packed s2) m2 z2 k b - z2)) (zrange 0 D)) =
  zsum (map (fun k => (entry m1 k a - m_zp m1) * (entry m2 k b - m_zp m2)) (zrange 0 (ml_rows (m_layout m1)))).
Proof.
  intros s1 s2 m1 m2 z1 z2 D a b S1 S2 V1 V2 ER HD -> -> Ha Hb.
  rewrite (zrange_split 0 (ml_rows (m_layout m1)) D) by lia. rewrite map_app, IntEntryFacts.zsum_app.
  rewrite (zsum_zeros _ (zrange (ml_rows (m_layout m1)) D)).
  - rewrite Z.add_0_r. f_equal. apply map_ext_in. intros k Hk. apply zrange_In in Hk. unfold packed_value. rewrite ER.
    replace (k <? ml_rows (m_layout m1)) with true by lia. rewrite !shifted_range; try assumption; try (apply V1; split; lia); try (apply V2; split; lia). ring.
  - intros k Hk. apply zrange_In in Hk. unfold packed_value. rewrite ER. replace (k <? ml_rows (m_layout m1)) with false by lia. ring.
Qed.
