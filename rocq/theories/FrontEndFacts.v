(** The front end: from the user's matrices to a well-formed TrMul. *)
From Verif Require Import Base SidePair SizeUtil SizeUtilFacts Mat MatFacts Scalars Pack PackFacts
  MulParams Kernel KernelFacts TrMul TrMulFacts ChannelFacts.

(** [spec_entry] only depends on the parameters through [add_bias], [finish] and
    the channel dimension. *)
Lemma spec_entry_params : forall {V} (o : ops V) ls rs lzp rzp depth mp mp' dzp i j,
  mp_chan mp' = mp_chan mp ->
  (forall a, add_bias o mp' (channel_of mp i j) a = add_bias o mp (channel_of mp i j) a) ->
  (forall a, finish o mp' dzp (channel_of mp i j) a = finish o mp dzp (channel_of mp i j) a) ->
  spec_entry o ls rs lzp rzp depth mp' dzp i j = spec_entry o ls rs lzp rzp depth mp dzp i j.
Proof.
  intros V o ls rs lzp rzp depth mp mp' dzp i j Hc Hb Hf. unfold spec_entry.
  assert (E : channel_of mp' i j = channel_of mp i j) by (unfold channel_of; rewrite Hc; reflexivity). rewrite E.
  destruct (spec_accum _ _ _ _ _ _ _ _) as [a| |]; try reflexivity. cbn [bind]. rewrite Hb.
  destruct (add_bias _ _ _ a) as [b| |]; try reflexivity. cbn [bind].
  destruct (spec_zp_terms _ _ _ _ _ _ _ _ b) as [c| |]; try reflexivity. cbn [bind]. apply Hf.
Qed.

(** Number of channels: rows or columns of the product. *)
Definition channels (chan : channel_dimension) (rows cols : Z) : Z :=
  match chan with ChRow => rows | ChCol => cols end.

Definition params_fit {V} (o : ops V) (mp : mul_params V) (n : Z) : Prop :=
  0 <= mp_rounding_log2 mp <= 30 /\ n + 2 ^ mp_rounding_log2 mp <= int_max /\
  user_params o mp n (round_up n (2 ^ mp_rounding_log2 mp)).

(** Size limits for one dimension [n] packed on side [s]. *)
Definition dim_fits {V} (o : ops V) (k : kernel_layout) (s : side) (depth n : Z) : Prop :=
  0 < n /\ (depth + kl_rows k) * (n + kl_cols k) <= int_max /\ (n + kl_cols k) * o_sums_size o s <= int_max.

Lemma kernel_pos : forall k, kernel_layout_ok k -> 0 < kl_rows k /\ 0 < kl_cols k.
Proof. intros k [(a & Ha & Ea) (b & Hb & Eb) _ _]. rewrite Ea, Eb. split; apply pow2_pos; auto. Qed.

Lemma create_layout_dim : forall {V} dbg (o : ops V) s (m : mat V) k depth, kernel_layout_ok k -> mat_ok m ->
  ml_rows (m_layout m) = depth -> 0 < depth -> dim_fits o k s depth (ml_cols (m_layout m)) -> 0 < o_sums_size o s ->
  exists l, create_packed_layout dbg (m_layout m) k = Ok l /\ playout_ok l /\ pl_kernel l = k /\
    pl_rows l = round_up depth (kl_rows k) /\
    ml_cols (m_layout m) <= pl_cols l < ml_cols (m_layout m) + kl_cols k /\
    ml_cols (m_layout m) + kl_cols k <= int_max /\
    0 < pl_rows l /\ pl_cols l * o_sums_size o s <= int_max.
Proof.
  intros V dbg o s m k depth K M Ed Hd (Hn & F & Fs) Hs.
  destruct (kernel_pos k K) as [P1 P2]. rewrite <- Ed in *.
  set (n := ml_cols (m_layout m)) in *. set (d := ml_rows (m_layout m)) in *.
  pose proof (round_up_spec d _ P1) as [R1 _]. pose proof (round_up_spec n _ P2) as [R2 _].
  assert (F2 : round_up d (kl_rows k) * round_up n (kl_cols k) <= int_max).
  { eapply Z.le_trans; [|exact F]. apply Z.mul_le_mono_nonneg; lia. }
  assert (D1 : d + kl_rows k <= int_max).
  { eapply Z.le_trans; [|exact F].
    transitivity ((d + kl_rows k) * 1); [lia|]. apply Z.mul_le_mono_nonneg_l; lia. }
  assert (D2 : n + kl_cols k <= int_max).
  { eapply Z.le_trans; [|exact F].
    transitivity (1 * (n + kl_cols k)); [lia|]. apply Z.mul_le_mono_nonneg_r; lia. }
  destruct (create_packed_layout_ok dbg (m_layout m) k) as (l & E & L & E1 & E2 & E3); auto; fold d n; try lia.
  fold d n in E2, E3.
  exists l. rewrite E2, E3. split; [exact E|]. split; [exact L|]. split; [exact E1|]. split; [congruence|].
  split; [lia|]. split; [lia|]. split; [lia|].
  eapply Z.le_trans; [|exact Fs]. apply Z.mul_le_mono_nonneg_r; lia.
Qed.

Section ColMajor.
Variables (V : Type) (dbg : bool) (o : ops V) (kl : sp kernel_layout) (fresh : Z -> V) (freshz : Z -> Z).
Variables (l r : mat V) (dl : mat_layout) (dzp : Z) (mp : mul_params V) (chan : channel_dimension) (depth : Z).
Hypotheses (Kl : kernel_layout_ok (lhs kl)) (Kr : kernel_layout_ok (rhs kl)) (Kd : kl_rows (rhs kl) = kl_rows (lhs kl)).
Hypotheses (Ml : mat_ok l) (Mr : mat_ok r) (L : layout_ok dl) (Hcm : ml_order dl = ColMajor).
Hypotheses (Dl : ml_rows (m_layout l) = depth) (Dr : ml_rows (m_layout r) = depth) (Hdepth : 0 < depth).
Hypotheses (Rd : ml_rows dl = ml_cols (m_layout l)) (Cd : ml_cols dl = ml_cols (m_layout r)).
Hypotheses (Fl : dim_fits o (lhs kl) Lhs depth (ml_rows dl)) (Fr : dim_fits o (rhs kl) Rhs depth (ml_cols dl)).
Hypotheses (Sz : forall s, 0 < o_data_size o s <= 8) (Ss : forall s, 0 < o_sums_size o s).
Hypothesis P : params_fit o mp (channels chan (ml_rows dl) (ml_cols dl)).

Lemma create_col_major_ok : exists t adv,
  create_trmul_params_col_major dbg o kl fresh freshz l r dl dzp mp chan = Ok (t, adv) /\
  tparams_ok t /\ sizes_ok t /\
  tp_ops t = o /\ tp_kl t = kl /\ tp_src t = mk_sp l r /\ tp_dst_layout t = dl /\ tp_dst_zp t = dzp /\
  tp_packed_zp t = mk_sp (o_pack_zp o Lhs (m_zp l)) (o_pack_zp o Rhs (m_zp r)) /\
  (forall s, pl_rows (get s (tp_packed_layout t)) = round_up depth (kl_rows (lhs kl))) /\
  (forall i j, inside dl i j ->
     spec_entry o l r (o_pack_zp o Lhs (m_zp l)) (o_pack_zp o Rhs (m_zp r))
       (round_up depth (kl_rows (lhs kl))) (tp_mp t) dzp i j =
     spec_entry o l r (o_pack_zp o Lhs (m_zp l)) (o_pack_zp o Rhs (m_zp r))
       (round_up depth (kl_rows (lhs kl))) (set_channel_dimension mp chan) dzp i j) /\
  params_serve o adv (set_channel_dimension mp chan) (tp_mp t)
    (channels chan (ml_rows dl) (ml_cols dl))
    (pl_cols (get (match chan with ChRow => Lhs | ChCol => Rhs end) (tp_packed_layout t))) /\
  adv = (round_up (channels chan (ml_rows dl) (ml_cols dl)) (2 ^ mp_rounding_log2 mp) <?
         pl_cols (get (match chan with ChRow => Lhs | ChCol => Rhs end) (tp_packed_layout t))).
Proof.
  unfold create_trmul_params_col_major. rewrite Hcm. rewrite dcheck_ok by reflexivity. cbn [bind].
  rewrite Rd in Fl. rewrite Cd in Fr.
  destruct (create_layout_dim dbg o Lhs l (lhs kl) depth Kl Ml Dl Hdepth Fl (Ss Lhs))
    as (pl & El & Pl & Pl1 & Pl2 & Pl3 & Pl4 & Pl5 & Pl6).
  destruct (create_layout_dim dbg o Rhs r (rhs kl) depth Kr Mr Dr Hdepth Fr (Ss Rhs))
    as (pr & Er & Pr & Pr1 & Pr2 & Pr3 & Pr4 & Pr5 & Pr6).
  rewrite El. cbn [bind]. rewrite Er. cbn [bind].
  set (n := channels chan (ml_rows dl) (ml_cols dl)) in *.
  set (cs := match chan with ChRow => Lhs | ChCol => Rhs end).
  assert (En : ml_cols (m_layout (get cs (mk_sp l r))) = n).
  { unfold cs, n, channels. destruct chan; cbn [get lhs rhs]; auto. }
  rewrite En. set (req := pl_cols (get cs (mk_sp pl pr))).
  assert (Hnr : 0 <= n <= req).
  { destruct Fl as [Fl0 _]. destruct Fr as [Fr0 _].
    unfold n, req, cs, channels. destruct chan; cbn [get lhs rhs]; lia. }
  destruct P as (P1 & P2 & P3).
  destruct (ensure_per_channel_ok dbg o req n fresh freshz (set_channel_dimension mp chan) (mp_rounding_log2 mp))
    as (mp' & E & S); auto.
  { destruct P3 as [U1 U2 U3]. constructor; auto. }
  rewrite E. cbn [bind]. eexists. eexists. split; [reflexivity|]. cbn [tp_ops tp_kl tp_src tp_dst_layout tp_dst_zp tp_packed_zp tp_packed_layout tp_mp].
  split.
  { constructor; cbn [tp_ops tp_kl tp_src tp_dst_layout tp_dst_zp tp_packed_zp tp_packed_layout tp_mp]; auto.
    - intros []; cbn [get lhs rhs]; auto.
    - intros []; cbn [get lhs rhs]; auto.
    - intros []; cbn [get lhs rhs]; auto.
    - cbn [get lhs rhs]. congruence.
    - intros []; cbn [get lhs rhs]; auto.
    - intros []; cbn [get lhs rhs]; auto. }
  split.
  { constructor; cbn [tp_ops tp_kl tp_src tp_dst_layout tp_dst_zp tp_packed_zp tp_packed_layout tp_mp]; auto.
    - intros []; cbn [get lhs rhs]; auto.
    - destruct Fl as [Fl0 _]. destruct Fr as [Fr0 _]. intros []; cbn [get lhs rhs]; lia. }
  repeat (split; [reflexivity|]). split.
  { intros []; cbn [get lhs rhs]; congruence. }
  split; [|split; [exact S|reflexivity]].
  intros i j [Hi Hj].
  assert (Hch : 0 <= channel_of (set_channel_dimension mp chan) i j < n).
  { unfold channel_of, n, channels. cbn [set_channel_dimension mp_chan]. destruct chan; lia. }
  assert (HB : forall A (iz : A -> bool) b, user_buffer iz b n (round_up n (2 ^ mp_rounding_log2 mp)) ->
     forall x, b = Some x -> n <= blen x).
  { intros A iz b UB x Hx. destruct (UB x Hx) as [X _].
    pose proof (round_up_spec n (2 ^ mp_rounding_log2 mp) (pow2_pos _ (proj1 P1))). lia. }
  destruct P3 as [U1 U2 U3].
  apply spec_entry_params.
  - rewrite (ps_chan _ _ _ _ _ _ S). reflexivity.
  - intros a. eapply add_bias_serve; eauto.
  - intros a. eapply finish_serve; eauto.
Qed.
End ColMajor.

(** * The user's view *)

Definition tsides (d : order) {A} (x : sp A) : sp A :=
  match d with ColMajor => x | RowMajor => mk_sp (rhs x) (lhs x) end.

(** The entry (i, j) of the product as a function of the user's matrices. *)
Definition mul_entry {V} (o : ops V) (kr : Z) (l r : mat V) (mp : mul_params V) (d : order) (dzp i j : Z) : res V :=
  let depth := round_up (ml_rows (m_layout r)) kr in
  match d with
  | ColMajor => spec_entry o (transpose_mat l) r (o_pack_zp o Lhs (m_zp l)) (o_pack_zp o Rhs (m_zp r)) depth mp dzp i j
  | RowMajor => spec_entry (swap_ops o) r (transpose_mat l) (o_pack_zp o Rhs (m_zp r)) (o_pack_zp o Lhs (m_zp l)) depth
      (set_channel_dimension mp (transpose_channel (mp_chan mp))) dzp j i
  end.

(** Sums of row [c] of the left matrix / column [c] of the right matrix. *)
Definition mul_col_sum {V} (o : ops V) (kr : Z) (l r : mat V) (s : side) (c : Z) : res V :=
  let depth := round_up (ml_rows (m_layout r)) kr in
  match s with
  | Lhs => col_sum o Lhs (transpose_mat l) (o_pack_zp o Lhs (m_zp l)) depth c
  | Rhs => col_sum o Rhs r (o_pack_zp o Rhs (m_zp r)) depth c
  end.

Record call_ok {V} (dbg : bool) (o : ops V) (kl : sp kernel_layout) (l r dst : mat V) (mp : mul_params V) : Prop := {
  ca_kl : kernel_layout_ok (lhs kl);
  ca_kr : kernel_layout_ok (rhs kl);
  ca_krows : kl_rows (rhs kl) = kl_rows (lhs kl);
  ca_l : mat_ok l;
  ca_r : mat_ok r;
  ca_d : mat_ok dst;
  ca_depth : ml_cols (m_layout l) = ml_rows (m_layout r);
  ca_rows : ml_rows (m_layout dst) = ml_rows (m_layout l);
  ca_cols : ml_cols (m_layout dst) = ml_cols (m_layout r);
  ca_depth_pos : 0 < ml_rows (m_layout r);
  ca_fits : forall s s', dim_fits o (get s kl) s' (ml_rows (m_layout r)) (ml_rows (m_layout dst)) /\
     dim_fits o (get s kl) s' (ml_rows (m_layout r)) (ml_cols (m_layout dst));
  ca_data : forall s, 0 < o_data_size o s <= 8;
  ca_sums : forall s, 0 < o_sums_size o s;
  ca_params : params_fit o mp (channels (mp_chan mp) (ml_rows (m_layout dst)) (ml_cols (m_layout dst)));
  ca_valid : dbg = true -> o_validate o (m_zp l) (m_zp r) (m_zp dst) = true
}.

Lemma channels_transpose : forall c a b, channels (transpose_channel c) a b = channels c b a.
Proof. intros []; reflexivity. Qed.

Definition sub_layout (d : order) (l : mat_layout) : mat_layout :=
  match d with ColMajor => l | RowMajor => transpose_layout l end.
(** Sides and entries of the internal problem, which is transposed when the
    destination is row-major. *)
Definition dside (d : order) (s : side) : side := match d with ColMajor => s | RowMajor => other_side s end.
Definition dentry {A} (d : order) (f : Z -> Z -> A) (i j : Z) : A :=
  match d with ColMajor => f i j | RowMajor => f j i end.
Definition sub_entry {V} (d : order) (e : Z -> Z -> V) : Z -> Z -> V :=
  match d with ColMajor => e | RowMajor => fun i j => e j i end.

Lemma front_end_ok : forall {V} dbg (o : ops V) kl fresh freshz l r dst mp,
  call_ok dbg o kl l r dst mp ->
  exists t adv, mul_front_end dbg o kl fresh freshz l r dst mp = Ok (t, adv) /\
    tparams_ok t /\ sizes_ok t /\
    tp_kl t = kl /\
    tp_dst_layout t = sub_layout (ml_order (m_layout dst)) (m_layout dst) /\
    tp_src t = tsides (ml_order (m_layout dst)) (mk_sp (transpose_mat l) r) /\
    (forall s, pl_rows (get s (tp_packed_layout t)) = round_up (ml_rows (m_layout r)) (kl_rows (lhs kl))) /\
    (forall s c, t_sum t (dside (ml_order (m_layout dst)) s) c = mul_col_sum o (kl_rows (lhs kl)) l r s c) /\
    (forall i j, inside (m_layout dst) i j ->
       dentry (ml_order (m_layout dst)) (t_entry t) i j =
       mul_entry o (kl_rows (lhs kl)) l r mp (ml_order (m_layout dst)) (m_zp dst) i j) /\
    tp_ops t = match ml_order (m_layout dst) with ColMajor => o | RowMajor => swap_ops o end.
Proof.
  intros V dbg o kl fresh freshz l r dst mp C. unfold mul_front_end.
  assert (E0 : dcheck dbg (o_validate o (m_zp l) (m_zp r) (m_zp dst)) = Ok tt).
  { destruct dbg; [|reflexivity]. rewrite (ca_valid _ _ _ _ _ _ _ C eq_refl). reflexivity. }
  rewrite E0. cbn [bind]. unfold create_trmul_params, mul_entry.
  destruct (ml_order (m_layout dst)) eqn:Eo; cbn [sub_layout sub_entry tsides].
  - destruct (create_col_major_ok V dbg o kl fresh freshz (transpose_mat l) r (m_layout dst) (m_zp dst) mp (mp_chan mp)
      (ml_rows (m_layout r))) as (t & adv & E & T1 & T2 & T3 & T4 & T5 & T6 & T7 & T8 & T9 & T10 & T11 & T12).
    + apply (ca_kl _ _ _ _ _ _ _ C).
    + apply (ca_kr _ _ _ _ _ _ _ C).
    + apply (ca_krows _ _ _ _ _ _ _ C).
    + apply mat_ok_transpose, (ca_l _ _ _ _ _ _ _ C).
    + apply (ca_r _ _ _ _ _ _ _ C).
    + apply (mo_layout _ (ca_d _ _ _ _ _ _ _ C)).
    + auto.
    + apply (ca_depth _ _ _ _ _ _ _ C).
    + reflexivity.
    + apply (ca_depth_pos _ _ _ _ _ _ _ C).
    + apply (ca_rows _ _ _ _ _ _ _ C).
    + apply (ca_cols _ _ _ _ _ _ _ C).
    + apply (ca_fits _ _ _ _ _ _ _ C Lhs Lhs).
    + apply (ca_fits _ _ _ _ _ _ _ C Rhs Rhs).
    + apply (ca_data _ _ _ _ _ _ _ C).
    + apply (ca_sums _ _ _ _ _ _ _ C).
    + apply (ca_params _ _ _ _ _ _ _ C).
    + exists t, adv. split; [exact E|]. split; [exact T1|]. split; [exact T2|]. split; [exact T4|].
      split; [exact T6|]. split; [exact T5|]. split; [exact T9|]. split; [|split; [|exact T3]].
      * intros s c. unfold t_sum. rewrite T3, T5, T8, T9. unfold mul_col_sum. destruct s; reflexivity.
      * intros i j Hin. unfold dentry, t_entry. rewrite T3, T5, T7, T8, T9. cbn [get lhs rhs].
        change (m_zp (transpose_mat l)) with (m_zp l) in *. rewrite T10 by auto.
        replace (set_channel_dimension mp (mp_chan mp)) with mp by (destruct mp; reflexivity). reflexivity.
  - destruct (create_col_major_ok V dbg (swap_ops o) kl fresh freshz r (transpose_mat l)
      (transpose_layout (m_layout dst)) (m_zp dst) mp (transpose_channel (mp_chan mp))
      (ml_rows (m_layout r))) as (t & adv & E & T1 & T2 & T3 & T4 & T5 & T6 & T7 & T8 & T9 & T10 & T11 & T12).
    + apply (ca_kl _ _ _ _ _ _ _ C).
    + apply (ca_kr _ _ _ _ _ _ _ C).
    + apply (ca_krows _ _ _ _ _ _ _ C).
    + apply (ca_r _ _ _ _ _ _ _ C).
    + apply mat_ok_transpose, (ca_l _ _ _ _ _ _ _ C).
    + apply layout_ok_transpose, (mo_layout _ (ca_d _ _ _ _ _ _ _ C)).
    + cbn [transpose_layout ml_order]. rewrite Eo. reflexivity.
    + reflexivity.
    + apply (ca_depth _ _ _ _ _ _ _ C).
    + apply (ca_depth_pos _ _ _ _ _ _ _ C).
    + apply (ca_cols _ _ _ _ _ _ _ C).
    + apply (ca_rows _ _ _ _ _ _ _ C).
    + apply (ca_fits _ _ _ _ _ _ _ C Lhs Rhs).
    + apply (ca_fits _ _ _ _ _ _ _ C Rhs Lhs).
    + intros s. apply (ca_data _ _ _ _ _ _ _ C).
    + intros s. apply (ca_sums _ _ _ _ _ _ _ C).
    + rewrite channels_transpose.
      destruct (ca_params _ _ _ _ _ _ _ C) as (Q1 & Q2 & [U1 U2 U3]). split; [exact Q1|]. split; [exact Q2|].
      constructor; auto.
    + exists t, adv. split; [exact E|]. split; [exact T1|]. split; [exact T2|]. split; [exact T4|].
      split; [exact T6|]. split; [exact T5|]. split; [exact T9|]. split; [|split; [|exact T3]].
      * intros s c. unfold t_sum. rewrite T3, T5, T8, T9. unfold mul_col_sum. destruct s; reflexivity.
      * intros i j Hin. unfold dentry, t_entry. rewrite T3, T5, T7, T8, T9. cbn [get lhs rhs].
        change (m_zp (transpose_mat l)) with (m_zp l) in *.
        cbn [swap_ops o_pack_zp other_side] in T10 |- *. rewrite T10; [reflexivity|].
        destruct Hin as [H1 H2]. split; auto.
Qed.
