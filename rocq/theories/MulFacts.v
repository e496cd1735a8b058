(** The whole multiplication: any configuration and any schedule. *)
From Verif Require Import Base SidePair SizeUtil SizeUtilFacts BlockMap SpecBlockMap ThreadCount
  Mat MatFacts Scalars Pack PackFacts MulParams Kernel KernelFacts TrMul TrMulFacts ChannelFacts FrontEndFacts
  TrMulMachine TrMulRun RunFacts.

Lemma round_up_unique : forall n k x, 0 < k -> n <= x < n + k -> x mod k = 0 -> x = round_up n k.
Proof.
  intros n k x Hk Hx Hm. pose proof (round_up_spec n k Hk) as [R M].
  pose proof (Z.div_mod x k ltac:(lia)) as D1. rewrite Hm in D1.
  pose proof (Z.div_mod (round_up n k) k ltac:(lia)) as D2. rewrite M in D2.
  assert (x / k = round_up n k / k) by nia. lia.
Qed.

(** Rows or columns of the destination; their size after packing. *)
Definition dim (dst : mat_layout) (s : side) : Z := match s with Lhs => ml_rows dst | Rhs => ml_cols dst end.
Definition packed_dim (kl : sp kernel_layout) (dst : mat_layout) (s : side) : Z :=
  round_up (dim dst s) (kl_cols (get (dside (ml_order dst) s) kl)).

Record call_domain {V} (c : config) (o : ops V) (kl : sp kernel_layout) (l r dst : mat V) : Prop := {
  cd_max : 1 <= c_max_threads c <= int_max;
  cd_src : forall s, 1 <= o_src_size o s <= o_data_size o s;
  cd_bm : forall n, 1 <= n <= c_max_threads c ->
    let s := dside (ml_order (m_layout dst)) in
    bm_domain (packed_dim kl (m_layout dst) (s Lhs)) (packed_dim kl (m_layout dst) (s Rhs))
      (ml_rows (m_layout r)) (kl_cols (lhs kl)) (kl_cols (rhs kl))
      (o_data_size o (s Lhs)) (o_data_size o (s Rhs)) n (c_cache c)
}.

(** The value of entry (i, j), when it is defined. *)
Definition mul_value {V} (o : ops V) (kr : Z) (l r : mat V) (mp : mul_params V) (d : order) (dzp i j : Z) : V :=
  match mul_entry o kr l r mp d dzp i j with Ok v => v | _ => o_acc0 o end.

Section Mul.
Variables (V : Type) (c : config) (o : ops V) (kl : sp kernel_layout) (g : garbage V).
Variables (l r dst : mat V) (mp : mul_params V).
Hypotheses (C : call_ok (c_dbg c) o kl l r dst mp) (D : call_domain c o kl l r dst).

Let d := ml_order (m_layout dst).
Let kr := kl_rows (lhs kl).
Let entry i j := mul_entry o kr l r mp d (m_zp dst) i j.
Let value i j := mul_value o kr l r mp d (m_zp dst) i j.

(** Everything the call computes is defined. *)
Definition mul_defined : Prop :=
  (forall s x, 0 <= x < packed_dim kl (m_layout dst) s -> exists v, mul_col_sum o kr l r s x = Ok v) /\
  (forall i j, inside (m_layout dst) i j -> exists v, entry i j = Ok v).

Definition mul_done (out : mat V) : Prop :=
  m_layout out = m_layout dst /\ m_zp out = m_zp dst /\
  written (m_layout dst) value (inside (m_layout dst)) (m_data dst) (m_data out).

Lemma dside_dside : forall e s, dside e (dside e s) = s.
Proof. intros [] []; reflexivity. Qed.

Lemma front_end_domain : exists t adv m,
  mul_front_end (c_dbg c) o kl (g_chan g) (g_exp g) l r dst mp = Ok (t, adv) /\
  prepare_packed_matrices t (g_packed g) (g_sums g) (m_data dst) = Ok m /\
  tparams_ok t /\ trmul_domain c t /\ tmem_ok t m /\ tm_dst m = m_data dst /\
  tp_dst_layout t = sub_layout d (m_layout dst) /\
  (forall s, pl_cols (get s (tp_packed_layout t)) = packed_dim kl (m_layout dst) (dside d s)) /\
  (forall s x, t_sum t (dside d s) x = mul_col_sum o kr l r s x) /\
  (forall i j, inside (m_layout dst) i j -> dentry d (t_entry t) i j = entry i j) /\
  tp_ops t = match d with ColMajor => o | RowMajor => swap_ops o end.
Proof.
  destruct (front_end_ok (c_dbg c) o kl (g_chan g) (g_exp g) l r dst mp C)
    as (t & adv & E & T1 & T2 & T4 & T6 & T5 & T9 & TS & TE & T3). fold d in T5, T6, TS, TE, T3.
  destruct (prepare_ok V t T1 (g_packed g) (g_sums g) (m_data dst) T2) as (m & Em & MM & Md).
  { rewrite T6. pose proof (mo_len _ (ca_d _ _ _ _ _ _ _ C)).
    destruct d; cbn [sub_layout]; rewrite ?flat_transpose; auto. }
  assert (PC : forall s, pl_cols (get s (tp_packed_layout t)) = packed_dim kl (m_layout dst) (dside d s)).
  { intros s. unfold packed_dim. fold d. rewrite dside_dside.
    pose proof (kl_cols_pos V t T1 s) as KP. pose proof (to_cols V t T1 s) as CO. pose proof (to_kernel V t T1 s) as KE.
    pose proof (po_cols_al _ (to_pl V t T1 s)) as AL. cbv beta in *. rewrite KE in AL. rewrite T4 in *.
    assert (DM : ml_cols (m_layout (get s (tp_src t))) = dim (m_layout dst) (dside d s)).
    { rewrite T5. pose proof (ca_rows _ _ _ _ _ _ _ C). pose proof (ca_cols _ _ _ _ _ _ _ C).
      destruct d, s; cbn [tsides get lhs rhs dside other_side dim]; cbn [transpose_mat transpose_layout m_layout ml_cols]; auto. }
    rewrite DM in CO. apply round_up_unique; auto. }
  exists t, adv, m. split; [exact E|]. split; [exact Em|]. split; [exact T1|]. split.
  { destruct D as [D1 D3 D2]. constructor; [exact D1| |].
    { intros s. rewrite T3. destruct d; cbn [swap_ops o_src_size o_data_size]; apply D3. }
    intros n Hn. specialize (D2 n Hn).
    change (lhs (tp_packed_layout t)) with (get Lhs (tp_packed_layout t)).
    change (rhs (tp_packed_layout t)) with (get Rhs (tp_packed_layout t)).
    rewrite !PC, T3, T4, T5. fold d in D2.
    pose proof (ca_depth _ _ _ _ _ _ _ C) as CD.
    destruct d; cbn [dside other_side tsides lhs rhs swap_ops o_data_size] in *;
      cbn [transpose_mat transpose_layout m_layout ml_rows]; rewrite ?CD; exact D2. }
  split; [exact MM|]. split; [exact Md|]. split; [exact T6|]. split; [exact PC|]. split; [exact TS|]. split; [exact TE|exact T3].
Qed.

Lemma no_prepacked : forall t (m : tmem V), prepacked_ok t (mk_sp false false) m.
Proof. intros t m [] x H; discriminate. Qed.

Lemma inside_sub : forall i j, inside (sub_layout d (m_layout dst)) i j ->
  inside (m_layout dst) (dentry d (fun a _ => a) i j) (dentry d (fun _ b => b) i j).
Proof. intros i j. destruct d; cbn [sub_layout dentry]; intros [H1 H2]; split; auto. Qed.

Lemma defined_iff : forall t, tp_dst_layout t = sub_layout d (m_layout dst) ->
  (forall s, pl_cols (get s (tp_packed_layout t)) = packed_dim kl (m_layout dst) (dside d s)) ->
  (forall s x, t_sum t (dside d s) x = mul_col_sum o kr l r s x) ->
  (forall i j, inside (m_layout dst) i j -> dentry d (t_entry t) i j = entry i j) ->
  (all_defined t <-> mul_defined).
Proof.
  intros t T6 PC TS TE. split; intros [A B]; split.
  - intros s x Hx. rewrite <- TS. apply A. rewrite PC, dside_dside. auto.
  - intros i j Hin. rewrite <- TE by auto. rewrite T6 in B.
    destruct d; cbn [dentry sub_layout] in *; apply B; destruct Hin; split; auto.
  - intros s x Hx. rewrite PC in Hx. rewrite <- (dside_dside d s), TS. apply A. auto.
  - intros i j Hin. rewrite T6 in Hin. apply inside_sub in Hin. destruct (B _ _ Hin) as [v Hv].
    rewrite <- TE in Hv by auto. exists v. destruct d; exact Hv.
Qed.

Lemma done_of_finished : forall prepacked t m m', tp_dst_layout t = sub_layout d (m_layout dst) ->
  (forall i j, inside (m_layout dst) i j -> dentry d (t_entry t) i j = entry i j) ->
  tp_ops t = match d with ColMajor => o | RowMajor => swap_ops o end ->
  tm_dst m = m_data dst -> finished t prepacked m m' ->
  mul_done {| m_data := tm_dst m'; m_layout := m_layout dst; m_zp := m_zp dst |}.
Proof.
  intros prepacked t m m' T6 TE T3 Md [F1 F2 F3 F4 (W1 & W2 & W3)]. split; [reflexivity|]. split; [reflexivity|].
  cbn [m_data]. rewrite Md in *. rewrite T6 in *.
  assert (VE : forall i j, inside (m_layout dst) i j -> dentry d (t_value t) i j = value i j).
  { intros i j Hin. unfold value, mul_value. pose proof (TE i j Hin) as E. unfold entry in E. rewrite <- E.
    unfold t_value. destruct d; cbn [dentry]; rewrite T3; reflexivity. }
  split; [exact W1|].
  destruct d; cbn [sub_layout dentry] in *; [split; [|exact W3]|split].
  - intros i j Hin. rewrite <- VE by auto. auto.
  - intros i j [Hi Hj]. rewrite <- VE by (split; auto). specialize (W2 j i). rewrite off_transpose in W2. apply W2. split; auto.
  - intros x Hx. apply W3. intros i j [Hi Hj]. rewrite off_transpose. apply Hx. split; auto.
Qed.

Lemma mul_partial : forall sched out, mul c o kl g sched l r dst mp = Ok (Some out) -> mul_defined /\ mul_done out.
Proof.
  intros sched out E. destruct front_end_domain as (t & adv & m & E1 & E2 & T1 & TD & MM & Md & T6 & PC & TS & TE & T3).
  unfold mul, mul_by in E. cbv beta in E. rewrite E1 in E. cbn [bind] in E. rewrite E2 in E. cbn [bind] in E. fold (trmul c t (mk_sp false false) sched m) in E.
  destruct (trmul c t (mk_sp false false) sched m) as [[m'|]| |] eqn:Et; cbn [bind] in E; try discriminate.
  injection E as <-.
  pose proof (trmul_partial V c t (mk_sp false false) T1 TD sched m _ MM (no_prepacked t m) Et m' eq_refl) as F.
  split.
  - apply (defined_iff t T6 PC TS TE). destruct F as [F1 F2 F3 F4 F5]. split.
    + intros s x Hx. apply F2; auto. destruct s; reflexivity.
    + intros i j Hin. eauto.
  - eapply done_of_finished; eauto.
Qed.

Lemma mul_total : mul_defined -> forall sched, exists out, mul c o kl g sched l r dst mp = Ok out.
Proof.
  intros MD sched. destruct front_end_domain as (t & adv & m & E1 & E2 & T1 & TD & MM & Md & T6 & PC & TS & TE & T3).
  unfold mul, mul_by. cbv beta. rewrite E1. cbn [bind]. rewrite E2. cbn [bind]. fold (trmul c t (mk_sp false false) sched m).
  destruct (trmul_total V c t (mk_sp false false) T1 TD (proj2 (defined_iff t T6 PC TS TE) MD) sched m MM (no_prepacked t m)) as (out & ->).
  cbn [bind]. eauto.
Qed.

Lemma mul_fair : mul_defined -> forall sg N0,
  (forall i n, 0 <= i < c_max_threads c -> exists k, (n <= k)%nat /\ fst (sg k) = i) ->
  (forall n, (N0 <= n)%nat -> snd (sg n) = false) ->
  exists n out, mul c o kl g (map sg (seq 0 n)) l r dst mp = Ok (Some out).
Proof.
  intros MD sg N0 FA VI. destruct front_end_domain as (t & adv & m & E1 & E2 & T1 & TD & MM & Md & T6 & PC & TS & TE & T3).
  destruct (trmul_fair V c t (mk_sp false false) T1 TD (proj2 (defined_iff t T6 PC TS TE) MD) sg N0 m MM (no_prepacked t m) FA VI)
    as (n & m' & Et).
  exists n. unfold mul, mul_by. cbv beta. rewrite E1. cbn [bind]. rewrite E2. cbn [bind]. fold (trmul c t (mk_sp false false) (map sg (seq 0 n)) m). rewrite Et. cbn [bind]. eauto.
Qed.
End Mul.
Arguments mul_defined {V}. Arguments mul_done {V}.
