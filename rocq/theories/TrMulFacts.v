(** Effects of RunPack and RunKernel on the buffers of a TrMul. *)
From Verif Require Import Base SidePair SizeUtil SizeUtilFacts Mat MatFacts Scalars Pack PackFacts
  MulParams Kernel KernelFacts TrMul.

Section TrMul.
Variables (V : Type) (t : tparams V).

Let o := tp_ops t.
Let src s := get s (tp_src t).
Let plt s := get s (tp_packed_layout t).
Let kl s := get s (tp_kl t).
Let zp s := get s (tp_packed_zp t).

(** What the front end guarantees. *)
Record tparams_ok : Prop := {
  to_src : forall s, mat_ok (src s);
  to_pl : forall s, playout_ok (plt s);
  to_kernel : forall s, pl_kernel (plt s) = kl s;
  to_depth : pl_rows (plt Rhs) = pl_rows (plt Lhs);
  to_cols : forall s, ml_cols (m_layout (src s)) <= pl_cols (plt s) < ml_cols (m_layout (src s)) + kl_cols (kl s);
  to_max : forall s, ml_cols (m_layout (src s)) + kl_cols (kl s) <= int_max;
  to_dst : layout_ok (tp_dst_layout t);
  to_drows : ml_rows (tp_dst_layout t) = ml_cols (m_layout (src Lhs));
  to_dcols : ml_cols (tp_dst_layout t) = ml_cols (m_layout (src Rhs))
}.

(** The sums can be computed, and entry (i, j) has value [e i j]. *)
Definition sums_ok : Prop :=
  forall s c, 0 <= c < pl_cols (plt s) -> exists v, col_sum o s (src s) (zp s) (pl_rows (plt s)) c = Ok v.
Definition entries_ok (e : Z -> Z -> V) : Prop :=
  forall i j, inside (tp_dst_layout t) i j ->
    spec_entry o (src Lhs) (src Rhs) (zp Lhs) (zp Rhs) (pl_rows (plt Lhs)) (tp_mp t) (tp_dst_zp t) i j = Ok (e i j).

(** Entry (i, j) of the product, and its value when it is defined. *)
Definition t_entry (i j : Z) : res V :=
  spec_entry o (src Lhs) (src Rhs) (zp Lhs) (zp Rhs) (pl_rows (plt Lhs)) (tp_mp t) (tp_dst_zp t) i j.
Definition t_value (i j : Z) : V := match t_entry i j with Ok v => v | _ => o_acc0 o end.
Definition t_sum (s : side) (c : Z) : res V := col_sum o s (src s) (zp s) (pl_rows (plt s)) c.

Lemma t_value_ok : forall i j v, t_entry i j = Ok v -> t_entry i j = Ok (t_value i j).
Proof. intros i j v E. unfold t_value. rewrite E. reflexivity. Qed.

(** Everything TrMul computes is defined. *)
Definition all_defined : Prop :=
  (forall s c, 0 <= c < pl_cols (plt s) -> exists v, t_sum s c = Ok v) /\
  (forall i j, inside (tp_dst_layout t) i j -> exists v, t_entry i j = Ok v).

Record tmem_ok (m : tmem V) : Prop := {
  mm_p : forall s, pmat_ok (get s (tm_packed m));
  mm_l : forall s, p_layout (get s (tm_packed m)) = plt s;
  mm_zp : forall s, p_zp (get s (tm_packed m)) = zp s;
  mm_sums : forall s, zp (other_side s) <> 0 -> p_sums (get s (tm_packed m)) <> None;
  mm_dst : flat (tp_dst_layout t) <= blen (tm_dst m)
}.

(** Column [c] of side [s] has been packed. *)
Definition packed_col (m : tmem V) (s : side) (c : Z) : Prop := col_done o s (src s) (get s (tm_packed m)) c.

Lemma get_set_packed_same : forall m s (p : pmat V), get s (tm_packed (set_packed m s p)) = p.
Proof. intros m [] p; reflexivity. Qed.
Lemma get_set_packed_other : forall m s s' (p : pmat V), s' <> s ->
  get s' (tm_packed (set_packed m s p)) = get s' (tm_packed m).
Proof. intros m [] [] p H; try reflexivity; congruence. Qed.

Hypotheses (T : tparams_ok).

Lemma kl_cols_pos : forall s, 0 < kl_cols (kl s).
Proof. intros s. rewrite <- (to_kernel T). apply playout_kpos. apply (to_pl T). Qed.

Lemma run_pack_mem : forall dbg s a b m, tmem_ok m ->
  (forall c, a <= c < b -> exists v, t_sum s c = Ok v) ->
  0 <= a <= b -> b <= pl_cols (plt s) -> a mod kl_cols (kl s) = 0 -> b mod kl_cols (kl s) = 0 ->
  exists m', tm_run_pack dbg t s a b m = Ok m' /\ tmem_ok m' /\
    (forall c, a <= c < b -> packed_col m' s c) /\
    (forall s' c, 0 <= c -> (s' <> s \/ ~ (a <= c < b)) -> packed_col m s' c -> packed_col m' s' c) /\
    tm_dst m' = tm_dst m /\ get (other_side s) (tm_packed m') = get (other_side s) (tm_packed m) /\
    unchanged_outside (get s (tm_packed m)) (get s (tm_packed m')) a b.
Proof.
  intros dbg s a b m MM SUM Hab Hb Ma Mb. unfold tm_run_pack.
  pose proof (kl_cols_pos s) as Pk.
  destruct (run_pack_ok dbg o s (kl_cols (kl s)) (src s) (get s (tm_packed m)) a b) as (q & E & S & D & U).
  - apply (to_src T).
  - apply (mm_p _ MM).
  - rewrite (mm_l _ MM), (to_kernel T). reflexivity.
  - auto.
  - rewrite (mm_l _ MM). auto.
  - pose proof (to_cols T s). pose proof (to_max T s). lia.
  - rewrite Zminus_mod, Ma, Mb. rewrite Z.sub_0_r. apply Z.mod_0_l. lia.
  - intros c Hc. rewrite (mm_l _ MM), (mm_zp _ MM). apply SUM. exact Hc.
  - fold o (src s) (kl s). rewrite E. cbn [bind]. eexists. split; [reflexivity|].
    pose proof S as [S1 S2 S3 S4].
    assert (G : forall s', (s' = s /\ get s' (tm_packed (set_packed m s q)) = q) \/
       (s' <> s /\ get s' (tm_packed (set_packed m s q)) = get s' (tm_packed m))).
    { intros s'. destruct (side_eq_dec s' s) as [->|N]; [left|right]; split; auto.
      - apply get_set_packed_same. - apply get_set_packed_other; auto. }
    split; [|split; [|split; [|split; [|split]]]].
    + constructor.
      * intros s'. destruct (G s') as [[-> ->]|[N ->]]; [|apply (mm_p _ MM)].
        eapply pmat_ok_same; eauto. apply (mm_p _ MM).
      * intros s'. destruct (G s') as [[-> ->]|[N ->]]; [|apply (mm_l _ MM)]. rewrite S1. apply (mm_l _ MM).
      * intros s'. destruct (G s') as [[-> ->]|[N ->]]; [|apply (mm_zp _ MM)]. rewrite S2. apply (mm_zp _ MM).
      * intros s' Hz. destruct (G s') as [[-> ->]|[N ->]]; [|apply (mm_sums _ MM); auto].
        pose proof (mm_sums _ MM s Hz) as X. intro Y. apply X. rewrite Y in S4.
        destruct (p_sums (get s (tm_packed m))); [discriminate|reflexivity].
      * apply (mm_dst _ MM).
    + intros c Hc. unfold packed_col. rewrite get_set_packed_same. apply D; auto.
    + intros s' c Hc0 Hn Hp. unfold packed_col in *. destruct (G s') as [[-> ->]|[N ->]]; auto.
      destruct Hn as [Hn|Hn]; [congruence|].
      pose proof (mm_l _ MM s) as Ml. pose proof (to_pl T s) as L.
      destruct Hp as [P1 P2]. destruct U as [U1 U2]. split.
      * intros row Hr. rewrite S1 in *. rewrite S2. rewrite U1; auto.
        intros row' c' Hr' Hc' Heq. rewrite Ml in *. apply poff_inj in Heq; auto; lia.
      * intros bq Hq. rewrite S1, S2. destruct (opt_len_some _ _ _ S4 Hq) as (bp & Hbp & _).
        rewrite (U2 bp bq Hbp Hq c Hn). auto.
    + reflexivity.
    + apply get_set_packed_other. destruct s; discriminate.
    + rewrite get_set_packed_same. exact U.
Qed.

Lemma run_kernel_mem : forall dbg fat e st en m, tmem_ok m ->
  (forall i j, lhs st <= i < lhs en -> rhs st <= j < rhs en -> inside (tp_dst_layout t) i j ->
     t_entry i j = Ok (e i j)) ->
  (forall s, 0 <= get s st <= get s en) -> (forall s, get s en <= pl_cols (plt s)) ->
  (forall s, get s st <= ml_cols (m_layout (src s))) ->
  (forall s, get s st mod kl_cols (kl s) = 0) -> (forall s, get s en mod kl_cols (kl s) = 0) ->
  (forall s c, get s st <= c < get s en -> packed_col m s c) ->
  exists m', tm_run_kernel dbg fat t st en m = Ok m' /\ tmem_ok m' /\ tm_packed m' = tm_packed m /\
    written (tp_dst_layout t) e
      (fun i j => lhs st <= i < lhs en /\ rhs st <= j < rhs en /\ inside (tp_dst_layout t) i j)
      (tm_dst m) (tm_dst m').
Proof.
  intros dbg fat e st en m MM EN H1 H2 H2' H3 H4 H5. unfold tm_run_kernel.
  pose proof (kl_cols_pos Lhs) as Pl. pose proof (kl_cols_pos Rhs) as Pr.
  pose proof (to_cols T Lhs) as Cl. pose proof (to_cols T Rhs) as Cr.
  pose proof (to_max T Lhs) as Xl. pose proof (to_max T Rhs) as Xr.
  pose proof (to_drows T) as Dr. pose proof (to_dcols T) as Dc.
  pose proof (mm_l _ MM Lhs) as Ll. pose proof (mm_l _ MM Rhs) as Lr. cbn [get] in Ll, Lr.
  pose proof (mm_zp _ MM Lhs) as Zl. pose proof (mm_zp _ MM Rhs) as Zr. cbn [get] in Zl, Zr.
  destruct (run_kernel_ok V dbg o (src Lhs) (src Rhs) (lhs (tm_packed m)) (rhs (tm_packed m)) (tp_mp t)
    (tp_dst_zp t) (tp_dst_layout t) e (kl_cols (kl Lhs)) (kl_cols (kl Rhs))) with
    (fat := fat) (d0 := tm_dst m) (sr := lhs st) (sc := rhs st) (er := lhs en) (ec := rhs en) as (d & E & W).
  - apply (mm_p _ MM Lhs).
  - apply (mm_p _ MM Rhs).
  - rewrite Ll, Lr. apply (to_depth T).
  - rewrite Zr. apply (mm_sums _ MM Lhs).
  - rewrite Zl. apply (mm_sums _ MM Rhs).
  - apply (to_dst T).
  - auto.
  - auto.
  - rewrite Ll. lia.
  - rewrite Lr. lia.
  - lia.
  - lia.
  - apply (mm_dst _ MM).
  - apply (H1 Lhs).
  - rewrite Dr. apply (H2' Lhs).
  - specialize (H2 Lhs). cbn [get] in H2. lia.
  - pose proof (H3 Lhs) as A3. pose proof (H4 Lhs) as A4. cbn [get] in A3, A4.
    rewrite Zminus_mod, A3, A4. apply Z.mod_0_l. lia.
  - apply (H1 Rhs).
  - rewrite Dc. apply (H2' Rhs).
  - specialize (H2 Rhs). cbn [get] in H2. lia.
  - pose proof (H3 Rhs) as A3. pose proof (H4 Rhs) as A4. cbn [get] in A3, A4.
    rewrite Zminus_mod, A3, A4. apply Z.mod_0_l. lia.
  - intros i Hi _. apply (H5 Lhs). auto.
  - intros j Hj _. apply (H5 Rhs). auto.
  - intros i j Hi Hj Hin. rewrite Zl, Zr, Ll. apply EN; auto.
  - fold o. change (lhs (tp_kl t)) with (kl Lhs). change (rhs (tp_kl t)) with (kl Rhs). rewrite E. cbn [bind].
    eexists. split; [reflexivity|]. split; [|split; [reflexivity|exact W]].
    destruct MM as [X1 X2 X3 X4 X5]. constructor; auto. cbn [tm_dst]. destruct W as [W _]. lia.
Qed.

(** ** Success or failure *)

Lemma range_dec : forall (f : Z -> res V) a b,
  (forall c, a <= c < b -> exists v, f c = Ok v) \/ (exists c, a <= c < b /\ forall v, f c <> Ok v).
Proof.
  intros f a b. destruct (Z_le_gt_dec a b) as [H|H]; [|left; lia].
  remember (Z.to_nat (b - a)) as n eqn:En. revert b H En.
  induction n as [|n IH]; intros b H En.
  - left. lia.
  - destruct (IH (b - 1) ltac:(lia) ltac:(lia)) as [IH1|(c & Hc & N)].
    + destruct (f (b - 1)) as [v| |] eqn:E.
      * left. intros c Hc. destruct (Z.eq_dec c (b - 1)) as [->|N]; [eauto|apply IH1; lia].
      * right. exists (b - 1). split; [lia|]. rewrite E. discriminate.
      * right. exists (b - 1). split; [lia|]. rewrite E. discriminate.
    + right. exists c. split; [lia|auto].
Qed.

Lemma rect_dec_ok : forall (f : Z -> Z -> res V) a b c d,
  (forall i j, a <= i < b -> c <= j < d -> exists v, f i j = Ok v) \/
  (exists i j, a <= i < b /\ c <= j < d /\ forall v, f i j <> Ok v).
Proof.
  intros f a b c d. destruct (Z_le_gt_dec a b) as [H|H]; [|left; lia].
  remember (Z.to_nat (b - a)) as n eqn:En. revert b H En.
  induction n as [|n IH]; intros b H En.
  - left. lia.
  - destruct (IH (b - 1) ltac:(lia) ltac:(lia)) as [IH1|(i & j & Hi & Hj & N)].
    + destruct (range_dec (f (b - 1)) c d) as [X|(j & Hj & N)].
      * left. intros i j Hi Hj. destruct (Z.eq_dec i (b - 1)) as [->|N]; [auto|apply IH1; lia].
      * right. exists (b - 1), j. split; [lia|auto].
    + right. exists i, j. split; [lia|auto].
Qed.

Lemma run_pack_either : forall dbg s a b m, tmem_ok m ->
  0 <= a <= b -> b <= pl_cols (plt s) -> a mod kl_cols (kl s) = 0 -> b mod kl_cols (kl s) = 0 ->
  (exists m', tm_run_pack dbg t s a b m = Ok m' /\ tmem_ok m' /\
    (forall c, a <= c < b -> packed_col m' s c /\ exists v, t_sum s c = Ok v) /\
    (forall s' c, 0 <= c -> (s' <> s \/ ~ (a <= c < b)) -> packed_col m s' c -> packed_col m' s' c) /\
    tm_dst m' = tm_dst m) \/
  (~ all_defined /\ forall m', tm_run_pack dbg t s a b m <> Ok m').
Proof.
  intros dbg s a b m MM Hab Hb Ma Mb. destruct (range_dec (t_sum s) a b) as [D|(c & Hc & N)].
  - left. destruct (run_pack_mem dbg s a b m MM D Hab Hb Ma Mb) as (m' & E & M' & P & K & X & _).
    exists m'. split; [exact E|]. split; [exact M'|]. split; [|auto]. intros c Hc. auto.
  - right. split.
    + intros [A _]. destruct (A s c ltac:(lia)) as [v Hv]. exact (N v Hv).
    + intros m' E. unfold tm_run_pack in E. apply bind_ok_pre in E. destruct E as [q E].
      fold o (src s) (kl s) in E.
      apply run_pack_inv with (c := c) in E; auto.
      * destruct E as [v Ev]. rewrite (mm_l _ MM), (mm_zp _ MM) in Ev. exact (N v Ev).
      * apply (to_src T).
      * lia.
      * rewrite (mm_l _ MM). apply (po_rows _ (to_pl T s)).
Qed.

Lemma run_kernel_either : forall dbg fat st en m, tmem_ok m ->
  (forall s, 0 <= get s st <= get s en) -> (forall s, get s en <= pl_cols (plt s)) ->
  (forall s, get s st <= ml_cols (m_layout (src s))) ->
  (forall s, get s st mod kl_cols (kl s) = 0) -> (forall s, get s en mod kl_cols (kl s) = 0) ->
  (forall s c, get s st <= c < get s en -> packed_col m s c) ->
  (exists m', tm_run_kernel dbg fat t st en m = Ok m' /\ tmem_ok m' /\ tm_packed m' = tm_packed m /\
    (forall i j, lhs st <= i < lhs en -> rhs st <= j < rhs en -> inside (tp_dst_layout t) i j ->
       t_entry i j = Ok (t_value i j)) /\
    written (tp_dst_layout t) t_value
      (fun i j => lhs st <= i < lhs en /\ rhs st <= j < rhs en /\ inside (tp_dst_layout t) i j)
      (tm_dst m) (tm_dst m')) \/
  (~ all_defined /\ forall m', tm_run_kernel dbg fat t st en m <> Ok m').
Proof.
  intros dbg fat st en m MM H1 H2 H2' H3 H4 H5.
  set (dl := tp_dst_layout t).
  destruct (rect_dec_ok t_entry (lhs st) (Z.min (lhs en) (ml_rows dl)) (rhs st) (Z.min (rhs en) (ml_cols dl)))
    as [D|(i & j & Hi & Hj & N)].
  - left. destruct (run_kernel_mem dbg fat t_value st en m MM) as (m' & E & M' & P & W); auto.
    + intros i j Hi Hj [Ii Ij]. fold dl in Ii, Ij. destruct (D i j ltac:(lia) ltac:(lia)) as [v Ev].
      eapply t_value_ok; eauto.
    + exists m'. split; [exact E|]. split; [exact M'|]. split; [exact P|]. split; [|exact W].
      intros i j Hi Hj [Ii Ij]. fold dl in Ii, Ij. destruct (D i j ltac:(lia) ltac:(lia)) as [v Ev].
      eapply t_value_ok; eauto.
  - right. pose proof (H1 Lhs) as H1l. pose proof (H1 Rhs) as H1r. cbn [get] in H1l, H1r.
    assert (IN : inside dl i j) by (unfold inside; lia). split.
    + intros [_ A]. destruct (A i j IN) as [v Hv]. exact (N v Hv).
    + intros m' E. unfold tm_run_kernel in E. apply bind_ok_pre in E. destruct E as [d E].
      pose proof (kl_cols_pos Lhs) as Pl. pose proof (kl_cols_pos Rhs) as Pr.
      pose proof (to_cols T Lhs) as Cl. pose proof (to_cols T Rhs) as Cr.
      pose proof (to_max T Lhs) as Xl. pose proof (to_max T Rhs) as Xr.
      pose proof (to_drows T) as Dr. pose proof (to_dcols T) as Dc.
      pose proof (mm_l _ MM Lhs) as Ll. pose proof (mm_l _ MM Rhs) as Lr. cbn [get] in Ll, Lr.
      pose proof (mm_zp _ MM Lhs) as Zl. pose proof (mm_zp _ MM Rhs) as Zr. cbn [get] in Zl, Zr.
      pose proof (H2 Lhs) as H2l. pose proof (H2 Rhs) as H2r. cbn [get] in H2l, H2r.
      fold o in E. change (lhs (tp_kl t)) with (kl Lhs) in E. change (rhs (tp_kl t)) with (kl Rhs) in E.
      apply (run_kernel_inv V dbg o (src Lhs) (src Rhs) (lhs (tm_packed m)) (rhs (tm_packed m)) (tp_mp t)
        (tp_dst_zp t) (tp_dst_layout t) t_value (kl_cols (kl Lhs)) (kl_cols (kl Rhs))) with (i := i) (j := j) in E.
      * destruct E as [v Ev]. rewrite Zl, Zr, Ll in Ev. exact (N v Ev).
      * apply (mm_p _ MM Lhs).
      * apply (mm_p _ MM Rhs).
      * rewrite Ll, Lr. apply (to_depth T).
      * rewrite Zr. apply (mm_sums _ MM Lhs).
      * rewrite Zl. apply (mm_sums _ MM Rhs).
      * auto.
      * auto.
      * rewrite Ll. lia.
      * rewrite Lr. lia.
      * lia.
      * lia.
      * auto.
      * lia.
      * pose proof (H3 Lhs) as A3. pose proof (H4 Lhs) as A4. cbn [get] in A3, A4.
        rewrite Zminus_mod, A3, A4. apply Z.mod_0_l. lia.
      * auto.
      * lia.
      * pose proof (H3 Rhs) as A3. pose proof (H4 Rhs) as A4. cbn [get] in A3, A4.
        rewrite Zminus_mod, A3, A4. apply Z.mod_0_l. lia.
      * intros i' Hi' _. apply (H5 Lhs). auto.
      * intros j' Hj' _. apply (H5 Rhs). auto.
      * lia.
      * lia.
      * exact IN.
Qed.

(** All sides are packed or about to be. *)
Definition prepacked_ok (prepacked : sp bool) (m : tmem V) : Prop :=
  forall s c, get s prepacked = true -> 0 <= c < pl_cols (plt s) -> packed_col m s c.

(** The sums of the sides to be packed are defined. *)
Definition sums_defined (prepacked : sp bool) : Prop :=
  forall s c, get s prepacked = false -> 0 <= c < pl_cols (plt s) -> exists v, t_sum s c = Ok v.

Lemma simple_loop_either : forall dbg fat prepacked m, tmem_ok m -> prepacked_ok prepacked m ->
  (exists m', simple_loop dbg fat prepacked t m = Ok m' /\ tmem_ok m' /\
    sums_defined prepacked /\
    (forall i j, inside (tp_dst_layout t) i j -> t_entry i j = Ok (t_value i j)) /\
    (forall s c, 0 <= c < pl_cols (plt s) -> packed_col m' s c) /\
    written (tp_dst_layout t) t_value (inside (tp_dst_layout t)) (tm_dst m) (tm_dst m')) \/
  (~ all_defined /\ forall m', simple_loop dbg fat prepacked t m <> Ok m').
Proof.
  intros dbg fat prepacked m MM PP. unfold simple_loop, simple_loop_by.
  pose proof (kl_cols_pos Lhs) as Pl. pose proof (kl_cols_pos Rhs) as Pr.
  assert (Al : forall s, pl_cols (plt s) mod kl_cols (kl s) = 0).
  { intros s. rewrite <- (to_kernel T). apply (po_cols_al _ (to_pl T s)). }
  assert (Nn : forall s, 0 <= pl_cols (plt s)) by (intros s; apply (po_cols _ (to_pl T s))).
  assert (Step : forall s m0, tmem_ok m0 ->
     (get s prepacked = true -> forall c, 0 <= c < pl_cols (plt s) -> packed_col m0 s c) ->
     (exists m', (if get s prepacked then Ok m0 else tm_run_pack dbg t s 0 (pl_cols (plt s)) m0) = Ok m' /\ tmem_ok m' /\
        (forall c, 0 <= c < pl_cols (plt s) -> packed_col m' s c) /\
        (forall c, get s prepacked = false -> 0 <= c < pl_cols (plt s) -> exists v, t_sum s c = Ok v) /\
        (forall s' c, 0 <= c -> s' <> s -> packed_col m0 s' c -> packed_col m' s' c) /\
        tm_dst m' = tm_dst m0) \/
     (~ all_defined /\ forall m',
        (if get s prepacked then Ok m0 else tm_run_pack dbg t s 0 (pl_cols (plt s)) m0) <> Ok m')).
  { intros s m0 M0 P0. destruct (get s prepacked) eqn:Ep.
    - left. exists m0. split; [reflexivity|]. split; [exact M0|]. split; [auto|]. split; [discriminate|]. auto.
    - destruct (run_pack_either dbg s 0 (pl_cols (plt s)) m0 M0) as [(m' & E & M' & P' & K' & D')|X]; auto.
      + pose proof (Nn s). lia.
      + lia.
      + left. exists m'. split; [exact E|]. split; [exact M'|]. split; [intros c Hc; apply P'; auto|].
        split; [intros c _ Hc; apply P'; auto|]. split; auto. }
  change (lhs prepacked) with (get Lhs prepacked). change (rhs prepacked) with (get Rhs prepacked).
  cbn [lhs rhs]. change (lhs (tp_packed_layout t)) with (plt Lhs). change (rhs (tp_packed_layout t)) with (plt Rhs).
  destruct (Step Lhs m MM) as [(m1 & E1 & M1 & P1 & S1 & K1 & D1)|[N X]].
  { intros H c Hc. apply PP; auto. }
  2: { right. split; [exact N|]. intros m' E. apply bind_ok_pre in E. destruct E as [q E]. exact (X q E). }
  rewrite E1. cbn [bind].
  destruct (Step Rhs m1 M1) as [(m2 & E2 & M2 & P2 & S2 & K2 & D2)|[N X]].
  { intros H c Hc. apply K1; [lia|discriminate|]. apply PP; auto. }
  2: { right. split; [exact N|]. intros m' E. apply bind_ok_pre in E. destruct E as [q E]. exact (X q E). }
  rewrite E2. cbn [bind].
  assert (PK : forall s c, 0 <= c < pl_cols (plt s) -> packed_col m2 s c).
  { intros [] c Hc; [|auto]. apply K2; [lia|discriminate|]. apply P1. auto. }
  destruct (run_kernel_either dbg fat (mk_sp 0 0) (mk_sp (pl_cols (plt Lhs)) (pl_cols (plt Rhs))) m2 M2)
    as [(m3 & E3 & M3 & EP & D3 & W)|[N X]].
  - intros []; cbn [get lhs rhs]; split; auto; lia.
  - intros []; cbn [get lhs rhs]; lia.
  - intros []; cbn [get lhs rhs]; apply (lo_cols _ (mo_layout _ (to_src T _))).
  - intros []; cbn [get lhs rhs]; apply Z.mod_0_l; lia.
  - intros []; cbn [get lhs rhs]; auto.
  - intros [] c Hc; cbn [get lhs rhs] in Hc; apply PK; auto.
  - pose proof (to_cols T Lhs) as Cl. pose proof (to_cols T Rhs) as Cr.
    pose proof (to_drows T) as Dr. pose proof (to_dcols T) as Dc.
    left. exists m3. split; [exact E3|]. split; [exact M3|]. split; [|split; [|split]].
    + intros [] c Hs Hc; auto.
    + intros i j [Hi Hj]. apply D3; [cbn [lhs]; lia|cbn [rhs]; lia|split; auto].
    + intros s c Hc. unfold packed_col. rewrite EP. apply PK. auto.
    + rewrite <- D1, <- D2. cbn [lhs rhs] in W. eapply written_iff; [|exact W]. unfold inside. intros i j. lia.
  - right. auto.
Qed.

(** ** Preparation *)

(** Bytes of the packed matrices fit and are not zero. *)
Record sizes_ok : Prop := {
  so_data : forall s, 0 < o_data_size o s <= 8;
  so_sums : forall s, 0 < o_sums_size o s;
  so_sums_max : forall s, pl_cols (plt s) * o_sums_size o s <= int_max;
  so_nonempty : forall s, 0 < pl_rows (plt s) /\ 0 < pl_cols (plt s)
}.

Lemma allocate_packed_ok : forall s f fs, sizes_ok ->
  exists p, allocate_packed t s f fs = Ok p /\ pmat_ok p /\ p_layout p = plt s /\ p_zp p = zp s /\ p_sums p <> None.
Proof.
  intros s f fs [S1 S2 S3 S4]. unfold allocate_packed.
  pose proof (to_pl T s) as L. specialize (S1 s). specialize (S2 s). specialize (S3 s). specialize (S4 s).
  fold (plt s). fold o.
  pose proof (po_flat _ L) as F. unfold int_max in *.
  assert (0 < pl_rows (plt s) * pl_cols (plt s)) by (apply Z.mul_pos_pos; lia).
  assert (E : pflat_size (plt s) = Ok (pl_rows (plt s) * pl_cols (plt s))).
  { unfold pflat_size. rewrite (po_order _ L), (po_stride _ L). apply i64_ok. lia. }
  unfold data_bytes, sums_bytes. rewrite E. cbn [bind].
  assert (0 < pl_rows (plt s) * pl_cols (plt s) * o_data_size o s <= 2147483647 * 8).
  { split; [apply Z.mul_pos_pos; lia|]. apply Z.mul_le_mono_nonneg; lia. }
  rewrite i64_ok by lia. cbn [bind]. rewrite (proj2 (Z.eqb_neq _ _)) by lia. cbn [negb rcheck bind].
  assert (0 < pl_cols (plt s) * o_sums_size o s) by (apply Z.mul_pos_pos; lia).
  rewrite i32_ok by (unfold int_min, int_max; lia). cbn [bind].
  rewrite (proj2 (Z.eqb_neq _ 0)) by lia. cbn [negb rcheck bind].
  eexists. split; [reflexivity|]. split; [|repeat split; discriminate].
  constructor; cbn [p_layout p_data p_sums blen]; auto; try lia.
  intros b Hb. injection Hb as <-. cbn. lia.
Qed.

Lemma prepare_ok : forall f fs dst, sizes_ok -> flat (tp_dst_layout t) <= blen dst ->
  exists m, prepare_packed_matrices t f fs dst = Ok m /\ tmem_ok m /\ tm_dst m = dst.
Proof.
  intros f fs dst SZ B. unfold prepare_packed_matrices.
  destruct (allocate_packed_ok Lhs (f Lhs) (fs Lhs) SZ) as (pl & El & P1 & P2 & P3 & P4).
  destruct (allocate_packed_ok Rhs (f Rhs) (fs Rhs) SZ) as (pr & Er & R1 & R2 & R3 & R4).
  rewrite El. cbn [bind]. rewrite Er. cbn [bind]. eexists. split; [reflexivity|]. split; [|reflexivity].
  constructor; auto; intros []; cbn; auto.
Qed.
End TrMul.
Arguments tparams_ok {V}. Arguments sums_ok {V}. Arguments entries_ok {V}. Arguments tmem_ok {V}.
Arguments packed_col {V}. Arguments t_entry {V}. Arguments t_value {V}. Arguments t_sum {V}. Arguments all_defined {V}.
Arguments prepacked_ok {V}. Arguments sums_defined {V}. Arguments sizes_ok {V}.
