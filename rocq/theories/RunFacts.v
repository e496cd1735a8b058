(** The machine of TrMulMachine.v on the buffers of a TrMul. *)
From Verif Require Import Base SidePair SizeUtil SizeUtilFacts BlockMap BlockMapFacts SpecBlockMap MakeBlockMapFacts
  ThreadCount BlockMapProps Mat MatFacts Scalars Pack PackFacts MulParams Kernel KernelFacts TrMul TrMulFacts
  TrMulMachine MachineIdsFacts MachinePackFacts MachineFacts MachineProgressFacts TrMulRun.
From Coq Require Import Permutation.

Section Instance.
Variables (V : Type) (t : tparams V) (dbg fat ahead : bool) (bm : block_map) (prepacked : sp bool).
Let dl := tp_dst_layout t.
Let src s := get s (tp_src t).
Let plt s := get s (tp_packed_layout t).
Let kl s := get s (tp_kl t).

Hypotheses (T : tparams_ok t) (W : bm_wf bm).
Hypothesis Hdims : forall s, get s (bm_dims bm) = pl_cols (plt s).
Hypothesis Hker : forall s, get s (bm_kernel bm) = kl_cols (kl s).
Variable d0 : buf V.

Definition blk_packed (m : tmem V) (sd : side) (b : Z) : Prop :=
  forall c, block_start sd bm b <= c < block_start sd bm (b + 1) ->
    packed_col t m sd c /\ (get sd prepacked = false -> exists v, t_sum t sd c = Ok v).

Definition in_blk (id i j : Z) : Prop :=
  lhs (starts bm id) <= i < lhs (ends bm id) /\ rhs (starts bm id) <= j < rhs (ends bm id).

Record blk_run (ids : list Z) (m : tmem V) : Prop := {
  br_written : written dl (t_value t) (fun i j => inside dl i j /\ exists id, In id ids /\ in_blk id i j) d0 (tm_dst m);
  br_defined : forall id i j, In id ids -> in_blk id i j -> inside dl i j -> t_entry t i j = Ok (t_value t i j);
  br_packed : forall id sd, In id ids -> blk_packed m sd (get sd (block_of_index bm id))
}.

Lemma start_bounds : forall sd b, 0 <= b < nb bm sd ->
  0 <= block_start sd bm b <= block_start sd bm (b + 1) /\ block_start sd bm (b + 1) <= pl_cols (plt sd) /\
  block_start sd bm b <= ml_cols (m_layout (src sd)).
Proof.
  intros sd b Hb. unfold nb in Hb.
  pose proof (block_start_mono bm sd 0 b W ltac:(lia)) as M0. rewrite block_start_0 in M0 by auto.
  pose proof (block_start_mono bm sd b (b + 1) W ltac:(lia)) as M1.
  pose proof (block_start_mono bm sd (b + 1) _ W (conj (ltac:(lia) : 0 <= b + 1) (ltac:(lia) : b + 1 <= 2 ^ (bm_base bm + get sd (bm_rect bm))))) as M2.
  replace (b + 1 - b) with 1 in M1 by lia. rewrite Z.mul_1_l in M1.
  rewrite block_start_last, Hdims in M2 by auto.
  pose proof (wf_small_pos _ W sd) as P. pose proof (wf_small_al _ W sd) as A. pose proof (wf_kernel_pos bm sd W) as K.
  assert (get sd (bm_kernel bm) <= get sd (bm_small bm)).
  { apply Z.divide_pos_le; auto. apply Z.mod_divide; auto. lia. }
  rewrite Hker in *. pose proof (to_cols V t T sd) as C. cbv beta in C. fold (src sd) (plt sd) (kl sd) in C.
  assert (0 <= b * get sd (bm_small bm)) by (apply Z.mul_nonneg_nonneg; lia).
  assert (0 <= (2 ^ (bm_base bm + get sd (bm_rect bm)) - (b + 1)) * get sd (bm_small bm)) by (apply Z.mul_nonneg_nonneg; lia).
  rewrite Z.sub_0_r in M0. lia.
Qed.

Lemma start_aligned : forall sd b, block_start sd bm b mod kl_cols (kl sd) = 0.
Proof. intros sd b. rewrite <- Hker. apply block_start_aligned; auto. Qed.

Lemma Hpack_t : forall sd b m, get sd prepacked = false -> 0 <= b < nb bm sd -> tmem_ok t m ->
  (exists m', tm_run_pack dbg t sd (block_start sd bm b) (block_start sd bm (b + 1)) m = Ok m' /\ tmem_ok t m' /\
    blk_packed m' sd b /\
    (forall sd' b', (sd', b') <> (sd, b) -> 0 <= b' < nb bm sd' -> blk_packed m sd' b' -> blk_packed m' sd' b') /\
    (forall ids, (forall x, In x ids -> 0 <= x < NB bm) -> blk_run ids m -> blk_run ids m')) \/
  (~ all_defined t /\ forall m', tm_run_pack dbg t sd (block_start sd bm b) (block_start sd bm (b + 1)) m <> Ok m').
Proof.
  intros sd b m Hp Hb MM. destruct (start_bounds sd b Hb) as (B1 & B2 & B3).
  destruct (run_pack_either V t T dbg sd _ _ m MM B1 B2 (start_aligned _ _) (start_aligned _ _))
    as [(m' & E & M' & P' & K' & D')|X]; [left|right; exact X].
  exists m'. split; [exact E|]. split; [exact M'|].
  assert (PB : blk_packed m' sd b) by (intros c Hc; destruct (P' c Hc); split; auto).
  assert (PO : forall sd' b', (sd', b') <> (sd, b) -> 0 <= b' < nb bm sd' -> blk_packed m sd' b' -> blk_packed m' sd' b').
  { intros sd' b' N Hb' Q c Hc. destruct (Q c Hc) as [Q1 Q2]. split; [|exact Q2].
    destruct (start_bounds sd' b' Hb') as (B1' & _). apply K'; [lia| |exact Q1].
    destruct (side_eq_dec sd' sd) as [->|N']; [|auto]. right. intros Hc'.
    apply N. f_equal. eapply block_start_disjoint; [exact W| | |exact Hc|exact Hc']; lia. }
  split; [exact PB|]. split; [exact PO|].
  intros ids Hids [R1 R2 R3]. constructor.
  - rewrite D'. exact R1.
  - exact R2.
  - intros id sd' Hin. specialize (R3 id sd' Hin).
    assert (R : 0 <= get sd' (block_of_index bm id) < nb bm sd') by (apply block_range; auto).
    destruct (side_eq_dec sd' sd) as [->|N'].
    + destruct (Z.eq_dec (get sd (block_of_index bm id)) b) as [->|N2]; [exact PB|].
      apply PO; auto. congruence.
    + apply PO; auto. congruence.
Qed.

Lemma in_blk_dec : forall id i j, {in_blk id i j /\ inside dl i j} + {~ (in_blk id i j /\ inside dl i j)}.
Proof.
  intros id i j. unfold in_blk, inside.
  destruct (rect_dec (lhs (starts bm id)) (lhs (ends bm id)) (rhs (starts bm id)) (rhs (ends bm id)) i j) as [A|A];
  destruct (rect_dec 0 (ml_rows dl) 0 (ml_cols dl) i j) as [B|B]; [left|right|right|right]; tauto.
Qed.

Lemma Hkernel_t : forall id m, 0 <= id < NB bm -> tmem_ok t m ->
  (forall sd, blk_packed m sd (get sd (block_of_index bm id))) ->
  (exists m', tm_run_kernel dbg fat t (starts bm id) (ends bm id) m = Ok m' /\ tmem_ok t m' /\
    (forall sd b, blk_packed m sd b -> blk_packed m' sd b) /\
    (forall ids, (forall x, In x ids -> 0 <= x < NB bm) -> blk_run ids m -> blk_run (id :: ids) m')) \/
  (~ all_defined t /\ forall m', tm_run_kernel dbg fat t (starts bm id) (ends bm id) m <> Ok m').
Proof.
  intros id m Hid MM PK.
  assert (BB : forall s, 0 <= get s (block_of_index bm id) < nb bm s) by (intros s; apply block_range; auto).
  destruct (run_kernel_either V t T dbg fat (starts bm id) (ends bm id) m MM) as [(m' & E & M' & EP & D & WR)|X].
  - intros s. rewrite get_starts, get_ends. apply (start_bounds s _ (BB s)).
  - intros s. rewrite get_ends. apply (start_bounds s _ (BB s)).
  - intros s. rewrite get_starts. apply (start_bounds s _ (BB s)).
  - intros s. rewrite get_starts. apply start_aligned.
  - intros s. rewrite get_ends. apply start_aligned.
  - intros s c. rewrite get_starts, get_ends. intros Hc. apply (PK s c Hc).
  - left. exists m'. split; [exact E|]. split; [exact M'|].
    assert (KP : forall sd b, blk_packed m sd b -> blk_packed m' sd b).
    { intros sd b Q c Hc. destruct (Q c Hc) as [Q1 Q2]. split; [|exact Q2]. unfold packed_col. rewrite EP. exact Q1. }
    split; [exact KP|]. intros ids Hids [R1 R2 R3]. constructor.
    + eapply written_trans; [apply (to_dst V t T)|exact R1|exact WR| | | |].
      * intros i j. cbn [In]. unfold in_blk. split.
        -- intros (I & x & [<-|Hx] & B); [right; tauto|left; split; eauto].
        -- intros [(I & x & Hx & B)|(B1 & B2 & I)]; (split; [exact I|]); [exists x; auto|exists id; auto].
      * intros i j (I & _). exact I.
      * intros i j (_ & _ & I). exact I.
      * intros i j. destruct (in_blk_dec id i j) as [[[A1 A2] B]|N]; [left; fold dl; tauto|right].
        intros (A1 & A2 & B). apply N. split; [split; auto|exact B].
    + intros x i j [<-|Hx] B I; [|eapply R2; eauto]. destruct B as [B1 B2]. apply D; auto.
    + intros x sd [<-|Hx]; apply KP; auto.
  - right. exact X.
Qed.

Hypothesis HT : 1 <= threads bm <= NB bm.

Definition minv := inv (tmem V) bm prepacked (tmem_ok t) blk_packed blk_run.
Definition mexec := exec (tm_run_pack dbg t) (tm_run_kernel dbg fat t) dbg ahead bm prepacked.

Lemma minv_init : forall m, tmem_ok t m -> prepacked_ok t prepacked m -> tm_dst m = d0 -> minv (init bm m).
Proof.
  intros m MM PP E. apply inv_init; auto.
  - constructor; try (intros; contradiction). rewrite E. apply written_none. intros i j (_ & x & [] & _).
  - intros sd b Hp Hb c Hc. split; [|congruence]. destruct (start_bounds sd b Hb) as (B1 & B2 & _).
    apply PP; auto. change (0 <= c < pl_cols (plt sd)). lia.
Qed.

Lemma mexec_inv : forall sched s s', minv s -> mexec sched s = Ok s' -> minv s'.
Proof. intros sched s s'. apply exec_inv with (TOT := all_defined t); auto using Hpack_t, Hkernel_t. Qed.

Lemma mexec_ok : all_defined t -> forall sched s, minv s -> exists s', mexec sched s = Ok s' /\ minv s'.
Proof. intros D. apply exec_ok with (TOT := all_defined t); auto using Hpack_t, Hkernel_t. Qed.

Lemma mstep_ok : all_defined t -> forall i stale s, minv s ->
  exists s', step (tm_run_pack dbg t) (tm_run_kernel dbg fat t) dbg ahead bm prepacked i stale s = Ok s' /\ minv s'.
Proof. intros D. apply step_total with (TOT := all_defined t); auto using Hpack_t, Hkernel_t. Qed.

(** The product is complete in [m']. *)
Record finished (m m' : tmem V) : Prop := {
  fi_mem : tmem_ok t m';
  fi_sums : sums_defined t prepacked;
  fi_entries : forall i j, inside dl i j -> t_entry t i j = Ok (t_value t i j);
  fi_packed : forall s c, 0 <= c < pl_cols (plt s) -> packed_col t m' s c;
  fi_dst : written dl (t_value t) (inside dl) (tm_dst m) (tm_dst m')
}.

Lemma in_some_block : forall i j, 0 <= i < pl_cols (plt Lhs) -> 0 <= j < pl_cols (plt Rhs) ->
  exists id, 0 <= id < NB bm /\ in_blk id i j.
Proof.
  intros i j Hi Hj.
  destruct (block_start_covers bm Lhs i W) as (bl & Hl & Bl); [rewrite Hdims; auto|].
  destruct (block_start_covers bm Rhs j W) as (br & Hr & Br); [rewrite Hdims; auto|].
  destruct (block_of_index_surj bm bl br W Hl Hr) as (id & Hid & E).
  exists id. split; [exact Hid|]. unfold in_blk, starts, ends. rewrite E. cbn [lhs rhs]. auto.
Qed.

Lemma minv_final : forall m s, (forall sd, 0 < pl_cols (plt sd)) -> tm_dst m = d0 ->
  minv s -> all_done bm s = true -> finished m (s_mem s).
Proof.
  intros m s Pos E I D.
  pose proof (final_ok _ bm prepacked _ _ _ HT s I D) as P.
  destruct (iv_kr _ _ _ _ _ _ _ I) as [R1 R2 R3].
  assert (IN : forall id, 0 <= id < NB bm -> In id (map snd (s_ran s))).
  { intros id Hid. apply Permutation_in with (l := zrange 0 (NB bm)); [symmetry; exact P|]. apply zrange_In. auto. }
  pose proof (to_cols V t T Lhs) as Cl. pose proof (to_cols V t T Rhs) as Cr.
  pose proof (to_drows V t T) as Dr. pose proof (to_dcols V t T) as Dc.
  cbv beta in Cl, Cr, Dr, Dc. fold (plt Lhs) in Cl. fold (plt Rhs) in Cr. fold dl in Dr, Dc.
  assert (COV : forall i j, inside dl i j -> exists id, In id (map snd (s_ran s)) /\ in_blk id i j).
  { intros i j [Hi Hj]. destruct (in_some_block i j) as (id & Hid & B).
    - lia.
    - lia.
    - exists id. split; auto. }
  assert (PKD : forall sd c, 0 <= c < pl_cols (plt sd) ->
     packed_col t (s_mem s) sd c /\ (get sd prepacked = false -> exists v, t_sum t sd c = Ok v)).
  { intros sd c Hc.
    assert (X : exists id, 0 <= id < NB bm /\ block_start sd bm (get sd (block_of_index bm id)) <= c <
                block_start sd bm (get sd (block_of_index bm id) + 1)).
    { destruct sd.
      - destruct (in_some_block c 0 Hc ltac:(pose proof (Pos Rhs); lia)) as (id & Hid & [B _]). exists id. split; auto.
      - destruct (in_some_block 0 c ltac:(pose proof (Pos Lhs); lia) Hc) as (id & Hid & [_ B]). exists id. split; auto. }
    destruct X as (id & Hid & B). apply (R3 id sd (IN id Hid) c B). }
  constructor.
  - apply (iv_mem _ _ _ _ _ _ _ I).
  - intros sd c Hp Hc. apply (PKD sd c Hc); auto.
  - intros i j Hin. destruct (COV i j Hin) as (id & Hid & B). eapply R2; eauto.
  - intros sd c Hc. apply (PKD sd c Hc).
  - rewrite E. eapply written_iff; [|exact R1]. intros i j. split; [tauto|]. intros Hin. split; auto.
Qed.

(** Fair schedules finish. *)
Lemma fair_finishes : forall m sg N0, all_defined t -> tmem_ok t m -> prepacked_ok t prepacked m -> tm_dst m = d0 ->
  (forall i n, 0 <= i < threads bm -> exists k, (n <= k)%nat /\ fst (sg k) = i) ->
  (forall n, (N0 <= n)%nat -> snd (sg n) = false) ->
  exists n s, mexec (map sg (seq 0 n)) (init bm m) = Ok s /\ minv s /\ all_done bm s = true.
Proof.
  intros m sg N0 D MM PP E FA VI. pose proof (minv_init m MM PP E) as I0.
  destruct (fair_terminates (tmem V) (tm_run_pack dbg t) (tm_run_kernel dbg fat t) dbg ahead bm prepacked
    (tmem_ok t) blk_packed blk_run (mstep_ok D) sg (init bm m) I0 FA N0 VI) as (n & Hn).
  eexists n, _. split; [|split; [|exact Hn]].
  - apply (st_exec (tmem V) (tm_run_pack dbg t) (tm_run_kernel dbg fat t) dbg ahead bm prepacked
    (tmem_ok t) blk_packed blk_run (mstep_ok D) sg (init bm m) I0).
  - apply (st_inv (tmem V) (tm_run_pack dbg t) (tm_run_kernel dbg fat t) dbg ahead bm prepacked
    (tmem_ok t) blk_packed blk_run (mstep_ok D) sg (init bm m) I0).
Qed.
End Instance.
Arguments finished {V}.

(** * TrMul *)

(** The block map can be built for every thread count up to the limit. *)
Record trmul_domain {V} (c : config) (t : tparams V) : Prop := {
  td_max : 1 <= c_max_threads c <= int_max;
  td_src : forall s, 1 <= o_src_size (tp_ops t) s <= o_data_size (tp_ops t) s;
  td_bm : forall n, 1 <= n <= c_max_threads c ->
    bm_domain (pl_cols (lhs (tp_packed_layout t))) (pl_cols (rhs (tp_packed_layout t)))
      (ml_rows (m_layout (lhs (tp_src t)))) (kl_cols (lhs (tp_kl t))) (kl_cols (rhs (tp_kl t)))
      (o_data_size (tp_ops t) Lhs) (o_data_size (tp_ops t) Rhs) n (c_cache c)
}.

Section TrMulRun.
Variables (V : Type) (c : config) (t : tparams V) (prepacked : sp bool).
Hypotheses (T : tparams_ok t) (D : trmul_domain c t).

Lemma decision_ok : exists n,
  get_tentative_thread_count (c_dbg c) (c_strategy c) (c_max_threads c) (ml_cols (m_layout (lhs (tp_src t))))
    (ml_cols (m_layout (rhs (tp_src t)))) (ml_rows (m_layout (lhs (tp_src t)))) = Ok n /\ 1 <= n <= c_max_threads c /\
  exists b, get_use_simple_loop (c_opts c) n (ml_cols (m_layout (lhs (tp_src t))))
    (ml_cols (m_layout (rhs (tp_src t)))) (ml_rows (m_layout (lhs (tp_src t))))
    (o_src_size (tp_ops t) Lhs) (o_src_size (tp_ops t) Rhs) (c_cache c) = Ok b.
Proof.
  destruct D as [D1 D3 D2]. pose proof (D3 Lhs) as Dl. pose proof (D3 Rhs) as Drr. pose proof (D2 1 ltac:(lia)) as B.
  pose proof (to_cols V t T Lhs) as Cl. pose proof (to_cols V t T Rhs) as Cr. cbn [get] in Cl, Cr.
  pose proof (to_drows V t T) as Dr. pose proof (to_dcols V t T) as Dc. cbn [get] in Dr, Dc.
  pose proof (to_dst V t T) as L.
  pose proof (lo_rows _ L) as L1. pose proof (lo_cols _ L) as L2. pose proof (lo_stride _ L) as L3.
  pose proof (lo_flat _ L) as L4.
  pose proof (dom_depth _ _ _ _ _ _ _ _ _ B) as B1.
  pose proof (dom_bytes _ _ _ _ _ _ _ _ _ B) as B2.
  pose proof (dom_lhs_size _ _ _ _ _ _ _ _ _ B) as B3.
  pose proof (dom_rhs_size _ _ _ _ _ _ _ _ _ B) as B4.
  pose proof (dom_rows _ _ _ _ _ _ _ _ _ B) as B5.
  pose proof (dom_cols _ _ _ _ _ _ _ _ _ B) as B6.
  rewrite Dr, Dc in *.
  set (rows := ml_cols (m_layout (lhs (tp_src t)))) in *. set (cols := ml_cols (m_layout (rhs (tp_src t)))) in *.
  set (depth := ml_rows (m_layout (lhs (tp_src t)))) in *.
  set (ls := o_data_size (tp_ops t) Lhs) in *. set (rs := o_data_size (tp_ops t) Rhs) in *.
  set (ls' := o_src_size (tp_ops t) Lhs) in *. set (rs' := o_src_size (tp_ops t) Rhs) in *.
  set (pr := pl_cols (lhs (tp_packed_layout t))) in *. set (pc := pl_cols (rhs (tp_packed_layout t))) in *.
  assert (RC : rows * cols <= int_max).
  { destruct (ml_order (tp_dst_layout t)); rewrite ?Dr, ?Dc in *.
    - eapply Z.le_trans; [|exact L4]. apply Z.mul_le_mono_nonneg_r; lia.
    - eapply Z.le_trans; [|exact L4]. rewrite Z.mul_comm. apply Z.mul_le_mono_nonneg_r; lia. }
  assert (0 <= rows * cols) by (apply Z.mul_nonneg_nonneg; lia).
  assert (SB : (ls' * rows + rs' * cols) * depth <= int_max).
  { eapply Z.le_trans; [|exact B2]. apply Z.mul_le_mono_nonneg_r; [lia|].
    apply Z.add_le_mono; apply Z.mul_le_mono_nonneg; lia. }
  assert (DD : depth <= int_max).
  { eapply Z.le_trans; [|exact B2]. rewrite <- (Z.mul_1_l depth) at 1. apply Z.mul_le_mono_nonneg_r; [lia|].
    assert (1 * 1 <= ls * pr) by (apply Z.mul_le_mono_nonneg; lia).
    assert (1 * 1 <= rs * pc) by (apply Z.mul_le_mono_nonneg; lia). lia. }
  assert (RCD : rows * cols * depth <= int_max * int_max) by (apply Z.mul_le_mono_nonneg; lia).
  unfold int_max in *.
  destruct (tentative_bounds (c_dbg c) (c_strategy c) (c_max_threads c) rows cols depth) as (n & En & Hn & _);
    unfold int_max; try lia.
  exists n. split; [exact En|]. split; [exact Hn|]. unfold get_use_simple_loop.
  destruct (n =? 1); [|eauto]. unfold is_obviously_linear. destruct ((rows =? 1) || (cols =? 1)); [eauto|].
  destruct (traversal_order_ok (c_opts c) rows cols depth ls' rs' (c_cache c)) as (o & ->); try lia; eauto.
  cbn [bind]. eauto.
Qed.

Lemma block_map_ok : forall n, 1 <= n <= c_max_threads c ->
  exists bm, make_block_map (c_dbg c) (c_opts c)
            (pl_cols (lhs (tp_packed_layout t))) (pl_cols (rhs (tp_packed_layout t))) (ml_rows (m_layout (lhs (tp_src t))))
            (kl_cols (lhs (tp_kl t))) (kl_cols (rhs (tp_kl t))) (o_data_size (tp_ops t) Lhs) (o_data_size (tp_ops t) Rhs)
            n (c_cache c) = Ok bm /\ bm_wf bm /\
    (forall s, get s (bm_dims bm) = pl_cols (get s (tp_packed_layout t))) /\
    (forall s, get s (bm_kernel bm) = kl_cols (get s (tp_kl t))) /\
    1 <= threads bm <= NB bm /\ threads bm <= n.
Proof.
  intros n Hn. pose proof (td_bm _ _ D n Hn) as B.
  destruct (make_block_map_ok (c_dbg c) (c_opts c) _ _ _ _ _ _ _ _ _ B) as (bm & E & W & E1 & E2 & E3 & E4 & _).
  exists bm. split; [exact E|]. split; [exact W|]. split; [|split].
  - intros s. rewrite E1. destruct s; reflexivity.
  - intros s. rewrite E2. destruct s; reflexivity.
  - unfold threads. rewrite E4. fold (NB bm). pose proof (pow2_pos (2 * bm_base bm + lhs (bm_rect bm) + rhs (bm_rect bm))) as P.
    pose proof (wf_base _ W). pose proof (wf_rect _ W Lhs). pose proof (wf_rect _ W Rhs). cbn [get] in *.
    specialize (P ltac:(lia)). fold (NB bm) in P. lia.
Qed.

Lemma packed_pos : forall s, 0 < pl_cols (get s (tp_packed_layout t)).
Proof.
  pose proof (td_bm _ _ D 1 ltac:(pose proof (td_max _ _ D); lia)) as B.
  intros []; [apply (dom_rows _ _ _ _ _ _ _ _ _ B)|apply (dom_cols _ _ _ _ _ _ _ _ _ B)].
Qed.

Lemma trmul_partial : forall sched m out, tmem_ok t m -> prepacked_ok t prepacked m ->
  trmul c t prepacked sched m = Ok out -> forall m', out = Some m' -> finished t prepacked m m'.
Proof.
  intros sched m out MM PP E m' ->. unfold trmul, trmul_by in E.
  destruct decision_ok as (n & En & Hn & b & Eb). rewrite En in E. cbn [bind] in E. rewrite Eb in E. cbn [bind] in E. fold (simple_loop (c_dbg c) (c_fat c) prepacked t m) in E.
  destruct b.
  - destruct (simple_loop_either V t T (c_dbg c) (c_fat c) prepacked m MM PP) as [(m1 & E1 & M1 & S1 & D1 & P1 & W1)|[N X]].
    + rewrite E1 in E. cbn [bind] in E. injection E as <-. constructor; auto.
    + apply bind_ok_pre in E. destruct E as [q E]. destruct (X q E).
  - destruct (block_map_ok n Hn) as (bm & Ebm & W & Hd & Hk & HT & _). rewrite Ebm in E. cbn [bind] in E.
    match type of E with bind ?x _ = _ => destruct x as [s| |] eqn:Es; cbn [bind] in E; try discriminate end.
    destruct (all_done bm s) eqn:Ed; [|discriminate]. injection E as <-.
    pose proof (minv_init V t bm prepacked T W Hd Hk (tm_dst m) HT m MM PP eq_refl) as I0.
    pose proof (mexec_inv V t (c_dbg c) (c_fat c) (c_ahead c) bm prepacked T W Hd Hk (tm_dst m) HT _ _ _ I0 Es) as I.
    apply (minv_final V t bm prepacked T W Hd (tm_dst m) HT m s packed_pos eq_refl I Ed).
Qed.

Lemma trmul_total : all_defined t -> forall sched m, tmem_ok t m -> prepacked_ok t prepacked m ->
  exists out, trmul c t prepacked sched m = Ok out.
Proof.
  intros AD sched m MM PP. unfold trmul, trmul_by.
  destruct decision_ok as (n & En & Hn & b & Eb). rewrite En. cbn [bind]. rewrite Eb. cbn [bind]. fold (simple_loop (c_dbg c) (c_fat c) prepacked t m).
  destruct b.
  - destruct (simple_loop_either V t T (c_dbg c) (c_fat c) prepacked m MM PP) as [(m1 & E1 & _)|[N X]]; [|contradiction].
    rewrite E1. cbn [bind]. eauto.
  - destruct (block_map_ok n Hn) as (bm & Ebm & W & Hd & Hk & HT & _). rewrite Ebm. cbn [bind].
    pose proof (minv_init V t bm prepacked T W Hd Hk (tm_dst m) HT m MM PP eq_refl) as I0.
    destruct (mexec_ok V t (c_dbg c) (c_fat c) (c_ahead c) bm prepacked T W Hd Hk (tm_dst m) HT AD sched _ I0) as (s & Es & _).
    unfold mexec in Es. rewrite Es. cbn [bind]. eauto.
Qed.

Lemma trmul_fair : all_defined t -> forall sg N0 m, tmem_ok t m -> prepacked_ok t prepacked m ->
  (forall i n, 0 <= i < c_max_threads c -> exists k, (n <= k)%nat /\ fst (sg k) = i) ->
  (forall n, (N0 <= n)%nat -> snd (sg n) = false) ->
  exists n m', trmul c t prepacked (map sg (seq 0 n)) m = Ok (Some m').
Proof.
  intros AD sg N0 m MM PP FA VI. unfold trmul, trmul_by.
  destruct decision_ok as (n & En & Hn & b & Eb). rewrite En. cbn [bind]. rewrite Eb. cbn [bind]. fold (simple_loop (c_dbg c) (c_fat c) prepacked t m).
  destruct b.
  - destruct (simple_loop_either V t T (c_dbg c) (c_fat c) prepacked m MM PP) as [(m1 & E1 & _)|[N X]]; [|contradiction].
    exists O. rewrite E1. cbn [bind]. eauto.
  - destruct (block_map_ok n Hn) as (bm & Ebm & W & Hd & Hk & HT & HTn). rewrite Ebm. cbn [bind].
    destruct (fair_finishes V t (c_dbg c) (c_fat c) (c_ahead c) bm prepacked T W Hd Hk (tm_dst m) HT m sg N0 AD MM PP eq_refl)
      as (k & s & Es & I & Ed); auto.
    { intros i j Hi. apply FA. lia. }
    exists k. unfold mexec in Es. rewrite Es. cbn [bind]. rewrite Ed. eauto.
Qed.
End TrMulRun.
