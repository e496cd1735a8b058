(** Progress of the TrMul machine: a bounded amount of work, no deadlock, and
    termination of every fair execution. *)
From Verif Require Import Base SidePair SizeUtilFacts BlockMap BlockMapFacts TrMulMachine
  MachineIdsFacts MachinePackFacts MachineFacts.
From Coq Require Import Permutation.

Fixpoint tsum (f : Z -> Z) (l : list Z) : Z :=
  match l with [] => 0 | x :: r => f x + tsum f r end.

Lemma tsum_ext : forall f g l, (forall x, In x l -> f x = g x) -> tsum f l = tsum g l.
Proof. induction l; intros H; cbn [tsum]; auto. rewrite H by (left; auto). rewrite IHl; auto. intros; apply H; right; auto. Qed.
Lemma tsum_nonneg : forall f l, (forall x, 0 <= f x) -> 0 <= tsum f l.
Proof. induction l; intros H; cbn [tsum]; [lia|]. specialize (IHl H). specialize (H a). lia. Qed.
Lemma tsum_upd : forall (g : pc -> Z) (pcs : Z -> pc) i p l, NoDup l -> In i l ->
  tsum (fun j => g (upd pcs i p j)) l = tsum (fun j => g (pcs j)) l - g (pcs i) + g p.
Proof.
  induction l as [|a l IH]; intros ND HI; [contradiction|].
  inversion ND; subst. cbn [tsum]. destruct (Z.eq_dec a i) as [->|N].
  - rewrite upd_same. rewrite (tsum_ext _ (fun j => g (pcs j)) l); [lia|].
    intros x Hx. rewrite upd_other; auto. intros ->. contradiction.
  - rewrite upd_other by auto. destruct HI as [->|HI]; [congruence|]. rewrite IH by auto. lia.
Qed.

(** Weight of a program counter in the amount of remaining work. *)
Definition wt (p : pc) : Z :=
  match p with PStore _ _ _ => 2 | PDone => 0 | _ => 1 end.
(** Distance to the next piece of work, when nobody else is packing. *)
Definition base_pos (tg : target) (r : ret) : Z :=
  match r, tg_side tg with
  | RMain true, Rhs => 10
  | RMain true, Lhs => 20
  | RAhead, _ => 30
  | RMain false, Rhs => 40
  | RMain false, Lhs => 50
  end.
Definition pos (p : pc) : Z :=
  match p with
  | PTry _ tg r => base_pos tg r
  | PPack _ tg r => base_pos tg r - 1
  | PStore _ tg r => base_pos tg r - 2
  | PKernel _ => 2
  | PLoop _ => 1
  | PDone => 0
  end.

Lemma base_pos_range : forall tg r, 10 <= base_pos tg r <= 50.
Proof. intros tg [[]|]; unfold base_pos; destruct (tg_side tg); lia. Qed.
Lemma pos_nonneg : forall p, 0 <= pos p.
Proof. intros []; cbn [pos]; try lia; pose proof (base_pos_range tg r); lia. Qed.
Lemma wt_nonneg : forall p, 0 <= wt p.
Proof. intros []; cbn [wt]; lia. Qed.

Section Machine.
Variable M : Type.
Variable run_pack : side -> Z -> Z -> M -> res M.
Variable run_kernel : sp Z -> sp Z -> M -> res M.
Variables (dbg ahead : bool) (bm : block_map) (prepacked : sp bool).
Variable MO : M -> Prop.
Variable PB : M -> side -> Z -> Prop.
Variable KR : list Z -> M -> Prop.
Let T := threads bm.
Let tid (i : Z) : Prop := 0 <= i < T.
Let nb := nb bm.
Let NB := NB bm.
Let inv := inv M bm prepacked MO PB KR.
Let stepf := step run_pack run_kernel dbg ahead bm prepacked.

(** Remaining work. *)
Definition work_left (s : mst M) : Z :=
  (NB - Z.of_nat (length (s_begun s))) + (NB - Z.of_nat (length (s_ran s))) +
  2 * (nb Lhs + nb Rhs - Z.of_nat (length (s_packs s))) +
  tsum (fun i => wt (s_pc s i)) (zrange 0 T).
Definition pos_sum (s : mst M) : Z := tsum (fun i => pos (s_pc s i)) (zrange 0 T).

Lemma nodup_range_length : forall l n, NoDup l -> (forall x, In x l -> 0 <= x < n) -> Z.of_nat (length l) <= Z.max 0 n.
Proof.
  intros l n ND H.
  assert (IC : incl l (zrange 0 n)) by (intros x Hx; apply zrange_In; auto).
  pose proof (NoDup_incl_length ND IC) as L. rewrite zrange_length in L. lia.
Qed.

Lemma nodup_pairs_length : forall (l : list (side * Z)) n, NoDup l -> (forall sd b, In (sd, b) l -> 0 <= b < n sd) ->
  0 <= n Lhs -> 0 <= n Rhs -> Z.of_nat (length l) <= n Lhs + n Rhs.
Proof.
  intros l n ND H HL HR.
  set (all := map (pair Lhs) (zrange 0 (n Lhs)) ++ map (pair Rhs) (zrange 0 (n Rhs))).
  assert (IC : incl l all).
  { intros [[] b] Hx; specialize (H _ _ Hx); unfold all; apply in_or_app; [left|right]; apply in_map, zrange_In; auto. }
  pose proof (NoDup_incl_length ND IC) as L. unfold all in L. rewrite app_length, !map_length, !zrange_length in L. lia.
Qed.

Lemma pow_nonneg' : forall e, 0 <= 2 ^ e.
Proof. intros; apply Z.pow_nonneg; lia. Qed.

Lemma work_left_nonneg : forall s, inv s -> 0 <= work_left s.
Proof.
  intros s I. unfold work_left. pose proof (iv_ids _ _ _ _ _ _ _ I) as II. pose proof (iv_pack _ _ _ _ _ _ _ I) as PI.
  pose proof (nodup_range_length (s_begun s) NB (ii_begun_nodup _ _ _ _ _ _ II)) as L1.
  pose proof (nodup_range_length (map snd (s_ran s)) NB (ii_ran_nodup _ _ _ _ _ _ II)) as L2.
  rewrite map_length in L2.
  assert (0 <= NB) by apply pow_nonneg'.
  assert (Z.of_nat (length (s_begun s)) <= NB).
  { rewrite Z.max_r in L1 by auto. apply L1. intros x Hx. apply (ii_begun_range _ _ _ _ _ _ II); auto. }
  assert (Z.of_nat (length (s_ran s)) <= NB).
  { rewrite Z.max_r in L2 by auto. apply L2. intros x Hx.
    apply (ii_begun_range _ _ _ _ _ _ II). apply (ii_ran_begun _ _ _ _ _ _ II); auto. }
  pose proof (nodup_pairs_length (map snd (s_packs s)) nb (pi_packs_nodup _ _ _ _ _ _ _ PI)) as L3.
  rewrite map_length in L3.
  assert (Z.of_nat (length (s_packs s)) <= nb Lhs + nb Rhs).
  { apply L3; try apply pow_nonneg'. intros sd b Hx. apply (pi_packs _ _ _ _ _ _ _ PI) in Hx.
    apply (pi_written _ _ _ _ _ _ _ PI _ _ Hx). }
  pose proof (tsum_nonneg (fun i => wt (s_pc s i)) (zrange 0 T) (fun i => wt_nonneg _)). lia.
Qed.

(** The result of one call of TryPack that does not fail on an operand of the current block. *)
Lemma after_try_pos : forall w tg r ok p, after_try dbg ahead bm w tg r ok = Ok p ->
  (ok = true \/ r <> RMain true) -> pos p <= base_pos tg r - 8 /\ wt p = 1 /\ held p = None.
Proof.
  intros w tg r ok p. unfold after_try. destruct r as [both|].
  - destruct (tg_side tg) eqn:Es.
    + intros E H. inversion E; subst p. cbn [pos wt held base_pos main_target tg_side]. unfold base_pos. rewrite Es.
      destruct both, ok; cbn [andb]; destruct H; try congruence; repeat split; lia.
    + destruct (both && ok) eqn:Eb.
      * apply andb_prop in Eb. destruct Eb as [-> ->]. intros E H. inversion E; subst p.
        cbn [pos wt held]. unfold base_pos. rewrite Es. repeat split; lia.
      * intros E H. assert (both = false).
        { destruct both; auto. destruct H as [->|H]; [discriminate|congruence]. }
        subst both. unfold base_pos. rewrite Es. destruct ahead.
        -- destruct (num_blocks_per_side (w_ahead_side w) bm) as [n| |]; try discriminate. cbn [bind] in E.
           destruct (n <=? get (w_ahead_side w) (w_ahead w)).
           ++ inversion E; subst p. cbn [pos wt held base_pos main_target tg_side]. repeat split; lia.
           ++ destruct (get_block_matrix_coords dbg (w_ahead_side w) bm (get (w_ahead_side w) (w_ahead w))) as [[st en]| |]; try discriminate.
              cbn [bind] in E. destruct (i32 (get (w_ahead_side w) (w_ahead w) + 1)); try discriminate. cbn [bind] in E.
              inversion E; subst p. cbn [pos wt held base_pos main_target tg_side]. repeat split; lia.
        -- inversion E; subst p. cbn [pos wt held base_pos main_target tg_side]. repeat split; lia.
  - intros E H. inversion E; subst p. cbn [pos wt held base_pos main_target tg_side]. repeat split; lia.
Qed.

Lemma after_try_wt : forall w tg r ok p, after_try dbg ahead bm w tg r ok = Ok p -> wt p = 1 /\ held p = None.
Proof.
  intros w tg r ok p. unfold after_try. destruct r as [both|].
  - destruct (tg_side tg).
    + intros E. inversion E; subst p. auto.
    + destruct (both && ok); [intros E; inversion E; subst p; auto|]. destruct ahead.
      * destruct (num_blocks_per_side (w_ahead_side w) bm) as [n| |]; try discriminate. cbn [bind].
        destruct (n <=? get (w_ahead_side w) (w_ahead w)); [intros E; inversion E; subst p; auto|].
        destruct (get_block_matrix_coords dbg (w_ahead_side w) bm (get (w_ahead_side w) (w_ahead w))) as [[st en]| |]; try discriminate.
        cbn [bind]. destruct (i32 (get (w_ahead_side w) (w_ahead w) + 1)); try discriminate. cbn [bind].
        intros E; inversion E; subst p; auto.
      * intros E; inversion E; subst p; auto.
  - intros E; inversion E; subst p; auto.
Qed.

Definition waits (s : mst M) (i : Z) : Prop :=
  exists w tg r, s_pc s i = PTry w tg r /\ s_status s (tg_side tg) (tg_block tg) = InProgress.

(** What one step does to the amount of work. *)
Inductive progress (s s' : mst M) (i : Z) (stale : bool) : Prop :=
| pr_idle : (~ tid i \/ s_pc s i = PDone) -> s' = s -> progress s s' i stale
| pr_work : (match s_pc s i with PTry _ _ _ | PDone => False | _ => True end) ->
    work_left s' = work_left s - 1 -> progress s s' i stale
| pr_start : tid i -> (match s_pc s i with PTry _ _ _ => True | _ => False end) ->
    work_left s' = work_left s -> held (s_pc s' i) <> None -> progress s s' i stale
| pr_test : (match s_pc s i with PTry _ _ _ => True | _ => False end) ->
    work_left s' = work_left s -> pos_sum s' < pos_sum s ->
    (forall j, tid j -> held (s_pc s j) = None -> held (s_pc s' j) = None) -> progress s s' i stale
| pr_spin : (match s_pc s i with PTry _ _ _ => True | _ => False end) ->
    work_left s' = work_left s ->
    (stale = true \/ (need_atomics bm = true /\ exists sd b, s_status s sd b = InProgress)) ->
    progress s s' i stale.

Lemma step_progress : forall s s' i stale, stepf i stale s = Ok s' ->
  progress s s' i stale /\ (forall j, j <> i -> s_pc s' j = s_pc s j).
Proof.
  intros s s' i stale E. unfold stepf, step in E. fold T in E.
  destruct ((0 <=? i) && (i <? T)) eqn:Et.
  2: { inversion E; subst s'. split; auto. apply pr_idle; auto. left. unfold tid. lia. }
  assert (HI : In i (zrange 0 T)) by (apply zrange_In; lia).
  assert (SUM : forall g p, tsum (fun j => g (upd (s_pc s) i p j)) (zrange 0 T) =
            tsum (fun j => g (s_pc s j)) (zrange 0 T) - g (s_pc s i) + g p).
  { intros g p. apply tsum_upd; auto using zrange_NoDup. }
  destruct (s_pc s i) eqn:EP.
  - (* PLoop *)
    destruct (num_blocks bm) as [n| |]; try discriminate. cbn [bind] in E.
    destruct (block_id <? n).
    + unfold begin_block in E.
      destruct (get_block_by_index bm block_id) as [blk| |]; try discriminate. cbn [bind] in E.
      destruct (get_block_coords dbg bm blk) as [[st en]| |]; try discriminate. cbn [bind] in E.
      destruct (i32 (lhs blk + 1)); try discriminate. cbn [bind] in E.
      destruct (i32 (rhs blk + 1)); try discriminate. cbn [bind] in E.
      inversion E; subst s'. split; [|intros; cbn; apply upd_other; auto].
      apply pr_work; [rewrite EP; auto|]. unfold work_left. cbn [s_begun s_ran s_packs s_pc length].
      rewrite SUM. cbn [wt]. lia.
    + inversion E; subst s'. split; [|intros; cbn; apply upd_other; auto].
      apply pr_work; [rewrite EP; auto|]. unfold work_left. cbn [set_pc s_begun s_ran s_packs s_pc length].
      rewrite SUM. cbn [wt]. lia.
  - (* PTry *)
    assert (RET : forall s1 ok, return_from_try dbg ahead bm s1 i w tg r ok = Ok s' ->
      s_pc s1 = s_pc s -> s_begun s1 = s_begun s -> s_ran s1 = s_ran s -> s_packs s1 = s_packs s ->
      exists p, after_try dbg ahead bm w tg r ok = Ok p /\ s_pc s' = upd (s_pc s) i p /\
        work_left s' = work_left s).
    { intros s1 ok F E1 E2 E3 E4. unfold return_from_try in F.
      destruct (after_try dbg ahead bm w tg r ok) as [p| |] eqn:EA; try discriminate. cbn [bind] in F.
      inversion F; subst s'. exists p. split; auto. cbn [set_pc s_pc]. rewrite E1. split; auto.
      destruct (after_try_wt _ _ _ _ _ EA) as [WT _].
      unfold work_left. cbn [set_pc s_begun s_ran s_packs s_pc]. rewrite E1, E2, E3, E4, SUM, WT. cbn [wt]. lia. }
    assert (TEST : forall s1 ok, return_from_try dbg ahead bm s1 i w tg r ok = Ok s' ->
      s_pc s1 = s_pc s -> s_begun s1 = s_begun s -> s_ran s1 = s_ran s -> s_packs s1 = s_packs s ->
      (ok = true \/ r <> RMain true) ->
      progress s s' i stale /\ (forall j, j <> i -> s_pc s' j = s_pc s j)).
    { intros s1 ok F E1 E2 E3 E4 OK. destruct (RET s1 ok F E1 E2 E3 E4) as (p & EA & EPC & EW).
      destruct (after_try_pos _ _ _ _ _ EA OK) as (PS & WT & HD).
      split; [|intros; rewrite EPC; apply upd_other; auto].
      apply pr_test; auto; [rewrite EP; auto| |].
      - unfold pos_sum. rewrite EPC, SUM. cbn [pos]. lia.
      - intros j Hj H. rewrite EPC. destruct (Z.eq_dec j i) as [->|N]; [rewrite upd_same; auto|rewrite upd_other; auto]. }
    assert (SPIN : forall s1, return_from_try dbg ahead bm s1 i w tg r false = Ok s' ->
      s_pc s1 = s_pc s -> s_begun s1 = s_begun s -> s_ran s1 = s_ran s -> s_packs s1 = s_packs s ->
      (stale = true \/ (need_atomics bm = true /\ exists sd b, s_status s sd b = InProgress)) ->
      progress s s' i stale /\ (forall j, j <> i -> s_pc s' j = s_pc s j)).
    { intros s1 F E1 E2 E3 E4 ST. destruct (RET s1 false F E1 E2 E3 E4) as (p & EA & EPC & EW).
      split; [|intros; rewrite EPC; apply upd_other; auto].
      apply pr_spin; auto. rewrite EP; auto. }
    destruct (get (tg_side tg) prepacked); [eapply TEST; eauto|].
    destruct (num_blocks_per_side (tg_side tg) bm) as [n| |]; try discriminate. cbn [bind] in E.
    destruct (negb ((0 <=? tg_block tg) && (tg_block tg <? n))); try discriminate.
    destruct (s_local s i (tg_side tg) (tg_block tg)); [eapply TEST; eauto|].
    assert (START : forall s1, s_pc s1 = s_pc s -> s_begun s1 = s_begun s -> s_ran s1 = s_ran s -> s_packs s1 = s_packs s ->
      Ok (set_pc s1 i (PPack w tg r)) = Ok s' ->
      progress s s' i stale /\ (forall j, j <> i -> s_pc s' j = s_pc s j)).
    { intros s1 E1 E2 E3 E4 F. inversion F; subst s'. split; [|intros; cbn [set_pc s_pc]; rewrite E1; apply upd_other; auto].
      apply pr_start; [apply zrange_In; auto|rewrite EP; auto| |].
      - unfold work_left. cbn [set_pc s_begun s_ran s_packs s_pc]. rewrite E1, E2, E3, E4, SUM. cbn [wt]. lia.
      - cbn [set_pc s_pc]. rewrite upd_same. discriminate. }
    destruct (need_atomics bm) eqn:En; [|eapply START; eauto].
    destruct (s_status s (tg_side tg) (tg_block tg)) eqn:Est.
    + eapply START; [..|exact E]; reflexivity.
    + eapply SPIN; eauto.
    + destruct (stale && negb (s_seen s i (tg_side tg) (tg_block tg))) eqn:Es.
      * apply andb_prop in Es. destruct Es as [-> _]. eapply SPIN; eauto.
      * eapply TEST; eauto.
  - (* PPack *)
    unfold do_pack in E.
    destruct (ordered s i (s_pwrite s (tg_side tg) (tg_block tg)) && forallb _ _); try discriminate.
    destruct (run_pack (tg_side tg) (tg_start tg) (tg_end tg) (s_mem s)) as [m| |]; try discriminate.
    cbn [bind] in E. inversion E; subst s'. split; [|intros; cbn [set_pc s_pc]; apply upd_other; auto].
    apply pr_work; [rewrite EP; auto|].
    unfold work_left. cbn [set_pc s_begun s_ran s_packs s_pc length]. rewrite SUM. cbn [wt]. lia.
  - (* PStore *)
    assert (RET : forall s1, return_from_try dbg ahead bm s1 i w tg r true = Ok s' ->
      s_pc s1 = s_pc s -> s_begun s1 = s_begun s -> s_ran s1 = s_ran s -> s_packs s1 = s_packs s ->
      progress s s' i stale /\ (forall j, j <> i -> s_pc s' j = s_pc s j)).
    { intros s1 F E1 E2 E3 E4. unfold return_from_try in F.
      destruct (after_try dbg ahead bm w tg r true) as [p| |] eqn:EA; try discriminate. cbn [bind] in F.
      inversion F; subst s'. split; [|intros; cbn [set_pc s_pc]; rewrite E1; apply upd_other; auto].
      apply pr_work; [rewrite EP; auto|]. destruct (after_try_wt _ _ _ _ _ EA) as [WT _].
      unfold work_left. cbn [set_pc s_begun s_ran s_packs s_pc]. rewrite E1, E2, E3, E4, SUM, WT. cbn [wt]. lia. }
    destruct (need_atomics bm).
    + destruct (dcheck dbg _); try discriminate. cbn [bind] in E. eapply RET; eauto.
    + eapply RET; eauto.
  - (* PKernel *)
    unfold do_kernel in E.
    destruct (may_read prepacked s i Lhs (lhs (w_block w)) && may_read prepacked s i Rhs (rhs (w_block w)) && ordered s i (s_dwrite s (w_id w))); try discriminate.
    destruct (run_kernel (w_start w) (w_end w) (s_mem s)) as [m| |]; try discriminate.
    cbn [bind] in E. inversion E; subst s'. split; [|intros; cbn [set_pc s_pc]; apply upd_other; auto].
    apply pr_work; [rewrite EP; auto|].
    unfold work_left. cbn [set_pc s_begun s_ran s_packs s_pc length]. rewrite SUM. cbn [wt]. lia.
  - inversion E; subst s'. split; auto. apply pr_idle; auto.
Qed.

(** The steps that start a block, pack, publish, run a kernel or leave the loop. *)
Definition is_work (s : mst M) (i : Z) : bool :=
  (0 <=? i) && (i <? T) && match s_pc s i with PTry _ _ _ | PDone => false | _ => true end.

Fixpoint work_steps (sched : list (Z * bool)) (s : mst M) : Z :=
  match sched with
  | [] => 0
  | (i, stale) :: rest =>
    match stepf i stale s with
    | Ok s' => (if is_work s i then 1 else 0) + work_steps rest s'
    | _ => 0
    end
  end.

Hypothesis Hstep : forall i stale s, inv s -> exists s', stepf i stale s = Ok s' /\ inv s'.

Lemma progress_le : forall s s' i stale, progress s s' i stale ->
  work_left s' <= work_left s /\ (is_work s i = true -> work_left s' = work_left s - 1).
Proof.
  intros s s' i stale P. unfold is_work. destruct P as [A ->|A B|A0 A B C|A B C D|A B C].
  - split; [lia|]. intros H. apply andb_prop in H. destruct H as [H1 H2]. apply andb_prop in H1.
    destruct A as [A|A]; [unfold tid in A; lia|rewrite A in H2; discriminate].
  - split; [lia|auto].
  - split; [lia|]. intros H. apply andb_prop in H. destruct H as [H1 H2]. destruct (s_pc s i); try contradiction; discriminate.
  - split; [lia|]. intros H. apply andb_prop in H. destruct H as [H1 H2]. destruct (s_pc s i); try contradiction; discriminate.
  - split; [lia|]. intros H. apply andb_prop in H. destruct H as [H1 H2]. destruct (s_pc s i); try contradiction; discriminate.
Qed.

Lemma work_steps_bound : forall sched s, inv s -> work_steps sched s <= work_left s.
Proof.
  induction sched as [|[i st] rest IH]; intros s I; cbn [work_steps].
  - apply work_left_nonneg; auto.
  - destruct (Hstep i st s I) as (s' & E & I'). rewrite E. specialize (IH s' I').
    destruct (step_progress s s' i st E) as [P _]. destruct (progress_le _ _ _ _ P) as [L WK].
    destruct (is_work s i); [specialize (WK eq_refl)|]; lia.
Qed.

Lemma tsum_const : forall l c, tsum (fun _ => c) l = Z.of_nat (length l) * c.
Proof. induction l; intros c; cbn [tsum length]; [lia|]. rewrite IHl. lia. Qed.

Lemma work_left_init : forall m, 0 <= T -> work_left (init bm m) = 2 * NB + 2 * (nb Lhs + nb Rhs) + T.
Proof.
  intros m HT. unfold work_left. cbn [init s_begun s_ran s_packs s_pc length wt].
  rewrite tsum_const, zrange_length. lia.
Qed.

(** Nobody waits for a thread that waits. *)
Lemma waits_for_runner : forall s i, inv s -> need_atomics bm = true -> waits s i ->
  exists j, tid j /\ (match s_pc s j with PPack _ _ _ | PStore _ _ _ => True | _ => False end) /\ ~ waits s j.
Proof.
  intros s i I N (w & tg & r & EP & ES).
  destruct (pi_ip _ _ _ _ _ _ _ (iv_pack _ _ _ _ _ _ _ I) _ _ N ES) as (j & Hj & H).
  exists j. split; auto. split.
  - destruct (s_pc s j); cbn [held] in H; try discriminate; auto.
  - intros (w' & tg' & r' & EP' & _). rewrite EP' in H. discriminate.
Qed.

(** * Fair executions *)
Variable sg : nat -> Z * bool.
Variable s0 : mst M.
Hypothesis I0 : inv s0.

Fixpoint st (n : nat) : mst M :=
  match n with
  | O => s0
  | S k => match stepf (fst (sg k)) (snd (sg k)) (st k) with Ok s' => s' | _ => st k end
  end.

Lemma st_inv : forall n, inv (st n).
Proof.
  induction n; cbn [st]; auto. destruct (Hstep (fst (sg n)) (snd (sg n)) (st n) IHn) as (s' & -> & I'). auto.
Qed.
Lemma st_step : forall n, stepf (fst (sg n)) (snd (sg n)) (st n) = Ok (st (S n)).
Proof.
  intros n. cbn [st]. destruct (Hstep (fst (sg n)) (snd (sg n)) (st n) (st_inv n)) as (s' & -> & I'). auto.
Qed.

Lemma exec_app : forall a b s, exec run_pack run_kernel dbg ahead bm prepacked (a ++ b) s =
  bind (exec run_pack run_kernel dbg ahead bm prepacked a s)
       (fun s' => exec run_pack run_kernel dbg ahead bm prepacked b s').
Proof.
  induction a as [|[i t] a IH]; intros b s; cbn [app exec bind]; auto.
  destruct (step run_pack run_kernel dbg ahead bm prepacked i t s); cbn [bind]; auto.
Qed.

Lemma st_exec : forall n, exec run_pack run_kernel dbg ahead bm prepacked (map sg (seq 0 n)) s0 = Ok (st n).
Proof.
  induction n; [reflexivity|]. rewrite seq_S, map_app, exec_app, IHn. cbn [bind map exec Nat.add].
  destruct (sg n) as [i t] eqn:E. pose proof (st_step n) as F. rewrite E in F. cbn [fst snd] in F.
  change (step run_pack run_kernel dbg ahead bm prepacked i t (st n)) with (stepf i t (st n)). rewrite F. reflexivity.
Qed.

Hypothesis Hfair : forall i n, tid i -> exists m, (n <= m)%nat /\ fst (sg m) = i.

Lemma work_mono1 : forall n, work_left (st (S n)) <= work_left (st n).
Proof. intros n. destruct (step_progress _ _ _ _ (st_step n)) as [P _]. apply (progress_le _ _ _ _ P). Qed.

(** A thread that is packing makes progress at its next turn. *)
Lemma holder_progress : forall d n j, tid j -> held (s_pc (st n) j) <> None ->
  (exists k, (k <= d)%nat /\ fst (sg (n + k)) = j) ->
  exists m, (n < m)%nat /\ work_left (st m) < work_left (st n).
Proof.
  induction d as [|d IH]; intros n j Hj H (k & Hk & Ek).
  - assert (k = 0)%nat by lia. subst k. rewrite Nat.add_0_r in Ek.
    destruct (step_progress _ _ _ _ (st_step n)) as [P _]. destruct (progress_le _ _ _ _ P) as [_ L].
    exists (S n). split; [lia|]. rewrite Ek in L. rewrite L; [lia|]. unfold is_work.
    rewrite (proj2 (Z.leb_le 0 j)) by (unfold tid in *; lia). rewrite (proj2 (Z.ltb_lt j T)) by (unfold tid in *; lia).
    destruct (s_pc (st n) j); cbn [held] in H; try congruence; auto.
  - destruct (Z.eq_dec (fst (sg n)) j) as [E|N].
    + destruct (step_progress _ _ _ _ (st_step n)) as [P _]. destruct (progress_le _ _ _ _ P) as [_ L].
      exists (S n). split; [lia|]. rewrite E in L. rewrite L; [lia|]. unfold is_work.
      rewrite (proj2 (Z.leb_le 0 j)) by (unfold tid in *; lia). rewrite (proj2 (Z.ltb_lt j T)) by (unfold tid in *; lia).
      destruct (s_pc (st n) j); cbn [held] in H; try congruence; auto.
    + destruct (step_progress _ _ _ _ (st_step n)) as [_ O].
      destruct (IH (S n) j Hj) as (m & Hm & L).
      * rewrite O; auto.
      * destruct k as [|k]; [rewrite Nat.add_0_r in Ek; congruence|]. exists k. split; [lia|].
        rewrite <- Ek. f_equal. f_equal. lia.
      * exists m. split; [lia|]. pose proof (work_mono1 n). lia.
Qed.

Lemma holder_progress' : forall n j, tid j -> held (s_pc (st n) j) <> None ->
  exists m, (n < m)%nat /\ work_left (st m) < work_left (st n).
Proof.
  intros n j Hj H. destruct (Hfair j n Hj) as (m & Hm & E).
  apply (holder_progress (m - n) n j Hj H). exists (m - n)%nat. split; [lia|]. rewrite <- E. f_equal. f_equal. lia.
Qed.

Variable N0 : nat.
Hypothesis Hvis : forall n, (N0 <= n)%nat -> snd (sg n) = false.

Definition quiet (n : nat) : Prop := forall j, tid j -> held (s_pc (st n) j) = None.

Lemma quiet_step : forall n, (N0 <= n)%nat -> quiet n ->
  (st (S n) = st n /\ (tid (fst (sg n)) -> s_pc (st n) (fst (sg n)) = PDone)) \/
  (exists m, (n < m)%nat /\ work_left (st m) < work_left (st n)) \/
  (quiet (S n) /\ work_left (st (S n)) = work_left (st n) /\ pos_sum (st (S n)) < pos_sum (st n)).
Proof.
  intros n HN Q. destruct (step_progress _ _ _ _ (st_step n)) as [P O].
  destruct P as [A B|A B|A0 A B C|A B C D|A B C].
  - left. split; auto. intros Hi. destruct A as [A|A]; [contradiction|auto].
  - right; left. exists (S n). split; [lia|]. rewrite B. lia.
  - right; left. destruct (holder_progress' (S n) (fst (sg n)) A0 C) as (m & Hm & L). exists m. split; [lia|]. lia.
  - right; right. split; [|split; auto]. intros j Hj. apply D; auto.
  - exfalso. destruct C as [C|(NE & sd & b & C)].
    + rewrite Hvis in C by auto. discriminate.
    + destruct (pi_ip _ _ _ _ _ _ _ (iv_pack _ _ _ _ _ _ _ (st_inv n)) _ _ NE C) as (j & Hj & H).
      rewrite Q in H by auto. discriminate.
Qed.

Definition result (n : nat) : Prop :=
  exists m, (n <= m)%nat /\ (work_left (st m) < work_left (st n) \/ all_done bm (st m) = true).

Lemma pos_sum_nonneg : forall s, 0 <= pos_sum s.
Proof. intros. apply tsum_nonneg. intros. apply pos_nonneg. Qed.

Lemma not_all_done : forall s : mst M, all_done bm s = false -> exists i, tid i /\ s_pc s i <> PDone.
Proof.
  intros s H. unfold all_done in H.
  assert (E : existsb (fun i => negb (is_done (s_pc s i))) (zrange 0 (threads bm)) = true).
  { revert H. generalize (zrange 0 (threads bm)) as l. induction l as [|a l IH]; cbn [forallb existsb]; [discriminate|].
    destruct (is_done (s_pc s a)); cbn [andb negb orb]; auto. }
  apply existsb_exists in E. destruct E as (i & Hi & E). apply zrange_In in Hi. exists i. split; auto.
  intros F. rewrite F in E. discriminate.
Qed.

Lemma quiet_progress : forall p n, pos_sum (st n) <= Z.of_nat p -> (N0 <= n)%nat -> quiet n -> result n.
Proof.
  induction p as [p IHp] using (well_founded_induction Wf_nat.lt_wf). intros n HP HN Q.
  destruct (all_done bm (st n)) eqn:AD; [exists n; split; auto|].
  destruct (not_all_done _ AD) as (i & Hi & ND).
  destruct (Hfair i n Hi) as (m & Hm & Em).
  remember (m - n)%nat as d eqn:Ed.
  revert n HP HN Q AD ND Hm Ed. induction d as [|d IHd]; intros n HP HN Q AD ND Hm Ed.
  - assert (m = n) by lia. subst m. destruct (quiet_step n HN Q) as [[_ A]|[(m & Hl & L)|(Q' & EW & LP)]].
    + rewrite Em in A. exfalso. auto.
    + exists m. split; [lia|auto].
    + pose proof (pos_sum_nonneg (st (S n))).
      destruct (IHp (Z.to_nat (pos_sum (st (S n)))) ltac:(lia) (S n)) as (m & Hl & R); auto; try lia.
      exists m. split; [lia|]. rewrite EW in R. exact R.
  - destruct (quiet_step n HN Q) as [[A _]|[(m' & Hl & L)|(Q' & EW & LP)]].
    + destruct (IHd (S n)) as (m' & Hl & R); try (rewrite A); auto; try lia.
      { unfold quiet. rewrite A. exact Q. }
      exists m'. split; [lia|]. rewrite A in R. exact R.
    + exists m'. split; [lia|auto].
    + pose proof (pos_sum_nonneg (st (S n))).
      destruct (IHp (Z.to_nat (pos_sum (st (S n)))) ltac:(lia) (S n)) as (m' & Hl & R); auto; try lia.
      exists m'. split; [lia|]. rewrite EW in R. exact R.
Qed.

Lemma some_progress : forall n, (N0 <= n)%nat -> result n.
Proof.
  intros n HN.
  destruct (existsb (fun j => match held (s_pc (st n) j) with None => false | _ => true end) (zrange 0 T)) eqn:E.
  - apply existsb_exists in E. destruct E as (j & Hj & E). apply zrange_In in Hj.
    destruct (holder_progress' n j Hj) as (m & Hm & L).
    { destruct (held (s_pc (st n) j)); congruence. }
    exists m. split; [lia|auto].
  - apply (quiet_progress (Z.to_nat (pos_sum (st n)))); auto.
    + pose proof (pos_sum_nonneg (st n)). lia.
    + intros j Hj. destruct (held (s_pc (st n) j)) eqn:H; auto. exfalso.
      assert (X : existsb (fun j => match held (s_pc (st n) j) with None => false | _ => true end) (zrange 0 T) = true).
      { apply existsb_exists. exists j. split; [apply zrange_In; auto|]. rewrite H. auto. }
      congruence.
Qed.

Lemma fair_terminates : exists n, all_done bm (st n) = true.
Proof.
  assert (G : forall w n, work_left (st n) <= Z.of_nat w -> (N0 <= n)%nat -> exists m, all_done bm (st m) = true).
  { induction w as [w IH] using (well_founded_induction Wf_nat.lt_wf). intros n HW HN.
    destruct (some_progress n HN) as (m & Hm & [L|D]); [|eauto].
    pose proof (work_left_nonneg _ (st_inv m)).
    apply (IH (Z.to_nat (work_left (st m))) ltac:(lia) m); lia. }
  pose proof (work_left_nonneg _ (st_inv N0)).
  apply (G (Z.to_nat (work_left (st N0))) N0); lia.
Qed.
End Machine.
