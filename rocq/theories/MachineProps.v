(** Properties of the worker threads in the vocabulary of SpecMachine. *)
From Verif Require Import Base SidePair SizeUtilFacts BlockMap BlockMapFacts SpecBlockMap MakeBlockMapFacts BlockMapProps
  TrMulMachine MachineIdsFacts MachinePackFacts MachineFacts MachineProgressFacts SpecMachine.
From Coq Require Import Permutation.

Lemma made_facts : forall bm, made_block_map bm ->
  bm_wf bm /\ 1 <= threads bm <= NB bm /\ num_blocks bm = Ok (NB bm).
Proof.
  intros bm (dbg & opts & rows & cols & depth & kr & kc & ls & rs & n & cp & D & E).
  destruct (make_block_map_ok dbg opts rows cols depth kr kc ls rs n cp D) as (bm' & E' & W & _ & _ & N & T & _).
  rewrite E in E'. injection E' as <-. split; [exact W|]. split; [|exact N].
  unfold threads. rewrite T. fold (NB bm). pose proof (dom_threads _ _ _ _ _ _ _ _ _ D).
  assert (P : 0 < NB bm).
  { apply pow2_pos. pose proof (wf_base _ W). pose proof (wf_rect _ W Lhs). pose proof (wf_rect _ W Rhs). cbn [get] in *. lia. }
  lia.
Qed.

(** * Any tasks *)
Section Any.
Variable M : Type.
Variables (run_pack : side -> Z -> Z -> M -> res M) (run_kernel : sp Z -> sp Z -> M -> res M).
Variables (dbg ahead : bool) (bm : block_map) (prepacked : sp bool).
Hypothesis B : made_block_map bm.

Let tasks_total := tasks_total run_pack run_kernel.

Definition ainv := inv M bm prepacked (fun _ => True) (fun _ _ _ => True) (fun _ _ => True).

Lemma any_pack : forall sd b m, get sd prepacked = false -> 0 <= b < nb bm sd -> True ->
  (exists m', run_pack sd (block_start sd bm b) (block_start sd bm (b + 1)) m = Ok m' /\ True /\ True /\
    (forall sd' b', (sd', b') <> (sd, b) -> 0 <= b' < nb bm sd' -> True -> True) /\
    (forall ids : list Z, (forall x, In x ids -> 0 <= x < NB bm) -> True -> True)) \/
  (~ tasks_total /\ forall m', run_pack sd (block_start sd bm b) (block_start sd bm (b + 1)) m <> Ok m').
Proof.
  intros sd b m _ _ _. destruct (run_pack sd (block_start sd bm b) (block_start sd bm (b + 1)) m) as [m'| |] eqn:E.
  - left. exists m'. tauto.
  - right. split; [|discriminate]. intros [T _]. destruct (T sd (block_start sd bm b) (block_start sd bm (b + 1)) m) as [x X]. congruence.
  - right. split; [|discriminate]. intros [T _]. destruct (T sd (block_start sd bm b) (block_start sd bm (b + 1)) m) as [x X]. congruence.
Qed.

Lemma any_kernel : forall id m, 0 <= id < NB bm -> True -> (side -> True) ->
  (exists m', run_kernel (starts bm id) (ends bm id) m = Ok m' /\ True /\ (side -> Z -> True -> True) /\
    (forall ids : list Z, (forall x, In x ids -> 0 <= x < NB bm) -> True -> True)) \/
  (~ tasks_total /\ forall m', run_kernel (starts bm id) (ends bm id) m <> Ok m').
Proof.
  intros id m _ _ _. destruct (run_kernel (starts bm id) (ends bm id) m) as [m'| |] eqn:E.
  - left. exists m'. tauto.
  - right. split; [|discriminate]. intros [_ T]. destruct (T (starts bm id) (ends bm id) m) as [x X]. congruence.
  - right. split; [|discriminate]. intros [_ T]. destruct (T (starts bm id) (ends bm id) m) as [x X]. congruence.
Qed.

Let run sched m := exec run_pack run_kernel dbg ahead bm prepacked sched (init bm m).

Lemma any_init : forall m, ainv (init bm m).
Proof. intros m. apply inv_init; auto. apply (made_facts _ B). Qed.

Lemma any_inv : forall sched m s, run sched m = Ok s -> ainv s.
Proof.
  intros sched m s E. destruct (made_facts _ B) as (W & HT & _).
  eapply (exec_inv M run_pack run_kernel dbg ahead bm prepacked _ _ _ tasks_total); eauto using any_pack, any_kernel.
  apply any_init.
Qed.

Lemma any_step : tasks_total -> forall i stale s, ainv s ->
  exists s', step run_pack run_kernel dbg ahead bm prepacked i stale s = Ok s' /\ ainv s'.
Proof.
  intros TT. destruct (made_facts _ B) as (W & HT & _).
  apply (step_total M run_pack run_kernel dbg ahead bm prepacked _ _ _ tasks_total); auto using any_pack, any_kernel.
Qed.

Lemma never_undefined : tasks_total -> forall sched m, exists s, run sched m = Ok s.
Proof.
  intros TT sched m. destruct (made_facts _ B) as (W & HT & _).
  destruct (exec_ok M run_pack run_kernel dbg ahead bm prepacked (fun _ => True) (fun _ _ _ => True) (fun _ _ => True)
    tasks_total any_pack any_kernel W HT TT sched (init bm m) (any_init m)) as (s & E & _). eauto.
Qed.

Lemma each_block_once : forall sched m s, run sched m = Ok s ->
  NoDup (map snd (s_ran s)) /\
  (all_done bm s = true -> exists n, num_blocks bm = Ok n /\ Permutation (map snd (s_ran s)) (zrange 0 n)).
Proof.
  intros sched m s E. pose proof (any_inv _ _ _ E) as I. destruct (made_facts _ B) as (W & HT & N).
  split; [apply (ii_ran_nodup _ _ _ _ _ _ (iv_ids _ _ _ _ _ _ _ I))|].
  intros D. exists (NB bm). split; [exact N|]. eapply final_ok; eauto.
Qed.

Lemma each_pack_once : forall sched m s, run sched m = Ok s -> NoDup (map snd (s_packs s)).
Proof. intros sched m s E. apply (pi_packs_nodup _ _ _ _ _ _ _ (iv_pack _ _ _ _ _ _ _ (any_inv _ _ _ E))). Qed.

Lemma waiting_for_packer : forall sched m s i, run sched m = Ok s -> 1 < bm_thread_count bm -> waiting s i ->
  exists j, 0 <= j < bm_thread_count bm /\ packing s j /\ ~ waiting s j.
Proof.
  intros sched m s i E HT H. pose proof (any_inv _ _ _ E) as I.
  eapply (waits_for_runner M bm prepacked (fun _ => True) (fun _ _ _ => True) (fun _ _ => True) s i I); [|exact H].
  unfold need_atomics. apply Z.ltb_lt. exact HT.
Qed.

Lemma working_steps_eq : forall sched s,
  working_steps run_pack run_kernel dbg ahead bm prepacked sched s =
  work_steps M run_pack run_kernel dbg ahead bm prepacked sched s.
Proof.
  induction sched as [|[i st] rest IH]; intros s; cbn [working_steps work_steps]; [reflexivity|].
  destruct (step _ _ _ _ _ _ i st s) as [s'| |]; [rewrite IH; reflexivity|reflexivity|reflexivity].
Qed.

Lemma working_bound : tasks_total -> forall sched m n nl nr, num_blocks bm = Ok n ->
  num_blocks_per_side Lhs bm = Ok nl -> num_blocks_per_side Rhs bm = Ok nr ->
  working_steps run_pack run_kernel dbg ahead bm prepacked sched (init bm m) <= 2 * n + 2 * (nl + nr) + bm_thread_count bm.
Proof.
  intros TT sched m n nl nr N NL NR. destruct (made_facts _ B) as (W & HT & N').
  rewrite N in N'. injection N' as ->.
  rewrite num_blocks_per_side_ok in NL, NR by auto. injection NL as <-. injection NR as <-.
  rewrite working_steps_eq.
  pose proof (work_steps_bound M run_pack run_kernel dbg ahead bm prepacked _ _ _ (any_step TT) sched (init bm m) (any_init m)) as L.
  rewrite (work_left_init M run_pack run_kernel dbg ahead bm prepacked (fun _ => True) (fun _ _ _ => True) (fun _ _ => True)) in L; [exact L| |]; auto using any_step; lia.
Qed.

Lemma fair_schedules_finish : tasks_total -> forall sched m, fair (bm_thread_count bm) sched ->
  exists k s, run (prefix sched k) m = Ok s /\ all_done bm s = true.
Proof.
  intros TT sg m [FA [N0 VI]].
  destruct (fair_terminates M run_pack run_kernel dbg ahead bm prepacked _ _ _ (any_step TT) sg (init bm m) (any_init m) FA N0 VI)
    as (n & Hn).
  eexists n, _. split; [|exact Hn].
  apply (st_exec M run_pack run_kernel dbg ahead bm prepacked _ _ _ (any_step TT) sg (init bm m) (any_init m)).
Qed.

(** What one step does to the memory and to the logs. *)
Lemma step_effect : forall i stale s s',
  step run_pack run_kernel dbg ahead bm prepacked i stale s = Ok s' ->
  (s_mem s' = s_mem s /\ s_packs s' = s_packs s /\ s_ran s' = s_ran s) \/
  (exists w tg r, s_pc s i = PPack w tg r /\ 0 <= i < threads bm /\
     run_pack (tg_side tg) (tg_start tg) (tg_end tg) (s_mem s) = Ok (s_mem s') /\
     s_packs s' = (i, (tg_side tg, tg_block tg)) :: s_packs s /\ s_ran s' = s_ran s) \/
  (exists w, s_pc s i = PKernel w /\ 0 <= i < threads bm /\ run_kernel (w_start w) (w_end w) (s_mem s) = Ok (s_mem s') /\
     s_packs s' = s_packs s /\ s_ran s' = (i, w_id w) :: s_ran s).
Proof.
  intros i stale s s' E. unfold step in E.
  destruct ((0 <=? i) && (i <? threads bm)) eqn:Ei; [|inversion E; subst; auto].
  assert (RT : forall s1 w tg r ok, return_from_try dbg ahead bm s1 i w tg r ok = Ok s' ->
     s_mem s' = s_mem s1 /\ s_packs s' = s_packs s1 /\ s_ran s' = s_ran s1).
  { intros s1 w tg r ok X. unfold return_from_try in X. apply bind_ok in X. destruct X as (p & _ & X). inversion X; subst; auto. }
  destruct (s_pc s i) as [b|w tg r|w tg r|w tg r|w|] eqn:EP.
  - apply bind_ok in E. destruct E as (n & _ & E). destruct (b <? n).
    + unfold begin_block in E. apply bind_ok in E. destruct E as (bl & _ & E). apply bind_ok in E.
      destruct E as ([st en] & _ & E). apply bind_ok in E. destruct E as (al & _ & E). apply bind_ok in E.
      destruct E as (ar & _ & E). inversion E; subst; auto.
    + inversion E; subst; auto.
  - destruct (get (tg_side tg) prepacked); [left; apply RT in E; exact E|].
    apply bind_ok in E. destruct E as (n & _ & E).
    destruct (negb _); [discriminate|]. destruct (s_local s i (tg_side tg) (tg_block tg)); [left; apply RT in E; exact E|].
    destruct (need_atomics bm); [|inversion E; subst; auto].
    destruct (s_status s (tg_side tg) (tg_block tg)).
    + inversion E; subst; auto.
    + left. apply RT in E. exact E.
    + destruct (stale && _); left; apply RT in E; exact E.
  - right. left. exists w, tg, r. split; [reflexivity|]. split; [lia|].
    apply bind_ok in E. destruct E as (s1 & E1 & E). inversion E; subst s'. unfold do_pack in E1.
    destruct (_ && _) eqn:F in E1; [|discriminate]. apply bind_ok in E1. destruct E1 as (m & Em & E1). inversion E1; subst s1.
    cbn [set_pc s_mem s_packs s_ran]. auto.
  - left. destruct (need_atomics bm).
    + apply bind_ok in E. destruct E as (u & _ & E). apply RT in E. exact E.
    + apply RT in E. exact E.
  - right. right. exists w. split; [reflexivity|]. split; [lia|].
    apply bind_ok in E. destruct E as (s1 & E1 & E). inversion E; subst s'. unfold do_kernel in E1.
    destruct (_ && _) eqn:F in E1; [|discriminate]. apply bind_ok in E1. destruct E1 as (m & Em & E1). inversion E1; subst s1.
    cbn [set_pc s_mem s_packs s_ran]. auto.
  - inversion E; subst; auto.
Qed.
End Any.

(** * Traces *)
Lemma computed_app : forall a b, computed (a ++ b) = computed a ++ computed b.
Proof. induction a as [|[s x y|r] a IH]; intros b; cbn [app computed]; auto. rewrite IH. reflexivity. Qed.
Lemma packed_app : forall a b, packed (a ++ b) = packed a ++ packed b.
Proof. induction a as [|[s x y|r] a IH]; intros b; cbn [app packed]; auto. rewrite IH. reflexivity. Qed.

Section Trace.
Variables (dbg ahead : bool) (bm : block_map) (prepacked : sp bool).
Hypothesis B : made_block_map bm.

Definition block_span (x : side * Z) : side * (Z * Z) :=
  (fst x, (block_start (fst x) bm (snd x), block_start (fst x) bm (snd x + 1))).

Definition tr_packed (tr : list event) (sd : side) (b : Z) : Prop :=
  get sd prepacked = true \/ In (block_span (sd, b)) (packed tr).

Let packed_first := packed_before_use prepacked.

Definition tr_run (ids : list Z) (tr : list event) : Prop :=
  packed_first tr /\ forall id sd, In id ids -> tr_packed tr sd (get sd (block_of_index bm id)).

Definition tinv := inv (list event) bm prepacked (fun _ => True) tr_packed tr_run.

Lemma snoc_split : forall {A} (tr pre post : list A) x y, tr ++ [x] = pre ++ y :: post ->
  (exists post', post = post' ++ [x] /\ tr = pre ++ y :: post') \/ (post = [] /\ tr = pre /\ x = y).
Proof.
  intros A tr pre post x y E. destruct (rev post) as [|z q] eqn:R.
  - right. apply (f_equal (@rev A)) in R. rewrite rev_involutive in R. cbn in R. subst post.
    apply app_inj_tail in E. destruct E; auto.
  - left. apply (f_equal (@rev A)) in R. rewrite rev_involutive in R. cbn in R. subst post.
    exists (rev q). rewrite app_comm_cons, app_assoc in E. apply app_inj_tail in E. destruct E as [E ->]. auto.
Qed.

Lemma tr_packed_mono : forall tr e sd b, tr_packed tr sd b -> tr_packed (tr ++ [e]) sd b.
Proof. intros tr e sd b [H|H]; [left; auto|right]. rewrite packed_app. apply in_or_app. auto. Qed.

Lemma trace_pack : forall sd b tr, get sd prepacked = false -> 0 <= b < nb bm sd -> True ->
  (exists tr', log_pack sd (block_start sd bm b) (block_start sd bm (b + 1)) tr = Ok tr' /\ True /\ tr_packed tr' sd b /\
    (forall sd' b', (sd', b') <> (sd, b) -> 0 <= b' < nb bm sd' -> tr_packed tr sd' b' -> tr_packed tr' sd' b') /\
    (forall ids, (forall x, In x ids -> 0 <= x < NB bm) -> tr_run ids tr -> tr_run ids tr')) \/
  (~ True /\ forall m', log_pack sd (block_start sd bm b) (block_start sd bm (b + 1)) tr <> Ok m').
Proof.
  intros sd b tr _ _ _. left. eexists. split; [reflexivity|]. split; [auto|]. split.
  - right. rewrite packed_app. apply in_or_app. right. left. reflexivity.
  - split; [intros; apply tr_packed_mono; auto|]. intros ids _ [F P]. split.
    + intros pre r post E sd' Hs. apply snoc_split in E. destruct E as [(post' & _ & E)|(_ & _ & E)]; [|discriminate].
      eapply F; eauto.
    + intros. apply tr_packed_mono. auto.
Qed.

Lemma trace_kernel : forall id tr, 0 <= id < NB bm -> True ->
  (forall sd, tr_packed tr sd (get sd (block_of_index bm id))) ->
  (exists tr', log_kernel (starts bm id) (ends bm id) tr = Ok tr' /\ True /\
    (forall sd b, tr_packed tr sd b -> tr_packed tr' sd b) /\
    (forall ids, (forall x, In x ids -> 0 <= x < NB bm) -> tr_run ids tr -> tr_run (id :: ids) tr')) \/
  (~ True /\ forall m', log_kernel (starts bm id) (ends bm id) tr <> Ok m').
Proof.
  intros id tr _ _ PK. left. eexists. split; [reflexivity|]. split; [auto|].
  split; [intros; apply tr_packed_mono; auto|]. intros ids _ [F P]. split.
  - intros pre r post E sd' Hs. apply snoc_split in E. destruct E as [(post' & _ & E)|(_ & <- & E)].
    + eapply F; eauto.
    + injection E as <-. destruct (PK sd') as [H|H]; [congruence|]. destruct sd'; exact H.
  - intros id' sd [<-|H]; apply tr_packed_mono; auto.
Qed.

Let run sched := exec log_pack log_kernel dbg ahead bm prepacked sched (init bm []).
Let stepf := step log_pack log_kernel dbg ahead bm prepacked.

(** The trace agrees with the logs of the machine. *)
Definition linked (s : mst (list event)) : Prop :=
  packed (s_mem s) = rev (map block_span (map snd (s_packs s))) /\
  computed (s_mem s) = rev (map (rect_of bm) (map snd (s_ran s))).

Lemma step_linked : forall i stale s s', tinv s -> stepf i stale s = Ok s' -> linked s -> linked s'.
Proof.
  intros i stale s s' I E [L1 L2].
  destruct (step_effect _ _ _ _ _ _ _ i stale s s' E) as [(E1 & E2 & E3)|[(w & tg & r & EP & Hi & E1 & E2 & E3)|(w & EP & Hi & E1 & E2 & E3)]].
  - unfold linked. rewrite E1, E2, E3. auto.
  - pose proof (iv_good _ _ _ _ _ _ _ I i Hi) as G. rewrite EP in G. destruct G as (_ & [G1 G2 G3] & _).
    injection E1 as E1. unfold linked. rewrite <- E1, E2, E3, packed_app, computed_app. cbn [packed computed map rev snd].
    rewrite app_nil_r, L1, L2, G2, G3. split; reflexivity.
  - pose proof (iv_good _ _ _ _ _ _ _ I i Hi) as G. rewrite EP in G. destruct G as ([G1 G2 G3 G4 _] & _).
    injection E1 as E1. unfold linked. rewrite <- E1, E2, E3, packed_app, computed_app. cbn [packed computed map rev snd].
    rewrite app_nil_r, L1, L2, G3, G4. split; reflexivity.
Qed.

Lemma trace_facts : forall sched s, run sched = Ok s -> tinv s /\ linked s.
Proof.
  intros sched s E. destruct (made_facts _ B) as (W & HT & _).
  assert (I0 : tinv (init bm [])).
  { apply inv_init; auto.
    - split; [|intros ? ? []]. intros pre r post X. destruct pre; discriminate.
    - intros sd b H _. left. exact H. }
  assert (L0 : linked (init bm [])) by (split; reflexivity).
  unfold run in E. revert E I0 L0. generalize (init bm (@nil event)) as s0.
  induction sched as [|[i st] rest IH]; intros s0 E I0 L0; cbn [exec] in E; [inversion E; subst; auto|].
  apply bind_ok in E. destruct E as (s1 & E1 & E).
  apply (IH s1 E).
  - eapply (step_inv _ log_pack log_kernel dbg ahead bm prepacked _ _ _ True); eauto using trace_pack, trace_kernel.
  - eapply step_linked; eauto.
Qed.

Lemma rect_of_inj : forall i j, 0 <= i < NB bm -> 0 <= j < NB bm -> rect_of bm i = rect_of bm j -> i = j.
Proof.
  intros i j Hi Hj E. destruct (made_facts _ B) as (W & _).
  destruct (wf_tiles bm W) as [T1 T2 _ T4].
  pose proof (T1 i Hi) as N. pose proof (T2 i Hi) as R.
  destruct (T4 (row0 (rect_of bm i)) (col0 (rect_of bm i)) ltac:(lia) ltac:(lia)) as (k & _ & U).
  transitivity k; [|symmetry]; apply U; auto; unfold in_rect; rewrite <- ?E; lia.
Qed.

Lemma block_span_inj : forall x y, (0 <= snd x < nb bm (fst x)) -> (0 <= snd y < nb bm (fst y)) -> block_span x = block_span y -> x = y.
Proof.
  intros [s b] [s' b'] Hx Hy E. unfold block_span in E. cbn [fst snd] in *. injection E as <- E1 E2. f_equal.
  destruct (made_facts _ B) as (W & _).
  pose proof (block_start_mono bm s b (b + 1) W ltac:(unfold nb in Hx; lia)) as L.
  replace (b + 1 - b) with 1 in L by lia.
  pose proof (wf_small_pos _ W s). 
  eapply (block_start_disjoint bm s b b' (block_start s bm b) W); try lia.
Qed.

Lemma NoDup_map_in : forall {A C} (f : A -> C) l, (forall x y, In x l -> In y l -> f x = f y -> x = y) -> NoDup l -> NoDup (map f l).
Proof.
  intros A C f l. induction l as [|a l IH]; intros F N; cbn [map]; [constructor|]. inversion N; subst. constructor.
  - intros H. apply in_map_iff in H. destruct H as (x & E & Hx). apply F in E; [subst; auto|right; auto|left; auto].
  - apply IH; auto. intros; apply F; auto; right; auto.
Qed.

Lemma traces : forall sched s, run sched = Ok s ->
  packed_first (s_mem s) /\ NoDup (packed (s_mem s)) /\ NoDup (computed (s_mem s)) /\
  (forall r, In r (computed (s_mem s)) -> exists i n, num_blocks bm = Ok n /\ 0 <= i < n /\ block_rect dbg bm i = Ok r) /\
  (forall sd a b, In (sd, (a, b)) (packed (s_mem s)) -> get sd prepacked = false /\
     exists k n, num_blocks_per_side sd bm = Ok n /\ 0 <= k < n /\ get_block_matrix_coords dbg sd bm k = Ok (a, b)) /\
  (all_done bm s = true ->
     (forall i n, num_blocks bm = Ok n -> 0 <= i < n -> exists r, block_rect dbg bm i = Ok r /\ In r (computed (s_mem s))) /\
     (forall sd k n, get sd prepacked = false -> num_blocks_per_side sd bm = Ok n -> 0 <= k < n ->
        exists a b, get_block_matrix_coords dbg sd bm k = Ok (a, b) /\ In (sd, (a, b)) (packed (s_mem s)))).
Proof.
  intros sched s E. destruct (trace_facts _ _ E) as [I [L1 L2]]. destruct (made_facts _ B) as (W & HT & N).
  pose proof (iv_ids _ _ _ _ _ _ _ I) as ID. pose proof (iv_pack _ _ _ _ _ _ _ I) as PK.
  destruct (iv_kr _ _ _ _ _ _ _ I) as [PF PA].
  assert (RR : forall id, In id (map snd (s_ran s)) -> 0 <= id < NB bm).
  { intros id H. apply (ii_ran_begun _ _ _ _ _ _ ID) in H. apply (ii_begun_range _ _ _ _ _ _ ID) in H. lia. }
  assert (PR : forall sd b, In (sd, b) (map snd (s_packs s)) -> get sd prepacked = false /\ 0 <= b < nb bm sd).
  { intros sd b H. apply (pi_packs _ _ _ _ _ _ _ PK) in H. apply (pi_written _ _ _ _ _ _ _ PK) in H. tauto. }
  split; [exact PF|]. split.
  { rewrite L1. apply NoDup_rev. apply NoDup_map_in; [|apply (pi_packs_nodup _ _ _ _ _ _ _ PK)].
    intros [s1 b1] [s2 b2] H1 H2. apply block_span_inj; cbn [fst snd]; [apply (PR _ _ H1)|apply (PR _ _ H2)]. }
  split.
  { rewrite L2. apply NoDup_rev. apply NoDup_map_in; [|apply (ii_ran_nodup _ _ _ _ _ _ ID)].
    intros x y Hx Hy. apply rect_of_inj; auto. }
  split.
  { intros r H. rewrite L2 in H. apply in_rev in H. apply in_map_iff in H. destruct H as (id & <- & H).
    exists id, (NB bm). split; [exact N|]. split; [auto|]. apply block_rect_ok; auto. }
  split.
  { intros sd a b H. rewrite L1 in H. apply in_rev in H. apply in_map_iff in H. destruct H as ([sd' k] & EQ & H).
    unfold block_span in EQ. cbn [fst snd] in EQ. injection EQ as -> <- <-. destruct (PR _ _ H) as [P1 P2]. split; [exact P1|].
    exists k, (nb bm sd). split; [apply num_blocks_per_side_ok; auto|]. split; [exact P2|].
    apply get_block_matrix_coords_ok; auto. }
  intros D. pose proof (final_ok _ bm prepacked _ _ _ HT s I D) as P.
  assert (IN : forall id, 0 <= id < NB bm -> In id (map snd (s_ran s))).
  { intros id Hid. apply Permutation_in with (l := zrange 0 (NB bm)); [symmetry; exact P|]. apply zrange_In. auto. }
  split.
  - intros i n En Hi. rewrite N in En. injection En as <-. exists (rect_of bm i). split; [apply block_rect_ok; auto|].
    rewrite L2. apply -> in_rev. apply in_map. auto.
  - intros sd k n Hs En Hk. rewrite num_blocks_per_side_ok in En by auto. injection En as <-.
    eexists _, _. split; [apply get_block_matrix_coords_ok; auto|].
    assert (X : exists id, 0 <= id < NB bm /\ get sd (block_of_index bm id) = k).
    { assert (Z0 : forall s', 0 <= 0 < nb bm s') by (intros s'; pose proof (wf_base _ W); pose proof (wf_rect _ W s'); pose proof (pow2_pos (bm_base bm + get s' (bm_rect bm)) ltac:(lia)); unfold nb; lia).
      destruct sd.
      - destruct (block_of_index_surj bm k 0 W Hk (Z0 Rhs)) as (id & Hid & EE). exists id. rewrite EE. auto.
      - destruct (block_of_index_surj bm 0 k W (Z0 Lhs) Hk) as (id & Hid & EE). exists id. rewrite EE. auto. }
    destruct X as (id & Hid & <-). destruct (PA id sd (IN id Hid)) as [F|F]; [congruence|exact F].
Qed.
End Trace.
