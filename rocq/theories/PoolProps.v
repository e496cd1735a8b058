(** Lemmas with the statements of the thread pool properties. *)
From Verif Require Import Base ThreadPool ThreadPoolFacts PoolMainFacts PoolLogFacts PoolProgressFacts SpecPool.

Lemma pool_hinv : forall dbg script sched s, valid_script script -> exec dbg sched (init script) = Ok s -> hinv script s.
Proof. intros dbg script sched s V E. eapply exec_hinv; [|exact E]. apply init_hinv. exact V. Qed.
Lemma pool_runs : forall dbg script sched, valid_script script -> exists s, exec dbg sched (init script) = Ok s.
Proof. intros dbg script sched V. destruct (exec_inv dbg sched (init script) (init_inv script V)) as (s & E & _). eauto. Qed.

Lemma expected_part : forall c i p, exists rest, expected c i p ++ rest = run_once c i.
Proof. intros c i p. exists (skipn p (run_once c i)). apply firstn_skipn. Qed.

Lemma done_log : forall dbg script sched s, valid_script script -> exec dbg sched (init script) = Ok s -> s_main s = MDone -> calls 1 script (s_log s).
Proof.
  intros dbg script sched s V E D. pose proof (pool_hinv _ _ _ _ V E) as H. destruct (h_log _ _ H) as (ds & (log0 & C & L) & _).
  rewrite D in L. cbn [current] in L. destruct L as (L1 & L2 & _).
  assert (N : s_script s = []).
  { eapply (leaving_exec dbg sched (init script)); [apply init_inv; exact V|discriminate|exact E|]. rewrite D. reflexivity. }
  rewrite N, app_nil_r in L1. subst. exact C.
Qed.

Lemma every_task_once : forall dbg script sched, valid_script script ->
  exists s, exec dbg sched (init script) = Ok s /\ history script (s_log s) /\ (s_main s = MDone -> calls 1 script (s_log s)).
Proof.
  intros dbg script sched V. destruct (pool_runs dbg script sched V) as (s & E). exists s. split; [exact E|].
  split; [|eapply done_log; eauto]. pose proof (pool_hinv _ _ _ _ V E) as H. destruct (h_log _ _ H) as (ds & (log0 & C & L) & _).
  destruct (current (s_main s)) as [n|].
  - destruct L as (L1 & L2 & body & L3 & L4 & L5). exists ds, (n :: s_script s), log0, (ECall (s_call s) n :: body).
    split; [exact L1|]. split; [exact L3|]. split; [exact C|]. right. exists n, (s_script s), body. rewrite L2 in *. split; [reflexivity|]. split; [reflexivity|].
    split; [exact L4|]. intros i Hi. rewrite (L5 i Hi). apply expected_part.
  - destruct L as (L1 & L2 & _). exists ds, (s_script s), log0, []. rewrite app_nil_r. auto.
Qed.

Lemma done_destroyed : forall script s, hinv script s -> s_main s = MDone -> destroyed s.
Proof. intros script s H D. split; [exact D|]. intros k Hk. apply (h_joined _ _ H k); auto. Qed.

Lemma pool_finishes : forall dbg script sched, valid_script script -> fair_pool sched ->
  exists n s, exec dbg (first_steps sched n) (init script) = Ok s /\ destroyed s /\ calls 1 script (s_log s).
Proof.
  intros dbg script sched V F. destruct (pool_ends dbg script sched V F) as (n & s & E & D). exists n, s. split; [exact E|]. split.
  - eapply done_destroyed; eauto. eapply pool_hinv; eauto.
  - eapply done_log; eauto.
Qed.

Definition prompt (to : bool) : choice := {| ch_stale := 0; ch_timeout := to; ch_spurious := false |}.
Lemma reach_end : forall dbg to s, inv s -> exists more s', exec dbg (map (fun t => (t, prompt to)) more) s = Ok s' /\ s_main s' = MDone.
Proof.
  intros dbg to s. induction s as [s IH] using (well_founded_ind less_wf). intros I.
  destruct (mdone_dec s) as [D|D]; [exists [], s; auto|]. destruct (someone_stuck s I D) as (t & NS).
  destruct (step_inv dbg t (prompt to) s I) as (s1 & E1 & I1).
  destruct (step_progress dbg t (prompt to) s s1 I) as [(_ & X)|L]; [split; reflexivity|exact E1|tauto|].
  destruct (IH s1 L I1) as (more & s2 & E2 & D2). exists (t :: more), s2. split; [|exact D2]. cbn [map exec]. rewrite E1. exact E2.
Qed.

Lemma never_blocked : forall dbg script sched s timeouts, valid_script script -> exec dbg sched (init script) = Ok s ->
  exists more s', exec dbg (map (fun t => (t, {| ch_stale := 0; ch_timeout := timeouts; ch_spurious := false |})) more) s = Ok s' /\
                  destroyed s' /\ calls 1 script (s_log s').
Proof.
  intros dbg script sched s to V E. pose proof (pool_hinv _ _ _ _ V E) as H. destruct (reach_end dbg to s (h_inv _ _ H)) as (more & s' & E' & D).
  exists more, s'. split; [exact E'|]. assert (E2 : exec dbg (sched ++ map (fun t => (t, prompt to)) more) (init script) = Ok s') by (rewrite exec_app, E; exact E').
  split; [eapply done_destroyed; eauto; eapply pool_hinv; eauto|eapply done_log; eauto].
Qed.

(** * The counter *)

Lemma counter_run_app : forall a b c, counter_run c (a ++ b) = match counter_run c a with Some c' => counter_run c' b | None => None end.
Proof. induction a as [|e a IH]; intros b c; cbn [counter_run app]; [reflexivity|]. destruct (counter_step c e); auto. Qed.
Lemma decrements_cons : forall e es, decrements (e :: es) = decrements es + match e with CDecrement _ => 1 | _ => 0 end.
Proof. intros e es. unfold decrements. cbn [filter]. destruct e; cbn [length]; lia. Qed.
Lemma counter_run_mid : forall mid c c', no_reset mid -> counter_run c mid = Some c' -> c' = c - decrements mid.
Proof.
  induction mid as [|e mid IH]; intros c c' N H; cbn [counter_run] in H; [injection H as <-; unfold decrements; cbn; lia|].
  assert (N' : no_reset mid) by (intros n Hn; apply (N n); right; exact Hn). rewrite decrements_cons.
  destruct e as [n|hit|]; cbn [counter_step] in H; [exfalso; apply (N n); left; reflexivity| |].
  - destruct ((0 <? c) && Bool.eqb hit (c - 1 =? 0)); [|discriminate]. rewrite (IH _ _ N' H). lia.
  - destruct (c =? 0); [|discriminate]. rewrite (IH _ _ N' H). lia.
Qed.

Lemma counter_run_counts : forall es v, counter_run 0 es = Some v -> counts_down es.
Proof.
  intros es v H before n mid e after -> N. rewrite counter_run_app in H. destruct (counter_run 0 before) as [c|]; [|discriminate].
  cbn [counter_run] in H. cbn [counter_step] in H. destruct (c =? 0); [|discriminate].
  rewrite counter_run_app in H. destruct (counter_run n mid) as [c'|] eqn:Em; [|discriminate]. apply (counter_run_mid mid n c' N) in Em.
  cbn [counter_run] in H. destruct e as [m|hit|]; cbn [counter_step] in H.
  - destruct (Z.eqb_spec c' 0); [lia|discriminate].
  - destruct ((0 <? c') && Bool.eqb hit (c' - 1 =? 0)) eqn:B; [|discriminate]. apply andb_true_iff in B. destruct B as (_ & B). apply Bool.eqb_prop in B.
    subst hit. rewrite Z.eqb_eq. lia.
  - destruct (Z.eqb_spec c' 0); [lia|discriminate].
Qed.

Lemma counter_exact : forall dbg script sched s, valid_script script -> exec dbg sched (init script) = Ok s ->
  (exists v, counter_run 0 (s_clog s) = Some v) /\ counts_down (s_clog s).
Proof.
  intros dbg script sched s V E. pose proof (h_counter _ _ (pool_hinv _ _ _ _ V E)) as H. split; [eauto|]. eapply counter_run_counts; eauto.
Qed.

(** * The number of workers *)

Lemma called_app : forall a b, called (a ++ b) = (called a + called b)%nat.
Proof. intros. unfold called. rewrite filter_app, app_length. reflexivity. Qed.
Lemma returned_app : forall a b, returned (a ++ b) = (returned a + returned b)%nat.
Proof. intros. unfold returned. rewrite filter_app, app_length. reflexivity. Qed.
Lemma body_calls : forall c n body, only_tasks_of c n body -> called body = 0%nat /\ returned body = 0%nat.
Proof.
  intros c n body. induction body as [|e body IH]; intros H; [split; reflexivity|].
  destruct IH as (A & B); [intros x Hx; apply H; right; exact Hx|]. destruct (H e (or_introl eq_refl)) as (i & _ & [-> | ->]); split; assumption.
Qed.
Lemma calls_number : forall c ds log, calls c ds log -> called log = length ds /\ returned log = length ds.
Proof.
  intros c ds log H. induction H as [c|c n ns body rest (H & _) _ (IH1 & IH2)]; [split; reflexivity|].
  destruct (body_calls c n body H) as (A & B).
  change (ECall c n :: body ++ EReturn c :: rest) with ([ECall c n] ++ body ++ [EReturn c] ++ rest).
  rewrite !called_app, !returned_app, A, B, IH1, IH2. split; reflexivity.
Qed.

Lemma worker_count : forall dbg script sched s, valid_script script -> exec dbg sched (init script) = Ok s ->
  max_workers (firstn (returned (s_log s)) script) <= Z.of_nat (s_n s) <= max_workers (firstn (called (s_log s)) script).
Proof.
  intros dbg script sched s V E. destruct (h_log _ _ (pool_hinv _ _ _ _ V E)) as (ds & (log0 & C & L) & T). destruct (calls_number _ _ _ C) as (N1 & N2).
  unfold threads_ok in T. destruct (current (s_main s)) as [n|] eqn:Ec.
  - destruct L as (L1 & L2 & body & L3 & L4 & L5). destruct (body_calls _ _ _ L4) as (B1 & B2).
    rewrite L3, called_app, returned_app. change (ECall (s_call s) n :: body) with ([ECall (s_call s) n] ++ body).
    rewrite called_app, returned_app, B1, B2, N1, N2. change (called [ECall (s_call s) n]) with 1%nat. change (returned [ECall (s_call s) n]) with 0%nat.
    rewrite !Nat.add_0_r. assert (F1 : firstn (length ds) script = ds) by (rewrite L1, firstn_app, firstn_all, Nat.sub_diag; cbn; apply app_nil_r).
    assert (F2 : firstn (length ds + 1) script = ds ++ [n]).
    { rewrite L1. replace (ds ++ n :: s_script s) with ((ds ++ [n]) ++ s_script s) by (rewrite <- app_assoc; reflexivity).
      replace (length ds + 1)%nat with (length (ds ++ [n])) by (rewrite app_length; reflexivity). rewrite firstn_app, firstn_all, Nat.sub_diag. cbn. apply app_nil_r. }
    rewrite F1, F2, max_workers_snoc. clear - T Ec. pose proof (max_workers_nonneg ds).
    destruct (s_main s) as [|b|x|[x|x]|[x|x]|x|x j|[x|] j c|x b|[x|x] p|x|j|j|]; cbn [current created] in *; try discriminate; injection Ec as <-; lia.
  - destruct L as (L1 & L2 & _). rewrite L2, N1, N2.
    assert (F1 : firstn (length ds) script = ds) by (rewrite L1, firstn_app, firstn_all, Nat.sub_diag; cbn; apply app_nil_r).
    rewrite F1. destruct (s_main s); cbn [current] in *; try discriminate; try lia; rewrite Ec in T; lia.
Qed.

Lemma step_workers_grow : forall dbg t ch s s', inv s -> step dbg t ch s = Ok s' -> (s_n s <= s_n s')%nat.
Proof.
  intros dbg [|k] ch s s' I E. 2: {
    cbn [step] in E. destruct (Nat.ltb_spec k (s_n s)); [|injection E as <-; auto].
    pose proof (worker_effect dbg ch s k I ltac:(assumption) s' E) as W. rewrite (we_n k s s' W). auto. }
  cbn [step] in E. unfold main_step in E. destruct (s_main s) as [|b|n|e|e|n|n k|g k c|n b|e p|n|k|k|] eqn:Em.
  - destruct (s_script s) as [|n rest]; [injection E as <-; auto|]. destruct (dcheck dbg _) as [[]| |]; cbn [bind] in E; try discriminate. unfold use_tasks in E.
    destruct (all_ordered _ _ _) as [[]| |]; cbn [bind] in E; try discriminate. injection E as <-. auto.
  - destruct b; injection E as <-; auto.
  - destruct (dcheck dbg _) as [[]| |]; cbn [bind] in E; try discriminate. injection E as <-. auto.
  - destruct (load_count s (ch_stale ch)). destruct (dcheck dbg _) as [[]| |]; cbn [bind] in E; try discriminate. injection E as <-. auto.
  - destruct (ordered _ _) as [[]| |]; cbn [bind] in E; try discriminate. injection E as <-. auto.
  - destruct (Z.of_nat (s_n s) <? wrap_u 32 (n - 1)); injection E as <-; cbn; auto.
  - injection E as <-. auto.
  - destruct c.
    + destruct (dcheck dbg _) as [[]| |]; cbn [bind] in E; try discriminate. injection E as <-. auto.
    + destruct (ordered _ _) as [[]| |]; cbn [bind] in E; try discriminate. destruct (dcheck dbg _) as [[]| |]; cbn [bind] in E; try discriminate. injection E as <-. auto.
    + destruct (ordered _ _) as [[]| |]; cbn [bind] in E; try discriminate. injection E as <-. auto.
    + destruct (w_mutex (s_ws s k)); injection E as <-; auto.
    + injection E as <-. auto.
    + injection E as <-. auto.
  - destruct b; injection E as <-; auto.
  - destruct (load_count s (ch_stale ch)) as [x v'].
    destruct p as [| | | | | |[]]; try destruct (ch_timeout ch); try destruct (x =? 0); try destruct (s_cmutex s); try destruct (ch_spurious ch); injection E as <-; auto.
  - unfold use_tasks in E. destruct (all_ordered _ _ _) as [[]| |]; cbn [bind] in E; try discriminate. injection E as <-. auto.
  - destruct (k <? s_n s)%nat; injection E as <-; auto.
  - destruct (k <? s_n s)%nat; [|injection E as <-; auto]. destruct (dcheck dbg _) as [[]| |]; cbn [bind] in E; try discriminate.
    destruct (w_pc (s_ws s k)); injection E as <-; auto.
  - injection E as <-. auto.
Qed.

Lemma exec_workers_grow : forall dbg sched s s', inv s -> exec dbg sched s = Ok s' -> (s_n s <= s_n s')%nat.
Proof.
  intros dbg sched. induction sched as [|[t ch] sched IH]; intros s s' I E; cbn [exec] in E; [injection E as <-; auto|].
  destruct (step_inv dbg t ch s I) as (s1 & E1 & I1). rewrite E1 in E. cbn [bind] in E. pose proof (step_workers_grow dbg t ch s s1 I E1).
  specialize (IH s1 s' I1 E). lia.
Qed.

Lemma workers_alive : forall s k, inv s -> in_destructor (s_main s) = false -> (k < s_n s)%nat -> w_pc (s_ws s k) <> WDone.
Proof.
  intros s k I D Hk Ep. pose proof (i_w s I k Hk) as [P R _ _ _ _ _]. rewrite Ep in P, R. destruct P as (_ & P).
  cbn [after_dec] in R. destruct (s_main s) as [| | | | | |n j|[n|] j c| | | |j|j|]; cbn [role_of in_destructor role_change] in *; try discriminate;
    try (destruct R; congruence); try congruence.
  - destruct (k <? j)%nat; [congruence|destruct R; congruence].
  - destruct (k <? j)%nat; [congruence|]. destruct (k =? j)%nat; [|destruct R; congruence]. destruct c; cbn in R; destruct R as (R & _); try congruence; destruct R; congruence.
Qed.

Lemma workers_kept : forall dbg script sched1 sched2 s1 s2, valid_script script ->
  exec dbg sched1 (init script) = Ok s1 -> exec dbg sched2 s1 = Ok s2 ->
  (s_n s1 <= s_n s2)%nat /\
  (in_destructor (s_main s2) = false -> forall k, (k < s_n s2)%nat -> w_pc (s_ws s2 k) <> WDone).
Proof.
  intros dbg script sched1 sched2 s1 s2 V E1 E2. pose proof (pool_hinv _ _ _ _ V E1) as H1. split; [eapply exec_workers_grow; eauto; apply (h_inv _ _ H1)|].
  intros D k Hk. apply workers_alive; auto. destruct (exec_inv dbg sched2 s1 (h_inv _ _ H1)) as (s2' & E2' & I2). congruence.
Qed.

(** * No tasks *)

Lemma no_tasks_asserted : forall script n ch, n <= 0 -> exec true [(Main, ch)] (init (n :: script)) = Abort.
Proof. intros script n ch H. cbn [exec step]. unfold main_step. cbn [s_main init s_script]. destruct (Z.leb_spec 1 n); [lia|]. reflexivity. Qed.

Lemma spawning : forall m s ch, forall n, s_main s = MSpawn n -> Z.of_nat (s_n s) + Z.of_nat m <= wrap_u 32 (n - 1) ->
  exists s', exec false (repeat (Main, ch) m) s = Ok s' /\ s_n s' = (s_n s + m)%nat /\ s_main s' = MSpawn n.
Proof.
  induction m as [|m IH]; intros s ch n Em Hm; cbn [repeat exec]; [exists s; rewrite Nat.add_0_r; auto|].
  cbn [step]. unfold main_step at 1. rewrite Em. destruct (Z.ltb_spec (Z.of_nat (s_n s)) (wrap_u 32 (n - 1))); [|lia]. cbn [bind].
  match goal with |- exists s', exec _ _ ?s1 = _ /\ _ => destruct (IH s1 ch n) as (s' & E & A & B) end; [reflexivity|cbn [s_n]; lia|].
  exists s'. split; [exact E|]. split; [rewrite A; cbn [s_n]; lia|exact B].
Qed.

Lemma no_tasks_spawn : forall n m, int_min < n <= 0 -> Z.of_nat m <= 2 ^ 32 + n - 1 ->
  exists sched s, exec false sched (init [n]) = Ok s /\ s_n s = m.
Proof.
  intros n m Hn Hm. assert (W : wrap_u 32 (n - 1) = 2 ^ 32 + n - 1).
  { unfold wrap_u. symmetry. apply (Z.mod_unique_pos _ _ (-1)); unfold int_min in Hn; lia. }
  set (ch := prompt true).
  assert (X : exists s, exec false [(Main, ch); (Main, ch); (Main, ch); (Main, ch)] (init [n]) = Ok s /\ s_n s = 0%nat /\ s_main s = MSpawn n).
  { assert (A : exists s, main_step false ch (init [n]) = Ok s /\ s_main s = MCreate n /\ s_n s = 0%nat /\ h_ts (s_count s) = 0%nat).
    { unfold main_step. cbn [s_main init s_script dcheck bind]. unfold use_tasks. replace (Z.to_nat (n - 1)) with 0%nat by lia. cbn [all_ordered bind].
      eexists. split; [reflexivity|]. destruct (Z.eqb_spec n 1); [lia|]. repeat split. }
    assert (B : forall s, s_main s = MCreate n -> s_n s = 0%nat -> h_ts (s_count s) = 0%nat ->
       exists s', main_step false ch s = Ok s' /\ s_main s' = MResetLoad (ECreate n) /\ s_n s' = 0%nat /\ h_ts (s_count s') = 0%nat).
    { intros s E1 E2 E3. unfold main_step. rewrite E1, E2, W. cbn [dcheck bind]. destruct (Z.leb_spec (2 ^ 32 + n - 1) (Z.of_nat 0)); [unfold int_min in Hn; lia|].
      eexists. split; [reflexivity|]. auto. }
    assert (C : forall s, s_main s = MResetLoad (ECreate n) -> s_n s = 0%nat -> h_ts (s_count s) = 0%nat ->
       exists s', main_step false ch s = Ok s' /\ s_main s' = MResetStore (ECreate n) /\ s_n s' = 0%nat /\ h_ts (s_count s') = 0%nat).
    { intros s E1 E2 E3. unfold main_step. rewrite E1. destruct (load_count s (ch_stale ch)). cbn [dcheck bind]. eexists. split; [reflexivity|]. auto. }
    assert (D : forall s, s_main s = MResetStore (ECreate n) -> s_n s = 0%nat -> h_ts (s_count s) = 0%nat ->
       exists s', main_step false ch s = Ok s' /\ s_n s' = 0%nat /\ s_main s' = MSpawn n).
    { intros s E1 E2 E3. unfold main_step. rewrite E1, E3. unfold ordered. cbn [Nat.leb bind]. eexists. split; [reflexivity|]. auto. }
    destruct A as (s1 & E1 & A1 & A2 & A3). destruct (B s1 A1 A2 A3) as (s2 & E2 & B1 & B2 & B3). destruct (C s2 B1 B2 B3) as (s3 & E3 & C1 & C2 & C3).
    destruct (D s3 C1 C2 C3) as (s4 & E4 & D1). exists s4. cbn [exec step]. rewrite E1. cbn [bind]. rewrite E2. cbn [bind]. rewrite E3. cbn [bind]. rewrite E4. auto. }
  destruct X as (s1 & E1 & N1 & M1). destruct (spawning m s1 ch n M1) as (s2 & E2 & N2 & _); [rewrite N1, W; lia|].
  exists ([(Main, ch); (Main, ch); (Main, ch); (Main, ch)] ++ repeat (Main, ch) m), s2. rewrite exec_app, E1. cbn [bind]. split; [exact E2|]. rewrite N2, N1. reflexivity.
Qed.
