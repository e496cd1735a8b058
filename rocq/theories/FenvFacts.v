(** The invariant of the threads and their registers. *)
From Verif Require Import Base SpecDenormal ThreadPool SpecPool ThreadPoolFacts PoolMainFacts PoolLogFacts PoolProps Denormal SpecFenv DenormalFacts.

Lemma tasks_of_script : forall calls, tasks_of calls = pool_script calls.
Proof. induction calls as [|[p [n|]] calls IH]; cbn; congruence. Qed.
Lemma script_valid : forall calls, valid_calls calls -> Forall (fun n => 1 <= n <= int_max) (pool_script calls).
Proof.
  induction calls as [|m calls IH]; intros V; cbn; [constructor|].
  assert (V' : valid_calls calls) by (intros m' n Hm; apply V; right; exact Hm).
  destruct (mc_tasks m) as [n|] eqn:E; [|auto]. constructor; [|auto]. eapply V; [left; reflexivity|exact E].
Qed.

(** * Logs *)

Record log_fine (a : fpu) (number n : nat) (log : list devent) : Prop := {
  lf_kernels : kernels_suppressed a log;
  lf_calls : forall c r, In (DCall c r) log -> (c <= number)%nat;
  lf_call : forall c r r', In (DCall c r) log -> In (DCall c r') log -> r' = r;
  lf_starts : forall k r, In (DStart k r) log -> (k < n)%nat;
  lf_start : forall k r r', In (DStart k r) log -> In (DStart k r') log -> r' = r;
  lf_return : forall c r, In (DReturn c r) log -> In (DCall c r) log;
  lf_exit : forall k r, In (DExit k r) log -> In (DStart k r) log
}.

(** One more event. *)
Definition may_add (a : fpu) (number n : nat) (log : list devent) (e : devent) : Prop :=
  match e with
  | DBegin _ _ r | DEnd _ _ r => suppressed a r
  | DCall c r => c = number /\ forall r', ~ In (DCall c r') log
  | DStart k r => (k < n)%nat /\ forall r', ~ In (DStart k r') log
  | DReturn c r => In (DCall c r) log
  | DExit k r => In (DStart k r) log
  | DPack _ _ => True
  end.
Lemma in_snoc : forall {A} (x y : A) l, In x (l ++ [y]) -> In x l \/ x = y.
Proof. intros A x y l H. apply in_app_or in H. destruct H as [H|[H|[]]]; auto. Qed.
Lemma in_old : forall {A} (x y : A) l, In x l -> In x (l ++ [y]).
Proof. intros. apply in_or_app. auto. Qed.

Lemma log_add : forall a number n number' n' log e, log_fine a number n log -> (number <= number')%nat -> (n <= n')%nat ->
  may_add a number' n' log e -> log_fine a number' n' (log ++ [e]).
Proof.
  intros a number n number' n' log e [K C C1 S S1 R X] Hn Hm M. constructor.
  - intros t w r [H|H]; apply in_snoc in H; (destruct H as [H|<-]; [eapply K; eauto|exact M]).
  - intros c r H. apply in_snoc in H. destruct H as [H|<-]; [specialize (C c r H); lia|]. destruct M. lia.
  - intros c r r' H H'. apply in_snoc in H. apply in_snoc in H'. destruct H as [H|<-].
    + destruct H' as [H'|<-]; [eauto|]. destruct M as (_ & M). elim (M r H).
    + destruct H' as [H'|H']; [|congruence]. destruct M as (_ & M). elim (M r' H').
  - intros k r H. apply in_snoc in H. destruct H as [H|<-]; [specialize (S k r H); lia|]. destruct M. lia.
  - intros c r r' H H'. apply in_snoc in H. apply in_snoc in H'. destruct H as [H|<-].
    + destruct H' as [H'|<-]; [eauto|]. destruct M as (_ & M). elim (M r H).
    + destruct H' as [H'|H']; [|congruence]. destruct M as (_ & M). elim (M r' H').
  - intros c r H. apply in_snoc in H. apply in_old. destruct H as [H|<-]; [auto|exact M].
  - intros c r H. apply in_snoc in H. apply in_old. destruct H as [H|<-]; [auto|exact M].
Qed.
Lemma log_more : forall a number n n' log, log_fine a number n log -> (n <= n')%nat -> log_fine a number n' log.
Proof. intros a number n n' log [K C C1 S S1 R X] H. constructor; auto. intros k r Hk. specialize (S k r Hk). lia. Qed.

Lemma tasks_seen_app : forall l l', tasks_seen (l ++ l') = tasks_seen l ++ tasks_seen l'.
Proof. induction l as [|e l IH]; intros l'; [reflexivity|]. destruct e as [| | |[]|[]| |]; cbn; rewrite ?IH; reflexivity. Qed.

(** * The invariant *)

Section Threads.
Variables (a : fpu) (dbg : bool) (calls : list mul_call).

Definition scoped (e : fenv) (x : Z) : Prop := e_scope e = Some x /\ a_register a x /\ suppressed a (e_reg e) /\ kept a (e_reg e).
Definition plain (e : fenv) : Prop := e_scope e = None /\ a_register a (e_reg e).

Definition main_fine (s : dst) : Prop :=
  let p := d_pool s in
  match d_phase s with
  | POut => plain (d_main s) /\ s_script p = pool_script (d_calls s) /\ (s_main p = MNext \/ d_calls s = [] /\ in_destructor (s_main p) = true)
  | PPrep m | PScope m => plain (d_main s) /\ In (DCall (d_number s) (e_reg (d_main s))) (d_log s) /\
                          s_script p = pool_script (m :: d_calls s) /\ s_main p = MNext
  | PSimple _ | PLeave => (exists x, scoped (d_main s) x /\ In (DCall (d_number s) x) (d_log s)) /\
                          s_script p = pool_script (d_calls s) /\ s_main p = MNext
  | PPool => (exists x, scoped (d_main s) x /\ In (DCall (d_number s) x) (d_log s)) /\
             ((s_main p = MNext /\ exists n, s_script p = n :: pool_script (d_calls s)) \/
              (s_main p <> MNext /\ in_destructor (s_main p) = false /\ s_script p = pool_script (d_calls s)))
  end.
Definition worker_fine (log : list devent) (k : nat) (w : worker) (e : fenv) : Prop :=
  (exists x, scoped e x /\ In (DStart k x) log /\ w_pc w <> WDone) \/
  (e_scope e = None /\ w_pc w = WDone) \/
  (plain e /\ beginning w /\ In (DStart k (e_reg e)) log).

Record dinv (s : dst) : Prop := {
  di_pool : inv (d_pool s);
  di_reach : exists sched, exec dbg sched (init (pool_script calls)) = Ok (d_pool s);
  di_tasks : tasks_seen (d_log s) = tasks_run (s_log (d_pool s));
  di_main : main_fine s;
  di_ws : forall k, (k < s_n (d_pool s))%nat -> worker_fine (d_log s) k (s_ws (d_pool s) k) (d_ws s k);
  di_log : log_fine a (d_number s) (s_n (d_pool s)) (d_log s)
}.

Lemma exec_snoc : forall sched s s1 t ch s2, exec dbg sched s = Ok s1 -> step dbg t ch s1 = Ok s2 -> exec dbg (sched ++ [(t, ch)]) s = Ok s2.
Proof.
  induction sched as [|[t' ch'] sched IH]; intros s s1 t ch s2 E1 E2; cbn [exec app] in *.
  - injection E1 as ->. rewrite E2. reflexivity.
  - destruct (step dbg t' ch' s); cbn [bind] in *; try discriminate. eapply IH; eauto.
Qed.

Lemma dinit_fine : forall r, valid_calls calls -> a_register a r -> dinv (dinit calls r).
Proof.
  intros r V R. constructor; cbn.
  - apply init_inv. apply script_valid. exact V.
  - exists []. reflexivity.
  - reflexivity.
  - unfold main_fine, plain. cbn. auto.
  - intros k Hk. lia.
  - constructor; cbn; try (intros; contradiction). intros t w r' [[]|[]].
Qed.

Lemma worker_fine_more : forall log e k w v, worker_fine log k w v -> worker_fine (log ++ [e]) k w v.
Proof.
  intros log e k w v [(x & A & B & C)|[A|(A & B & C)]]; [left|right; left|right; right]; auto.
  - exists x. auto using in_old.
  - auto using in_old.
Qed.

(** Steps of the calling thread outside the pool. *)
Lemma quiet_main : forall s s' es, dinv s -> d_pool s' = d_pool s -> d_ws s' = d_ws s -> (d_number s <= d_number s')%nat -> main_fine s' ->
  d_log s' = d_log s ++ es -> tasks_seen es = [] ->
  (es = [] \/ exists e, es = [e] /\ may_add a (d_number s') (s_n (d_pool s)) (d_log s) e) -> dinv s'.
Proof.
  intros s s' es [I Rc T M W L] E1 E2 E3 E4 E5 E6 E7. constructor; rewrite ?E1, ?E2; auto.
  - rewrite E5, tasks_seen_app, E6, app_nil_r. exact T.
  - intros k Hk. rewrite E5. destruct E7 as [->|(e & -> & _)]; [rewrite app_nil_r; auto|]. apply worker_fine_more. auto.
  - rewrite E5. destruct E7 as [->|(e & -> & A)]; [rewrite app_nil_r; destruct L; constructor; auto|].
    + intros c r H. specialize (lf_calls0 c r H). lia.
    + eapply log_add; eauto.
Qed.

Lemma pool_script_cons : forall m rest, pool_script (m :: rest) = match mc_tasks m with None => pool_script rest | Some n => n :: pool_script rest end.
Proof. reflexivity. Qed.

Lemma no_new_call : forall s r', dinv s -> ~ In (DCall (S (d_number s)) r') (d_log s).
Proof. intros s r' [_ _ _ _ _ L] H. pose proof (lf_calls _ _ _ _ L _ _ H). lia. Qed.

Lemma computed_scoped : forall e x f, scoped e x -> scoped (computed a f e) x.
Proof.
  intros e x f (A & B & C & D). repeat split; auto; try (apply B). 1: apply computed_suppressed; exact C. apply kept_computed.
Qed.

Lemma outside_step : forall ch s s', dinv s -> d_phase s <> PPool -> ~ (d_phase s = POut /\ dc_set ch = None /\ d_calls s = []) ->
  (forall r, dc_set ch = Some r -> a_register a r) ->
  dmain_step a dbg ch s = Ok s' -> dinv s'.
Proof.
  intros ch s s' D Np Nd V E. pose proof D as [I Rc T M W L]. unfold main_fine in M. unfold dmain_step in E.
  destruct (d_phase s) as [|m|m|b| |] eqn:Ep; try congruence.
  - destruct (dc_set ch) as [r|] eqn:Es.
    + injection E as <-. apply (quiet_main s _ []); auto; [|cbn; rewrite app_nil_r; reflexivity]. unfold main_fine. cbn. rewrite Ep.
      destruct M as ((M1 & M2) & M3). split; [split; cbn; [exact M1|auto]|exact M3].
    + destruct (d_calls s) as [|m rest] eqn:Ec; [tauto|]. injection E as <-.
      apply (quiet_main s _ [DCall (S (d_number s)) (e_reg (d_main s))]); auto; cbn; try lia.
      * unfold main_fine. cbn. destruct M as (M1 & M2 & M3). split; [exact M1|]. split; [apply in_or_app; right; left; reflexivity|]. split; [exact M2|].
        destruct M3 as [M3|(M3 & _)]; [exact M3|discriminate].
      * right. eexists. split; [reflexivity|]. cbn. split; [reflexivity|]. intros r'. apply (no_new_call s r' D).
  - injection E as <-. destruct (mc_packs m).
    + apply (quiet_main s _ [DPack (d_number s) (e_reg (d_main s))]); auto; [|right; eexists; split; [reflexivity|exact Logic.I]].
      unfold main_fine. cbn. destruct M as (M1 & M2 & M3). auto using in_old.
    + apply (quiet_main s _ []); auto. cbn. rewrite app_nil_r. reflexivity.
  - injection E as <-. apply (quiet_main s _ []); auto; [|cbn; rewrite app_nil_r; reflexivity].
    destruct M as ((M1 & M2) & M3 & M4 & M5). rewrite pool_script_cons in M4.
    assert (X : exists x, scoped (scope_begin a (d_main s)) x /\ In (DCall (d_number s) x) (d_log s)).
    { exists (e_reg (d_main s)). split; [|exact M3]. split; [cbn; rewrite saved_same by exact M2; reflexivity|]. split; [exact M2|].
      split; [apply disabled|apply kept_disabled; exact M2]. }
    unfold main_fine. cbn. destruct (mc_tasks m) as [n|]; (split; [exact X|]); [left; split; [exact M5|exists n; exact M4]|auto].
  - destruct M as ((x & M1 & M2) & M3). destruct b; injection E as <-.
    + apply (quiet_main s _ [DEnd None Main (e_reg (computed a (dc_flags ch) (d_main s)))]); auto.
      * unfold main_fine. cbn. split; [|exact M3]. exists x. split; [apply computed_scoped; exact M1|apply in_old; exact M2].
      * right. eexists. split; [reflexivity|]. cbn. apply computed_suppressed. apply M1.
    + apply (quiet_main s _ [DBegin None Main (e_reg (d_main s))]); auto.
      * unfold main_fine. cbn. split; [|exact M3]. exists x. split; [exact M1|apply in_old; exact M2].
      * right. eexists. split; [reflexivity|]. cbn. apply M1.
  - destruct M as ((x & M1 & M2) & M3 & M4). destruct M1 as (S1 & S2 & S3 & S4). destruct (scope_restores a (d_main s) x S2 S1 S4) as (e & E1 & E2 & E3).
    rewrite E1 in E. cbn [bind] in E. injection E as <-. apply (quiet_main s _ [DReturn (d_number s) (e_reg e)]); auto.
    + unfold main_fine, plain. cbn. rewrite E2. auto.
    + right. eexists. split; [reflexivity|]. cbn. rewrite E2. exact M2.
Qed.

Lemma observe_all_one : forall f e s, observe_all a f [e] s = observe a f e s.
Proof. reflexivity. Qed.

Lemma tasks_run_app : forall l l', tasks_run (l ++ l') = tasks_run l ++ tasks_run l'.
Proof. intros. unfold tasks_run. apply filter_app. Qed.

Lemma beginning_not_done : forall w, beginning w -> w_pc w <> WDone.
Proof. intros w B E. unfold beginning in B. rewrite E in B. contradiction. Qed.

Lemma worker_fine_step : forall log k w w' v, worker_fine log k w v -> (w_pc w' = WDone <-> w_pc w = WDone) -> (beginning w -> beginning w') ->
  worker_fine log k w' v.
Proof.
  intros log k w w' v [(x & A & B & C)|[(A & B)|(A & B & C)]] D E; [left; exists x|right; left|right; right]; auto. 2: tauto.
  split; [exact A|]. split; [exact B|]. tauto.
Qed.

(** A step of the calling thread in the pool. *)
Lemma inside_step : forall ch s s', dinv s -> d_phase s = PPool \/ (d_phase s = POut /\ d_calls s = []) ->
  a_register a (dc_new ch) -> pool_main_step a dbg ch s = Ok s' -> dinv s'.
Proof.
  intros ch s s' D Hp Vn E. pose proof D as [I Rc T M W L]. unfold pool_main_step in E. cbn [step] in E.
  destruct (step_inv dbg Main (dc_pool ch) (d_pool s) I) as (p' & E1 & I1). cbn [step] in E1. rewrite E1 in E. cbn [bind] in E. cbv zeta in E.
  set (p := d_pool s) in *. pose proof (main_moved dbg (dc_pool ch) p p' I E1) as Mv.
  assert (Rc' : exists sched, exec dbg sched (init (pool_script calls)) = Ok p').
  { destruct Rc as (sched & Rc). eexists. eapply (exec_snoc _ _ _ Main (dc_pool ch)); [exact Rc|]. exact E1. }
  destruct (mm_news _ _ Mv) as (Lg & Nw).
  (* what is observed *)
  assert (Ob : exists es m, observe_all a (dc_flags ch) (news p p') (with_pool s p') =
      {| d_pool := p'; d_calls := d_calls s; d_number := d_number s; d_phase := d_phase s; d_main := m; d_ws := d_ws s; d_log := d_log s ++ es |} /\
      tasks_seen es = tasks_run (news p p') /\ (es = [] \/ exists e, es = [e] /\ may_add a (d_number s) (s_n p) (d_log s) e) /\
      (d_phase s = POut -> m = d_main s) /\ (forall x, scoped (d_main s) x -> scoped m x)).
  { assert (Same : forall es, es = [] -> exists es0 m, with_pool s p' = {| d_pool := p'; d_calls := d_calls s; d_number := d_number s; d_phase := d_phase s; d_main := m; d_ws := d_ws s; d_log := d_log s ++ es0 |} /\
      tasks_seen es0 = es /\ (es0 = [] \/ exists e, es0 = [e] /\ may_add a (d_number s) (s_n p) (d_log s) e) /\
      (d_phase s = POut -> m = d_main s) /\ (forall x, scoped (d_main s) x -> scoped m x)).
    { intros es ->. exists [], (d_main s). unfold with_pool. rewrite app_nil_r. auto. }
    destruct Nw as [Nw|[(n & c & Nw)|[(c & Nw & _)|(Nd & Nm & t & Nw)]]].
    - rewrite Nw. apply Same. reflexivity.
    - rewrite Nw. apply Same. reflexivity.
    - rewrite Nw. apply Same. reflexivity.
    - unfold main_fine in M. fold p in M. destruct Hp as [Hp|(Hp & Hc)]; rewrite Hp in M.
      + destruct M as ((x & M1 & _) & _). destruct Nw as [Nw|Nw]; rewrite Nw, observe_all_one.
        * exists [DBegin (Some t) Main (e_reg (d_main s))], (d_main s). split; [reflexivity|]. split; [reflexivity|]. split; [|split; auto].
          right. eexists. split; [reflexivity|]. apply M1.
        * exists [DEnd (Some t) Main (e_reg (computed a (dc_flags ch) (d_main s)))], (computed a (dc_flags ch) (d_main s)). split; [reflexivity|]. split; [reflexivity|].
          split; [|split; [rewrite Hp; discriminate|intros; apply computed_scoped; assumption]].
          right. eexists. split; [reflexivity|]. cbn. apply computed_suppressed. apply M1.
      + destruct M as (_ & _ & [M|(_ & M)]); congruence. }
  destruct Ob as (es & m & Ob & Ts & Add & Mo & Ms). rewrite Ob in E.
  (* the new thread, if there is one *)
  assert (New : exists es2 ws2, (if (s_n p <? s_n p')%nat
           then demit (with_worker_env {| d_pool := p'; d_calls := d_calls s; d_number := d_number s; d_phase := d_phase s; d_main := m; d_ws := d_ws s; d_log := d_log s ++ es |} (s_n p) {| e_reg := dc_new ch; e_scope := None |}) (DStart (s_n p) (dc_new ch))
           else {| d_pool := p'; d_calls := d_calls s; d_number := d_number s; d_phase := d_phase s; d_main := m; d_ws := d_ws s; d_log := d_log s ++ es |}) =
      {| d_pool := p'; d_calls := d_calls s; d_number := d_number s; d_phase := d_phase s; d_main := m; d_ws := ws2; d_log := (d_log s ++ es) ++ es2 |} /\
      tasks_seen es2 = [] /\ (forall c x, In (DCall c x) (d_log s) -> In (DCall c x) ((d_log s ++ es) ++ es2)) /\
      log_fine a (d_number s) (s_n p') ((d_log s ++ es) ++ es2) /\
      (forall k, (k < s_n p')%nat -> worker_fine ((d_log s ++ es) ++ es2) k (s_ws p' k) (ws2 k))).
  { assert (L2 : log_fine a (d_number s) (s_n p) (d_log s ++ es)).
    { destruct Add as [->|(e & -> & A)]; [rewrite app_nil_r; exact L|]. eapply log_add; [exact L|lia|lia|exact A]. }
    assert (W2 : forall k, (k < s_n p)%nat -> worker_fine (d_log s ++ es) k (s_ws p' k) (d_ws s k)).
    { intros k Hk. assert (X : worker_fine (d_log s) k (s_ws p' k) (d_ws s k)).
      { eapply worker_fine_step; [apply W; exact Hk|apply (mm_done _ _ Mv k Hk)|apply (mm_ws _ _ Mv k Hk)]. }
      destruct Add as [->|(e & -> & A)]; [rewrite app_nil_r; exact X|apply worker_fine_more; exact X]. }
    destruct (mm_n _ _ Mv) as [En|(En & Ew)].
    - rewrite En, Nat.ltb_irrefl. exists [], (d_ws s). rewrite !app_nil_r. split; [reflexivity|]. split; [reflexivity|]. split; [intros; apply in_or_app; auto|].
      split; [exact L2|exact W2].
    - rewrite En. replace (s_n p <? S (s_n p))%nat with true by (symmetry; apply Nat.ltb_lt; lia).
      exists [DStart (s_n p) (dc_new ch)], (upd (d_ws s) (s_n p) {| e_reg := dc_new ch; e_scope := None |}).
      split; [reflexivity|]. split; [reflexivity|]. split; [intros; apply in_old; apply in_or_app; auto|]. split.
      + eapply log_add; [exact L2|lia|lia|]. cbn. split; [lia|]. intros r' H. pose proof (lf_starts _ _ _ _ L2 _ _ H). lia.
      + intros k Hk. destruct (Nat.eq_dec k (s_n p)) as [->|Nk].
        * rewrite upd_same, Ew. right. right. cbn [e_scope e_reg]. split; [split; [reflexivity|exact Vn]|]. split; [reflexivity|]. apply in_or_app. right. left. reflexivity.
        * rewrite upd_other by exact Nk. apply worker_fine_more. apply W2. lia. }
  destruct New as (es2 & ws2 & New & Ts2 & Ca & L3 & W3). rewrite New in E.
  assert (Tk : tasks_seen ((d_log s ++ es) ++ es2) = tasks_run (s_log p')).
  { rewrite !tasks_seen_app, Ts2, app_nil_r, Ts, T, Lg, tasks_run_app. reflexivity. }
  unfold main_fine in M. fold p in M.
  destruct (returns (news p p')) eqn:Er; injection E as <-.
  - constructor; cbn [d_pool d_log d_ws d_number with_phase]; auto. unfold main_fine. cbn [d_phase with_phase d_pool d_main d_log d_calls d_number].
    assert (Mn : s_main p' = MNext /\ s_main p <> MNext).
    { destruct Nw as [Nw|[(n & c & Nw)|[(c & Nw & Nx)|(_ & _ & t & [Nw|Nw])]]]; rewrite Nw in Er; try discriminate. split; [exact Nx|].
      intros X. pose proof (mm_next _ _ Mv X) as Y. destruct (s_script p); [|tauto]. rewrite Nx in Y. destruct Y. discriminate. }
    destruct Mn as (Mn & Mp). pose proof (mm_inside _ _ Mv Mp) as (Mi & _). rewrite Mn in Mi. cbn in Mi.
    destruct Hp as [Hp|(Hp & Hc)]; rewrite Hp in M.
    + destruct M as ((x & M1 & M2) & [(M3 & _)|(_ & _ & M3)]); [congruence|]. split; [exists x; auto|]. split; [|exact Mn]. rewrite (mm_script _ _ Mv Mp). exact M3.
    + destruct M as (_ & _ & [M|(_ & M)]); congruence.
  - constructor; cbn [d_pool d_log d_ws d_number]; auto. unfold main_fine. cbn [d_phase d_pool d_main d_log d_calls d_number].
    destruct Hp as [Hp|(Hp & Hc)]; rewrite Hp in *.
    + destruct M as ((x & M1 & M2) & M3). split; [exists x; auto|]. right. destruct M3 as [(M3 & n & M4)|(M3 & M4 & M5)].
      * pose proof (mm_next _ _ Mv M3) as X. rewrite M4 in X. tauto.
      * destruct (mm_inside _ _ Mv M3) as (A & B). rewrite A. auto. split; [auto|]. split; [exact M4|]. rewrite (mm_script _ _ Mv M3). exact M5.
    + destruct M as (M1 & M2 & M3). rewrite (Mo eq_refl). split; [exact M1|]. rewrite Hc in *. cbn [pool_script] in *. destruct M3 as [M3|(_ & M3)].
      * pose proof (mm_next _ _ Mv M3) as X. rewrite M2 in X. destruct X as (X1 & X2). auto.
      * assert (Nm : s_main p <> MNext) by (intros X; rewrite X in M3; discriminate). destruct (mm_inside _ _ Mv Nm) as (A & _). rewrite A, (mm_script _ _ Mv Nm). auto.
Qed.

Lemma woken_main : forall m m', woken m m' -> (m' = MNext <-> m = MNext) /\ in_destructor m' = in_destructor m.
Proof. intros m m' [->|(e & -> & ->)]; [tauto|]. split; [split; discriminate|reflexivity]. Qed.

(** The calling thread does not notice the steps of workers. *)
Lemma main_fine_kept : forall s s', main_fine s -> d_phase s' = d_phase s -> d_main s' = d_main s -> d_calls s' = d_calls s -> d_number s' = d_number s ->
  (exists es, d_log s' = d_log s ++ es) -> s_script (d_pool s') = s_script (d_pool s) -> woken (s_main (d_pool s)) (s_main (d_pool s')) -> main_fine s'.
Proof.
  intros s s' M E1 E2 E3 E4 (es & E5) E6 E7. apply woken_main in E7. destruct E7 as (E7 & E8). unfold main_fine in *.
  rewrite E1, E2, E3, E4, E5, E6, E8.
  assert (Q : forall e, In e (d_log s) -> In e (d_log s ++ es)) by (intros; apply in_or_app; auto).
  destruct (d_phase s).
  - destruct M as (M1 & M2 & M3). rewrite E7. auto.
  - destruct M as (M1 & M2 & M3 & M4). rewrite E7. auto.
  - destruct M as (M1 & M2 & M3 & M4). rewrite E7. auto.
  - destruct M as ((x & M1 & M2) & M3 & M4). rewrite E7. split; [exists x; auto|auto].
  - destruct M as ((x & M1 & M2) & M3). split; [exists x; auto|]. rewrite E7. exact M3.
  - destruct M as ((x & M1 & M2) & M3 & M4). rewrite E7. split; [exists x; auto|auto].
Qed.

Lemma worker_dstep : forall k ch s, dinv s -> (k < s_n (d_pool s))%nat -> exists s', dworker_step a dbg k ch s = Ok s' /\ dinv s'.
Proof.
  intros k ch s D Hk. pose proof D as [I Rc T M W L]. pose proof (W k Hk) as Wk.
  (* the beginning of the scope *)
  assert (Begin : e_scope (d_ws s k) = None -> w_pc (s_ws (d_pool s) k) = WWait PCheck -> dinv (with_worker_env s k (scope_begin a (d_ws s k)))).
  { intros En Ep. destruct Wk as [(x & (A & _) & _)|[(_ & A)|((_ & A) & B & C)]]; try congruence.
    constructor; cbn; auto. intros j Hj. destruct (Nat.eq_dec j k) as [->|Nj]; [|rewrite upd_other by exact Nj; auto].
    rewrite upd_same. left. exists (e_reg (d_ws s k)). split; [|split; [exact C|rewrite Ep; discriminate]].
    split; [cbn; rewrite saved_same by exact A; reflexivity|]. split; [exact A|]. split; [apply disabled|apply kept_disabled; exact A]. }
  unfold dworker_step. set (p := d_pool s) in *.
  destruct (step_inv dbg (Worker k) (dc_pool ch) p I) as (p' & E1 & I1).
  assert (E1' := E1). cbn [step] in E1'. replace (k <? s_n p)%nat with true in E1' by (symmetry; apply Nat.ltb_lt; exact Hk).
  pose proof (worker_moved dbg (dc_pool ch) k p p' I Hk E1') as Mv.
  (* a step of the pool *)
  assert (Move : (e_scope (d_ws s k) = None -> w_pc (s_ws p k) <> WWait PCheck) -> exists s',
     (let s0 := observe_all a (dc_flags ch) (news p p') (with_pool s p') in
      match w_pc (s_ws p k), w_pc (s_ws p' k) with
      | WEnd, WDone => e <- scope_end a (d_ws s0 k) ;; Ok (demit (with_worker_env s0 k e) (DExit k (e_reg e)))
      | _, _ => Ok s0 end) = Ok s' /\ dinv s').
  { intros Nc. cbv zeta.
    assert (Rc' : exists sched, exec dbg sched (init (pool_script calls)) = Ok p').
    { destruct Rc as (sched & Rc). eexists. eapply exec_snoc; [exact Rc|]. exact E1. }
    destruct (wm_news _ _ _ Mv) as (Lg & Nw).
    assert (Ob : exists es v, observe_all a (dc_flags ch) (news p p') (with_pool s p') =
        {| d_pool := p'; d_calls := d_calls s; d_number := d_number s; d_phase := d_phase s; d_main := d_main s; d_ws := v; d_log := d_log s ++ es |} /\
        tasks_seen es = tasks_run (news p p') /\ (es = [] \/ exists e, es = [e] /\ may_add a (d_number s) (s_n p) (d_log s) e) /\
        (forall j, j <> k -> v j = d_ws s j) /\ (e_scope (d_ws s k) = None -> v k = d_ws s k) /\ (forall x, scoped (d_ws s k) x -> scoped (v k) x)).
    { destruct Nw as [Nw|(t & Nw)].
      - rewrite Nw. exists [], (d_ws s). unfold with_pool. cbn. rewrite app_nil_r. auto 10.
      - destruct Wk as [(x & A & B & C)|[(A & B)|(A & B & C)]].
        + destruct Nw as [Nw|Nw]; rewrite Nw, observe_all_one.
          * exists [DBegin (Some t) (Worker k) (e_reg (d_ws s k))], (d_ws s). split; [reflexivity|]. split; [reflexivity|]. split; [|auto].
            right. eexists. split; [reflexivity|]. apply A.
          * exists [DEnd (Some t) (Worker k) (e_reg (computed a (dc_flags ch) (d_ws s k)))], (upd (d_ws s) k (computed a (dc_flags ch) (d_ws s k))).
            split; [cbn; unfold demit, with_worker_env; cbn; rewrite upd_same; reflexivity|]. split; [reflexivity|]. split.
            -- right. eexists. split; [reflexivity|]. cbn. apply computed_suppressed. apply A.
            -- rewrite upd_same. split; [intros; apply upd_other; assumption|]. split; [destruct A; congruence|]. intros; apply computed_scoped; assumption.
        + pose proof (wm_was_done _ _ _ Mv B) as X. rewrite X in Nw. rewrite (news_none p p eq_refl) in Nw. destruct Nw; discriminate.
        + destruct (wm_beginning _ _ _ Mv B) as (_ & X); [apply Nc; apply A|]. rewrite X in Nw. destruct Nw; discriminate. }
    destruct Ob as (es & v & Ob & Ts & Add & Vo & Vk & Vs). rewrite Ob. cbn [d_ws].
    assert (L2 : log_fine a (d_number s) (s_n p') (d_log s ++ es)).
    { rewrite (wm_n _ _ _ Mv). destruct Add as [->|(e & -> & A)]; [rewrite app_nil_r; exact L|]. eapply log_add; [exact L|lia|lia|exact A]. }
    assert (Tk : tasks_seen (d_log s ++ es) = tasks_run (s_log p')).
    { rewrite !tasks_seen_app, Ts, T, Lg, tasks_run_app. reflexivity. }
    assert (W2 : forall j, (j < s_n p')%nat -> j <> k -> worker_fine (d_log s ++ es) j (s_ws p' j) (v j)).
    { intros j Hj Nj. rewrite (wm_n _ _ _ Mv) in Hj. rewrite (Vo j Nj), (wm_others _ _ _ Mv j Nj).
      destruct Add as [->|(e & -> & A)]; [rewrite app_nil_r; auto|]. apply worker_fine_more. auto. }
    assert (Q : forall e, In e (d_log s) -> In e (d_log s ++ es)) by (intros; apply in_or_app; auto).
    assert (Exit : (w_pc (s_ws p k) = WEnd /\ w_pc (s_ws p' k) = WDone) \/
                   ~ (w_pc (s_ws p k) = WEnd /\ w_pc (s_ws p' k) = WDone)).
    { destruct (w_pc (s_ws p k)); try (right; intros (X & _); discriminate). destruct (w_pc (s_ws p' k)); try (right; intros (_ & X); discriminate). auto. }
    destruct Exit as [(X1 & X2)|X].
    - rewrite X1, X2. destruct Wk as [(x & A & B & C)|[(A & B)|(A & B & C)]]; [|congruence|unfold beginning in B; rewrite X1 in B; contradiction].
      destruct (Vs x A) as (S1 & S2 & S3 & S4). destruct (scope_restores a (v k) x S2 S1 S4) as (e & Y1 & Y2 & Y3). rewrite Y1. cbn [bind].
      eexists. split; [reflexivity|]. constructor; cbn [d_pool d_log d_ws d_number demit with_worker_env]; auto.
      + rewrite tasks_seen_app. cbn. rewrite app_nil_r. exact Tk.
      + eapply main_fine_kept; [exact M|reflexivity..| |apply (wm_script _ _ _ Mv)|apply (wm_main _ _ _ Mv)]. cbn. exists (es ++ [DExit k (e_reg e)]). rewrite app_assoc. reflexivity.
      + intros j Hj. apply worker_fine_more. destruct (Nat.eq_dec j k) as [->|Nj]; [|rewrite upd_other by exact Nj; auto].
        rewrite upd_same. right. left. auto.
      + eapply log_add; [exact L2|lia|lia|]. cbn. rewrite Y2. auto.
    - exists {| d_pool := p'; d_calls := d_calls s; d_number := d_number s; d_phase := d_phase s; d_main := d_main s; d_ws := v; d_log := d_log s ++ es |}. split.
      + destruct (w_pc (s_ws p k)); try reflexivity. destruct (w_pc (s_ws p' k)); try reflexivity. elim X. auto.
      + constructor; cbn [d_pool d_log d_ws d_number]; auto.
        * eapply main_fine_kept; [exact M|reflexivity..| |apply (wm_script _ _ _ Mv)|apply (wm_main _ _ _ Mv)]. exists es. reflexivity.
        * intros j Hj. destruct (Nat.eq_dec j k) as [->|Nj]; [|auto]. destruct Wk as [(x & A & B & C)|[(A & B)|(A & B & C)]].
          -- left. exists x. split; [auto|]. split; [auto|]. intros Y. destruct (wm_done _ _ _ Mv Y) as [Z|Z]; [tauto|contradiction].
          -- right. left. rewrite (Vk A). rewrite (wm_was_done _ _ _ Mv B). auto.
          -- right. right. rewrite (Vk (proj1 A)). split; [exact A|]. split; [|auto]. apply (wm_beginning _ _ _ Mv B). apply Nc. apply A. }
  destruct (e_scope (d_ws s k)) as [x|] eqn:Es.
  - rewrite E1. cbn [bind]. cbv zeta in Move. apply Move. discriminate.
  - assert (Dec : w_pc (s_ws p k) = WWait PCheck \/ w_pc (s_ws p k) <> WWait PCheck).
    { destruct (w_pc (s_ws p k)) as [| | | | | | | |[]| |]; auto; right; discriminate. }
    destruct Dec as [Ep|Ep].
    + rewrite Ep. eexists. split; [reflexivity|]. auto.
    + destruct (Move (fun _ => Ep)) as (s' & E2 & D2). exists s'. split; [|exact D2]. rewrite E1. cbn [bind]. cbv zeta in E2. clear - E2 Ep.
      destruct (w_pc (s_ws p k)) as [| | | | | | | |[]| |]; try exact E2. congruence.
Qed.

Lemma main_dstep : forall ch s, dinv s -> a_register a (dc_new ch) -> (forall r, dc_set ch = Some r -> a_register a r) ->
  exists s', dmain_step a dbg ch s = Ok s' /\ dinv s'.
Proof.
  intros ch s D Vn Vs.
  assert (Pool : d_phase s = PPool \/ (d_phase s = POut /\ d_calls s = []) -> exists s', pool_main_step a dbg ch s = Ok s' /\ dinv s').
  { intros H. destruct (step_inv dbg Main (dc_pool ch) (d_pool s) (di_pool s D)) as (p' & E1 & _).
    assert (E : exists s', pool_main_step a dbg ch s = Ok s') by (unfold pool_main_step; rewrite E1; eexists; reflexivity).
    destruct E as (s' & E). exists s'. split; [exact E|]. eapply inside_step; eauto. }
  assert (Out : d_phase s <> PPool -> ~ (d_phase s = POut /\ dc_set ch = None /\ d_calls s = []) ->
            (exists s', dmain_step a dbg ch s = Ok s') -> exists s', dmain_step a dbg ch s = Ok s' /\ dinv s').
  { intros H1 H2 (s' & E). exists s'. split; [exact E|]. eapply outside_step; eauto. }
  pose proof (di_main s D) as M. unfold main_fine in M.
  destruct (d_phase s) as [|m|m|b| |] eqn:Ep.
  - destruct (dc_set ch) as [r|] eqn:Es; [|destruct (d_calls s) as [|m rest] eqn:Ec].
    + apply Out; [discriminate|intros (_ & X & _); discriminate|]. unfold dmain_step. rewrite Ep, Es. eauto.
    + unfold dmain_step. rewrite Ep, Es, Ec. apply Pool. auto.
    + apply Out; [discriminate|intros (_ & _ & X); discriminate|]. unfold dmain_step. rewrite Ep, Es, Ec. eauto.
  - apply Out; [discriminate|intros (X & _); discriminate|]. unfold dmain_step. rewrite Ep. eauto.
  - apply Out; [discriminate|intros (X & _); discriminate|]. unfold dmain_step. rewrite Ep. eauto.
  - apply Out; [discriminate|intros (X & _); discriminate|]. unfold dmain_step. rewrite Ep. destruct b; eauto.
  - unfold dmain_step. rewrite Ep. apply Pool. auto.
  - apply Out; [discriminate|intros (X & _); discriminate|]. unfold dmain_step. rewrite Ep.
    destruct M as ((x & (S1 & S2 & S3 & S4) & _) & _). destruct (scope_restores a (d_main s) x S2 S1 S4) as (e & E1 & _). rewrite E1. cbn [bind]. eauto.
Qed.

Lemma dstep_fine : forall t ch s, dinv s -> a_register a (dc_new ch) -> (forall r, dc_set ch = Some r -> a_register a r) ->
  exists s', dstep a dbg t ch s = Ok s' /\ dinv s'.
Proof.
  intros [|k] ch s D Vn Vs; cbn [dstep]; [apply main_dstep; auto|].
  destruct (Nat.ltb_spec k (s_n (d_pool s))); [apply worker_dstep; auto|]. eauto.
Qed.

Theorem dexec_fine : forall sched s, valid_choices a sched -> dinv s -> exists s', dexec a dbg sched s = Ok s' /\ dinv s'.
Proof.
  induction sched as [|[t ch] sched IH]; intros s V D; cbn [dexec]; [eauto|].
  destruct (V t ch (or_introl eq_refl)) as (Vn & Vs). destruct (dstep_fine t ch s D Vn Vs) as (s1 & E & D1). rewrite E. cbn [bind].
  apply IH; [|exact D1]. intros t' ch' H. apply (V t' ch'). right. exact H.
Qed.
End Threads.
