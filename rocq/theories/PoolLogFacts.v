(** What the thread pool has done so far: events, counter, number of threads. *)
From Verif Require Import Base ThreadPool ThreadPoolFacts PoolMainFacts SpecPool.

(** * Lists of calls *)

Lemma calls_snoc : forall c ns log n body, calls c ns log -> whole_call (c + length ns) n body ->
  calls c (ns ++ [n]) (log ++ ECall (c + length ns) n :: body ++ [EReturn (c + length ns)]).
Proof.
  intros c ns log n body H. induction H as [c|c n0 ns b0 rest W H IH]; cbn [app length]; intros Hb.
  - rewrite Nat.add_0_r in *. apply calls_cons; [exact Hb|constructor].
  - rewrite <- app_assoc. cbn [app]. apply calls_cons; [exact W|]. replace (c + S (length ns))%nat with (S c + length ns)%nat in * by lia. apply IH. exact Hb.
Qed.

Lemma task_eqb_spec : forall a b, task_eqb a b = true <-> a = b.
Proof.
  intros [a1 a2] [b1 b2]. unfold task_eqb. cbn. rewrite Bool.andb_true_iff, !Nat.eqb_eq. split; [intros (-> & ->); reflexivity|intros [= -> ->]; auto].
Qed.
Lemma task_eqb_false : forall a b, a <> b -> task_eqb a b = false.
Proof. intros a b H. destruct (task_eqb a b) eqn:E; [|reflexivity]. apply task_eqb_spec in E. contradiction. Qed.

Lemma max_workers_snoc : forall ns n, max_workers (ns ++ [n]) = Z.max (max_workers ns) (n - 1).
Proof.
  intros ns n. unfold max_workers. induction ns as [|a ns IH]; cbn [app fold_right]; [lia|]. rewrite IH. lia.
Qed.
Lemma max_workers_nonneg : forall ns, 0 <= max_workers ns.
Proof. intros ns. unfold max_workers. induction ns as [|a ns IH]; cbn [fold_right]; lia. Qed.

Lemma counter_run_snoc : forall es c c' e, counter_run c es = Some c' -> counter_run c (es ++ [e]) = counter_step c' e.
Proof.
  intros es. induction es as [|a es IH]; cbn; intros c c' e H.
  - injection H as ->. destruct (counter_step c' e); reflexivity.
  - destruct (counter_step c a); [|discriminate]. apply IH. exact H.
Qed.

(** * Progress of tasks *)

(** 0, 1, 2: not begun, begun, ended. *)
Definition given (w : worker) : nat :=
  match w_pc w with
  | WTask | WRun false => 0
  | WRun true => 1
  | WClear | WReady | WDec => 2
  | _ => if tstate_eqb (newest (w_hist w)) HasWork then 0 else 2
  end.
Definition main_status (m : mpc) : nat :=
  match m with
  | MSolo true | MRun _ true => 1
  | MWait (ERun _) _ | MReturn _ => 2
  | _ => 0
  end.
Definition wstatus (m : mpc) (k : nat) (w : worker) : nat :=
  match m with
  | MReturn _ => 2
  | MStart _ j => if (k <? j)%nat then given w else 0
  | MChange (GStart _) j (CsLoad | CsTask | CsStore) => if (k <? j)%nat then given w else 0
  | MChange (GStart _) j _ => if (k <=? j)%nat then given w else 0
  | MRun _ _ | MWait (ERun _) _ => given w
  | _ => 0
  end.
Definition status (m : mpc) (ws : nat -> worker) (i : nat) : nat :=
  match i with O => main_status m | S k => wstatus m k (ws k) end.

Definition current (m : mpc) : option Z :=
  match m with
  | MSolo _ => Some 1
  | MCreate n | MResetLoad (ECreate n | ERun n) | MResetStore (ECreate n | ERun n) | MSpawn n | MStart n _ | MChange (GStart n) _ _
  | MRun n _ | MWait (ECreate n | ERun n) _ | MReturn n => Some n
  | MNext | MChange GExit _ _ | MExit _ | MJoin _ | MDone => None
  end.
Definition creating (m : mpc) : bool := match m with MSpawn _ | MWait (ECreate _) _ => true | _ => false end.
Definition running (m : mpc) : option Z :=
  match m with MStart n _ | MChange (GStart n) _ _ | MRun n _ | MWait (ERun n) _ => Some n | _ => None end.
(** Whether the threads needed have been created. *)
Definition created (m : mpc) : bool :=
  match m with
  | MWait _ _ | MStart _ _ | MChange _ _ _ | MRun _ _ | MReturn _ | MResetLoad (ERun _) | MResetStore (ERun _) => true
  | _ => false
  end.

Definition expected (c i p : nat) : list event := firstn p (run_once c i).

Definition log_ok (script : list Z) (s : st) (ds : list Z) : Prop :=
  exists log0, calls 1 ds log0 /\
  match current (s_main s) with
  | None => script = ds ++ s_script s /\ s_log s = log0 /\ s_call s = length ds
  | Some n => script = ds ++ n :: s_script s /\ s_call s = S (length ds) /\
      exists body, s_log s = log0 ++ ECall (s_call s) n :: body /\ only_tasks_of (s_call s) n body /\
        forall i, Z.of_nat i < n -> filter (about (s_call s, i)) body = expected (s_call s) i (status (s_main s) (s_ws s) i)
  end.

Definition threads_ok (s : st) (ds : list Z) : Prop :=
  match s_main s with
  | MSpawn n => max_workers ds <= Z.of_nat (s_n s) <= n - 1
  | m => match current m with
         | Some n => if created m then Z.of_nat (s_n s) = Z.max (max_workers ds) (n - 1)
                     else Z.of_nat (s_n s) = max_workers ds
         | None => Z.of_nat (s_n s) = max_workers ds
         end
  end.

Record hinv (script : list Z) (s : st) : Prop := {
  h_inv : inv s;
  h_creating : creating (s_main s) = true -> forall k, (k < s_n s)%nat -> newest (w_hist (s_ws s k)) <> HasWork;
  h_running : forall n, running (s_main s) = Some n -> forall k, (k < s_n s)%nat ->
    newest (w_hist (s_ws s k)) <> Startup /\ (n - 1 <= Z.of_nat k -> busy (s_ws s k) = false);
  h_counter : counter_run 0 (s_clog s) = Some (newest (s_count s));
  h_joined : forall j, (s_main s = MDone \/ exists k, s_main s = MJoin k /\ (j < k)%nat) -> (j < s_n s)%nat -> w_pc (s_ws s j) = WDone;
  h_log : exists ds, log_ok script s ds /\ threads_ok s ds
}.

Lemma init_hinv : forall script, valid_script script -> hinv script (init script).
Proof.
  intros script H. constructor; cbn; try discriminate; try reflexivity; try (intros; lia).
  - apply init_inv. exact H.
  - exists []. split; [|reflexivity]. exists []. split; [constructor|]. cbn. auto.
Qed.

(** * Worker steps *)

(** The calling thread is the same, or has been woken up. *)
Definition woken (m m' : mpc) : Prop := m' = m \/ exists e, m = MWait e PSleep /\ m' = MWait e PRelock.

Record weffect (k : nat) (s s' : st) : Prop := {
  we_script : s_script s' = s_script s; we_call : s_call s' = s_call s; we_n : s_n s' = s_n s;
  we_main : woken (s_main s) (s_main s');
  we_others : forall j, j <> k -> s_ws s' j = s_ws s j;
  we_newest : newest (w_hist (s_ws s' k)) = newest (w_hist (s_ws s k)) \/ newest (w_hist (s_ws s' k)) = Ready;
  we_busy : busy (s_ws s' k) = true -> busy (s_ws s k) = true;
  we_counter : counter_run 0 (s_clog s) = Some (newest (s_count s)) -> counter_run 0 (s_clog s') = Some (newest (s_count s'));
  we_done : w_pc (s_ws s k) = WDone -> w_pc (s_ws s' k) = WDone;
  we_log : (s_log s' = s_log s /\ (newest (w_hist (s_ws s k)) <> Startup -> given (s_ws s' k) = given (s_ws s k))) \/
           (active (w_pc (s_ws s k)) = true /\ newest (w_hist (s_ws s k)) = HasWork /\ (given (s_ws s k) < 2)%nat /\
            given (s_ws s' k) = S (given (s_ws s k)) /\
            s_log s' = s_log s ++ [nth (given (s_ws s k)) (run_once (s_call s) (S k)) (EReturn 0)])
}.

Lemma woken_refl : forall m, woken m m. Proof. intros. left. reflexivity. Qed.

Section Effect.
Variables (dbg : bool) (ch : choice) (s : st) (k : nat).
Hypothesis I : inv s.
Hypothesis Hk : (k < s_n s)%nat.
Notation w := (s_ws s k).

Lemma effect_same : weffect k s s.
Proof using. constructor; auto using woken_refl. Qed.

(** Steps that only change the worker, within the waiting loop or into it or out of it. *)
Lemma effect_quiet : forall w' s', s_script s' = s_script s -> s_call s' = s_call s -> s_n s' = s_n s -> woken (s_main s) (s_main s') ->
  s_ws s' = upd (s_ws s) k w' -> s_log s' = s_log s -> s_count s' = s_count s -> s_clog s' = s_clog s ->
  newest (w_hist w') = newest (w_hist w) -> (newest (w_hist w) <> Startup -> given w' = given w) ->
  (busy w' = true -> busy w = true) -> (w_pc w = WDone -> w_pc w' = WDone) -> weffect k s s'.
Proof using.
  intros w' s' E1 E2 E3 E4 E5 E6 E7 E8 E9 E10 E11 E12. constructor; auto; rewrite ?E5, ?upd_same; auto.
  - intros j Hj. apply upd_other. exact Hj.
  - rewrite E8, E7. auto.
Qed.

Lemma after_wait_given : forall x v' mu, x = newest (w_hist w) -> after_dec (w_pc w) = true \/ w_pc w = WWait (PUnlock x) -> 
  given (w_set_mutex (w_set_pc (w_set_view w v') (after_wait x)) mu) = given w.
Proof using.
  intros x v' mu Ex H. unfold given. cbn [w_pc w_hist w_set_mutex w_set_pc w_set_view]. rewrite <- Ex.
  destruct H as [H|H]; [|rewrite H; destruct x; reflexivity].
  destruct (w_pc w) as [| | | | | | | |[]| |]; try discriminate; destruct x; reflexivity.
Qed.
Lemma waiting_given : forall p v' mu, after_dec (w_pc w) = true -> after_dec p = true \/ (exists x, p = WWait (PUnlock x)) ->
  given (w_set_mutex (w_set_pc (w_set_view w v') p) mu) = given w.
Proof using.
  intros p v' mu A B. unfold given. cbn [w_pc w_hist w_set_mutex w_set_pc w_set_view].
  assert (Y : forall q, after_dec q = true -> match q with
    | WTask | WRun false => 0%nat | WRun true => 1%nat | WClear | WReady | WDec => 2%nat
    | _ => if tstate_eqb (newest (w_hist w)) HasWork then 0%nat else 2%nat end = if tstate_eqb (newest (w_hist w)) HasWork then 0%nat else 2%nat)
    by (clear; intros [|[]| | | | | | |q| |] D; try discriminate; reflexivity).
  rewrite (Y _ A). destruct B as [B|[x ->]]; [apply (Y _ B)|reflexivity].
Qed.

Ltac quiet w' := (eapply (effect_quiet w')); try reflexivity; try (apply woken_refl).

Lemma worker_effect : forall s', worker_step dbg k ch s = Ok s' -> weffect k s s'.
Proof using I Hk.
  intros s' E. pose proof (i_w s I k Hk) as [P R G C H X K]. unfold worker_step in E. destruct (w_pc w) as [|b| | | | | | |p| |] eqn:Ep.
  - destruct P as (P1 & (P2 & P3) & P4). rewrite ordered_ok in E by exact P2. cbn [bind] in E. injection E as <-.
    quiet (w_set_pc (w_set_view (w_set_task w (w_task w)) (set_vt (w_view w) k (S (w_ta w)))) (match w_task w with Some _ => WRun false | None => WReady end)).
    + intros Ns. destruct P4 as [(P4 & P5)|(P4 & P5)]; [contradiction|]. unfold given. cbn. rewrite P5, Ep. reflexivity.
    + unfold busy. rewrite Ep. reflexivity.
    + rewrite Ep. discriminate.
  - destruct P as (P1 & (P2 & P3) & P4 & P5). rewrite P5, ordered_ok in E by exact P3. cbn [bind] in E. injection E as <-.
    constructor; cbn [s_script s_call s_n s_main s_ws s_count s_clog s_log emit set_worker set_oa]; rewrite ?upd_same; auto.
    + apply woken_refl.
    + intros j Hj. apply upd_other. exact Hj.
    + unfold busy. rewrite Ep. reflexivity.
    + rewrite Ep. discriminate.
    + right. unfold given. cbn. rewrite Ep. destruct b; cbn; auto 10.
  - destruct P as (P1 & (P2 & P3) & P4 & P5). rewrite ordered_ok in E by exact P2. cbn [bind] in E. injection E as <-.
    quiet (w_set_pc (w_set_view (w_set_task w None) (set_vt (w_view w) k (S (w_ta w)))) WReady).
    + intros _. unfold given. rewrite Ep. reflexivity.
    + unfold busy. rewrite Ep. reflexivity.
    + rewrite Ep. discriminate.
  - destruct P as (P1 & (P2 & P3) & P4 & P5). rewrite ordered_ok in E by exact P1. cbn [bind] in E. injection E as <-.
    constructor; cbn [s_script s_call s_n s_main s_ws s_count s_clog s_log emit set_worker set_oa]; rewrite ?upd_same; auto.
    + apply woken_refl.
    + intros j Hj. apply upd_other. exact Hj.
    + right. cbn. apply upd_same.
    + unfold busy. rewrite Ep. reflexivity.
    + rewrite Ep. discriminate.
    + left. split; [reflexivity|]. intros _. unfold given. rewrite Ep. reflexivity.
  - destruct P as (P1 & (P2 & P3) & P4 & P5).
    destruct (dcheck dbg (0 <? newest (s_count s))) as [[]| |] eqn:Ed; cbn [bind] in E; try discriminate.
    destruct (i32 (newest (s_count s) - 1)) as [x| |] eqn:Ei; cbn [bind] in E; try discriminate. injection E as <-.
    apply i32_inv in Ei. destruct Ei as (Ei & _). subst x.
    constructor; cbn [s_script s_call s_n s_main s_ws s_count s_clog s_log cemit set_worker set_count]; rewrite ?upd_same; auto.
    + apply woken_refl.
    + intros j Hj. apply upd_other. exact Hj.
    + unfold busy. rewrite Ep. reflexivity.
    + intros Hc. rewrite newest_push, (counter_run_snoc _ _ _ _ Hc). unfold counter_step. rewrite Bool.eqb_reflx.
      assert (Np : 0 <? newest (s_count s) = true).
      { apply Z.ltb_lt. rewrite (i_count s I). pose proof (ungiven_nonneg _ _ (i_pc s I)). pose proof (nbusy_bounds (s_ws s) (s_n s)) as B.
        destruct (Z.eq_dec (nbusy (s_ws s) (s_n s)) 0) as [Z|Z]; [|lia].
        pose proof (nbusy_zero _ _ Z k Hk) as Bk. unfold busy in Bk. rewrite Ep in Bk. discriminate. }
      rewrite Np. reflexivity.
    + rewrite Ep. discriminate.
    + left. split; [reflexivity|]. intros _. unfold given. cbn [w_pc w_set_pc w_set_view w_hist]. rewrite Ep, P4. destruct (newest (s_count s) - 1 =? 0); reflexivity.
  - destruct (s_cmutex s) as [m|]; injection E as <-.
    + quiet (w_set_mutex (w_set_pc (w_set_view w (vjoin (w_view w) m)) WDNotify) (w_mutex w)).
      * intros _. apply waiting_given; rewrite ?Ep; auto.
      * rewrite (busy_waiting s k); rewrite ?Ep; auto.
      * rewrite Ep. discriminate.
    + apply effect_same.
  - injection E as <-. quiet (w_set_mutex (w_set_pc (w_set_view w (w_view w)) WDUnlock) (w_mutex w)).
    + unfold notify_main. destruct (s_main s) as [| | | | | | | | |e []| | | |]; reflexivity.
    + unfold notify_main. destruct (s_main s) as [| | | | | | | | |e []| | | |]; reflexivity.
    + unfold notify_main. destruct (s_main s) as [| | | | | | | | |e []| | | |]; reflexivity.
    + unfold notify_main. destruct (s_main s) as [| | | | | | | | |e []| | | |] eqn:Em; cbn; rewrite ?Em; try (left; reflexivity). right. exists e. auto.
    + unfold notify_main. destruct (s_main s) as [| | | | | | | | |e []| | | |]; reflexivity.
    + unfold notify_main. destruct (s_main s) as [| | | | | | | | |e []| | | |]; reflexivity.
    + unfold notify_main. destruct (s_main s) as [| | | | | | | | |e []| | | |]; reflexivity.
    + unfold notify_main. destruct (s_main s) as [| | | | | | | | |e []| | | |]; reflexivity.
    + intros _. apply waiting_given; rewrite ?Ep; auto.
    + rewrite (busy_waiting s k); rewrite ?Ep; auto.
    + rewrite Ep. discriminate.
  - injection E as <-. quiet (w_set_mutex (w_set_pc (w_set_view w (w_view w)) (WWait PCheck)) (w_mutex w)).
    + intros _. apply waiting_given; rewrite ?Ep; auto.
    + rewrite (busy_waiting s k); rewrite ?Ep; auto.
    + rewrite Ep. discriminate.
  - destruct (load_state w k (ch_stale ch)) as [x v'] eqn:EL.
    assert (Lc : (exists c, p = PUnlock c /\ c = newest (w_hist w)) \/ after_dec (w_pc w) = true /\ (x = Ready \/ (x <> Ready /\ x = newest (w_hist w)))).
    { rewrite Ep. destruct p; try (right; split; [reflexivity|]; destruct P as (P1 & P2 & P3); destruct (load_state_cases _ _ _ _ _ P1 P2 P3 EL) as (_ & D); clear - D; tauto).
      left. exists a. destruct P as (_ & P2 & _). auto. }
    assert (Q1 : forall q v2 mu, after_dec (w_pc w) = true -> after_dec q = true -> weffect k s (set_worker s k (w_set_mutex (w_set_pc (w_set_view w v2) q) mu))).
    { intros q v2 mu D1 D2. quiet (w_set_mutex (w_set_pc (w_set_view w v2) q) mu).
      - intros _. apply waiting_given; auto.
      - rewrite (busy_waiting s k); auto.
      - rewrite Ep. discriminate. }
    assert (Q2 : forall v2 mu, after_dec (w_pc w) = true \/ w_pc w = WWait (PUnlock (newest (w_hist w))) ->
      weffect k s (set_worker s k (w_set_mutex (w_set_pc (w_set_view w v2) (after_wait (newest (w_hist w)))) mu))).
    { intros v2 mu D1. quiet (w_set_mutex (w_set_pc (w_set_view w v2) (after_wait (newest (w_hist w)))) mu).
      - intros _. apply after_wait_given; auto.
      - rewrite (busy_leaving s k); auto. destruct D1; eauto.
      - rewrite Ep. discriminate. }
    destruct p as [| | | | | |c].
    + destruct Lc as [(c & Lc & _)|(Hd & Lc)]; [discriminate|]. injection E as <-. destruct Lc as [-> |(Nr & ->)].
      * apply (Q1 (WWait PSpin) v' (w_mutex w)); auto.
      * replace (tstate_eqb (newest (w_hist w)) Ready) with false by (symmetry; apply tstate_eqb_neq; exact Nr). apply (Q2 v' (w_mutex w)); auto.
    + destruct Lc as [(c & Lc & _)|(Hd & Lc)]; [discriminate|]. destruct (ch_timeout ch); [injection E as <-; apply (Q1 (WWait PLock) (w_view w) (w_mutex w)); auto|].
      destruct Lc as [-> |(Nr & ->)]; [injection E as <-; apply effect_same|].
      replace (tstate_eqb (newest (w_hist w)) Ready) with false in E by (symmetry; apply tstate_eqb_neq; exact Nr). injection E as <-. apply (Q2 v' (w_mutex w)); auto.
    + destruct Lc as [(c & Lc & _)|(Hd & Lc)]; [discriminate|]. destruct (w_mutex w) as [m|]; injection E as <-; [|apply effect_same]. apply (Q1 (WWait PTest)); auto.
    + destruct Lc as [(c & Lc & _)|(Hd & Lc)]; [discriminate|]. destruct Lc as [-> |(Nr & ->)].
      * injection E as <-. apply (Q1 (WWait PSleep)); auto.
      * replace (tstate_eqb (newest (w_hist w)) Ready) with false in E by (symmetry; apply tstate_eqb_neq; exact Nr). injection E as <-.
        quiet (w_set_mutex (w_set_pc (w_set_view w v') (WWait (PUnlock (newest (w_hist w))))) (w_mutex w)).
        -- intros _. apply waiting_given; eauto.
        -- rewrite (busy_leaving s k); auto.
        -- rewrite Ep. discriminate.
    + destruct Lc as [(c & Lc & _)|(Hd & Lc)]; [discriminate|]. destruct (ch_spurious ch); injection E as <-; [|apply effect_same].
      apply (Q1 (WWait PRelock) (w_view w) (w_mutex w)); auto.
    + destruct Lc as [(c & Lc & _)|(Hd & Lc)]; [discriminate|]. destruct (w_mutex w) as [m|]; injection E as <-; [|apply effect_same]. apply (Q1 (WWait PTest)); auto.
    + destruct P as (_ & -> & _). injection E as <-. apply (Q2 (w_view w) (Some (w_view w))). auto.
  - destruct P as (P1 & P2). destruct (load_state w k (ch_stale ch)) as [x v'].
    destruct (dcheck dbg (tstate_eqb x ExitASAP)) as [[]| |]; cbn [bind] in E; try discriminate. injection E as <-.
    quiet (w_set_pc w WDone).
    + intros _. unfold given. rewrite Ep. reflexivity.
    + unfold busy. rewrite Ep. auto.
  - injection E as <-. apply effect_same.
Qed.
End Effect.

Lemma woken_same : forall m m', woken m m' -> creating m' = creating m /\ running m' = running m /\ current m' = current m /\
  (forall ws i, status m' ws i = status m ws i) /\ (forall s, s_main s = m -> forall ds, threads_ok s ds <-> threads_ok (set_main s m') ds) /\
  (m' = MDone <-> m = MDone) /\ (forall k, m' = MJoin k <-> m = MJoin k).
Proof.
  intros m m' [-> | (e & -> & ->)].
  - repeat (split; [reflexivity|]). split; [|tauto]. intros s <- ds. destruct s. tauto.
  - split; [reflexivity|]. split; [reflexivity|]. split; [reflexivity|]. split; [intros ws []; reflexivity|].
    split; [intros s E ds; unfold threads_ok; cbn; rewrite E; destruct e; tauto|]. split; [split; discriminate|]. intros k. split; discriminate.
Qed.

Lemma active_running : forall s k n, inv s -> (k < s_n s)%nat -> active (w_pc (s_ws s k)) = true ->
  running (s_main s) = Some n -> forall w, wstatus (s_main s) k w = given w.
Proof.
  intros s k n I Hk A Rn w. destruct (active_role s k I Hk A) as (_ & R). destruct (s_main s) as [| | | | | |t j|[t|] j c| |e p| | | |]; try discriminate.
  - cbn [role_of wstatus] in *. destruct (k <? j)%nat; [reflexivity|]. destruct R as [R|[g R]]; discriminate.
  - cbn [role_of wstatus] in *. destruct (Nat.ltb_spec k j).
    + destruct c; try reflexivity; destruct (Nat.leb_spec k j); try reflexivity; lia.
    + destruct (Nat.eqb_spec k j) as [->|]; [|destruct R as [R|[g R]]; discriminate].
      destruct c; cbn in R; try (destruct R as [R|[g R]]; discriminate); rewrite Nat.leb_refl; reflexivity.
  - reflexivity.
  - destruct e; [discriminate|reflexivity].
Qed.

Lemma filter_about_other : forall c i e, (forall by_, e <> EBegin (c, i) by_) -> (forall by_, e <> EEnd (c, i) by_) -> filter (about (c, i)) [e] = [].
Proof.
  intros c i e H1 H2. cbn. destruct e as [| t b | t b |]; cbn; try reflexivity;
  (destruct (task_eqb (c, i) t) eqn:E; [|reflexivity]); apply task_eqb_spec in E; subst t; [destruct (H1 b)|destruct (H2 b)]; reflexivity.
Qed.

(** One more event of task [i]. *)
Lemma log_event : forall c n body f f' i, only_tasks_of c n body -> Z.of_nat i < n ->
  (forall j, Z.of_nat j < n -> filter (about (c, j)) body = expected c j (f j)) ->
  (forall j, j <> i -> Z.of_nat j < n -> f' j = f j) -> (f i < 2)%nat -> f' i = S (f i) ->
  let e := nth (f i) (run_once c i) (EReturn 0) in
  only_tasks_of c n (body ++ [e]) /\ forall j, Z.of_nat j < n -> filter (about (c, j)) (body ++ [e]) = expected c j (f' j).
Proof.
  intros c n body f f' i H1 Hi H2 H3 H4 H5 e.
  assert (Ee : e = EBegin (c, i) (runner i) /\ f i = 0%nat \/ e = EEnd (c, i) (runner i) /\ f i = 1%nat).
  { unfold e. destruct (f i) as [|[|x]]; [left; auto|right; auto|lia]. }
  split.
  - intros x Hx. apply in_app_or in Hx. destruct Hx as [Hx|[<-|[]]]; [apply H1; exact Hx|]. exists i. split; [exact Hi|]. tauto.
  - intros j Hj. rewrite filter_app, H2 by exact Hj. destruct (Nat.eq_dec j i) as [->|Ej].
    + rewrite H5. destruct Ee as [(-> & ->)|(-> & ->)]; cbn [filter about]; replace (task_eqb (c, i) (c, i)) with true by (symmetry; apply task_eqb_spec; reflexivity); reflexivity.
    + rewrite H3 by assumption. rewrite filter_about_other, app_nil_r; [reflexivity| |]; intros b X; destruct Ee as [(Ee & _)|(Ee & _)]; rewrite Ee in X; congruence.
Qed.

Theorem worker_step_hinv : forall script dbg ch k s s', hinv script s -> (k < s_n s)%nat -> worker_step dbg k ch s = Ok s' -> hinv script s'.
Proof.
  intros script dbg ch k s s' H Hk E. pose proof (h_inv _ _ H) as I. destruct (worker_step_inv dbg ch s k I Hk) as (s'' & E' & I').
  rewrite E in E'. injection E' as <-. pose proof (worker_effect dbg ch s k I Hk s' E) as W.
  destruct W as [W1 W2 W3 W4 W5 W6 W7 W8 W9 W10]. destruct (woken_same _ _ W4) as (M1 & M2 & M3 & M4 & M5 & M6 & M7).
  destruct H as [_ H2 H3 H4 H5 H6]. constructor; auto.
  - rewrite M1, W3. intros C j Hj. destruct (Nat.eq_dec j k) as [->|Ej]; [|rewrite W5 by exact Ej; auto].
    destruct W6 as [W6|W6]; rewrite W6; [auto|discriminate].
  - rewrite M2, W3. intros n Rn j Hj. destruct (H3 n Rn j Hj) as (A & B). destruct (Nat.eq_dec j k) as [->|Ej]; [|rewrite W5 by exact Ej; auto]. split.
    + destruct W6 as [W6|W6]; rewrite W6; [exact A|discriminate].
    + intros L. specialize (B L). destruct (busy (s_ws s' k)); [|reflexivity]. rewrite W7 in B by reflexivity. discriminate.
  - intros j Hm Hj. rewrite W3 in Hj. assert (D : w_pc (s_ws s j) = WDone).
    { apply H5; [|exact Hj]. destruct Hm as [Hm|(k' & Hm & L)]; [left; apply M6; exact Hm|right; exists k'; split; [apply M7; exact Hm|exact L]]. }
    destruct (Nat.eq_dec j k) as [->|Ej]; [auto|]. rewrite W5 by exact Ej. exact D.
  - destruct H6 as (ds & L & T). exists ds. split.
    2: { apply (M5 s eq_refl) in T. revert T. unfold threads_ok. cbn. rewrite W3. auto. }
    destruct L as (log0 & L1 & L2). exists log0. split; [exact L1|]. rewrite M3. destruct (current (s_main s)) as [n|] eqn:Cn.
    + rewrite W1, W2. destruct L2 as (L2 & L3 & body & L4 & L5 & L6). split; [exact L2|]. split; [exact L3|].
      destruct W10 as [(W10 & W11)|(W10 & W11 & W12 & W13 & W14)].
      * exists body. rewrite W10. split; [exact L4|]. split; [exact L5|]. intros i Hi. rewrite L6 by exact Hi. f_equal. rewrite M4.
        destruct i as [|j]; [reflexivity|]. cbn [status]. destruct (Nat.eq_dec j k) as [->|Ej]; [|rewrite W5 by exact Ej; reflexivity].
        assert (Z : running (s_main s) = None \/ given (s_ws s' k) = given (s_ws s k)).
        { destruct (running (s_main s)) as [t|] eqn:Rt; [|left; reflexivity]. right. apply W11. apply (H3 t eq_refl k Hk). }
        unfold wstatus. destruct (s_main s) as [| | | | | |t j|[t|] j c| |[t|t] p| | | |]; try reflexivity; destruct Z as [Z|Z]; try discriminate; rewrite Z; reflexivity.
      * destruct (active_role s k I Hk W10) as (Ep & _).
        assert (Rn : running (s_main s) = Some n).
        { destruct (creating (s_main s)) eqn:Cr; [exfalso; apply (H2 eq_refl k Hk); exact W11|].
          clear - Ep Cn Cr. destruct (s_main s) as [| | | | | |t j|[t|] j c| |[t|t] p| | | |]; try discriminate; exact Cn. }
        assert (Kn : Z.of_nat (S k) < n).
        { destruct (H3 n Rn k Hk) as (_ & B). destruct (Z_lt_le_dec (Z.of_nat (S k)) n) as [Z|Z]; [exact Z|].
          rewrite B in *; [|lia]. unfold busy in B. rewrite W10 in B. discriminate B. lia. }
        pose proof (active_running s k n I Hk W10 Rn) as St.
        destruct (log_event (s_call s) n body (status (s_main s) (s_ws s)) (status (s_main s) (s_ws s')) (S k) L5 Kn L6) as (A & B).
        -- intros [|j] Ej _; [reflexivity|]. cbn. rewrite W5; [reflexivity|congruence].
        -- cbn. rewrite St. exact W12.
        -- cbn. rewrite !St. exact W13.
        -- exists (body ++ [nth (given (s_ws s k)) (run_once (s_call s) (S k)) (EReturn 0)]). cbn in A, B. rewrite St in A, B.
           split; [rewrite W14, L4, <- app_assoc; reflexivity|]. split; [exact A|]. intros i Hi. rewrite M4. apply B. exact Hi.
    + rewrite W1, W2. destruct L2 as (L2 & L3 & L4). split; [exact L2|]. split; [|exact L4].
      destruct W10 as [(W10 & _)|(W10 & _)]; [congruence|]. exfalso. destruct (active_role s k I Hk W10) as (Ep & _).
      clear - Ep Cn. destruct (s_main s) as [| | | | | |t j|[t|] j c| |[t|t] p| | | |]; discriminate.
Qed.

(** * Steps of the calling thread *)

Lemma not_busy_given : forall w, busy w = false -> given w = 2%nat.
Proof.
  intros w B. unfold busy in B. apply Bool.orb_false_iff in B. destruct B as (B1 & B2). unfold given. rewrite B2.
  destruct (w_pc w) as [|[]| | | | | | |x| |]; try discriminate; reflexivity.
Qed.

(** Steps of the calling thread without events. *)
Lemma hinv_main : forall script s s', hinv script s -> inv s' -> s_script s' = s_script s -> s_call s' = s_call s -> s_log s' = s_log s ->
  current (s_main s') = current (s_main s) ->
  (forall n i, current (s_main s) = Some n -> Z.of_nat i < n -> status (s_main s') (s_ws s') i = status (s_main s) (s_ws s) i) ->
  (creating (s_main s') = true -> forall k, (k < s_n s')%nat -> newest (w_hist (s_ws s' k)) <> HasWork) ->
  (forall n, running (s_main s') = Some n -> forall k, (k < s_n s')%nat ->
     newest (w_hist (s_ws s' k)) <> Startup /\ (n - 1 <= Z.of_nat k -> busy (s_ws s' k) = false)) ->
  counter_run 0 (s_clog s') = Some (newest (s_count s')) ->
  (forall j, (s_main s' = MDone \/ exists k, s_main s' = MJoin k /\ (j < k)%nat) -> (j < s_n s')%nat -> w_pc (s_ws s' j) = WDone) ->
  (forall ds, threads_ok s ds -> threads_ok s' ds) -> hinv script s'.
Proof.
  intros script s s' H I' E1 E2 E3 E4 E5 E6 E7 E8 E9 E10. destruct H as [_ H2 H3 H4 H5 (ds & (log0 & L1 & L2) & T)]. constructor; auto.
  exists ds. split; [|auto]. exists log0. split; [exact L1|]. rewrite E4. destruct (current (s_main s)) as [n|] eqn:Cn; rewrite ?E1, ?E2, ?E3.
  - destruct L2 as (L2 & L3 & body & L4 & L5 & L6). split; [exact L2|]. split; [exact L3|]. exists body. split; [exact L4|]. split; [exact L5|].
    intros i Hi. rewrite L6 by exact Hi. rewrite (E5 n i eq_refl Hi). reflexivity.
  - exact L2.
Qed.

(** The same, when in addition no worker changes and the epoch stays. *)
Lemma hinv_moved : forall script s s', hinv script s -> inv s' -> s_script s' = s_script s -> s_call s' = s_call s -> s_log s' = s_log s ->
  s_ws s' = s_ws s -> s_n s' = s_n s -> s_clog s' = s_clog s -> s_count s' = s_count s ->
  current (s_main s') = current (s_main s) -> creating (s_main s') = creating (s_main s) -> running (s_main s') = running (s_main s) ->
  (forall n i, current (s_main s) = Some n -> Z.of_nat i < n -> status (s_main s') (s_ws s) i = status (s_main s) (s_ws s) i) ->
  (forall j, (s_main s' = MDone \/ exists k, s_main s' = MJoin k /\ (j < k)%nat) -> (j < s_n s)%nat -> w_pc (s_ws s j) = WDone) ->
  (forall ds, threads_ok s ds -> threads_ok s' ds) -> hinv script s'.
Proof.
  intros script s s' H I' E1 E2 E3 E4 E5 E6 E7 E8 E9 E10 E11 E12 E13. apply (hinv_main script s s'); auto; rewrite ?E4, ?E5, ?E6, ?E7, ?E9; try apply H; auto.
  intros n Rn. rewrite E10 in Rn. apply H. exact Rn.
Qed.

Section MainSteps.
Variables (script : list Z) (dbg : bool) (ch : choice) (s s' : st).
Hypothesis H : hinv script s.
Hypothesis E : main_step dbg ch s = Ok s'.

Lemma result_inv : inv s'.
Proof using H E. destruct (main_step_inv dbg ch s (h_inv _ _ H)) as (s2 & E2 & I2). congruence. Qed.

Ltac ms Em := pose proof result_inv as I'; pose proof (h_inv _ _ H) as I; pose proof (i_pc s I) as P; unfold main_step in E; rewrite Em in E, P; cbn [main_ok] in P.
Ltac mv Em := apply (hinv_moved script s); cbn; rewrite ?Em; auto; try (intros j [X|(kk & X & _)]; discriminate).

Lemma hm_next : s_main s = MNext -> hinv script s'.
Proof using H E.
  intros Em. ms Em. destruct (s_script s) as [|n rest] eqn:Es.
  - injection E as <-. mv Em. intros ds T. unfold threads_ok in *. cbn. rewrite Em in T. exact T.
  - destruct (dcheck dbg (1 <=? n)) as [[]| |] eqn:Ed; cbn [bind] in E; try discriminate.
    rewrite use_tasks_ok in E by (try assumption; rewrite Em; reflexivity). cbn [bind] in E. injection E as <-.
    pose proof H as [_ H2 H3 H4 H5 (ds & (log0 & L1 & L2) & T)]. rewrite Em in L2. cbn in L2. destruct L2 as (L2 & L3 & L4).
    set (m := if n =? 1 then MSolo false else MCreate n) in *.
    assert (Mm : creating m = false /\ running m = None /\ current m = Some n /\ (forall i ws, status m ws i = 0%nat) /\ created m = false /\ m <> MDone /\ (forall k, m <> MJoin k) /\ (forall t, m <> MSpawn t)).
    { unfold m. destruct (Z.eqb_spec n 1) as [->|]; cbn; repeat split; try discriminate; intros [|i] ws; reflexivity. }
    destruct Mm as (M1 & M2 & M3 & M4 & M5 & M6 & M7 & M8).
    constructor; cbn [s_main s_ws s_n s_clog s_count emit]; auto.
    + fold m. rewrite M1. discriminate.
    + fold m. rewrite M2. discriminate.
    + fold m. intros j [X|(k & X & _)]; [contradiction (M6 X)|contradiction (M7 k X)].
    + exists ds. split.
      * exists log0. split; [exact L1|]. cbn [s_main emit s_script s_log s_call s_ws]. fold m. rewrite M3. rewrite Es in L2. split; [exact L2|].
        split; [rewrite L4; reflexivity|]. exists []. split; [cbn; rewrite L3, L4; reflexivity|]. split; [intros e []|]. intros i Hi. rewrite M4. reflexivity.
      * unfold threads_ok in T. rewrite Em in T. cbn in T. unfold threads_ok. cbn [s_main emit s_n]. fold m. clear - T. unfold m. destruct (n =? 1); exact T.
Qed.

(** Events of task 0. *)
Lemma hm_event0 : forall p m', current (s_main s) = Some p -> current m' = Some p -> creating m' = false -> running m' = running (s_main s) ->
  (forall k w, Z.of_nat (S k) < p -> wstatus m' k w = wstatus (s_main s) k w) -> (main_status (s_main s) < 2)%nat -> main_status m' = S (main_status (s_main s)) ->
  (forall k, m' <> MJoin k) -> 1 <= p -> inv s' -> (forall ds, threads_ok s ds -> threads_ok s' ds) ->
  s' = emit (set_main s m') (nth (main_status (s_main s)) (run_once (s_call s) 0) (EReturn 0)) -> hinv script s'.
Proof using H.
  clear E. intros p m' C1 C2 C3 C4 C5 C6 C7 C8 Hp I' C9 Es. pose proof H as [_ H2 H3 H4 H5 (ds & (log0 & L1 & L2) & T)].
  rewrite C1 in L2. destruct L2 as (L2 & L3 & body & L4 & L5 & L6).
  destruct (log_event (s_call s) p body (status (s_main s) (s_ws s)) (status m' (s_ws s)) 0 L5 ltac:(lia) L6) as (A & B).
  { intros [|j] Ej Lj; [contradiction|]. cbn. apply C5. exact Lj. } { exact C6. } { exact C7. }
  subst s'. constructor; cbn [s_main s_ws s_n s_clog s_count emit set_main]; auto.
  - rewrite C3. discriminate.
  - intros n Rn. rewrite C4 in Rn. auto.
  - intros j [X|(k & X & _)]; [subst m'; discriminate|contradiction (C8 k X)].
  - exists ds. split; [|apply C9; exact T]. exists log0. split; [exact L1|]. cbn [s_main emit set_main s_script s_log s_call s_ws]. rewrite C2.
    split; [exact L2|]. split; [exact L3|]. eexists. split; [rewrite L4, <- app_assoc; reflexivity|]. split; [exact A|exact B].
Qed.

Lemma hm_solo : forall b, s_main s = MSolo b -> hinv script s'.
Proof using H E.
  intros b Em. ms Em. destruct b; injection E as Es.
  - apply (hm_event0 1 (MReturn 1)); rewrite ?Em; auto; try discriminate; try lia.
    + intros ds T. unfold threads_ok in *. rewrite Em in T. subst s'. cbn in *. pose proof (max_workers_nonneg ds). lia.
  - apply (hm_event0 1 (MSolo true)); rewrite ?Em; auto; try discriminate; try lia.
    intros ds T. unfold threads_ok in *. rewrite Em in T. subst s'. exact T.
Qed.

Lemma hm_run : forall n b, s_main s = MRun n b -> hinv script s'.
Proof using H E.
  intros n b Em. ms Em. unfold wait_bound in P. destruct b; injection E as Es.
  - apply (hm_event0 n (MWait (ERun n) PCheck)); rewrite ?Em; auto; try discriminate; try lia.
    intros ds T. unfold threads_ok in *. rewrite Em in T. subst s'. exact T.
  - apply (hm_event0 n (MRun n true)); rewrite ?Em; auto; try discriminate; try lia.
    intros ds T. unfold threads_ok in *. rewrite Em in T. subst s'. exact T.
Qed.

Lemma hm_create : forall n, s_main s = MCreate n -> hinv script s'.
Proof using H E.
  intros n Em. ms Em. unfold wait_bound in P. destruct (dcheck dbg (0 <=? n - 1)) as [[]| |]; cbn [bind] in E; try discriminate. injection E as Es.
  rewrite wrap_u_id in Es by lia. destruct (Z.leb_spec (n - 1) (Z.of_nat (s_n s))); subst s'; mv Em.
  - intros ds T. unfold threads_ok in *. rewrite Em in T. cbn in *. lia.
  - intros ds T. unfold threads_ok in *. rewrite Em in T. cbn in *. lia.
Qed.

Lemma hm_resetload : forall e, s_main s = MResetLoad e -> hinv script s'.
Proof using H E.
  intros e Em. ms Em. destruct (load_count s (ch_stale ch)) as [x v]. destruct (dcheck dbg (x =? 0)) as [[]| |]; cbn [bind] in E; try discriminate. injection E as <-.
  mv Em. intros ds T. unfold threads_ok in *. rewrite Em in T. destruct e; exact T.
Qed.

Lemma hm_resetstore : forall e, s_main s = MResetStore e -> hinv script s'.
Proof using H E.
  intros e Em. ms Em. destruct (ordered (h_ts (s_count s)) (vc (s_view s))) as [[]| |]; cbn [bind] in E; try discriminate. injection E as Es.
  assert (Kn : forall k, (k < s_n s)%nat -> newest (w_hist (s_ws s k)) = Ready /\ busy (s_ws s k) = false).
  { intros k Hk. pose proof (i_w s I k Hk) as W. rewrite Em in W. cbn [role_of] in W. split; [apply W|eapply known_not_busy; exact W]. }
  assert (Z0 : newest (s_count s) = 0).
  { apply known_zero; [exact I| |]; rewrite Em; reflexivity. }
  assert (Ct : counter_run 0 (s_clog s') = Some (newest (s_count s'))).
  { subst s'. cbn [s_clog cemit set_main set_view set_count s_count]. rewrite newest_push. rewrite (counter_run_snoc _ _ _ _ (h_counter _ _ H)). cbn. rewrite Z0. reflexivity. }
  apply (hinv_main script s s'); auto; try (subst s'; reflexivity).
  - subst s'. cbn. rewrite Em. destruct e; reflexivity.
  - subst s'. cbn. rewrite Em. intros n [|i]; destruct e; reflexivity.
  - intros _ k Hk. subst s'. cbn in *. destruct (Kn k Hk) as (A & _). rewrite A. discriminate.
  - intros n _ k Hk. subst s'. cbn in *. destruct (Kn k Hk) as (A & B). rewrite A. split; [discriminate|auto].
  - subst s'. cbn. destruct e; intros j [X|(kk & X & _)]; discriminate.
  - intros ds T. unfold threads_ok in *. rewrite Em in T. subst s'. destruct e; cbn in *; lia.
Qed.

Lemma hm_spawn : forall n, s_main s = MSpawn n -> hinv script s'.
Proof using H E.
  intros n Em. ms Em. unfold wait_bound in P. rewrite wrap_u_id in E by lia. destruct (Z.ltb_spec (Z.of_nat (s_n s)) (n - 1)); injection E as Es.
  - apply (hinv_main script s s'); auto; try (subst s'; reflexivity).
    + subst s'. cbn. rewrite Em. reflexivity.
    + subst s'. cbn. rewrite Em. intros m [|i] _ _; reflexivity.
    + subst s'. cbn. intros _ k Hk. destruct (Nat.eq_dec k (s_n s)) as [->|Ek]; [rewrite upd_same; discriminate|]. rewrite upd_other by exact Ek.
      apply (h_creating _ _ H); [rewrite Em; reflexivity|lia].
    + subst s'. cbn. discriminate.
    + subst s'. apply (h_counter _ _ H).
    + subst s'. cbn. intros j [X|(kk & X & _)]; discriminate.
    + intros ds T. unfold threads_ok in *. rewrite Em in T. subst s'. cbn [s_main s_n] in *. lia.
  - subst s'. mv Em. intros ds T. unfold threads_ok in *. rewrite Em in T. cbn in *. lia.
Qed.

Lemma hm_start : forall n k, s_main s = MStart n k -> hinv script s'.
Proof using H E.
  intros n k Em. ms Em. unfold wait_bound in P. injection E as Es. destruct (Z.ltb_spec (Z.of_nat k + 1) n); subst s'; mv Em.
  - intros ds T. unfold threads_ok in *. rewrite Em in T. exact T.
  - intros m [|i] [= <-] Hi; [reflexivity|]. cbn [status wstatus]. destruct (Nat.ltb_spec i k); [reflexivity|lia].
  - intros ds T. unfold threads_ok in *. rewrite Em in T. exact T.
Qed.

Lemma hm_exit : forall k, s_main s = MExit k -> hinv script s'.
Proof using H E.
  intros k Em. ms Em. injection E as Es. destruct (Nat.ltb_spec k (s_n s)); subst s'; mv Em.
  - intros ds T. unfold threads_ok in *. rewrite Em in T. exact T.
  - intros j [X|(kk & X & L)]; [discriminate|]. injection X as <-. lia.
  - intros ds T. unfold threads_ok in *. rewrite Em in T. exact T.
Qed.

Lemma hm_join : forall k, s_main s = MJoin k -> hinv script s'.
Proof using H E.
  intros k Em. ms Em. destruct (Nat.ltb_spec k (s_n s)).
  - destruct (dcheck dbg _) as [[]| |]; cbn [bind] in E; try discriminate. destruct (w_pc (s_ws s k)) eqn:Ep; injection E as Es; subst s'; try exact H.
    mv Em.
    + intros j [X|(kk & X & L)] Hj; [discriminate|]. injection X as <-. destruct (Nat.eq_dec j k) as [->|Ej]; [exact Ep|].
      apply (h_joined _ _ H j); [|exact Hj]. right. exists k. split; [exact Em|lia].
    + intros ds T. unfold threads_ok in *. rewrite Em in T. exact T.
  - injection E as Es; subst s'. mv Em.
    + intros j _ Hj. apply (h_joined _ _ H j); [|exact Hj]. right. exists k. split; [exact Em|lia].
    + intros ds T. unfold threads_ok in *. rewrite Em in T. exact T.
Qed.

Lemma hm_return : forall n, s_main s = MReturn n -> hinv script s'.
Proof using H E.
  intros n Em. ms Em. rewrite use_tasks_ok in E by (try assumption; rewrite Em; reflexivity). cbn [bind] in E. injection E as <-.
  pose proof H as [_ H2 H3 H4 H5 (ds & (log0 & L1 & L2) & T)]. rewrite Em in L2. cbn [current] in L2. destruct L2 as (L2 & L3 & body & L4 & L5 & L6).
  constructor; cbn [s_main s_ws s_n s_clog s_count emit set_main set_view set_oa]; auto; try discriminate.
  - intros j [X|(kk & X & _)]; discriminate.
  - exists (ds ++ [n]). split.
    + exists (log0 ++ ECall (1 + length ds) n :: body ++ [EReturn (1 + length ds)]). split.
      * apply calls_snoc; [exact L1|]. rewrite L3 in L5, L6. split; [exact L5|]. intros i Hi. cbn [plus]. rewrite L6 by exact Hi. destruct i; reflexivity.
      * cbn. split; [rewrite <- app_assoc; exact L2|]. split; [|rewrite app_length; cbn; lia]. rewrite L4, L3, <- app_assoc. reflexivity.
    + unfold threads_ok in *. rewrite Em in T. cbn in *. rewrite max_workers_snoc. lia.
Qed.

(** Steps that change the state of one worker. *)
Lemma hm_worker : forall g k c w', s_main s = MChange g k c -> inv s' ->
  s_script s' = s_script s -> s_call s' = s_call s -> s_log s' = s_log s -> s_n s' = s_n s -> s_ws s' = upd (s_ws s) k w' ->
  s_count s' = s_count s -> s_clog s' = s_clog s ->
  (exists c', s_main s' = MChange g k c') \/ s_main s' = (match g with GStart n => MStart n (S k) | GExit => MExit (S k) end) ->
  newest (w_hist w') <> Startup -> wstatus (s_main s') k w' = wstatus (s_main s) k (s_ws s k) -> hinv script s'.
Proof using H.
  clear E. intros g k c w' Em I' E1 E2 E3 E4 E5 E6 E7 E8 E9 E10. pose proof (h_inv _ _ H) as I. pose proof (i_pc s I) as P. rewrite Em in P.
  apply (hinv_main script s s'); auto.
  - rewrite Em. destruct E8 as [[c' E8]|E8]; rewrite E8; destruct g; reflexivity.
  - intros n i Cn Hi. rewrite E5. destruct i as [|j].
    + cbn [status]. rewrite Em. destruct E8 as [[c' E8]|E8]; rewrite E8; destruct g; reflexivity.
    + cbn [status]. destruct (Nat.eq_dec j k) as [->|Ej]; [rewrite upd_same; exact E10|]. rewrite upd_other by exact Ej. rewrite Em.
      clear - E8 Ej. destruct E8 as [[c' E8]|E8]; rewrite E8; destruct g as [t|]; try reflexivity.
      * assert (X : forall c0, wstatus (MChange (GStart t) k c0) j (s_ws s j) = if (j <? k)%nat then given (s_ws s j) else 0%nat).
        { intros c0. cbn [wstatus]. destruct c0; try reflexivity; destruct (Nat.leb_spec j k), (Nat.ltb_spec j k); try reflexivity; lia. }
        rewrite !X. reflexivity.
      * cbn [wstatus]. destruct c; destruct (Nat.leb_spec j k), (Nat.ltb_spec j k), (Nat.ltb_spec j (S k)); try reflexivity; lia.
  - intros C. exfalso. destruct E8 as [[c' E8]|E8]; rewrite E8 in C; destruct g; discriminate.
  - rewrite E4, E5. intros n Rn j Hj. assert (Rn' : running (s_main s) = Some n).
    { rewrite Em. destruct E8 as [[c' E8]|E8]; rewrite E8 in Rn; destruct g; exact Rn. }
    destruct (Nat.eq_dec j k) as [->|Ej].
    + rewrite upd_same. split; [exact E9|]. intros L. exfalso. rewrite Em in Rn'. destruct g as [t|]; [|discriminate]. injection Rn' as ->. cbn in P. lia.
    + rewrite upd_other by exact Ej. apply (h_running _ _ H); assumption.
  - rewrite E6, E7. apply (h_counter _ _ H).
  - intros j [X|(kk & X & _)]; exfalso; destruct E8 as [[c' E8]|E8]; rewrite E8 in X; destruct g; discriminate.
  - intros ds T. unfold threads_ok in *. rewrite Em in T. rewrite E4. destruct E8 as [[c' E8]|E8]; rewrite E8; destruct g; exact T.
Qed.

Lemma hm_change : forall g k c, s_main s = MChange g k c -> hinv script s'.
Proof using H E.
  intros g k c Em. ms Em. pose proof (change_bound s I g k c Em) as Hk. clear P.
  pose proof (i_w s I k Hk) as W. rewrite Em, role_at in W. destruct W as [Wp Wr Wg Wc Wh Wx Wk].
  assert (Ns : newest (w_hist (s_ws s k)) <> Startup).
  { clear - Wr. destruct g, c; cbn in Wr; intuition congruence. }
  assert (Ws : forall c w, wstatus (MChange g k c) k w = match g, c with GExit, _ | _, (CsLoad | CsTask | CsStore) => 0%nat | _, _ => given w end).
  { intros c0 w0. destruct g, c0; cbn [wstatus]; try reflexivity; rewrite ?Nat.ltb_irrefl, ?Nat.leb_refl; reflexivity. }
  destruct c.
  - destruct (dcheck dbg _) as [[]| |]; cbn [bind] in E; try discriminate. injection E as Es.
    apply (hinv_moved script s); try (subst s'; reflexivity); auto; subst s'; cbn; rewrite ?Em; destruct g; try reflexivity; try (intros j [X|(kk & X & _)]; discriminate).
    + intros ds T. unfold threads_ok in *. rewrite Em in T. exact T.
    + intros ds T. unfold threads_ok in *. rewrite Em in T. exact T.
  - destruct (ordered _ _) as [[]| |]; cbn [bind] in E; try discriminate. destruct (dcheck dbg _) as [[]| |]; cbn [bind] in E; try discriminate. injection E as Es.
    apply (hm_worker g k CsTask (w_set_task (s_ws s k) (Some (s_call s, S k)))); auto; try (subst s'; reflexivity).
    + subst s'. left. eexists. reflexivity.
    + subst s'. cbn [s_main set_main]. rewrite Em, !Ws. destruct g; reflexivity.
  - destruct (ordered _ _) as [[]| |]; cbn [bind] in E; try discriminate. injection E as Es.
    match type of Es with context [hpush (w_hist (s_ws s k)) ?x ?v] => apply (hm_worker g k CsStore (w_set_hist (s_ws s k) (hpush (w_hist (s_ws s k)) x v))); auto; try (subst s'; reflexivity) end.
    + subst s'. left. eexists. reflexivity.
    + cbn [w_hist w_set_hist]. rewrite newest_push. destruct g; discriminate.
    + subst s'. cbn [s_main set_main]. rewrite Em, !Ws. destruct g as [n|]; [|reflexivity]. cbn [role_change] in Wr. destruct Wr as (Wr & _).
      unfold given. cbn [w_pc w_hist w_set_hist]. rewrite newest_push. clear - Wr. destruct (w_pc (s_ws s k)); try discriminate; reflexivity.
  - destruct (w_mutex (s_ws s k)) as [m|]; injection E as Es; [|subst s'; exact H].
    apply (hm_worker g k CsLock (w_set_mutex (s_ws s k) None)); auto; try (subst s'; reflexivity).
    + subst s'. left. eexists. reflexivity.
    + subst s'. cbn [s_main set_main]. rewrite Em, !Ws. destruct g; reflexivity.
  - injection E as Es. match type of Es with context [set_worker s k ?w] => apply (hm_worker g k CsNotify w); auto; try (subst s'; reflexivity) end.
    + subst s'. left. eexists. reflexivity.
    + clear - Ns. destruct (w_pc (s_ws s k)) as [| | | | | | | |[]| |]; exact Ns.
    + subst s'. cbn [s_main set_main]. rewrite Em, !Ws. destruct g; [|reflexivity]. unfold given.
      destruct (w_pc (s_ws s k)) as [| | | | | | | |[]| |] eqn:Ep; rewrite ?Ep; reflexivity.
  - injection E as Es. apply (hm_worker g k CsUnlock (w_set_mutex (s_ws s k) (Some (s_view s)))); auto; try (subst s'; reflexivity).
    + subst s'. right. reflexivity.
    + subst s'. cbn [s_main set_main]. rewrite Em, !Ws. destruct g; [|reflexivity]. cbn [wstatus]. destruct (Nat.ltb_spec k (S k)); [reflexivity|lia].
Qed.

Lemma hm_wait : forall e p, s_main s = MWait e p -> hinv script s'.
Proof using H E.
  intros e p Em. ms Em. destruct (load_count s (ch_stale ch)) as [x v'] eqn:EL.
  destruct (load_count_cases s I _ _ _ ltac:(rewrite Em; reflexivity) EL) as (Vl & Lz & Ln).
  (* the end of the wait *)
  assert (Fin : newest (s_count s) = 0 -> forall cm v2,
    s' = {| s_script := s_script s; s_call := s_call s; s_main := next_of e; s_view := v2; s_n := s_n s;
         s_ws := s_ws s; s_count := s_count s; s_cmutex := cm; s_oa := s_oa s; s_log := s_log s; s_clog := s_clog s ++ [CWait] |} -> hinv script s').
  { intros Z cm v2 Es.
    assert (Nb : forall k, (k < s_n s)%nat -> busy (s_ws s k) = false).
    { apply nbusy_zero. pose proof (i_count s I) as C. rewrite Em in C. cbn [ungiven] in C. lia. }
    apply (hinv_main script s s'); auto; try (subst s'; reflexivity).
    - subst s'. cbn. rewrite Em. destruct e; reflexivity.
    - subst s'. cbn [s_main s_ws]. rewrite Em. intros n [|i] Cn Hi; destruct e as [t|t]; try reflexivity. cbn [status wstatus next_of].
      rewrite not_busy_given; [reflexivity|]. apply Nb. cbn in Cn, P. injection Cn as ->. lia.
    - subst s'. cbn. destruct e; discriminate.
    - subst s'. cbn. destruct e; discriminate.
    - subst s'. cbn [s_clog s_count]. rewrite (counter_run_snoc _ _ _ _ (h_counter _ _ H)). cbn. rewrite Z. reflexivity.
    - subst s'. cbn. intros j [X|(kk & X & _)]; destruct e; discriminate.
    - intros ds T. unfold threads_ok in *. rewrite Em in T. subst s'. destruct e; exact T. }
  assert (Mid : forall p' cm v2, s' = {| s_script := s_script s; s_call := s_call s; s_main := MWait e p'; s_view := v2; s_n := s_n s;
         s_ws := s_ws s; s_count := s_count s; s_cmutex := cm; s_oa := s_oa s; s_log := s_log s; s_clog := s_clog s |} -> hinv script s').
  { intros p' cm v2 Es. apply (hinv_moved script s); auto; try (subst s'; reflexivity); subst s'; cbn [s_main s_n s_ws s_log s_count s_clog s_script s_call]; rewrite ?Em; try reflexivity.
    - intros j [X|(kk & X & _)]; discriminate.
    - intros ds T. unfold threads_ok in *. rewrite Em in T. destruct e; exact T. }
  destruct p as [| | | | | |[]].
  - destruct (Z.eqb_spec x 0) as [Z|Z]; injection E as Es; symmetry in Es; [eapply Fin; [apply Lz; exact Z|exact Es]|eapply Mid; exact Es].
  - destruct (ch_timeout ch); [injection E as Es; symmetry in Es; eapply Mid; exact Es|].
    destruct (Z.eqb_spec x 0) as [Z|Z]; injection E as Es; symmetry in Es; [eapply Fin; [apply Lz; exact Z|exact Es]|rewrite Es; exact H].
  - destruct (s_cmutex s); injection E as Es; symmetry in Es; [eapply Mid; exact Es|rewrite Es; exact H].
  - destruct (Z.eqb_spec x 0) as [Z|Z]; injection E as Es; symmetry in Es; eapply Mid; exact Es.
  - destruct (ch_spurious ch); injection E as Es; symmetry in Es; [eapply Mid; exact Es|rewrite Es; exact H].
  - destruct (s_cmutex s); injection E as Es; symmetry in Es; [eapply Mid; exact Es|rewrite Es; exact H].
  - injection E as Es; symmetry in Es. eapply Fin; [|exact Es]. apply (i_unlock s I). rewrite Em. reflexivity.
Qed.

Theorem main_step_hinv : hinv script s'.
Proof using H E.
  destruct (s_main s) eqn:Em.
  - apply hm_next, Em. - eapply hm_solo, Em. - eapply hm_create, Em. - eapply hm_resetload, Em. - eapply hm_resetstore, Em. - eapply hm_spawn, Em.
  - eapply hm_start, Em. - eapply hm_change, Em. - eapply hm_run, Em. - eapply hm_wait, Em. - eapply hm_return, Em. - eapply hm_exit, Em. - eapply hm_join, Em.
  - unfold main_step in E. rewrite Em in E. injection E as <-. exact H.
Qed.
End MainSteps.

Theorem step_hinv : forall script dbg t ch s s', hinv script s -> step dbg t ch s = Ok s' -> hinv script s'.
Proof.
  intros script dbg [|k] ch s s' H E; cbn [step] in E.
  - eapply main_step_hinv; eassumption.
  - destruct (Nat.ltb_spec k (s_n s)); [eapply worker_step_hinv; eassumption|]. injection E as <-. exact H.
Qed.
Theorem exec_hinv : forall script dbg sched s s', hinv script s -> exec dbg sched s = Ok s' -> hinv script s'.
Proof.
  intros script dbg sched. induction sched as [|[t ch] rest IH]; intros s s' H E; cbn [exec] in E; [injection E as <-; exact H|].
  apply bind_ok in E. destruct E as (s1 & E1 & E2). eapply IH; [|exact E2]. eapply step_hinv; eassumption.
Qed.
