(** No lost wakeups: every fair execution of the thread pool ends. *)
From Verif Require Import Base ThreadPool ThreadPoolFacts PoolMainFacts PoolLogFacts SpecPool.

(** * A measure *)

Definition phase (m : mpc) : nat :=
  match m with
  | MSolo false | MCreate _ => 20
  | MSolo true | MResetLoad (ECreate _) => 19
  | MResetStore (ECreate _) => 18
  | MSpawn _ => 17
  | MWait (ECreate _) _ => 16
  | MResetLoad (ERun _) => 15
  | MResetStore (ERun _) => 14
  | MStart _ _ | MChange (GStart _) _ _ => 13
  | MRun _ false => 12
  | MRun _ true => 11
  | MWait (ERun _) _ => 10
  | MReturn _ => 9
  | MNext => 8
  | MExit _ | MChange GExit _ _ => 7
  | MJoin _ => 6
  | MDone => 5
  end.
Definition major (s : st) : nat := 30 * length (s_script s) + phase (s_main s).

Definition change_rank (c : change_pc) : Z := match c with CsLoad => 9 | CsTask => 8 | CsStore => 7 | CsLock => 6 | CsNotify => 5 | CsUnlock => 4 end.
Definition minorz (s : st) : Z :=
  match s_main s with
  | MSpawn n => n - 1 - Z.of_nat (s_n s)
  | MStart n k => 10 * (n - Z.of_nat k)
  | MChange (GStart n) k c => 10 * (n - Z.of_nat k - 1) + change_rank c
  | MExit k => 10 * (Z.of_nat (s_n s) - Z.of_nat k)
  | MChange GExit k c => 10 * (Z.of_nat (s_n s) - Z.of_nat k - 1) + change_rank c
  | MJoin k => Z.of_nat (s_n s) - Z.of_nat k
  | _ => 0
  end.
Definition minor (s : st) : nat := Z.to_nat (minorz s).

Definition rank (w : worker) : nat :=
  (if after_dec (w_pc w) then (if tstate_eqb (newest (w_hist w)) Ready then 0 else 100) else 0) +
  match w_pc w with
  | WWait (PUnlock _) => 35
  | WTask => 30 | WRun false => 29 | WRun true => 28 | WClear => 27 | WReady => 26 | WDec => 25
  | WDLock => 24 | WDNotify => 23 | WDUnlock => 22
  | WWait PCheck => 10 | WWait PSpin => 9 | WWait PLock | WWait PRelock => 8 | WWait PTest => 7 | WWait PSleep => 0
  | WEnd => 1 | WDone => 0
  end.
Fixpoint ranks (ws : nat -> worker) (n : nat) : nat := match n with O => 0 | S m => ranks ws m + rank (ws m) end.

Definition sub (m : mpc) : nat :=
  match m with
  | MWait _ PCheck => 5 | MWait _ PSpin => 4 | MWait _ PLock | MWait _ PRelock => 3 | MWait _ PTest => 2 | MWait _ (PUnlock _) => 1
  | _ => 0
  end.

Definition less (s' s : st) : Prop :=
  (major s' < major s)%nat \/
  major s' = major s /\ ((minor s' < minor s)%nat \/
  minor s' = minor s /\ ((ranks (s_ws s') (s_n s') < ranks (s_ws s) (s_n s))%nat \/
  ranks (s_ws s') (s_n s') = ranks (s_ws s) (s_n s) /\ (sub (s_main s') < sub (s_main s))%nat)).

Lemma less_wf : well_founded less.
Proof.
  assert (X : forall a b c d s, major s = a -> minor s = b -> ranks (s_ws s) (s_n s) = c -> sub (s_main s) = d -> Acc less s).
  { intros a. induction a as [a IHa] using lt_wf_ind. intros b. induction b as [b IHb] using lt_wf_ind.
    intros c. induction c as [c IHc] using lt_wf_ind. intros d. induction d as [d IHd] using lt_wf_ind.
    intros s <- <- <- <-. constructor. intros s' [L|(E1 & [L|(E2 & [L|(E3 & L)])])].
    - eapply IHa; eauto.
    - eapply IHb; eauto.
    - eapply IHc; eauto.
    - eapply IHd; eauto. }
  intros s. eapply X; reflexivity.
Qed.

Lemma ranks_ext : forall ws ws' n, (forall k, (k < n)%nat -> ws' k = ws k) -> ranks ws' n = ranks ws n.
Proof. intros ws ws' n H. induction n as [|n IH]; cbn [ranks]; [reflexivity|]. rewrite IH, H by (intros; try apply H; lia). reflexivity. Qed.
Lemma ranks_upd : forall ws k w n, (k < n)%nat -> (rank w < rank (ws k))%nat -> (ranks (upd ws k w) n < ranks ws n)%nat.
Proof.
  intros ws k w n Hk Hr. induction n as [|n IH]; [lia|]. cbn [ranks]. destruct (Nat.eq_dec k n) as [->|E].
  - rewrite upd_same, (ranks_ext ws); [lia|]. intros j Hj. apply upd_other. lia.
  - rewrite upd_other by lia. specialize (IH ltac:(lia)). lia.
Qed.

Definition fresh (ch : choice) : Prop := ch_stale ch = 0%nat /\ ch_spurious ch = false.

(** * Workers *)

Definition wstuck (s : st) (k : nat) : Prop :=
  match w_pc (s_ws s k) with
  | WDLock => s_cmutex s = None
  | WWait PSpin => newest (w_hist (s_ws s k)) = Ready
  | WWait PLock | WWait PRelock => w_mutex (s_ws s k) = None
  | WWait PSleep | WDone => True
  | _ => False
  end.

Lemma woken_measure : forall m m', woken m m' -> phase m' = phase m.
Proof. intros m m' [-> |(e & -> & ->)]; [reflexivity|]. destruct e; reflexivity. Qed.

Section WorkerProgress.
Variables (dbg : bool) (ch : choice) (s s' : st) (k : nat).
Hypothesis I : inv s.
Hypothesis Hk : (k < s_n s)%nat.
Hypothesis F : fresh ch.
Hypothesis E : worker_step dbg k ch s = Ok s'.
Notation w := (s_ws s k).

Lemma worker_less : forall w' s2, s_script s2 = s_script s -> s_n s2 = s_n s -> woken (s_main s) (s_main s2) -> s_ws s2 = upd (s_ws s) k w' ->
  (rank w' < rank w)%nat -> less s2 s.
Proof using Hk.
  intros w' s2 E1 E2 E3 E4 E5. right. split; [unfold major; rewrite E1, (woken_measure _ _ E3); reflexivity|].
  right. split. { unfold minor, minorz. rewrite E2. destruct E3 as [-> |(e & -> & ->)]; reflexivity. }
  left. rewrite E2, E4. apply ranks_upd; assumption.
Qed.

Lemma fresh_load : forall x v', load_state w k (ch_stale ch) = (x, v') -> x = newest (w_hist w).
Proof using F. intros x v' L. unfold load_state in L. destruct F as (F1 & _). rewrite F1, pick_fresh in L. injection L as <- _. reflexivity. Qed.

Ltac wl w' := right; eapply (worker_less w'); try reflexivity; try (apply woken_refl).

Lemma worker_progress : s' = s /\ wstuck s k \/ less s' s.
Proof using I Hk F E.
  pose proof (i_w s I k Hk) as [P R _ _ _ _ _]. unfold worker_step in E. unfold wstuck. destruct (w_pc w) as [|b| | | | | | |p| |] eqn:Ep.
  - destruct (ordered _ _) as [[]| |]; cbn [bind] in E; try discriminate. injection E as Es. subst s'.
    wl (w_set_pc (w_set_view (w_set_task w (w_task w)) (set_vt (w_view w) k (S (w_ta w)))) (match w_task w with Some _ => WRun false | None => WReady end)).
    unfold rank. cbn. rewrite Ep. destruct (w_task w); cbn; lia.
  - destruct (w_task w) as [t|]; [|discriminate]. destruct (ordered _ _) as [[]| |]; cbn [bind] in E; try discriminate. injection E as Es. subst s'.
    wl (w_set_pc (w_set_view w (set_vo (w_view w) (upd (vo (w_view w)) k (S (s_oa s k))))) (if b then WClear else WRun true)).
    unfold rank. cbn. rewrite Ep. destruct b; cbn; lia.
  - destruct (ordered _ _) as [[]| |]; cbn [bind] in E; try discriminate. injection E as Es. subst s'.
    wl (w_set_pc (w_set_view (w_set_task w None) (set_vt (w_view w) k (S (w_ta w)))) WReady). unfold rank. cbn. rewrite Ep. cbn. lia.
  - destruct (ordered _ _) as [[]| |]; cbn [bind] in E; try discriminate. injection E as Es. subst s'.
    wl (w_set_pc (w_set_view (w_set_hist w (hpush (w_hist w) Ready (set_vs vbot k (S (h_ts (w_hist w)))))) (set_vs (w_view w) k (S (h_ts (w_hist w))))) WDec).
    unfold rank. cbn. rewrite Ep. cbn. lia.
  - destruct P as (_ & _ & P4 & _).
    destruct (dcheck dbg (0 <? newest (s_count s))) as [[]| |]; cbn [bind] in E; try discriminate.
    destruct (i32 (newest (s_count s) - 1)) as [x| |]; cbn [bind] in E; try discriminate. injection E as Es. subst s'. right.
    eapply (worker_less (w_set_pc (w_set_view w _) (if x =? 0 then WDLock else WWait PCheck))); try reflexivity; try apply woken_refl.
    unfold rank. cbn. rewrite Ep, P4. destruct (x =? 0); cbn; lia.
  - destruct (s_cmutex s) as [m|]; injection E as Es; subst s'; [|left; auto].
    wl (w_set_pc (w_set_view w (vjoin (w_view w) m)) WDNotify). unfold rank. cbn. rewrite Ep. cbn. destruct (tstate_eqb (newest (w_hist w)) Ready); lia.
  - injection E as Es. right. subst s'. eapply (worker_less (w_set_pc w WDUnlock)).
    + unfold notify_main. destruct (s_main s) as [| | | | | | | | |e []| | | |]; reflexivity.
    + unfold notify_main. destruct (s_main s) as [| | | | | | | | |e []| | | |]; reflexivity.
    + unfold notify_main. destruct (s_main s) as [| | | | | | | | |e []| | | |] eqn:Em; cbn; rewrite ?Em; try (left; reflexivity). right. exists e. auto.
    + unfold notify_main. destruct (s_main s) as [| | | | | | | | |e []| | | |]; reflexivity.
    + unfold rank. cbn. rewrite Ep. cbn. destruct (tstate_eqb (newest (w_hist w)) Ready); lia.
  - injection E as Es. subst s'. wl (w_set_pc w (WWait PCheck)). unfold rank. cbn. rewrite Ep. cbn. destruct (tstate_eqb (newest (w_hist w)) Ready); lia.
  - destruct (load_state w k (ch_stale ch)) as [x v'] eqn:EL. pose proof (fresh_load _ _ EL) as Ex. subst x. clear EL.
    assert (Q : forall q v2 mu s2, (rank (w_set_mutex (w_set_pc (w_set_view w v2) q) mu) < rank w)%nat -> Ok (set_worker s k (w_set_mutex (w_set_pc (w_set_view w v2) q) mu)) = Ok s2 -> less s2 s).
    { intros q v2 mu s2 L [= <-]. eapply worker_less; try reflexivity; try apply woken_refl. exact L. }
    destruct p as [| | | | | |c].
    + right. eapply (Q _ v' (w_mutex w) s'); [|exact E]. unfold rank. cbn. rewrite Ep. cbn.
      destruct (newest (w_hist w)) eqn:En; cbn; rewrite ?En; cbn; lia.
    + destruct (ch_timeout ch).
      * right. eapply (Q _ (w_view w) (w_mutex w) s'); [|exact E]. unfold rank. cbn. rewrite Ep. cbn. lia.
      * destruct (tstate_eqb (newest (w_hist w)) Ready) eqn:Er.
        -- injection E as Es. left. split; [auto|]. apply tstate_eqb_eq. exact Er.
        -- right. eapply (Q _ v' (w_mutex w) s'); [|exact E]. unfold rank. cbn. rewrite Ep, Er. cbn. destruct (newest (w_hist w)); cbn; lia.
    + destruct (w_mutex w) as [m|]; [|left; injection E as Es; auto]. right. eapply (Q _ _ _ s'); [|exact E].
      unfold rank. cbn. rewrite Ep. cbn. lia.
    + right. destruct (tstate_eqb (newest (w_hist w)) Ready) eqn:Er.
      * eapply (Q _ _ _ s'); [|exact E]. unfold rank. cbn. rewrite Ep. cbn. lia.
      * eapply (Q _ v' (w_mutex w) s'); [|exact E]. unfold rank. cbn. rewrite Ep, Er. cbn. lia.
    + destruct F as (_ & F2). rewrite F2 in E. injection E as Es. left. auto.
    + destruct (w_mutex w) as [m|]; [|left; injection E as Es; auto]. right. eapply (Q _ _ _ s'); [|exact E].
      unfold rank. cbn. rewrite Ep. cbn. lia.
    + right. eapply (Q _ (w_view w) _ s'); [|exact E]. unfold rank. cbn. rewrite Ep. destruct c; cbn; lia.
  - destruct (load_state w k (ch_stale ch)) as [x v']. destruct (dcheck dbg _) as [[]| |]; cbn [bind] in E; try discriminate. injection E as Es. subst s'.
    wl (w_set_pc w WDone). unfold rank. cbn. rewrite Ep. cbn. lia.
  - injection E as Es. left. auto.
Qed.
End WorkerProgress.

(** * The calling thread *)

Definition mstuck (s : st) : Prop :=
  match s_main s with
  | MWait _ PSpin => newest (s_count s) <> 0
  | MWait _ PLock | MWait _ PRelock => s_cmutex s = None
  | MWait _ PSleep | MDone => True
  | MChange _ k CsLock => w_mutex (s_ws s k) = None
  | MJoin k => (k < s_n s)%nat /\ w_pc (s_ws s k) <> WDone
  | _ => False
  end.

Section MainProgress.
Variables (dbg : bool) (ch : choice) (s s' : st).
Hypothesis I : inv s.
Hypothesis F : fresh ch.
Hypothesis E : main_step dbg ch s = Ok s'.

Lemma less_minor : forall s2, s_script s2 = s_script s -> phase (s_main s2) = phase (s_main s) -> 0 <= minorz s2 < minorz s -> less s2 s.
Proof using. intros s2 A B C. right. split; [unfold major; rewrite A, B; reflexivity|]. left. unfold minor. lia. Qed.

Ltac maj Em := right; left; unfold major; cbn [s_script s_main set_main set_view set_oa set_count set_cmutex set_worker emit cemit]; rewrite ?Em; cbn [phase].

Lemma main_progress : s' = s /\ mstuck s \/ less s' s.
Proof using I F E.
  pose proof (i_pc s I) as P. unfold main_step in E. unfold mstuck. destruct (s_main s) as [|b|n|e|e|n|n k|g k c|n b|e p|n|k|k|] eqn:Em; cbn [main_ok] in P.
  - destruct (s_script s) as [|n rest] eqn:Es.
    + injection E as <-. maj Em. lia.
    + destruct (dcheck dbg _) as [[]| |]; cbn [bind] in E; try discriminate. unfold use_tasks in E.
      destruct (all_ordered _ _ _) as [[]| |]; cbn [bind] in E; try discriminate. injection E as <-. maj Em. rewrite Es. cbn [length]. destruct (n =? 1); cbn [phase]; lia.
  - destruct b; injection E as <-; maj Em; lia.
  - destruct (dcheck dbg _) as [[]| |]; cbn [bind] in E; try discriminate. injection E as <-. maj Em. destruct (wrap_u 32 (n - 1) <=? Z.of_nat (s_n s)); cbn [phase]; lia.
  - destruct (load_count s (ch_stale ch)). destruct (dcheck dbg _) as [[]| |]; cbn [bind] in E; try discriminate. injection E as <-. maj Em. destruct e; cbn [phase]; lia.
  - destruct (ordered _ _) as [[]| |]; cbn [bind] in E; try discriminate. injection E as <-. maj Em. destruct e; cbn [phase]; lia.
  - unfold wait_bound in P. rewrite wrap_u_id in E by lia. destruct (Z.ltb_spec (Z.of_nat (s_n s)) (n - 1)); injection E as <-.
    + right. apply less_minor; cbn [s_script s_main set_main set_view phase]; rewrite ?Em; try reflexivity. unfold minorz. cbn [s_main s_n]. rewrite Em. lia.
    + maj Em. lia.
  - unfold wait_bound in P. destruct (Z.ltb_spec (Z.of_nat k + 1) n); injection E as <-.
    + right. apply less_minor; cbn [s_script s_main set_main set_view phase]; rewrite ?Em; try reflexivity. unfold minorz. cbn [s_main s_n set_main change_rank]. rewrite Em. lia.
    + maj Em. lia.
  - assert (Hr : forall s2 c', s_script s2 = s_script s -> s_n s2 = s_n s -> s_main s2 = MChange g k c' -> change_rank c' < change_rank c -> less s2 s).
    { intros s2 c' A B C D. apply less_minor; rewrite ?C, ?Em; auto. unfold minorz. rewrite C, Em, B. unfold wait_bound in P. destruct g, c'; cbn [change_rank] in *; destruct c; cbn [change_rank] in *; lia. }
    destruct c.
    + destruct (dcheck dbg _) as [[]| |]; cbn [bind] in E; try discriminate. injection E as <-. right. eapply Hr; try reflexivity. destruct g; cbn; lia.
    + destruct (ordered _ _) as [[]| |]; cbn [bind] in E; try discriminate. destruct (dcheck dbg _) as [[]| |]; cbn [bind] in E; try discriminate. injection E as <-.
      right. eapply Hr; try reflexivity.
    + destruct (ordered _ _) as [[]| |]; cbn [bind] in E; try discriminate. injection E as <-. right. eapply Hr; try reflexivity.
    + destruct (w_mutex (s_ws s k)); injection E as <-; [|left; auto]. right. eapply Hr; try reflexivity.
    + injection E as <-. right. eapply Hr; try reflexivity.
    + injection E as <-. right. apply less_minor; cbn [s_script set_main set_worker s_main]; rewrite ?Em; auto.
      * destruct g; reflexivity.
      * unfold minorz. cbn [s_main set_main s_n set_worker]. rewrite Em. unfold wait_bound in P. destruct g; cbn [change_rank] in *; lia.
  - destruct b; injection E as <-; maj Em; lia.
  - destruct (load_count s (ch_stale ch)) as [x v'] eqn:EL.
    assert (Ex : x = newest (s_count s)).
    { unfold load_count in EL. destruct F as (F1 & _). rewrite F1, pick_fresh in EL. injection EL as <- _. reflexivity. }
    assert (N : forall s2, s_script s2 = s_script s -> s_main s2 = (match e with ECreate n => MResetLoad (ERun n) | ERun n => MReturn n end) -> less s2 s).
    { intros s2 A B. left. unfold major. rewrite A, B, Em. destruct e; cbn [phase]; lia. }
    assert (S : forall s2 p', s_script s2 = s_script s -> s_ws s2 = s_ws s -> s_n s2 = s_n s -> s_main s2 = MWait e p' -> (sub (MWait e p') < sub (MWait e p))%nat -> less s2 s).
    { intros s2 p' A B C D L. right. split; [unfold major; rewrite A, D, Em; destruct e; reflexivity|]. right. split; [unfold minor, minorz; rewrite D, Em; reflexivity|].
      right. rewrite B, C, D, Em. auto. }
    destruct p as [| | | | | |[]].
    + right. destruct (x =? 0); injection E as <-; [apply N; reflexivity|eapply S; try reflexivity; cbn; lia].
    + destruct (ch_timeout ch); [right; injection E as <-; eapply S; try reflexivity; cbn; lia|].
      destruct (Z.eqb_spec x 0); injection E as <-; [right; apply N; reflexivity|left; split; [reflexivity|congruence]].
    + destruct (s_cmutex s); injection E as <-; [right; eapply S; try reflexivity; cbn; lia|left; auto].
    + right. destruct (x =? 0); injection E as <-; eapply S; try reflexivity; cbn; lia.
    + destruct F as (_ & F2). rewrite F2 in E. injection E as <-. left. auto.
    + destruct (s_cmutex s); injection E as <-; [right; eapply S; try reflexivity; cbn; lia|left; auto].
    + injection E as <-. right. apply N; reflexivity.
  - unfold use_tasks in E. destruct (all_ordered _ _ _) as [[]| |]; cbn [bind] in E; try discriminate. injection E as <-. maj Em. lia.
  - destruct (Nat.ltb_spec k (s_n s)); injection E as <-.
    + right. apply less_minor; cbn [s_script s_main set_main set_view phase]; rewrite ?Em; try reflexivity. unfold minorz. cbn [s_main s_n set_main change_rank]. rewrite Em. lia.
    + maj Em. lia.
  - destruct (Nat.ltb_spec k (s_n s)) as [L|L].
    + destruct (dcheck dbg _) as [[]| |]; cbn [bind] in E; try discriminate.
      destruct (w_pc (s_ws s k)) eqn:Ep; injection E as <-; try (left; split; [reflexivity|split; [exact L|discriminate]]).
      right. apply less_minor; cbn [s_script s_main set_main set_view phase]; rewrite ?Em; try reflexivity. unfold minorz. cbn [s_main s_n set_main set_view]. rewrite Em. lia.
    + injection E as <-. maj Em. lia.
  - injection E as <-. left. auto.
Qed.
End MainProgress.

(** * Somebody can always move *)

Lemma mhold_main : forall s k, mhold (role_of (s_main s) k) = true -> ~ mstuck s.
Proof.
  intros s k H. unfold mstuck. destruct (s_main s) as [| | | | | |n j|[n|] j c| | | |j|j|]; cbn [role_of role_change mhold] in H; try discriminate H.
  - destruct (k <? j)%nat; cbn in H; discriminate H.
  - destruct c; try tauto; destruct (k <? j)%nat, (k =? j)%nat; cbn in H; discriminate H.
  - destruct c; try tauto; destruct (k <? j)%nat, (k =? j)%nat; cbn in H; discriminate H.
  - destruct (k <? j)%nat; cbn in H; discriminate H.
Qed.

Section Moves.
Variable s : st.
Hypothesis I : inv s.
Definition someone : Prop := ~ mstuck s \/ exists k, (k < s_n s)%nat /\ ~ wstuck s k.

Lemma move_counter_mutex : s_cmutex s = None -> someone.
Proof using I.
  intros H. destruct (i_cfree s I H) as [M|(k & Hk & W)].
  - left. unfold mstuck. destruct (s_main s) as [| | | | | | | | |e []| | | |]; cbn in M; try discriminate; tauto.
  - right. exists k. split; [exact Hk|]. unfold wstuck. destruct (w_pc (s_ws s k)); cbn in W; try discriminate; tauto.
Qed.

Lemma move_dlock : forall k, (k < s_n s)%nat -> w_pc (s_ws s k) = WDLock -> someone.
Proof using I.
  intros k Hk E. destruct (s_cmutex s) eqn:Ec; [|apply move_counter_mutex; exact Ec].
  right. exists k. split; [exact Hk|]. unfold wstuck. rewrite E, Ec. discriminate.
Qed.

Lemma move_worker_mutex : forall k, (k < s_n s)%nat -> w_mutex (s_ws s k) = None -> someone.
Proof using I.
  intros k Hk E. pose proof (i_w s I k Hk) as [_ _ _ _ H _ _]. destruct (proj1 H E) as [W|M].
  - right. exists k. split; [exact Hk|]. unfold wstuck. destruct (w_pc (s_ws s k)) as [| | | | | | | |[]| |]; cbn in W; try discriminate; tauto.
  - left. eapply mhold_main; eauto.
Qed.

Lemma move_pending : forall k, (k < s_n s)%nat -> newest (w_hist (s_ws s k)) <> Ready -> early (role_of (s_main s) k) = false ->
  w_pc (s_ws s k) <> WDone -> someone.
Proof using I.
  intros k Hk N R D. pose proof (i_w s I k Hk) as [_ _ _ _ _ _ W].
  assert (X : ~ wstuck s k -> someone) by (intros; right; eauto).
  destruct (w_pc (s_ws s k)) as [|b| | | | | | |[| | | | | |x]| |] eqn:Ep; try (apply X; unfold wstuck; rewrite Ep; tauto); auto.
  - eapply move_dlock; eauto.
  - destruct (w_mutex (s_ws s k)) eqn:Em; [|eapply move_worker_mutex; eauto]. apply X. unfold wstuck. rewrite Ep, Em. discriminate.
  - destruct (w_mutex (s_ws s k)) eqn:Em; [|eapply move_worker_mutex; eauto]. apply X. unfold wstuck. rewrite Ep, Em. discriminate.
Qed.

Lemma move_busy : forall e p, s_main s = MWait e p -> newest (s_count s) <> 0 -> someone.
Proof using I.
  intros e p Em N. pose proof (i_count s I) as C. rewrite Em in C. cbn [ungiven] in C. pose proof (nbusy_bounds (s_ws s) (s_n s)).
  destruct (nbusy_pos (s_ws s) (s_n s)) as (k & Hk & B); [lia|]. unfold busy in B. apply orb_true_iff in B. destruct B as [B|B].
  - right. exists k. split; [exact Hk|]. unfold wstuck. destruct (w_pc (s_ws s k)); cbn in B; try discriminate; tauto.
  - apply tstate_eqb_eq in B. apply (move_pending k Hk); [congruence|rewrite Em; reflexivity|].
    intros Ep. pose proof (i_w s I k Hk) as [P _ _ _ _ _ _]. rewrite Ep in P. destruct P. congruence.
Qed.

Lemma not_stuck : s_main s <> MDone -> someone.
Proof using I.
  intros D. assert (X : ~ mstuck s -> someone) by (intros; left; assumption).
  destruct (s_main s) as [|b|n|e|e|n|n k|g k c|n b|e p|n|k|k|] eqn:Em; try (apply X; unfold mstuck; rewrite Em; tauto).
  - destruct c; try (apply X; unfold mstuck; rewrite Em; tauto).
    destruct (w_mutex (s_ws s k)) eqn:Ew; [apply X; unfold mstuck; rewrite Em, Ew; discriminate|].
    apply (move_worker_mutex k); [|exact Ew]. pose proof (i_pc s I) as P. rewrite Em in P. cbn [main_ok] in P. destruct g; lia.
  - destruct p; try (apply X; unfold mstuck; rewrite Em; tauto).
    + destruct (Z.eq_dec (newest (s_count s)) 0) as [Z0|Z0]; [apply X; unfold mstuck; rewrite Em; lia|eapply move_busy; eauto].
    + destruct (s_cmutex s) eqn:Ec; [apply X; unfold mstuck; rewrite Em, Ec; discriminate|apply move_counter_mutex; exact Ec].
    + destruct (Z.eq_dec (newest (s_count s)) 0) as [Z0|Z0]; [|eapply move_busy; eauto].
      destruct (i_cwake s I) as [(k & Hk & W & _)|(W & _)]; [rewrite Em; reflexivity|exact Z0| |].
      * destruct (w_pc (s_ws s k)) eqn:Ep; cbn in W; try discriminate; [eapply move_dlock; eauto|].
        right. exists k. split; [exact Hk|]. unfold wstuck. rewrite Ep. tauto.
      * rewrite Em in W. discriminate W.
    + destruct (s_cmutex s) eqn:Ec; [apply X; unfold mstuck; rewrite Em, Ec; discriminate|apply move_counter_mutex; exact Ec].
  - destruct (lt_dec k (s_n s)) as [L|L]; [|apply X; unfold mstuck; rewrite Em; tauto].
    pose proof (i_w s I k L) as [_ R _ _ _ _ _]. rewrite Em in R. cbn in R. destruct R as (R & _).
    assert (H : w_pc (s_ws s k) = WDone \/ w_pc (s_ws s k) <> WDone) by (destruct (w_pc (s_ws s k)); (left; reflexivity) || (right; discriminate)).
    destruct H as [H|H]; [apply X; unfold mstuck; rewrite Em; tauto|].
    apply (move_pending k L); [congruence|rewrite Em; reflexivity|exact H].
Qed.
End Moves.

(** * Fair executions *)

Definition stuck (s : st) (t : tid) : Prop := match t with Main => mstuck s | Worker k => (k < s_n s)%nat -> wstuck s k end.

Lemma step_progress : forall dbg t ch s s', inv s -> fresh ch -> step dbg t ch s = Ok s' -> s' = s /\ stuck s t \/ less s' s.
Proof.
  intros dbg [|k] ch s s' I F E; cbn [step stuck] in *; [eapply main_progress; eauto|].
  destruct (Nat.ltb_spec k (s_n s)) as [L|L].
  - destruct (worker_progress dbg ch s s' k I L F E) as [(A & B)|A]; auto.
  - injection E as <-. left. split; [reflexivity|lia].
Qed.

Lemma someone_stuck : forall s, inv s -> s_main s <> MDone -> exists t, ~ stuck s t.
Proof.
  intros s I D. destruct (not_stuck s I D) as [H|(k & Hk & H)]; [exists Main; exact H|]. exists (Worker k). cbn. tauto.
Qed.

Lemma mdone_dec : forall s, s_main s = MDone \/ s_main s <> MDone.
Proof. intros s. destruct (s_main s); (left; reflexivity) || (right; discriminate). Qed.

Section Fair.
Variables (dbg : bool) (sched : nat -> tid * choice).
Hypothesis fair : forall t i, exists j, (i <= j)%nat /\ fst (sched j) = t.
Variable start : nat.
Hypothesis late : forall j, (start <= j)%nat -> fresh (snd (sched j)).

Definition steps_from (i n : nat) : list (tid * choice) := map sched (seq i n).

Lemma exec_app : forall a b s, exec dbg (a ++ b) s = (s' <- exec dbg a s ;; exec dbg b s').
Proof using.
  induction a as [|[t ch] a IH]; intros b s; cbn [exec app bind]; [reflexivity|]. destruct (step dbg t ch s); cbn [bind]; auto.
Qed.

(** Until the thread that can move is scheduled, either nothing happens or something else moves. *)
Lemma wait_turn : forall m i s t, inv s -> (start <= i)%nat -> ~ stuck s t -> fst (sched (i + m)) = t ->
  exists n s', exec dbg (steps_from i n) s = Ok s' /\ less s' s.
Proof using fair late.
  induction m as [|m IH]; intros i s t I Hi NS Et.
  - rewrite Nat.add_0_r in Et. destruct (sched i) as [t' ch] eqn:Es. cbn in Et. subst t'.
    destruct (step_inv dbg t ch s I) as (s' & E & I'). exists 1%nat, s'. unfold steps_from. cbn [seq map exec]. rewrite Es. cbn [exec]. rewrite E. cbn [bind].
    split; [reflexivity|]. destruct (step_progress dbg t ch s s' I) as [(_ & A)|A]; auto; [|tauto]. pose proof (late i Hi) as L. rewrite Es in L. exact L.
  - destruct (sched i) as [t' ch] eqn:Es. destruct (step_inv dbg t' ch s I) as (s' & E & I').
    pose proof (late i Hi) as L. rewrite Es in L. cbn [snd] in L. destruct (step_progress dbg t' ch s s' I L E) as [(A & _)|A].
    + subst s'. destruct (IH (S i) s t) as (n & s2 & E2 & L2); auto; [replace (S i + m)%nat with (i + S m)%nat by lia; exact Et|].
      exists (S n), s2. split; [|exact L2]. unfold steps_from. cbn [seq map]. rewrite Es. cbn [exec]. rewrite E. exact E2.
    + exists 1%nat, s'. split; [|exact A]. unfold steps_from. cbn [seq map]. rewrite Es. cbn [exec]. rewrite E. reflexivity.
Qed.

Lemma ends : forall s, inv s -> forall i, (start <= i)%nat -> exists n s', exec dbg (steps_from i n) s = Ok s' /\ s_main s' = MDone.
Proof using fair late.
  intros s. induction s as [s IH] using (well_founded_ind less_wf). intros I i Hi.
  destruct (mdone_dec s) as [D|D]; [exists 0%nat, s; auto|]. destruct (someone_stuck s I D) as (t & NS).
  destruct (fair t i) as (j & Hj & Ej). destruct (wait_turn (j - i) i s t I Hi NS) as (n & s1 & E1 & L1).
  { replace (i + (j - i))%nat with j by lia. exact Ej. }
  destruct (exec_inv dbg (steps_from i n) s I) as (s1' & E1' & I1). rewrite E1 in E1'. injection E1' as <-.
  destruct (IH s1 L1 I1 (i + n)%nat) as (m & s2 & E2 & D2); [lia|]. exists (n + m)%nat, s2. split; [|exact D2].
  unfold steps_from. rewrite seq_app, map_app, exec_app. fold (steps_from i n). rewrite E1. exact E2.
Qed.
End Fair.

Lemma pool_ends : forall dbg script sched, valid_script script -> fair_pool sched ->
  exists n s, exec dbg (first_steps sched n) (init script) = Ok s /\ s_main s = MDone.
Proof.
  intros dbg script sched V (F & start & L).
  destruct (exec_inv dbg (first_steps sched start) (init script) (init_inv script V)) as (s1 & E1 & I1).
  destruct (ends dbg sched F start L s1 I1 start (le_n _)) as (n & s2 & E2 & D). exists (start + n)%nat, s2. split; [|exact D].
  unfold first_steps in *. rewrite seq_app, map_app, exec_app. fold (first_steps sched start) in *. rewrite E1. exact E2.
Qed.

(** The destructor starts when there are no more calls. *)
Definition leaving (m : mpc) : bool := match m with MExit _ | MChange GExit _ _ | MJoin _ | MDone => true | _ => false end.

Lemma leaving_step : forall dbg t ch s s', inv s -> (leaving (s_main s) = true -> s_script s = []) -> step dbg t ch s = Ok s' ->
  leaving (s_main s') = true -> s_script s' = [].
Proof.
  intros dbg [|k] ch s s' I H E. 2: {
    cbn [step] in E. destruct (Nat.ltb_spec k (s_n s)); [|injection E as <-; exact H].
    pose proof (worker_effect dbg ch s k I ltac:(assumption) s' E) as W. intros L. rewrite (we_script k s s' W). apply H.
    destruct (we_main k s s' W) as [M|(e & M1 & M2)]; [rewrite <- M; exact L|]. rewrite M2 in L. discriminate L. }
  cbn [step] in E. unfold main_step in E. destruct (s_main s) as [|b|n|e|e|n|n k|g k c|n b|e p|n|k|k|] eqn:Em; cbn [leaving] in H.
  - destruct (s_script s) as [|n rest] eqn:Es.
    + injection E as <-. intros _. exact Es.
    + destruct (dcheck dbg _) as [[]| |]; cbn [bind] in E; try discriminate. unfold use_tasks in E.
      destruct (all_ordered _ _ _) as [[]| |]; cbn [bind] in E; try discriminate. injection E as <-. cbn. destruct (n =? 1); discriminate.
  - destruct b; injection E as <-; discriminate.
  - destruct (dcheck dbg _) as [[]| |]; cbn [bind] in E; try discriminate. injection E as <-. cbn. destruct (wrap_u 32 (n - 1) <=? Z.of_nat (s_n s)); discriminate.
  - destruct (load_count s (ch_stale ch)). destruct (dcheck dbg _) as [[]| |]; cbn [bind] in E; try discriminate. injection E as <-. discriminate.
  - destruct (ordered _ _) as [[]| |]; cbn [bind] in E; try discriminate. injection E as <-. destruct e; discriminate.
  - destruct (Z.of_nat (s_n s) <? wrap_u 32 (n - 1)); injection E as <-; discriminate.
  - injection E as <-. cbn. destruct (Z.of_nat k + 1 <? n); discriminate.
  - assert (G : s_script s' = s_script s /\ (leaving (s_main s') = true -> g = GExit)).
    { destruct c.
      + destruct (dcheck dbg _) as [[]| |]; cbn [bind] in E; try discriminate. injection E as <-. cbn. destruct g; split; auto; discriminate.
      + destruct (ordered _ _) as [[]| |]; cbn [bind] in E; try discriminate. destruct (dcheck dbg _) as [[]| |]; cbn [bind] in E; try discriminate. injection E as <-.
        cbn. destruct g; split; auto; discriminate.
      + destruct (ordered _ _) as [[]| |]; cbn [bind] in E; try discriminate. injection E as <-. cbn. destruct g; split; auto; discriminate.
      + destruct (w_mutex (s_ws s k)); injection E as <-; cbn; rewrite ?Em; destruct g; split; auto; discriminate.
      + injection E as <-. cbn. destruct g; split; auto; discriminate.
      + injection E as <-. cbn. destruct g; split; auto; discriminate. }
    destruct G as (G1 & G2). intros L. rewrite G1. apply H. rewrite (G2 L). reflexivity.
  - destruct b; injection E as <-; discriminate.
  - destruct (load_count s (ch_stale ch)) as [x v']. intros L. exfalso. revert L.
    destruct p as [| | | | | |[]]; try destruct (ch_timeout ch); try destruct (x =? 0); try destruct (s_cmutex s); try destruct (ch_spurious ch); injection E as <-;
    cbn; rewrite ?Em; destruct e; discriminate.
  - unfold use_tasks in E. destruct (all_ordered _ _ _) as [[]| |]; cbn [bind] in E; try discriminate. injection E as <-. discriminate.
  - destruct (k <? s_n s)%nat; injection E as <-; auto.
  - destruct (k <? s_n s)%nat; [|injection E as <-; auto]. destruct (dcheck dbg _) as [[]| |]; cbn [bind] in E; try discriminate.
    destruct (w_pc (s_ws s k)); injection E as <-; auto.
  - injection E as <-. auto.
Qed.

Lemma leaving_exec : forall dbg sched s s', inv s -> (leaving (s_main s) = true -> s_script s = []) -> exec dbg sched s = Ok s' ->
  leaving (s_main s') = true -> s_script s' = [].
Proof.
  intros dbg sched. induction sched as [|[t ch] sched IH]; intros s s' I H E; cbn [exec] in E; [injection E as <-; exact H|].
  destruct (step_inv dbg t ch s I) as (s1 & E1 & I1). rewrite E1 in E. cbn [bind] in E. apply (IH s1 s' I1); [|exact E].
  exact (leaving_step dbg t ch s s1 I H E1).
Qed.
