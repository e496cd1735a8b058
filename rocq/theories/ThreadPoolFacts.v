(** The invariant of the thread pool. *)
From Verif Require Import Base ThreadPool.

Lemma upd_same : forall {A} (f : nat -> A) k x, upd f k x k = x.
Proof. intros A f k x. unfold upd. rewrite Nat.eqb_refl. reflexivity. Qed.
Lemma upd_other : forall {A} (f : nat -> A) k x j, j <> k -> upd f k x j = f j.
Proof. intros A f k x j H. unfold upd. destruct (Nat.eqb_spec j k); [contradiction|reflexivity]. Qed.

Lemma ordered_ok : forall a b, (a <= b)%nat -> ordered a b = Ok tt.
Proof. intros a b H. unfold ordered. destruct (Nat.leb_spec a b); [reflexivity|lia]. Qed.

Lemma tstate_eqb_eq : forall a b, tstate_eqb a b = true <-> a = b.
Proof. intros [] []; cbn; split; congruence. Qed.
Lemma tstate_eqb_neq : forall a b, tstate_eqb a b = false <-> a <> b.
Proof. intros [] []; cbn; split; congruence. Qed.

(** * Views *)

Definition vle (a b : view) : Prop :=
  (vc a <= vc b)%nat /\ (forall k, vs a k <= vs b k)%nat /\ (forall k, vt a k <= vt b k)%nat /\ (forall k, vo a k <= vo b k)%nat.
Lemma vle_refl : forall v, vle v v.
Proof. intros v. repeat split; intros; lia. Qed.
Lemma vle_trans : forall a b c, vle a b -> vle b c -> vle a c.
Proof. intros a b c (A1 & A2 & A3 & A4) (B1 & B2 & B3 & B4). split; [lia|]. repeat split; intros k; [specialize (A2 k); specialize (B2 k)|specialize (A3 k); specialize (B3 k)|specialize (A4 k); specialize (B4 k)]; lia. Qed.
Lemma vle_join_l : forall a b, vle a (vjoin a b).
Proof. intros a b. unfold vjoin. repeat split; cbn; intros; lia. Qed.
Lemma vle_join_r : forall a b, vle b (vjoin a b).
Proof. intros a b. unfold vjoin. repeat split; cbn; intros; lia. Qed.
Lemma vle_set_vc : forall v t, (vc v <= t)%nat -> vle v (set_vc v t).
Proof. intros v t H. repeat split; cbn; intros; lia. Qed.
Lemma vle_set_vs : forall v k t, (vs v k <= t)%nat -> vle v (set_vs v k t).
Proof. intros v k t H. repeat split; cbn; intros; try lia. unfold upd. destruct (Nat.eqb_spec k0 k); subst; lia. Qed.
Lemma vle_set_vt : forall v k t, (vt v k <= t)%nat -> vle v (set_vt v k t).
Proof. intros v k t H. repeat split; cbn; intros; try lia. unfold upd. destruct (Nat.eqb_spec k0 k); subst; lia. Qed.

(** The part of a view that concerns worker [k]. *)
Definition vle_at (k : nat) (a b : view) : Prop := (vs a k <= vs b k)%nat /\ (vt a k <= vt b k)%nat /\ (vo a k <= vo b k)%nat.
Lemma vle_vle_at : forall k a b, vle a b -> vle_at k a b.
Proof. intros k a b (A & B & C & D). repeat split; auto. Qed.
Lemma vle_at_refl : forall k v, vle_at k v v.
Proof. intros. repeat split; lia. Qed.

(** * Roles *)

(** What the calling thread has done about worker [k]. *)
Inductive stage := StLock | StNotify | StUnlock.
Inductive role := RKnown | RStore | RSig (exiting : bool) (g : stage) | RGiven | RExited.

Definition role_change (exiting : bool) (c : change_pc) : role :=
  match c with
  | CsLoad | CsTask => RKnown
  | CsStore => if exiting then RKnown else RStore
  | CsLock => RSig exiting StLock | CsNotify => RSig exiting StNotify | CsUnlock => RSig exiting StUnlock
  end.

Definition role_of (m : mpc) (k : nat) : role :=
  match m with
  | MNext | MSolo _ | MCreate _ | MResetLoad _ | MResetStore _ | MReturn _ => RKnown
  | MSpawn _ | MRun _ _ | MWait _ _ => RGiven
  | MStart _ j => if (k <? j)%nat then RGiven else RKnown
  | MChange (GStart _) j c => if (k <? j)%nat then RGiven else if (k =? j)%nat then role_change false c else RKnown
  | MChange GExit j c => if (k <? j)%nat then RExited else if (k =? j)%nat then role_change true c else RKnown
  | MExit j => if (k <? j)%nat then RExited else RKnown
  | MJoin _ | MDone => RExited
  end.

(** Between a Reset and the end of the Wait. *)
Definition in_epoch (m : mpc) : bool :=
  match m with
  | MSpawn _ | MStart _ _ | MChange (GStart _) _ _ | MRun _ _ | MWait _ _ => true
  | _ => false
  end.

(** Decrements announced but not yet assigned to a worker. *)
Definition ungiven (m : mpc) (n : nat) : Z :=
  match m with
  | MSpawn t => t - 1 - Z.of_nat n
  | MStart t k => t - 1 - Z.of_nat k
  | MChange (GStart t) k (CsLoad | CsTask | CsStore) => t - 1 - Z.of_nat k
  | MChange (GStart t) k _ => t - 2 - Z.of_nat k
  | _ => 0
  end.

(** * Workers *)

(** Waiting or about to, not yet having seen a new state. *)
Definition after_dec (p : wpc) : bool :=
  match p with
  | WDLock | WDNotify | WDUnlock => true
  | WWait (PUnlock _) => false
  | WWait _ => true
  | _ => false
  end.
Definition active (p : wpc) : bool := match p with WTask | WRun _ | WClear | WReady | WDec => true | _ => false end.
Definition busy (w : worker) : bool := active (w_pc w) || tstate_eqb (newest (w_hist w)) HasWork.
Definition whold (p : wpc) : bool := match p with WWait PTest | WWait (PUnlock _) => true | _ => false end.
Definition mhold (r : role) : bool := match r with RSig _ StNotify | RSig _ StUnlock => true | _ => false end.
Definition early (r : role) : bool := match r with RSig _ StLock | RSig _ StNotify => true | _ => false end.

Section Wok.
Variables (r : role) (ep : bool) (mv cmv : view) (oak c k : nat) (w : worker).
Notation N := (newest (w_hist w)).
Notation T := (h_ts (w_hist w)).
Notation V := (w_view w).

Definition full (v : view) : Prop := (w_ta w <= vt v k)%nat /\ (oak <= vo v k)%nat.
Definition seen (v : view) : Prop := (T <= vs v k)%nat.

Record wok : Prop := {
  ok_pc : match w_pc w with
    | WTask => seen V /\ full V /\ ((N = Startup /\ w_task w = None) \/ (N = HasWork /\ w_task w = Some (c, S k)))
    | WRun _ | WClear => seen V /\ full V /\ N = HasWork /\ w_task w = Some (c, S k)
    | WReady => seen V /\ full V /\ (N = Startup \/ N = HasWork) /\ w_task w = None
    | WDec => seen V /\ full V /\ N = Ready /\ w_task w = None
    | WWait (PUnlock x) => seen V /\ x = N /\ (N = ExitASAP \/ (N = HasWork /\ full V /\ w_task w = Some (c, S k)))
    | WEnd | WDone => seen V /\ N = ExitASAP
    | _ => N <> Startup /\ (N = Ready -> seen V) /\
           (N <> Ready -> (T <= S (vs V k))%nat /\ (seen V \/ h_val (w_hist w) (Nat.pred T) = Ready))
    end;
  ok_role : match r with
    | RKnown => after_dec (w_pc w) = true /\ N = Ready /\ w_task w = None /\ seen mv /\ full mv
    | RStore => after_dec (w_pc w) = true /\ N = Ready /\ w_task w = Some (c, S k) /\ seen mv /\ full mv
    | RSig false _ => (N = HasWork \/ N = Ready) /\ (N = HasWork -> seen mv)
    | RSig true _ => N = ExitASAP /\ seen mv
    | RGiven => N <> ExitASAP
    | RExited => N = ExitASAP /\ seen mv
    end;
  ok_given : after_dec (w_pc w) = true -> N = HasWork -> w_task w = Some (c, S k) /\ full (newest_view (w_hist w));
  ok_count : ep = true -> N = Ready -> after_dec (w_pc w) = true -> r <> RStore -> full cmv /\ seen cmv /\ w_task w = None;
  ok_held : w_mutex w = None <-> whold (w_pc w) = true \/ mhold r = true;
  ok_excl : ~ (whold (w_pc w) = true /\ mhold r = true);
  ok_wake : N <> Ready -> after_dec (w_pc w) = true -> early r = false ->
    w_pc w <> WWait PSleep /\ (w_pc w = WWait PTest -> seen V) /\ (forall m, w_mutex w = Some m -> seen m)
}.
End Wok.

Lemma wok_mono : forall r ep mv cmv oak c k w mv' cmv', wok r ep mv cmv oak c k w ->
  vle_at k mv mv' -> vle_at k cmv cmv' -> wok r ep mv' cmv' oak c k w.
Proof.
  intros r ep mv cmv oak c k w mv' cmv' [A1 A2 A3 A4 A5 A6 A7] (M1 & M2 & M3) (C1 & C2 & C3).
  constructor; auto; unfold full, seen in *.
  - clear - A2 M1 M2 M3. destruct r as [| |[] g| |]; try exact A2.
    + destruct A2 as (B1 & B2 & B3 & B4 & B5 & B6). repeat (split; [assumption|]). lia.
    + destruct A2 as (B1 & B2 & B3 & B4 & B5 & B6). repeat (split; [assumption|]). lia.
    + destruct A2 as (B1 & B2). split; [exact B1|lia].
    + destruct A2 as (B1 & B2). split; [exact B1|]. intros E. specialize (B2 E). lia.
    + destruct A2 as (B1 & B2). split; [exact B1|lia].
  - clear - A4 C1 C2 C3. intros E N D R. destruct (A4 E N D R) as ((B1 & B2) & B3 & B4). split; [lia|]. split; [lia|exact B4].
Qed.

(** * Counting busy workers *)

Definition b2z (b : bool) : Z := if b then 1 else 0.
Fixpoint nbusy (ws : nat -> worker) (n : nat) : Z := match n with O => 0 | S m => nbusy ws m + b2z (busy (ws m)) end.

Lemma nbusy_bounds : forall ws n, 0 <= nbusy ws n <= Z.of_nat n.
Proof. intros ws n. induction n as [|n IH]; cbn [nbusy]; [lia|]. unfold b2z. destruct (busy (ws n)); lia. Qed.
Lemma nbusy_ext : forall ws ws' n, (forall k, (k < n)%nat -> busy (ws k) = busy (ws' k)) -> nbusy ws n = nbusy ws' n.
Proof. intros ws ws' n H. induction n as [|n IH]; cbn [nbusy]; [reflexivity|]. rewrite IH, H by (intros; try apply H; lia). reflexivity. Qed.
Lemma nbusy_upd : forall ws k w n, (k < n)%nat -> nbusy (upd ws k w) n = nbusy ws n - b2z (busy (ws k)) + b2z (busy w).
Proof.
  intros ws k w n H. induction n as [|n IH]; [lia|]. cbn [nbusy]. destruct (Nat.eq_dec k n) as [->|E].
  - rewrite upd_same, (nbusy_ext (upd ws n w) ws n); [lia|]. intros j Hj. rewrite upd_other by lia. reflexivity.
  - rewrite IH by lia. rewrite upd_other by lia. lia.
Qed.
Lemma nbusy_zero : forall ws n, nbusy ws n = 0 -> forall k, (k < n)%nat -> busy (ws k) = false.
Proof.
  intros ws n. induction n as [|n IH]; cbn [nbusy]; intros H k Hk; [lia|]. pose proof (nbusy_bounds ws n).
  unfold b2z in H. destruct (busy (ws n)) eqn:E; [lia|]. destruct (Nat.eq_dec k n) as [->|]; [exact E|]. apply IH; lia.
Qed.
Lemma nbusy_pos : forall ws n, 0 < nbusy ws n -> exists k, (k < n)%nat /\ busy (ws k) = true.
Proof.
  intros ws n. induction n as [|n IH]; cbn [nbusy]; intros H; [lia|]. destruct (busy (ws n)) eqn:E; [exists n; auto|].
  unfold b2z in H. destruct IH as (k & Hk & E'); [lia|]. exists k. auto.
Qed.

(** * The invariant *)

Definition wait_bound (n : Z) := 2 <= n <= int_max.
Definition main_ok (m : mpc) (sn : nat) : Prop :=
  match m with
  | MNext | MSolo _ | MDone => True
  | MCreate n => wait_bound n
  | MResetLoad (ECreate n) | MResetStore (ECreate n) => wait_bound n /\ Z.of_nat sn < n - 1
  | MResetLoad (ERun n) | MResetStore (ERun n) => wait_bound n /\ n - 1 <= Z.of_nat sn
  | MSpawn n => wait_bound n /\ Z.of_nat sn <= n - 1
  | MWait (ECreate n) _ => wait_bound n /\ Z.of_nat sn = n - 1
  | MStart n k => wait_bound n /\ n - 1 <= Z.of_nat sn /\ Z.of_nat k <= n - 1
  | MChange (GStart n) k _ => wait_bound n /\ n - 1 <= Z.of_nat sn /\ Z.of_nat k < n - 1
  | MChange GExit k c => (k < sn)%nat /\ c <> CsTask
  | MRun n _ | MWait (ERun n) _ => wait_bound n /\ n - 1 <= Z.of_nat sn
  | MReturn n => 1 <= n <= int_max /\ n - 1 <= Z.of_nat sn
  | MExit k | MJoin k => (k <= sn)%nat
  end.

Definition mhold_c (m : mpc) : bool := match m with MWait _ PTest | MWait _ (PUnlock _) => true | _ => false end.
Definition whold_c (p : wpc) : bool := match p with WDNotify | WDUnlock => true | _ => false end.
Definition wnotify_c (p : wpc) : bool := match p with WDLock | WDNotify => true | _ => false end.
Definition msleep (m : mpc) : bool := match m with MWait _ PSleep => true | _ => false end.
Definition mtest (m : mpc) : bool := match m with MWait _ PTest => true | _ => false end.
Definition munlock (m : mpc) : bool := match m with MWait _ (PUnlock _) => true | _ => false end.

Notation lc s := (h_ts (s_count s)).

Record inv (s : st) : Prop := {
  i_script : Forall (fun n => 1 <= n <= int_max) (s_script s);
  i_pc : main_ok (s_main s) (s_n s);
  i_w : forall k, (k < s_n s)%nat ->
    wok (role_of (s_main s) k) (in_epoch (s_main s)) (s_view s) (newest_view (s_count s)) (s_oa s k) (s_call s) k (s_ws s k);
  i_count : newest (s_count s) = nbusy (s_ws s) (s_n s) + ungiven (s_main s) (s_n s);
  i_max : newest (s_count s) <= int_max;
  i_epoch : in_epoch (s_main s) = true -> forall t, (vc (s_view s) <= t < lc s)%nat -> h_val (s_count s) t <> 0;
  i_known : in_epoch (s_main s) = false -> (lc s <= vc (s_view s))%nat;
  i_obj : forall k, (s_n s <= k)%nat -> (s_oa s k <= vo (s_view s) k)%nat;
  i_cheld : forall k, (k < s_n s)%nat -> whold_c (w_pc (s_ws s k)) = true ->
    s_cmutex s = None /\ mhold_c (s_main s) = false /\ forall j, (j < s_n s)%nat -> whold_c (w_pc (s_ws s j)) = true -> j = k;
  i_cmheld : mhold_c (s_main s) = true -> s_cmutex s = None;
  i_cfree : s_cmutex s = None -> mhold_c (s_main s) = true \/ exists k, (k < s_n s)%nat /\ whold_c (w_pc (s_ws s k)) = true;
  i_cwake : in_epoch (s_main s) = true -> newest (s_count s) = 0 ->
    (exists k, (k < s_n s)%nat /\ wnotify_c (w_pc (s_ws s k)) = true /\ (lc s <= vc (w_view (s_ws s k)))%nat) \/
    (msleep (s_main s) = false /\ (mtest (s_main s) = true -> (lc s <= vc (s_view s))%nat) /\
     (forall m, s_cmutex s = Some m -> (lc s <= vc m)%nat) /\
     (forall k, (k < s_n s)%nat -> whold_c (w_pc (s_ws s k)) = true -> (lc s <= vc (w_view (s_ws s k)))%nat));
  i_unlock : munlock (s_main s) = true -> newest (s_count s) = 0 /\ (lc s <= vc (s_view s))%nat /\ vle (newest_view (s_count s)) (s_view s)
}.

Lemma init_inv : forall script, Forall (fun n => 1 <= n <= int_max) script -> inv (init script).
Proof.
  intros script H. constructor; cbn; auto; try discriminate; try (intros; lia).
Qed.

(** * Steps of workers *)

Lemma newest_push : forall {A} (h : hist A) a v, newest (hpush h a v) = a.
Proof. intros A h a v. unfold newest, hpush. cbn. apply upd_same. Qed.
Lemma newest_view_push : forall {A} (h : hist A) a v, newest_view (hpush h a v) = v.
Proof. intros A h a v. unfold newest_view, hpush. cbn. apply upd_same. Qed.

Lemma role_epoch : forall m k, (role_of m k = RGiven \/ exists g, role_of m k = RSig false g) -> in_epoch m = true.
Proof.
  intros m k H. destruct m as [| | | | | | |[t|] j c| | | |j| |]; try reflexivity; exfalso;
  assert (X : forall r, r = RKnown \/ r = RExited \/ (exists x, r = RSig true x) -> r = RGiven \/ (exists x, r = RSig false x) -> False)
    by (clear; intros r A [-> | [x ->]]; destruct A as [A|[A|[y A]]]; discriminate); (eapply X; [|exact H]); clear; cbn [role_of role_change]; auto.
  - destruct (k <? j)%nat; auto. destruct (k =? j)%nat; auto. destruct c; cbn; auto; right; right; eexists; reflexivity.
  - destruct (k <? j)%nat; auto.
Qed.

Lemma ungiven_nonneg : forall m n, main_ok m n -> 0 <= ungiven m n.
Proof. intros m n H. destruct m; cbn in *; try lia. destruct g; [|lia]. destruct c; lia. Qed.

Section Local.
Variables (s : st) (k : nat).
Hypothesis I : inv s.
Hypothesis Hk : (k < s_n s)%nat.
Notation w := (s_ws s k).
Notation W := (wok (role_of (s_main s) k) (in_epoch (s_main s)) (s_view s) (newest_view (s_count s))).

Definition with_worker (w' : worker) (oa : nat -> nat) (log : list event) : st := {|
  s_script := s_script s; s_call := s_call s; s_main := s_main s; s_view := s_view s; s_n := s_n s;
  s_ws := upd (s_ws s) k w'; s_count := s_count s; s_cmutex := s_cmutex s; s_oa := oa; s_log := log; s_clog := s_clog s |}.

Lemma inv_local : forall w' oa log, (forall j, j <> k -> oa j = s_oa s j) ->
  whold_c (w_pc w) = false -> wnotify_c (w_pc w) = false -> whold_c (w_pc w') = false -> busy w' = busy w ->
  W (oa k) (s_call s) k w' -> inv (with_worker w' oa log).
Proof using I Hk.
  intros w' oa log Hoa H1 H2 H3 H4 H5. destruct I. constructor; cbn; auto.
  - intros j Hj. destruct (Nat.eq_dec j k) as [->|E]; [rewrite upd_same; exact H5|]. rewrite upd_other, Hoa by exact E. auto.
  - rewrite nbusy_upd by exact Hk. rewrite H4. clear - i_count0. lia.
  - intros j Hj. rewrite Hoa by (clear - Hk Hj; lia). auto.
  - intros j Hj. destruct (Nat.eq_dec j k) as [->|E]; [rewrite upd_same; congruence|]. rewrite upd_other by exact E. intros Hh.
    destruct (i_cheld0 j Hj Hh) as (A & B & C). split; [exact A|]. split; [exact B|]. intros j' Hj'.
    destruct (Nat.eq_dec j' k) as [->|E']; [rewrite upd_same; congruence|]. rewrite upd_other by exact E'. auto.
  - intros Hc. destruct (i_cfree0 Hc) as [A|(j & Hj & A)]; [auto|]. right. exists j. split; [exact Hj|].
    rewrite upd_other; [exact A|]. intros ->. congruence.
  - intros Hep Hz. destruct (i_cwake0 Hep Hz) as [(j & Hj & A & B)|(A & B & C & D)].
    + left. exists j. split; [exact Hj|]. rewrite upd_other; [auto|]. intros ->. congruence.
    + right. repeat (split; [assumption|]). intros j Hj. destruct (Nat.eq_dec j k) as [->|E]; [rewrite upd_same; congruence|].
      rewrite upd_other by exact E. auto.
Qed.

Lemma active_role : active (w_pc w) = true -> in_epoch (s_main s) = true /\
  (role_of (s_main s) k = RGiven \/ exists g, role_of (s_main s) k = RSig false g).
Proof using I Hk.
  intros A. pose proof (i_w s I k Hk) as [P R _ _ _ _ _].
  assert (E : role_of (s_main s) k = RGiven \/ exists g, role_of (s_main s) k = RSig false g).
  { destruct (role_of (s_main s) k) as [| |[] g| |]; eauto.
    - destruct R as (R & _). clear P I. destruct (w_pc w); discriminate.
    - destruct R as (R & _). clear P I. destruct (w_pc w); discriminate.
    - destruct R as (R & _). exfalso. clear I. destruct (w_pc w); try discriminate; intuition congruence.
    - destruct R as (R & _). exfalso. clear I. destruct (w_pc w); try discriminate; intuition congruence. }
  split; [eapply role_epoch; exact E|exact E].
Qed.
End Local.

(** Loads of the state by the worker. *)
Lemma pick_le : forall {A} (h : hist A) lo stale, (pick h lo stale <= h_ts h)%nat.
Proof. intros. unfold pick. lia. Qed.
Lemma pick_newest : forall {A} (h : hist A) lo stale, (h_ts h <= lo)%nat -> pick h lo stale = h_ts h.
Proof. intros A h lo stale H. unfold pick. lia. Qed.
Lemma pick_fresh : forall {A} (h : hist A) lo, pick h lo 0 = h_ts h.
Proof. intros A h lo. unfold pick. lia. Qed.
Lemma pick_ge : forall {A} (h : hist A) lo stale, (lo <= h_ts h)%nat -> (lo <= pick h lo stale)%nat.
Proof. intros. unfold pick. lia. Qed.

Lemma load_state_cases : forall w k stale x v',
  newest (w_hist w) <> Startup -> (newest (w_hist w) = Ready -> seen k w (w_view w)) ->
  (newest (w_hist w) <> Ready -> (h_ts (w_hist w) <= S (vs (w_view w) k))%nat /\
     (seen k w (w_view w) \/ h_val (w_hist w) (Nat.pred (h_ts (w_hist w))) = Ready)) ->
  load_state w k stale = (x, v') ->
  vle (w_view w) v' /\
  ((x = Ready /\ ~ (newest (w_hist w) <> Ready /\ seen k w (w_view w))) \/
   (x = newest (w_hist w) /\ x <> Ready /\ x <> Startup /\ seen k w v' /\ vle (newest_view (w_hist w)) v')).
Proof.
  intros w k stale x v' H1 H2 H3 E. unfold load_state in E. injection E as <- <-. cbv zeta.
  set (h := w_hist w) in *. set (V := w_view w) in *. set (t := pick h (vs V k) stale).
  split; [eapply vle_trans; [|apply vle_join_l]; apply vle_set_vs; lia|].
  unfold seen in *. fold h V in H2, H3 |- *. pose proof (pick_le h (vs V k) stale) as Pl. fold t in Pl.
  destruct (Nat.eq_dec t (h_ts h)) as [Et|Et].
  - rewrite Et. fold (newest h). destruct (tstate_eqb (newest h) Ready) eqn:Er.
    + apply tstate_eqb_eq in Er. left. split; [exact Er|]. tauto.
    + apply tstate_eqb_neq in Er. right. split; [reflexivity|]. split; [exact Er|]. split; [exact H1|]. split.
      * unfold set_vs, vjoin. cbn. rewrite upd_same. lia.
      * apply vle_join_r.
  - assert (Nr : newest h <> Ready).
    { intros Er. apply Et. apply pick_newest. apply H2. exact Er. }
    destruct (H3 Nr) as (A & B). assert (Ns : ~ (h_ts h <= vs V k)%nat) by (intros X; apply Et; apply pick_newest; exact X).
    pose proof (pick_ge h (vs V k) stale ltac:(lia)) as Pg. fold t in Pg. left. split; [|intros (_ & X); contradiction].
    destruct B as [B|B]; [contradiction|]. replace t with (Nat.pred (h_ts h)) by lia. exact B.
Qed.

Section WorkerStep.
Variables (dbg : bool) (ch : choice) (s : st) (k : nat).
Hypothesis I : inv s.
Hypothesis Hk : (k < s_n s)%nat.
Notation w := (s_ws s k).
Notation goal_ := (exists s', worker_step dbg k ch s = Ok s' /\ inv s').

Ltac wstart E := unfold worker_step; rewrite E; pose proof (i_w s I k Hk) as [P R G C H X K]; rewrite E in *;
  unfold full, seen in *.
Ltac wlocal w' oa log := eexists; split; [reflexivity|]; apply (inv_local s k I Hk w' oa log).

Ltac wcbn := unfold full, seen; cbn [w_pc w_set_pc w_set_view w_set_task w_set_hist w_set_mutex w_view w_hist w_task w_ta w_mutex
  set_vt set_vs set_vo set_vc vt vo vs vc vjoin h_ts hpush whold mhold after_dec early]; rewrite ?newest_push, ?newest_view_push, ?upd_same.

Lemma step_task : w_pc w = WTask -> goal_.
Proof using I Hk.
  intros E. wstart E. destruct P as (P1 & (P2 & P3) & P4). rewrite ordered_ok by exact P2. cbn [bind].
  wlocal (w_set_pc (w_set_view (w_set_task w (w_task w)) (set_vt (w_view w) k (S (w_ta w))))
                          (match w_task w with Some _ => WRun false | None => WReady end)) (s_oa s) (s_log s); auto; rewrite ?E; auto.
  - cbn. destruct (w_task w); reflexivity.
  - unfold busy. cbn. rewrite E. destruct (w_task w); reflexivity.
  - destruct (active_role s k I Hk) as (A1 & A2); [rewrite E; reflexivity|]. cbn in *.
    constructor; wcbn.
    + destruct P4 as [(P4 & P5)|(P4 & P5)]; rewrite P5; repeat split; auto.
    + destruct A2 as [A2|[g A2]]; rewrite A2 in *; auto.
    + destruct (w_task w); discriminate.
    + destruct (w_task w); discriminate.
    + rewrite H. destruct (w_task w); reflexivity.
    + destruct (w_task w); intuition discriminate.
    + destruct (w_task w); discriminate.
Qed.

Lemma step_run : forall b, w_pc w = WRun b -> goal_.
Proof using I Hk.
  intros b E. wstart E. destruct P as (P1 & (P2 & P3) & P4 & P5). rewrite P5. rewrite ordered_ok by exact P3. cbn [bind].
  wlocal (w_set_pc (w_set_view w (set_vo (w_view w) (upd (vo (w_view w)) k (S (s_oa s k))))) (if b then WClear else WRun true))
    (upd (s_oa s) k (S (s_oa s k))) (s_log s ++ [if b then EEnd (s_call s, S k) (Worker k) else EBegin (s_call s, S k) (Worker k)]);
    rewrite ?E; auto.
  - intros j Hj. apply upd_other. exact Hj.
  - destruct b; reflexivity.
  - unfold busy. cbn. rewrite E. destruct b; reflexivity.
  - destruct (active_role s k I Hk) as (A1 & A2); [rewrite E; reflexivity|]. rewrite upd_same. constructor; wcbn.
    + destruct b; repeat split; auto.
    + destruct A2 as [A2|[g A2]]; rewrite A2 in *; auto.
    + destruct b; discriminate.
    + destruct b; discriminate.
    + rewrite H. destruct b; reflexivity.
    + destruct b; intuition discriminate.
    + destruct b; discriminate.
Qed.

Lemma step_clear : w_pc w = WClear -> goal_.
Proof using I Hk.
  intros E. wstart E. destruct P as (P1 & (P2 & P3) & P4 & P5). rewrite ordered_ok by exact P2. cbn [bind].
  wlocal (w_set_pc (w_set_view (w_set_task w None) (set_vt (w_view w) k (S (w_ta w)))) WReady) (s_oa s) (s_log s); rewrite ?E; auto.
  - unfold busy. cbn. rewrite E. reflexivity.
  - destruct (active_role s k I Hk) as (A1 & A2); [rewrite E; reflexivity|]. constructor; wcbn; try discriminate; try exact H; try (clear; intuition discriminate).
    + repeat split; auto.
    + destruct A2 as [A2|[g A2]]; rewrite A2 in *; auto.
Qed.

Lemma step_ready : w_pc w = WReady -> goal_.
Proof using I Hk.
  intros E. wstart E. destruct P as (P1 & (P2 & P3) & P4 & P5). rewrite ordered_ok by exact P1. cbn [bind].
  wlocal (w_set_pc (w_set_view (w_set_hist w (hpush (w_hist w) Ready (set_vs vbot k (S (h_ts (w_hist w)))))) (set_vs (w_view w) k (S (h_ts (w_hist w))))) WDec)
    (s_oa s) (s_log s); rewrite ?E; auto.
  - unfold busy. cbn. rewrite E. reflexivity.
  - destruct (active_role s k I Hk) as (A1 & A2); [rewrite E; reflexivity|]. constructor; wcbn; try discriminate; try exact H; try (clear; intuition discriminate).
    + repeat split; auto.
    + destruct A2 as [A2|[g A2]]; rewrite A2 in *.
      * discriminate.
      * split; [auto|discriminate].
Qed.

(** A waiting worker moves to another place of the waiting loop. *)
Lemma wok_waiting : forall p v' mu, after_dec (w_pc w) = true -> after_dec p = true -> vle (w_view w) v' ->
  (mu = None <-> whold p = true \/ mhold (role_of (s_main s) k) = true) ->
  ~ (whold p = true /\ mhold (role_of (s_main s) k) = true) ->
  (newest (w_hist w) <> Ready -> early (role_of (s_main s) k) = false ->
    p <> WWait PSleep /\ (p = WWait PTest -> seen k w v') /\ (forall m, mu = Some m -> seen k w m)) ->
  wok (role_of (s_main s) k) (in_epoch (s_main s)) (s_view s) (newest_view (s_count s)) (s_oa s k) (s_call s) k
    (w_set_mutex (w_set_pc (w_set_view w v') p) mu).
Proof using I Hk.
  intros p v' mu Hd Hp (L1 & L2 & L3 & L4) Hm Hx Hw. pose proof (i_w s I k Hk) as [P R G C H X K]. specialize (L2 k).
  assert (P' : newest (w_hist w) <> Startup /\ (newest (w_hist w) = Ready -> seen k w (w_view w)) /\
           (newest (w_hist w) <> Ready -> (h_ts (w_hist w) <= S (vs (w_view w) k))%nat /\ (seen k w (w_view w) \/ h_val (w_hist w) (Nat.pred (h_ts (w_hist w))) = Ready))).
  { clear - P Hd. destruct (w_pc w) as [| | | | | | | |[]| |]; try discriminate; exact P. }
  clear P. destruct P' as (P1 & P2 & P3). unfold full, seen in *. constructor; wcbn.
  - assert (Z : newest (w_hist w) <> Startup /\ (newest (w_hist w) = Ready -> (h_ts (w_hist w) <= vs v' k)%nat) /\
           (newest (w_hist w) <> Ready -> (h_ts (w_hist w) <= S (vs v' k))%nat /\ ((h_ts (w_hist w) <= vs v' k)%nat \/ h_val (w_hist w) (Nat.pred (h_ts (w_hist w))) = Ready))).
    { clear - P1 P2 P3 L2. split; [exact P1|]. split; [intros E; specialize (P2 E); lia|]. intros E. destruct (P3 E) as (A & B). split; [lia|].
      destruct B as [B|B]; [left; lia|right; exact B]. }
    clear - Hp Z. destruct p as [| | | | | | | |[]| |]; try discriminate; exact Z.
  - rewrite Hd in R. rewrite Hp. exact R.
  - intros _. apply G. exact Hd.
  - intros A B _ D. apply C; auto.
  - exact Hm.
  - exact Hx.
  - intros A _ B. apply Hw; auto.
Qed.

Lemma busy_waiting : forall p v' mu, after_dec (w_pc w) = true -> after_dec p = true ->
  busy (w_set_mutex (w_set_pc (w_set_view w v') p) mu) = busy w.
Proof using.
  intros p v' mu A B. unfold busy. cbn. assert (Z : forall q, after_dec q = true -> active q = false) by (clear; intros []; try reflexivity; discriminate).
  rewrite (Z p B), (Z _ A). reflexivity.
Qed.

(** A worker leaves the waiting loop, or is about to. *)
Lemma wok_leaving : forall p v', after_dec (w_pc w) = true -> whold (w_pc w) = whold p ->
  p = after_wait (newest (w_hist w)) \/ p = WWait (PUnlock (newest (w_hist w))) ->
  newest (w_hist w) <> Ready -> newest (w_hist w) <> Startup -> seen k w v' -> vle (newest_view (w_hist w)) v' ->
  wok (role_of (s_main s) k) (in_epoch (s_main s)) (s_view s) (newest_view (s_count s)) (s_oa s k) (s_call s) k
    (w_set_pc (w_set_view w v') p).
Proof using I Hk.
  intros p v' Hd Hh Hp Nr Ns Sn (L1 & L2 & L3 & L4). pose proof (i_w s I k Hk) as [P R G C H X K]. specialize (L3 k). specialize (L4 k).
  specialize (G Hd). clear C K. rewrite Hd in R. rewrite Hh in H, X. unfold full, seen in *.
  assert (R' : match role_of (s_main s) k with
    | RSig false _ => (newest (w_hist w) = HasWork \/ newest (w_hist w) = Ready) /\ (newest (w_hist w) = HasWork -> (h_ts (w_hist w) <= vs (s_view s) k)%nat)
    | RSig true _ => newest (w_hist w) = ExitASAP /\ (h_ts (w_hist w) <= vs (s_view s) k)%nat
    | RGiven => newest (w_hist w) <> ExitASAP
    | RExited => newest (w_hist w) = ExitASAP /\ (h_ts (w_hist w) <= vs (s_view s) k)%nat
    | _ => False end).
  { clear - R Nr. destruct (role_of (s_main s) k) as [| |[]| |]; tauto. }
  assert (Dp : after_dec p = false) by (destruct Hp as [-> | ->]; [destruct (newest (w_hist w)); reflexivity|reflexivity]).
  constructor; wcbn; try (rewrite Dp; discriminate).
  - assert (D : newest (w_hist w) = ExitASAP \/ newest (w_hist w) = HasWork) by (clear - Nr Ns; destruct (newest (w_hist w)); auto; contradiction).
    destruct D as [D|D]; rewrite D in *.
    + destruct Hp as [-> | ->]; cbn; auto.
    + destruct (G eq_refl) as (G1 & G2 & G3).
      assert (F : (w_ta w <= vt v' k)%nat /\ (s_oa s k <= vo v' k)%nat) by (clear - G2 G3 L3 L4; lia).
      destruct Hp as [-> | ->]; cbn; auto 10.
  - clear - R'. destruct (role_of (s_main s) k) as [| |[]| |]; try contradiction; exact R'.
  - exact H.
  - exact X.
Qed.

Lemma busy_leaving : forall p v' mu, after_dec (w_pc w) = true \/ (exists x, w_pc w = WWait (PUnlock x)) ->
  p = after_wait (newest (w_hist w)) \/ p = WWait (PUnlock (newest (w_hist w))) ->
  busy (w_set_mutex (w_set_pc (w_set_view w v') p) mu) = busy w.
Proof using.
  intros p v' mu A B. unfold busy. cbn [w_hist w_set_mutex w_set_pc w_set_view w_pc].
  replace (active (w_pc w)) with false by (destruct A as [A|[x A]]; [destruct (w_pc w); try discriminate; reflexivity|rewrite A; reflexivity]).
  destruct B as [-> | ->]; [|reflexivity]. destruct (newest (w_hist w)); reflexivity.
Qed.

Lemma after_wait_holds : forall x, whold_c (after_wait x) = false.
Proof using. intros []; reflexivity. Qed.

Lemma step_wait : forall p, w_pc w = WWait p -> goal_.
Proof using I Hk.
  intros p E. unfold worker_step. rewrite E. destruct (load_state w k (ch_stale ch)) as [x v'] eqn:EL.
  pose proof (i_w s I k Hk) as [P R G C H X K].
  assert (Lc : (exists c, p = PUnlock c) \/ after_dec (w_pc w) = true /\ vle (w_view w) v' /\
    ((x = Ready /\ ~ (newest (w_hist w) <> Ready /\ seen k w (w_view w))) \/
     (x = newest (w_hist w) /\ x <> Ready /\ x <> Startup /\ seen k w v' /\ vle (newest_view (w_hist w)) v'))).
  { rewrite E in *. destruct p; try (right; split; [reflexivity|]; destruct P as (P1 & P2 & P3); exact (load_state_cases _ _ _ _ _ P1 P2 P3 EL)).
    left. eexists. reflexivity. }
  pose proof (vle_refl (w_view w)) as Vr.
  destruct p as [| | | | | |c].
  - destruct Lc as [[c Lc]|(Hd & Vl & Lc)]; [discriminate|].
    destruct Lc as [(-> & Lc)|(Ex & Nr & Ns & Sn & Vn)].
    + wlocal (w_set_mutex (w_set_pc (w_set_view w v') (WWait PSpin)) (w_mutex w)) (s_oa s) (s_log s); rewrite ?E; auto.
      * rewrite busy_waiting; auto.
      * apply wok_waiting; auto; rewrite E in *.
        -- exact H.
        -- clear - X. cbn in *. intuition discriminate.
        -- intros A B. destruct (K A Hd B) as (K1 & K2 & K3). repeat split; [discriminate|discriminate|exact K3].
    + replace (tstate_eqb x Ready) with false by (symmetry; apply tstate_eqb_neq; exact Nr). subst x.
      wlocal (w_set_pc (w_set_view w v') (after_wait (newest (w_hist w)))) (s_oa s) (s_log s); rewrite ?E; auto.
      * apply after_wait_holds.
      * rewrite <- (busy_leaving (after_wait (newest (w_hist w))) v' (w_mutex w)); auto.
      * apply wok_leaving; auto. rewrite E. destruct (newest (w_hist w)); reflexivity.
  - destruct Lc as [[c Lc]|(Hd & Vl & Lc)]; [discriminate|]. destruct (ch_timeout ch).
    + wlocal (w_set_mutex (w_set_pc (w_set_view w (w_view w)) (WWait PLock)) (w_mutex w)) (s_oa s) (s_log s); rewrite ?E; auto.
      * rewrite busy_waiting; auto.
      * apply wok_waiting; auto; rewrite E in *.
        -- exact H.
        -- clear - X. cbn in *. intuition discriminate.
        -- intros A B. destruct (K A Hd B) as (K1 & K2 & K3). repeat split; [discriminate|discriminate|exact K3].
    + destruct Lc as [(-> & Lc)|(Ex & Nr & Ns & Sn & Vn)]; [eexists; split; [reflexivity|exact I]|].
      replace (tstate_eqb x Ready) with false by (symmetry; apply tstate_eqb_neq; exact Nr). subst x.
      wlocal (w_set_pc (w_set_view w v') (after_wait (newest (w_hist w)))) (s_oa s) (s_log s); rewrite ?E; auto.
      * apply after_wait_holds.
      * rewrite <- (busy_leaving (after_wait (newest (w_hist w))) v' (w_mutex w)); auto.
      * apply wok_leaving; auto. rewrite E. destruct (newest (w_hist w)); reflexivity.
  - destruct Lc as [[c Lc]|(Hd & Vl & Lc)]; [discriminate|]. destruct (w_mutex w) as [m|] eqn:Em; [|eexists; split; [reflexivity|exact I]].
    wlocal (w_set_mutex (w_set_pc (w_set_view w (vjoin (w_view w) m)) (WWait PTest)) None) (s_oa s) (s_log s); rewrite ?E; auto.
    + rewrite busy_waiting; auto.
    + assert (Mh : mhold (role_of (s_main s) k) = false).
      { destruct (mhold (role_of (s_main s) k)); [|reflexivity]. destruct H as [_ H]. specialize (H (or_intror eq_refl)). discriminate. }
      apply wok_waiting; auto; rewrite E in *.
      * apply vle_join_l.
      * cbn. rewrite Mh. clear. intuition.
      * rewrite Mh. clear. intuition discriminate.
      * intros A B. destruct (K A Hd B) as (K1 & K2 & K3). repeat split; [discriminate| |discriminate]. intros _. specialize (K3 m eq_refl).
        unfold seen in *. cbn. clear - K3. lia.
  - destruct Lc as [[c Lc]|(Hd & Vl & Lc)]; [discriminate|].
    assert (Mh : mhold (role_of (s_main s) k) = false).
    { rewrite E in X. cbn in X. clear - X. destruct (mhold (role_of (s_main s) k)); [|reflexivity]. tauto. }
    destruct Lc as [(-> & Lc)|(Ex & Nr & Ns & Sn & Vn)].
    + cbn [tstate_eqb].
      wlocal (w_set_mutex (w_set_pc (w_set_view w v') (WWait PSleep)) (Some v')) (s_oa s) (s_log s); rewrite ?E; auto.
      * rewrite busy_waiting; auto.
      * apply wok_waiting; auto; rewrite E in *.
        -- rewrite Mh. clear. cbn. intuition discriminate.
        -- clear. cbn. intuition discriminate.
        -- intros A B. destruct (K A Hd B) as (K1 & K2 & K3). exfalso. apply Lc. auto.
    + replace (tstate_eqb x Ready) with false by (symmetry; apply tstate_eqb_neq; exact Nr). subst x.
      wlocal (w_set_pc (w_set_view w v') (WWait (PUnlock (newest (w_hist w))))) (s_oa s) (s_log s); rewrite ?E; auto.
      * rewrite <- (busy_leaving (WWait (PUnlock (newest (w_hist w)))) v' (w_mutex w)); auto.
      * apply wok_leaving; auto. rewrite E. reflexivity.
  - destruct Lc as [[c Lc]|(Hd & Vl & Lc)]; [discriminate|]. destruct (ch_spurious ch); [|eexists; split; [reflexivity|exact I]].
    wlocal (w_set_mutex (w_set_pc (w_set_view w (w_view w)) (WWait PRelock)) (w_mutex w)) (s_oa s) (s_log s); rewrite ?E; auto.
    + rewrite busy_waiting; auto.
    + apply wok_waiting; auto; rewrite E in *.
      * exact H.
      * clear - X. cbn in *. intuition discriminate.
      * intros A B. destruct (K A Hd B) as (K1 & K2 & K3). repeat split; [discriminate|discriminate|exact K3].
  - destruct Lc as [[c Lc]|(Hd & Vl & Lc)]; [discriminate|]. destruct (w_mutex w) as [m|] eqn:Em; [|eexists; split; [reflexivity|exact I]].
    wlocal (w_set_mutex (w_set_pc (w_set_view w (vjoin (w_view w) m)) (WWait PTest)) None) (s_oa s) (s_log s); rewrite ?E; auto.
    + rewrite busy_waiting; auto.
    + assert (Mh : mhold (role_of (s_main s) k) = false).
      { destruct (mhold (role_of (s_main s) k)); [|reflexivity]. destruct H as [_ H]. specialize (H (or_intror eq_refl)). discriminate. }
      apply wok_waiting; auto; rewrite E in *.
      * apply vle_join_l.
      * cbn. rewrite Mh. clear. intuition.
      * rewrite Mh. clear. intuition discriminate.
      * intros A B. destruct (K A Hd B) as (K1 & K2 & K3). repeat split; [discriminate| |discriminate]. intros _. specialize (K3 m eq_refl).
        unfold seen in *. cbn. clear - K3. lia.
  - clear Lc. rewrite E in *. destruct P as (P1 & P2 & P3). subst c.
    wlocal (w_set_mutex (w_set_pc (w_set_view w (w_view w)) (after_wait (newest (w_hist w)))) (Some (w_view w))) (s_oa s) (s_log s); rewrite ?E; auto.
    + apply after_wait_holds.
    + rewrite busy_leaving; auto. right. eexists. exact E.
    + assert (Mh : mhold (role_of (s_main s) k) = false).
      { cbn in X. clear - X. destruct (mhold (role_of (s_main s) k)); [|reflexivity]. tauto. }
      unfold full, seen in *.
      assert (Ad : after_dec (after_wait (newest (w_hist w))) = false) by (destruct (newest (w_hist w)); reflexivity).
      constructor; wcbn; try (rewrite Ad; discriminate).
      * destruct P3 as [P3|(P3 & P4 & P5)]; rewrite P3; cbn; auto 10.
      * clear - R P3. destruct (role_of (s_main s) k) as [| |[]| |]; auto; destruct R; discriminate.
      * rewrite Mh. clear. split; [discriminate|]. intros [A|A]; [destruct (newest (w_hist w)); discriminate|discriminate].
      * rewrite Mh. clear. intuition discriminate.
Qed.

Lemma step_end : w_pc w = WEnd -> goal_.
Proof using I Hk.
  intros E. wstart E. destruct P as (P1 & P2). destruct (load_state w k (ch_stale ch)) as [x v'] eqn:EL.
  unfold load_state in EL. rewrite pick_newest in EL by exact P1. injection EL as EL _. change (newest (w_hist w) = x) in EL.
  rewrite dcheck_ok by (rewrite <- EL, P2; reflexivity). cbn [bind].
  wlocal (w_set_pc w WDone) (s_oa s) (s_log s); rewrite ?E; auto.
  - unfold busy. cbn. rewrite E. reflexivity.
  - constructor; wcbn; try discriminate; auto.
Qed.

Lemma step_done : w_pc w = WDone -> goal_.
Proof using I Hk. intros E. unfold worker_step. rewrite E. eexists. split; [reflexivity|exact I]. Qed.

(** The mutex of the counter. *)
Lemma others : forall w' j, (j < s_n s)%nat -> j <> k -> upd (s_ws s) k w' j = s_ws s j.
Proof using. intros w' j _ E. apply upd_other. exact E. Qed.

Lemma wok_waiting' : forall p v', after_dec (w_pc w) = true -> after_dec p = true -> vle (w_view w) v' -> whold p = whold (w_pc w) ->
  p <> WWait PSleep -> p <> WWait PTest ->
  wok (role_of (s_main s) k) (in_epoch (s_main s)) (s_view s) (newest_view (s_count s)) (s_oa s k) (s_call s) k
    (w_set_pc (w_set_view w v') p).
Proof using I Hk.
  intros p v' H1 H2 H3 H4 H5 H6. pose proof (i_w s I k Hk) as [P R G C H X K].
  apply (wok_waiting p v' (w_mutex w)); auto; try (rewrite H4; assumption).
  intros A B. destruct (K A H1 B) as (K1 & K2 & K3). repeat split; auto. contradiction.
Qed.

Lemma step_dlock : w_pc w = WDLock -> goal_.
Proof using I Hk.
  intros E. unfold worker_step. rewrite E. destruct (s_cmutex s) as [m|] eqn:Em; [|eexists; split; [reflexivity|exact I]].
  eexists; split; [reflexivity|]. pose proof I as I'. destruct I'. constructor; cbn; auto.
  - intros j Hj. destruct (Nat.eq_dec j k) as [->|Ej]; [|rewrite upd_other by exact Ej; auto]. rewrite upd_same.
    apply wok_waiting'; rewrite ?E; auto using vle_join_l; discriminate.
  - rewrite nbusy_upd by exact Hk. unfold busy. cbn [w_pc w_set_pc w_set_view w_hist]. rewrite E. cbn [active orb]. clear - i_count0. lia.
  - intros j Hj Hh. split; [reflexivity|]. split.
    + destruct (mhold_c (s_main s)); [|reflexivity]. specialize (i_cmheld0 eq_refl). congruence.
    + assert (Z : forall i, (i < s_n s)%nat -> whold_c (w_pc (upd (s_ws s) k (w_set_pc (w_set_view w (vjoin (w_view w) m)) WDNotify) i)) = true -> i = k).
      { intros i Hi Hw. destruct (Nat.eq_dec i k) as [->|Ei]; [reflexivity|]. rewrite upd_other in Hw by exact Ei.
        destruct (i_cheld0 i Hi Hw) as (A & _). congruence. }
      intros i Hi Hw. rewrite (Z i Hi Hw), (Z j Hj Hh). reflexivity.
  - intros _. right. exists k. split; [exact Hk|]. rewrite upd_same. reflexivity.
  - intros A B. destruct (i_cwake0 A B) as [(j & Hj & D & F)|(D & F & G & L)].
    + left. exists j. split; [exact Hj|]. destruct (Nat.eq_dec j k) as [->|Ej]; [|rewrite upd_other by exact Ej; auto]. rewrite upd_same. cbn.
      split; [reflexivity|]. clear - F. lia.
    + right. split; [exact D|]. split; [exact F|]. split; [discriminate|]. intros j Hj.
      destruct (Nat.eq_dec j k) as [->|Ej]; [|rewrite upd_other by exact Ej; auto]. rewrite upd_same. cbn. intros _. specialize (G m Em). clear - G. lia.
Qed.

Lemma step_dnotify : w_pc w = WDNotify -> goal_.
Proof using I Hk.
  intros E. unfold worker_step. rewrite E. eexists; split; [reflexivity|]. pose proof I as I'. destruct I'.
  destruct (i_cheld0 k Hk) as (Hm & Hmh & Hu); [rewrite E; reflexivity|].
  set (m' := match s_main s with MWait e PSleep => MWait e PRelock | m => m end).
  assert (M1 : forall j, role_of m' j = role_of (s_main s) j) by (intros j; unfold m'; destruct (s_main s) as [| | | | | | | | |e []| | | |]; reflexivity).
  assert (M2 : in_epoch m' = in_epoch (s_main s)) by (unfold m'; destruct (s_main s) as [| | | | | | | | |e []| | | |]; reflexivity).
  assert (M3 : main_ok m' (s_n s)) by (unfold m'; destruct (s_main s) as [| | | | | | | | |e []| | | |]; exact i_pc0).
  assert (M4 : ungiven m' (s_n s) = ungiven (s_main s) (s_n s)) by (unfold m'; destruct (s_main s) as [| | | | | | | | |e []| | | |]; reflexivity).
  assert (M5 : mhold_c m' = mhold_c (s_main s)) by (unfold m'; destruct (s_main s) as [| | | | | | | | |e []| | | |]; reflexivity).
  assert (M6 : msleep m' = false) by (unfold m'; destruct (s_main s) as [| | | | | | | | |e []| | | |]; reflexivity).
  assert (M7 : mtest m' = false /\ munlock m' = false).
  { unfold m'. clear - Hmh. destruct (s_main s) as [| | | | | | | | |e []| | | |]; auto; discriminate. }
  assert (Es : set_worker (notify_main s) k (w_set_pc w WDUnlock) =
    {| s_script := s_script s; s_call := s_call s; s_main := m'; s_view := s_view s; s_n := s_n s; s_ws := upd (s_ws s) k (w_set_pc w WDUnlock);
       s_count := s_count s; s_cmutex := s_cmutex s; s_oa := s_oa s; s_log := s_log s; s_clog := s_clog s |}).
  { unfold notify_main, m'. destruct (s_main s) as [| | | | | | | | |e []| | | |] eqn:Em; unfold set_worker; cbn; rewrite ?Em; reflexivity. }
  rewrite Es. clearbody m'. clear Es. destruct M7 as (M7 & M8). constructor; cbn; rewrite ?M2, ?M4, ?M5; auto; try congruence.
  - intros j Hj. rewrite M1. destruct (Nat.eq_dec j k) as [->|Ej]; [|rewrite upd_other by exact Ej; auto]. rewrite upd_same.
    apply (wok_waiting' WDUnlock (w_view w)); rewrite ?E; auto using vle_refl; discriminate.
  - rewrite nbusy_upd by exact Hk. unfold busy. cbn [w_pc w_set_pc w_set_view w_hist]. rewrite E. cbn [active orb]. clear - i_count0. lia.
  - intros j Hj Hh. split; [exact Hm|]. split; [exact Hmh|].
    assert (Z : forall i, (i < s_n s)%nat -> whold_c (w_pc (upd (s_ws s) k (w_set_pc w WDUnlock) i)) = true -> i = k).
    { intros i Hi Hw. destruct (Nat.eq_dec i k) as [->|Ei]; [reflexivity|]. rewrite upd_other in Hw by exact Ei. auto. }
    intros i Hi Hw. rewrite (Z i Hi Hw), (Z j Hj Hh). reflexivity.
  - intros _. right. exists k. split; [exact Hk|]. rewrite upd_same. reflexivity.
  - intros A B. destruct (i_cwake0 A B) as [(j & Hj & D & F)|(D & F & G & L)].
    + destruct (Nat.eq_dec j k) as [->|Ej].
      * right. split; [exact M6|]. split; [congruence|]. split; [congruence|]. intros j Hj'. destruct (Nat.eq_dec j k) as [->|Ej].
        -- rewrite upd_same. auto.
        -- rewrite upd_other by exact Ej. intros Hw. contradiction (Ej (Hu j Hj' Hw)).
      * left. exists j. rewrite upd_other by exact Ej. auto.
    + right. split; [exact M6|]. split; [congruence|]. split; [congruence|]. intros j Hj'. destruct (Nat.eq_dec j k) as [->|Ej].
      * rewrite upd_same. intros _. cbn. apply L; [exact Hk|]. rewrite E. reflexivity.
      * rewrite upd_other by exact Ej. auto.
Qed.

Lemma step_dunlock : w_pc w = WDUnlock -> goal_.
Proof using I Hk.
  intros E. unfold worker_step. rewrite E. eexists; split; [reflexivity|]. pose proof I as I'. destruct I'.
  destruct (i_cheld0 k Hk) as (Hm & Hmh & Hu); [rewrite E; reflexivity|]. constructor; cbn; auto; try congruence.
  - intros j Hj. destruct (Nat.eq_dec j k) as [->|Ej]; [|rewrite upd_other by exact Ej; auto]. rewrite upd_same.
    apply (wok_waiting' (WWait PCheck) (w_view w)); rewrite ?E; auto using vle_refl; discriminate.
  - rewrite nbusy_upd by exact Hk. unfold busy. cbn [w_pc w_set_pc w_set_view w_hist]. rewrite E. cbn [active orb]. clear - i_count0. lia.
  - intros j Hj Hh. exfalso. destruct (Nat.eq_dec j k) as [->|Ej]; [rewrite upd_same in Hh; discriminate|]. rewrite upd_other in Hh by exact Ej. auto.
  - intros A B. destruct (i_cwake0 A B) as [(j & Hj & D & F)|(D & F & G & L)].
    + left. exists j. split; [exact Hj|]. rewrite upd_other; [auto|]. intros ->. rewrite E in D. discriminate.
    + right. split; [exact D|]. split; [exact F|]. split.
      * intros m [= <-]. apply L; [exact Hk|]. rewrite E. reflexivity.
      * intros j Hj'. destruct (Nat.eq_dec j k) as [->|Ej]; [rewrite upd_same; discriminate|]. rewrite upd_other by exact Ej. auto.
Qed.

Lemma step_dec : w_pc w = WDec -> goal_.
Proof using I Hk.
  intros E. unfold worker_step. rewrite E. pose proof I as I'. destruct I'.
  pose proof (ungiven_nonneg _ _ i_pc0) as Un. destruct (active_role s k I Hk) as (A1 & A2); [rewrite E; reflexivity|].
  assert (Bk : busy w = true) by (unfold busy; rewrite E; reflexivity).
  assert (Np : 1 <= nbusy (s_ws s) (s_n s)).
  { pose proof (nbusy_bounds (s_ws s) (s_n s)) as B. destruct (Z.eq_dec (nbusy (s_ws s) (s_n s)) 0) as [Z|Z]; [|clear - B Z; lia].
    rewrite (nbusy_zero _ _ Z k Hk) in Bk. discriminate. }
  assert (Old : 1 <= newest (s_count s) <= int_max) by (clear - Np i_count0 Un i_max0; lia).
  rewrite dcheck_ok by (clear - Old; apply Z.ltb_lt; lia). cbn [bind].
  rewrite i32_ok by (clear - Old; unfold int_min, int_max in *; lia). cbn [bind].
  set (old := newest (s_count s)) in *. set (new := old - 1) in *.
  set (v' := set_vc (vjoin (w_view w) (newest_view (s_count s))) (S (lc s))).
  eexists; split; [reflexivity|].
  set (w' := w_set_pc (w_set_view w v') (if new =? 0 then WDLock else WWait PCheck)).
  assert (Wh : whold_c (w_pc w') = false) by (cbn; destruct (new =? 0); reflexivity).
  destruct (i_w0 k Hk) as [P R G C H X K]. rewrite E in *. destruct P as (P1 & (P2 & P3) & P4 & P5).
  constructor; cbn [s_script s_main s_n s_call s_view s_ws s_count s_cmutex s_oa set_worker cemit set_count]; auto; try (unfold v'; fold w').
  - intros j Hj. rewrite newest_view_push. destruct (Nat.eq_dec j k) as [->|Ej].
    2: { rewrite upd_other by exact Ej. eapply wok_mono; [apply i_w0; exact Hj|apply vle_at_refl|].
         unfold vle_at, v'. cbn. clear. lia. }
    rewrite upd_same. unfold full, seen in *. assert (Wd : after_dec (w_pc w') = true) by (cbn; destruct (new =? 0); reflexivity).
    assert (Ww : whold (w_pc w') = false) by (cbn; destruct (new =? 0); reflexivity).
    constructor; unfold full, seen; rewrite ?Wd, ?Ww; change (w_hist w') with (w_hist w); change (w_task w') with (w_task w); change (w_ta w') with (w_ta w);
      change (w_view w') with v'; change (w_mutex w') with (w_mutex w); rewrite ?P4.
    + assert (Z : Ready <> Startup /\ (Ready = Ready -> (h_ts (w_hist w) <= vs v' k)%nat) /\
        (Ready <> Ready -> (h_ts (w_hist w) <= S (vs v' k))%nat /\ ((h_ts (w_hist w) <= vs v' k)%nat \/ h_val (w_hist w) (Nat.pred (h_ts (w_hist w))) = Ready))).
      { split; [discriminate|]. split; [|congruence]. intros _. unfold v'. cbn. clear - P1. lia. }
      unfold w'. cbn [w_pc w_set_pc]. destruct (new =? 0); exact Z.
    + destruct A2 as [A2|[g A2]]; rewrite A2 in *; [discriminate|]. split; [auto|discriminate].
    + discriminate.
    + intros _ _ _ _. unfold v'. cbn. clear - P1 P2 P3 P5. repeat split; try lia. exact P5.
    + exact H.
    + clear. intuition discriminate.
    + congruence.
  - rewrite newest_push, nbusy_upd by exact Hk. rewrite Bk. unfold w', busy. cbn [w_pc w_set_pc w_set_view w_hist]. rewrite P4.
    replace (active (if new =? 0 then WDLock else WWait PCheck)) with false by (destruct (new =? 0); reflexivity). cbn. unfold new. clear - i_count0. lia.
  - rewrite newest_push. unfold new. clear - Old. lia.
  - intros _ t Ht. cbn [h_ts hpush h_val] in *. destruct (Nat.eq_dec t (S (lc s))) as [->|Et]; [clear - Ht; lia|]. rewrite upd_other by exact Et.
    destruct (Nat.eq_dec t (lc s)) as [->|Et']; [unfold old, newest in Old; clear - Old; lia|]. apply i_epoch0; [exact A1|]. clear - Ht Et'. lia.
  - congruence.
  - intros j Hj Hh. destruct (Nat.eq_dec j k) as [->|Ej]; [rewrite upd_same in Hh; congruence|]. rewrite upd_other in Hh by exact Ej.
    destruct (i_cheld0 j Hj Hh) as (B1 & B2 & B3). split; [exact B1|]. split; [exact B2|]. intros i Hi.
    destruct (Nat.eq_dec i k) as [->|Ei]; [rewrite upd_same; congruence|]. rewrite upd_other by exact Ei. auto.
  - intros Hc. destruct (i_cfree0 Hc) as [B|(j & Hj & B)]; [auto|]. right. exists j. split; [exact Hj|].
    rewrite upd_other; [exact B|]. intros ->. rewrite E in B. discriminate.
  - intros _. rewrite newest_push. intros Hz. left. exists k. split; [exact Hk|]. rewrite upd_same. unfold w'. cbn [w_pc w_set_pc w_set_view w_view h_ts hpush].
    rewrite Hz. cbn. split; [reflexivity|]. clear. lia.
  - intros Hu. destruct (i_unlock0 Hu) as (Z & _). clear - Old Z. lia.
Qed.

Theorem worker_step_inv : goal_.
Proof using I Hk.
  destruct (w_pc w) eqn:E.
  - apply step_task, E. - apply (step_run _ E). - apply step_clear, E. - apply step_ready, E. - apply step_dec, E.
  - apply step_dlock, E. - apply step_dnotify, E. - apply step_dunlock, E. - apply (step_wait _ E). - apply step_end, E. - apply step_done, E.
Qed.
End WorkerStep.
