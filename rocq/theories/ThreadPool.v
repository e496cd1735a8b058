(** Model of the thread pool: ruy/thread_pool.cc, ruy/blocking_counter.cc and ruy/wait.cc.

    A machine of one calling thread (which owns the pool) and its workers; any thread may
    move at any time. A step is one access to shared memory, one operation on a mutex or a
    condition variable, or the beginning or the end of one Task::Run.

    Memory. Every thread has a view: for each atomic location the oldest write it may
    still read, and for each plain location the last access ordered before it. Loads of
    atomics return any write not older than the view (the choice is part of the schedule).
    A store with release order, or a read-modify-write, publishes the view with the value;
    an acquire load of it takes the view over. Locking a mutex takes over the view of the
    previous unlock. An access to a plain location which is not ordered after the previous
    access is a data race: [UB]. Simplifications: reads of plain locations count as writes
    (more races); sequentially consistent loads are treated as acquire loads (more
    behaviours); the modification order of an atomic is the order of execution, and a plain
    store to an atomic by a thread that is not ordered after its last write is reported as
    [UB], so that the proof of the absence of [UB] covers this simplification. *)
From Verif Require Import Base.

(** * Views *)

(** Locations: the atomic count_, state_ of each worker, the plain task_ of each worker, and
    the object of the task for each worker (what Task::Run reads and writes). *)
Record view := { vc : nat; vs : nat -> nat; vt : nat -> nat; vo : nat -> nat }.
Definition vbot : view := {| vc := 0; vs := fun _ => 0%nat; vt := fun _ => 0%nat; vo := fun _ => 0%nat |}.
Definition vjoin (a b : view) : view := {|
  vc := Nat.max (vc a) (vc b); vs := fun k => Nat.max (vs a k) (vs b k);
  vt := fun k => Nat.max (vt a k) (vt b k); vo := fun k => Nat.max (vo a k) (vo b k) |}.

Definition upd {A} (f : nat -> A) (k : nat) (x : A) : nat -> A := fun j => if Nat.eqb j k then x else f j.

Definition set_vc (v : view) (t : nat) : view := {| vc := t; vs := vs v; vt := vt v; vo := vo v |}.
Definition set_vs (v : view) (k t : nat) : view := {| vc := vc v; vs := upd (vs v) k t; vt := vt v; vo := vo v |}.
Definition set_vt (v : view) (k t : nat) : view := {| vc := vc v; vs := vs v; vt := upd (vt v) k t; vo := vo v |}.
Definition set_vo (v : view) (f : nat -> nat) : view := {| vc := vc v; vs := vs v; vt := vt v; vo := f |}.

(** The writes to an atomic, numbered from 0, each with the view it publishes. *)
Record hist (A : Type) := { h_ts : nat; h_val : nat -> A; h_view : nat -> view }.
Arguments h_ts {A}. Arguments h_val {A}. Arguments h_view {A}.
Definition newest {A} (h : hist A) : A := h_val h (h_ts h).
Definition newest_view {A} (h : hist A) : view := h_view h (h_ts h).
Definition hpush {A} (h : hist A) (a : A) (v : view) : hist A :=
  {| h_ts := S (h_ts h); h_val := upd (h_val h) (S (h_ts h)) a; h_view := upd (h_view h) (S (h_ts h)) v |}.
(** The write which is read by a load that goes [stale] writes back, as far as [lo] allows. *)
Definition pick {A} (h : hist A) (lo stale : nat) : nat := Nat.min (h_ts h) (Nat.max lo (h_ts h - stale)).

(** * Threads *)

Inductive tid := Main | Worker (k : nat).
(** thread_pool.cc:60-65. *)
Inductive tstate := Startup | Ready | HasWork | ExitASAP.
Definition tstate_eqb (a b : tstate) : bool :=
  match a, b with Startup, Startup | Ready, Ready | HasWork, HasWork | ExitASAP, ExitASAP => true | _, _ => false end.

(** A task: number of the call of Execute, and index in its array. *)
Definition task := (nat * nat)%type.

(** wait.cc:22-42 with the predicate wait of std::condition_variable. [PUnlock] is reached
    when the condition has returned true under the lock; it carries what the condition saw. *)
Inductive wait_pc (A : Type) := PCheck | PSpin | PLock | PTest | PSleep | PRelock | PUnlock (a : A).
Arguments PCheck {A}. Arguments PSpin {A}. Arguments PLock {A}. Arguments PTest {A}. Arguments PSleep {A}.
Arguments PRelock {A}. Arguments PUnlock {A}.

(** A worker thread: thread_pool.cc:69-85 (RevertToReadyState), blocking_counter.cc:30-40
    (DecrementCount), thread_pool.cc:129-155 (the loop). *)
Inductive wpc :=
| WTask              (* if (task_) *)
| WRun (ending : bool)
| WClear             (* task_ = nullptr *)
| WReady             (* state_.store(Ready, relaxed) *)
| WDec               (* count_.fetch_sub *)
| WDLock | WDNotify | WDUnlock
| WWait (w : wait_pc tstate)
| WEnd               (* the assertion on the state at the end *)
| WDone.

Record worker := {
  w_pc : wpc;
  w_view : view;
  w_hist : hist tstate;         (* state_ *)
  w_task : option task;         (* task_ *)
  w_ta : nat;                   (* number of accesses to task_ *)
  w_mutex : option view         (* state_cond_mutex_: None if held, else the view of its last unlock *)
}.

(** What a Reset of the counter is for: creation of threads, or running the tasks. *)
Inductive epoch := ECreate (n : Z) | ERun (n : Z).
(** thread_pool.cc:93-123 (ChangeStateFromOutsideThread). *)
Inductive change_pc := CsLoad | CsTask | CsStore | CsLock | CsNotify | CsUnlock.
Inductive goal := GStart (n : Z) | GExit.

(** The calling thread: thread_pool.cc:214-240 (ExecuteImpl), 245-256 (CreateThreads),
    258-266 (destructor). [n] is the number of tasks. *)
Inductive mpc :=
| MNext
| MSolo (ending : bool)
| MCreate (n : Z)
| MResetLoad (e : epoch) | MResetStore (e : epoch)
| MSpawn (n : Z)
| MStart (n : Z) (k : nat)
| MChange (g : goal) (k : nat) (c : change_pc)
| MRun (n : Z) (ending : bool)
| MWait (e : epoch) (w : wait_pc unit)
| MReturn (n : Z)
| MExit (k : nat)
| MJoin (k : nat)
| MDone.

(** Observable events. *)
Inductive event :=
| ECall (c : nat) (n : Z)          (* call number [c], with [n] tasks *)
| EBegin (t : task) (by_ : tid) | EEnd (t : task) (by_ : tid)
| EReturn (c : nat).
(** Completed operations of the BlockingCounter. *)
Inductive counter_event := CReset (n : Z) | CDecrement (hit_zero : bool) | CWait.

Record st := {
  s_script : list Z;              (* calls of Execute still to come; then the destructor *)
  s_call : nat;                   (* number of calls so far *)
  s_main : mpc;
  s_view : view;
  s_n : nat;                      (* threads_.size() *)
  s_ws : nat -> worker;
  s_count : hist Z;               (* count_ *)
  s_cmutex : option view;         (* count_mutex_ *)
  s_oa : nat -> nat;              (* numbers of accesses to the task objects *)
  s_log : list event;
  s_clog : list counter_event
}.

Record choice := { ch_stale : nat; ch_timeout : bool; ch_spurious : bool }.

(** * Updates *)

Definition set_main (s : st) (m : mpc) : st := {| s_script := s_script s; s_call := s_call s; s_main := m; s_view := s_view s;
  s_n := s_n s; s_ws := s_ws s; s_count := s_count s; s_cmutex := s_cmutex s; s_oa := s_oa s; s_log := s_log s; s_clog := s_clog s |}.
Definition set_view (s : st) (v : view) : st := {| s_script := s_script s; s_call := s_call s; s_main := s_main s; s_view := v;
  s_n := s_n s; s_ws := s_ws s; s_count := s_count s; s_cmutex := s_cmutex s; s_oa := s_oa s; s_log := s_log s; s_clog := s_clog s |}.
Definition set_worker (s : st) (k : nat) (w : worker) : st := {| s_script := s_script s; s_call := s_call s; s_main := s_main s; s_view := s_view s;
  s_n := s_n s; s_ws := upd (s_ws s) k w; s_count := s_count s; s_cmutex := s_cmutex s; s_oa := s_oa s; s_log := s_log s; s_clog := s_clog s |}.
Definition set_count (s : st) (h : hist Z) : st := {| s_script := s_script s; s_call := s_call s; s_main := s_main s; s_view := s_view s;
  s_n := s_n s; s_ws := s_ws s; s_count := h; s_cmutex := s_cmutex s; s_oa := s_oa s; s_log := s_log s; s_clog := s_clog s |}.
Definition set_cmutex (s : st) (x : option view) : st := {| s_script := s_script s; s_call := s_call s; s_main := s_main s; s_view := s_view s;
  s_n := s_n s; s_ws := s_ws s; s_count := s_count s; s_cmutex := x; s_oa := s_oa s; s_log := s_log s; s_clog := s_clog s |}.
Definition set_oa (s : st) (f : nat -> nat) : st := {| s_script := s_script s; s_call := s_call s; s_main := s_main s; s_view := s_view s;
  s_n := s_n s; s_ws := s_ws s; s_count := s_count s; s_cmutex := s_cmutex s; s_oa := f; s_log := s_log s; s_clog := s_clog s |}.
Definition emit (s : st) (e : event) : st := {| s_script := s_script s; s_call := s_call s; s_main := s_main s; s_view := s_view s;
  s_n := s_n s; s_ws := s_ws s; s_count := s_count s; s_cmutex := s_cmutex s; s_oa := s_oa s; s_log := s_log s ++ [e]; s_clog := s_clog s |}.
Definition cemit (s : st) (e : counter_event) : st := {| s_script := s_script s; s_call := s_call s; s_main := s_main s; s_view := s_view s;
  s_n := s_n s; s_ws := s_ws s; s_count := s_count s; s_cmutex := s_cmutex s; s_oa := s_oa s; s_log := s_log s; s_clog := s_clog s ++ [e] |}.

Definition w_set_pc (w : worker) (p : wpc) : worker := {| w_pc := p; w_view := w_view w; w_hist := w_hist w; w_task := w_task w; w_ta := w_ta w; w_mutex := w_mutex w |}.
Definition w_set_view (w : worker) (v : view) : worker := {| w_pc := w_pc w; w_view := v; w_hist := w_hist w; w_task := w_task w; w_ta := w_ta w; w_mutex := w_mutex w |}.
Definition w_set_hist (w : worker) (h : hist tstate) : worker := {| w_pc := w_pc w; w_view := w_view w; w_hist := h; w_task := w_task w; w_ta := w_ta w; w_mutex := w_mutex w |}.
Definition w_set_task (w : worker) (t : option task) : worker := {| w_pc := w_pc w; w_view := w_view w; w_hist := w_hist w; w_task := t; w_ta := S (w_ta w); w_mutex := w_mutex w |}.
Definition w_set_mutex (w : worker) (x : option view) : worker := {| w_pc := w_pc w; w_view := w_view w; w_hist := w_hist w; w_task := w_task w; w_ta := w_ta w; w_mutex := x |}.

(** A plain access: a race unless the last access is in the view. *)
Definition ordered (last seen : nat) : res unit := if (last <=? seen)%nat then Ok tt else UB.

(** * Workers *)

(** thread_pool.cc:150: what follows GetNewStateOtherThanReady. *)
Definition after_wait (x : tstate) : wpc := match x with HasWork => WTask | _ => WEnd end.

(** The condition of thread_pool.cc:131-134: the state read, and the view after the load. *)
Definition load_state (w : worker) (k stale : nat) : tstate * view :=
  let t := pick (w_hist w) (vs (w_view w) k) stale in
  (h_val (w_hist w) t, vjoin (set_vs (w_view w) k (Nat.max (vs (w_view w) k) t)) (h_view (w_hist w) t)).

(** Wakes the calling thread if it sleeps on count_cond_ (only it ever does). *)
Definition notify_main (s : st) : st :=
  match s_main s with MWait e PSleep => set_main s (MWait e PRelock) | _ => s end.

Definition worker_step (dbg : bool) (k : nat) (ch : choice) (s : st) : res st :=
  let w := s_ws s k in
  let v := w_view w in
  match w_pc w with
  | WTask =>
    ordered (w_ta w) (vt v k) ;;;
    let v' := set_vt v k (S (w_ta w)) in
    Ok (set_worker s k (w_set_pc (w_set_view (w_set_task w (w_task w)) v')
                          (match w_task w with Some _ => WRun false | None => WReady end)))
  | WRun ending =>
    match w_task w with
    | None => UB
    | Some t =>
      ordered (s_oa s k) (vo v k) ;;;
      let v' := set_vo v (upd (vo v) k (S (s_oa s k))) in
      let s' := set_oa s (upd (s_oa s) k (S (s_oa s k))) in
      Ok (emit (set_worker s' k (w_set_pc (w_set_view w v') (if ending then WClear else WRun true)))
               (if ending then EEnd t (Worker k) else EBegin t (Worker k)))
    end
  | WClear =>
    ordered (w_ta w) (vt v k) ;;;
    Ok (set_worker s k (w_set_pc (w_set_view (w_set_task w None) (set_vt v k (S (w_ta w)))) WReady))
  | WReady =>
    ordered (h_ts (w_hist w)) (vs v k) ;;;
    let v' := set_vs v k (S (h_ts (w_hist w))) in
    let h := hpush (w_hist w) Ready (set_vs vbot k (S (h_ts (w_hist w)))) in
    Ok (set_worker s k (w_set_pc (w_set_view (w_set_hist w h) v') WDec))
  | WDec =>
    let old := newest (s_count s) in
    let v' := set_vc (vjoin v (newest_view (s_count s))) (S (h_ts (s_count s))) in
    dcheck dbg (0 <? old) ;;;
    new <- i32 (old - 1) ;;
    let s' := cemit (set_count s (hpush (s_count s) new v')) (CDecrement (new =? 0)) in
    Ok (set_worker s' k (w_set_pc (w_set_view w v') (if new =? 0 then WDLock else WWait PCheck)))
  | WDLock =>
    match s_cmutex s with
    | None => Ok s
    | Some m => Ok (set_worker (set_cmutex s None) k (w_set_pc (w_set_view w (vjoin v m)) WDNotify))
    end
  | WDNotify => Ok (set_worker (notify_main s) k (w_set_pc w WDUnlock))
  | WDUnlock => Ok (set_worker (set_cmutex s (Some v)) k (w_set_pc w (WWait PCheck)))
  | WWait p =>
    let '(x, v') := load_state w k (ch_stale ch) in
    match p with
    | PCheck =>
      Ok (set_worker s k (w_set_pc (w_set_view w v') (if tstate_eqb x Ready then WWait PSpin else after_wait x)))
    | PSpin =>
      if ch_timeout ch then Ok (set_worker s k (w_set_pc w (WWait PLock)))
      else if tstate_eqb x Ready then Ok s
      else Ok (set_worker s k (w_set_pc (w_set_view w v') (after_wait x)))
    | PLock | PRelock =>
      match w_mutex w with
      | None => Ok s
      | Some m => Ok (set_worker s k (w_set_mutex (w_set_pc (w_set_view w (vjoin v m)) (WWait PTest)) None))
      end
    | PTest =>
      if tstate_eqb x Ready then Ok (set_worker s k (w_set_mutex (w_set_pc (w_set_view w v') (WWait PSleep)) (Some v')))
      else Ok (set_worker s k (w_set_pc (w_set_view w v') (WWait (PUnlock x))))
    | PSleep => if ch_spurious ch then Ok (set_worker s k (w_set_pc w (WWait PRelock))) else Ok s
    | PUnlock c => Ok (set_worker s k (w_set_mutex (w_set_pc w (after_wait c)) (Some v)))
    end
  | WEnd =>
    let '(x, v') := load_state w k (ch_stale ch) in
    dcheck dbg (tstate_eqb x ExitASAP) ;;;
    Ok (set_worker s k (w_set_pc w WDone))
  | WDone => Ok s
  end.

(** * The calling thread *)

Definition load_count (s : st) (stale : nat) : Z * view :=
  let t := pick (s_count s) (vc (s_view s)) stale in
  (h_val (s_count s) t, vjoin (set_vc (s_view s) (Nat.max (vc (s_view s)) t)) (h_view (s_count s) t)).

(** The objects of tasks 1 .. n-1 are used by the caller: before the call and after it. *)
Fixpoint all_ordered (m : nat) (last seen : nat -> nat) : res unit :=
  match m with
  | O => Ok tt
  | S m => ordered (last m) (seen m) ;;; all_ordered m last seen
  end.
Definition bump (n : Z) (f : nat -> nat) : nat -> nat := fun k => if Z.of_nat k <? n - 1 then S (f k) else f k.
Definition use_tasks (n : Z) (s : st) : res st :=
  all_ordered (Z.to_nat (n - 1)) (s_oa s) (vo (s_view s)) ;;;
  Ok (set_view (set_oa s (bump n (s_oa s)))
        (set_vo (s_view s) (fun k => if Z.of_nat k <? n - 1 then S (s_oa s k) else vo (s_view s) k))).

(** thread_pool.cc:36-40: a new thread. It starts in RevertToReadyState (line 143). *)
Definition new_worker (v : view) : worker := {|
  w_pc := WTask; w_view := v; w_hist := {| h_ts := 0; h_val := fun _ => Startup; h_view := fun _ => v |};
  w_task := None; w_ta := 0; w_mutex := Some vbot |}.

Definition epoch_count (s : st) (e : epoch) : Z :=
  match e with
  | ECreate n => wrap_s 32 (wrap_u 64 (n - 1 - Z.of_nat (s_n s)))   (* int - size_t *)
  | ERun n => n - 1
  end.

Definition main_step (dbg : bool) (ch : choice) (s : st) : res st :=
  let v := s_view s in
  match s_main s with
  | MNext =>
    match s_script s with
    | [] => Ok (set_main s (MExit 0))
    | n :: rest =>
      dcheck dbg (1 <=? n) ;;;
      s1 <- use_tasks n s ;;
      let s2 := {| s_script := rest; s_call := S (s_call s1); s_main := if n =? 1 then MSolo false else MCreate n;
                   s_view := s_view s1; s_n := s_n s1; s_ws := s_ws s1; s_count := s_count s1; s_cmutex := s_cmutex s1;
                   s_oa := s_oa s1; s_log := s_log s1; s_clog := s_clog s1 |} in
      Ok (emit s2 (ECall (S (s_call s)) n))
    end
  | MSolo ending =>
    if ending then Ok (emit (set_main s (MReturn 1)) (EEnd (s_call s, 0%nat) Main))
    else Ok (emit (set_main s (MSolo true)) (EBegin (s_call s, 0%nat) Main))
  | MCreate n =>
    dcheck dbg (0 <=? n - 1) ;;;
    Ok (set_main s (if wrap_u 32 (n - 1) <=? Z.of_nat (s_n s) then MResetLoad (ERun n) else MResetLoad (ECreate n)))
  | MResetLoad e =>
    let '(x, _) := load_count s (ch_stale ch) in
    dcheck dbg (x =? 0) ;;;
    Ok (set_main s (MResetStore e))
  | MResetStore e =>
    ordered (h_ts (s_count s)) (vc v) ;;;
    let v' := set_vc v (S (h_ts (s_count s))) in
    let x := epoch_count s e in
    Ok (cemit (set_main (set_view (set_count s (hpush (s_count s) x v')) v')
                        (match e with ECreate n => MSpawn n | ERun n => MStart n 0 end)) (CReset x))
  | MSpawn n =>
    if Z.of_nat (s_n s) <? wrap_u 32 (n - 1) then
      Ok {| s_script := s_script s; s_call := s_call s; s_main := MSpawn n; s_view := v; s_n := S (s_n s);
            s_ws := upd (s_ws s) (s_n s) (new_worker v);
            s_count := s_count s; s_cmutex := s_cmutex s; s_oa := s_oa s; s_log := s_log s; s_clog := s_clog s |}
    else Ok (set_main s (MWait (ECreate n) PCheck))
  | MStart n k => Ok (set_main s (if Z.of_nat k + 1 <? n then MChange (GStart n) k CsLoad else MRun n false))
  | MChange g k c =>
    let w := s_ws s k in
    match c with
    | CsLoad =>
      let t := pick (w_hist w) (vs v k) (ch_stale ch) in
      let x := h_val (w_hist w) t in
      dcheck dbg ((tstate_eqb x Ready || tstate_eqb x HasWork) &&
                  negb (tstate_eqb x (match g with GStart _ => HasWork | GExit => ExitASAP end))) ;;;
      Ok (set_main s (MChange g k (match g with GStart _ => CsTask | GExit => CsStore end)))
    | CsTask =>
      ordered (w_ta w) (vt v k) ;;;
      dcheck dbg (match w_task w with None => true | _ => false end) ;;;
      Ok (set_main (set_view (set_worker s k (w_set_task w (Some (s_call s, S k)))) (set_vt v k (S (w_ta w)))) (MChange g k CsStore))
    | CsStore =>
      ordered (h_ts (w_hist w)) (vs v k) ;;;
      let v' := set_vs v k (S (h_ts (w_hist w))) in
      let x := match g with GStart _ => HasWork | GExit => ExitASAP end in
      Ok (set_main (set_view (set_worker s k (w_set_hist w (hpush (w_hist w) x v'))) v') (MChange g k CsLock))
    | CsLock =>
      match w_mutex w with
      | None => Ok s
      | Some m => Ok (set_main (set_view (set_worker s k (w_set_mutex w None)) (vjoin v m)) (MChange g k CsNotify))
      end
    | CsNotify =>
      Ok (set_main (set_worker s k (match w_pc w with WWait PSleep => w_set_pc w (WWait PRelock) | _ => w end)) (MChange g k CsUnlock))
    | CsUnlock =>
      Ok (set_main (set_worker s k (w_set_mutex w (Some v))) (match g with GStart n => MStart n (S k) | GExit => MExit (S k) end))
    end
  | MRun n ending =>
    if ending then Ok (emit (set_main s (MWait (ERun n) PCheck)) (EEnd (s_call s, 0%nat) Main))
    else Ok (emit (set_main s (MRun n true)) (EBegin (s_call s, 0%nat) Main))
  | MWait e p =>
    let '(x, v') := load_count s (ch_stale ch) in
    let next := match e with ECreate n => MResetLoad (ERun n) | ERun n => MReturn n end in
    match p with
    | PCheck => if x =? 0 then Ok (cemit (set_main (set_view s v') next) CWait) else Ok (set_main (set_view s v') (MWait e PSpin))
    | PSpin =>
      if ch_timeout ch then Ok (set_main s (MWait e PLock))
      else if x =? 0 then Ok (cemit (set_main (set_view s v') next) CWait)
      else Ok s
    | PLock | PRelock =>
      match s_cmutex s with
      | None => Ok s
      | Some m => Ok (set_main (set_view (set_cmutex s None) (vjoin v m)) (MWait e PTest))
      end
    | PTest =>
      if x =? 0 then Ok (set_main (set_view s v') (MWait e (PUnlock tt)))
      else Ok (set_main (set_view (set_cmutex s (Some v')) v') (MWait e PSleep))
    | PSleep => if ch_spurious ch then Ok (set_main s (MWait e PRelock)) else Ok s
    | PUnlock _ => Ok (cemit (set_main (set_cmutex s (Some v)) next) CWait)
    end
  | MReturn n =>
    s1 <- use_tasks n s ;;
    Ok (emit (set_main s1 MNext) (EReturn (s_call s)))
  | MExit k => Ok (set_main s (if (k <? s_n s)%nat then MChange GExit k CsLoad else MJoin 0))
  | MJoin k =>
    if (k <? s_n s)%nat then
      let w := s_ws s k in
      let t := pick (w_hist w) (vs v k) (ch_stale ch) in
      dcheck dbg (tstate_eqb (h_val (w_hist w) t) ExitASAP) ;;;
      match w_pc w with
      | WDone => Ok (set_main (set_view s (vjoin v (w_view w))) (MJoin (S k)))
      | _ => Ok s
      end
    else Ok (set_main s MDone)
  | MDone => Ok s
  end.

Definition step (dbg : bool) (t : tid) (ch : choice) (s : st) : res st :=
  match t with
  | Main => main_step dbg ch s
  | Worker k => if (k <? s_n s)%nat then worker_step dbg k ch s else Ok s
  end.

Fixpoint exec (dbg : bool) (sched : list (tid * choice)) (s : st) : res st :=
  match sched with
  | [] => Ok s
  | (t, ch) :: rest => s' <- step dbg t ch s ;; exec dbg rest s'
  end.

(** A new pool whose owner will make these calls and then destroy it. *)
Definition init (script : list Z) : st := {|
  s_script := script; s_call := 0; s_main := MNext; s_view := vbot; s_n := 0; s_ws := fun _ => new_worker vbot;
  s_count := {| h_ts := 0; h_val := fun _ => 0; h_view := fun _ => vbot |}; s_cmutex := Some vbot;
  s_oa := fun _ => 0%nat; s_log := []; s_clog := [] |}.
