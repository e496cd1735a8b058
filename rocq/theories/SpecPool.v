(** What is required of the thread pool: the events of an execution, calls after calls. *)
From Verif Require Import Base ThreadPool.

(** The requirement of the interface (thread_pool.h:30-45): at least one task. *)
Definition valid_script (script : list Z) : Prop := Forall (fun n => 1 <= n <= int_max) script.

(** Task 0 belongs to the calling thread, task k + 1 to worker k. *)
Definition runner (i : nat) : tid := match i with O => Main | S k => Worker k end.
Definition task_eqb (a b : task) : bool := Nat.eqb (fst a) (fst b) && Nat.eqb (snd a) (snd b).
Definition about (t : task) (e : event) : bool :=
  match e with EBegin t' _ | EEnd t' _ => task_eqb t t' | _ => false end.

(** The events between the beginning and the return of call [c] with [n] tasks: all of them
    belong to tasks of the call, on the right thread; [whole]: every task was run once. *)
Definition only_tasks_of (c : nat) (n : Z) (body : list event) : Prop :=
  forall e, In e body -> exists i, Z.of_nat i < n /\ (e = EBegin (c, i) (runner i) \/ e = EEnd (c, i) (runner i)).
Definition run_once (c i : nat) : list event := [EBegin (c, i) (runner i); EEnd (c, i) (runner i)].
Definition whole_call (c : nat) (n : Z) (body : list event) : Prop :=
  only_tasks_of c n body /\ forall i, Z.of_nat i < n -> filter (about (c, i)) body = run_once c i.
Definition part_of_call (c : nat) (n : Z) (body : list event) : Prop :=
  only_tasks_of c n body /\ forall i, Z.of_nat i < n -> exists rest, filter (about (c, i)) body ++ rest = run_once c i.

(** Complete calls with these numbers of tasks, the first of which is number [c]. *)
Inductive calls : nat -> list Z -> list event -> Prop :=
| calls_nil : forall c, calls c [] []
| calls_cons : forall c n ns body rest, whole_call c n body -> calls (S c) ns rest ->
    calls c (n :: ns) (ECall c n :: body ++ EReturn c :: rest).

(** A counter, and what its operations may do and report. *)
Definition counter_step (c : Z) (e : counter_event) : option Z :=
  match e with
  | CReset n => if c =? 0 then Some n else None
  | CDecrement hit => if (0 <? c) && Bool.eqb hit (c - 1 =? 0) then Some (c - 1) else None
  | CWait => if c =? 0 then Some c else None
  end.
Fixpoint counter_run (c : Z) (es : list counter_event) : option Z :=
  match es with
  | [] => Some c
  | e :: es => match counter_step c e with Some c' => counter_run c' es | None => None end
  end.

(** The largest number of tasks given to workers by these calls. *)
Definition max_workers (ns : list Z) : Z := fold_right (fun n m => Z.max (n - 1) m) 0 ns.

(** Infinite schedules: every thread is scheduled again and again, and from some point on
    stores are visible to the other threads and wakeups are not spurious. *)
Definition fair_pool (sched : nat -> tid * choice) : Prop :=
  (forall t i, exists j, (i <= j)%nat /\ fst (sched j) = t) /\
  exists i, forall j, (i <= j)%nat -> ch_stale (snd (sched j)) = 0%nat /\ ch_spurious (snd (sched j)) = false.
Definition first_steps (sched : nat -> tid * choice) (n : nat) : list (tid * choice) := map sched (seq 0 n).

(** The events of an execution: complete calls, then possibly the beginning of the next. *)
Definition history (script : list Z) (log : list event) : Prop :=
  exists past rest log0 current, script = past ++ rest /\ log = log0 ++ current /\ calls 1 past log0 /\
  (current = [] \/ exists n rest' body, rest = n :: rest' /\ current = ECall (S (length past)) n :: body /\
                                        part_of_call (S (length past)) n body).

(** The destructor has returned, and all workers have come to an end. *)
Definition destroyed (s : st) : Prop := s_main s = MDone /\ forall k, (k < s_n s)%nat -> w_pc (s_ws s k) = WDone.
(** The destructor has begun. *)
Definition in_destructor (m : mpc) : bool := match m with MExit _ | MChange GExit _ _ | MJoin _ | MDone => true | _ => false end.

(** The operations of a counter since the last Reset. *)
Definition no_reset (es : list counter_event) : Prop := forall n, ~ In (CReset n) es.
Definition decrements (es : list counter_event) : Z := Z.of_nat (length (filter (fun e => match e with CDecrement _ => true | _ => false end) es)).
Definition counts_down (es : list counter_event) : Prop :=
  forall before n mid e after, es = before ++ CReset n :: mid ++ e :: after -> no_reset mid ->
  match e with
  | CDecrement hit => hit = true <-> decrements mid + 1 = n
  | CWait | CReset _ => decrements mid = n
  end.

(** How many calls were made, and how many have returned. *)
Definition called (log : list event) : nat := length (filter (fun e => match e with ECall _ _ => true | _ => false end) log).
Definition returned (log : list event) : nat := length (filter (fun e => match e with EReturn _ => true | _ => false end) log).
