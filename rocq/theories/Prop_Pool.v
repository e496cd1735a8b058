(** C13, C14, C15, C16: the thread pool. *)
From Verif Require Import Base ThreadPool SpecPool PoolProps.
From Coq Require Import Cantor.

(** A run used in the examples: calls with 3, 1 and 2 tasks, with some outdated reads,
    timeouts and spurious wakeups. *)
Definition go : choice := {| ch_stale := 0; ch_timeout := false; ch_spurious := false |}.
Definition nap : choice := {| ch_stale := 0; ch_timeout := true; ch_spurious := false |}.
Definition odd : choice := {| ch_stale := 3; ch_timeout := true; ch_spurious := true |}.
Definition rounds (n : nat) : list (tid * choice) :=
  concat (repeat [(Main, nap); (Worker 1, nap); (Worker 0, odd); (Main, nap); (Worker 1, go); (Worker 0, nap); (Main, odd)] n).
Example valid_script_nonvacuous : valid_script [3; 1; 2].
Proof. repeat constructor; unfold int_max; lia. Qed.

(** C13: whatever the calls, the schedule, the values read by the atomic loads, the
    timeouts and the spurious wakeups, an execution is never undefined (data races
    included), fails no assertion, and its events are calls one after the other,
    in each of which every task is run once, by its thread. *)
Theorem C13_every_task_once : forall dbg script sched, valid_script script ->
  exists s, exec dbg sched (init script) = Ok s /\ history script (s_log s) /\ (s_main s = MDone -> calls 1 script (s_log s)).
Proof. exact every_task_once. Qed.
Print Assumptions C13_every_task_once.
Example C13_every_task_once_nonvacuous :
  (s <- exec true (rounds 60) (init [3; 1; 2]) ;; Ok (s_main s, s_log s)) =
  Ok (MDone,
      [ECall 1 3; EBegin (1, 1) (Worker 0); EEnd (1, 1) (Worker 0); EBegin (1, 0) Main; EEnd (1, 0) Main;
       EBegin (1, 2) (Worker 1); EEnd (1, 2) (Worker 1); EReturn 1;
       ECall 2 1; EBegin (2, 0) Main; EEnd (2, 0) Main; EReturn 2;
       ECall 3 2; EBegin (3, 0) Main; EEnd (3, 0) Main; EBegin (3, 1) (Worker 0); EEnd (3, 1) (Worker 0); EReturn 3]%nat).
Proof. vm_compute. reflexivity. Qed.

(** C14: in every fair execution all calls return, and the destructor joins all workers. *)
Theorem C14_pool_finishes : forall dbg script sched, valid_script script -> fair_pool sched ->
  exists n s, exec dbg (first_steps sched n) (init script) = Ok s /\ destroyed s /\ calls 1 script (s_log s).
Proof. exact pool_finishes. Qed.
Print Assumptions C14_pool_finishes.
Definition example_fair (j : nat) : tid * choice := (match fst (Cantor.of_nat j) with O => Main | S k => Worker k end, go).
Example C14_pool_finishes_nonvacuous : fair_pool example_fair.
Proof.
  split; [|exists 0%nat; intros; split; reflexivity]. intros t i. exists (Cantor.to_nat (match t with Main => O | Worker k => S k end, i)). split.
  - pose proof (Cantor.to_nat_non_decreasing (match t with Main => O | Worker k => S k end) i). lia.
  - unfold example_fair. rewrite Cantor.cancel_of_to. destruct t; reflexivity.
Qed.

(** C14: after any execution, however outdated its reads and spurious its wakeups, the
    calls can be completed and the pool be destroyed. The waits may spin or block. *)
Theorem C14_never_blocked : forall dbg script sched s timeouts, valid_script script -> exec dbg sched (init script) = Ok s ->
  exists more s', exec dbg (map (fun t => (t, {| ch_stale := 0; ch_timeout := timeouts; ch_spurious := false |})) more) s = Ok s' /\
                  destroyed s' /\ calls 1 script (s_log s').
Proof. exact never_blocked. Qed.
Print Assumptions C14_never_blocked.
(** A state with the calling thread and a worker blocked on condition variables. *)
Example C14_never_blocked_nonvacuous :
  (s <- exec true (repeat (Main, nap) 40 ++ repeat (Worker 0, nap) 40) (init [3]) ;; Ok (s_main s, w_pc (s_ws s 0%nat), w_pc (s_ws s 1%nat))) =
  Ok (MWait (ECreate 3) PSleep, WWait PSleep, WTask).
Proof. vm_compute. reflexivity. Qed.

(** C15: the operations of the counter, in the order of their effects: Wait returns only
    when there have been as many decrements as the Reset announced, and the decrement
    that reports zero is the last of them. *)
Theorem C15_counter_exact : forall dbg script sched s, valid_script script -> exec dbg sched (init script) = Ok s ->
  (exists v, counter_run 0 (s_clog s) = Some v) /\ counts_down (s_clog s).
Proof. exact counter_exact. Qed.
Print Assumptions C15_counter_exact.
Example C15_counter_exact_nonvacuous :
  (s <- exec true (rounds 60) (init [3; 1; 2]) ;; Ok (s_clog s)) =
  Ok [CReset 2; CDecrement false; CDecrement true; CWait; CReset 2; CDecrement false; CDecrement true; CWait;
      CReset 1; CDecrement true; CWait].
Proof. vm_compute. reflexivity. Qed.

(** C16: the number of workers is at least what the calls that have returned needed, and
    at most what the calls made so far need; between calls the two bounds are equal. *)
Theorem C16_worker_count : forall dbg script sched s, valid_script script -> exec dbg sched (init script) = Ok s ->
  max_workers (firstn (returned (s_log s)) script) <= Z.of_nat (s_n s) <= max_workers (firstn (called (s_log s)) script).
Proof. exact worker_count. Qed.
Print Assumptions C16_worker_count.
Example C16_worker_count_nonvacuous :
  (s <- exec true (rounds 60) (init [3; 1; 2]) ;; Ok (s_n s, returned (s_log s), max_workers [3; 1; 2])) = Ok (2%nat, 3%nat, 2).
Proof. vm_compute. reflexivity. Qed.
(** None for calls with one task. *)
Example C16_single_tasks : max_workers [1; 1; 1] = 0.
Proof. reflexivity. Qed.

(** C16: workers are never removed, and none ends before the destructor. *)
Theorem C16_workers_kept : forall dbg script sched1 sched2 s1 s2, valid_script script ->
  exec dbg sched1 (init script) = Ok s1 -> exec dbg sched2 s1 = Ok s2 ->
  (s_n s1 <= s_n s2)%nat /\
  (in_destructor (s_main s2) = false -> forall k, (k < s_n s2)%nat -> w_pc (s_ws s2 k) <> WDone).
Proof. exact workers_kept. Qed.
Print Assumptions C16_workers_kept.
Example C16_workers_kept_nonvacuous :
  (s <- exec true (rounds 20) (init [3; 1; 2]) ;; Ok (s_n s, in_destructor (s_main s))) = Ok (2%nat, false).
Proof. vm_compute. reflexivity. Qed.

(** C16: with no tasks or fewer, a debug build aborts, and a release build creates threads
    without end: up to 2^32 - 1 for no tasks. *)
Theorem C16_no_tasks_asserted : forall script n ch, n <= 0 -> exec true [(Main, ch)] (init (n :: script)) = Abort.
Proof. exact no_tasks_asserted. Qed.
Print Assumptions C16_no_tasks_asserted.
Theorem C16_no_tasks_spawn : forall n m, int_min < n <= 0 -> Z.of_nat m <= 2 ^ 32 + n - 1 ->
  exists sched s, exec false sched (init [n]) = Ok s /\ s_n s = m.
Proof. exact no_tasks_spawn. Qed.
Print Assumptions C16_no_tasks_spawn.
Example C16_no_tasks_spawn_nonvacuous :
  (s <- exec false (repeat (Main, go) 54) (init [0]) ;; Ok (s_n s)) = Ok 50%nat.
Proof. vm_compute. reflexivity. Qed.
