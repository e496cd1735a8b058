(** C41: the suppression of denormals. *)
From Verif Require Import Base SpecDenormal ThreadPool SpecPool Denormal SpecFenv FenvProps.

(** Whatever the registers of the caller and of new threads, and whatever the schedule, an
    execution is defined, and the kernels of all tasks, on all threads, begin and end with
    the bits set that suppress denormals. *)
Theorem C41_suppressed : forall a dbg calls r sched, valid_calls calls -> a_register a r -> valid_choices a sched ->
  exists s, dexec a dbg sched (dinit calls r) = Ok s /\ kernels_suppressed a (d_log s).
Proof. exact kernels_run_suppressed. Qed.
Print Assumptions C41_suppressed.
Example C41_suppressed_nonvacuous : valid_calls two_muls /\ a_register Mxcsr 0x1f80 /\ valid_choices Mxcsr some_run /\
  (s <- dexec Mxcsr true some_run (dinit two_muls 0x1f80) ;; Ok (d_log s)) = Ok some_log.
Proof. split; [exact two_muls_valid|]. split; [unfold a_register; cbn; lia|]. split; [exact some_run_valid|]. vm_compute. reflexivity. Qed.

(** A multiplication returns with the register of its caller as it was at the call, and a
    worker thread ends with the register it began with. *)
Theorem C41_restored : forall a dbg calls r sched, valid_calls calls -> a_register a r -> valid_choices a sched ->
  exists s, dexec a dbg sched (dinit calls r) = Ok s /\ callers_restored (d_log s) /\ workers_restored (d_log s).
Proof. exact registers_restored. Qed.
Print Assumptions C41_restored.
Example C41_restored_nonvacuous : In (DCall 1 0x9f80) some_log /\ In (DReturn 1 0x9f80) some_log /\ In (DStart 0 0x1fa0) some_log /\ In (DExit 0 0x1fa0) some_log.
Proof. cbn. auto 20. Qed.

(** The executions are those of the thread pool (C13 to C15), and every beginning and every
    end of a task in them is observed. *)
Theorem C41_all_tasks : forall a dbg calls r sched, valid_calls calls -> a_register a r -> valid_choices a sched ->
  exists s sched', dexec a dbg sched (dinit calls r) = Ok s /\ exec dbg sched' (init (tasks_of calls)) = Ok (d_pool s) /\
                   tasks_seen (d_log s) = tasks_run (s_log (d_pool s)).
Proof. exact all_tasks_observed. Qed.
Print Assumptions C41_all_tasks.
Example C41_all_tasks_nonvacuous :
  (s <- dexec Mxcsr true some_run (dinit two_muls 0x1f80) ;; Ok (s_main (d_pool s), tasks_run (s_log (d_pool s)))) = Ok (MDone, tasks_seen some_log).
Proof. vm_compute. reflexivity. Qed.

(** Operands are packed for the cache before the suppression begins, in the caller's mode
    (the code of packing moves floating-point numbers and does not compute with them). *)
Theorem C41_packing_outside : exists a calls sched s c r, valid_calls calls /\ valid_choices a sched /\
  dexec a true sched (dinit calls 0) = Ok s /\ In (DPack c r) (d_log s) /\ ~ suppressed a r.
Proof. exact packing_unsuppressed. Qed.
Print Assumptions C41_packing_outside.
