(** What is required of the registers of the threads, in terms of what is observed. *)
From Verif Require Import Base SpecDenormal ThreadPool SpecPool Denormal.

Definition valid_calls (calls : list mul_call) : Prop := forall m n, In m calls -> mc_tasks m = Some n -> 1 <= n <= int_max.
(** Registers the environment chooses are registers. *)
Definition valid_choices (a : fpu) (sched : list (tid * dchoice)) : Prop :=
  forall t ch, In (t, ch) sched -> a_register a (dc_new ch) /\ forall r, dc_set ch = Some r -> a_register a r.

Definition kernels_suppressed (a : fpu) (log : list devent) : Prop :=
  forall t w r, In (DBegin t w r) log \/ In (DEnd t w r) log -> suppressed a r.
(** A multiplication, and a worker thread, leaves the register as it was at its beginning. *)
Definition callers_restored (log : list devent) : Prop :=
  forall c r, In (DReturn c r) log -> In (DCall c r) log /\ forall r', In (DCall c r') log -> r' = r.
Definition workers_restored (log : list devent) : Prop :=
  forall k r, In (DExit k r) log -> In (DStart k r) log /\ forall r', In (DStart k r') log -> r' = r.

(** The beginnings and the ends of tasks in both kinds of observations. *)
Fixpoint tasks_seen (log : list devent) : list event :=
  match log with
  | [] => []
  | DBegin (Some t) w _ :: log => EBegin t w :: tasks_seen log
  | DEnd (Some t) w _ :: log => EEnd t w :: tasks_seen log
  | _ :: log => tasks_seen log
  end.
Definition tasks_run (log : list event) : list event :=
  filter (fun e => match e with EBegin _ _ | EEnd _ _ => true | _ => false end) log.
Fixpoint tasks_of (calls : list mul_call) : list Z :=
  match calls with
  | [] => []
  | {| mc_tasks := None |} :: rest => tasks_of rest
  | {| mc_tasks := Some n |} :: rest => n :: tasks_of rest
  end.
