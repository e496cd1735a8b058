(** Model of the threads of a profiled program: those with annotated scopes, and the profiler's.

    instrumentation.{h,cc}, profiler.{h,cc}. An execution is a sequence of the events below, each a critical section or an atomic
    access; a sequence in which an event is not possible is not an execution. Threads are named by the addresses of their ThreadStack
    objects; an address may be used again after the thread is gone. A disabled ScopeProfile has no events (profiler.cc:36-44). *)
From Coq Require Import ZArith List Bool.
From Verif Require Import Base Profiler SpecProfiler TreeView.
Import ListNotations.
Open Scope Z_scope.

Inductive event :=
| ENew (t : Z)                    (* ThreadStack::ThreadStack, instrumentation.cc:90-95 *)
| EExit (t : Z)                   (* ThreadStack::~ThreadStack, instrumentation.cc:97-106 *)
| EEnter (t : Z) (n : note)       (* ThreadStack::Push, instrumentation.h:132-153 *)
| ELeave (t : Z)                  (* ThreadStack::Pop, instrumentation.h:156-165 *)
| EStart                          (* ScopeProfile::Start, profiler.cc:50-61 *)
| EFinishing                      (* ~ScopeProfile sets finishing_, profiler.cc:45 *)
| ECheck                          (* the profiler's thread reads finishing_, profiler.cc:64 *)
| ELock                           (* it locks GlobalsMutex, profiler.cc:66-67 *)
| ESample (t : Z)                 (* Sample, under the stack's mutex, profiler.cc:68-69, 74-86 *)
| EUnlock                         (* the end of the round, profiler.cc:71 *)
| EFinish.                        (* join and Finish, profiler.cc:46-47, 88-104 *)

(** Where the profiler's thread is. [Scan l]: the pointers still to be visited by the range-for loop. *)
Inductive where_ := Check | Asleep | Scan (rest : list Z) | Ended.

(** A started ScopeProfile. *)
Record profile := { pr_buf : list Z; pr_finishing : bool; pr_where : where_ }.

Record pstate := {
  ps_next : Z;                       (* global_next_thread_stack_id, uint32_t *)
  ps_all : list Z;                   (* *GlobalAllThreadStacks() *)
  ps_objects : list (Z * stack);     (* the ThreadStack objects that exist *)
  ps_locked : bool;                  (* GlobalsMutex held by the profiler's thread; others only hold it within one event *)
  ps_running : bool;                 (* GlobalIsProfilerRunning() *)
  ps_profile : option profile;
  ps_views : list roots              (* the tree views produced, the last one first *)
}.
Definition ps_init : pstate :=
  {| ps_next := 0; ps_all := []; ps_objects := []; ps_locked := false; ps_running := false; ps_profile := None; ps_views := [] |}.

Fixpoint find {A} (t : Z) (l : list (Z * A)) : option A :=
  match l with [] => None | (k, x) :: l => if t =? k then Some x else find t l end.
Fixpoint update {A} (t : Z) (x : A) (l : list (Z * A)) : list (Z * A) :=
  match l with [] => [] | (k, y) :: l => if t =? k then (k, x) :: l else (k, y) :: update t x l end.
Definition remove_key {A} (t : Z) (l : list (Z * A)) : list (Z * A) := filter (fun x => negb (fst x =? t)) l.
(** The first pointer equal to [t] is erased. *)
Fixpoint erase (t : Z) (l : list Z) : list Z :=
  match l with [] => [] | k :: l => if t =? k then l else k :: erase t l end.

Section Machine.
Variable text : Z -> list Z.
Variable blank : label.
Variables (other_format thread_format : Z).
Variable order : list Z -> list nat.
(** The labels of a new Stack; those of the one Populate reads into. *)
Variable fresh : list label.
Variable dbg : bool.

Definition with_object (t : Z) (f : stack -> res stack) (st : pstate) : option (res pstate) :=
  match find t (ps_objects st) with
  | None => None
  | Some s => Some (s <- f s ;;
      Ok {| ps_next := ps_next st; ps_all := ps_all st; ps_objects := update t s (ps_objects st); ps_locked := ps_locked st;
            ps_running := ps_running st; ps_profile := ps_profile st; ps_views := ps_views st |})
  end.
Definition set_profile (locked : bool) (p : profile) (st : pstate) : pstate :=
  {| ps_next := ps_next st; ps_all := ps_all st; ps_objects := ps_objects st; ps_locked := locked;
     ps_running := ps_running st; ps_profile := Some p; ps_views := ps_views st |}.

Definition pstep (e : event) (st : pstate) : option (res pstate) :=
  match e with
  | ENew t =>
    if ps_locked st then None else
    match find t (ps_objects st) with
    | Some _ => None
    | None => Some (Ok {| ps_next := wrap_u 32 (ps_next st + 1); ps_all := ps_all st ++ [t];
        ps_objects := ps_objects st ++ [(t, {| st_id := ps_next st; st_size := 0; st_labels := fresh |})];
        ps_locked := false; ps_running := ps_running st; ps_profile := ps_profile st; ps_views := ps_views st |})
    end
  | EExit t =>
    if ps_locked st then None else
    match find t (ps_objects st) with
    | None => None
    | Some _ => Some (Ok {| ps_next := ps_next st; ps_all := erase t (ps_all st); ps_objects := remove_key t (ps_objects st);
        ps_locked := false; ps_running := ps_running st; ps_profile := ps_profile st; ps_views := ps_views st |})
    end
  | EEnter t n => with_object t (push (fst n) (snd n)) st
  | ELeave t => with_object t pop st
  | EStart =>
    if ps_locked st then None else
    if ps_running st then Some Abort
    else Some (Ok {| ps_next := ps_next st; ps_all := ps_all st; ps_objects := ps_objects st; ps_locked := false; ps_running := true;
                     ps_profile := Some {| pr_buf := []; pr_finishing := false; pr_where := Check |}; ps_views := ps_views st |})
  | EFinishing =>
    match ps_profile st with
    | Some p => Some (Ok (set_profile (ps_locked st) {| pr_buf := pr_buf p; pr_finishing := true; pr_where := pr_where p |} st))
    | None => None
    end
  | ECheck =>
    match ps_profile st with
    | Some p => match pr_where p with
      | Check => Some (Ok (set_profile (ps_locked st)
          {| pr_buf := pr_buf p; pr_finishing := pr_finishing p; pr_where := if pr_finishing p then Ended else Asleep |} st))
      | _ => None end
    | None => None
    end
  | ELock =>
    match ps_profile st with
    | Some p => match pr_where p with
      | Asleep => if ps_locked st then None
          else Some (Ok (set_profile true {| pr_buf := pr_buf p; pr_finishing := pr_finishing p; pr_where := Scan (ps_all st) |} st))
      | _ => None end
    | None => None
    end
  | ESample t =>
    match ps_profile st with
    | Some p => match pr_where p with
      | Scan (k :: rest) =>
        if t =? k then
          Some (match find t (ps_objects st) with
                | None => UB                      (* a pointer to an object that is gone *)
                | Some s => buf <- sample s (pr_buf p) ;;
                    Ok (set_profile (ps_locked st) {| pr_buf := buf; pr_finishing := pr_finishing p; pr_where := Scan rest |} st)
                end)
        else None
      | _ => None end
    | None => None
    end
  | EUnlock =>
    match ps_profile st with
    | Some p => match pr_where p with
      | Scan [] => Some (Ok (set_profile false {| pr_buf := pr_buf p; pr_finishing := pr_finishing p; pr_where := Check |} st))
      | _ => None end
    | None => None
    end
  | EFinish =>
    match ps_profile st with
    | Some p => match pr_where p with
      | Ended =>
        if ps_locked st then None else
        Some (if ps_running st then
                view <- populate text blank other_format thread_format order dbg fresh (pr_buf p) ;;
                Ok {| ps_next := ps_next st; ps_all := ps_all st; ps_objects := ps_objects st; ps_locked := false; ps_running := false;
                      ps_profile := None; ps_views := view :: ps_views st |}
              else Abort)
      | _ => None end
    | None => None
    end
  end.

(** [None]: not an execution. Execution stops when it is not [Ok]. *)
Fixpoint prun (es : list event) (st : pstate) : option (res pstate) :=
  match es with
  | [] => Some (Ok st)
  | e :: es => match pstep e st with None => None | Some (Ok st) => prun es st | Some r => Some r end
  end.
End Machine.
