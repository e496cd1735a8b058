(** What should be recorded: the open scopes of each thread when the profiler looks at it. No bytes, labels, pointers or locks. *)
From Coq Require Import ZArith List.
From Verif Require Import Base Profiler SpecProfiler ProfilerMachine.
Import ListNotations.
Open Scope Z_scope.

Record history := {
  h_created : Z;                             (* threads so far *)
  h_threads : list (Z * snapshot);           (* those that exist, oldest first *)
  h_running : bool;
  h_taken : list snapshot;                   (* in the profile under way *)
  h_profiles : list (list snapshot)          (* those finished, the last one first *)
}.
Definition h_init : history := {| h_created := 0; h_threads := []; h_running := false; h_taken := []; h_profiles := [] |}.

Definition open_scopes (h : history) (t : Z) : list note := match find t (h_threads h) with Some x => snd x | None => [] end.
Definition set_threads (l : list (Z * snapshot)) (h : history) : history :=
  {| h_created := h_created h; h_threads := l; h_running := h_running h; h_taken := h_taken h; h_profiles := h_profiles h |}.
Definition set_scopes (t : Z) (f : list note -> list note) (h : history) : history :=
  set_threads (map (fun x => if fst x =? t then (fst x, (fst (snd x), f (snd (snd x)))) else x) (h_threads h)) h.

Definition observe (e : event) (h : history) : history :=
  match e with
  | ENew t => {| h_created := h_created h + 1; h_threads := h_threads h ++ [(t, (h_created h mod 2 ^ 32, []))];
                 h_running := h_running h; h_taken := h_taken h; h_profiles := h_profiles h |}
  | EExit t => set_threads (filter (fun x => negb (fst x =? t)) (h_threads h)) h
  | EEnter t n => set_scopes t (fun l => l ++ [n]) h
  | ELeave t => set_scopes t (fun l => removelast l) h
  | EStart => {| h_created := h_created h; h_threads := h_threads h; h_running := true; h_taken := []; h_profiles := h_profiles h |}
  | ESample t =>
    match find t (h_threads h) with
    | Some (id, x :: l) => {| h_created := h_created h; h_threads := h_threads h; h_running := h_running h;
                              h_taken := h_taken h ++ [(id, x :: l)]; h_profiles := h_profiles h |}
    | _ => h
    end
  | EFinish => {| h_created := h_created h; h_threads := h_threads h; h_running := false; h_taken := []; h_profiles := h_taken h :: h_profiles h |}
  | EFinishing | ECheck | ELock | EUnlock => h
  end.
Definition observed (es : list event) : history := fold_left (fun h e => observe e h) es h_init.

(** The program leaves only scopes it has entered, annotates them properly, and the profile is short enough. *)
Definition proper (e : event) (h : history) : Prop :=
  match e with
  | EEnter t n => good_note n
  | ELeave t => open_scopes h t <> []
  | ESample t => bytes_needed (h_taken (observe e h)) <= int_max
  | _ => True
  end.
Definition well_behaved (es : list event) : Prop := forall pre e post, es = pre ++ e :: post -> proper e (observed pre).

(** Threads looked at, in order. *)
Definition looked_at (es : list event) : list Z := flat_map (fun e => match e with ESample t => [t] | _ => [] end) es.
