(** C58: profiling threads while they run. *)
From Coq Require Import ZArith List.
From Verif Require Import Base Profiler SpecProfiler ProfilerProps TreeView SpecTreeView ProfilerMachine SpecProfilerMachine ProfilerMachineFacts ProfilerExamples.
Import ListNotations.
Open Scope Z_scope.

(** Every execution is defined: the profiler never uses the stack of a thread that is gone. It is stopped only where more than 64
    scopes are entered or a second profile is started. *)
Theorem C58_safe : forall text blank other_format thread_format order, sorts order ->
  forall fresh, length fresh = 64%nat /\ Forall good_label fresh ->
  forall dbg es r, well_behaved es -> prun text blank other_format thread_format order fresh dbg es ps_init = Some r ->
  r <> UB /\ (r = Abort -> exists pre e post, es = pre ++ e :: post /\
    ((exists t n, e = EEnter t n /\ length (open_scopes (observed pre) t) = 64%nat) \/ (e = EStart /\ h_running (observed pre) = true))).
Proof. exact run_safe. Qed.
Print Assumptions C58_safe.
Example C58_nonvacuous : sorts xp_order /\ (length xp_fresh = 64%nat /\ Forall good_label xp_fresh) /\ well_behaved xp_events.
Proof. split; [exact xp_order_sorts | split; [exact xp_fresh_good | exact xp_well_behaved]]. Qed.

(** The views are those of the scopes open in each thread whenever it was looked at; so is the buffer of the profile under way. *)
Theorem C58_exact : forall text blank other_format thread_format order, sorts order ->
  forall fresh, length fresh = 64%nat /\ Forall good_label fresh ->
  forall dbg es st, well_behaved es -> prun text blank other_format thread_format order fresh dbg es ps_init = Some (Ok st) ->
  let h := observed es in
  Forall2 (view_of text other_format thread_format) (h_profiles h) (ps_views st) /\
  match ps_profile st with
  | Some p => h_running h = true /\ forall other_fresh, reads other_fresh (pr_buf p) (h_taken h)
  | None => h_running h = false
  end.
Proof. exact run_exact. Qed.
Print Assumptions C58_exact.
Example C58_history : h_profiles (observed xp_events) = [[(0, [(1, [])]); (1, [(3, [4]); (2, [])]); (1, [(3, [4]); (2, [])]); (2, [(2, [])])]].
Proof. exact xp_history. Qed.
Example C58_run : match xp_run with Some (Ok st) => map (map (fun x => (fst x, listing xp_text (snd x)))) (ps_views st) | _ => [] end =
  [[(0, [([], 1); ([([97], [])], 1)]);
    (1, [([], 2); ([([99; 37; 100], [4])], 2); ([([99; 37; 100], [4]); ([98], [])], 2)]);
    (2, [([], 1); ([([98], [])], 1)])]].
Proof. exact xp_run_ok. Qed.

(** A round looks once at each thread that exists, oldest first, and none begins or ends meanwhile. *)
Theorem C58_round : forall text blank other_format thread_format order, sorts order ->
  forall fresh, length fresh = 64%nat /\ Forall good_label fresh ->
  forall dbg pre mid post st, well_behaved (pre ++ ELock :: mid ++ EUnlock :: post) -> ~ In EUnlock mid ->
  prun text blank other_format thread_format order fresh dbg (pre ++ ELock :: mid ++ EUnlock :: post) ps_init = Some (Ok st) ->
  looked_at mid = map fst (h_threads (observed pre)) /\
  map fst (h_threads (observed (pre ++ ELock :: mid))) = map fst (h_threads (observed pre)).
Proof. exact round_ok. Qed.
Print Assumptions C58_round.
