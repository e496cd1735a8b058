(** C37, C38, C39, C44 and C48: what a context does over any history of operations. *)
From Verif Require Import PrepackedCache CacheBad.
From Verif Require Import Base Mat Pack TrMul Allocator BlockMap CachedBad CpuInfo SpecCpu Tune Ctx SpecCtx CtxProps.

(** C37: every operation of a history is answered as specified. In particular each
    multiplication uses the most significant path that is both compiled and enabled. *)
Theorem C37_replies : forall V sys iter max (mem : Z -> pmat V) b ops obs cx,
  valid_processors (m_processors (b_machine b)) -> Forall (valid_operation b) ops ->
  perform_all sys iter max b ops (ctx_init mem) = Ok (obs, cx) ->
  right_replies b initial [] ops obs.
Proof. exact replies_right. Qed.
Print Assumptions C37_replies.

(** A history with three threads, two sets of paths, two tunings and a cache cleared. *)
Example C37_example : exists obs cx, valid_processors (m_processors hist_machine) /\ Forall (valid_operation (hist_build true None)) history /\
  perform_all (fun _ => wit_system) wit_iter 100 (hist_build true None) history (ctx_init wit_mem) = Ok (obs, cx) /\
  length obs = length history /\ map view obs = history_seen.
Proof. exact history_facts. Qed.

(** After any history there is a path, if one is compiled and enabled. *)
Theorem C37_defined : forall V sys iter max (mem : Z -> pmat V) b ops obs cx,
  valid_processors (m_processors (b_machine b)) -> Forall (valid_operation b) ops ->
  perform_all sys iter max b ops (ctx_init mem) = Ok (obs, cx) ->
  forall compiled, 0 <= compiled < 256 ->
  s_paths (after (firstn (length obs) ops) initial) <> 0 \/ b_env b <> Some None ->
  (exists k, Z.testbit compiled k = true /\ enabled b (s_paths (after (firstn (length obs) ops) initial)) k) ->
  exists q cx', select_path b compiled cx = Ok (q, cx') /\ populate_path (b_dbg b) compiled q = Ok q /\
    chosen b (s_paths (after (firstn (length obs) ops) initial)) compiled q.
Proof. exact path_exists. Qed.
Print Assumptions C37_defined.

(** That is so whenever the portable path is compiled, unless the environment says which
    paths to use and the user does not. *)
Theorem C37_portable : forall V sys iter max (mem : Z -> pmat V) b ops obs cx,
  valid_processors (m_processors (b_machine b)) -> Forall (valid_operation b) ops ->
  perform_all sys iter max b ops (ctx_init mem) = Ok (obs, cx) ->
  forall compiled, 0 <= compiled < 256 -> Z.testbit compiled 0 = true ->
  s_paths (after (firstn (length obs) ops) initial) <> 0 \/ b_env b = None ->
  exists q cx', select_path b compiled cx = Ok (q, cx') /\ populate_path (b_dbg b) compiled q = Ok q /\
    chosen b (s_paths (after (firstn (length obs) ops) initial)) compiled q.
Proof. exact portable_exists. Qed.
Print Assumptions C37_portable.

Example C37_portable_example : Z.testbit 0x31 0 = true /\ b_env (hist_build true None) = None /\
  s_paths (after history initial) = 0 /\ s_paths (after (firstn 10 history) initial) = 0x10.
Proof. repeat split; reflexivity. Qed.

(** It is not so if the environment names only paths that are not compiled. *)
Theorem C37_environment_refuted : exists b compiled (mem : Z -> pmat Z) path cx, b_env b = Some (Some 0x40) /\
  valid_processors (m_processors (b_machine b)) /\ Z.testbit compiled 0 = true /\ 0 <= compiled < 256 /\
  select_path b compiled (set_runtime_enabled_paths (ctx_init mem) 1) = Ok (path, cx) /\
  select_path b compiled (ctx_init mem) = UB /\
  select_path (hist_build true (b_env b)) compiled (ctx_init mem) = Abort.
Proof. exact environment_without_path. Qed.
Print Assumptions C37_environment_refuted.

(** Nor if it is not a number. *)
Theorem C37_not_number : forall b compiled (mem : Z -> pmat Z), b_env b = Some None -> select_path b compiled (ctx_init mem) = Abort.
Proof. exact environment_not_number. Qed.
Print Assumptions C37_not_number.

Example C37_not_number_example : b_env (hist_build false (Some None)) = Some None.
Proof. reflexivity. Qed.

(** The path need not be one the machine supports. *)
Theorem C37_supported_refuted : exists b ops obs (cx : ctx Z), valid_processors (m_processors (b_machine b)) /\ Forall (valid_operation b) ops /\
  perform_all (fun _ => wit_system) wit_iter 100 b ops (ctx_init wit_mem) = Ok (obs, cx) /\
  exists p, In p (products initial ops obs) /\ p_path p = 2 ^ 6 /\ ~ supported b 6.
Proof. exact unsupported_path. Qed.
Print Assumptions C37_supported_refuted.

(** C38: each thread uses the tuning the user asked for, or the one of its latest
    measurement, less than a period old; it measures at most once per period. *)
Theorem C38_tuning : forall V sys iter max (mem : Z -> pmat V) b ops obs cx,
  valid_processors (m_processors (b_machine b)) -> Forall (valid_operation b) ops ->
  perform_all sys iter max b ops (ctx_init mem) = Ok (obs, cx) ->
  forall i, right_resolutions (b_machine b) (thread_log i (products initial ops obs)).
Proof. exact tunings_right. Qed.
Print Assumptions C38_tuning.

Example C38_example : exists obs cx, perform_all (fun _ => wit_system) wit_iter 100 (hist_build true None) history (ctx_init wit_mem) = Ok (obs, cx) /\
  map (fun x => (fst x, rn_tuning (snd x), rn_asked (snd x))) (thread_log 0 (products initial history obs)) =
    [(TAuto, TA55ish, true); (TAuto, TA55ish, false); (TAuto, TA55ish, false); (TAuto, TA55ish, false); (TAuto, TX1, true);
     (TGeneric, TGeneric, false); (TGeneric, TGeneric, false); (TGeneric, TGeneric, false); (TAuto, TX1, false)].
Proof. exact history_log. Qed.

(** The resolution is defined whatever the times. *)
Theorem C38_defined : forall V sys iter max (mem : Z -> pmat V) b ops obs cx,
  valid_processors (m_processors (b_machine b)) -> Forall (valid_operation b) ops ->
  perform_all sys iter max b ops (ctx_init mem) = Ok (obs, cx) ->
  forall now us count, (forall i, 0 <= now i < 2 ^ 63) -> exists l cx', threads_tuning b now us count cx = Ok (l, cx').
Proof. exact tunings_defined. Qed.
Print Assumptions C38_defined.

Example C38_defined_example : forall i : nat, 0 <= (fun _ : nat => 2 ^ 63 - 1) i < 2 ^ 63.
Proof. intros i. split; [discriminate|reflexivity]. Qed.

(** C39: the advisory is that of the last multiplication: raised exactly if that one had
    to copy per-channel arrays. *)
Theorem C39_advisory : forall V sys iter max (mem : Z -> pmat V) b ops obs cx,
  valid_processors (m_processors (b_machine b)) -> Forall (valid_operation b) ops ->
  perform_all sys iter max b ops (ctx_init mem) = Ok (obs, cx) ->
  (performance_advisory cx kReallocatedPerChannelBuffer = true <-> exists x, last_product (products initial ops obs) = Some x /\ copies x).
Proof. exact advisory_of_last. Qed.
Print Assumptions C39_advisory.

(** In the history above it is first raised, then not. *)
Example C39_example : nth_error history_seen 7 = Some (Some (inl (inr true))) /\ nth_error history 7 = Some GetAdvisory /\
  nth_error history_seen 13 = Some (Some (inl (inr false))) /\ nth_error history 13 = Some GetAdvisory.
Proof. repeat split; reflexivity. Qed.

(** C44: over all multiplications, thread [i] uses the resources at one address, and no
    other thread uses them. *)
Theorem C44_private : forall V sys iter max (mem : Z -> pmat V) b ops obs cx,
  valid_processors (m_processors (b_machine b)) -> Forall (valid_operation b) ops ->
  perform_all sys iter max b ops (ctx_init mem) = Ok (obs, cx) ->
  private_resources (products initial ops obs).
Proof. exact resources_private. Qed.
Print Assumptions C44_private.

(** Two threads may use theirs in either order. *)
Theorem C44_commute : forall V sys iter max (mem : Z -> pmat V) b ops obs cx,
  valid_processors (m_processors (b_machine b)) -> Forall (valid_operation b) ops ->
  perform_all sys iter max b ops (ctx_init mem) = Ok (obs, cx) ->
  forall cp i paths, cache_params_of (b_dbg b) (b_machine b) (cx_cpu cx) = Ok (cp, i) ->
  forall now us j k l cx', j <> k -> resolve_tunings b now us [j; k] (with_paths cx paths i) = Ok (l, cx') ->
  resolve_tunings b now us [k; j] (with_paths cx paths i) = Ok (rev l, cx').
Proof. exact threads_commute. Qed.
Print Assumptions C44_commute.

Example C44_example : exists obs cx, perform_all (fun _ => wit_system) wit_iter 100 (hist_build true None) history (ctx_init wit_mem) = Ok (obs, cx) /\
  exists l cx', resolve_tunings (hist_build true None) (fun _ => 5 * 10 ^ 9) (fun _ => hist_uarch 0) [1%nat; 2%nat] cx = Ok (l, cx') /\
    map rn_addr l = [1; 2] /\ map rn_asked l = [true; true].
Proof. exact history_resolves. Qed.

(** C48: when the main thread has asked for the cache sizes, no thread of the
    multiplication changes what is known of the processors. *)
Theorem C48_read_only : forall V sys iter max (mem : Z -> pmat V) b ops obs cx,
  valid_processors (m_processors (b_machine b)) -> Forall (valid_operation b) ops ->
  perform_all sys iter max b ops (ctx_init mem) = Ok (obs, cx) ->
  forall cp i paths, cache_params_of (b_dbg b) (b_machine b) (cx_cpu cx) = Ok (cp, i) ->
  forall now us count l cx', (forall k, 0 <= now k < 2 ^ 63) ->
  threads_tuning b now us count (with_paths cx paths i) = Ok (l, cx') -> cx_cpu cx' = i.
Proof. exact workers_read_only. Qed.
Print Assumptions C48_read_only.

(** It matters: in a new context the first thread that asks does change it. *)
Example C48_example : exists cp i l cx', cache_params_of true hist_machine cpu_init = Ok (cp, i) /\ i <> cpu_init /\
  threads_tuning (hist_build true None) (fun _ => 7) (fun _ => hist_uarch 0) 3 (ctx_init wit_mem) = Ok (l, cx') /\ cx_cpu cx' = i.
Proof. exact first_asker. Qed.
