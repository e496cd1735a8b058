(** Contexts in the vocabulary of SpecCtx, and a history. *)
From Verif Require Import Allocator SpecAlloc AllocFacts AllocProps PrepackedCache SpecCache CacheFacts CacheProps CacheBad.
From Verif Require Import Base SidePair SizeUtil SpecArith SizeUtilFacts SpecMatrix SpecPack BlockMap ThreadCount Mat MatFacts Scalars MulParams TrMulRun SpecMul MulProps
  Pack Kernel TrMul Multiplier IntOps ExampleMul CachedMul SpecCached CachedFacts CachedProps CachedBad CpuInfo SpecCpu CpuFacts Tune Ctx SpecCtx TuneFacts PathFacts ResourceFacts CtxFacts.

Section Histories.
Variable V : Type.
Variable sys : nat -> list sys_event -> list (Z * Z) -> Z -> Z.
Variable iter : list sys_event -> list (key * PrepackedCache.entry) -> list (key * PrepackedCache.entry).
Variable max : Z.
Variable mem : Z -> pmat V.
Variable b : build.
Variable ops : list (operation V).
Variable obs : list (observation V).
Variable cx : ctx V.
Hypothesis Vm : valid_processors (m_processors (b_machine b)).
Hypothesis Vo : Forall (valid_operation b) ops.
Hypothesis H : perform_all sys iter max b ops (ctx_init mem) = Ok (obs, cx).

Lemma history_fine : right_replies b initial [] ops obs /\ ctx_fine b (after (firstn (length obs) ops) initial) (products initial ops obs) cx.
Proof. exact (perform_all_fine b Vm sys iter max ops initial [] _ obs cx (fine_init b mem) Vo H). Qed.

Lemma replies_right : right_replies b initial [] ops obs.
Proof. apply history_fine. Qed.

Lemma path_exists : forall compiled, 0 <= compiled < 256 ->
  s_paths (after (firstn (length obs) ops) initial) <> 0 \/ b_env b <> Some None ->
  (exists k, Z.testbit compiled k = true /\ enabled b (s_paths (after (firstn (length obs) ops) initial)) k) ->
  exists q cx', select_path b compiled cx = Ok (q, cx') /\ populate_path (b_dbg b) compiled q = Ok q /\
    chosen b (s_paths (after (firstn (length obs) ops) initial)) compiled q.
Proof.
  intros compiled C R K. destruct history_fine as (_ & F). apply (select_defined b Vm); [apply (cf_cpu _ _ _ _ F)|apply (cf_paths _ _ _ _ F)|exact C|exact R|exact K].
Qed.

Lemma portable_exists : forall compiled, 0 <= compiled < 256 -> Z.testbit compiled 0 = true ->
  s_paths (after (firstn (length obs) ops) initial) <> 0 \/ b_env b = None ->
  exists q cx', select_path b compiled cx = Ok (q, cx') /\ populate_path (b_dbg b) compiled q = Ok q /\
    chosen b (s_paths (after (firstn (length obs) ops) initial)) compiled q.
Proof.
  intros compiled C T R. apply path_exists; [exact C|destruct R as [R|R]; [left; exact R|right; congruence]|].
  exists 0. split; [exact T|]. unfold enabled. destruct (s_paths _ =? 0) eqn:E; [|left; reflexivity].
  destruct R as [R|R]; [apply Z.eqb_eq in E; congruence|]. unfold environment. rewrite R. cbn [Z.eqb]. left. lia.
Qed.

Lemma advisory_of_last : performance_advisory cx kReallocatedPerChannelBuffer = true <-> exists x, last_product (products initial ops obs) = Some x /\ copies x.
Proof. destruct history_fine as (_ & F). exact (cf_advisory _ _ _ _ F). Qed.

Lemma tunings_right : forall i, right_resolutions (b_machine b) (thread_log i (products initial ops obs)).
Proof.
  intros i. destruct history_fine as (_ & F). destruct (cf_resources _ _ _ _ F) as (_ & R & E).
  destruct (nth_error (cx_resources cx) i) as [r|] eqn:N; [apply (R i r N)|]. apply nth_error_None in N. rewrite (E i N).
  constructor; intros [|j]; discriminate.
Qed.

Lemma tunings_defined : forall now us count, (forall i, 0 <= now i < 2 ^ 63) -> exists l cx', threads_tuning b now us count cx = Ok (l, cx').
Proof.
  intros now us count T. destruct history_fine as (_ & F).
  destruct (threads_tuning_defined b Vm now us count _ cx (cf_resources _ _ _ _ F) (cf_cpu _ _ _ _ F) T) as ([l cx'] & E). eauto.
Qed.

Lemma resources_private : private_resources (products initial ops obs).
Proof. destruct history_fine as (_ & F). exists Z.of_nat. split; [intros; lia|]. exact (cf_used _ _ _ _ F). Qed.

(** After the main thread has asked for the cache sizes. *)
Lemma workers_read_only : forall cp i paths, cache_params_of (b_dbg b) (b_machine b) (cx_cpu cx) = Ok (cp, i) ->
  forall now us count l cx', (forall k, 0 <= now k < 2 ^ 63) ->
  threads_tuning b now us count (with_paths cx paths i) = Ok (l, cx') -> cx_cpu cx' = i.
Proof.
  intros cp i paths E now us count l cx' T Q. destruct history_fine as (_ & F).
  destruct (cache_params_settled b Vm _ _ _ _ (cf_cpu _ _ _ _ F) E) as (S & _).
  apply (threads_tuning_fine b Vm _ _ _ (fun i => thread_log i (products initial ops obs))) in Q; [|exact (cf_resources _ _ _ _ F)|right; exact S|exact T].
  destruct Q as (rs & n & c & -> & _ & K & _). cbn [cx_cpu with_resources]. apply K. exact S.
Qed.

Lemma threads_commute : forall cp i paths, cache_params_of (b_dbg b) (b_machine b) (cx_cpu cx) = Ok (cp, i) ->
  forall now us j k l cx', j <> k -> resolve_tunings b now us [j; k] (with_paths cx paths i) = Ok (l, cx') ->
  resolve_tunings b now us [k; j] (with_paths cx paths i) = Ok (rev l, cx').
Proof.
  intros cp i paths E now us j k l cx' N Q. destruct history_fine as (_ & F).
  destruct (cache_params_settled b Vm _ _ _ _ (cf_cpu _ _ _ _ F) E) as (S & _).
  apply (resolve_tuning_swap b Vm now us j k); [exact S|exact N|exact Q].
Qed.
End Histories.

(** * A history *)

Definition hist_machine : machine :=
  let core n size := {| pr_core := n; pr_l1d := Some {| cd_size := 16; cd_start := n; cd_count := 1 |};
    pr_l2 := Some {| cd_size := size; cd_start := n; cd_count := 1 |}; pr_l3 := Some {| cd_size := 64; cd_start := 0; cd_count := 2 |} |} in
  {| m_library := true; m_initialize := true; m_processors := [core 0 32; core 1 16]; m_features := some_features |}.
Definition hist_build (dbg : bool) (env : option (option Z)) : build :=
  {| b_dbg := dbg; b_opts := default_opts; b_ahead := true; b_fat := true; b_platform := PlatformX86; b_avx := true; b_avx2_fma := true; b_avx512 := true;
     b_machine := hist_machine; b_env := env |}.

Lemma hist_processors : valid_processors (m_processors hist_machine).
Proof.
  constructor; cbn [m_processors hist_machine].
  - discriminate.
  - cbn [length]. unfold int_max. lia.
  - intros p c [<-|[<-|[]]] [<-|[<-|[<-|[]]]]; unfold valid_cache, int_max; cbn [cd_size cd_start cd_count]; lia.
  - intros p [<-|[<-|[]]]; vm_compute; repeat split; discriminate.
Qed.

(** 9x5 times 5x10; and 4x2 times 2x1, with the operands cached. The microarchitecture is
    a Cortex-A55 at even times, Cortex-X1 at others, to show changes. *)
Definition hist_uarch (t : Z) : option uarch * option uarch :=
  let u := if Z.even (t / 1000000) then Some CortexA55 else Some CortexX1 in (u, u).
Definition hist_large (time : Z) : request Z := {|
  q_compiled := 0x31; q_variant := fun _ => (ex_ops wrapping, ex_kl); q_float := false; q_garbage := ex_garbage 99; q_sched := ex_sched;
  q_lhs := ex_l; q_rhs := ex_r; q_dst := ex_dst ColMajor; q_mp := ex_mp; q_addr := mk_sp 1000 2000; q_policy := mk_sp NeverCache NeverCache;
  q_now := fun i => (time + Z.of_nat (i mod 4)) * 1000000; q_uarch := fun i => hist_uarch ((time + Z.of_nat (i mod 4)) * 1000000);
  q_pack_now := fun i => time * 1000000; q_pack_uarch := fun i => hist_uarch (time * 1000000) |}.
Definition hist_small (compiled time : Z) : request Z :=
  let cl := wit_call (wit_operand 4 2 RowMajor count) (wit_operand 2 1 RowMajor count) 3000 4000 AlwaysCache AlwaysCache in {|
  q_compiled := compiled; q_variant := fun _ => (cl_ops cl, cl_kl cl); q_float := false; q_garbage := cl_garbage cl; q_sched := cl_sched cl;
  q_lhs := cl_lhs cl; q_rhs := cl_rhs cl; q_dst := cl_dst cl; q_mp := cl_mp cl; q_addr := cl_addr cl; q_policy := cl_policy cl;
  q_now := fun i => time * 1000000; q_uarch := fun i => hist_uarch (time * 1000000);
  q_pack_now := fun i => time * 1000000; q_pack_uarch := fun i => hist_uarch (time * 1000000) |}.

Definition history : list (operation Z) :=
  [GetPaths; GetLastPath; GetAdvisory; SetThreads 3; SetStrategy StrategyForceMax; Multiply (hist_large 1000); GetLastPath; GetAdvisory;
   SetPaths 0x10; GetPaths; SetThreads 1; Multiply (hist_small 0x31 1241); GetLastPath; GetAdvisory; Multiply (hist_small 0x31 1251);
   SetTuning TGeneric; ClearCache; Multiply (hist_small 0x51 1300); SetPaths 0; SetTuning TAuto; GetPaths; Multiply (hist_small 0x51 1302)].

Lemma history_valid : forall env, Forall (valid_operation (hist_build true env)) history.
Proof.
  intros env. change (2 ^ 63) with 9223372036854775808.
  assert (L : valid_operation (hist_build true env) (Multiply (hist_large 1000))).
  { unfold valid_operation. split; [cbn [q_compiled hist_large]; lia|].
    split; [|split; [intros i; cbn [q_pack_now hist_large]; lia|intros k _ _; exact (vc_well_formed _ _ _ _ _ _ _ (ex_valid wrapping ColMajor 3 ltac:(unfold good_threads; lia)))]].
    intros i. cbn [q_now hist_large]. pose proof (Nat.mod_upper_bound i 4 ltac:(lia)). lia. }
  assert (S : forall c t, 0 <= c < 256 -> 0 <= t <= 10000 -> valid_operation (hist_build true env) (Multiply (hist_small c t))).
  { intros c t C T. split; [exact C|]. split; [intros i; cbn [q_now hist_small]; lia|]. split; [intros i; cbn [q_pack_now hist_small]; lia|].
    intros k _ _. cbn [q_variant hist_small fst snd q_lhs q_rhs q_dst q_mp].
    exact (vc_well_formed _ _ _ _ _ _ _ (cc_valid _ (wit_cacheable 4 2 1 RowMajor RowMajor count count 3000 4000 AlwaysCache AlwaysCache ltac:(unfold small; lia) ltac:(unfold small; lia) ltac:(unfold small; lia)))). }
  unfold history. repeat (apply Forall_cons; [first [exact L|apply S; lia|cbn; unfold int_max; lia|exact Logic.I]|]). apply Forall_nil.
Qed.

(** What is seen of a multiplication: the path; whose resources, when, and what tuning was
    found by asking or not, for packing and for multiplying; the entries. *)
Definition seen (l : list resolution) : list (Z * Z * tuning * bool) := map (fun r => (rn_addr r, rn_now r / 1000000, rn_tuning r, rn_asked r)) l.
Definition view (a : observation Z) : option (Z + bool + (Z * list (Z * Z * tuning * bool) * list (Z * Z * tuning * bool) * option Z)) :=
  match a with
  | Nothing => None
  | Paths p => Some (inl (inl p))
  | Advisory c => Some (inl (inr c))
  | Product p packs used out => Some (inr (p, seen packs, seen used, option_map (fun m => SpecMatrix.entry m 1 0) out))
  end.
Definition history_seen :=
  [Some (inl (inl 0x31)); Some (inl (inl 0)); Some (inl (inr false)); None; None;
   Some (inr (0x20, [], [(0, 1000, TA55ish, true); (1, 1001, TX1, true); (2, 1002, TA55ish, true)], Some 20));
   Some (inl (inl 0x20)); Some (inl (inr true)); None; Some (inl (inl 0x11)); None;
   Some (inr (0x10, [(0, 1241, TA55ish, false); (0, 1241, TA55ish, false)], [(0, 1241, TA55ish, false)], Some 11));
   Some (inl (inl 0x10)); Some (inl (inr false));
   Some (inr (0x10, [], [(0, 1251, TX1, true)], Some 11));
   None; None;
   Some (inr (0x10, [(0, 1300, TGeneric, false); (0, 1300, TGeneric, false)], [(0, 1300, TGeneric, false)], Some 11));
   None; None; Some (inl (inl 0x31));
   Some (inr (0x10, [], [(0, 1302, TX1, false)], Some 11))].

Lemma history_runs : exists obs cx, perform_all (fun _ => wit_system) wit_iter 100 (hist_build true None) history (ctx_init wit_mem) = Ok (obs, cx) /\
  map view obs = history_seen.
Proof.
  assert (E : ('(l, _) <- perform_all (fun _ => wit_system) wit_iter 100 (hist_build true None) history (ctx_init wit_mem) ;; Ok (map view l)) = Ok history_seen)
    by (vm_compute; reflexivity).
  destruct (perform_all _ _ _ _ _ _) as [[obs cx]| |]; try discriminate. exists obs, cx. split; [reflexivity|].
  cbn [bind] in E. injection E as E. exact E.
Qed.

Lemma history_facts : exists obs cx, valid_processors (m_processors hist_machine) /\ Forall (valid_operation (hist_build true None)) history /\
  perform_all (fun _ => wit_system) wit_iter 100 (hist_build true None) history (ctx_init wit_mem) = Ok (obs, cx) /\
  length obs = length history /\ map view obs = history_seen.
Proof.
  destruct history_runs as (obs & cx & E & S). exists obs, cx. split; [exact hist_processors|]. split; [exact (history_valid None)|]. split; [exact E|].
  split; [|exact S]. apply (f_equal (@length _)) in S. rewrite map_length in S. exact S.
Qed.

(** * The environment *)

(** The portable path is compiled, but the environment names only a path that is not. *)
Lemma environment_without_path : exists b compiled (mem : Z -> pmat Z) path cx, b_env b = Some (Some 0x40) /\
  valid_processors (m_processors (b_machine b)) /\ Z.testbit compiled 0 = true /\ 0 <= compiled < 256 /\
  select_path b compiled (set_runtime_enabled_paths (ctx_init mem) 1) = Ok (path, cx) /\
  select_path b compiled (ctx_init mem) = UB /\
  select_path (hist_build true (b_env b)) compiled (ctx_init mem) = Abort.
Proof.
  exists (hist_build false (Some (Some 0x40))), 0x31, wit_mem, 1.
  eexists. split; [reflexivity|]. split; [exact hist_processors|]. split; [reflexivity|]. split; [lia|].
  split; [vm_compute; reflexivity|]. split; vm_compute; reflexivity.
Qed.

(** An environment variable that is not a number stops the program. *)
Lemma environment_not_number : forall b compiled (mem : Z -> pmat Z), b_env b = Some None -> select_path b compiled (ctx_init mem) = Abort.
Proof. intros b compiled mem E. unfold select_path, get_runtime_enabled_paths. cbn [cx_paths ctx_init Z.eqb]. rewrite E. reflexivity. Qed.

(** A path the user enables is used whether the machine supports it or not. *)
Lemma unsupported_path : exists b ops obs (cx : ctx Z), valid_processors (m_processors (b_machine b)) /\ Forall (valid_operation b) ops /\
  perform_all (fun _ => wit_system) wit_iter 100 b ops (ctx_init wit_mem) = Ok (obs, cx) /\
  exists p, In p (products initial ops obs) /\ p_path p = 2 ^ 6 /\ ~ supported b 6.
Proof.
  exists (hist_build true None), [SetPaths 0x40; Multiply (hist_small 0x71 7)].
  destruct (perform_all (fun _ => wit_system) wit_iter 100 (hist_build true None) [SetPaths 0x40; Multiply (hist_small 0x71 7)] (ctx_init wit_mem)) as [[obs cx]| |] eqn:E;
    [|exfalso|exfalso].
  - exists obs, cx. split; [exact hist_processors|]. split.
    { pose proof (history_valid None) as F. apply Forall_cons; [cbn; lia|]. apply Forall_cons; [|apply Forall_nil].
      apply Forall_forall with (x := Multiply (hist_small 0x31 1241)) in F; [|do 11 right; left; reflexivity].
      destruct F as (_ & _ & _ & F). split; [cbn; lia|]. change (2 ^ 63) with 9223372036854775808. split; [intros i; cbn [q_now hist_small]; lia|]. split; [intros i; cbn [q_pack_now hist_small]; lia|].
      intros k _ _. exact (F 0 ltac:(lia) eq_refl). }
    split; [reflexivity|].
    assert (W : map p_path (products initial [SetPaths 0x40; Multiply (hist_small 0x71 7)] obs) = [64]).
    { assert (Q : ('(l, _) <- perform_all (fun _ => wit_system) wit_iter 100 (hist_build true None) [SetPaths 0x40; Multiply (hist_small 0x71 7)] (ctx_init wit_mem) ;;
        Ok (map p_path (products initial [SetPaths 0x40; Multiply (hist_small 0x71 7)] l))) = Ok [64]) by (vm_compute; reflexivity).
      rewrite E in Q. cbn [bind] in Q. injection Q as Q. exact Q. }
    destruct (products _ _ obs) as [|p l]; [discriminate|]. exists p. split; [left; reflexivity|]. split; [cbn in W; injection W as W _; exact W|].
    intros C. unfold supported in C. cbn in C. intuition discriminate.
  - revert E. vm_compute. discriminate.
  - revert E. vm_compute. discriminate.
Qed.

(** * More of the history *)

Lemma history_log : exists obs cx, perform_all (fun _ => wit_system) wit_iter 100 (hist_build true None) history (ctx_init wit_mem) = Ok (obs, cx) /\
  map (fun x => (fst x, rn_tuning (snd x), rn_asked (snd x))) (thread_log 0 (products initial history obs)) =
    [(TAuto, TA55ish, true); (TAuto, TA55ish, false); (TAuto, TA55ish, false); (TAuto, TA55ish, false); (TAuto, TX1, true);
     (TGeneric, TGeneric, false); (TGeneric, TGeneric, false); (TGeneric, TGeneric, false); (TAuto, TX1, false)].
Proof.
  set (want := [(TAuto, TA55ish, true); (TAuto, TA55ish, false); (TAuto, TA55ish, false); (TAuto, TA55ish, false); (TAuto, TX1, true);
     (TGeneric, TGeneric, false); (TGeneric, TGeneric, false); (TGeneric, TGeneric, false); (TAuto, TX1, false)]).
  assert (E : ('(l, _) <- perform_all (fun _ => wit_system) wit_iter 100 (hist_build true None) history (ctx_init wit_mem) ;;
    Ok (map (fun x => (fst x, rn_tuning (snd x), rn_asked (snd x))) (thread_log 0 (products initial history l)))) = Ok want) by (vm_compute; reflexivity).
  destruct (perform_all _ _ _ _ _ _) as [[obs cx]| |]; try discriminate. exists obs, cx. split; [reflexivity|].
  cbn [bind] in E. injection E as E. exact E.
Qed.

Lemma history_resolves : exists obs cx, perform_all (fun _ => wit_system) wit_iter 100 (hist_build true None) history (ctx_init wit_mem) = Ok (obs, cx) /\
  exists l cx', resolve_tunings (hist_build true None) (fun _ => 5 * 10 ^ 9) (fun _ => hist_uarch 0) [1%nat; 2%nat] cx = Ok (l, cx') /\
    map rn_addr l = [1; 2] /\ map rn_asked l = [true; true].
Proof.
  assert (E : ('(_, cx) <- perform_all (fun _ => wit_system) wit_iter 100 (hist_build true None) history (ctx_init wit_mem) ;;
    '(l, _) <- resolve_tunings (hist_build true None) (fun _ => 5 * 10 ^ 9) (fun _ => hist_uarch 0) [1%nat; 2%nat] cx ;;
    Ok (map rn_addr l, map rn_asked l)) = Ok ([1; 2], [true; true])) by (vm_compute; reflexivity).
  destruct (perform_all _ _ _ _ _ _) as [[obs cx]| |]; try discriminate. exists obs, cx. split; [reflexivity|]. cbn [bind] in E.
  destruct (resolve_tunings _ _ _ _ _) as [[l cx']| |]; try discriminate. exists l, cx'. split; [reflexivity|]. cbn [bind] in E. injection E as E1 E2. auto.
Qed.

Lemma first_asker : exists cp i l cx', cache_params_of true hist_machine cpu_init = Ok (cp, i) /\ i <> cpu_init /\
  threads_tuning (hist_build true None) (fun _ => 7) (fun _ => hist_uarch 0) 3 (ctx_init wit_mem) = Ok (l, cx') /\ cx_cpu cx' = i.
Proof.
  do 4 eexists. split; [vm_compute; reflexivity|]. split; [discriminate|]. split; [vm_compute; reflexivity|]. reflexivity.
Qed.
