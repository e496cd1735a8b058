(** C33, C34, C35: multiplications with cached operands. *)
From Verif Require Import Allocator SpecAlloc AllocFacts AllocProps PrepackedCache SpecCache CacheFacts CacheProps CacheBad.
From Verif Require Import Base SidePair SpecMatrix Mat Scalars MulParams TrMulMachine SpecMachine TrMulRun SpecMul ExampleMul
  CachedMul SpecCached CachedFacts CachedProps CachedBad.

(** C33: whatever the cache has been used for before, a multiplication gives what it
    gives without a cache; provided operands with equal keys are the same matrix, and
    no allocation fails. *)
Theorem C33_as_uncached : forall V sys iter max (calls : list (call V)) m, good_system sys -> good_iteration iter ->
  Forall cacheable_call calls -> keys_identify calls -> bytes_requested (all_lookups calls) < 2 ^ 62 ->
  exists evs s, run sys iter max (all_lookups calls) cs_init = Ok (evs, s) /\
    (~ some_call_failed (cs_trace s) ->
     forall outs x, run_calls sys iter max calls (x_init m) = Ok (outs, x) ->
       Forall2 as_uncached (firstn (length outs) calls) outs /\ (In None outs \/ length outs = length calls)).
Proof. exact cached_histories. Qed.
Print Assumptions C33_as_uncached.

(** The hypotheses of this and the next theorem are met by a history with three hits. *)
Example C33_example : good_system wit_system /\ good_iteration wit_iter /\
  (Forall cacheable_call wit_history /\ keys_identify wit_history /\ bytes_requested (all_lookups wit_history) < 2 ^ 62 /\
   Forall computable wit_history /\ Forall (room_for_both 100) wit_history) /\
  Forall2 (fun cl sched => fair (c_max_threads (cl_config cl)) sched) wit_history (repeat (fun _ => (0, false)) 3) /\
  observe (run_calls wit_system wit_iter 100 wit_history (x_init wit_mem)) =
    Ok ([Some [5; 11; 17; 11; 25; 39]; Some [16; 22; 28; 34; 32; 46; 60; 74]; Some [5; 11; 17; 11; 25; 39]],
        [SAlloc false 16 64; SAlloc false 16 128; SAlloc false 16 192; SAlloc false 16 256]).
Proof.
  split; [exact wit_good|]. split; [exact wit_iter_good|]. split; [exact wit_history_fine|].
  split; [|vm_compute; reflexivity].
  assert (F : fair 1 (fun _ => (0, false))).
  { split; [|exists 0%nat; reflexivity]. intros i n Hi. exists n. split; [constructor|]. cbn [fst]. lia. }
  do 3 (apply Forall2_cons; [exact F|]). apply Forall2_nil.
Qed.

(** It is false if only the memory at equal addresses must be the same: the key says
    neither which operand it is ... *)
Theorem C33_sides_refuted : exists sys iter max m (cl : call Z) out x, good_system sys /\ good_iteration iter /\ cacheable_call cl /\ same_memory [cl] /\ cl_lhs cl = cl_rhs cl /\
  cached_mul sys iter max cl (x_init m) = Ok (Some out, x) /\ ~ some_call_failed (cs_trace (x_cache x)) /\ ~ as_uncached cl (Some out).
Proof. exact cached_sides_wrong. Qed.
Print Assumptions C33_sides_refuted.

(** ... nor how it is stored ... *)
Theorem C33_order_refuted : exists sys iter max m (a b : call Z) oa ob x, good_system sys /\ good_iteration iter /\ cacheable_call a /\ cacheable_call b /\ same_memory [a; b] /\
  lhs (cl_addr a) = lhs (cl_addr b) /\ width a Lhs = width b Lhs /\ depth a = depth b /\ caches a Rhs = false /\ caches b Rhs = false /\
  ml_order (m_layout (cl_lhs a)) <> ml_order (m_layout (cl_lhs b)) /\
  run_calls sys iter max [a; b] (x_init m) = Ok ([Some oa; Some ob], x) /\ ~ some_call_failed (cs_trace (x_cache x)) /\ ~ as_uncached b (Some ob).
Proof. exact cached_order_wrong. Qed.
Print Assumptions C33_order_refuted.

Theorem C33_stride_refuted : exists sys iter max m (a b : call Z) oa ob x, good_system sys /\ good_iteration iter /\ cacheable_call a /\ cacheable_call b /\ same_memory [a; b] /\
  lhs (cl_addr a) = lhs (cl_addr b) /\ width a Lhs = width b Lhs /\ depth a = depth b /\ caches a Rhs = false /\ caches b Rhs = false /\
  ml_order (m_layout (cl_lhs a)) = ml_order (m_layout (cl_lhs b)) /\ ml_stride (m_layout (cl_lhs a)) <> ml_stride (m_layout (cl_lhs b)) /\
  run_calls sys iter max [a; b] (x_init m) = Ok ([Some oa; Some ob], x) /\ ~ some_call_failed (cs_trace (x_cache x)) /\ ~ as_uncached b (Some ob).
Proof. exact cached_stride_wrong. Qed.
Print Assumptions C33_stride_refuted.

(** ... nor its size before rounding. *)
Theorem C33_shape_refuted : exists sys iter max m (a b : call Z) oa ob x, good_system sys /\ good_iteration iter /\ cacheable_call a /\ cacheable_call b /\ same_memory [a; b] /\
  rhs (cl_addr a) = rhs (cl_addr b) /\ width a Rhs <> width b Rhs /\ depth a = depth b /\ caches a Lhs = false /\ caches b Lhs = false /\
  ml_order (m_layout (cl_rhs a)) = ml_order (m_layout (cl_rhs b)) /\
  run_calls sys iter max [a; b] (x_init m) = Ok ([Some oa; Some ob], x) /\ ~ some_call_failed (cs_trace (x_cache x)) /\ ~ as_uncached b (Some ob).
Proof. exact cached_shape_wrong. Qed.
Print Assumptions C33_shape_refuted.

(** C34: if there is room for both operands of each call that caches both, no call uses
    freed buffers, or is undefined in another way; and under fair schedules all return. *)
Theorem C34_defined : forall V sys iter max (calls : list (call V)) m, good_system sys -> good_iteration iter ->
  Forall cacheable_call calls -> keys_identify calls -> bytes_requested (all_lookups calls) < 2 ^ 62 ->
  Forall computable calls -> Forall (room_for_both max) calls ->
  exists evs s, run sys iter max (all_lookups calls) cs_init = Ok (evs, s) /\
    (~ some_call_failed (cs_trace s) ->
     (exists outs x, run_calls sys iter max calls (x_init m) = Ok (outs, x)) /\
     forall scheds, Forall2 (fun cl sched => fair (c_max_threads (cl_config cl)) sched) calls scheds ->
       exists ns ms x, run_calls sys iter max (scheduled calls scheds ns) (x_init m) = Ok (map Some ms, x) /\
         Forall2 as_uncached calls (map Some ms)).
Proof. exact cached_histories_complete. Qed.
Print Assumptions C34_defined.

(** A call that caches one operand needs no room. *)
Example C34_example : forall max, room_for_both max (wit_call A22 A22 1000 2000 AlwaysCache NeverCache).
Proof. intros max _ H. exfalso. revert H. vm_compute. discriminate. Qed.

(** It is false without room: buffers are used after they have been freed, although each
    operand fits in the cache. *)
Theorem C34_use_after_free_refuted : exists sys iter max m (cl : call Z) evs s, good_system sys /\ good_iteration iter /\ cacheable_call cl /\ computable cl /\ keys_identify [cl] /\
  (forall s, size_in_cache (snd (request cl s)) <= max) /\
  run sys iter max (lookups cl) cs_init = Ok (evs, s) /\ ~ some_call_failed (cs_trace s) /\
  cached_mul sys iter max cl (x_init m) = UB.
Proof. exact cached_mul_ejects. Qed.
Print Assumptions C34_use_after_free_refuted.

(** C35: the cache is used for exactly the lookups that the policies ask for. *)
Theorem C35_policy : forall sys iter max V (calls : list (call V)) x outs x', Forall cacheable_call calls -> run_calls sys iter max calls x = Ok (outs, x') ->
  exists evs, run sys iter max (all_lookups (firstn (length outs) calls)) (x_cache x) = Ok (evs, x_cache x').
Proof. exact history_policy. Qed.
Print Assumptions C35_policy.

(** The policies of a product of a 4 by 2 and a 2 by [m] matrix, packed in blocks of 4. *)
Example C35_example : map (fun m => map (fun p => caches (wit_call (wit_operand 4 2 RowMajor count) (wit_operand 2 m RowMajor count) 1000 2000 p NeverCache) Lhs)
    [NeverCache; CacheIfLargeSpeedup; CacheIfSignificantSpeedup; AlwaysCache]) [1; 4; 5; 16; 17] =
  [[false; true; true; true]; [false; true; true; true]; [false; false; true; true]; [false; false; true; true]; [false; false; false; true]].
Proof. vm_compute. reflexivity. Qed.

(** With policy never, a multiplication is one without a cache, and the context is unchanged. *)
Theorem C35_never : forall sys iter max V cl (x : context V), cl_policy cl = mk_sp NeverCache NeverCache ->
  cached_mul sys iter max cl x = (out <- uncached cl (cl_garbage cl) (cl_sched cl) ;; Ok (out, x)).
Proof. exact never_cached. Qed.
Print Assumptions C35_never.

Example C35_never_example : cacheable_call (wit_call A22 A22 1000 1000 NeverCache NeverCache) /\
  observe (run_calls wit_system wit_iter 100 [wit_call A22 A22 1000 1000 NeverCache NeverCache] (x_init wit_mem)) = Ok ([Some [7; 10; 15; 22]], []).
Proof. split; [apply wit_cacheable; unfold small; lia|vm_compute; reflexivity]. Qed.
