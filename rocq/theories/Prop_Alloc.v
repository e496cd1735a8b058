(** C25, C26, C27, C28: the allocator. *)
From Verif Require Import Base Allocator SpecAlloc AllocProps.

(** A system that never fails, and one that fails after the first free. *)
Definition giving := example_system (fun _ => false).
Definition tired := example_system (fun past => existsb (fun e => match e with SFree _ => true | _ => false end) past).

(** C25: whatever the operations, the sizes and the answers of the system, the blocks
    handed out since the last FreeAll are aligned, as large as asked, disjoint, and in
    memory the system has given and not got back. Excepted: after FreeAll asked the
    system for memory in vain (see C28). *)
Theorem C25_blocks_usable : forall sys dbg avoid ops, good_system sys -> Forall valid_op ops ->
  growth_fails sys dbg avoid ops \/
  exists s bs, run sys dbg avoid ops a_init [] = Ok (s, bs) /\ usable (a_live s) bs.
Proof. exact blocks_usable. Qed.
Print Assumptions C25_blocks_usable.
Example C25_blocks_usable_nonvacuous :
  good_system giving /\
  (x <- run giving true true [OAlloc 100; OAllocAvoid 10 64; OFreeAll; OAlloc 1; OAlloc 0; OAllocAvoid 65 128; OAlloc 5000] a_init [] ;; Ok (a_live (fst x), snd x)) =
  Ok ([(64, 1216); (1280, 5056)], [(1280, 5000); (640, 65); (64, 1)]).
Proof. split; [apply example_system_good|vm_compute; reflexivity]. Qed.

(** C25: the destructor leaves no block of the system unfreed; each block is freed once
    each time it is given, after that. Freeing anything else would be undefined. *)
Theorem C25_blocks_freed_once : forall sys dbg avoid ops, good_system sys -> Forall valid_op ops ->
  growth_fails sys dbg avoid ops \/
  exists s bs s', run sys dbg avoid ops a_init [] = Ok (s, bs) /\ destroy sys s = Ok s' /\ a_live s' = [] /\ freed_once (a_trace s').
Proof. exact blocks_freed_once. Qed.
Print Assumptions C25_blocks_freed_once.
Example C25_blocks_freed_once_nonvacuous :
  (x <- run giving true true [OAlloc 100; OFreeAll; OAlloc 1; OAlloc 500] a_init [] ;; s <- destroy giving (fst x) ;; Ok (a_trace s)) =
  Ok [SAlloc false 128 64; SFree 64; SAlloc true 128 64; SAlloc false 512 192; SFree 64; SFree 192; SAlloc true 640 64; SFree 64].
Proof. vm_compute. reflexivity. Qed.

(** C26: after rounds of allocations each followed by FreeAll, a round needing no more bytes
    than one of them, in whatever order and pieces, is served without a system call, as is
    the FreeAll after it. *)
Theorem C26_steady_state : forall sys dbg avoid rounds r1 r2 s bs, good_system sys ->
  Forall (Forall valid_op) (r2 :: rounds) -> Forall (Forall is_alloc) (r2 :: rounds) ->
  run sys dbg avoid (history rounds) a_init [] = Ok (s, bs) -> ~ some_call_failed (a_trace s) ->
  In r1 rounds -> total avoid r2 <= total avoid r1 ->
  exists s' bs' s'', run sys dbg avoid r2 s [] = Ok (s', bs') /\ length bs' = length (filter requests_bytes r2) /\
    run sys dbg avoid [OFreeAll] s' bs' = Ok (s'', []) /\ a_trace s'' = a_trace s.
Proof. exact steady_state. Qed.
Print Assumptions C26_steady_state.
Example C26_steady_state_nonvacuous :
  total true [OAlloc 64; OAlloc 0; OAllocAvoid 100 7; OAlloc 30] <= total true [OAllocAvoid 1 5; OAlloc 200] /\
  (x <- run giving true true (history [[OAlloc 3]; [OAllocAvoid 1 5; OAlloc 200]; [OAlloc 9]]) a_init [] ;; Ok (a_trace (fst x))) =
  Ok [SAlloc false 64 64; SFree 64; SAlloc true 64 64; SAlloc false 1088 128; SAlloc false 256 1216; SFree 64; SFree 128; SFree 1216; SAlloc true 1408 64].
Proof. split; vm_compute; [discriminate|reflexivity]. Qed.

(** C27: in any state, a block asked to avoid aliasing with [a] is from 256 to 768 bytes away
    from it modulo 1024, aligned, and inside the block allocated for it. *)
Theorem C27_avoids_aliasing : forall sys dbg n a s p s', 0 < n <= 2 ^ 61 ->
  allocate_bytes_avoiding sys dbg true n a s = Ok (p, s') -> p <> 0 ->
  256 <= (p - a) mod 1024 <= 768 /\
  exists q, allocate_bytes sys dbg (n + 1024) s = Ok (q, s') /\ inside (p, n) (q, n + 1024) /\ ((64 | q) -> (64 | p)).
Proof. exact avoids_aliasing. Qed.
Print Assumptions C27_avoids_aliasing.
Example C27_avoids_aliasing_nonvacuous :
  (x <- allocate_bytes_avoiding giving true true 10 (2 ^ 40 + 63) a_init ;; Ok (fst x)) = Ok 576 /\
  (x <- allocate_bytes_avoiding giving true true 10 (2 ^ 40 + 448) a_init ;; Ok (fst x)) = Ok 64.
Proof. vm_compute. auto. Qed.

(** C28, the part that holds: as long as FreeAll has not failed to get memory, an allocation returns null
    exactly when the system had none for it, and otherwise a usable block. *)
Theorem C28_out_of_memory_partial : forall sys dbg avoid ops o n s bs, good_system sys -> Forall valid_op ops -> valid_op o -> requested o = Some n -> 0 < n ->
  run sys dbg avoid ops a_init [] = Ok (s, bs) -> ~ growth_fails sys dbg avoid ops ->
  exists p s', step sys dbg avoid o s = Ok (p, s') /\
    ((p = 0 /\ usable (a_live s') bs /\ exists m, n <= m /\ a_trace s' = a_trace s ++ [SAlloc false m 0]) \/
     (p <> 0 /\ usable (a_live s') ((p, n) :: bs))).
Proof. exact out_of_memory. Qed.
Print Assumptions C28_out_of_memory_partial.
Example C28_out_of_memory_nonvacuous :
  (x <- run (example_system (fun past => (2 <=? Z.of_nat (length past)))) true false [OAlloc 10; OAlloc 20; OAlloc 30] a_init [] ;; Ok (snd x)) =
  Ok [(128, 20); (64, 10)].
Proof. vm_compute. reflexivity. Qed.

(** C28 is false: when FreeAll gets no memory nobody looks, and a block is handed out
    although the system has given no memory at all. *)
Theorem C28_out_of_memory_refuted : exists sys dbg avoid ops s bs, good_system sys /\ Forall valid_op ops /\
  run sys dbg avoid ops a_init [] = Ok (s, bs) /\ a_live s = [] /\ bs <> [].
Proof. exact out_of_memory_wrong. Qed.
Print Assumptions C28_out_of_memory_refuted.
Example C28_out_of_memory_refuted_nonvacuous :
  (x <- run tired true true [OAlloc 64; OAlloc 100; OFreeAll; OAlloc 64; OAlloc 64] a_init [] ;; Ok (a_live (fst x), snd x)) = Ok ([], [(64, 64)]).
Proof. vm_compute. reflexivity. Qed.
