(** C29, C30, C31, C32, C34, C46: the prepacked cache by itself. *)
From Coq Require Import Permutation.
From Verif Require Import Base SidePair Mat Allocator SpecAlloc PrepackedCache SpecCache CacheFacts CacheProps CacheBad AllocProps.

(** For examples: matrices of [cols] packed columns of four rows, one byte each, with sums of four bytes each. *)
Definition ex_mat (cols zp : Z) : pemat :=
  {| pe_data := 0; pe_data_size := 1; pe_sums := 0; pe_sums_size := 4; pe_sums_float := false;
     pe_layout := {| pl_rows := 4; pl_cols := cols; pl_stride := 4; pl_order := ColMajor;
                     pl_kernel := {| kl_order := ColMajor; kl_rows := 4; kl_cols := 8 |} |}; pe_zp := zp |}.
Definition ex_system := example_system (fun _ => false).
(** Iterates backwards every other time. *)
Definition ex_iter (past : list sys_event) (m : list (key * entry)) : list (key * entry) :=
  if Nat.even (length past) then m else rev m.
(** 64, 128, 64 and 64 bytes. *)
Definition ex_reqs : list (Z * pemat) :=
  [(1000, ex_mat 8 1); (2000, ex_mat 16 0); (1000, ex_mat 8 1); (1000, ex_mat 8 2); (2000, ex_mat 16 0)].
Example ex_good : good_system ex_system /\ good_iteration ex_iter /\ Forall valid_request ex_reqs /\ Forall integer_request ex_reqs /\
  bytes_requested ex_reqs < 2 ^ 62.
Proof.
  split; [apply example_system_good|]. split.
  - intros past m. unfold ex_iter. destruct (Nat.even _); [apply Permutation_refl|apply Permutation_sym, Permutation_rev].
  - split; [|split; [repeat constructor|vm_compute; reflexivity]].
    repeat constructor; unfold valid_request, hashable, data_size, sums_size, int_max; cbn; lia.
Qed.

(** C29: the lookups of a history are defined, and it is a history of a map that ejects
    the least recently used: whatever the iteration order of the table, the answers of
    the system allocator and the capacity. *)
Theorem C29_lru : forall sys iter max reqs, good_system sys -> good_iteration iter -> Forall valid_request reqs -> bytes_requested reqs < 2 ^ 62 ->
  exists evs s, run sys iter max reqs cs_init = Ok (evs, s) /\ map ev_key evs = map request_key reqs /\ lru_history any_choice [] evs.
Proof. exact lru. Qed.
Print Assumptions C29_lru.
(** With room for 200 bytes the fourth lookup ejects the matrix at 2000, which is looked up in vain afterwards. *)
Example C29_lru_nonvacuous :
  (x <- run ex_system ex_iter 200 ex_reqs cs_init ;; Ok (map (fun e => (ev_action e, pe_data (ev_mat e), map (fun h => k_src (fst h)) (ev_held e))) (fst x))) =
  Ok [(InsertedNew, 64, [1000]); (InsertedNew, 192, [2000; 1000]); (GotExisting, 64, [2000; 1000]);
      (InsertedNew, 320, [1000; 1000]); (InsertedNew, 448, [2000; 1000])].
Proof. vm_compute. reflexivity. Qed.

(** C29: equality of keys is decided, and equal keys have equal hashes. *)
Theorem C29_equal_keys : forall a b, (key_eqb a b = true <-> a = b) /\ (a = b -> key_hash a = key_hash b).
Proof. exact equal_keys. Qed.
Print Assumptions C29_equal_keys.
Example C29_equal_keys_nonvacuous :
  key_eqb (request_key (1000, ex_mat 8 1)) (request_key (1000, ex_mat 8 2)) = false /\
  key_hash (request_key (1000, ex_mat 8 1)) = Ok 772.
Proof. vm_compute. split; reflexivity. Qed.

(** C30, for integer matrices: the number of bytes is that of the entries, and that of the
    blocks the system has given, unless the system has failed to give one. *)
Theorem C30_buffers_bytes_partial : forall sys iter max reqs, good_system sys -> good_iteration iter -> Forall valid_request reqs -> bytes_requested reqs < 2 ^ 62 ->
  Forall integer_request reqs ->
  exists evs s, run sys iter max reqs cs_init = Ok (evs, s) /\ cs_bytes s = bytes_held (held s) /\
    (~ some_call_failed (cs_trace s) -> cs_bytes s = bytes_of_blocks (cs_live s)).
Proof. exact buffers_bytes. Qed.
Print Assumptions C30_buffers_bytes_partial.
Example C30_buffers_bytes_nonvacuous :
  (x <- run ex_system ex_iter 200 ex_reqs cs_init ;; Ok (cs_bytes (snd x), cs_live (snd x))) = Ok (192, [(320, 32); (384, 32); (448, 64); (512, 64)]).
Proof. vm_compute. reflexivity. Qed.

(** C30, for all matrices: never more than what the entries have. *)
Theorem C30_never_overcounts : forall sys iter max reqs, good_system sys -> good_iteration iter -> Forall valid_request reqs -> bytes_requested reqs < 2 ^ 62 ->
  exists evs s, run sys iter max reqs cs_init = Ok (evs, s) /\ cs_bytes s <= bytes_held (held s).
Proof. exact never_overcounts. Qed.
Print Assumptions C30_never_overcounts.

(** C30 fails for floating-point matrices: their ejection subtracts the bytes of sums
    that were not allocated. *)
Theorem C30_buffers_bytes_refuted : exists sys iter max reqs evs s, good_system sys /\ good_iteration iter /\ Forall valid_request reqs /\ bytes_requested reqs < 2 ^ 62 /\
  run sys iter max reqs cs_init = Ok (evs, s) /\ ~ some_call_failed (cs_trace s) /\ cs_bytes s = 0 /\ bytes_of_blocks (cs_live s) = 32.
Proof. exact buffers_bytes_wrong. Qed.
Print Assumptions C30_buffers_bytes_refuted.

(** C31, for integer matrices: after each lookup the bytes are within the capacity or
    there is one entry only; no more is ejected than needed. *)
Theorem C31_capacity_partial : forall sys iter max reqs, good_system sys -> good_iteration iter -> Forall valid_request reqs -> bytes_requested reqs < 2 ^ 62 ->
  Forall integer_request reqs ->
  exists evs s, run sys iter max reqs cs_init = Ok (evs, s) /\ lru_history (as_needed max) [] evs /\
    Forall (fun e => bytes_held (ev_held e) <= max \/ length (ev_held e) = 1%nat) evs.
Proof. exact capacity. Qed.
Print Assumptions C31_capacity_partial.
Example C31_capacity_nonvacuous :
  (x <- run ex_system ex_iter 200 ex_reqs cs_init ;; Ok (map (fun e => bytes_held (ev_held e)) (fst x))) = Ok [64; 192; 192; 128; 192] /\
  (x <- run ex_system ex_iter 60 ex_reqs cs_init ;; Ok (map (fun e => bytes_held (ev_held e)) (fst x))) = Ok [64; 128; 64; 64; 128].
Proof. vm_compute. split; reflexivity. Qed.

(** C31 fails for floating-point matrices: there is no bound on what is held, with a
    capacity of 40 bytes and matrices that all fit. *)
Theorem C31_capacity_refuted : exists sys iter max, good_system sys /\ good_iteration iter /\ max = 40 /\
  forall n, n < 2 ^ 50 -> exists reqs evs s, Forall valid_request reqs /\ (forall r, In r reqs -> size_in_cache (snd r) <= max) /\ bytes_requested reqs < 2 ^ 62 /\
    run sys iter max reqs cs_init = Ok (evs, s) /\ n < bytes_held (held s).
Proof. exact capacity_wrong. Qed.
Print Assumptions C31_capacity_refuted.
Example C31_capacity_refuted_nonvacuous :
  (x <- run wit_system wit_iter 40 (wit_reqs 9) cs_init ;; Ok (map (fun e => bytes_held (ev_held e)) (fst x))) = Ok [32; 32; 64; 64; 96; 96; 128; 128; 160].
Proof. vm_compute. reflexivity. Qed.

(** C32: at any time the blocks of the system that are not freed are disjoint, and they are
    the buffers of the entries; the destructor frees all; each block is freed once each
    time it is given. Freeing anything else would be undefined. *)
Theorem C32_freed_once : forall sys iter max reqs, good_system sys -> good_iteration iter -> Forall valid_request reqs -> bytes_requested reqs < 2 ^ 62 ->
  exists evs s s', run sys iter max reqs cs_init = Ok (evs, s) /\
    ForallOrdPairs disjoint (cs_live s) /\ Permutation (cs_live s) (flat_map (fun x => buffers (snd x)) (held s)) /\
    cache_destroy iter s = Ok s' /\ cs_live s' = [] /\ freed_once (cs_trace s').
Proof. exact freed_exactly_once. Qed.
Print Assumptions C32_freed_once.
Example C32_freed_once_nonvacuous :
  (x <- run ex_system ex_iter 100 [(1000, ex_mat 8 1); (2000, ex_mat 8 0)] cs_init ;; s <- cache_destroy ex_iter (snd x) ;; Ok (cs_trace s)) =
  Ok [SAlloc false 32 64; SAlloc false 32 128; SAlloc false 32 192; SAlloc false 32 256; SFree 64; SFree 128; SFree 192; SFree 256].
Proof. vm_compute. reflexivity. Qed.

(** C34, of two lookups one after the other, as made by a multiplication with two cached
    operands: the buffers of the second are not freed, and those of the first are not if
    there is room for both. *)
Theorem C34_two_lookups_partial : forall sys iter max reqs r1 r2, good_system sys -> good_iteration iter ->
  Forall valid_request (reqs ++ [r1; r2]) -> bytes_requested (reqs ++ [r1; r2]) < 2 ^ 62 ->
  exists evs s p1 p2 k1 k2 a1 a2 h1 h2, run sys iter max (reqs ++ [r1; r2]) cs_init =
    Ok (evs ++ [{| ev_key := k1; ev_action := a1; ev_mat := p1; ev_held := h1 |}; {| ev_key := k2; ev_action := a2; ev_mat := p2; ev_held := h2 |}], s) /\
    alive (cs_live s) p2 /\
    (size_in_cache p1 + size_in_cache p2 <= max -> alive (cs_live s) p1).
Proof. exact two_lookups. Qed.
Print Assumptions C34_two_lookups_partial.
Example C34_two_lookups_nonvacuous :
  (x <- run ex_system ex_iter 200 (ex_reqs ++ [(3000, ex_mat 16 0); (4000, ex_mat 8 0)]) cs_init ;;
   Ok (map (fun e => buffers (ev_mat e)) (skipn 5 (fst x)), cs_live (snd x))) =
  Ok ([[(576, 64); (640, 64)]; [(704, 32); (768, 32)]], [(576, 64); (640, 64); (704, 32); (768, 32)]).
Proof. vm_compute. reflexivity. Qed.

(** C34 fails otherwise: the second lookup frees what the first returned. *)
Theorem C34_two_lookups_refuted : exists sys iter max r1 r2 evs s p1, good_system sys /\ good_iteration iter /\ Forall valid_request [r1; r2] /\
  Forall integer_request [r1; r2] /\ bytes_requested [r1; r2] < 2 ^ 62 /\
  size_in_cache (snd r1) <= max /\ size_in_cache (snd r2) <= max /\
  run sys iter max [r1; r2] cs_init = Ok (evs, s) /\ option_map ev_mat (nth_error evs 0) = Some p1 /\ buffers p1 <> [] /\
  forall b, In b (buffers p1) -> ~ In b (cs_live s).
Proof. exact lookups_wrong. Qed.
Print Assumptions C34_two_lookups_refuted.

(** C46: the hash of a key is defined if its sum fits in an [int], *)
Theorem C46_hash_defined_partial : forall k, hashable (k_layout k) -> exists h, key_hash k = Ok h.
Proof. exact hash_ok. Qed.
Print Assumptions C46_hash_defined_partial.
Example C46_hash_defined_nonvacuous : hashable (pe_layout (ex_mat 8 1)).
Proof. unfold hashable, int_max. cbn. lia. Qed.

(** and undefined for matrices that are not much larger than a hundred million entries. *)
Theorem C46_hash_defined_refuted : exists k, pl_cols (k_layout k) * pl_rows (k_layout k) <= 2 ^ 28 /\ 0 < pl_cols (k_layout k) /\ 0 < pl_rows (k_layout k) /\
  pl_stride (k_layout k) = pl_rows (k_layout k) /\ key_hash k = UB.
Proof. exact hash_overflow. Qed.
Print Assumptions C46_hash_defined_refuted.
