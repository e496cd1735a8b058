(** C10, C11, C12: the worker threads of a multiplication. *)
From Verif Require Import Base SidePair BlockMap SpecBlockMap TrMulMachine SpecMachine MachineProps.
From Coq Require Import Permutation.

(** A block map of 4 x 4 blocks for four threads, used in the examples below. *)
Definition example_map : block_map :=
  {| bm_thread_count := 4; bm_order := TFractalU; bm_dims := mk_sp 1000 504; bm_base := 2; bm_rect := mk_sp 0 0;
     bm_kernel := mk_sp 8 8; bm_small := mk_sp 248 120; bm_large := mk_sp 1 3 |}.
Example example_map_made : make_block_map true default_opts 1000 504 300 8 8 4 4 4
          {| local_cache_size := 262144; last_level_cache_size := 8388608 |} = Ok example_map.
Proof. vm_compute. reflexivity. Qed.
Example made_block_map_nonvacuous : made_block_map example_map.
Proof.
  exists true, default_opts, 1000, 504, 300, 8, 8, 4, 4, 4, {| local_cache_size := 262144; last_level_cache_size := 8388608 |}.
  split; [|exact example_map_made].
  constructor; try (exists 3); unfold local_cache_size, int_max; try lia; try reflexivity. vm_compute; discriminate.
Qed.

(** C10: in every interleaving no block is computed twice, and all are when the threads
    have returned, whatever the tasks do to memory. *)
Theorem C10_each_block_once : forall M run_pack run_kernel dbg ahead bm prepacked, made_block_map bm ->
  forall sched m (s : mst M), exec run_pack run_kernel dbg ahead bm prepacked sched (init bm m) = Ok s ->
  NoDup (map snd (s_ran s)) /\
  (all_done bm s = true -> exists n, num_blocks bm = Ok n /\ Permutation (map snd (s_ran s)) (zrange 0 n)).
Proof. exact each_block_once. Qed.
Print Assumptions C10_each_block_once.

(** C10 and C11: the sequence of tasks that the threads run, for every schedule. No
    columns are packed twice, no rectangle is computed twice, what is computed and
    packed are blocks of the block map, and at the end all blocks have been computed
    and packed. Each rectangle comes after the packing of its rows and columns. *)
Theorem C10_traces : forall dbg ahead bm prepacked, made_block_map bm ->
  forall sched s, exec log_pack log_kernel dbg ahead bm prepacked sched (init bm []) = Ok s ->
  packed_before_use prepacked (s_mem s) /\ NoDup (packed (s_mem s)) /\ NoDup (computed (s_mem s)) /\
  (forall r, In r (computed (s_mem s)) -> exists i n, num_blocks bm = Ok n /\ 0 <= i < n /\ block_rect dbg bm i = Ok r) /\
  (forall sd a b, In (sd, (a, b)) (packed (s_mem s)) -> get sd prepacked = false /\
     exists k n, num_blocks_per_side sd bm = Ok n /\ 0 <= k < n /\ get_block_matrix_coords dbg sd bm k = Ok (a, b)) /\
  (all_done bm s = true ->
     (forall i n, num_blocks bm = Ok n -> 0 <= i < n -> exists r, block_rect dbg bm i = Ok r /\ In r (computed (s_mem s))) /\
     (forall sd k n, get sd prepacked = false -> num_blocks_per_side sd bm = Ok n -> 0 <= k < n ->
        exists a b, get_block_matrix_coords dbg sd bm k = Ok (a, b) /\ In (sd, (a, b)) (packed (s_mem s)))).
Proof. exact traces. Qed.
Print Assumptions C10_traces.
(** Four threads taking turns compute the 16 blocks and pack the 4 + 4. *)
Example C10_traces_nonvacuous :
  (s <- exec log_pack log_kernel true true example_map (mk_sp false false)
          (concat (repeat [(3, true); (1, false); (0, false); (2, true); (3, false); (2, false)] 60)) (init example_map []) ;;
   Ok (all_done example_map s, length (packed (s_mem s)), length (computed (s_mem s)), map fst (s_ran s))) =
  Ok (true, 8%nat, 16%nat, [1; 0; 1; 2; 3; 0; 2; 3; 1; 0; 1; 3; 2; 0; 2; 3]).
Proof. vm_compute. reflexivity. Qed.

(** C11: no schedule leads to a data race, to a read of packed data that is not complete
    and published to the reader, or to a failed assertion: all these are outcomes other
    than Ok of the machine. *)
Theorem C11_no_race : forall M run_pack run_kernel dbg ahead bm prepacked, made_block_map bm ->
  @tasks_total M run_pack run_kernel ->
  forall sched m, exists s, exec run_pack run_kernel dbg ahead bm prepacked sched (init bm m) = Ok s.
Proof. exact never_undefined. Qed.
Print Assumptions C11_no_race.
Example C11_no_race_nonvacuous : tasks_total log_pack log_kernel.
Proof. split; intros; eexists; reflexivity. Qed.
(** The detector is not vacuous: a kernel on data packed by another thread whose release
    has not been acquired is undefined behaviour, and so is packing twice concurrently. *)
Example C11_detector :
  let w := {| w_id := 0; w_next := 1; w_block := mk_sp 0 0; w_start := mk_sp 0 0; w_end := mk_sp 8 8;
              w_ahead := mk_sp 1 1; w_ahead_side := Lhs |} in
  let tg s := {| tg_side := s; tg_block := 0; tg_start := 0; tg_end := 8 |} in
  (s <- do_pack log_pack example_map (init example_map []) 0 (tg Lhs) ;;
   s <- do_pack log_pack example_map s 0 (tg Rhs) ;;
   do_kernel log_kernel (mk_sp false false) s 1 w) = UB /\
  (s <- do_pack log_pack example_map (init example_map []) 0 (tg Lhs) ;;
   do_pack log_pack example_map s 1 (tg Lhs)) = UB /\
  (s <- do_pack log_pack example_map (init example_map []) 0 (tg Lhs) ;;
   s <- do_pack log_pack example_map s 0 (tg Rhs) ;;
   let s := acquire_finished (release_finished s 0 (tg Rhs)) 1 (tg Rhs) in
   s <- do_kernel log_kernel (mk_sp false false) s 1 w ;; Ok (computed (s_mem s))) =
   Ok [{| row0 := 0; row1 := 8; col0 := 0; col1 := 8 |}].
Proof. vm_compute. auto. Qed.

Theorem C11_each_pack_once : forall M run_pack run_kernel dbg ahead bm prepacked, made_block_map bm ->
  forall sched m (s : mst M), exec run_pack run_kernel dbg ahead bm prepacked sched (init bm m) = Ok s ->
  NoDup (map snd (s_packs s)).
Proof. exact each_pack_once. Qed.
Print Assumptions C11_each_pack_once.

(** C12: a waiting thread waits for one that is packing, which does not wait. *)
Theorem C12_waits_for_packer : forall M run_pack run_kernel dbg ahead bm prepacked, made_block_map bm ->
  forall sched m (s : mst M) i, exec run_pack run_kernel dbg ahead bm prepacked sched (init bm m) = Ok s ->
  1 < bm_thread_count bm -> waiting s i ->
  exists j, 0 <= j < bm_thread_count bm /\ packing s j /\ ~ waiting s j.
Proof. exact waiting_for_packer. Qed.
Print Assumptions C12_waits_for_packer.
(** After thread 0 has claimed a block of the right-hand side, thread 1 waits for it. *)
Example C12_waits_nonvacuous : exists s,
  exec log_pack log_kernel true true example_map (mk_sp true false)
    [(0, false); (0, false); (0, false); (1, false); (1, false)] (init example_map []) = Ok s /\ waiting s 1.
Proof. eexists. split; [vm_compute; reflexivity|]. eexists _, _, _. split; reflexivity. Qed.

(** C12: a bound on the steps that do useful work, for every schedule. *)
Theorem C12_work_bound : forall M run_pack run_kernel dbg ahead bm prepacked, made_block_map bm ->
  @tasks_total M run_pack run_kernel -> forall sched m n nl nr, num_blocks bm = Ok n ->
  num_blocks_per_side Lhs bm = Ok nl -> num_blocks_per_side Rhs bm = Ok nr ->
  working_steps run_pack run_kernel dbg ahead bm prepacked sched (init bm m) <= 2 * n + 2 * (nl + nr) + bm_thread_count bm.
Proof. exact working_bound. Qed.
Print Assumptions C12_work_bound.
Example C12_work_bound_nonvacuous :
  num_blocks example_map = Ok 16 /\ num_blocks_per_side Lhs example_map = Ok 4 /\ num_blocks_per_side Rhs example_map = Ok 4 /\
  working_steps log_pack log_kernel true true example_map (mk_sp false false)
    (concat (repeat [(3, true); (1, false); (0, false); (2, true); (3, false); (2, false)] 60)) (init example_map []) = 52.
Proof. vm_compute. auto. Qed.

(** C12: every fair schedule terminates. *)
Theorem C12_terminates : forall M run_pack run_kernel dbg ahead bm prepacked, made_block_map bm ->
  @tasks_total M run_pack run_kernel -> forall sched m, fair (bm_thread_count bm) sched ->
  exists k s, exec run_pack run_kernel dbg ahead bm prepacked (prefix sched k) (init bm m) = Ok s /\ all_done bm s = true.
Proof. exact fair_schedules_finish. Qed.
Print Assumptions C12_terminates.
Example C12_fair_nonvacuous : forall n, 1 <= n -> fair n (fun k => (Z.of_nat k mod n, false)).
Proof.
  intros n Hn. split.
  - intros i k Hi. exists (Z.to_nat (i + Z.of_nat k * n)). cbn [fst]. split; [nia|].
    rewrite Z2Nat.id by nia. rewrite Z.mod_add by lia. apply Z.mod_small. lia.
  - exists O. reflexivity.
Qed.
