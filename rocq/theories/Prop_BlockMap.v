(** C05, C06, C07, C08, C09: division into blocks and number of threads. *)
From Verif Require Import Base SidePair BlockMap SpecBlockMap ThreadCount BlockMapProps.

(** The domain used below is inhabited by ordinary problems. *)
Example bm_domain_nonvacuous : forall t, 1 <= t <= 64 ->
  bm_domain 1000 504 300 8 8 4 4 t {| local_cache_size := 262144; last_level_cache_size := 8388608 |}.
Proof.
  intros t Ht. constructor; try (exists 3); unfold local_cache_size, int_max; try lia; try reflexivity.
  vm_compute; discriminate.
Qed.

(** C05: the blocks tile the destination. *)
Theorem C05_blocks_tile : forall dbg opts rows cols depth krows kcols ls rs threads cp,
  bm_domain rows cols depth krows kcols ls rs threads cp ->
  exists bm n R,
    make_block_map dbg opts rows cols depth krows kcols ls rs threads cp = Ok bm /\
    num_blocks bm = Ok n /\ 1 <= n /\
    (forall i, 0 <= i < n -> block_rect dbg bm i = Ok (R i)) /\
    tiles rows cols krows kcols n R.
Proof. exact blocks_tile. Qed.
Print Assumptions C05_blocks_tile.
Example C05_nonvacuous :
  (bm <- make_block_map true default_opts 1000 504 300 8 8 4 4 4
          {| local_cache_size := 262144; last_level_cache_size := 8388608 |} ;;
   n <- num_blocks bm ;; r <- block_rect true bm 5 ;; Ok (n, r))
  = Ok (16, {| row0 := 752; row1 := 1000; col0 := 0; col1 := 128 |}).
Proof. vm_compute. reflexivity. Qed.

(** C06: each decoder is a bijection from indices to the square grid. *)
Theorem C06_decoders_bijective : forall o k, 0 <= k <= 16 ->
  bijective_onto_grid (2 ^ (2 * k)) (2 ^ k) (2 ^ k) (decode o k).
Proof. exact decoders_bijective. Qed.
Print Assumptions C06_decoders_bijective.
Example C06_decoders_nonvacuous :
  decode THilbert 3 37 = mk_sp 7 4 /\ decode TFractalZ 3 37 = mk_sp 3 4 /\
  decode TFractalU 3 37 = mk_sp 7 4 /\ decode TLinear 3 37 = mk_sp 5 4.
Proof. vm_compute. auto. Qed.

(** C06: GetBlockByIndex is a bijection onto the whole (possibly rectangular) grid. *)
Theorem C06_block_index_bijective : forall bm, grid_shape bm ->
  exists n nl nr f, num_blocks bm = Ok n /\
    num_blocks_per_side Lhs bm = Ok nl /\ num_blocks_per_side Rhs bm = Ok nr /\ n = nl * nr /\
    (forall i, 0 <= i < n -> get_block_by_index bm i = Ok (f i)) /\
    bijective_onto_grid n nl nr f.
Proof. exact block_index_bijective. Qed.
Print Assumptions C06_block_index_bijective.
Example C06_nonvacuous : forall o,
  grid_shape {| bm_thread_count := 1; bm_order := o; bm_dims := mk_sp 64 256; bm_base := 3;
    bm_rect := mk_sp 0 2; bm_kernel := mk_sp 8 8; bm_small := mk_sp 8 8; bm_large := mk_sp 0 0 |}.
Proof. intros o. unfold grid_shape. cbn. lia. Qed.

(** C07: neighbours in the Hilbert order share an edge. *)
Theorem C07_hilbert_square : forall k i, 0 <= k <= 16 -> 0 <= i -> i + 1 < 2 ^ (2 * k) ->
  share_an_edge (decode_hilbert k i) (decode_hilbert k (i + 1)).
Proof. exact hilbert_square_adjacent. Qed.
Print Assumptions C07_hilbert_square.

Theorem C07_hilbert_blocks : forall bm i, grid_shape bm -> bm_order bm = THilbert ->
  0 <= i -> i + 1 < 2 ^ (2 * bm_base bm + lhs (bm_rect bm) + rhs (bm_rect bm)) ->
  i / 2 ^ (2 * bm_base bm) = (i + 1) / 2 ^ (2 * bm_base bm) ->
  exists p q, get_block_by_index bm i = Ok p /\ get_block_by_index bm (i + 1) = Ok q /\ share_an_edge p q.
Proof. exact hilbert_blocks_adjacent. Qed.
Print Assumptions C07_hilbert_blocks.
Example C07_nonvacuous :
  let bm := {| bm_thread_count := 1; bm_order := THilbert; bm_dims := mk_sp 64 256; bm_base := 3;
    bm_rect := mk_sp 0 2; bm_kernel := mk_sp 8 8; bm_small := mk_sp 8 8; bm_large := mk_sp 0 0 |} in
  get_block_by_index bm 100 = Ok (mk_sp 6 12) /\ get_block_by_index bm 101 = Ok (mk_sp 7 12).
Proof. vm_compute. auto. Qed.

(** C08: MakeBlockMap is defined on the stated domain. *)
Theorem C08_make_block_map_defined : forall dbg opts rows cols depth krows kcols ls rs threads cp,
  bm_domain rows cols depth krows kcols ls rs threads cp ->
  exists bm n, make_block_map dbg opts rows cols depth krows kcols ls rs threads cp = Ok bm /\
    num_blocks bm = Ok n /\ grid_shape bm /\
    bm_thread_count bm = Z.min threads n /\
    bm_dims bm = mk_sp rows cols /\ bm_kernel bm = mk_sp krows kcols /\
    (krows | lhs (bm_small bm)) /\ (kcols | rhs (bm_small bm)) /\
    0 < lhs (bm_small bm) /\ 0 < rhs (bm_small bm).
Proof. exact make_block_map_defined. Qed.
Print Assumptions C08_make_block_map_defined.

(** C08: outside the domain undefined behaviour is reachable: a product of two
    16384 x 16384 float matrices with 8x8 kernels overflows an int. *)
Theorem C08_overflow_reachable :
  make_block_map false default_opts 16384 16384 16384 8 8 4 4 1
    {| local_cache_size := 262144; last_level_cache_size := 8388608 |} = UB.
Proof. exact working_set_overflow. Qed.
Print Assumptions C08_overflow_reachable.

(** C08: so does a 65536 x 65536 outer product of bytes with 1x1 kernels. *)
Theorem C08_overflow_reachable_grid :
  make_block_map false default_opts 65536 65536 1 1 1 1 1 1
    {| local_cache_size := 262144; last_level_cache_size := 8388608 |} = UB.
Proof. exact grid_overflow. Qed.
Print Assumptions C08_overflow_reachable_grid.

(** C09: the tentative thread count. *)
Theorem C09_tentative_thread_count : forall dbg strategy maxt rows cols depth,
  1 <= maxt <= int_max -> 0 <= rows -> 0 <= cols -> 0 <= depth ->
  rows * cols <= 2 ^ 63 - 1 -> rows * cols * depth <= 2 ^ 63 - 1 ->
  exists t, get_tentative_thread_count dbg strategy maxt rows cols depth = Ok t /\ 1 <= t <= maxt /\
    (strategy = StrategyForceMax -> t = maxt) /\
    (strategy = StrategyDefault -> rows * cols * depth < 2 * 32768 -> t = 1) /\
    (strategy = StrategyDefault -> 32768 * maxt <= rows * cols * depth -> t = maxt).
Proof. exact tentative_bounds. Qed.
Print Assumptions C09_tentative_thread_count.
Example C09_tentative_nonvacuous :
  get_tentative_thread_count true StrategyDefault 8 100 100 20 = Ok 6 /\
  get_tentative_thread_count true StrategyDefault 8 100 100 6 = Ok 1 /\
  get_tentative_thread_count true StrategyForceMax 8 1 1 1 = Ok 8.
Proof. vm_compute. auto. Qed.

(** C09: the number of threads used by a Mul that goes through a block map.
    srows, scols: source sizes; rows, cols: sizes rounded up to the kernel. *)
Theorem C09_thread_count : forall dbg opts strategy maxt srows scols rows cols depth krows kcols ls rs cp,
  1 <= maxt <= int_max -> 0 <= srows -> 0 <= scols -> 0 <= depth ->
  srows * scols <= 2 ^ 63 - 1 -> srows * scols * depth <= 2 ^ 63 - 1 ->
  (forall t, 1 <= t <= maxt -> bm_domain rows cols depth krows kcols ls rs t cp) ->
  exists t bm n, get_tentative_thread_count dbg strategy maxt srows scols depth = Ok t /\
    make_block_map dbg opts rows cols depth krows kcols ls rs t cp = Ok bm /\
    num_blocks bm = Ok n /\
    1 <= bm_thread_count bm <= maxt /\ bm_thread_count bm <= n /\
    (strategy = StrategyForceMax -> bm_thread_count bm = Z.min maxt n) /\
    (strategy = StrategyDefault -> srows * scols * depth < 2 * 32768 -> bm_thread_count bm = 1).
Proof. exact thread_count_bounds. Qed.
Print Assumptions C09_thread_count.

(** C09: a non-positive limit, which the setter accepts, gives a non-positive count. *)
Theorem C09_nonpositive_limit : forall dbg strategy maxt rows cols depth t,
  maxt <= 0 -> get_tentative_thread_count dbg strategy maxt rows cols depth = Ok t -> t <= 0.
Proof. exact tentative_nonpositive. Qed.
Print Assumptions C09_nonpositive_limit.
Example C09_nonpositive_nonvacuous : get_tentative_thread_count true StrategyDefault (-3) 100 100 100 = Ok (-3).
Proof. reflexivity. Qed.
