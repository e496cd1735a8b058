(** Specification vocabulary for the division of a matrix into blocks. *)
From Verif Require Import Base SidePair BlockMap.

(** A rectangle of destination entries: rows in [row0, row1), columns in [col0, col1). *)
Record rect := { row0 : Z; row1 : Z; col0 : Z; col1 : Z }.

Definition in_rect (r c : Z) (b : rect) : Prop := row0 b <= r < row1 b /\ col0 b <= c < col1 b.

(** [n] rectangles [R 0 ... R (n-1)] tile the rows x cols matrix: each is
    non-empty, inside the matrix and starts and ends at multiples of the kernel size;
    each entry belongs to exactly one. *)
Record tiles (rows cols kernel_rows kernel_cols n : Z) (R : Z -> rect) : Prop := {
  tile_nonempty : forall i, 0 <= i < n -> row0 (R i) < row1 (R i) /\ col0 (R i) < col1 (R i);
  tile_inside : forall i, 0 <= i < n ->
    0 <= row0 (R i) /\ row1 (R i) <= rows /\ 0 <= col0 (R i) /\ col1 (R i) <= cols;
  tile_aligned : forall i, 0 <= i < n ->
    (kernel_rows | row0 (R i)) /\ (kernel_rows | row1 (R i)) /\
    (kernel_cols | col0 (R i)) /\ (kernel_cols | col1 (R i));
  tile_exactly_one : forall r c, 0 <= r < rows -> 0 <= c < cols ->
    exists i, (0 <= i < n /\ in_rect r c (R i)) /\
      forall j, 0 <= j < n -> in_rect r c (R j) -> j = i
}.

(** The rectangle of the block of index [i], as computed by the code: the
    composition made in TrMulTask::Run (trmul.cc:99-104). *)
Definition block_rect (dbg : bool) (bm : block_map) (i : Z) : res rect :=
  b <- get_block_by_index bm i ;;
  'se <- get_block_coords dbg bm b ;;
  Ok {| row0 := lhs (fst se); row1 := lhs (snd se); col0 := rhs (fst se); col1 := rhs (snd se) |}.

(** [f] is a bijection from [0, n) onto the grid [0, nl) x [0, nr). *)
Definition bijective_onto_grid (n nl nr : Z) (f : Z -> sp Z) : Prop :=
  (forall i, 0 <= i < n -> 0 <= lhs (f i) < nl /\ 0 <= rhs (f i) < nr) /\
  (forall i j, 0 <= i < n -> 0 <= j < n -> f i = f j -> i = j) /\
  (forall l r, 0 <= l < nl -> 0 <= r < nr -> exists i, 0 <= i < n /\ f i = mk_sp l r).

(** Two blocks share an edge. *)
Definition share_an_edge (p q : sp Z) : Prop :=
  (lhs p = lhs q /\ Z.abs (rhs p - rhs q) = 1) \/ (rhs p = rhs q /\ Z.abs (lhs p - lhs q) = 1).

(** The shape of block grid that MakeBlockMap produces: 2^base x 2^base squares,
    repeated 2^rect times along at most one side, at most 2^30 blocks in total. *)
Definition grid_shape (bm : block_map) : Prop :=
  0 <= bm_base bm /\ 0 <= lhs (bm_rect bm) /\ 0 <= rhs (bm_rect bm) /\
  (lhs (bm_rect bm) = 0 \/ rhs (bm_rect bm) = 0) /\
  2 * bm_base bm + lhs (bm_rect bm) + rhs (bm_rect bm) <= 30.

(** The inputs for which MakeBlockMap is free of overflow and assertion failures. *)
Record bm_domain (rows cols depth kernel_rows kernel_cols lhs_size rhs_size threads : Z)
    (cp : cache_params) : Prop := {
  dom_krows : exists k, 0 <= k <= 9 /\ kernel_rows = 2 ^ k;
  dom_kcols : exists k, 0 <= k <= 9 /\ kernel_cols = 2 ^ k;
  dom_rows : 0 < rows < 2 ^ 30;
  dom_cols : 0 < cols < 2 ^ 30;
  dom_rows_al : rows mod kernel_rows = 0;
  dom_cols_al : cols mod kernel_cols = 0;
  dom_depth : 1 <= depth;
  dom_lhs_size : 1 <= lhs_size;
  dom_rhs_size : 1 <= rhs_size;
  dom_bytes : (lhs_size * rows + rhs_size * cols) * depth <= int_max;
  dom_grid : (rows / Z.max kernel_rows kernel_cols) * (cols / Z.max kernel_rows kernel_cols) <= int_max;
  dom_cache : 1 <= local_cache_size cp <= int_max;
  dom_threads : 1 <= threads <= int_max
}.
