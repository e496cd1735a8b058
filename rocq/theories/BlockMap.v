(** Model of ruy/block_map.h and ruy/block_map.cc. [dbg] selects the build with
    RUY_DCHECK. All `int`s are 32-bit; each operation that can overflow for some
    input is checked. *)
From Verif Require Import Base SidePair SizeUtil.

(** block_map.h:24-33. *)
Inductive traversal := TLinear | TFractalZ | TFractalU | THilbert.

(** block_map.h:82-104. *)
Record block_map := {
  bm_thread_count : Z;
  bm_order : traversal;
  bm_dims : sp Z;
  bm_base : Z;                 (* num_blocks_base_log2 *)
  bm_rect : sp Z;              (* rectangularness_log2 *)
  bm_kernel : sp Z;            (* kernel_dims *)
  bm_small : sp Z;             (* small_block_dims *)
  bm_large : sp Z              (* large_blocks *)
}.

(** The part of CpuCacheParams (cpu_cache_params.h:72-79) used here. *)
Record cache_params := { local_cache_size : Z; last_level_cache_size : Z }.

(** RUY_OPT(FRACTAL_Z), RUY_OPT(FRACTAL_U), RUY_OPT(FRACTAL_HILBERT): compile-time
    options of opt_set.h:34-49, all on by default. *)
Record fractal_opts := { opt_z : bool; opt_u : bool; opt_h : bool }.
Definition default_opts := {| opt_z := true; opt_u := true; opt_h := true |}.

(** Unsigned 32-bit shift left by a constant smaller than 32. *)
Definition shl_u32 (x s : Z) : Z := wrap_u 32 (Z.shiftl x s).

(** block_map.cc:38-42. *)
Definition decode_linear (size_log2 idx : Z) : sp Z :=
  mk_sp (Z.land idx (2 ^ size_log2 - 1)) (Z.shiftr idx size_log2).

(** block_map.cc:44-57. *)
Definition z_n2 (n1 : Z) : Z :=
  Z.lor (Z.lor (Z.land n1 0x99999999) (Z.shiftr (Z.land n1 0x44444444) 1))
        (shl_u32 (Z.land n1 0x22222222) 1).
Definition z_n4 (n2 : Z) : Z :=
  Z.lor (Z.lor (Z.land n2 0xc3c3c3c3) (Z.shiftr (Z.land n2 0x30303030) 2))
        (shl_u32 (Z.land n2 0x0c0c0c0c) 2).
Definition z_n8 (n4 : Z) : Z :=
  Z.lor (Z.lor (Z.land n4 0xf00ff00f) (Z.shiftr (Z.land n4 0x0f000f00) 4))
        (shl_u32 (Z.land n4 0x00f000f0) 4).
Definition z_n16 (n8 : Z) : Z :=
  Z.lor (Z.lor (Z.land n8 0xff0000ff) (Z.shiftr (Z.land n8 0x00ff0000) 8))
        (shl_u32 (Z.land n8 0x0000ff00) 8).
Definition decode_z (idx : Z) : sp Z :=
  let n16 := z_n16 (z_n8 (z_n4 (z_n2 idx))) in
  mk_sp (Z.land n16 0xffff) (Z.shiftr n16 16).

(** block_map.cc:59-64. *)
Definition decode_u (idx : Z) : sp Z :=
  let p := decode_z idx in mk_sp (Z.lxor (lhs p) (rhs p)) (rhs p).

(** block_map.cc:78-85: one iteration of the loop, on the state (t, x, y). *)
Definition hilbert_iter (sb : Z) (st : Z * Z * Z) : Z * Z * Z :=
  let '(t, x, y) := st in
  let s := 2 ^ sb in
  let rx := negb (Z.land t 2 =? 0) in
  let ry := xorb (negb (Z.land t 1 =? 0)) rx in
  let tmp := if rx then wrap_u 32 (s - 1 - x) else x in
  let x1 := if ry then x else if rx then wrap_u 32 (s - 1 - y) else y in
  let y1 := if ry then wrap_u 32 (y + s) else tmp in
  let x2 := if rx then wrap_u 32 (x1 + s) else x1 in
  (Z.shiftr t 2, x2, y1).

(** block_map.cc:70-89. *)
Definition decode_hilbert (size_log2 idx : Z) : sp Z :=
  let '(_, x, y) := forz (Z.to_nat size_log2) 0 hilbert_iter (idx, 0, 0) in
  mk_sp y x.

(** block_map.cc:105-119. *)
Definition decode (o : traversal) (size_log2 idx : Z) : sp Z :=
  match o with
  | TFractalZ => decode_z idx
  | TFractalU => decode_u idx
  | THilbert => decode_hilbert size_log2 idx
  | TLinear => decode_linear size_log2 idx
  end.

(** [1u << s]. *)
Definition one_shl_u32 (s : Z) : res Z := if (0 <=? s) && (s <? 32) then Ok (2 ^ s) else UB.

(** block_map.cc:123-128, for one side. *)
Definition block_on_side (s : side) (bm : block_map) (rect_index : Z) (local_pos : sp Z) : res Z :=
  m <- one_shl_u32 (get s (bm_rect bm)) ;;
  let rectangular_offset := shl_u32 (Z.land rect_index (m - 1)) (bm_base bm) in
  i32 (get s local_pos + wrap_s 32 rectangular_offset).

(** block_map.cc:93-129. *)
Definition get_block_by_index (bm : block_map) (index : Z) : res (sp Z) :=
  let index_u32 := wrap_u 32 index in
  num_blocks_per_local_curve <- one_shl_u32 (2 * bm_base bm) ;;
  let square_index := Z.land index_u32 (num_blocks_per_local_curve - 1) in
  let local_pos := decode (bm_order bm) (bm_base bm) square_index in
  let rectangular_index := Z.shiftr index_u32 (2 * bm_base bm) in
  l <- block_on_side Lhs bm rectangular_index local_pos ;;
  r <- block_on_side Rhs bm rectangular_index local_pos ;;
  Ok (mk_sp l r).

(** block_map.cc:133-155. *)
Definition get_traversal_order (opts : fractal_opts) (rows cols depth lhs_size rhs_size : Z)
    (cp : cache_params) : res traversal :=
  let any_fractal := opt_z opts || opt_u opts || opt_h opts in
  a <- i32 (lhs_size * rows) ;;
  b <- i32 (rhs_size * cols) ;;
  s <- i32 (a + b) ;;
  ws <- i32 (s * depth) ;;
  Ok (if any_fractal && (local_cache_size cp <? ws) then
        if opt_h opts && (last_level_cache_size cp <? ws) then THilbert
        else if opt_u opts then TFractalU
        else TFractalZ
      else TLinear).

(** block_map.cc:157-166. Differences of logarithms are between -32 and 32. *)
Definition floor_log2_quotient (dbg : bool) (num denom : Z) : res Z :=
  if num <=? denom then Ok 0 else
  a <- floor_log2 dbg 32 num ;;
  b <- ceil_log2 dbg 32 denom ;;
  let q := a - b in
  d <- shl32 denom (q + 1) ;;
  Ok (if d <=? num then q + 1 else q).

(** block_map.cc:185-196 (and 197-208 with the roles exchanged): the
    rectangularness of the larger dimension. *)
Definition larger_side_rectangularness (dbg : bool) (big small kernel_big kernel_small : Z) : res Z :=
  cs <- ceil_log2 dbg 32 small ;;
  ks <- pot_log2 dbg 32 kernel_small ;;
  let min_runs := Z.max 0 (3 - (cs - ks)) in
  q <- floor_log2_quotient dbg big small ;;
  fb <- floor_log2 dbg 32 big ;;
  kb <- pot_log2 dbg 32 kernel_big ;;
  let r := Z.min q (Z.max 0 (fb - kb - min_runs)) in
  sh <- shr32 big r ;;
  dcheck dbg (small <=? sh) ;;;
  Ok r.

(** block_map.cc:172-211. *)
Definition get_rectangularness (dbg : bool) (rows cols kernel_rows kernel_cols : Z) : res (Z * Z) :=
  'rc <- (if cols <? rows then
            r <- larger_side_rectangularness dbg rows cols kernel_rows kernel_cols ;; Ok (r, 0)
          else if rows <? cols then
            c <- larger_side_rectangularness dbg cols rows kernel_cols kernel_rows ;; Ok (0, c)
          else Ok (0, 0)) ;;
  dcheck dbg ((fst rc =? 0) || (snd rc =? 0)) ;;;
  Ok rc.

(** block_map.cc:217-245. *)
Definition get_multithreading_score (dbg : bool) (bs rows cols threads : Z) : res Z :=
  nr <- shr32 rows bs ;;
  nc <- shr32 cols bs ;;
  p <- i32 (nr * nc) ;;
  cand <- floor_log2 dbg 32 (Z.max 1 p) ;;
  if threads =? 1 then Ok 0 else
  ct <- ceil_log2 dbg 32 threads ;;
  let b := cand - ct in
  Ok (if b <? 0 then -64 else if b =? 0 then -16 else if b =? 1 then -8
      else if b =? 2 then 0 else if b =? 3 then 8 else 16).

(** block_map.cc:248-283. *)
Definition get_cache_locality_score (dbg : bool) (bs rows cols depth kr_log2 kc_log2 lhs_size rhs_size : Z)
    (cp : cache_params) : res Z :=
  kr <- shl32 1 kr_log2 ;;
  kc <- shl32 1 kc_log2 ;;
  if (rows <=? kr) || (cols <=? kc) then Ok 0 else
  one_bs <- shl32 1 bs ;;
  let block_rows := Z.min one_bs rows in
  let block_cols := Z.min one_bs cols in
  a <- i32 (lhs_size * block_rows) ;;
  b <- i32 (rhs_size * block_cols) ;;
  s <- i32 (a + b) ;;
  total <- i32 (s * depth) ;;
  tl <- ceil_log2 dbg 32 total ;;
  fl <- floor_log2 dbg 32 (local_cache_size cp) ;;
  let n := tl - fl in
  Ok (if n <? -1 then 64 else if n =? -1 then 56 else if n =? 0 then 48
      else if n =? 1 then 32 else if n =? 2 then 16 else if n =? 3 then 0 else -64).

(** block_map.cc:289-317. *)
Definition get_kernel_amortization_score (dbg : bool) (bs rows cols kr_log2 kc_log2 : Z) : res Z :=
  one_bs <- shl32 1 bs ;;
  let block_rows := Z.min one_bs rows in
  let block_cols := Z.min one_bs cols in
  p <- i32 (block_rows * block_cols) ;;
  f <- floor_log2 dbg 32 p ;;
  let k := f - kr_log2 - kc_log2 in
  dcheck dbg (0 <=? k) ;;;
  Ok (if k =? 0 then 0 else if k =? 1 then 8 else if k =? 2 then 16 else if k =? 3 then 24
      else if k =? 4 then 32 else if k =? 5 then 40 else if k =? 6 then 48
      else if k =? 7 then 56 else 64).

(** block_map.cc:321-337. *)
Definition is_obviously_linear (opts : fractal_opts) (rows cols depth lhs_size rhs_size : Z)
    (cp : cache_params) : res bool :=
  if (rows =? 1) || (cols =? 1) then Ok true else
  o <- get_traversal_order opts rows cols depth lhs_size rhs_size cp ;;
  Ok (match o with TLinear => true | _ => false end).

(** block_map.cc:399-415: the loop over the candidate values of block_size_log2,
    [n] of them starting at [bs], carrying (best_score, best_score_block_size_log2). *)
Fixpoint best_block_size (dbg : bool) (rows cols depth kr_log2 kc_log2 lhs_size rhs_size threads : Z)
    (cp : cache_params) (n : nat) (bs best_score best : Z) : res Z :=
  match n with
  | O => Ok best
  | S m =>
    ms <- get_multithreading_score dbg bs rows cols threads ;;
    cs <- get_cache_locality_score dbg bs rows cols depth kr_log2 kc_log2 lhs_size rhs_size cp ;;
    ks <- get_kernel_amortization_score dbg bs rows cols kr_log2 kc_log2 ;;
    let score := ms + cs + ks in
    if best_score <=? score
    then best_block_size dbg rows cols depth kr_log2 kc_log2 lhs_size rhs_size threads cp m (bs + 1) score bs
    else best_block_size dbg rows cols depth kr_log2 kc_log2 lhs_size rhs_size threads cp m (bs + 1) best_score best
  end.

(** block_map.h:142-145. *)
Definition num_blocks_per_side (s : side) (bm : block_map) : res Z :=
  shl32 1 (bm_base bm + get s (bm_rect bm)).

(** block_map.h:154-158. *)
Definition num_blocks (bm : block_map) : res Z :=
  shl32 1 (2 * bm_base bm + lhs (bm_rect bm) + rhs (bm_rect bm)).

(** block_map.cc:437-448 for one side: (small_block_dim, large_blocks). *)
Definition split_dim (dbg : bool) (dim nlog2 kernel : Z) : res (Z * Z) :=
  d <- shr32 dim nlog2 ;;
  small <- round_down_pot dbg d kernel ;;
  ss <- shl32 small nlog2 ;;
  rem <- i32 (dim - ss) ;;
  up <- round_up_pot dbg 32 rem kernel ;;
  kl <- pot_log2 dbg 32 kernel ;;
  large <- shr32 up kl ;;
  Ok (small, large).

(** block_map.cc:339-471. *)
Definition make_block_map (dbg : bool) (opts : fractal_opts)
    (rows cols depth kernel_rows kernel_cols lhs_size rhs_size threads : Z)
    (cp : cache_params) : res block_map :=
  dcheck dbg (kernel_rows <=? rows) ;;;
  dcheck dbg (kernel_cols <=? cols) ;;;
  dcheck dbg (Z.rem rows kernel_rows =? 0) ;;;
  dcheck dbg (Z.rem cols kernel_cols =? 0) ;;;
  'rc <- get_rectangularness dbg rows cols kernel_rows kernel_cols ;;
  let '(rows_rect, cols_rect) := rc in
  kr <- pot_log2 dbg 32 kernel_rows ;;
  kc <- pot_log2 dbg 32 kernel_cols ;;
  let ksl := Z.max kc kr in
  let size := Z.min rows cols in
  fs <- floor_log2 dbg 32 size ;;
  let size_log2 := Z.max ksl fs in
  dcheck dbg (ksl <=? size_log2) ;;;
  let max_bs := Z.min size_log2 (ksl + 6) in
  best <- best_block_size dbg rows cols depth kr kc lhs_size rhs_size threads cp
            (Z.to_nat (max_bs - ksl + 1)) ksl int_min (-1) ;;
  let base := size_log2 - best in
  dcheck dbg (0 <=? base) ;;;
  'srow <- split_dim dbg rows (base + rows_rect) kernel_rows ;;
  'scol <- split_dim dbg cols (base + cols_rect) kernel_cols ;;
  rr <- shr32 rows rows_rect ;;
  cc <- shr32 cols cols_rect ;;
  order <- get_traversal_order opts rr cc depth lhs_size rhs_size cp ;;
  let bm tc := {| bm_thread_count := tc; bm_order := order; bm_dims := mk_sp rows cols;
                  bm_base := base; bm_rect := mk_sp rows_rect cols_rect;
                  bm_kernel := mk_sp kernel_rows kernel_cols;
                  bm_small := mk_sp (fst srow) (fst scol);
                  bm_large := mk_sp (snd srow) (snd scol) |} in
  n <- num_blocks (bm 0) ;;
  Ok (bm (Z.min threads n)).

(** block_map.cc:473-488. *)
Definition get_block_matrix_coords (dbg : bool) (s : side) (bm : block_map) (block : Z) : res (Z * Z) :=
  p <- i32 (block * get s (bm_small bm)) ;;
  q <- i32 (Z.min block (get s (bm_large bm)) * get s (bm_kernel bm)) ;;
  start <- i32 (p + q) ;;
  e0 <- i32 (start + get s (bm_small bm)) ;;
  e <- i32 (e0 + (if block <? get s (bm_large bm) then get s (bm_kernel bm) else 0)) ;;
  dcheck dbg (Z.rem start (get s (bm_kernel bm)) =? 0) ;;;
  dcheck dbg (Z.rem e (get s (bm_kernel bm)) =? 0) ;;;
  dcheck dbg (e <=? get s (bm_dims bm)) ;;;
  dcheck dbg (start <? e) ;;;
  dcheck dbg (0 <=? start) ;;;
  Ok (start, e).

(** block_map.cc:490-496: both sides; the result is (start, end). *)
Definition get_block_coords (dbg : bool) (bm : block_map) (block : sp Z) : res (sp Z * sp Z) :=
  'l <- get_block_matrix_coords dbg Lhs bm (lhs block) ;;
  'r <- get_block_matrix_coords dbg Rhs bm (rhs block) ;;
  Ok (mk_sp (fst l) (fst r), mk_sp (snd l) (snd r)).
