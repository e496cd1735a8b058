(** Model of the multi-threaded part of ruy/trmul.cc: TrMulTask (lines 57-247) and the
    shared state that TrMul (lines 361-421) sets up for it.

    Any number of threads take small steps in any order.  Each step makes at most one
    access to shared memory.  The packing and kernel functions are variables: their
    models are in TrMul.v.

    Memory model.  Every access to packed data and to the destination is recorded
    with the clock of the thread that makes it, and every thread knows up to which
    clock it is ordered after each other thread (a vector clock).  Only a read of
    kFinished with acquire order from a store with release order makes one thread
    ordered after another; the relaxed fetch_add does not, and neither does reading
    kInProgress (C++ would order a little more, so this finds at least the races that
    C++ defines).  An access that is not ordered after a conflicting earlier access
    is a data race: undefined behaviour.  So is reading packed data nobody has
    written.  A compare_exchange that fails may read an old value: InProgress
    although the status is already Finished, unless this thread has already read or
    written Finished there.  A compare_exchange that succeeds reads the latest
    value. *)
From Verif Require Import Base SidePair BlockMap.

(** trmul.cc:42 *)
Inductive pstatus := NotStarted | InProgress | Finished.
Definition pstatus_eqb (a b : pstatus) : bool :=
  match a, b with
  | NotStarted, NotStarted | InProgress, InProgress | Finished, Finished => true
  | _, _ => false
  end.

(** The arguments of one call of TryPack. *)
Record target := { tg_side : side; tg_block : Z; tg_start : Z; tg_end : Z }.

(** Where TryPack returns to in EnsurePacked: the loop of lines 211-214, with
    both_sides_packed so far, or the run-ahead call of line 228. *)
Inductive ret := RMain (both : bool) | RAhead.

(** The local variables of one iteration of the loop of TrMulTask::Run and of EnsurePacked. *)
Record work := {
  w_id : Z; w_next : Z;
  w_block : sp Z; w_start : sp Z; w_end : sp Z;
  w_ahead : sp Z; w_ahead_side : side }.

(** Program counter of a thread. *)
Inductive pc :=
| PLoop (block_id : Z)                        (* the test of line 97 *)
| PTry (w : work) (tg : target) (r : ret)     (* entering TryPack *)
| PPack (w : work) (tg : target) (r : ret)    (* about to call RunPack *)
| PStore (w : work) (tg : target) (r : ret)   (* RunPack has returned *)
| PKernel (w : work)                          (* about to call RunKernel *)
| PDone.

Definition upd {A} (f : Z -> A) (k : Z) (v : A) : Z -> A := fun x => if x =? k then v else f x.
Definition upd_s {A} (f : side -> Z -> A) (s : side) (k : Z) (v : A) : side -> Z -> A :=
  fun s' x => if side_eqb s' s && (x =? k) then v else f s' x.

Section Machine.
Variable M : Type.
Variable run_pack : side -> Z -> Z -> M -> res M.
Variable run_kernel : sp Z -> sp Z -> M -> res M.
Variables (dbg ahead : bool) (bm : block_map) (prepacked : sp bool).

(** trmul.cc:372-376 *)
Definition threads : Z := bm_thread_count bm.
Definition need_atomics : bool := 1 <? threads.

Record mst := {
  s_pc : Z -> pc;
  s_local : Z -> side -> Z -> bool;      (* local_already_packed_ of each thread *)
  s_next : Z;                            (* atomic_block_id, before truncation to 32 bits *)
  s_status : side -> Z -> pstatus;       (* packing_status: the latest value *)
  s_seen : Z -> side -> Z -> bool;       (* this thread has read or written Finished there *)
  s_clock : Z -> Z -> Z;                 (* vector clock of each thread *)
  s_rel : side -> Z -> Z -> Z;           (* vector clock released with Finished *)
  s_pwrite : side -> Z -> option (Z * Z);(* last write of this packed block: thread, clock *)
  s_pread : side -> Z -> Z -> Z;         (* last read of this packed block by each thread *)
  s_dwrite : Z -> option (Z * Z);        (* last write of this block of the destination *)
  s_mem : M;
  s_begun : list Z;                      (* log: block ids taken from the loop *)
  s_ran : list (Z * Z);                  (* log: thread, block id of each RunKernel *)
  s_packs : list (Z * (side * Z)) }.     (* log: thread, side, block of each RunPack *)

Definition set_pc (s : mst) (i : Z) (p : pc) : mst :=
  {| s_pc := upd (s_pc s) i p; s_local := s_local s; s_next := s_next s; s_status := s_status s;
     s_seen := s_seen s; s_clock := s_clock s; s_rel := s_rel s; s_pwrite := s_pwrite s;
     s_pread := s_pread s; s_dwrite := s_dwrite s; s_mem := s_mem s; s_begun := s_begun s;
     s_ran := s_ran s; s_packs := s_packs s |}.
Definition set_local (s : mst) (i : Z) (tg : target) : mst :=
  {| s_pc := s_pc s; s_local := upd (s_local s) i (upd_s (s_local s i) (tg_side tg) (tg_block tg) true);
     s_next := s_next s; s_status := s_status s;
     s_seen := s_seen s; s_clock := s_clock s; s_rel := s_rel s; s_pwrite := s_pwrite s;
     s_pread := s_pread s; s_dwrite := s_dwrite s; s_mem := s_mem s; s_begun := s_begun s;
     s_ran := s_ran s; s_packs := s_packs s |}.
Definition set_status (s : mst) (tg : target) (v : pstatus) : mst :=
  {| s_pc := s_pc s; s_local := s_local s; s_next := s_next s;
     s_status := upd_s (s_status s) (tg_side tg) (tg_block tg) v;
     s_seen := s_seen s; s_clock := s_clock s; s_rel := s_rel s; s_pwrite := s_pwrite s;
     s_pread := s_pread s; s_dwrite := s_dwrite s; s_mem := s_mem s; s_begun := s_begun s;
     s_ran := s_ran s; s_packs := s_packs s |}.

(** status.store(kFinished, memory_order_release) *)
Definition release_finished (s : mst) (i : Z) (tg : target) : mst :=
  let s := set_status s tg Finished in
  {| s_pc := s_pc s; s_local := s_local s; s_next := s_next s; s_status := s_status s;
     s_seen := upd (s_seen s) i (upd_s (s_seen s i) (tg_side tg) (tg_block tg) true);
     s_clock := s_clock s;
     s_rel := upd_s (s_rel s) (tg_side tg) (tg_block tg) (s_clock s i);
     s_pwrite := s_pwrite s;
     s_pread := s_pread s; s_dwrite := s_dwrite s; s_mem := s_mem s; s_begun := s_begun s;
     s_ran := s_ran s; s_packs := s_packs s |}.

(** The acquire half of a failing compare_exchange that reads kFinished. *)
Definition acquire_finished (s : mst) (i : Z) (tg : target) : mst :=
  {| s_pc := s_pc s; s_local := s_local s; s_next := s_next s; s_status := s_status s;
     s_seen := upd (s_seen s) i (upd_s (s_seen s i) (tg_side tg) (tg_block tg) true);
     s_clock := upd (s_clock s) i
       (fun j => Z.max (s_clock s i j) (s_rel s (tg_side tg) (tg_block tg) j));
     s_rel := s_rel s; s_pwrite := s_pwrite s;
     s_pread := s_pread s; s_dwrite := s_dwrite s; s_mem := s_mem s; s_begun := s_begun s;
     s_ran := s_ran s; s_packs := s_packs s |}.

(** Is the access [e] ordered before what thread [i] does now? *)
Definition ordered (s : mst) (i : Z) (e : option (Z * Z)) : bool :=
  match e with None => true | Some (j, c) => c <=? s_clock s i j end.

Definition tick (s : mst) (i : Z) : Z -> Z -> Z :=
  upd (s_clock s) i (upd (s_clock s i) i (s_clock s i i + 1)).

(** One call of RunPack: writes the packed block. *)
Definition do_pack (s : mst) (i : Z) (tg : target) : res mst :=
  let sd := tg_side tg in
  let b := tg_block tg in
  if ordered s i (s_pwrite s sd b) &&
     forallb (fun j => s_pread s sd b j <=? s_clock s i j) (zrange 0 threads) then
    m <- run_pack sd (tg_start tg) (tg_end tg) (s_mem s) ;;
    Ok {| s_pc := s_pc s; s_local := s_local s; s_next := s_next s; s_status := s_status s;
          s_seen := s_seen s; s_clock := tick s i; s_rel := s_rel s;
          s_pwrite := upd_s (s_pwrite s) sd b (Some (i, s_clock s i i + 1));
          s_pread := s_pread s; s_dwrite := s_dwrite s; s_mem := m; s_begun := s_begun s;
          s_ran := s_ran s; s_packs := (i, (sd, b)) :: s_packs s |}
  else UB.

(** May thread [i] read packed block [b] of side [sd]? *)
Definition may_read (s : mst) (i : Z) (sd : side) (b : Z) : bool :=
  get sd prepacked ||
  match s_pwrite s sd b with None => false | e => ordered s i e end.

(** One call of RunKernel: reads the two packed blocks, writes the destination block. *)
Definition do_kernel (s : mst) (i : Z) (w : work) : res mst :=
  let bl := lhs (w_block w) in
  let br := rhs (w_block w) in
  if may_read s i Lhs bl && may_read s i Rhs br && ordered s i (s_dwrite s (w_id w)) then
    m <- run_kernel (w_start w) (w_end w) (s_mem s) ;;
    let c := s_clock s i i + 1 in
    Ok {| s_pc := s_pc s; s_local := s_local s; s_next := s_next s; s_status := s_status s;
          s_seen := s_seen s; s_clock := tick s i; s_rel := s_rel s; s_pwrite := s_pwrite s;
          s_pread := upd_s (upd_s (s_pread s) Lhs bl (upd (s_pread s Lhs bl) i c))
                           Rhs br (upd (s_pread s Rhs br) i c);
          s_dwrite := upd (s_dwrite s) (w_id w) (Some (i, c));
          s_mem := m; s_begun := s_begun s;
          s_ran := (i, w_id w) :: s_ran s; s_packs := s_packs s |}
  else UB.

Definition main_target (w : work) (sd : side) : target :=
  {| tg_side := sd; tg_block := get sd (w_block w); tg_start := get sd (w_start w); tg_end := get sd (w_end w) |}.

Definition upd_side {A} (p : sp A) (s : side) (v : A) : sp A :=
  match s with Lhs => mk_sp v (rhs p) | Rhs => mk_sp (lhs p) v end.

(** trmul.cc:211-232: what EnsurePacked does when TryPack has returned [ok]. The
    increment of next_runahead_block (line 230) is done before the call of TryPack
    instead of after it: it is a local variable that TryPack does not see. *)
Definition after_try (w : work) (tg : target) (r : ret) (ok : bool) : res pc :=
  match r with
  | RAhead => Ok (PTry w (main_target w Lhs) (RMain true))
  | RMain both =>
    let both := both && ok in
    match tg_side tg with
    | Lhs => Ok (PTry w (main_target w Rhs) (RMain both))
    | Rhs =>
      if both then Ok (PKernel w)
      else if ahead then
        let sd := w_ahead_side w in
        let b := get sd (w_ahead w) in
        n <- num_blocks_per_side sd bm ;;
        if n <=? b then
          Ok (PTry {| w_id := w_id w; w_next := w_next w; w_block := w_block w; w_start := w_start w;
                      w_end := w_end w; w_ahead := w_ahead w; w_ahead_side := other_side sd |}
                   (main_target w Lhs) (RMain true))
        else
          '(st, en) <- get_block_matrix_coords dbg sd bm b ;;
          b1 <- i32 (b + 1) ;;
          Ok (PTry {| w_id := w_id w; w_next := w_next w; w_block := w_block w; w_start := w_start w;
                      w_end := w_end w; w_ahead := upd_side (w_ahead w) sd b1;
                      w_ahead_side := other_side sd |}
                   {| tg_side := sd; tg_block := b; tg_start := st; tg_end := en |} RAhead)
      else Ok (PTry w (main_target w Lhs) (RMain true))
    end
  end.

Definition return_from_try (s : mst) (i : Z) (w : work) (tg : target) (r : ret) (ok : bool) : res mst :=
  p <- after_try w tg r ok ;; Ok (set_pc s i p).

(** trmul.cc:97-106, 202-206: the start of an iteration. *)
Definition begin_block (s : mst) (i : Z) (b : Z) : res mst :=
  let next := wrap_s 32 (s_next s) in
  block <- get_block_by_index bm b ;;
  '(st, en) <- get_block_coords dbg bm block ;;
  al <- i32 (lhs block + 1) ;;
  ar <- i32 (rhs block + 1) ;;
  let w := {| w_id := b; w_next := next; w_block := block; w_start := st; w_end := en;
              w_ahead := mk_sp al ar; w_ahead_side := Lhs |} in
  Ok {| s_pc := upd (s_pc s) i (PTry w (main_target w Lhs) (RMain true));
        s_local := s_local s; s_next := s_next s + 1; s_status := s_status s;
        s_seen := s_seen s; s_clock := s_clock s; s_rel := s_rel s; s_pwrite := s_pwrite s;
        s_pread := s_pread s; s_dwrite := s_dwrite s; s_mem := s_mem s; s_begun := b :: s_begun s;
        s_ran := s_ran s; s_packs := s_packs s |}.

(** One step of thread [i]. [stale]: a failing compare_exchange reads an old value if it may. *)
Definition step (i : Z) (stale : bool) (s : mst) : res mst :=
  if (0 <=? i) && (i <? threads) then
    match s_pc s i with
    | PDone => Ok s
    | PLoop b =>
      (* trmul.cc:97 *)
      n <- num_blocks bm ;;
      if b <? n then begin_block s i b else Ok (set_pc s i PDone)
    | PTry w tg r =>
      (* trmul.cc:126-187 *)
      let sd := tg_side tg in
      let b := tg_block tg in
      if get sd prepacked then return_from_try s i w tg r true
      else
        n <- num_blocks_per_side sd bm ;;
        if negb ((0 <=? b) && (b <? n)) then UB
        else if s_local s i sd b then return_from_try s i w tg r true
        else if need_atomics then
          match s_status s sd b with
          | NotStarted => Ok (set_pc (set_status s tg InProgress) i (PPack w tg r))
          | InProgress => return_from_try s i w tg r false
          | Finished =>
            if stale && negb (s_seen s i sd b) then return_from_try s i w tg r false
            else return_from_try (set_local (acquire_finished s i tg) i tg) i w tg r true
          end
        else Ok (set_pc s i (PPack w tg r))
    | PPack w tg r =>
      (* trmul.cc:172 and 187 *)
      s <- do_pack s i tg ;; Ok (set_pc s i (PStore w tg r))
    | PStore w tg r =>
      (* trmul.cc:173, 181-182, 189. The load of the DCHECK follows this thread's own store. *)
      if need_atomics then
        let s := release_finished s i tg in
        dcheck dbg (pstatus_eqb (s_status s (tg_side tg) (tg_block tg)) Finished) ;;;
        return_from_try (set_local s i tg) i w tg r true
      else return_from_try (set_local s i tg) i w tg r true
    | PKernel w =>
      (* trmul.cc:111-114 *)
      s <- do_kernel s i w ;; Ok (set_pc s i (PLoop (w_next w)))
    end
  else Ok s.

(** trmul.cc:378-409 and 78-95: before the first step of any thread. *)
Definition init (m : M) : mst :=
  {| s_pc := fun i => PLoop i; s_local := fun _ _ _ => false; s_next := threads;
     s_status := fun _ _ => NotStarted; s_seen := fun _ _ _ => false;
     s_clock := fun _ _ => 0; s_rel := fun _ _ _ => 0; s_pwrite := fun _ _ => None;
     s_pread := fun _ _ _ => 0; s_dwrite := fun _ => None; s_mem := m;
     s_begun := []; s_ran := []; s_packs := [] |}.

(** A schedule: which thread takes each step, and whether it may read an old value. *)
Fixpoint exec (sched : list (Z * bool)) (s : mst) : res mst :=
  match sched with
  | [] => Ok s
  | (i, stale) :: rest => s <- step i stale s ;; exec rest s
  end.

Definition is_done (p : pc) : bool := match p with PDone => true | _ => false end.
(** Every TrMulTask::Run has returned. *)
Definition all_done (s : mst) : bool := forallb (fun i => is_done (s_pc s i)) (zrange 0 threads).

End Machine.
Arguments s_pc {M}. Arguments s_local {M}. Arguments s_next {M}. Arguments s_status {M}. Arguments s_seen {M}.
Arguments s_clock {M}. Arguments s_rel {M}. Arguments s_pwrite {M}. Arguments s_pread {M}. Arguments s_dwrite {M}.
Arguments s_mem {M}. Arguments s_begun {M}. Arguments s_ran {M}. Arguments s_packs {M}.
Arguments set_pc {M}. Arguments set_local {M}. Arguments set_status {M}. Arguments release_finished {M}.
Arguments acquire_finished {M}. Arguments ordered {M}. Arguments tick {M}. Arguments do_pack {M}.
Arguments may_read {M}. Arguments do_kernel {M}. Arguments return_from_try {M}. Arguments begin_block {M}.
Arguments step {M}. Arguments init {M}. Arguments exec {M}. Arguments all_done {M}.
