(** Model of ruy/prepacked_cache.h and ruy/prepacked_cache.cc. Addresses and the
    system allocator are as in Allocator.v. *)
From Verif Require Import Base SidePair Mat TrMul Allocator.

(** mat.h:195-226 (of the types only the size, and floating-point-ness of the sums) and
    mat.h:245-252 (PEMat). *)
Record pemat := {
  pe_data : Z; pe_data_size : Z; pe_sums : Z; pe_sums_size : Z; pe_sums_float : bool;
  pe_layout : pmat_layout; pe_zp : Z }.

Definition set_buffers (p : pemat) (data sums : Z) : pemat :=
  {| pe_data := data; pe_data_size := pe_data_size p; pe_sums := sums; pe_sums_size := pe_sums_size p;
     pe_sums_float := pe_sums_float p; pe_layout := pe_layout p; pe_zp := pe_zp p |}.

(** prepacked_cache.h:68-75. *)
Record key := { k_src : Z; k_layout : pmat_layout; k_zp : Z }.

(** mat.h:190-194. *)
Definition pmat_layout_eqb (a b : pmat_layout) : bool :=
  (pl_cols a =? pl_cols b) && (pl_rows a =? pl_rows b) && (pl_stride a =? pl_stride b) &&
  order_eqb (pl_order a) (pl_order b) && (kl_rows (pl_kernel a) =? kl_rows (pl_kernel b)) &&
  (kl_cols (pl_kernel a) =? kl_cols (pl_kernel b)) && order_eqb (kl_order (pl_kernel a)) (kl_order (pl_kernel b)).

(** prepacked_cache.h:77-80. *)
Definition key_eqb (a b : key) : bool :=
  (k_src a =? k_src b) && pmat_layout_eqb (k_layout a) (k_layout b) && (k_zp a =? k_zp b).

(** The values of the enumerators, matrix.h:29. *)
Definition order_int (o : order) : Z := match o with ColMajor => 0 | RowMajor => 1 end.

(** prepacked_cache.cc:50-73. The layout hash is computed in [int], then converted. *)
Definition key_hash (k : key) : res Z :=
  let l := k_layout k in
  s <- i32 (pl_stride l * 3) ;;
  a <- i32 (order_int (pl_order l) + order_int (kl_order (pl_kernel l)) * 2 + s) ;;
  a <- i32 (a + kl_rows (pl_kernel l) * 5) ;;
  a <- i32 (a + kl_cols (pl_kernel l) * 7) ;;
  r <- i32 (pl_rows l * 11) ;;
  a <- i32 (a + r) ;;
  c <- i32 (pl_cols l * 13) ;;
  a <- i32 (a + c) ;;
  Ok (Z.lxor (wrap_u 64 (k_src k)) (wrap_u 64 a)).

(** prepacked_cache.h:93-96. *)
Record entry := { e_mat : pemat; e_time : Z }.

(** prepacked_cache.h:143-146, and the blocks the system has given to the cache and not
    got back, with the log of the calls. *)
Record cst := {
  cs_map : list (key * entry); cs_bytes : Z; cs_time : Z; cs_live : list (Z * Z); cs_trace : list sys_event }.

Definition cs_init : cst := {| cs_map := []; cs_bytes := 0; cs_time := 0; cs_live := []; cs_trace := [] |}.

Inductive action := GotExisting | InsertedNew.

Section Cache.
Variable sys : list sys_event -> list (Z * Z) -> Z -> Z.
(** The order in which iteration visits the entries of the hash table. *)
Variable iter : list sys_event -> list (key * entry) -> list (key * entry).
(** max_buffers_bytes_. *)
Variable max : Z.

(** system_aligned_alloc.cc:30-40. *)
Definition c_alloc (n : Z) (s : cst) : Z * cst :=
  let p := sys (cs_trace s) (cs_live s) n in
  (p, {| cs_map := cs_map s; cs_bytes := cs_bytes s; cs_time := cs_time s;
         cs_live := if p =? 0 then cs_live s else cs_live s ++ [(p, n)];
         cs_trace := cs_trace s ++ [SAlloc false n p] |}).

(** system_aligned_alloc.cc:42-48. *)
Definition c_free (p : Z) (s : cst) : res cst :=
  if p =? 0 then Ok s
  else if existsb (fun b => fst b =? p) (cs_live s) then
    Ok {| cs_map := cs_map s; cs_bytes := cs_bytes s; cs_time := cs_time s;
          cs_live := filter (fun b => negb (fst b =? p)) (cs_live s); cs_trace := cs_trace s ++ [SFree p] |}
  else UB.

(** prepacked_cache.cc:29-40. The results of the system allocator are not looked at. *)
Definition allocate_buffers (p : pemat) (s : cst) : res (Z * pemat * cst) :=
  db <- data_bytes (pe_layout p) (pe_data_size p) ;;
  let '(d, s) := c_alloc db s in
  if pe_sums_float p then Ok (db, set_buffers p d (pe_sums p), s)
  else
    sb <- sums_bytes (pe_layout p) (pe_sums_size p) ;;
    let '(a, s) := c_alloc sb s in
    n <- i64 (db + sb) ;;
    Ok (n, set_buffers p d a, s).

(** prepacked_cache.cc:43-46. *)
Definition free_buffers (p : pemat) (s : cst) : res cst :=
  s <- c_free (pe_data p) s ;; c_free (pe_sums p) s.

(** prepacked_cache.cc:117-126: the linear search. *)
Definition find_oldest (first : key * entry) (l : list (key * entry)) : key * entry :=
  fold_left (fun o x => if e_time (snd x) <? e_time (snd o) then x else o) l first.

(** prepacked_cache.cc:116-131. *)
Definition eject_one (s : cst) : res cst :=
  match iter (cs_trace s) (cs_map s) with
  | [] => UB
  | first :: rest =>
    let '(k, e) := find_oldest first (first :: rest) in
    db <- data_bytes (pe_layout (e_mat e)) (pe_data_size (e_mat e)) ;;
    sb <- sums_bytes (pe_layout (e_mat e)) (pe_sums_size (e_mat e)) ;;
    n <- i64 (db + sb) ;;
    b <- i64 (cs_bytes s - n) ;;
    s <- free_buffers (e_mat e) s ;;
    Ok {| cs_map := filter (fun x => negb (key_eqb (fst x) k)) (cs_map s); cs_bytes := b; cs_time := cs_time s;
          cs_live := cs_live s; cs_trace := cs_trace s |}
  end.

(** prepacked_cache.cc:108-114. The loop ends when the cache is empty, so [fuel] as large
    as the number of entries is enough; [Abort] if it were not. *)
Fixpoint eject_until_room_for (fuel : nat) (new_bytes : Z) (s : cst) : res cst :=
  match cs_map s with
  | [] => Ok s
  | _ =>
    t <- i64 (cs_bytes s + new_bytes) ;;
    if max <? t then
      match fuel with
      | O => Abort
      | S fuel => s <- eject_one s ;; eject_until_room_for fuel new_bytes s
      end
    else Ok s
  end.

Definition key_of (src : Z) (p : pemat) : key := {| k_src := src; k_layout := pe_layout p; k_zp := pe_zp p |}.

Definition cs_find (k : key) (m : list (key * entry)) : option entry :=
  option_map snd (find (fun x => key_eqb (fst x) k) m).

(** prepacked_cache.cc:81-106. The table computes the hash of the key. Its [uint64_t]
    counter wraps. *)
Definition cache_get (src : Z) (p : pemat) (s : cst) : res (action * pemat * cst) :=
  let k := key_of src p in
  _ <- key_hash k ;;
  match cs_find k (cs_map s) with
  | Some e =>
    Ok (GotExisting, e_mat e,
        {| cs_map := map (fun x => if key_eqb (fst x) k then (fst x, {| e_mat := e_mat (snd x); e_time := cs_time s |}) else x) (cs_map s);
           cs_bytes := cs_bytes s; cs_time := wrap_u 64 (cs_time s + 1);
           cs_live := cs_live s; cs_trace := cs_trace s |})
  | None =>
    '(new_bytes, p, s) <- allocate_buffers p s ;;
    s <- eject_until_room_for (length (cs_map s)) new_bytes s ;;
    b <- i64 (cs_bytes s + new_bytes) ;;
    Ok (InsertedNew, p,
        {| cs_map := (k, {| e_mat := p; e_time := cs_time s |}) :: cs_map s; cs_bytes := b;
           cs_time := wrap_u 64 (cs_time s + 1); cs_live := cs_live s; cs_trace := cs_trace s |})
  end.

(** prepacked_cache.cc:76-78. *)
Fixpoint free_entries (l : list (key * entry)) (s : cst) : res cst :=
  match l with
  | [] => Ok s
  | x :: l => s <- free_buffers (e_mat (snd x)) s ;; free_entries l s
  end.

(** prepacked_cache.cc:75-79; then the table itself is destroyed. *)
Definition cache_destroy (s : cst) : res cst :=
  s <- free_entries (iter (cs_trace s) (cs_map s)) s ;;
  Ok {| cs_map := []; cs_bytes := cs_bytes s; cs_time := cs_time s; cs_live := cs_live s; cs_trace := cs_trace s |}.
End Cache.
