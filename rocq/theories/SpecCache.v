(** What is asked of the prepacked cache, independently of how it works. *)
From Coq Require Import Permutation.
From Verif Require Import Base SidePair Mat Allocator SpecAlloc PrepackedCache.

(** The table visits its entries once each, in any order. *)
Definition good_iteration (iter : list sys_event -> list (key * entry) -> list (key * entry)) : Prop :=
  forall past m, Permutation (iter past m) m.

(** Bytes of the two buffers of a packed matrix; those it gets in the cache. *)
Definition data_size (p : pemat) : Z :=
  pl_stride (pe_layout p) * match pl_order (pe_layout p) with ColMajor => pl_cols (pe_layout p) | RowMajor => pl_rows (pe_layout p) end
  * pe_data_size p.
Definition sums_size (p : pemat) : Z := pl_cols (pe_layout p) * pe_sums_size p.
Definition size_in_cache (p : pemat) : Z := data_size p + if pe_sums_float p then 0 else sums_size p.

(** The sum computed by the hash function stays in an [int]. *)
Definition hashable (l : pmat_layout) : Prop :=
  0 <= pl_stride l /\ 0 <= pl_rows l /\ 0 <= pl_cols l /\ 0 <= kl_rows (pl_kernel l) /\ 0 <= kl_cols (pl_kernel l) /\
  3 + pl_stride l * 3 + kl_rows (pl_kernel l) * 5 + kl_cols (pl_kernel l) * 7 + pl_rows l * 11 + pl_cols l * 13 <= int_max.

(** A request: the address of the source and a packed matrix without buffers. *)
Definition valid_request (r : Z * pemat) : Prop :=
  let p := snd r in
  0 < data_size p <= 2 ^ 61 /\
  - 2 ^ 61 <= pl_stride (pe_layout p) * match pl_order (pe_layout p) with ColMajor => pl_cols (pe_layout p) | RowMajor => pl_rows (pe_layout p) end <= 2 ^ 61 /\
  0 < sums_size p <= int_max /\ pe_sums p = 0 /\ hashable (pe_layout p).

Definition request_key (r : Z * pemat) : key := {| k_src := fst r; k_layout := pe_layout (snd r); k_zp := pe_zp (snd r) |}.

(** All bytes that would be needed if nothing were found. *)
Definition bytes_requested (reqs : list (Z * pemat)) : Z :=
  fold_right (fun r t => data_size (snd r) + sums_size (snd r) + t) 0 reqs.

(** A lookup as seen from outside: the key, what happened, the matrix returned, and all
    that the cache holds afterwards. *)
Record event := { ev_key : key; ev_action : action; ev_mat : pemat; ev_held : list (key * pemat) }.

Definition held (s : cst) : list (key * pemat) := map (fun x => (fst x, e_mat (snd x))) (cs_map s).

Fixpoint run sys iter max (reqs : list (Z * pemat)) (s : cst) : res (list event * cst) :=
  match reqs with
  | [] => Ok ([], s)
  | r :: reqs =>
    '(a, p, s) <- cache_get sys iter max (fst r) (snd r) s ;;
    '(evs, s') <- run sys iter max reqs s ;;
    Ok ({| ev_key := request_key r; ev_action := a; ev_mat := p; ev_held := held s |} :: evs, s')
  end.

(** Histories of a map that ejects the least recently used: [l] is what it holds, most
    recently used first. A lookup finds what was inserted and makes it the most recent, or
    inserts and keeps a prefix [kept] of [l]; [choice] may say more about how much. *)
Inductive lru_history (choice : list (key * pemat) -> pemat -> list (key * pemat) -> Prop)
  : list (key * pemat) -> list event -> Prop :=
| lru_end : forall l, lru_history choice l []
| lru_hit : forall l1 l2 k m h evs, Permutation h ((k, m) :: l1 ++ l2) ->
    lru_history choice ((k, m) :: l1 ++ l2) evs ->
    lru_history choice (l1 ++ (k, m) :: l2) ({| ev_key := k; ev_action := GotExisting; ev_mat := m; ev_held := h |} :: evs)
| lru_miss : forall kept ejected k m h evs, ~ In k (map fst (kept ++ ejected)) -> choice kept m ejected ->
    Permutation h ((k, m) :: kept) ->
    lru_history choice ((k, m) :: kept) evs ->
    lru_history choice (kept ++ ejected) ({| ev_key := k; ev_action := InsertedNew; ev_mat := m; ev_held := h |} :: evs).

Definition any_choice (kept : list (key * pemat)) (m : pemat) (ejected : list (key * pemat)) : Prop := True.

Definition bytes_held (l : list (key * pemat)) : Z := fold_right (fun x t => size_in_cache (snd x) + t) 0 l.

(** Ejects what is needed to respect the capacity [max], and no more. *)
Definition as_needed (max : Z) (kept : list (key * pemat)) (m : pemat) (ejected : list (key * pemat)) : Prop :=
  (bytes_held kept + size_in_cache m <= max \/ kept = []) /\
  forall x rest, ejected = x :: rest -> max < bytes_held (kept ++ [x]) + size_in_cache m.

(** Bytes of blocks the system has given. *)
Definition bytes_of_blocks (b : list (Z * Z)) : Z := fold_right (fun b t => snd b + t) 0 b.

Definition integer_request (r : Z * pemat) : Prop := pe_sums_float (snd r) = false.

(** The buffers of a packed matrix as blocks; null pointers are none. *)
Definition buffers (p : pemat) : list (Z * Z) :=
  (if pe_data p =? 0 then [] else [(pe_data p, data_size p)]) ++ (if pe_sums p =? 0 then [] else [(pe_sums p, sums_size p)]).

Definition alive (live : list (Z * Z)) (p : pemat) : Prop := forall b, In b (buffers p) -> In b live.
