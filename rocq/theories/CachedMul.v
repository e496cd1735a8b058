(** Model of ruy/prepare_packed_matrices.cc with caching, and of ruy::Mul on top of it. *)
From Verif Require Import Base SidePair SizeUtil BlockMap ThreadCount Mat Scalars Pack MulParams Kernel TrMul TrMulMachine
  TrMulRun Allocator PrepackedCache.

(** matrix.h:117-122. *)
Inductive cache_policy := NeverCache | CacheIfLargeSpeedup | CacheIfSignificantSpeedup | AlwaysCache.

(** prepare_packed_matrices.cc:38-67. *)
Definition should_cache {V} (t : tparams V) (policy : sp cache_policy) (s : side) : res bool :=
  let other_width := ml_cols (m_layout (get (other_side s) (tp_src t))) in
  let other_kernel_width := kl_cols (pl_kernel (get (other_side s) (tp_packed_layout t))) in
  match get s policy with
  | NeverCache => Ok false
  | AlwaysCache => Ok true
  | CacheIfLargeSpeedup => Ok (other_width <=? other_kernel_width)
  | CacheIfSignificantSpeedup => n <- i32 (4 * other_kernel_width) ;; Ok (other_width <=? n)
  end.

(** The packed matrix of one side before it has buffers (create_trmul_params.h:54-73,
    CreatePackedMatrix). Whether the sums are floating-point is the same for both sides. *)
Definition pemat_of {V} (t : tparams V) (float : bool) (s : side) : pemat :=
  {| pe_data := 0; pe_data_size := o_data_size (tp_ops t) s; pe_sums := 0; pe_sums_size := o_sums_size (tp_ops t) s;
     pe_sums_float := float; pe_layout := get s (tp_packed_layout t); pe_zp := get s (tp_packed_zp t) |}.

(** What a Context keeps from one multiplication to the next: the cache, and the
    contents of the packed matrices it holds, by the address of their data. *)
Record context (V : Type) := { x_cache : cst; x_mem : Z -> pmat V }.
Arguments x_cache {V}. Arguments x_mem {V}.

(** One multiplication: the environment, the operands and their addresses and policies. *)
Record call (V : Type) := {
  cl_config : config; cl_ops : ops V; cl_kl : sp kernel_layout; cl_float : bool;
  cl_garbage : garbage V; cl_sched : list (Z * bool);
  cl_lhs : mat V; cl_rhs : mat V; cl_dst : mat V; cl_mp : mul_params V;
  cl_addr : sp Z; cl_policy : sp cache_policy }.
Arguments cl_config {V}. Arguments cl_ops {V}. Arguments cl_kl {V}. Arguments cl_float {V}. Arguments cl_garbage {V}.
Arguments cl_sched {V}. Arguments cl_lhs {V}. Arguments cl_rhs {V}. Arguments cl_dst {V}. Arguments cl_mp {V}.
Arguments cl_addr {V}. Arguments cl_policy {V}.

(** create_trmul_params.h:463-481: the operands are exchanged, with their addresses
    and policies, if the destination is row-major. *)
Definition to_sides {V A} (cl : call V) (x : sp A) : sp A :=
  match ml_order (m_layout (cl_dst cl)) with ColMajor => x | RowMajor => mk_sp (rhs x) (lhs x) end.

Definition same_types (p q : pemat) : bool :=
  (pe_data_size p =? pe_data_size q) && (pe_sums_size p =? pe_sums_size q) && Bool.eqb (pe_sums_float p) (pe_sums_float q).

(** The buffers of [p] are not freed. *)
Definition buffer_live (live : list (Z * Z)) (a : Z) : bool := (a =? 0) || existsb (fun b => fst b =? a) live.
Definition usable (live : list (Z * Z)) (p : option pemat) : bool :=
  match p with None => true | Some p => buffer_live live (pe_data p) && buffer_live live (pe_sums p) end.

Definition is_some {A} (x : option A) : bool := match x with Some _ => true | None => false end.

Section Context.
Variable sys : list sys_event -> list (Z * Z) -> Z -> Z.
Variable iter : list sys_event -> list (key * PrepackedCache.entry) -> list (key * PrepackedCache.entry).
Variable max : Z.

(** prepare_packed_matrices.cc:74-82. Packing into null data is undefined; packing
    with null sums computes no sums (pack.h:127). A matrix found with other types is
    undefined behaviour here: debug builds assert (mat.h:217-222 and 299-310), others
    misread it. Types of the same size are not told apart. *)
Definition cached_side {V} (cl : call V) (t : tparams V) (s : side) (x : context V) : res (pmat V * pemat * context V) :=
  let g := cl_garbage cl in
  '(a, p, cs) <- cache_get sys iter max (get s (to_sides cl (cl_addr cl))) (pemat_of t (cl_float cl) s) (x_cache x) ;;
  if pe_data p =? 0 then UB
  else match a with
  | GotExisting =>
    if same_types p (pemat_of t (cl_float cl) s) then Ok (x_mem x (pe_data p), p, {| x_cache := cs; x_mem := x_mem x |}) else UB
  | InsertedNew =>
    n <- pflat_size (pe_layout p) ;;
    q <- run_pack (c_dbg (cl_config cl)) (tp_ops t) s (kl_cols (get s (tp_kl t))) (get s (tp_src t))
           {| p_data := {| blen := n; bdat := g_packed g s |};
              p_sums := if pe_sums p =? 0 then None else Some {| blen := pl_cols (pe_layout p); bdat := g_sums g s |};
              p_layout := pe_layout p; p_zp := pe_zp p |}
           0 (pl_cols (pe_layout p)) ;;
    Ok (q, p, {| x_cache := cs; x_mem := fun d => if d =? pe_data p then q else x_mem x d |})
  end.

(** prepare_packed_matrices.cc:71-93, one side. The result says also where the buffers
    are if they are cached. *)
Definition prepare_side {V} (cl : call V) (t : tparams V) (s : side) (x : context V)
  : res (pmat V * option pemat * context V) :=
  b <- should_cache t (to_sides cl (cl_policy cl)) s ;;
  if (b : bool) then '(q, p, x) <- cached_side cl t s x ;; Ok (q, Some p, x)
  else q <- allocate_packed t s (g_packed (cl_garbage cl) s) (g_sums (cl_garbage cl) s) ;; Ok (q, None, x).

(** frontend.h:45-71, frontend.cc:24-29. TrMul reads the packed matrices: it is undefined
    if they have been freed meanwhile. It packs only sides that are not cached. *)
Definition cached_mul {V} (cl : call V) (x : context V) : res (option (mat V) * context V) :=
  let c := cl_config cl in
  let g := cl_garbage cl in
  let dst := cl_dst cl in
  '(t, _) <- mul_front_end (c_dbg c) (cl_ops cl) (cl_kl cl) (g_chan g) (g_exp g) (cl_lhs cl) (cl_rhs cl) dst (cl_mp cl) ;;
  '(pl, el, x) <- prepare_side cl t Lhs x ;;
  '(pr, er, x) <- prepare_side cl t Rhs x ;;
  if usable (cs_live (x_cache x)) el && usable (cs_live (x_cache x)) er then
    out <- trmul c t (mk_sp (is_some el) (is_some er)) (cl_sched cl) {| tm_packed := mk_sp pl pr; tm_dst := m_data dst |} ;;
    Ok (match out with
        | Some m' => Some {| m_data := tm_dst m'; m_layout := m_layout dst; m_zp := m_zp dst |}
        | None => None
        end, x)
  else UB.

(** Multiplications one after the other in one context. There is no next one if the
    schedule of one is too short for it to return. *)
Fixpoint run_calls {V} (calls : list (call V)) (x : context V) : res (list (option (mat V)) * context V) :=
  match calls with
  | [] => Ok ([], x)
  | cl :: calls =>
    '(out, x) <- cached_mul cl x ;;
    match out with
    | None => Ok ([None], x)
    | Some _ => '(outs, x) <- run_calls calls x ;; Ok (out :: outs, x)
    end
  end.
End Context.

(** A new context; nothing is read from its memory before it has been written. *)
Definition x_init {V} (m : Z -> pmat V) : context V := {| x_cache := cs_init; x_mem := m |}.
