(** What is asked of multiplications whose operands may be cached. *)
From Verif Require Import Base SidePair SpecArith SpecMatrix SpecPack Mat Scalars MulParams TrMulMachine SpecMachine TrMulRun SpecMul
  Allocator SpecAlloc PrepackedCache SpecCache CachedMul.

(** The two operands as they are packed: [depth] by [width]. *)
Definition depth {V} (cl : call V) : Z := ml_rows (m_layout (cl_rhs cl)).
Definition width {V} (cl : call V) (s : side) : Z :=
  match s with Lhs => ml_rows (m_layout (cl_lhs cl)) | Rhs => ml_cols (m_layout (cl_rhs cl)) end.
Definition source_entry {V} (cl : call V) (s : side) (k i : Z) : V :=
  match s with Lhs => SpecMatrix.entry (cl_lhs cl) i k | Rhs => SpecMatrix.entry (cl_rhs cl) k i end.
Definition zero_point {V} (cl : call V) (s : side) : Z := match s with Lhs => m_zp (cl_lhs cl) | Rhs => m_zp (cl_rhs cl) end.
Definition kernel_of {V} (cl : call V) (s : side) : kernel_layout :=
  match s with Lhs => row_kernel (cl_kl cl) (m_layout (cl_dst cl)) | Rhs => col_kernel (cl_kl cl) (m_layout (cl_dst cl)) end.

(** What the policy of an operand says for the shape of the other. *)
Definition caches {V} (cl : call V) (s : side) : bool :=
  let w := width cl (other_side s) in
  let k := kl_cols (kernel_of cl (other_side s)) in
  match get s (cl_policy cl) with
  | NeverCache => false
  | CacheIfLargeSpeedup => w <=? k
  | CacheIfSignificantSpeedup => w <=? 4 * k
  | AlwaysCache => true
  end.

Definition next_multiple (n k : Z) : Z := (n + k - 1) / k * k.

(** The lookup made for an operand. *)
Definition request {V} (cl : call V) (s : side) : Z * pemat :=
  let k := kernel_of cl s in
  (get s (cl_addr cl),
   {| pe_data := 0; pe_data_size := o_data_size (cl_ops cl) s; pe_sums := 0; pe_sums_size := o_sums_size (cl_ops cl) s;
      pe_sums_float := cl_float cl;
      pe_layout := {| pl_rows := next_multiple (depth cl) (kl_rows k); pl_cols := next_multiple (width cl s) (kl_cols k);
                      pl_stride := next_multiple (depth cl) (kl_rows k); pl_order := ColMajor; pl_kernel := k |};
      pe_zp := o_pack_zp (cl_ops cl) s (zero_point cl s) |}).

(** The lookups of a multiplication in order: the operand that gives the contiguous
    dimension of the destination first. *)
Definition operands {V} (cl : call V) : list side :=
  match ml_order (m_layout (cl_dst cl)) with ColMajor => [Lhs; Rhs] | RowMajor => [Rhs; Lhs] end.
Definition lookups {V} (cl : call V) : list (Z * pemat) := map (request cl) (filter (caches cl) (operands cl)).
Definition all_lookups {V} (calls : list (call V)) : list (Z * pemat) := flat_map lookups calls.

(** Two operands are the same matrix, to be packed in the same way. *)
Record interchangeable {V} (cl cl' : call V) (s s' : side) : Prop := {
  in_depth : depth cl = depth cl';
  in_width : width cl s = width cl' s';
  in_entries : forall k i, 0 <= k < depth cl -> 0 <= i < width cl s -> source_entry cl s k i = source_entry cl' s' k i;
  in_pack : forall v, o_pack (cl_ops cl) s v = o_pack (cl_ops cl') s' v;
  in_of_zp : forall z, o_of_zp (cl_ops cl) s z = o_of_zp (cl_ops cl') s' z;
  in_sum0 : o_sum0 (cl_ops cl) s = o_sum0 (cl_ops cl') s';
  in_sum_add : forall a v, o_sum_add (cl_ops cl) s a v = o_sum_add (cl_ops cl') s' a v;
  in_types : o_data_size (cl_ops cl) s = o_data_size (cl_ops cl') s' /\ o_sums_size (cl_ops cl) s = o_sums_size (cl_ops cl') s' /\
    cl_float cl = cl_float cl'
}.

(** "Equality of keys implies interchangeable packed matrices" (prepacked_cache.h:45). *)
Definition keys_identify {V} (calls : list (call V)) : Prop :=
  forall cl cl' s s', In cl calls -> In cl' calls -> caches cl s = true -> caches cl' s' = true ->
    request_key (request cl s) = request_key (request cl' s') -> interchangeable cl cl' s s'.

Record cacheable_call {V} (cl : call V) : Prop := {
  cc_valid : valid_call (cl_config cl) (cl_ops cl) (cl_kl cl) (cl_lhs cl) (cl_rhs cl) (cl_dst cl) (cl_mp cl);
  (** floating-point matrices have zero points 0 *)
  cc_float : cl_float cl = true -> forall s, o_pack_zp (cl_ops cl) s (zero_point cl s) = 0;
  cc_hashable : forall s, caches cl s = true -> hashable (pe_layout (snd (request cl s)))
}.

(** The cache can hold both packed operands if both are to be cached. *)
Definition room_for_both {V} (max : Z) (cl : call V) : Prop :=
  caches cl Lhs = true -> caches cl Rhs = true ->
  size_in_cache (snd (request cl Lhs)) + size_in_cache (snd (request cl Rhs)) <= max.

(** The multiplication without a cache; it can be computed. *)
Definition uncached {V} (cl : call V) (g : garbage V) (sched : list (Z * bool)) : res (option (mat V)) :=
  mul (cl_config cl) (cl_ops cl) (cl_kl cl) g sched (cl_lhs cl) (cl_rhs cl) (cl_dst cl) (cl_mp cl).
Definition computable {V} (cl : call V) : Prop := exists g sched out, uncached cl g sched = Ok (Some out).

(** [out] is what the multiplication gives without a cache, in all executions. *)
Definition as_uncached {V} (cl : call V) (out : option (mat V)) : Prop :=
  forall m, out = Some m -> forall g sched, exists out', uncached cl g sched = Ok out' /\
    forall m', out' = Some m' -> same_matrix m m'.

Definition with_schedule {V} (cl : call V) (sched : list (Z * bool)) : call V :=
  {| cl_config := cl_config cl; cl_ops := cl_ops cl; cl_kl := cl_kl cl; cl_float := cl_float cl;
     cl_garbage := cl_garbage cl; cl_sched := sched;
     cl_lhs := cl_lhs cl; cl_rhs := cl_rhs cl; cl_dst := cl_dst cl; cl_mp := cl_mp cl;
     cl_addr := cl_addr cl; cl_policy := cl_policy cl |}.

(** A history whose calls get the first [ns] steps of the schedules [scheds]. *)
Fixpoint scheduled {V} (calls : list (call V)) (scheds : list (nat -> Z * bool)) (ns : list nat) : list (call V) :=
  match calls, scheds, ns with
  | cl :: calls, s :: scheds, n :: ns => with_schedule cl (prefix s n) :: scheduled calls scheds ns
  | _, _, _ => []
  end.

(** Operands at the same address have the same memory, always. *)
Definition same_memory {V} (calls : list (call V)) : Prop :=
  forall cl cl' s s', In cl calls -> In cl' calls -> get s (cl_addr cl) = get s' (cl_addr cl') ->
    m_data (match s with Lhs => cl_lhs cl | Rhs => cl_rhs cl end) = m_data (match s' with Lhs => cl_lhs cl' | Rhs => cl_rhs cl' end).
