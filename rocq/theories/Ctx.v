(** Model of ruy/ctx.cc, ruy/ctx_impl.h, ruy/path.h and ruy/context.cc: what a Context
    keeps, and ruy::Mul with it. *)
From Verif Require Import Base SidePair SizeUtil BlockMap ThreadCount Mat Scalars Pack MulParams Kernel TrMul TrMulMachine
  TrMulRun Allocator PrepackedCache CachedMul CpuInfo Tune.

(** * Paths: path.h *)

(** Path is [uint8_t]: a set of bits. platform.h tells platforms apart; [PlatformArm] has
    no NEON. *)
Inductive platform := PlatformNeon64 | PlatformNeon32 | PlatformArm | PlatformX86 | PlatformOther.

(** path.h:55-90. *)
Definition kStandardCpp : Z := 1.
Definition kNeon : Z := 0x10.
Definition kNeonDotprod : Z := 0x20.
Definition kAvx : Z := 0x10.
Definition kAvx2Fma : Z := 0x20.
Definition kAvx512 : Z := 0x40.
(** path.h:127 and 161-163. *)
Definition kNonArchPaths : Z := kStandardCpp.
Definition kNonArchPathsIncludingInternalVariants : Z := Z.lor (Z.lor (Z.lor kNonArchPaths 2) 4) 8.
(** path.h:144-156; kExtraArchPaths is empty everywhere. *)
Definition kDefaultArchPaths (p : platform) : Z :=
  match p with
  | PlatformNeon64 => Z.lor kNeon kNeonDotprod
  | PlatformNeon32 => kNeon
  | PlatformX86 => Z.lor (Z.lor kAvx kAvx2Fma) kAvx512
  | PlatformArm | PlatformOther => 0
  end.
(** path.h:190. *)
Definition kAllPaths (p : platform) : Z := Z.lor kNonArchPaths (kDefaultArchPaths p).

(** path.h:107-109: [operator~] on [uint32_t], converted to [uint8_t]. *)
Definition path_not (p : Z) : Z := wrap_u 8 (wrap_u 32 (Z.lnot p)).

(** path.h:115-117. *)
Definition get_most_significant_path (dbg : bool) (mask : Z) : res Z :=
  p <- round_down_pot1 dbg 32 mask ;; Ok (wrap_u 8 p).

(** What is fixed for a program on a machine: build options, the platform, which x86
    paths were built (have_built_path_for.h), the machine, and the environment variable
    RUY_PATHS. [None]: not set; [Some None]: not a number, for which std::stoi throws. *)
Record build := {
  b_dbg : bool; b_opts : fractal_opts; b_ahead : bool; b_fat : bool;
  b_platform : platform; b_avx : bool; b_avx2_fma : bool; b_avx512 : bool;
  b_machine : machine; b_env : option (option Z) }.

(** ctx.cc:82-88. *)
Definition get_hex_int_env_var_or_zero (e : option (option Z)) : res Z :=
  match e with None => Ok 0 | Some (Some z) => Ok z | Some None => Abort end.

(** ctx.cc:100-106 (maybe_add). *)
Definition maybe_add (to_detect path : Z) (supported : cpu_info -> res (bool * cpu_info)) (s : Z * cpu_info) : res (Z * cpu_info) :=
  let '(result, i) := s in
  if Z.land to_detect path =? 0 then Ok (result, i)
  else '(b, i) <- supported i ;; Ok (if (b : bool) then Z.lor result path else result, i).

(** [HaveBuiltPathFor..() && cpuinfo->..()]. *)
Definition built_and (b : build) (built : bool) (f : features -> bool) (i : cpu_info) : res (bool * cpu_info) :=
  if built then has_feature (b_dbg b) (b_machine b) f i else Ok (false, i).

(** ctx.cc:94-148. *)
Definition detect_runtime_supported_paths (b : build) (to_detect : Z) (i : cpu_info) : res (Z * cpu_info) :=
  let start := (kNonArchPathsIncludingInternalVariants, i) in
  '(result, i) <-
    match b_platform b with
    | PlatformNeon64 | PlatformNeon32 | PlatformArm =>
      s <- maybe_add to_detect kNeon (fun i => Ok (true, i)) start ;;
      maybe_add to_detect kNeonDotprod (has_feature (b_dbg b) (b_machine b) neon_dotprod) s
    | PlatformX86 =>
      s <- maybe_add to_detect kAvx (built_and b (b_avx b) avx) start ;;
      s <- maybe_add to_detect kAvx2Fma (built_and b (b_avx2_fma b) avx2_fma) s ;;
      maybe_add to_detect kAvx512 (built_and b (b_avx512 b) avx512) s
    | PlatformOther => Ok start
    end ;;
  dcheck (b_dbg b) (Z.land kNonArchPaths (path_not result) =? 0) ;;;
  dcheck (b_dbg b) (Z.land result (path_not (Z.lor kNonArchPathsIncludingInternalVariants to_detect)) =? 0) ;;;
  Ok (result, i).

(** * The context: ctx_impl.h *)

(** ctx_impl.h:38-46 (ThreadSpecificResource), with its address. Its allocator is
    modelled in Allocator.v. *)
Record resource := { r_addr : Z; r_resolver : resolver }.

(** ctx_impl.h:57-83. The thread pool is modelled in ThreadPool.v, the main allocator in
    Allocator.v. [cx_next] is the address of the next resource allocated: resources are
    not freed before the context. [cx_epoch] counts the prepacked caches there have been;
    a cache that does not exist yet is an empty one. *)
Record ctx (V : Type) := {
  cx_last_path : Z; cx_advisory : Z; cx_tuning : tuning; cx_max_threads : Z; cx_strategy : num_threads_strategy;
  cx_paths : Z; cx_cpu : cpu_info; cx_resources : list resource; cx_next : Z;
  cx_epoch : nat; cx_cached : context V }.
Arguments cx_last_path {V}. Arguments cx_advisory {V}. Arguments cx_tuning {V}. Arguments cx_max_threads {V}.
Arguments cx_strategy {V}. Arguments cx_paths {V}. Arguments cx_cpu {V}. Arguments cx_resources {V}. Arguments cx_next {V}.
Arguments cx_epoch {V}. Arguments cx_cached {V}.

Definition ctx_init {V} (m : Z -> pmat V) : ctx V :=
  {| cx_last_path := 0; cx_advisory := 0; cx_tuning := TAuto; cx_max_threads := 1; cx_strategy := StrategyDefault;
     cx_paths := 0; cx_cpu := cpu_init; cx_resources := []; cx_next := 0; cx_epoch := 0; cx_cached := x_init m |}.

Section Setters.
Context {V : Type}.
Implicit Type cx : ctx V.

Definition with_last_path cx v : ctx V :=
  {| cx_last_path := v; cx_advisory := cx_advisory cx; cx_tuning := cx_tuning cx; cx_max_threads := cx_max_threads cx;
     cx_strategy := cx_strategy cx; cx_paths := cx_paths cx; cx_cpu := cx_cpu cx; cx_resources := cx_resources cx;
     cx_next := cx_next cx; cx_epoch := cx_epoch cx; cx_cached := cx_cached cx |}.
Definition with_advisory cx v : ctx V :=
  {| cx_last_path := cx_last_path cx; cx_advisory := v; cx_tuning := cx_tuning cx; cx_max_threads := cx_max_threads cx;
     cx_strategy := cx_strategy cx; cx_paths := cx_paths cx; cx_cpu := cx_cpu cx; cx_resources := cx_resources cx;
     cx_next := cx_next cx; cx_epoch := cx_epoch cx; cx_cached := cx_cached cx |}.
(** ctx.cc:40-42. *)
Definition set_explicit_tuning cx v : ctx V :=
  {| cx_last_path := cx_last_path cx; cx_advisory := cx_advisory cx; cx_tuning := v; cx_max_threads := cx_max_threads cx;
     cx_strategy := cx_strategy cx; cx_paths := cx_paths cx; cx_cpu := cx_cpu cx; cx_resources := cx_resources cx;
     cx_next := cx_next cx; cx_epoch := cx_epoch cx; cx_cached := cx_cached cx |}.
(** ctx.cc:46-48. *)
Definition set_max_num_threads cx v : ctx V :=
  {| cx_last_path := cx_last_path cx; cx_advisory := cx_advisory cx; cx_tuning := cx_tuning cx; cx_max_threads := v;
     cx_strategy := cx_strategy cx; cx_paths := cx_paths cx; cx_cpu := cx_cpu cx; cx_resources := cx_resources cx;
     cx_next := cx_next cx; cx_epoch := cx_epoch cx; cx_cached := cx_cached cx |}.
(** ctx.cc:60-62. *)
Definition set_num_threads_strategy cx v : ctx V :=
  {| cx_last_path := cx_last_path cx; cx_advisory := cx_advisory cx; cx_tuning := cx_tuning cx; cx_max_threads := cx_max_threads cx;
     cx_strategy := v; cx_paths := cx_paths cx; cx_cpu := cx_cpu cx; cx_resources := cx_resources cx;
     cx_next := cx_next cx; cx_epoch := cx_epoch cx; cx_cached := cx_cached cx |}.
Definition with_paths cx v i : ctx V :=
  {| cx_last_path := cx_last_path cx; cx_advisory := cx_advisory cx; cx_tuning := cx_tuning cx; cx_max_threads := cx_max_threads cx;
     cx_strategy := cx_strategy cx; cx_paths := v; cx_cpu := i; cx_resources := cx_resources cx;
     cx_next := cx_next cx; cx_epoch := cx_epoch cx; cx_cached := cx_cached cx |}.
Definition with_resources cx v n i : ctx V :=
  {| cx_last_path := cx_last_path cx; cx_advisory := cx_advisory cx; cx_tuning := cx_tuning cx; cx_max_threads := cx_max_threads cx;
     cx_strategy := cx_strategy cx; cx_paths := cx_paths cx; cx_cpu := i; cx_resources := v;
     cx_next := n; cx_epoch := cx_epoch cx; cx_cached := cx_cached cx |}.
Definition with_cached cx e x : ctx V :=
  {| cx_last_path := cx_last_path cx; cx_advisory := cx_advisory cx; cx_tuning := cx_tuning cx; cx_max_threads := cx_max_threads cx;
     cx_strategy := cx_strategy cx; cx_paths := cx_paths cx; cx_cpu := cx_cpu cx; cx_resources := cx_resources cx;
     cx_next := cx_next cx; cx_epoch := e; cx_cached := x |}.

(** ctx.cc:49-51. *)
Definition clear_performance_advisories cx : ctx V := with_advisory cx 0.
(** ctx.cc:52-55. *)
Definition set_performance_advisory cx (a : Z) : ctx V := with_advisory cx (Z.lor (cx_advisory cx) a).
(** ctx.cc:56-58. *)
Definition performance_advisory cx (a : Z) : bool := negb (Z.land (cx_advisory cx) a =? 0).
(** performance_advisory.h:23. *)
Definition kReallocatedPerChannelBuffer : Z := 1.

(** ctx.cc:67-76. *)
Definition set_runtime_enabled_paths cx (paths : Z) : ctx V :=
  with_paths cx (if paths =? 0 then 0 else Z.lor paths kNonArchPaths) (cx_cpu cx).

(** ctx.cc:150-173. The conversion of [int] to Path is modular. *)
Definition get_runtime_enabled_paths (b : build) cx : res (Z * ctx V) :=
  if cx_paths cx =? 0 then
    e <- get_hex_int_env_var_or_zero (b_env b) ;;
    let p := wrap_u 8 e in
    if p =? 0 then
      '(p, i) <- detect_runtime_supported_paths b (kAllPaths (b_platform b)) (cx_cpu cx) ;;
      Ok (p, with_paths cx p i)
    else Ok (p, with_paths cx p (cx_cpu cx))
  else Ok (cx_paths cx, cx).

(** ctx.cc:175-178. *)
Definition select_path (b : build) (compiled : Z) cx : res (Z * ctx V) :=
  '(p, cx) <- get_runtime_enabled_paths b cx ;;
  q <- get_most_significant_path (b_dbg b) (Z.land compiled p) ;;
  Ok (q, with_last_path cx q).

(** create_trmul_params.h:145-247 (PopulateTrMulParamsAllCompiledPaths): the search for
    the selected path from bit 7 down. In a release build nothing is filled in if it is
    not found. *)
Fixpoint search_path (dbg : bool) (compiled path : Z) (bits : list Z) : res Z :=
  match bits with
  | [] => dcheck dbg false ;;; UB
  | k :: bits =>
    if negb (Z.land compiled (2 ^ k) =? 0) && (2 ^ k =? path) then Ok path else search_path dbg compiled path bits
  end.
Definition populate_path (dbg : bool) (compiled path : Z) : res Z := search_path dbg compiled path [7; 6; 5; 4; 3; 2; 1; 0].

(** ctx.cc:180-186. *)
Fixpoint append_resources (n : nat) (l : list resource) (next : Z) : list resource * Z :=
  match n with
  | O => (l, next)
  | S n => append_resources n (l ++ [{| r_addr := next; r_resolver := resolver_init |}]) (next + 1)
  end.
Definition ensure_thread_specific_resources (dbg : bool) (count : Z) cx : res (ctx V) :=
  let '(l, n) := append_resources (Z.to_nat (count - Z.of_nat (length (cx_resources cx)))) (cx_resources cx) (cx_next cx) in
  dcheck dbg (count <=? Z.of_nat (length l)) ;;;
  Ok (with_resources cx l n (cx_cpu cx)).

(** ctx.cc:188-198: the resource of a thread; reading past the end is undefined. *)
Definition thread_resource (dbg : bool) (i : nat) cx : res resource :=
  dcheck dbg (Z.of_nat i <? Z.of_nat (length (cx_resources cx))) ;;;
  match nth_error (cx_resources cx) i with Some r => Ok r | None => UB end.

Fixpoint replace_nth (i : nat) (r : resource) (l : list resource) : list resource :=
  match l, i with
  | [], _ => []
  | _ :: l, O => r :: l
  | x :: l, S i => x :: replace_nth i r l
  end.
Definition update_resolver (i : nat) (r : resource) (s : resolver) cx (c : cpu_info) : ctx V :=
  with_resources cx (replace_nth i {| r_addr := r_addr r; r_resolver := s |} (cx_resources cx)) (cx_next cx) c.

(** trmul.cc:373-375 for one thread. *)
Definition push_tuning (dbg : bool) (i : nat) cx : res (ctx V) :=
  r <- thread_resource dbg i cx ;;
  Ok (update_resolver i r (set_tuning (cx_tuning cx) (r_resolver r)) cx (cx_cpu cx)).
Fixpoint push_tunings (dbg : bool) (is : list nat) cx : res (ctx V) :=
  match is with [] => Ok cx | i :: is => cx <- push_tuning dbg i cx ;; push_tunings dbg is cx end.

(** What a thread did to get its tuning: the address of the resources it uses, the time,
    the microarchitecture it was told, the tuning, and whether it was found by asking. *)
Record resolution := { rn_addr : Z; rn_now : Z; rn_uarch : option uarch * option uarch; rn_tuning : tuning; rn_asked : bool }.

(** trmul.cc:90 and ctx.cc:218 for thread [i]. *)
Definition resolve_tuning (b : build) (now : nat -> Z) (us : nat -> option uarch * option uarch) (i : nat) cx : res (resolution * ctx V) :=
  r <- thread_resource (b_dbg b) i cx ;;
  '(t, asked, s, c) <- resolve (b_dbg b) (b_machine b) (now i) (us i) (r_resolver r) (cx_cpu cx) ;;
  Ok ({| rn_addr := r_addr r; rn_now := now i; rn_uarch := us i; rn_tuning := t; rn_asked := asked |}, update_resolver i r s cx c).
(** All threads; in the order of their numbers: no thread uses what another one changes. *)
Fixpoint resolve_tunings (b : build) now us (is : list nat) cx : res (list resolution * ctx V) :=
  match is with
  | [] => Ok ([], cx)
  | i :: is =>
    '(r, cx) <- resolve_tuning b now us i cx ;;
    '(l, cx) <- resolve_tunings b now us is cx ;;
    Ok (r :: l, cx)
  end.

(** ctx.cc:214-219 (GetMainThreadTuning). *)
Definition main_thread_tuning (b : build) now us cx : res (list resolution * ctx V) :=
  cx <- ensure_thread_specific_resources (b_dbg b) 1 cx ;;
  cx <- push_tuning (b_dbg b) 0 cx ;;
  resolve_tunings b now us [O] cx.

(** trmul.cc:369-375 and the tasks run for [count] threads, as far as they use the
    thread-specific resources. *)
Definition threads_tuning (b : build) now us (count : Z) cx : res (list resolution * ctx V) :=
  cx <- ensure_thread_specific_resources (b_dbg b) count cx ;;
  cx <- push_tunings (b_dbg b) (seq 0 (Z.to_nat count)) cx ;;
  resolve_tunings b now us (seq 0 (Z.to_nat count)) cx.
End Setters.

(** The number of threads TrMul uses: trmul.cc:325-372 again. [None]: the simple loop. *)
Definition trmul_threads {V} (c : config) (t : tparams V) : res (option Z) :=
  let rows := ml_cols (m_layout (lhs (tp_src t))) in
  let cols := ml_cols (m_layout (rhs (tp_src t))) in
  let depth := ml_rows (m_layout (lhs (tp_src t))) in
  tentative <- get_tentative_thread_count (c_dbg c) (c_strategy c) (c_max_threads c) rows cols depth ;;
  simple <- get_use_simple_loop (c_opts c) tentative rows cols depth
    (o_src_size (tp_ops t) Lhs) (o_src_size (tp_ops t) Rhs) (c_cache c) ;;
  if (simple : bool) then Ok None
  else
    bm <- make_block_map (c_dbg c) (c_opts c)
            (pl_cols (lhs (tp_packed_layout t))) (pl_cols (rhs (tp_packed_layout t))) depth
            (kl_cols (lhs (tp_kl t))) (kl_cols (rhs (tp_kl t))) (o_data_size (tp_ops t) Lhs) (o_data_size (tp_ops t) Rhs)
            tentative (c_cache c) ;;
    Ok (Some (bm_thread_count bm)).

(** * The public interface: context.h and ruy.h *)

(** A call of Mul. [q_variant] gives the scalar operations (packed types) and kernel
    layouts of each path. The kernels of architecture-specific paths are not modelled:
    such a path is the portable kernel with the layouts of that path. [q_now] and [q_uarch]
    are the times and processors the threads see in TrMul, [q_pack_now] and [q_pack_uarch]
    those the main thread sees when it packs matrices for the cache. *)
Record request (V : Type) := {
  q_compiled : Z; q_variant : Z -> ops V * sp kernel_layout; q_float : bool;
  q_garbage : garbage V; q_sched : list (Z * bool);
  q_lhs : mat V; q_rhs : mat V; q_dst : mat V; q_mp : mul_params V; q_addr : sp Z; q_policy : sp cache_policy;
  q_now : nat -> Z; q_uarch : nat -> option uarch * option uarch;
  q_pack_now : nat -> Z; q_pack_uarch : nat -> option uarch * option uarch }.
Arguments q_compiled {V}. Arguments q_variant {V}. Arguments q_float {V}. Arguments q_garbage {V}. Arguments q_sched {V}.
Arguments q_lhs {V}. Arguments q_rhs {V}. Arguments q_dst {V}. Arguments q_mp {V}. Arguments q_addr {V}. Arguments q_policy {V}.
Arguments q_now {V}. Arguments q_uarch {V}. Arguments q_pack_now {V}. Arguments q_pack_uarch {V}.

Definition config_of {V} (b : build) (cx : ctx V) (cp : cache_params) : config :=
  {| c_dbg := b_dbg b; c_opts := b_opts b; c_ahead := b_ahead b; c_fat := b_fat b;
     c_strategy := cx_strategy cx; c_max_threads := cx_max_threads cx; c_cache := cp |}.
Definition call_of {V} (q : request V) (path : Z) (c : config) : call V :=
  {| cl_config := c; cl_ops := fst (q_variant q path); cl_kl := snd (q_variant q path); cl_float := q_float q;
     cl_garbage := q_garbage q; cl_sched := q_sched q; cl_lhs := q_lhs q; cl_rhs := q_rhs q; cl_dst := q_dst q;
     cl_mp := q_mp q; cl_addr := q_addr q; cl_policy := q_policy q |}.

Inductive operation (V : Type) :=
| SetPaths (p : Z) | GetPaths | SetTuning (t : tuning) | SetThreads (n : Z) | SetStrategy (s : num_threads_strategy)
| ClearCache | GetAdvisory | GetLastPath | Multiply (q : request V).
Arguments SetPaths {V}. Arguments GetPaths {V}. Arguments SetTuning {V}. Arguments SetThreads {V}. Arguments SetStrategy {V}.
Arguments ClearCache {V}. Arguments GetAdvisory {V}. Arguments GetLastPath {V}. Arguments Multiply {V}.

(** What can be seen of an operation. *)
Inductive observation (V : Type) :=
| Nothing | Paths (p : Z) | Advisory (b : bool)
| Product (path : Z) (packs used : list resolution) (out : option (mat V)).
Arguments Nothing {V}. Arguments Paths {V}. Arguments Advisory {V}. Arguments Product {V}.

Section Api.
Variable sys : nat -> list sys_event -> list (Z * Z) -> Z -> Z.
Variable iter : list sys_event -> list (key * PrepackedCache.entry) -> list (key * PrepackedCache.entry).
Variable max : Z.
Context {V : Type}.

(** How many matrices a multiplication has put in the cache: each is one allocation, or two
    if it has sums that are not floating-point (prepacked_cache.cc:29-40). *)
Definition is_alloc (e : sys_event) : bool := match e with SAlloc _ _ _ => true | _ => false end.
Definition inserted (float : bool) (before after : list sys_event) : nat :=
  let n := (length (filter is_alloc after) - length (filter is_alloc before))%nat in
  if float then n else Nat.div2 n.

(** prepare_packed_matrices.cc:79-82: the tuning for packing each of them. *)
Fixpoint pack_tunings (b : build) now us (is : list nat) (cx : ctx V) : res (list resolution * ctx V) :=
  match is with
  | [] => Ok ([], cx)
  | i :: is =>
    '(l, cx) <- main_thread_tuning b (fun _ => now i) (fun _ => us i) cx ;;
    '(l', cx) <- pack_tunings b now us is cx ;;
    Ok (l ++ l', cx)
  end.

(** frontend.h:79-93 (MulFrontEnd), with CreateTrMulParams (create_trmul_params.h:400-481),
    PreparePackedMatrices and TrMul. Validation comes before the selection of the path in
    the code; either stops the program only. The cache sizes are asked for in TrMul
    (trmul.cc:327), after packing for the cache; here before it: the answers do not depend
    on the order (Prop_Cpu.v). *)
Definition ctx_mul (b : build) (q : request V) (cx : ctx V) : res (observation V * ctx V) :=
  let dbg := b_dbg b in
  let cx := clear_performance_advisories cx in
  '(path, cx) <- select_path b (q_compiled q) cx ;;
  path <- populate_path dbg (q_compiled q) path ;;
  let '(o, kl) := q_variant q path in
  '(t, copied) <- mul_front_end dbg o kl (g_chan (q_garbage q)) (g_exp (q_garbage q)) (q_lhs q) (q_rhs q) (q_dst q) (q_mp q) ;;
  let cx := if (copied : bool) then set_performance_advisory cx kReallocatedPerChannelBuffer else cx in
  '(cp, i) <- cache_params_of dbg (b_machine b) (cx_cpu cx) ;;
  let cx := with_paths cx (cx_paths cx) i in
  let c := config_of b cx cp in
  '(out, x) <- cached_mul (sys (cx_epoch cx)) iter max (call_of q path c) (cx_cached cx) ;;
  let packs := inserted (q_float q) (cs_trace (x_cache (cx_cached cx))) (cs_trace (x_cache x)) in
  let cx := with_cached cx (cx_epoch cx) x in
  '(packs, cx) <- pack_tunings b (q_pack_now q) (q_pack_uarch q) (seq 0 packs) cx ;;
  n <- trmul_threads c t ;;
  '(used, cx) <- match n with
                 | None => main_thread_tuning b (q_now q) (q_uarch q) cx
                 | Some n => threads_tuning b (q_now q) (q_uarch q) n cx
                 end ;;
  Ok (Product path packs used out, cx).

(** ctx.cc:221: the cache is destroyed; the next use makes a new one. *)
Definition clear_prepacked_cache (cx : ctx V) : res (ctx V) :=
  s <- cache_destroy iter (x_cache (cx_cached cx)) ;;
  Ok (with_cached cx (S (cx_epoch cx)) (x_init (x_mem (cx_cached cx)))).

Definition perform (b : build) (op : operation V) (cx : ctx V) : res (observation V * ctx V) :=
  match op with
  | SetPaths p => Ok (Nothing, set_runtime_enabled_paths cx p)
  (** context.cc:65-68. *)
  | GetPaths => '(p, cx) <- get_runtime_enabled_paths b cx ;; Ok (Paths (Z.land p (kAllPaths (b_platform b))), cx)
  | SetTuning t => Ok (Nothing, set_explicit_tuning cx t)
  | SetThreads n => Ok (Nothing, set_max_num_threads cx n)
  | SetStrategy s => Ok (Nothing, set_num_threads_strategy cx s)
  | ClearCache => cx <- clear_prepacked_cache cx ;; Ok (Nothing, cx)
  | GetAdvisory => Ok (Advisory (performance_advisory cx kReallocatedPerChannelBuffer), cx)
  | GetLastPath => Ok (Paths (cx_last_path cx), cx)
  | Multiply q => ctx_mul b q cx
  end.

(** A program's use of a context. It goes no further if a schedule is too short for a
    multiplication to return. *)
Fixpoint perform_all (b : build) (ops : list (operation V)) (cx : ctx V) : res (list (observation V) * ctx V) :=
  match ops with
  | [] => Ok ([], cx)
  | op :: ops =>
    '(a, cx) <- perform b op cx ;;
    match a with
    | Product _ _ _ None => Ok ([a], cx)
    | _ => '(l, cx) <- perform_all b ops cx ;; Ok (a :: l, cx)
    end
  end.
End Api.
