(** Model of TrMul as a whole (ruy/trmul.cc) and of ruy::Mul up to the choice of a
    kernel. *)
From Verif Require Import Base SidePair SizeUtil BlockMap ThreadCount Mat Scalars Pack MulParams Kernel TrMul TrMulMachine.

(** What determines how a product is computed but not what is computed: build options
    (opt_set.h: fractal orders, PACK_AHEAD, FAT_KERNEL; NDEBUG) and the context (thread limit,
    strategy, cache parameters). *)
Record config := {
  c_dbg : bool;
  c_opts : fractal_opts;
  c_ahead : bool;
  c_fat : bool;
  c_strategy : num_threads_strategy;
  c_max_threads : Z;
  c_cache : cache_params
}.

(** trmul.cc:309-422 (TrMul). GetUseSimpleLoop is given the element sizes of the sources,
    MakeBlockMap those of the packed matrices.
    The result is [None] if the schedule stops before all tasks have returned. What Execute
    does is to run the tasks [0 .. thread_count-1], each once, in any interleaving: see
    TrMulMachine.v for the interleavings and ThreadPool.v for Execute. [pack] and [kernel] are the
    RunPack and RunKernel of the TrMulParams. *)
Definition trmul_by {V} (pack : side -> Z -> Z -> tmem V -> res (tmem V))
    (kernel : sp Z -> sp Z -> tmem V -> res (tmem V)) (c : config) (t : tparams V) (prepacked : sp bool) (sched : list (Z * bool))
    (m : tmem V) : res (option (tmem V)) :=
  let rows := ml_cols (m_layout (lhs (tp_src t))) in
  let cols := ml_cols (m_layout (rhs (tp_src t))) in
  let depth := ml_rows (m_layout (lhs (tp_src t))) in
  let ls := o_data_size (tp_ops t) Lhs in
  let rs := o_data_size (tp_ops t) Rhs in
  tentative <- get_tentative_thread_count (c_dbg c) (c_strategy c) (c_max_threads c) rows cols depth ;;
  simple <- get_use_simple_loop (c_opts c) tentative rows cols depth
    (o_src_size (tp_ops t) Lhs) (o_src_size (tp_ops t) Rhs) (c_cache c) ;;
  if (simple : bool) then
    m' <- simple_loop_by pack kernel prepacked t m ;; Ok (Some m')
  else
    bm <- make_block_map (c_dbg c) (c_opts c)
            (pl_cols (lhs (tp_packed_layout t))) (pl_cols (rhs (tp_packed_layout t))) depth
            (kl_cols (lhs (tp_kl t))) (kl_cols (rhs (tp_kl t))) ls rs tentative (c_cache c) ;;
    s <- exec pack kernel (c_dbg c) (c_ahead c) bm prepacked sched (init bm m) ;;
    Ok (if all_done bm s then Some (s_mem s) else None).

(** With the portable RunPack and RunKernel. *)
Definition trmul {V} (c : config) (t : tparams V) (prepacked : sp bool) (sched : list (Z * bool))
    (m : tmem V) : res (option (tmem V)) :=
  trmul_by (tm_run_pack (c_dbg c) t) (tm_run_kernel (c_dbg c) (c_fat c) t) c t prepacked sched m.

(** The contents of freshly allocated memory. *)
Record garbage (V : Type) := {
  g_chan : Z -> V; g_exp : Z -> Z; g_packed : side -> Z -> V; g_sums : side -> Z -> V
}.
Arguments g_chan {V}. Arguments g_exp {V}. Arguments g_packed {V}. Arguments g_sums {V}.

(** frontend.h:45-71 and frontend.cc:24-29: one call, nothing cached. The result is the
    destination matrix after the call, or [None] if the schedule is too short. *)
Definition mul_by {V} (pack : tparams V -> side -> Z -> Z -> tmem V -> res (tmem V))
    (kernel : tparams V -> sp Z -> sp Z -> tmem V -> res (tmem V)) (c : config) (o : ops V) (kl : sp kernel_layout)
    (g : garbage V) (sched : list (Z * bool)) (l r dst : mat V) (mp : mul_params V) : res (option (mat V)) :=
  '(t, _) <- mul_front_end (c_dbg c) o kl (g_chan g) (g_exp g) l r dst mp ;;
  m <- prepare_packed_matrices t (g_packed g) (g_sums g) (m_data dst) ;;
  out <- trmul_by (pack t) (kernel t) c t (mk_sp false false) sched m ;;
  Ok (match out with
      | Some m' => Some {| m_data := tm_dst m'; m_layout := m_layout dst; m_zp := m_zp dst |}
      | None => None
      end).

Definition mul {V} (c : config) (o : ops V) (kl : sp kernel_layout) (g : garbage V) (sched : list (Z * bool))
    (l r dst : mat V) (mp : mul_params V) : res (option (mat V)) :=
  mul_by (fun t => tm_run_pack (c_dbg c) t) (fun t => tm_run_kernel (c_dbg c) (c_fat c) t) c o kl g sched l r dst mp.
