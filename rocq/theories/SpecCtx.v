(** What is asked of a context over any history of operations. *)
From Verif Require Import Base SidePair BlockMap ThreadCount SpecArith Mat Scalars MulParams TrMulRun SpecMul CpuInfo SpecCpu Tune Ctx.

(** * The options the user has set *)
Record settings := { s_threads : Z; s_strategy : num_threads_strategy; s_tuning : tuning; s_paths : Z }.
Definition initial : settings := {| s_threads := 1; s_strategy := StrategyDefault; s_tuning := TAuto; s_paths := 0 |}.
Definition change {V} (op : operation V) (s : settings) : settings :=
  match op with
  | SetPaths p => {| s_threads := s_threads s; s_strategy := s_strategy s; s_tuning := s_tuning s; s_paths := p |}
  | SetTuning t => {| s_threads := s_threads s; s_strategy := s_strategy s; s_tuning := t; s_paths := s_paths s |}
  | SetThreads n => {| s_threads := n; s_strategy := s_strategy s; s_tuning := s_tuning s; s_paths := s_paths s |}
  | SetStrategy t => {| s_threads := s_threads s; s_strategy := t; s_tuning := s_tuning s; s_paths := s_paths s |}
  | _ => s
  end.

Definition after {V} (ops : list (operation V)) (s : settings) : settings := fold_left (fun s op => change op s) ops s.

(** The multiplications of a history, each with the options set at the time. *)
Record product (V : Type) := { p_settings : settings; p_request : request V; p_path : Z; p_packs : list resolution; p_used : list resolution; p_out : option (mat V) }.
Arguments p_settings {V}. Arguments p_request {V}. Arguments p_path {V}. Arguments p_packs {V}. Arguments p_used {V}. Arguments p_out {V}.
Fixpoint products {V} (s : settings) (ops : list (operation V)) (obs : list (observation V)) : list (product V) :=
  match ops, obs with
  | Multiply q :: ops, Product path packs used out :: obs =>
    {| p_settings := s; p_request := q; p_path := path; p_packs := packs; p_used := used; p_out := out |} :: products s ops obs
  | op :: ops, _ :: obs => products (change op s) ops obs
  | _, _ => []
  end.

(** * Paths *)

(** The library works and knows the caches of every processor. *)
Definition usable (m : machine) : Prop :=
  m_library m = true /\ m_initialize m = true /\ forall p, In p (m_processors m) -> last_level (m_processors m) p <> None.

(** The architecture's paths, by bit, that the machine can run and the build has. *)
Definition supported (b : build) (k : Z) : Prop :=
  let f := m_features (b_machine b) in
  match b_platform b with
  | PlatformNeon64 => k = 4 \/ k = 5 /\ usable (b_machine b) /\ f_neon_dot f = true
  | PlatformNeon32 => k = 4
  | PlatformX86 =>
    k = 4 /\ b_avx b = true /\ usable (b_machine b) /\ f_avx f = true \/
    k = 5 /\ b_avx2_fma b = true /\ usable (b_machine b) /\ f_avx2 f = true /\ f_fma3 f = true \/
    k = 6 /\ b_avx512 b = true /\ usable (b_machine b) /\ f_avx512f f = true /\ f_avx512dq f = true /\ f_avx512cd f = true /\
      f_avx512bw f = true /\ f_avx512vl f = true
  | PlatformArm | PlatformOther => False
  end.

(** Paths named in the environment. *)
Definition environment (b : build) : Z := match b_env b with Some (Some z) => z mod 256 | _ => 0 end.

(** The paths enabled when the user has asked for the set [explicit]: those and the
    portable one; by default those of the environment; by default the portable ones (bits
    0 to 3) and those supported. *)
Definition enabled (b : build) (explicit k : Z) : Prop :=
  if explicit =? 0 then
    if environment b =? 0 then 0 <= k <= 3 \/ supported b k else Z.testbit (environment b) k = true
  else k = 0 \/ Z.testbit explicit k = true.

Definition chosen (b : build) (explicit compiled path : Z) : Prop :=
  exists k, 0 <= k < 8 /\ path = 2 ^ k /\ Z.testbit compiled k = true /\ enabled b explicit k /\
    forall j, k < j -> ~ (Z.testbit compiled j = true /\ enabled b explicit j).

(** Paths that are not internal to the library, by bit. *)
Definition public_path (p : platform) (k : Z) : Prop :=
  k = 0 \/ match p with PlatformNeon64 => 4 <= k <= 5 | PlatformNeon32 => k = 4 | PlatformX86 => 4 <= k <= 6 | _ => False end.

(** * Advisories *)

(** The multiplication had to copy per-channel arrays: the capacity the user declares is
    below what kernels read. *)
Definition copies {V} (p : product V) : Prop :=
  let q := p_request p in
  let n := channel_count (q_mp q) (m_layout (q_dst q)) in
  exists cap req, is_round_up n (2 ^ mp_rounding_log2 (q_mp q)) cap /\
    is_round_up n (kl_cols (channel_kernel (snd (q_variant q (p_path p))) (q_mp q) (m_layout (q_dst q)))) req /\ cap < req.

(** * Questions *)

(** [past] are the multiplications so far. *)
Definition last_product {V} (past : list (product V)) : option (product V) := hd_error (rev past).
Definition right_reply {V} (b : build) (s : settings) (past : list (product V)) (op : operation V) (a : observation V) : Prop :=
  match op, a with
  | GetPaths, Paths p => forall k, Z.testbit p k = true <-> public_path (b_platform b) k /\ enabled b (s_paths s) k
  | GetLastPath, Paths p => p = match last_product past with Some x => p_path x | None => 0 end
  | GetAdvisory, Advisory c => c = true <-> exists x, last_product past = Some x /\ copies x
  | Multiply q, Product path _ _ _ => chosen b (s_paths s) (q_compiled q) path
  | (SetPaths _ | SetTuning _ | SetThreads _ | SetStrategy _ | ClearCache), Nothing => True
  | _, _ => False
  end.
Fixpoint right_replies {V} (b : build) (s : settings) (past : list (product V)) (ops : list (operation V)) (obs : list (observation V)) : Prop :=
  match ops, obs with
  | op :: ops, a :: obs => right_reply b s past op a /\
      match a with
      | Product _ _ _ None => obs = []
      | _ => right_replies b (change op s) (past ++ products s [op] [a]) ops obs
      end
  | [], [] => True
  | _, _ => False
  end.

(** * Tuning *)

Definition a55ish (u : option uarch) : Prop := u = Some CortexA53 \/ u = Some CortexA55r0 \/ u = Some CortexA55.
(** The tuning for the processor a thread is on. *)
Definition measures (m : machine) (u : option uarch * option uarch) (t : tuning) : Prop :=
  match t with
  | TAuto => False
  | TA55ish => usable m /\ a55ish (fst u)
  | TX1 => usable m /\ ~ a55ish (fst u) /\ snd u = Some CortexX1
  | TGeneric => ~ (usable m /\ (a55ish (fst u) \/ snd u = Some CortexX1))
  end.

Definition period : Z := 250000000.

(** What one thread did in all multiplications it took part in, with the tuning the user
    had asked for. Thread 0 is the caller: it packs for the cache too. *)
Definition thread_part {V} (i : nat) (p : product V) : list (tuning * resolution) :=
  map (pair (s_tuning (p_settings p)))
    ((if (i =? 0)%nat then p_packs p else []) ++ match nth_error (p_used p) i with Some r => [r] | None => [] end).
Definition thread_log {V} (i : nat) (ps : list (product V)) : list (tuning * resolution) := flat_map (thread_part i) ps.

(** An explicit tuning is used as it is. Otherwise the tuning is the one measured by the
    thread's latest measurement, which is now or less than a period ago; measurements are
    at least a period apart. *)
Record right_resolutions (m : machine) (l : list (tuning * resolution)) : Prop := {
  rr_explicit : forall i t r, nth_error l i = Some (t, r) -> t <> TAuto -> rn_tuning r = t /\ rn_asked r = false;
  rr_auto : forall i r, nth_error l i = Some (TAuto, r) -> exists j r', (j <= i)%nat /\ nth_error l j = Some (TAuto, r') /\
    rn_asked r' = true /\ measures m (rn_uarch r') (rn_tuning r') /\ rn_tuning r = rn_tuning r' /\
    (j = i \/ rn_now r - rn_now r' < period) /\
    forall k t x, (j < k <= i)%nat -> nth_error l k = Some (t, x) -> rn_asked x = false;
  rr_apart : forall i j t r t' r', (j < i)%nat -> nth_error l i = Some (t, r) -> nth_error l j = Some (t', r') ->
    rn_asked r = true -> rn_asked r' = true -> period <= rn_now r - rn_now r'
}.

(** * Resources of threads *)

(** Thread [i] of any multiplication uses the resources at address [f i], and no other
    thread does. *)
Definition private_resources {V} (ps : list (product V)) : Prop :=
  exists f : nat -> Z, (forall i j, f i = f j -> i = j) /\
    forall p, In p ps -> map rn_addr (p_used p) = map f (seq 0 (length (p_used p))) /\
      Forall (fun r => rn_addr r = f O) (p_packs p).

(** * Valid operations *)
Definition valid_operation {V} (b : build) (op : operation V) : Prop :=
  match op with
  | SetPaths p => 0 <= p < 256
  | SetThreads n => 1 <= n <= int_max
  | Multiply q => 0 <= q_compiled q < 256 /\ (forall i, 0 <= q_now q i < 2 ^ 63) /\ (forall i, 0 <= q_pack_now q i < 2 ^ 63) /\
      forall k, 0 <= k < 8 -> Z.testbit (q_compiled q) k = true ->
        well_formed_call (b_dbg b) (fst (q_variant q (2 ^ k))) (snd (q_variant q (2 ^ k))) (q_lhs q) (q_rhs q) (q_dst q) (q_mp q)
  | _ => True
  end.
