(** Model of ruy/cpuinfo.cc: cache sizes and features of the processors. The cpuinfo
    library is an oracle: its description of the machine is a value. *)
From Verif Require Import Base BlockMap.

(** What the library says: [uint32_t] sizes and ranges of processors. *)
Record cache_desc := { cd_size : Z; cd_start : Z; cd_count : Z }.
(** A processor: its core, and the caches of levels 1 (data), 2 and 3 if it has them. *)
Record processor := { pr_core : Z; pr_l1d : option cache_desc; pr_l2 : option cache_desc; pr_l3 : option cache_desc }.
(** Features, each as the library reports it (cpuinfo.cc:109-132). *)
Record features := { f_neon_dot : bool; f_avx : bool; f_avx2 : bool; f_fma3 : bool;
  f_avx512f : bool; f_avx512dq : bool; f_avx512cd : bool; f_avx512bw : bool; f_avx512vl : bool }.
(** [m_library] is false in builds without the library (RUY_HAVE_CPUINFO not defined);
    [m_initialize] is the result of cpuinfo_initialize. *)
Record machine := { m_library : bool; m_initialize : bool; m_processors : list processor; m_features : features }.

(** cpuinfo_get_processor: null for indices that do not exist. *)
Definition get_processor (ps : list processor) (i : Z) : option processor :=
  if (0 <=? i) && (i <? Z.of_nat (length ps)) then nth_error ps (Z.to_nat i) else None.

(** cpuinfo.cc:51-75, the loop over cache levels: (local_cache_size, last_level_cache_size). *)
Fixpoint scan_caches (ps : list processor) (cs : list (option cache_desc)) (acc : Z * Z) : Z * Z :=
  match cs with
  | [] => acc
  | None :: cs => scan_caches ps cs acc
  | Some c :: cs =>
    if cd_count c =? 0 then scan_caches ps cs acc
    else
      match get_processor ps (cd_start c), get_processor ps (wrap_u 32 (cd_start c + cd_count c - 1)) with
      | Some a, Some b =>
        let size := wrap_s 32 (cd_size c) in
        scan_caches ps cs (if pr_core a =? pr_core b then size else fst acc, size)
      | _, _ => scan_caches ps cs acc
      end
  end.

(** cpuinfo.cc:48-84 for one processor; [None]: return false. *)
Definition processor_sizes (dbg : bool) (ps : list processor) (p : processor) : res (option (Z * Z)) :=
  let '(local, last) := scan_caches ps [pr_l1d p; pr_l2 p; pr_l3 p] (0, 0) in
  let local := if local =? 0 then last else local in
  if (local =? 0) || (last =? 0) then Ok None
  else dcheck dbg (local <=? last) ;;; Ok (Some (local, last)).

(** The loop of cpuinfo.cc:47-89 over processors. *)
Fixpoint scan_processors (dbg : bool) (all ps : list processor) (acc : Z * Z) : res (option (Z * Z)) :=
  match ps with
  | [] => Ok (Some acc)
  | p :: ps =>
    x <- processor_sizes dbg all p ;;
    match x with
    | None => Ok None
    | Some (local, last) => scan_processors dbg all ps (Z.min (fst acc) local, Z.min (snd acc) last)
    end
  end.

(** cpuinfo.cc:42-93. *)
Definition query_cache_params (dbg : bool) (ps : list processor) : res (option cache_params) :=
  dcheck dbg (0 <? Z.of_nat (length ps)) ;;;
  x <- scan_processors dbg ps ps (int_max, int_max) ;;
  Ok (match x with
      | Some (local, last) => Some {| local_cache_size := local; last_level_cache_size := last |}
      | None => None
      end).

(** cpuinfo.cc:18-22. *)
Definition dummy_cache_params : cache_params := {| local_cache_size := 32 * 1024; last_level_cache_size := 512 * 1024 |}.

(** cpuinfo.h:45-52. *)
Inductive init_status := NotYetAttempted | Initialized | Failed.
Record cpu_info := { ci_status : init_status; ci_params : cache_params }.
Definition cpu_init : cpu_info := {| ci_status := NotYetAttempted; ci_params := {| local_cache_size := 0; last_level_cache_size := 0 |} |}.

(** cpuinfo.cc:96-107 (Initialize). *)
Definition initialize (dbg : bool) (m : machine) : res (init_status * cache_params) :=
  if m_initialize m then
    x <- query_cache_params dbg (m_processors m) ;;
    Ok (match x with Some p => (Initialized, p) | None => (Failed, dummy_cache_params) end)
  else Ok (Failed, dummy_cache_params).

(** cpuinfo.cc:33-39 and, without the library, 172-178. *)
Definition ensure_initialized (dbg : bool) (m : machine) (i : cpu_info) : res (bool * cpu_info) :=
  match ci_status i with
  | NotYetAttempted =>
    if m_library m then
      '(s, p) <- initialize dbg m ;;
      Ok (match s with Initialized => true | _ => false end, {| ci_status := s; ci_params := p |})
    else Ok (true, {| ci_status := Initialized; ci_params := dummy_cache_params |})
  | Initialized => Ok (true, i)
  | Failed => Ok (false, i)
  end.

(** cpuinfo.cc:109-132 and 180-187: a feature as ruy sees it. Without the library all are false. *)
Definition has_feature (dbg : bool) (m : machine) (f : features -> bool) (i : cpu_info) : res (bool * cpu_info) :=
  if m_library m then '(b, i) <- ensure_initialized dbg m i ;; Ok (b && f (m_features m), i)
  else Ok (false, i).

Definition neon_dotprod (f : features) : bool := f_neon_dot f.
Definition avx (f : features) : bool := f_avx f.
Definition avx2_fma (f : features) : bool := f_avx2 f && f_fma3 f.
Definition avx512 (f : features) : bool := f_avx512f f && f_avx512dq f && f_avx512cd f && f_avx512bw f && f_avx512vl f.

(** cpuinfo.cc:191-195. *)
Definition cache_params_of (dbg : bool) (m : machine) (i : cpu_info) : res (cache_params * cpu_info) :=
  '(_, i) <- ensure_initialized dbg m i ;; Ok (ci_params i, i).
