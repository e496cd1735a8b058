(** Model of ruy/tune.cc: the tuning of kernels to the current processor. *)
From Verif Require Import Base BlockMap CpuInfo.

(** tune.h:52-79. *)
Inductive tuning := TAuto | TGeneric | TA55ish | TX1.
Definition is_auto (t : tuning) : bool := match t with TAuto => true | _ => false end.

(** Microarchitectures as far as cpuinfo.cc:134-170 tells them apart. [None]: the library
    does not know the current one. *)
Inductive uarch := CortexA53 | CortexA55r0 | CortexA55 | CortexX1 | OtherUarch.

(** cpuinfo.cc:134-152 (CurrentCpuIsA55ish); 186 without the library. [u] is what the
    library says when asked. *)
Definition current_cpu_is_a55ish (dbg : bool) (m : machine) (u : option uarch) (i : cpu_info) : res (bool * cpu_info) :=
  if m_library m then
    '(b, i) <- ensure_initialized dbg m i ;;
    Ok (b && match u with Some CortexA53 | Some CortexA55r0 | Some CortexA55 => true | _ => false end, i)
  else Ok (false, i).

(** cpuinfo.cc:154-167 (CurrentCpuIsX1); 187 without the library. *)
Definition current_cpu_is_x1 (dbg : bool) (m : machine) (u : option uarch) (i : cpu_info) : res (bool * cpu_info) :=
  if m_library m then
    '(b, i) <- ensure_initialized dbg m i ;;
    Ok (b && match u with Some CortexX1 => true | _ => false end, i)
  else Ok (false, i).

(** tune.h:90-119. Times are nanoseconds in [int64_t], as in libstdc++ and libc++. *)
Record resolver := { rs_unresolved : tuning; rs_last : tuning; rs_time : Z }.
Definition resolver_init : resolver := {| rs_unresolved := TAuto; rs_last := TAuto; rs_time := 0 |}.
(** tune.cc:35-36: 250 milliseconds. *)
Definition expiry : Z := 250 * 1000000.

(** tune.h:96. *)
Definition set_tuning (t : tuning) (r : resolver) : resolver :=
  {| rs_unresolved := t; rs_last := rs_last r; rs_time := rs_time r |}.

(** tune.cc:25-33. The thread may move between the two questions: two answers. *)
Definition resolve_now (dbg : bool) (m : machine) (u : option uarch * option uarch) (i : cpu_info) : res (tuning * cpu_info) :=
  '(a55, i) <- current_cpu_is_a55ish dbg m (fst u) i ;;
  if (a55 : bool) then Ok (TA55ish, i)
  else
    '(x1, i) <- current_cpu_is_x1 dbg m (snd u) i ;;
    Ok (if (x1 : bool) then TX1 else TGeneric, i).

(** tune.cc:38-51. The boolean says whether the processor was asked. *)
Definition resolve (dbg : bool) (m : machine) (now : Z) (u : option uarch * option uarch) (r : resolver) (i : cpu_info)
  : res (tuning * bool * resolver * cpu_info) :=
  if is_auto (rs_unresolved r) then
    recent <- (if is_auto (rs_last r) then Ok false else d <- i64 (now - rs_time r) ;; Ok (d <? expiry)) ;;
    if (recent : bool) then Ok (rs_last r, false, r, i)
    else
      '(t, i) <- resolve_now dbg m u i ;;
      Ok (t, true, {| rs_unresolved := rs_unresolved r; rs_last := t; rs_time := now |}, i)
  else Ok (rs_unresolved r, false, r, i).
