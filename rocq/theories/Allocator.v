(** Model of ruy/allocator.h, ruy/allocator.cc and ruy/system_aligned_alloc.cc.
    Addresses are integers, 0 is null. [std::ptrdiff_t] has 64 bits; its additions are
    checked. *)
From Verif Require Import Base SizeUtil.

(** system_aligned_alloc.h:42. *)
Definition min_block_alignment : Z := 64.

(** What the system allocator was asked; [growing]: by FreeAll. A log of the model only. *)
Inductive sys_event := SAlloc (growing : bool) (n p : Z) | SFree (p : Z).

(** allocator.h:91-95, and the blocks [(address, size)] the system has given and not got
    back. *)
Record ast := {
  a_ptr : Z; a_current : Z; a_size : Z; a_fallback : list Z; a_fb_total : Z;
  a_live : list (Z * Z); a_trace : list sys_event }.

Definition a_init : ast :=
  {| a_ptr := 0; a_current := 0; a_size := 0; a_fallback := []; a_fb_total := 0; a_live := []; a_trace := [] |}.

Section System.
(** The system allocator: its answer may depend on all previous calls, on the blocks it
    has given and on the size. 0: no memory. *)
Variable sys : list sys_event -> list (Z * Z) -> Z -> Z.

(** system_aligned_alloc.cc:30-40. *)
Definition sys_alloc (growing : bool) (n : Z) (s : ast) : Z * ast :=
  let p := sys (a_trace s) (a_live s) n in
  (p, {| a_ptr := a_ptr s; a_current := a_current s; a_size := a_size s; a_fallback := a_fallback s; a_fb_total := a_fb_total s;
         a_live := if p =? 0 then a_live s else a_live s ++ [(p, n)];
         a_trace := a_trace s ++ [SAlloc growing n p] |}).

(** system_aligned_alloc.cc:42-48. Freeing what the system has not given is undefined. *)
Definition sys_free (p : Z) (s : ast) : res ast :=
  if p =? 0 then Ok s
  else if existsb (fun b => fst b =? p) (a_live s) then
    Ok {| a_ptr := a_ptr s; a_current := a_current s; a_size := a_size s; a_fallback := a_fallback s; a_fb_total := a_fb_total s;
          a_live := filter (fun b => negb (fst b =? p)) (a_live s); a_trace := a_trace s ++ [SFree p] |}
  else UB.

(** allocator.cc:29-36. Adding to a null pointer is taken to be integer arithmetic. *)
Definition allocate_fast (num_bytes : Z) (s : ast) : res (Z * ast) :=
  e <- i64 (a_current s + num_bytes) ;;
  if a_size s <? e then Ok (0, s)
  else Ok (a_ptr s + a_current s,
           {| a_ptr := a_ptr s; a_current := e; a_size := a_size s; a_fallback := a_fallback s; a_fb_total := a_fb_total s;
              a_live := a_live s; a_trace := a_trace s |}).

(** allocator.cc:38-46. *)
Definition allocate_slow (num_bytes : Z) (s : ast) : res (Z * ast) :=
  let '(p, s) := sys_alloc false num_bytes s in
  if p =? 0 then Ok (0, s)
  else
    t <- i64 (a_fb_total s + num_bytes) ;;
    Ok (p, {| a_ptr := a_ptr s; a_current := a_current s; a_size := a_size s; a_fallback := a_fallback s ++ [p]; a_fb_total := t;
              a_live := a_live s; a_trace := a_trace s |}).

(** allocator.cc:48-58. *)
Definition allocate_bytes (dbg : bool) (num_bytes : Z) (s : ast) : res (Z * ast) :=
  if num_bytes =? 0 then Ok (0, s)
  else
    n <- round_up_pot dbg 64 num_bytes min_block_alignment ;;
    '(p, s) <- allocate_fast n s ;;
    if p =? 0 then allocate_slow n s else Ok (p, s).

(** allocator.cc:60-103. [avoid] is RUY_OPT(AVOID_ALIASING). *)
Definition allocate_bytes_avoiding (dbg avoid : bool) (num_bytes to_avoid : Z) (s : ast) : res (Z * ast) :=
  if avoid then
    if num_bytes =? 0 then Ok (0, s)
    else
      n <- i64 (num_bytes + 1024) ;;
      '(p, s) <- allocate_bytes dbg n s ;;
      if p =? 0 then Ok (0, s)
      else
        let diff := Z.rem (wrap_u 32 (wrap_u 32 p - wrap_u 32 to_avoid)) 1024 in
        Ok (p + (if (diff <? 1024 / 4) || (3 * 1024 / 4 <? diff) then 1024 / 2 else 0), s)
  else allocate_bytes dbg num_bytes s.

(** allocator.cc:112-114. *)
Fixpoint free_list (l : list Z) (s : ast) : res ast :=
  match l with
  | [] => Ok s
  | p :: l => s <- sys_free p s ;; free_list l s
  end.

(** allocator.cc:105-130. The result of the system allocator is not looked at. *)
Definition free_all (s : ast) : res ast :=
  let s := {| a_ptr := a_ptr s; a_current := 0; a_size := a_size s; a_fallback := a_fallback s; a_fb_total := a_fb_total s;
              a_live := a_live s; a_trace := a_trace s |} in
  match a_fallback s with
  | [] => Ok s
  | _ =>
    s <- sys_free (a_ptr s) s ;;
    s <- free_list (a_fallback s) s ;;
    new_size <- i64 (a_size s + a_fb_total s) ;;
    let '(p, s) := sys_alloc true new_size s in
    Ok {| a_ptr := p; a_current := a_current s; a_size := new_size; a_fallback := []; a_fb_total := 0;
          a_live := a_live s; a_trace := a_trace s |}
  end.

(** allocator.cc:24-27 (the destructor). *)
Definition destroy (s : ast) : res ast := s <- free_all s ;; sys_free (a_ptr s) s.

(** The operations of the interface. *)
Inductive op := OAlloc (n : Z) | OAllocAvoid (n to_avoid : Z) | OFreeAll.

Definition step (dbg avoid : bool) (o : op) (s : ast) : res (Z * ast) :=
  match o with
  | OAlloc n => allocate_bytes dbg n s
  | OAllocAvoid n a => allocate_bytes_avoiding dbg avoid n a s
  | OFreeAll => s <- free_all s ;; Ok (0, s)
  end.
End System.
