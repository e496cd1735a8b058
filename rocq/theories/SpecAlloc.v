(** What is asked of the allocator, independently of how it works. *)
From Verif Require Import Base Allocator.

(** Two blocks [(address, size)] without a common byte. *)
Definition disjoint (a b : Z * Z) : Prop := fst a + snd a <= fst b \/ fst b + snd b <= fst a.

Definition inside (a b : Z * Z) : Prop := fst b <= fst a /\ fst a + snd a <= fst b + snd b.

(** A system allocator that fails, or returns an aligned block, below 2^62, without a
    common byte with the blocks that have not been given back. *)
Definition good_system (sys : list sys_event -> list (Z * Z) -> Z -> Z) : Prop :=
  forall past live n, sys past live n <> 0 ->
    0 < sys past live n /\ (64 | sys past live n) /\ sys past live n + n <= 2 ^ 62 /\
    forall b, In b live -> disjoint (sys past live n, n) b.

Definition valid_op (o : op) : Prop :=
  match o with OAlloc n => 0 <= n <= 2 ^ 61 | OAllocAvoid n _ => 0 <= n <= 2 ^ 61 | OFreeAll => True end.

(** Executes operations, collecting the blocks handed out since the last FreeAll, latest first, as
    (address, requested size). *)
Fixpoint run sys (dbg avoid : bool) (ops : list op) (s : ast) (blocks : list (Z * Z)) : res (ast * list (Z * Z)) :=
  match ops with
  | [] => Ok (s, blocks)
  | o :: ops =>
    '(p, s) <- step sys dbg avoid o s ;;
    run sys dbg avoid ops s
      (match o with
       | OAlloc n | OAllocAvoid n _ => if p =? 0 then blocks else (p, n) :: blocks
       | OFreeAll => []
       end)
  end.

(** Aligned, disjoint, and in memory given by the system and not given back. *)
Definition usable (live blocks : list (Z * Z)) : Prop :=
  (forall b, In b blocks -> 0 < fst b /\ (64 | fst b) /\ exists l, In l live /\ inside b l) /\
  ForallOrdPairs disjoint blocks.

(** FreeAll asked for memory and got none. *)
Definition growth_failed (trace : list sys_event) : Prop := exists n, In (SAlloc true n 0) trace.
Definition growth_fails sys (dbg avoid : bool) (ops : list op) : Prop :=
  exists before after s bs, ops = before ++ after /\ run sys dbg avoid before a_init [] = Ok (s, bs) /\ growth_failed (a_trace s).
Definition some_call_failed (trace : list sys_event) : Prop := exists g n, In (SAlloc g n 0) trace.

(** How many times the system gave, and got back, the block at [p]. *)
Definition times_given (p : Z) (t : list sys_event) : nat :=
  length (filter (fun e => match e with SAlloc _ _ q => q =? p | SFree _ => false end) t).
Definition times_freed (p : Z) (t : list sys_event) : nat :=
  length (filter (fun e => match e with SAlloc _ _ _ => false | SFree q => q =? p end) t).
(** A block is freed once each time it is given, after it. *)
Definition freed_once (trace : list sys_event) : Prop :=
  forall p, p <> 0 ->
    times_given p trace = times_freed p trace /\
    forall t1 t2, trace = t1 ++ t2 -> (times_freed p t1 <= times_given p t1 <= times_freed p t1 + 1)%nat.

(** Bytes a round of allocations needs, each rounded up to 64, and [1024] more when
    aliasing is to be avoided. *)
Definition rounded (n : Z) : Z := 64 * ((n + 63) / 64).
Definition need (avoid : bool) (o : op) : Z :=
  match o with
  | OAlloc n => rounded n
  | OAllocAvoid n _ => if n =? 0 then 0 else rounded (if avoid then n + 1024 else n)
  | OFreeAll => 0
  end.
Definition total (avoid : bool) (ops : list op) : Z := fold_right (fun o t => need avoid o + t) 0 ops.
(** Rounds of allocations, each followed by FreeAll. *)
Definition history (rounds : list (list op)) : list op := concat (map (fun r => r ++ [OFreeAll]) rounds).
Definition is_alloc (o : op) : Prop := match o with OFreeAll => False | _ => True end.
Definition requests_bytes (o : op) : bool :=
  match o with OAlloc n | OAllocAvoid n _ => negb (n =? 0) | OFreeAll => false end.
Definition requested (o : op) : option Z := match o with OAlloc n | OAllocAvoid n _ => Some n | OFreeAll => None end.

(** A system for examples: gives the memory above all given blocks, except when [fails]. *)
Definition top (live : list (Z * Z)) : Z := fold_right (fun b t => Z.max (fst b + snd b) t) 64 live.
Definition example_system (fails : list sys_event -> bool) (past : list sys_event) (live : list (Z * Z)) (n : Z) : Z :=
  if fails past then 0 else if rounded (top live) + n <=? 2 ^ 62 then rounded (top live) else 0.
