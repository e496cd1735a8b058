(** Specification vocabulary for the worker threads of a multiplication. *)
From Verif Require Import Base SidePair BlockMap SpecBlockMap TrMulMachine.

(** [bm] is a block map made by MakeBlockMap inside its domain. *)
Definition made_block_map (bm : block_map) : Prop :=
  exists dbg opts rows cols depth krows kcols ls rs n cp,
    bm_domain rows cols depth krows kcols ls rs n cp /\
    make_block_map dbg opts rows cols depth krows kcols ls rs n cp = Ok bm.

(** What the threads do to packed data and to the destination, in the order in which
    it happens: columns [a, b) of one side packed, a rectangle of the destination
    computed. *)
Inductive event := Packed (s : side) (a b : Z) | Computed (r : rect).

Definition log_pack (s : side) (a b : Z) (tr : list event) : res (list event) := Ok (tr ++ [Packed s a b]).
Definition log_kernel (st en : sp Z) (tr : list event) : res (list event) :=
  Ok (tr ++ [Computed {| row0 := lhs st; row1 := lhs en; col0 := rhs st; col1 := rhs en |}]).

Fixpoint computed (tr : list event) : list rect :=
  match tr with
  | [] => []
  | Computed r :: t => r :: computed t
  | _ :: t => computed t
  end.
Fixpoint packed (tr : list event) : list (side * (Z * Z)) :=
  match tr with
  | [] => []
  | Packed s a b :: t => (s, (a, b)) :: packed t
  | _ :: t => packed t
  end.

(** The columns of each packed side that a rectangle needs. *)
Definition span (s : side) (r : rect) : Z * Z :=
  match s with Lhs => (row0 r, row1 r) | Rhs => (col0 r, col1 r) end.

(** Every computed rectangle comes after the packing of what it needs, unless that side
    was packed before the start. *)
Definition packed_before_use (prepacked : sp bool) (tr : list event) : Prop :=
  forall pre r post, tr = pre ++ Computed r :: post ->
  forall s, get s prepacked = false -> In (s, span s r) (packed pre).

(** The tasks succeed whenever they are called. *)
Definition tasks_total {M} (run_pack : side -> Z -> Z -> M -> res M) (run_kernel : sp Z -> sp Z -> M -> res M) : Prop :=
  (forall sd a b m, exists m', run_pack sd a b m = Ok m') /\ (forall st en m, exists m', run_kernel st en m = Ok m').

(** Thread [i] is about to wait: it finds the block it needs being packed by another. *)
Definition waiting {M} (s : mst M) (i : Z) : Prop :=
  exists w tg r, s_pc s i = PTry w tg r /\ s_status s (tg_side tg) (tg_block tg) = InProgress.

(** Thread [i] is packing or about to publish a packed block. *)
Definition packing {M} (s : mst M) (i : Z) : Prop :=
  match s_pc s i with PPack _ _ _ | PStore _ _ _ => True | _ => False end.

(** Thread [i] will do useful work in its next step: start a block, pack, publish, run a
    kernel or leave the loop. All other steps look at the status of a block. *)
Definition working {M} (bm : block_map) (s : mst M) (i : Z) : bool :=
  (0 <=? i) && (i <? bm_thread_count bm) && match s_pc s i with PTry _ _ _ | PDone => false | _ => true end.

Section Count.
Variable M : Type.
Variables (run_pack : side -> Z -> Z -> M -> res M) (run_kernel : sp Z -> sp Z -> M -> res M).
Variables (dbg ahead : bool) (bm : block_map) (prepacked : sp bool).
(** How many steps of a schedule do useful work. *)
Fixpoint working_steps (sched : list (Z * bool)) (s : mst M) : Z :=
  match sched with
  | [] => 0
  | (i, stale) :: rest =>
    match step run_pack run_kernel dbg ahead bm prepacked i stale s with
    | Ok s' => (if working bm s i then 1 else 0) + working_steps rest s'
    | _ => 0
    end
  end.
End Count.
Arguments working_steps {M}.

(** An infinite schedule gives every thread infinitely many turns, and from some point on
    nobody reads outdated values. *)
Definition fair (n : Z) (sched : nat -> Z * bool) : Prop :=
  (forall i k, 0 <= i < n -> exists k', (k <= k')%nat /\ fst (sched k') = i) /\
  (exists k0, forall k, (k0 <= k)%nat -> snd (sched k) = false).
Definition prefix {A} (sched : nat -> A) (k : nat) : list A := map sched (seq 0 k).
