(** Model of ruy/profiler/treeview.{h,cc}.

    Weights are unbounded integers here; that they fit in an int is proved (C56). *)
From Coq Require Import ZArith List Bool.
From Verif Require Import Base Profiler.
Import ListNotations.
Open Scope Z_scope.

(** treeview.h:34-38 *)
Inductive node := Node (children : list node) (lab : label) (weight : Z).
Definition n_children (n : node) : list node := let 'Node c _ _ := n in c.
Definition n_label (n : node) : label := let 'Node _ l _ := n in l.
Definition n_weight (n : node) : Z := let 'Node _ _ w := n in w.

Section Tree.
Variable text : Z -> list Z.
(** The label of a new node before it is assigned: null and not initialised. *)
Variable blank : label.
(** The literals "[other]" and "Thread %x (%d samples)". *)
Variables (other_format thread_format : Z).
(** std::sort: the order in which it puts elements with these weights, by position; it only sees comparisons of weights. *)
Variable order : list Z -> list nat.

(** treeview.cc:46-64 (AddStack). [labels]: those from the level on. *)
Fixpoint add_stack (labels : list label) (n : node) : node :=
  let 'Node children lab weight := n in
  match labels with
  | [] => Node children lab (weight + 1)
  | l :: labels =>
    let fix add (cs : list node) : list node :=
      match cs with
      | [] => [add_stack labels (Node [] (assign_label blank l) 0)]
      | c :: cs => if label_eq text (n_label c) l then add_stack labels c :: cs else c :: add cs
      end in
    Node (add children) lab (weight + 1)
  end.

(** treeview.cc:69-82 (AddOther). *)
Definition other_label : label := {| lb_format := other_format; lb_count := 0; lb_args := lb_args blank; lb_pad := lb_pad blank |}.
Definition children_weight (cs : list node) : Z := fold_right (fun c w => n_weight c + w) 0 cs.
Fixpoint add_other (n : node) : node :=
  let 'Node children lab weight := n in
  let children := map add_other children in
  let top_level_children_weight := children_weight children in
  if negb (top_level_children_weight =? 0) && negb (top_level_children_weight =? weight)
  then Node (children ++ [Node [] other_label (weight - top_level_children_weight)]) lab weight
  else Node children lab weight.

(** treeview.cc:32-41 (SortNode). The recursion does not change weights, so it may as well come first. *)
Fixpoint sort_node (n : node) : node :=
  let 'Node children lab weight := n in
  let children := map sort_node children in
  Node (flat_map (fun i => match nth_error children i with Some c => [c] | None => [] end) (order (map n_weight children))) lab weight.

(** ** TreeView::Populate, treeview.cc:86-112 *)

(** std::map<uint32_t, Node>: in increasing order of keys. *)
Definition roots := list (Z * node).
Fixpoint add_root (id : Z) (labels : list label) (m : roots) : roots :=
  match m with
  | [] => [(id, add_stack labels (Node [] blank 0))]
  | (k, n) :: m' =>
    if id =? k then (k, add_stack labels n) :: m'
    else if id <? k then (id, add_stack labels (Node [] blank 0)) :: m
    else (k, n) :: add_root id labels m'
  end.

(** treeview.cc:89-102. [dbg]: assert is compiled in. [fresh]: the labels of the local Stack. Fuel: the length of the buffer is enough. *)
Fixpoint read_samples (fuel : nat) (dbg : bool) (fresh : list label) (buf : list Z) (m : roots) : res roots :=
  match fuel with
  | O => match buf with [] => Ok m | _ => UB end
  | S fuel =>
    match buf with
    | [] => Ok m
    | _ =>
      s <- read_stack fresh buf ;;
      dcheck dbg (0 <? st_size s) ;;;
      if (buffer_size s <=? 0) || (Z.of_nat (length buf) <? buffer_size s) then UB else
      let id := wrap_u 32 (wrap_s 32 (st_id s)) in
      read_samples fuel dbg fresh (skipn (Z.to_nat (buffer_size s)) buf) (add_root id (firstn (Z.to_nat (st_size s)) (st_labels s)) m)
    end
  end.

(** treeview.cc:105-111. The label of a root has two arguments; the id is converted to int. *)
Definition finish_root (id : Z) (root : node) : res node :=
  let 'Node children lab weight := sort_node (add_other root) in
  lab <- set_label thread_format [wrap_s 32 id; weight] lab ;;
  Ok (Node children lab weight).
Fixpoint finish_roots (m : roots) : res roots :=
  match m with [] => Ok [] | (id, n) :: m => n <- finish_root id n ;; m <- finish_roots m ;; Ok ((id, n) :: m) end.

Definition populate (dbg : bool) (fresh : list label) (buf : list Z) : res roots :=
  m <- read_samples (length buf) dbg fresh buf [] ;; finish_roots m.

(** ** Functions of trees *)

(** treeview.cc:144-154 *)
Fixpoint depth_below (n : node) : Z :=
  match n_children n with
  | [] => 0
  | _ => 1 + fold_right (fun c m => Z.max (depth_below c) m) 0 (n_children n)
  end.

(** treeview.cc:156-167 *)
Fixpoint weight_matching (match_ : label -> bool) (n : node) : Z :=
  (if match_ (n_label n) then n_weight n else 0) + fold_right (fun c w => weight_matching match_ c + w) 0 (n_children n).

(** treeview.cc:183-195 (CollapseNode): the label of the new node is assigned. [depth] is decreased as long as positive. *)
Fixpoint collapse_node (depth : nat) (n : node) : node :=
  let 'Node children lab weight := n in
  Node (match depth with O => [] | S depth => map (collapse_node depth) children end) (assign_label blank lab) weight.

(** treeview.cc:197-213 *)
Fixpoint collapse_matching (depth : nat) (match_ : label -> bool) (n : node) : node :=
  let 'Node children lab weight := n in
  if match_ lab then collapse_node depth n
  else Node (map (collapse_matching depth match_) children) (assign_label blank lab) weight.

(** treeview.cc:215-227. A negative depth is like 0. *)
Definition collapse_roots (depth : Z) (match_ : label -> bool) (m : roots) : roots :=
  map (fun '(id, n) => (id, collapse_matching (Z.to_nat depth) match_ n)) m.
End Tree.
