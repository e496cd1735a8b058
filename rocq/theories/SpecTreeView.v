(** What a tree view says about a profile, in terms of paths of displayed lines. *)
From Coq Require Import ZArith List Bool Sorted Permutation.
From Verif Require Import Base Profiler SpecProfiler TreeView.
Import ListNotations.
Open Scope Z_scope.

(** A displayed line: the characters of the literal, and the arguments. *)
Definition line : Type := list Z * list Z.
Definition line_eq_dec : forall a b : line, {a = b} + {a <> b}.
Proof. decide equality; apply (list_eq_dec Z.eq_dec). Defined.
Definition path_eq_dec : forall a b : list line, {a = b} + {a <> b} := list_eq_dec line_eq_dec.

Section Text.
Variable text : Z -> list Z.

Definition line_of (n : note) : line := (text (fst n), snd n).
Definition label_line (l : label) : line := line_of (note_of l).

(** The samples of a thread, as paths. *)
Definition samples_of (id : Z) (l : list snapshot) : list (list line) :=
  map (fun x => map line_of (snd x)) (filter (fun x => fst x =? id) l).

(** The number of samples that begin with a path, that are the path. *)
Definition starts_with (p s : list line) : bool := if path_eq_dec (firstn (length p) s) p then true else false.
Definition beginning (p : list line) (l : list (list line)) : Z := Z.of_nat (length (filter (starts_with p) l)).
Definition exactly (p : list line) (l : list (list line)) : Z := Z.of_nat (count_occ path_eq_dec l p).
(** The longest sample. *)
Definition longest (l : list (list line)) : nat := fold_right (fun s n => Nat.max (length s) n) O l.

(** The nodes below a node, with their paths and weights, in the order of printing. *)
Fixpoint listing (n : node) : list (list line * Z) :=
  ([], n_weight n) :: flat_map (fun c => map (fun x => (label_line (n_label c) :: fst x, snd x)) (listing c)) (n_children n).
(** A node of the tree. *)
Inductive within : node -> node -> Prop :=
| within_root : forall n, within n n
| within_child : forall n c m, In c (n_children n) -> within c m -> within n m.

(** The tree says what the samples are. [other]: the line of the leaves for samples that end at an inner node. *)
Record describes (other : line) (root : node) (l : list (list line)) : Prop := {
  d_sound : forall p w, In (p, w) (listing root) ->
    (0 < beginning p l /\ w = beginning p l) \/ (exists q, p = q ++ [other] /\ 0 < exactly q l /\ w = exactly q l);
  d_complete : forall p, 0 < beginning p l -> In (p, beginning p l) (listing root);
  d_rest : forall q, In (q ++ [other], exactly q l) (listing root) \/ exactly q l = 0 \/ exactly q l = beginning q l;
  d_once : (forall s, In s l -> ~ In other s) -> NoDup (map fst (listing root));
  d_sums : forall n, within root n -> n_children n = [] \/ n_weight n = fold_right (fun c w => n_weight c + w) 0 (n_children n);
  d_sorted : forall n, within root n -> StronglySorted Z.ge (map n_weight (n_children n));
  d_depth : depth_below root = Z.of_nat (longest l)
}.

(** Levels of samples whose line is chosen. *)
Definition levels (chosen : line -> bool) (l : list (list line)) : Z :=
  fold_right (fun s n => Z.of_nat (length (filter chosen s)) + n) 0 l.

(** Nodes kept by collapsing: at most [depth] levels below any node whose line is chosen. [top] is the line of the root. *)
Definition kept (chosen : line -> bool) (depth : nat) (top : line) (p : list line) : bool :=
  forallb (fun k => negb (chosen (nth k (top :: p) top)) || (length p <=? k + depth)%nat) (seq 0 (S (length p))).
End Text.

(** What is assumed of std::sort with the comparison of weights: a permutation, in decreasing order, determined by the weights. *)
Definition sorts (order : list Z -> list nat) : Prop :=
  forall ws, Permutation (order ws) (seq 0 (length ws)) /\ StronglySorted Z.ge (map (fun i => nth i ws 0) (order ws)).

(** The view of a profile: a tree for each thread sampled, in increasing order of identifiers, each under a line with the identifier,
    as an int, and the number of samples. *)
Definition view_of (text : Z -> list Z) (other_format thread_format : Z) (taken : list snapshot) (m : roots) : Prop :=
  StronglySorted Z.lt (map fst m) /\ (forall id, In id (map fst m) <-> In id (map fst taken)) /\
  forall id root, In (id, root) m -> describes text (text other_format, []) root (samples_of text id taken) /\
    label_line text (n_label root) = (text thread_format, [wrap_s 32 id; n_weight root]).
