(** C56, C57: what tree views say about profiles. *)
From Coq Require Import ZArith List Sorted.
From Verif Require Import Base Profiler SpecProfiler ProfilerProps TreeView SpecTreeView TreeViewProps ProfilerExamples.
Import ListNotations.
Open Scope Z_scope.

(** ** C56: a view has a tree for every thread sampled, with each path's number of samples. *)
Theorem C56_populate : forall text blank other_format thread_format order, sorts order ->
  forall dbg fresh l buf, Forall good_stack l -> samples l [] = Ok buf ->
  let snaps := filter busy (map snapshot_of l) in
  exists m, populate text blank other_format thread_format order dbg fresh buf = Ok m /\
    StronglySorted Z.lt (map fst m) /\ (forall id, In id (map fst m) <-> In id (map fst snaps)) /\
    forall id root, In (id, root) m -> describes text (text other_format, []) root (samples_of text id snaps) /\
      label_line text (n_label root) = (text thread_format, [wrap_s 32 id; n_weight root]).
Proof. exact populate_ok. Qed.
Print Assumptions C56_populate.
Example C56_nonvacuous : sorts xp_order /\ Forall good_stack xp_list /\ samples xp_list [] = Ok xp_buf.
Proof. split; [exact xp_order_sorts | split; [exact xp_list_good | apply xp_buf_ok]]. Qed.
(** Two literals "b" at different addresses are one node. *)
Example C56_run : populate xp_text idle_label 8 9 xp_order true xp_fresh xp_buf = Ok xp_view /\
  map (fun x => (fst x, listing xp_text (snd x))) xp_view =
  [(3, [([], 2); ([([99; 37; 100], [4])], 1); ([([99; 37; 100], [5])], 1); ([([99; 37; 100], [5]); ([98], [])], 1)]);
   (7, [([], 3); ([([97], [])], 3); ([([97], []); ([97], [])], 2); ([([97], []); ([97], []); ([98], [])], 2); ([([97], []); ([91; 111; 93], [])], 1)])].
Proof. exact xp_view_ok. Qed.

(** Weights, and sums of weights over any choice of nodes, fit in an int. *)
Theorem C56_fits : forall text blank other_format thread_format order, sorts order ->
  forall dbg fresh l buf m, Forall good_stack l -> samples l [] = Ok buf ->
  populate text blank other_format thread_format order dbg fresh buf = Ok m ->
  forall id root n match_, In (id, root) m -> within root n -> 0 <= 40 * n_weight n <= int_max /\ 0 <= weight_matching match_ n <= int_max.
Proof. exact weights_fit. Qed.
Print Assumptions C56_fits.

(** A program's own annotation "[other]" is not told from the extra leaves. *)
Theorem C56_once_refuted : exists l buf m id root,
  Forall good_stack l /\ samples l [] = Ok buf /\ populate xp_text idle_label 8 9 xp_order true xp_fresh buf = Ok m /\ In (id, root) m /\
  ~ NoDup (map fst (listing xp_text root)).
Proof. exact once_refuted. Qed.
Print Assumptions C56_once_refuted.

(** ** C57: weights of chosen nodes, and views collapsed at chosen nodes. *)
Theorem C57_matching : forall text blank other_format thread_format order, sorts order ->
  forall dbg fresh l buf m chosen match_, Forall good_stack l -> samples l [] = Ok buf ->
  populate text blank other_format thread_format order dbg fresh buf = Ok m ->
  (forall lab, 0 <= lb_count lab <= Z.of_nat (length (lb_args lab)) -> match_ lab = chosen (label_line text lab)) ->
  chosen (text other_format, []) = false ->
  forall id root, In (id, root) m ->
    weight_matching match_ root = (if match_ (n_label root) then n_weight root else 0) + levels chosen (samples_of text id (filter busy (map snapshot_of l))).
Proof. exact matching_ok. Qed.
Print Assumptions C57_matching.

(** If chosen scopes do not nest, that is the number of samples with a chosen scope. *)
Theorem C57_share : forall text blank other_format thread_format order, sorts order ->
  forall dbg fresh l buf m chosen match_, Forall good_stack l -> samples l [] = Ok buf ->
  populate text blank other_format thread_format order dbg fresh buf = Ok m ->
  (forall lab, 0 <= lb_count lab <= Z.of_nat (length (lb_args lab)) -> match_ lab = chosen (label_line text lab)) ->
  chosen (text other_format, []) = false ->
  forall id root, In (id, root) m -> match_ (n_label root) = false ->
    let taken := samples_of text id (filter busy (map snapshot_of l)) in
    (forall s, In s taken -> (length (filter chosen s) <= 1)%nat) ->
    weight_matching match_ root = Z.of_nat (length (filter (existsb chosen) taken)).
Proof. exact share_ok. Qed.
Print Assumptions C57_share.

(** With recursion it can be more than all samples. *)
Theorem C57_nested_refuted : exists l buf m id root,
  Forall good_stack l /\ samples l [] = Ok buf /\ populate xp_text idle_label 8 9 xp_order true xp_fresh buf = Ok m /\ In (id, root) m /\
  n_weight root < weight_matching (fun lab => list_eqb (xp_text (lb_format lab)) [97]) root.
Proof. exact nested_refuted. Qed.
Print Assumptions C57_nested_refuted.

(** A collapsed view lists, in the same order and with the same weights, the nodes not too deep below a chosen one. *)
Theorem C57_collapse : forall text blank other_format thread_format order, sorts order ->
  forall dbg fresh l buf m chosen match_ depth, Forall good_stack l -> samples l [] = Ok buf ->
  populate text blank other_format thread_format order dbg fresh buf = Ok m ->
  (forall lab, 0 <= lb_count lab <= Z.of_nat (length (lb_args lab)) -> match_ lab = chosen (label_line text lab)) ->
  let out := collapse_roots blank depth match_ m in
  map fst out = map fst m /\
  forall id n, In (id, n) out -> exists root, In (id, root) m /\ label_line text (n_label n) = label_line text (n_label root) /\
    listing text n = filter (fun x => kept chosen (Z.to_nat depth) (label_line text (n_label root)) (fst x)) (listing text root).
Proof. exact collapse_roots_ok. Qed.
Print Assumptions C57_collapse.
Example C57_collapse_run : map (fun x => (fst x, listing xp_text (snd x))) (collapse_roots idle_label 1 xp_match xp_view) =
  [(3, [([], 2); ([([99; 37; 100], [4])], 1); ([([99; 37; 100], [5])], 1); ([([99; 37; 100], [5]); ([98], [])], 1)]);
   (7, [([], 3); ([([97], [])], 3); ([([97], []); ([97], [])], 2); ([([97], []); ([91; 111; 93], [])], 1)])].
Proof. exact xp_collapse. Qed.

(** One node collapsed: its depth is limited. *)
Theorem C57_collapse_node : forall text blank depth n, (forall m, within n m -> 0 <= lb_count (n_label m) <= Z.of_nat (length (lb_args (n_label m)))) ->
  let out := collapse_node blank depth n in
  label_line text (n_label out) = label_line text (n_label n) /\
  listing text out = filter (fun x => (length (fst x) <=? depth)%nat) (listing text n) /\
  depth_below out = Z.min (Z.of_nat depth) (depth_below n).
Proof. exact collapse_node_ok. Qed.
Print Assumptions C57_collapse_node.
