From Coq Require Import ZArith List Bool Sorted Permutation Lia.
From Verif Require Import Base RequantFacts Profiler SpecProfiler ProfilerFacts TreeView SpecTreeView TreeViewFacts.
Import ListNotations.
Open Scope Z_scope.

(** ** Sorting *)
Definition pick_nodes (cs : list node) (idx : list nat) : list node :=
  flat_map (fun i => match nth_error cs i with Some c => [c] | None => [] end) idx.

Lemma pick_seq : forall cs pre : list node, flat_map (fun i => match nth_error (pre ++ cs) i with Some c => [c] | None => [] end) (seq (length pre) (length cs)) = cs.
Proof.
  induction cs as [|c cs IH]; intros pre; [reflexivity|]. cbn [length seq flat_map].
  rewrite nth_error_app2, Nat.sub_diag by lia. cbn [nth_error app]. f_equal.
  specialize (IH (pre ++ [c])). rewrite <- app_assoc in IH. cbn [app] in IH. rewrite app_length in IH. cbn [length] in IH. rewrite Nat.add_1_r in IH. exact IH.
Qed.
Lemma pick_perm : forall cs idx, Permutation idx (seq 0 (length cs)) -> Permutation (pick_nodes cs idx) cs.
Proof.
  intros cs idx H. unfold pick_nodes. rewrite (Permutation_flat_map _ H). pose proof (pick_seq cs []) as E. cbn [app length] in E. rewrite E. reflexivity.
Qed.
Lemma pick_weights : forall cs idx, (forall i, In i idx -> (i < length cs)%nat) ->
  map n_weight (pick_nodes cs idx) = map (fun i => nth i (map n_weight cs) 0) idx.
Proof.
  intros cs idx. induction idx as [|i idx IH]; intros H; [reflexivity|]. unfold pick_nodes in *. cbn [flat_map map].
  destruct (nth_error cs i) as [c|] eqn:E; [|apply nth_error_None in E; specialize (H i (or_introl eq_refl)); lia].
  cbn [app map]. rewrite IH by (intros; apply H; right; assumption). f_equal. symmetry.
  rewrite (nth_error_nth (map n_weight cs) i 0 (x := n_weight c)); [reflexivity|]. rewrite nth_error_map, E. reflexivity.
Qed.

(** ** Sums over chosen lines *)
Section Parts.
Variable chosen : line -> bool.
Definition part (x : line) (l : list (list line)) : Z := (if chosen x then Z.of_nat (length l) else 0) + levels chosen l.
Definition parts (xs : list line) (l : list (list line)) : Z := fold_right (fun x w => part x (below x l) + w) 0 xs.

Lemma levels_app : forall a b, levels chosen (a ++ b) = levels chosen a + levels chosen b.
Proof. intros a b. induction a as [|s a IH]; [reflexivity|]. cbn [app levels fold_right]. fold (levels chosen (a ++ b)) (levels chosen a). lia. Qed.
Lemma part_app : forall x a b, part x (a ++ b) = part x a + part x b.
Proof. intros x a b. unfold part. rewrite levels_app, app_length. destruct (chosen x); lia. Qed.
Lemma parts_app : forall xs a b, parts xs (a ++ b) = parts xs a + parts xs b.
Proof. induction xs as [|x xs IH]; intros a b; [reflexivity|]. cbn [parts fold_right]. fold (parts xs (a ++ b)) (parts xs a) (parts xs b). rewrite IH, below_app, part_app. lia. Qed.
Lemma part_nil : forall x, part x [] = 0.
Proof. intros x. unfold part. destruct (chosen x); reflexivity. Qed.
Lemma parts_empty : forall xs, parts xs [[]] = 0.
Proof. induction xs as [|x xs IH]; [reflexivity|]. cbn [parts fold_right]. fold (parts xs [[]]). rewrite IH. change (below x [[]]) with (@nil (list line)). rewrite part_nil. reflexivity. Qed.
Lemma parts_one : forall xs y t, NoDup xs -> parts xs [y :: t] = if in_dec line_eq_dec y xs then part y [t] else 0.
Proof.
  induction xs as [|x xs IH]; intros y t H; [reflexivity|]. inversion_clear H as [|? ? Hx H']. cbn [parts fold_right]. fold (parts xs [y :: t]).
  rewrite IH by exact H'. rewrite below_one. destruct (line_eq_dec y x) as [->|N].
  - destruct (in_dec line_eq_dec x xs); [contradiction|]. destruct (in_dec line_eq_dec x (x :: xs)) as [_|B]; [lia|]. exfalso. apply B. left. reflexivity.
  - rewrite part_nil. destruct (in_dec line_eq_dec y xs) as [I|I], (in_dec line_eq_dec y (x :: xs)) as [J|J]; try lia.
    + exfalso. apply J. right. exact I.
    + exfalso. destruct J as [J|J]; [apply N; symmetry; exact J|contradiction].
Qed.
Lemma parts_all : forall xs l, NoDup xs -> (forall x, below x l <> [] -> In x xs) -> parts xs l = levels chosen l.
Proof.
  intros xs l H. induction l as [|s l IH]; intros C.
  - clear. induction xs as [|x xs IH]; [reflexivity|]. cbn [parts fold_right]. fold (parts xs []). rewrite IH. change (below x []) with (@nil (list line)). rewrite part_nil. reflexivity.
  - change (s :: l) with ([s] ++ l). rewrite parts_app, levels_app, IH.
    + f_equal. destruct s as [|y t]; [apply parts_empty|]. rewrite parts_one by exact H. destruct (in_dec line_eq_dec y xs) as [_|N].
      * unfold part. cbn [levels fold_right filter length]. destruct (chosen y); cbn [length]; lia.
      * exfalso. apply N, C. rewrite below_cons. destruct (line_eq_dec y y); [discriminate|congruence].
    + intros x Hx. apply C. rewrite below_cons. destruct s as [|y t]; [exact Hx|]. destruct (line_eq_dec y x); [discriminate|exact Hx].
Qed.

End Parts.

Section Below.
Variable match_ : label -> bool.
Definition below_weight (cs : list node) : Z := fold_right (fun c w => weight_matching match_ c + w) 0 cs.
Lemma weight_node : forall cs lab w, weight_matching match_ (Node cs lab w) = (if match_ lab then w else 0) + below_weight cs.
Proof. reflexivity. Qed.
Lemma below_weight_perm : forall a b, Permutation a b -> below_weight a = below_weight b.
Proof. intros a b P. induction P; cbn [below_weight fold_right] in *; unfold below_weight in *; lia. Qed.
Lemma below_weight_app : forall a b, below_weight (a ++ b) = below_weight a + below_weight b.
Proof. intros a b. induction a as [|c a IH]; [reflexivity|]. cbn [app below_weight fold_right]. fold (below_weight (a ++ b)) (below_weight a). lia. Qed.

End Below.

Section Facts.
Variable text : Z -> list Z.
Variable blank : label.
Variables (other_format thread_format : Z).
Variable order : list Z -> list nat.
Hypothesis Order : sorts order.
Notation lline l := (label_line text l).
Notation cline := (fun c => label_line text (n_label c)).
Let other : line := (text other_format, []).
Notation final n := (sort_node order (add_other blank other_format n)).

Lemma sort_weight : forall n, n_weight (sort_node order n) = n_weight n.
Proof. intros [cs lab w]. reflexivity. Qed.
Lemma sort_label : forall n, n_label (sort_node order n) = n_label n.
Proof. intros [cs lab w]. reflexivity. Qed.
Lemma other_weight : forall n, n_weight (add_other blank other_format n) = n_weight n.
Proof. intros [cs lab w]. cbn [add_other]. match goal with |- context [if ?b then _ else _] => destruct b end; reflexivity. Qed.
Lemma other_keeps_label : forall n, n_label (add_other blank other_format n) = n_label n.
Proof. intros [cs lab w]. cbn [add_other]. match goal with |- context [if ?b then _ else _] => destruct b end; reflexivity. Qed.

Lemma sort_children : forall cs lab w, exists cs', sort_node order (Node cs lab w) = Node cs' lab w /\
  Permutation cs' (map (sort_node order) cs) /\ StronglySorted Z.ge (map n_weight cs').
Proof.
  intros cs lab w. eexists. split; [reflexivity|]. set (cs1 := map (sort_node order) cs). destruct (Order (map n_weight cs1)) as [P S].
  rewrite map_length in P. split.
  - apply (pick_perm cs1 _ P).
  - change (flat_map _ _) with (pick_nodes cs1 (order (map n_weight cs1))). rewrite pick_weights; [exact S|].
    intros i Hi. apply (Permutation_in _ P) in Hi. apply in_seq in Hi. lia.
Qed.

(** ** Trees of samples *)
Inductive tree : node -> list (list line) -> Prop :=
| Tree : forall cs lab l reg oth,
    Permutation cs (reg ++ oth) -> StronglySorted Z.ge (map n_weight cs) ->
    NoDup (map cline reg) ->
    (forall c, In c reg -> wf_label (n_label c)) ->
    (forall c, In c reg -> tree c (below (lline (n_label c)) l)) ->
    (forall c, In c reg -> below (lline (n_label c)) l <> []) ->
    (forall x, below x l <> [] -> In x (map cline reg)) ->
    (oth = [] /\ (exactly [] l = 0 \/ exactly [] l = Z.of_nat (length l))) \/
      (exists o, oth = [Node [] o (exactly [] l)] /\ wf_label o /\ lline o = other /\ 0 < exactly [] l < Z.of_nat (length l)) ->
    tree (Node cs lab (Z.of_nat (length l))) l.

Lemma tree_weight : forall n l, tree n l -> n_weight n = Z.of_nat (length l).
Proof. intros n l [cs lab l' reg oth]. reflexivity. Qed.
Lemma raw_weight : forall n l, raw text n l -> n_weight n = Z.of_nat (length l).
Proof. intros n l [cs lab l']. reflexivity. Qed.

Lemma sum_total : forall cs l, (forall c, In c cs -> n_weight c = Z.of_nat (length (below (lline (n_label c)) l))) -> children_weight cs = total (map cline cs) l.
Proof.
  intros cs l. induction cs as [|c cs IH]; intros H; [reflexivity|]. cbn [children_weight fold_right map total].
  fold (children_weight cs) (total (map cline cs) l). rewrite IH, H by (intros; try apply H; cbn [In]; auto). reflexivity.
Qed.

Lemma exactly_nil_bounds : forall l, 0 <= exactly [] l <= Z.of_nat (length l).
Proof. intros l. unfold exactly. pose proof (count_occ_bound path_eq_dec [] l). lia. Qed.

Lemma blank_other_wf : wf_label (other_label blank other_format).
Proof. unfold wf_label, other_label. cbn [lb_count lb_args]. lia. Qed.
Lemma other_line : lline (other_label blank other_format) = other.
Proof. reflexivity. Qed.

Lemma raw_tree : forall n l, raw text n l -> tree (final n) l.
Proof.
  intros n l R. induction R as [cs lab l H1 H2 H3 IH H4 H5].
  cbn [add_other]. set (cs1 := map (add_other blank other_format) cs).
  assert (children_weight cs1 = Z.of_nat (length l) - exactly [] l) as W.
  { rewrite <- (total_all (map cline cs) l H1 H5). rewrite <- (sum_total cs l).
    - unfold cs1. clear. induction cs as [|c cs IH]; [reflexivity|]. cbn [map children_weight fold_right]. fold (children_weight (map (add_other blank other_format) cs)) (children_weight cs). rewrite IH, other_weight. reflexivity.
    - intros c Hc. apply raw_weight. apply H3. exact Hc. }
  pose proof (exactly_nil_bounds l) as B.
  set (reg := map (fun c => final c) cs).
  assert (map cline reg = map cline cs) as EM by (unfold reg; rewrite map_map; apply map_ext; intros c; rewrite sort_label, other_keeps_label; reflexivity).
  assert (forall c, In c reg -> exists c0, In c0 cs /\ c = final c0 /\ n_label c = n_label c0) as Reg.
  { intros c Hc. unfold reg in Hc. apply in_map_iff in Hc as (c0 & E & I). exists c0. split; [exact I|]. split; [symmetry; exact E|]. rewrite <- E, sort_label, other_keeps_label. reflexivity. }
  assert (forall oth cs' lab', Permutation cs' (reg ++ oth) -> StronglySorted Z.ge (map n_weight cs') ->
    (oth = [] /\ (exactly [] l = 0 \/ exactly [] l = Z.of_nat (length l))) \/
      (exists o, oth = [Node [] o (exactly [] l)] /\ wf_label o /\ lline o = other /\ 0 < exactly [] l < Z.of_nat (length l)) ->
    tree (Node cs' lab' (Z.of_nat (length l))) l) as K.
  { intros oth cs' lab' P S O. apply (Tree cs' lab' l reg oth P S).
    - rewrite EM. exact H1.
    - intros c Hc. destruct (Reg c Hc) as (c0 & I & _ & ->). apply H2. exact I.
    - intros c Hc. destruct (Reg c Hc) as (c0 & I & E & ->). rewrite E. apply IH. exact I.
    - intros c Hc. destruct (Reg c Hc) as (c0 & I & _ & ->). apply H4. exact I.
    - rewrite EM. exact H5.
    - exact O. }
  destruct (Z.eqb_spec (children_weight cs1) 0) as [E0|E0]; [|destruct (Z.eqb_spec (children_weight cs1) (Z.of_nat (length l))) as [E1|E1]]; cbn [negb andb].
  - destruct (sort_children cs1 lab (Z.of_nat (length l))) as (cs' & -> & P & S). apply (K []); [rewrite app_nil_r; unfold reg; unfold cs1 in P; rewrite map_map in P; exact P|exact S|]. left. split; [reflexivity|]. right. lia.
  - destruct (sort_children cs1 lab (Z.of_nat (length l))) as (cs' & -> & P & S). apply (K []); [rewrite app_nil_r; unfold reg; unfold cs1 in P; rewrite map_map in P; exact P|exact S|]. left. split; [reflexivity|]. left. lia.
  - set (o := Node [] (other_label blank other_format) (Z.of_nat (length l) - children_weight cs1)).
    destruct (sort_children (cs1 ++ [o]) lab (Z.of_nat (length l))) as (cs' & -> & P & S).
    rewrite map_app in P. unfold cs1 in P at 1. rewrite map_map in P. apply (K (map (sort_node order) [o]) cs' lab P S).
    right. exists (other_label blank other_format). split; [|split; [apply blank_other_wf|split; [apply other_line|lia]]].
    unfold o. rewrite W. cbn [map sort_node]. destruct (sort_children [] (other_label blank other_format) (Z.of_nat (length l) - (Z.of_nat (length l) - exactly [] l))) as (z & Ez & Pz & _).
    cbn [sort_node map] in Ez. rewrite Ez. cbn [map] in Pz. apply Permutation_sym, Permutation_nil in Pz. rewrite Pz. f_equal. f_equal. lia.
Qed.

(** ** What trees say *)
Lemma listing_node : forall cs lab w, listing text (Node cs lab w) =
  ([], w) :: flat_map (fun c => map (fun x => (lline (n_label c) :: fst x, snd x)) (listing text c)) cs.
Proof. reflexivity. Qed.
Lemma in_listing : forall cs lab w x p v, In (x :: p, v) (listing text (Node cs lab w)) <-> exists c, In c cs /\ lline (n_label c) = x /\ In (p, v) (listing text c).
Proof.
  intros cs lab w x p v. rewrite listing_node. cbn [In]. rewrite in_flat_map. split.
  - intros [E|(c & Hc & I)]; [discriminate|]. apply in_map_iff in I as ([p' v'] & E & I). cbn [fst snd] in E. injection E as E1 E2 E3. subst. exists c. auto.
  - intros (c & Hc & E & I). right. exists c. split; [exact Hc|]. apply in_map_iff. exists (p, v). cbn [fst snd]. rewrite E. auto.
Qed.
Lemma in_listing_nil : forall cs lab w v, In ([], v) (listing text (Node cs lab w)) <-> v = w.
Proof.
  intros cs lab w v. rewrite listing_node. cbn [In]. rewrite in_flat_map. split.
  - intros [E|(c & Hc & I)]; [congruence|]. apply in_map_iff in I as ([p' v'] & E & I). discriminate.
  - intros ->. auto.
Qed.
Lemma listing_leaf : forall o w, listing text (Node [] o w) = [([], w)].
Proof. reflexivity. Qed.

Lemma below_nonempty : forall x p l, 0 < beginning (x :: p) l -> below x l <> [].
Proof. intros x p l H E. rewrite beginning_cons, E in H. unfold beginning in H. cbn [filter length] in H. lia. Qed.
Lemma below_nonempty_exact : forall x p l, exactly (x :: p) l <> 0 -> below x l <> [].
Proof. intros x p l H E. rewrite exactly_cons, E in H. unfold exactly in H. cbn [count_occ] in H. lia. Qed.
Lemma nonempty_pos : forall (l : list (list line)), l <> [] -> 0 < Z.of_nat (length l).
Proof. intros [|s l] H; [congruence|]. cbn [length]. lia. Qed.

Lemma tree_sound : forall n l, tree n l -> l <> [] -> forall p w, In (p, w) (listing text n) ->
  (0 < beginning p l /\ w = beginning p l) \/ (exists q, p = q ++ [other] /\ 0 < exactly q l /\ w = exactly q l).
Proof.
  intros n l T. induction T as [cs lab l reg oth P S H1 H2 H3 IH H4 H5 O]. intros Hl p w I. destruct p as [|x p].
  - apply in_listing_nil in I as ->. left. rewrite beginning_nil. split; [apply nonempty_pos; exact Hl|reflexivity].
  - apply in_listing in I as (c & Hc & E & I). apply (Permutation_in _ P) in Hc. apply in_app_iff in Hc as [Hc|Hc].
    + destruct (IH c Hc (H4 c Hc) p w I) as [[A B]|(q & A & B & C)]; rewrite E in *.
      * left. rewrite beginning_cons. auto.
      * right. exists (x :: q). rewrite exactly_cons. subst p. auto.
    + destruct O as [[-> _]|(o & -> & _ & Eo & B)]; [destruct Hc|]. destruct Hc as [<-|[]]. cbn [n_label] in E. rewrite listing_leaf in I. destruct I as [I|[]]. injection I as <- <-.
      right. exists []. cbn [app]. rewrite <- E, Eo. split; [reflexivity|]. lia.
Qed.

Lemma tree_complete : forall n l, tree n l -> forall p, 0 < beginning p l -> In (p, beginning p l) (listing text n).
Proof.
  intros n l T. induction T as [cs lab l reg oth P S H1 H2 H3 IH H4 H5 O]. intros p Hp. destruct p as [|x p].
  - apply in_listing_nil. apply beginning_nil.
  - pose proof (below_nonempty _ _ _ Hp) as Hx. apply H5 in Hx. apply in_map_iff in Hx as (c & E & Hc). apply in_listing. exists c.
    split; [apply (Permutation_in _ (Permutation_sym P)), in_app_iff; auto|]. split; [exact E|]. rewrite beginning_cons in *. rewrite <- E in *. apply IH; assumption.
Qed.

Lemma tree_rest : forall n l, tree n l -> forall q, In (q ++ [other], exactly q l) (listing text n) \/ exactly q l = 0 \/ exactly q l = beginning q l.
Proof.
  intros n l T. induction T as [cs lab l reg oth P S H1 H2 H3 IH H4 H5 O]. intros q. destruct q as [|x q].
  - destruct O as [[_ O]|(o & -> & _ & Eo & B)]; [right; rewrite beginning_nil; exact O|]. left. cbn [app]. apply in_listing. exists (Node [] o (exactly [] l)).
    split; [apply (Permutation_in _ (Permutation_sym P)), in_app_iff; right; left; reflexivity|]. split; [exact Eo|]. left. reflexivity.
  - destruct (Z.eq_dec (exactly (x :: q) l) 0) as [E0|E0]; [auto|]. pose proof (below_nonempty_exact _ _ _ E0) as Hx. apply H5 in Hx. apply in_map_iff in Hx as (c & E & Hc).
    rewrite exactly_cons, beginning_cons in *. rewrite <- E in *. destruct (IH c Hc q) as [I|I]; [left|right; exact I]. cbn [app]. apply in_listing. exists c.
    split; [apply (Permutation_in _ (Permutation_sym P)), in_app_iff; auto|]. auto.
Qed.

Lemma NoDup_app_intro : forall {A} (a b : list A), NoDup a -> NoDup b -> (forall x, In x a -> ~ In x b) -> NoDup (a ++ b).
Proof.
  intros A a b Ha Hb D. induction Ha as [|x a Hx Ha IH]; [exact Hb|]. cbn [app]. constructor.
  - rewrite in_app_iff. intros [B|B]; [contradiction|]. exact (D x (or_introl eq_refl) B).
  - apply IH. intros y Hy. apply D. right. exact Hy.
Qed.
Lemma paths_nodup : forall cs, NoDup (map cline cs) -> (forall c, In c cs -> NoDup (map fst (listing text c))) ->
  NoDup (map fst (flat_map (fun c => map (fun x => (lline (n_label c) :: fst x, snd x)) (listing text c)) cs)).
Proof.
  induction cs as [|c cs IH]; intros H D; [constructor|]. cbn [map] in H. inversion_clear H as [|? ? Hc H']. cbn [flat_map]. rewrite map_app. apply NoDup_app_intro.
  - rewrite map_map. cbn [fst]. rewrite <- (map_map fst (fun p => lline (n_label c) :: p)). apply FinFun.Injective_map_NoDup; [intros a b E; congruence|]. apply D. left. reflexivity.
  - apply IH; [exact H'|]. intros; apply D; right; assumption.
  - intros p Hp Hq. rewrite map_map in Hp. apply in_map_iff in Hp as ([p1 v1] & <- & _). cbn [fst] in Hq.
    apply in_map_iff in Hq as ([p2 v2] & E2 & I2). cbn [fst] in E2. subst p2. apply in_flat_map in I2 as (d & Hd & I2). apply in_map_iff in I2 as ([p3 v3] & E3 & _). cbn [fst snd] in E3.
    assert (lline (n_label d) = lline (n_label c)) as E4 by congruence. apply Hc. rewrite <- E4. apply (in_map cline). exact Hd.
Qed.
Lemma in_below : forall x s l, In s (below x l) -> In (x :: s) l.
Proof. intros x s l H. unfold below in H. apply in_flat_map in H as ([|y t] & Ht & I); [destruct I|]. destruct (line_eq_dec y x) as [->|]; [|destruct I]. destruct I as [->|[]]. exact Ht. Qed.
Lemma in_below_iff : forall x s l, In s (below x l) <-> In (x :: s) l.
Proof. intros x s l. split; [apply in_below|]. intros H. unfold below. apply in_flat_map. exists (x :: s). split; [exact H|]. destruct (line_eq_dec x x); [left; reflexivity|congruence]. Qed.

Lemma tree_once : forall n l, tree n l -> (forall s, In s l -> ~ In other s) -> NoDup (map fst (listing text n)).
Proof.
  intros n l T. induction T as [cs lab l reg oth P S H1 H2 H3 IH H4 H5 O]. intros Ho. rewrite listing_node. cbn [map fst]. constructor.
  - intros B. apply in_map_iff in B as ([p v] & E & I). cbn [fst] in E. subst p. apply in_flat_map in I as (c & _ & I). apply in_map_iff in I as (? & E & _). discriminate.
  - apply (Permutation_NoDup (l := map fst (flat_map (fun c => map (fun x => (lline (n_label c) :: fst x, snd x)) (listing text c)) (reg ++ oth)))).
    + apply Permutation_map, Permutation_flat_map, Permutation_sym. exact P.
    + apply paths_nodup.
      * rewrite map_app. apply NoDup_app_intro; [exact H1| |].
        -- destruct O as [[-> _]|(o & -> & _)]; [constructor|]. constructor; [intros []|constructor].
        -- intros x Hx Hy. destruct O as [[-> _]|(o & -> & _ & Eo & _)]; [destruct Hy|]. destruct Hy as [Hy|[]]. cbn [n_label] in Hy. rewrite Eo in Hy. subst x.
           apply in_map_iff in Hx as (c & E & Hc). pose proof (H4 c Hc) as Hb. rewrite E in Hb. destruct (below other l) as [|s b] eqn:Eb; [congruence|].
           assert (In s (below other l)) as Is by (rewrite Eb; left; reflexivity). apply in_below in Is. apply (Ho _ Is). left. reflexivity.
      * intros c Hc. apply in_app_iff in Hc as [Hc|Hc].
        -- apply IH; [exact Hc|]. intros s Hs Hi. apply in_below in Hs. apply (Ho _ Hs). right. exact Hi.
        -- destruct O as [[-> _]|(o & -> & _)]; [destruct Hc|]. destruct Hc as [<-|[]]. rewrite listing_leaf. constructor; [intros []|constructor].
Qed.

Lemma children_weight_perm : forall a b, Permutation a b -> children_weight a = children_weight b.
Proof. intros a b P. induction P; cbn [children_weight fold_right] in *; unfold children_weight in *; lia. Qed.
Lemma children_weight_app : forall a b, children_weight (a ++ b) = children_weight a + children_weight b.
Proof. intros a b. induction a as [|c a IH]; [reflexivity|]. cbn [app children_weight fold_right]. fold (children_weight (a ++ b)) (children_weight a). lia. Qed.

Lemma within_inv : forall n m, within n m -> n = m \/ exists c, In c (n_children n) /\ within c m.
Proof. intros n m [?|? c ? ? ?]; [left; reflexivity|right]. exists c. auto. Qed.

Lemma tree_sums : forall n l, tree n l -> forall m, within n m -> n_children m = [] \/ n_weight m = children_weight (n_children m).
Proof.
  intros n l T. induction T as [cs lab l reg oth P S H1 H2 H3 IH H4 H5 O]. intros m W. apply within_inv in W as [<-|(c & Hc & W)].
  - cbn [n_children n_weight]. rewrite (children_weight_perm _ _ P), children_weight_app.
    rewrite (sum_total reg l) by (intros c Hc; apply tree_weight; apply H3; exact Hc). rewrite total_all by assumption.
    destruct O as [[-> O]|(o & -> & _ & _ & B)].
    + destruct O as [O|O]; [right; cbn [children_weight fold_right]; lia|]. left. rewrite app_nil_r in P. destruct reg as [|c reg]; [apply Permutation_sym, Permutation_nil in P; exact P|exfalso].
      pose proof (total_all _ _ H1 H5) as E. rewrite O, Z.sub_diag in E. cbn [map total fold_right] in E. pose proof (nonempty_pos _ (H4 c (or_introl eq_refl))).
      assert (forall xs, 0 <= total xs l) as N by (clear; induction xs; cbn [total fold_right]; [lia|]; fold (total xs l); lia). specialize (N (map cline reg)). unfold total in N. lia.
    + right. cbn [children_weight fold_right n_weight]. lia.
  - cbn [n_children] in Hc. apply (Permutation_in _ P) in Hc. apply in_app_iff in Hc as [Hc|Hc]; [apply (IH c Hc m W)|].
    destruct O as [[-> _]|(o & -> & _)]; [destruct Hc|]. destruct Hc as [<-|[]]. apply within_inv in W as [<-|(c & [] & _)]. left. reflexivity.
Qed.
Lemma tree_sorted : forall n l, tree n l -> forall m, within n m -> StronglySorted Z.ge (map n_weight (n_children m)).
Proof.
  intros n l T. induction T as [cs lab l reg oth P S H1 H2 H3 IH H4 H5 O]. intros m W. apply within_inv in W as [<-|(c & Hc & W)]; [exact S|].
  cbn [n_children] in Hc. apply (Permutation_in _ P) in Hc. apply in_app_iff in Hc as [Hc|Hc]; [apply (IH c Hc m W)|].
  destruct O as [[-> _]|(o & -> & _)]; [destruct Hc|]. destruct Hc as [<-|[]]. apply within_inv in W as [<-|(c & [] & _)]. constructor.
Qed.

Lemma depth_node : forall cs lab w, depth_below (Node cs lab w) = match cs with [] => 0 | _ => 1 + fold_right (fun c m => Z.max (depth_below c) m) 0 cs end.
Proof. intros [|c cs] lab w; reflexivity. Qed.
Lemma depth_le : forall cs lab w k, 0 <= k -> (depth_below (Node cs lab w) <= k <-> forall c, In c cs -> 1 + Z.max 0 (depth_below c) <= k).
Proof.
  intros cs lab w k Hk. rewrite depth_node. destruct cs as [|c0 cs0]; [split; [intros _ c []|lia]|]. set (cs := c0 :: cs0).
  assert (forall cs, (1 + fold_right (fun c m => Z.max (depth_below c) m) 0 cs <= k <-> 1 <= k /\ forall c, In c cs -> 1 + Z.max 0 (depth_below c) <= k)) as F.
  { clear. induction cs as [|c cs IH]; cbn [fold_right In].
    - split; [intros H; split; [lia|intros c []]|lia].
    - split.
      + intros H. destruct (proj1 IH) as [I J]; [lia|]. split; [exact I|]. intros d [<-|Hd]; [lia|apply J; exact Hd].
      + intros [H1 H2]. pose proof (H2 c (or_introl eq_refl)). pose proof (proj2 IH (conj H1 (fun d Hd => H2 d (or_intror Hd)))). lia. }
  rewrite F. split; [intros [_ H]; exact H|]. intros H. split; [|exact H]. specialize (H c0 (or_introl eq_refl)). lia.
Qed.
Lemma depth_nonneg : forall n, 0 <= depth_below n.
Proof.
  intros [cs lab w]. rewrite depth_node. destruct cs as [|c cs]; [lia|]. assert (forall cs, 0 <= fold_right (fun c m => Z.max (depth_below c) m) 0 cs) as F by (induction cs0; cbn [fold_right]; lia).
  specialize (F (c :: cs)). lia.
Qed.
Lemma longest_le : forall l k, (longest l <= k)%nat <-> forall s, In s l -> (length s <= k)%nat.
Proof.
  induction l as [|s l IH]; intros k; cbn [longest fold_right In].
  - split; [intros _ s []|lia].
  - fold (longest l). split; [intros H t [<-|Ht]; [lia|apply IH; [lia|exact Ht]]|]. intros H. pose proof (H s (or_introl eq_refl)). pose proof (proj2 (IH k) (fun t Ht => H t (or_intror Ht))). lia.
Qed.
Lemma tree_depth_le : forall n l, tree n l -> forall k : nat, depth_below n <= Z.of_nat k <-> (longest l <= k)%nat.
Proof.
  intros n l T. induction T as [cs lab l reg oth P S H1 H2 H3 IH H4 H5 O]. intros k. rewrite depth_le by lia. rewrite longest_le. split.
  - intros H [|x s] Hs; [cbn [length]; lia|]. assert (below x l <> []) as Hx by (apply in_below_iff in Hs; destruct (below x l); [destruct Hs|discriminate]).
    apply H5 in Hx. apply in_map_iff in Hx as (c & E & Hc). assert (In c cs) as Hc' by (apply (Permutation_in _ (Permutation_sym P)), in_app_iff; auto).
    specialize (H c Hc'). destruct k as [|k]; [lia|]. assert (longest (below (lline (n_label c)) l) <= k)%nat as L by (apply (IH c Hc); lia).
    rewrite longest_le in L. rewrite E in L. cbn [length]. apply in_below_iff in Hs. specialize (L s Hs). lia.
  - intros H c Hc. apply (Permutation_in _ P) in Hc.
    assert (below (match c with Node _ o _ => lline o end) l <> [] -> (1 <= k)%nat) as K1.
    { intros Hx. destruct (below (match c with Node _ o _ => lline o end) l) as [|s b] eqn:E; [congruence|]. assert (In s (s :: b)) as I by (left; reflexivity). rewrite <- E in I. apply in_below in I. apply H in I. cbn [length] in I. lia. }
    apply in_app_iff in Hc as [Hc|Hc].
    + pose proof (H4 c Hc) as Hx. assert (1 <= k)%nat as K by (apply K1; destruct c; exact Hx). destruct k as [|k]; [lia|].
      assert (depth_below c <= Z.of_nat k) as D by (apply (IH c Hc), longest_le; intros s Hs; apply in_below in Hs; apply H in Hs; cbn [length] in Hs; lia). lia.
    + destruct O as [[-> _]|(o & -> & _ & _ & B)]; [destruct Hc|]. destruct Hc as [<-|[]]. cbn [depth_below n_children].
      assert (exists s, In s l /\ s <> []) as (s & Hs & Hn).
      { clear - B. unfold exactly in B. destruct B as [_ B]. induction l as [|s l IH]; [cbn [length count_occ] in B; lia|]. destruct s as [|x t].
        - cbn [length count_occ] in B. destruct (path_eq_dec [] []); [|congruence]. destruct IH as (s & I & N); [lia|]. exists s. split; [right; exact I|exact N].
        - exists (x :: t). split; [left; reflexivity|discriminate]. }
      apply H in Hs. destruct s; [congruence|]. cbn [length] in Hs. lia.
Qed.
Lemma tree_depth : forall n l, tree n l -> depth_below n = Z.of_nat (longest l).
Proof.
  intros n l T. pose proof (depth_nonneg n) as D. apply Z.le_antisymm.
  - apply (tree_depth_le n l T). apply Nat.le_refl.
  - rewrite <- (Z2Nat.id (depth_below n)) by exact D. apply Nat2Z.inj_le. apply (tree_depth_le n l T). rewrite Z2Nat.id by exact D. lia.
Qed.

Lemma tree_describes : forall n l, tree n l -> l <> [] -> describes text other n l.
Proof.
  intros n l T Hl. constructor.
  - apply tree_sound; assumption.
  - apply tree_complete; assumption.
  - apply tree_rest; assumption.
  - apply tree_once; assumption.
  - intros m W. apply (tree_sums n l T m W).
  - apply (tree_sorted n l T).
  - apply tree_depth. exact T.
Qed.

(** ** Weight of the chosen nodes *)
Section Chosen.
Variable chosen : line -> bool.
Variable match_ : label -> bool.
Hypothesis Match : forall l, wf_label l -> match_ l = chosen (lline l).
Hypothesis Other : chosen other = false.

Lemma tree_matching : forall n l, tree n l -> weight_matching match_ n = (if match_ (n_label n) then n_weight n else 0) + levels chosen l.
Proof.
  intros n l T. induction T as [cs lab l reg oth P S H1 H2 H3 IH H4 H5 O]. rewrite weight_node. cbn [n_label n_weight]. f_equal.
  rewrite (below_weight_perm _ _ _ P), below_weight_app.
  assert (below_weight match_ oth = 0) as E0.
  { destruct O as [[-> _]|(o & -> & Wo & Eo & _)]; [reflexivity|]. cbn [below_weight fold_right]. rewrite weight_node, (Match o Wo), Eo, Other. reflexivity. }
  rewrite E0, Z.add_0_r, <- (parts_all chosen _ _ H1 H5). clear - IH H2 H3 Match.
  induction reg as [|c reg IH']; [reflexivity|]. cbn [below_weight fold_right map parts]. fold (below_weight match_ reg) (parts chosen (map cline reg) l).
  rewrite IH' by (intros; first [apply IH | apply H2 | apply H3]; right; assumption). f_equal.
  rewrite IH by (left; reflexivity). unfold part. rewrite (Match (n_label c)) by (apply H2; left; reflexivity). rewrite (tree_weight c) with (1 := H3 c (or_introl eq_refl)). reflexivity.
Qed.
End Chosen.
End Facts.
