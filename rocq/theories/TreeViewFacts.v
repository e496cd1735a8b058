From Coq Require Import ZArith List Bool Sorted Permutation Lia.
From Verif Require Import Base RequantFacts Profiler SpecProfiler ProfilerFacts TreeView SpecTreeView.
Import ListNotations.
Open Scope Z_scope.

(** ** Lists of samples *)

(** The rest of the samples that begin with a line. *)
Definition below (x : line) (l : list (list line)) : list (list line) :=
  flat_map (fun s => match s with y :: t => if line_eq_dec y x then [t] else [] | [] => [] end) l.
Definition belows (p : list line) (l : list (list line)) : list (list line) := fold_left (fun l x => below x l) p l.

Lemma below_app : forall x a b, below x (a ++ b) = below x a ++ below x b.
Proof. intros. unfold below. apply flat_map_app. Qed.
Lemma below_one : forall x y t, below x [y :: t] = if line_eq_dec y x then [t] else [].
Proof. intros. unfold below. cbn [flat_map]. rewrite app_nil_r. reflexivity. Qed.
Lemma below_cons : forall x s l, below x (s :: l) = match s with y :: t => if line_eq_dec y x then t :: below x l else below x l | [] => below x l end.
Proof. intros x [|y t] l; [reflexivity|]. unfold below. cbn [flat_map]. destruct (line_eq_dec y x); reflexivity. Qed.

Lemma starts_cons : forall x p s, starts_with (x :: p) s = match s with y :: t => if line_eq_dec y x then starts_with p t else false | [] => false end.
Proof.
  intros x p [|y t]; unfold starts_with; cbn [length firstn].
  - destruct (path_eq_dec [] (x :: p)); [discriminate|reflexivity].
  - destruct (line_eq_dec y x) as [->|N], (path_eq_dec (firstn (length p) t) p);
      match goal with |- context [path_eq_dec (?a :: ?b) (?c :: ?d)] => destruct (path_eq_dec (a :: b) (c :: d)) end; try reflexivity; congruence.
Qed.
Lemma starts_nil : forall s, starts_with [] s = true.
Proof. intros s. unfold starts_with. cbn [length firstn]. destruct (path_eq_dec [] []); [reflexivity|congruence]. Qed.

Lemma beginning_cons : forall x p l, beginning (x :: p) l = beginning p (below x l).
Proof.
  intros x p l. unfold beginning. f_equal. induction l as [|s l IH]; [reflexivity|]. rewrite below_cons. cbn [filter].
  rewrite starts_cons. destruct s as [|y t]; [exact IH|]. destruct (line_eq_dec y x); [|exact IH].
  cbn [filter]. destruct (starts_with p t); cbn [length]; rewrite IH; reflexivity.
Qed.
Lemma beginning_nil : forall l, beginning [] l = Z.of_nat (length l).
Proof. intros l. unfold beginning. f_equal. induction l as [|s l IH]; [reflexivity|]. cbn [filter]. rewrite starts_nil. cbn [length]. f_equal. exact IH. Qed.

Lemma exactly_cons : forall x p l, exactly (x :: p) l = exactly p (below x l).
Proof.
  intros x p l. unfold exactly. f_equal. induction l as [|s l IH]; [reflexivity|]. rewrite below_cons. cbn [count_occ]. destruct s as [|y t].
  - destruct (path_eq_dec [] (x :: p)); [discriminate|]. exact IH.
  - destruct (line_eq_dec y x) as [->|N].
    + cbn [count_occ]. destruct (path_eq_dec (x :: t) (x :: p)), (path_eq_dec t p); try congruence.
    + destruct (path_eq_dec (y :: t) (x :: p)); [congruence|]. exact IH.
Qed.

(** Samples that are not empty, by their first lines. *)
Definition total (xs : list line) (l : list (list line)) : Z := fold_right (fun x w => Z.of_nat (length (below x l)) + w) 0 xs.

Lemma total_app : forall xs a b, total xs (a ++ b) = total xs a + total xs b.
Proof. induction xs as [|x xs IH]; intros a b; cbn [total fold_right]; [reflexivity|]. fold (total xs (a ++ b)) (total xs a) (total xs b). rewrite IH, below_app, app_length. lia. Qed.
Lemma total_one : forall xs y t, NoDup xs -> total xs [y :: t] = if in_dec line_eq_dec y xs then 1 else 0.
Proof.
  induction xs as [|x xs IH]; intros y t H; [reflexivity|]. inversion_clear H as [|? ? Hx H']. cbn [total fold_right]. fold (total xs [y :: t]).
  rewrite IH by exact H'. rewrite below_one. destruct (line_eq_dec y x) as [->|N].
  - destruct (in_dec line_eq_dec x xs); [contradiction|]. destruct (in_dec line_eq_dec x (x :: xs)) as [_|B]; [reflexivity|]. exfalso. apply B. left. reflexivity.
  - cbn [length]. destruct (in_dec line_eq_dec y xs) as [I|I], (in_dec line_eq_dec y (x :: xs)) as [J|J]; try reflexivity.
    + exfalso. apply J. right. exact I.
    + exfalso. destruct J as [J|J]; [apply N; symmetry; exact J|contradiction].
Qed.
Lemma total_all : forall xs l, NoDup xs -> (forall x, below x l <> [] -> In x xs) -> total xs l = Z.of_nat (length l) - exactly [] l.
Proof.
  intros xs l H. induction l as [|s l IH]; intros C.
  - unfold exactly. cbn [length count_occ]. clear. induction xs as [|x xs IH]; [reflexivity|]. cbn [total fold_right]. fold (total xs []). rewrite IH. reflexivity.
  - change (s :: l) with ([s] ++ l) at 1. rewrite total_app, IH.
    + unfold exactly. cbn [count_occ length]. destruct s as [|y t].
      * destruct (path_eq_dec [] []); [|congruence]. replace (total xs [[]]) with 0; [lia|]. clear. induction xs as [|x xs IH]; [reflexivity|]. cbn [total fold_right]. fold (total xs [[]]). rewrite <- IH. reflexivity.
      * destruct (path_eq_dec (y :: t) []); [discriminate|]. rewrite total_one by exact H. destruct (in_dec line_eq_dec y xs) as [_|N]; [lia|]. exfalso. apply N. apply C. rewrite below_cons. destruct (line_eq_dec y y); [discriminate|congruence].
    + intros x Hx. apply C. rewrite below_cons. destruct s as [|y t]; [exact Hx|]. destruct (line_eq_dec y x); [discriminate|exact Hx].
Qed.

(** ** Labels *)
Definition wf_label (l : label) : Prop := 0 <= lb_count l <= Z.of_nat (length (lb_args l)).

Lemma list_eqb_eq : forall a b, list_eqb a b = true <-> a = b.
Proof.
  induction a as [|x a IH]; intros [|y b]; cbn [list_eqb]; try (split; [discriminate|discriminate]); [split; reflexivity|].
  rewrite andb_true_iff, Z.eqb_eq, IH. split; [intros [-> ->]; reflexivity|intros E; injection E; auto].
Qed.
Lemma firstn_nth_eq : forall n (a b : list Z), (n <= length a)%nat -> (n <= length b)%nat ->
  (firstn n a = firstn n b <-> forall i, (i < n)%nat -> nth i a 0 = nth i b 0).
Proof.
  intros n a b Ha Hb. split.
  - intros E i Hi. assert (forall c : list Z, nth i (firstn n c) 0 = nth i c 0) as F.
    { clear - Hi. revert i Hi. induction n as [|n IH]; intros i Hi c; [lia|]. destruct c as [|x c]; [destruct i; reflexivity|]. destruct i as [|i]; [reflexivity|]. cbn [firstn nth]. apply IH. lia. }
    rewrite <- (F a), <- (F b), E. reflexivity.
  - revert a b Ha Hb. induction n as [|n IH]; intros a b Ha Hb E; [reflexivity|]. destruct a as [|x a], b as [|y b]; cbn [length] in *; try lia. cbn [firstn].
    rewrite (E 0%nat ltac:(lia) : x = y). f_equal. apply IH; [lia|lia|]. intros i Hi. apply (E (S i)). lia.
Qed.

Section Facts.
Variable text : Z -> list Z.
Notation lline l := (label_line text l).

Lemma label_eq_lines : forall a b, wf_label a -> wf_label b -> (label_eq text a b = true <-> lline a = lline b).
Proof.
  intros a b Ha Hb. unfold label_eq, label_line, line_of, note_of. cbn [fst snd]. rewrite !andb_true_iff, list_eqb_eq, Z.eqb_eq, forallb_forall.
  split.
  - intros [[-> E] F]. f_equal. rewrite <- E. unfold wf_label in *. apply firstn_nth_eq; [lia|lia|]. intros i Hi.
    specialize (F (Z.of_nat i)). rewrite zrange_In, Z.eqb_eq, Nat2Z.id in F. apply F. lia.
  - intros E. injection E as E1 E2. assert (lb_count a = lb_count b) as E3.
    { apply (f_equal (@length Z)) in E2. rewrite !firstn_length in E2. unfold wf_label in *. lia. }
    split; [split; assumption|]. intros x Hx. rewrite zrange_In in Hx. rewrite <- E3 in E2. rewrite Z.eqb_eq. unfold wf_label in *.
    rewrite firstn_nth_eq in E2 by lia. apply E2. lia.
Qed.

Lemma assign_wf : forall d l, wf_label l -> wf_label (assign_label d l).
Proof. intros d l H. unfold wf_label, assign_label in *. cbn [lb_count lb_args]. rewrite app_length, firstn_length. lia. Qed.
Lemma assign_line : forall d l, wf_label l -> lline (assign_label d l) = lline l.
Proof.
  intros d l H. unfold label_line, line_of, note_of, assign_label. cbn [lb_format lb_count lb_args fst snd]. f_equal.
  apply firstn_exact. rewrite firstn_length. unfold wf_label in H. lia.
Qed.

(** ** Trees of samples, before the extra leaves are added *)
Inductive raw : node -> list (list line) -> Prop :=
| Raw : forall cs lab l, NoDup (map (fun c => lline (n_label c)) cs) ->
    (forall c, In c cs -> wf_label (n_label c)) ->
    (forall c, In c cs -> raw c (below (lline (n_label c)) l)) ->
    (forall c, In c cs -> below (lline (n_label c)) l <> []) ->
    (forall x, below x l <> [] -> In x (map (fun c => lline (n_label c)) cs)) ->
    raw (Node cs lab (Z.of_nat (length l))) l.

Variable blank : label.

Lemma raw_empty : forall lab, raw (Node [] lab 0) [].
Proof. intros lab. apply (Raw [] lab []); [constructor|intros c []|intros c []|intros c []|]. intros x H. exfalso. apply H. reflexivity. Qed.

Fixpoint add_child (l : label) (labels : list label) (cs : list node) : list node :=
  match cs with
  | [] => [add_stack text blank labels (Node [] (assign_label blank l) 0)]
  | c :: cs => if label_eq text (n_label c) l then add_stack text blank labels c :: cs else c :: add_child l labels cs
  end.
Lemma add_stack_cons : forall l labels cs lab w, add_stack text blank (l :: labels) (Node cs lab w) = Node (add_child l labels cs) lab (w + 1).
Proof.
  intros. cbn [add_stack]. f_equal. induction cs as [|c cs IH]; [reflexivity|]. cbn [add_child]. destruct (label_eq text (n_label c) l); [reflexivity|].
  f_equal. exact IH.
Qed.
Lemma add_stack_label : forall labels n, n_label (add_stack text blank labels n) = n_label n.
Proof. intros [|l labels] [cs lab w]; reflexivity. Qed.

(** The children afterwards: that of the line changed, or a new one at the end. *)
Lemma add_child_cases : forall l labels cs, wf_label l -> (forall c, In c cs -> wf_label (n_label c)) ->
  (exists a c b, cs = a ++ c :: b /\ lline (n_label c) = lline l /\ add_child l labels cs = a ++ add_stack text blank labels c :: b) \/
  (~ In (lline l) (map (fun c => lline (n_label c)) cs) /\ add_child l labels cs = cs ++ [add_stack text blank labels (Node [] (assign_label blank l) 0)]).
Proof.
  intros l labels cs Hl. induction cs as [|c cs IH]; intros H.
  - right. split; [intros []|reflexivity].
  - cbn [add_child]. pose proof (label_eq_lines (n_label c) l (H c (or_introl eq_refl)) Hl) as E. destruct (label_eq text (n_label c) l) eqn:F.
    + left. exists [], c, cs. split; [reflexivity|]. split; [apply E; reflexivity|reflexivity].
    + destruct IH as [(a & c' & b & E1 & E2 & E3)|(N & E3)]; [intros; apply H; right; assumption| |].
      * left. exists (c :: a), c', b. rewrite E1 at 1. rewrite E3. auto.
      * right. rewrite E3. split; [|reflexivity]. cbn [map]. intros [B|B]; [|contradiction]. apply E in B. discriminate.
Qed.

Lemma raw_add : forall labels n l, raw n l -> Forall wf_label labels ->
  raw (add_stack text blank labels n) (l ++ [map (fun x => lline x) labels]).
Proof.
  induction labels as [|x labels IH]; intros n l R W.
  - destruct R as [cs lab l H1 H2 H3 H4 H5]. cbn [add_stack map].
    replace (Z.of_nat (length l) + 1) with (Z.of_nat (length (l ++ [@nil line]))) by (rewrite app_length; cbn [length]; lia).
    assert (forall y, below y (l ++ [[]]) = below y l) as B by (intros y; rewrite below_app; cbn [below flat_map]; apply app_nil_r).
    constructor; try assumption; intros y; rewrite B; auto.
  - inversion_clear W as [|? ? Wx W']. destruct R as [cs lab l H1 H2 H3 H4 H5]. rewrite add_stack_cons. cbn [map].
    set (t := map (fun x => lline x) labels) in *.
    replace (Z.of_nat (length l) + 1) with (Z.of_nat (length (l ++ [lline x :: t]))) by (rewrite app_length; cbn [length]; lia).
    assert (forall y, below y (l ++ [lline x :: t]) = below y l ++ if line_eq_dec (lline x) y then [t] else []) as B by (intros y; rewrite below_app, below_one; reflexivity).
    destruct (add_child_cases x labels cs Wx H2) as [(a & c & b & -> & E2 & ->)|(N & ->)].
    + assert (map (fun c => lline (n_label c)) (a ++ add_stack text blank labels c :: b) = map (fun c => lline (n_label c)) (a ++ c :: b)) as EM.
      { rewrite !map_app. cbn [map]. rewrite add_stack_label. reflexivity. }
      assert (forall d, In d (a ++ add_stack text blank labels c :: b) -> d = add_stack text blank labels c \/ (In d (a ++ c :: b) /\ lline (n_label d) <> lline x)) as C.
      { intros d Hd. rewrite in_app_iff in Hd. cbn [In] in Hd. rewrite <- E2.
        assert (NoDup (map (fun c => lline (n_label c)) (a ++ c :: b))) as H1' by exact H1.
        rewrite map_app in H1'. cbn [map] in H1'. apply NoDup_remove_2 in H1'.
        destruct Hd as [Hd|[Hd|Hd]]; [right|left; symmetry; exact Hd|right]; (split; [rewrite in_app_iff; cbn [In]; auto|]);
          intros B'; apply H1'; rewrite in_app_iff, <- B'; [left|right]; apply (in_map (fun c => lline (n_label c))); exact Hd. }
      assert (In c (a ++ c :: b)) as Ic by (rewrite in_app_iff; cbn [In]; auto).
      constructor.
      * rewrite EM. exact H1.
      * intros d Hd. destruct (C d Hd) as [->|[I _]]; [rewrite add_stack_label|]; apply H2; assumption.
      * intros d Hd. rewrite B. destruct (C d Hd) as [->|[I N]].
        -- rewrite add_stack_label, E2. destruct (line_eq_dec (lline x) (lline x)); [|congruence]. apply IH; [rewrite <- E2; apply H3; exact Ic|exact W'].
        -- destruct (line_eq_dec (lline x) (lline (n_label d))); [congruence|]. rewrite app_nil_r. apply H3. exact I.
      * intros d Hd. rewrite B. intros E. apply app_eq_nil in E as [E _]. revert E. destruct (C d Hd) as [->|[I _]]; [rewrite add_stack_label|]; apply H4; assumption.
      * intros y. rewrite B, EM. intros Hy. destruct (line_eq_dec (lline x) y) as [<-|]; [rewrite <- E2; apply (in_map (fun c => lline (n_label c))); exact Ic|].
        rewrite app_nil_r in Hy. apply H5. exact Hy.
    + set (c := add_stack text blank labels (Node [] (assign_label blank x) 0)).
      assert (lline (n_label c) = lline x) as Ec by (unfold c; rewrite add_stack_label; apply assign_line; exact Wx).
      assert (below (lline x) l = []) as Bx by (destruct (below (lline x) l) eqn:E; [reflexivity|exfalso; apply N, H5; rewrite E; discriminate]).
      assert (forall d, In d (cs ++ [c]) -> d = c \/ (In d cs /\ lline (n_label d) <> lline x)) as C.
      { intros d Hd. rewrite in_app_iff in Hd. destruct Hd as [Hd|[Hd|[]]]; [right|left; symmetry; exact Hd]. split; [exact Hd|].
        intros E. apply N. rewrite <- E. apply (in_map (fun c => lline (n_label c))). exact Hd. }
      constructor.
      * rewrite map_app. cbn [map]. apply Permutation_NoDup with (l := lline (n_label c) :: map (fun c => lline (n_label c)) cs); [apply Permutation_cons_append|].
        constructor; [rewrite Ec; exact N|exact H1].
      * intros d Hd. destruct (C d Hd) as [->|[I _]]; [unfold c; rewrite add_stack_label; apply assign_wf; exact Wx|apply H2; exact I].
      * intros d Hd. rewrite B. destruct (C d Hd) as [->|[I Nd]].
        -- rewrite Ec. destruct (line_eq_dec (lline x) (lline x)); [|congruence]. rewrite Bx. unfold c. apply IH; [apply raw_empty|exact W'].
        -- destruct (line_eq_dec (lline x) (lline (n_label d))); [congruence|]. rewrite app_nil_r. apply H3. exact I.
      * intros d Hd. rewrite B. intros E. destruct (C d Hd) as [->|[I _]].
        -- rewrite Ec in E. destruct (line_eq_dec (lline x) (lline x)); [|congruence]. apply app_eq_nil in E as [_ E]. discriminate.
        -- apply app_eq_nil in E as [E _]. revert E. apply H4. exact I.
      * intros y. rewrite B, map_app, in_app_iff. intros Hy. destruct (line_eq_dec (lline x) y) as [<-|]; [right; left; exact Ec|].
        rewrite app_nil_r in Hy. left. apply H5. exact Hy.
Qed.
End Facts.
