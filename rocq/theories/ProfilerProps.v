From Coq Require Import ZArith List Bool Sorted Permutation Lia.
From Verif Require Import Base RequantFacts Profiler SpecProfiler ProfilerFacts TreeView SpecTreeView TreeViewFacts TreeViewTree TreeViewProps.
Import ListNotations.
Open Scope Z_scope.

(** ** C55 *)
Lemma round_trip : forall s, good_stack s -> exists b, stack_bytes s = Ok b /\ Z.of_nat (length b) = 8 + 32 * st_size s /\ buffer_size s = 8 + 32 * st_size s /\
  forall fresh rest, exists s', read_stack fresh (b ++ rest) = Ok s' /\ snapshot_of s' = snapshot_of s.
Proof.
  intros s G. destruct (stack_bytes_ok s G) as (b & E & L). pose proof G as (_ & Hs & _). rewrite buffer_size_ok in L |- * by exact Hs. exists b. repeat split; [exact E|exact L|].
  intros fresh rest. destruct (read_back fresh s rest b G E) as (s' & R & I & Sz & Lab). exists s'. split; [exact R|]. unfold snapshot_of. rewrite I, (notes_of_read s s' fresh G Sz Lab). reflexivity.
Qed.

Definition idle_label : label := {| lb_format := 0; lb_count := 0; lb_args := [0; 0; 0; 0]; lb_pad := 0 |}.
Definition one_label : label := {| lb_format := 4096; lb_count := 0; lb_args := [0; 0; 0; 0]; lb_pad := 0 |}.
Definition one_stack : stack := {| st_id := 0; st_size := 1; st_labels := one_label :: repeat idle_label 63 |}.
Lemma one_stack_good : good_stack one_stack.
Proof.
  unfold good_stack. cbn [st_id st_size st_labels one_stack]. split; [lia|]. split; [lia|]. split; [reflexivity|].
  assert (forall z, 0 <= z < 2 ^ 64 -> good_label {| lb_format := z; lb_count := 0; lb_args := [0; 0; 0; 0]; lb_pad := 0 |}) as H.
  { intros z Hz. unfold good_label. cbn [lb_format lb_count lb_args lb_pad]. unfold int_min, int_max. split; [exact Hz|]. split; [lia|]. split; [reflexivity|]. split; [repeat constructor; lia|lia]. }
  constructor; [apply H; lia|]. apply Forall_forall. intros x Hx. apply repeat_spec in Hx. subst x. apply H. lia.
Qed.

Lemma long_profile_refuted : exists l, Forall good_stack l /\ Forall (fun s => st_size s = 1) l /\ samples l [] = UB.
Proof.
  exists (repeat one_stack (Z.to_nat 53687092)). set (n := Z.to_nat 53687092). assert (Z.of_nat n = 53687092) as En by (unfold n; rewrite Z2Nat.id by lia; reflexivity). clearbody n.
  assert (Forall good_stack (repeat one_stack n)) as G by (apply Forall_forall; intros x Hx; apply repeat_spec in Hx; subst x; apply one_stack_good).
  split; [exact G|]. split; [apply Forall_forall; intros x Hx; apply repeat_spec in Hx; subst x; reflexivity|].
  pose proof (samples_ok _ [] G) as Q. cbn [length] in Q. specialize (Q ltac:(unfold int_max; lia)). cbv zeta in Q.
  assert (bytes_needed (filter busy (map snapshot_of (repeat one_stack n))) = 40 * Z.of_nat n) as E.
  { clear. induction n as [|n IH]; [reflexivity|]. cbn [repeat map filter]. change (busy (snapshot_of one_stack)) with true. cbn [bytes_needed fold_right]. fold (bytes_needed (filter busy (map snapshot_of (repeat one_stack n)))).
    rewrite IH. change (length (snd (snapshot_of one_stack))) with 1%nat. lia. }
  rewrite E, En in Q. rewrite (proj2 (Z.leb_gt _ _)) in Q by (unfold int_max; lia). exact Q.
Qed.

(** ** C57 *)
Section Facts.
Variable text : Z -> list Z.
Variable blank : label.
Variables (other_format thread_format : Z).
Variable order : list Z -> list nat.
Hypothesis Order : sorts order.

Lemma levels_share : forall chosen l, (forall s, In s l -> (length (filter chosen s) <= 1)%nat) -> levels chosen l = Z.of_nat (length (filter (existsb chosen) l)).
Proof.
  intros chosen l. induction l as [|s l IH]; intros H; [reflexivity|]. cbn [levels fold_right filter]. fold (levels chosen l). rewrite IH by (intros; apply H; right; assumption).
  specialize (H s (or_introl eq_refl)). assert (existsb chosen s = negb (length (filter chosen s) =? 0)%nat) as E.
  { clear. induction s as [|x s IH]; [reflexivity|]. cbn [existsb filter]. destruct (chosen x); [reflexivity|exact IH]. }
  rewrite E. destruct (length (filter chosen s)) as [|[|k]]; cbn [Nat.eqb negb length]; lia.
Qed.

Lemma share_ok : forall dbg fresh l buf m chosen match_, Forall good_stack l -> samples l [] = Ok buf ->
  populate text blank other_format thread_format order dbg fresh buf = Ok m ->
  (forall lab, 0 <= lb_count lab <= Z.of_nat (length (lb_args lab)) -> match_ lab = chosen (label_line text lab)) ->
  chosen (text other_format, []) = false ->
  forall id root, In (id, root) m -> match_ (n_label root) = false ->
    let taken := samples_of text id (filter busy (map snapshot_of l)) in
    (forall s, In s taken -> (length (filter chosen s) <= 1)%nat) ->
    weight_matching match_ root = Z.of_nat (length (filter (existsb chosen) taken)).
Proof.
  intros dbg fresh l buf m chosen match_ H E P M O id root I N taken U.
  rewrite (matching_ok text blank other_format thread_format order Order dbg fresh l buf m chosen match_ H E P M O id root I), N. apply levels_share. exact U.
Qed.

Lemma root_wf : forall dbg fresh l buf m, Forall good_stack l -> samples l [] = Ok buf ->
  populate text blank other_format thread_format order dbg fresh buf = Ok m ->
  forall id root n, In (id, root) m -> within root n -> 0 <= lb_count (n_label n) <= Z.of_nat (length (lb_args (n_label n))).
Proof.
  intros dbg fresh l buf m H E P id root n I W. destruct (populate_trees text blank other_format thread_format order Order dbg fresh l buf H E) as (m' & P' & _ & _ & D). rewrite P in P'. injection P' as <-.
  destruct (D id root I) as [T _]. apply (tree_wf text other_format root _ T); [|exact W].
  (* the root's label has been set *)
  unfold populate in P. destruct (read_samples text blank (length buf) dbg fresh buf []) as [m0| |]; try discriminate. cbn [bind] in P. clear - P I.
  revert m P I. induction m0 as [|[k n0] m0 IH]; intros m P I; cbn [finish_roots] in P; [injection P as <-; destruct I|].
  unfold finish_root in P. destruct (sort_node order (add_other blank other_format n0)) as [cs lab w]. unfold set_label in P. cbn [length Nat.ltb Nat.leb bind] in P.
  destruct (finish_roots blank other_format thread_format order m0) as [m1| |]; try discriminate. cbn [bind] in P. injection P as <-. destruct I as [I|I]; [|apply (IH m1 eq_refl I)].
  injection I as <- <-. unfold wf_label. cbn [n_label lb_count lb_args]. cbn [length app]. lia.
Qed.

Lemma collapse_roots_ok : forall dbg fresh l buf m chosen match_ depth, Forall good_stack l -> samples l [] = Ok buf ->
  populate text blank other_format thread_format order dbg fresh buf = Ok m ->
  (forall lab, 0 <= lb_count lab <= Z.of_nat (length (lb_args lab)) -> match_ lab = chosen (label_line text lab)) ->
  let out := collapse_roots blank depth match_ m in
  map fst out = map fst m /\
  forall id n, In (id, n) out -> exists root, In (id, root) m /\ label_line text (n_label n) = label_line text (n_label root) /\
    listing text n = filter (fun x => kept chosen (Z.to_nat depth) (label_line text (n_label root)) (fst x)) (listing text root).
Proof.
  intros dbg fresh l buf m chosen match_ depth H E P M. cbv zeta. unfold collapse_roots. split.
  - rewrite map_map. apply map_ext. intros [id n]. reflexivity.
  - intros id n I. apply in_map_iff in I as ([id' root] & Eq & I). injection Eq as -> <-. exists root. split; [exact I|].
    apply (collapse_ok text blank chosen match_ (Z.to_nat depth) root M). intros x W. apply (root_wf dbg fresh l buf m H E P id root x I W).
Qed.
End Facts.
