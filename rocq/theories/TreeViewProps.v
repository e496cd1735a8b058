From Coq Require Import ZArith List Bool Sorted Permutation Lia.
From Verif Require Import Base RequantFacts Profiler SpecProfiler ProfilerFacts TreeView SpecTreeView TreeViewFacts TreeViewTree.
Import ListNotations.
Open Scope Z_scope.

Lemma good_wf : forall l, good_label l -> wf_label l.
Proof. intros l (_ & H & E & _). unfold wf_label. rewrite E. lia. Qed.

Definition top_labels (s : stack) : list label := firstn (Z.to_nat (st_size s)) (st_labels s).
Definition busy_stack (s : stack) : Prop := good_stack s /\ st_size s <> 0.

(** ** The buffer *)
Lemma samples_bytes : forall l buf buf', Forall good_stack l -> Z.of_nat (length buf) <= int_max -> samples l buf = Ok buf' ->
  exists bs, Forall2 (fun s b => stack_bytes s = Ok b) (filter (fun s => negb (st_size s =? 0)) l) bs /\ buf' = buf ++ concat bs /\ Z.of_nat (length buf') <= int_max.
Proof.
  induction l as [|s l IH]; intros buf buf' H Hb E; cbn [samples] in E.
  - injection E as <-. exists []. cbn [filter concat]. rewrite app_nil_r. repeat split; [constructor|exact Hb].
  - inversion_clear H as [|? ? Hs H']. cbn [filter]. destruct (Z.eqb_spec (st_size s) 0) as [Z0|Z0]; cbn [negb].
    + unfold sample in E. rewrite Z0, Z.eqb_refl in E. cbn [bind] in E. apply IH; assumption.
    + destruct (Z.le_gt_cases (Z.of_nat (length buf) + buffer_size s) int_max) as [F|F].
      * destruct (sample_ok s buf Hs Z0 F) as (b & Eb & Lb & Es). rewrite Es in E. cbn [bind] in E.
        assert (Z.of_nat (length (buf ++ b)) <= int_max) as La by (rewrite app_length, Nat2Z.inj_add, Lb; exact F).
        destruct (IH (buf ++ b) buf' H' La E) as (bs & F2 & -> & L). exists (b :: bs). split; [constructor; assumption|]. cbn [concat]. rewrite app_assoc. auto.
      * rewrite (sample_too_long s buf Hs Z0 Hb) in E by lia. discriminate.
Qed.

Lemma busy_filter : forall l, Forall good_stack l -> filter busy (map snapshot_of l) = map snapshot_of (filter (fun s => negb (st_size s =? 0)) l).
Proof. intros l H. induction H as [|s l Hs H IH]; [reflexivity|]. cbn [map filter]. rewrite busy_size by exact Hs. destruct (negb (st_size s =? 0)); cbn [map]; rewrite IH; reflexivity. Qed.
Lemma busy_stacks : forall l, Forall good_stack l -> Forall busy_stack (filter (fun s => negb (st_size s =? 0)) l).
Proof.
  intros l H. apply Forall_forall. intros s Hs. apply filter_In in Hs as [Hs N]. rewrite Forall_forall in H. split; [apply H; exact Hs|].
  intros E. rewrite E in N. discriminate.
Qed.

Section Facts.
Variable text : Z -> list Z.
Variable blank : label.
Variables (other_format thread_format : Z).
Variable order : list Z -> list nat.
Hypothesis Order : sorts order.
Notation lline l := (label_line text l).
Let other : line := (text other_format, []).

Definition add_sample (m : roots) (s : stack) : roots := add_root text blank (st_id s) (top_labels s) m.

Lemma read_samples_ok : forall dbg fresh ss bs, Forall busy_stack ss -> Forall2 (fun s b => stack_bytes s = Ok b) ss bs -> forall fuel m, (length (concat bs) <= fuel)%nat ->
  read_samples text blank fuel dbg fresh (concat bs) m = Ok (fold_left add_sample ss m).
Proof.
  intros dbg fresh ss bs H F. induction F as [|s b ss bs E F IH]; intros fuel m Hf.
  - cbn [concat]. destruct fuel; reflexivity.
  - inversion_clear H as [|? ? [G N] H']. cbn [concat] in *. destruct (stack_bytes_ok s G) as (b' & E' & L). rewrite E in E'. injection E' as <-.
    pose proof G as (Hid & Hs & Hl & _). rewrite buffer_size_ok in L by exact Hs. rewrite app_length in Hf.
    destruct fuel as [|fuel]; [lia|]. cbn [read_samples]. destruct (b ++ concat bs) as [|z zs] eqn:Ez; [apply app_eq_nil in Ez as [-> _]; cbn [length] in L; lia|]. rewrite <- Ez. clear z zs Ez.
    destruct (read_back fresh s (concat bs) b G E) as (s' & R & I & Sz & Lab). rewrite R. cbn [bind]. rewrite Sz, (proj2 (Z.ltb_lt 0 _)) by lia.
    replace (dcheck dbg true) with (@Ok unit tt) by (destruct dbg; reflexivity). cbn [bind].
    assert (buffer_size s' = 8 + 32 * st_size s) as B by (rewrite buffer_size_ok; rewrite Sz; lia). rewrite B.
    rewrite (proj2 (Z.leb_gt _ 0)) by lia. rewrite (proj2 (Z.ltb_ge _ _)) by (rewrite app_length; lia). cbn [orb].
    rewrite <- L, Nat2Z.id, (skipn_exact (length b)) by reflexivity. rewrite IH by (try exact H'; lia). cbn [fold_left]. f_equal. f_equal. unfold add_sample, top_labels.
    rewrite I, Lab, firstn_exact by (rewrite firstn_length, Hl; lia). f_equal. rewrite SimdFacts.wrap_u_s by lia. apply wrap_u32_id. exact Hid.
Qed.

(** ** The roots *)
Lemma samples_of_app : forall id a b, samples_of text id (a ++ b) = samples_of text id a ++ samples_of text id b.
Proof. intros. unfold samples_of. rewrite filter_app, map_app. reflexivity. Qed.
Lemma samples_of_one : forall id x, samples_of text id [x] = if fst x =? id then [map (line_of text) (snd x)] else [].
Proof. intros. unfold samples_of. cbn [filter]. destruct (fst x =? id); reflexivity. Qed.

Lemma sorted_head : forall (k : Z) (n : node) m, StronglySorted Z.lt (map fst ((k, n) :: m)) -> forall k' n', In (k', n') m -> k < k'.
Proof. intros k n m H k' n' I. cbn [map fst] in H. inversion_clear H as [|? ? _ F]. rewrite Forall_forall in F. apply F. apply (in_map fst) in I. exact I. Qed.

Lemma add_root_in : forall id ls m k n, StronglySorted Z.lt (map fst m) -> In (k, n) (add_root text blank id ls m) ->
  (k <> id /\ In (k, n) m) \/ (k = id /\ exists n0, In (id, n0) m /\ n = add_stack text blank ls n0) \/
  (k = id /\ ~ In id (map fst m) /\ n = add_stack text blank ls (Node [] blank 0)).
Proof.
  intros id ls m. induction m as [|[k0 n0] m IH]; intros k n S I; cbn [add_root] in I.
  - destruct I as [I|[]]. injection I as <- <-. right. right. repeat split. intros [].
  - pose proof (sorted_head _ _ _ S) as Hd. cbn [map fst] in S. inversion_clear S as [|? ? S' F].
    destruct (Z.eqb_spec id k0) as [<-|N]; [|destruct (Z.ltb_spec id k0) as [L|L]].
    + destruct I as [I|I].
      * injection I as <- <-. right. left. split; [reflexivity|]. exists n0. split; [left; reflexivity|reflexivity].
      * left. specialize (Hd _ _ I). split; [lia|right; exact I].
    + destruct I as [I|I].
      * injection I as <- <-. right. right. split; [reflexivity|]. split; [|reflexivity]. cbn [map fst]. intros [B|B]; [lia|]. rewrite Forall_forall in F. specialize (F _ B). lia.
      * left. split; [|exact I]. destruct I as [I|I]; [injection I as <- <-; lia|]. specialize (Hd _ _ I). lia.
    + destruct I as [I|I]; [injection I as <- <-; left; split; [lia|left; reflexivity]|].
      destruct (IH k n S' I) as [[A B]|[(A & n1 & B & C)|(A & B & C)]].
      * left. split; [exact A|right; exact B].
      * right. left. split; [exact A|]. exists n1. split; [right; exact B|exact C].
      * right. right. split; [exact A|]. split; [|exact C]. cbn [map fst]. intros [D|D]; [lia|contradiction].
Qed.
Lemma add_root_keys : forall id ls m k, In k (map fst (add_root text blank id ls m)) <-> k = id \/ In k (map fst m).
Proof.
  intros id ls m k. induction m as [|[k0 n0] m IH]; cbn [add_root].
  - cbn [map fst In]. split; intros [H|H]; auto.
  - destruct (Z.eqb_spec id k0) as [<-|N]; [|destruct (id <? k0)]; cbn [map fst In] in *.
    + split; intros [H|H]; auto.
    + split; intros [H|H]; auto.
    + rewrite IH. split; intros [H|[H|H]]; auto.
Qed.
Lemma add_root_sorted : forall id ls m, StronglySorted Z.lt (map fst m) -> StronglySorted Z.lt (map fst (add_root text blank id ls m)).
Proof.
  intros id ls m. induction m as [|[k0 n0] m IH]; intros S; cbn [add_root].
  - cbn [map fst]. repeat constructor.
  - cbn [map fst] in S. pose proof S as S0. inversion_clear S as [|? ? S' F]. destruct (Z.eqb_spec id k0) as [<-|N]; [|destruct (Z.ltb_spec id k0) as [L|L]]; cbn [map fst].
    + exact S0.
    + constructor; [exact S0|]. constructor; [exact L|]. apply (Forall_impl _ (fun a H => Z.lt_trans _ _ _ L H) F).
    + constructor; [apply IH; exact S'|]. apply Forall_forall. intros k Hk. apply add_root_keys in Hk as [->|Hk]; [lia|]. rewrite Forall_forall in F. apply F. exact Hk.
Qed.

Definition roots_ok (m : roots) (snaps : list snapshot) : Prop :=
  StronglySorted Z.lt (map fst m) /\ (forall id, In id (map fst m) <-> In id (map fst snaps)) /\
  (forall id n, In (id, n) m -> raw text n (samples_of text id snaps)) .

Lemma snapshot_lines : forall s, map (line_of text) (snd (snapshot_of s)) = map (fun x => lline x) (top_labels s).
Proof. intros s. unfold snapshot_of, notes_of, top_labels. cbn [snd]. rewrite map_map. reflexivity. Qed.
Lemma top_wf : forall s, good_stack s -> Forall wf_label (top_labels s).
Proof. intros s (_ & _ & _ & H). unfold top_labels. apply Forall_firstn. eapply Forall_impl; [apply good_wf|exact H]. Qed.

Lemma roots_ok_add : forall m snaps s, good_stack s -> roots_ok m snaps -> roots_ok (add_sample m s) (snaps ++ [snapshot_of s]).
Proof.
  intros m snaps s G (S & K & R). unfold add_sample. split; [|split].
  - apply add_root_sorted. exact S.
  - intros id. rewrite add_root_keys, map_app, in_app_iff, K. cbn [map snapshot_of fst In]. split; [intros [->|H]|intros [H|[H|[]]]]; auto.
  - intros id n I. rewrite samples_of_app, samples_of_one. rewrite snapshot_lines. cbn [snapshot_of fst].
    destruct (add_root_in _ _ _ _ _ S I) as [[A B]|[(-> & n0 & B & ->)|(-> & B & ->)]].
    + rewrite (proj2 (Z.eqb_neq _ _)) by congruence. rewrite app_nil_r. apply R. exact B.
    + rewrite Z.eqb_refl. apply raw_add; [apply R; exact B|apply top_wf; exact G].
    + rewrite Z.eqb_refl. replace (samples_of text (st_id s) snaps) with (@nil (list line)).
      * apply (raw_add text blank (top_labels s) (Node [] blank 0) []); [apply raw_empty|apply top_wf; exact G].
      * symmetry. unfold samples_of. rewrite K in B. replace (filter (fun x => fst x =? st_id s) snaps) with (@nil snapshot); [reflexivity|]. symmetry.
        clear - B. induction snaps as [|x snaps IH]; [reflexivity|]. cbn [map In] in B. cbn [filter]. rewrite (proj2 (Z.eqb_neq _ _)) by tauto. apply IH. tauto.
Qed.
Lemma roots_ok_fold : forall ss m snaps, Forall good_stack ss -> roots_ok m snaps -> roots_ok (fold_left add_sample ss m) (snaps ++ map snapshot_of ss).
Proof.
  induction ss as [|s ss IH]; intros m snaps H R; cbn [fold_left map]; [rewrite app_nil_r; exact R|].
  inversion_clear H as [|? ? Hs H']. change (snapshot_of s :: map snapshot_of ss) with ([snapshot_of s] ++ map snapshot_of ss). rewrite app_assoc. apply IH; [exact H'|]. apply roots_ok_add; assumption.
Qed.

Lemma finish_root_ok : forall id n l, raw text n l -> exists n', finish_root blank other_format thread_format order id n = Ok n' /\
  tree text other_format n' l /\ lline (n_label n') = (text thread_format, [wrap_s 32 id; n_weight n']).
Proof.
  intros id n l R. unfold finish_root. pose proof (raw_tree text blank other_format order Order n l R) as T.
  destruct (sort_node order (add_other blank other_format n)) as [cs lab w]. unfold set_label. cbn [length Nat.ltb Nat.leb bind].
  eexists. split; [reflexivity|]. split; [|reflexivity]. remember (Node cs lab w) as t eqn:E. destruct T. injection E as <- <- <-. econstructor; eassumption.
Qed.
Lemma finish_roots_ok : forall m snaps, (forall id n, In (id, n) m -> raw text n (samples_of text id snaps)) ->
  exists m', finish_roots blank other_format thread_format order m = Ok m' /\ map fst m' = map fst m /\
    forall id n, In (id, n) m' -> tree text other_format n (samples_of text id snaps) /\ lline (n_label n) = (text thread_format, [wrap_s 32 id; n_weight n]).
Proof.
  induction m as [|[id n] m IH]; intros snaps H; cbn [finish_roots].
  - exists []. repeat split; destruct H0.
  - destruct (finish_root_ok id n _ (H id n (or_introl eq_refl))) as (n' & -> & T & L). cbn [bind].
    destruct (IH snaps) as (m' & -> & K & D); [intros; apply H; right; assumption|]. cbn [bind]. eexists. split; [reflexivity|]. cbn [map fst]. rewrite K. split; [reflexivity|].
    intros id' n1 [E|I]; [injection E as <- <-; auto|apply D; exact I].
Qed.

Lemma populate_trees : forall dbg fresh l buf, Forall good_stack l -> samples l [] = Ok buf ->
  let snaps := filter busy (map snapshot_of l) in
  exists m, populate text blank other_format thread_format order dbg fresh buf = Ok m /\
    StronglySorted Z.lt (map fst m) /\ (forall id, In id (map fst m) <-> In id (map fst snaps)) /\
    forall id root, In (id, root) m -> tree text other_format root (samples_of text id snaps) /\ label_line text (n_label root) = (text thread_format, [wrap_s 32 id; n_weight root]).
Proof.
  intros dbg fresh l buf H E snaps. destruct (samples_bytes l [] buf H) as (bs & F & Eb & Lb); [cbn [length]; unfold int_max; lia|exact E|]. cbn [app] in Eb. subst buf.
  pose proof (busy_stacks l H) as HB. unfold populate. rewrite (read_samples_ok dbg fresh _ bs HB F) by lia. cbn [bind].
  assert (roots_ok (fold_left add_sample (filter (fun s => negb (st_size s =? 0)) l) []) ([] ++ map snapshot_of (filter (fun s => negb (st_size s =? 0)) l))) as (S & K & R).
  { apply roots_ok_fold; [eapply Forall_impl; [|exact HB]; intros s [G _]; exact G|]. split; [constructor|]. split; [reflexivity|intros id n []]. }
  cbn [app] in K, R. rewrite <- busy_filter in K, R by exact H. fold snaps in K, R.
  destruct (finish_roots_ok _ snaps R) as (m' & -> & Km & D). exists m'. split; [reflexivity|]. rewrite Km. auto.
Qed.

Lemma samples_of_nonempty : forall id snaps, In id (map fst snaps) -> samples_of text id snaps <> [].
Proof.
  intros id snaps H E. apply in_map_iff in H as (x & Ex & I). unfold samples_of in E. apply map_eq_nil in E.
  assert (In x (filter (fun x => fst x =? id) snaps)) as J by (apply filter_In; split; [exact I|apply Z.eqb_eq; exact Ex]). rewrite E in J. destruct J.
Qed.

Lemma populate_ok : forall dbg fresh l buf, Forall good_stack l -> samples l [] = Ok buf ->
  let snaps := filter busy (map snapshot_of l) in
  exists m, populate text blank other_format thread_format order dbg fresh buf = Ok m /\
    StronglySorted Z.lt (map fst m) /\ (forall id, In id (map fst m) <-> In id (map fst snaps)) /\
    forall id root, In (id, root) m -> describes text (text other_format, []) root (samples_of text id snaps) /\
      label_line text (n_label root) = (text thread_format, [wrap_s 32 id; n_weight root]).
Proof.
  intros dbg fresh l buf H E snaps. destruct (populate_trees dbg fresh l buf H E) as (m & P & S & K & D). fold snaps in K, D. exists m. split; [exact P|]. split; [exact S|]. split; [exact K|].
  intros id root I. destruct (D id root I) as [T L]. split; [|exact L]. apply tree_describes; [exact T|]. apply samples_of_nonempty. apply K. apply (in_map fst) in I. exact I.
Qed.

(** ** Weights fit in an int *)
Definition steps (l : list (list line)) : Z := levels (fun _ => true) l.
Lemma steps_lengths : forall l, steps l = fold_right (fun s n => Z.of_nat (length s) + n) 0 l.
Proof.
  induction l as [|s l IH]; [reflexivity|]. unfold steps in *. cbn [levels fold_right]. fold (levels (fun _ => true) l). rewrite IH. f_equal. f_equal.
  clear. induction s as [|x s IH]; [reflexivity|]. cbn [filter length]. rewrite IH. reflexivity.
Qed.
Lemma sum_parts : forall xs l, fold_right (fun x w => 2 * Z.of_nat (length (below x l)) + steps (below x l) + w) 0 xs = total xs l + parts (fun _ => true) xs l.
Proof.
  induction xs as [|x xs IH]; intros l; [reflexivity|]. cbn [fold_right total parts]. fold (total xs l) (parts (fun _ => true) xs l). rewrite IH. unfold part. fold (steps (below x l)). lia.
Qed.
Lemma matching_bound : forall match_ n l, tree text other_format n l -> 0 <= weight_matching match_ n <= 2 * Z.of_nat (length l) + steps l.
Proof.
  intros match_ n l T. induction T as [cs lab l reg oth P S H1 H2 H3 IH H4 H5 O]. rewrite weight_node. rewrite (below_weight_perm match_ _ _ P), below_weight_app.
  assert (0 <= below_weight match_ reg <= total (map (fun c => lline (n_label c)) reg) l + parts (fun _ => true) (map (fun c => lline (n_label c)) reg) l) as B1.
  { rewrite <- sum_parts. clear - IH. induction reg as [|c reg IH']; [cbn; lia|]. cbn [below_weight fold_right map]. fold (below_weight match_ reg).
    pose proof (IH c (or_introl eq_refl)). specialize (IH' (fun d Hd => IH d (or_intror Hd))). lia. }
  rewrite (total_all _ _ H1 H5), (parts_all (fun _ => true) _ _ H1 H5) in B1. fold (steps l) in B1. pose proof (exactly_nil_bounds l).
  assert (0 <= below_weight match_ oth <= exactly [] l) as B2.
  { destruct O as [[-> _]|(o & -> & _)]; cbn [below_weight fold_right]; [lia|]. rewrite weight_node. cbn [below_weight fold_right]. destruct (match_ o); lia. }
  destruct (match_ lab); lia.
Qed.
Lemma sub_tree : forall n l, tree text other_format n l -> forall m, within n m -> exists l', tree text other_format m l' /\ Z.of_nat (length l') <= Z.of_nat (length l) /\ steps l' <= steps l
   \/ (exists o, m = Node [] o (exactly [] l') /\ Z.of_nat (length l') <= Z.of_nat (length l)).
Proof.
  intros n l T. induction T as [cs lab l reg oth P S H1 H2 H3 IH H4 H5 O]. intros m W. apply within_inv in W as [<-|(c & Hc & W)].
  - exists l. left. split; [econstructor; eassumption|lia].
  - cbn [n_children] in Hc. apply (Permutation_in _ P) in Hc. apply in_app_iff in Hc as [Hc|Hc].
    + assert (Z.of_nat (length (below (lline (n_label c)) l)) <= Z.of_nat (length l) /\ steps (below (lline (n_label c)) l) <= steps l) as [B1 B2].
      { clear. rewrite !steps_lengths. induction l as [|s l IH]; [cbn; lia|]. rewrite below_cons. destruct s as [|y t]; [|destruct (line_eq_dec y _)]; cbn [length fold_right] in *; lia. }
      destruct (IH c Hc m W) as (l' & [(A & B & C)|(o & E & A)]); exists l'; [left|right]; [split; [exact A|lia]|exists o; split; [exact E|lia]].
    + destruct O as [[-> _]|(o & -> & _)]; [destruct Hc|]. destruct Hc as [<-|[]]. apply within_inv in W as [<-|(c & [] & _)]. exists l. right. exists o. split; [reflexivity|lia].
Qed.

Lemma steps_bytes : forall id snaps, (forall x, In x snaps -> snd x <> []) ->
  40 * Z.of_nat (length (samples_of text id snaps)) <= bytes_needed snaps /\ 2 * Z.of_nat (length (samples_of text id snaps)) + steps (samples_of text id snaps) <= bytes_needed snaps.
Proof.
  intros id snaps H. rewrite steps_lengths. induction snaps as [|x snaps IH]; [cbn; lia|]. specialize (IH (fun y Hy => H y (or_intror Hy))).
  unfold samples_of in *. cbn [filter]. cbn [bytes_needed fold_right]. fold (bytes_needed snaps). pose proof (H x (or_introl eq_refl)) as Hx. destruct (snd x) as [|y t] eqn:Ex; [congruence|]. destruct (fst x =? id); cbn [length map fold_right] in *; rewrite ?Ex in *; cbn [length map] in *; rewrite ?map_length in *; lia.
Qed.

Lemma weights_fit : forall dbg fresh l buf m, Forall good_stack l -> samples l [] = Ok buf ->
  populate text blank other_format thread_format order dbg fresh buf = Ok m ->
  forall id root n match_, In (id, root) m -> within root n -> 0 <= 40 * n_weight n <= int_max /\ 0 <= weight_matching match_ n <= int_max.
Proof.
  intros dbg fresh l buf m H E P id root n match_ I W. destruct (populate_trees dbg fresh l buf H E) as (m' & P' & _ & K & D). rewrite P in P'. injection P' as <-.
  destruct (D id root I) as [T _]. set (snaps := filter busy (map snapshot_of l)) in *.
  assert (bytes_needed snaps <= int_max) as B.
  { pose proof (samples_ok l [] H) as Q. cbn [length] in Q. specialize (Q ltac:(unfold int_max; lia)). cbv zeta in Q. fold snaps in Q. destruct (Z.leb_spec (Z.of_nat 0 + bytes_needed snaps) int_max) as [L|L]; [lia|]. rewrite Q in E. discriminate. }
  destruct (steps_bytes id snaps) as [S1 S2]; [intros x Hx; apply filter_In in Hx as [_ Hx]; unfold busy in Hx; destruct (snd x); [discriminate|discriminate]|].
  destruct (sub_tree root _ T n W) as (l' & [(A & B1 & B2)|(o & -> & A)]).
  - rewrite (tree_weight _ _ _ _ A). pose proof (matching_bound match_ n l' A). lia.
  - pose proof (exactly_nil_bounds l'). cbn [n_weight]. rewrite weight_node. cbn [below_weight fold_right]. destruct (match_ o); lia.
Qed.

(** ** Matching *)
Lemma matching_ok : forall dbg fresh l buf m chosen match_, Forall good_stack l -> samples l [] = Ok buf ->
  populate text blank other_format thread_format order dbg fresh buf = Ok m ->
  (forall lab, 0 <= lb_count lab <= Z.of_nat (length (lb_args lab)) -> match_ lab = chosen (label_line text lab)) ->
  chosen (text other_format, []) = false ->
  forall id root, In (id, root) m ->
    weight_matching match_ root = (if match_ (n_label root) then n_weight root else 0) + levels chosen (samples_of text id (filter busy (map snapshot_of l))).
Proof.
  intros dbg fresh l buf m chosen match_ H E P M O id root I. destruct (populate_trees dbg fresh l buf H E) as (m' & P' & _ & K & D). rewrite P in P'. injection P' as <-.
  destruct (D id root I) as [T _]. apply (tree_matching text other_format chosen match_ M O root _ T).
Qed.

(** ** Collapsing *)
Lemma node_induction : forall (Q : node -> Prop), (forall cs lab w, (forall c, In c cs -> Q c) -> Q (Node cs lab w)) -> forall n, Q n.
Proof.
  intros Q H. fix F 1. intros [cs lab w]. apply H. induction cs as [|c cs IH]; [intros c []|]. intros d [<-|Hd]; [apply F|apply IH; exact Hd].
Qed.

Lemma filter_flat_map : forall {A B} (f : B -> bool) (g : A -> list B) l, filter f (flat_map g l) = flat_map (fun x => filter f (g x)) l.
Proof. intros A B f g l. induction l as [|x l IH]; [reflexivity|]. cbn [flat_map]. rewrite filter_app, IH. reflexivity. Qed.
Lemma filter_map : forall {A B} (f : B -> bool) (g : A -> B) l, filter f (map g l) = map g (filter (fun x => f (g x)) l).
Proof. intros A B f g l. induction l as [|x l IH]; [reflexivity|]. cbn [map filter]. rewrite IH. destruct (f (g x)); reflexivity. Qed.
Lemma flat_map_map : forall {A B C} (f : B -> list C) (g : A -> B) l, flat_map f (map g l) = flat_map (fun x => f (g x)) l.
Proof. intros A B C f g l. induction l as [|x l IH]; [reflexivity|]. cbn [map flat_map]. rewrite IH. reflexivity. Qed.
Lemma flat_map_ext_in : forall {A B} (f g : A -> list B) l, (forall x, In x l -> f x = g x) -> flat_map f l = flat_map g l.
Proof. intros A B f g l H. induction l as [|x l IH]; [reflexivity|]. cbn [flat_map]. rewrite H by (left; reflexivity). rewrite IH by (intros; apply H; right; assumption). reflexivity. Qed.

Definition wf_tree (n : node) : Prop := forall m, within n m -> wf_label (n_label m).
Lemma wf_child : forall cs lab w c, wf_tree (Node cs lab w) -> In c cs -> wf_tree c.
Proof. intros cs lab w c H Hc m W. apply H. eapply within_child; [exact Hc|exact W]. Qed.

Lemma collapse_node_label : forall d n, n_label (collapse_node blank d n) = assign_label blank (n_label n).
Proof. intros [|d] [cs lab w]; reflexivity. Qed.
Lemma collapse_matching_label : forall d match_ n, n_label (collapse_matching blank d match_ n) = assign_label blank (n_label n).
Proof. intros d match_ [cs lab w]. cbn [collapse_matching]. destruct (match_ lab); [apply collapse_node_label|reflexivity]. Qed.

Lemma collapse_node_listing : forall n d, wf_tree n -> listing text (collapse_node blank d n) = filter (fun x => (length (fst x) <=? d)%nat) (listing text n).
Proof.
  intros n. induction n as [cs lab w IH] using node_induction. intros d H. rewrite listing_node. cbn [filter fst length Nat.leb]. rewrite filter_flat_map.
  destruct d as [|d]; cbn [collapse_node]; rewrite listing_node; f_equal.
  - symmetry. transitivity (flat_map (fun c : node => @nil (list line * Z)) cs); [|clear; induction cs; auto]. apply flat_map_ext_in. intros c Hc. rewrite filter_map. cbn [fst length Nat.leb].
    replace (filter _ _) with (@nil (list line * Z)); [reflexivity|]. clear. induction (listing text c); auto.
  - rewrite flat_map_map. apply flat_map_ext_in. intros c Hc. rewrite collapse_node_label, assign_line by (apply (wf_child _ _ _ _ H Hc); constructor).
    rewrite (IH c Hc d (wf_child _ _ _ _ H Hc)), filter_map. cbn [fst length Nat.leb]. reflexivity.
Qed.

Lemma kept_nil : forall chosen d top, kept chosen d top [] = true.
Proof. intros. unfold kept. cbn [length seq forallb Nat.leb]. rewrite orb_true_r. reflexivity. Qed.
Lemma kept_chosen : forall chosen d top p, chosen top = true -> kept chosen d top p = (length p <=? d)%nat.
Proof.
  intros chosen d top p H. unfold kept. cbn [seq forallb nth]. rewrite H. cbn [negb orb Nat.add]. destruct (Nat.leb_spec (length p) d) as [L|L]; [|reflexivity]. cbn [andb].
  apply forallb_forall. intros k Hk. apply orb_true_iff. right. apply Nat.leb_le. lia.
Qed.
Lemma forallb_shift : forall (f : nat -> bool) a n, forallb f (seq (S a) n) = forallb (fun k => f (S k)) (seq a n).
Proof. intros f a n. revert a. induction n as [|n IH]; intros a; [reflexivity|]. cbn [seq forallb]. rewrite IH. reflexivity. Qed.
Lemma forallb_ext_in : forall {A} (f g : A -> bool) l, (forall x, In x l -> f x = g x) -> forallb f l = forallb g l.
Proof. intros A f g l H. induction l as [|x l IH]; [reflexivity|]. cbn [forallb]. rewrite H by (left; reflexivity). rewrite IH by (intros; apply H; right; assumption). reflexivity. Qed.
Lemma kept_other : forall chosen d top x p, chosen top = false -> kept chosen d top (x :: p) = kept chosen d x p.
Proof.
  intros chosen d top x p H. unfold kept. cbn [length]. change (seq 0 (S (S (length p)))) with (0%nat :: seq 1 (S (length p))). cbn [forallb]. rewrite forallb_shift.
  change (nth 0 (top :: x :: p) top) with top. rewrite H. cbn [negb orb andb]. apply forallb_ext_in. intros k Hk. apply in_seq in Hk.
  change (nth (S k) (top :: x :: p) top) with (nth k (x :: p) top). rewrite (nth_indep (x :: p) top x) by (cbn [length]; lia). reflexivity.
Qed.

Lemma collapse_matching_listing : forall chosen match_ d, (forall l, wf_label l -> match_ l = chosen (lline l)) -> forall n, wf_tree n ->
  listing text (collapse_matching blank d match_ n) = filter (fun x => kept chosen d (lline (n_label n)) (fst x)) (listing text n).
Proof.
  intros chosen match_ d M n. induction n as [cs lab w IH] using node_induction. intros H. assert (wf_label lab) as Wl by (apply (H (Node cs lab w)); constructor).
  cbn [collapse_matching n_label]. rewrite (M lab Wl). destruct (chosen (lline lab)) eqn:E.
  - rewrite collapse_node_listing by exact H. apply filter_ext. intros x. symmetry. apply kept_chosen. exact E.
  - rewrite !listing_node. cbn [filter fst]. rewrite kept_nil. f_equal. rewrite filter_flat_map, flat_map_map. apply flat_map_ext_in. intros c Hc.
    rewrite collapse_matching_label, assign_line by (apply (wf_child _ _ _ _ H Hc); constructor). rewrite (IH c Hc (wf_child _ _ _ _ H Hc)), filter_map. f_equal.
    apply filter_ext. intros x. cbn [fst]. symmetry. apply kept_other. exact E.
Qed.

Lemma collapse_ok : forall chosen match_ depth n, (forall l, 0 <= lb_count l <= Z.of_nat (length (lb_args l)) -> match_ l = chosen (label_line text l)) ->
  (forall m, within n m -> 0 <= lb_count (n_label m) <= Z.of_nat (length (lb_args (n_label m)))) ->
  let out := collapse_matching blank depth match_ n in
  label_line text (n_label out) = label_line text (n_label n) /\  listing text out = filter (fun x => kept chosen depth (label_line text (n_label n)) (fst x)) (listing text n).
Proof.
  intros chosen match_ depth n M H. cbv zeta. split; [rewrite collapse_matching_label; apply assign_line, (H n); constructor|]. apply collapse_matching_listing; assumption.
Qed.
Lemma collapse_node_ok : forall depth n, (forall m, within n m -> 0 <= lb_count (n_label m) <= Z.of_nat (length (lb_args (n_label m)))) ->
  let out := collapse_node blank depth n in
  label_line text (n_label out) = label_line text (n_label n) /\  listing text out = filter (fun x => (length (fst x) <=? depth)%nat) (listing text n) /\  depth_below out = Z.min (Z.of_nat depth) (depth_below n).
Proof.
  intros depth n H. cbv zeta. split; [rewrite collapse_node_label; apply assign_line, (H n); constructor|]. split; [apply collapse_node_listing; exact H|]. clear H.
  revert depth. induction n as [cs lab w IH] using node_induction. intros depth. pose proof (depth_nonneg (Node cs lab w)). destruct depth as [|d]; [change (depth_below (collapse_node blank 0 (Node cs lab w))) with 0; lia|].
  cbn [collapse_node]. rewrite !depth_node. destruct cs as [|c0 cs0]; [cbn [map]; lia|]. set (cs := c0 :: cs0) in *.
  assert (fold_right (fun c m => Z.max (depth_below c) m) 0 (map (collapse_node blank d) cs) = Z.min (Z.of_nat d) (fold_right (fun c m => Z.max (depth_below c) m) 0 cs)) as F.
  { clear - IH. induction cs as [|c cs IH']; [cbn; lia|]. cbn [map fold_right]. rewrite IH' by (intros; apply IH; right; assumption). rewrite (IH c (or_introl eq_refl)).
    lia. }
  change (match map (collapse_node blank d) cs with [] => 0 | _ :: _ => 1 + fold_right (fun c m => Z.max (depth_below c) m) 0 (map (collapse_node blank d) cs) end)
    with (1 + fold_right (fun c m => Z.max (depth_below c) m) 0 (map (collapse_node blank d) cs)). rewrite F. lia.
Qed.

(** Labels of the trees of profiles are well-formed. *)
Lemma tree_wf : forall n l, tree text other_format n l -> wf_label (n_label n) -> wf_tree n.
Proof.
  intros n l T. induction T as [cs lab l reg oth P S H1 H2 H3 IH H4 H5 O]. intros Wl m W. apply within_inv in W as [<-|(c & Hc & W)]; [exact Wl|].
  cbn [n_children] in Hc. apply (Permutation_in _ P) in Hc. apply in_app_iff in Hc as [Hc|Hc]; [apply (IH c Hc (H2 c Hc) m W)|].
  destruct O as [[-> _]|(o & -> & Wo & _)]; [destruct Hc|]. destruct Hc as [<-|[]]. apply within_inv in W as [<-|(c & [] & _)]. exact Wo.
Qed.
End Facts.
