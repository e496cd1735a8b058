(** Block ids in the TrMul machine: every block is taken by one thread, once. *)
From Verif Require Import Base SidePair BlockMap TrMulMachine.
From Coq Require Import Permutation.

(** The id a thread will look at next, and the id of the block it is working on. *)
Definition pending (p : pc) : option Z :=
  match p with
  | PLoop b => Some b
  | PTry w _ _ | PPack w _ _ | PStore w _ _ | PKernel w => Some (w_next w)
  | PDone => None
  end.
Definition active (p : pc) : option Z :=
  match p with
  | PTry w _ _ | PPack w _ _ | PStore w _ _ | PKernel w => Some (w_id w)
  | PLoop _ | PDone => None
  end.

Lemma upd_same : forall A (f : Z -> A) k v, upd f k v k = v.
Proof. intros. unfold upd. rewrite Z.eqb_refl. reflexivity. Qed.
Lemma upd_other : forall A (f : Z -> A) k v x, x <> k -> upd f k v x = f x.
Proof. intros. unfold upd. rewrite (proj2 (Z.eqb_neq x k)) by auto. reflexivity. Qed.
Lemma side_eqb_spec : forall a b, side_eqb a b = true <-> a = b.
Proof. intros [] []; cbn; split; congruence. Qed.
Lemma upd_s_same : forall A (f : side -> Z -> A) s k v, upd_s f s k v s k = v.
Proof. intros A f [] k v; unfold upd_s; cbn; rewrite Z.eqb_refl; reflexivity. Qed.
Lemma upd_s_other : forall A (f : side -> Z -> A) s k v s' x, (s', x) <> (s, k) ->
  upd_s f s k v s' x = f s' x.
Proof.
  intros A f s k v s' x H. unfold upd_s. destruct (side_eqb s' s && (x =? k)) eqn:E; auto.
  apply andb_prop in E. destruct E as [E1 E2]. apply side_eqb_spec in E1. apply Z.eqb_eq in E2. congruence.
Qed.
Lemma sd_dec : forall (s : side) (b : Z) s' b', {(s, b) = (s', b')} + {(s, b) <> (s', b')}.
Proof. intros. destruct (side_eq_dec s s'), (Z.eq_dec b b'); try (right; congruence). left; congruence. Qed.

Section Ids.
Variables (T NB : Z).
Hypothesis (HT : 1 <= T).
Let tid (i : Z) : Prop := 0 <= i < T.

Record ids_inv (pcs : Z -> pc) (next : Z) (begun ran : list Z) : Prop := {
  ii_begun_nodup : NoDup begun;
  ii_begun_range : forall b, In b begun -> 0 <= b < NB /\ b < next;
  ii_next : next = T + Z.of_nat (length begun);
  ii_pend : forall i b, tid i -> pending (pcs i) = Some b -> 0 <= b < next /\ ~ In b begun;
  ii_pend_inj : forall i j b, tid i -> tid j -> pending (pcs i) = Some b -> pending (pcs j) = Some b -> i = j;
  ii_cover : forall b, 0 <= b < NB -> b < next -> In b begun \/ exists i, tid i /\ pending (pcs i) = Some b;
  ii_act : forall i b, tid i -> active (pcs i) = Some b -> In b begun /\ ~ In b ran;
  ii_act_inj : forall i j b, tid i -> tid j -> active (pcs i) = Some b -> active (pcs j) = Some b -> i = j;
  ii_ran_nodup : NoDup ran;
  ii_ran_begun : forall b, In b ran -> In b begun;
  ii_begun_ran : forall b, In b begun -> In b ran \/ exists i, tid i /\ active (pcs i) = Some b
}.

Lemma ids_init : ids_inv (fun i => PLoop i) T [] [].
Proof.
  constructor; cbn [pending active length In]; try (intros; contradiction); try (constructor; fail).
  - lia.
  - intros i b Hi E. inversion E; subst. unfold tid in *. split; [lia|tauto].
  - intros i j b _ _ E F. congruence.
  - intros b Hb Hn. right. exists b. unfold tid. split; [lia|reflexivity].
  - intros i b _ E. discriminate.
  - intros i j b _ _ E. discriminate.
Qed.

(** A step that keeps what thread [i] holds. *)
Lemma ids_same : forall pcs next begun ran i p, ids_inv pcs next begun ran -> tid i ->
  pending p = pending (pcs i) -> active p = active (pcs i) -> ids_inv (upd pcs i p) next begun ran.
Proof.
  intros pcs next begun ran i p I Hi EP EA.
  assert (P : forall j, pending (upd pcs i p j) = pending (pcs j)).
  { intros j. destruct (Z.eq_dec j i) as [->|N]; [rewrite upd_same; auto|rewrite upd_other; auto]. }
  assert (A : forall j, active (upd pcs i p j) = active (pcs j)).
  { intros j. destruct (Z.eq_dec j i) as [->|N]; [rewrite upd_same; auto|rewrite upd_other; auto]. }
  destruct I. constructor; auto.
  - intros j b Hj E. rewrite P in E. eauto.
  - intros j k b Hj Hk E F. rewrite P in E, F. eauto.
  - intros b Hb Hn. destruct (ii_cover0 b Hb Hn) as [?|(j & Hj & E)]; auto.
    right. exists j. rewrite P. auto.
  - intros j b Hj E. rewrite A in E. eauto.
  - intros j k b Hj Hk E F. rewrite A in E, F. eauto.
  - intros b Hb. destruct (ii_begun_ran0 b Hb) as [?|(j & Hj & E)]; auto.
    right. exists j. rewrite A. auto.
Qed.

(** A thread finds its next id beyond the last block. *)
Lemma ids_done : forall pcs next begun ran i b, ids_inv pcs next begun ran -> tid i ->
  pcs i = PLoop b -> NB <= b -> ids_inv (upd pcs i PDone) next begun ran.
Proof.
  intros pcs next begun ran i b I Hi E Hb.
  destruct I. constructor; auto.
  - intros j c Hj F. destruct (Z.eq_dec j i) as [->|N]; [rewrite upd_same in F; discriminate|].
    rewrite upd_other in F by auto. eauto.
  - intros j k c Hj Hk F G.
    destruct (Z.eq_dec j i) as [->|N]; [rewrite upd_same in F; discriminate|].
    destruct (Z.eq_dec k i) as [->|N']; [rewrite upd_same in G; discriminate|].
    rewrite upd_other in F, G by auto. eauto.
  - intros c Hc Hn. destruct (ii_cover0 c Hc Hn) as [?|(j & Hj & F)]; auto.
    right. exists j. split; auto. rewrite upd_other; auto.
    intros ->. rewrite E in F. inversion F. lia.
  - intros j c Hj F. destruct (Z.eq_dec j i) as [->|N]; [rewrite upd_same in F; discriminate|].
    rewrite upd_other in F by auto. eauto.
  - intros j k c Hj Hk F G.
    destruct (Z.eq_dec j i) as [->|N]; [rewrite upd_same in F; discriminate|].
    destruct (Z.eq_dec k i) as [->|N']; [rewrite upd_same in G; discriminate|].
    rewrite upd_other in F, G by auto. eauto.
  - intros c Hc. destruct (ii_begun_ran0 c Hc) as [?|(j & Hj & F)]; auto.
    right. exists j. split; auto. rewrite upd_other; auto. intros ->. rewrite E in F. discriminate.
Qed.

(** How many ids can have been handed out when one below NB is still pending. *)
Lemma ids_next_bound : forall pcs next begun ran i b, ids_inv pcs next begun ran -> tid i ->
  pcs i = PLoop b -> b < NB -> next <= T + NB - 1.
Proof.
  intros pcs next begun ran i b I Hi E Hb.
  assert (P : pending (pcs i) = Some b) by (rewrite E; reflexivity).
  destruct (ii_pend _ _ _ _ I i b Hi P) as [R NI].
  rewrite (ii_next _ _ _ _ I).
  assert (ND : NoDup (b :: begun)) by (constructor; auto; apply (ii_begun_nodup _ _ _ _ I)).
  assert (IC : incl (b :: begun) (zrange 0 NB)).
  { intros x [<-|Hx]; apply zrange_In; [lia|]. apply (ii_begun_range _ _ _ _ I x Hx). }
  pose proof (NoDup_incl_length ND IC) as L. cbn [length] in L.
  assert (length (zrange 0 NB) = Z.to_nat NB).
  { unfold zrange. replace (NB - 0) with NB by lia. generalize (Z.to_nat NB) as n. generalize 0 as a.
    intros a n. revert a. induction n; intros; cbn [zseq length]; auto. }
  lia.
Qed.

Lemma ids_begin : forall pcs next begun ran i b p, ids_inv pcs next begun ran -> tid i ->
  pcs i = PLoop b -> b < NB -> pending p = Some next -> active p = Some b ->
  ids_inv (upd pcs i p) (next + 1) (b :: begun) ran.
Proof.
  intros pcs next begun ran i b p I Hi E Hb EP EA.
  assert (P : pending (pcs i) = Some b) by (rewrite E; reflexivity).
  destruct (ii_pend _ _ _ _ I i b Hi P) as [R NI].
  assert (NR : ~ In b ran) by (intros H; apply NI; apply (ii_ran_begun _ _ _ _ I); auto).
  destruct I. constructor; auto.
  - constructor; auto.
  - intros x [<-|Hx]; [lia|]. destruct (ii_begun_range0 x Hx). lia.
  - cbn [length]. lia.
  - intros j c Hj F. destruct (Z.eq_dec j i) as [->|N].
    + rewrite upd_same, EP in F. inversion F; subst c. split; [lia|].
      intros [->|H]; [lia|]. apply ii_begun_range0 in H. lia.
    + rewrite upd_other in F by auto. destruct (ii_pend0 j c Hj F) as [R' NI'].
      split; [lia|]. intros [->|H]; auto. apply N. eapply ii_pend_inj0; eauto.
  - intros j k c Hj Hk F G.
    destruct (Z.eq_dec j i) as [->|N], (Z.eq_dec k i) as [->|N']; auto;
      rewrite ?upd_same, ?upd_other in F by auto; rewrite ?upd_same, ?upd_other in G by auto.
    + rewrite EP in F. inversion F; subst c. destruct (ii_pend0 k next Hk G). lia.
    + rewrite EP in G. inversion G; subst c. destruct (ii_pend0 j next Hj F). lia.
    + eauto.
  - intros c Hc Hn. destruct (Z.eq_dec c next) as [->|Nc].
    + right. exists i. rewrite upd_same. auto.
    + destruct (ii_cover0 c Hc ltac:(lia)) as [H|(j & Hj & F)]; [left; right; auto|].
      destruct (Z.eq_dec j i) as [->|N].
      * left. left. congruence.
      * right. exists j. rewrite upd_other by auto. auto.
  - intros j c Hj F. destruct (Z.eq_dec j i) as [->|N].
    + rewrite upd_same, EA in F. inversion F; subst c. split; [left; auto|auto].
    + rewrite upd_other in F by auto. destruct (ii_act0 j c Hj F). split; [right; auto|auto].
  - intros j k c Hj Hk F G.
    destruct (Z.eq_dec j i) as [->|N], (Z.eq_dec k i) as [->|N']; auto;
      rewrite ?upd_same, ?upd_other in F by auto; rewrite ?upd_same, ?upd_other in G by auto.
    + rewrite EA in F. inversion F; subst c. destruct (ii_act0 k b Hk G). contradiction.
    + rewrite EA in G. inversion G; subst c. destruct (ii_act0 j b Hj F). contradiction.
    + eauto.
  - intros c Hc. right. auto.
  - intros c [<-|Hc].
    + right. exists i. rewrite upd_same. auto.
    + destruct (ii_begun_ran0 c Hc) as [H|(j & Hj & F)]; auto.
      right. exists j. split; auto. rewrite upd_other; auto. intros ->. rewrite E in F. discriminate.
Qed.

Lemma ids_kernel : forall pcs next begun ran i b p, ids_inv pcs next begun ran -> tid i ->
  active (pcs i) = Some b -> pending p = pending (pcs i) -> active p = None ->
  ids_inv (upd pcs i p) next begun (b :: ran).
Proof.
  intros pcs next begun ran i b p I Hi E EP EA.
  destruct (ii_act _ _ _ _ I i b Hi E) as [IB NR].
  assert (P : forall j, pending (upd pcs i p j) = pending (pcs j)).
  { intros j. destruct (Z.eq_dec j i) as [->|N]; [rewrite upd_same; auto|rewrite upd_other; auto]. }
  destruct I. constructor; auto.
  - intros j c Hj F. rewrite P in F. eauto.
  - intros j k c Hj Hk F G. rewrite P in F, G. eauto.
  - intros c Hc Hn. destruct (ii_cover0 c Hc Hn) as [?|(j & Hj & F)]; auto.
    right. exists j. rewrite P. auto.
  - intros j c Hj F. destruct (Z.eq_dec j i) as [->|N]; [rewrite upd_same, EA in F; discriminate|].
    rewrite upd_other in F by auto. destruct (ii_act0 j c Hj F) as [IB2 NR2]. split; auto.
    intros [->|H]; auto. apply N. eapply ii_act_inj0; eauto.
  - intros j k c Hj Hk F G.
    destruct (Z.eq_dec j i) as [->|N]; [rewrite upd_same, EA in F; discriminate|].
    destruct (Z.eq_dec k i) as [->|N']; [rewrite upd_same, EA in G; discriminate|].
    rewrite upd_other in F, G by auto. eauto.
  - constructor; auto.
  - intros c [<-|Hc]; auto.
  - intros c Hc. destruct (ii_begun_ran0 c Hc) as [H|(j & Hj & F)]; [left; right; auto|].
    destruct (Z.eq_dec j i) as [->|N].
    + left. left. congruence.
    + right. exists j. rewrite upd_other by auto. auto.
Qed.

Lemma zrange_length : forall a b, length (zrange a b) = Z.to_nat (b - a).
Proof.
  intros. unfold zrange. generalize (Z.to_nat (b - a)) as n. intros n. revert a.
  induction n; intros; cbn [zseq length]; auto.
Qed.

(** When every thread has left its loop, every block has been computed once. *)
Lemma ids_final : forall pcs next begun ran, ids_inv pcs next begun ran ->
  (forall i, tid i -> pcs i = PDone) -> Permutation ran (zrange 0 NB).
Proof.
  intros pcs next begun ran I D.
  assert (NP : forall i b, tid i -> pending (pcs i) <> Some b) by (intros i b Hi; rewrite (D i Hi); discriminate).
  assert (NA : forall i b, tid i -> active (pcs i) <> Some b) by (intros i b Hi; rewrite (D i Hi); discriminate).
  destruct I.
  assert (C : forall b, 0 <= b < NB -> b < next -> In b begun).
  { intros b Hb Hn. destruct (ii_cover0 b Hb Hn) as [H|(i & Hi & F)]; auto. exfalso. eapply NP; eauto. }
  assert (NX : NB <= next).
  { destruct (Z_lt_le_dec next NB) as [L|L]; auto. exfalso.
    assert (IC : incl (zrange 0 next) begun).
    { intros x Hx. apply zrange_In in Hx. apply C; lia. }
    pose proof (NoDup_incl_length (zrange_NoDup 0 next) IC) as LE. rewrite zrange_length in LE. lia. }
  apply NoDup_Permutation; auto using zrange_NoDup.
  intros x. rewrite zrange_In. split.
  - intros H. apply ii_ran_begun0, ii_begun_range0 in H. lia.
  - intros H. assert (B : In x begun) by (apply C; lia).
    destruct (ii_begun_ran0 x B) as [?|(i & Hi & F)]; auto. exfalso. eapply NA; eauto.
Qed.
End Ids.
