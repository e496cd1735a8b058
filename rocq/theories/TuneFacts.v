(** Tuning: proofs. *)
From Verif Require Import Base SidePair BlockMap CpuInfo SpecCpu CpuFacts Tune Ctx SpecCtx.

Section Tuning.
Variable dbg : bool.
Variable m : machine.
Hypothesis V : valid_processors (m_processors m).

Definition cpu_fine (i : cpu_info) : Prop := i = cpu_init \/ settled m i.

Lemma settled_initialized : forall i, m_library m = true -> settled m i -> (ci_status i = Initialized <-> usable m).
Proof.
  intros i L (_ & _ & _ & D & _). specialize (D L). unfold usable. destruct D as [[D1 D2]|[D1 D2]]; [tauto|].
  split; [congruence|tauto].
Qed.

Lemma ensure_fine : forall i, cpu_fine i -> exists b i', ensure_initialized dbg m i = Ok (b, i') /\ settled m i' /\
  (m_library m = true -> (b = true <-> usable m)) /\ (settled m i -> i' = i).
Proof.
  intros i F. destruct (ensure_ok dbg m i V F) as (b & i' & E & S & B & K). exists b, i'. split; [exact E|]. split; [exact S|].
  split; [|exact K]. intros L. rewrite (B L). apply settled_initialized; assumption.
Qed.

Lemma feature_fine : forall f i, cpu_fine i -> exists b i', has_feature dbg m f i = Ok (b, i') /\ cpu_fine i' /\
  (b = true <-> usable m /\ f (m_features m) = true).
Proof.
  intros f i F. unfold has_feature. destruct (m_library m) eqn:L.
  - destruct (ensure_fine i F) as (b & i' & E & S & B & _). rewrite E. cbn [bind]. eexists _, _. split; [reflexivity|].
    split; [right; exact S|]. rewrite Bool.andb_true_iff, (B L). tauto.
  - eexists _, _. split; [reflexivity|]. split; [exact F|]. split; [discriminate|]. intros ((C & _) & _). congruence.
Qed.

Definition a55 (u : option uarch) : bool := match u with Some CortexA53 | Some CortexA55r0 | Some CortexA55 => true | _ => false end.
Lemma a55_iff : forall u, a55 u = true <-> a55ish u.
Proof. intros [[]|]; unfold a55ish; cbn; split; intros H; auto; try discriminate; destruct H as [H|[H|H]]; discriminate. Qed.

Lemma resolve_now_fine : forall u i, cpu_fine i -> exists t i', resolve_now dbg m u i = Ok (t, i') /\ cpu_fine i' /\ (settled m i -> i' = i) /\ measures m u t.
Proof.
  intros u i F. unfold resolve_now, current_cpu_is_a55ish, current_cpu_is_x1. destruct (m_library m) eqn:L.
  - destruct (ensure_fine i F) as (b & i1 & E & S & B & K). specialize (B L). rewrite E. cbn [bind]. fold (a55 (fst u)).
    pose proof (a55_iff (fst u)) as A. destruct b; cbn [andb].
    + destruct (a55 (fst u)); cbn [andb].
      * eexists _, _. split; [reflexivity|]. split; [right; exact S|]. split; [exact K|]. cbn [measures]. tauto.
      * destruct (ensure_fine i1 (or_intror S)) as (b2 & i2 & E2 & S2 & B2 & K2). specialize (B2 L). rewrite E2. cbn [bind].
        assert (b2 = true) as -> by tauto. cbn [andb]. eexists _, _. split; [reflexivity|]. split; [right; exact S2|].
        split; [intros Q; rewrite (K2 S); auto|]. destruct (snd u) as [[]|] eqn:W; cbn [measures]; try rewrite W;
          try (split; [tauto|split; [|reflexivity]]; rewrite <- A; discriminate);
          intros (_ & [C|C]); [rewrite <- A in C; discriminate|discriminate|rewrite <- A in C; discriminate|discriminate|rewrite <- A in C; discriminate|discriminate|rewrite <- A in C; discriminate|discriminate|rewrite <- A in C; discriminate|discriminate].
    + destruct (ensure_fine i1 (or_intror S)) as (b2 & i2 & E2 & S2 & B2 & K2). specialize (B2 L). rewrite E2. cbn [bind].
      assert (U : ~ usable m) by (intros U; apply B in U; discriminate).
      assert (b2 = false) as -> by (destruct b2; [exfalso; apply U, B2; reflexivity|reflexivity]). cbn [andb]. eexists _, _. split; [reflexivity|]. split; [right; exact S2|].
      split; [intros Q; rewrite (K2 S); auto|]. cbn [measures]. tauto.
  - cbn [bind]. eexists _, _. split; [reflexivity|]. split; [exact F|]. split; [auto|]. cbn [measures]. intros ((C & _) & _). congruence.
Qed.

(** * One resolver *)

(** The latest measurement in a log is what the resolver remembers. *)
Definition remembers (l : list (tuning * resolution)) (r : resolver) : Prop :=
  (rs_last r = TAuto /\ forall k t x, nth_error l k = Some (t, x) -> rn_asked x = false) \/
  (rs_last r <> TAuto /\ exists j r', nth_error l j = Some (TAuto, r') /\ rn_asked r' = true /\ measures m (rn_uarch r') (rn_tuning r') /\
    rs_last r = rn_tuning r' /\ rs_time r = rn_now r' /\ forall k t x, (j < k)%nat -> nth_error l k = Some (t, x) -> rn_asked x = false).
Definition log_fine l r : Prop := right_resolutions m l /\ remembers l r.

Lemma nth_snoc : forall A (l : list A) x i y, nth_error (l ++ [x]) i = Some y -> nth_error l i = Some y \/ i = length l /\ y = x.
Proof.
  intros A l x i y H. destruct (Nat.lt_trichotomy i (length l)) as [L|[->|L]].
  - left. rewrite nth_error_app1 in H by exact L. exact H.
  - right. rewrite nth_error_app2, Nat.sub_diag in H by lia. cbn in H. split; [reflexivity|congruence].
  - exfalso. assert (N : nth_error (l ++ [x]) i = None) by (apply nth_error_None; rewrite app_length; cbn [length]; lia). congruence.
Qed.
Lemma nth_old : forall A (l : list A) x i y, nth_error l i = Some y -> nth_error (l ++ [x]) i = Some y.
Proof. intros A l x i y H. rewrite nth_error_app1; [exact H|]. apply nth_error_Some. congruence. Qed.
Lemma nth_new : forall A (l : list A) x, nth_error (l ++ [x]) (length l) = Some x.
Proof. intros. rewrite nth_error_app2, Nat.sub_diag by lia. reflexivity. Qed.
Lemma nth_lt : forall A (l : list A) i y, nth_error l i = Some y -> (i < length l)%nat.
Proof. intros A l i y H. apply nth_error_Some. congruence. Qed.

Lemma log_nil : log_fine [] resolver_init.
Proof.
  split.
  - constructor; intros i; intros; destruct i; discriminate.
  - left. split; [reflexivity|]. intros [|k]; discriminate.
Qed.

Lemma log_set : forall l r t, log_fine l r -> log_fine l (set_tuning t r).
Proof. intros l r t H. exact H. Qed.

(** A resolution that does not measure. *)
Lemma log_kept : forall l r r' t x, log_fine l r -> rn_asked x = false -> rs_last r' = rs_last r -> rs_time r' = rs_time r ->
  (t <> TAuto -> rn_tuning x = t) -> (t = TAuto -> rs_last r <> TAuto /\ rn_tuning x = rs_last r /\ rn_now x - rs_time r < period) -> log_fine (l ++ [(t, x)]) r'.
Proof.
  intros l r r' t x [R M] N EL ET X A. split.
  - constructor.
    + intros i t' y H NA. apply nth_snoc in H. destruct H as [H|[-> H]]; [apply (rr_explicit m l R i); assumption|].
      injection H as -> ->. auto.
    + intros i y H. apply nth_snoc in H. destruct H as [H|[-> H]].
      * destruct (rr_auto m l R i y H) as (j & y' & J & E & B1 & B2 & B3 & B4 & B5). exists j, y'. split; [exact J|]. split; [apply nth_old; exact E|].
        do 4 (split; [assumption|]). intros k t' z K Z. apply nth_snoc in Z. destruct Z as [Z|[-> Z]]; [eapply B5; eassumption|].
        injection Z as -> ->. exact N.
      * injection H as <- ->. destruct (A eq_refl) as (A1 & A2 & A3). destruct M as [[M _]|[_ (j & y' & E & B1 & B2 & B3 & B4 & B5)]]; [congruence|].
        exists j, y'. split; [apply nth_lt in E; lia|]. split; [apply nth_old; exact E|]. split; [exact B1|]. split; [exact B2|].
        split; [congruence|]. split; [right; lia|]. intros k t' z K Z. apply nth_snoc in Z. destruct Z as [Z|[-> Z]]; [apply (B5 k t' z); [lia|exact Z]|].
        injection Z as -> ->. exact N.
    + intros i j t1 y t2 y' L H H' Q Q'. apply nth_snoc in H, H'. destruct H as [H|[-> H]]; [|injection H as -> ->; congruence].
      destruct H' as [H'|[-> H']]; [|injection H' as -> ->; congruence]. apply (rr_apart m l R i j t1 y t2 y'); assumption.
  - destruct M as [[M1 M2]|[M1 (j & y' & E & B1 & B2 & B3 & B4 & B5)]]; [left|right].
    + split; [congruence|]. intros k t' z Z. apply nth_snoc in Z. destruct Z as [Z|[-> Z]]; [eapply M2; eassumption|]. injection Z as -> ->. exact N.
    + split; [congruence|]. exists j, y'. split; [apply nth_old; exact E|]. split; [exact B1|]. split; [exact B2|]. split; [congruence|]. split; [congruence|].
      intros k t' z K Z. apply nth_snoc in Z. destruct Z as [Z|[-> Z]]; [eapply B5; eassumption|]. injection Z as -> ->. exact N.
Qed.

(** A measurement. *)
Lemma log_measured : forall l r r' x, log_fine l r -> rn_asked x = true -> measures m (rn_uarch x) (rn_tuning x) ->
  rs_last r' = rn_tuning x -> rs_time r' = rn_now x -> (rs_last r = TAuto \/ period <= rn_now x - rs_time r) -> log_fine (l ++ [(TAuto, x)]) r'.
Proof.
  intros l r r' x [R M] N Q EL ET D.
  assert (G : forall j t y, nth_error l j = Some (t, y) -> rn_asked y = true -> period <= rn_now x - rn_now y).
  { intros j t y H Y. destruct M as [[M1 M2]|[M1 (j' & y' & E & B1 & B2 & B3 & B4 & B5)]]; [rewrite (M2 j t y H) in Y; discriminate|].
    destruct D as [D|D]; [congruence|]. rewrite B4 in D.
    destruct (Nat.lt_trichotomy j j') as [J|[->|J]].
    - pose proof (rr_apart m l R j' j TAuto y' t y J E H B1 Y). unfold period in *. lia.
    - rewrite E in H. injection H as _ <-. exact D.
    - rewrite (B5 j t y J H) in Y. discriminate. }
  split.
  - constructor.
    + intros i t' y H NA. apply nth_snoc in H. destruct H as [H|[-> H]]; [apply (rr_explicit m l R i); assumption|].
      injection H as -> ->. congruence.
    + intros i y H. apply nth_snoc in H. destruct H as [H|[-> H]].
      * destruct (rr_auto m l R i y H) as (j & y' & J & E & B1 & B2 & B3 & B4 & B5). exists j, y'. split; [exact J|]. split; [apply nth_old; exact E|].
        do 4 (split; [assumption|]). intros k t' z K Z. apply nth_snoc in Z. destruct Z as [Z|[-> Z]]; [eapply B5; eassumption|].
        apply nth_lt in H. lia.
      * injection H as ->. exists (length l), x. split; [lia|]. split; [apply nth_new|]. split; [exact N|]. split; [exact Q|]. split; [reflexivity|].
        split; [left; reflexivity|]. intros k t' z K. lia.
    + intros i j t1 y t2 y' L H H' Y Y'. apply nth_snoc in H, H'. destruct H' as [H'|[-> H']].
      * destruct H as [H|[-> H]]; [apply (rr_apart m l R i j t1 y t2 y'); assumption|]. injection H as -> ->. eapply G; eassumption.
      * destruct H as [H|[-> H]]; [apply nth_lt in H; lia|lia].
  - right. split; [rewrite EL; intros C; rewrite C in Q; exact Q|]. exists (length l), x. split; [apply nth_new|]. split; [exact N|]. split; [exact Q|]. split; [exact EL|].
    split; [exact ET|]. intros k t' z K Z. apply nth_lt in Z. rewrite app_length in Z. cbn [length] in Z. lia.
Qed.

Lemma is_auto_iff : forall t, is_auto t = true <-> t = TAuto.
Proof. intros []; cbn; split; congruence. Qed.

Lemma resolve_fine : forall now u l r i addr, cpu_fine i -> log_fine l r -> forall t asked r' i',
  resolve dbg m now u r i = Ok (t, asked, r', i') ->
  cpu_fine i' /\ (settled m i -> i' = i) /\
  log_fine (l ++ [(rs_unresolved r, {| rn_addr := addr; rn_now := now; rn_uarch := u; rn_tuning := t; rn_asked := asked |})]) r'.
Proof.
  intros now u l r i addr F L t asked r' i' H. unfold resolve in H.
  destruct (is_auto (rs_unresolved r)) eqn:A.
  - apply is_auto_iff in A. rewrite A. destruct (is_auto (rs_last r)) eqn:B.
    + cbn [bind] in H. apply is_auto_iff in B. destruct (resolve_now_fine u i F) as (t0 & i0 & E & F0 & K & Q). rewrite E in H. cbn [bind] in H. injection H as <- <- <- <-.
      split; [exact F0|]. split; [exact K|]. apply (log_measured l r); cbn; auto.
    + unfold i64 in H. destruct (in_i64 (now - rs_time r)); [|cbn [bind] in H; discriminate]. cbn [bind] in H. destruct (now - rs_time r <? expiry) eqn:D.
      * injection H as <- <- <- <-. split; [exact F|]. split; [auto|]. apply (log_kept l r); cbn [rn_asked rn_now rn_tuning]; auto; [congruence|].
        intros _. split; [intros C; rewrite C in B; discriminate|]. split; [reflexivity|]. unfold period, expiry in *. lia.
      * destruct (resolve_now_fine u i F) as (t0 & i0 & E & F0 & K & Q). rewrite E in H. cbn [bind] in H. injection H as <- <- <- <-.
        split; [exact F0|]. split; [exact K|]. apply (log_measured l r); cbn [rn_asked rn_now rn_tuning rn_uarch rs_last rs_time]; auto. right. unfold period, expiry in *. lia.
  - injection H as <- <- <- <-. split; [exact F|]. split; [auto|]. apply (log_kept l r); cbn [rn_asked rn_now rn_tuning]; auto.
    intros C. rewrite C in A. discriminate.
Qed.

(** It is defined for any times the clock can give. *)
Lemma resolve_defined : forall now u r i, cpu_fine i -> 0 <= now < 2 ^ 63 -> 0 <= rs_time r < 2 ^ 63 ->
  exists x, resolve dbg m now u r i = Ok x.
Proof.
  intros now u r i F N T. unfold resolve. destruct (is_auto (rs_unresolved r)); [|eauto].
  destruct (resolve_now_fine u i F) as (t0 & i0 & E & _). rewrite E.
  destruct (is_auto (rs_last r)); [cbn [bind]; eauto|]. unfold i64.
  assert (S : in_i64 (now - rs_time r) = true). { unfold in_i64. change (2 ^ 63) with 9223372036854775808 in *. lia. }
  rewrite S. cbn [bind]. destruct (now - rs_time r <? expiry); cbn [bind]; eauto.
Qed.
End Tuning.
