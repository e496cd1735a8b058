(** The resources of threads: proofs. *)
From Verif Require Import Base SidePair BlockMap ThreadCount Mat Scalars MulParams TrMulRun CpuInfo SpecCpu CpuFacts Tune Ctx SpecCtx TuneFacts.

Lemma replace_length : forall i r l, length (replace_nth i r l) = length l.
Proof. intros i r l. revert i. induction l as [|x l IH]; intros [|i]; cbn; auto. Qed.
Lemma replace_same : forall i r l, (i < length l)%nat -> nth_error (replace_nth i r l) i = Some r.
Proof. intros i r l. revert i. induction l as [|x l IH]; intros [|i] H; cbn in *; try lia; auto. apply IH. lia. Qed.
Lemma replace_other : forall i j r l, i <> j -> nth_error (replace_nth i r l) j = nth_error l j.
Proof. intros i j r l. revert i j. induction l as [|x l IH]; intros [|i] [|j] H; cbn; auto; try congruence. Qed.
Lemma replace_swap : forall i j r s l, i <> j -> replace_nth i r (replace_nth j s l) = replace_nth j s (replace_nth i r l).
Proof. intros i j r s l. revert i j. induction l as [|x l IH]; intros [|i] [|j] H; cbn; auto; try congruence. f_equal. apply IH. congruence. Qed.

Section Resources.
Variable b : build.
Hypothesis Vm : valid_processors (m_processors (b_machine b)).
Local Notation m := (b_machine b).
Local Notation cpu_fine := (cpu_fine m).
Local Notation log := (list (tuning * resolution)).

(** [L i] is what thread [i] has done. *)
Definition rs_ok (L : nat -> log) (rs : list resource) (next : Z) : Prop :=
  next = Z.of_nat (length rs) /\
  (forall i r, nth_error rs i = Some r -> r_addr r = Z.of_nat i /\ log_fine m (L i) (r_resolver r) /\ 0 <= rs_time (r_resolver r) < 2 ^ 63) /\
  forall i, (length rs <= i)%nat -> L i = [].

Lemma rs_ext : forall L L' rs n, (forall i, L i = L' i) -> rs_ok L rs n -> rs_ok L' rs n.
Proof.
  intros L L' rs n E (H1 & H2 & H3). split; [exact H1|]. split.
  - intros i r H. rewrite <- E. apply H2, H.
  - intros i H. rewrite <- E. apply H3, H.
Qed.

Lemma append_ok : forall k L rs n, rs_ok L rs n -> exists rs' n', append_resources k rs n = (rs', n') /\ rs_ok L rs' n' /\
  length rs' = (length rs + k)%nat /\ forall i r, nth_error rs i = Some r -> nth_error rs' i = Some r.
Proof.
  induction k as [|k IH]; intros L rs n H; cbn [append_resources].
  - exists rs, n. split; [reflexivity|]. split; [exact H|]. split; [lia|auto].
  - destruct H as (H1 & H2 & H3). set (x := {| r_addr := n; r_resolver := resolver_init |}).
    destruct (IH L (rs ++ [x]) (n + 1)) as (rs' & n' & E & R & Len & Keep).
    { split; [rewrite app_length; cbn [length]; lia|]. split.
      - intros i r H. apply nth_snoc in H. destruct H as [H|[-> ->]]; [apply H2, H|]. split; [exact H1|].
        cbn [r_resolver x]. rewrite H3 by lia. split; [apply log_nil|]. cbn. lia.
      - intros i H. apply H3. rewrite app_length in H. cbn [length] in H. lia. }
    exists rs', n'. split; [exact E|]. split; [exact R|]. split; [rewrite Len, app_length; cbn [length]; lia|].
    intros i r H. apply Keep, nth_old, H.
Qed.

Context {V : Type}.
Implicit Type cx : ctx V.
Local Notation fine L cx := (rs_ok L (cx_resources cx) (cx_next cx)).

Lemma ensure_resources_ok : forall L count cx, fine L cx -> exists rs n, ensure_thread_specific_resources (b_dbg b) count cx = Ok (with_resources cx rs n (cx_cpu cx)) /\
  rs_ok L rs n /\ count <= Z.of_nat (length rs) /\ (length (cx_resources cx) <= length rs)%nat /\
  forall i r, nth_error (cx_resources cx) i = Some r -> nth_error rs i = Some r.
Proof.
  intros L count cx H. unfold ensure_thread_specific_resources.
  destruct (append_ok (Z.to_nat (count - Z.of_nat (length (cx_resources cx)))) L _ _ H) as (rs & n & E & R & Len & Keep). rewrite E.
  rewrite dcheck_ok by lia. exists rs, n. split; [reflexivity|]. split; [exact R|]. split; [lia|]. split; [lia|exact Keep].
Qed.

Lemma thread_resource_ok : forall i cx, (i < length (cx_resources cx))%nat -> exists r, thread_resource (b_dbg b) i cx = Ok r /\ nth_error (cx_resources cx) i = Some r.
Proof.
  intros i cx H. unfold thread_resource. rewrite dcheck_ok by lia. cbn [bind].
  destruct (nth_error (cx_resources cx) i) as [r|] eqn:E; [eauto|]. apply nth_error_None in E. lia.
Qed.
Lemma thread_resource_inv : forall i cx r, thread_resource (b_dbg b) i cx = Ok r -> nth_error (cx_resources cx) i = Some r.
Proof.
  intros i cx r H. unfold thread_resource in H. apply bind_ok in H. destruct H as ([] & _ & H).
  destruct (nth_error (cx_resources cx) i); [congruence|discriminate].
Qed.

Lemma replace_ok : forall L L' rs n i r s, rs_ok L rs n -> nth_error rs i = Some r ->
  (forall j, j <> i -> L' j = L j) -> log_fine m (L' i) s -> 0 <= rs_time s < 2 ^ 63 ->
  rs_ok L' (replace_nth i {| r_addr := r_addr r; r_resolver := s |} rs) n.
Proof.
  intros L L' rs n i r s (H1 & H2 & H3) R O F T. pose proof (nth_lt _ _ _ _ R) as B. split; [rewrite replace_length; exact H1|]. split.
  - intros j x H. destruct (Nat.eq_dec j i) as [->|N].
    + rewrite replace_same in H by exact B. injection H as <-. cbn [r_addr r_resolver]. split; [apply (H2 i r R)|auto].
    + rewrite replace_other in H by congruence. rewrite O by exact N. apply H2, H.
  - intros j H. rewrite replace_length in H. rewrite O by lia. apply H3, H.
Qed.

Lemma push_tunings_ok : forall L is cx, fine L cx -> Forall (fun i => (i < length (cx_resources cx))%nat) is ->
  exists rs, push_tunings (b_dbg b) is cx = Ok (with_resources cx rs (cx_next cx) (cx_cpu cx)) /\ rs_ok L rs (cx_next cx) /\ length rs = length (cx_resources cx) /\
  forall j r', nth_error rs j = Some r' -> In j is \/ (exists r, nth_error (cx_resources cx) j = Some r /\ rs_unresolved (r_resolver r) = cx_tuning cx) ->
    rs_unresolved (r_resolver r') = cx_tuning cx.
Proof.
  intros L is. induction is as [|i is IH]; intros cx H B; cbn [push_tunings].
  - exists (cx_resources cx). split; [destruct cx; reflexivity|]. split; [exact H|]. split; [reflexivity|].
    intros j r' R [[]|(r & R' & U)]. congruence.
  - inversion B as [|? ? B1 B2]; subst. destruct (thread_resource_ok i cx B1) as (r & E & R). unfold push_tuning. rewrite E. cbn [bind].
    set (cx1 := update_resolver i r (set_tuning (cx_tuning cx) (r_resolver r)) cx (cx_cpu cx)).
    assert (F1 : fine L cx1).
    { unfold cx1, update_resolver. cbn [cx_resources cx_next with_resources]. destruct H as (H1 & H2 & H3).
      destruct (H2 i r R) as (A1 & A2 & A3). apply (replace_ok L L); [split; [exact H1|auto]|exact R|auto|apply log_set, A2|exact A3]. }
    destruct (IH cx1 F1) as (rs & E' & R' & Len & U).
    { eapply Forall_impl; [|exact B2]. intros j J. unfold cx1, update_resolver. cbn [cx_resources with_resources]. rewrite replace_length. exact J. }
    exists rs. rewrite E'. split; [reflexivity|]. split; [exact R'|]. unfold cx1, update_resolver in Len. cbn [cx_resources with_resources] in Len. rewrite replace_length in Len.
    split; [exact Len|]. intros j r' N Q. apply (U j r' N). unfold cx1, update_resolver. cbn [cx_resources with_resources cx_tuning].
    destruct (Nat.eq_dec j i) as [->|D].
    + right. rewrite replace_same by exact B1. eexists. split; reflexivity.
    + rewrite replace_other by congruence. destruct Q as [[C|Q]|Q]; [congruence|left; exact Q|right; exact Q].
Qed.

(** What the resolutions [l] of the threads from [k] on add. *)
Definition added (t : tuning) (k : nat) (l : list resolution) (i : nat) : log :=
  if (k <=? i)%nat then match nth_error l (i - k) with Some r => [(t, r)] | None => [] end else [].

Lemma resolve_tunings_fine : forall now us n k L cx l cx', fine L cx -> cpu_fine (cx_cpu cx) -> (forall i, 0 <= now i < 2 ^ 63) ->
  (forall j r, (k <= j < k + n)%nat -> nth_error (cx_resources cx) j = Some r -> rs_unresolved (r_resolver r) = cx_tuning cx) ->
  resolve_tunings b now us (seq k n) cx = Ok (l, cx') ->
  exists rs c, cx' = with_resources cx rs (cx_next cx) c /\ cpu_fine c /\ (settled m (cx_cpu cx) -> c = cx_cpu cx) /\ length l = n /\
    map rn_addr l = map Z.of_nat (seq k n) /\ length rs = length (cx_resources cx) /\ rs_ok (fun i => L i ++ added (cx_tuning cx) k l i) rs (cx_next cx).
Proof.
  intros now us n. induction n as [|n IH]; intros k L cx l cx' F C T U H; cbn [seq resolve_tunings] in H.
  - injection H as <- <-. exists (cx_resources cx), (cx_cpu cx). split; [destruct cx; reflexivity|]. split; [exact C|]. split; [reflexivity|].
    split; [reflexivity|]. split; [reflexivity|]. split; [reflexivity|].
    eapply rs_ext; [|exact F]. intros i. unfold added. destruct (k <=? i)%nat; [destruct (i - k)%nat; cbn [nth_error]|]; rewrite app_nil_r; reflexivity.
  - apply bind_ok in H. destruct H as ([r cx1] & E & H). apply bind_ok in H. destruct H as ([l' cx2] & E' & H). injection H as <- <-.
    unfold resolve_tuning in E. apply bind_ok in E. destruct E as (x & X & E). apply thread_resource_inv in X.
    apply bind_ok in E. destruct E as ([[[t a] s] c] & SS & E). injection E as <- <-.
    pose proof F as (F1 & F2 & F3). destruct (F2 k x X) as (A1 & A2 & A3).
    destruct (resolve_fine (b_dbg b) m Vm (now k) (us k) (L k) (r_resolver x) (cx_cpu cx) (r_addr x) C A2 _ _ _ _ SS) as (C' & K & F').
    rewrite (U k x ltac:(lia) X) in F'.
    set (r := {| rn_addr := r_addr x; rn_now := now k; rn_uarch := us k; rn_tuning := t; rn_asked := a |}) in *.
    assert (TS : 0 <= rs_time s < 2 ^ 63).
    { clear - SS T A3. unfold resolve in SS. destruct (is_auto _); [|injection SS as _ _ <- _; exact A3].
      apply bind_ok in SS. destruct SS as (rec & _ & S). destruct rec; [injection S as _ _ <- _; exact A3|].
      apply bind_ok in S. destruct S as ([t' i'] & _ & S). injection S as _ _ <- _. apply T. }
    set (L1 := fun i => if (i =? k)%nat then L k ++ [(cx_tuning cx, r)] else L i).
    assert (F'' : fine L1 (update_resolver k x s cx c)).
    { unfold update_resolver. cbn [cx_resources cx_next with_resources]. apply (replace_ok L L1); [exact F|exact X| | |exact TS].
      - intros j N. unfold L1. apply Nat.eqb_neq in N. rewrite N. reflexivity.
      - unfold L1. rewrite Nat.eqb_refl. exact F'. }
    apply (IH (S k) L1) in E'; [|exact F''|exact C'|exact T|].
    2: { intros j y J Y. unfold update_resolver in Y |- *. cbn [cx_resources with_resources cx_tuning] in Y |- *. rewrite replace_other in Y by lia. apply (U j); [lia|exact Y]. }
    destruct E' as (rs & c' & -> & C'' & K' & Len & Ad & Ln & R). exists rs, c'. split; [reflexivity|]. split; [exact C''|].
    split. { intros Q. rewrite <- (K Q). apply K'. cbn [cx_cpu update_resolver with_resources]. rewrite (K Q). exact Q. }
    split; [cbn [length]; lia|]. split; [cbn [map seq]; f_equal; [exact A1|exact Ad]|].
    split; [rewrite Ln; unfold update_resolver; cbn [cx_resources with_resources]; apply replace_length|].
    eapply rs_ext; [|exact R]. intros i. cbn [cx_tuning update_resolver with_resources]. unfold L1, added.
    destruct (Nat.lt_trichotomy i k) as [D|[->|D]].
    + replace (i =? k)%nat with false by (symmetry; apply Nat.eqb_neq; lia). replace (S k <=? i)%nat with false by (symmetry; apply Nat.leb_gt; lia).
      replace (k <=? i)%nat with false by (symmetry; apply Nat.leb_gt; lia). reflexivity.
    + rewrite Nat.eqb_refl, Nat.leb_refl, Nat.sub_diag. replace (S k <=? k)%nat with false by (symmetry; apply Nat.leb_gt; lia). cbn [nth_error]. apply app_nil_r.
    + replace (i =? k)%nat with false by (symmetry; apply Nat.eqb_neq; lia). replace (S k <=? i)%nat with true by (symmetry; apply Nat.leb_le; lia).
      replace (k <=? i)%nat with true by (symmetry; apply Nat.leb_le; lia). replace (i - k)%nat with (S (i - S k)) by lia. reflexivity.
Qed.

Lemma resolve_tunings_defined : forall now us is L cx, fine L cx -> cpu_fine (cx_cpu cx) -> (forall i, 0 <= now i < 2 ^ 63) ->
  Forall (fun i => (i < length (cx_resources cx))%nat) is -> exists x, resolve_tunings b now us is cx = Ok x.
Proof.
  intros now us is. induction is as [|i is IH]; intros L cx F C T B; cbn [resolve_tunings]; [eauto|].
  inversion B as [|? ? B1 B2]; subst. unfold resolve_tuning. destruct (thread_resource_ok i cx B1) as (x & E & X). rewrite E. cbn [bind].
  pose proof F as (F1 & F2 & F3). destruct (F2 i x X) as (A1 & A2 & A3).
  destruct (resolve_defined (b_dbg b) m Vm (now i) (us i) (r_resolver x) (cx_cpu cx) C (T i) A3) as ([[[t a] s] c] & R). rewrite R. cbn [bind].
  destruct (resolve_fine (b_dbg b) m Vm (now i) (us i) (L i) (r_resolver x) (cx_cpu cx) (r_addr x) C A2 _ _ _ _ R) as (C' & _ & F').
  assert (TS : 0 <= rs_time s < 2 ^ 63).
  { clear - R T A3. unfold resolve in R. destruct (is_auto _); [|injection R as _ _ <- _; exact A3].
    apply bind_ok in R. destruct R as (rec & _ & S). destruct rec; [injection S as _ _ <- _; exact A3|].
    apply bind_ok in S. destruct S as ([t' i'] & _ & S). injection S as _ _ <- _. apply T. }
  destruct (IH (fun j => if (j =? i)%nat then L i ++ [(rs_unresolved (r_resolver x), {| rn_addr := r_addr x; rn_now := now i; rn_uarch := us i; rn_tuning := t; rn_asked := a |})] else L j)
    (update_resolver i x s cx c)) as ([l cx'] & E').
  - unfold update_resolver. cbn [cx_resources cx_next with_resources]. eapply replace_ok; [exact F|exact X| | |exact TS].
    + intros j N. cbv beta. apply Nat.eqb_neq in N. rewrite N. reflexivity.
    + cbv beta. rewrite Nat.eqb_refl. exact F'.
  - exact C'.
  - exact T.
  - eapply Forall_impl; [|exact B2]. intros j J. unfold update_resolver. cbn [cx_resources with_resources]. rewrite replace_length. exact J.
  - rewrite E'. cbn [bind]. eauto.
Qed.

Lemma seq_below : forall n k (l : list resource), (n <= length l)%nat -> (k + n <= length l)%nat -> Forall (fun i => (i < length l)%nat) (seq k n).
Proof. intros n k l _ H. apply Forall_forall. intros i I. apply in_seq in I. lia. Qed.

Lemma threads_tuning_fine : forall now us count L cx l cx', fine L cx -> cpu_fine (cx_cpu cx) -> (forall i, 0 <= now i < 2 ^ 63) ->
  threads_tuning b now us count cx = Ok (l, cx') ->
  exists rs n c, cx' = with_resources cx rs n c /\ cpu_fine c /\ (settled m (cx_cpu cx) -> c = cx_cpu cx) /\ length l = Z.to_nat count /\
    map rn_addr l = map Z.of_nat (seq 0 (length l)) /\ (length (cx_resources cx) <= length rs)%nat /\ rs_ok (fun i => L i ++ added (cx_tuning cx) 0 l i) rs n.
Proof.
  intros now us count L cx l cx' F C T H. unfold threads_tuning in H.
  destruct (ensure_resources_ok L count cx F) as (rs & n & E & R & B & G & _). rewrite E in H. cbn [bind] in H.
  set (cx1 := with_resources cx rs n (cx_cpu cx)) in *.
  destruct (push_tunings_ok L (seq 0 (Z.to_nat count)) cx1 R) as (rs' & E' & R' & Len & U); [apply seq_below; cbn [cx1 cx_resources with_resources]; lia|].
  rewrite E' in H. cbn [bind] in H. apply (resolve_tunings_fine now us _ _ L) in H; [|exact R'|exact C|exact T|].
  2: { intros j r J X. apply (U j r X). left. apply in_seq. lia. }
  destruct H as (rs2 & c & -> & C' & K & Ll & Ad & Ln & R2). exists rs2, (cx_next cx1), c. split; [reflexivity|]. split; [exact C'|]. split; [exact K|].
  split; [exact Ll|]. split; [rewrite Ll; exact Ad|]. split; [|exact R2].
  rewrite Ln. cbn [cx_resources with_resources]. rewrite Len. cbn [cx1 cx_resources with_resources]. exact G.
Qed.

Lemma threads_tuning_defined : forall now us count L cx, fine L cx -> cpu_fine (cx_cpu cx) -> (forall i, 0 <= now i < 2 ^ 63) ->
  exists x, threads_tuning b now us count cx = Ok x.
Proof.
  intros now us count L cx F C T. unfold threads_tuning.
  destruct (ensure_resources_ok L count cx F) as (rs & n & E & R & B & G & _). rewrite E. cbn [bind].
  set (cx1 := with_resources cx rs n (cx_cpu cx)) in *.
  destruct (push_tunings_ok L (seq 0 (Z.to_nat count)) cx1 R) as (rs' & E' & R' & Len & U); [apply seq_below; cbn [cx1 cx_resources with_resources]; lia|].
  rewrite E'. cbn [bind]. apply (resolve_tunings_defined now us _ L); [exact R'|exact C|exact T|].
  apply seq_below; cbn [cx_resources with_resources]; rewrite Len; cbn [cx1 cx_resources with_resources]; lia.
Qed.

Lemma main_is_threads : forall now us cx, main_thread_tuning b now us cx = threads_tuning b now us 1 cx.
Proof.
  intros now us cx. unfold main_thread_tuning, threads_tuning. change (seq 0 (Z.to_nat 1)) with [O]. cbn [push_tunings].
  destruct (ensure_thread_specific_resources (b_dbg b) 1 cx) as [cx1| |]; cbn [bind]; auto. destruct (push_tuning (b_dbg b) 0 cx1); reflexivity.
Qed.

(** What packing for the cache adds: to thread 0 only. *)
Definition added0 (t : tuning) (l : list resolution) (i : nat) : log := if (i =? 0)%nat then map (pair t) l else [].

Lemma pack_tunings_fine : forall now us is L cx l cx', fine L cx -> cpu_fine (cx_cpu cx) -> (forall i, 0 <= now i < 2 ^ 63) ->
  pack_tunings b now us is cx = Ok (l, cx') ->
  exists rs n c, cx' = with_resources cx rs n c /\ cpu_fine c /\ (settled m (cx_cpu cx) -> c = cx_cpu cx) /\ length l = length is /\
    Forall (fun r => rn_addr r = 0) l /\ (length (cx_resources cx) <= length rs)%nat /\ rs_ok (fun i => L i ++ added0 (cx_tuning cx) l i) rs n.
Proof.
  intros now us is. induction is as [|i is IH]; intros L cx l cx' F C T H; cbn [pack_tunings] in H.
  - injection H as <- <-. exists (cx_resources cx), (cx_next cx), (cx_cpu cx). split; [destruct cx; reflexivity|]. split; [exact C|]. split; [reflexivity|].
    split; [reflexivity|]. split; [constructor|]. split; [lia|]. eapply rs_ext; [|exact F]. intros j. unfold added0. destruct (j =? 0)%nat; rewrite app_nil_r; reflexivity.
  - apply bind_ok in H. destruct H as ([l1 cx1] & E & H). apply bind_ok in H. destruct H as ([l2 cx2] & E' & H). injection H as <- <-.
    rewrite main_is_threads in E. apply (threads_tuning_fine _ _ _ L) in E; [|exact F|exact C|intros; apply T].
    destruct E as (rs & n & c & -> & C1 & K1 & Len & Ad & G & R). change (Z.to_nat 1) with 1%nat in Len. destruct l1 as [|r [|? ?]]; try discriminate. clear Len.
    eapply IH in E'; [|exact R|exact C1|exact T]. destruct E' as (rs' & n' & c' & -> & C2 & K2 & Len2 & Ad2 & G2 & R2).
    exists rs', n', c'. split; [reflexivity|]. split; [exact C2|]. split.
    { intros Q. cbn [cx_cpu with_resources] in K2. rewrite K2; [apply K1, Q|rewrite (K1 Q); exact Q]. }
    split; [cbn [app length]; lia|]. split; [constructor; [cbn in Ad; injection Ad as Ad; exact Ad|exact Ad2]|]. split; [cbn [cx_resources with_resources] in G2; lia|].
    eapply rs_ext; [|exact R2]. intros j. cbv beta. rewrite <- app_assoc. f_equal. unfold added, added0. cbn [Nat.leb cx_tuning with_resources].
    destruct j as [|j]; cbn; [reflexivity|]. destruct j; reflexivity.
Qed.

(** Threads do not depend on each other: any two may go in either order. *)
Lemma resolve_tuning_swap : forall now us i j cx l cx', settled m (cx_cpu cx) -> i <> j ->
  resolve_tunings b now us [i; j] cx = Ok (l, cx') -> resolve_tunings b now us [j; i] cx = Ok (rev l, cx').
Proof.
  intros now us i j cx l cx' S N H. cbn [resolve_tunings] in H |- *. apply bind_ok in H. destruct H as ([x cx1] & E1 & H).
  apply bind_ok in H. destruct H as ([l' cx2] & H & H'). injection H' as <- <-. apply bind_ok in H. destruct H as ([y cx3] & E2 & H). injection H as <- <-.
  unfold resolve_tuning in *. apply bind_ok in E1. destruct E1 as (r & R & E1). apply bind_ok in E1. destruct E1 as ([[[t a] s] c] & Q & E1). injection E1 as <- <-.
  apply bind_ok in E2. destruct E2 as (r' & R' & E2). apply bind_ok in E2. destruct E2 as ([[[t' a'] s'] c'] & Q' & E2). injection E2 as <- <-.
  assert (K : forall now u rs t a s c, resolve (b_dbg b) m now u rs (cx_cpu cx) = Ok (t, a, s, c) -> c = cx_cpu cx).
  { clear - Vm S. intros now u rs t a s c H. unfold resolve in H. destruct (is_auto _); [|congruence]. apply bind_ok in H. destruct H as (rec & _ & H).
    destruct rec; [congruence|]. apply bind_ok in H. destruct H as ([t' i'] & E & H).
    destruct (resolve_now_fine (b_dbg b) m Vm u (cx_cpu cx) (or_intror S)) as (t2 & i2 & E2 & _ & K & _). rewrite E2 in E. injection E as <- <-. injection H as _ _ _ <-. auto. }
  assert (c = cx_cpu cx) as -> by (eapply K; exact Q). cbn [cx_cpu update_resolver with_resources] in Q'.
  assert (c' = cx_cpu cx) as -> by (eapply K; exact Q').
  apply thread_resource_inv in R'. unfold update_resolver in R'. cbn [cx_resources with_resources] in R'. rewrite replace_other in R' by exact N.
  destruct (thread_resource_ok j cx (nth_lt _ _ _ _ R')) as (r2 & W & W'). assert (r2 = r') as -> by congruence. rewrite W. cbn [bind]. rewrite Q'. cbn [bind].
  apply thread_resource_inv in R. destruct (thread_resource_ok i (update_resolver j r' s' cx (cx_cpu cx))) as (r3 & X & X').
  { unfold update_resolver. cbn [cx_resources with_resources]. rewrite replace_length. eapply nth_lt; exact R. }
  unfold update_resolver in X'. cbn [cx_resources with_resources] in X'. rewrite replace_other in X' by congruence. assert (r3 = r) as -> by congruence.
  rewrite X. cbn [bind]. cbn [cx_cpu update_resolver with_resources]. rewrite Q. cbn [bind rev app]. f_equal. f_equal. unfold update_resolver, with_resources. cbn. f_equal.
  apply replace_swap. exact N.
Qed.
End Resources.
