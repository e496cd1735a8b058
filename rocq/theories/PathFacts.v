(** Paths: proofs. *)
From Verif Require Import Base SidePair SizeUtil SizeUtilFacts BlockMap ThreadCount Mat Scalars MulParams TrMulRun
  CpuInfo SpecCpu CpuFacts Tune Ctx SpecCtx TuneFacts.

Lemma bit_small : forall p k, 0 <= p < 256 -> Z.testbit p k = true -> 0 <= k < 8.
Proof.
  intros p k P H. destruct (Z_lt_le_dec k 0) as [K|K]; [rewrite Z.testbit_neg_r in H by exact K; discriminate|].
  split; [exact K|]. destruct (Z_lt_le_dec k 8) as [L|L]; [exact L|].
  destruct (Z.eq_dec p 0) as [->|N]; [rewrite Z.bits_0 in H; discriminate|].
  rewrite Z.bits_above_log2 in H; [discriminate|lia|].
  assert (Z.log2 p < 8) by (apply Z.log2_lt_pow2; [lia|change (2 ^ 8) with 256; lia]). lia.
Qed.

Lemma eight : forall k, 0 <= k < 8 -> k = 0 \/ k = 1 \/ k = 2 \/ k = 3 \/ k = 4 \/ k = 5 \/ k = 6 \/ k = 7.
Proof. intros k H. lia. Qed.

Lemma lor_small : forall p q, 0 <= p < 256 -> 0 <= q < 256 -> 0 <= Z.lor p q < 256.
Proof.
  intros p q P Q. assert (0 <= Z.lor p q) by (apply Z.lor_nonneg; lia). split; [assumption|].
  destruct (Z.eq_dec (Z.lor p q) 0) as [->|N]; [lia|]. change 256 with (2 ^ 8). apply Z.log2_lt_pow2; [lia|].
  rewrite Z.log2_lor by lia. destruct (Z.eq_dec p 0) as [->|Np]; destruct (Z.eq_dec q 0) as [->|Nq]; cbn [Z.log2]; try lia.
  - assert (Z.log2 q < 8) by (apply Z.log2_lt_pow2; [lia|change (2 ^ 8) with 256; lia]). lia.
  - assert (Z.log2 p < 8) by (apply Z.log2_lt_pow2; [lia|change (2 ^ 8) with 256; lia]). lia.
  - assert (Z.log2 q < 8) by (apply Z.log2_lt_pow2; [lia|change (2 ^ 8) with 256; lia]).
    assert (Z.log2 p < 8) by (apply Z.log2_lt_pow2; [lia|change (2 ^ 8) with 256; lia]). lia.
Qed.

Lemma land_small : forall p q, 0 <= p < 256 -> 0 <= q -> 0 <= Z.land p q < 256.
Proof.
  intros p q P Q. assert (0 <= Z.land p q) by (apply Z.land_nonneg; lia). split; [assumption|].
  destruct (Z.eq_dec (Z.land p q) 0) as [->|N]; [lia|].
  assert (p <> 0) by (intros ->; rewrite Z.land_0_l in N; congruence).
  change 256 with (2 ^ 8). apply Z.log2_lt_pow2; [lia|].
  assert (Z.log2 p < 8) by (apply Z.log2_lt_pow2; [lia|change (2 ^ 8) with 256; lia]).
  pose proof (Z.log2_land p q ltac:(lia) ltac:(lia)). lia.
Qed.

(** The set of x86 paths, by bit. *)
Lemma x86_bits : forall (x1 x2 x3 : bool) (A1 A2 A3 : Prop), (x1 = true <-> A1) -> (x2 = true <-> A2) -> (x3 = true <-> A3) ->
  let p := let p := if x1 then Z.lor kNonArchPathsIncludingInternalVariants kAvx else kNonArchPathsIncludingInternalVariants in
    let p := if x2 then Z.lor p kAvx2Fma else p in if x3 then Z.lor p kAvx512 else p in
  forall k, Z.testbit p k = true <-> 0 <= k <= 3 \/ k = 4 /\ A1 \/ k = 5 /\ A2 \/ k = 6 /\ A3.
Proof.
  intros x1 x2 x3 A1 A2 A3 B1 B2 B3 p k.
  assert (T : Z.testbit p k = true <-> 0 <= k <= 3 \/ k = 4 /\ x1 = true \/ k = 5 /\ x2 = true \/ k = 6 /\ x3 = true); [|rewrite T, B1, B2, B3; reflexivity].
  clear. assert (R : 0 <= p < 256) by (subst p; destruct x1, x2, x3; vm_compute; intuition congruence). split; intros H.
  - pose proof (bit_small p k R H) as K. subst p. clear R.
    destruct (eight k K) as [->|[->|[->|[->|[->|[->|[->| ->]]]]]]]; try (left; lia); right; destruct x1, x2, x3; vm_compute in H; try discriminate;
      [left|left|left|left|right; left|right; left|right; left|right; left|right; right|right; right|right; right|right; right]; split; reflexivity.
  - clear R. subst p. destruct H as [H|[[-> ->]|[[-> ->]|[-> ->]]]].
    + assert (k = 0 \/ k = 1 \/ k = 2 \/ k = 3) as [->|[->|[->| ->]]] by lia; destruct x1, x2, x3; reflexivity.
    + destruct x2, x3; reflexivity.
    + destruct x1, x3; reflexivity.
    + destruct x1, x2; reflexivity.
Qed.

Section Machine.
Variable b : build.
Hypothesis Vm : valid_processors (m_processors (b_machine b)).
Local Notation cpu_fine := (cpu_fine (b_machine b)).

Lemma built_fine : forall built f i, cpu_fine i -> exists x i', built_and b built f i = Ok (x, i') /\ cpu_fine i' /\
  (x = true <-> built = true /\ usable (b_machine b) /\ f (m_features (b_machine b)) = true).
Proof.
  intros built f i F. unfold built_and. destruct built.
  - destruct (feature_fine (b_dbg b) _ Vm f i F) as (x & i' & E & F' & B). exists x, i'. rewrite B. tauto.
  - eexists _, _. split; [reflexivity|]. split; [exact F|]. intuition discriminate.
Qed.

Ltac masks := unfold maybe_add; repeat match goal with
  |- context [if Z.land ?a ?c =? 0 then _ else _] => let v := eval vm_compute in (Z.land a c =? 0) in change (Z.land a c =? 0) with v; cbn iota; cbn [bind] end.

Lemma detect_fine : forall i, cpu_fine i -> exists p i', detect_runtime_supported_paths b (kAllPaths (b_platform b)) i = Ok (p, i') /\ cpu_fine i' /\
  0 < p < 256 /\ forall k, Z.testbit p k = true <-> 0 <= k <= 3 \/ supported b k.
Proof.
  intros i F. unfold detect_runtime_supported_paths.
  assert (Low : forall k, 0 <= k < 8 -> 0 <= k <= 3 -> Z.testbit 15 k = true).
  { intros k K L. assert (k = 0 \/ k = 1 \/ k = 2 \/ k = 3) as [->|[->|[->| ->]]] by lia; reflexivity. }
  assert (Hi : forall p, Z.lor 15 p = p -> forall k, 0 <= k <= 3 -> Z.testbit p k = true).
  { intros p E k K. rewrite <- E, Z.lor_spec, Low by lia. reflexivity. }
  unfold supported. destruct (b_platform b) eqn:P; unfold kAllPaths, kDefaultArchPaths.
  - (* NEON 64 *)
    masks.
    destruct (feature_fine (b_dbg b) _ Vm neon_dotprod i F) as (x & i' & E & F' & B). rewrite E. cbn [bind].
    unfold neon_dotprod in B.
    destruct x; (rewrite !dcheck_ok by reflexivity; cbn [bind]; eexists _, _; split; [reflexivity|]; split; [exact F'|]; split; [vm_compute; intuition congruence|]).
    + change (Z.lor (Z.lor kNonArchPathsIncludingInternalVariants kNeon) kNeonDotprod) with 0x3f.
      intros k; split; intros H.
      * destruct (eight k (bit_small 0x3f k ltac:(lia) H)) as [->|[->|[->|[->|[->|[->|[->| ->]]]]]]]; vm_compute in H; try discriminate; try (left; lia); right; tauto.
      * destruct H as [H|[->|[-> _]]]; [|reflexivity|reflexivity]. apply (Hi 0x3f); [reflexivity|exact H].
    + change (Z.lor kNonArchPathsIncludingInternalVariants kNeon) with 0x1f.
      intros k; split; intros H.
      * destruct (eight k (bit_small 0x1f k ltac:(lia) H)) as [->|[->|[->|[->|[->|[->|[->| ->]]]]]]]; vm_compute in H; try discriminate; try (left; lia); right; tauto.
      * destruct H as [H|[->|[-> H]]]; [|reflexivity|exfalso; apply B in H; discriminate]. apply (Hi 0x1f); [reflexivity|exact H].
  - (* NEON 32 *)
    masks. rewrite !dcheck_ok by reflexivity. cbn [bind]. eexists _, _. split; [reflexivity|]. split; [exact F|]. split; [vm_compute; intuition congruence|].
    match goal with |- forall k, Z.testbit ?p k = true <-> _ => change p with 0x1f end.
    intros k; split; intros H.
    + destruct (eight k (bit_small 0x1f k ltac:(lia) H)) as [->|[->|[->|[->|[->|[->|[->| ->]]]]]]]; vm_compute in H; try discriminate; try (left; lia); right; tauto.
    + destruct H as [H| ->]; [|reflexivity]. apply (Hi 0x1f); [reflexivity|exact H].
  - masks. cbn [bind]. rewrite !dcheck_ok by reflexivity. cbn [bind]. eexists _, _. split; [reflexivity|]. split; [exact F|]. split; [vm_compute; intuition congruence|].
    match goal with |- forall k, Z.testbit ?p k = true <-> _ => change p with 15 end.
    intros k; split; intros H; [|destruct H as [H|[]]; apply Low; lia].
    destruct (eight k (bit_small 15 k ltac:(lia) H)) as [->|[->|[->|[->|[->|[->|[->| ->]]]]]]]; vm_compute in H; try discriminate; left; lia.
  - (* x86 *)
    masks.
    destruct (built_fine (b_avx b) avx i F) as (x1 & i1 & E1 & F1 & B1). rewrite E1. cbn [bind].
    destruct (built_fine (b_avx2_fma b) avx2_fma i1 F1) as (x2 & i2 & E2 & F2 & B2). rewrite E2. cbn [bind].
    destruct (built_fine (b_avx512 b) avx512 i2 F2) as (x3 & i3 & E3 & F3 & B3). rewrite E3. cbn [bind].
    unfold avx in B1. unfold avx2_fma in B2. rewrite Bool.andb_true_iff in B2. unfold avx512 in B3. rewrite !Bool.andb_true_iff, <- !and_assoc in B3.
    assert (R : dcheck (b_dbg b) true = Ok tt) by (destruct (b_dbg b); reflexivity).
    match goal with |- exists p i', bind (dcheck _ ?c1) (fun _ => bind (dcheck _ ?c2) (fun _ => Ok (?q, _))) = _ /\ _ =>
      replace c1 with true by (destruct x1, x2, x3; reflexivity); replace c2 with true by (destruct x1, x2, x3; reflexivity); exists q, i3 end.
    rewrite R. cbn [bind]. split; [reflexivity|]. split; [exact F3|]. split; [clear; destruct x1, x2, x3; vm_compute; intuition congruence|].
    intros k. rewrite (x86_bits x1 x2 x3 _ _ _ B1 B2 B3 k). rewrite <- !and_assoc. reflexivity.
  - masks. cbn [bind]. rewrite !dcheck_ok by reflexivity. cbn [bind]. eexists _, _. split; [reflexivity|]. split; [exact F|]. split; [vm_compute; intuition congruence|].
    match goal with |- forall k, Z.testbit ?p k = true <-> _ => change p with 15 end.
    intros k; split; intros H; [|destruct H as [H|[]]; apply Low; lia].
    destruct (eight k (bit_small 15 k ltac:(lia) H)) as [->|[->|[->|[->|[->|[->|[->| ->]]]]]]]; vm_compute in H; try discriminate; left; lia.
Qed.

(** The stored set is not determined yet, or the right one. *)
Definition paths_fine (explicit p : Z) : Prop :=
  0 <= explicit < 256 /\
  (p = 0 /\ explicit = 0 \/ 0 < p < 256 /\ forall k, Z.testbit p k = true <-> enabled b explicit k).

Lemma paths_set : forall p, 0 <= p < 256 -> paths_fine p (if p =? 0 then 0 else Z.lor p kNonArchPaths).
Proof.
  intros p P. split; [exact P|]. destruct (p =? 0) eqn:E; [left; lia|]. right.
  pose proof (lor_small p kNonArchPaths P ltac:(unfold kNonArchPaths, kStandardCpp; lia)) as B.
  assert (N : Z.lor p kNonArchPaths <> 0) by (intros C; apply Z.lor_eq_0_iff in C; lia).
  split; [lia|]. intros k. unfold enabled. rewrite E, Z.lor_spec, Bool.orb_true_iff.
  assert (One : Z.testbit kNonArchPaths k = true <-> k = 0).
  { split; [|intros ->; reflexivity]. intros H. destruct (eight k (bit_small 1 k ltac:(lia) H)) as [->|[->|[->|[->|[->|[->|[->| ->]]]]]]]; vm_compute in H; congruence. }
  rewrite One. tauto.
Qed.

Definition readable : Prop := b_env b <> Some None.

Lemma get_paths_fine : forall V (cx : ctx V) explicit, cpu_fine (cx_cpu cx) -> paths_fine explicit (cx_paths cx) ->
  (explicit <> 0 \/ readable) ->
  exists p i, get_runtime_enabled_paths b cx = Ok (p, with_paths cx p i) /\ cpu_fine i /\ 0 < p < 256 /\ forall k, Z.testbit p k = true <-> enabled b explicit k.
Proof.
  intros V cx explicit F [X P] R. unfold get_runtime_enabled_paths. destruct P as [[P ->]|[P B]].
  - rewrite P. cbn [Z.eqb]. destruct R as [R|R]; [congruence|]. unfold readable in R. unfold get_hex_int_env_var_or_zero.
    assert (D : environment b = 0 -> exists p i, ('(p, i) <- detect_runtime_supported_paths b (kAllPaths (b_platform b)) (cx_cpu cx) ;; Ok (p, with_paths cx p i)) = Ok (p, with_paths cx p i) /\
      cpu_fine i /\ 0 < p < 256 /\ forall k, Z.testbit p k = true <-> enabled b 0 k).
    { intros Z. destruct (detect_fine (cx_cpu cx) F) as (p & i & E & F' & P' & B). rewrite E. cbn [bind]. exists p, i. split; [reflexivity|].
      split; [exact F'|]. split; [exact P'|]. intros k. unfold enabled. rewrite Z. apply B. }
    unfold enabled, environment in *. destruct (b_env b) as [[z|]|]; [|congruence|].
    + cbn [bind]. change (wrap_u 8 z) with (z mod 256). destruct (z mod 256 =? 0) eqn:E; [apply D; lia|].
      exists (z mod 256), (cx_cpu cx). split; [reflexivity|]. split; [exact F|]. pose proof (Z.mod_pos_bound z 256 ltac:(lia)). split; [lia|].
      intros k. cbn [Z.eqb]. tauto.
    + cbn [bind]. change (wrap_u 8 0 =? 0) with true. apply D. reflexivity.
  - destruct (cx_paths cx =? 0) eqn:E; [lia|]. exists (cx_paths cx), (cx_cpu cx). split; [destruct cx; reflexivity|]. auto.
Qed.

Lemma get_paths_readable : forall V (cx : ctx V) explicit x, paths_fine explicit (cx_paths cx) -> get_runtime_enabled_paths b cx = Ok x -> explicit <> 0 \/ readable \/ cx_paths cx <> 0.
Proof.
  intros V cx explicit x _ H. unfold get_runtime_enabled_paths in H. destruct (cx_paths cx =? 0) eqn:E; [|right; right; lia].
  right. left. unfold readable. intros C. rewrite C in H. discriminate.
Qed.

(** Whatever happened, if the call returns. *)
Lemma get_paths_ok : forall V (cx : ctx V) explicit p cx', cpu_fine (cx_cpu cx) -> paths_fine explicit (cx_paths cx) ->
  get_runtime_enabled_paths b cx = Ok (p, cx') ->
  exists i, cx' = with_paths cx p i /\ cpu_fine i /\ 0 < p < 256 /\ forall k, Z.testbit p k = true <-> enabled b explicit k.
Proof.
  intros V cx explicit p cx' F P H.
  destruct (get_paths_readable V cx explicit _ P H) as [R|[R|R]].
  - destruct (get_paths_fine V cx explicit F P (or_introl R)) as (p0 & i & E & A). rewrite E in H. injection H as <- <-. exists i. auto.
  - destruct (get_paths_fine V cx explicit F P (or_intror R)) as (p0 & i & E & A). rewrite E in H. injection H as <- <-. exists i. auto.
  - unfold get_runtime_enabled_paths in H. destruct (cx_paths cx =? 0) eqn:E; [lia|]. injection H as <- <-.
    exists (cx_cpu cx). split; [destruct cx; reflexivity|]. split; [exact F|]. destruct P as [_ [[P _]|P]]; [congruence|exact P].
Qed.

(** * The selected path *)

Lemma most_significant : forall dbg compiled p explicit, 0 <= compiled < 256 -> 0 < p < 256 -> (forall k, Z.testbit p k = true <-> enabled b explicit k) ->
  (exists k, Z.testbit compiled k = true /\ enabled b explicit k) ->
  exists q, get_most_significant_path dbg (Z.land compiled p) = Ok q /\ chosen b explicit compiled q.
Proof.
  intros dbg compiled p explicit C P B (k & K1 & K2). rewrite <- B in K2.
  pose proof (land_small compiled p C ltac:(lia)) as L. set (x := Z.land compiled p) in *.
  assert (N : x <> 0).
  { intros Z. assert (T : Z.testbit x k = true) by (unfold x; rewrite Z.land_spec, K1, K2; reflexivity). rewrite Z, Z.bits_0 in T. discriminate. }
  unfold get_most_significant_path. rewrite round_down_pot1_ok; [|lia|unfold smax; change (2 ^ (32 - 1)) with 2147483648; lia]. cbn [bind].
  assert (G : 0 <= Z.log2 x < 8) by (split; [apply Z.log2_nonneg|apply Z.log2_lt_pow2; [lia|change (2 ^ 8) with 256; lia]]).
  assert (W : wrap_u 8 (2 ^ Z.log2 x) = 2 ^ Z.log2 x).
  { unfold wrap_u. apply Z.mod_small. split; [apply Z.pow_nonneg; lia|]. apply Z.pow_lt_mono_r; lia. }
  rewrite W. eexists. split; [reflexivity|]. exists (Z.log2 x). split; [exact G|]. split; [reflexivity|].
  assert (T : Z.testbit x (Z.log2 x) = true) by (apply Z.bit_log2; lia).
  unfold x in T at 1. rewrite Z.land_spec, Bool.andb_true_iff, B in T. split; [tauto|]. split; [tauto|].
  intros j J (J1 & J2). rewrite <- B in J2. assert (T' : Z.testbit x j = true) by (unfold x; rewrite Z.land_spec, J1, J2; reflexivity).
  rewrite Z.bits_above_log2 in T' by lia. discriminate.
Qed.

Lemma most_significant_some : forall dbg x q, 0 <= x < 256 -> get_most_significant_path dbg x = Ok q -> x <> 0.
Proof. intros dbg x q X H ->. destruct dbg; vm_compute in H; discriminate. Qed.

Lemma nonzero_bit : forall x, 0 < x -> Z.testbit x (Z.log2 x) = true.
Proof. intros x H. apply Z.bit_log2. exact H. Qed.

Lemma search_found : forall dbg compiled k bits, In k bits -> 0 <= k -> Z.testbit compiled k = true -> search_path dbg compiled (2 ^ k) bits = Ok (2 ^ k).
Proof.
  intros dbg compiled k bits I K T. induction bits as [|j bits IH]; [destruct I|]. cbn [search_path].
  destruct (negb (Z.land compiled (2 ^ j) =? 0) && (2 ^ j =? 2 ^ k)) eqn:E; [reflexivity|].
  destruct I as [->|I]; [|apply IH; exact I]. exfalso. rewrite Z.eqb_refl, Bool.andb_true_r in E.
  assert (Z.land compiled (2 ^ k) <> 0); [|lia]. intros C.
  assert (T' : Z.testbit (Z.land compiled (2 ^ k)) k = true) by (rewrite Z.land_spec, T, Z.pow2_bits_true by exact K; reflexivity).
  rewrite C, Z.bits_0 in T'. discriminate.
Qed.

Lemma populate_chosen : forall dbg explicit compiled q, chosen b explicit compiled q -> populate_path dbg compiled q = Ok q.
Proof.
  intros dbg explicit compiled q (k & K & -> & T & _). apply search_found; [|lia|exact T].
  destruct (eight k K) as [->|[->|[->|[->|[->|[->|[->| ->]]]]]]]; cbn; tauto.
Qed.

Lemma select_ok : forall V (cx : ctx V) explicit compiled q cx', cpu_fine (cx_cpu cx) -> paths_fine explicit (cx_paths cx) -> 0 <= compiled < 256 ->
  select_path b compiled cx = Ok (q, cx') ->
  exists p i, cx' = with_last_path (with_paths cx p i) q /\ cpu_fine i /\ paths_fine explicit p /\ chosen b explicit compiled q.
Proof.
  intros V cx explicit compiled q cx' F P C H. unfold select_path in H. apply bind_ok in H. destruct H as ([p cx1] & E & H).
  destruct (get_paths_ok V cx explicit p cx1 F P E) as (i & -> & F' & P' & B). apply bind_ok in H. destruct H as (q0 & Q & H). injection H as <- <-.
  exists p, i. split; [reflexivity|]. split; [exact F'|]. split; [split; [apply P|auto]|].
  pose proof (land_small compiled p C ltac:(lia)) as L. pose proof (most_significant_some _ _ _ L Q) as N.
  destruct (most_significant (b_dbg b) compiled p explicit C P' B) as (q' & E' & Ch).
  { exists (Z.log2 (Z.land compiled p)). pose proof (nonzero_bit (Z.land compiled p) ltac:(lia)) as T.
    rewrite Z.land_spec, Bool.andb_true_iff, B in T. exact T. }
  congruence.
Qed.

Lemma select_defined : forall V (cx : ctx V) explicit compiled, cpu_fine (cx_cpu cx) -> paths_fine explicit (cx_paths cx) -> 0 <= compiled < 256 ->
  (explicit <> 0 \/ readable) -> (exists k, Z.testbit compiled k = true /\ enabled b explicit k) ->
  exists q cx', select_path b compiled cx = Ok (q, cx') /\ populate_path (b_dbg b) compiled q = Ok q /\ chosen b explicit compiled q.
Proof.
  intros V cx explicit compiled F P C R K. unfold select_path.
  destruct (get_paths_fine V cx explicit F P R) as (p & i & E & F' & P' & B). rewrite E. cbn [bind].
  destruct (most_significant (b_dbg b) compiled p explicit C P' B K) as (q & E' & Ch). rewrite E'. cbn [bind].
  eexists _, _. split; [reflexivity|]. split; [eapply populate_chosen; exact Ch|exact Ch].
Qed.

Lemma public_bits : forall k, Z.testbit (kAllPaths (b_platform b)) k = true <-> public_path (b_platform b) k.
Proof.
  intros k. unfold public_path. destruct (b_platform b);
    (match goal with |- Z.testbit ?p k = true <-> _ => let v := eval vm_compute in p in change p with v end);
    (match goal with |- Z.testbit ?p k = true <-> _ =>
      split; intros H; [destruct (eight k (bit_small p k ltac:(lia) H)) as [->|[->|[->|[->|[->|[->|[->| ->]]]]]]]; vm_compute in H; try discriminate; lia|] end).
  - assert (k = 0 \/ k = 4 \/ k = 5) as [->|[->| ->]] by lia; reflexivity.
  - assert (k = 0 \/ k = 4) as [->| ->] by lia; reflexivity.
  - assert (k = 0) as -> by tauto; reflexivity.
  - assert (k = 0 \/ k = 4 \/ k = 5 \/ k = 6) as [->|[->|[->| ->]]] by lia; reflexivity.
  - assert (k = 0) as -> by tauto; reflexivity.
Qed.
End Machine.
