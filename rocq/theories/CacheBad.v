(** Where the cache does not do what is asked: floating-point matrices, overflow of the
    hash, a lookup that ejects the result of the previous one. *)
From Coq Require Import Permutation Sorting.Sorted.
From Verif Require Import Base SidePair Mat TrMul Allocator SpecAlloc AllocFacts AllocProps PrepackedCache SpecCache CacheFacts CacheProps.

(** Eight packed columns of one row, four bytes each. *)
Definition wit_layout (cols : Z) : pmat_layout :=
  {| pl_rows := 1; pl_cols := cols; pl_stride := 1; pl_order := ColMajor;
     pl_kernel := {| kl_order := RowMajor; kl_rows := 1; kl_cols := 8 |} |}.
Definition wit_mat (float : bool) : pemat :=
  {| pe_data := 0; pe_data_size := 4; pe_sums := 0; pe_sums_size := 4; pe_sums_float := float; pe_layout := wit_layout 8; pe_zp := 0 |}.
Definition wit_system := example_system (fun _ => false).
Definition wit_iter (past : list sys_event) (m : list (key * entry)) : list (key * entry) := m.

Lemma wit_valid : forall f src, valid_request (src, wit_mat f).
Proof. intros f src. unfold valid_request, hashable, data_size, sums_size, int_max. cbn. lia. Qed.
Lemma wit_good : good_system wit_system.
Proof. apply example_system_good. Qed.
Lemma wit_iter_good : good_iteration wit_iter.
Proof. intros past m. apply Permutation_refl. Qed.

Lemma buffers_bytes_wrong : exists sys iter max reqs evs s, good_system sys /\ good_iteration iter /\ Forall valid_request reqs /\ bytes_requested reqs < 2 ^ 62 /\
  run sys iter max reqs cs_init = Ok (evs, s) /\ ~ some_call_failed (cs_trace s) /\ cs_bytes s = 0 /\ bytes_of_blocks (cs_live s) = 32.
Proof.
  exists wit_system, wit_iter, 40, [(1000, wit_mat true); (2000, wit_mat true)].
  assert (E : exists evs s, run wit_system wit_iter 40 [(1000, wit_mat true); (2000, wit_mat true)] cs_init = Ok (evs, s) /\
    cs_trace s = [SAlloc false 32 64; SAlloc false 32 128; SFree 64] /\ cs_bytes s = 0 /\ bytes_of_blocks (cs_live s) = 32).
  { eexists _, _. split; [vm_compute; reflexivity|]. repeat split. }
  destruct E as (evs & s & E & T & B & L). exists evs, s. split; [apply wit_good|]. split; [apply wit_iter_good|].
  split; [repeat constructor; try apply wit_valid|]. split; [vm_compute; reflexivity|]. split; [exact E|]. split; [|auto].
  rewrite T. intros (g & n & H). cbn [In] in H. destruct H as [H|[H|[H|[]]]]; discriminate.
Qed.

(** Requests for [m] matrices at as many addresses. *)
Definition wit_reqs (m : nat) : list (Z * pemat) := map (fun i => (Z.of_nat i, wit_mat true)) (seq 0 m).

Lemma run_snoc : forall sys iter max a r s es s' x, run sys iter max a s = Ok (es, s') -> cache_get sys iter max (fst r) (snd r) s' = Ok x ->
  exists e, run sys iter max (a ++ [r]) s = Ok (es ++ [e], snd x).
Proof.
  intros sys iter max a r. induction a as [|y a IH]; intros s es s' [[a1 p1] s1] H1 H2; cbn [run app] in *.
  - injection H1 as <- <-. rewrite H2. cbn [bind]. eexists. reflexivity.
  - destruct (cache_get sys iter max (fst y) (snd y) s) as [[[a0 p] s0]| |]; cbn [bind] in *; try discriminate.
    destruct (run sys iter max a s0) as [[es0 s3]| |] eqn:E; cbn [bind] in *; try discriminate. injection H1 as <- <-.
    destruct (IH s0 es0 s3 _ E H2) as [e ->]. cbn [bind snd]. eexists. reflexivity.
Qed.

(** A lookup of one more matrix. *)
Lemma grow_step : forall s l tb i, CInv s l tb [] -> tb + 64 < 2 ^ 62 -> (forall x, In x l -> pe_layout (e_mat (snd x)) = wit_layout 8 /\ pe_data_size (e_mat (snd x)) = 4 /\ pe_sums_size (e_mat (snd x)) = 4 /\ pe_sums_float (e_mat (snd x)) = true) ->
  (forall x, In x l -> k_src (fst x) <> i) ->
  exists a p s' l', cache_get wit_system wit_iter 40 i (wit_mat true) s = Ok (a, p, s') /\ CInv s' l' (tb + 64) [] /\
    (forall x, In x l' -> pe_layout (e_mat (snd x)) = wit_layout 8 /\ pe_data_size (e_mat (snd x)) = 4 /\ pe_sums_size (e_mat (snd x)) = 4 /\ pe_sums_float (e_mat (snd x)) = true) /\
    (forall x, In x l' -> k_src (fst x) = i \/ exists y, In y l /\ fst x = fst y) /\
    exists n : nat, (n <= length l)%nat /\ length l' = S (length l - n) /\ cs_bytes s' = cs_bytes s - 64 * Z.of_nat n + 32 /\
      (cs_bytes s' <= 40 \/ n = length l) /\ (n <> 0%nat -> 40 < cs_bytes s' + 64).
Proof.
  intros s l tb i CI Htb HL HK.
  destruct (cache_get_ok wit_system wit_good wit_iter wit_iter_good 40 s l tb (i, wit_mat true) CI (wit_valid true i)) as (a & p & s' & l' & E & CI' & G).
  { cbn. lia. }
  change (full_size (snd (i, wit_mat true))) with 64 in CI'.
  exists a, p, s', l'. split; [exact E|]. split; [exact CI'|].
  assert (FE : forall e, (forall x, In x e -> In x l) -> fold_right (fun x t => full_size (e_mat (snd x)) + t) 0 e = 64 * Z.of_nat (length e)).
  { induction e as [|x e IHe]; intros He; cbn [fold_right length]; [lia|]. rewrite IHe by (intros y Hy; apply He; right; exact Hy).
    destruct (HL x (He x (or_introl eq_refl))) as (H1 & H2 & H3 & H4). unfold full_size, data_size, sums_size. rewrite H1, H2, H3. cbn [wit_layout pl_order pl_cols pl_stride pl_rows]. lia. }
  inversion G as [l1 e l2 s'' EL B L T | kept ejected d a0 n1 n2 fr s'' EL N B C AN F T]; subst.
  - exfalso. apply (HK (request_key (i, wit_mat true), e)); [apply in_app_iff; right; left; reflexivity|reflexivity].
  - split; [|split].
    + intros x [<- | Hx]; [cbn; auto|]. apply HL. apply in_app_iff. left. exact Hx.
    + intros x [<- | Hx]; [left; reflexivity|right]. exists x. split; [apply in_app_iff; left; exact Hx|reflexivity].
    + exists (length ejected). rewrite app_length. cbn [length]. change (size_in_cache (snd (i, wit_mat true))) with 32 in B.
      rewrite FE in B by (intros x Hx; apply in_app_iff; right; exact Hx).
      split; [lia|]. split; [lia|]. split; [exact B|]. split.
      * destruct C as [C| ->]; [left; exact C|right; reflexivity].
      * intros Hn. destruct ejected as [|x rest]; [cbn in Hn; congruence|]. specialize (AN x rest eq_refl).
        destruct (HL x) as (H1 & H2 & H3 & H4); [apply in_app_iff; right; left; reflexivity|].
        unfold full_size, data_size, sums_size in AN. rewrite H1, H2, H3 in AN. cbn [wit_layout pl_order pl_cols pl_stride pl_rows] in AN. lia.
Qed.

Lemma reqs_S : forall m, wit_reqs (S m) = wit_reqs m ++ [(Z.of_nat m, wit_mat true)].
Proof. intros m. unfold wit_reqs. rewrite seq_S, map_app. reflexivity. Qed.

Lemma grow : forall m, Z.of_nat m < 2 ^ 50 ->
  exists evs s l, run wit_system wit_iter 40 (wit_reqs (2 * m + 1)) cs_init = Ok (evs, s) /\ CInv s l (64 * Z.of_nat (2 * m + 1)) [] /\
    (forall x, In x l -> pe_layout (e_mat (snd x)) = wit_layout 8 /\ pe_data_size (e_mat (snd x)) = 4 /\ pe_sums_size (e_mat (snd x)) = 4 /\ pe_sums_float (e_mat (snd x)) = true) /\
    (forall x, In x l -> k_src (fst x) < Z.of_nat (2 * m + 1)) /\ cs_bytes s = 32 /\ length l = S m.
Proof.
  induction m as [|m IH]; intros Hm.
  - destruct (grow_step cs_init [] 0 0 init_cinv ltac:(lia) ltac:(intros x []) ltac:(intros x [])) as (a & p & s' & l' & E & CI & H1 & H2 & n & Hn & Hl & Hb & _).
    cbn [length] in *. assert (n = 0%nat) by lia. subst n.
    destruct (run_snoc wit_system wit_iter 40 [] (0, wit_mat true) cs_init [] cs_init _ eq_refl E) as [e ER].
    exists ([] ++ [e]), s', l'. split; [exact ER|]. split; [exact CI|]. split; [exact H1|]. split; [|split; [exact Hb|exact Hl]].
    intros x Hx. destruct (H2 x Hx) as [-> |(y & [] & _)]. cbn. lia.
  - destruct (IH ltac:(lia)) as (evs & s & l & E & CI & H1 & H2 & Hb & Hl).
    destruct (grow_step s l _ (Z.of_nat (2 * m + 1)) CI ltac:(lia) H1 ltac:(intros x Hx; specialize (H2 x Hx); lia))
      as (a1 & p1 & s1 & l1 & E1 & CI1 & H1a & H2a & n1 & Hn1 & Hl1 & Hb1 & C1 & A1).
    assert (n1 = 1%nat).
    { destruct n1 as [|[|n1]]; [|reflexivity|].
      - destruct C1 as [C1|C1]; lia.
      - specialize (A1 ltac:(lia)). lia. }
    subst n1.
    destruct (grow_step s1 l1 _ (Z.of_nat (2 * m + 2)) CI1 ltac:(lia) H1a) as (a2 & p2 & s2 & l2 & E2 & CI2 & H1b & H2b & n2 & Hn2 & Hl2 & Hb2 & C2 & A2).
    { intros x Hx. destruct (H2a x Hx) as [-> |(y & Hy & ->)]; [lia|]. specialize (H2 y Hy). lia. }
    assert (n2 = 0%nat). { destruct n2 as [|n2]; [reflexivity|]. specialize (A2 ltac:(lia)). lia. }
    subst n2.
    destruct (run_snoc _ _ _ _ (Z.of_nat (2 * m + 1), wit_mat true) _ _ _ _ E E1) as [e1 R1].
    destruct (run_snoc _ _ _ _ (Z.of_nat (2 * m + 2), wit_mat true) _ _ _ _ R1 E2) as [e2 R2]. cbn [snd] in R2.
    replace (2 * S m + 1)%nat with (S (S (2 * m + 1))) by lia. rewrite !reqs_S. replace (S (2 * m + 1))%nat with (2 * m + 2)%nat by lia.
    exists ((evs ++ [e1]) ++ [e2]), s2, l2. split; [exact R2|].
    split. { replace (64 * Z.of_nat (S (2 * m + 2))) with (64 * Z.of_nat (2 * m + 1) + 64 + 64) by lia. exact CI2. }
    split; [exact H1b|]. split; [|split; [lia|lia]].
    intros x Hx. destruct (H2b x Hx) as [-> |(y & Hy & ->)]; [lia|]. destruct (H2a y Hy) as [-> |(z & Hz & ->)]; [lia|]. specialize (H2 z Hz). lia.
Qed.

Lemma capacity_wrong : exists sys iter max, good_system sys /\ good_iteration iter /\ max = 40 /\
  forall n, n < 2 ^ 50 -> exists reqs evs s, Forall valid_request reqs /\ (forall r, In r reqs -> size_in_cache (snd r) <= max) /\ bytes_requested reqs < 2 ^ 62 /\
    run sys iter max reqs cs_init = Ok (evs, s) /\ n < bytes_held (held s).
Proof.
  exists wit_system, wit_iter, 40. split; [apply wit_good|]. split; [apply wit_iter_good|]. split; [reflexivity|]. intros n Hn.
  destruct (grow (Z.to_nat n) ltac:(lia)) as (evs & s & l & E & CI & H1 & _ & _ & Hl).
  exists (wit_reqs (2 * Z.to_nat n + 1)), evs, s.
  assert (BR : forall a b, bytes_requested (map (fun i => (Z.of_nat i, wit_mat true)) (seq a b)) = 64 * Z.of_nat b).
  { intros a b. revert a. induction b as [|b IHb]; intros a; [reflexivity|]. cbn [seq map bytes_requested fold_right].
    fold (bytes_requested (map (fun i => (Z.of_nat i, wit_mat true)) (seq (S a) b))). rewrite IHb.
    change (data_size (snd (Z.of_nat a, wit_mat true))) with 32. change (sums_size (snd (Z.of_nat a, wit_mat true))) with 32. lia. }
  assert (IR : forall r, In r (wit_reqs (2 * Z.to_nat n + 1)) -> exists i, r = (i, wit_mat true)).
  { intros r Hr. apply in_map_iff in Hr. destruct Hr as (i & <- & _). eauto. }
  split; [apply Forall_forall; intros r Hr; destruct (IR r Hr) as [i ->]; apply wit_valid|].
  split; [intros r Hr; destruct (IR r Hr) as [i ->]; vm_compute; discriminate|].
  split; [unfold wit_reqs; rewrite BR; lia|]. split; [exact E|].
  rewrite (bytes_held_perm _ _ (held_perm _ _ _ _ CI)).
  assert (BH : bytes_held (view_of l) = 32 * Z.of_nat (length l)).
  { clear - H1. induction l as [|x l IHl]; [reflexivity|]. cbn [view_of map bytes_held fold_right snd length]. fold (view_of l). fold (bytes_held (view_of l)).
    rewrite IHl by (intros y Hy; apply H1; right; exact Hy). destruct (H1 x (or_introl eq_refl)) as (A & B & C & D).
    unfold size_in_cache, data_size. rewrite A, B, D. cbn [wit_layout pl_order pl_cols pl_stride pl_rows]. lia. }
  rewrite BH, Hl. lia.
Qed.

Lemma lookups_wrong : exists sys iter max r1 r2 evs s p1, good_system sys /\ good_iteration iter /\ Forall valid_request [r1; r2] /\
  Forall integer_request [r1; r2] /\ bytes_requested [r1; r2] < 2 ^ 62 /\
  size_in_cache (snd r1) <= max /\ size_in_cache (snd r2) <= max /\
  run sys iter max [r1; r2] cs_init = Ok (evs, s) /\ option_map ev_mat (nth_error evs 0) = Some p1 /\ buffers p1 <> [] /\
  forall b, In b (buffers p1) -> ~ In b (cs_live s).
Proof.
  exists wit_system, wit_iter, 100, (1000, wit_mat false), (2000, wit_mat false). eexists _, _, _.
  split; [apply wit_good|]. split; [apply wit_iter_good|]. split; [repeat constructor; apply wit_valid|].
  split; [repeat constructor|]. split; [vm_compute; reflexivity|]. split; [vm_compute; discriminate|]. split; [vm_compute; discriminate|].
  split; [vm_compute; reflexivity|]. split; [vm_compute; reflexivity|]. split; [vm_compute; discriminate|].
  vm_compute. intros b [<- | [<- | []]]; intros [H|[H|[]]]; discriminate.
Qed.

(** A row of 165 million numbers. *)
Lemma hash_overflow : exists k, pl_cols (k_layout k) * pl_rows (k_layout k) <= 2 ^ 28 /\ 0 < pl_cols (k_layout k) /\ 0 < pl_rows (k_layout k) /\
  pl_stride (k_layout k) = pl_rows (k_layout k) /\ key_hash k = UB.
Proof.
  exists {| k_src := 0; k_layout := wit_layout 165191056; k_zp := 0 |}. vm_compute. repeat split; discriminate.
Qed.
