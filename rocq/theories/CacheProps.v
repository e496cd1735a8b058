(** The properties of the prepacked cache, by induction over the lookups. *)
From Coq Require Import Permutation Sorting.Sorted.
From Verif Require Import Base SidePair Mat TrMul Allocator SpecAlloc AllocFacts PrepackedCache SpecCache CacheFacts.

Definition view_of (l : list (key * entry)) : list (key * pemat) := map (fun x => (fst x, e_mat (snd x))) l.

Lemma view_app : forall a b, view_of (a ++ b) = view_of a ++ view_of b.
Proof. intros. apply map_app. Qed.

Lemma view_keys : forall l, map fst (view_of l) = map fst l.
Proof. intros. unfold view_of. rewrite map_map. reflexivity. Qed.

Lemma held_perm : forall s l tb ex, CInv s l tb ex -> Permutation (held s) (view_of l).
Proof. intros s l tb ex CI. unfold held, view_of. apply Permutation_map. apply (ci_perm _ _ _ _ CI). Qed.

Lemma bytes_held_app : forall a b, bytes_held (a ++ b) = bytes_held a + bytes_held b.
Proof. induction a as [|x a IH]; intros b; cbn [app bytes_held fold_right]; [reflexivity|]. fold (bytes_held (a ++ b)) (bytes_held a). rewrite IH. lia. Qed.

Lemma bytes_held_perm : forall a b, Permutation a b -> bytes_held a = bytes_held b.
Proof. induction 1; unfold bytes_held in *; cbn [fold_right]; lia. Qed.

Definition full_bytes (l : list (key * entry)) : Z := fold_right (fun x t => full_size (e_mat (snd x)) + t) 0 l.

Lemma full_bytes_app : forall a b, full_bytes (a ++ b) = full_bytes a + full_bytes b.
Proof. induction a as [|x a IH]; intros b; cbn [app full_bytes fold_right]; [reflexivity|]. fold (full_bytes (a ++ b)) (full_bytes a). rewrite IH. lia. Qed.

Lemma held_full : forall l, (forall x, In x l -> sized (e_mat (snd x))) -> 0 <= bytes_held (view_of l) <= full_bytes l.
Proof.
  induction l as [|x l IH]; intros H; cbn [view_of map bytes_held full_bytes fold_right snd]; [lia|].
  fold (view_of l). fold (bytes_held (view_of l)) (full_bytes l).
  pose proof (size_in_cache_bounds _ (H x (or_introl eq_refl))). specialize (IH (fun y Hy => H y (or_intror Hy))). lia.
Qed.

Lemma held_full_int : forall l, (forall x, In x l -> pe_sums_float (e_mat (snd x)) = false) -> bytes_held (view_of l) = full_bytes l.
Proof.
  induction l as [|x l IH]; intros H; cbn [view_of map bytes_held full_bytes fold_right snd]; [lia|].
  fold (view_of l). fold (bytes_held (view_of l)) (full_bytes l).
  rewrite IH by (intros y Hy; apply H; right; exact Hy). unfold size_in_cache, full_size. rewrite (H x (or_introl eq_refl)). reflexivity.
Qed.

(** * What holds after any lookups, beyond [CInv]. *)

(** The number of bytes kept is never above those held. *)
Definition under (s : cst) (l : list (key * entry)) : Prop := cs_bytes s <= bytes_held (view_of l).
Definition all_int (l : list (key * entry)) : Prop := forall x, In x l -> pe_sums_float (e_mat (snd x)) = false.
Definition exact_bytes (s : cst) (l : list (key * entry)) : Prop := cs_bytes s = bytes_held (view_of l).
(** Entries have all their buffers. *)
Definition complete (l : list (key * entry)) : Prop :=
  forall x, In x l -> pe_data (e_mat (snd x)) <> 0 /\ (pe_sums_float (e_mat (snd x)) = false -> pe_sums (e_mat (snd x)) <> 0) /\
                      (pe_sums_float (e_mat (snd x)) = true -> pe_sums (e_mat (snd x)) = 0).

Lemma in_middle : forall {A} (x y : A) l1 l2, In x (l1 ++ l2) -> In x (l1 ++ y :: l2).
Proof. intros. apply in_app_iff in H. apply in_app_iff. cbn [In]. tauto. Qed.

Lemma no_failure_before : forall t1 t2, ~ some_call_failed (t1 ++ t2) -> ~ some_call_failed t1.
Proof. intros t1 t2 H (g & n & Hi). apply H. exists g, n. apply in_app_iff. auto. Qed.

Section Get.
Variable max : Z.

Lemma get_under : forall r s l tb a p s' l', CInv s l tb [] -> get_spec max r s l a p s' l' -> under s l -> under s' l'.
Proof.
  intros r s l tb a p s' l' CI G U. unfold under in *. destruct G as [l1 e l2 s' -> B L T | kept ejected d a n1 n2 fr s' -> N B C A F T].
  - rewrite B. rewrite view_app in U. cbn [view_of map] in *. rewrite bytes_held_app in U.
    change (map (fun x => (fst x, e_mat (snd x))) (l1 ++ l2)) with (view_of (l1 ++ l2)). rewrite view_app.
    cbn [bytes_held fold_right snd fst e_mat] in *. fold (bytes_held (view_of l1 ++ view_of l2)).
    fold (view_of l2) in U. fold (bytes_held (view_of l2)) in U. rewrite bytes_held_app. lia.
  - rewrite B. rewrite view_app, bytes_held_app in U. cbn [view_of map]. fold (view_of kept). cbn [bytes_held fold_right snd fst e_mat].
    fold (bytes_held (view_of kept)). change (size_in_cache (set_buffers (snd r) d a)) with (size_in_cache (snd r)).
    fold (full_bytes ejected).
    pose proof (held_full ejected (fun x Hx => ci_sized _ _ _ _ CI x (proj2 (in_app_iff _ _ _) (or_intror Hx)))). lia.
Qed.

Lemma get_int : forall r s l a p s' l', get_spec max r s l a p s' l' -> integer_request r -> all_int l -> all_int l'.
Proof.
  intros r s l a p s' l' G R A. destruct G as [l1 e l2 s' -> B L T | kept ejected d a n1 n2 fr s' -> N B C AN F T]; intros x [<- | Hx]; cbn [snd e_mat].
  - apply (A (request_key r, e)). apply in_app_iff. right. left. reflexivity.
  - apply A. apply in_middle. exact Hx.
  - exact R.
  - apply A. apply in_app_iff. left. exact Hx.
Qed.

Lemma get_exact : forall r s l a p s' l', get_spec max r s l a p s' l' -> all_int l -> exact_bytes s l -> exact_bytes s' l'.
Proof.
  intros r s l a p s' l' G AI U. unfold exact_bytes in *. destruct G as [l1 e l2 s' -> B L T | kept ejected d a n1 n2 fr s' -> N B C A F T].
  - rewrite B, U. rewrite view_app. cbn [view_of map]. rewrite bytes_held_app.
    change (map (fun x => (fst x, e_mat (snd x))) (l1 ++ l2)) with (view_of (l1 ++ l2)). rewrite view_app.
    cbn [bytes_held fold_right snd fst e_mat] in *. fold (bytes_held (view_of l1 ++ view_of l2)).
    fold (view_of l2). fold (bytes_held (view_of l2)). rewrite bytes_held_app. lia.
  - rewrite B, U. rewrite view_app, bytes_held_app. cbn [view_of map]. fold (view_of kept). cbn [bytes_held fold_right snd fst e_mat].
    fold (bytes_held (view_of kept)). change (size_in_cache (set_buffers (snd r) d a)) with (size_in_cache (snd r)).
    fold (full_bytes ejected).
    rewrite (held_full_int ejected) by (intros x Hx; apply AI; apply in_app_iff; right; exact Hx). lia.
Qed.

Lemma get_complete : forall r s l a p s' l', get_spec max r s l a p s' l' -> ~ some_call_failed (cs_trace s') -> complete l -> complete l'.
Proof.
  intros r s l a p s' l' G NF CO. destruct G as [l1 e l2 s' -> B L T | kept ejected d a n1 n2 fr s' -> N B C AN F T]; intros x [<- | Hx]; cbn [snd e_mat].
  - apply (CO (request_key r, e)). apply in_app_iff. right. left. reflexivity.
  - apply CO. apply in_middle. exact Hx.
  - cbn [set_buffers pe_data pe_sums pe_sums_float]. rewrite T in NF. apply no_failure_before in NF. split; [|split; [|exact F]].
    + intros ->. apply NF. exists false, n1. apply in_app_iff. right. left. reflexivity.
    + intros Ef ->. rewrite Ef in NF. apply NF. exists false, n2. apply in_app_iff. right. right. left. reflexivity.
  - apply CO. apply in_app_iff. left. exact Hx.
Qed.

Lemma get_trace : forall r s l a p s' l', get_spec max r s l a p s' l' -> exists t, cs_trace s' = cs_trace s ++ t.
Proof.
  intros r s l a p s' l' G. destruct G as [l1 e l2 s' -> B L T | kept ejected d a n1 n2 fr s' -> N B C AN F T].
  - exists []. rewrite app_nil_r. exact T.
  - rewrite T, <- app_assoc. eauto.
Qed.

Lemma get_returned : forall r s l a p s' l', get_spec max r s l a p s' l' -> exists t rest, l' = (request_key r, {| e_mat := p; e_time := t |}) :: rest.
Proof. intros r s l a p s' l' G. destruct G; eauto. Qed.
End Get.

(** What a lookup is for a map that ejects the least recently used. *)
Lemma get_history : forall (choice : list (key * pemat) -> pemat -> list (key * pemat) -> Prop) max r s l tb a p s' l' evs,
  CInv s' l' tb [] -> get_spec max r s l a p s' l' ->
  (forall kept ejected, a = InsertedNew -> l = kept ++ ejected -> view_of l' = (request_key r, p) :: view_of kept -> choice (view_of kept) p (view_of ejected)) ->
  lru_history choice (view_of l') evs ->
  lru_history choice (view_of l) ({| ev_key := request_key r; ev_action := a; ev_mat := p; ev_held := held s' |} :: evs).
Proof.
  intros choice max r s l tb a p s' l' evs CI G HC HH. pose proof (held_perm _ _ _ _ CI) as HP.
  destruct G as [l1 e l2 s' -> B L T | kept ejected d a n1 n2 fr s' -> N B C AN F T].
  - rewrite view_app. cbn [view_of map fst snd] in *. fold (view_of l2). rewrite map_app in *. fold (view_of l1) (view_of l2) in *. apply lru_hit; assumption.
  - rewrite view_app. apply lru_miss.
    + rewrite <- view_app, view_keys. exact N.
    + apply HC; auto.
    + exact HP.
    + exact HH.
Qed.

Lemma requested_nonneg : forall reqs, Forall valid_request reqs -> 0 <= bytes_requested reqs.
Proof.
  induction 1 as [|r reqs V _ IH]; cbn [bytes_requested fold_right]; [lia|]. fold (bytes_requested reqs).
  destruct (request_sized r V) as (SZ & _). pose proof (sz_data _ SZ). pose proof (sz_sums _ SZ). lia.
Qed.

Section Runs.
Variable sys : list sys_event -> list (Z * Z) -> Z -> Z.
Hypothesis Hsys : good_system sys.
Variable iter : list sys_event -> list (key * entry) -> list (key * entry).
Hypothesis Hiter : good_iteration iter.
Variable max : Z.

(** One lookup of a run. *)
Lemma run_cons : forall s l tb r reqs, CInv s l tb [] -> Forall valid_request (r :: reqs) -> tb + bytes_requested (r :: reqs) < 2 ^ 62 ->
  exists a p s1 l1, cache_get sys iter max (fst r) (snd r) s = Ok (a, p, s1) /\ CInv s1 l1 (tb + full_size (snd r)) [] /\
    get_spec max r s l a p s1 l1 /\ tb + full_size (snd r) + bytes_requested reqs < 2 ^ 62 /\
    run sys iter max (r :: reqs) s = ('(evs, s') <- run sys iter max reqs s1 ;;
                                      Ok ({| ev_key := request_key r; ev_action := a; ev_mat := p; ev_held := held s1 |} :: evs, s')).
Proof using Hsys Hiter.
  intros s l tb r reqs CI V B. inversion V as [|? ? V1 V2]; subst. cbn [bytes_requested fold_right] in B. fold (bytes_requested reqs) in B.
  pose proof (requested_nonneg reqs V2). unfold full_size in *.
  destruct (cache_get_ok sys Hsys iter Hiter max s l tb r CI V1) as (a & p & s1 & l1 & E & CI1 & G); [unfold full_size; lia|].
  exists a, p, s1, l1. split; [exact E|]. split; [exact CI1|]. split; [exact G|]. split; [lia|]. cbn [run]. rewrite E. reflexivity.
Qed.

Lemma run_all : forall reqs s l tb, CInv s l tb [] -> under s l -> Forall valid_request reqs -> tb + bytes_requested reqs < 2 ^ 62 ->
  exists evs s' l', run sys iter max reqs s = Ok (evs, s') /\ CInv s' l' (tb + bytes_requested reqs) [] /\ under s' l' /\
    map ev_key evs = map request_key reqs /\ lru_history any_choice (view_of l) evs /\
    (all_int l -> Forall integer_request reqs -> all_int l' /\ (exact_bytes s l -> exact_bytes s' l')) /\
    (~ some_call_failed (cs_trace s') -> complete l -> complete l') /\ exists t, cs_trace s' = cs_trace s ++ t.
Proof using Hsys Hiter.
  induction reqs as [|r reqs IH]; intros s l tb CI U V B.
  - exists [], s, l. cbn [bytes_requested fold_right]. rewrite Z.add_0_r. cbn [run map]. split; [reflexivity|]. split; [exact CI|]. split; [exact U|]. split; [reflexivity|].
    split; [constructor|]. split; [auto|]. split; [auto|]. exists []. rewrite app_nil_r. reflexivity.
  - destruct (run_cons s l tb r reqs CI V B) as (a & p & s1 & l1 & E & CI1 & G & B1 & ER).
    inversion V as [|? ? V1 V2]; subst.
    destruct (IH s1 l1 _ CI1 (get_under _ _ _ _ _ _ _ _ _ CI G U) V2 B1) as (evs & s' & l' & E' & CI' & U' & K' & H' & I' & C' & t' & T').
    rewrite ER, E'. cbn [bind]. eexists _, s', l'. split; [reflexivity|].
    split. { cbn [bytes_requested fold_right]. fold (bytes_requested reqs). unfold full_size in CI'. replace (tb + _) with (tb + (data_size (snd r) + sums_size (snd r)) + bytes_requested reqs) by lia. exact CI'. }
    split; [exact U'|]. split; [cbn [map ev_key]; rewrite K'; reflexivity|]. destruct (get_trace _ _ _ _ _ _ _ _ G) as [t1 T1].
    split; [|split; [|split]].
    + eapply get_history; [exact CI1|exact G| |exact H']. intros. exact Logic.I.
    + intros AI FI. inversion FI as [|? ? F1 F2]; subst. destruct (I' (get_int _ _ _ _ _ _ _ _ G F1 AI) F2) as [J1 J2].
      split; [exact J1|]. intros EX. apply J2. eapply get_exact; eassumption.
    + intros NF CO. apply C'; [exact NF|]. eapply get_complete; [exact G| |exact CO]. rewrite T' in NF. eapply no_failure_before. exact NF.
    + exists (t1 ++ t'). rewrite T', T1, app_assoc. reflexivity.
Qed.

(** Capacity, for integer matrices. *)
Lemma run_capacity : forall reqs s l tb, CInv s l tb [] -> all_int l -> exact_bytes s l -> (bytes_held (view_of l) <= max \/ (length l <= 1)%nat) ->
  Forall valid_request reqs -> Forall integer_request reqs -> tb + bytes_requested reqs < 2 ^ 62 ->
  exists evs s', run sys iter max reqs s = Ok (evs, s') /\ lru_history (as_needed max) (view_of l) evs /\
    Forall (fun e => bytes_held (ev_held e) <= max \/ length (ev_held e) = 1%nat) evs.
Proof using Hsys Hiter.
  induction reqs as [|r reqs IH]; intros s l tb CI AI EX CAP V VI B.
  - exists [], s. cbn [run]. split; [reflexivity|]. split; constructor.
  - destruct (run_cons s l tb r reqs CI V B) as (a & p & s1 & l1 & E & CI1 & G & B1 & ER).
    inversion V as [|? ? V1 V2]; subst. inversion VI as [|? ? VI1 VI2]; subst.
    pose proof (get_int _ _ _ _ _ _ _ _ G VI1 AI) as AI1. pose proof (get_exact _ _ _ _ _ _ _ _ G AI EX) as EX1.
    assert (CAP1 : bytes_held (view_of l1) <= max \/ (length l1 = 1)%nat).
    { pose proof G as G0. destruct G0 as [k1 e k2 s1 -> Bs Ls Ts | kept ejected d a n1 n2 fr s1 -> N Bs C AN F T].
      - unfold exact_bytes in *. rewrite Bs, EX in EX1. rewrite <- EX1. destruct CAP as [CAP|CAP]; [left; exact CAP|right].
        cbn [length]. rewrite app_length in *. cbn [length] in *. lia.
      - unfold exact_bytes in EX1. rewrite <- EX1. destruct C as [C| ->]; [left; exact C|right; reflexivity]. }
    destruct (IH s1 l1 _ CI1 AI1 EX1 ltac:(destruct CAP1; [left; assumption|right; lia]) V2 VI2 B1) as (evs & s' & E' & H' & F').
    rewrite ER, E'. cbn [bind]. eexists _, s'. split; [reflexivity|]. split.
    + eapply get_history; [exact CI1|exact G| |exact H'].
      intros kept ejected -> EL EV.
      inversion G as [|kept' ejected' d a0 n1 n2 fr s'' EL' N Bs C AN F T]; subst.
      apply (f_equal (map fst)) in EV. cbn [view_of map fst] in EV. fold (view_of kept) (view_of kept') in EV. rewrite !view_keys in EV. injection EV as EV.
      assert (EK : kept' = kept /\ ejected' = ejected).
      { assert (LK : length kept' = length kept) by (rewrite <- (map_length fst kept'), EV, map_length; reflexivity).
        clear - EL' LK. revert kept EL' LK. induction kept' as [|x k IHk]; intros [|y k2] H L; cbn [app length] in *; try discriminate; [auto|].
        injection H as -> H. injection L as L. destruct (IHk k2 (eq_sym (eq_sym H)) L) as [-> ->]. auto. }
      destruct EK as [-> ->]. unfold as_needed. unfold exact_bytes in EX1. cbn [view_of map fst snd e_mat] in EX1. fold (view_of kept) in EX1.
      cbn [bytes_held fold_right snd] in EX1. fold (bytes_held (view_of kept)) in EX1. split.
      * destruct C as [C| ->]; [left; lia|right; reflexivity].
      * intros x rest Ex. destruct ejected as [|y ej]; [discriminate|]. cbn [view_of map] in Ex. injection Ex as <- _.
        specialize (AN y ej eq_refl). rewrite bytes_held_app. cbn [bytes_held fold_right snd].
        assert (Iy : pe_sums_float (e_mat (snd y)) = false) by (apply AI; apply in_app_iff; right; left; reflexivity).
        unfold size_in_cache at 1. rewrite Iy. unfold full_size in AN. lia.
    + constructor; [|exact F']. cbn [ev_held]. pose proof (held_perm _ _ _ _ CI1) as HP. rewrite (bytes_held_perm _ _ HP), (Permutation_length HP).
      unfold view_of at 2. rewrite map_length. exact CAP1.
Qed.
End Runs.

Lemma init_under : under cs_init []. Proof. unfold under. cbn. lia. Qed.
Lemma init_exact : exact_bytes cs_init []. Proof. reflexivity. Qed.

(** * The properties *)

Lemma lru : forall sys iter max reqs, good_system sys -> good_iteration iter -> Forall valid_request reqs -> bytes_requested reqs < 2 ^ 62 ->
  exists evs s, run sys iter max reqs cs_init = Ok (evs, s) /\ map ev_key evs = map request_key reqs /\ lru_history any_choice [] evs.
Proof.
  intros sys iter max reqs Hs Hi V B.
  destruct (run_all sys Hs iter Hi max reqs cs_init [] 0 init_cinv init_under V ltac:(lia)) as (evs & s & l & E & _ & _ & K & H & _).
  exists evs, s. auto.
Qed.

Lemma equal_keys : forall a b, (key_eqb a b = true <-> a = b) /\ (a = b -> key_hash a = key_hash b).
Proof. intros a b. split; [apply key_eqb_eq|intros ->; reflexivity]. Qed.

Lemma blocks_app : forall a b, bytes_of_blocks (a ++ b) = bytes_of_blocks a + bytes_of_blocks b.
Proof. induction a as [|x a IH]; intros b; cbn [app bytes_of_blocks fold_right]; [reflexivity|]. fold (bytes_of_blocks (a ++ b)) (bytes_of_blocks a). rewrite IH. lia. Qed.
Lemma blocks_perm : forall a b, Permutation a b -> bytes_of_blocks a = bytes_of_blocks b.
Proof. induction 1; unfold bytes_of_blocks in *; cbn [fold_right]; lia. Qed.

Lemma complete_blocks : forall l, complete l -> bytes_of_blocks (flat_map (fun x => buffers (e_mat (snd x))) l) = bytes_held (view_of l).
Proof.
  induction l as [|x l IH]; intros C; cbn [flat_map view_of map bytes_held fold_right snd]; [reflexivity|].
  fold (view_of l). fold (bytes_held (view_of l)). rewrite blocks_app, IH by (intros y Hy; apply C; right; exact Hy). f_equal.
  destruct (C x (or_introl eq_refl)) as (C1 & C2 & C3). unfold buffers, size_in_cache.
  apply Z.eqb_neq in C1. rewrite C1. destruct (pe_sums_float (e_mat (snd x))).
  - rewrite (C3 eq_refl). cbn. lia.
  - specialize (C2 eq_refl). apply Z.eqb_neq in C2. rewrite C2. cbn. lia.
Qed.

Lemma buffers_bytes : forall sys iter max reqs, good_system sys -> good_iteration iter -> Forall valid_request reqs -> bytes_requested reqs < 2 ^ 62 ->
  Forall integer_request reqs ->
  exists evs s, run sys iter max reqs cs_init = Ok (evs, s) /\ cs_bytes s = bytes_held (held s) /\
    (~ some_call_failed (cs_trace s) -> cs_bytes s = bytes_of_blocks (cs_live s)).
Proof.
  intros sys iter max reqs Hs Hi V B VI.
  destruct (run_all sys Hs iter Hi max reqs cs_init [] 0 init_cinv init_under V ltac:(lia)) as (evs & s & l & E & CI & _ & _ & _ & I & C & _).
  destruct (I ltac:(intros x []) VI) as [AI EX]. specialize (EX init_exact). exists evs, s. split; [exact E|].
  rewrite (bytes_held_perm _ _ (held_perm _ _ _ _ CI)). split; [exact EX|]. intros NF.
  rewrite (blocks_perm _ _ (ci_live _ _ _ _ CI)), app_nil_r, complete_blocks; [exact EX|]. apply C; [exact NF|]. intros x [].
Qed.

Lemma never_overcounts : forall sys iter max reqs, good_system sys -> good_iteration iter -> Forall valid_request reqs -> bytes_requested reqs < 2 ^ 62 ->
  exists evs s, run sys iter max reqs cs_init = Ok (evs, s) /\ cs_bytes s <= bytes_held (held s).
Proof.
  intros sys iter max reqs Hs Hi V B.
  destruct (run_all sys Hs iter Hi max reqs cs_init [] 0 init_cinv init_under V ltac:(lia)) as (evs & s & l & E & CI & U & _).
  exists evs, s. split; [exact E|]. rewrite (bytes_held_perm _ _ (held_perm _ _ _ _ CI)). exact U.
Qed.

Lemma capacity : forall sys iter max reqs, good_system sys -> good_iteration iter -> Forall valid_request reqs -> bytes_requested reqs < 2 ^ 62 ->
  Forall integer_request reqs ->
  exists evs s, run sys iter max reqs cs_init = Ok (evs, s) /\ lru_history (as_needed max) [] evs /\
    Forall (fun e => bytes_held (ev_held e) <= max \/ length (ev_held e) = 1%nat) evs.
Proof.
  intros sys iter max reqs Hs Hi V B VI.
  apply (run_capacity sys Hs iter Hi max reqs cs_init [] 0 init_cinv); auto; try lia.
  - intros x [].
  - apply init_exact.
Qed.

Lemma freed_exactly_once : forall sys iter max reqs, good_system sys -> good_iteration iter -> Forall valid_request reqs -> bytes_requested reqs < 2 ^ 62 ->
  exists evs s s', run sys iter max reqs cs_init = Ok (evs, s) /\
    ForallOrdPairs disjoint (cs_live s) /\ Permutation (cs_live s) (flat_map (fun x => buffers (snd x)) (held s)) /\
    cache_destroy iter s = Ok s' /\ cs_live s' = [] /\ freed_once (cs_trace s').
Proof.
  intros sys iter max reqs Hs Hi V B.
  destruct (run_all sys Hs iter Hi max reqs cs_init [] 0 init_cinv init_under V ltac:(lia)) as (evs & s & l & E & CI & _).
  destruct (destroy_ok iter Hi s l _ CI) as (s' & D & L & A). exists evs, s, s'. split; [exact E|]. split; [apply (me_disj _ _ (ci_mem _ _ _ _ CI))|].
  split; [|split; [exact D|split; [exact L|]]].
  - eapply perm_trans; [apply (ci_live _ _ _ _ CI)|]. rewrite app_nil_r. unfold held.
    assert (FM : forall m : list (key * entry), flat_map (fun x => buffers (snd x)) (map (fun x => (fst x, e_mat (snd x))) m) = flat_map (fun x => buffers (e_mat (snd x))) m).
    { induction m as [|y m IHm]; cbn [map flat_map snd]; [reflexivity|rewrite IHm; reflexivity]. }
    rewrite FM. apply Permutation_flat_map. apply Permutation_sym. apply (ci_perm _ _ _ _ CI).
  - intros p Hp. destruct (A p Hp) as [A1 A2]. split; [|exact A2]. rewrite A1. cbn. lia.
Qed.

(** Two lookups in a row. *)
Lemma alive_in : forall s l tb ex x, CInv s l tb ex -> In x l -> alive (cs_live s) (e_mat (snd x)).
Proof.
  intros s l tb ex x CI Hx b Hb. eapply Permutation_in; [apply Permutation_sym; apply (ci_live _ _ _ _ CI)|].
  apply in_app_iff. left. apply in_flat_map. exists x. split; assumption.
Qed.

Lemma second_lookup : forall max r2 s1 k e rest a2 p2 s2 l2, get_spec max r2 s1 ((k, e) :: rest) a2 p2 s2 l2 -> under s1 ((k, e) :: rest) ->
  (forall x, In x ((k, e) :: rest) -> sized (e_mat (snd x))) ->
  size_in_cache (e_mat e) + size_in_cache (snd r2) <= max ->
  exists x, In x l2 /\ e_mat (snd x) = e_mat e.
Proof.
  intros max r2 s1 k e rest a2 p2 s2 l2 G U SZ Hmax. unfold under in U.
  inversion G as [l1 e' l2' s' EL Bs Ls Ts | kept ejected d a n1 n2 fr s' EL N Bs C AN F T]; subst.
  - destruct l1 as [|y l1]; cbn [app] in EL.
    + injection EL as E1 E2 E3. subst. eexists. split; [left; reflexivity|reflexivity].
    + injection EL as E1 E2. subst. exists (k, e). split; [right; left; reflexivity|reflexivity].
  - destruct kept as [|y kept]; cbn [app] in EL.
    + exfalso. specialize (AN (k, e) rest (eq_sym EL)). subst ejected. cbn [snd] in AN.
      cbn [view_of map bytes_held fold_right snd fst] in U. fold (view_of rest) in U. fold (bytes_held (view_of rest)) in U.
      cbn [fold_right snd] in Bs. fold (full_bytes rest) in Bs.
      pose proof (held_full rest (fun x Hx => SZ x (or_intror Hx))). lia.
    + injection EL as E1 E2. subst. exists (k, e). split; [right; left; reflexivity|reflexivity].
Qed.

Lemma two_lookups : forall sys iter max reqs r1 r2, good_system sys -> good_iteration iter ->
  Forall valid_request (reqs ++ [r1; r2]) -> bytes_requested (reqs ++ [r1; r2]) < 2 ^ 62 ->
  exists evs s p1 p2 k1 k2 a1 a2 h1 h2, run sys iter max (reqs ++ [r1; r2]) cs_init =
    Ok (evs ++ [{| ev_key := k1; ev_action := a1; ev_mat := p1; ev_held := h1 |}; {| ev_key := k2; ev_action := a2; ev_mat := p2; ev_held := h2 |}], s) /\
    alive (cs_live s) p2 /\
    (size_in_cache p1 + size_in_cache p2 <= max -> alive (cs_live s) p1).
Proof.
  intros sys iter max reqs r1 r2 Hs Hi V B.
  assert (BA : forall a b, bytes_requested (a ++ b) = bytes_requested a + bytes_requested b).
  { induction a as [|x a IH]; intros b; cbn [app bytes_requested fold_right]; [reflexivity|]. fold (bytes_requested (a ++ b)) (bytes_requested a). rewrite IH. lia. }
  rewrite BA in B. apply Forall_app in V. destruct V as [V0 V12].
  pose proof (requested_nonneg _ V12) as N12.
  destruct (run_all sys Hs iter Hi max reqs cs_init [] 0 init_cinv init_under V0 ltac:(lia)) as (evs & s0 & l0 & E0 & CI0 & U0 & _).
  destruct (run_cons sys Hs iter Hi max s0 l0 _ r1 [r2] CI0 V12 ltac:(lia)) as (a1 & p1 & s1 & l1 & E1 & CI1 & G1 & B1 & ER1).
  inversion V12 as [|? ? V1 V2]; subst.
  pose proof (get_under _ _ _ _ _ _ _ _ _ CI0 G1 U0) as U1.
  destruct (run_cons sys Hs iter Hi max s1 l1 _ r2 [] CI1 V2 B1) as (a2 & p2 & s2 & l2 & E2 & CI2 & G2 & B2 & ER2).
  assert (RA : forall a b s es s', run sys iter max a s = Ok (es, s') ->
    run sys iter max (a ++ b) s = ('(fs, s'') <- run sys iter max b s' ;; Ok (es ++ fs, s''))).
  { clear. induction a as [|r a IH]; intros b s es s' H; cbn [run app] in *.
    - injection H as <- <-. destruct (run sys iter max b s) as [[fs s'']| |]; reflexivity.
    - destruct (cache_get sys iter max (fst r) (snd r) s) as [[[a0 p] s0]| |]; cbn [bind] in *; try discriminate.
      destruct (run sys iter max a s0) as [[es0 s1]| |] eqn:E; cbn [bind] in *; try discriminate. injection H as <- <-.
      rewrite (IH b _ _ _ E). destruct (run sys iter max b s1) as [[fs s'']| |]; reflexivity. }
  rewrite (RA _ _ _ _ _ E0), ER1, ER2. cbn [run bind].
  do 10 eexists. split; [reflexivity|].
  destruct (get_returned _ _ _ _ _ _ _ _ G2) as (t2 & rest2 & L2). destruct (get_returned _ _ _ _ _ _ _ _ G1) as (t1 & rest1 & L1). split.
  - eapply (alive_in s2 l2 _ _ (request_key r2, {| e_mat := p2; e_time := t2 |}) CI2). rewrite L2. left. reflexivity.
  - intros Hmax. subst l1. set (e1 := {| e_mat := p1; e_time := t1 |}) in *.
    assert (SR : size_in_cache (snd r2) <= size_in_cache p2 \/ exists x, In x l2 /\ e_mat (snd x) = p1).
    { inversion G2 as [l1 e' l2' s' EL Bs Ls Ts | kept ejected d a n1 n2 fr s' EL N Bs C AN F T]; subst.
      - right. destruct l1 as [|y l1]; cbn [app] in EL.
        + apply (f_equal (fun q => match q with x :: _ => e_mat (snd x) | [] => p1 end)) in EL. cbn [snd e1 e_mat] in EL. exists (request_key r2, {| e_mat := e_mat e'; e_time := cs_time s1 |}). split; [left; reflexivity|]. cbn [snd e_mat]. symmetry. exact EL.
        + injection EL as Z1 Z2. exists (request_key r1, e1). split; [|reflexivity]. right. rewrite <- Z1. left. reflexivity.
      - left. apply Z.le_refl. }
    assert (XX : exists x, In x l2 /\ e_mat (snd x) = p1).
    { destruct SR as [SR|SR]; [|exact SR].
      apply (second_lookup max r2 s1 (request_key r1) e1 rest1 a2 p2 s2 l2 G2 U1 (ci_sized _ _ _ _ CI1)). cbn [e1 e_mat]. lia. }
    destruct XX as (x & Hx & <-). eapply alive_in; [exact CI2|exact Hx].
Qed.
