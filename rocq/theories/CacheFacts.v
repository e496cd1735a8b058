(** Invariants of the prepacked cache. *)
From Coq Require Import Permutation Sorted.
From Verif Require Import Base SidePair Mat TrMul Allocator SpecAlloc AllocFacts PrepackedCache SpecCache.

(** * Keys *)

Lemma order_eqb_eq : forall a b, order_eqb a b = true <-> a = b.
Proof. intros [] []; cbn; split; congruence. Qed.

Lemma layout_eqb_eq : forall a b, pmat_layout_eqb a b = true <-> a = b.
Proof.
  intros [r c s o [ko kr kc]] [r' c' s' o' [ko' kr' kc']]. unfold pmat_layout_eqb.
  cbn [pl_cols pl_rows pl_stride pl_order pl_kernel kl_rows kl_cols kl_order].
  rewrite !andb_true_iff, !Z.eqb_eq, !order_eqb_eq. split.
  - intros ((((((-> & ->) & ->) & ->) & ->) & ->) & ->). reflexivity.
  - intros E. injection E. intros. subst. repeat split.
Qed.

Lemma key_eqb_eq : forall a b, key_eqb a b = true <-> a = b.
Proof.
  intros [s l z] [s' l' z']. unfold key_eqb. cbn [k_src k_layout k_zp]. rewrite !andb_true_iff, !Z.eqb_eq, layout_eqb_eq. split.
  - intros ((-> & ->) & ->). reflexivity.
  - intros E. injection E. intros. subst. repeat split.
Qed.

Lemma key_eqb_refl : forall a, key_eqb a a = true.
Proof. intros a. apply key_eqb_eq. reflexivity. Qed.

Lemma key_eqb_neq : forall a b, a <> b -> key_eqb a b = false.
Proof. intros a b H. destruct (key_eqb a b) eqn:E; [|reflexivity]. apply key_eqb_eq in E. contradiction. Qed.

Lemma hash_ok : forall k, hashable (k_layout k) -> exists h, key_hash k = Ok h.
Proof.
  intros k (H1 & H2 & H3 & H4 & H5 & H6). unfold key_hash, int_max in *.
  assert (0 <= order_int (pl_order (k_layout k)) <= 1) by (destruct (pl_order _); cbn; lia).
  assert (0 <= order_int (kl_order (pl_kernel (k_layout k))) <= 1) by (destruct (kl_order _); cbn; lia).
  rewrite !i32_ok by (unfold int_min, int_max; lia). cbn [bind].
  repeat (rewrite i32_ok by (unfold int_min, int_max; lia); cbn [bind]). eauto.
Qed.

(** * Lists *)

Lemma perm_filter : forall {A} (f : A -> bool) a b, Permutation a b -> Permutation (filter f a) (filter f b).
Proof.
  intros A f a b H. induction H; cbn [filter]; auto.
  - destruct (f x); auto.
  - destruct (f x), (f y); auto. constructor.
  - eapply perm_trans; eauto.
Qed.

Lemma filter_all : forall {A} (f : A -> bool) l, (forall x, In x l -> f x = true) -> filter f l = l.
Proof.
  induction l as [|x l IH]; intros H; cbn [filter]; [reflexivity|]. rewrite H by (left; reflexivity). f_equal. apply IH. intros y Hy. apply H. right. exact Hy.
Qed.

Lemma FOP_filter : forall {A} (R : A -> A -> Prop) f l, ForallOrdPairs R l -> ForallOrdPairs R (filter f l).
Proof.
  intros A R f l H. induction H as [|x l Hx Hl IH]; cbn [filter]; [constructor|]. destruct (f x); [|exact IH].
  constructor; [|exact IH]. rewrite Forall_forall in *. intros y Hy. apply filter_In in Hy. apply Hx. tauto.
Qed.

Lemma FOP_perm : forall a b, Permutation a b -> ForallOrdPairs disjoint a -> ForallOrdPairs disjoint b.
Proof.
  intros a b H. induction H; intros F; auto.
  - inversion F as [|? ? Fx Fl]; subst. constructor; [|auto]. rewrite Forall_forall in *. intros z Hz. apply Fx. eapply Permutation_in; [apply Permutation_sym; exact H|exact Hz].
  - inversion F as [|? ? Fx Fl]; subst. inversion Fl as [|? ? Fy Fl']; subst. inversion Fx as [|? ? Fxy Fxl]; subst.
    constructor; [|constructor; auto]. constructor; [|auto]. apply disjoint_sym. exact Fxy.
Qed.

(** * The memory of the cache *)

(** Live blocks: positive, disjoint, and accounted for. *)
Record Mem (live : list (Z * Z)) (trace : list sys_event) : Prop := {
  me_pos : forall b, In b live -> 0 < fst b /\ 0 < snd b;
  me_disj : ForallOrdPairs disjoint live;
  me_acc : accounted trace live }.

Lemma mem_unique : forall live trace b c, Mem live trace -> In b live -> In c live -> fst b = fst c -> b = c.
Proof.
  intros live trace b c M Hb Hc E. destruct (FOP_in _ _ _ (me_disj _ _ M) Hb Hc) as [|D]; [assumption|].
  pose proof (me_pos _ _ M b Hb). pose proof (me_pos _ _ M c Hc). unfold disjoint in D. lia.
Qed.

(** After removal of [(p, n)]. *)
Lemma mem_remove : forall live trace p n rest, Mem live trace -> Permutation live ((p, n) :: rest) ->
  Permutation (filter (fun b => negb (fst b =? p)) live) rest /\
  Mem (filter (fun b => negb (fst b =? p)) live) (trace ++ [SFree p]) /\
  existsb (fun b => fst b =? p) live = true /\ p <> 0.
Proof.
  intros live trace p n rest M HP.
  assert (Hin : In (p, n) live) by (eapply Permutation_in; [apply Permutation_sym; exact HP|left; reflexivity]).
  pose proof (me_pos _ _ M _ Hin) as Hp. cbn [fst snd] in Hp.
  assert (HD : ForallOrdPairs disjoint ((p, n) :: rest)) by (eapply FOP_perm; [exact HP|apply (me_disj _ _ M)]).
  assert (Hr : forall b, In b rest -> fst b <> p).
  { intros b Hb. apply (heads_differ (p, n) rest HD); [|exact Hb]. intros c Hc. apply (me_pos _ _ M). eapply Permutation_in; [apply Permutation_sym; exact HP|exact Hc]. }
  assert (HF : Permutation (filter (fun b => negb (fst b =? p)) live) rest).
  { eapply perm_trans; [apply perm_filter; exact HP|]. cbn [filter fst]. rewrite Z.eqb_refl. cbn [negb].
    rewrite filter_all; [apply Permutation_refl|]. intros b Hb. specialize (Hr b Hb). lia. }
  assert (HE : existsb (fun b => fst b =? p) live = true) by (apply existsb_exists; exists (p, n); split; [exact Hin|apply Z.eqb_refl]).
  split; [exact HF|]. split; [|split; [exact HE|lia]].
  constructor.
  - intros b Hb. apply filter_In in Hb. apply (me_pos _ _ M). tauto.
  - apply FOP_filter. apply (me_disj _ _ M).
  - apply (accounted_step _ live); [apply (me_acc _ _ M)|]. intros q Hq. rewrite given_free, freed_one. unfold is_live.
    destruct (Z.eqb_spec p q) as [<- | N].
    + rewrite HE. replace (existsb (fun b => fst b =? p) (filter (fun b => negb (fst b =? p)) live)) with false; [lia|].
      symmetry. apply not_true_is_false. intros E. apply existsb_exists in E. destruct E as [b [Hb Eb]]. apply filter_In in Hb. lia.
    + replace (existsb (fun b => fst b =? q) (filter (fun b => negb (fst b =? p)) live)) with (existsb (fun b => fst b =? q) live); [lia|].
      clear - N. induction live as [|b live IH]; cbn [existsb filter]; [reflexivity|].
      destruct (Z.eqb_spec (fst b) p) as [E|E]; cbn [negb existsb]; rewrite IH; [|reflexivity]. replace (fst b =? q) with false by lia. reflexivity.
Qed.

Definition with_mem (s : cst) live trace : cst :=
  {| cs_map := cs_map s; cs_bytes := cs_bytes s; cs_time := cs_time s; cs_live := live; cs_trace := trace |}.

Lemma c_free_ok : forall s p n rest, Mem (cs_live s) (cs_trace s) ->
  Permutation (cs_live s) ((if p =? 0 then [] else [(p, n)]) ++ rest) ->
  exists live fr, c_free p s = Ok (with_mem s live (cs_trace s ++ map SFree fr)) /\ Mem live (cs_trace s ++ map SFree fr) /\ Permutation live rest.
Proof.
  intros s p n rest M HP. unfold c_free. destruct (Z.eqb_spec p 0) as [-> | N]; cbn [app] in HP.
  - exists (cs_live s), []. cbn [map]. rewrite app_nil_r. destruct s. auto.
  - destruct (mem_remove _ _ _ _ _ M HP) as (H1 & H2 & H3 & H4). rewrite H3. eexists _, [p]. split; [reflexivity|]. auto.
Qed.

Lemma free_buffers_ok : forall s p rest, Mem (cs_live s) (cs_trace s) -> Permutation (cs_live s) (buffers p ++ rest) ->
  exists live fr, free_buffers p s = Ok (with_mem s live (cs_trace s ++ map SFree fr)) /\ Mem live (cs_trace s ++ map SFree fr) /\ Permutation live rest.
Proof.
  intros s p rest M HP. unfold free_buffers. unfold buffers in HP. rewrite <- app_assoc in HP.
  destruct (c_free_ok s (pe_data p) (data_size p) _ M HP) as (l1 & t1 & E1 & M1 & P1). rewrite E1. cbn [bind].
  destruct (c_free_ok (with_mem s l1 (cs_trace s ++ map SFree t1)) (pe_sums p) (sums_size p) rest M1 P1) as (l2 & t2 & E2 & M2 & P2). rewrite E2.
  exists l2, (t1 ++ t2). cbn [with_mem cs_trace] in *. rewrite map_app, app_assoc. auto.
Qed.

Section Sys.
Variable sys : list sys_event -> list (Z * Z) -> Z -> Z.
Hypothesis Hsys : good_system sys.

Lemma c_alloc_ok : forall s n, Mem (cs_live s) (cs_trace s) -> 0 < n ->
  exists p live, c_alloc sys n s = (p, with_mem s live (cs_trace s ++ [SAlloc false n p])) /\ Mem live (cs_trace s ++ [SAlloc false n p]) /\
    live = cs_live s ++ (if p =? 0 then [] else [(p, n)]) /\ 0 <= p.
Proof.
  intros s n M Hn. unfold c_alloc. set (p := sys (cs_trace s) (cs_live s) n). exists p. eexists. split; [reflexivity|].
  destruct (Z.eqb_spec p 0) as [Ep|Np].
  - split; [|split; [rewrite app_nil_r; reflexivity|lia]]. destruct M as [M1 M2 M3]. constructor; auto.
    apply (accounted_step _ (cs_live s)); [exact M3|]. intros q Hq. rewrite given_one, freed_alloc. replace (p =? q) with false by lia. lia.
  - destruct (Hsys _ _ _ Np) as (H1 & H2 & H3 & H4). fold p in H1, H2, H3, H4.
    split; [|split; [reflexivity|lia]]. destruct M as [M1 M2 M3].
    assert (NL : existsb (fun b => fst b =? p) (cs_live s) = false).
    { destruct (existsb _ _) eqn:E; [|reflexivity]. apply existsb_exists in E. destruct E as [b [Hb E]]. specialize (H4 b Hb). specialize (M1 b Hb).
      unfold disjoint in H4. cbn [fst snd] in H4. lia. }
    constructor.
    + intros b Hb. apply in_app_iff in Hb. destruct Hb as [Hb|[<- | []]]; [auto|]. cbn [fst snd]. lia.
    + apply FOP_snoc; [exact M2|]. intros b Hb. apply disjoint_sym. apply H4. exact Hb.
    + apply (accounted_step _ (cs_live s)); [exact M3|]. intros q Hq. rewrite given_one, freed_alloc. rewrite is_live_app; [lia|].
      destruct (Z.eq_dec p q) as [<- | N]; [left|right; exact N]. unfold is_live. rewrite NL. reflexivity.
Qed.

(** * Sizes *)

Record sized (p : pemat) : Prop := {
  sz_data : 0 < data_size p <= 2 ^ 61;
  sz_sums : 0 < sums_size p <= int_max;
  sz_flat : - 2 ^ 61 <= pl_stride (pe_layout p) * match pl_order (pe_layout p) with ColMajor => pl_cols (pe_layout p) | RowMajor => pl_rows (pe_layout p) end <= 2 ^ 61 }.

Definition full_size (p : pemat) : Z := data_size p + sums_size p.

Lemma sized_bytes : forall p, sized p ->
  data_bytes (pe_layout p) (pe_data_size p) = Ok (data_size p) /\ sums_bytes (pe_layout p) (pe_sums_size p) = Ok (sums_size p).
Proof.
  intros p [S1 S2 S3]. unfold data_bytes, sums_bytes, pflat_size, data_size, sums_size in *. split.
  - rewrite i64_ok by lia. cbn [bind]. rewrite i64_ok by lia. reflexivity.
  - rewrite i32_ok by (unfold int_min, int_max in *; lia). reflexivity.
Qed.

Lemma request_sized : forall r, valid_request r -> sized (snd r) /\ pe_sums (snd r) = 0 /\ hashable (pe_layout (snd r)).
Proof. intros r (H1 & H2 & H3 & H4 & H5). split; [constructor; auto|]. auto. Qed.

Lemma size_in_cache_bounds : forall p, sized p -> 0 < size_in_cache p <= full_size p /\ full_size p <= 2 ^ 61 + int_max.
Proof. intros p [S1 S2 S3]. unfold size_in_cache, full_size. destruct (pe_sums_float p); lia. Qed.

(** * The state *)

(** [l]: the entries, most recently used first. [tb]: bytes requested so far. [ex]:
    blocks not yet in an entry. *)
Record CInv (s : cst) (l : list (key * entry)) (tb : Z) (ex : list (Z * Z)) : Prop := {
  ci_perm : Permutation (cs_map s) l;
  ci_sorted : StronglySorted (fun a b => e_time (snd b) < e_time (snd a)) l;
  ci_time : forall x, In x l -> 0 <= e_time (snd x) < cs_time s;
  ci_clock : 0 <= cs_time s <= tb;
  ci_keys : NoDup (map fst l);
  ci_sized : forall x, In x l -> sized (e_mat (snd x));
  ci_mem : Mem (cs_live s) (cs_trace s);
  ci_live : Permutation (cs_live s) (flat_map (fun x => buffers (e_mat (snd x))) l ++ ex);
  ci_low : fold_right (fun x t => full_size (e_mat (snd x)) + t) 0 l - tb <= cs_bytes s;
  ci_high : cs_bytes s <= tb }.

Lemma full_nonneg : forall l, (forall x : key * entry, In x l -> sized (e_mat (snd x))) ->
  0 <= fold_right (fun x t => full_size (e_mat (snd x)) + t) 0 l.
Proof.
  induction l as [|x l IH]; intros H; cbn [fold_right]; [lia|].
  pose proof (size_in_cache_bounds _ (H x (or_introl eq_refl))). specialize (IH (fun y Hy => H y (or_intror Hy))). lia.
Qed.

Lemma init_cinv : CInv cs_init [] 0 [].
Proof.
  constructor; cbn; auto; try lia; try tauto; try constructor.
  - cbn. tauto.
  - constructor.
  - intros p Hp. split; [reflexivity|]. intros t1 t2 H. symmetry in H. apply app_eq_nil in H. destruct H as [-> _]. cbn. lia.
Qed.

Lemma allocate_buffers_ok : forall s l tb p, CInv s l tb [] -> sized p -> pe_sums p = 0 ->
  exists d a live trace, allocate_buffers sys p s = Ok (size_in_cache p, set_buffers p d a, with_mem s live trace) /\
    CInv (with_mem s live trace) l tb (buffers (set_buffers p d a)) /\ (pe_sums_float p = true -> a = 0) /\
    exists n1 n2, trace = cs_trace s ++ SAlloc false n1 d :: (if pe_sums_float p then [] else [SAlloc false n2 a]).
Proof using Hsys.
  intros s l tb p CI SP Hs0. destruct (sized_bytes p SP) as [Ed Es]. unfold allocate_buffers. rewrite Ed. cbn [bind].
  pose proof (sz_data _ SP) as Hd. pose proof (sz_sums _ SP) as Hs.
  destruct (c_alloc_ok s (data_size p) (ci_mem _ _ _ _ CI)) as (d & l1 & E1 & M1 & L1 & P1); [lia|].
  rewrite E1. unfold size_in_cache.
  assert (BD : forall q, data_size (set_buffers p d q) = data_size p /\ sums_size (set_buffers p d q) = sums_size p) by (intros q; split; reflexivity).
  destruct (pe_sums_float p) eqn:Ef.
  - rewrite Hs0. exists d, 0, l1, (cs_trace s ++ [SAlloc false (data_size p) d]). split; [do 3 f_equal; lia|]. split; [|split; [reflexivity|eauto]].
    destruct CI. constructor; auto. cbn [with_mem cs_live]. rewrite L1. unfold buffers. cbn [set_buffers pe_data pe_sums]. rewrite (proj1 (BD 0)).
    cbn [Z.eqb]. rewrite app_nil_r. rewrite app_nil_r in ci_live0. apply Permutation_app_tail. exact ci_live0.
  - rewrite Es. cbn [bind].
    destruct (c_alloc_ok (with_mem s l1 (cs_trace s ++ [SAlloc false (data_size p) d])) (sums_size p) M1) as (a & l2 & E2 & M2 & L2 & P2); [lia|].
    rewrite E2. rewrite i64_ok by (unfold int_max in *; lia). cbn [bind].
    exists d, a, l2, (cs_trace s ++ [SAlloc false (data_size p) d] ++ [SAlloc false (sums_size p) a]).
    cbn [with_mem cs_trace] in *. rewrite <- app_assoc in *. split; [reflexivity|].
    split; [|split; [discriminate|exists (data_size p), (sums_size p); reflexivity]].
    destruct CI. constructor; auto. cbn [with_mem cs_live] in *. rewrite L2, L1. unfold buffers. cbn [set_buffers pe_data pe_sums]. rewrite !(proj1 (BD a)), (proj2 (BD a)).
    rewrite app_nil_r in ci_live0. rewrite <- app_assoc. apply Permutation_app_tail. exact ci_live0.
Qed.

(** * Ejection *)

Variable iter : list sys_event -> list (key * entry) -> list (key * entry).
Hypothesis Hiter : good_iteration iter.
Variable max : Z.

Lemma find_oldest_spec : forall l first, In (find_oldest first l) (first :: l) /\
  forall x, In x (first :: l) -> e_time (snd (find_oldest first l)) <= e_time (snd x).
Proof.
  induction l as [|y l IH]; intros first; unfold find_oldest; cbn [fold_left].
  - split; [left; reflexivity|]. intros x [<- | []]. lia.
  - fold (find_oldest (if e_time (snd y) <? e_time (snd first) then y else first) l).
    destruct (IH (if e_time (snd y) <? e_time (snd first) then y else first)) as [I1 I2]. split.
    + destruct I1 as [E|I1]; [|right; right; exact I1]. destruct (_ <? _); [right; left; exact E|left; exact E].
    + intros x Hx. pose proof (I2 _ (or_introl eq_refl)) as H0.
      destruct Hx as [<- | [<- | Hx]]; [| |apply I2; right; exact Hx]; destruct (Z.ltb_spec (e_time (snd y)) (e_time (snd first))); lia.
Qed.

Lemma sorted_last : forall (l : list (key * entry)) x, StronglySorted (fun a b => e_time (snd b) < e_time (snd a)) (l ++ [x]) ->
  StronglySorted (fun a b => e_time (snd b) < e_time (snd a)) l /\ forall y, In y l -> e_time (snd x) < e_time (snd y).
Proof.
  induction l as [|z l IH]; intros x H; cbn [app] in H; [split; [constructor|intros y []]|].
  inversion H as [|? ? Hs Hf]; subst. destruct (IH x Hs) as [I1 I2]. rewrite Forall_forall in Hf. split.
  - constructor; [exact I1|]. rewrite Forall_forall. intros y Hy. apply Hf. apply in_app_iff. left. exact Hy.
  - intros y [<- | Hy]; [|auto]. apply Hf. apply in_app_iff. right. left. reflexivity.
Qed.

Lemma key_neq_last : forall (l : list (key * entry)) x, NoDup (map fst (l ++ [x])) -> forall y, In y l -> fst y <> fst x.
Proof.
  intros l x H y Hy E. rewrite map_app in H. cbn [map] in H. apply NoDup_remove_2 in H. apply H. rewrite app_nil_r, <- E. apply in_map. exact Hy.
Qed.

Lemma eject_one_ok : forall s l x tb ex, CInv s (l ++ [x]) tb ex -> tb < 2 ^ 62 ->
  exists s', eject_one iter s = Ok s' /\ CInv s' l tb ex /\ cs_bytes s' = cs_bytes s - full_size (e_mat (snd x)) /\ cs_time s' = cs_time s /\
    length (cs_map s) = S (length (cs_map s')) /\ exists fr, cs_trace s' = cs_trace s ++ map SFree fr.
Proof using Hiter.
  intros s l x tb ex CI Htb. destruct (sorted_last _ _ (ci_sorted _ _ _ _ CI)) as [SL OL].
  pose proof (Hiter (cs_trace s) (cs_map s)) as HI. pose proof (perm_trans HI (ci_perm _ _ _ _ CI)) as HP.
  unfold eject_one. destruct (iter (cs_trace s) (cs_map s)) as [|first rest] eqn:Ei.
  { apply Permutation_nil in HP. destruct l; discriminate. }
  destruct (find_oldest_spec (first :: rest) first) as [F1 F2].
  assert (Fx : find_oldest first (first :: rest) = x).
  { set (o := find_oldest first (first :: rest)) in *.
    assert (Io : In o (first :: rest)) by (destruct F1 as [F1|F1]; [left; exact F1|exact F1]).
    assert (Ix : In x (first :: rest)) by (eapply Permutation_in; [apply Permutation_sym; exact HP|apply in_app_iff; right; left; reflexivity]).
    pose proof (F2 x (or_intror Ix)) as Hx. apply (Permutation_in _ HP) in Io. apply in_app_iff in Io. destruct Io as [Io|[Io|[]]]; [|auto].
    specialize (OL _ Io). lia. }
  rewrite Fx. destruct x as [k e]. cbn [snd fst] in *.
  assert (Hx : In (k, e) (l ++ [(k, e)])) by (apply in_app_iff; right; left; reflexivity).
  pose proof (ci_sized _ _ _ _ CI _ Hx) as SX. cbn [snd] in SX. destruct (sized_bytes _ SX) as [-> ->]. cbn [bind].
  pose proof (size_in_cache_bounds _ SX) as [SB1 SB2]. unfold full_size in *. unfold int_max in *.
  rewrite i64_ok by lia. cbn [bind].
  assert (SL' : forall y, In y l -> sized (e_mat (snd y))) by (intros y Hy; apply (ci_sized _ _ _ _ CI); apply in_app_iff; left; exact Hy).
  assert (EF : fold_right (fun x t => full_size (e_mat (snd x)) + t) 0 (l ++ [(k, e)]) =
               fold_right (fun x t => full_size (e_mat (snd x)) + t) 0 l + full_size (e_mat e)).
  { clear. induction l as [|y l IH]; cbn [app fold_right snd]; [lia|rewrite IH; lia]. }
  pose proof (ci_low _ _ _ _ CI) as CL. pose proof (ci_high _ _ _ _ CI) as CH. rewrite EF in CL. unfold full_size at 2 in CL.
  pose proof (full_nonneg l SL') as FN.
  rewrite i64_ok by lia. cbn [bind].
  assert (HL : Permutation (cs_live s) (buffers (e_mat e) ++ flat_map (fun x => buffers (e_mat (snd x))) l ++ ex)).
  { eapply perm_trans; [apply (ci_live _ _ _ _ CI)|]. rewrite flat_map_app. cbn [flat_map snd]. rewrite app_nil_r.
    rewrite (app_assoc (buffers (e_mat e))). apply Permutation_app_tail. apply Permutation_app_comm. }
  destruct (free_buffers_ok s (e_mat e) _ (ci_mem _ _ _ _ CI) HL) as (live & fr & Ef & M' & P'). rewrite Ef. cbn [bind].
  cbn [with_mem cs_map cs_live cs_trace cs_time cs_bytes].
  assert (PF : Permutation (filter (fun x => negb (key_eqb (fst x) k)) (cs_map s)) l).
  { eapply perm_trans; [apply perm_filter; apply (ci_perm _ _ _ _ CI)|]. rewrite filter_app. cbn [filter fst]. rewrite key_eqb_refl. cbn [negb].
    rewrite app_nil_r. rewrite filter_all; [apply Permutation_refl|]. intros y Hy.
    rewrite key_eqb_neq; [reflexivity|]. apply (key_neq_last l (k, e)); [apply (ci_keys _ _ _ _ CI)|exact Hy]. }
  eexists. split; [reflexivity|]. cbn [cs_bytes cs_time cs_map cs_trace]. split; [|split; [lia|split; [reflexivity|split; [|eauto]]]].
  - pose proof CI as CI0. destruct CI. constructor; cbn [cs_map cs_bytes cs_time cs_live cs_trace]; auto.
    + intros y Hy. apply ci_time0. apply in_app_iff. left. exact Hy.
    + rewrite map_app in ci_keys0. cbn [map] in ci_keys0. apply NoDup_remove_1 in ci_keys0. rewrite app_nil_r in ci_keys0. exact ci_keys0.
    + lia.
    + lia.
  - rewrite (Permutation_length PF), (Permutation_length (ci_perm _ _ _ _ CI)), app_length. cbn [length]. lia.
Qed.

(** The loop: keeps a prefix of the entries. *)
Lemma eject_until_ok : forall fuel s l tb ex n, CInv s l tb ex -> tb < 2 ^ 62 -> 0 <= n < 2 ^ 62 -> (length (cs_map s) <= fuel)%nat ->
  exists s' kept ejected, l = kept ++ ejected /\ eject_until_room_for iter max fuel n s = Ok s' /\ CInv s' kept tb ex /\
    cs_time s' = cs_time s /\ cs_bytes s' = cs_bytes s - fold_right (fun x t => full_size (e_mat (snd x)) + t) 0 ejected /\
    (cs_bytes s' + n <= max \/ kept = []) /\
    (forall x rest, ejected = x :: rest -> max < cs_bytes s' + full_size (e_mat (snd x)) + n) /\
    exists fr, cs_trace s' = cs_trace s ++ map SFree fr.
Proof using Hiter.
  induction fuel as [|fuel IH]; intros s l tb ex n CI Htb Hn Hf.
  all: pose proof (ci_low _ _ _ _ CI) as CL; pose proof (ci_high _ _ _ _ CI) as CH; pose proof (full_nonneg l (ci_sized _ _ _ _ CI)) as FN.
  all: cbn [eject_until_room_for].
  - destruct (cs_map s) as [|y m] eqn:Em; [|cbn [length] in Hf; lia].
    pose proof (ci_perm _ _ _ _ CI) as CP. rewrite Em in CP. apply Permutation_nil in CP. subst l.
    exists s, [], []. cbn [app fold_right]. split; [reflexivity|]. split; [reflexivity|]. split; [exact CI|]. split; [reflexivity|]. split; [lia|].
    split; [auto|]. split; [discriminate|]. exists []. cbn [map]. rewrite app_nil_r. reflexivity.
  - destruct (cs_map s) as [|y m] eqn:Em.
    { pose proof (ci_perm _ _ _ _ CI) as CP. rewrite Em in CP. apply Permutation_nil in CP. subst l.
      exists s, [], []. cbn [app fold_right]. split; [reflexivity|]. split; [reflexivity|]. split; [exact CI|]. split; [reflexivity|]. split; [lia|].
      split; [auto|]. split; [discriminate|]. exists []. cbn [map]. rewrite app_nil_r. reflexivity. }
    rewrite i64_ok by lia. cbn [bind]. destruct (Z.ltb_spec max (cs_bytes s + n)) as [Hlt|Hge].
    2:{ exists s, l, []. rewrite app_nil_r. cbn [fold_right]. split; [reflexivity|]. split; [reflexivity|]. split; [exact CI|]. split; [reflexivity|]. split; [lia|].
        split; [auto|]. split; [discriminate|]. exists []. cbn [map]. rewrite app_nil_r. reflexivity. }
    assert (NE : l <> []). { intros ->. pose proof (ci_perm _ _ _ _ CI) as CP. rewrite Em in CP. apply Permutation_sym, Permutation_nil in CP. discriminate. }
    destruct (exists_last NE) as (l' & x & ->).
    destruct (eject_one_ok s l' x tb ex CI Htb) as (s1 & E1 & CI1 & B1 & T1 & L1 & fr1 & R1). rewrite E1. cbn [bind].
    destruct (IH s1 l' tb ex n CI1 Htb Hn) as (s2 & kept & ejected & EL & E2 & CI2 & T2 & B2 & F2 & N2 & fr2 & R2).
    { rewrite Em in L1. cbn [length] in *. lia. }
    assert (EF : fold_right (fun x t => full_size (e_mat (snd x)) + t) 0 (ejected ++ [x]) =
                 fold_right (fun x t => full_size (e_mat (snd x)) + t) 0 ejected + full_size (e_mat (snd x))).
    { clear. induction ejected as [|y l IH]; cbn [app fold_right snd]; [lia|rewrite IH; lia]. }
    exists s2, kept, (ejected ++ [x]). split; [rewrite EL, app_assoc; reflexivity|]. split; [exact E2|]. split; [exact CI2|]. split; [congruence|].
    split; [rewrite EF; lia|]. split; [exact F2|]. split.
    + intros z rest Ez. destruct ejected as [|w ej]; cbn [app fold_right] in *.
      * injection Ez as <- _. lia.
      * injection Ez as <- _. eapply N2. reflexivity.
    + exists (fr1 ++ fr2). rewrite R2, R1, map_app, app_assoc. reflexivity.
Qed.

(** * Lookups *)

Lemma find_some_split : forall (l : list (key * entry)) k, In k (map fst l) -> NoDup (map fst l) ->
  exists l1 e l2, l = l1 ++ (k, e) :: l2 /\ (forall x, In x (l1 ++ l2) -> fst x <> k).
Proof.
  intros l k Hk ND. apply in_map_iff in Hk. destruct Hk as ([k' e] & Ek & Hin). cbn [fst] in Ek. subst k'.
  apply in_split in Hin. destruct Hin as (l1 & l2 & ->). exists l1, e, l2. split; [reflexivity|]. intros x Hx E.
  rewrite map_app in ND. cbn [map fst] in ND. apply NoDup_remove_2 in ND. apply ND. rewrite <- map_app, <- E. apply in_map. exact Hx.
Qed.

Lemma cs_find_none : forall k m, ~ In k (map fst m) -> cs_find k m = None.
Proof.
  intros k m H. unfold cs_find. destruct (find _ m) as [[k' e]|] eqn:E; [|reflexivity]. apply find_some in E. destruct E as [E1 E2]. cbn [fst] in E2.
  apply key_eqb_eq in E2. subst. exfalso. apply H. apply (in_map fst) in E1. exact E1.
Qed.

Lemma cs_find_some : forall k m l1 e l2, Permutation m (l1 ++ (k, e) :: l2) -> (forall x, In x (l1 ++ l2) -> fst x <> k) -> cs_find k m = Some e.
Proof.
  intros k m l1 e l2 HP HN. unfold cs_find. destruct (find _ m) as [[k' e']|] eqn:E.
  - apply find_some in E. destruct E as [E1 E2]. cbn [fst] in E2. apply key_eqb_eq in E2. subst. cbn [option_map snd]. f_equal.
    apply (Permutation_in _ HP) in E1. apply in_app_iff in E1. destruct E1 as [E1|[E1|E1]].
    + exfalso. apply (HN (k, e')); [apply in_app_iff; auto|reflexivity].
    + congruence.
    + exfalso. apply (HN (k, e')); [apply in_app_iff; auto|reflexivity].
  - assert (Hin : In (k, e) m) by (eapply Permutation_in; [apply Permutation_sym; exact HP|apply in_app_iff; right; left; reflexivity]).
    pose proof (find_none _ _ E _ Hin) as N. cbn [fst] in N. rewrite key_eqb_refl in N. discriminate.
Qed.

Lemma sorted_middle : forall (l1 l2 : list (key * entry)) x, StronglySorted (fun a b => e_time (snd b) < e_time (snd a)) (l1 ++ x :: l2) ->
  StronglySorted (fun a b => e_time (snd b) < e_time (snd a)) (l1 ++ l2).
Proof.
  induction l1 as [|y l1 IH]; intros l2 x H; cbn [app] in *.
  - inversion H; auto.
  - inversion H as [|? ? Hs Hf]; subst. constructor; [eapply IH; exact Hs|]. rewrite Forall_forall in *. intros z Hz. apply Hf.
    apply in_app_iff in Hz. apply in_app_iff. cbn [In]. tauto.
Qed.

Lemma sorted_prefix : forall (l1 l2 : list (key * entry)), StronglySorted (fun a b => e_time (snd b) < e_time (snd a)) (l1 ++ l2) ->
  StronglySorted (fun a b => e_time (snd b) < e_time (snd a)) l1.
Proof.
  induction l1 as [|y l1 IH]; intros l2 H; cbn [app] in *; [constructor|].
  inversion H as [|? ? Hs Hf]; subst. constructor; [eapply IH; exact Hs|]. rewrite Forall_forall in *. intros z Hz. apply Hf. apply in_app_iff. auto.
Qed.

Lemma fold_middle : forall (l1 l2 : list (key * entry)) x,
  fold_right (fun x t => full_size (e_mat (snd x)) + t) 0 (l1 ++ x :: l2) =
  full_size (e_mat (snd x)) + fold_right (fun x t => full_size (e_mat (snd x)) + t) 0 (l1 ++ l2).
Proof. induction l1 as [|y l1 IH]; intros l2 x; cbn [app fold_right]; [reflexivity|]. rewrite IH. lia. Qed.

(** What a lookup does. *)
Inductive get_spec (r : Z * pemat) (s : cst) (l : list (key * entry)) : action -> pemat -> cst -> list (key * entry) -> Prop :=
| GSHit : forall l1 e l2 s', l = l1 ++ (request_key r, e) :: l2 -> cs_bytes s' = cs_bytes s -> cs_live s' = cs_live s -> cs_trace s' = cs_trace s ->
    get_spec r s l GotExisting (e_mat e) s' ((request_key r, {| e_mat := e_mat e; e_time := cs_time s |}) :: l1 ++ l2)
| GSMiss : forall kept ejected d a n1 n2 fr s', l = kept ++ ejected -> ~ In (request_key r) (map fst l) ->
    cs_bytes s' = cs_bytes s - fold_right (fun x t => full_size (e_mat (snd x)) + t) 0 ejected + size_in_cache (snd r) ->
    (cs_bytes s' <= max \/ kept = []) ->
    (forall x rest, ejected = x :: rest -> max < cs_bytes s' + full_size (e_mat (snd x))) ->
    (pe_sums_float (snd r) = true -> a = 0) ->
    cs_trace s' = (cs_trace s ++ SAlloc false n1 d :: (if pe_sums_float (snd r) then [] else [SAlloc false n2 a])) ++ map SFree fr ->
    get_spec r s l InsertedNew (set_buffers (snd r) d a) s'
      ((request_key r, {| e_mat := set_buffers (snd r) d a; e_time := cs_time s |}) :: kept).

Lemma cache_get_ok : forall s l tb r, CInv s l tb [] -> valid_request r -> tb + full_size (snd r) < 2 ^ 62 ->
  exists a p s' l', cache_get sys iter max (fst r) (snd r) s = Ok (a, p, s') /\ CInv s' l' (tb + full_size (snd r)) [] /\ get_spec r s l a p s' l'.
Proof using Hiter Hsys.
  intros s l tb r CI VR Htb. destruct (request_sized r VR) as (SZ & S0 & HH).
  pose proof (size_in_cache_bounds _ SZ) as [SB1 SB2]. pose proof (ci_clock _ _ _ _ CI) as CC.
  assert (TB : tb < 2 ^ 62) by lia.
  assert (FZ : 2 <= full_size (snd r)) by (unfold full_size; pose proof (sz_data _ SZ); pose proof (sz_sums _ SZ); lia).
  assert (WR : wrap_u 64 (cs_time s + 1) = cs_time s + 1) by (unfold wrap_u; rewrite Z.mod_small; lia).
  unfold cache_get. change (key_of (fst r) (snd r)) with (request_key r).
  destruct (hash_ok (request_key r)) as [h Eh]; [exact HH|]. rewrite Eh. cbn [bind].
  assert (Dec : In (request_key r) (map fst l) \/ ~ In (request_key r) (map fst l)).
  { destruct (existsb (key_eqb (request_key r)) (map fst l)) eqn:Ex.
    - left. apply existsb_exists in Ex. destruct Ex as (k & Hk & Ek). apply key_eqb_eq in Ek. subst k. exact Hk.
    - right. intros Hin. assert (existsb (key_eqb (request_key r)) (map fst l) = true) by (apply existsb_exists; exists (request_key r); split; [exact Hin|apply key_eqb_refl]).
      congruence. }
  destruct Dec as [Hin|Hout].
  - destruct (find_some_split l _ Hin (ci_keys _ _ _ _ CI)) as (l1 & e & l2 & -> & HN).
    rewrite (cs_find_some _ _ l1 e l2 (ci_perm _ _ _ _ CI) HN).
    eexists GotExisting, _, _, _. split; [reflexivity|]. split; [|apply (GSHit r s _ l1 e l2); reflexivity].
    set (f := fun x : key * entry => if key_eqb (fst x) (request_key r) then (fst x, {| e_mat := e_mat (snd x); e_time := cs_time s |}) else x).
    assert (FI : forall q, (forall x, In x q -> fst x <> request_key r) -> map f q = q).
    { induction q as [|y q IHq]; intros H; cbn [map]; [reflexivity|]. rewrite IHq by (intros z Hz; apply H; right; exact Hz). f_equal. unfold f.
      rewrite key_eqb_neq; [reflexivity|]. apply H. left. reflexivity. }
    assert (FE : map f (l1 ++ (request_key r, e) :: l2) = l1 ++ (request_key r, {| e_mat := e_mat e; e_time := cs_time s |}) :: l2).
    { rewrite map_app. cbn [map]. rewrite FI by (intros x Hx; apply HN; apply in_app_iff; auto). rewrite (FI l2) by (intros x Hx; apply HN; apply in_app_iff; auto).
      do 2 f_equal. unfold f. cbn [fst snd]. rewrite key_eqb_refl. reflexivity. }
    pose proof (Permutation_map f (ci_perm _ _ _ _ CI)) as PM. rewrite FE in PM.
    pose proof (ci_low _ _ _ _ CI) as CL. rewrite fold_middle in CL. cbn [snd] in CL.
    destruct CI. constructor; cbn [cs_map cs_bytes cs_time cs_live cs_trace].
    + eapply perm_trans; [exact PM|]. apply Permutation_sym, Permutation_middle.
    + constructor; [eapply sorted_middle; exact ci_sorted0|]. rewrite Forall_forall. intros x Hx. cbn [snd e_time].
      apply ci_time0. apply in_app_iff in Hx. apply in_app_iff. cbn [In]. tauto.
    + rewrite WR. intros x [<- | Hx]; [cbn [snd e_time]; lia|]. assert (In x (l1 ++ (request_key r, e) :: l2)) by (apply in_app_iff in Hx; apply in_app_iff; cbn [In]; tauto).
      specialize (ci_time0 x H). lia.
    + rewrite WR. lia.
    + eapply Permutation_NoDup; [|exact ci_keys0]. rewrite !map_app. cbn [map fst]. rewrite map_app. apply Permutation_sym, Permutation_middle.
    + intros x [<- | Hx]; [cbn [snd e_mat]; apply (ci_sized0 (request_key r, e)); apply in_app_iff; right; left; reflexivity|].
      apply ci_sized0. apply in_app_iff in Hx. apply in_app_iff. cbn [In]. tauto.
    + exact ci_mem0.
    + eapply perm_trans; [exact ci_live0|]. apply Permutation_app_tail. cbn [flat_map snd e_mat]. rewrite !flat_map_app. cbn [flat_map snd].
      rewrite !app_assoc. apply Permutation_app_tail. apply Permutation_app_comm.
    + cbn [fold_right snd e_mat]. lia.
    + lia.
  - rewrite cs_find_none.
    2:{ intros Hm. apply Hout. eapply Permutation_in; [apply Permutation_map; apply (ci_perm _ _ _ _ CI)|exact Hm]. }
    destruct (allocate_buffers_ok s l tb (snd r) CI SZ S0) as (d & a & live & trace & EA & CI1 & FA & n1 & n2 & TR). rewrite EA. cbn [bind].
    set (p := set_buffers (snd r) d a) in *.
    destruct (eject_until_ok (length (cs_map s)) (with_mem s live trace) l tb (buffers p) (size_in_cache (snd r)) CI1 TB ltac:(lia) (le_n _))
      as (s2 & kept & ejected & EL & E2 & CI2 & T2 & B2 & F2 & N2 & fr & R2).
    cbn [with_mem cs_map] in *. rewrite E2. cbn [bind].
    assert (SK : forall x, In x kept -> sized (e_mat (snd x))) by (apply (ci_sized _ _ _ _ CI2)).
    pose proof (full_nonneg kept SK) as FK. pose proof (ci_low _ _ _ _ CI2) as CL2. pose proof (ci_high _ _ _ _ CI2) as CH2.
    rewrite i64_ok by (unfold int_max in *; lia). cbn [bind]. cbn [with_mem cs_time cs_bytes cs_trace] in T2, B2, R2. rewrite T2, WR.
    eexists InsertedNew, _, _, _. split; [reflexivity|]. split.
    2:{ unfold p. eapply (GSMiss r s l kept ejected d a n1 n2 fr); cbn [cs_bytes cs_trace]; auto.
        - rewrite B2. reflexivity.
        - intros x rest Ex. specialize (N2 x rest Ex). lia.
        - rewrite R2, TR. reflexivity. }
    assert (SP : sized p) by (destruct SZ; constructor; assumption).
    destruct CI2. constructor; cbn [cs_map cs_bytes cs_time cs_live cs_trace].
    + apply perm_skip. exact ci_perm0.
    + constructor; [exact ci_sorted0|]. rewrite Forall_forall. intros x Hx. cbn [snd e_time]. rewrite <- T2. apply ci_time0. exact Hx.
    + intros x [<- | Hx]; [cbn [snd e_time]; lia|]. specialize (ci_time0 x Hx). lia.
    + lia.
    + cbn [map fst]. constructor; [|exact ci_keys0]. intros Hk. apply Hout. rewrite EL, map_app. apply in_app_iff. left. exact Hk.
    + intros x [<- | Hx]; [exact SP|auto].
    + exact ci_mem0.
    + eapply perm_trans; [exact ci_live0|]. cbn [flat_map snd e_mat]. rewrite app_nil_r. apply Permutation_app_comm.
    + cbn [fold_right snd e_mat]. change (full_size (set_buffers (snd r) d a)) with (full_size (snd r)). lia.
    + lia.
Qed.

(** Destruction. *)
Lemma free_entries_ok : forall l s, Mem (cs_live s) (cs_trace s) -> Permutation (cs_live s) (flat_map (fun x => buffers (e_mat (snd x))) l) ->
  exists live fr, free_entries l s = Ok (with_mem s live (cs_trace s ++ map SFree fr)) /\ Mem live (cs_trace s ++ map SFree fr) /\ live = [].
Proof.
  induction l as [|x l IH]; intros s M P; cbn [free_entries flat_map] in *.
  - apply Permutation_sym, Permutation_nil in P. exists [], []. cbn [map]. rewrite app_nil_r. rewrite P in M. split; [|auto]. destruct s. cbn in *. subst. reflexivity.
  - destruct (free_buffers_ok s (e_mat (snd x)) _ M P) as (live & fr & E & M' & P'). rewrite E. cbn [bind].
    destruct (IH (with_mem s live (cs_trace s ++ map SFree fr)) M' P') as (live2 & fr2 & E2 & M2 & L2). rewrite E2.
    exists live2, (fr ++ fr2). cbn [with_mem cs_trace] in *. rewrite map_app, app_assoc. auto.
Qed.

Lemma destroy_ok : forall s l tb, CInv s l tb [] -> exists s', cache_destroy iter s = Ok s' /\ cs_live s' = [] /\ accounted (cs_trace s') [].
Proof using Hiter.
  intros s l tb CI. unfold cache_destroy.
  assert (P : Permutation (cs_live s) (flat_map (fun x => buffers (e_mat (snd x))) (iter (cs_trace s) (cs_map s)))).
  { eapply perm_trans; [apply (ci_live _ _ _ _ CI)|]. rewrite app_nil_r. apply Permutation_sym. apply Permutation_flat_map.
    eapply perm_trans; [apply Hiter|apply (ci_perm _ _ _ _ CI)]. }
  destruct (free_entries_ok _ s (ci_mem _ _ _ _ CI) P) as (live & fr & E & M & L). rewrite E. cbn [bind]. eexists. split; [reflexivity|].
  cbn [with_mem cs_live cs_trace]. split; [exact L|]. rewrite L in M. apply (me_acc _ _ M).
Qed.
End Sys.
