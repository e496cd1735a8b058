(** Invariant of the allocator and what its operations do. *)
From Verif Require Import Base SizeUtil SizeUtilFacts Allocator SpecAlloc.
From Coq Require Import Permutation.

Definition sum_sizes (l : list (Z * Z)) : Z := fold_right (fun b t => snd b + t) 0 l.

Lemma disjoint_sym : forall a b, disjoint a b -> disjoint b a.
Proof. unfold disjoint. tauto. Qed.

Lemma sum_sizes_app : forall a b, sum_sizes (a ++ b) = sum_sizes a + sum_sizes b.
Proof. induction a as [|x a IH]; intros; [reflexivity|]; cbn [app sum_sizes fold_right]. fold (sum_sizes (a ++ b)). fold (sum_sizes a). rewrite IH. lia. Qed.

(** Disjoint blocks below a bound are together not larger than the bound. *)
Lemma sum_sizes_bound : forall B l, 0 <= B -> (forall b, In b l -> 0 <= fst b /\ 0 <= snd b /\ fst b + snd b <= B) ->
  ForallOrdPairs disjoint l -> sum_sizes l <= B.
Proof.
  intros B l HB Hin Hd.
  set (bytes := fun b : Z * Z => zrange (fst b) (fst b + snd b)).
  assert (HN : NoDup (concat (map bytes l))).
  { clear HB. induction l as [|b l IH]; cbn [map concat]; [constructor|].
    inversion Hd as [|? ? Hb Hl]; subst.
    specialize (IH (fun b Hb => Hin b (or_intror Hb)) Hl).
    assert (HD : forall i, In i (bytes b) -> ~ In i (concat (map bytes l))).
    { intros i Hi Hc. apply in_concat in Hc. destruct Hc as [x [Hx Hix]]. apply in_map_iff in Hx. destruct Hx as [c [<- Hc]].
      rewrite Forall_forall in Hb. specialize (Hb c Hc). unfold bytes in *. rewrite zrange_In in Hi, Hix. unfold disjoint in Hb. lia. }
    clear - IH HD. assert (Hb : NoDup (bytes b)) by apply zrange_NoDup.
    induction Hb as [|x xs Hx Hxs IHx]; cbn [app]; auto.
    constructor.
    - rewrite in_app_iff. intros [A|A]; [auto|]. apply (HD x); [left; auto|exact A].
    - apply IHx. intros i Hi. apply HD. right. exact Hi. }
  assert (HI : incl (concat (map bytes l)) (zrange 0 B)).
  { intros i Hi. apply in_concat in Hi. destruct Hi as [x [Hx Hix]]. apply in_map_iff in Hx. destruct Hx as [c [<- Hc]].
    specialize (Hin c Hc). unfold bytes in Hix. rewrite zrange_In in *. lia. }
  pose proof (NoDup_incl_length HN HI) as HL.
  assert (HS : Z.of_nat (length (concat (map bytes l))) = sum_sizes l).
  { clear - Hin. induction l as [|b l IH]; cbn [map concat sum_sizes fold_right]; [reflexivity|].
    fold (sum_sizes l). rewrite app_length, Nat2Z.inj_add, IH by (intros c Hc; apply Hin; right; exact Hc).
    specialize (Hin b (or_introl eq_refl)). unfold bytes, zrange. rewrite zseq_length. lia. }
  assert (HZ : Z.of_nat (length (zrange 0 B)) = B) by (unfold zrange; rewrite zseq_length; lia).
  lia.
Qed.

Lemma FOP_snoc : forall {A} (R : A -> A -> Prop) l x, ForallOrdPairs R l -> (forall y, In y l -> R y x) -> ForallOrdPairs R (l ++ [x]).
Proof.
  induction l as [|a l IH]; intros x H Hx; cbn [app]; [repeat constructor|].
  inversion H as [|? ? Ha Hl]; subst. constructor.
  - rewrite Forall_forall in *. intros y Hy. apply in_app_iff in Hy. destruct Hy as [Hy|[<- | []]]; [auto|]. apply Hx. left. reflexivity.
  - apply IH; auto. intros y Hy. apply Hx. right. exact Hy.
Qed.

Lemma FOP_in : forall l a b, ForallOrdPairs disjoint l -> In a l -> In b l -> a = b \/ disjoint a b.
Proof.
  intros l a b H Ha Hb. destruct (ForallOrdPairs_In H a b Ha Hb) as [E|[E|E]]; auto. right. apply disjoint_sym. exact E.
Qed.

(** Counts of the trace against the live blocks. *)
Definition is_live (p : Z) (live : list (Z * Z)) : nat := if existsb (fun b => fst b =? p) live then 1 else 0.
Definition accounted (trace : list sys_event) (live : list (Z * Z)) : Prop :=
  forall p, p <> 0 ->
    (times_given p trace = times_freed p trace + is_live p live)%nat /\
    forall t1 t2, trace = t1 ++ t2 -> (times_freed p t1 <= times_given p t1 <= times_freed p t1 + 1)%nat.

Lemma times_given_app : forall p a b, times_given p (a ++ b) = (times_given p a + times_given p b)%nat.
Proof. intros. unfold times_given. rewrite filter_app, app_length. reflexivity. Qed.
Lemma times_freed_app : forall p a b, times_freed p (a ++ b) = (times_freed p a + times_freed p b)%nat.
Proof. intros. unfold times_freed. rewrite filter_app, app_length. reflexivity. Qed.

Lemma is_live_bound : forall p l, (is_live p l <= 1)%nat.
Proof. intros. unfold is_live. destruct existsb; lia. Qed.

Lemma snoc_prefix : forall {A} (t : list A) e t1 t2, t ++ [e] = t1 ++ t2 -> (t1 = t ++ [e]) \/ exists t3, t = t1 ++ t3.
Proof.
  intros A t e t1 t2 H. destruct (rev t2) as [|x r] eqn:Er.
  - assert (t2 = []) by (rewrite <- (rev_involutive t2), Er; reflexivity). subst. rewrite app_nil_r in H. auto.
  - assert (E : t2 = rev r ++ [x]) by (rewrite <- (rev_involutive t2), Er; reflexivity). subst.
    rewrite app_assoc in H. apply app_inj_tail in H. destruct H as [H _]. right. exists (rev r). exact H.
Qed.

Lemma accounted_step : forall trace live e live',
  accounted trace live ->
  (forall p, p <> 0 -> (times_given p [e] + is_live p live = times_freed p [e] + is_live p live')%nat) ->
  accounted (trace ++ [e]) live'.
Proof.
  intros trace live e live' H He p Hp. destruct (H p Hp) as [H1 H2]. specialize (He p Hp).
  assert (E : (times_given p (trace ++ [e]) = times_freed p (trace ++ [e]) + is_live p live')%nat)
    by (rewrite times_given_app, times_freed_app; lia).
  split; [exact E|]. intros t1 t2 Ht. destruct (snoc_prefix _ _ _ _ Ht) as [-> | [t3 Et]].
  - pose proof (is_live_bound p live'). lia.
  - eapply H2. exact Et.
Qed.

(** The invariant. [fbs]: the fallback blocks with their sizes. *)
Definition main_block (s : ast) : list (Z * Z) := if a_size s =? 0 then [] else [(a_ptr s, a_size s)].

Record Inv (s : ast) (fbs bs : list (Z * Z)) : Prop := {
  i_live : a_live s = main_block s ++ fbs;
  i_fb : map fst fbs = a_fallback s;
  i_total : sum_sizes fbs = a_fb_total s;
  i_null : a_size s = 0 -> a_ptr s = 0;
  i_cur : 0 <= a_current s <= a_size s;
  i_cur64 : (64 | a_current s);
  i_blocks : forall b, In b (a_live s) -> 0 < fst b /\ (64 | fst b) /\ 0 < snd b /\ fst b + snd b <= 2 ^ 62;
  i_disj : ForallOrdPairs disjoint (a_live s);
  i_acc : accounted (a_trace s) (a_live s);
  i_out : forall b, In b bs -> 0 < fst b /\ (64 | fst b) /\ 0 < snd b /\
    ((0 < a_size s /\ inside b (a_ptr s, a_current s)) \/ exists l, In l fbs /\ inside b l);
  i_out_disj : ForallOrdPairs disjoint bs }.

Lemma init_inv : Inv a_init [] [].
Proof.
  constructor; cbn; auto; try lia; try tauto; try (exists 0; reflexivity); try constructor.
  - reflexivity.
  - intros t1 t2 Ht. symmetry in Ht. apply app_eq_nil in Ht. destruct Ht as [-> _]. cbn. lia.
Qed.

Lemma inv_usable : forall s fbs bs, Inv s fbs bs -> usable (a_live s) bs.
Proof.
  intros s fbs bs HI. split; [|exact (i_out_disj _ _ _ HI)].
  intros b Hb. destruct (i_out _ _ _ HI b Hb) as [H1 [H2 [H3 H4]]]. split; [exact H1|]. split; [exact H2|].
  rewrite (i_live _ _ _ HI). destruct H4 as [[Hs [Ha Hc]]|[l [Hl Hi]]].
  - exists (a_ptr s, a_size s). split.
    + apply in_app_iff. left. unfold main_block. replace (a_size s =? 0) with false by lia. left. reflexivity.
    + pose proof (i_cur _ _ _ HI). unfold inside in *. cbn [fst snd] in *. lia.
  - exists l. split; [apply in_app_iff; right; exact Hl|exact Hi].
Qed.

Lemma inv_sum : forall s fbs bs, Inv s fbs bs -> a_size s + a_fb_total s <= 2 ^ 62.
Proof.
  intros s fbs bs HI. rewrite <- (i_total _ _ _ HI).
  assert (E : sum_sizes (a_live s) = a_size s + sum_sizes fbs).
  { rewrite (i_live _ _ _ HI), sum_sizes_app. unfold main_block. destruct (Z.eqb_spec (a_size s) 0); cbn [sum_sizes fold_right snd]; lia. }
  rewrite <- E. apply sum_sizes_bound; [lia| |exact (i_disj _ _ _ HI)].
  intros b Hb. destruct (i_blocks _ _ _ HI b Hb) as [? [? [? ?]]]. lia.
Qed.

Lemma sum_sizes_nonneg : forall l, (forall b, In b l -> 0 <= snd b) -> 0 <= sum_sizes l.
Proof.
  induction l as [|b l IH]; intros H; cbn [sum_sizes fold_right]; [lia|]. fold (sum_sizes l).
  pose proof (H b (or_introl eq_refl)). assert (0 <= sum_sizes l) by (apply IH; intros c Hc; apply H; right; exact Hc). lia.
Qed.

Lemma inv_total_nonneg : forall s fbs bs, Inv s fbs bs -> 0 <= a_fb_total s.
Proof.
  intros s fbs bs HI. rewrite <- (i_total _ _ _ HI). apply sum_sizes_nonneg. intros b Hb.
  assert (Hl : In b (a_live s)) by (rewrite (i_live _ _ _ HI); apply in_app_iff; auto).
  destruct (i_blocks _ _ _ HI b Hl) as [? [? [? ?]]]. lia.
Qed.

Lemma i64_ok : forall z, - 2 ^ 63 <= z < 2 ^ 63 -> i64 z = Ok z.
Proof. intros z H. unfold i64. replace (in_i64 z) with true; [reflexivity|]. unfold in_i64. lia. Qed.

Lemma rounded_bounds : forall n, n <= rounded n < n + 64.
Proof. intros n. unfold rounded. pose proof (Z.div_mod (n + 63) 64 ltac:(lia)). pose proof (Z.mod_pos_bound (n + 63) 64 ltac:(lia)). lia. Qed.
Lemma rounded_64 : forall n, (64 | rounded n).
Proof. intros n. exists ((n + 63) / 64). unfold rounded. lia. Qed.

(** The fast path. *)
Lemma allocate_fast_ok : forall s fbs bs n, Inv s fbs bs -> 0 < n <= 2 ^ 61 + 2048 ->
  allocate_fast n s =
  if a_size s <? a_current s + n then Ok (0, s)
  else Ok (a_ptr s + a_current s,
           {| a_ptr := a_ptr s; a_current := a_current s + n; a_size := a_size s; a_fallback := a_fallback s; a_fb_total := a_fb_total s;
              a_live := a_live s; a_trace := a_trace s |}).
Proof.
  intros s fbs bs n HI Hn. unfold allocate_fast. pose proof (i_cur _ _ _ HI). pose proof (inv_sum _ _ _ HI). pose proof (inv_total_nonneg _ _ _ HI).
  rewrite i64_ok by lia. reflexivity.
Qed.

Lemma inside_main_or_fb_live : forall s fbs bs b, Inv s fbs bs -> In b bs -> exists l, In l (a_live s) /\ inside b l.
Proof. intros s fbs bs b HI Hb. destruct (inv_usable _ _ _ HI) as [H _]. destruct (H b Hb) as [_ [_ H']]. exact H'. Qed.

Lemma disjoint_inside : forall a b c d, disjoint a b -> inside c a -> inside d b -> 0 <= snd c -> 0 <= snd d -> disjoint c d.
Proof. unfold disjoint, inside. intros. lia. Qed.

Section Sys.
Variable sys : list sys_event -> list (Z * Z) -> Z -> Z.
Hypothesis Hsys : good_system sys.

(** What a state looks like after AllocateBytes has given the block [(p, k)]. *)
Lemma fast_inv : forall s fbs bs k p m, Inv s fbs bs -> 0 < k -> (64 | k) -> a_current s + k <= a_size s ->
  0 < m -> (64 | p) -> inside (p, m) (a_ptr s + a_current s, k) ->
  Inv {| a_ptr := a_ptr s; a_current := a_current s + k; a_size := a_size s; a_fallback := a_fallback s; a_fb_total := a_fb_total s;
         a_live := a_live s; a_trace := a_trace s |} fbs ((p, m) :: bs).
Proof.
  intros s fbs bs k p m HI Hk H64 Hfit Hm Hp [Hin1 Hin2]. cbn [fst snd] in *.
  pose proof (i_cur _ _ _ HI) as Hc.
  assert (Hml : In (a_ptr s, a_size s) (a_live s)).
  { rewrite (i_live _ _ _ HI). apply in_app_iff. left. unfold main_block. replace (a_size s =? 0) with false by lia. left. reflexivity. }
  destruct (i_blocks _ _ _ HI _ Hml) as [M1 [M2 [M3 M4]]]. cbn [fst snd] in *.
  constructor; cbn [a_ptr a_current a_size a_fallback a_fb_total a_live a_trace].
  - exact (i_live _ _ _ HI).
  - exact (i_fb _ _ _ HI).
  - exact (i_total _ _ _ HI).
  - exact (i_null _ _ _ HI).
  - lia.
  - apply Z.divide_add_r; [exact (i_cur64 _ _ _ HI)|exact H64].
  - exact (i_blocks _ _ _ HI).
  - exact (i_disj _ _ _ HI).
  - exact (i_acc _ _ _ HI).
  - intros b [<- | Hb]; cbn [fst snd].
    + split; [lia|]. split; [exact Hp|]. split; [lia|]. left. split; [lia|]. unfold inside. cbn [fst snd]. lia.
    + destruct (i_out _ _ _ HI b Hb) as [B1 [B2 [B3 [[B4 B5]|B4]]]]; (split; [exact B1|]; split; [exact B2|]; split; [exact B3|]).
      * left. split; [exact B4|]. unfold inside in *. cbn [fst snd] in *. lia.
      * right. exact B4.
  - constructor; [|exact (i_out_disj _ _ _ HI)]. apply Forall_forall. intros b Hb.
    destruct (i_out _ _ _ HI b Hb) as [B1 [B2 [B3 [[B4 [B5 B6]]|[l [Hl Hi]]]]]].
    + unfold disjoint, inside in *. cbn [fst snd] in *. lia.
    + assert (Hd : disjoint (a_ptr s, a_size s) l).
      { pose proof (i_disj _ _ _ HI) as HD. rewrite (i_live _ _ _ HI) in HD. unfold main_block in HD. replace (a_size s =? 0) with false in HD by lia.
        cbn [app] in HD. inversion HD as [|? ? HF _]; subst. rewrite Forall_forall in HF. apply HF. exact Hl. }
      apply (disjoint_inside (a_ptr s, a_size s) l); auto; cbn [snd]; try lia. unfold inside. cbn [fst snd]. lia.
Qed.

Definition slow_state (s : ast) (k p t : Z) : ast :=
  {| a_ptr := a_ptr s; a_current := a_current s; a_size := a_size s; a_fallback := a_fallback s ++ [p]; a_fb_total := t;
     a_live := a_live s ++ [(p, k)]; a_trace := a_trace s ++ [SAlloc false k p] |}.

Lemma fresh_not_live : forall s fbs bs k p, Inv s fbs bs -> 0 < k -> (forall b, In b (a_live s) -> disjoint (p, k) b) ->
  existsb (fun b => fst b =? p) (a_live s) = false.
Proof.
  intros s fbs bs k p HI Hk Hd. destruct (existsb _ _) eqn:E; [|reflexivity].
  apply existsb_exists in E. destruct E as [b [Hb E]]. specialize (Hd b Hb). destruct (i_blocks _ _ _ HI b Hb) as [_ [_ [B _]]].
  unfold disjoint in Hd. cbn [fst snd] in Hd. lia.
Qed.

Lemma given_one : forall g n p q, times_given q [SAlloc g n p] = if p =? q then 1%nat else 0%nat.
Proof. intros. unfold times_given. cbn [filter]. destruct (p =? q); reflexivity. Qed.
Lemma freed_alloc : forall g n p q, times_freed q [SAlloc g n p] = 0%nat.
Proof. reflexivity. Qed.
Lemma given_free : forall p q, times_given q [SFree p] = 0%nat.
Proof. reflexivity. Qed.
Lemma freed_one : forall p q, times_freed q [SFree p] = if p =? q then 1%nat else 0%nat.
Proof. intros. unfold times_freed. cbn [filter]. destruct (p =? q); reflexivity. Qed.

Lemma is_live_app : forall p l a n, is_live p l = 0%nat \/ a <> p -> is_live p (l ++ [(a, n)]) = (is_live p l + if (a =? p)%Z then 1 else 0)%nat.
Proof.
  intros p l a n H. unfold is_live in *. rewrite existsb_app. cbn [existsb fst]. rewrite orb_false_r.
  destruct (existsb (fun b => fst b =? p) l); destruct (Z.eqb_spec a p); cbn [orb] in *; try lia.
Qed.

Lemma alloc_accounted : forall s fbs bs g k p, Inv s fbs bs -> 0 < k -> (forall b, In b (a_live s) -> disjoint (p, k) b) ->
  accounted (a_trace s ++ [SAlloc g k p]) (a_live s ++ [(p, k)]).
Proof.
  intros s fbs bs g k p HI Hk Hd. apply (accounted_step _ (a_live s)); [exact (i_acc _ _ _ HI)|].
  intros q Hq. rewrite given_one, freed_alloc. rewrite is_live_app.
  - lia.
  - destruct (Z.eq_dec p q) as [<- | N]; [left|right; exact N]. unfold is_live. rewrite (fresh_not_live s fbs bs k p) by auto. reflexivity.
Qed.

Lemma slow_inv : forall s fbs bs k p q m, Inv s fbs bs -> 0 < k -> (64 | k) ->
  p <> 0 -> p = sys (a_trace s) (a_live s) k ->
  0 < m -> (64 | q) -> inside (q, m) (p, k) ->
  Inv (slow_state s k p (a_fb_total s + k)) (fbs ++ [(p, k)]) ((q, m) :: bs).
Proof.
  intros s fbs bs k p q m HI Hk H64 Hp Ep Hm Hq [Hin1 Hin2]. cbn [fst snd] in *.
  assert (Hne : sys (a_trace s) (a_live s) k <> 0) by congruence.
  destruct (Hsys _ _ _ Hne) as [S1 [S2 [S3 S4]]]. rewrite <- Ep in *.
  unfold slow_state. constructor; cbn [a_ptr a_current a_size a_fallback a_fb_total a_live a_trace].
  - rewrite (i_live _ _ _ HI), <- app_assoc. reflexivity.
  - rewrite map_app, (i_fb _ _ _ HI). reflexivity.
  - rewrite sum_sizes_app, (i_total _ _ _ HI). cbn [sum_sizes fold_right snd]. lia.
  - exact (i_null _ _ _ HI).
  - exact (i_cur _ _ _ HI).
  - exact (i_cur64 _ _ _ HI).
  - intros b Hb. apply in_app_iff in Hb. destruct Hb as [Hb|[<- | []]]; [apply (i_blocks _ _ _ HI); exact Hb|].
    cbn [fst snd]. auto.
  - apply FOP_snoc; [exact (i_disj _ _ _ HI)|]. intros b Hb. apply disjoint_sym. apply S4. exact Hb.
  - apply (alloc_accounted s fbs bs); auto.
  - intros b [<- | Hb]; cbn [fst snd].
    + split; [lia|]. split; [exact Hq|]. split; [lia|]. right. exists (p, k). split; [apply in_app_iff; right; left; reflexivity|].
      unfold inside. cbn [fst snd]. lia.
    + destruct (i_out _ _ _ HI b Hb) as [B1 [B2 [B3 [B4|[l [Hl Hi]]]]]]; (split; [exact B1|]; split; [exact B2|]; split; [exact B3|]).
      * left. exact B4.
      * right. exists l. split; [apply in_app_iff; left; exact Hl|exact Hi].
  - constructor; [|exact (i_out_disj _ _ _ HI)]. apply Forall_forall. intros b Hb.
    destruct (inside_main_or_fb_live _ _ _ _ HI Hb) as [l [Hl Hi]]. destruct (i_out _ _ _ HI b Hb) as [_ [_ [B3 _]]].
    apply (disjoint_inside (p, k) l); auto; cbn [snd]; try lia. unfold inside. cbn [fst snd]. lia.
Qed.

Definition failed_state (s : ast) (k : Z) : ast :=
  {| a_ptr := a_ptr s; a_current := a_current s; a_size := a_size s; a_fallback := a_fallback s; a_fb_total := a_fb_total s;
     a_live := a_live s; a_trace := a_trace s ++ [SAlloc false k 0] |}.

Lemma failed_inv : forall s fbs bs k, Inv s fbs bs -> Inv (failed_state s k) fbs bs.
Proof.
  intros s fbs bs k HI. destruct HI. unfold failed_state. constructor; cbn [a_ptr a_current a_size a_fallback a_fb_total a_live a_trace]; auto.
  apply (accounted_step _ (a_live s)); auto. intros p Hp. rewrite given_one, freed_alloc. replace (0 =? p) with false by lia. lia.
Qed.

(** AllocateBytes: from the buffer, from the system, or null. *)
Inductive alloc_spec (s : ast) (k : Z) : res (Z * ast) -> Prop :=
| AFast : a_current s + k <= a_size s -> 0 < a_ptr s + a_current s ->
    alloc_spec s k (Ok (a_ptr s + a_current s,
      {| a_ptr := a_ptr s; a_current := a_current s + k; a_size := a_size s; a_fallback := a_fallback s; a_fb_total := a_fb_total s;
         a_live := a_live s; a_trace := a_trace s |}))
| ASlow p : a_size s < a_current s + k -> p = sys (a_trace s) (a_live s) k -> p <> 0 ->
    alloc_spec s k (Ok (p, slow_state s k p (a_fb_total s + k)))
| AFail : a_size s < a_current s + k -> sys (a_trace s) (a_live s) k = 0 -> alloc_spec s k (Ok (0, failed_state s k)).

Lemma inv_ptr : forall s fbs bs, Inv s fbs bs -> 0 < a_size s -> 0 < a_ptr s /\ (64 | a_ptr s).
Proof.
  intros s fbs bs HI Hs.
  assert (Hml : In (a_ptr s, a_size s) (a_live s)).
  { rewrite (i_live _ _ _ HI). apply in_app_iff. left. unfold main_block. replace (a_size s =? 0) with false by lia. left. reflexivity. }
  destruct (i_blocks _ _ _ HI _ Hml) as [M1 [M2 _]]. cbn [fst] in *. auto.
Qed.

Lemma allocate_bytes_spec : forall dbg s fbs bs n, Inv s fbs bs -> 0 < n <= 2 ^ 61 + 1024 ->
  alloc_spec s (rounded n) (allocate_bytes sys dbg n s).
Proof.
  intros dbg s fbs bs n HI Hn. unfold allocate_bytes. replace (n =? 0) with false by lia.
  pose proof (rounded_bounds n) as HR. pose proof (rounded_64 n) as H64.
  assert (ER : round_up_pot dbg 64 n min_block_alignment = Ok (rounded n)).
  { change min_block_alignment with (2 ^ 6). rewrite round_up_pot_ok by (try (unfold smax; change (2 ^ (64 - 1)) with (2 ^ 63)); lia).
    unfold rounded. change (2 ^ 6) with 64. f_equal. replace (n + 64 - 1) with (n + 63) by lia. lia. }
  rewrite ER. cbn [bind]. rewrite (allocate_fast_ok s fbs bs) by (auto; lia).
  pose proof (i_cur _ _ _ HI) as Hc.
  destruct (Z.ltb_spec (a_size s) (a_current s + rounded n)) as [Hl|Hl]; cbn [bind].
  - replace (0 =? 0) with true by reflexivity. unfold allocate_slow, sys_alloc.
    set (p := sys (a_trace s) (a_live s) (rounded n)). cbn [a_ptr a_current a_size a_fallback a_fb_total a_live a_trace].
    destruct (Z.eqb_spec p 0) as [Ep|Np].
    + rewrite Ep. apply AFail; auto.
    + assert (Hne : sys (a_trace s) (a_live s) (rounded n) <> 0) by exact Np.
      destruct (Hsys _ _ _ Hne) as [S1 [S2 [S3 S4]]]. fold p in S1, S2, S3, S4.
      pose proof (inv_sum _ _ _ HI). pose proof (inv_total_nonneg _ _ _ HI).
      rewrite i64_ok by lia. cbn [bind]. apply ASlow; auto.
  - assert (0 < a_size s) by lia. destruct (inv_ptr _ _ _ HI) as [P1 _]; [lia|].
    replace (a_ptr s + a_current s =? 0) with false by lia. apply AFast; lia.
Qed.

(** The blocks a use [(q, m)] of the allocated [(p, k)] leaves. *)
Lemma alloc_spec_inv : forall s fbs bs k r, Inv s fbs bs -> 0 < k -> (64 | k) -> alloc_spec s k r ->
  exists p s', r = Ok (p, s') /\
    ((p = 0 /\ s' = failed_state s k /\ Inv s' fbs bs) \/
     (0 < p /\ (64 | p) /\ forall q m, 0 < m -> (64 | q) -> inside (q, m) (p, k) -> exists fbs', Inv s' fbs' ((q, m) :: bs))).
Proof.
  intros s fbs bs k r HI Hk H64 H. destruct H as [Hfit Hpos|p Hover Ep Hp|Hover E0].
  - eexists _, _. split; [reflexivity|]. right. split; [exact Hpos|]. split.
    + pose proof (i_cur _ _ _ HI). destruct (inv_ptr _ _ _ HI) as [_ P2]; [lia|]. apply Z.divide_add_r; [exact P2|exact (i_cur64 _ _ _ HI)].
    + intros q m Hm Hq Hin. exists fbs. apply fast_inv; auto.
  - eexists _, _. split; [reflexivity|]. right.
    assert (Hne : sys (a_trace s) (a_live s) k <> 0) by congruence.
    destruct (Hsys _ _ _ Hne) as [S1 [S2 _]]. rewrite <- Ep in *. split; [exact S1|]. split; [exact S2|].
    intros q m Hm Hq Hin. exists (fbs ++ [(p, k)]). apply slow_inv; auto.
  - eexists _, _. split; [reflexivity|]. left. split; [reflexivity|]. split; [reflexivity|]. apply failed_inv. exact HI.
Qed.

(** FreeAll. *)
Lemma sys_free_head : forall s p n l, a_live s = (p, n) :: l -> p <> 0 -> (forall b, In b l -> fst b <> p) ->
  sys_free p s = Ok {| a_ptr := a_ptr s; a_current := a_current s; a_size := a_size s; a_fallback := a_fallback s; a_fb_total := a_fb_total s;
                       a_live := l; a_trace := a_trace s ++ [SFree p] |}.
Proof.
  intros s p n l El Hp Hl. unfold sys_free. replace (p =? 0) with false by lia. rewrite El. cbn [existsb filter fst]. rewrite Z.eqb_refl. cbn [orb negb].
  do 2 f_equal. clear El. induction l as [|b l IH]; cbn [filter]; [reflexivity|].
  pose proof (Hl b (or_introl eq_refl)). replace (fst b =? p) with false by lia. cbn [negb]. f_equal. apply IH. intros c Hc. apply Hl. right. exact Hc.
Qed.

Lemma free_accounted : forall t p n l, accounted t ((p, n) :: l) -> p <> 0 -> (forall b, In b l -> fst b <> p) -> accounted (t ++ [SFree p]) l.
Proof.
  intros t p n l H Hp Hl. apply (accounted_step _ ((p, n) :: l)); [exact H|]. intros q Hq. rewrite given_free, freed_one.
  unfold is_live. cbn [existsb fst]. destruct (Z.eqb_spec p q) as [<- | N]; cbn [orb]; [|lia].
  destruct (existsb _ l) eqn:E; [|lia]. apply existsb_exists in E. destruct E as [b [Hb E]]. specialize (Hl b Hb). lia.
Qed.

Definition with_live (s : ast) live trace : ast :=
  {| a_ptr := a_ptr s; a_current := a_current s; a_size := a_size s; a_fallback := a_fallback s; a_fb_total := a_fb_total s; a_live := live; a_trace := trace |}.

Lemma heads_differ : forall b l, ForallOrdPairs disjoint (b :: l) -> (forall c, In c (b :: l) -> 0 < snd c) -> forall c, In c l -> fst c <> fst b.
Proof.
  intros b l H Hs c Hc. inversion H as [|? ? HF _]; subst. rewrite Forall_forall in HF. specialize (HF c Hc).
  pose proof (Hs b (or_introl eq_refl)). pose proof (Hs c (or_intror Hc)). unfold disjoint in HF. lia.
Qed.

Lemma free_list_ok : forall l s, a_live s = l -> (forall b, In b l -> 0 < fst b /\ 0 < snd b) -> ForallOrdPairs disjoint l ->
  accounted (a_trace s) l ->
  exists fr, free_list (map fst l) s = Ok (with_live s [] (a_trace s ++ map SFree fr)) /\ accounted (a_trace s ++ map SFree fr) [].
Proof.
  induction l as [|[p n] l IH]; intros s El Hp Hd Ha; cbn [map free_list fst].
  - exists []. cbn [map]. rewrite app_nil_r. split; [|exact Ha]. destruct s; cbn in *. subst. reflexivity.
  - destruct (Hp _ (or_introl eq_refl)) as [P1 P2]. cbn [fst snd] in *.
    assert (Hh : forall b, In b l -> fst b <> p).
    { apply (heads_differ (p, n) l Hd). intros c Hc. apply Hp in Hc. tauto. }
    rewrite (sys_free_head s p n l El) by (auto; lia). cbn [bind].
    edestruct (IH {| a_ptr := a_ptr s; a_current := a_current s; a_size := a_size s; a_fallback := a_fallback s; a_fb_total := a_fb_total s;
                     a_live := l; a_trace := a_trace s ++ [SFree p] |}) as [fr [E1 E2]].
    + reflexivity.
    + intros b Hb. apply Hp. right. exact Hb.
    + inversion Hd; assumption.
    + cbn [a_trace]. apply (free_accounted _ p n); auto. lia.
    + cbn [a_trace] in *. exists (p :: fr). cbn [map]. rewrite <- app_assoc in E1, E2. cbn [app] in E1, E2. split; [exact E1|exact E2].
Qed.

Definition reset_current (s : ast) : ast :=
  {| a_ptr := a_ptr s; a_current := 0; a_size := a_size s; a_fallback := a_fallback s; a_fb_total := a_fb_total s; a_live := a_live s; a_trace := a_trace s |}.

Lemma reset_inv : forall s fbs bs, Inv s fbs bs -> Inv (reset_current s) fbs [].
Proof.
  intros s fbs bs HI. pose proof (i_cur _ _ _ HI). destruct HI. unfold reset_current. constructor; cbn [a_ptr a_current a_size a_fallback a_fb_total a_live a_trace]; auto.
  - lia.
  - exists 0. reflexivity.
  - intros b [].
  - constructor.
Qed.

(** Frees the buffer and the fallback blocks. *)
Lemma free_everything : forall s fbs, Inv s fbs [] ->
  exists fr, (s1 <- sys_free (a_ptr s) s ;; free_list (a_fallback s1) s1) = Ok (with_live s [] (a_trace s ++ map SFree fr)) /\
             accounted (a_trace s ++ map SFree fr) [].
Proof.
  intros s fbs HI. pose proof (i_cur _ _ _ HI) as Hc.
  assert (HP : forall b, In b (a_live s) -> 0 < fst b /\ 0 < snd b) by (intros b Hb; destruct (i_blocks _ _ _ HI b Hb) as [? [? [? ?]]]; auto).
  pose proof (i_disj _ _ _ HI) as HD. pose proof (i_acc _ _ _ HI) as HA. pose proof (i_live _ _ _ HI) as EL.
  unfold main_block in EL. destruct (Z.eqb_spec (a_size s) 0) as [E0|N0]; cbn [app] in EL.
  - rewrite (i_null _ _ _ HI E0). cbn [sys_free Z.eqb]. cbn [bind]. rewrite <- (i_fb _ _ _ HI).
    apply free_list_ok; [exact EL| | |]; rewrite <- EL; assumption.
  - rewrite EL in HP, HD, HA. destruct (HP _ (or_introl eq_refl)) as [P1 P2]. cbn [fst snd] in *.
    assert (Hh : forall b, In b fbs -> fst b <> a_ptr s).
    { apply (heads_differ (a_ptr s, a_size s) fbs HD). intros c Hcc. apply HP in Hcc. tauto. }
    rewrite (sys_free_head s _ _ _ EL) by (auto; lia). cbn [bind a_fallback]. rewrite <- (i_fb _ _ _ HI).
    edestruct (free_list_ok fbs) as [fr [E1 E2]]; cycle 4.
    + exists (a_ptr s :: fr). cbn [map]. rewrite E1. cbn [a_trace]. cbn [a_trace] in E2. rewrite <- app_assoc in E2. rewrite <- app_assoc.
      unfold with_live. cbn [a_ptr a_current a_size a_fallback a_fb_total app]. rewrite ?(i_fb _ _ _ HI). split; [reflexivity|exact E2].
    + reflexivity.
    + intros b Hb. apply HP. right. exact Hb.
    + inversion HD; assumption.
    + cbn [a_trace]. apply (free_accounted _ (a_ptr s) (a_size s)); auto. lia.
Qed.

Lemma fbs_nil : forall s fbs bs, Inv s fbs bs -> a_fallback s = [] -> fbs = [].
Proof. intros s fbs bs HI E. pose proof (i_fb _ _ _ HI) as H. rewrite E in H. destruct fbs; [reflexivity|discriminate]. Qed.

Lemma fb_total_pos : forall s fbs bs, Inv s fbs bs -> a_fallback s <> [] -> 0 < a_fb_total s.
Proof.
  intros s fbs bs HI N. rewrite <- (i_total _ _ _ HI). pose proof (i_fb _ _ _ HI) as H. destruct fbs as [|b fbs]; [cbn in H; congruence|].
  assert (HP : forall c, In c (b :: fbs) -> 0 < snd c).
  { intros c Hc. apply (i_blocks _ _ _ HI). rewrite (i_live _ _ _ HI). apply in_app_iff. auto. }
  cbn [sum_sizes fold_right]. fold (sum_sizes fbs). pose proof (HP b (or_introl eq_refl)).
  assert (0 <= sum_sizes fbs) by (apply sum_sizes_nonneg; intros c Hc; specialize (HP c (or_intror Hc)); lia). lia.
Qed.

Inductive free_spec (s : ast) : ast -> Prop :=
| FNone : a_fallback s = [] -> free_spec s (reset_current s)
| FGrow p t : a_fallback s <> [] -> p = sys t [] (a_size s + a_fb_total s) ->
    accounted t [] -> (exists fr, t = a_trace s ++ map SFree fr) ->
    free_spec s {| a_ptr := p; a_current := 0; a_size := a_size s + a_fb_total s; a_fallback := []; a_fb_total := 0;
                   a_live := if p =? 0 then [] else [(p, a_size s + a_fb_total s)]; a_trace := t ++ [SAlloc true (a_size s + a_fb_total s) p] |}.

Lemma free_all_spec : forall s fbs bs, Inv s fbs bs -> exists s', free_all sys s = Ok s' /\ free_spec s s'.
Proof.
  intros s fbs bs HI. pose proof (reset_inv _ _ _ HI) as HR. unfold free_all. fold (reset_current s).
  destruct (a_fallback (reset_current s)) as [|p0 l0] eqn:EF.
  - eexists. split; [reflexivity|]. apply FNone. exact EF.
  - destruct (free_everything _ _ HR) as [fr [E A]].
    match goal with |- exists s', bind (sys_free ?pp ?s0) ?k = _ /\ _ =>
      replace (bind (sys_free pp s0) k) with
        (s2 <- (s1 <- sys_free (a_ptr (reset_current s)) (reset_current s) ;; free_list (a_fallback s1) s1) ;;
         new_size <- i64 (a_size s2 + a_fb_total s2) ;;
         let '(p, s) := sys_alloc sys true new_size s2 in
         Ok {| a_ptr := p; a_current := a_current s; a_size := new_size; a_fallback := []; a_fb_total := 0; a_live := a_live s; a_trace := a_trace s |})
    end.
    2:{ destruct (sys_free (a_ptr (reset_current s)) (reset_current s)); reflexivity. }
    rewrite E. cbn [bind]. pose proof (i_cur _ _ _ HI). pose proof (inv_sum _ _ _ HI). pose proof (inv_total_nonneg _ _ _ HI).
    unfold with_live. cbn [a_ptr a_current a_size a_fallback a_fb_total a_live a_trace reset_current].
    rewrite i64_ok by lia. cbn [bind]. unfold sys_alloc. cbn [a_ptr a_current a_size a_fallback a_fb_total a_live a_trace app].
    eexists. split; [reflexivity|]. apply FGrow; auto.
    + cbn [reset_current a_fallback] in EF. congruence.
    + exists fr. reflexivity.
Qed.

Lemma free_spec_inv : forall s fbs bs s', Inv s fbs bs -> free_spec s s' ->
  (exists n, In (SAlloc true n 0) (a_trace s')) \/ Inv s' [] [].
Proof.
  intros s fbs bs s' HI H. destruct H as [EF|p t NF Ep HA Ht].
  - right. pose proof (reset_inv _ _ _ HI) as HR. rewrite (fbs_nil _ _ _ HI EF) in HR. exact HR.
  - destruct (Z.eq_dec p 0) as [E0|N0].
    + left. rewrite E0. cbn [a_trace]. eexists. apply in_app_iff. right. left. reflexivity.
    + right. pose proof (fb_total_pos _ _ _ HI NF). pose proof (i_cur _ _ _ HI).
      assert (Hne : sys t [] (a_size s + a_fb_total s) <> 0) by congruence.
      destruct (Hsys _ _ _ Hne) as [S1 [S2 [S3 _]]]. rewrite <- Ep in *.
      replace (p =? 0) with false by lia.
      constructor; cbn [a_ptr a_current a_size a_fallback a_fb_total a_live a_trace]; auto; try lia.
      * unfold main_block. cbn [a_size a_ptr]. replace (a_size s + a_fb_total s =? 0) with false by lia. reflexivity.
      * exists 0. reflexivity.
      * intros b [<- | []]. cbn [fst snd]. split; [lia|]. split; [exact S2|]. split; lia.
      * repeat constructor.
      * apply (accounted_step _ []); [exact HA|]. intros q Hq. rewrite given_one, freed_alloc. unfold is_live. cbn [existsb fst].
        destruct (p =? q); reflexivity.
      * intros b [].
      * constructor.
Qed.
End Sys.
