From Coq Require Import ZArith List Bool Sorted Permutation Lia.
From Verif Require Import Base RequantFacts Profiler SpecProfiler ProfilerFacts TreeView SpecTreeView TreeViewProps ProfilerMachine SpecProfilerMachine.
Import ListNotations.
Open Scope Z_scope.

Definition same_thread (a : Z * stack) (b : Z * snapshot) : Prop := fst a = fst b /\ good_stack (snd a) /\ snapshot_of (snd a) = snd b.

Lemma f2_find : forall l m t, Forall2 same_thread l m -> match find t l, find t m with Some s, Some x => good_stack s /\ snapshot_of s = x | None, None => True | _, _ => False end.
Proof.
  intros l m t F. induction F as [|[k s] [k' x] l m (E & G & S) F IH]; [exact I|]. cbn [fst snd] in *. subst k'. cbn [find]. destruct (t =? k); [auto|exact IH].
Qed.
Lemma f2_keys : forall l m, Forall2 same_thread l m -> map fst l = map fst m.
Proof. intros l m F. induction F as [|a b l m (E & _) F IH]; [reflexivity|]. cbn [map]. rewrite E, IH. reflexivity. Qed.
Lemma find_none : forall {A} t (l : list (Z * A)), find t l = None -> ~ In t (map fst l).
Proof. intros A t l. induction l as [|[k x] l IH]; cbn [find map fst]; [intros _ []|]. destruct (Z.eqb_spec t k); [discriminate|]. intros H [B|B]; [congruence|exact (IH H B)]. Qed.
Lemma find_some_in : forall {A} t (l : list (Z * A)), In t (map fst l) -> exists x, find t l = Some x.
Proof. intros A t l H. destruct (find t l) as [x|] eqn:E; [exists x; reflexivity|]. exfalso. exact (find_none _ _ E H). Qed.

Lemma f2_update : forall l m t s f, Forall2 same_thread l m -> NoDup (map fst l) -> good_stack s ->
  (forall x, find t m = Some x -> snapshot_of s = (fst x, f (snd x))) ->
  Forall2 same_thread (update t s l) (map (fun x : Z * snapshot => if fst x =? t then (fst x, (fst (snd x), f (snd (snd x)))) else x) m).
Proof.
  intros l m t s f F. induction F as [|[k s0] [k' x0] l m (E & G & S) F IH]; intros N Gs H; [constructor|]. cbn [fst snd] in *. subst k'. cbn [map fst] in N. inversion_clear N as [|? ? Nk N'].
  cbn [update map fst snd]. cbn [find] in H. rewrite (Z.eqb_sym k t). destruct (Z.eqb_spec t k) as [->|D].
  - constructor; [split; [reflexivity|split; [exact Gs|apply H; reflexivity]]|]. rewrite <- (map_id m) in F. 
    assert (map (fun x : Z * snapshot => if fst x =? k then (fst x, (fst (snd x), f (snd (snd x)))) else x) m = m) as ->; [|rewrite map_id in F; exact F].
    rewrite (map_id m) in F. rewrite (f2_keys _ _ F) in Nk. clear - Nk. induction m as [|x m IH]; [reflexivity|]. cbn [map In] in *. rewrite (proj2 (Z.eqb_neq _ _)) by tauto. rewrite IH by tauto. reflexivity.
  - constructor; [split; [reflexivity|split; assumption]|]. apply IH; assumption.
Qed.
Lemma f2_remove : forall l m t, Forall2 same_thread l m -> Forall2 same_thread (remove_key t l) (filter (fun x => negb (fst x =? t)) m).
Proof.
  intros l m t F. unfold remove_key. induction F as [|[k s] [k' x] l m (E & G & S) F IH]; [constructor|]. cbn [fst snd] in *. subst k'. cbn [filter fst]. destruct (k =? t); cbn [negb]; [exact IH|].
  constructor; [split; [reflexivity|split; assumption]|exact IH].
Qed.
Lemma erase_keys : forall {A} t (l : list (Z * A)), NoDup (map fst l) -> erase t (map fst l) = map fst (filter (fun x => negb (fst x =? t)) l).
Proof.
  intros A t l. induction l as [|[k x] l IH]; intros N; [reflexivity|]. cbn [map fst] in *. inversion_clear N as [|? ? Nk N']. cbn [erase filter fst]. rewrite (Z.eqb_sym k t). destruct (Z.eqb_spec t k) as [->|D]; cbn [negb].
  - clear - Nk. induction l as [|y l IH]; [reflexivity|]. cbn [map In] in *. cbn [filter]. rewrite (proj2 (Z.eqb_neq _ _)) by tauto. cbn [negb map]. rewrite <- IH by tauto. reflexivity.
  - cbn [map fst]. rewrite IH by exact N'. reflexivity.
Qed.
Lemma filter_keys_nodup : forall {A} f (l : list (Z * A)), NoDup (map fst l) -> NoDup (map fst (filter f l)).
Proof.
  intros A f l. induction l as [|x l IH]; intros N; [constructor|]. cbn [map] in N. inversion_clear N as [|? ? Nx N']. cbn [filter]. destruct (f x); [|apply IH; exact N'].
  cbn [map]. constructor; [|apply IH; exact N']. intros B. apply Nx. apply in_map_iff in B as (y & E & I). apply filter_In in I as [I _]. rewrite <- E. apply in_map. exact I.
Qed.
Lemma update_keys : forall {A} t (x : A) l, map fst (update t x l) = map fst l.
Proof. intros A t x l. induction l as [|[k y] l IH]; [reflexivity|]. cbn [update]. destruct (t =? k); cbn [map fst]; [reflexivity|]. rewrite IH. reflexivity. Qed.

Lemma samples_app : forall a b buf, samples (a ++ b) buf = (buf <- samples a buf ;; samples b buf).
Proof. induction a as [|s a IH]; intros b buf; [reflexivity|]. cbn [app samples]. destruct (sample s buf); cbn [bind]; [apply IH|reflexivity|reflexivity]. Qed.
Lemma bytes_needed_app : forall a b, bytes_needed (a ++ b) = bytes_needed a + bytes_needed b.
Proof. induction a as [|x a IH]; intros b; [reflexivity|]. cbn [app bytes_needed fold_right]. fold (bytes_needed (a ++ b)) (bytes_needed a). rewrite IH. lia. Qed.

Section Facts.
Variable text : Z -> list Z.
Variable blank : label.
Variables (other_format thread_format : Z).
Variable order : list Z -> list nat.
Hypothesis Order : sorts order.
Variable fresh : list label.
Hypothesis Fresh : length fresh = 64%nat /\ Forall good_label fresh.
Variable dbg : bool.
Notation step := (pstep text blank other_format thread_format order fresh dbg).
Notation run := (prun text blank other_format thread_format order fresh dbg).

Definition profile_ok (p : profile) (st : pstate) (h : history) : Prop :=
  (exists l, Forall good_stack l /\ samples l [] = Ok (pr_buf p) /\ filter busy (map snapshot_of l) = h_taken h) /\
  match pr_where p with Scan rest => ps_locked st = true /\ (exists seen, ps_all st = seen ++ rest) | _ => ps_locked st = false end.

Record refines (st : pstate) (h : history) : Prop := {
  r_next : ps_next st = h_created h mod 2 ^ 32;
  r_all : ps_all st = map fst (ps_objects st);
  r_objects : Forall2 same_thread (ps_objects st) (h_threads h);
  r_nodup : NoDup (map fst (ps_objects st));
  r_running : ps_running st = h_running h;
  r_profile : match ps_profile st with Some p => ps_running st = true /\ profile_ok p st h | None => ps_running st = false /\ ps_locked st = false end;
  r_views : Forall2 (view_of text other_format thread_format) (h_profiles h) (ps_views st)
}.

Lemma refines_init : refines ps_init h_init.
Proof. constructor; cbn; try constructor; auto. Qed.

Definition aborts (e : event) (h : history) : Prop :=
  match e with EEnter t n => length (open_scopes h t) = 64%nat | EStart => h_running h = true | _ => False end.

Lemma fresh_stack : forall id, 0 <= id < 2 ^ 32 -> good_stack {| st_id := id; st_size := 0; st_labels := fresh |}.
Proof. intros id H. destruct Fresh as [F1 F2]. unfold good_stack. cbn [st_id st_size st_labels]. repeat split; try assumption; lia. Qed.

Lemma with_object_ok : forall t f g st h r, refines st h -> with_object t f st = Some r ->
  (forall s, good_stack s -> find t (ps_objects st) = Some s -> find t (h_threads h) = Some (snapshot_of s) ->
     (exists s', f s = Ok s' /\ good_stack s' /\ snapshot_of s' = (st_id s, g (notes_of s))) \/ (f s = Abort /\ length (open_scopes h t) = 64%nat)) ->
  match r with Ok st' => refines st' (set_scopes t g h) | Abort => length (open_scopes h t) = 64%nat | UB => False end.
Proof.
  intros t f g st h r R E H. unfold with_object in E. pose proof (f2_find _ _ t (r_objects _ _ R)) as F. destruct (find t (ps_objects st)) as [s|] eqn:Es; [|discriminate].
  destruct (find t (h_threads h)) as [x|] eqn:Ex; [|destruct F]. destruct F as [G <-]. injection E as <-.
  destruct (H s G eq_refl eq_refl) as [(s' & -> & G' & S')|[-> L]]; cbn [bind]; [|exact L].
  destruct R as [R1 R2 R3 R4 R5 R6 R7]. constructor; cbn [ps_next ps_all ps_objects ps_locked ps_running ps_profile ps_views set_scopes set_threads h_created h_threads h_running h_taken h_profiles]; try assumption.
  - rewrite update_keys. exact R2.
  - apply f2_update; [exact R3|exact R4|exact G'|]. intros y Hy. rewrite Ex in Hy. injection Hy as <-. exact S'.
  - rewrite update_keys. exact R4.
Qed.

Lemma step_ok : forall e st h r, refines st h -> proper e h -> step e st = Some r ->
  match r with Ok st' => refines st' (observe e h) | Abort => aborts e h | UB => False end.
Proof.
  intros e st h r R P E. destruct e as [t|t|t n|t| | | | |t| |]; cbn [pstep] in E.
  - (* ENew *) destruct (ps_locked st) eqn:Lk; [discriminate|]. pose proof (f2_find _ _ t (r_objects _ _ R)) as F. destruct (find t (ps_objects st)) eqn:Ef; [discriminate|]. injection E as <-.
    destruct R as [R1 R2 R3 R4 R5 R6 R7]. constructor; cbn [ps_next ps_all ps_objects ps_locked ps_running ps_profile ps_views observe h_created h_threads h_running h_taken h_profiles]; try assumption.
    + rewrite R1. unfold wrap_u. rewrite Zplus_mod_idemp_l. reflexivity.
    + rewrite map_app, R2. reflexivity.
    + apply Forall2_app; [exact R3|]. constructor; [|constructor]. split; [reflexivity|]. cbn [fst snd]. split; [apply fresh_stack; rewrite R1; apply Z.mod_pos_bound; lia|].
      unfold snapshot_of, notes_of. cbn [st_id st_size firstn map]. rewrite R1. reflexivity.
    + rewrite map_app. cbn [map fst]. apply Permutation_NoDup with (l := t :: map fst (ps_objects st)); [apply Permutation_cons_append|]. constructor; [apply find_none; exact Ef|exact R4].
    + destruct (ps_profile st) as [p|]; [|split; [apply R6|reflexivity]]. destruct R6 as [R6 [B C]]. split; [exact R6|]. split; [exact B|]. cbn [ps_locked ps_all]. destruct (pr_where p); try reflexivity. destruct C as [C _]. congruence.
  - (* EExit *) destruct (ps_locked st) eqn:Lk; [discriminate|]. destruct (find t (ps_objects st)) eqn:Ef; [|discriminate]. injection E as <-.
    destruct R as [R1 R2 R3 R4 R5 R6 R7]. constructor; cbn [ps_next ps_all ps_objects ps_locked ps_running ps_profile ps_views observe set_threads h_created h_threads h_running h_taken h_profiles]; try assumption.
    + rewrite R2. apply erase_keys. exact R4.
    + apply f2_remove. exact R3.
    + apply filter_keys_nodup. exact R4.
    + destruct (ps_profile st) as [p|]; [|split; [apply R6|reflexivity]]. destruct R6 as [R6 [B C]]. split; [exact R6|]. split; [exact B|]. cbn [ps_locked ps_all]. destruct (pr_where p); try reflexivity. destruct C as [C _]. congruence.
  - (* EEnter *) apply (with_object_ok t (push (fst n) (snd n)) (fun l => l ++ [n]) st h r R E). intros s G Fs Fx. cbn [proper] in P.
    destruct (Z.lt_ge_cases (st_size s) 64) as [L|L].
    + left. destruct (push_ok n s G P L) as (s' & A & B & C & D). exists s'. split; [exact A|]. split; [exact B|]. unfold snapshot_of. rewrite C, D. reflexivity.
    + right. split; [apply push_full; exact L|]. unfold open_scopes. rewrite Fx. cbn [snapshot_of snd]. rewrite notes_length by exact G. destruct G as (_ & G & _). lia.
  - (* ELeave *) assert (match r with Ok st' => refines st' (set_scopes t (fun l => removelast l) h) | Abort => length (open_scopes h t) = 64%nat | UB => False end /\ (r = Abort -> False)) as [A B].
    { cbn [proper] in P. unfold with_object in E. assert (forall s, good_stack s -> find t (h_threads h) = Some (snapshot_of s) -> exists s', pop s = Ok s' /\ good_stack s' /\ snapshot_of s' = (st_id s, removelast (notes_of s))) as K.
      { intros s G Fx. unfold open_scopes in P. rewrite Fx in P. cbn [snapshot_of snd] in P. assert (0 < st_size s) as L by (pose proof (notes_length s G); destruct (notes_of s); [congruence|]; cbn [length] in *; lia).
        destruct (pop_ok s G L) as (s' & A & B & C & D). exists s'. split; [exact A|]. split; [exact B|]. unfold snapshot_of. rewrite C, D. reflexivity. }
      split.
      - apply (with_object_ok t pop (fun l => removelast l) st h r R E). intros s G _ Fx. left. apply K; assumption.
      - intros ->. pose proof (f2_find _ _ t (r_objects _ _ R)) as F. destruct (find t (ps_objects st)) as [s|]; [|discriminate]. destruct (find t (h_threads h)) as [x|] eqn:Ex; [|destruct F]. destruct F as [G <-].
        destruct (K s G eq_refl) as (s' & A & _). rewrite A in E. discriminate. }
    destruct r; [exact A|exact A|exfalso; apply B; reflexivity].
  - (* EStart *) destruct (ps_locked st) eqn:Lk; [discriminate|]. destruct (ps_running st) eqn:Rn; injection E as <-; [cbn [aborts]; rewrite <- (r_running _ _ R); exact Rn|].
    destruct R as [R1 R2 R3 R4 R5 R6 R7]. constructor; cbn [ps_next ps_all ps_objects ps_locked ps_running ps_profile ps_views observe h_created h_threads h_running h_taken h_profiles]; try assumption; try reflexivity.
    split; [reflexivity|]. split; [|reflexivity]. exists []. split; [constructor|]. split; reflexivity.
  - (* EFinishing *) pose proof (r_profile _ _ R) as R6. destruct (ps_profile st) as [p|] eqn:Ep; [|discriminate]. injection E as <-. destruct R6 as [R6 [B C]].
    destruct R as [R1 R2 R3 R4 R5 _ R7]. constructor; cbn [set_profile ps_next ps_all ps_objects ps_locked ps_running ps_profile ps_views observe]; try assumption. split; [exact R6|]. split; [exact B|exact C].
  - (* ECheck *) pose proof (r_profile _ _ R) as R6. destruct (ps_profile st) as [p|] eqn:Ep; [|discriminate]. destruct R6 as [R6 [B C]]. destruct (pr_where p); try discriminate. injection E as <-.
    destruct R as [R1 R2 R3 R4 R5 _ R7]. constructor; cbn [set_profile ps_next ps_all ps_objects ps_locked ps_running ps_profile ps_views observe]; try assumption. split; [exact R6|]. split; [exact B|]. cbn [pr_where]. destruct (pr_finishing p); exact C.
  - (* ELock *) pose proof (r_profile _ _ R) as R6. destruct (ps_profile st) as [p|] eqn:Ep; [|discriminate]. destruct R6 as [R6 [B C]]. destruct (pr_where p); try discriminate. rewrite C in E. injection E as <-.
    destruct R as [R1 R2 R3 R4 R5 _ R7]. constructor; cbn [set_profile ps_next ps_all ps_objects ps_locked ps_running ps_profile ps_views observe]; try assumption. split; [exact R6|]. split; [exact B|]. cbn [pr_where ps_locked ps_all]. split; [reflexivity|]. exists []. reflexivity.
  - (* ESample *) pose proof (r_profile _ _ R) as R6. destruct (ps_profile st) as [p|] eqn:Ep; [|discriminate]. destruct R6 as [R6 [(l & Gl & Sl & Tl) C]]. destruct (pr_where p) as [| |[|k rest]|]; try discriminate.
    destruct (Z.eqb_spec t k) as [->|D]; [|discriminate]. destruct C as [Lk (seen & Ea)]. pose proof (f2_find _ _ k (r_objects _ _ R)) as F.
    destruct (find_some_in k (ps_objects st)) as (s & Es); [rewrite <- (r_all _ _ R), Ea; apply in_app_iff; right; left; reflexivity|]. rewrite Es in E, F.
    destruct (find k (h_threads h)) as [x|] eqn:Ex; [|destruct F]. destruct F as [G Sx]. injection E as <-.
    assert (Forall good_stack (l ++ [s])) as Gl' by (apply Forall_app; split; [exact Gl|constructor; [exact G|constructor]]).
    cbn [proper] in P. set (h' := observe (ESample k) h) in *.
    assert (filter busy (map snapshot_of (l ++ [s])) = h_taken h') as T'.
    { rewrite map_app, filter_app, Tl. cbn [map filter]. rewrite Sx. unfold h'. cbn [observe]. rewrite Ex. destruct x as [id [|y ys]]; cbn [busy snd h_taken]; [apply app_nil_r|reflexivity]. }
    assert (h_created h' = h_created h /\ h_threads h' = h_threads h /\ h_running h' = h_running h /\ h_profiles h' = h_profiles h) as (E1 & E2 & E3 & E4) by (unfold h'; cbn [observe]; rewrite Ex; destruct x as [id [|y ys]]; repeat split; reflexivity).
    pose proof (samples_ok (l ++ [s]) [] Gl') as Q. cbn [length] in Q. specialize (Q ltac:(unfold int_max; lia)). cbv zeta in Q. rewrite T' in Q. rewrite (proj2 (Z.leb_le _ _)) in Q by lia. destruct Q as (b & Q & _). cbn [app] in Q.
    pose proof Q as Q'. rewrite samples_app, Sl in Q'. cbn [bind samples] in Q'. destruct (sample s (pr_buf p)) as [buf| |] eqn:Sm; cbn [bind] in Q'; try discriminate. injection Q' as <-. cbn [bind].
    destruct R as [R1 R2 R3 R4 R5 _ R7]. constructor; cbn [set_profile ps_next ps_all ps_objects ps_locked ps_running ps_profile ps_views]; rewrite ?E1, ?E2, ?E3, ?E4; try assumption. split; [exact R6|]. split.
    + exists (l ++ [s]). split; [exact Gl'|]. split; [exact Q|exact T'].
    + cbn [pr_where ps_locked ps_all]. split; [exact Lk|]. exists (seen ++ [k]). rewrite <- app_assoc. exact Ea.
  - (* EUnlock *) pose proof (r_profile _ _ R) as R6. destruct (ps_profile st) as [p|] eqn:Ep; [|discriminate]. destruct R6 as [R6 [B C]]. destruct (pr_where p) as [| |[|k rest]|]; try discriminate. injection E as <-.
    destruct R as [R1 R2 R3 R4 R5 _ R7]. constructor; cbn [set_profile ps_next ps_all ps_objects ps_locked ps_running ps_profile ps_views observe]; try assumption. split; [exact R6|]. split; [exact B|]. reflexivity.
  - (* EFinish *) pose proof (r_profile _ _ R) as R6. destruct (ps_profile st) as [p|] eqn:Ep; [|discriminate]. destruct R6 as [R6 [(l & Gl & Sl & Tl) C]]. destruct (pr_where p); try discriminate. rewrite C, R6 in E.
    destruct (populate_ok text blank other_format thread_format order Order dbg fresh l (pr_buf p) Gl Sl) as (m & Pm & V). rewrite Pm in E. cbn [bind] in E. injection E as <-. rewrite Tl in V.
    destruct R as [R1 R2 R3 R4 R5 _ R7]. constructor; cbn [ps_next ps_all ps_objects ps_locked ps_running ps_profile ps_views observe h_created h_threads h_running h_taken h_profiles]; try assumption; try reflexivity.
    + split; reflexivity.
    + constructor; [exact V|exact R7].
Qed.

(** ** Executions *)
Lemma observed_snoc : forall es e, observed (es ++ [e]) = observe e (observed es).
Proof. intros es e. unfold observed. rewrite fold_left_app. reflexivity. Qed.

Lemma run_from : forall es pre st r, refines st (observed pre) -> (forall a e b, es = a ++ e :: b -> proper e (observed (pre ++ a))) -> run es st = Some r ->
  match r with
  | Ok st' => refines st' (observed (pre ++ es))
  | Abort => exists a e b, es = a ++ e :: b /\ aborts e (observed (pre ++ a))
  | UB => False
  end.
Proof.
  induction es as [|e es IH]; intros pre st r R P E; cbn [prun] in E.
  - injection E as <-. rewrite app_nil_r. exact R.
  - destruct (step e st) as [r1|] eqn:S; [|discriminate]. pose proof (P [] e es eq_refl) as P0. rewrite app_nil_r in P0. pose proof (step_ok e st _ r1 R P0 S) as K. destruct r1 as [st1| |].
    + rewrite <- observed_snoc in K. specialize (IH (pre ++ [e]) st1 r K). rewrite <- app_assoc in IH. cbn [app] in IH.
      assert (forall a e' b, es = a ++ e' :: b -> proper e' (observed ((pre ++ [e]) ++ a))) as P1 by (intros a e' b ->; rewrite <- app_assoc; apply (P (e :: a) e' b); reflexivity).
      specialize (IH P1 E). destruct r; [exact IH|exact IH|]. destruct IH as (a & e' & b & -> & A). exists (e :: a), e', b. rewrite <- app_assoc in A. auto.
    + destruct K.
    + injection E as <-. exists [], e, es. rewrite app_nil_r. auto.
Qed.

Lemma run_ok : forall es st, well_behaved es -> run es ps_init = Some (Ok st) -> refines st (observed es).
Proof. intros es st W E. apply (run_from es [] ps_init (Ok st) refines_init W E). Qed.

Lemma run_safe : forall es r, well_behaved es -> run es ps_init = Some r ->
  r <> UB /\ (r = Abort -> exists pre e post, es = pre ++ e :: post /\
    ((exists t n, e = EEnter t n /\ length (open_scopes (observed pre) t) = 64%nat) \/ (e = EStart /\ h_running (observed pre) = true))).
Proof.
  intros es r W E. pose proof (run_from es [] ps_init r refines_init W E) as K. split; [intros ->; exact K|]. intros ->. destruct K as (a & e & b & Ee & A). exists a, e, b. split; [exact Ee|].
  cbn [app] in A. destruct e; cbn [aborts] in A; try destruct A; [left|right]; eauto.
Qed.

Lemma run_exact : forall es st, well_behaved es -> run es ps_init = Some (Ok st) ->
  let h := observed es in
  Forall2 (view_of text other_format thread_format) (h_profiles h) (ps_views st) /\
  match ps_profile st with
  | Some p => h_running h = true /\ forall other_fresh, reads other_fresh (pr_buf p) (h_taken h)
  | None => h_running h = false
  end.
Proof.
  intros es st W E h. pose proof (run_ok es st W E) as R. fold h in R. split; [apply (r_views _ _ R)|]. pose proof (r_profile _ _ R) as P. rewrite <- (r_running _ _ R). destruct (ps_profile st) as [p|]; [|apply P].
  destruct P as [P [(l & Gl & Sl & Tl) _]]. split; [exact P|]. intros f. pose proof (samples_ok l [] Gl) as Q. cbn [length] in Q. specialize (Q ltac:(unfold int_max; lia)). cbv zeta in Q. rewrite Tl in Q.
  destruct (Z.of_nat 0 + bytes_needed (h_taken h) <=? int_max); [|congruence]. destruct Q as (b & Q & _ & Rd). rewrite Sl in Q. cbn [app] in Q. injection Q as ->. apply Rd.
Qed.

(** ** A round *)
Lemma run_app : forall a b st, run (a ++ b) st = match run a st with Some (Ok st) => run b st | r => r end.
Proof.
  induction a as [|e a IH]; intros b st; [reflexivity|]. cbn [app prun]. destruct (step e st) as [[st1| |]|]; [apply IH|reflexivity|reflexivity|reflexivity].
Qed.

(** While the profiler scans, the threads stay. *)
Lemma scan_step : forall e st st' p rest, ps_profile st = Some p -> pr_where p = Scan rest -> ps_locked st = true -> e <> EUnlock -> step e st = Some (Ok st') ->
  exists p', ps_profile st' = Some p' /\ ps_locked st' = true /\ ps_all st' = ps_all st /\
    exists rest', pr_where p' = Scan rest' /\ rest = looked_at [e] ++ rest'.
Proof.
  intros e st st' p rest Ep Ew Lk Ne E. destruct e as [t|t|t n|t| | | | |t| |]; cbn [pstep] in E; rewrite ?Lk, ?Ep, ?Ew in E; try discriminate.
  - unfold with_object in E. destruct (find t (ps_objects st)) as [s|]; [|discriminate]. destruct (push (fst n) (snd n) s); try discriminate. cbn [bind] in E. injection E as <-. exists p. cbn [ps_profile ps_locked ps_all]. rewrite Ep, Lk. repeat split. exists rest. auto.
  - unfold with_object in E. destruct (find t (ps_objects st)) as [s|]; [|discriminate]. destruct (pop s); try discriminate. cbn [bind] in E. injection E as <-. exists p. cbn [ps_profile ps_locked ps_all]. rewrite Ep, Lk. repeat split. exists rest. auto.
  - injection E as <-. eexists. cbn [set_profile ps_profile ps_locked ps_all]. split; [reflexivity|]. repeat split. exists rest. auto.
  - destruct rest as [|k rest]; [discriminate|]. destruct (Z.eqb_spec t k) as [->|]; [|discriminate]. destruct (find k (ps_objects st)) as [s|]; [|discriminate]. destruct (sample s (pr_buf p)); try discriminate. cbn [bind] in E. injection E as <-.
    eexists. cbn [set_profile ps_profile ps_locked ps_all]. split; [reflexivity|]. split; [reflexivity|]. split; [reflexivity|]. exists rest. auto.
  - congruence.
Qed.
Lemma scan_run : forall es st st' p rest, ps_profile st = Some p -> pr_where p = Scan rest -> ps_locked st = true -> ~ In EUnlock es -> run es st = Some (Ok st') ->
  exists p', ps_profile st' = Some p' /\ ps_all st' = ps_all st /\ exists rest', pr_where p' = Scan rest' /\ rest = looked_at es ++ rest'.
Proof.
  induction es as [|e es IH]; intros st st' p rest Ep Ew Lk N E; cbn [prun] in E.
  - injection E as <-. exists p. repeat split; auto. exists rest. auto.
  - destruct (step e st) as [[st1| |]|] eqn:S; try discriminate. cbn [In] in N. destruct (scan_step e st st1 p rest Ep Ew Lk) as (p1 & A & B & C & rest1 & D & F); [intros ->; tauto|exact S|].
    destruct (IH st1 st' p1 rest1 A D B) as (p2 & A2 & C2 & rest2 & D2 & F2); [tauto|exact E|]. exists p2. split; [exact A2|]. split; [congruence|]. exists rest2. split; [exact D2|].
    rewrite F, F2. change (looked_at (e :: es)) with (looked_at ([e] ++ es)). unfold looked_at. rewrite flat_map_app, <- app_assoc. reflexivity.
Qed.

Lemma round_ok : forall pre mid post st, well_behaved (pre ++ ELock :: mid ++ EUnlock :: post) -> ~ In EUnlock mid ->
  run (pre ++ ELock :: mid ++ EUnlock :: post) ps_init = Some (Ok st) ->
  looked_at mid = map fst (h_threads (observed pre)) /\
  map fst (h_threads (observed (pre ++ ELock :: mid))) = map fst (h_threads (observed pre)).
Proof.
  intros pre mid post st W N E. rewrite run_app in E. destruct (run pre ps_init) as [[st0| |]|] eqn:E0; try discriminate.
  assert (well_behaved pre) as W0 by (intros a e b ->; apply (W a e (b ++ ELock :: mid ++ EUnlock :: post)); rewrite <- app_assoc; reflexivity).
  pose proof (run_ok pre st0 W0 E0) as R0. change (ELock :: mid ++ EUnlock :: post) with ((ELock :: mid) ++ EUnlock :: post) in E. rewrite run_app in E.
  destruct (run (ELock :: mid) st0) as [[st2| |]|] eqn:E2; try discriminate.
  assert (run (pre ++ ELock :: mid) ps_init = Some (Ok st2)) as E02 by (rewrite run_app, E0; exact E2).
  assert (well_behaved (pre ++ ELock :: mid)) as W2.
  { intros a e b Eq. apply (W a e (b ++ EUnlock :: post)). change (ELock :: mid ++ EUnlock :: post) with ((ELock :: mid) ++ EUnlock :: post). rewrite app_assoc, Eq, <- app_assoc. reflexivity. }
  pose proof (run_ok _ st2 W2 E02) as R2.
  cbn [prun] in E2. destruct (step ELock st0) as [[st1| |]|] eqn:S; try discriminate.
  assert (exists p1, ps_profile st1 = Some p1 /\ pr_where p1 = Scan (ps_all st0) /\ ps_locked st1 = true /\ ps_all st1 = ps_all st0) as (p1 & A & B & C & D).
  { cbn [pstep] in S. destruct (ps_profile st0) as [p|]; [|discriminate]. destruct (pr_where p); try discriminate. destruct (ps_locked st0); [discriminate|]. injection S as <-. eexists. cbn [set_profile ps_profile ps_locked ps_all]. split; [reflexivity|]. auto. }
  destruct (scan_run mid st1 st2 p1 _ A B C N E2) as (p2 & A2 & D2 & rest & B2 & F).
  cbn [prun pstep] in E. rewrite A2, B2 in E. destruct rest as [|k rest]; [|discriminate]. rewrite app_nil_r in F.
  assert (ps_all st0 = map fst (h_threads (observed pre))) as K0 by (rewrite (r_all _ _ R0); apply f2_keys; apply (r_objects _ _ R0)).
  assert (ps_all st2 = map fst (h_threads (observed (pre ++ ELock :: mid)))) as K2 by (rewrite (r_all _ _ R2); apply f2_keys; apply (r_objects _ _ R2)).
  split; [rewrite <- F; exact K0|]. rewrite <- K2, <- K0, D2, D. reflexivity.
Qed.
End Facts.
