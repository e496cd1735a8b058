(** Registers: bits, and the invariant of the threads. *)
From Verif Require Import Base SpecDenormal ThreadPool SpecPool ThreadPoolFacts PoolMainFacts PoolLogFacts PoolProps Denormal SpecFenv.

(** * Registers *)

Lemma width_pos : forall a, 0 <= reg_width a.
Proof. intros []; cbn; lia. Qed.
Lemma bits_range : forall a b, In b (flush_bits a) -> 0 <= b < reg_width a /\ b < 32.
Proof. intros [] b; cbn; intros H; repeat (destruct H as [<-|H]; [lia|]); contradiction. Qed.

Lemma lor_bit : forall r m b, 0 <= b -> Z.testbit m b = true -> Z.testbit (Z.lor r m) b = true.
Proof. intros r m b Hb H. rewrite Z.lor_spec, H. apply orb_true_r. Qed.

Lemma disabled : forall a r, suppressed a (disable_fpu_denormals a r).
Proof.
  intros a r b Hb. pose proof (bits_range a b Hb) as (R & _). destruct a; cbn [flush_bits In disable_fpu_denormals] in *.
  - destruct Hb as [<-|[<-|[]]]; apply lor_bit; try lia; reflexivity.
  - destruct Hb as [<-|[]]. apply lor_bit; [lia|reflexivity].
  - destruct Hb as [<-|[<-|[]]].
    + rewrite Z.lor_spec. unfold wrap_u. rewrite Z.mod_pow2_bits_low by lia. rewrite Z.lor_spec. cbn. rewrite orb_true_r. reflexivity.
    + apply lor_bit; [lia|reflexivity].
  - destruct Hb as [<-|[<-|[]]]; apply lor_bit; try lia; reflexivity.
  - contradiction.
Qed.

Lemma mask_bit : forall a b, In b (flush_bits a) -> Z.testbit (flush_mask a) b = true.
Proof. intros [] b; cbn [flush_bits In]; intros H; repeat (destruct H as [<-|H]; [reflexivity|]); contradiction. Qed.

Lemma computed_suppressed : forall a x e, suppressed a (e_reg e) -> suppressed a (e_reg (computed a x e)).
Proof.
  intros a x e H b Hb. pose proof (bits_range a b Hb) as (R & _). unfold computed, wrap_u. cbn [e_reg].
  rewrite Z.mod_pow2_bits_low by lia. rewrite Z.lor_spec, Z.land_spec, (H b Hb), (mask_bit a b Hb). reflexivity.
Qed.

Lemma saved_same : forall a r, a_register a r -> get_fpu_state a r = r.
Proof. intros a r H. unfold get_fpu_state, wrap_u. apply Z.mod_small. exact H. Qed.

(** Without a register there is only one value. *)
Lemma no_register : forall r, a_register NoRegister r -> r = 0.
Proof. intros r H. unfold a_register, reg_width in H. change (2 ^ 0) with 1 in H. lia. Qed.
Lemma computed_register : forall a x e, a_register a (e_reg (computed a x e)).
Proof. intros a x e. unfold computed, a_register, wrap_u. cbn [e_reg]. apply Z.mod_pos_bound. apply Z.pow_pos_nonneg; [lia|apply width_pos]. Qed.

(** A scope around computations restores the register. *)
Definition kept (a : fpu) (r : Z) : Prop := a = NoRegister -> r = 0.
Lemma scope_restores : forall a e x, a_register a x -> e_scope e = Some x -> kept a (e_reg e) ->
  exists e', scope_end a e = Ok e' /\ e_reg e' = x /\ e_scope e' = None.
Proof.
  intros a e x Hx Hs Hk. unfold scope_end. rewrite Hs. eexists. split; [reflexivity|]. cbn. split; [|reflexivity].
  destruct a; try reflexivity. cbn. rewrite (Hk eq_refl), (no_register x Hx). reflexivity.
Qed.
Lemma kept_computed : forall a x e, kept a (e_reg (computed a x e)).
Proof. intros a x e ->. apply no_register. apply computed_register. Qed.
Lemma kept_disabled : forall a r, a_register a r -> kept a (disable_fpu_denormals a r).
Proof. intros a r H ->. apply no_register in H. subst r. reflexivity. Qed.

(** * Steps of the pool *)

Lemma news_app : forall p p' es, s_log p' = s_log p ++ es -> news p p' = es.
Proof. intros p p' es H. unfold news. rewrite H, skipn_app, Nat.sub_diag, skipn_all. reflexivity. Qed.
Lemma news_none : forall p p', s_log p' = s_log p -> news p p' = [].
Proof. intros p p' H. apply news_app. rewrite app_nil_r. exact H. Qed.

(** Before its first wait a worker has no task. *)
Definition beginning (w : worker) : Prop :=
  match w_pc w with
  | WTask => newest (w_hist w) = Startup
  | WReady | WDec | WDLock | WDNotify | WDUnlock | WWait PCheck => True
  | _ => False
  end.

Record worker_moves (k : nat) (p p' : st) : Prop := {
  wm_n : s_n p' = s_n p; wm_script : s_script p' = s_script p;
  wm_main : woken (s_main p) (s_main p');
  wm_others : forall j, j <> k -> s_ws p' j = s_ws p j;
  wm_beginning : beginning (s_ws p k) -> w_pc (s_ws p k) <> WWait PCheck -> beginning (s_ws p' k) /\ news p p' = [];
  wm_done : w_pc (s_ws p' k) = WDone -> w_pc (s_ws p k) = WEnd \/ w_pc (s_ws p k) = WDone;
  wm_was_done : w_pc (s_ws p k) = WDone -> p' = p;
  wm_news : s_log p' = s_log p ++ news p p' /\
            (news p p' = [] \/ exists t, news p p' = [EBegin t (Worker k)] \/ news p p' = [EEnd t (Worker k)])
}.

Lemma worker_moved : forall dbg ch k p p', inv p -> (k < s_n p)%nat -> worker_step dbg k ch p = Ok p' -> worker_moves k p p'.
Proof.
  intros dbg ch k p p' I Hk E. pose proof (worker_effect dbg ch p k I Hk p' E) as W.
  assert (N : s_log p' = s_log p ++ news p p' /\
            (news p p' = [] \/ exists t, news p p' = [EBegin t (Worker k)] \/ news p p' = [EEnd t (Worker k)])).
  { destruct (we_log _ _ _ W) as [(L & _)|(_ & _ & G & _ & L)].
    - rewrite (news_none p p' L), app_nil_r. auto.
    - rewrite (news_app p p' _ L). split; [exact L|]. right. exists (s_call p, S k). destruct (given (s_ws p k)) as [|[|]]; cbn; auto; lia. }
  pose proof (ok_pc _ _ _ _ _ _ _ _ (i_w p I k Hk)) as P.
  constructor; [apply (we_n _ _ _ W)|apply (we_script _ _ _ W)|apply (we_main _ _ _ W)|apply (we_others _ _ _ W)| | | |exact N].
  - intros B Np. unfold beginning in B. unfold worker_step in E. destruct (w_pc (s_ws p k)) as [| | | | | | | |[]| |] eqn:Ep; try contradiction.
    + destruct (ordered _ _) as [[]| |]; cbn [bind] in E; try discriminate. destruct P as (_ & _ & [(_ & T)|(T & _)]); [|congruence].
      rewrite T in E. injection E as <-. split; [unfold beginning; cbn; rewrite upd_same; reflexivity|apply news_none; reflexivity].
    + destruct (ordered _ _) as [[]| |]; cbn [bind] in E; try discriminate. injection E as <-.
      split; [unfold beginning; cbn; rewrite upd_same; reflexivity|apply news_none; reflexivity].
    + destruct (dcheck dbg _) as [[]| |]; cbn [bind] in E; try discriminate. destruct (i32 _) as [z| |]; cbn [bind] in E; try discriminate. injection E as <-.
      split; [unfold beginning; cbn; rewrite upd_same; cbn; destruct (z =? 0); reflexivity|apply news_none; reflexivity].
    + destruct (s_cmutex p); injection E as <-; (split; [unfold beginning; cbn; rewrite ?upd_same, ?Ep; reflexivity|apply news_none; reflexivity]).
    + injection E as <-. split; [unfold beginning; cbn; rewrite upd_same; reflexivity|]. apply news_none. unfold notify_main. cbn.
      destruct (s_main p); try reflexivity. destruct w; reflexivity.
    + injection E as <-. split; [unfold beginning; cbn; rewrite upd_same; reflexivity|apply news_none; reflexivity].
  - intros D. unfold worker_step in E. destruct (w_pc (s_ws p k)) as [|b| | | | | | |q| |] eqn:Ep; auto; exfalso.
    + destruct (ordered _ _) as [[]| |]; cbn [bind] in E; try discriminate. injection E as <-. cbn in D. rewrite upd_same in D. cbn in D.
      destruct (w_task _); discriminate.
    + destruct (w_task _); try discriminate. destruct (ordered _ _) as [[]| |]; cbn [bind] in E; try discriminate. injection E as <-. cbn in D. rewrite upd_same in D. cbn in D. destruct b; discriminate.
    + destruct (ordered _ _) as [[]| |]; cbn [bind] in E; try discriminate. injection E as <-. cbn in D. rewrite upd_same in D. discriminate.
    + destruct (ordered _ _) as [[]| |]; cbn [bind] in E; try discriminate. injection E as <-. cbn in D. rewrite upd_same in D. discriminate.
    + destruct (dcheck dbg _) as [[]| |]; cbn [bind] in E; try discriminate. destruct (i32 _) as [z| |]; cbn [bind] in E; try discriminate. injection E as <-.
      cbn in D. rewrite upd_same in D. cbn in D. destruct (z =? 0); discriminate.
    + destruct (s_cmutex p); injection E as <-; cbn in D; rewrite ?upd_same, ?Ep in D; discriminate.
    + injection E as <-. cbn in D. rewrite upd_same in D. discriminate.
    + injection E as <-. cbn in D. rewrite upd_same in D. discriminate.
    + assert (A : forall x, after_wait x <> WDone) by (intros []; discriminate).
      destruct (load_state _ _ _) as [x v']. destruct q; try (destruct (ch_timeout ch)); try (destruct (tstate_eqb x Ready)); try (destruct (w_mutex _)); try (destruct (ch_spurious ch));
        injection E as <-; cbn in D; rewrite ?upd_same, ?Ep in D; cbn in D; try discriminate; try (exact (A _ D)).
  - intros D. unfold worker_step in E. rewrite D in E. injection E as <-. reflexivity.
Qed.

(** The calling thread. *)
Definition starts (m : mpc) : Prop := m = MNext.
Record main_moves (p p' : st) : Prop := {
  mm_n : s_n p' = s_n p \/ s_n p' = S (s_n p) /\ s_ws p' (s_n p) = new_worker (s_view p);
  mm_ws : forall k, (k < s_n p)%nat -> beginning (s_ws p k) -> beginning (s_ws p' k);
  mm_done : forall k, (k < s_n p)%nat -> (w_pc (s_ws p' k) = WDone <-> w_pc (s_ws p k) = WDone);
  mm_news : s_log p' = s_log p ++ news p p' /\
            (news p p' = [] \/ (exists n c, news p p' = [ECall c n]) \/ (exists c, news p p' = [EReturn c] /\ s_main p' = MNext) \/
             in_destructor (s_main p) = false /\ s_main p <> MNext /\ exists t, news p p' = [EBegin t Main] \/ news p p' = [EEnd t Main]);
  mm_script : s_main p <> MNext -> s_script p' = s_script p;
  mm_next : s_main p = MNext -> match s_script p with
    | [] => in_destructor (s_main p') = true /\ s_script p' = []
    | n :: rest => in_destructor (s_main p') = false /\ s_main p' <> MNext /\ s_script p' = rest end;
  mm_inside : s_main p <> MNext -> in_destructor (s_main p') = in_destructor (s_main p) /\ (returns (news p p') = false -> s_main p' <> MNext)
}.

Lemma main_moved : forall dbg ch p p', inv p -> main_step dbg ch p = Ok p' -> main_moves p p'.
Proof.
  intros dbg ch p p' I E.
  assert (Q : forall m, s_ws p' = s_ws p -> s_n p' = s_n p -> s_log p' = s_log p -> s_script p' = s_script p -> s_main p = m -> m <> MNext ->
              in_destructor (s_main p') = in_destructor m -> s_main p' <> MNext -> main_moves p p').
  { intros m E1 E2 E3 E4 E5 E6 E7 E8. pose proof (news_none p p' E3) as E9. constructor; rewrite ?E1, ?E9, ?E5; auto; try tauto.
    rewrite app_nil_r. auto. }
  assert (Q2 : forall m es, s_ws p' = s_ws p -> s_n p' = s_n p -> s_log p' = s_log p ++ es -> s_script p' = s_script p -> s_main p = m -> m <> MNext ->
              in_destructor m = false -> in_destructor (s_main p') = false -> s_main p' <> MNext ->
              (exists t, es = [EBegin t Main] \/ es = [EEnd t Main]) -> main_moves p p').
  { intros m es E1 E2 E3 E4 E5 E6 E7 E8 E9 E10. pose proof (news_app p p' _ E3) as E11. constructor; rewrite ?E1, ?E11, ?E5, ?E8; auto; try tauto.
    all: try (split; [exact E3|]; right; right; right; auto). }
  assert (Q3 : forall g k c w', s_main p = MChange g k c -> s_ws p' = upd (s_ws p) k w' -> s_n p' = s_n p -> s_log p' = s_log p -> s_script p' = s_script p ->
              in_destructor (s_main p') = in_destructor (MChange g k c) -> s_main p' <> MNext ->
              (w_pc w' = w_pc (s_ws p k) \/ w_pc (s_ws p k) = WWait PSleep /\ w_pc w' = WWait PRelock) ->
              (w_pc (s_ws p k) = WTask -> newest (w_hist w') = newest (w_hist (s_ws p k))) -> main_moves p p').
  { intros g k c w' E1 E2 E3 E4 E5 E6 E7 E8 E9. pose proof (news_none p p' E4) as E10.
    assert (B : beginning (s_ws p k) -> beginning w').
    { unfold beginning. destruct E8 as [->|(-> & _)]; [|contradiction]. destruct (w_pc (s_ws p k)); auto. rewrite E9; auto. }
    assert (D : w_pc w' = WDone <-> w_pc (s_ws p k) = WDone) by (destruct E8 as [->|(-> & ->)]; split; congruence).
    constructor; rewrite ?E10; auto.
    - intros j Hj. rewrite E2. unfold upd. destruct (Nat.eqb_spec j k) as [->|]; auto.
    - intros j Hj. rewrite E2. unfold upd. destruct (Nat.eqb_spec j k) as [->|]; auto. tauto.
    - rewrite app_nil_r. auto.
    - intros H. rewrite E1 in H. discriminate.
    - intros _. rewrite E1. auto. }
  unfold main_step in E. destruct (s_main p) as [|b|n|e|e|n|n k|g k c|n b|e q|n|k|k|] eqn:Em.
  - destruct (s_script p) as [|n rest] eqn:Es.
    + injection E as <-. pose proof (news_none p (set_main p (MExit 0)) eq_refl) as E10. constructor; rewrite ?E10, ?Em, ?Es; cbn; auto; try tauto; try congruence.
      rewrite app_nil_r. auto.
    + destruct (dcheck dbg _) as [[]| |]; cbn [bind] in E; try discriminate. unfold use_tasks in E.
      destruct (all_ordered _ _ _) as [[]| |]; cbn [bind] in E; try discriminate. injection E as <-.
      match goal with |- main_moves p ?q => pose proof (news_app p q [ECall (S (s_call p)) n] eq_refl) as E10 end.
      constructor; rewrite ?E10, ?Em, ?Es; cbn; auto; try tauto; try congruence.
      * split; [reflexivity|]. right. left. eauto.
      * intros _. destruct (n =? 1); repeat split; auto; discriminate.
  - destruct b; injection E as <-; (eapply Q2; [reflexivity..|discriminate|reflexivity|reflexivity|discriminate|]); eauto.
  - destruct (dcheck dbg _) as [[]| |]; cbn [bind] in E; try discriminate. injection E as <-. destruct (wrap_u 32 (n - 1) <=? _); (eapply Q; [reflexivity..|discriminate|reflexivity|discriminate]).
  - destruct (load_count p (ch_stale ch)). destruct (dcheck dbg _) as [[]| |]; cbn [bind] in E; try discriminate. injection E as <-. eapply Q; [reflexivity..|discriminate|reflexivity|discriminate].
  - destruct (ordered _ _) as [[]| |]; cbn [bind] in E; try discriminate. injection E as <-. destruct e; (eapply Q; [reflexivity..|discriminate|reflexivity|discriminate]).
  - destruct (Z.of_nat (s_n p) <? wrap_u 32 (n - 1)); injection E as <-; [|eapply Q; [reflexivity..|discriminate|reflexivity|discriminate]].
    match goal with |- main_moves p ?q => pose proof (news_none p q eq_refl) as E10 end.
    constructor; rewrite ?E10, ?Em; cbn; auto; try tauto; try congruence.
    + right. split; [reflexivity|apply upd_same].
    + intros k Hk. rewrite upd_other by lia. auto.
    + intros k Hk. rewrite upd_other by lia. tauto.
    + rewrite app_nil_r. auto.
  - injection E as <-. destruct (Z.of_nat k + 1 <? n); (eapply Q; [reflexivity..|discriminate|reflexivity|discriminate]).
  - pose proof (change_bound p I g k c Em) as Hk. pose proof (i_w p I k Hk) as W. rewrite Em in W. rewrite role_at in W.
    assert (A : forall b, after_dec (w_pc (s_ws p k)) = true -> w_pc (s_ws p k) = WTask -> b = true) by (intros b A B; rewrite B in A; discriminate).
    destruct c.
    + destruct (dcheck dbg _) as [[]| |]; cbn [bind] in E; try discriminate. injection E as <-. destruct g; (eapply Q; [reflexivity..|discriminate|reflexivity|discriminate]).
    + destruct (ordered _ _) as [[]| |]; cbn [bind] in E; try discriminate. destruct (dcheck dbg _) as [[]| |]; cbn [bind] in E; try discriminate. injection E as <-.
      (eapply Q3; [reflexivity..|discriminate|left; reflexivity|]). reflexivity.
    + destruct (ordered _ _) as [[]| |]; cbn [bind] in E; try discriminate. injection E as <-.
      (eapply Q3; [reflexivity..|discriminate|left; reflexivity|]). intros B. exfalso.
      pose proof (ok_role _ _ _ _ _ _ _ _ W) as R. destruct g; cbn [role_change] in R; destruct R as (R & _); rewrite B in R; discriminate.
    + destruct (w_mutex (s_ws p k)); injection E as <-; [|eapply Q; [reflexivity..|discriminate|rewrite Em; reflexivity|rewrite Em; discriminate]].
      (eapply Q3; [reflexivity..|discriminate|left; reflexivity|]). reflexivity.
    + injection E as <-. (eapply Q3; [reflexivity..|discriminate| |]).
      * destruct (w_pc (s_ws p k)) as [| | | | | | | |[]| |] eqn:Ep; auto. 
      * destruct (w_pc (s_ws p k)) as [| | | | | | | |[]| |]; reflexivity.
    + injection E as <-. destruct g; (eapply Q3; [reflexivity..|discriminate|left; reflexivity|]); reflexivity.
  - destruct b; injection E as <-; (eapply Q2; [reflexivity..|discriminate|reflexivity|reflexivity|discriminate|]); eauto.
  - destruct (load_count p (ch_stale ch)) as [x v'].
    destruct q as [| | | | | |[]]; try destruct (ch_timeout ch); try destruct (x =? 0); try destruct (s_cmutex p); try destruct (ch_spurious ch); injection E as <-;
      (destruct e; (eapply Q; [reflexivity..|discriminate|cbn; rewrite ?Em; reflexivity|cbn; rewrite ?Em; discriminate])).
  - unfold use_tasks in E. destruct (all_ordered _ _ _) as [[]| |]; cbn [bind] in E; try discriminate. injection E as <-.
    match goal with |- main_moves p ?q => pose proof (news_app p q [EReturn (s_call p)] eq_refl) as E10 end.
    constructor; rewrite ?E10, ?Em; cbn; auto; try tauto; try congruence.
    + split; [reflexivity|]. right. right. left. eauto.
    + intros _. split; [reflexivity|discriminate].
  - destruct (k <? s_n p)%nat; injection E as <-; (eapply Q; [reflexivity..|discriminate|reflexivity|discriminate]).
  - destruct (k <? s_n p)%nat; [|injection E as <-; eapply Q; [reflexivity..|discriminate|reflexivity|discriminate]].
    destruct (dcheck dbg _) as [[]| |]; cbn [bind] in E; try discriminate.
    destruct (w_pc (s_ws p k)); injection E as <-; (eapply Q; [reflexivity..|discriminate|cbn; rewrite ?Em; reflexivity|cbn; rewrite ?Em; discriminate]).
  - injection E as <-. eapply Q; [reflexivity..|discriminate|rewrite Em; reflexivity|rewrite Em; discriminate].
Qed.
