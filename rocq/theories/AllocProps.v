(** C25 to C28. *)
From Verif Require Import Base Allocator SpecAlloc AllocFacts.

Section Sys.
Variable sys : list sys_event -> list (Z * Z) -> Z -> Z.
Hypothesis Hsys : good_system sys.

(** The offset of the alias avoiding allocation. *)
Lemma low_bits : forall p a, Z.rem (wrap_u 32 (wrap_u 32 p - wrap_u 32 a)) 1024 = (p - a) mod 1024.
Proof.
  intros p a. unfold wrap_u. change (2 ^ 32) with (4194304 * 1024).
  assert (E : (p mod (4194304 * 1024) - a mod (4194304 * 1024)) mod (4194304 * 1024) = (p - a) mod (4194304 * 1024))
    by (symmetry; apply Zminus_mod).
  rewrite E. rewrite Z.rem_mod_nonneg by (try (apply Z.mod_pos_bound); lia).
  rewrite (Z.mul_comm 4194304 1024). rewrite Z.rem_mul_r by lia.
  rewrite Z.mul_comm, Z.mod_add by lia. apply Z.mod_mod. lia.
Qed.

Definition offset (p a : Z) : Z :=
  if ((p - a) mod 1024 <? 256) || (768 <? (p - a) mod 1024) then 512 else 0.

Lemma offset_ok : forall p a, (offset p a = 0 \/ offset p a = 512) /\ 256 <= (p + offset p a - a) mod 1024 <= 768.
Proof.
  intros p a. unfold offset. pose proof (Z.mod_pos_bound (p - a) 1024 ltac:(lia)) as B.
  pose proof (Z.div_mod (p - a) 1024 ltac:(lia)) as D. set (r := (p - a) mod 1024) in *. set (q := (p - a) / 1024) in *.
  destruct (Z.ltb_spec r 256); [|destruct (Z.ltb_spec 768 r)]; cbn [orb].
  - split; [lia|]. replace (p + 512 - a) with (r + 512 + q * 1024) by lia. rewrite Z.mod_add by lia. rewrite Z.mod_small by lia. lia.
  - split; [lia|]. replace (p + 512 - a) with (r - 512 + (q + 1) * 1024) by lia. rewrite Z.mod_add by lia. rewrite Z.mod_small by lia. lia.
  - split; [lia|]. replace (p + 0 - a) with (r + q * 1024) by lia. rewrite Z.mod_add by lia. rewrite Z.mod_small by lia. lia.
Qed.

Lemma avoiding_eq : forall dbg n a s, 0 < n <= 2 ^ 61 ->
  allocate_bytes_avoiding sys dbg true n a s =
  '(p, s') <- allocate_bytes sys dbg (n + 1024) s ;; if p =? 0 then Ok (0, s') else Ok (p + offset p a, s').
Proof.
  intros dbg n a s Hn. unfold allocate_bytes_avoiding. replace (n =? 0) with false by lia. rewrite i64_ok by lia. cbn [bind].
  destruct (allocate_bytes sys dbg (n + 1024) s) as [[p s']| |]; cbn [bind]; try reflexivity.
  destruct (p =? 0); [reflexivity|]. rewrite low_bits. reflexivity.
Qed.

(** One operation. *)
Definition blocks_after (o : op) (p : Z) (blocks : list (Z * Z)) : list (Z * Z) :=
  match o with
  | OAlloc n | OAllocAvoid n _ => if p =? 0 then blocks else (p, n) :: blocks
  | OFreeAll => []
  end.

Definition request (avoid : bool) (o : op) : Z :=
  match o with OAlloc n => n | OAllocAvoid n _ => if avoid then n + 1024 else n | OFreeAll => 0 end.

Definition no_bytes (o : op) : bool := match o with OAlloc n | OAllocAvoid n _ => n =? 0 | OFreeAll => false end.

(** A request for some bytes. *)
Lemma step_alloc : forall dbg avoid o s fbs bs, Inv s fbs bs -> valid_op o -> is_alloc o -> no_bytes o = false ->
  exists q s1 off, allocate_bytes sys dbg (request avoid o) s = Ok (q, s1) /\ alloc_spec sys s (rounded (request avoid o)) (Ok (q, s1)) /\
    step sys dbg avoid o s = Ok (if q =? 0 then 0 else q + off, s1) /\ (off = 0 \/ off = 512) /\ (off = 0 \/ request avoid o = request false o + 1024) /\
    rounded (request avoid o) = need avoid o.
Proof.
  intros dbg avoid o s fbs bs HI Hv Ha Hn. destruct o as [n|n a|]; cbn [valid_op is_alloc no_bytes request step need] in *; [| |tauto].
  - pose proof (allocate_bytes_spec sys Hsys dbg s fbs bs n HI ltac:(lia)) as H.
    pose proof (alloc_spec_inv sys Hsys s fbs bs (rounded n) _ HI ltac:(pose proof (rounded_bounds n); lia) (rounded_64 n) H) as [q [s1 [E _]]].
    exists q, s1, 0. rewrite E in *. split; [reflexivity|]. split; [exact H|]. split; [destruct (Z.eqb_spec q 0); do 2 f_equal; lia|]. auto.
  - rewrite Hn. destruct avoid.
    + pose proof (allocate_bytes_spec sys Hsys dbg s fbs bs (n + 1024) HI ltac:(lia)) as H.
      pose proof (alloc_spec_inv sys Hsys s fbs bs (rounded (n + 1024)) _ HI ltac:(pose proof (rounded_bounds (n + 1024)); lia) (rounded_64 _) H) as [q [s1 [E _]]].
      exists q, s1, (offset q a). rewrite avoiding_eq by lia. rewrite E in *. cbn [bind]. destruct (offset_ok q a) as [O1 _].
      split; [reflexivity|]. split; [exact H|]. split; [destruct (q =? 0); reflexivity|]. auto.
    + pose proof (allocate_bytes_spec sys Hsys dbg s fbs bs n HI ltac:(lia)) as H.
      pose proof (alloc_spec_inv sys Hsys s fbs bs (rounded n) _ HI ltac:(pose proof (rounded_bounds n); lia) (rounded_64 n) H) as [q [s1 [E _]]].
      exists q, s1, 0. unfold allocate_bytes_avoiding. rewrite E in *. split; [reflexivity|]. split; [exact H|]. split; [destruct (Z.eqb_spec q 0); do 2 f_equal; lia|]. auto.
Qed.

Lemma step_no_bytes : forall dbg avoid o s, no_bytes o = true -> step sys dbg avoid o s = Ok (0, s).
Proof.
  intros dbg avoid o s H. destruct o as [n|n a|]; cbn [no_bytes step] in *; [| |discriminate].
  - unfold allocate_bytes. rewrite H. reflexivity.
  - unfold allocate_bytes_avoiding, allocate_bytes. rewrite H. destruct avoid; reflexivity.
Qed.

Lemma step_inv : forall dbg avoid o s fbs bs, Inv s fbs bs -> valid_op o ->
  exists p s', step sys dbg avoid o s = Ok (p, s') /\
    (growth_failed (a_trace s') \/ exists fbs', Inv s' fbs' (blocks_after o p bs)).
Proof.
  intros dbg avoid o s fbs bs HI Hv.
  destruct (no_bytes o) eqn:Hn.
  { rewrite step_no_bytes by exact Hn. eexists _, _. split; [reflexivity|]. right. exists fbs. destruct o; cbn [blocks_after no_bytes] in *; try exact HI. discriminate. }
  assert (HO : o = OFreeAll \/ is_alloc o) by (destruct o; cbn; auto). destruct HO as [-> | Ha].
  { cbn [step]. destruct (free_all_spec sys s fbs bs HI) as [s' [E HF]]. rewrite E. cbn [bind]. eexists _, _. split; [reflexivity|].
    destruct (free_spec_inv sys Hsys s fbs bs s' HI HF) as [G|HI']; [left; exact G|right; exists []; exact HI']. }
  destruct (step_alloc dbg avoid o s fbs bs HI Hv Ha Hn) as [q [s1 [off [E [HS [EP [O1 [O2 ER]]]]]]]].
  assert (HB : blocks_after o (if q =? 0 then 0 else q + off) bs = if (if q =? 0 then 0 else q + off) =? 0 then bs else ((if q =? 0 then 0 else q + off), request false o) :: bs)
    by (destruct o; [reflexivity|reflexivity|destruct Ha]).
  assert (HR : 0 < request false o /\ request false o <= request avoid o) by (destruct o; destruct avoid; cbn [request valid_op no_bytes] in *; try destruct Ha; lia).
  rewrite EP. eexists _, _. split; [reflexivity|]. right. rewrite HB. clear HB EP E ER. pose proof (rounded_bounds (request avoid o)) as HRB.
  destruct (alloc_spec_inv sys Hsys s fbs bs (rounded (request avoid o)) _ HI ltac:(lia) (rounded_64 _) HS) as [p [s' [Er [[-> [-> HI']]|[P1 [P2 HI']]]]]];
    injection Er as -> ->; [exists fbs; exact HI'|].
  replace (p =? 0) with false by lia; replace (p + off =? 0) with false by lia; apply HI'; [lia| |].
  - apply Z.divide_add_r; [exact P2|destruct O1 as [-> | ->]; [exists 0|exists 8]; reflexivity].
  - unfold inside; cbn [fst snd]. lia.
Qed.

Lemma run_cons : forall dbg avoid o ops s bs,
  run sys dbg avoid (o :: ops) s bs = '(p, s') <- step sys dbg avoid o s ;; run sys dbg avoid ops s' (blocks_after o p bs).
Proof. reflexivity. Qed.

Lemma run_app : forall dbg avoid a b s bs,
  run sys dbg avoid (a ++ b) s bs = '(s', bs') <- run sys dbg avoid a s bs ;; run sys dbg avoid b s' bs'.
Proof.
  induction a as [|o a IH]; intros b s bs; [reflexivity|]. cbn [app]. rewrite !run_cons.
  destruct (step sys dbg avoid o s) as [[p s']| |]; cbn [bind]; [apply IH|reflexivity|reflexivity].
Qed.

Lemma run_inv : forall dbg avoid ops s fbs bs, Inv s fbs bs -> Forall valid_op ops ->
  (exists before after s' bs', ops = before ++ after /\ run sys dbg avoid before s bs = Ok (s', bs') /\ growth_failed (a_trace s')) \/
  exists s' fbs' bs', run sys dbg avoid ops s bs = Ok (s', bs') /\ Inv s' fbs' bs'.
Proof.
  induction ops as [|o ops IH]; intros s fbs bs HI Hv.
  - right. exists s, fbs, bs. split; [reflexivity|exact HI].
  - inversion Hv as [|? ? Ho Hops]; subst. destruct (step_inv dbg avoid o s fbs bs HI Ho) as [p [s' [E [G|[fbs' HI']]]]].
    + left. exists [o], ops, s', (blocks_after o p bs). split; [reflexivity|]. split; [|exact G]. rewrite run_cons, E. reflexivity.
    + destruct (IH _ _ _ HI' Hops) as [[be [af [s2 [bs2 [E1 [E2 G]]]]]]|[s2 [fbs2 [bs2 [E2 HI2]]]]].
      * left. exists (o :: be), af, s2, bs2. split; [rewrite E1; reflexivity|]. split; [|exact G]. rewrite run_cons, E. exact E2.
      * right. exists s2, fbs2, bs2. split; [|exact HI2]. rewrite run_cons, E. exact E2.
Qed.

(** The destructor. *)
Lemma destroy_ok : forall s fbs bs, Inv s fbs bs -> exists s', destroy sys s = Ok s' /\ a_live s' = [] /\ freed_once (a_trace s').
Proof.
  intros s fbs bs HI. unfold destroy. destruct (free_all_spec sys s fbs bs HI) as [s1 [E HF]]. rewrite E. cbn [bind].
  assert (HA : forall t, accounted t [] -> freed_once t).
  { intros t H p Hp. destruct (H p Hp) as [H1 H2]. split; [|exact H2]. unfold is_live in H1. cbn [existsb] in H1. lia. }
  destruct (free_spec_inv sys Hsys s fbs bs s1 HI HF) as [G|HI1].
  - destruct HF as [EF|p t NF Ep HA1 Ht].
    + destruct (free_everything _ _ (reset_inv _ _ _ HI)) as [fr [E1 A1]].
      replace (sys_free (a_ptr (reset_current s)) (reset_current s)) with
        (x <- sys_free (a_ptr (reset_current s)) (reset_current s) ;; free_list (a_fallback x) x).
      { rewrite E1. eexists. split; [reflexivity|]. cbn [with_live a_live a_trace]. split; [reflexivity|]. apply HA. exact A1. }
      unfold sys_free. destruct (a_ptr (reset_current s) =? 0); cbn [bind a_fallback reset_current]; [rewrite EF; reflexivity|].
      destruct (existsb _ _); cbn [bind a_fallback reset_current]; [rewrite EF|]; reflexivity.
    + unfold sys_free. cbn [a_ptr a_live a_trace]. destruct (Z.eqb_spec p 0) as [E0|N0].
      * eexists. split; [reflexivity|]. cbn [a_live a_trace]. split; [reflexivity|]. apply HA.
        apply (accounted_step _ []); [exact HA1|]. intros q Hq. rewrite given_one, freed_alloc. replace (p =? q) with false by lia. reflexivity.
      * cbn [existsb fst filter]. rewrite Z.eqb_refl. cbn [orb negb]. eexists. split; [reflexivity|]. cbn [a_live a_trace]. split; [reflexivity|]. apply HA.
        apply (free_accounted _ p (a_size s + a_fb_total s)); [|exact N0|intros b []].
        apply (accounted_step _ []); [exact HA1|]. intros q Hq. rewrite given_one, freed_alloc. unfold is_live. cbn [existsb fst]. destruct (p =? q); reflexivity.
  - destruct (free_everything _ _ HI1) as [fr [E1 A1]].
    assert (EF : a_fallback s1 = []) by (rewrite <- (i_fb _ _ _ HI1); reflexivity).
    replace (sys_free (a_ptr s1) s1) with (x <- sys_free (a_ptr s1) s1 ;; free_list (a_fallback x) x).
    { rewrite E1. eexists. split; [reflexivity|]. cbn [with_live a_live a_trace]. split; [reflexivity|]. apply HA. exact A1. }
    unfold sys_free. destruct (a_ptr s1 =? 0); cbn [bind]; [rewrite EF; reflexivity|].
    destruct (existsb _ _); cbn [bind a_fallback]; [rewrite EF|]; reflexivity.
Qed.

(** Sizes, when no system call fails. *)
Lemma step_sizes : forall dbg avoid o s fbs bs p s', Inv s fbs bs -> valid_op o -> step sys dbg avoid o s = Ok (p, s') ->
  (exists t, a_trace s' = a_trace s ++ t) /\
  (~ some_call_failed (a_trace s') ->
   a_size s <= a_size s' /\ a_current s + a_fb_total s <= a_size s + a_fb_total s /\
   (is_alloc o -> a_size s' = a_size s /\ a_current s' + a_fb_total s' = a_current s + a_fb_total s + need avoid o) /\
   (o = OFreeAll -> a_size s' = a_size s + a_fb_total s /\ a_current s' = 0 /\ a_fallback s' = [] /\ a_fb_total s' = 0)).
Proof.
  intros dbg avoid o s fbs bs p s' HI Hv E. pose proof (i_cur _ _ _ HI) as Hc.
  destruct (no_bytes o) eqn:Hn.
  { rewrite step_no_bytes in E by exact Hn. injection E as _ <-. split; [exists []; rewrite app_nil_r; reflexivity|]. intros _.
    split; [lia|]. split; [lia|]. split.
    - intros Ha. split; [reflexivity|]. destruct o as [n|n a|]; cbn [no_bytes need] in *; [|rewrite Hn; lia|discriminate].
      replace n with 0 by lia. change (rounded 0) with 0. lia.
    - intros ->. discriminate. }
  assert (HO : o = OFreeAll \/ is_alloc o) by (destruct o; cbn; auto). destruct HO as [-> | Ha].
  - cbn [step] in E. destruct (free_all_spec sys s fbs bs HI) as [s1 [E1 HF]]. rewrite E1 in E. cbn [bind] in E. injection E as _ <-.
    pose proof (inv_total_nonneg _ _ _ HI). destruct HF as [EF|q t NF Eq HA [fr Ht]].
    + split; [exists []; rewrite app_nil_r; reflexivity|]. intros _. cbn [reset_current a_size a_current a_fb_total a_fallback].
      assert (Ez : a_fb_total s = 0) by (rewrite <- (i_total _ _ _ HI), (fbs_nil _ _ _ HI EF); reflexivity).
      split; [lia|]. split; [lia|]. split; [intros []|]. intros _. split; [lia|]. split; [reflexivity|]. split; [exact EF|exact Ez].
    + cbn [a_trace a_size a_current a_fb_total a_fallback]. split; [exists (map SFree fr ++ [SAlloc true (a_size s + a_fb_total s) q]); rewrite Ht, <- app_assoc; reflexivity|].
      intros _. split; [lia|]. split; [lia|]. split; [intros []|]. auto.
  - destruct (step_alloc dbg avoid o s fbs bs HI Hv Ha Hn) as [q [s1 [off [_ [HS [EP [_ [_ ER]]]]]]]]. rewrite EP in E. injection E as _ <-. rewrite ER in HS.
    inversion HS as [Hf Hp Eq|x Hl Eq Hx Es|Hl Eq Es]; subst.
    + cbn [a_trace a_size a_current a_fb_total]. split; [exists []; rewrite app_nil_r; reflexivity|]. intros _. split; [lia|]. split; [lia|]. split; [intros _; lia|]. intros ->. destruct Ha.
    + unfold slow_state. cbn [a_trace a_size a_current a_fb_total]. split; [eexists; reflexivity|]. intros _. split; [lia|]. split; [lia|]. split; [intros _; lia|]. intros ->. destruct Ha.
    + unfold failed_state. cbn [a_trace a_size a_current a_fb_total]. split; [eexists; reflexivity|]. intros NF. exfalso. apply NF.
      eexists _, _. apply in_app_iff. right. left. reflexivity.
Qed.

Lemma failed_app : forall a b, ~ some_call_failed (a ++ b) -> ~ some_call_failed a.
Proof. intros a b H [g [n Hi]]. apply H. exists g, n. apply in_app_iff. left. exact Hi. Qed.

Lemma growth_some : forall t, growth_failed t -> some_call_failed t.
Proof. intros t [n H]. exists true, n. exact H. Qed.

(** The log of system calls only grows. *)
Definition extends (t' t : list sys_event) : Prop := exists u, t' = t ++ u.
Lemma ext_refl : forall t, extends t t.
Proof. intros t. exists []. rewrite app_nil_r. reflexivity. Qed.
Lemma ext_snoc : forall t e, extends (t ++ [e]) t.
Proof. intros t e. exists [e]. reflexivity. Qed.
Lemma ext_trans : forall a b c, extends a b -> extends b c -> extends a c.
Proof. intros a b c [u ->] [v ->]. exists (v ++ u). rewrite app_assoc. reflexivity. Qed.

Lemma sys_free_trace : forall p s s', sys_free p s = Ok s' -> extends (a_trace s') (a_trace s).
Proof.
  intros p s s' H. unfold sys_free in H. destruct (p =? 0); [injection H as <-; apply ext_refl|].
  destruct (existsb _ _); [|discriminate]. injection H as <-. apply ext_snoc.
Qed.
Lemma free_list_trace : forall l s s', free_list l s = Ok s' -> extends (a_trace s') (a_trace s).
Proof.
  induction l as [|p l IH]; intros s s' H; cbn [free_list] in H; [injection H as <-; apply ext_refl|].
  apply bind_ok in H. destruct H as [s1 [H1 H2]]. eapply ext_trans; [apply IH; exact H2|]. eapply sys_free_trace. exact H1.
Qed.
Lemma free_all_trace : forall s s', free_all sys s = Ok s' -> extends (a_trace s') (a_trace s).
Proof.
  intros s s' H. unfold free_all in H. cbn [a_fallback] in H. destruct (a_fallback s) as [|p l]; [injection H as <-; apply ext_refl|].
  apply bind_ok in H. destruct H as [s1 [H1 H]]. apply bind_ok in H. destruct H as [s2 [H2 H]]. apply bind_ok in H. destruct H as [z [_ H]].
  unfold sys_alloc in H. injection H as <-. cbn [a_trace]. eapply ext_trans; [apply ext_snoc|].
  eapply ext_trans; [eapply free_list_trace; exact H2|]. apply sys_free_trace in H1. exact H1.
Qed.
Lemma allocate_bytes_trace : forall dbg n s p s', allocate_bytes sys dbg n s = Ok (p, s') -> extends (a_trace s') (a_trace s).
Proof.
  intros dbg n s p s' H. unfold allocate_bytes in H. destruct (n =? 0); [injection H as _ <-; apply ext_refl|].
  apply bind_ok in H. destruct H as [k [_ H]]. apply bind_ok in H. destruct H as [[q s1] [H1 H]].
  assert (E : a_trace s1 = a_trace s).
  { unfold allocate_fast in H1. apply bind_ok in H1. destruct H1 as [e [_ H1]]. destruct (a_size s <? e); injection H1 as _ <-; reflexivity. }
  rewrite <- E. destruct (q =? 0); [|injection H as _ <-; apply ext_refl].
  unfold allocate_slow, sys_alloc in H. destruct (sys (a_trace s1) (a_live s1) k =? 0); [injection H as _ <-; apply ext_snoc|].
  apply bind_ok in H. destruct H as [t [_ H]]. injection H as _ <-. apply ext_snoc.
Qed.
Lemma step_trace : forall dbg avoid o s p s', step sys dbg avoid o s = Ok (p, s') -> extends (a_trace s') (a_trace s).
Proof.
  intros dbg avoid o s p s' H. destruct o as [n|n a|]; cbn [step] in H.
  - eapply allocate_bytes_trace. exact H.
  - unfold allocate_bytes_avoiding in H. destruct avoid; [|eapply allocate_bytes_trace; exact H].
    destruct (n =? 0); [injection H as _ <-; apply ext_refl|]. apply bind_ok in H. destruct H as [k [_ H]]. apply bind_ok in H. destruct H as [[q s1] [H1 H]].
    apply allocate_bytes_trace in H1. destruct (q =? 0); injection H as _ <-; exact H1.
  - apply bind_ok in H. destruct H as [s1 [H1 H]]. injection H as _ <-. eapply free_all_trace. exact H1.
Qed.
Lemma run_trace : forall dbg avoid ops s bs s' bs', run sys dbg avoid ops s bs = Ok (s', bs') -> extends (a_trace s') (a_trace s).
Proof.
  induction ops as [|o ops IH]; intros s bs s' bs' H; [injection H as <- _; apply ext_refl|].
  rewrite run_cons in H. apply bind_ok in H. destruct H as [[p s1] [H1 H]]. eapply ext_trans; [eapply IH; exact H|]. eapply step_trace. exact H1.
Qed.
Lemma ext_ok : forall t' t, extends t' t -> ~ some_call_failed t' -> ~ some_call_failed t.
Proof. intros t' t [u ->] H. eapply failed_app. exact H. Qed.

(** A run with no failing call. *)
Lemma run_sizes : forall dbg avoid ops s fbs bs s' bs', Inv s fbs bs -> Forall valid_op ops ->
  run sys dbg avoid ops s bs = Ok (s', bs') -> ~ some_call_failed (a_trace s') ->
  (exists fbs', Inv s' fbs' bs') /\ a_size s <= a_size s' /\
  (Forall is_alloc ops -> a_size s' = a_size s /\ a_current s' + a_fb_total s' = a_current s + a_fb_total s + total avoid ops).
Proof.
  induction ops as [|o ops IH]; intros s fbs bs s' bs' HI Hv E NF.
  - injection E as <- <-. split; [exists fbs; exact HI|]. split; [lia|]. intros _. cbn [total fold_right]. lia.
  - inversion Hv as [|? ? Ho Hops]; subst. rewrite run_cons in E.
    destruct (step_inv dbg avoid o s fbs bs HI Ho) as [p [s1 [E1 HI1]]]. rewrite E1 in E. cbn [bind] in E.
    assert (NF1 : ~ some_call_failed (a_trace s1)) by (eapply ext_ok; [eapply run_trace; exact E|exact NF]).
    destruct HI1 as [G|[fbs1 HI1]]; [exfalso; apply NF1; apply growth_some; exact G|].
    destruct (step_sizes dbg avoid o s fbs bs p s1 HI Ho E1) as [_ S1]. destruct (S1 NF1) as [A1 [_ [A2 _]]].
    destruct (IH s1 fbs1 _ s' bs' HI1 Hops E NF) as [B1 [B2 B3]]. split; [exact B1|]. split; [lia|].
    intros HF. inversion HF as [|? ? F1 F2]; subst. destruct (A2 F1). destruct (B3 F2). cbn [total fold_right]. fold (total avoid ops). lia.
Qed.

(** A finished history of rounds. *)
Lemma history_sizes : forall dbg avoid rounds s bs s' bs', Inv s [] bs -> a_current s = 0 -> Forall (Forall valid_op) rounds -> Forall (Forall is_alloc) rounds ->
  run sys dbg avoid (history rounds) s bs = Ok (s', bs') -> ~ some_call_failed (a_trace s') ->
  (exists bs0, Inv s' [] bs0) /\ a_current s' = 0 /\ a_size s <= a_size s' /\ forall r, In r rounds -> total avoid r <= a_size s'.
Proof.
  induction rounds as [|r rounds IH]; intros s bs s' bs' HI Hc Hv Ha E NF.
  - injection E as <- <-. split; [exists bs; exact HI|]. split; [exact Hc|]. split; [lia|]. intros r [].
  - inversion Hv as [|? ? V1 V2]; subst. inversion Ha as [|? ? A1 A2]; subst.
    unfold history in E. cbn [map concat] in E. fold (history rounds) in E. rewrite <- app_assoc, run_app in E. apply bind_ok in E. destruct E as [[s1 bs1] [E1 E]].
    rewrite run_app in E. apply bind_ok in E. destruct E as [[s2 bs2] [E2 E]].
    assert (NF2 : ~ some_call_failed (a_trace s2)) by (eapply ext_ok; [eapply run_trace; exact E|exact NF]).
    assert (NF1 : ~ some_call_failed (a_trace s1)) by (eapply ext_ok; [eapply run_trace; exact E2|exact NF2]).
    destruct (run_sizes dbg avoid r s [] bs s1 bs1 HI V1 E1 NF1) as [[fbs1 HI1] [Z1 Z2]]. destruct (Z2 A1) as [Z3 Z4].
    rewrite run_cons in E2. apply bind_ok in E2. destruct E2 as [[p s2'] [E2 E3]]. cbn [run] in E3. injection E3 as -> <-.
    destruct (step_inv dbg avoid OFreeAll s1 fbs1 bs1 HI1 Logic.I) as [p' [s3 [E3 [G|[fbs3 HI3]]]]]; rewrite E2 in E3; injection E3 as <- <-; [exfalso; apply NF2; apply growth_some; exact G|].
    destruct (step_sizes dbg avoid OFreeAll s1 fbs1 bs1 p s2 HI1 Logic.I E2) as [_ S1]. destruct (S1 NF2) as [Y1 [Y2 [_ Y3]]]. destruct (Y3 eq_refl) as [Y4 [Y5 [Y6 Y7]]].
    rewrite (fbs_nil _ _ _ HI3 Y6) in HI3. cbn [blocks_after] in HI3.
    destruct (IH s2 [] s' bs' HI3 Y5 V2 A2 E NF) as [I1 [I2 [I3 I4]]]. split; [exact I1|]. split; [exact I2|].
    pose proof (inv_total_nonneg _ _ _ HI). split; [lia|]. intros r' [<- | Hr]; [|apply I4; exact Hr]. lia.
Qed.

(** A round that fits in the buffer. *)
Lemma round_in_buffer : forall dbg avoid r s bs, Inv s [] bs -> ~ some_call_failed (a_trace s) -> Forall valid_op r -> Forall is_alloc r -> a_current s + total avoid r <= a_size s ->
  exists s' bs', run sys dbg avoid r s bs = Ok (s', bs') /\ Inv s' [] bs' /\ a_trace s' = a_trace s /\ length bs' = (length bs + length (filter requests_bytes r))%nat.
Proof.
  induction r as [|o r IH]; intros s bs HI NF Hv Ha Hfit.
  - exists s, bs. split; [reflexivity|]. split; [exact HI|]. split; [reflexivity|]. cbn [filter length]. lia.
  - inversion Hv as [|? ? V1 V2]; subst. inversion Ha as [|? ? A1 A2]; subst. cbn [total fold_right] in Hfit. fold (total avoid r) in Hfit.
    assert (HT : forall l, Forall valid_op l -> 0 <= total avoid l).
    { clear. induction l as [|o l IH]; intros H; cbn [total fold_right]; [lia|]. fold (total avoid l). inversion H as [|? ? H1 H2]; subst. specialize (IH H2).
      enough (0 <= need avoid o) by lia. destruct o as [n|n a|]; cbn [need valid_op] in *; [| |lia].
      - pose proof (rounded_bounds n). lia.
      - destruct (n =? 0); [lia|]. pose proof (rounded_bounds n). pose proof (rounded_bounds (n + 1024)). destruct avoid; lia. }
    specialize (HT r V2).
    rewrite run_cons. destruct (no_bytes o) eqn:Hn.
    + rewrite step_no_bytes by exact Hn. cbn [bind].
      assert (HB : blocks_after o 0 bs = bs) by (destruct o; [reflexivity|reflexivity|destruct A1]). rewrite HB.
      assert (HN : need avoid o = 0) by (destruct o as [n|n a|]; cbn [no_bytes need] in *; [replace n with 0 by lia; reflexivity|rewrite Hn; reflexivity|reflexivity]).
      assert (HQ : requests_bytes o = false) by (destruct o as [n|n a|]; cbn [no_bytes requests_bytes] in *; [rewrite Hn|rewrite Hn|]; reflexivity).
      cbn [filter]. rewrite HQ. apply IH; auto. lia.
    + destruct (step_alloc dbg avoid o s [] bs HI V1 A1 Hn) as [q [s1 [off [_ [HS [EP [O1 [O2 ER]]]]]]]].
      destruct (step_inv dbg avoid o s [] bs HI V1) as [p2 [s2 [E2 HI2]]].
      rewrite ER in HS. inversion HS as [Hf Hp Eq|x Hl Eq Hx Es|Hl Eq Es]; subst; try lia.
      rewrite EP in E2 |- *. cbn [bind]. replace (a_ptr s + a_current s =? 0) with false in * by lia. injection E2 as <- <-.
      destruct HI2 as [G|[fbs2 HI2]]; [exfalso; apply NF; apply growth_some; exact G|].
      assert (EF : a_fallback s = []) by (rewrite <- (i_fb _ _ _ HI); reflexivity).
      rewrite (fbs_nil _ _ _ HI2 EF) in HI2.
      edestruct (IH _ _ HI2) as [s' [bs' [R1 [R2 [R3 R4]]]]]; [exact NF|exact V2|exact A2|cbn [a_current a_size]; lia|].
      exists s', bs'. split; [exact R1|]. split; [exact R2|]. split; [exact R3|]. rewrite R4. cbn [filter].
      assert (HQ : requests_bytes o = true) by (destruct o as [n|n a|]; cbn [no_bytes requests_bytes is_alloc] in *; [rewrite Hn|rewrite Hn|destruct A1]; reflexivity).
      rewrite HQ. cbn [length]. assert (HL : length (blocks_after o (a_ptr s + a_current s + off) bs) = S (length bs)).
      { destruct o as [n|n a|]; cbn [blocks_after is_alloc] in *; [| |destruct A1]; replace (a_ptr s + a_current s + off =? 0) with false by lia; reflexivity. }
      rewrite HL. lia.
Qed.
End Sys.

(** C25. *)
Lemma blocks_usable : forall sys dbg avoid ops, good_system sys -> Forall valid_op ops ->
  growth_fails sys dbg avoid ops \/
  exists s bs, run sys dbg avoid ops a_init [] = Ok (s, bs) /\ usable (a_live s) bs.
Proof.
  intros sys dbg avoid ops Hs Hv. destruct (run_inv sys Hs dbg avoid ops a_init [] [] init_inv Hv) as [G|[s [fbs [bs [E HI]]]]]; [left; exact G|right].
  exists s, bs. split; [exact E|]. apply (inv_usable _ _ _ HI).
Qed.

Lemma blocks_freed_once : forall sys dbg avoid ops, good_system sys -> Forall valid_op ops ->
  growth_fails sys dbg avoid ops \/
  exists s bs s', run sys dbg avoid ops a_init [] = Ok (s, bs) /\ destroy sys s = Ok s' /\ a_live s' = [] /\ freed_once (a_trace s').
Proof.
  intros sys dbg avoid ops Hs Hv. destruct (run_inv sys Hs dbg avoid ops a_init [] [] init_inv Hv) as [G|[s [fbs [bs [E HI]]]]]; [left; exact G|right].
  destruct (destroy_ok sys Hs s fbs bs HI) as [s' [D1 D2]]. exists s, bs, s'. auto.
Qed.

(** C26. *)
Lemma steady_state : forall sys dbg avoid rounds r1 r2 s bs, good_system sys ->
  Forall (Forall valid_op) (r2 :: rounds) -> Forall (Forall is_alloc) (r2 :: rounds) ->
  run sys dbg avoid (history rounds) a_init [] = Ok (s, bs) -> ~ some_call_failed (a_trace s) ->
  In r1 rounds -> total avoid r2 <= total avoid r1 ->
  exists s' bs' s'', run sys dbg avoid r2 s [] = Ok (s', bs') /\ length bs' = length (filter requests_bytes r2) /\
    run sys dbg avoid [OFreeAll] s' bs' = Ok (s'', []) /\ a_trace s'' = a_trace s.
Proof.
  intros sys dbg avoid rounds r1 r2 s bs Hs Hv Ha E NF Hr Ht.
  inversion Hv as [|? ? V1 V2]; subst. inversion Ha as [|? ? A1 A2]; subst.
  destruct (history_sizes sys Hs dbg avoid rounds a_init [] s bs init_inv eq_refl V2 A2 E NF) as [[bs0 HI] [Hc [_ Hb]]]. specialize (Hb r1 Hr).
  assert (HI0 : Inv s [] []).
  { pose proof (reset_inv _ _ _ HI) as R. replace (reset_current s) with s in R; [exact R|]. destruct s; cbn in Hc |- *. subst. reflexivity. }
  destruct (round_in_buffer sys Hs dbg avoid r2 s [] HI0 NF V1 A1 ltac:(lia)) as [s' [bs' [R1 [R2 [R3 R4]]]]].
  exists s', bs', (reset_current s'). split; [exact R1|]. split; [exact R4|].
  assert (EF : a_fallback s' = []) by (rewrite <- (i_fb _ _ _ R2); reflexivity).
  split; [|exact R3]. cbn [run step]. unfold free_all. cbn [a_fallback]. rewrite EF. cbn [bind]. unfold reset_current. rewrite EF. reflexivity.
Qed.

(** C27. *)
Lemma avoids_aliasing : forall sys dbg n a s p s', 0 < n <= 2 ^ 61 ->
  allocate_bytes_avoiding sys dbg true n a s = Ok (p, s') -> p <> 0 ->
  256 <= (p - a) mod 1024 <= 768 /\
  exists q, allocate_bytes sys dbg (n + 1024) s = Ok (q, s') /\ inside (p, n) (q, n + 1024) /\ ((64 | q) -> (64 | p)).
Proof.
  intros sys dbg n a s p s' Hn E Hp. rewrite avoiding_eq in E by exact Hn. apply bind_ok in E. destruct E as [[q s1] [E1 E]].
  destruct (Z.eqb_spec q 0); [injection E as <- _; contradiction|]. injection E as <- <-.
  destruct (offset_ok q a) as [O1 O2]. split; [exact O2|]. exists q. split; [exact E1|]. split.
  - unfold inside. cbn [fst snd]. lia.
  - intros H. apply Z.divide_add_r; [exact H|]. destruct O1 as [-> | ->]; [exists 0|exists 8]; reflexivity.
Qed.

(** C28. *)
Lemma out_of_memory : forall sys dbg avoid ops o n s bs, good_system sys -> Forall valid_op ops -> valid_op o -> requested o = Some n -> 0 < n ->
  run sys dbg avoid ops a_init [] = Ok (s, bs) -> ~ growth_fails sys dbg avoid ops ->
  exists p s', step sys dbg avoid o s = Ok (p, s') /\
    ((p = 0 /\ usable (a_live s') bs /\ exists m, n <= m /\ a_trace s' = a_trace s ++ [SAlloc false m 0]) \/
     (p <> 0 /\ usable (a_live s') ((p, n) :: bs))).
Proof.
  intros sys dbg avoid ops o n s bs Hs Hv Ho Hq Hn E NG.
  destruct (run_inv sys Hs dbg avoid ops a_init [] [] init_inv Hv) as [G|[s0 [fbs [bs0 [E0 HI]]]]]; [contradiction|].
  rewrite E0 in E. injection E as -> ->.
  assert (Ha : is_alloc o) by (destruct o; [exact Logic.I|exact Logic.I|discriminate]).
  assert (Hb : no_bytes o = false) by (destruct o as [k|k a|]; cbn [no_bytes requested] in *; [injection Hq as ->; lia|injection Hq as ->; lia|reflexivity]).
  assert (HR : request false o = n) by (destruct o; cbn [request requested] in *; congruence).
  destruct (step_alloc sys Hs dbg avoid o s fbs bs HI Ho Ha Hb) as [q [s1 [off [_ [HS [EP [O1 [O2 ER]]]]]]]].
  assert (HR2 : n <= request avoid o) by (destruct o; destruct avoid; cbn [request] in *; try destruct Ha; lia).
  pose proof (rounded_bounds (request avoid o)) as RB.
  exists (if q =? 0 then 0 else q + off), s1. split; [exact EP|].
  destruct (alloc_spec_inv sys Hs s fbs bs (rounded (request avoid o)) _ HI ltac:(lia) (rounded_64 _) HS) as [p [s' [Er [[-> [-> HI']]|[P1 [P2 HI']]]]]].
  - injection Er as -> ->. left. split; [reflexivity|]. split; [apply (inv_usable _ _ _ HI')|]. exists (rounded (request avoid o)). split; [lia|reflexivity].
  - injection Er as -> ->. right. replace (p =? 0) with false by lia. split; [lia|].
    destruct (HI' (p + off) n) as [fbs' H]; [lia| | |apply (inv_usable _ _ _ H)].
    + apply Z.divide_add_r; [exact P2|]. destruct O1 as [-> | ->]; [exists 0|exists 8]; reflexivity.
    + unfold inside. cbn [fst snd]. lia.
Qed.

(** Systems for examples. *)
Lemma top_above : forall live b, In b live -> fst b + snd b <= top live.
Proof.
  induction live as [|c l IH]; intros b H; [destruct H|]. cbn [top fold_right]; fold (top l). destruct H as [<- | H]; [lia|]. specialize (IH b H). lia.
Qed.
Lemma top_pos : forall live, 64 <= top live.
Proof. induction live as [|c l IH]; cbn [top fold_right]; [lia|]. fold (top l). lia. Qed.
Lemma example_system_good : forall fails, good_system (example_system fails).
Proof.
  intros fails past live n. unfold example_system. destruct (fails past); [intros N; exfalso; apply N; reflexivity|].
  destruct (Z.leb_spec (rounded (top live) + n) (2 ^ 62)) as [Hl|Hl]; [|intros N; exfalso; apply N; reflexivity]. intros _.
  pose proof (rounded_bounds (top live)). pose proof (top_pos live). split; [lia|]. split; [apply rounded_64|]. split; [lia|].
  intros b Hb. pose proof (top_above live b Hb). right. cbn [fst snd]. lia.
Qed.

Lemma out_of_memory_wrong : exists sys dbg avoid ops s bs, good_system sys /\ Forall valid_op ops /\
  run sys dbg avoid ops a_init [] = Ok (s, bs) /\ a_live s = [] /\ bs <> [].
Proof.
  exists (example_system (fun past => existsb (fun e => match e with SFree _ => true | _ => false end) past)), true, true,
    [OAlloc 64; OAlloc 100; OFreeAll; OAlloc 64; OAlloc 64].
  eexists _, _. split; [apply example_system_good|]. split; [repeat constructor; cbn; lia|]. split; [vm_compute; reflexivity|].
  split; [reflexivity|discriminate].
Qed.
