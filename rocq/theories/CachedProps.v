(** Histories of multiplications with cached operands. *)
From Coq Require Import Permutation.
From Verif Require Import Allocator SpecAlloc AllocFacts PrepackedCache SpecCache CacheFacts CacheProps.
From Verif Require Import Base SidePair SpecArith SizeUtil SizeUtilFacts SpecMatrix SpecPack BlockMap SpecBlockMap
  Mat MatFacts Scalars Pack PackFacts PackProps MulParams Kernel KernelFacts TrMul TrMulFacts ChannelFacts FrontEndFacts
  TrMulMachine SpecMachine TrMulRun RunFacts MulFacts SpecMul MulProps
  CachedMul SpecCached CachedFacts.

Lemma done_as_uncached : forall {V} (cl : call V) m, cacheable_call cl -> cl_defined V cl -> cl_done V cl m -> as_uncached cl (Some m).
Proof.
  intros V cl m C D F m0 E g sched. injection E as <-.
  pose proof (valid_call_ok _ _ _ _ _ _ _ _ (cc_valid _ C)) as CO. pose proof (valid_call_domain _ _ _ _ _ _ _ _ (cc_valid _ C)) as CD.
  destruct (mul_total _ (cl_config cl) (cl_ops cl) (cl_kl cl) g (cl_lhs cl) (cl_rhs cl) (cl_dst cl) (cl_mp cl) CO CD D sched) as (out & E).
  exists out. split; [exact E|]. intros m' ->.
  destruct (mul_partial _ (cl_config cl) (cl_ops cl) (cl_kl cl) g (cl_lhs cl) (cl_rhs cl) (cl_dst cl) (cl_mp cl) CO CD _ _ E) as [_ F2].
  apply (done_same (cl_ops cl) (cl_kl cl) (cl_lhs cl) (cl_rhs cl) (cl_dst cl) (cl_mp cl)); auto. destruct CO; assumption.
Qed.

Lemma none_as_uncached : forall {V} (cl : call V), as_uncached cl None.
Proof. intros V cl m E. discriminate. Qed.

Lemma computable_defined : forall {V} (cl : call V), cacheable_call cl -> computable cl -> cl_defined V cl.
Proof.
  intros V cl C (g & sched & out & E).
  apply (mul_partial _ (cl_config cl) (cl_ops cl) (cl_kl cl) g (cl_lhs cl) (cl_rhs cl) (cl_dst cl) (cl_mp cl)
    (valid_call_ok _ _ _ _ _ _ _ _ (cc_valid _ C)) (valid_call_domain _ _ _ _ _ _ _ _ (cc_valid _ C)) _ _ E).
Qed.

Section Histories.
Variable sys : list sys_event -> list (Z * Z) -> Z -> Z.
Hypothesis Hsys : good_system sys.
Variable iter : list sys_event -> list (key * PrepackedCache.entry) -> list (key * PrepackedCache.entry).
Hypothesis Hiter : good_iteration iter.
Variable max : Z.
Variables (V : Type) (calls : list (call V)).
Hypothesis Hcalls : Forall cacheable_call calls.
Hypothesis Hkeys : keys_identify calls.

Lemma lookups_valid : forall cl, In cl calls -> Forall valid_request (lookups cl).
Proof using Hcalls.
  intros cl Hcl. rewrite Forall_forall in Hcalls. unfold lookups. apply Forall_forall. intros r Hr. apply in_map_iff in Hr. destruct Hr as (s & <- & Hs).
  apply filter_In in Hs. apply request_valid; [auto|tauto].
Qed.

Lemma all_valid : forall todo, incl todo calls -> Forall valid_request (all_lookups todo).
Proof using Hcalls.
  induction todo as [|cl todo IH]; intros I; [constructor|]. unfold all_lookups. cbn [flat_map]. apply Forall_app. split.
  - apply lookups_valid. apply I. left. reflexivity.
  - apply IH. intros y Hy. apply I. right. exact Hy.
Qed.

Lemma history : forall todo c0 l tb, incl todo calls ->
  CInv c0 l tb [] -> under c0 l -> tb + bytes_requested (all_lookups todo) < 2 ^ 62 ->
  exists evs cs, run sys iter max (all_lookups todo) c0 = Ok (evs, cs) /\ (exists tr, cs_trace cs = cs_trace c0 ++ tr) /\
    (forall x, x_cache x = c0 -> XInv V calls x l tb -> ~ some_call_failed (cs_trace cs) ->
     (forall outs x', run_calls sys iter max todo x = Ok (outs, x') ->
        Forall2 as_uncached (firstn (length outs) todo) outs /\ (In None outs \/ length outs = length todo)) /\
     (Forall computable todo -> Forall (room_for_both max) todo ->
        (exists outs x', run_calls sys iter max todo x = Ok (outs, x')) /\
        forall scheds, Forall2 (fun cl sched => fair (c_max_threads (cl_config cl)) sched) todo scheds ->
          exists ns ms x', run_calls sys iter max (scheduled todo scheds ns) x = Ok (map Some ms, x') /\
            Forall2 as_uncached todo (map Some ms))).
Proof using Hsys Hiter Hcalls Hkeys.
  induction todo as [|cl todo IH]; intros c0 l tb I XC XU Htb.
  - cbn [all_lookups flat_map run]. eexists _, c0. split; [reflexivity|]. split; [exists []; rewrite app_nil_r; reflexivity|].
    intros x Hx XI NF. split.
    + cbn [run_calls]. intros outs x' E. injection E as <- <-. split; [constructor|right; reflexivity].
    + intros _ _. split; [cbn [run_calls]; eauto|]. intros scheds F. inversion F; subst. exists [], [], x. split; [reflexivity|constructor].
  - assert (Hcl : In cl calls) by (apply I; left; reflexivity).
    assert (I' : incl todo calls) by (intros y Hy; apply I; right; exact Hy).
    assert (C : cacheable_call cl) by (rewrite Forall_forall in Hcalls; auto).
    change (all_lookups (cl :: todo)) with (lookups cl ++ all_lookups todo) in *. rewrite requested_app in Htb.
    pose proof (requested_nonneg _ (all_valid todo I')) as N2.
    destruct (cached_mul_ok sys Hsys iter Hiter max V calls Hcalls Hkeys cl c0 l tb Hcl XC XU ltac:(lia)) as (ev1 & cs1 & l1 & R1 & CI1 & U1 & (tr1 & T1) & P1).
    destruct (IH cs1 l1 _ I' CI1 U1 ltac:(lia)) as (ev2 & cs2 & R2 & (tr2 & T2) & P2).
    rewrite (run_app _ _ _ _ _ _ _ _ R1), R2. cbn [bind]. eexists _, cs2. split; [reflexivity|].
    split; [exists (tr1 ++ tr2); rewrite T2, T1, app_assoc; reflexivity|].
    intros x Hx XI NF. assert (NF1 : ~ some_call_failed (cs_trace cs1)) by (rewrite T2 in NF; eapply no_failure_before; exact NF).
    destruct (P1 x Hx XI NF1) as [Q1 Q2]. split.
    + intros outs x' E. cbn [run_calls] in E.
      destruct (cached_mul sys iter max cl x) as [[out x1]| |] eqn:E1; cbn [bind] in E; try discriminate.
      rewrite <- (same_schedule V cl) in E1. destruct (Q1 _ _ _ E1) as (Ex1 & XI1 & D1). destruct out as [m|].
      * destruct (run_calls sys iter max todo x1) as [[outs2 x2]| |] eqn:E2; cbn [bind] in E; try discriminate. injection E as <- <-.
        destruct (P2 x1 Ex1 XI1 NF) as [K1 _]. destruct (K1 _ _ E2) as [F L]. cbn [length firstn]. destruct (D1 m eq_refl) as [Df Dn]. split.
        -- constructor; [apply done_as_uncached; assumption|exact F].
        -- destruct L as [L|L]; [left; right; exact L|right; congruence].
      * injection E as <- <-. cbn [length firstn]. split; [constructor; [apply none_as_uncached|constructor]|]. left. left. reflexivity.
    + intros CM RM. inversion CM as [|? ? CM1 CM2]; subst. inversion RM as [|? ? RM1 RM2]; subst.
      pose proof (computable_defined cl C CM1) as DF. destruct (Q2 DF RM1) as [Q3 Q4]. split.
      * cbn [run_calls]. destruct (Q3 (cl_sched cl)) as (out & x1 & E1). rewrite same_schedule in E1. rewrite E1. cbn [bind]. destruct out as [m|]; [|eauto].
        rewrite <- (same_schedule V cl) in E1. destruct (Q1 _ _ _ E1) as (Ex1 & XI1 & _).
        destruct (P2 x1 Ex1 XI1 NF) as [_ K2]. destruct (K2 CM2 RM2) as [(outs & x2 & E2) _]. rewrite E2. cbn [bind]. eauto.
      * intros scheds F. inversion F as [|? s ? ss F1 F2]; subst. destruct (Q4 s F1) as (n & m & x1 & E1).
        destruct (Q1 _ _ _ E1) as (Ex1 & XI1 & D1). destruct (D1 m eq_refl) as [_ Dn].
        destruct (P2 x1 Ex1 XI1 NF) as [_ K2]. destruct (K2 CM2 RM2) as [_ K3]. destruct (K3 ss F2) as (ns & ms & x2 & E2 & A2).
        exists (n :: ns), (m :: ms), x2. cbn [scheduled run_calls map]. rewrite E1. cbn [bind]. rewrite E2. cbn [bind]. split; [reflexivity|].
        constructor; [apply done_as_uncached; assumption|exact A2].
Qed.

Lemma init_xinv : forall m, XInv V calls (x_init m) [] 0.
Proof.
  intros m. constructor; cbn [x_init x_cache].
  - apply init_cinv.
  - apply init_under.
  - intros x [].
  - intros x [].
Qed.
End Histories.

(** * C33, C34 *)

Lemma cached_histories : forall V sys iter max (calls : list (call V)) m, good_system sys -> good_iteration iter ->
  Forall cacheable_call calls -> keys_identify calls -> bytes_requested (all_lookups calls) < 2 ^ 62 ->
  exists evs s, run sys iter max (all_lookups calls) cs_init = Ok (evs, s) /\
    (~ some_call_failed (cs_trace s) ->
     forall outs x, run_calls sys iter max calls (x_init m) = Ok (outs, x) ->
       Forall2 as_uncached (firstn (length outs) calls) outs /\ (In None outs \/ length outs = length calls)).
Proof.
  intros V sys iter max calls m Hs Hi HC HK HB.
  destruct (history sys Hs iter Hi max V calls HC HK calls cs_init [] 0 (incl_refl _) init_cinv init_under HB) as (evs & s & R & _ & P).
  exists evs, s. split; [exact R|]. intros NF. apply (P (x_init m) eq_refl (init_xinv V calls m) NF).
Qed.

Lemma cached_histories_complete : forall V sys iter max (calls : list (call V)) m, good_system sys -> good_iteration iter ->
  Forall cacheable_call calls -> keys_identify calls -> bytes_requested (all_lookups calls) < 2 ^ 62 ->
  Forall computable calls -> Forall (room_for_both max) calls ->
  exists evs s, run sys iter max (all_lookups calls) cs_init = Ok (evs, s) /\
    (~ some_call_failed (cs_trace s) ->
     (exists outs x, run_calls sys iter max calls (x_init m) = Ok (outs, x)) /\
     forall scheds, Forall2 (fun cl sched => fair (c_max_threads (cl_config cl)) sched) calls scheds ->
       exists ns ms x, run_calls sys iter max (scheduled calls scheds ns) (x_init m) = Ok (map Some ms, x) /\
         Forall2 as_uncached calls (map Some ms)).
Proof.
  intros V sys iter max calls m Hs Hi HC HK HB HP HR.
  destruct (history sys Hs iter Hi max V calls HC HK calls cs_init [] 0 (incl_refl _) init_cinv init_under HB) as (evs & s & R & _ & P).
  exists evs, s. split; [exact R|]. intros NF. apply (P (x_init m) eq_refl (init_xinv V calls m) NF); assumption.
Qed.

(** * C35 *)

Section Policy.
Variable sys : list sys_event -> list (Z * Z) -> Z -> Z.
Variable iter : list sys_event -> list (key * PrepackedCache.entry) -> list (key * PrepackedCache.entry).
Variable max : Z.
Variable V : Type.

Lemma side_policy : forall cl t s (x : context V) q e x', cacheable_call cl -> front V cl t ->
  prepare_side sys iter max cl t s x = Ok (q, e, x') ->
  exists evs, run sys iter max (asked V cl (dside (ml_order (m_layout (cl_dst cl))) s)) (x_cache x) = Ok (evs, x_cache x').
Proof.
  intros cl t s x q e x' C (T1 & SZ & T4 & T3 & TS & TP) E. unfold prepare_side in E. rewrite (caches_ok V cl C t T4 T1 TS s) in E. cbn [bind] in E.
  set (u := dside (ml_order (m_layout (cl_dst cl))) s) in *. unfold asked. destruct (caches cl u).
  - destruct (cached_side sys iter max cl t s x) as [[[q1 p] x1]| |] eqn:E1; cbn [bind] in E; try discriminate. injection E as <- <- <-.
    unfold cached_side in E1. rewrite addr_ok in E1. fold u in E1. rewrite TP in E1. fold u in E1. cbn [run].
    destruct (cache_get sys iter max (fst (request cl u)) (snd (request cl u)) (x_cache x)) as [[[a p1] cs]| |]; cbn [bind] in *; try discriminate.
    exists [{| ev_key := request_key (request cl u); ev_action := a; ev_mat := p1; ev_held := held cs |}].
    destruct (pe_data p1 =? 0); [discriminate|]. destruct a.
    + destruct (same_types _ _); [|discriminate]. injection E1 as _ _ <-. reflexivity.
    + destruct (pflat_size _); cbn [bind] in E1; try discriminate. destruct (run_pack _ _ _ _ _ _ _ _); cbn [bind] in E1; try discriminate.
      injection E1 as _ _ <-. reflexivity.
  - destruct (allocate_packed _ _ _ _); cbn [bind] in E; try discriminate. injection E as _ _ <-. exists []. reflexivity.
Qed.

Lemma call_policy : forall cl (x : context V) out x', cacheable_call cl -> cached_mul sys iter max cl x = Ok (out, x') ->
  exists evs, run sys iter max (lookups cl) (x_cache x) = Ok (evs, x_cache x').
Proof.
  intros cl x out x' C E.
  destruct (call_front V [cl] (Forall_cons _ C (Forall_nil _)) cl (or_introl eq_refl)) as (t & adv & EF & F & _).
  rewrite <- (same_schedule V cl) in E. rewrite (cached_mul_eq sys iter max V cl x _ t adv EF) in E.
  unfold both_sides in E. destruct (prepare_side sys iter max cl t Lhs x) as [[[pl el] x1]| |] eqn:E1; cbn [bind] in E; try discriminate.
  destruct (prepare_side sys iter max cl t Rhs x1) as [[[pr er] x2]| |] eqn:E2; cbn [bind] in E; try discriminate.
  destruct (side_policy _ _ _ _ _ _ _ C F E1) as (ev1 & R1). destruct (side_policy _ _ _ _ _ _ _ C F E2) as (ev2 & R2).
  assert (EX : x2 = x').
  { unfold rest_of_call in E. destruct (usable _ _ && usable _ _); [|discriminate].
    destruct (trmul _ _ _ _ _); cbn [bind] in E; try discriminate. injection E as _ <-. reflexivity. }
  subst x2. rewrite lookups_eq. fold (asked V cl (dside (ml_order (m_layout (cl_dst cl))) Lhs)). fold (asked V cl (dside (ml_order (m_layout (cl_dst cl))) Rhs)).
  rewrite (run_app _ _ _ _ _ _ _ _ R1), R2. cbn [bind]. eauto.
Qed.

Lemma history_policy : forall (calls : list (call V)) x outs x', Forall cacheable_call calls -> run_calls sys iter max calls x = Ok (outs, x') ->
  exists evs, run sys iter max (all_lookups (firstn (length outs) calls)) (x_cache x) = Ok (evs, x_cache x').
Proof.
  induction calls as [|cl calls IH]; intros x outs x' HC E; cbn [run_calls] in E.
  - injection E as <- <-. exists []. reflexivity.
  - inversion HC as [|? ? C HC']; subst. destruct (cached_mul sys iter max cl x) as [[out x1]| |] eqn:E1; cbn [bind] in E; try discriminate.
    destruct (call_policy cl x out x1 C E1) as (ev1 & R1). destruct out as [m|].
    + destruct (run_calls sys iter max calls x1) as [[outs2 x2]| |] eqn:E2; cbn [bind] in E; try discriminate. injection E as <- <-.
      destruct (IH _ _ _ HC' E2) as (ev2 & R2). cbn [length firstn]. unfold all_lookups in *. cbn [flat_map].
      rewrite (run_app _ _ _ _ _ _ _ _ R1), R2. cbn [bind]. eauto.
    + injection E as <- <-. cbn [length firstn]. unfold all_lookups. cbn [flat_map]. rewrite app_nil_r. eauto.
Qed.

Lemma never_cached : forall cl (x : context V), cl_policy cl = mk_sp NeverCache NeverCache ->
  cached_mul sys iter max cl x = (out <- uncached cl (cl_garbage cl) (cl_sched cl) ;; Ok (out, x)).
Proof.
  intros cl x HP. unfold cached_mul, uncached, mul, mul_by, trmul. cbv beta.
  destruct (mul_front_end _ _ _ _ _ _ _ _ _) as [[t adv]| |]; cbn [bind]; try reflexivity.
  assert (SC : forall s, should_cache t (to_sides cl (cl_policy cl)) s = Ok false).
  { intros s. unfold should_cache, to_sides. rewrite HP. destruct (ml_order _), s; reflexivity. }
  unfold prepare_side, prepare_packed_matrices. rewrite !SC. cbn [bind].
  destruct (allocate_packed t Lhs _ _) as [pl| |]; cbn [bind]; try reflexivity.
  destruct (allocate_packed t Rhs _ _) as [pr| |]; cbn [bind]; try reflexivity. cbn [usable andb is_some].
  destruct (trmul_by _ _ _ _ _ _ _) as [o| |]; reflexivity.
Qed.
End Policy.
