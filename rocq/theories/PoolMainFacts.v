(** The calling thread preserves the invariant of the thread pool and is never undefined. *)
From Verif Require Import Base ThreadPool ThreadPoolFacts.

(** Ltac and lemmas about roles. *)
Lemma wok_known : forall ep mv cmv oak c k w ep' mv' cmv' oak' c', wok RKnown ep mv cmv oak c k w ->
  seen k w mv' -> full oak' k w mv' -> (ep' = true -> full oak' k w cmv' /\ seen k w cmv') ->
  wok RKnown ep' mv' cmv' oak' c' k w.
Proof.
  intros ep mv cmv oak c k w ep' mv' cmv' oak' c' [P R G C H X K] S F E. destruct R as (R1 & R2 & R3 & R4 & R5).
  constructor; auto.
  - clear - P R1. destruct (w_pc w) as [| | | | | | | |[]| |]; try discriminate; exact P.
  - intros _ A. congruence.
  - intros A _ _ _. destruct (E A). auto.
Qed.

Lemma wok_known_given : forall ep mv cmv oak c k w, wok RKnown ep mv cmv oak c k w -> wok RGiven ep mv cmv oak c k w.
Proof.
  intros ep mv cmv oak c k w [P R G C H X K]. destruct R as (R1 & R2 & R3 & R4 & R5). constructor; auto.
  - congruence.
  - intros A B D _. apply C; auto; discriminate.
Qed.

Lemma known_not_busy : forall ep mv cmv oak c k w, wok RKnown ep mv cmv oak c k w -> busy w = false.
Proof.
  intros ep mv cmv oak c k w [P R G C H X K]. destruct R as (R1 & R2 & R3 & R4 & R5). unfold busy. rewrite R2.
  destruct (w_pc w); try discriminate; reflexivity.
Qed.

Lemma nbusy_all_zero : forall ws n, (forall k, (k < n)%nat -> busy (ws k) = false) -> nbusy ws n = 0.
Proof. intros ws n H. induction n as [|n IH]; cbn [nbusy]; [reflexivity|]. rewrite IH, H by (intros; try apply H; lia). reflexivity. Qed.

(** After a Wait: a worker that is not busy has come back. *)
Lemma given_known : forall mv cmv oak c k w mv', wok RGiven true mv cmv oak c k w -> busy w = false -> vle cmv mv' ->
  wok RKnown false mv' cmv oak c k w.
Proof.
  intros mv cmv oak c k w mv' [P R G C H X K] B (L1 & L2 & L3 & L4). specialize (L2 k). specialize (L3 k). specialize (L4 k).
  unfold busy in B. apply Bool.orb_false_iff in B. destruct B as (B1 & B2). apply tstate_eqb_neq in B2.
  assert (D : after_dec (w_pc w) = true /\ newest (w_hist w) = Ready).
  { assert (D : after_dec (w_pc w) = true -> newest (w_hist w) <> Startup).
    { clear - P. destruct (w_pc w) as [| | | | | | | |[]| |]; try discriminate; intros _; tauto. }
    assert (D' : after_dec (w_pc w) = true).
    { clear - P R B1 B2. destruct (w_pc w) as [| | | | | | | |[]| |]; try discriminate; try reflexivity; exfalso; tauto. }
    split; [exact D'|]. specialize (D D'). destruct (newest (w_hist w)); congruence. }
  destruct D as (D1 & D2). destruct (C eq_refl D2 D1) as ((C1 & C2) & C3 & C4); [discriminate|]. unfold seen, full in *.
  constructor; auto; unfold seen, full.
  - repeat (split; [assumption|]). lia.
  - discriminate.
Qed.

Section Main.
Variables (dbg : bool) (ch : choice) (s : st).
Hypothesis I : inv s.
Notation goal_ := (exists s', main_step dbg ch s = Ok s' /\ inv s').
Notation W m v oa c k := (wok (role_of m k) (in_epoch m) v (newest_view (s_count s)) (oa k%nat) c k (s_ws s k)).

(** Steps that change neither workers nor the counter. *)
Definition with_main script call m v oa log clog : st := {|
  s_script := script; s_call := call; s_main := m; s_view := v; s_n := s_n s;
  s_ws := s_ws s; s_count := s_count s; s_cmutex := s_cmutex s; s_oa := oa; s_log := log; s_clog := clog |}.

Lemma inv_main : forall script call m v oa log clog,
  Forall (fun n => 1 <= n <= int_max) script -> main_ok m (s_n s) ->
  (forall k, (k < s_n s)%nat -> W m v oa call k) ->
  ungiven m (s_n s) = ungiven (s_main s) (s_n s) ->
  (in_epoch m = true -> in_epoch (s_main s) = true /\ forall t, (vc v <= t < lc s)%nat -> h_val (s_count s) t <> 0) ->
  (in_epoch m = false -> (lc s <= vc v)%nat) ->
  (forall k, (s_n s <= k)%nat -> (oa k <= vo v k)%nat) ->
  mhold_c m = mhold_c (s_main s) -> msleep m = false -> (mtest m = true -> mtest (s_main s) = true /\ (vc (s_view s) <= vc v)%nat) ->
  (munlock m = true -> newest (s_count s) = 0 /\ (lc s <= vc v)%nat /\ vle (newest_view (s_count s)) v) ->
  inv (with_main script call m v oa log clog).
Proof using I.
  intros script call m v oa log clog H1 H2 H3 H4 H5 H6 H7 H8 H9 H10 H11. pose proof I as [i_script0 i_pc0 i_w0 i_count0 i_max0 i_epoch0 i_known0 i_obj0 i_cheld0 i_cmheld0 i_cfree0 i_cwake0 i_unlock0]. constructor; cbn; auto.
  - rewrite H4. exact i_count0.
  - intros E. apply H5. exact E.
  - rewrite H8. exact i_cheld0.
  - rewrite H8. exact i_cmheld0.
  - rewrite H8. exact i_cfree0.
  - intros E Z. destruct (H5 E) as (E' & _). destruct (i_cwake0 E' Z) as [A|(A & B & C & D)]; [left; exact A|right].
    split; [exact H9|]. split; [|split; [exact C|exact D]]. intros T. destruct (H10 T) as (T' & L). specialize (B T'). clear - B L. lia.
Qed.

(** The common case: same role for all workers, nothing but the program counter changes. *)
Lemma inv_moved : forall m log clog,
  main_ok m (s_n s) -> (forall k, (k < s_n s)%nat -> role_of m k = role_of (s_main s) k) -> in_epoch m = in_epoch (s_main s) ->
  ungiven m (s_n s) = ungiven (s_main s) (s_n s) -> mhold_c m = mhold_c (s_main s) -> msleep m = false -> mtest m = false -> munlock m = false ->
  inv (with_main (s_script s) (s_call s) m (s_view s) (s_oa s) log clog).
Proof using I.
  intros m log clog H1 H2 H3 H4 H5 H6 H7 H8. pose proof I as [i_script0 i_pc0 i_w0 i_count0 i_max0 i_epoch0 i_known0 i_obj0 i_cheld0 i_cmheld0 i_cfree0 i_cwake0 i_unlock0]. apply inv_main; auto; try congruence.
  - intros k Hk. rewrite H2 by exact Hk. rewrite H3. auto.
  - intros E. rewrite H3 in E. auto.
  - intros E. rewrite H3 in E. auto.
Qed.

Ltac moved m log clog := eexists; split; [reflexivity|]; apply (inv_moved m log clog); auto.

Lemma known_zero : (forall k, (k < s_n s)%nat -> role_of (s_main s) k = RKnown) -> ungiven (s_main s) (s_n s) = 0 -> newest (s_count s) = 0.
Proof using I.
  intros H U. rewrite (i_count s I), U, nbusy_all_zero; [reflexivity|]. intros k Hk. eapply known_not_busy.
  rewrite <- (H k Hk). apply (i_w s I k Hk).
Qed.

Lemma all_ordered_ok : forall m a b, (forall k, (k < m)%nat -> (a k <= b k)%nat) -> all_ordered m a b = Ok tt.
Proof using.
  intros m a b H. induction m as [|m IH]; cbn [all_ordered]; [reflexivity|]. rewrite ordered_ok by (apply H; lia). cbn [bind]. apply IH. intros; apply H; lia.
Qed.

Definition used_view (n : Z) : view := set_vo (s_view s) (fun k => if Z.of_nat k <? n - 1 then S (s_oa s k) else vo (s_view s) k).
Lemma use_tasks_ok : forall n, (forall k, (k < s_n s)%nat -> role_of (s_main s) k = RKnown) ->
  use_tasks n s = Ok (set_view (set_oa s (bump n (s_oa s))) (used_view n)).
Proof using I.
  intros n H. unfold use_tasks. rewrite all_ordered_ok; [reflexivity|]. intros k _. destruct (Nat.lt_ge_cases k (s_n s)) as [L|L].
  - pose proof (i_w s I k L) as W. rewrite (H k L) in W. destruct W as [_ R _ _ _ _ _]. destruct R as (_ & _ & _ & _ & R). apply R.
  - apply (i_obj s I). exact L.
Qed.
Lemma used_known : forall n m c, (forall k, (k < s_n s)%nat -> role_of (s_main s) k = RKnown) ->
  (forall k, (k < s_n s)%nat -> role_of m k = RKnown) -> in_epoch m = false ->
  forall k, (k < s_n s)%nat -> W m (used_view n) (bump n (s_oa s)) c k.
Proof using I.
  intros n m c H1 H2 H3 k Hk. pose proof (i_w s I k Hk) as W0. rewrite (H1 k Hk) in W0. rewrite (H2 k Hk), H3.
  pose proof W0 as [_ R _ _ _ _ _]. destruct R as (_ & _ & _ & R4 & R5 & R6). unfold full, seen in *.
  eapply wok_known; [exact W0|exact R4| |discriminate]. unfold full, used_view, bump. cbn. split; [exact R5|]. destruct (Z.of_nat k <? n - 1); lia.
Qed.
Lemma used_obj : forall n k, (s_n s <= k)%nat -> (bump n (s_oa s) k <= vo (used_view n) k)%nat.
Proof using I. intros n k H. pose proof (i_obj s I k H). unfold bump, used_view. cbn. destruct (Z.of_nat k <? n - 1); lia. Qed.

Lemma mstep_next : s_main s = MNext -> goal_.
Proof using I.
  intros E. unfold main_step. rewrite E. pose proof I as [i_script0 i_pc0 i_w0 i_count0 i_max0 i_epoch0 i_known0 i_obj0 i_cheld0 i_cmheld0 i_cfree0 i_cwake0 i_unlock0]. destruct (s_script s) as [|n rest] eqn:Es.
  - eexists; split; [reflexivity|]. apply (inv_moved (MExit 0) (s_log s) (s_clog s)); rewrite ?E; auto; cbn; clear; lia.
  - inversion i_script0 as [|? ? Hn Hr]; subst.
    assert (Kn : forall k, (k < s_n s)%nat -> role_of (s_main s) k = RKnown) by (rewrite E; reflexivity).
    rewrite dcheck_ok by (apply Z.leb_le; lia). cbn [bind]. rewrite use_tasks_ok by exact Kn. cbn [bind].
    set (m := if n =? 1 then MSolo false else MCreate n).
    eexists; split; [reflexivity|]. apply (inv_main rest (S (s_call s)) m (used_view n) (bump n (s_oa s)) (s_log s ++ [ECall (S (s_call s)) n]) (s_clog s)); auto.
    + unfold m. destruct (Z.eqb_spec n 1); cbn; [exact Logic.I|]. unfold wait_bound. lia.
    + apply used_known; [exact Kn| |]; unfold m; destruct (n =? 1); reflexivity.
    + rewrite E. unfold m. destruct (n =? 1); reflexivity.
    + unfold m. destruct (n =? 1); discriminate.
    + intros _. unfold used_view. cbn. apply i_known0. rewrite E. reflexivity.
    + apply used_obj.
    + rewrite E. unfold m. destruct (n =? 1); reflexivity.
    + unfold m. destruct (n =? 1); reflexivity.
    + unfold m. destruct (n =? 1); discriminate.
    + unfold m. destruct (n =? 1); discriminate.
Qed.

Lemma mstep_return : forall n, s_main s = MReturn n -> goal_.
Proof using I.
  intros n E. unfold main_step. rewrite E. pose proof I as [i_script0 i_pc0 i_w0 i_count0 i_max0 i_epoch0 i_known0 i_obj0 i_cheld0 i_cmheld0 i_cfree0 i_cwake0 i_unlock0].
  assert (Kn : forall k, (k < s_n s)%nat -> role_of (s_main s) k = RKnown) by (rewrite E; reflexivity).
  rewrite use_tasks_ok by exact Kn. cbn [bind]. eexists; split; [reflexivity|].
  apply (inv_main (s_script s) (s_call s) MNext (used_view n) (bump n (s_oa s)) (s_log s ++ [EReturn (s_call s)]) (s_clog s)); rewrite ?E; auto; try discriminate.
  - exact Logic.I.
  - apply used_known; [exact Kn|reflexivity|reflexivity].
  - intros _. unfold used_view. cbn. apply i_known0. rewrite E. reflexivity.
  - apply used_obj.
Qed.

Lemma mstep_solo : forall b, s_main s = MSolo b -> goal_.
Proof using I.
  intros b E. unfold main_step. rewrite E. pose proof I as [i_script0 i_pc0 i_w0 i_count0 i_max0 i_epoch0 i_known0 i_obj0 i_cheld0 i_cmheld0 i_cfree0 i_cwake0 i_unlock0]. destruct b; eexists; (split; [reflexivity|]).
  - apply (inv_moved (MReturn 1) (s_log s ++ [EEnd (s_call s, 0%nat) Main]) (s_clog s)); rewrite ?E; auto. cbn. unfold int_max. lia.
  - apply (inv_moved (MSolo true) (s_log s ++ [EBegin (s_call s, 0%nat) Main]) (s_clog s)); rewrite ?E; auto; try exact Logic.I.
Qed.

Lemma wrap_u_id : forall x, 0 <= x <= int_max -> wrap_u 32 x = x.
Proof using. intros x H. unfold wrap_u. apply Z.mod_small. unfold int_max in H. lia. Qed.

Lemma mstep_create : forall n, s_main s = MCreate n -> goal_.
Proof using I.
  intros n E. unfold main_step. rewrite E. pose proof (i_pc s I) as P. rewrite E in P. cbn in P. unfold wait_bound in P.
  rewrite dcheck_ok by (apply Z.leb_le; lia). cbn [bind]. rewrite wrap_u_id by lia. eexists; split; [reflexivity|].
  apply (inv_moved _ (s_log s) (s_clog s)); rewrite ?E; destruct (Z.leb_spec (n - 1) (Z.of_nat (s_n s))); auto; cbn; unfold wait_bound; lia.
Qed.

Lemma mstep_resetload : forall e, s_main s = MResetLoad e -> goal_.
Proof using I.
  intros e E. unfold main_step. rewrite E. pose proof I as [i_script0 i_pc0 i_w0 i_count0 i_max0 i_epoch0 i_known0 i_obj0 i_cheld0 i_cmheld0 i_cfree0 i_cwake0 i_unlock0]. unfold load_count.
  rewrite pick_newest by (apply i_known0; rewrite E; reflexivity). fold (newest (s_count s)).
  rewrite known_zero by (rewrite E; reflexivity). rewrite dcheck_ok by reflexivity. cbn [bind].
  eexists; split; [reflexivity|]. apply (inv_moved (MResetStore e) (s_log s) (s_clog s)); rewrite ?E; auto. rewrite E in i_pc0. exact i_pc0.
Qed.

Lemma mstep_resetstore : forall e, s_main s = MResetStore e -> goal_.
Proof using I.
  intros e E. unfold main_step. rewrite E. pose proof I as [i_script0 i_pc0 i_w0 i_count0 i_max0 i_epoch0 i_known0 i_obj0 i_cheld0 i_cmheld0 i_cfree0 i_cwake0 i_unlock0].
  assert (Kn : (lc s <= vc (s_view s))%nat) by (apply i_known0; rewrite E; reflexivity).
  rewrite ordered_ok by exact Kn. cbn [bind].
  assert (Z0 : nbusy (s_ws s) (s_n s) = 0).
  { apply nbusy_all_zero. intros k Hk. pose proof (i_w0 k Hk) as W0. rewrite E in W0. eapply known_not_busy. exact W0. }
  set (m' := match e with ECreate n => MSpawn n | ERun n => MStart n 0 end).
  set (v' := set_vc (s_view s) (S (lc s))).
  assert (Ec : epoch_count s e = ungiven m' (s_n s) /\ 0 < epoch_count s e <= int_max).
  { rewrite E in i_pc0. destruct e as [n|n]; cbn in i_pc0 |- *; unfold wait_bound in i_pc0.
    - unfold wrap_s, wrap_u. rewrite (Z.mod_small (n - 1 - Z.of_nat (s_n s))) by (unfold int_max in *; lia).
      unfold int_max in *. rewrite Z.mod_small by lia. cbn. lia.
    - lia. }
  destruct Ec as (Ec1 & Ec2). set (x := epoch_count s e) in *.
  assert (Em : in_epoch m' = true /\ mhold_c m' = false /\ mtest m' = false /\ msleep m' = false /\ munlock m' = false).
  { unfold m'. destruct e; auto. }
  destruct Em as (M1 & M2 & M3 & M4 & M5).
  eexists; split; [reflexivity|].
  constructor; cbn [s_script s_main s_n s_call s_view s_ws s_count s_cmutex s_oa set_worker cemit set_count set_main set_view]; auto; fold m'; try congruence.
  - rewrite E in i_pc0. clear - i_pc0. unfold m'. destruct e; cbn in *; unfold wait_bound in *; lia.
  - intros k Hk. rewrite newest_view_push, M1. fold v'. pose proof (i_w0 k Hk) as W0. rewrite E in W0. cbn in W0.
    pose proof W0 as [_ R _ _ _ _ _]. destruct R as (_ & _ & _ & R4 & R5).
    assert (W1 : wok RKnown true v' v' (s_oa s k) (s_call s) k (s_ws s k)) by (eapply wok_known; [exact W0|exact R4|exact R5|auto]).
    unfold m'. destruct e; cbn; [apply wok_known_given; exact W1|exact W1].
  - rewrite newest_push. clear - Ec1 Z0. lia.
  - rewrite newest_push. clear - Ec2. lia.
  - intros _ t Ht. exfalso. unfold v' in Ht. cbn in Ht. clear - Ht. lia.
  - intros k Hk. rewrite M2. intros Hw. pose proof (i_cheld0 k Hk Hw) as X. rewrite E in X. exact X.
  - intros Hc. specialize (i_cfree0 Hc). rewrite E in i_cfree0. destruct i_cfree0 as [A|A]; [discriminate|auto].
  - intros _. rewrite newest_push. clear - Ec2. lia.
Qed.

Lemma mstep_spawn : forall n, s_main s = MSpawn n -> goal_.
Proof using I.
  intros n E. unfold main_step. rewrite E. pose proof I as [i_script0 i_pc0 i_w0 i_count0 i_max0 i_epoch0 i_known0 i_obj0 i_cheld0 i_cmheld0 i_cfree0 i_cwake0 i_unlock0]. rewrite E in i_pc0. cbn in i_pc0. unfold wait_bound in i_pc0.
  rewrite wrap_u_id by lia. destruct (Z.ltb_spec (Z.of_nat (s_n s)) (n - 1)) as [L|L].
  2: { eexists; split; [reflexivity|]. apply (inv_moved (MWait (ECreate n) PCheck) (s_log s) (s_clog s)); rewrite ?E; auto; cbn; unfold wait_bound; lia. }
  eexists; split; [reflexivity|]. set (w' := new_worker (s_view s)).
  assert (Kw : forall k, (k < S (s_n s))%nat -> k = s_n s \/ (k < s_n s)%nat) by (clear; intros; lia).
  assert (Uo : forall k, (k < s_n s)%nat -> upd (s_ws s) (s_n s) w' k = s_ws s k) by (clear; intros k Hk; apply upd_other; lia).
  rewrite E in *. cbn in i_w0, i_count0.
  assert (Nb : nbusy (upd (s_ws s) (s_n s) w') (S (s_n s)) = nbusy (s_ws s) (s_n s) + 1).
  { cbn [nbusy]. rewrite upd_same, (nbusy_ext _ (s_ws s)); [reflexivity|]. intros k Hk. rewrite Uo by exact Hk. reflexivity. }
  constructor; cbn [s_script s_main s_n s_call s_view s_ws s_count s_cmutex s_oa]; auto.
  - cbn. unfold wait_bound. lia.
  - intros k Hk. cbn. destruct (Kw k Hk) as [->|Hk']; [|rewrite Uo by exact Hk'; auto]. rewrite upd_same.
    constructor; unfold seen, full; cbn; try discriminate.
    + pose proof (i_obj0 (s_n s) ltac:(lia)). repeat split; try lia. left. auto.
    + intuition discriminate.
    + intuition discriminate.
  - rewrite Nb, i_count0. cbn. lia.
  - intros k Hk. apply i_obj0. clear - Hk. lia.
  - intros k Hk Hw. destruct (Kw k Hk) as [->|Hk']; [rewrite upd_same in Hw; discriminate|]. rewrite Uo in Hw by exact Hk'.
    destruct (i_cheld0 k Hk' Hw) as (A & B & C). split; [exact A|]. split; [exact B|]. intros j Hj Hw'.
    destruct (Kw j Hj) as [->|Hj']; [rewrite upd_same in Hw'; discriminate|]. rewrite Uo in Hw' by exact Hj'. auto.
  - intros Hc. destruct (i_cfree0 Hc) as [A|(k & Hk & A)]; [auto|]. right. exists k. split; [clear - Hk; lia|]. rewrite Uo by exact Hk. exact A.
  - intros _ Z. exfalso. pose proof (nbusy_bounds (s_ws s) (s_n s)). lia.
Qed.

Lemma mstep_start : forall n k, s_main s = MStart n k -> goal_.
Proof using I.
  intros n k E. unfold main_step. rewrite E. pose proof I as [i_script0 i_pc0 i_w0 i_count0 i_max0 i_epoch0 i_known0 i_obj0 i_cheld0 i_cmheld0 i_cfree0 i_cwake0 i_unlock0]. rewrite E in i_pc0. cbn in i_pc0. unfold wait_bound in i_pc0.
  eexists; split; [reflexivity|]. destruct (Z.ltb_spec (Z.of_nat k + 1) n) as [L|L].
  - apply (inv_moved (MChange (GStart n) k CsLoad) (s_log s) (s_clog s)); rewrite ?E; auto; try exact Logic.I.
    + cbn. unfold wait_bound. lia.
    + intros j Hj. cbn [role_of role_change]. destruct (j <? k)%nat; [reflexivity|]. destruct (j =? k)%nat; reflexivity.
  - apply (inv_main (s_script s) (s_call s) (MRun n false) (s_view s) (s_oa s) (s_log s) (s_clog s)); rewrite ?E; auto; try discriminate.
    + cbn. unfold wait_bound. lia.
    + intros j Hj. pose proof (i_w0 j Hj) as W0. rewrite E in W0. cbn [role_of in_epoch] in *. destruct (j <? k)%nat; [exact W0|].
      apply wok_known_given. exact W0.
    + cbn. lia.
    + intros _. split; [reflexivity|]. apply i_epoch0. rewrite E. reflexivity.
Qed.

Lemma mstep_run : forall n b, s_main s = MRun n b -> goal_.
Proof using I.
  intros n b E. unfold main_step. rewrite E. pose proof (i_pc s I) as P. rewrite E in P. destruct b; eexists; (split; [reflexivity|]).
  - apply (inv_moved (MWait (ERun n) PCheck) (s_log s ++ [EEnd (s_call s, 0%nat) Main]) (s_clog s)); rewrite ?E; auto; try exact Logic.I.
  - apply (inv_moved (MRun n true) (s_log s ++ [EBegin (s_call s, 0%nat) Main]) (s_clog s)); rewrite ?E; auto; try exact Logic.I.
Qed.

Lemma mstep_exit : forall k, s_main s = MExit k -> goal_.
Proof using I.
  intros k E. unfold main_step. rewrite E. pose proof (i_pc s I) as P. rewrite E in P. cbn in P.
  eexists; split; [reflexivity|]. destruct (Nat.ltb_spec k (s_n s)) as [L|L].
  - apply (inv_moved (MChange GExit k CsLoad) (s_log s) (s_clog s)); rewrite ?E; auto; try exact Logic.I.
    + cbn. split; [exact L|discriminate].
    + intros j Hj. cbn [role_of role_change]. destruct (j <? k)%nat; [reflexivity|]. destruct (j =? k)%nat; reflexivity.
  - apply (inv_moved (MJoin 0) (s_log s) (s_clog s)); rewrite ?E; auto; try exact Logic.I.
    + cbn. lia.
    + intros j Hj. cbn [role_of]. destruct (Nat.ltb_spec j k); [reflexivity|lia].
Qed.

Lemma mstep_join : forall k, s_main s = MJoin k -> goal_.
Proof using I.
  intros k E. unfold main_step. rewrite E. pose proof I as [i_script0 i_pc0 i_w0 i_count0 i_max0 i_epoch0 i_known0 i_obj0 i_cheld0 i_cmheld0 i_cfree0 i_cwake0 i_unlock0]. rewrite E in i_pc0. cbn in i_pc0.
  destruct (Nat.ltb_spec k (s_n s)) as [L|L].
  2: { eexists; split; [reflexivity|]. apply (inv_moved MDone (s_log s) (s_clog s)); rewrite ?E; auto. exact Logic.I. }
  pose proof (i_w0 k L) as W0. rewrite E in W0. destruct W0 as [P R _ _ _ _ _]. destruct R as (R1 & R2). unfold seen in R2.
  rewrite pick_newest by exact R2. fold (newest (w_hist (s_ws s k))). rewrite R1. rewrite dcheck_ok by reflexivity. cbn [bind].
  destruct (w_pc (s_ws s k)); try (eexists; split; [reflexivity|exact I]).
  eexists; split; [reflexivity|].
  pose proof (vle_join_l (s_view s) (w_view (s_ws s k))) as Vl.
  apply (inv_main (s_script s) (s_call s) (MJoin (S k)) (vjoin (s_view s) (w_view (s_ws s k))) (s_oa s) (s_log s) (s_clog s)); rewrite ?E; auto; try discriminate.
  - intros j Hj. pose proof (i_w0 j Hj) as Wj. rewrite E in Wj. eapply wok_mono; [exact Wj| |apply vle_at_refl]. apply vle_vle_at. exact Vl.
  - intros _. assert (X : in_epoch (s_main s) = false) by (rewrite E; reflexivity). specialize (i_known0 X). destruct Vl as (Vl & _). lia.
  - intros j Hj. specialize (i_obj0 j Hj). destruct Vl as (_ & _ & _ & Vl). specialize (Vl j). lia.
Qed.

Lemma mstep_done : s_main s = MDone -> goal_.
Proof using I. intros E. unfold main_step. rewrite E. eexists. split; [reflexivity|exact I]. Qed.

(** Views that grow except for what concerns worker [k]. *)
Definition vle_but (k : nat) (a b : view) : Prop := (vc a <= vc b)%nat /\ (forall j, vo a j <= vo b j)%nat /\ forall j, j <> k -> vle_at j a b.
Lemma vle_vle_but : forall k a b, vle a b -> vle_but k a b.
Proof using. intros k a b (A & B & C & D). repeat split; auto. Qed.
Lemma but_set_vt : forall k v t, vle_but k v (set_vt v k t).
Proof using. intros k v t. repeat split; cbn; auto; rewrite upd_other by assumption; auto. Qed.
Lemma but_set_vs : forall k v t, vle_but k v (set_vs v k t).
Proof using. intros k v t. repeat split; cbn; auto; rewrite upd_other by assumption; auto. Qed.

(** Steps that change the state of one worker. *)
Lemma inv_change : forall m v k w', (k < s_n s)%nat -> main_ok m (s_n s) ->
  (forall j, j <> k -> role_of m j = role_of (s_main s) j) -> in_epoch m = in_epoch (s_main s) -> vle_but k (s_view s) v ->
  wok (role_of m k) (in_epoch (s_main s)) v (newest_view (s_count s)) (s_oa s k) (s_call s) k w' ->
  b2z (busy w') + ungiven m (s_n s) = b2z (busy (s_ws s k)) + ungiven (s_main s) (s_n s) ->
  whold_c (w_pc w') = whold_c (w_pc (s_ws s k)) -> wnotify_c (w_pc w') = wnotify_c (w_pc (s_ws s k)) ->
  w_view w' = w_view (s_ws s k) -> mhold_c (s_main s) = false -> mhold_c m = false -> msleep m = false -> mtest m = false -> munlock m = false ->
  inv {| s_script := s_script s; s_call := s_call s; s_main := m; s_view := v; s_n := s_n s;
         s_ws := upd (s_ws s) k w'; s_count := s_count s; s_cmutex := s_cmutex s; s_oa := s_oa s; s_log := s_log s; s_clog := s_clog s |}.
Proof using I.
  intros m v k w' Hk H1 H2 H3 H4 H5 H6 H7 H8 H9 H10 H11 H12 H13 H14.
  pose proof I as [i_script0 i_pc0 i_w0 i_count0 i_max0 i_epoch0 i_known0 i_obj0 i_cheld0 i_cmheld0 i_cfree0 i_cwake0 i_unlock0].
  assert (U1 : forall j, whold_c (w_pc (upd (s_ws s) k w' j)) = whold_c (w_pc (s_ws s j))).
  { intros j. destruct (Nat.eq_dec j k) as [->|Ej]; [rewrite upd_same; exact H7|rewrite upd_other by exact Ej; reflexivity]. }
  assert (U2 : forall j, wnotify_c (w_pc (upd (s_ws s) k w' j)) = wnotify_c (w_pc (s_ws s j))).
  { intros j. destruct (Nat.eq_dec j k) as [->|Ej]; [rewrite upd_same; exact H8|rewrite upd_other by exact Ej; reflexivity]. }
  assert (U3 : forall j, w_view (upd (s_ws s) k w' j) = w_view (s_ws s j)).
  { intros j. destruct (Nat.eq_dec j k) as [->|Ej]; [rewrite upd_same; exact H9|rewrite upd_other by exact Ej; reflexivity]. }
  pose proof H4 as (L1 & L4 & L2).
  constructor; cbn [s_script s_main s_n s_call s_view s_ws s_count s_cmutex s_oa]; rewrite ?H3; auto; try congruence.
  - intros j Hj. destruct (Nat.eq_dec j k) as [->|Ej]; [rewrite upd_same; exact H5|]. rewrite upd_other, H2 by exact Ej.
    eapply wok_mono; [apply i_w0; exact Hj|apply L2; exact Ej|apply vle_at_refl].
  - rewrite nbusy_upd by exact Hk. clear - H6 i_count0. lia.
  - intros E t Ht. apply i_epoch0; [exact E|]. clear - L1 Ht. lia.
  - intros E. specialize (i_known0 E). clear - L1 i_known0. lia.
  - intros j Hj. specialize (i_obj0 j Hj). specialize (L4 j). clear - i_obj0 L4. lia.
  - intros j Hj. rewrite U1. intros Hw. destruct (i_cheld0 j Hj Hw) as (A & B & C). split; [exact A|]. split; [exact H11|].
    intros i Hi. rewrite U1. auto.
  - intros Hc. destruct (i_cfree0 Hc) as [A|(j & Hj & A)]; [congruence|]. right. exists j. rewrite U1. auto.
  - intros E Z. destruct (i_cwake0 E Z) as [(j & Hj & A & B)|(A & B & C & D)].
    + left. exists j. rewrite U2, U3. auto.
    + right. split; [exact H12|]. split; [congruence|]. split; [exact C|]. intros j Hj. rewrite U1, U3. auto.
Qed.

Lemma ltb_irr : forall j, (j <? j)%nat = false. Proof using. intros. apply Nat.ltb_irrefl. Qed.

(** Roles in MChange. *)
Lemma role_at : forall g k c, role_of (MChange g k c) k = role_change (match g with GStart _ => false | GExit => true end) c.
Proof using. intros [n|] k c; cbn [role_of]; rewrite ltb_irr, Nat.eqb_refl; reflexivity. Qed.
Lemma role_elsewhere : forall g k c c' j, j <> k -> role_of (MChange g k c) j = role_of (MChange g k c') j.
Proof using. intros [n|] k c c' j H; cbn [role_of]; apply Nat.eqb_neq in H; rewrite H; reflexivity. Qed.
Lemma role_after : forall g k c j, j <> k ->
  role_of (match g with GStart n => MStart n (S k) | GExit => MExit (S k) end) j = role_of (MChange g k c) j.
Proof using.
  intros [n|] k c j H; cbn [role_of]; pose proof H as H'; apply Nat.eqb_neq in H'; rewrite H';
  destruct (Nat.ltb_spec j (S k)), (Nat.ltb_spec j k); try reflexivity; lia.
Qed.
Lemma role_after_at : forall g k, 
  role_of (match g with GStart n => MStart n (S k) | GExit => MExit (S k) end) k = match g with GStart _ => RGiven | GExit => RExited end.
Proof using. intros [n|] k; cbn [role_of]; destruct (Nat.ltb_spec k (S k)); try reflexivity; lia. Qed.
Lemma change_bound : forall g k c, s_main s = MChange g k c -> (k < s_n s)%nat.
Proof using I. intros g k c E. pose proof (i_pc s I) as P. rewrite E in P. destruct g; cbn in P; lia. Qed.

Ltac mchange E g k := eexists; split; [reflexivity|];
  eapply inv_change with (k := k); [exact (change_bound _ _ _ E)| | | | | | | | | | | | | |]; rewrite ?E; cbn [s_view set_view set_worker set_main]; try reflexivity.

Lemma mstep_csload : forall g k, s_main s = MChange g k CsLoad -> goal_.
Proof using I.
  intros g k E. unfold main_step. rewrite E. pose proof (i_pc s I) as P. rewrite E in P.
  pose proof (i_w s I k (change_bound _ _ _ E)) as W0. rewrite E, role_at in W0. cbn [role_change] in W0. destruct W0 as [_ R _ _ _ _ _].
  destruct R as (_ & R2 & _ & R4 & _). unfold seen in R4. rewrite pick_newest by exact R4. fold (newest (w_hist (s_ws s k))). rewrite R2.
  rewrite dcheck_ok by (destruct g; reflexivity). cbn [bind]. eexists; split; [reflexivity|].
  destruct g as [n|].
  - apply (inv_moved (MChange (GStart n) k CsTask) (s_log s) (s_clog s)); rewrite ?E; auto.
  - apply (inv_moved (MChange GExit k CsStore) (s_log s) (s_clog s)); rewrite ?E; auto.
    cbn in *. split; [apply P|discriminate].
Qed.

Lemma mstep_cstask : forall g k, s_main s = MChange g k CsTask -> goal_.
Proof using I.
  intros g k E. unfold main_step. rewrite E. pose proof (i_pc s I) as P. rewrite E in P. pose proof (change_bound _ _ _ E) as Hk.
  destruct g as [n|]; [|cbn in P; destruct P; congruence].
  pose proof (i_w s I k Hk) as W0. rewrite E, role_at in W0. cbn [role_change in_epoch] in W0. destruct W0 as [Pp R G C H X K].
  destruct R as (R1 & R2 & R3 & R4 & R5 & R6). unfold full, seen in *. rewrite ordered_ok by exact R5. cbn [bind].
  rewrite R3, dcheck_ok by reflexivity. cbn [bind]. mchange E g k.
  - exact P.
  - intros j Hj. apply role_elsewhere. exact Hj.
  - apply but_set_vt.
  - rewrite role_at. cbn [role_change in_epoch]. constructor; unfold full, seen; cbn; rewrite ?upd_same; auto.
    + clear - Pp R1. destruct (w_pc (s_ws s k)) as [| | | | | | | |[]| |]; try discriminate; exact Pp.
    + repeat split; auto.
    + congruence.
    + congruence.
Qed.

Lemma mstep_csstore : forall g k, s_main s = MChange g k CsStore -> goal_.
Proof using I.
  intros g k E. unfold main_step. rewrite E. pose proof (i_pc s I) as P. rewrite E in P. pose proof (change_bound _ _ _ E) as Hk.
  pose proof (i_w s I k Hk) as W0. rewrite E, role_at in W0. destruct W0 as [Pp R G C H X K].
  assert (R' : after_dec (w_pc (s_ws s k)) = true /\ newest (w_hist (s_ws s k)) = Ready /\ seen k (s_ws s k) (s_view s) /\ full (s_oa s k) k (s_ws s k) (s_view s)).
  { clear - R. destruct g; cbn in R; tauto. }
  destruct R' as (R1 & R2 & R4 & R5 & R6). unfold full, seen in *. rewrite ordered_ok by exact R4. cbn [bind].
  set (x := match g with GStart _ => HasWork | GExit => ExitASAP end).
  assert (Nx : x <> Ready /\ x <> Startup) by (unfold x; destruct g; split; discriminate).
  assert (Na : active (w_pc (s_ws s k)) = false) by (clear - R1; destruct (w_pc (s_ws s k)); try discriminate; reflexivity).
  mchange E g k.
  - clear - P. destruct g; cbn in *; auto. split; [apply P|discriminate].
  - intros j Hj. apply role_elsewhere. exact Hj.
  - apply but_set_vs.
  - rewrite role_at. constructor; unfold full, seen; cbn [w_pc w_view w_hist w_task w_ta w_mutex w_set_hist h_ts hpush h_val set_vs vs vo vt];
      rewrite ?newest_push, ?newest_view_push, ?upd_same; auto.
    + assert (Z : x <> Startup /\ (x = Ready -> (S (h_ts (w_hist (s_ws s k))) <= vs (w_view (s_ws s k)) k)%nat) /\
        (x <> Ready -> (S (h_ts (w_hist (s_ws s k))) <= S (vs (w_view (s_ws s k)) k))%nat /\
           ((S (h_ts (w_hist (s_ws s k))) <= vs (w_view (s_ws s k)) k)%nat \/
            upd (h_val (w_hist (s_ws s k))) (S (h_ts (w_hist (s_ws s k)))) x (Nat.pred (S (h_ts (w_hist (s_ws s k))))) = Ready))).
      { split; [apply Nx|]. split; [intros Z; destruct Nx; contradiction|]. intros _.
        assert (Sn : (h_ts (w_hist (s_ws s k)) <= vs (w_view (s_ws s k)) k)%nat).
        { clear - Pp R1 R2. destruct (w_pc (s_ws s k)) as [| | | | | | | |[]| |]; try discriminate; apply Pp; exact R2. }
        split; [clear - Sn; lia|]. right. cbn [Nat.pred]. rewrite upd_other by (clear; lia). exact R2. }
      clear - R1 Z. destruct (w_pc (s_ws s k)) as [| | | | | | | |[]| |]; try discriminate; exact Z.
    + unfold x. destruct g; cbn [role_change].
      * split; [left; reflexivity|]. intros _. clear. lia.
      * split; [reflexivity|]. clear. lia.
    + intros _ Hx. destruct g as [n|]; [|discriminate]. cbn in R. split; [apply R|]. split; [exact R5|exact R6].
    + intros _ Hx. destruct Nx. contradiction.
    + rewrite H. destruct g; cbn; clear; tauto.
    + destruct g; cbn; clear; intuition discriminate.
    + intros _ _. cbn. discriminate.
  - unfold busy. cbn [w_pc w_hist w_set_hist]. rewrite newest_push, Na, R2. unfold x. clear. destruct g; cbn [tstate_eqb orb b2z ungiven]; lia.
Qed.

Lemma mstep_cslock : forall g k, s_main s = MChange g k CsLock -> goal_.
Proof using I.
  intros g k E. unfold main_step. rewrite E. pose proof (i_pc s I) as P. rewrite E in P. pose proof (change_bound _ _ _ E) as Hk.
  destruct (w_mutex (s_ws s k)) as [m|] eqn:Em; [|eexists; split; [reflexivity|exact I]].
  pose proof (i_w s I k Hk) as W0. rewrite E, role_at in W0. destruct W0 as [Pp R G C H X K]. rewrite Em in *.
  assert (Wh : whold (w_pc (s_ws s k)) = false).
  { clear - H. destruct (whold (w_pc (s_ws s k))); [|reflexivity]. destruct H as [_ H]. specialize (H (or_introl eq_refl)). discriminate. }
  mchange E g k.
  - clear - P. destruct g; cbn in *; auto. split; [apply P|discriminate].
  - intros j Hj. apply role_elsewhere. exact Hj.
  - apply vle_vle_but, vle_join_l.
  - rewrite role_at. unfold full, seen in *. constructor; unfold full, seen; cbn [w_pc w_view w_hist w_task w_ta w_mutex w_set_mutex]; auto.
    + clear - R. destruct g; cbn in *; (split; [apply R|]); [intros A|]; destruct R as (_ & R); [specialize (R A)|]; lia.
    + intros A B D _. apply C; auto. clear. destruct g; discriminate.
    + cbn. clear. intuition.
    + rewrite Wh. clear. intuition discriminate.
    + intros _ _. destruct g; discriminate.
Qed.

Lemma mstep_csnotify : forall g k, s_main s = MChange g k CsNotify -> goal_.
Proof using I.
  intros g k E. unfold main_step. rewrite E. pose proof (i_pc s I) as P. rewrite E in P. pose proof (change_bound _ _ _ E) as Hk.
  pose proof (i_w s I k Hk) as W0. rewrite E, role_at in W0. destruct W0 as [Pp R G C H X K].
  set (w' := match w_pc (s_ws s k) with WWait PSleep => w_set_pc (s_ws s k) (WWait PRelock) | _ => s_ws s k end).
  assert (Mn : w_mutex (s_ws s k) = None) by (apply H; right; destruct g; reflexivity).
  assert (Wh : whold (w_pc (s_ws s k)) = false).
  { clear - X. destruct (whold (w_pc (s_ws s k))); [|reflexivity]. exfalso. apply X. destruct g; auto. }
  assert (A1 : w_hist w' = w_hist (s_ws s k) /\ w_task w' = w_task (s_ws s k) /\ w_ta w' = w_ta (s_ws s k) /\ w_view w' = w_view (s_ws s k) /\
    w_mutex w' = w_mutex (s_ws s k)).
  { unfold w'. destruct (w_pc (s_ws s k)) as [| | | | | | | |[]| |]; auto. }
  destruct A1 as (A1 & A2 & A3 & A4 & A5).
  assert (A6 : after_dec (w_pc w') = after_dec (w_pc (s_ws s k)) /\ whold (w_pc w') = whold (w_pc (s_ws s k)) /\ w_pc w' <> WWait PSleep /\ w_pc w' <> WWait PTest /\
    active (w_pc w') = active (w_pc (s_ws s k)) /\ whold_c (w_pc w') = whold_c (w_pc (s_ws s k)) /\ wnotify_c (w_pc w') = wnotify_c (w_pc (s_ws s k))).
  { unfold w'. clear - Wh. destruct (w_pc (s_ws s k)) as [| | | | | | | |[]| |] eqn:Ep; rewrite ?Ep; try discriminate Wh; cbn; repeat (split; [reflexivity || discriminate|]); reflexivity. }
  destruct A6 as (B1 & B2 & B3 & B4 & B5 & B6 & B7).
  mchange E g k.
  - clear - P. destruct g; cbn in *; auto. split; [apply P|discriminate].
  - intros j Hj. apply role_elsewhere. exact Hj.
  - apply vle_vle_but, vle_refl.
  - rewrite role_at. fold w'. unfold full, seen in *. constructor; unfold full, seen; rewrite ?A1, ?A2, ?A3, ?A4, ?A5, ?B1, ?B2; auto.
    + unfold w'. clear - Pp. destruct (w_pc (s_ws s k)) as [| | | | | | | |[]| |] eqn:Ep; rewrite ?Ep; exact Pp.
    + intros A B D _. apply C; auto. destruct g; discriminate.
    + intros _ _ _. split; [exact B3|]. split; [intros Z; contradiction|]. intros m Z. congruence.
  - fold w'. unfold busy. rewrite A1, B5. clear. destruct g; cbn [ungiven]; lia.
  - exact B6.
  - exact B7.
  - exact A4.
Qed.

Lemma mstep_csunlock : forall g k, s_main s = MChange g k CsUnlock -> goal_.
Proof using I.
  intros g k E. unfold main_step. rewrite E. pose proof (i_pc s I) as P. rewrite E in P. pose proof (change_bound _ _ _ E) as Hk.
  pose proof (i_w s I k Hk) as W0. rewrite E, role_at in W0. destruct W0 as [Pp R G C H X K].
  assert (Wh : whold (w_pc (s_ws s k)) = false).
  { clear - X. destruct (whold (w_pc (s_ws s k))); [|reflexivity]. exfalso. apply X. destruct g; auto. }
  eexists; split; [reflexivity|].
  eapply inv_change with (k := k); [exact Hk| | | | | | | | | | | | | |]; rewrite ?E; cbn [s_view set_view set_worker set_main]; try reflexivity; try (destruct g; reflexivity).
  - clear - P. destruct g; cbn in *; unfold wait_bound in *; lia.
  - intros j Hj. apply role_after. exact Hj.
  - apply vle_vle_but, vle_refl.
  - rewrite role_after_at. unfold full, seen in *. constructor; unfold full, seen; cbn [w_pc w_view w_hist w_task w_ta w_mutex w_set_mutex]; auto.
    + clear - R. destruct g; cbn in *; [|exact R]. destruct R as ([R|R] & _); congruence.
    + intros A B D _. apply C; auto. destruct g; discriminate.
    + rewrite Wh. clear. destruct g; cbn; intuition discriminate.
    + rewrite Wh. clear. intuition discriminate.
    + intros A B _. destruct K as (K1 & K2 & K3); [exact A|exact B|destruct g; reflexivity|]. split; [exact K1|]. split; [exact K2|].
      intros m [= <-]. clear - R A. destruct g; cbn in R; [|apply R]. destruct R as ([R|R] & R'); [auto|contradiction].
  - unfold busy. cbn [w_pc w_hist w_set_mutex]. clear. destruct g; cbn [ungiven]; lia.
Qed.

(** * Wait of the counter *)

Lemma load_count_cases : forall stale x v', in_epoch (s_main s) = true -> load_count s stale = (x, v') ->
  vle (s_view s) v' /\ (x = 0 -> newest (s_count s) = 0 /\ (lc s <= vc v')%nat /\ vle (newest_view (s_count s)) v') /\
  ((lc s <= vc (s_view s))%nat -> x = newest (s_count s)).
Proof using I.
  intros stale x v' Ep E. unfold load_count in E. injection E as Ex Ev. set (t := pick (s_count s) (vc (s_view s)) stale) in *.
  assert (Vl : vle (s_view s) v') by (subst v'; eapply vle_trans; [|apply vle_join_l]; apply vle_set_vc; lia).
  split; [exact Vl|]. split.
  - intros ->. pose proof (pick_le (s_count s) (vc (s_view s)) stale) as Pl. fold t in Pl.
    assert (Et : t = lc s).
    { destruct (Nat.eq_dec t (lc s)) as [Z|Z]; [exact Z|]. exfalso.
      destruct (Nat.le_gt_cases (lc s) (vc (s_view s))) as [L|L].
      - apply Z. apply pick_newest. exact L.
      - apply (i_epoch s I Ep t); [|exact Ex]. pose proof (pick_ge (s_count s) (vc (s_view s)) stale ltac:(lia)). fold t in H. lia. }
    rewrite Et in *. split; [exact Ex|]. subst v'. split; [cbn; lia|]. apply vle_join_r.
  - intros L. subst x. unfold newest. f_equal. apply pick_newest. exact L.
Qed.

Definition next_of (e : epoch) : mpc := match e with ECreate n => MResetLoad (ERun n) | ERun n => MReturn n end.

Lemma inv_next : forall e p v' cm, s_main s = MWait e p -> (cm = s_cmutex s /\ mhold_c (s_main s) = false) \/ (exists m, cm = Some m /\ mhold_c (s_main s) = true) ->
  newest (s_count s) = 0 -> (lc s <= vc v')%nat -> vle (s_view s) v' -> vle (newest_view (s_count s)) v' ->
  inv {| s_script := s_script s; s_call := s_call s; s_main := next_of e; s_view := v'; s_n := s_n s;
         s_ws := s_ws s; s_count := s_count s; s_cmutex := cm; s_oa := s_oa s; s_log := s_log s; s_clog := s_clog s ++ [CWait] |}.
Proof using I.
  intros e p v' cm E Hcm Z L V1 V2.
  pose proof I as [i_script0 i_pc0 i_w0 i_count0 i_max0 i_epoch0 i_known0 i_obj0 i_cheld0 i_cmheld0 i_cfree0 i_cwake0 i_unlock0].
  assert (M1 : in_epoch (next_of e) = false /\ mhold_c (next_of e) = false /\ msleep (next_of e) = false /\ mtest (next_of e) = false /\ munlock (next_of e) = false /\
    ungiven (next_of e) (s_n s) = 0 /\ forall k, role_of (next_of e) k = RKnown) by (destruct e; cbn; auto 10).
  destruct M1 as (M1 & M2 & M3 & M4 & M5 & M6 & M7).
  assert (Z0 : nbusy (s_ws s) (s_n s) = 0).
  { rewrite E in i_count0. cbn [ungiven] in i_count0. clear - i_count0 Z. lia. }
  constructor; cbn [s_script s_main s_n s_call s_view s_ws s_count s_cmutex s_oa]; auto; try congruence.
  - rewrite E in i_pc0. clear - i_pc0. destruct e; cbn in *; unfold wait_bound in *; lia.
  - intros k Hk. rewrite M7, M1. pose proof (i_w0 k Hk) as W0. rewrite E in W0. eapply given_known; [exact W0| |exact V2].
    apply nbusy_zero with (n := s_n s); assumption.
  - rewrite M6, Z0. exact Z.
  - intros k Hk. specialize (i_obj0 k Hk). destruct V1 as (_ & _ & _ & V1). specialize (V1 k). clear - i_obj0 V1. lia.
  - intros k Hk Hw. destruct (i_cheld0 k Hk Hw) as (A & B & C). split; [|auto]. destruct Hcm as [(D & _)|(m & D & F)]; congruence.
  - intros Hc. destruct Hcm as [(D & F)|(m & D & F)]; [|congruence]. rewrite D in Hc. destruct (i_cfree0 Hc) as [A|A]; [congruence|auto].
Qed.

Lemma inv_clock : forall e m v', s_cmutex s = Some m -> s_main s = MWait e PLock \/ s_main s = MWait e PRelock -> v' = vjoin (s_view s) m ->
  inv {| s_script := s_script s; s_call := s_call s; s_main := MWait e PTest; s_view := v'; s_n := s_n s;
         s_ws := s_ws s; s_count := s_count s; s_cmutex := None; s_oa := s_oa s; s_log := s_log s; s_clog := s_clog s |}.
Proof using I.
  intros e m v' Ec E Ev.
  pose proof I as [i_script0 i_pc0 i_w0 i_count0 i_max0 i_epoch0 i_known0 i_obj0 i_cheld0 i_cmheld0 i_cfree0 i_cwake0 i_unlock0].
  assert (V1 : vle (s_view s) v') by (rewrite Ev; apply vle_join_l).
  assert (M : in_epoch (s_main s) = true /\ ungiven (s_main s) (s_n s) = 0 /\ (forall k, role_of (s_main s) k = RGiven) /\ main_ok (MWait e PTest) (s_n s)).
  { destruct E as [E|E]; rewrite E in *; auto. }
  destruct M as (M1 & M2 & M3 & M4).
  constructor; cbn [s_script s_main s_n s_call s_view s_ws s_count s_cmutex s_oa]; auto; try discriminate.
  - intros k Hk. pose proof (i_w0 k Hk) as W0. rewrite M1, M3 in W0. eapply wok_mono; [exact W0|apply vle_vle_at; exact V1|apply vle_at_refl].
  - rewrite M2 in i_count0. exact i_count0.
  - intros _ t Ht. apply i_epoch0; [exact M1|]. destruct V1 as (V1 & _). clear - V1 Ht. lia.
  - intros k Hk. specialize (i_obj0 k Hk). destruct V1 as (_ & _ & _ & V1). specialize (V1 k). clear - i_obj0 V1. lia.
  - intros k Hk Hw. destruct (i_cheld0 k Hk Hw) as (A & _). congruence.
  - intros _ Z. destruct (i_cwake0 M1 Z) as [B|(B & C & D & F)]; [left; exact B|]. right. split; [reflexivity|]. split; [|split; [discriminate|exact F]].
    intros _. specialize (D m Ec). subst v'. cbn. clear - D. lia.
Qed.

Lemma mstep_wait : forall e p, s_main s = MWait e p -> goal_.
Proof using I.
  intros e p E. unfold main_step. rewrite E. destruct (load_count s (ch_stale ch)) as [x v'] eqn:EL.
  assert (Ep : in_epoch (s_main s) = true) by (rewrite E; reflexivity).
  destruct (load_count_cases _ _ _ Ep EL) as (Vl & Lz & Ln).
  pose proof I as [i_script0 i_pc0 i_w0 i_count0 i_max0 i_epoch0 i_known0 i_obj0 i_cheld0 i_cmheld0 i_cfree0 i_cwake0 i_unlock0].
  assert (Wm : forall p', forall k, (k < s_n s)%nat -> wok (role_of (MWait e p') k) (in_epoch (MWait e p')) v' (newest_view (s_count s)) (s_oa s k) (s_call s) k (s_ws s k)).
  { intros p' k Hk. pose proof (i_w0 k Hk) as W0. rewrite E in W0. eapply wok_mono; [exact W0|apply vle_vle_at; exact Vl|apply vle_at_refl]. }
  assert (Pm : forall p', main_ok (MWait e p') (s_n s)) by (intros p'; rewrite E in i_pc0; exact i_pc0).
  assert (Em : forall t, (vc v' <= t < lc s)%nat -> h_val (s_count s) t <> 0).
  { intros t Ht. apply i_epoch0; [exact Ep|]. destruct Vl as (Vl & _). clear - Vl Ht. lia. }
  assert (Om : forall k, (s_n s <= k)%nat -> (s_oa s k <= vo v' k)%nat).
  { intros k Hk. specialize (i_obj0 k Hk). destruct Vl as (_ & _ & _ & Vl). specialize (Vl k). clear - i_obj0 Vl. lia. }
  destruct p as [| | | | | |[]].
  - destruct (Z.eqb_spec x 0) as [Z|Z].
    + destruct (Lz Z) as (A & B & C). eexists; split; [reflexivity|]. eapply inv_next; try eassumption. left. rewrite E. auto.
    + eexists; split; [reflexivity|]. apply (inv_main (s_script s) (s_call s) (MWait e PSpin) v' (s_oa s) (s_log s) (s_clog s)); rewrite ?E; auto; discriminate.
  - destruct (ch_timeout ch).
    + eexists; split; [reflexivity|]. apply (inv_moved (MWait e PLock) (s_log s) (s_clog s)); rewrite ?E; auto.
    + destruct (Z.eqb_spec x 0) as [Z|Z]; [|eexists; split; [reflexivity|exact I]].
      destruct (Lz Z) as (A & B & C). eexists; split; [reflexivity|]. eapply inv_next; try eassumption. left. rewrite E. auto.
  - destruct (s_cmutex s) as [m|] eqn:Ec; [|eexists; split; [reflexivity|exact I]]. eexists; split; [reflexivity|].
    apply (inv_clock e m (vjoin (s_view s) m)); auto.
  - assert (Hc : s_cmutex s = None) by (apply i_cmheld0; rewrite E; reflexivity).
    destruct (Z.eqb_spec x 0) as [Z|Z].
    + destruct (Lz Z) as (A & B & C). eexists; split; [reflexivity|].
      apply (inv_main (s_script s) (s_call s) (MWait e (PUnlock tt)) v' (s_oa s) (s_log s) (s_clog s)); rewrite ?E; auto; discriminate.
    + eexists; split; [reflexivity|].
      constructor; cbn [s_script s_main s_n s_call s_view s_ws s_count s_cmutex s_oa set_main set_view set_cmutex]; auto; try discriminate.
      * rewrite E in i_count0. exact i_count0.
      * intros k Hk Hw. destruct (i_cheld0 k Hk Hw) as (_ & A & _). rewrite E in A. discriminate.
      * intros _ A. destruct (i_cwake0 Ep A) as [B|(B & C & D & F)]; [left; exact B|]. exfalso. apply Z. rewrite <- A. apply Ln. apply C. rewrite E. reflexivity.
  - destruct (ch_spurious ch); [|eexists; split; [reflexivity|exact I]]. eexists; split; [reflexivity|].
    apply (inv_moved (MWait e PRelock) (s_log s) (s_clog s)); rewrite ?E; auto.
  - destruct (s_cmutex s) as [m|] eqn:Ec; [|eexists; split; [reflexivity|exact I]]. eexists; split; [reflexivity|].
    apply (inv_clock e m (vjoin (s_view s) m)); auto.
  - destruct i_unlock0 as (A & B & C); [rewrite E; reflexivity|]. eexists; split; [reflexivity|].
    eapply inv_next; try eassumption; [|apply vle_refl]. right. exists (s_view s). rewrite E. auto.
Qed.

Theorem main_step_inv : goal_.
Proof using I.
  destruct (s_main s) eqn:E.
  - apply mstep_next, E. - eapply mstep_solo, E. - eapply mstep_create, E. - eapply mstep_resetload, E. - eapply mstep_resetstore, E.
  - eapply mstep_spawn, E. - eapply mstep_start, E.
  - destruct c; [eapply mstep_csload, E|eapply mstep_cstask, E|eapply mstep_csstore, E|eapply mstep_cslock, E|eapply mstep_csnotify, E|eapply mstep_csunlock, E].
  - eapply mstep_run, E. - eapply mstep_wait, E. - eapply mstep_return, E. - eapply mstep_exit, E. - eapply mstep_join, E. - apply mstep_done, E.
Qed.
End Main.

Theorem step_inv : forall dbg t ch s, inv s -> exists s', step dbg t ch s = Ok s' /\ inv s'.
Proof.
  intros dbg [|k] ch s I; cbn [step].
  - apply main_step_inv. exact I.
  - destruct (Nat.ltb_spec k (s_n s)); [apply worker_step_inv; assumption|]. exists s. auto.
Qed.

Theorem exec_inv : forall dbg sched s, inv s -> exists s', exec dbg sched s = Ok s' /\ inv s'.
Proof.
  intros dbg sched. induction sched as [|[t ch] rest IH]; intros s I; cbn [exec]; [eauto|].
  destruct (step_inv dbg t ch s I) as (s' & E & I'). rewrite E. cbn [bind]. apply IH. exact I'.
Qed.
