(** Consequences of the invariant of the registers. *)
From Verif Require Import Base SpecDenormal ThreadPool SpecPool Denormal SpecFenv DenormalFacts FenvFacts.

Section Runs.
Variables (a : fpu) (dbg : bool) (calls : list mul_call) (r : Z) (sched : list (tid * dchoice)).
Hypotheses (Vc : valid_calls calls) (Vr : a_register a r) (Vs : valid_choices a sched).

Lemma run_fine : exists s, dexec a dbg sched (dinit calls r) = Ok s /\ dinv a dbg calls s.
Proof. apply dexec_fine; [exact Vs|]. apply dinit_fine; assumption. Qed.
End Runs.

Lemma kernels_run_suppressed : forall a dbg calls r sched, valid_calls calls -> a_register a r -> valid_choices a sched ->
  exists s, dexec a dbg sched (dinit calls r) = Ok s /\ kernels_suppressed a (d_log s).
Proof.
  intros a dbg calls r sched Vc Vr Vs. destruct (run_fine a dbg calls r sched Vc Vr Vs) as (s & E & D).
  exists s. split; [exact E|]. apply (lf_kernels _ _ _ _ (di_log _ _ _ _ D)).
Qed.

Lemma registers_restored : forall a dbg calls r sched, valid_calls calls -> a_register a r -> valid_choices a sched ->
  exists s, dexec a dbg sched (dinit calls r) = Ok s /\ callers_restored (d_log s) /\ workers_restored (d_log s).
Proof.
  intros a dbg calls r sched Vc Vr Vs. destruct (run_fine a dbg calls r sched Vc Vr Vs) as (s & E & D).
  exists s. split; [exact E|]. pose proof (di_log _ _ _ _ D) as L. split.
  - intros c x H. pose proof (lf_return _ _ _ _ L c x H) as C. split; [exact C|]. intros x' C'. exact (lf_call _ _ _ _ L c x x' C C').
  - intros k x H. pose proof (lf_exit _ _ _ _ L k x H) as C. split; [exact C|]. intros x' C'. exact (lf_start _ _ _ _ L k x x' C C').
Qed.

Lemma all_tasks_observed : forall a dbg calls r sched, valid_calls calls -> a_register a r -> valid_choices a sched ->
  exists s sched', dexec a dbg sched (dinit calls r) = Ok s /\ exec dbg sched' (init (tasks_of calls)) = Ok (d_pool s) /\
                   tasks_seen (d_log s) = tasks_run (s_log (d_pool s)).
Proof.
  intros a dbg calls r sched Vc Vr Vs. destruct (run_fine a dbg calls r sched Vc Vr Vs) as (s & E & D).
  destruct (di_reach _ _ _ _ D) as (sched' & R). exists s, sched'. rewrite tasks_of_script. split; [exact E|]. split; [exact R|]. apply (di_tasks _ _ _ _ D).
Qed.

(** * An execution *)

Definition ch (to : bool) (set : option Z) : dchoice :=
  {| dc_pool := {| ch_stale := 0; ch_timeout := to; ch_spurious := false |}; dc_set := set; dc_new := 0x1fa0; dc_flags := 0x22 |}.
(** A multiplication by two threads with an operand for the cache, then one as a simple loop. *)
Definition two_muls : list mul_call := [{| mc_packs := true; mc_tasks := Some 2 |}; {| mc_packs := false; mc_tasks := None |}].
Definition some_run : list (tid * dchoice) :=
  (Main, ch false (Some 0x9f80)) :: concat (repeat [(Main, ch true None); (Worker 0, ch true None)] 60).
Lemma two_muls_valid : valid_calls two_muls.
Proof. intros m n [<-|[<-|[]]]; cbn; intros E; [injection E as <-; unfold int_max; lia|discriminate]. Qed.
Lemma some_run_valid : valid_choices Mxcsr some_run.
Proof.
  assert (H : Forall (fun x => a_register Mxcsr (dc_new (snd x)) /\ forall r, dc_set (snd x) = Some r -> a_register Mxcsr r) some_run).
  { unfold some_run. apply Forall_cons; [split; [unfold a_register; cbn; lia|intros r E; cbn in E; injection E as <-; unfold a_register; cbn; lia]|].
    apply Forall_concat. apply Forall_forall. intros l H. apply repeat_spec in H. subst l.
    repeat apply Forall_cons; try apply Forall_nil; (split; [unfold a_register; cbn; lia|intros r E; discriminate]). }
  intros t c H'. rewrite Forall_forall in H. apply (H (t, c) H').
Qed.
Definition some_log : list devent :=
  [DCall 1 0x9f80; DPack 1 0x9f80; DStart 0 0x1fa0;
   DBegin (Some (1, 0)%nat) Main 0x9fc0; DEnd (Some (1, 0)%nat) Main 0x8062; DBegin (Some (1, 1)%nat) (Worker 0) 0x9fe0; DEnd (Some (1, 1)%nat) (Worker 0) 0x8062;
   DReturn 1 0x9f80; DCall 2 0x9f80; DBegin None Main 0x9fc0; DEnd None Main 0x8062; DReturn 2 0x9f80; DExit 0 0x1fa0].

(** * Packing for the cache is done in the caller's mode. *)
Lemma packing_unsuppressed : exists a calls sched s c r, valid_calls calls /\ valid_choices a sched /\
  dexec a true sched (dinit calls 0) = Ok s /\ In (DPack c r) (d_log s) /\ ~ suppressed a r.
Proof.
  exists Mxcsr, two_muls, [(Main, ch false None); (Main, ch false None)]. eexists. exists 1%nat, 0. split; [exact two_muls_valid|].
  split; [|split; [vm_compute; reflexivity|split; [cbn; auto|]]].
  - intros t c [E|[E|[]]]; injection E as <- <-; (split; [unfold a_register; cbn; lia|intros r E; discriminate]).
  - intros H. specialize (H 15 (or_introl eq_refl)). discriminate.
Qed.
