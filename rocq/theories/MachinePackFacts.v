(** Packing in the TrMul machine: every block of packed data is written once, before
    any thread reads it, and every read is ordered after the write. *)
From Verif Require Import Base SidePair BlockMap BlockMapFacts TrMulMachine MachineIdsFacts.

(** The block a thread is packing. *)
Definition held (p : pc) : option (side * Z) :=
  match p with PPack _ tg _ | PStore _ tg _ => Some (tg_side tg, tg_block tg) | _ => None end.
Definition stored (p : pc) : option (side * Z) :=
  match p with PStore _ tg _ => Some (tg_side tg, tg_block tg) | _ => None end.
Lemma stored_held : forall p x, stored p = Some x -> held p = Some x.
Proof. intros [] x H; try discriminate; exact H. Qed.

Section Pack.
Variable M : Type.
Variables (T : Z) (need : bool) (prepacked : sp bool) (nb : side -> Z).
Variable PB : M -> side -> Z -> Prop.   (* this block of packed data is complete *)
Hypothesis (HT : 1 <= T) (Hneed : need = (1 <? T)).
Let tid (i : Z) : Prop := 0 <= i < T.

Record pack_inv (s : mst M) : Prop := {
  pi_excl : forall i j x, tid i -> tid j -> held (s_pc s i) = Some x -> held (s_pc s j) = Some x -> i = j;
  pi_hold : forall i sd b, tid i -> held (s_pc s i) = Some (sd, b) ->
    get sd prepacked = false /\ 0 <= b < nb sd /\ (need = true -> s_status s sd b = InProgress) /\
    (forall j, tid j -> s_local s j sd b = false);
  pi_pack : forall i sd b, tid i -> held (s_pc s i) = Some (sd, b) -> stored (s_pc s i) = None ->
    s_pwrite s sd b = None;
  pi_store : forall i sd b, tid i -> stored (s_pc s i) = Some (sd, b) ->
    exists c, s_pwrite s sd b = Some (i, c) /\ c <= s_clock s i i;
  pi_local : forall i sd b, tid i -> s_local s i sd b = true ->
    (exists j c, s_pwrite s sd b = Some (j, c) /\ c <= s_clock s i j) /\
    (need = true -> s_status s sd b = Finished);
  pi_fin : forall sd b, need = true -> s_status s sd b = Finished ->
    exists j c, s_pwrite s sd b = Some (j, c) /\ c <= s_rel s sd b j;
  pi_ns : forall sd b, need = true -> s_status s sd b = NotStarted -> s_pwrite s sd b = None;
  pi_ip : forall sd b, need = true -> s_status s sd b = InProgress ->
    exists i, tid i /\ held (s_pc s i) = Some (sd, b);
  pi_one : forall sd b, need = false -> s_pwrite s sd b <> None ->
    s_local s 0 sd b = true \/ stored (s_pc s 0) = Some (sd, b);
  pi_written : forall sd b, s_pwrite s sd b <> None ->
    get sd prepacked = false /\ 0 <= b < nb sd /\ PB (s_mem s) sd b;
  pi_pre : forall sd b, get sd prepacked = true -> 0 <= b < nb sd -> PB (s_mem s) sd b;
  pi_read : forall sd b j, s_pwrite s sd b = None -> get sd prepacked = false -> s_pread s sd b j <= 0;
  pi_clk : forall i j, 0 <= s_clock s i j;
  pi_packs_nodup : NoDup (map snd (s_packs s));
  pi_packs : forall sd b, In (sd, b) (map snd (s_packs s)) <-> s_pwrite s sd b <> None
}.

Lemma pack_init : forall bm m, (forall sd b, get sd prepacked = true -> 0 <= b < nb sd -> PB m sd b) ->
  pack_inv (init bm m).
Proof.
  intros bm m H. constructor; cbn [init s_pc s_status s_local s_pwrite s_rel s_clock s_mem s_pread s_packs held stored map];
    try (intros; discriminate); auto; try (intros; lia); try (intros; congruence); try constructor; try tauto.
Qed.

(** Steps that leave packing alone, up to advancing clocks. *)
Lemma pack_ext : forall s s', pack_inv s ->
  (forall j, tid j -> held (s_pc s' j) = held (s_pc s j)) ->
  (forall j, tid j -> stored (s_pc s' j) = stored (s_pc s j)) ->
  s_local s' = s_local s -> s_status s' = s_status s -> s_rel s' = s_rel s -> s_pwrite s' = s_pwrite s ->
  s_packs s' = s_packs s ->
  (forall i j, s_clock s i j <= s_clock s' i j) ->
  (forall sd b, PB (s_mem s) sd b -> PB (s_mem s') sd b) ->
  (forall sd b j, s_pwrite s sd b = None -> get sd prepacked = false -> s_pread s' sd b j = s_pread s sd b j) ->
  pack_inv s'.
Proof.
  intros s s' I H S EL ES ER EP EK C PBm RD.
  destruct I. constructor.
  - intros i j x Hi Hj. rewrite !H by auto. eauto.
  - intros i sd b Hi. rewrite H, ES, EL by auto. eauto.
  - intros i sd b Hi. rewrite H, S, EP by auto. eauto.
  - intros i sd b Hi. rewrite S, EP by auto. intros E. destruct (pi_store0 _ _ _ Hi E) as (c & F & G).
    exists c. split; auto. specialize (C i i). lia.
  - intros i sd b Hi. rewrite EL, ES, EP. intros E. destruct (pi_local0 _ _ _ Hi E) as ((j & c & F & G) & K).
    split; auto. exists j, c. split; auto. specialize (C i j). lia.
  - rewrite ES, EP, ER. auto.
  - rewrite ES, EP. auto.
  - intros sd b N. rewrite ES. intros E. destruct (pi_ip0 sd b N E) as (i & Hi & F). exists i. rewrite H; auto.
  - intros sd b N. rewrite EP, EL. intros E. rewrite S by (unfold tid; lia). auto.
  - intros sd b. rewrite EP. intros E. destruct (pi_written0 sd b E) as (A & B & D). auto.
  - intros sd b E R. auto.
  - intros sd b j. rewrite EP. intros E P. rewrite RD; auto.
  - intros i j. specialize (pi_clk0 i j). specialize (C i j). lia.
  - rewrite EK. auto.
  - intros sd b. rewrite EK, EP. auto.
Qed.

(** compare_exchange succeeds (or, with one thread, packing is about to start). *)
Lemma pack_start : forall s s' i tg, pack_inv s -> tid i -> held (s_pc s i) = None ->
  (forall j, j <> i -> s_pc s' j = s_pc s j) ->
  held (s_pc s' i) = Some (tg_side tg, tg_block tg) -> stored (s_pc s' i) = None ->
  get (tg_side tg) prepacked = false -> 0 <= tg_block tg < nb (tg_side tg) ->
  s_local s i (tg_side tg) (tg_block tg) = false ->
  (need = true -> s_status s (tg_side tg) (tg_block tg) = NotStarted /\
     s_status s' (tg_side tg) (tg_block tg) = InProgress /\
     forall sd b, (sd, b) <> (tg_side tg, tg_block tg) -> s_status s' sd b = s_status s sd b) ->
  s_local s' = s_local s -> s_rel s' = s_rel s -> s_pwrite s' = s_pwrite s -> s_packs s' = s_packs s ->
  s_clock s' = s_clock s -> s_mem s' = s_mem s -> s_pread s' = s_pread s ->
  pack_inv s'.
Proof.
  intros s s' i tg I Hi N0 O H' S' PP BR LF NST EL ER EP EK EC EM ED.
  set (sd0 := tg_side tg) in *. set (b0 := tg_block tg) in *. clearbody sd0 b0.
  assert (S0 : stored (s_pc s i) = None).
  { destruct (stored (s_pc s i)) eqn:E; auto. apply stored_held in E. congruence. }
  (* nobody else is packing this block *)
  assert (NH : forall j, tid j -> held (s_pc s j) <> Some (sd0, b0)).
  { intros j Hj E. destruct need eqn:EN.
    - destruct (pi_hold _ I j sd0 b0 Hj E) as (_ & _ & A & _). destruct (NST eq_refl) as (B & _). rewrite A in B; auto. discriminate.
    - assert (j = i) by (unfold tid in *; lia). congruence. }
  assert (LN : forall j, tid j -> s_local s j sd0 b0 = false).
  { intros j Hj. destruct (s_local s j sd0 b0) eqn:E; auto. destruct need eqn:EN.
    - destruct (pi_local _ I j sd0 b0 Hj E) as (_ & A). destruct (NST eq_refl) as (B & _). rewrite A in B by auto. discriminate.
    - assert (j = i) by (unfold tid in *; lia). congruence. }
  assert (PN : s_pwrite s sd0 b0 = None).
  { destruct need eqn:EN.
    - destruct (NST eq_refl) as (B & _). apply (pi_ns _ I); auto.
    - destruct (s_pwrite s sd0 b0) eqn:E; auto. exfalso.
      assert (i = 0) by (unfold tid in *; lia). subst i.
      destruct (pi_one _ I sd0 b0 EN) as [A|A]; congruence. }
  assert (ST : forall sd b, need = true -> s_status s sd b <> NotStarted -> s_status s' sd b = s_status s sd b).
  { intros sd b N E. destruct (NST N) as (A & B & C). apply C. intros X. inversion X; subst. auto. }
  assert (ST' : forall sd b, need = true -> s_status s' sd b <> InProgress -> s_status s' sd b = s_status s sd b).
  { intros sd b N E. destruct (NST N) as (A & B & C). apply C. intros X. inversion X; subst. auto. }
  destruct I. constructor.
  - intros j k x Hj Hk E F.
    destruct (Z.eq_dec j i) as [->|Nj], (Z.eq_dec k i) as [->|Nk]; auto.
    + rewrite O in F by auto. rewrite H' in E. inversion E; subst x. exfalso. exact (NH k Hk F).
    + rewrite O in E by auto. rewrite H' in F. inversion F; subst x. exfalso. exact (NH j Hj E).
    + rewrite O in E, F by auto. eauto.
  - intros j sd b Hj E. rewrite EL. destruct (Z.eq_dec j i) as [->|Nj].
    + rewrite H' in E. inversion E; subst sd b. split; auto. split; auto. split; auto.
      intros N. apply (NST N).
    + rewrite O in E by auto. destruct (pi_hold0 _ _ _ Hj E) as (A & B & C & D). repeat split; auto; try lia.
      intros N. rewrite ST; auto. rewrite C; auto. discriminate.
  - intros j sd b Hj E F. rewrite EP. destruct (Z.eq_dec j i) as [->|Nj].
    + rewrite H' in E. inversion E; subst; auto.
    + rewrite O in E, F by auto. eauto.
  - intros j sd b Hj E. rewrite EP, EC. destruct (Z.eq_dec j i) as [->|Nj]; [congruence|].
    rewrite O in E by auto. eauto.
  - intros j sd b Hj. rewrite EL, EP, EC. intros E. destruct (pi_local0 _ _ _ Hj E) as (A & B).
    split; auto. intros N. rewrite ST; auto. rewrite B; auto. discriminate.
  - intros sd b N E. rewrite EP, ER. apply pi_fin0; auto. rewrite <- E. symmetry. apply ST'; auto. congruence.
  - intros sd b N E. rewrite EP. apply pi_ns0; auto. rewrite <- E. symmetry. apply ST'; auto. congruence.
  - intros sd b N E. destruct (sd_dec sd b sd0 b0) as [X|X].
    + inversion X; subst. exists i; auto.
    + destruct (NST N) as (_ & _ & C). rewrite C in E by auto. destruct (pi_ip0 _ _ N E) as (j & Hj & F).
      exists j. split; auto. rewrite O; auto. congruence.
  - intros sd b N. rewrite EP, EL. intros E. assert (i = 0) by (unfold tid in *; lia). subst i.
    destruct (pi_one0 sd b N E) as [A|A]; auto. congruence.
  - intros sd b. rewrite EP, EM. auto.
  - rewrite EM. auto.
  - rewrite EP, ED. auto.
  - rewrite EC. auto.
  - rewrite EK. auto.
  - rewrite EK, EP. auto.
Qed.

(** RunPack: the block is written. *)
Lemma pack_write : forall s s' i sd0 b0, pack_inv s -> tid i ->
  held (s_pc s i) = Some (sd0, b0) -> stored (s_pc s i) = None ->
  (forall j, j <> i -> s_pc s' j = s_pc s j) -> stored (s_pc s' i) = Some (sd0, b0) ->
  s_local s' = s_local s -> s_status s' = s_status s -> s_rel s' = s_rel s -> s_pread s' = s_pread s ->
  s_pwrite s' = upd_s (s_pwrite s) sd0 b0 (Some (i, s_clock s i i + 1)) ->
  s_packs s' = (i, (sd0, b0)) :: s_packs s ->
  s_clock s' = tick s i ->
  PB (s_mem s') sd0 b0 ->
  (forall sd b, (sd, b) <> (sd0, b0) -> 0 <= b < nb sd -> PB (s_mem s) sd b -> PB (s_mem s') sd b) ->
  pack_inv s'.
Proof.
  intros s s' i sd0 b0 I Hi H S O S' EL ES ER ED EP EK EC PB0 PBo.
  assert (H' : held (s_pc s' i) = Some (sd0, b0)) by (apply stored_held; auto).
  pose proof (pi_pack _ I i sd0 b0 Hi H S) as PN.
  destruct (pi_hold _ I i sd0 b0 Hi H) as (PP & BR & IP & LN).
  assert (PW : s_pwrite s' sd0 b0 = Some (i, s_clock s i i + 1)) by (rewrite EP; apply upd_s_same).
  assert (PW' : forall sd b, (sd, b) <> (sd0, b0) -> s_pwrite s' sd b = s_pwrite s sd b).
  { intros sd b N. rewrite EP. apply upd_s_other; auto. }
  assert (CL : forall j k, s_clock s j k <= s_clock s' j k).
  { intros j k. rewrite EC. unfold tick. destruct (Z.eq_dec j i) as [->|N]; [rewrite upd_same|rewrite upd_other by auto; lia].
    destruct (Z.eq_dec k i) as [->|N]; [rewrite upd_same|rewrite upd_other by auto]; lia. }
  assert (CI : s_clock s' i i = s_clock s i i + 1) by (rewrite EC; unfold tick; rewrite !upd_same; auto).
  assert (HE : forall j, held (s_pc s' j) = held (s_pc s j)).
  { intros j. destruct (Z.eq_dec j i) as [->|N]; [congruence|rewrite O; auto]. }
  assert (PWN : forall sd b, s_pwrite s sd b <> None -> (sd, b) <> (sd0, b0)) by (intros sd b X E; inversion E; subst; auto).
  destruct I. constructor.
  - intros j k x. rewrite !HE. eauto.
  - intros j sd b. rewrite HE, ES, EL. eauto.
  - intros j sd b Hj. rewrite HE. intros E F. destruct (Z.eq_dec j i) as [->|N]; [congruence|].
    rewrite O in F by auto. rewrite PW'; eauto. intros X. inversion X; subst. apply N. eauto.
  - intros j sd b Hj E. destruct (Z.eq_dec j i) as [->|N].
    + rewrite S' in E. inversion E; subst. exists (s_clock s i i + 1). split; auto. lia.
    + rewrite O in E by auto. destruct (pi_store0 _ _ _ Hj E) as (c & A & B). exists c.
      rewrite PW' by (apply PWN; congruence). split; auto. specialize (CL j j). lia.
  - intros j sd b Hj. rewrite EL, ES. intros E. destruct (pi_local0 _ _ _ Hj E) as ((k & c & A & B) & C).
    split; auto. exists k, c. rewrite PW' by (apply PWN; congruence). split; auto. specialize (CL j k). lia.
  - intros sd b N. rewrite ES, ER. intros E. destruct (pi_fin0 _ _ N E) as (k & c & A & B).
    exists k, c. rewrite PW' by (apply PWN; congruence). auto.
  - intros sd b N. rewrite ES. intros E. rewrite PW'; auto. intros X. inversion X; subst. rewrite IP in E; auto. discriminate.
  - intros sd b N. rewrite ES. intros E. destruct (pi_ip0 _ _ N E) as (k & A & B). exists k. rewrite HE. auto.
  - intros sd b N. rewrite EL. intros E. assert (i = 0) by (unfold tid in *; lia). subst i.
    destruct (sd_dec sd b sd0 b0) as [X|X]; [inversion X; subst; right; congruence|].
    rewrite PW' in E by auto. destruct (pi_one0 sd b N E) as [A|A]; auto. congruence.
  - intros sd b E. destruct (sd_dec sd b sd0 b0) as [X|X].
    + inversion X; subst. auto.
    + rewrite PW' in E by auto. destruct (pi_written0 sd b E) as (A & B & C). auto.
  - intros sd b E R. apply PBo; auto. intros X. inversion X; subst. congruence.
  - intros sd b j E P. rewrite ED. destruct (sd_dec sd b sd0 b0) as [X|X]; [inversion X; subst; congruence|].
    rewrite PW' in E; auto.
  - intros j k. specialize (CL j k). specialize (pi_clk0 j k). lia.
  - rewrite EK. cbn [map snd]. constructor; auto. rewrite pi_packs0. auto.
  - intros sd b. rewrite EK. cbn [map snd]. cbn [In]. destruct (sd_dec sd b sd0 b0) as [X|X].
    + inversion X; subst. rewrite PW. split; [discriminate|auto].
    + rewrite PW' by auto. rewrite <- pi_packs0. split; auto. intros [A|A]; auto. congruence.
Qed.

(** status.store(kFinished) and local_already_packed = true. *)
Lemma pack_release : forall s s' i sd0 b0, pack_inv s -> tid i -> stored (s_pc s i) = Some (sd0, b0) ->
  (forall j, j <> i -> s_pc s' j = s_pc s j) -> held (s_pc s' i) = None ->
  s_local s' = upd (s_local s) i (upd_s (s_local s i) sd0 b0 true) ->
  (need = true -> s_status s' = upd_s (s_status s) sd0 b0 Finished /\
                  s_rel s' = upd_s (s_rel s) sd0 b0 (s_clock s i)) ->
  s_clock s' = s_clock s -> s_pwrite s' = s_pwrite s -> s_pread s' = s_pread s ->
  s_packs s' = s_packs s -> s_mem s' = s_mem s -> pack_inv s'.
Proof.
  intros s s' i sd0 b0 I Hi S O H' EL EN EC EP ED EK EM.
  assert (H : held (s_pc s i) = Some (sd0, b0)) by (apply stored_held; auto).
  destruct (pi_hold _ I i sd0 b0 Hi H) as (PP & BR & IP & LN).
  destruct (pi_store _ I i sd0 b0 Hi S) as (c0 & PW & C0).
  assert (S' : stored (s_pc s' i) = None).
  { destruct (stored (s_pc s' i)) eqn:E; auto. apply stored_held in E. congruence. }
  assert (LS : s_local s' i sd0 b0 = true) by (rewrite EL, upd_same, upd_s_same; auto).
  assert (LO : forall j sd b, (j <> i \/ (sd, b) <> (sd0, b0)) -> s_local s' j sd b = s_local s j sd b).
  { intros j sd b X. rewrite EL. destruct (Z.eq_dec j i) as [->|N]; [rewrite upd_same|rewrite upd_other; auto].
    destruct X as [X|X]; [congruence|]. rewrite upd_s_other; auto. }
  assert (NS : need = true -> s_status s' sd0 b0 = Finished).
  { intros N. destruct (EN N) as [-> _]. apply upd_s_same. }
  assert (SO : forall sd b, need = true -> (sd, b) <> (sd0, b0) -> s_status s' sd b = s_status s sd b).
  { intros sd b N X. destruct (EN N) as [-> _]. apply upd_s_other; auto. }
  assert (NF : forall j sd b, tid j -> j <> i -> held (s_pc s j) = Some (sd, b) -> (sd, b) <> (sd0, b0)).
  { intros j sd b Hj N E X. inversion X; subst. apply N. eapply (pi_excl _ I); eauto. }
  destruct I. constructor.
  - intros j k x Hj Hk E F.
    destruct (Z.eq_dec j i) as [->|Nj], (Z.eq_dec k i) as [->|Nk]; auto; try congruence.
    rewrite O in E, F by auto. eauto.
  - intros j sd b Hj E. destruct (Z.eq_dec j i) as [->|Nj]; [congruence|]. rewrite O in E by auto.
    pose proof (NF _ _ _ Hj Nj E) as X. destruct (pi_hold0 _ _ _ Hj E) as (A & B & C & D).
    repeat split; auto; try lia.
    + intros N. rewrite SO; auto.
    + intros k Hk. rewrite LO; auto.
  - intros j sd b Hj E F. rewrite EP. destruct (Z.eq_dec j i) as [->|Nj]; [congruence|].
    rewrite O in E, F by auto. eauto.
  - intros j sd b Hj E. rewrite EP, EC. destruct (Z.eq_dec j i) as [->|Nj]; [congruence|].
    rewrite O in E by auto. eauto.
  - intros j sd b Hj E. rewrite EP, EC. destruct (sd_dec sd b sd0 b0) as [X|X].
    + inversion X; subst. destruct (Z.eq_dec j i) as [->|Nj].
      * split; [exists i, c0; auto|auto].
      * rewrite LO in E by auto. rewrite LN in E by auto. discriminate.
    + rewrite LO in E by auto. destruct (pi_local0 _ _ _ Hj E) as (A & B). split; auto.
      intros N. rewrite SO; auto.
  - intros sd b N E. rewrite EP. destruct (EN N) as [_ ->]. destruct (sd_dec sd b sd0 b0) as [X|X].
    + inversion X; subst. exists i, c0. rewrite upd_s_same. auto.
    + rewrite upd_s_other by auto. rewrite SO in E by auto. auto.
  - intros sd b N E. rewrite EP. destruct (sd_dec sd b sd0 b0) as [X|X].
    + inversion X; subst. rewrite NS in E by auto. discriminate.
    + rewrite SO in E by auto. auto.
  - intros sd b N E. destruct (sd_dec sd b sd0 b0) as [X|X].
    + inversion X; subst. rewrite NS in E by auto. discriminate.
    + rewrite SO in E by auto. destruct (pi_ip0 _ _ N E) as (k & Hk & F). exists k. split; auto.
      rewrite O; auto. congruence.
  - intros sd b N E. rewrite EP in E. assert (i = 0) by (unfold tid in *; lia). subst i.
    left. destruct (sd_dec sd b sd0 b0) as [X|X]; [inversion X; subst; auto|].
    rewrite LO by auto. destruct (pi_one0 sd b N E) as [A|A]; auto. congruence.
  - intros sd b. rewrite EP, EM. auto.
  - rewrite EM. auto.
  - rewrite EP, ED. auto.
  - rewrite EC. auto.
  - rewrite EK. auto.
  - rewrite EK, EP. auto.
Qed.

(** Reading kFinished with acquire order. *)
Lemma pack_acquire : forall s s' i sd0 b0, pack_inv s -> tid i -> held (s_pc s i) = None ->
  need = true -> s_status s sd0 b0 = Finished ->
  (forall j, j <> i -> s_pc s' j = s_pc s j) -> held (s_pc s' i) = None ->
  s_local s' = upd (s_local s) i (upd_s (s_local s i) sd0 b0 true) ->
  s_clock s' = upd (s_clock s) i (fun j => Z.max (s_clock s i j) (s_rel s sd0 b0 j)) ->
  s_status s' = s_status s -> s_rel s' = s_rel s -> s_pwrite s' = s_pwrite s -> s_pread s' = s_pread s ->
  s_packs s' = s_packs s -> s_mem s' = s_mem s -> pack_inv s'.
Proof.
  intros s s' i sd0 b0 I Hi H N FI O H' EL EC ES ER EP ED EK EM.
  assert (HE : forall j, held (s_pc s' j) = held (s_pc s j)).
  { intros j. destruct (Z.eq_dec j i) as [->|X]; [congruence|rewrite O; auto]. }
  assert (SE : forall j, stored (s_pc s' j) = stored (s_pc s j)).
  { intros j. destruct (Z.eq_dec j i) as [->|X]; [|rewrite O; auto].
    destruct (stored (s_pc s i)) eqn:E1; [apply stored_held in E1; congruence|].
    destruct (stored (s_pc s' i)) eqn:E2; [apply stored_held in E2; congruence|auto]. }
  assert (CL : forall j k, s_clock s j k <= s_clock s' j k).
  { intros j k. rewrite EC. destruct (Z.eq_dec j i) as [->|X]; [rewrite upd_same|rewrite upd_other by auto]; lia. }
  assert (LO : forall j sd b, (j <> i \/ (sd, b) <> (sd0, b0)) -> s_local s' j sd b = s_local s j sd b).
  { intros j sd b X. rewrite EL. destruct (Z.eq_dec j i) as [->|Y]; [rewrite upd_same|rewrite upd_other; auto].
    destruct X as [X|X]; [congruence|]. rewrite upd_s_other; auto. }
  destruct (pi_fin _ I sd0 b0 N FI) as (j0 & c0 & PW & C0).
  destruct I. constructor.
  - intros j k x. rewrite !HE. eauto.
  - intros j sd b Hj. rewrite HE, ES. intros E. destruct (pi_hold0 _ _ _ Hj E) as (A & B & C & D).
    repeat split; auto; try lia. intros k Hk. rewrite LO; auto. right. intros X. inversion X; subst.
    rewrite C in FI by auto. discriminate.
  - intros j sd b Hj. rewrite HE, SE, EP. eauto.
  - intros j sd b Hj. rewrite SE, EP. intros E. destruct (pi_store0 _ _ _ Hj E) as (c & A & B).
    exists c. split; auto. specialize (CL j j). lia.
  - intros j sd b Hj E. rewrite EP, ES. destruct (sd_dec sd b sd0 b0) as [X|X].
    + inversion X; subst. split; auto. destruct (Z.eq_dec j i) as [->|Y].
      * exists j0, c0. split; auto. rewrite EC, upd_same. lia.
      * rewrite LO in E by auto. destruct (pi_local0 _ _ _ Hj E) as ((k & c & A & B) & C).
        exists k, c. split; auto. specialize (CL j k). lia.
    + rewrite LO in E by auto. destruct (pi_local0 _ _ _ Hj E) as ((k & c & A & B) & C). split; auto.
      exists k, c. split; auto. specialize (CL j k). lia.
  - rewrite ES, EP, ER. auto.
  - rewrite ES, EP. auto.
  - intros sd b N'. rewrite ES. intros E. destruct (pi_ip0 _ _ N' E) as (k & A & B). exists k. rewrite HE. auto.
  - intros; congruence.
  - intros sd b. rewrite EP, EM. auto.
  - rewrite EM. auto.
  - rewrite EP, ED. auto.
  - intros j k. specialize (CL j k). specialize (pi_clk0 j k). lia.
  - rewrite EK. auto.
  - rewrite EK, EP. auto.
Qed.
End Pack.
