(** The invariant of the TrMul machine: no schedule leads to undefined behaviour, and
    when all threads have finished every block has been computed exactly once from
    complete packed data. *)
From Verif Require Import Base SidePair SizeUtilFacts BlockMap BlockMapFacts TrMulMachine MachineIdsFacts MachinePackFacts.
From Coq Require Import Permutation.

Section Machine.
Variable M : Type.
Variable run_pack : side -> Z -> Z -> M -> res M.
Variable run_kernel : sp Z -> sp Z -> M -> res M.
Variables (dbg ahead : bool) (bm : block_map) (prepacked : sp bool).

Definition nb (sd : side) : Z := 2 ^ (bm_base bm + get sd (bm_rect bm)).
Definition NB : Z := 2 ^ (2 * bm_base bm + lhs (bm_rect bm) + rhs (bm_rect bm)).
Definition starts (id : Z) : sp Z :=
  mk_sp (block_start Lhs bm (lhs (block_of_index bm id))) (block_start Rhs bm (rhs (block_of_index bm id))).
Definition ends (id : Z) : sp Z :=
  mk_sp (block_start Lhs bm (lhs (block_of_index bm id) + 1)) (block_start Rhs bm (rhs (block_of_index bm id) + 1)).

(** What the packing and kernel functions must satisfy. *)
Variable MO : M -> Prop.
Variable PB : M -> side -> Z -> Prop.
Variable KR : list Z -> M -> Prop.
(** Success of all of them; a failure is only allowed when this does not hold. *)
Variable TOT : Prop.
Hypothesis Hpack : forall sd b m, get sd prepacked = false -> 0 <= b < nb sd -> MO m ->
  (exists m', run_pack sd (block_start sd bm b) (block_start sd bm (b + 1)) m = Ok m' /\ MO m' /\ PB m' sd b /\
    (forall sd' b', (sd', b') <> (sd, b) -> 0 <= b' < nb sd' -> PB m sd' b' -> PB m' sd' b') /\
    (forall ids, (forall x, In x ids -> 0 <= x < NB) -> KR ids m -> KR ids m')) \/
  (~ TOT /\ forall m', run_pack sd (block_start sd bm b) (block_start sd bm (b + 1)) m <> Ok m').
Hypothesis Hkernel : forall id m, 0 <= id < NB -> MO m ->
  (forall sd, PB m sd (get sd (block_of_index bm id))) ->
  (exists m', run_kernel (starts id) (ends id) m = Ok m' /\ MO m' /\
    (forall sd b, PB m sd b -> PB m' sd b) /\
    (forall ids, (forall x, In x ids -> 0 <= x < NB) -> KR ids m -> KR (id :: ids) m')) \/
  (~ TOT /\ forall m', run_kernel (starts id) (ends id) m <> Ok m').

Hypothesis (W : bm_wf bm) (HT : 1 <= threads bm <= NB).

Let T := threads bm.
Let tid (i : Z) : Prop := 0 <= i < T.

Lemma HT1 : 1 <= T.
Proof. exact (proj1 HT). Qed.
Lemma Hneed : need_atomics bm = (1 <? T).
Proof. reflexivity. Qed.
Local Hint Resolve HT1 Hneed : core.

Definition avail (loc : side -> Z -> bool) (sd : side) (b : Z) : Prop :=
  get sd prepacked = true \/ loc sd b = true.

Record good_work (w : work) : Prop := {
  gw_id : 0 <= w_id w < NB;
  gw_block : w_block w = block_of_index bm (w_id w);
  gw_start : w_start w = starts (w_id w);
  gw_end : w_end w = ends (w_id w);
  gw_ahead : forall sd, 0 <= get sd (w_ahead w)
}.

Record good_target (tg : target) : Prop := {
  gt_block : 0 <= tg_block tg < nb (tg_side tg);
  gt_start : tg_start tg = block_start (tg_side tg) bm (tg_block tg);
  gt_end : tg_end tg = block_start (tg_side tg) bm (tg_block tg + 1)
}.

Definition ret_ok (loc : side -> Z -> bool) (w : work) (tg : target) (r : ret) : Prop :=
  match r with
  | RAhead => True
  | RMain both => tg = main_target w (tg_side tg) /\
      (tg_side tg = Rhs -> both = true -> avail loc Lhs (lhs (w_block w)))
  end.

Definition good_pc (loc : side -> Z -> bool) (p : pc) : Prop :=
  match p with
  | PLoop b => 0 <= b
  | PTry w tg r | PPack w tg r | PStore w tg r => good_work w /\ good_target tg /\ ret_ok loc w tg r
  | PKernel w => good_work w /\ forall sd, avail loc sd (get sd (w_block w))
  | PDone => True
  end.

Record inv (s : mst M) : Prop := {
  iv_ids : ids_inv T NB (s_pc s) (s_next s) (s_begun s) (map snd (s_ran s));
  iv_pack : pack_inv M T (need_atomics bm) prepacked nb PB s;
  iv_good : forall i, tid i -> good_pc (s_local s i) (s_pc s i);
  iv_dwrite : forall b, s_dwrite s b <> None -> In b (map snd (s_ran s));
  iv_mem : MO (s_mem s);
  iv_kr : KR (map snd (s_ran s)) (s_mem s)
}.

Lemma nb_pos : forall sd, 1 <= nb sd <= 2 ^ 30.
Proof.
  intros sd. unfold nb. pose proof (wf_base _ W). pose proof (wf_rect _ W sd). pose proof (wf_rect_sum bm sd W).
  pose proof (pow2_pos (bm_base bm + get sd (bm_rect bm)) ltac:(lia)).
  pose proof (Z.pow_le_mono_r 2 (bm_base bm + get sd (bm_rect bm)) 30 ltac:(lia) ltac:(lia)). lia.
Qed.

Lemma NB_bound : NB <= 2 ^ 30.
Proof.
  unfold NB. apply Z.pow_le_mono_r; [lia|]. apply (wf_total _ W).
Qed.

Lemma block_range : forall id sd, 0 <= id < NB -> 0 <= get sd (block_of_index bm id) < nb sd.
Proof. intros id sd H. apply (get_block_by_index_ok bm id W H). Qed.

Lemma get_starts : forall id sd, get sd (starts id) = block_start sd bm (get sd (block_of_index bm id)).
Proof. intros id []; reflexivity. Qed.
Lemma get_ends : forall id sd, get sd (ends id) = block_start sd bm (get sd (block_of_index bm id) + 1).
Proof. intros id []; reflexivity. Qed.

Lemma good_main_target : forall w sd, good_work w -> good_target (main_target w sd).
Proof.
  intros w sd [A B C D E]. constructor; cbn [main_target tg_side tg_block tg_start tg_end].
  - rewrite B. apply block_range; auto.
  - rewrite C, B. apply get_starts.
  - rewrite D, B. apply get_ends.
Qed.

(** Returning from TryPack. *)
Lemma after_try_ok : forall loc w tg r ok, good_work w -> good_target tg -> ret_ok loc w tg r ->
  (ok = true -> avail loc (tg_side tg) (tg_block tg)) ->
  exists p, after_try dbg ahead bm w tg r ok = Ok p /\ good_pc loc p /\ held p = None /\
    pending p = Some (w_next w) /\ active p = Some (w_id w).
Proof.
  intros loc w tg r ok GW GT R OK. unfold after_try.
  assert (RT : forall w', good_work w' -> w_block w' = w_block w -> w_start w' = w_start w -> w_end w' = w_end w ->
            w_next w' = w_next w -> w_id w' = w_id w -> 
            let p := PTry w' (main_target w Lhs) (RMain true) in
            good_pc loc p /\ held p = None /\ pending p = Some (w_next w) /\ active p = Some (w_id w)).
  { intros w' G EB ES EE EN EI p. unfold p. cbn [good_pc held pending active]. rewrite EN, EI.
    assert (E : main_target w Lhs = main_target w' Lhs) by (unfold main_target; rewrite EB, ES, EE; auto).
    split; [|auto]. split; [auto|]. split; [apply good_main_target; auto|].
    split; [exact E|]. cbn [main_target tg_side]. discriminate. }
  destruct r as [both|].
  - destruct R as [Etg Rl]. destruct (tg_side tg) eqn:Es.
    + eexists. split; [reflexivity|]. cbn [good_pc held pending active].
      split; [|auto]. split; [auto|]. split; [apply good_main_target; auto|].
      split; [reflexivity|]. intros _ Hb. apply andb_prop in Hb. destruct Hb as [_ Hb].
      specialize (OK Hb). rewrite Etg in OK. exact OK.
    + destruct (both && ok) eqn:Eb.
      * apply andb_prop in Eb. destruct Eb as [Hb Ho].
        eexists. split; [reflexivity|]. cbn [good_pc held pending active]. split; [|auto]. split; [auto|].
        intros []; cbn [get]; auto. specialize (OK Ho). rewrite Etg in OK. exact OK.
      * destruct ahead.
        -- rewrite num_blocks_per_side_ok by auto. cbn [bind].
           set (sd := w_ahead_side w). fold (nb sd). pose proof (gw_ahead _ GW sd) as HA.
           destruct (nb sd <=? get sd (w_ahead w)) eqn:El.
           ++ eexists. split; [reflexivity|].
              apply RT; auto. destruct GW; constructor; cbn; auto.
           ++ rewrite get_block_matrix_coords_ok by (auto; unfold nb in El; lia). cbn [bind].
              pose proof (nb_pos sd) as NP. change (2 ^ 30) with 1073741824 in NP.
              rewrite i32_ok by (unfold int_min, int_max; lia). cbn [bind].
              eexists. split; [reflexivity|]. cbn [good_pc held pending active w_next w_id ret_ok].
              split; [|auto]. split; [|split; [|auto]].
              ** destruct GW. constructor; cbn; auto.
                 intros sd'. unfold upd_side. specialize (gw_ahead0 sd').
                 destruct sd, sd'; cbn [get lhs rhs] in *; lia.
              ** constructor; cbn; auto. lia.
        -- eexists. split; [reflexivity|]. apply RT; auto.
  - eexists. split; [reflexivity|]. apply RT; auto.
Qed.

Lemma avail_mono : forall loc loc' sd b, (forall sd b, loc sd b = true -> loc' sd b = true) ->
  avail loc sd b -> avail loc' sd b.
Proof. intros loc loc' sd b H [A|A]; [left|right]; auto. Qed.

Lemma ret_ok_mono : forall loc loc' w tg r, (forall sd b, loc sd b = true -> loc' sd b = true) ->
  ret_ok loc w tg r -> ret_ok loc' w tg r.
Proof.
  intros loc loc' w tg [both|] H; cbn [ret_ok]; auto. intros [A B]. split; auto.
  intros C D. eapply avail_mono; eauto.
Qed.

Lemma good_pc_mono : forall loc loc' p, (forall sd b, loc sd b = true -> loc' sd b = true) ->
  good_pc loc p -> good_pc loc' p.
Proof.
  intros loc loc' [] H; cbn [good_pc]; auto.
  1-3: intros (A & B & C); repeat split; try apply A; try apply B; eapply ret_ok_mono; eauto.
  intros (A & B). split; auto. intros sd. eapply avail_mono; eauto.
Qed.

Lemma inv_init : forall m, MO m -> KR [] m ->
  (forall sd b, get sd prepacked = true -> 0 <= b < nb sd -> PB m sd b) -> inv (init bm m).
Proof using HT.
  intros m HM HK HP. constructor.
  - cbn [init s_pc s_next s_begun s_ran map]. apply ids_init.
  - apply pack_init; auto.
  - intros i Hi. cbn [init s_pc good_pc]. exact (proj1 Hi).
  - cbn [init s_dwrite]. congruence.
  - exact HM.
  - exact HK.
Qed.

(** [s'] is [s] with the program counter of [i] changed from TryPack to what follows. *)
Lemma inv_return : forall s s' i w tg r ok p, inv s -> tid i ->
  good_work w -> good_target tg ->
  (pending (s_pc s i) = Some (w_next w)) -> active (s_pc s i) = Some (w_id w) ->
  (forall sd b, s_local s i sd b = true -> s_local s' i sd b = true) ->
  (forall j, j <> i -> s_local s' j = s_local s j) ->
  ret_ok (s_local s i) w tg r ->
  (ok = true -> avail (s_local s' i) (tg_side tg) (tg_block tg)) ->
  after_try dbg ahead bm w tg r ok = Ok p ->
  (held p = None -> pack_inv M T (need_atomics bm) prepacked nb PB (set_pc s' i p)) ->
  s_pc s' = s_pc s -> s_next s' = s_next s -> s_begun s' = s_begun s -> s_ran s' = s_ran s ->
  s_dwrite s' = s_dwrite s -> s_mem s' = s_mem s ->
  inv (set_pc s' i p).
Proof.
  intros s s' i w tg r ok p I Hi GW GT PE AC L1 L2 R OK E PI EP EN EB ER ED EM.
  destruct (after_try_ok (s_local s' i) w tg r ok) as (p' & E' & G & H & P & A); auto.
  { eapply ret_ok_mono; eauto. }
  assert (p' = p) by congruence. subst p'.
  constructor.
  - cbn [set_pc s_pc s_next s_begun s_ran]. rewrite EP, EN, EB, ER.
    apply ids_same; auto; [apply (iv_ids _ I)|congruence|congruence].
  - auto.
  - intros j Hj. cbn [set_pc s_pc s_local]. destruct (Z.eq_dec j i) as [->|N].
    + rewrite upd_same. auto.
    + rewrite upd_other by auto. rewrite L2, EP by auto. apply (iv_good _ I); auto.
  - cbn [set_pc s_dwrite s_ran]. rewrite ED, ER. apply (iv_dwrite _ I).
  - cbn [set_pc s_mem]. rewrite EM. apply (iv_mem _ I).
  - cbn [set_pc s_mem s_ran]. rewrite EM, ER. apply (iv_kr _ I).
Qed.

Lemma inv_return_same : forall s i w tg r ok p, inv s -> tid i -> s_pc s i = PTry w tg r ->
  (ok = true -> avail (s_local s i) (tg_side tg) (tg_block tg)) ->
  after_try dbg ahead bm w tg r ok = Ok p -> inv (set_pc s i p).
Proof.
  intros s i w tg r ok p I Hi EP OK E.
  pose proof (iv_good _ I i Hi) as G. rewrite EP in G. destruct G as (GW & GT & R).
  eapply inv_return with (s := s) (s' := s); eauto; try (rewrite EP; reflexivity).
  intros H. apply pack_ext with (s := s); auto; try (cbn; intros; lia); try apply (iv_pack _ I).
  - intros j Hj. cbn [set_pc s_pc]. destruct (Z.eq_dec j i) as [->|N]; [rewrite upd_same|rewrite upd_other by auto; auto].
    rewrite EP. cbn [held]. auto.
  - intros j Hj. cbn [set_pc s_pc]. destruct (Z.eq_dec j i) as [->|N]; [rewrite upd_same|rewrite upd_other by auto; auto].
    rewrite EP. cbn [stored]. destruct (stored p) eqn:X; auto. apply stored_held in X. congruence.
Qed.

Lemma return_ok : forall (s : mst M) i w tg r ok, good_work w -> good_target tg -> ret_ok (s_local s i) w tg r ->
  (ok = true -> avail (s_local s i) (tg_side tg) (tg_block tg)) ->
  exists p, after_try dbg ahead bm w tg r ok = Ok p /\
    return_from_try dbg ahead bm s i w tg r ok = Ok (set_pc s i p).
Proof.
  intros s i w tg r ok GW GT R OK.
  destruct (after_try_ok (s_local s i) w tg r ok GW GT R OK) as (p & E & _).
  exists p. split; auto. unfold return_from_try. rewrite E. reflexivity.
Qed.

Lemma bind_ok_pre' : forall {A B} (x : res A) (f : A -> res B) b, bind x f = Ok b -> exists a, x = Ok a.
Proof. intros A B [a| |] f b H; cbn in H; try discriminate. eauto. Qed.

Let stepf := step run_pack run_kernel dbg ahead bm prepacked.

Lemma step_ok : forall i stale s, inv s ->
  (exists s', stepf i stale s = Ok s' /\ inv s') \/ (~ TOT /\ forall s', stepf i stale s <> Ok s').
Proof.
  intros i stale s I. unfold stepf, step. fold T.
  destruct ((0 <=? i) && (i <? T)) eqn:Et; [|left; eauto].
  assert (Hi : tid i) by (unfold tid; lia).
  pose proof (iv_good _ I i Hi) as G.
  destruct (s_pc s i) eqn:EP; cbn [good_pc] in G.
  - (* PLoop *)
    rewrite num_blocks_ok by auto. cbn [bind]. fold NB.
    destruct (block_id <? NB) eqn:Eb.
    + (* begin_block *)
      assert (HB : 0 <= block_id < NB) by lia.
      pose proof (ids_next_bound T NB _ _ _ _ _ _ (iv_ids _ I) Hi EP ltac:(lia)) as NXT.
      pose proof (ii_next _ _ _ _ _ _ (iv_ids _ I)) as NXE.
      pose proof NB_bound as NBB. change (2 ^ 30) with 1073741824 in NBB.
      destruct (get_block_by_index_ok bm block_id W HB) as [EB RB].
      unfold begin_block. rewrite EB. cbn [bind]. unfold get_block_coords.
      pose proof (RB Lhs) as RL. pose proof (RB Rhs) as RR. cbn [get] in RL, RR.
      pose proof (nb_pos Lhs) as NL. pose proof (nb_pos Rhs) as NR. change (2 ^ 30) with 1073741824 in NL, NR.
      unfold nb in NL, NR. cbn [get] in NL, NR.
      rewrite get_block_matrix_coords_ok by auto. cbn [bind].
      rewrite get_block_matrix_coords_ok by auto. cbn [bind fst snd].
      rewrite !i32_ok by (unfold int_min, int_max; lia). cbn [bind].
      rewrite wrap_s_id by (unfold T in *; cbn; lia).
      set (w := {| w_id := block_id; w_next := s_next s; w_block := block_of_index bm block_id; w_start := _;
                   w_end := _; w_ahead := _; w_ahead_side := Lhs |}).
      assert (GW : good_work w).
      { constructor; [exact HB|reflexivity|reflexivity|reflexivity|]. intros []; unfold w; cbn [w_ahead get lhs rhs]; lia. }
      set (p := PTry w (main_target w Lhs) (RMain true)).
      left. eexists. split; [reflexivity|]. constructor.
      * cbn [s_pc s_next s_begun s_ran]. apply ids_begin; auto; [apply (iv_ids _ I)|lia].
      * apply pack_ext with (s := s); auto; try (cbn; intros; lia); try apply (iv_pack _ I).
        { intros j Hj. cbn [s_pc]. destruct (Z.eq_dec j i) as [->|N]; [rewrite upd_same|rewrite upd_other by auto; auto].
          rewrite EP. reflexivity. }
        { intros j Hj. cbn [s_pc]. destruct (Z.eq_dec j i) as [->|N]; [rewrite upd_same|rewrite upd_other by auto; auto].
          rewrite EP. reflexivity. }
      * intros j Hj. cbn [s_pc s_local]. destruct (Z.eq_dec j i) as [->|N]; [rewrite upd_same|rewrite upd_other by auto; apply (iv_good _ I); auto].
        cbn [p good_pc ret_ok]. split; auto. split; [apply good_main_target; auto|]. split; [reflexivity|]. discriminate.
      * cbn [s_dwrite s_ran]. apply (iv_dwrite _ I).
      * cbn [s_mem]. apply (iv_mem _ I).
      * cbn [s_mem s_ran]. apply (iv_kr _ I).
    + (* leave the loop *)
      left. eexists. split; [reflexivity|]. constructor.
      * cbn [set_pc s_pc s_next s_begun s_ran]. eapply ids_done; eauto; [apply (iv_ids _ I)|lia].
      * apply pack_ext with (s := s); auto; try (cbn; intros; lia); try apply (iv_pack _ I).
        { intros j Hj. cbn [set_pc s_pc]. destruct (Z.eq_dec j i) as [->|N]; [rewrite upd_same|rewrite upd_other by auto; auto].
          rewrite EP. reflexivity. }
        { intros j Hj. cbn [set_pc s_pc]. destruct (Z.eq_dec j i) as [->|N]; [rewrite upd_same|rewrite upd_other by auto; auto].
          rewrite EP. reflexivity. }
      * intros j Hj. cbn [set_pc s_pc s_local]. destruct (Z.eq_dec j i) as [->|N]; [rewrite upd_same|rewrite upd_other by auto; apply (iv_good _ I); auto].
        exact Logic.I.
      * cbn [set_pc s_dwrite s_ran]. apply (iv_dwrite _ I).
      * cbn [set_pc s_mem]. apply (iv_mem _ I).
      * cbn [set_pc s_mem s_ran]. apply (iv_kr _ I).
  - (* PTry *)
    destruct G as (GW & GT & R).
    destruct (get (tg_side tg) prepacked) eqn:Epre.
    { destruct (return_ok s i w tg r true GW GT R ltac:(left; auto)) as (p & E & ->).
      left. eexists. split; [reflexivity|]. eapply inv_return_same; eauto. left; auto. }
    rewrite num_blocks_per_side_ok by auto. cbn [bind]. fold (nb (tg_side tg)).
    pose proof (gt_block _ GT) as BR.
    rewrite (proj2 (Z.leb_le _ _)) by lia. rewrite (proj2 (Z.ltb_lt _ _)) by lia. cbn [andb negb].
    destruct (s_local s i (tg_side tg) (tg_block tg)) eqn:El.
    { destruct (return_ok s i w tg r true GW GT R ltac:(right; auto)) as (p & E & ->).
      left. eexists. split; [reflexivity|]. eapply inv_return_same; eauto. right; auto. }
    destruct (need_atomics bm) eqn:En.
    + destruct (s_status s (tg_side tg) (tg_block tg)) eqn:Est.
      * (* compare_exchange succeeds *)
        left. eexists. split; [reflexivity|]. constructor.
        -- cbn [set_pc set_status s_pc s_next s_begun s_ran]. apply ids_same; auto; [apply (iv_ids _ I)| |]; rewrite EP; reflexivity.
        -- apply pack_start with (s := s) (i := i) (tg := tg); auto; try apply (iv_pack _ I).
           { rewrite EP. reflexivity. }
           { intros j N. cbn [set_pc set_status s_pc]. rewrite upd_other; auto. }
           { cbn [set_pc set_status s_pc]. rewrite upd_same. reflexivity. }
           { cbn [set_pc set_status s_pc]. rewrite upd_same. reflexivity. }
           { intros _. cbn [set_pc set_status s_status]. split; [auto|]. split; [apply upd_s_same|].
             intros sd b X. apply upd_s_other; auto. }
        -- intros j Hj. cbn [set_pc set_status s_pc s_local]. destruct (Z.eq_dec j i) as [->|N]; [rewrite upd_same|rewrite upd_other by auto; apply (iv_good _ I); auto].
           cbn [good_pc]. auto.
        -- cbn [set_pc set_status s_dwrite s_ran]. apply (iv_dwrite _ I).
        -- cbn [set_pc set_status s_mem]. apply (iv_mem _ I).
        -- cbn [set_pc set_status s_mem s_ran]. apply (iv_kr _ I).
      * destruct (return_ok s i w tg r false GW GT R ltac:(discriminate)) as (p & E & ->).
        left. eexists. split; [reflexivity|]. eapply inv_return_same; eauto. discriminate.
      * destruct (stale && negb (s_seen s i (tg_side tg) (tg_block tg))).
        { destruct (return_ok s i w tg r false GW GT R ltac:(discriminate)) as (p & E & ->).
          left. eexists. split; [reflexivity|]. eapply inv_return_same; eauto. discriminate. }
        set (s1 := set_local (acquire_finished s i tg) i tg).
        assert (LS : s_local s1 i (tg_side tg) (tg_block tg) = true).
        { cbn. rewrite upd_same. apply upd_s_same. }
        assert (LM : forall sd b, s_local s i sd b = true -> s_local s1 i sd b = true).
        { intros sd b X. cbn. rewrite upd_same. destruct (sd_dec sd b (tg_side tg) (tg_block tg)) as [Y|Y].
          - inversion Y; subst. apply upd_s_same.
          - rewrite upd_s_other; auto. }
        destruct (return_ok s1 i w tg r true GW GT) as (p & E & ->).
        { eapply ret_ok_mono; eauto. }
        { right; auto. }
        left. eexists. split; [reflexivity|].
        eapply inv_return with (s := s); eauto; try reflexivity; try (rewrite EP; reflexivity).
        { intros j N. cbn. rewrite upd_other; auto. }
        { right; auto. }
        intros HP. apply pack_acquire with (s := s) (i := i) (sd0 := tg_side tg) (b0 := tg_block tg); auto; try apply (iv_pack _ I).
        { rewrite EP. reflexivity. }
        { intros j N. cbn [set_pc s_pc s1 set_local acquire_finished]. rewrite upd_other; auto. }
        { cbn [set_pc s_pc]. rewrite upd_same. auto. }
    + (* one thread: start packing *)
      left. eexists. split; [reflexivity|]. constructor.
      * cbn [set_pc s_pc s_next s_begun s_ran]. apply ids_same; auto; [apply (iv_ids _ I)| |]; rewrite EP; reflexivity.
      * apply pack_start with (s := s) (i := i) (tg := tg); auto; try apply (iv_pack _ I).
        { rewrite EP. reflexivity. }
        { intros j N. cbn [set_pc s_pc]. rewrite upd_other; auto. }
        { cbn [set_pc s_pc]. rewrite upd_same. reflexivity. }
        { cbn [set_pc s_pc]. rewrite upd_same. reflexivity. }
        { intros X. congruence. }
      * intros j Hj. cbn [set_pc s_pc s_local]. destruct (Z.eq_dec j i) as [->|N]; [rewrite upd_same|rewrite upd_other by auto; apply (iv_good _ I); auto].
        cbn [good_pc]. auto.
      * cbn [set_pc s_dwrite s_ran]. apply (iv_dwrite _ I).
      * cbn [set_pc s_mem]. apply (iv_mem _ I).
      * cbn [set_pc s_mem s_ran]. apply (iv_kr _ I).
  - (* PPack *)
    destruct G as (GW & GT & R). pose proof (iv_pack _ I) as PI.
    assert (H : held (s_pc s i) = Some (tg_side tg, tg_block tg)) by (rewrite EP; reflexivity).
    assert (S : stored (s_pc s i) = None) by (rewrite EP; reflexivity).
    destruct (pi_hold _ _ _ _ _ _ _ PI i _ _ Hi H) as (PP & BR & _).
    pose proof (pi_pack _ _ _ _ _ _ _ PI i _ _ Hi H S) as PN.
    unfold do_pack. rewrite PN. cbn [ordered andb].
    rewrite (proj2 (forallb_forall _ _)).
    2: { intros j _. pose proof (pi_read _ _ _ _ _ _ _ PI _ _ j PN PP). pose proof (pi_clk _ _ _ _ _ _ _ PI i j). lia. }
    rewrite (gt_start _ GT), (gt_end _ GT).
    destruct (Hpack (tg_side tg) (tg_block tg) (s_mem s) PP BR (iv_mem _ I)) as [(m' & -> & HM & HPB & HO & HK)|[NT NO]].
    2: { right. split; [exact NT|]. intros s' X. repeat (apply bind_ok_pre' in X; destruct X as [? X]). exact (NO _ X). }
    cbn [bind]. left. eexists. split; [reflexivity|]. constructor.
    + cbn [set_pc s_pc s_next s_begun s_ran]. apply ids_same; auto; [apply (iv_ids _ I)| |]; rewrite EP; reflexivity.
    + apply pack_write with (s := s) (i := i) (sd0 := tg_side tg) (b0 := tg_block tg); auto.
      * intros j N. cbn [set_pc s_pc]. rewrite upd_other; auto.
      * cbn [set_pc s_pc]. rewrite upd_same. reflexivity.
    + intros j Hj. cbn [set_pc s_pc s_local]. destruct (Z.eq_dec j i) as [->|N]; [rewrite upd_same|rewrite upd_other by auto; apply (iv_good _ I); auto].
      cbn [good_pc]. auto.
    + cbn [set_pc s_dwrite s_ran]. apply (iv_dwrite _ I).
    + cbn [set_pc s_mem]. auto.
    + cbn [set_pc s_mem s_ran]. apply HK; [|apply (iv_kr _ I)].
      intros x Hx. apply (ii_begun_range _ _ _ _ _ _ (iv_ids _ I)). apply (ii_ran_begun _ _ _ _ _ _ (iv_ids _ I)). auto.
  - (* PStore *)
    destruct G as (GW & GT & R). pose proof (iv_pack _ I) as PI.
    assert (S : stored (s_pc s i) = Some (tg_side tg, tg_block tg)) by (rewrite EP; reflexivity).
    assert (Main : forall s0, s_pc s0 = s_pc s -> s_local s0 = s_local s -> s_next s0 = s_next s -> s_begun s0 = s_begun s ->
              s_ran s0 = s_ran s -> s_dwrite s0 = s_dwrite s -> s_mem s0 = s_mem s ->
              s_clock s0 = s_clock s -> s_pwrite s0 = s_pwrite s -> s_pread s0 = s_pread s -> s_packs s0 = s_packs s ->
              (need_atomics bm = true -> s_status s0 = upd_s (s_status s) (tg_side tg) (tg_block tg) Finished /\
                  s_rel s0 = upd_s (s_rel s) (tg_side tg) (tg_block tg) (s_clock s i)) ->
              exists s', return_from_try dbg ahead bm (set_local s0 i tg) i w tg r true = Ok s' /\ inv s').
    { intros s0 E1 E2 E3 E4 E5 E6 E7 E8 E9 E10 E11 E12.
      set (s1 := set_local s0 i tg).
      assert (LS : s_local s1 i (tg_side tg) (tg_block tg) = true).
      { cbn. rewrite upd_same. apply upd_s_same. }
      assert (LM : forall sd b, s_local s i sd b = true -> s_local s1 i sd b = true).
      { intros sd b X. cbn. rewrite upd_same, E2. destruct (sd_dec sd b (tg_side tg) (tg_block tg)) as [Y|Y].
        - inversion Y; subst. apply upd_s_same.
        - rewrite upd_s_other; auto. }
      destruct (return_ok s1 i w tg r true GW GT) as (p & E & ->).
      { eapply ret_ok_mono; eauto. }
      { right; auto. }
      eexists. split; [reflexivity|].
      eapply inv_return with (s := s); eauto; try (cbn; congruence); try (rewrite EP; reflexivity).
      { intros j N. cbn. rewrite upd_other, E2; auto. }
      { right; auto. }
      intros HP. apply pack_release with (s := s) (i := i) (sd0 := tg_side tg) (b0 := tg_block tg);
        auto; try (cbn; congruence).
      { intros j N. cbn [set_pc s_pc s1 set_local]. rewrite upd_other, E1; auto. }
      { cbn [set_pc s_pc]. rewrite upd_same. auto. } }
    destruct (need_atomics bm) eqn:En.
    + rewrite dcheck_ok.
      2: { cbn [release_finished set_status s_status]. rewrite upd_s_same. reflexivity. }
      cbn [bind]. left. apply Main; auto.
    + left. apply Main; auto. discriminate.
  - (* PKernel *)
    destruct G as (GW & AV). pose proof (iv_pack _ I) as PI. pose proof (iv_ids _ I) as II.
    assert (RD : forall sd, may_read prepacked s i sd (get sd (w_block w)) = true /\ PB (s_mem s) sd (get sd (w_block w))).
    { intros sd. unfold may_read. rewrite (gw_block _ GW). destruct (AV sd) as [A|A]; rewrite (gw_block _ GW) in *.
      - rewrite A. split; auto. apply (pi_pre _ _ _ _ _ _ _ PI); auto. apply block_range. apply (gw_id _ GW).
      - destruct (pi_local _ _ _ _ _ _ _ PI i _ _ Hi A) as ((j & c & B & C) & _).
        rewrite B. cbn [ordered]. rewrite (proj2 (Z.leb_le _ _)) by auto. rewrite orb_true_r. split; auto.
        apply (pi_written _ _ _ _ _ _ _ PI). congruence. }
    assert (AC : active (s_pc s i) = Some (w_id w)) by (rewrite EP; reflexivity).
    destruct (ii_act _ _ _ _ _ _ II i _ Hi AC) as [IB NR].
    assert (DW : s_dwrite s (w_id w) = None).
    { destruct (s_dwrite s (w_id w)) eqn:E; auto. exfalso. apply NR. apply (iv_dwrite _ I). congruence. }
    unfold do_kernel. destruct (RD Lhs) as [RL PL]. destruct (RD Rhs) as [RR PR]. cbn [get] in *.
    rewrite RL, RR, DW. cbn [ordered andb].
    rewrite (gw_start _ GW), (gw_end _ GW).
    destruct (Hkernel (w_id w) (s_mem s) (gw_id _ GW) (iv_mem _ I)) as [(m' & -> & HM & HP & HK)|[NT NO]].
    { rewrite <- (gw_block _ GW). intros []; auto. }
    2: { right. split; [exact NT|]. intros s' X. repeat (apply bind_ok_pre' in X; destruct X as [? X]). exact (NO _ X). }
    cbn [bind]. left. eexists. split; [reflexivity|]. constructor.
    + cbn [set_pc s_pc s_next s_begun s_ran map snd]. apply ids_kernel; auto. rewrite EP. reflexivity.
    + apply pack_ext with (s := s); auto.
      * intros j Hj. cbn [set_pc s_pc]. destruct (Z.eq_dec j i) as [->|N]; [rewrite upd_same|rewrite upd_other by auto; auto].
        rewrite EP. reflexivity.
      * intros j Hj. cbn [set_pc s_pc]. destruct (Z.eq_dec j i) as [->|N]; [rewrite upd_same|rewrite upd_other by auto; auto].
        rewrite EP. reflexivity.
      * intros j k. cbn [set_pc s_clock]. unfold tick.
        destruct (Z.eq_dec j i) as [->|N]; [rewrite upd_same|rewrite upd_other by auto; lia].
        destruct (Z.eq_dec k i) as [->|N]; [rewrite upd_same|rewrite upd_other by auto]; lia.
      * intros sd b j PN PP. cbn [set_pc s_pread].
        assert (NE : forall sd', (sd, b) <> (sd', get sd' (w_block w))).
        { intros sd' X. inversion X; subst sd' b. destruct (RD sd) as [RX _]. unfold may_read in RX.
          rewrite PN, PP in RX. discriminate. }
        rewrite upd_s_other by apply (NE Rhs). rewrite upd_s_other by apply (NE Lhs). reflexivity.
    + intros j Hj. cbn [set_pc s_pc s_local]. destruct (Z.eq_dec j i) as [->|N]; [rewrite upd_same|rewrite upd_other by auto; apply (iv_good _ I); auto].
      cbn [good_pc].
      assert (PE : pending (s_pc s i) = Some (w_next w)) by (rewrite EP; reflexivity).
      apply (ii_pend _ _ _ _ _ _ II i _ Hi PE).
    + intros b. cbn [set_pc s_dwrite s_ran map snd In]. intros X. destruct (Z.eq_dec b (w_id w)) as [->|N]; auto.
      rewrite upd_other in X by auto. right. apply (iv_dwrite _ I); auto.
    + cbn [set_pc s_mem]. auto.
    + cbn [set_pc s_mem s_ran map snd]. apply HK; [|apply (iv_kr _ I)].
      intros x Hx. apply (ii_begun_range _ _ _ _ _ _ II). apply (ii_ran_begun _ _ _ _ _ _ II). auto.
  - (* PDone *) left. eauto.
Qed.

Lemma step_inv : forall i stale s s', inv s -> stepf i stale s = Ok s' -> inv s'.
Proof.
  intros i stale s s' I E. destruct (step_ok i stale s I) as [(s1 & E1 & I1)|[_ N]]; [congruence|]. destruct (N s' E).
Qed.

Lemma step_total : TOT -> forall i stale s, inv s -> exists s', stepf i stale s = Ok s' /\ inv s'.
Proof. intros H i stale s I. destruct (step_ok i stale s I) as [X|[N _]]; [exact X|contradiction]. Qed.

Lemma exec_inv : forall sched s s', inv s ->
  exec run_pack run_kernel dbg ahead bm prepacked sched s = Ok s' -> inv s'.
Proof.
  induction sched as [|[i st] rest IH]; intros s s' I E; cbn [exec] in E; [congruence|].
  fold stepf in E. destruct (stepf i st s) as [s1| |] eqn:E1; cbn [bind] in E; try discriminate.
  apply (IH s1); auto. eapply step_inv; eauto.
Qed.

Lemma exec_ok : TOT -> forall sched s, inv s ->
  exists s', exec run_pack run_kernel dbg ahead bm prepacked sched s = Ok s' /\ inv s'.
Proof.
  intros HTOT. induction sched as [|[i st] rest IH]; intros s I; cbn [exec]; [eauto|].
  destruct (step_total HTOT i st s I) as (s1 & E & I1). fold stepf. rewrite E. cbn [bind]. apply IH; auto.
Qed.

Lemma all_done_iff : forall s : mst M, all_done bm s = true <-> forall i, tid i -> s_pc s i = PDone.
Proof.
  intros s. unfold all_done. rewrite forallb_forall. split.
  - intros H i Hi. specialize (H i). rewrite zrange_In in H. specialize (H Hi). destruct (s_pc s i); try discriminate. auto.
  - intros H i Hi. apply zrange_In in Hi. rewrite H by auto. reflexivity.
Qed.

Lemma final_ok : forall s, inv s -> all_done bm s = true ->
  Permutation (map snd (s_ran s)) (zrange 0 NB).
Proof.
  intros s I D. rewrite all_done_iff in D.
  eapply ids_final; [|apply (iv_ids _ I)|exact D]. clear - HT. unfold T. lia.
Qed.
End Machine.
