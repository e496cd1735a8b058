(** Block-map results in the vocabulary of SpecBlockMap. *)
From Verif Require Import Base SidePair SizeUtil SizeUtilFacts BlockMap TraversalFacts BlockMapFacts
  SpecBlockMap MakeBlockMapFacts ThreadCount.

Lemma mod_divide : forall a m, 0 < m -> a mod m = 0 -> (m | a).
Proof. intros. apply Z.mod_divide; lia. Qed.

Definition rect_of (bm : block_map) (i : Z) : rect :=
  let b := block_of_index bm i in
  {| row0 := block_start Lhs bm (lhs b); row1 := block_start Lhs bm (lhs b + 1);
     col0 := block_start Rhs bm (rhs b); col1 := block_start Rhs bm (rhs b + 1) |}.

Lemma block_rect_ok : forall dbg bm i, bm_wf bm ->
  0 <= i < 2 ^ (2 * bm_base bm + lhs (bm_rect bm) + rhs (bm_rect bm)) ->
  block_rect dbg bm i = Ok (rect_of bm i).
Proof.
  intros dbg bm i W Hi. unfold block_rect.
  destruct (get_block_by_index_ok bm i W Hi) as [E R].
  rewrite E. cbn [bind]. unfold get_block_coords.
  pose proof (R Lhs) as RL. pose proof (R Rhs) as RR. cbn [get] in RL, RR.
  rewrite get_block_matrix_coords_ok by auto. cbn [bind].
  rewrite get_block_matrix_coords_ok by auto. reflexivity.
Qed.

Lemma wf_tiles : forall bm, bm_wf bm ->
  tiles (lhs (bm_dims bm)) (rhs (bm_dims bm)) (lhs (bm_kernel bm)) (rhs (bm_kernel bm))
    (2 ^ (2 * bm_base bm + lhs (bm_rect bm) + rhs (bm_rect bm))) (rect_of bm).
Proof.
  intros bm W.
  assert (Rg : forall i, 0 <= i < 2 ^ (2 * bm_base bm + lhs (bm_rect bm) + rhs (bm_rect bm)) ->
     forall s, 0 <= get s (block_of_index bm i) < 2 ^ (bm_base bm + get s (bm_rect bm))).
  { intros i Hi. apply get_block_by_index_ok; auto. }
  assert (NE : forall s b, 0 <= b < 2 ^ (bm_base bm + get s (bm_rect bm)) ->
    0 <= block_start s bm b /\ block_start s bm b < block_start s bm (b + 1) /\
    block_start s bm (b + 1) <= get s (bm_dims bm)).
  { intros s b Hb. pose proof (wf_small_pos _ W s) as Hs.
    pose proof (block_start_mono bm s 0 b W ltac:(lia)) as M0.
    rewrite block_start_0 in M0 by auto.
    pose proof (block_start_mono bm s b (b + 1) W ltac:(lia)) as M1.
    pose proof (block_start_mono bm s (b + 1) (2 ^ (bm_base bm + get s (bm_rect bm))) W ltac:(lia)) as M2.
    rewrite block_start_last in M2 by auto.
    set (e := 2 ^ (bm_base bm + get s (bm_rect bm))) in *.
    set (x := block_start s bm b) in *. set (y := block_start s bm (b + 1)) in *.
    set (d := get s (bm_small bm)) in *. set (D := get s (bm_dims bm)) in *. clearbody e x y d D.
    repeat split; nia. }
  constructor.
  - intros i Hi. pose proof (Rg i Hi) as R. pose proof (NE Lhs _ (R Lhs)). pose proof (NE Rhs _ (R Rhs)).
    cbn [get] in *. cbn [rect_of row0 row1 col0 col1]. split; [apply H|apply H0].
  - intros i Hi. pose proof (Rg i Hi) as R. pose proof (NE Lhs _ (R Lhs)). pose proof (NE Rhs _ (R Rhs)).
    cbn [get] in *. cbn [rect_of row0 row1 col0 col1]. repeat split; [apply H|apply H|apply H0|apply H0].
  - intros i Hi. cbn [rect_of row0 row1 col0 col1].
    pose proof (wf_kernel_pos bm Lhs W). pose proof (wf_kernel_pos bm Rhs W).
    pose proof (fun b => block_start_aligned bm Lhs b W) as AL.
    pose proof (fun b => block_start_aligned bm Rhs b W) as AR. cbn [get] in *.
    repeat split; apply mod_divide; auto.
  - intros r c Hr Hc.
    destruct (block_start_covers bm Lhs r W Hr) as (bl & Hbl & Cl).
    destruct (block_start_covers bm Rhs c W Hc) as (br & Hbr & Cr). cbn [get] in *.
    destruct (block_of_index_surj bm bl br W Hbl Hbr) as (i & Hi & E).
    exists i. split; [split; [exact Hi|]|].
    + unfold in_rect, rect_of. rewrite E. cbn [row0 row1 col0 col1 lhs rhs]. split; auto.
    + intros j Hj Ij. pose proof (Rg j Hj) as R. pose proof (R Lhs) as RL. pose proof (R Rhs) as RR.
      cbn [get] in *.
      apply (block_of_index_inj bm); auto. rewrite E.
      unfold in_rect, rect_of in Ij. cbn [row0 row1 col0 col1] in Ij. destruct Ij as [I1 I2].
      apply sp_ext; cbn [lhs rhs].
      * apply (block_start_disjoint bm Lhs _ _ r W); [apply RL|apply Hbl|exact I1|exact Cl].
      * apply (block_start_disjoint bm Rhs _ _ c W); [apply RR|apply Hbr|exact I2|exact Cr].
Qed.

Lemma blocks_tile : forall dbg opts rows cols depth krows kcols ls rs threads cp,
  bm_domain rows cols depth krows kcols ls rs threads cp ->
  exists bm n R,
    make_block_map dbg opts rows cols depth krows kcols ls rs threads cp = Ok bm /\
    num_blocks bm = Ok n /\ 1 <= n /\
    (forall i, 0 <= i < n -> block_rect dbg bm i = Ok (R i)) /\
    tiles rows cols krows kcols n R.
Proof.
  intros dbg opts rows cols depth krows kcols ls rs threads cp D.
  destruct (make_block_map_ok dbg opts rows cols depth krows kcols ls rs threads cp D)
    as (bm & E & W & Ed & Ek & En & _).
  exists bm, (2 ^ (2 * bm_base bm + lhs (bm_rect bm) + rhs (bm_rect bm))), (rect_of bm).
  split; [exact E|]. split; [exact En|]. split; [|split].
  - pose proof (wf_base _ W). pose proof (wf_rect _ W Lhs). pose proof (wf_rect _ W Rhs). cbn [get] in *.
    pose proof (pow2_pos (2 * bm_base bm + lhs (bm_rect bm) + rhs (bm_rect bm)) ltac:(lia)). lia.
  - intros i Hi. apply block_rect_ok; auto.
  - pose proof (wf_tiles bm W) as T. rewrite Ed, Ek in T. cbn [lhs rhs] in T. exact T.
Qed.

Lemma decoders_bijective : forall o k, 0 <= k <= 16 ->
  bijective_onto_grid (2 ^ (2 * k)) (2 ^ k) (2 ^ k) (decode o k).
Proof.
  intros o k Hk. split; [|split].
  - intros i Hi. apply decode_range; auto.
  - intros i j Hi Hj E. apply (decode_inj o k); auto.
  - intros l r Hl Hr.
    destruct (pigeonhole_surj (2 ^ (2 * k)) (2 ^ k) (2 ^ k)
      (fun i => (lhs (decode o k i), rhs (decode o k i)))) with (a := l) (b := r) as (i & Hi & E); auto.
    + pose proof (pow2_pos k ltac:(lia)). lia.
    + pose proof (pow2_pos k ltac:(lia)). lia.
    + rewrite <- Z.pow_add_r by lia. f_equal. lia.
    + intros i Hi. cbn [fst snd]. apply decode_range; auto.
    + intros i j Hi Hj E. apply (decode_inj o k); auto.
      apply pair_equal_spec in E. destruct E. apply sp_ext; auto.
    + exists i. split; auto. apply pair_equal_spec in E. destruct E. apply sp_ext; auto.
Qed.

(** GetBlockByIndex only looks at the shape of the grid. *)
Definition shape_only (bm : block_map) : block_map :=
  {| bm_thread_count := bm_thread_count bm; bm_order := bm_order bm;
     bm_dims := mk_sp (2 ^ (bm_base bm + lhs (bm_rect bm))) (2 ^ (bm_base bm + rhs (bm_rect bm)));
     bm_base := bm_base bm; bm_rect := bm_rect bm; bm_kernel := mk_sp 1 1;
     bm_small := mk_sp 1 1; bm_large := mk_sp 0 0 |}.

Lemma shape_only_wf : forall bm, grid_shape bm -> bm_wf (shape_only bm).
Proof.
  intros bm (Hb & Hl & Hr & Ho & Ht).
  constructor; cbn [shape_only bm_base bm_rect bm_kernel bm_small bm_large bm_dims]; auto.
  - intros []; cbn [get]; auto.
  - intros s; exists 0. split; [lia|]. destruct s; reflexivity.
  - intros []; cbn [get lhs rhs]; lia.
  - intros []; cbn [get lhs rhs]; reflexivity.
  - intros []; cbn [get lhs rhs]; (split; [lia|]); apply Z.lt_le_incl; apply pow2_pos; lia.
  - intros []; cbn [get lhs rhs]; lia.
  - intros []; cbn [get lhs rhs]; apply Z.pow_le_mono_r; lia.
Qed.

Lemma block_index_bijective : forall bm, grid_shape bm ->
  exists n nl nr f, num_blocks bm = Ok n /\
    num_blocks_per_side Lhs bm = Ok nl /\ num_blocks_per_side Rhs bm = Ok nr /\ n = nl * nr /\
    (forall i, 0 <= i < n -> get_block_by_index bm i = Ok (f i)) /\
    bijective_onto_grid n nl nr f.
Proof.
  intros bm G. pose proof (shape_only_wf bm G) as W.
  pose proof (num_blocks_ok _ W) as En.
  pose proof (num_blocks_per_side_ok _ Lhs W) as El.
  pose proof (num_blocks_per_side_ok _ Rhs W) as Er.
  pose proof (num_blocks_product _ W) as Ep.
  eexists _, _, _, (block_of_index (shape_only bm)).
  split; [exact En|]. split; [exact El|]. split; [exact Er|]. split; [exact Ep|].
  split; [|split; [|split]].
  - intros i Hi. exact (proj1 (get_block_by_index_ok _ i W Hi)).
  - intros i Hi. destruct (get_block_by_index_ok _ i W Hi) as [_ R]. split; [apply (R Lhs)|apply (R Rhs)].
  - intros i j Hi Hj E. apply (block_of_index_inj _ i j W); auto.
  - intros l r Hl Hr. apply block_of_index_surj; auto.
Qed.

Lemma adjacent_of_manhattan : forall p q, manhattan p q = 1 -> share_an_edge p q.
Proof. intros p q H. unfold manhattan in H. unfold share_an_edge. lia. Qed.

Lemma hilbert_square_adjacent : forall k i, 0 <= k <= 16 -> 0 <= i -> i + 1 < 2 ^ (2 * k) ->
  share_an_edge (decode_hilbert k i) (decode_hilbert k (i + 1)).
Proof. intros. apply adjacent_of_manhattan, decode_hilbert_adjacent; auto. Qed.

(** Within one square of the grid consecutive indices denote neighbours. *)
Lemma hilbert_blocks_adjacent : forall bm i, grid_shape bm -> bm_order bm = THilbert ->
  0 <= i -> i + 1 < 2 ^ (2 * bm_base bm + lhs (bm_rect bm) + rhs (bm_rect bm)) ->
  i / 2 ^ (2 * bm_base bm) = (i + 1) / 2 ^ (2 * bm_base bm) ->
  exists p q, get_block_by_index bm i = Ok p /\ get_block_by_index bm (i + 1) = Ok q /\ share_an_edge p q.
Proof.
  intros bm i G Ho Hi Hi1 Hsq. pose proof (shape_only_wf bm G) as W.
  destruct (get_block_by_index_ok _ i W) as [Ep _]; [cbn [shape_only bm_base bm_rect]; lia|].
  destruct (get_block_by_index_ok _ (i + 1) W) as [Eq _]; [cbn [shape_only bm_base bm_rect]; lia|].
  exists (block_of_index (shape_only bm) i), (block_of_index (shape_only bm) (i + 1)).
  split; [exact Ep|]. split; [exact Eq|].
  unfold block_of_index. cbn [shape_only bm_base bm_rect bm_order]. rewrite Ho.
  destruct G as (Hb & Hl & Hr & _ & Ht).
  set (m := 2 ^ (2 * bm_base bm)) in *.
  assert (Pm : 0 < m) by (apply pow2_pos; lia).
  rewrite <- Hsq.
  assert (Em : (i + 1) mod m = i mod m + 1 /\ 0 <= i mod m /\ i mod m + 1 < m).
  { pose proof (Z.div_mod i m ltac:(lia)). pose proof (Z.div_mod (i + 1) m ltac:(lia)).
    pose proof (Z.mod_pos_bound i m Pm). pose proof (Z.mod_pos_bound (i + 1) m Pm).
    rewrite Hsq in *. clear - H H0 H1 H2. lia. }
  destruct Em as (Em & M0 & M1). rewrite Em.
  assert (A : share_an_edge (decode THilbert (bm_base bm) (i mod m)) (decode THilbert (bm_base bm) (i mod m + 1))).
  { Transparent decode. unfold decode. apply hilbert_square_adjacent; auto. clear - Hb Ht Hl Hr. lia. }
  Opaque decode.
  set (p := decode THilbert (bm_base bm) (i mod m)) in *.
  set (q := decode THilbert (bm_base bm) (i mod m + 1)) in *.
  clearbody p q. unfold share_an_edge in *. cbn [lhs rhs].
  generalize dependent (i / m mod 2 ^ lhs (bm_rect bm) * 2 ^ bm_base bm).
  generalize dependent (i / m mod 2 ^ rhs (bm_rect bm) * 2 ^ bm_base bm).
  clear - A. intros. lia.
Qed.

(** * Thread count *)

Lemma tentative_bounds : forall dbg strategy maxt rows cols depth,
  1 <= maxt <= int_max -> 0 <= rows -> 0 <= cols -> 0 <= depth ->
  rows * cols <= 2 ^ 63 - 1 -> rows * cols * depth <= 2 ^ 63 - 1 ->
  exists t, get_tentative_thread_count dbg strategy maxt rows cols depth = Ok t /\ 1 <= t <= maxt /\
    (strategy = StrategyForceMax -> t = maxt) /\
    (strategy = StrategyDefault -> rows * cols * depth < 2 * 32768 -> t = 1) /\
    (strategy = StrategyDefault -> 32768 * maxt <= rows * cols * depth -> t = maxt).
Proof.
  intros dbg strategy maxt rows cols depth Hm Hr Hc Hd H1 H2.
  destruct strategy; cbn [get_tentative_thread_count].
  - change (2 ^ 63) with 9223372036854775808 in *.
    assert (0 <= rows * cols) by nia. assert (0 <= rows * cols * depth) by nia.
    rewrite i64_ok by lia. cbn [bind]. rewrite i64_ok by lia. cbn [bind].
    set (P := rows * cols * depth) in *. clearbody P.
    rewrite Z.quot_div_nonneg by lia.
    pose proof (Z.div_mod P 32768 ltac:(lia)). pose proof (Z.mod_pos_bound P 32768 ltac:(lia)).
    rewrite dcheck_ok by lia. cbn [bind].
    eexists. split; [reflexivity|]. repeat split; intros; try discriminate; lia.
  - eexists. split; [reflexivity|]. repeat split; intros; try discriminate; lia.
Qed.

Lemma tentative_nonpositive : forall dbg strategy maxt rows cols depth t,
  maxt <= 0 -> get_tentative_thread_count dbg strategy maxt rows cols depth = Ok t -> t <= 0.
Proof.
  intros dbg strategy maxt rows cols depth t Hm E.
  destruct strategy; cbn [get_tentative_thread_count] in E.
  - repeat (apply bind_ok in E; destruct E as (? & _ & E)). injection E as <-. lia.
  - injection E as <-. auto.
Qed.

(** The number of threads of a Mul that does not take the simple route. *)
Lemma thread_count_bounds : forall dbg opts strategy maxt srows scols rows cols depth krows kcols ls rs cp,
  1 <= maxt <= int_max -> 0 <= srows -> 0 <= scols -> 0 <= depth ->
  srows * scols <= 2 ^ 63 - 1 -> srows * scols * depth <= 2 ^ 63 - 1 ->
  (forall t, 1 <= t <= maxt -> bm_domain rows cols depth krows kcols ls rs t cp) ->
  exists t bm n, get_tentative_thread_count dbg strategy maxt srows scols depth = Ok t /\
    make_block_map dbg opts rows cols depth krows kcols ls rs t cp = Ok bm /\
    num_blocks bm = Ok n /\
    1 <= bm_thread_count bm <= maxt /\ bm_thread_count bm <= n /\
    (strategy = StrategyForceMax -> bm_thread_count bm = Z.min maxt n) /\
    (strategy = StrategyDefault -> srows * scols * depth < 2 * 32768 -> bm_thread_count bm = 1).
Proof.
  intros dbg opts strategy maxt srows scols rows cols depth krows kcols ls rs cp Hm Hr Hc Hd H1 H2 D.
  destruct (tentative_bounds dbg strategy maxt srows scols depth Hm Hr Hc Hd H1 H2)
    as (t & Et & Ht & F1 & F2 & _).
  destruct (make_block_map_ok dbg opts rows cols depth krows kcols ls rs t cp (D t Ht))
    as (bm & E & W & _ & _ & En & Etc & _).
  exists t, bm. eexists. split; [exact Et|]. split; [exact E|]. split; [exact En|].
  rewrite Etc.
  pose proof (wf_base _ W). pose proof (wf_rect _ W Lhs). pose proof (wf_rect _ W Rhs). cbn [get] in *.
  pose proof (pow2_pos (2 * bm_base bm + lhs (bm_rect bm) + rhs (bm_rect bm)) ltac:(lia)) as P.
  set (N := 2 ^ (2 * bm_base bm + lhs (bm_rect bm) + rhs (bm_rect bm))) in *. clearbody N.
  clear - Ht F1 F2 P.
  split; [lia|]. split; [lia|]. split; intros; [rewrite (F1 H); reflexivity|]. rewrite (F2 H H0). lia.
Qed.

(** Well-definedness, in terms of observable results only. *)
Lemma make_block_map_defined : forall dbg opts rows cols depth krows kcols ls rs threads cp,
  bm_domain rows cols depth krows kcols ls rs threads cp ->
  exists bm n, make_block_map dbg opts rows cols depth krows kcols ls rs threads cp = Ok bm /\
    num_blocks bm = Ok n /\ grid_shape bm /\
    bm_thread_count bm = Z.min threads n /\
    bm_dims bm = mk_sp rows cols /\ bm_kernel bm = mk_sp krows kcols /\
    (krows | lhs (bm_small bm)) /\ (kcols | rhs (bm_small bm)) /\
    0 < lhs (bm_small bm) /\ 0 < rhs (bm_small bm).
Proof.
  intros dbg opts rows cols depth krows kcols ls rs threads cp D.
  destruct (make_block_map_ok dbg opts rows cols depth krows kcols ls rs threads cp D)
    as (bm & E & W & Ed & Ek & En & Et & _).
  exists bm. eexists. split; [exact E|]. split; [exact En|]. split.
  { split; [apply (wf_base _ W)|]. split; [apply (wf_rect _ W Lhs)|]. split; [apply (wf_rect _ W Rhs)|].
    split; [apply (wf_one_rect _ W)|apply (wf_total _ W)]. }
  split; [exact Et|]. split; [exact Ed|]. split; [exact Ek|].
  pose proof (wf_small_al _ W Lhs) as A1. pose proof (wf_small_al _ W Rhs) as A2.
  pose proof (wf_kernel_pos bm Lhs W) as P1. pose proof (wf_kernel_pos bm Rhs W) as P2.
  pose proof (wf_small_pos _ W Lhs). pose proof (wf_small_pos _ W Rhs).
  cbn [get] in *. rewrite Ek in *. cbn [lhs rhs] in *.
  repeat split; auto; apply mod_divide; auto.
Qed.

(** * Outside the domain *)

Definition some_cache := {| local_cache_size := 262144; last_level_cache_size := 8388608 |}.

(** Square float product of size 16384: the working-set computation overflows. *)
Lemma working_set_overflow :
  make_block_map false default_opts 16384 16384 16384 8 8 4 4 1 some_cache = UB.
Proof. vm_compute. reflexivity. Qed.

(** 65536 x 65536 result with 1x1 kernels and depth 1 on one-byte scalars. *)
Lemma grid_overflow :
  make_block_map false default_opts 65536 65536 1 1 1 1 1 1 some_cache = UB.
Proof. vm_compute. reflexivity. Qed.

Lemma rect_overflow :
  make_block_map false default_opts 1073741824 8 1 8 8 1 1 1 some_cache = UB.
Proof. vm_compute. reflexivity. Qed.

