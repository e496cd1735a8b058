(** Lemmas about block_map.cc: block maps tile the matrix, and MakeBlockMap is
    well defined on a explicit domain. *)
From Verif Require Import Base SidePair SizeUtil SizeUtilFacts BlockMap TraversalFacts.

(** * Hilbert traversal: consecutive positions are adjacent *)

Definition manhattan (p q : sp Z) : Z := Z.abs (lhs p - lhs q) + Z.abs (rhs p - rhs q).

Lemma hil_first : forall k, Z.of_nat k <= 31 -> hil_x k 0 = 0 /\ hil_y k 0 = 0.
Proof.
  induction k as [|k IH]; intros Hk; [split; reflexivity|].
  destruct (IH ltac:(lia)) as [Ex Ey].
  pose proof (hil_pos_succ k 0 Hk ltac:(lia)) as S1.
  rewrite Z.div_0_l, Ex, Ey in S1 by (apply Z.pow_nonzero; lia).
  change (0 mod 4) with 0 in S1. unfold quadrant in S1.
  cbn [Z.eqb] in S1. apply pair_equal_spec in S1. exact S1.
Qed.

Lemma hil_last : forall k, Z.of_nat k <= 31 ->
  hil_x k (4 ^ Z.of_nat k - 1) = 2 ^ Z.of_nat k - 1 /\ hil_y k (4 ^ Z.of_nat k - 1) = 0.
Proof.
  induction k as [|k IH]; intros Hk; [split; reflexivity|].
  destruct (IH ltac:(lia)) as [Ex Ey].
  assert (P : 0 < 4 ^ Z.of_nat k) by (apply Z.pow_pos_nonneg; lia).
  assert (P2 : 0 < 2 ^ Z.of_nat k) by (apply pow2_pos; lia).
  assert (P4 : 4 ^ Z.of_nat (S k) = 4 * 4 ^ Z.of_nat k)
    by (rewrite Nat2Z.inj_succ, Z.pow_succ_r by lia; lia).
  assert (P22 : 2 ^ Z.of_nat (S k) = 2 * 2 ^ Z.of_nat k)
    by (rewrite Nat2Z.inj_succ, Z.pow_succ_r by lia; lia).
  pose proof (hil_pos_succ k (4 ^ Z.of_nat (S k) - 1) Hk ltac:(lia)) as S1.
  destruct (hil_pos_mod k (4 ^ Z.of_nat (S k) - 1) ltac:(lia) ltac:(lia)) as [Mx My].
  assert (Em : (4 ^ Z.of_nat (S k) - 1) mod 4 ^ Z.of_nat k = 4 ^ Z.of_nat k - 1).
  { symmetry. apply (Z.mod_unique _ _ 3); lia. }
  assert (Ed : (4 ^ Z.of_nat (S k) - 1) / 4 ^ Z.of_nat k = 3).
  { symmetry. apply (Z.div_unique _ _ 3 (4 ^ Z.of_nat k - 1)); lia. }
  rewrite Em, Ex in Mx. rewrite Em, Ey in My.
  rewrite Ed, Mx, My in S1. change (3 mod 4) with 3 in S1. unfold quadrant in S1.
  cbn [Z.eqb Pos.eqb] in S1. apply pair_equal_spec in S1. destruct S1. lia.
Qed.

Lemma hil_adjacent : forall k i, Z.of_nat k <= 31 -> 0 <= i -> i + 1 < 4 ^ Z.of_nat k ->
  Z.abs (hil_x k (i + 1) - hil_x k i) + Z.abs (hil_y k (i + 1) - hil_y k i) = 1.
Proof.
  induction k as [|k IH]; intros i Hk Hi Hi1.
  { change (4 ^ Z.of_nat 0) with 1 in Hi1. lia. }
  assert (P : 0 < 4 ^ Z.of_nat k) by (apply Z.pow_pos_nonneg; lia).
  assert (P2 : 0 < 2 ^ Z.of_nat k) by (apply pow2_pos; lia).
  assert (P4 : 4 ^ Z.of_nat (S k) = 4 * 4 ^ Z.of_nat k)
    by (rewrite Nat2Z.inj_succ, Z.pow_succ_r by lia; lia).
  set (Q := 4 ^ Z.of_nat k) in *. set (s := 2 ^ Z.of_nat k) in *.
  pose proof (hil_pos_succ k i Hk Hi) as S1.
  pose proof (hil_pos_succ k (i + 1) Hk ltac:(lia)) as S2.
  destruct (hil_pos_mod k i ltac:(lia) Hi) as [Mx My].
  destruct (hil_pos_mod k (i + 1) ltac:(lia) ltac:(lia)) as [Mx1 My1].
  destruct (hil_first k ltac:(lia)) as [Fx Fy].
  destruct (hil_last k ltac:(lia)) as [Lx Ly].
  fold Q in S1, S2, Mx, My, Mx1, My1, Lx, Ly. fold s in S1, S2, Lx, Ly.
  pose proof (Z.div_mod i Q ltac:(lia)) as DM.
  pose proof (Z.mod_pos_bound i Q P) as MB.
  set (q := i / Q) in *. set (r := i mod Q) in *.
  assert (Hq : 0 <= q < 4).
  { split; [apply Z.div_pos; lia|apply Z.div_lt_upper_bound; lia]. }
  destruct (Z.eq_dec r (Q - 1)) as [Er|Er].
  - (* crossing from a quadrant to the next *)
    assert (E1 : (i + 1) / Q = q + 1) by (symmetry; apply (Z.div_unique _ _ _ 0); nia).
    assert (E2 : (i + 1) mod Q = 0) by (symmetry; apply (Z.mod_unique _ _ (q + 1)); nia).
    rewrite E2, Fx in Mx1. rewrite E2, Fy in My1. rewrite Er, Lx in Mx. rewrite Er, Ly in My.
    rewrite Mx, My in S1. rewrite E1, Mx1, My1 in S2.
    assert (Hq3 : q < 3) by nia.
    rewrite Z.mod_small in S1 by lia. rewrite Z.mod_small in S2 by lia.
    unfold quadrant in S1, S2.
    assert (C : q = 0 \/ q = 1 \/ q = 2) by lia.
    destruct C as [-> | [-> | ->]]; cbn [Z.eqb Pos.eqb Z.add Pos.add Pos.succ] in S1, S2;
      apply pair_equal_spec in S1; apply pair_equal_spec in S2; destruct S1, S2; lia.
  - (* inside a quadrant *)
    assert (E1 : (i + 1) / Q = q) by (symmetry; apply (Z.div_unique _ _ _ (r + 1)); lia).
    assert (E2 : (i + 1) mod Q = r + 1) by (symmetry; apply (Z.mod_unique _ _ q); lia).
    rewrite E2 in Mx1, My1. rewrite E1 in S2.
    specialize (IH r ltac:(lia) ltac:(lia) ltac:(fold Q; lia)).
    rewrite <- Mx, <- My, <- Mx1, <- My1 in IH.
    rewrite Z.mod_small in S1 by lia. rewrite Z.mod_small in S2 by lia.
    unfold quadrant in S1, S2.
    destruct (q =? 0), (q =? 1), (q =? 2);
      apply pair_equal_spec in S1; apply pair_equal_spec in S2; destruct S1, S2; lia.
Qed.

Lemma decode_hilbert_adjacent : forall k i, 0 <= k <= 16 -> 0 <= i -> i + 1 < 2 ^ (2 * k) ->
  manhattan (decode_hilbert k i) (decode_hilbert k (i + 1)) = 1.
Proof.
  intros k i Hk Hi Hi1. rewrite !decode_hilbert_eq by lia. unfold manhattan; cbn [lhs rhs].
  pose proof (hil_adjacent (Z.to_nat k) i ltac:(lia) Hi) as H.
  rewrite Z2Nat.id, pow4_pow2 in H by lia. specialize (H Hi1). lia.
Qed.

(** * Well-formed block maps *)

Record bm_wf (bm : block_map) : Prop := {
  wf_base : 0 <= bm_base bm;
  wf_rect : forall s, 0 <= get s (bm_rect bm);
  wf_one_rect : lhs (bm_rect bm) = 0 \/ rhs (bm_rect bm) = 0;
  wf_total : 2 * bm_base bm + lhs (bm_rect bm) + rhs (bm_rect bm) <= 30;
  wf_kernel : forall s, exists kl, 0 <= kl /\ get s (bm_kernel bm) = 2 ^ kl;
  wf_small_pos : forall s, 0 < get s (bm_small bm);
  wf_small_al : forall s, get s (bm_small bm) mod get s (bm_kernel bm) = 0;
  wf_large : forall s, 0 <= get s (bm_large bm) <= 2 ^ (bm_base bm + get s (bm_rect bm));
  wf_dims : forall s, get s (bm_dims bm) =
    get s (bm_small bm) * 2 ^ (bm_base bm + get s (bm_rect bm)) +
    get s (bm_large bm) * get s (bm_kernel bm);
  wf_dims_bound : forall s, get s (bm_dims bm) <= 2 ^ 30
}.

Lemma wf_rect_sum : forall bm s, bm_wf bm -> bm_base bm + get s (bm_rect bm) <= 30.
Proof.
  intros bm s W. pose proof (wf_base _ W). pose proof (wf_rect _ W Lhs). pose proof (wf_rect _ W Rhs).
  pose proof (wf_total _ W). destruct s; cbn [get] in *; lia.
Qed.

Lemma num_blocks_ok : forall bm, bm_wf bm ->
  num_blocks bm = Ok (2 ^ (2 * bm_base bm + lhs (bm_rect bm) + rhs (bm_rect bm))).
Proof.
  intros bm W. unfold num_blocks. pose proof (wf_base _ W).
  pose proof (wf_rect _ W Lhs). pose proof (wf_rect _ W Rhs). cbn [get] in *.
  pose proof (wf_total _ W).
  set (e := 2 * bm_base bm + lhs (bm_rect bm) + rhs (bm_rect bm)) in *.
  rewrite shl32_ok; try lia.
  - f_equal; lia.
  - assert (2 ^ e <= 2 ^ 30) by (apply Z.pow_le_mono_r; lia).
    change (2 ^ 30) with 1073741824 in *. unfold int_max. lia.
Qed.

Lemma num_blocks_per_side_ok : forall bm s, bm_wf bm ->
  num_blocks_per_side s bm = Ok (2 ^ (bm_base bm + get s (bm_rect bm))).
Proof.
  intros bm s W. unfold num_blocks_per_side. pose proof (wf_base _ W).
  pose proof (wf_rect _ W s). pose proof (wf_rect_sum bm s W).
  rewrite shl32_ok; try lia.
  - f_equal; lia.
  - assert (2 ^ (bm_base bm + get s (bm_rect bm)) <= 2 ^ 30) by (apply Z.pow_le_mono_r; lia).
    change (2 ^ 30) with 1073741824 in *. unfold int_max. lia.
Qed.

Lemma num_blocks_product : forall bm, bm_wf bm ->
  2 ^ (2 * bm_base bm + lhs (bm_rect bm) + rhs (bm_rect bm)) =
  2 ^ (bm_base bm + lhs (bm_rect bm)) * 2 ^ (bm_base bm + rhs (bm_rect bm)).
Proof.
  intros bm W. pose proof (wf_base _ W).
  pose proof (wf_rect _ W Lhs). pose proof (wf_rect _ W Rhs). cbn [get] in *.
  rewrite <- Z.pow_add_r by lia. f_equal. lia.
Qed.

Lemma one_shl_u32_ok : forall s, 0 <= s < 32 -> one_shl_u32 s = Ok (2 ^ s).
Proof. intros. unfold one_shl_u32. replace (_ && _) with true by lia. reflexivity. Qed.

Lemma land_pow2_pred : forall n k, 0 <= k -> Z.land n (2 ^ k - 1) = n mod 2 ^ k.
Proof.
  intros. replace (2 ^ k - 1) with (Z.ones k) by (rewrite Z.ones_equiv; lia).
  apply Z.land_ones; auto.
Qed.

(** Closed form of GetBlockByIndex. *)
Definition block_of_index (bm : block_map) (idx : Z) : sp Z :=
  let b := bm_base bm in
  let p := decode (bm_order bm) b (idx mod 2 ^ (2 * b)) in
  let r := idx / 2 ^ (2 * b) in
  mk_sp (lhs p + (r mod 2 ^ lhs (bm_rect bm)) * 2 ^ b)
        (rhs p + (r mod 2 ^ rhs (bm_rect bm)) * 2 ^ b).

Lemma decode_range_get : forall o k n s, 0 <= k <= 16 -> 0 <= n < 2 ^ (2 * k) ->
  0 <= get s (decode o k n) < 2 ^ k.
Proof. intros o k n s Hk Hn. destruct (decode_range o k n Hk Hn). destruct s; cbn [get]; auto. Qed.

Lemma block_on_side_ok : forall bm s r p, bm_wf bm -> 0 <= get s p < 2 ^ bm_base bm ->
  block_on_side s bm r p = Ok (get s p + (r mod 2 ^ get s (bm_rect bm)) * 2 ^ bm_base bm) /\
  0 <= get s p + (r mod 2 ^ get s (bm_rect bm)) * 2 ^ bm_base bm < 2 ^ (bm_base bm + get s (bm_rect bm)).
Proof.
  intros bm s r p W Hp. unfold block_on_side.
  pose proof (wf_base _ W). pose proof (wf_rect _ W s). pose proof (wf_rect_sum bm s W).
  rewrite one_shl_u32_ok by lia. cbn [bind].
  rewrite land_pow2_pred by lia.
  unfold shl_u32. rewrite Z.shiftl_mul_pow2 by lia.
  pose proof (pow2_pos (get s (bm_rect bm)) ltac:(lia)).
  pose proof (pow2_pos (bm_base bm) ltac:(lia)).
  pose proof (Z.mod_pos_bound r (2 ^ get s (bm_rect bm)) ltac:(lia)).
  assert (E : 2 ^ (bm_base bm + get s (bm_rect bm)) = 2 ^ bm_base bm * 2 ^ get s (bm_rect bm))
    by (apply Z.pow_add_r; lia).
  assert (2 ^ (bm_base bm + get s (bm_rect bm)) <= 2 ^ 30) by (apply Z.pow_le_mono_r; lia).
  change (2 ^ 30) with 1073741824 in *.
  set (m := r mod 2 ^ get s (bm_rect bm)) in *.
  assert (m * 2 ^ bm_base bm + 2 ^ bm_base bm <= 2 ^ (bm_base bm + get s (bm_rect bm))) by (rewrite E; nia).
  assert (0 <= m * 2 ^ bm_base bm) by nia.
  unfold wrap_u. rewrite Z.mod_small by (change (2 ^ 32) with 4294967296; lia).
  rewrite wrap_s_id by (unfold smin, smax; change (2 ^ (32 - 1)) with 2147483648; lia).
  split; [|lia]. apply i32_ok. unfold int_min, int_max. lia.
Qed.

Lemma index_lt_u32 : forall bm idx, bm_wf bm ->
  0 <= idx < 2 ^ (2 * bm_base bm + lhs (bm_rect bm) + rhs (bm_rect bm)) -> 0 <= idx < 2 ^ 32.
Proof.
  intros bm idx W H. pose proof (wf_total _ W).
  assert (2 ^ (2 * bm_base bm + lhs (bm_rect bm) + rhs (bm_rect bm)) <= 2 ^ 30) by (apply Z.pow_le_mono_r; lia).
  change (2 ^ 32) with 4294967296. change (2 ^ 30) with 1073741824 in *. lia.
Qed.

Lemma base_le_15 : forall bm, bm_wf bm -> bm_base bm <= 15.
Proof.
  intros bm W. pose proof (wf_total _ W).
  pose proof (wf_rect _ W Lhs). pose proof (wf_rect _ W Rhs). cbn [get] in *. lia.
Qed.

Lemma get_block_by_index_ok : forall bm idx, bm_wf bm ->
  0 <= idx < 2 ^ (2 * bm_base bm + lhs (bm_rect bm) + rhs (bm_rect bm)) ->
  get_block_by_index bm idx = Ok (block_of_index bm idx) /\
  forall s, 0 <= get s (block_of_index bm idx) < 2 ^ (bm_base bm + get s (bm_rect bm)).
Proof.
  intros bm idx W Hidx. unfold get_block_by_index, wrap_u.
  pose proof (index_lt_u32 bm idx W Hidx). rewrite Z.mod_small by lia.
  pose proof (wf_base _ W). pose proof (base_le_15 _ W).
  rewrite one_shl_u32_ok by lia. cbn [bind].
  rewrite land_pow2_pred, Z.shiftr_div_pow2 by lia.
  pose proof (pow2_pos (2 * bm_base bm) ltac:(lia)).
  pose proof (Z.mod_pos_bound idx (2 ^ (2 * bm_base bm)) ltac:(lia)) as HM.
  assert (HL := decode_range_get (bm_order bm) (bm_base bm) _ Lhs ltac:(lia) HM).
  assert (HR := decode_range_get (bm_order bm) (bm_base bm) _ Rhs ltac:(lia) HM).
  destruct (block_on_side_ok bm Lhs (idx / 2 ^ (2 * bm_base bm)) _ W HL) as [EL RL].
  destruct (block_on_side_ok bm Rhs (idx / 2 ^ (2 * bm_base bm)) _ W HR) as [ER RR].
  rewrite EL, ER. cbn [bind]. split; [reflexivity|].
  intros []; cbn [get lhs rhs block_of_index] in *; auto.
Qed.

Lemma euclid_unique : forall m a a' q q', 0 <= a < m -> 0 <= a' < m ->
  a + q * m = a' + q' * m -> a = a' /\ q = q'.
Proof.
  intros m a a' q q' Ha Ha' E. assert (q = q') by nia. subst. split; lia.
Qed.

Lemma div_pow2_bound : forall n a c, 0 <= a -> 0 <= c -> 0 <= n < 2 ^ (a + c) ->
  0 <= n / 2 ^ a < 2 ^ c.
Proof.
  intros n a c Ha Hc Hn. rewrite Z.pow_add_r in Hn by lia.
  pose proof (pow2_pos a Ha).
  split; [apply Z.div_pos; lia|apply Z.div_lt_upper_bound; lia].
Qed.

Lemma block_of_index_inj : forall bm i j, bm_wf bm ->
  0 <= i < 2 ^ (2 * bm_base bm + lhs (bm_rect bm) + rhs (bm_rect bm)) ->
  0 <= j < 2 ^ (2 * bm_base bm + lhs (bm_rect bm) + rhs (bm_rect bm)) ->
  block_of_index bm i = block_of_index bm j -> i = j.
Proof.
  intros bm i j W Hi Hj E.
  pose proof (wf_base _ W) as Hb. pose proof (base_le_15 _ W) as Hb15.
  pose proof (wf_rect _ W Lhs) as HrL. pose proof (wf_rect _ W Rhs) as HrR. cbn [get] in HrL, HrR.
  set (b := bm_base bm) in *. set (rl := lhs (bm_rect bm)) in *. set (rr := rhs (bm_rect bm)) in *.
  assert (B : forall n, 0 <= n < 2 ^ (2 * b + rl + rr) -> 0 <= n / 2 ^ (2 * b) < 2 ^ (rl + rr)).
  { intros n Hn. apply div_pow2_bound; [lia|lia|]. rewrite Z.add_assoc. exact Hn. }
  pose proof (pow2_pos (2 * b) ltac:(lia)) as P2b. pose proof (pow2_pos b Hb) as Pb.
  pose proof (Z.mod_pos_bound i _ P2b) as Mi. pose proof (Z.mod_pos_bound j _ P2b) as Mj.
  destruct (decode_range (bm_order bm) b _ ltac:(lia) Mi) as [DiL DiR].
  destruct (decode_range (bm_order bm) b _ ltac:(lia) Mj) as [DjL DjR].
  assert (EL : lhs (block_of_index bm i) = lhs (block_of_index bm j)) by congruence.
  assert (ER : rhs (block_of_index bm i) = rhs (block_of_index bm j)) by congruence.
  unfold block_of_index in EL, ER; cbn [lhs rhs] in EL, ER.
  fold b rl in EL. fold b rr in ER.
  assert (U : forall a a' q q', 0 <= a < 2 ^ b -> 0 <= a' < 2 ^ b ->
     a + q * 2 ^ b = a' + q' * 2 ^ b -> a = a' /\ q = q').
  { intros; apply (euclid_unique (2 ^ b)); auto. }
  apply U in EL; auto. apply U in ER; auto.
  destruct EL as [EL1 EL2], ER as [ER1 ER2].
  assert (Esq : i mod 2 ^ (2 * b) = j mod 2 ^ (2 * b)).
  { apply (decode_inj (bm_order bm) b); [lia|exact Mi|exact Mj|].
    apply sp_ext; assumption. }
  assert (Eq : i / 2 ^ (2 * b) = j / 2 ^ (2 * b)).
  { pose proof (B i Hi). pose proof (B j Hj).
    destruct (wf_one_rect _ W) as [Z0|Z0]; fold rl rr in Z0; rewrite Z0 in *.
    - rewrite Z.add_0_l in *. rewrite !(Z.mod_small _ (2 ^ rr)) in ER2 by assumption. exact ER2.
    - rewrite Z.add_0_r in *. rewrite !(Z.mod_small _ (2 ^ rl)) in EL2 by assumption. exact EL2. }
  rewrite (Z.div_mod i (2 ^ (2 * b))), (Z.div_mod j (2 ^ (2 * b))) by lia. congruence.
Qed.

Lemma block_of_index_surj : forall bm bl br, bm_wf bm ->
  0 <= bl < 2 ^ (bm_base bm + lhs (bm_rect bm)) -> 0 <= br < 2 ^ (bm_base bm + rhs (bm_rect bm)) ->
  exists i, 0 <= i < 2 ^ (2 * bm_base bm + lhs (bm_rect bm) + rhs (bm_rect bm)) /\
            block_of_index bm i = mk_sp bl br.
Proof.
  intros bm bl br W Hl Hr.
  destruct (pigeonhole_surj (2 ^ (2 * bm_base bm + lhs (bm_rect bm) + rhs (bm_rect bm)))
    (2 ^ (bm_base bm + lhs (bm_rect bm))) (2 ^ (bm_base bm + rhs (bm_rect bm)))
    (fun i => (lhs (block_of_index bm i), rhs (block_of_index bm i)))) with (a := bl) (b := br)
    as (i & Hi & E); auto; try lia.
  - apply num_blocks_product; auto.
  - intros i Hi. cbn [fst snd].
    destruct (get_block_by_index_ok bm i W Hi) as [_ R].
    split; [apply (R Lhs)|apply (R Rhs)].
  - intros i j Hi Hj E. apply (block_of_index_inj bm); auto.
    apply pair_equal_spec in E. destruct E as [E1 E2].
    apply sp_ext; assumption.
  - exists i. split; auto. apply pair_equal_spec in E. destruct E as [E1 E2].
    apply sp_ext; assumption.
Qed.

(** * Block coordinates partition each dimension *)

Definition block_start (s : side) (bm : block_map) (b : Z) : Z :=
  b * get s (bm_small bm) + Z.min b (get s (bm_large bm)) * get s (bm_kernel bm).

Lemma wf_kernel_pos : forall bm s, bm_wf bm -> 0 < get s (bm_kernel bm).
Proof. intros bm s W. destruct (wf_kernel _ W s) as (kl & Hkl & ->). apply pow2_pos; auto. Qed.

Lemma block_start_0 : forall bm s, bm_wf bm -> block_start s bm 0 = 0.
Proof. intros bm s W. unfold block_start. pose proof (wf_large _ W s). rewrite Z.min_l by lia. lia. Qed.

Lemma block_start_last : forall bm s, bm_wf bm ->
  block_start s bm (2 ^ (bm_base bm + get s (bm_rect bm))) = get s (bm_dims bm).
Proof.
  intros bm s W. unfold block_start. pose proof (wf_large _ W s).
  rewrite Z.min_r by lia. rewrite (wf_dims _ W s). lia.
Qed.

Lemma block_start_succ : forall bm s b,
  block_start s bm (b + 1) =
  block_start s bm b + get s (bm_small bm) +
  (if b <? get s (bm_large bm) then get s (bm_kernel bm) else 0).
Proof.
  intros bm s b. unfold block_start.
  destruct (b <? get s (bm_large bm)) eqn:E.
  - rewrite (Z.min_l (b + 1)), (Z.min_l b) by lia. lia.
  - rewrite (Z.min_r (b + 1)), (Z.min_r b) by lia. lia.
Qed.

Lemma block_start_mono : forall bm s a b, bm_wf bm -> 0 <= a <= b ->
  block_start s bm a + (b - a) * get s (bm_small bm) <= block_start s bm b.
Proof.
  intros bm s a b W Hab. unfold block_start. pose proof (wf_kernel_pos bm s W). nia.
Qed.

Lemma block_start_aligned : forall bm s b, bm_wf bm -> block_start s bm b mod get s (bm_kernel bm) = 0.
Proof.
  intros bm s b W. unfold block_start. pose proof (wf_kernel_pos bm s W).
  rewrite Z.mod_add by lia. rewrite Z.mul_mod, (wf_small_al _ W), Z.mul_0_r by lia.
  apply Z.mod_0_l; lia.
Qed.

Lemma get_block_matrix_coords_ok : forall dbg s bm b, bm_wf bm ->
  0 <= b < 2 ^ (bm_base bm + get s (bm_rect bm)) ->
  get_block_matrix_coords dbg s bm b = Ok (block_start s bm b, block_start s bm (b + 1)).
Proof.
  intros dbg s bm b W Hb.
  pose proof (wf_kernel_pos bm s W) as Hk. pose proof (wf_small_pos _ W s) as Hs.
  pose proof (wf_large _ W s) as Hl.
  pose proof (block_start_mono bm s 0 b W ltac:(lia)) as M0.
  pose proof (block_start_mono bm s b (b + 1) W ltac:(lia)) as M1.
  pose proof (block_start_mono bm s (b + 1) (2 ^ (bm_base bm + get s (bm_rect bm))) W ltac:(lia)) as M2.
  rewrite block_start_last in M2 by auto. rewrite block_start_0 in M0 by auto.
  pose proof (wf_dims_bound _ W s) as DB. change (2 ^ 30) with 1073741824 in DB.
  pose proof (block_start_succ bm s b) as ES.
  unfold get_block_matrix_coords.
  assert (0 <= b * get s (bm_small bm)) by nia.
  assert (0 <= Z.min b (get s (bm_large bm)) * get s (bm_kernel bm)) by nia.
  assert (B0 : block_start s bm b = b * get s (bm_small bm) + Z.min b (get s (bm_large bm)) * get s (bm_kernel bm)) by reflexivity.
  assert (0 <= (2 ^ (bm_base bm + get s (bm_rect bm)) - (b + 1)) * get s (bm_small bm)) by nia.
  unfold int_min, int_max.
  assert (Hif : 0 <= (if b <? get s (bm_large bm) then get s (bm_kernel bm) else 0))
    by (destruct (b <? get s (bm_large bm)); lia).
  rewrite i32_ok by (unfold int_min, int_max; lia). cbn [bind].
  rewrite i32_ok by (unfold int_min, int_max; lia). cbn [bind].
  rewrite i32_ok by (unfold int_min, int_max; lia). cbn [bind]. rewrite <- B0.
  rewrite i32_ok by (unfold int_min, int_max; lia). cbn [bind].
  rewrite <- ES. rewrite i32_ok by (unfold int_min, int_max; lia). cbn [bind].
  rewrite dcheck_ok; [cbn [bind]|rewrite Z.rem_mod_nonneg by lia; rewrite block_start_aligned; auto].
  rewrite dcheck_ok; [cbn [bind]|rewrite Z.rem_mod_nonneg by lia; rewrite block_start_aligned; auto].
  rewrite !dcheck_ok by lia. cbn [bind]. reflexivity.
Qed.

(** Each coordinate belongs to exactly one block. *)
Lemma block_start_covers : forall bm s x, bm_wf bm -> 0 <= x < get s (bm_dims bm) ->
  exists b, 0 <= b < 2 ^ (bm_base bm + get s (bm_rect bm)) /\
            block_start s bm b <= x < block_start s bm (b + 1).
Proof.
  intros bm s x W Hx.
  set (n := 2 ^ (bm_base bm + get s (bm_rect bm))) in *.
  assert (G : forall m, (Z.of_nat m <= n) -> x < block_start s bm (Z.of_nat m) ->
    exists b, 0 <= b < Z.of_nat m /\ block_start s bm b <= x < block_start s bm (b + 1)).
  { induction m as [|m IH]; intros Hm Hlt.
    - change (Z.of_nat 0) with 0 in Hlt. rewrite block_start_0 in Hlt by auto. lia.
    - destruct (Z_lt_le_dec x (block_start s bm (Z.of_nat m))) as [L|L].
      + destruct (IH ltac:(lia) L) as (b & Hb & Hbx). exists b. lia.
      + exists (Z.of_nat m). replace (Z.of_nat (S m)) with (Z.of_nat m + 1) in Hlt by lia. lia. }
  pose proof (wf_base _ W). pose proof (wf_rect _ W s).
  assert (0 < n) by (apply pow2_pos; lia).
  destruct (G (Z.to_nat n)) as (b & Hb & Hbx).
  - lia.
  - rewrite Z2Nat.id by lia. unfold n. rewrite block_start_last by auto. lia.
  - exists b. lia.
Qed.

Lemma block_start_disjoint : forall bm s a b x, bm_wf bm -> 0 <= a -> 0 <= b ->
  block_start s bm a <= x < block_start s bm (a + 1) ->
  block_start s bm b <= x < block_start s bm (b + 1) -> a = b.
Proof.
  intros bm s a b x W Ha Hb Hxa Hxb. pose proof (wf_small_pos _ W s).
  destruct (Z.lt_trichotomy a b) as [L|[E|L]]; auto; exfalso.
  - pose proof (block_start_mono bm s (a + 1) b W ltac:(lia)). nia.
  - pose proof (block_start_mono bm s (b + 1) a W ltac:(lia)). nia.
Qed.
