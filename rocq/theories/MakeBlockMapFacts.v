(** MakeBlockMap is well defined and produces a well-formed block map. *)
From Verif Require Import Base SidePair SizeUtil SizeUtilFacts BlockMap TraversalFacts BlockMapFacts SpecBlockMap.

Lemma smax32 : smax 32 = int_max.
Proof. reflexivity. Qed.

Lemma log2_lt_of_lt_pow2 : forall n k, 0 < n < 2 ^ k -> Z.log2 n < k.
Proof. intros n k H. apply Z.log2_lt_pow2; lia. Qed.

Lemma log2_pow_le : forall n, 0 < n -> 2 ^ Z.log2 n <= n < 2 * 2 ^ Z.log2 n.
Proof.
  intros n Hn. pose proof (Z.log2_spec n Hn) as H.
  rewrite Z.pow_succ_r in H by apply Z.log2_nonneg. exact H.
Qed.

Lemma log2_up_pow : forall n, 1 <= n -> n <= 2 ^ Z.log2_up n.
Proof.
  intros n Hn. destruct (Z.eq_dec n 1) as [->|]; [vm_compute; discriminate|].
  pose proof (Z.log2_up_spec n ltac:(lia)). lia.
Qed.

Lemma log2_up_pow_lt : forall n, 1 < n -> 2 ^ (Z.log2_up n - 1) < n.
Proof. intros n Hn. pose proof (Z.log2_up_spec n ltac:(lia)). replace (Z.log2_up n - 1) with (Z.pred (Z.log2_up n)) by lia. lia. Qed.

(** floor_log2_quotient is the floor of the log2 of the quotient. *)
Lemma floor_log2_quotient_ok : forall dbg num denom, 1 <= denom < num -> num < 2 ^ 30 ->
  exists q, floor_log2_quotient dbg num denom = Ok q /\ 0 <= q < 30 /\
            denom * 2 ^ q <= num < denom * 2 ^ (q + 1).
Proof.
  intros dbg num denom Hd Hn. unfold floor_log2_quotient.
  change (2 ^ 30) with 1073741824 in Hn.
  replace (num <=? denom) with false by lia.
  rewrite floor_log2_ok by (rewrite ?smax32; unfold int_max; lia). cbn [bind].
  rewrite ceil_log2_ok by (rewrite ?smax32; unfold int_max; lia). cbn [bind].
  set (a := Z.log2 num). set (b := Z.log2_up denom).
  assert (Ha : 2 ^ a <= num < 2 * 2 ^ a) by (apply log2_pow_le; lia).
  assert (Hb : denom <= 2 ^ b) by (apply log2_up_pow; lia).
  assert (Ha0 : 0 <= a) by apply Z.log2_nonneg.
  assert (Hb0 : 0 <= b) by apply Z.log2_up_nonneg.
  assert (Ha30 : a < 30) by (apply log2_lt_of_lt_pow2; change (2 ^ 30) with 1073741824; lia).
  assert (Hab : b <= a + 1).
  { apply Z.log2_up_le_pow2; [lia|]. rewrite Z.pow_add_r by lia. lia. }
  assert (Esplit : 2 ^ b * 2 ^ (a - b + 1) = 2 * 2 ^ a).
  { rewrite <- Z.pow_add_r by lia. replace (b + (a - b + 1)) with (a + 1) by lia.
    rewrite Z.pow_add_r by lia. lia. }
  assert (Hpa : 2 ^ a <= 2 ^ 29) by (apply Z.pow_le_mono_r; lia). change (2 ^ 29) with 536870912 in Hpa.
  assert (Hpq : 0 < 2 ^ (a - b + 1)) by (apply pow2_pos; lia).
  rewrite shl32_ok; try lia; [|unfold int_max; nia]. cbn [bind].
  destruct (denom * 2 ^ (a - b + 1) <=? num) eqn:E.
  - exists (a - b + 1). split; [reflexivity|]. split.
    + split; [lia|].
      (* a - b + 1 < 30 *)
      destruct (Z_lt_le_dec b 1); [|lia].
      assert (b = 0) by lia. assert (denom = 1) by (subst b; assert (denom <= 1); [replace 1 with (2 ^ Z.log2_up denom) by (rewrite H; reflexivity); lia|lia]).
      exfalso. assert (b0 : a - b + 1 = a + 1) by lia. rewrite b0 in E.
      rewrite Z.pow_add_r in E by lia. lia.
    + split; [lia|].
      destruct (Z_lt_le_dec b 1).
      * assert (H : b = 0) by lia.
        assert (denom = 1) by (assert (denom <= 1); [rewrite H in Hb; lia|lia]).
        exfalso. assert (b0 : a - b + 1 = a + 1) by lia. rewrite b0 in E.
        rewrite Z.pow_add_r in E by lia. lia.
      * assert (1 < denom).
        { destruct (Z_lt_le_dec 1 denom); auto. assert (denom = 1) by lia. subst denom. subst b. cbn in l. lia. }
        pose proof (log2_up_pow_lt denom ltac:(lia)) as L. fold b in L.
        assert (2 ^ (b - 1) * 2 ^ (a - b + 1 + 1) = 2 * 2 ^ a).
        { rewrite <- Z.pow_add_r by lia. replace (b - 1 + (a - b + 1 + 1)) with (a + 1) by lia.
          rewrite Z.pow_add_r by lia. lia. }
        assert (0 < 2 ^ (a - b + 1 + 1)) by (apply pow2_pos; lia).
        nia.
  - assert (Hq : 0 <= a - b).
    { destruct (Z_lt_le_dec (a - b) 0); auto. assert (b0 : a - b + 1 = 0) by lia.
      rewrite b0 in E. change (2 ^ 0) with 1 in E. lia. }
    exists (a - b). split; [reflexivity|]. split; [lia|]. split; [|lia].
    assert (2 ^ b * 2 ^ (a - b) = 2 ^ a) by (rewrite <- Z.pow_add_r by lia; f_equal; lia).
    assert (0 < 2 ^ (a - b)) by (apply pow2_pos; lia). nia.
Qed.

Lemma larger_side_rectangularness_ok : forall dbg big small kb ks,
  0 <= kb < 31 -> 0 <= ks < 31 -> 1 <= small < big -> big < 2 ^ 30 -> 2 ^ kb <= big ->
  exists r, larger_side_rectangularness dbg big small (2 ^ kb) (2 ^ ks) = Ok r /\
    0 <= r < 30 /\ small * 2 ^ r <= big /\ 2 ^ (kb + r) <= big.
Proof.
  intros dbg big small kb ks Hkb Hks Hs Hb Hkbb. unfold larger_side_rectangularness.
  change (2 ^ 30) with 1073741824 in Hb.
  rewrite ceil_log2_ok by (rewrite ?smax32; unfold int_max; lia). cbn [bind].
  rewrite pot_log2_ok by lia. cbn [bind].
  destruct (floor_log2_quotient_ok dbg big small Hs Hb) as (q & Eq & Hq & Hq1 & Hq2).
  rewrite Eq. cbn [bind].
  rewrite floor_log2_ok by (rewrite ?smax32; unfold int_max; lia). cbn [bind].
  rewrite pot_log2_ok by lia. cbn [bind].
  set (mr := Z.max 0 (3 - (Z.log2_up small - ks))).
  set (r := Z.min q (Z.max 0 (Z.log2 big - kb - mr))).
  assert (Hr : 0 <= r <= q) by lia.
  assert (Hsr : small * 2 ^ r <= big).
  { assert (2 ^ r <= 2 ^ q) by (apply Z.pow_le_mono_r; lia). nia. }
  assert (Hkr : 2 ^ (kb + r) <= big).
  { destruct (Z.eq_dec r 0) as [->|]; [rewrite Z.add_0_r; auto|].
    assert (kb + r <= Z.log2 big) by lia.
    assert (2 ^ (kb + r) <= 2 ^ Z.log2 big) by (apply Z.pow_le_mono_r; lia).
    pose proof (log2_pow_le big ltac:(lia)). lia. }
  rewrite shr32_ok by lia. cbn [bind].
  assert (small <= big / 2 ^ r).
  { apply Z.div_le_lower_bound; [apply pow2_pos; lia|]. lia. }
  rewrite dcheck_ok by lia. cbn [bind]. exists r. repeat split; auto; lia.
Qed.

Lemma get_rectangularness_ok : forall dbg rows cols kr kc,
  0 <= kr < 31 -> 0 <= kc < 31 -> 0 < rows < 2 ^ 30 -> 0 < cols < 2 ^ 30 ->
  2 ^ kr <= rows -> 2 ^ kc <= cols ->
  exists rr cr, get_rectangularness dbg rows cols (2 ^ kr) (2 ^ kc) = Ok (rr, cr) /\
    0 <= rr < 30 /\ 0 <= cr < 30 /\ (rr = 0 \/ cr = 0) /\
    Z.min rows cols * 2 ^ rr <= rows /\ Z.min rows cols * 2 ^ cr <= cols /\
    2 ^ (kr + rr) <= rows /\ 2 ^ (kc + cr) <= cols.
Proof.
  intros dbg rows cols kr kc Hkr Hkc Hr Hc Hkrr Hkcc. unfold get_rectangularness.
  destruct (cols <? rows) eqn:E1; [|destruct (rows <? cols) eqn:E2].
  - destruct (larger_side_rectangularness_ok dbg rows cols kr kc Hkr Hkc ltac:(lia) ltac:(lia) Hkrr)
      as (r & E & Hr0 & Hr1 & Hr2).
    rewrite E. cbn [bind fst snd]. rewrite dcheck_ok by lia. cbn [bind].
    exists r, 0. rewrite Z.add_0_r. change (2 ^ 0) with 1.
    repeat split; try lia; auto.
  - destruct (larger_side_rectangularness_ok dbg cols rows kc kr Hkc Hkr ltac:(lia) ltac:(lia) Hkcc)
      as (r & E & Hr0 & Hr1 & Hr2).
    rewrite E. cbn [bind fst snd]. rewrite dcheck_ok by lia. cbn [bind].
    exists 0, r. rewrite Z.add_0_r. change (2 ^ 0) with 1.
    repeat split; try lia; auto.
  - cbn [bind fst snd]. rewrite dcheck_ok by lia. cbn [bind].
    exists 0, 0. rewrite !Z.add_0_r. change (2 ^ 0) with 1. repeat split; try lia; auto.
Qed.

(** * Scores *)

Lemma mt_score_ok : forall dbg bs rows cols threads, 0 <= bs < 31 ->
  0 < rows -> 0 < cols -> (rows / 2 ^ bs) * (cols / 2 ^ bs) <= int_max -> 1 <= threads <= int_max ->
  exists v, get_multithreading_score dbg bs rows cols threads = Ok v /\ -64 <= v <= 16.
Proof.
  intros dbg bs rows cols threads Hbs Hr Hc Hg Ht. unfold get_multithreading_score.
  rewrite !shr32_ok by lia. cbn [bind].
  pose proof (pow2_pos bs ltac:(lia)).
  assert (0 <= rows / 2 ^ bs) by (apply Z.div_pos; lia).
  assert (0 <= cols / 2 ^ bs) by (apply Z.div_pos; lia).
  set (p := rows / 2 ^ bs * (cols / 2 ^ bs)) in *.
  assert (0 <= p) by (unfold p; nia).
  rewrite i32_ok by (unfold int_min; lia). cbn [bind].
  rewrite floor_log2_ok by (rewrite ?smax32; unfold int_max in *; lia). cbn [bind].
  destruct (threads =? 1); [exists 0; split; [reflexivity|lia]|].
  rewrite ceil_log2_ok by (rewrite ?smax32; lia). cbn [bind].
  eexists. split; [reflexivity|].
  destruct (_ <? 0); [lia|]. destruct (_ =? 0); [lia|]. destruct (_ =? 1); [lia|].
  destruct (_ =? 2); [lia|]. destruct (_ =? 3); lia.
Qed.

Lemma cl_score_ok : forall dbg bs rows cols depth krl kcl ls rs cp,
  0 <= bs < 31 -> 0 <= krl < 31 -> 0 <= kcl < 31 -> 0 < rows -> 0 < cols -> 1 <= depth -> 1 <= ls -> 1 <= rs ->
  (ls * rows + rs * cols) * depth <= int_max -> 1 <= local_cache_size cp <= int_max ->
  exists v, get_cache_locality_score dbg bs rows cols depth krl kcl ls rs cp = Ok v /\ -64 <= v <= 64.
Proof.
  intros dbg bs rows cols depth krl kcl ls rs cp Hbs Hkr Hkc Hr Hc Hd Hls Hrs Hb Hl.
  unfold get_cache_locality_score.
  assert (Hp : forall k, 0 <= k < 31 -> 1 * 2 ^ k <= int_max).
  { intros k Hk. assert (2 ^ k <= 2 ^ 30) by (apply Z.pow_le_mono_r; lia).
    change (2 ^ 30) with 1073741824 in *. unfold int_max. lia. }
  rewrite !shl32_ok by (auto; lia). cbn [bind].
  destruct (_ || _); [exists 0; split; [reflexivity|lia]|].
  pose proof (pow2_pos bs ltac:(lia)).
  set (br := Z.min (1 * 2 ^ bs) rows). set (bc := Z.min (1 * 2 ^ bs) cols).
  assert (1 <= br <= rows) by lia. assert (1 <= bc <= cols) by lia.
  clearbody br bc.
  assert (ls <= ls * br <= ls * rows) by nia. assert (rs <= rs * bc <= rs * cols) by nia.
  assert (ls * rows + rs * cols <= int_max) by nia.
  assert ((ls * br + rs * bc) * depth <= (ls * rows + rs * cols) * depth) by nia.
  assert (1 <= (ls * br + rs * bc) * depth) by nia.
  unfold int_min in *.
  rewrite i32_ok by (unfold int_min; lia). cbn [bind].
  rewrite i32_ok by (unfold int_min; lia). cbn [bind].
  rewrite i32_ok by (unfold int_min; lia). cbn [bind].
  rewrite i32_ok by (unfold int_min; lia). cbn [bind].
  rewrite ceil_log2_ok by (rewrite ?smax32; lia). cbn [bind].
  rewrite floor_log2_ok by (rewrite ?smax32; lia). cbn [bind].
  eexists. split; [reflexivity|].
  destruct (_ <? -1); [lia|]. destruct (_ =? -1); [lia|]. destruct (_ =? 0); [lia|].
  destruct (_ =? 1); [lia|]. destruct (_ =? 2); [lia|]. destruct (_ =? 3); lia.
Qed.

Lemma ka_score_ok : forall dbg bs rows cols krl kcl,
  0 <= krl <= bs -> 0 <= kcl <= bs -> bs <= 15 -> 2 ^ krl <= rows -> 2 ^ kcl <= cols ->
  exists v, get_kernel_amortization_score dbg bs rows cols krl kcl = Ok v /\ 0 <= v <= 64.
Proof.
  intros dbg bs rows cols krl kcl Hkr Hkc Hbs Hr Hc. unfold get_kernel_amortization_score.
  assert (2 ^ bs <= 2 ^ 15) by (apply Z.pow_le_mono_r; lia). change (2 ^ 15) with 32768 in *.
  rewrite shl32_ok by (unfold int_max; lia). cbn [bind].
  assert (2 ^ krl <= 2 ^ bs) by (apply Z.pow_le_mono_r; lia).
  assert (2 ^ kcl <= 2 ^ bs) by (apply Z.pow_le_mono_r; lia).
  pose proof (pow2_pos krl ltac:(lia)). pose proof (pow2_pos kcl ltac:(lia)).
  set (br := Z.min (1 * 2 ^ bs) rows). set (bc := Z.min (1 * 2 ^ bs) cols).
  assert (2 ^ krl <= br <= 32768) by lia. assert (2 ^ kcl <= bc <= 32768) by lia. clearbody br bc.
  assert (2 ^ krl * 2 ^ kcl <= br * bc <= 1073741824) by nia.
  assert (0 < 2 ^ krl * 2 ^ kcl) by nia.
  rewrite i32_ok by (unfold int_min, int_max; lia). cbn [bind].
  rewrite floor_log2_ok by (rewrite ?smax32; unfold int_max; lia). cbn [bind].
  assert (krl + kcl <= Z.log2 (br * bc)).
  { apply Z.log2_le_pow2; [lia|]. rewrite Z.pow_add_r by lia. lia. }
  rewrite dcheck_ok by lia. cbn [bind].
  eexists. split; [reflexivity|].
  repeat (match goal with |- context [if ?c then _ else _] => destruct c; [lia|] end). lia.
Qed.

Lemma best_block_size_ok : forall dbg rows cols depth krl kcl ls rs threads cp n bs bscore best,
  (forall b, bs <= b < bs + Z.of_nat n ->
     (exists v, get_multithreading_score dbg b rows cols threads = Ok v /\ -64 <= v <= 16) /\
     (exists v, get_cache_locality_score dbg b rows cols depth krl kcl ls rs cp = Ok v /\ -64 <= v <= 64) /\
     (exists v, get_kernel_amortization_score dbg b rows cols krl kcl = Ok v /\ 0 <= v <= 64)) ->
  exists r, best_block_size dbg rows cols depth krl kcl ls rs threads cp n bs bscore best = Ok r /\
    (r = best \/ bs <= r < bs + Z.of_nat n) /\
    (bscore < -128 -> n <> O -> bs <= r < bs + Z.of_nat n).
Proof.
  intros dbg rows cols depth krl kcl ls rs threads cp.
  induction n as [|n IH]; intros bs bscore best H.
  - exists best. cbn. repeat split; auto; try congruence.
  - destruct (H bs ltac:(lia)) as ((v1 & E1 & B1) & (v2 & E2 & B2) & (v3 & E3 & B3)).
    cbn [best_block_size]. rewrite E1, E2, E3. cbn [bind].
    assert (H' : forall b, bs + 1 <= b < bs + 1 + Z.of_nat n ->
      (exists v, get_multithreading_score dbg b rows cols threads = Ok v /\ -64 <= v <= 16) /\
      (exists v, get_cache_locality_score dbg b rows cols depth krl kcl ls rs cp = Ok v /\ -64 <= v <= 64) /\
      (exists v, get_kernel_amortization_score dbg b rows cols krl kcl = Ok v /\ 0 <= v <= 64))
      by (intros; apply H; lia).
    destruct (bscore <=? v1 + v2 + v3) eqn:Ec.
    + destruct (IH (bs + 1) (v1 + v2 + v3) bs H') as (r & Er & R1 & R2).
      exists r. split; [exact Er|]. split; [|intros; destruct R1; lia]. destruct R1; [right; lia|right; lia].
    + destruct (IH (bs + 1) bscore best H') as (r & Er & R1 & R2).
      exists r. split; [exact Er|]. split; [destruct R1; [left; lia|right; lia]|]. intros; lia.
Qed.

(** * Splitting one dimension into blocks *)

Lemma split_dim_ok : forall dbg dim n k, 0 <= k -> 0 <= n -> 0 < dim < 2 ^ 30 ->
  dim mod 2 ^ k = 0 -> 2 ^ (n + k) <= dim ->
  exists small large, split_dim dbg dim n (2 ^ k) = Ok (small, large) /\
    0 < small /\ small mod 2 ^ k = 0 /\ 0 <= large < 2 ^ n /\ dim = small * 2 ^ n + large * 2 ^ k.
Proof.
  intros dbg dim n k Hk Hn Hd Hal Hge. unfold split_dim.
  assert (Hnk : n + k < 30).
  { destruct (Z_lt_le_dec (n + k) 30); auto.
    assert (2 ^ 30 <= 2 ^ (n + k)) by (apply Z.pow_le_mono_r; lia). lia. }
  change (2 ^ 30) with 1073741824 in Hd.
  rewrite Z.pow_add_r in Hge by lia.
  pose proof (pow2_pos n Hn) as Pn. pose proof (pow2_pos k Hk) as Pk.
  rewrite shr32_ok by lia. cbn [bind].
  rewrite round_down_pot_ok by auto. cbn [bind].
  set (K := 2 ^ k) in *. set (N := 2 ^ n) in *.
  set (d := dim / N).
  assert (Hd1 : N * d <= dim < N * d + N).
  { pose proof (Z.div_mod dim N ltac:(lia)). pose proof (Z.mod_pos_bound dim N Pn). unfold d. lia. }
  set (q := d / K).
  assert (Hq1 : K * q <= d < K * q + K).
  { pose proof (Z.div_mod d K ltac:(lia)). pose proof (Z.mod_pos_bound d K Pk). unfold q. lia. }
  assert (Hdk : K <= d).
  { unfold d. apply Z.div_le_lower_bound; lia. }
  assert (Hq0 : 1 <= q) by (unfold q; apply Z.div_le_lower_bound; lia).
  set (m := dim / K).
  assert (Hm : dim = K * m).
  { pose proof (Z.div_mod dim K ltac:(lia)). unfold m. lia. }
  clearbody d q m.
  assert (Hs : q * K * N <= dim) by nia.
  rewrite shl32_ok; [|unfold N in *; lia|nia|unfold int_max; fold N; nia]. cbn [bind]. fold N.
  assert (Hrem : 0 <= dim - q * K * N) by lia.
  rewrite i32_ok by (unfold int_min, int_max; lia). cbn [bind].
  assert (K <= dim) by nia.
  assert (Kb : K <= 536870912).
  { unfold K. change 536870912 with (2 ^ 29). apply Z.pow_le_mono_r; lia. }
  assert (EK : K = 2 ^ k) by reflexivity. clearbody K.
  rewrite EK. rewrite round_up_pot_ok; auto; try lia; [|rewrite smax32; unfold int_max; lia].
  cbn [bind]. rewrite pot_log2_ok by lia. cbn [bind].
  rewrite shr32_ok by lia. cbn [bind]. rewrite <- EK.
  assert (El : (dim - q * K * N + K - 1) / K = m - q * N).
  { symmetry. apply (Z.div_unique _ _ _ (K - 1)); [lia|]. nia. }
  rewrite El. rewrite Z.div_mul by lia.
  exists (q * K), (m - q * N). split; [reflexivity|].
  split; [nia|]. split; [apply Z.mod_mul; lia|].
  split; [|nia].
  assert (q * N <= m) by nia.
  split; [lia|]. nia.
Qed.

Lemma traversal_order_ok : forall opts rows cols depth ls rs cp,
  0 <= rows -> 0 <= cols -> 1 <= depth -> 1 <= ls -> 1 <= rs ->
  (ls * rows + rs * cols) * depth <= int_max ->
  exists o, get_traversal_order opts rows cols depth ls rs cp = Ok o.
Proof.
  intros opts rows cols depth ls rs cp Hr Hc Hd Hl Hrs Hb. unfold get_traversal_order.
  assert (0 <= ls * rows) by nia. assert (0 <= rs * cols) by nia.
  assert (ls * rows + rs * cols <= int_max) by nia.
  assert (0 <= (ls * rows + rs * cols) * depth) by nia.
  rewrite i32_ok by (unfold int_min; lia). cbn [bind].
  rewrite i32_ok by (unfold int_min; lia). cbn [bind].
  rewrite i32_ok by (unfold int_min; lia). cbn [bind].
  rewrite i32_ok by (unfold int_min; lia). cbn [bind].
  eexists. reflexivity.
Qed.

Lemma pow2_mod_le : forall a k, 0 <= k -> 0 < a -> a mod 2 ^ k = 0 -> 2 ^ k <= a.
Proof.
  intros a k Hk Ha Hm. pose proof (pow2_pos k Hk).
  pose proof (Z.div_mod a (2 ^ k) ltac:(lia)). rewrite Hm in *.
  assert (0 < a / 2 ^ k) by nia. nia.
Qed.

Lemma max_pow2 : forall a b, 0 <= a -> 0 <= b -> Z.max (2 ^ a) (2 ^ b) = 2 ^ Z.max b a.
Proof.
  intros a b Ha Hb. destruct (Z_le_gt_dec a b).
  - rewrite (Z.max_l b a) by lia. apply Z.max_r. apply Z.pow_le_mono_r; lia.
  - rewrite (Z.max_r b a) by lia. apply Z.max_l. apply Z.pow_le_mono_r; lia.
Qed.

Lemma div_pow2_anti : forall a j k, 0 <= j <= k -> 0 <= a -> a / 2 ^ k <= a / 2 ^ j.
Proof.
  intros a j k Hj Ha. pose proof (pow2_pos j ltac:(lia)).
  apply Z.div_le_compat_l; auto. split; auto. apply Z.pow_le_mono_r; lia.
Qed.

(** What MakeBlockMap guarantees. *)
Lemma make_block_map_ok : forall dbg opts rows cols depth krows kcols ls rs threads cp,
  bm_domain rows cols depth krows kcols ls rs threads cp ->
  exists bm, make_block_map dbg opts rows cols depth krows kcols ls rs threads cp = Ok bm /\
    bm_wf bm /\ bm_dims bm = mk_sp rows cols /\ bm_kernel bm = mk_sp krows kcols /\
    num_blocks bm = Ok (2 ^ (2 * bm_base bm + lhs (bm_rect bm) + rhs (bm_rect bm))) /\
    bm_thread_count bm = Z.min threads (2 ^ (2 * bm_base bm + lhs (bm_rect bm) + rhs (bm_rect bm))) /\
    get_traversal_order opts (rows / 2 ^ lhs (bm_rect bm)) (cols / 2 ^ rhs (bm_rect bm)) depth ls rs cp
      = Ok (bm_order bm) /\
    (Z.min rows cols <= Z.max krows kcols -> bm_base bm = 0).
Proof.
  intros dbg opts rows cols depth krows kcols ls rs threads cp D.
  destruct (dom_krows _ _ _ _ _ _ _ _ _ D) as (kr & Hkr & Ekr).
  destruct (dom_kcols _ _ _ _ _ _ _ _ _ D) as (kc & Hkc & Ekc).
  pose proof (dom_rows _ _ _ _ _ _ _ _ _ D) as Hrows.
  pose proof (dom_cols _ _ _ _ _ _ _ _ _ D) as Hcols.
  pose proof (dom_rows_al _ _ _ _ _ _ _ _ _ D) as Hral.
  pose proof (dom_cols_al _ _ _ _ _ _ _ _ _ D) as Hcal.
  pose proof (dom_depth _ _ _ _ _ _ _ _ _ D) as Hdepth.
  pose proof (dom_lhs_size _ _ _ _ _ _ _ _ _ D) as Hls.
  pose proof (dom_rhs_size _ _ _ _ _ _ _ _ _ D) as Hrs.
  pose proof (dom_bytes _ _ _ _ _ _ _ _ _ D) as Hbytes.
  pose proof (dom_grid _ _ _ _ _ _ _ _ _ D) as Hgrid.
  pose proof (dom_cache _ _ _ _ _ _ _ _ _ D) as Hcache.
  pose proof (dom_threads _ _ _ _ _ _ _ _ _ D) as Hthreads.
  clear D. subst krows kcols.
  rewrite max_pow2 in Hgrid by lia.
  assert (Hkrr : 2 ^ kr <= rows) by (apply pow2_mod_le; auto; clear - Hkr Hrows; lia).
  assert (Hkcc : 2 ^ kc <= cols) by (apply pow2_mod_le; auto; clear - Hkc Hcols; lia).
  pose proof (pow2_pos kr ltac:(lia)) as Pkr. pose proof (pow2_pos kc ltac:(lia)) as Pkc.
  unfold make_block_map.
  rewrite (dcheck_ok dbg (2 ^ kr <=? rows)) by (clear - Hkrr; lia).
  rewrite (dcheck_ok dbg (2 ^ kc <=? cols)) by (clear - Hkcc; lia). cbn [bind].
  rewrite dcheck_ok by (rewrite Z.rem_mod_nonneg by lia; clear - Hral; lia). cbn [bind].
  rewrite dcheck_ok by (rewrite Z.rem_mod_nonneg by lia; clear - Hcal; lia). cbn [bind].
  destruct (get_rectangularness_ok dbg rows cols kr kc ltac:(lia) ltac:(lia) Hrows Hcols Hkrr Hkcc)
    as (rr & cr & Erect & Hrr & Hcr & Hone & Hsr & Hsc & Hkrr2 & Hkcc2).
  rewrite Erect. clear Erect. cbn [bind].
  rewrite !pot_log2_ok by (clear - Hkr Hkc; lia). cbn [bind].
  assert (Hr30 : 0 < rows < 1073741824) by exact Hrows.
  assert (Hc30 : 0 < cols < 1073741824) by exact Hcols.
  rewrite floor_log2_ok by (rewrite ?smax32; unfold int_max; clear - Hr30 Hc30; lia). cbn [bind].
  assert (Hk1 : kc <= Z.max kc kr /\ kr <= Z.max kc kr /\ 0 <= Z.max kc kr <= 9) by (clear - Hkr Hkc; lia).
  assert (Efs : 2 ^ Z.log2 (Z.min rows cols) <= Z.min rows cols)
    by (apply log2_pow_le; clear - Hr30 Hc30; lia).
  pose proof (Z.log2_nonneg (Z.min rows cols)) as Hfs0.
  remember (Z.log2 (Z.min rows cols)) as fs eqn:Dfs.
  remember (Z.max kc kr) as ksl eqn:Dksl.
  remember (Z.max ksl fs) as sl eqn:Dsl.
  assert (Hsl : ksl <= sl /\ (sl = ksl \/ sl = fs) /\ fs <= sl) by (clear - Dsl; lia).
  rewrite (dcheck_ok dbg (ksl <=? sl)) by (clear - Hsl; lia). cbn [bind].
  assert (Hscore : forall b, ksl <= b <= 15 ->
     (exists v, get_multithreading_score dbg b rows cols threads = Ok v /\ -64 <= v <= 16) /\
     (exists v, get_cache_locality_score dbg b rows cols depth kr kc ls rs cp = Ok v /\ -64 <= v <= 64) /\
     (exists v, get_kernel_amortization_score dbg b rows cols kr kc = Ok v /\ 0 <= v <= 64)).
  { intros b Hb.
    assert (Hb2 : 0 <= b < 31) by (clear - Hb Hk1; lia).
    split; [|split].
    - apply mt_score_ok; auto; try (clear - Hr30 Hc30; lia).
      pose proof (div_pow2_anti rows ksl b ltac:(clear - Hb Hk1; lia) ltac:(clear - Hr30; lia)).
      pose proof (div_pow2_anti cols ksl b ltac:(clear - Hb Hk1; lia) ltac:(clear - Hc30; lia)).
      pose proof (pow2_pos b ltac:(clear - Hb2; lia)) as Pb.
      assert (0 <= rows / 2 ^ b) by (apply Z.div_pos; clear - Hr30 Pb; lia).
      assert (0 <= cols / 2 ^ b) by (apply Z.div_pos; clear - Hc30 Pb; lia).
      eapply Z.le_trans; [|exact Hgrid].
      apply Z.mul_le_mono_nonneg; auto.
    - apply cl_score_ok; auto; clear - Hkr Hkc Hr30 Hc30; lia.
    - apply ka_score_ok; auto; clear - Hkr Hkc Hk1 Hb; lia. }
  destruct (best_block_size_ok dbg rows cols depth kr kc ls rs threads cp
     (Z.to_nat (Z.min sl (ksl + 6) - ksl + 1)) ksl int_min (-1)) as (best & Ebest & _ & Hbest).
  { intros b Hb. apply Hscore. clear - Hb Hk1. lia. }
  assert (Hbr : ksl <= best <= sl).
  { assert (X : ksl <= best < ksl + Z.of_nat (Z.to_nat (Z.min sl (ksl + 6) - ksl + 1))).
    { apply Hbest; [unfold int_min; lia|]. clear - Hsl. lia. }
    clear - X Hsl. lia. }
  rewrite Ebest. cbn [bind].
  clear Hbest Hscore Ebest.
  remember (sl - best) as base eqn:Dbase.
  assert (Hbase : 0 <= base) by (clear - Dbase Hbr; lia).
  rewrite (dcheck_ok dbg (0 <=? base)) by (clear - Hbase; lia). cbn [bind].
  (* lower bounds on the dimensions *)
  assert (HR : base = 0 /\ 2 ^ (base + rr + kr) <= rows \/ 0 < base /\ 2 ^ (base + rr + best) <= rows).
  { destruct (Z.eq_dec base 0) as [Z0|Z0].
    - left. split; auto. rewrite Z0. replace (0 + rr + kr) with (kr + rr) by (clear; lia). auto.
    - right. split; [clear - Hbase Z0; lia|]. assert (fs = sl) by (clear - Hsl Hbr Dbase Z0 Hbase; lia).
      replace (base + rr + best) with (fs + rr) by (clear - H Dbase; lia).
      rewrite Z.pow_add_r by (clear - Hfs0 Hrr; lia).
      pose proof (pow2_pos rr ltac:(clear - Hrr; lia)) as P. clear - P Efs Hsr. nia. }
  assert (HC : base = 0 /\ 2 ^ (base + cr + kc) <= cols \/ 0 < base /\ 2 ^ (base + cr + best) <= cols).
  { destruct (Z.eq_dec base 0) as [Z0|Z0].
    - left. split; auto. rewrite Z0. replace (0 + cr + kc) with (kc + cr) by (clear; lia). auto.
    - right. split; [clear - Hbase Z0; lia|]. assert (fs = sl) by (clear - Hsl Hbr Dbase Z0 Hbase; lia).
      replace (base + cr + best) with (fs + cr) by (clear - H Dbase; lia).
      rewrite Z.pow_add_r by (clear - Hfs0 Hcr; lia).
      pose proof (pow2_pos cr ltac:(clear - Hcr; lia)) as P. clear - P Efs Hsc. nia. }
  assert (HR' : 2 ^ (base + rr + kr) <= rows).
  { destruct HR as [[_ H]|[_ H]]; auto. eapply Z.le_trans; [|exact H].
    apply Z.pow_le_mono_r; clear - Hk1 Hbr; lia. }
  assert (HC' : 2 ^ (base + cr + kc) <= cols).
  { destruct HC as [[_ H]|[_ H]]; auto. eapply Z.le_trans; [|exact H].
    apply Z.pow_le_mono_r; clear - Hk1 Hbr; lia. }
  assert (Htot : 2 * base + rr + cr <= 30).
  { destruct (Z.eq_dec base 0) as [Z0|Z0]; [clear - Z0 Hrr Hcr Hone; lia|].
    destruct HR as [[? _]|[_ HR]]; [congruence|]. destruct HC as [[? _]|[_ HC]]; [congruence|].
    assert (A : 2 ^ (base + rr) <= rows / 2 ^ ksl).
    { apply Z.div_le_lower_bound; [apply pow2_pos; clear - Hk1; lia|].
      rewrite <- Z.pow_add_r by (clear - Hk1 Hbase Hrr; lia).
      eapply Z.le_trans; [|exact HR]. apply Z.pow_le_mono_r; clear - Hbr; lia. }
    assert (B : 2 ^ (base + cr) <= cols / 2 ^ ksl).
    { apply Z.div_le_lower_bound; [apply pow2_pos; clear - Hk1; lia|].
      rewrite <- Z.pow_add_r by (clear - Hk1 Hbase Hcr; lia).
      eapply Z.le_trans; [|exact HC]. apply Z.pow_le_mono_r; clear - Hbr; lia. }
    assert (P : 2 ^ (base + rr) * 2 ^ (base + cr) <= int_max).
    { pose proof (pow2_pos (base + rr) ltac:(clear - Hbase Hrr; lia)) as P1.
      pose proof (pow2_pos (base + cr) ltac:(clear - Hbase Hcr; lia)) as P2.
      eapply Z.le_trans; [|exact Hgrid].
      apply Z.mul_le_mono_nonneg; auto; [clear - P1|clear - P2]; lia. }
    rewrite <- Z.pow_add_r in P by (clear - Hbase Hrr Hcr; lia).
    destruct (Z_le_gt_dec (2 * base + rr + cr) 30) as [L|G]; auto. exfalso.
    assert (Q : 2 ^ 31 <= 2 ^ (base + rr + (base + cr))) by (apply Z.pow_le_mono_r; clear - G; lia).
    change (2 ^ 31) with 2147483648 in Q. unfold int_max in P. clear - P Q. lia. }
  destruct (split_dim_ok dbg rows (base + rr) kr ltac:(clear - Hkr; lia) ltac:(clear - Hbase Hrr; lia) Hrows Hral HR')
    as (srow & lrow & Esr & Hs1 & Hs2 & Hs3 & Hs4).
  destruct (split_dim_ok dbg cols (base + cr) kc ltac:(clear - Hkc; lia) ltac:(clear - Hbase Hcr; lia) Hcols Hcal HC')
    as (scol & lcol & Esc & Hc1 & Hc2 & Hc3 & Hc4).
  rewrite Esr, Esc. cbn [bind fst snd].
  rewrite (shr32_ok rows rr) by (clear - Hrr Hr30; lia).
  rewrite (shr32_ok cols cr) by (clear - Hcr Hc30; lia). cbn [bind].
  assert (Hrd : 0 <= rows / 2 ^ rr <= rows).
  { pose proof (pow2_pos rr ltac:(clear - Hrr; lia)) as P. clear - P Hr30.
    split; [apply Z.div_pos; lia|apply Z.div_le_upper_bound; nia]. }
  assert (Hcd : 0 <= cols / 2 ^ cr <= cols).
  { pose proof (pow2_pos cr ltac:(clear - Hcr; lia)) as P. clear - P Hc30.
    split; [apply Z.div_pos; lia|apply Z.div_le_upper_bound; nia]. }
  destruct (traversal_order_ok opts (rows / 2 ^ rr) (cols / 2 ^ cr) depth ls rs cp) as (o & Eo);
    auto; [apply Hrd|apply Hcd| |].
  { clear - Hrd Hcd Hdepth Hls Hrs Hbytes.
    set (x := rows / 2 ^ rr) in *. set (y := cols / 2 ^ cr) in *. clearbody x y.
    assert (ls * x + rs * y <= ls * rows + rs * cols) by nia. nia. }
  rewrite Eo. cbn [bind].
  match goal with |- context [num_blocks ?b] => set (bm0 := b) end.
  assert (W : forall tc, bm_wf {| bm_thread_count := tc; bm_order := o; bm_dims := mk_sp rows cols;
                  bm_base := base; bm_rect := mk_sp rr cr;
                  bm_kernel := mk_sp (2 ^ kr) (2 ^ kc);
                  bm_small := mk_sp srow scol; bm_large := mk_sp lrow lcol |}).
  { intros tc. clear - Hkr Hkc Hrr Hcr Hbase Htot Hone Hs1 Hs2 Hs3 Hs4 Hc1 Hc2 Hc3 Hc4 Hr30 Hc30.
    constructor; cbn [bm_base bm_rect bm_kernel bm_small bm_large bm_dims lhs rhs]; auto.
    - intros []; cbn [get lhs rhs]; [clear - Hrr|clear - Hcr]; lia.
    - intros []; cbn [get lhs rhs]; [exists kr|exists kc]; split; auto; [clear - Hkr|clear - Hkc]; lia.
    - intros []; cbn [get lhs rhs]; auto.
    - intros []; cbn [get lhs rhs]; auto.
    - intros []; cbn [get lhs rhs]; [clear - Hs3|clear - Hc3]; lia.
    - intros []; cbn [get lhs rhs]; auto.
    - intros []; cbn [get lhs rhs]; [clear - Hr30|clear - Hc30]; lia. }
  rewrite (num_blocks_ok bm0 (W 0)). cbn [bind].
  eexists. split; [reflexivity|].
  cbn [bm_dims bm_kernel bm_base bm_rect bm_thread_count bm_order lhs rhs bm0].
  split; [apply W|]. split; [reflexivity|]. split; [reflexivity|].
  split; [rewrite num_blocks_ok by apply W; reflexivity|].
  split; [reflexivity|]. split; [exact Eo|].
  intros Hmin. rewrite max_pow2 in Hmin by (clear - Hkr Hkc; lia). rewrite <- Dksl in Hmin.
  assert (fs <= ksl).
  { rewrite Dfs. rewrite <- (Z.log2_pow2 ksl) by (clear - Hk1; lia). apply Z.log2_le_mono. auto. }
  clear - Hsl H Hbr Dbase. lia.
Qed.
