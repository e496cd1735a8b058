(** The 8-bit x86 kernels against the portable kernel on the same packed operands. *)
From Coq Require Import ZArith List Bool Lia.
From Verif Require Import Base SidePair SizeUtil Mat Scalars Pack IntOps MulParams Multiplier Kernel MatFacts PackFacts PackProps KernelFacts IntEntryFacts.
From Verif Require Import SpecRound SpecMatrix SpecPack SpecMul SpecSimd SpecKernel.
From Verif Require Import Simd SimdRequant SimdFacts RequantFacts RequantProps Kernel8bit Kernel8bitAvx Kernel8bitIsa Kernel8bitFacts Kernel8bitProps.
Import ListNotations.
Open Scope Z_scope.

Section Portable.
Variables (n : Z) (rt dt : ity) (lp rp : pmat Z) (L R : Z -> Z -> Z) (mp : mul_params Z)
  (sr sc er ec : Z) (dl : mat_layout) (dst : buf Z).
Hypothesis Hn : n = 8 \/ n = 16.
Hypothesis C : vector_call n rt dt lp rp L R mp sr sc er ec dl dst.
Variables (dbg : bool) (st pt : sp ity).
Notation o := (int_ops wrapping dbg st pt dt).
Notation D := (pl_rows (p_layout lp)).

Lemma pelement_holds : forall t p f c0 c1, packed_blocks n t p -> holds p f c0 c1 ->
  forall k c, 0 <= k < pl_rows (p_layout p) -> c0 <= c < c1 -> 0 <= c < pl_cols (p_layout p) -> pelement dbg p k c = Ok (f k c).
Proof.
  intros t p f c0 c1 B H k c Hk Hc Hc'. rewrite <- (H k c Hk Hc). unfold pelement. rewrite !poffset_ok by (try assumption; eapply packed_blocks_ok; eassumption). reflexivity.
Qed.

Lemma channel_in : forall i j, sr <= i < er -> sc <= j < ec ->
  0 <= channel_at mp i j < (match mp_chan mp with ChRow => er | ChCol => ec end).
Proof.
  intros i j Hi Hj. destruct (vk_rows _ _ _ _ _ _ _ _ _ _ _ _ _ _ C) as (R1 & _). destruct (vk_cols _ _ _ _ _ _ _ _ _ _ _ _ _ _ C) as (C1 & _).
  unfold channel_at. destruct (mp_chan mp); lia.
Qed.

Lemma sums_congr : forall p f c0 c1 zp c, has_sums p f c0 c1 zp -> zp <> 0 -> pl_cols (p_layout p) >= c1 -> 0 <= c -> c0 <= c < c1 ->
  exists s, read_sum p c = Ok s /\ s mod 2 ^ 32 = (sum (pl_rows (p_layout p)) (fun k => f k c)) mod 2 ^ 32.
Proof.
  intros p f c0 c1 zp c H Hz Hc H0 Hcc. destruct (H Hz) as (b & E & Lb & S). exists (bdat b c). unfold read_sum. rewrite E.
  rewrite bread_ok by lia. split; [reflexivity|]. apply S. exact Hcc.
Qed.

Lemma wrap_sub_mul : forall a z s s', s mod 2 ^ 32 = s' mod 2 ^ 32 -> wrap_s 32 (wrap_s 32 a - wrap_s 32 (z * s)) = wrap_s 32 (a - z * s').
Proof.
  intros a z s s' H. rewrite wrap_sub_l, wrap_sub_r. apply wrap_s_congr; [lia|].
  rewrite Zminus_mod, (Zmult_mod z s), H, <- Zmult_mod, <- Zminus_mod. reflexivity.
Qed.

Lemma portable_entry : forall dzp i j, sr <= i < Z.min er (ml_rows dl) -> sc <= j < Z.min ec (ml_cols dl) ->
  kernel_entry dbg o lp rp mp dzp i j = finish o mp dzp (channel_at mp i j) (wrap_s 32 (exact_accumulator D (p_zp lp) (p_zp rp) L R mp i j)).
Proof.
  intros dzp i j Hi Hj.
  pose proof (vk_lhs _ _ _ _ _ _ _ _ _ _ _ _ _ _ C) as (BL & HL & SL). pose proof (vk_rhs _ _ _ _ _ _ _ _ _ _ _ _ _ _ C) as (BR & HR & SR).
  pose proof (vk_depth _ _ _ _ _ _ _ _ _ _ _ _ _ _ C) as ED.
  pose proof (vk_rows _ _ _ _ _ _ _ _ _ _ _ _ _ _ C) as (R1 & _ & _ & R4 & _). pose proof (vk_cols _ _ _ _ _ _ _ _ _ _ _ _ _ _ C) as (C1 & _ & _ & C4 & _).
  assert (HD : 0 <= D) by (destruct BL as (_ & _ & _ & L0 & _); exact L0).
  unfold kernel_entry. change (channel_of mp i j) with (channel_at mp i j).
  assert (EA : kernel_accum dbg o lp rp D i j = Ok (wrap_s 32 (sum D (fun k => L k i * R k j)))).
  { unfold kernel_accum. cbn [int_ops o_acc0 o_mul o_add o_to_acc]. apply forto_sum_wrap; [exact HD|]. intros k a Hk.
    rewrite (pelement_holds s8 lp L sr _ BL HL) by (try assumption; lia).
    rewrite (pelement_holds rt rp R sc _ BR HR) by (try assumption; lia). cbn [bind]. unfold wrapping. cbn [bind].
    eexists. split; [|reflexivity]. apply Base.wrap_s_mod; lia. }
  rewrite EA. cbn [bind].
  assert (EB : forall a, add_bias o mp (channel_at mp i j) (wrap_s 32 a) = Ok (wrap_s 32 (a + bias_at mp i j))).
  { intros a. unfold add_bias, bias_at. pose proof (vk_params _ _ _ _ _ _ _ _ _ _ _ _ _ _ C) as (PB & _). destruct (mp_bias mp) as [b|].
    - pose proof (channel_in i j ltac:(clear - Hi; lia) ltac:(clear - Hj; lia)) as Ci. specialize (PB b eq_refl). rewrite bread_ok by lia. cbn [bind int_ops o_add]. unfold wrapping. rewrite wrap_add_l. reflexivity.
    - rewrite Z.add_0_r. reflexivity. }
  rewrite EB. cbn [bind].
  assert (EZ : forall a, zero_point_terms o lp rp D i j (wrap_s 32 a) =
     Ok (wrap_s 32 (a - p_zp lp * sum D (fun k => R k j) - p_zp rp * sum D (fun k => L k i) + p_zp lp * p_zp rp * D))).
  { intros a. unfold zero_point_terms. cbn [int_ops o_sub_zp_sum o_add_zp_zp_depth]. unfold wrapping.
    destruct (Z.eqb_spec (p_zp lp) 0) as [Zl|Zl]; destruct (Z.eqb_spec (p_zp rp) 0) as [Zr|Zr]; cbn [orb bind].
    - f_equal. f_equal. rewrite Zl, Zr. ring.
    - destruct (sums_congr lp L sr _ _ i SL Zr) as (s & -> & Es); try lia. cbn [bind]. rewrite (wrap_sub_mul a _ s _ Es). f_equal. f_equal. rewrite Zl. ring.
    - destruct (sums_congr rp R sc _ _ j SR Zl) as (s & -> & Es); try lia. cbn [bind]. rewrite (wrap_sub_mul a _ s _ Es). f_equal. f_equal. rewrite Zr, ED. ring.
    - destruct (sums_congr rp R sc _ _ j SR Zl) as (s & -> & Es); try lia. cbn [bind]. rewrite (wrap_sub_mul a _ s _ Es). rewrite ED.
      destruct (sums_congr lp L sr _ _ i SL Zr) as (s' & -> & Es'); try lia. cbn [bind]. rewrite (wrap_sub_mul _ _ s' _ Es').
      rewrite wrap_mul_l, wrap_add_l, wrap_add_r. reflexivity. }
  rewrite EZ. cbn [bind]. f_equal. f_equal. unfold exact_accumulator. change (zsum (map ?f (zrange 0 D))) with (sum D f).
  rewrite (sum_expand D (fun k => L k i) (fun k => R k j)) by exact HD. ring.
Qed.

(** The value of an entry given what finishing it yields. *)
Lemma portable_run : forall dzp e,
  (forall i j, sr <= i < er -> sc <= j < ec -> in_matrix dl i j ->
     finish o mp dzp (channel_at mp i j) (wrap_s 32 (exact_accumulator D (p_zp lp) (p_zp rp) L R mp i j)) = Ok (e i j)) ->
  exists d, kernel_run dbg o n n lp rp mp sr sc er ec dl dzp dst = Ok d /\
    block_computed (fun i j v => v = e i j) sr sc er ec dl dst d.
Proof.
  intros dzp e He.
  pose proof (vk_rows _ _ _ _ _ _ _ _ _ _ _ _ _ _ C) as (R1 & R2 & R3 & R4 & R5). pose proof (vk_cols _ _ _ _ _ _ _ _ _ _ _ _ _ _ C) as (C1 & C2 & C3 & C4 & C5).
  pose proof (vk_layout _ _ _ _ _ _ _ _ _ _ _ _ _ _ C) as ((D1 & D2 & D3 & D4) & DO & D5). unfold inner_size, outer_size in *. rewrite DO in *.
  assert (R6 : sr + n <= er) by (destruct R2 as (a & ->), R3 as (b & ->); clear - R1 Hn; destruct Hn as [-> | ->]; lia).
  assert (C6 : sc + n <= ec) by (destruct C2 as (a & ->), C3 as (b & ->); clear - C1 Hn; destruct Hn as [-> | ->]; lia).
  assert (Bn : 8 <= n <= 16) by (clear - Hn; lia).
  unfold kernel_run. rewrite !dcheck_true by (clear - R1 R5 R6 C1 C5 C6 Bn; lia). cbn [bind].
  destruct (loop2d_ok (fun i j => kernel_entry dbg o lp rp mp dzp i j) dl e dst sr (Z.min er (ml_rows dl)) sc (Z.min ec (ml_cols dl))) as (d & E & W).
  - constructor; rewrite ?DO; try assumption.
  - unfold flat. rewrite ?DO. assumption.
  - clear - R1 R5 R6 Bn; lia.
  - apply Z.le_min_r.
  - clear - C1 C5 C6 Bn; lia.
  - apply Z.le_min_r.
  - intros i j Hi Hj. rewrite portable_entry by (clear - Hi Hj; lia). apply He; unfold in_matrix; clear - Hi Hj R1 C1; lia.
  - exists d. split; [exact E|]. destruct W as (W1 & W2 & W3). split; [exact W1|]. unfold position, in_matrix, off in *. rewrite DO in *. split.
    + intros i j Hi Hj Hm. rewrite Z.add_comm. apply W2. clear - Hi Hj Hm; lia.
    + intros q Hq. apply W3. intros i j Hij. rewrite Z.add_comm. apply Hq; clear - Hij R1 C1; lia.
Qed.
End Portable.

(** Finishing an accumulator. *)
Lemma finish_int32 : forall dbg st pt mp dzp ch a, mp_min mp = int_min -> mp_max mp = int_max ->
  finish (int_ops wrapping dbg st pt s32) mp dzp ch (wrap_s 32 a) = Ok (wrap_s 32 (a + dzp)).
Proof.
  intros dbg st pt mp dzp ch a E1 E2. unfold finish, apply_multiplier.
  replace (o_quant (int_ops wrapping dbg st pt s32)) with (@None (Z -> Z -> Z -> res Z)) by reflexivity.
  cbn [bind int_ops o_add_dst_zp]. unfold wrapping. cbn [bind int_ops o_min o_max o_store]. rewrite wrap_add_l, E1, E2.
  pose proof (Base.wrap_s_range 32 (a + dzp) ltac:(lia)) as B. change (smin 32) with int_min in B. change (smax 32) with int_max in B.
  rewrite Z.min_l, Z.max_l by lia. rewrite it_conv_id; [reflexivity | reflexivity |]. change (it_lo s32) with int_min. change (it_hi s32) with int_max. exact B.
Qed.

Lemma finish_quantized : forall dbg st pt dt mp dzp i j a r c, ity_eqb dt s32 = false -> 0 < it_bits dt ->
  it_lo dt <= mp_min mp <= it_hi dt -> it_lo dt <= mp_max mp <= it_hi dt ->
  params_cover dt mp c -> dt <> s32 -> 0 <= channel_at mp i j < c ->
  multiply_by_quantized_multiplier dbg a (multiplier_at mp i j) (exponent_at mp i j) = Ok r ->
  finish (int_ops wrapping dbg st pt dt) mp dzp (channel_at mp i j) a = Ok (Z.max (Z.min (wrap_s 32 (r + dzp)) (mp_max mp)) (mp_min mp)).
Proof.
  intros dbg st pt dt mp dzp i j a r c Es Hb B1 B2 (_ & PM) Ns Hc E. unfold finish, apply_multiplier.
  replace (o_quant (int_ops wrapping dbg st pt dt)) with (Some (multiply_by_quantized_multiplier dbg)) by (cbn [int_ops o_quant]; rewrite Es; reflexivity).
  assert (Ec : channel_multiplier mp (channel_at mp i j) = Ok (multiplier_at mp i j, exponent_at mp i j)).
  { unfold channel_multiplier, multiplier_at, exponent_at, multiplier_fixedpoint_perchannel, multiplier_exponent_perchannel, multiplier_fixedpoint, multiplier_exponent.
    destruct (mp_perchannel mp).
    - destruct PM as (_ & m & e & -> & -> & M1 & M2 & _). rewrite !bread_ok by lia. reflexivity.
    - reflexivity. }
  rewrite Ec. cbn [bind]. rewrite E. cbn [bind int_ops o_add_dst_zp]. unfold wrapping. cbn [bind int_ops o_min o_max o_store].
  rewrite it_conv_id; [reflexivity | exact Hb |]. lia.
Qed.

(** Two results for the same entries, elsewhere what was there. *)
Lemma block_related : forall (P Q : Z -> Z -> Z -> Prop) (T : Z -> Z -> Prop) sr sc er ec dl dst d d0,
  valid_layout dl -> ml_order dl = ColMajor ->
  0 <= sr -> 0 <= sc -> (forall x, T x x) ->
  (forall i j x y, sr <= i < er -> sc <= j < ec -> P i j x -> Q i j y -> T x y) ->
  block_computed P sr sc er ec dl dst d -> block_computed Q sr sc er ec dl dst d0 ->
  blen d = blen d0 /\ forall q, T (bdat d q) (bdat d0 q).
Proof.
  intros P Q T sr sc er ec dl dst d d0 (V1 & V2 & V3 & _) O Hsr Hsc HT H (A1 & A2 & A3) (B1 & B2 & B3). unfold inner_size in V3. rewrite O in V3.
  split; [congruence|]. intros q.
  set (j := q / ml_stride dl). set (i := q mod ml_stride dl).
  destruct (((sr <=? i) && (i <? er)) && ((sc <=? j) && (j <? ec)) && ((i <? ml_rows dl) && (j <? ml_cols dl))) eqn:E.
  - assert (Eq : q = position dl i j).
    { unfold position. rewrite O. destruct (Z.eq_dec (ml_stride dl) 0) as [E0 | N0]; [exfalso; lia|]. subst i j. rewrite Z.mul_comm. apply Z.div_mod. exact N0. }
    rewrite Eq. assert (Hi : sr <= i < er) by (clear - E; lia). assert (Hj : sc <= j < ec) by (clear - E; lia).
    assert (Hm : in_matrix dl i j) by (unfold in_matrix; clear - E Hsr Hsc; lia).
    apply (H i j); auto.
  - assert (N : forall i' j', sr <= i' < er -> sc <= j' < ec -> in_matrix dl i' j' -> q <> position dl i' j').
    { intros i' j' Hi Hj (M1 & M2) Eq. unfold position in Eq. rewrite O in Eq.
      assert (i' = i /\ j' = j) as (-> & ->).
      { unfold i, j. rewrite Eq. split.
        - rewrite Z.add_comm, Z.mod_add by lia. symmetry. apply Z.mod_small. lia.
        - rewrite Z.div_add_l by lia. rewrite Z.div_small by lia. lia. }
      clear - E Hi Hj M1 M2. lia. }
    rewrite A3, B3 by exact N. apply HT.
Qed.

Section Compare.
Variables (v : isa) (wide : bool) (dbg dbg' : bool) (st pt : sp ity) (rt dt : ity) (lp rp : pmat Z) (L R : Z -> Z -> Z) (mp : mul_params Z)
  (sr sc er ec : Z) (dl : mat_layout) (dzp : Z) (dst : buf Z).
Hypothesis Hv : isa_ok v wide.
Hypothesis Hrt : rhs_type wide rt.
Hypothesis C : vector_call (v_n v) rt dt lp rp L R mp sr sc er ec dl dst.
Notation acc := (exact_accumulator (pl_rows (p_layout lp)) (p_zp lp) (p_zp rp) L R mp).

Lemma n_cases : v_n v = 8 \/ v_n v = 16.
Proof. exact (ok_n _ _ Hv). Qed.

(** int32 destinations: the same buffer. *)
Theorem kernels_agree_int32 : dt = s32 -> mp_min mp = int_min -> mp_max mp = int_max ->
  exists d d0, kernel_x86 dbg v rt dt lp rp mp sr sc er ec dl 0 dst = Ok d /\
    kernel_run dbg' (int_ops wrapping dbg' st pt dt) (v_n v) (v_n v) lp rp mp sr sc er ec dl 0 dst = Ok d0 /\
    blen d = blen d0 /\ forall q, bdat d q = bdat d0 q.
Proof.
  intros E E1 E2. destruct (kernel_x86_computes v wide dbg rt dt lp rp L R mp sr sc er ec dl 0 dst Hv Hrt C) as (d & K & B).
  destruct (portable_run _ rt dt lp rp L R mp sr sc er ec dl dst n_cases C dbg' st pt 0 (fun i j => wrap_s 32 (acc i j))) as (d0 & K0 & B0).
  { intros i j Hi Hj _. rewrite E, finish_int32 by assumption. rewrite Z.add_0_r. reflexivity. }
  exists d, d0. split; [exact K|]. split; [exact K0|].
  pose proof (vk_rows _ _ _ _ _ _ _ _ _ _ _ _ _ _ C) as (R1 & _). pose proof (vk_cols _ _ _ _ _ _ _ _ _ _ _ _ _ _ C) as (C1 & _).
  pose proof (vk_layout _ _ _ _ _ _ _ _ _ _ _ _ _ _ C) as (D1 & D2 & _).
  eapply block_related; [exact D1 | exact D2 | | | | | exact B | exact B0]; [lia | lia | reflexivity |].
  intros i j x y _ _ Hx Hy. unfold vector_result in Hx. rewrite E in Hx. cbn [ity_eqb] in Hx. change (ity_eqb s32 s32) with true in Hx. cbv iota in Hx. congruence.
Qed.

(** Quantized destinations: at most one more, and the same for exponents that are not negative. *)
Lemma right_bounded : forall x m k q, is_i32 x -> fixed_point m -> 1 <= k <= 31 -> twice_rounded x m (- k) q -> - 2 ^ 30 - 1 <= q <= 2 ^ 30 + 1.
Proof.
  intros x m k q Hx Hm Hk (p & Hp & Hq). unfold nearest_ties_up, shifted_left in *. rewrite (Z.max_r (- k) 0) in Hp by lia. rewrite (Z.max_l (- - k) 0) in Hq by lia. rewrite Z.opp_involutive in Hq.
  change (2 ^ 0) with 1 in Hp. rewrite Z.mul_1_r in Hp.
  rewrite (wrap_s_id 32 x) in Hp by (try lia; unfold is_i32, int_min, int_max in Hx; change (2 ^ (32 - 1)) with 2147483648; lia).
  assert (Pk : 2 <= 2 ^ k) by (change 2 with (2 ^ 1) at 1; apply Z.pow_le_mono_r; lia).
  unfold is_i32, fixed_point, int_min, int_max in *. change (2 ^ 31) with 2147483648 in *. change (2 ^ 30) with 1073741824.
  assert (B : - 2147483648 * 2147483647 <= x * m <= 2147483648 * 2147483647) by nia.
  assert (Bp : - 2147483648 <= p <= 2147483648) by lia. generalize dependent (2 ^ k). intros h Hq Ph. clear - Hq Ph Bp. nia.
Qed.

Lemma portable_quantized : forall i j, 0 <= multiplier_at mp i j <= int_max -> -31 <= exponent_at mp i j -> entry_fits (acc i j) (exponent_at mp i j) ->
  it_lo dt <= dzp <= it_hi dt -> 0 <= it_bits dt <= 16 -> it_lo dt >= -2 ^ 15 -> it_hi dt <= 2 ^ 16 ->
  exists r, multiply_by_quantized_multiplier dbg' (acc i j) (multiplier_at mp i j) (exponent_at mp i j) = Ok r /\
    forall q, twice_rounded (acc i j) (multiplier_at mp i j) (exponent_at mp i j) q ->
      (0 <= exponent_at mp i j -> q = r) /\ wrap_s 32 (r + dzp) <= wrap_s 32 (q + dzp) <= wrap_s 32 (r + dzp) + 1.
Proof.
  intros i j Hm He (F1 & F2 & F3) Hz _ Hlo Hhi. set (x := acc i j) in *. set (m := multiplier_at mp i j) in *. set (e := exponent_at mp i j) in *. clearbody x m e.
  assert (T : exists q, twice_rounded x m e q).
  { eexists. apply x86_twice_rounded; [exact Hm | unfold exponent; lia]. }
  destruct T as (q0 & T0). destruct (Z_le_gt_dec 0 e) as [Le | Lt].
  - rewrite Z.max_l in F3 by exact Le. exists q0. split; [apply x86_left_exact; try assumption; lia|]. intros q Tq.
    assert (Eq : q = q0).
    { pose proof (x86_left_exact false x m e q F1 Hm ltac:(lia) F3 Tq) as E1. pose proof (x86_left_exact false x m e q0 F1 Hm ltac:(lia) F3 T0) as E2. congruence. }
    subst q. split; [reflexivity | lia].
  - assert (exists k, e = - k /\ 1 <= k <= 31) as (k & -> & Hk) by (exists (- e); lia).
    destruct (x86_right_step dbg' x m k q0 F1 Hm Hk T0) as (r & Er & _). exists r. split; [exact Er|]. intros q Tq. split; [lia|].
    destruct (x86_right_step dbg' x m k q F1 Hm Hk Tq) as (r' & Er' & S1 & S2). assert (r' = r) by congruence. subst r'.
    assert (Hq : q = r \/ q = r + 1).
    { destruct (Z_le_gt_dec (2 ^ (30 + k) - 2 ^ 30) ((x * m) mod 2 ^ (31 + k))) as [A | A]; [|left; apply S2; lia].
      destruct (Z_lt_ge_dec ((x * m) mod 2 ^ (31 + k)) (2 ^ (30 + k))) as [B | B]; [right; apply S1; lia | left; apply S2; lia]. }
    pose proof (right_bounded x m k q F1 Hm Hk Tq) as Bq. clear - Hq Bq Hz Hlo Hhi. change (2 ^ 30) with 1073741824 in Bq. change (2 ^ 15) with 32768 in Hlo. change (2 ^ 16) with 65536 in Hhi.
    rewrite !wrap_s_id by (try lia; change (2 ^ (32 - 1)) with 2147483648; lia). lia.
Qed.

Theorem kernels_within_one : dt <> s32 -> it_lo dt <= dzp <= it_hi dt ->
  (forall i j, sr <= i < er -> sc <= j < ec -> in_matrix dl i j -> entry_fits (acc i j) (exponent_at mp i j)) ->
  exists d d0, kernel_x86 dbg v rt dt lp rp mp sr sc er ec dl dzp dst = Ok d /\
    kernel_run dbg' (int_ops wrapping dbg' st pt dt) (v_n v) (v_n v) lp rp mp sr sc er ec dl dzp dst = Ok d0 /\
    blen d = blen d0 /\ (forall q, bdat d0 q <= bdat d q <= bdat d0 q + 1) /\
    (forall i j, sr <= i < er -> sc <= j < ec -> in_matrix dl i j -> 0 <= exponent_at mp i j ->
       bdat d (position dl i j) = bdat d0 (position dl i j)).
Proof.
  intros Ns Hz Fit. destruct (kernel_x86_computes v wide dbg rt dt lp rp L R mp sr sc er ec dl dzp dst Hv Hrt C) as (d & K & B).
  pose proof (vk_rows _ _ _ _ _ _ _ _ _ _ _ _ _ _ C) as (R1 & _). pose proof (vk_cols _ _ _ _ _ _ _ _ _ _ _ _ _ _ C) as (C1 & _).
  pose proof (vk_layout _ _ _ _ _ _ _ _ _ _ _ _ _ _ C) as (D1 & D2 & _).
  pose proof (vk_dst _ _ _ _ _ _ _ _ _ _ _ _ _ _ C) as TD. pose proof (vk_bounds _ _ _ _ _ _ _ _ _ _ _ _ _ _ C) as (CB1 & CB2).
  pose proof (vk_params _ _ _ _ _ _ _ _ _ _ _ _ _ _ C) as PC.
  assert (Es : ity_eqb dt s32 = false) by (destruct TD as [-> | [-> | [-> | ->]]]; [reflexivity | reflexivity | reflexivity | congruence]).
  assert (Hb : 0 < it_bits dt <= 16 /\ it_lo dt >= - 2 ^ 15 /\ it_hi dt <= 2 ^ 16).
  { destruct TD as [E | [E | [E | E]]]; [rewrite E.. | congruence]; vm_compute; repeat split; intro; discriminate. }
  destruct Hb as (Hb & Hlo & Hhi).
  assert (Hmult : forall i j, sr <= i < er -> sc <= j < ec -> 0 <= multiplier_at mp i j <= int_max /\ -31 <= exponent_at mp i j).
  { intros i j Hi Hj. pose proof (channel_in _ _ _ _ _ _ _ _ _ _ _ _ _ _ C i j Hi Hj) as Hc. destruct PC as (_ & PM). unfold multiplier_at, exponent_at. destruct (mp_perchannel mp).
    - destruct PM as (_ & m & e & -> & -> & M1 & M2 & M3). destruct (M3 _ Hc) as (F1 & F2 & _). split; assumption.
    - destruct (PM Ns) as (F1 & F2 & _). split; assumption. }
  pose (r0 := fun i j => match multiply_by_quantized_multiplier dbg' (acc i j) (multiplier_at mp i j) (exponent_at mp i j) with Ok r => r | _ => 0 end).
  destruct (portable_run _ rt dt lp rp L R mp sr sc er ec dl dst n_cases C dbg' st pt dzp
    (fun i j => Z.max (Z.min (wrap_s 32 (r0 i j + dzp)) (mp_max mp)) (mp_min mp))) as (d0 & K0 & B0).
  { intros i j Hi Hj Hm. destruct (Fit i j Hi Hj Hm) as (F1 & F2). rewrite (wrap_s_id 32 (acc i j)) by (try lia; unfold is_i32, int_min, int_max in F1; change (2 ^ (32 - 1)) with 2147483648; lia).
    destruct (Hmult i j Hi Hj) as (M1 & M2).
    destruct (portable_quantized i j M1 M2 (conj F1 F2) Hz ltac:(lia) Hlo Hhi) as (r & Er & _).
    eapply finish_quantized with (c := match mp_chan mp with ChRow => er | ChCol => ec end); try eassumption; [lia | |].
    - exact (channel_in _ _ _ _ _ _ _ _ _ _ _ _ _ _ C i j Hi Hj).
    - unfold r0. rewrite Er. reflexivity. }
  exists d, d0. split; [exact K|]. split; [exact K0|].
  assert (Rel : forall i j x y, sr <= i < er -> sc <= j < ec -> in_matrix dl i j -> vector_result dt mp dzp i j (acc i j) x ->
     y = Z.max (Z.min (wrap_s 32 (r0 i j + dzp)) (mp_max mp)) (mp_min mp) -> y <= x <= y + 1 /\ (0 <= exponent_at mp i j -> x = y)).
  { intros i j x y Hi Hj Hm Hx Hy. destruct (Hmult i j Hi Hj) as (M1 & M2). unfold vector_result in Hx. rewrite Es in Hx. destruct Hx as (q & Tq & Cq).
    destruct (portable_quantized i j M1 M2 (Fit i j Hi Hj Hm) Hz ltac:(lia) Hlo Hhi) as (r & Er & W).
    destruct (W q Tq) as (W1 & W2). unfold r0 in Hy. rewrite Er in Hy. clear - Cq W1 W2 Hy. split.
    - unfold clamped in Cq. lia.
    - intros He. rewrite (W1 He) in Cq. unfold clamped in Cq. lia. }
  destruct (block_related (fun i j x => in_matrix dl i j /\ vector_result dt mp dzp i j (acc i j) x) (fun i j y => y = Z.max (Z.min (wrap_s 32 (r0 i j + dzp)) (mp_max mp)) (mp_min mp))
    (fun x y => y <= x <= y + 1) sr sc er ec dl dst d d0 D1 D2) as (G1 & G2); try lia; try exact B0.
  { intros i j x y Hi Hj (Hm & Hx) Hy. apply (Rel i j x y Hi Hj Hm Hx Hy). }
  { destruct B as (A1 & A2 & A3). split; [exact A1|]. split; [|exact A3]. intros i j Hi Hj Hm. split; [exact Hm | apply A2; assumption]. }
  split; [exact G1|]. split; [exact G2|].
  intros i j Hi Hj Hm He. destruct B as (_ & A2 & _). destruct B0 as (_ & A2' & _).
  apply (Rel i j _ _ Hi Hj Hm (A2 i j Hi Hj Hm) (A2' i j Hi Hj Hm)). exact He.
Qed.
End Compare.
