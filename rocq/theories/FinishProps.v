(** Quantized multiplication, clamping, default parameters. *)
From Coq Require Import SpecFloat.
From Verif Require Import Base SidePair SizeUtil SizeUtilFacts Mat MatFacts Scalars Multiplier IntOps FloatOps
  MulParams Pack Kernel PackProps SpecRound SpecFinish.

(** The rounded value before the conversion to int32. *)
Definition qround (x m shift : Z) : Z := (x * m + 2 ^ (30 - shift)) / 2 ^ (31 - shift).

Lemma mul_i32_bound : forall x m, is_i32 x -> is_i32 m -> - 2 ^ 62 <= x * m <= 2 ^ 62.
Proof. unfold is_i32, int_min, int_max. intros. change (2 ^ 62) with 4611686018427387904. nia. Qed.

Lemma multiply_value : forall dbg x m shift, is_i32 x -> is_i32 m -> -31 <= shift <= 30 ->
  multiply_by_quantized_multiplier dbg x m shift =
  (if dbg && negb (in_i32 (qround x m shift)) then Abort else Ok (wrap_s 32 (qround x m shift))).
Proof.
  intros dbg x m shift Hx Hm Hs. pose proof (mul_i32_bound x m Hx Hm) as B. unfold multiply_by_quantized_multiplier.
  replace (-31 <=? shift) with true by lia. cbn [rcheck bind].
  rewrite i32_ok by (unfold int_min, int_max; lia). cbn [bind].
  rewrite i32_ok by (unfold int_min, int_max; lia). cbn [bind].
  replace ((0 <=? 31 - shift - 1) && (31 - shift - 1 <? 64)) with true by lia.
  assert (P : 0 < 2 ^ (31 - shift - 1) <= 2 ^ 61) by (split; [apply pow2_pos; lia|apply Z.pow_le_mono_r; lia]).
  change (2 ^ 61) with 2305843009213693952 in P. change (2 ^ 62) with 4611686018427387904 in B.
  rewrite i64_ok by lia. cbn [bind]. rewrite i64_ok by lia. cbn [bind]. rewrite i64_ok by lia. cbn [bind].
  replace ((0 <=? 31 - shift) && (31 - shift <? 64)) with true by lia. cbn [bind].
  replace (31 - shift - 1) with (30 - shift) by lia. fold (qround x m shift).
  unfold dcheck, in_i32. destruct dbg; cbn [andb]; [|reflexivity].
  destruct (int_min <=? _); cbn [negb bind andb]; [|reflexivity].
  destruct (_ <=? int_max); reflexivity.
Qed.

Lemma qround_nearest : forall x m shift, shift <= 30 ->
  nearest_ties_up (x * m) (2 ^ (31 - shift)) (qround x m shift).
Proof.
  intros x m shift Hs. unfold nearest_ties_up, qround.
  assert (E : 2 ^ (31 - shift) = 2 * 2 ^ (30 - shift)).
  { rewrite <- Z.pow_succ_r by lia. f_equal. lia. }
  pose proof (pow2_pos (30 - shift) ltac:(lia)) as P. rewrite E in *. set (h := 2 ^ (30 - shift)) in *.
  pose proof (Z.div_mod (x * m + h) (2 * h) ltac:(lia)) as D.
  pose proof (Z.mod_pos_bound (x * m + h) (2 * h) ltac:(lia)) as M. nia.
Qed.

Lemma nearest_unique : forall n d r r', 0 < d -> nearest_ties_up n d r -> nearest_ties_up n d r' -> r = r'.
Proof. unfold nearest_ties_up. intros. nia. Qed.

Lemma multiply_rounds : forall dbg x m shift, is_i32 x -> is_i32 m -> -31 <= shift <= 30 ->
  exists r, nearest_ties_up (x * m) (2 ^ (31 - shift)) r /\
    (is_i32 r -> multiply_by_quantized_multiplier dbg x m shift = Ok r) /\
    (~ is_i32 r -> multiply_by_quantized_multiplier dbg x m shift = if dbg then Abort else Ok (wrap_s 32 r)).
Proof.
  intros dbg x m shift Hx Hm Hs. exists (qround x m shift). split; [apply qround_nearest; lia|].
  rewrite multiply_value by auto. split; intros H; unfold is_i32 in H.
  - replace (in_i32 (qround x m shift)) with true by (unfold in_i32; lia). rewrite andb_false_r.
    rewrite wrap_s_id; auto; unfold smin, smax, int_min, int_max in *; lia.
  - replace (in_i32 (qround x m shift)) with false by (unfold in_i32; lia). destruct dbg; reflexivity.
Qed.

Lemma multiply_monotone : forall dbg x y m shift rx ry, is_i32 x -> is_i32 y -> 0 <= m <= int_max ->
  -31 <= shift <= 30 -> x <= y ->
  nearest_ties_up (x * m) (2 ^ (31 - shift)) rx -> nearest_ties_up (y * m) (2 ^ (31 - shift)) ry ->
  is_i32 rx -> is_i32 ry ->
  rx <= ry /\ multiply_by_quantized_multiplier dbg x m shift = Ok rx /\
  multiply_by_quantized_multiplier dbg y m shift = Ok ry.
Proof.
  intros dbg x y m shift rx ry Hx Hy Hm Hs Hxy Nx Ny Ix Iy.
  assert (P : 0 < 2 ^ (31 - shift)) by (apply pow2_pos; lia).
  assert (Hm' : is_i32 m) by (unfold is_i32, int_min in *; lia).
  split.
  - unfold nearest_ties_up in *. assert (x * m <= y * m) by (apply Z.mul_le_mono_nonneg_r; lia).
    set (D := 2 ^ (31 - shift)) in *. clearbody D. nia.
  - destruct (multiply_rounds dbg x m shift Hx Hm' Hs) as (r & N & O & _).
    destruct (multiply_rounds dbg y m shift Hy Hm' Hs) as (r' & N' & O' & _).
    assert (r = rx) by (eapply nearest_unique; eauto). assert (r' = ry) by (eapply nearest_unique; eauto).
    subst. auto.
Qed.

Lemma multiply_in_range : forall x m shift r, is_i32 x -> 0 <= m <= int_max -> -31 <= shift <= 30 ->
  (shift <= 0 \/ Z.abs x * 2 ^ shift <= int_max) ->
  nearest_ties_up (x * m) (2 ^ (31 - shift)) r -> is_i32 r.
Proof.
  intros x m shift r Hx Hm Hs Hr N.
  assert (B : Z.abs x * m < 2 ^ 31 * 2 ^ (31 - shift)).
  { destruct Hr as [Hr|Hr].
    - assert (2 ^ 31 <= 2 ^ (31 - shift)) by (apply Z.pow_le_mono_r; lia).
      unfold is_i32, int_min, int_max in *. change (2 ^ 31) with 2147483648 in *.
      assert (Z.abs x * m <= 2147483648 * 2147483647) by (apply Z.mul_le_mono_nonneg; lia).
      assert (2147483648 * 2147483648 <= 2147483648 * 2 ^ (31 - shift)) by (apply Z.mul_le_mono_nonneg_l; lia).
      lia.
    - destruct (Z_le_gt_dec 0 shift) as [H0|H0].
      + assert (E : 2 ^ 31 = 2 ^ shift * 2 ^ (31 - shift)) by (rewrite <- Z.pow_add_r by lia; f_equal; lia).
        pose proof (pow2_pos (31 - shift) ltac:(lia)) as P. pose proof (pow2_pos shift H0) as P2.
        set (a := 2 ^ shift) in *. set (b := 2 ^ (31 - shift)) in *. change (2 ^ 31) with 2147483648 in *.
        unfold int_max in *. clearbody a b.
        assert (Z.abs x * m <= Z.abs x * (a * b)) by (apply Z.mul_le_mono_nonneg_l; lia).
        assert (Z.abs x * (a * b) = (Z.abs x * a) * b) by ring.
        assert ((Z.abs x * a) * b <= 2147483647 * b) by (apply Z.mul_le_mono_nonneg_r; lia). lia.
      + assert (2 ^ 31 <= 2 ^ (31 - shift)) by (apply Z.pow_le_mono_r; lia).
        unfold is_i32, int_min, int_max in *. change (2 ^ 31) with 2147483648 in *.
        assert (Z.abs x * m <= 2147483648 * 2147483647) by (apply Z.mul_le_mono_nonneg; lia).
        assert (2147483648 * 2147483648 <= 2147483648 * 2 ^ (31 - shift)) by (apply Z.mul_le_mono_nonneg_l; lia).
        lia. }
  assert (G : Z.abs x * m <= int_max * 2 ^ (31 - shift) \/ shift <= 0).
  { destruct (Z_le_gt_dec shift 0); [auto|]. left. destruct Hr as [Hr|Hr]; [lia|].
    assert (E : 2 ^ 31 = 2 ^ shift * 2 ^ (31 - shift)) by (rewrite <- Z.pow_add_r by lia; f_equal; lia).
    pose proof (pow2_pos (31 - shift) ltac:(lia)) as P. pose proof (pow2_pos shift ltac:(lia)) as P2.
    set (a := 2 ^ shift) in *. set (b := 2 ^ (31 - shift)) in *. change (2 ^ 31) with 2147483648 in *.
    unfold int_max in *. clearbody a b.
    assert (Z.abs x * m <= Z.abs x * (a * b)) by (apply Z.mul_le_mono_nonneg_l; lia).
    assert (Z.abs x * (a * b) = (Z.abs x * a) * b) by ring.
    assert ((Z.abs x * a) * b <= 2147483647 * b) by (apply Z.mul_le_mono_nonneg_r; lia). lia. }
  unfold nearest_ties_up in N. pose proof (pow2_pos (31 - shift) ltac:(lia)) as P.
  assert (Hab : Z.abs (x * m) = Z.abs x * m) by (rewrite Z.abs_mul; f_equal; lia).
  set (D := 2 ^ (31 - shift)) in *. change (2 ^ 31) with 2147483648 in *.
  assert (HD : shift <= 0 -> 2147483648 <= D) by (intros; apply (Z.pow_le_mono_r 2 31); lia).
  clearbody D. clear Hr. unfold is_i32, int_max, int_min in *.
  set (y := x * m) in *. rewrite <- Hab in *. 
  destruct G as [G|G].
  - clear B. clearbody y. clear - G N P. split; nia.
  - specialize (HD G).
    assert (Hy : - (2147483648 * 2147483647) <= y <= 2147483647 * 2147483647).
    { unfold y. split.
      - assert (-2147483648 * m <= x * m) by (apply Z.mul_le_mono_nonneg_r; lia). nia.
      - destruct (Z_le_gt_dec 0 x).
        + apply Z.mul_le_mono_nonneg; lia.
        + assert (x * m <= 0) by (apply Z.mul_nonpos_nonneg; lia). lia. }
    clearbody y. clear - Hy N P HD. split; nia.
Qed.

Lemma multiply_shift_too_large : forall dbg x m shift, 31 <= shift <= int_max -> 
  multiply_by_quantized_multiplier dbg x m shift = UB.
Proof.
  intros dbg x m shift H. unfold multiply_by_quantized_multiplier.
  replace (-31 <=? shift) with true by lia. cbn [rcheck bind]. unfold int_max in H.
  rewrite i32_ok by (unfold int_min, int_max; lia). cbn [bind].
  destruct (i32 (31 - shift - 1)) eqn:E; [|reflexivity|unfold i32 in E; destruct (in_i32 _); discriminate].
  apply i32_inv in E. destruct E as [-> _]. cbn [bind].
  replace (_ && _) with false by lia. reflexivity.
Qed.

Lemma multiply_shift_too_small : forall dbg x m shift, shift < -31 ->
  multiply_by_quantized_multiplier dbg x m shift = Abort.
Proof.
  intros dbg x m shift H. unfold multiply_by_quantized_multiplier.
  replace (-31 <=? shift) with false by lia. reflexivity.
Qed.

Lemma documented_shift_overflows : exists x m shift, is_i32 x /\ 0 <= m <= int_max /\ -31 <= shift <= 7 /\
  multiply_by_quantized_multiplier true x m shift = Abort /\
  exists r, multiply_by_quantized_multiplier false x m shift = Ok r /\
    ~ nearest_ties_up (x * m) (2 ^ (31 - shift)) r.
Proof.
  exists int_max, int_max, 7. split; [unfold is_i32, int_min, int_max; lia|].
  split; [unfold int_max; lia|]. split; [lia|]. split; [vm_compute; reflexivity|].
  eexists. split; [vm_compute; reflexivity|]. unfold nearest_ties_up. vm_compute. intuition congruence.
Qed.

(** * Clamping *)

Lemma clamp_value : forall lo hi a, clamped lo hi a (Z.max (Z.min a hi) lo).
Proof. unfold clamped. intros. lia. Qed.

Section Clamp.
Variables (ar : Z -> res Z) (dbg : bool) (st pt : sp ity) (dt : ity).
Let o := int_ops ar dbg st pt dt.
Hypothesis Hbits : 0 < it_bits dt.

Lemma finish_clamps : forall mp dzp c acc v, it_lo dt <= mp_min mp <= it_hi dt -> it_lo dt <= mp_max mp <= it_hi dt ->
  finish o mp dzp c acc = Ok v ->
  exists scaled a, apply_multiplier o mp c acc = Ok scaled /\ ar (scaled + dzp) = Ok a /\
    clamped (mp_min mp) (mp_max mp) a v.
Proof.
  intros mp dzp c acc v Hmin Hmax H. unfold finish in H.
  apply bind_ok in H. destruct H as (s & Es & H). apply bind_ok in H. destruct H as (a & Ea & H).
  cbn [o int_ops o_min o_max o_store] in H. injection H as <-.
  exists s, a. split; auto. split; auto. rewrite it_conv_id; auto using clamp_value; lia.
Qed.

Lemma finish_stores : forall mp dzp c acc v, it_lo dt <= mp_min mp <= it_hi dt -> it_lo dt <= mp_max mp <= it_hi dt ->
  is_i32 acc -> valid_multiplier dt mp c -> finish o mp dzp c acc = Ok v ->
  exists s a, scaled_for dt mp c acc s /\ ar (wrap_s 32 s + dzp) = Ok a /\ clamped (mp_min mp) (mp_max mp) a v.
Proof.
  intros mp dzp c acc v Hmin Hmax Hacc Hm H. apply finish_clamps in H; auto. destruct H as (s0 & a & Es & Ea & C).
  unfold apply_multiplier in Es. cbn [o int_ops o_quant] in Es. unfold scaled_for, valid_multiplier in *.
  destruct (ity_eqb dt s32).
  - injection Es as <-. exists acc, a. split; auto. split; auto. rewrite wrap_s_id; auto.
    unfold is_i32, int_min, int_max, smin, smax in *. change (2 ^ (32 - 1)) with 2147483648. lia.
  - destruct (Hm eq_refl) as [M1 M2]. apply bind_ok in Es. destruct Es as ([m e] & Em & Es).
    assert (E : m = multiplier_for mp c /\ e = exponent_for mp c).
    { unfold channel_multiplier, multiplier_fixedpoint_perchannel, multiplier_exponent_perchannel, multiplier_fixedpoint, multiplier_exponent in Em.
      unfold multiplier_for, exponent_for. apply bind_ok in Em. destruct Em as (m1 & E1 & Em). apply bind_ok in Em. destruct Em as (e1 & E2 & Em).
      injection Em as <- <-. destruct (mp_perchannel mp).
      - split; [destruct (mp_mult_pc mp)|destruct (mp_exp_pc mp)]; unfold bread in *; try (destruct (_ && _)); congruence.
      - split; congruence. }
    destruct E as [-> ->]. destruct (multiply_rounds dbg acc (multiplier_for mp c) (exponent_for mp c) Hacc M1 M2) as (r & N & R1 & R2).
    exists r, a. split; auto. split; auto.
    assert (Hr : is_i32 r \/ ~ is_i32 r) by (unfold is_i32; lia). destruct Hr as [Hr|Hr].
    + rewrite (R1 Hr) in Es. injection Es as <-. rewrite wrap_s_id; auto.
      unfold is_i32, int_min, int_max, smin, smax in *. change (2 ^ (32 - 1)) with 2147483648. lia.
    + rewrite (R2 Hr) in Es. destruct dbg; [discriminate|]. injection Es as <-. exact Ea.
Qed.

Lemma clamped_bounds : forall lo hi a v, clamped lo hi a v ->
  (lo <= hi -> lo <= v <= hi) /\ (hi < lo -> v = lo) /\ (lo <= a <= hi -> v = a).
Proof. unfold clamped. intros. lia. Qed.

Lemma entry_clamps : forall lp rp mp dzp i j v,
  it_lo dt <= mp_min mp <= it_hi dt -> it_lo dt <= mp_max mp <= it_hi dt ->
  kernel_entry dbg o lp rp mp dzp i j = Ok v ->
  (mp_min mp <= mp_max mp -> mp_min mp <= v <= mp_max mp) /\ (mp_max mp < mp_min mp -> v = mp_min mp).
Proof.
  intros lp rp mp dzp i j v H1 H2 H. unfold kernel_entry in H.
  apply bind_ok in H. destruct H as (a1 & _ & H). apply bind_ok in H. destruct H as (a2 & _ & H).
  apply bind_ok in H. destruct H as (a3 & _ & H).
  apply finish_clamps in H; auto. destruct H as (s & a & _ & _ & C). apply clamped_bounds in C. tauto.
Qed.

Lemma ref_entry_clamps : forall l r mp dzp i j v,
  it_lo dt <= mp_min mp <= it_hi dt -> it_lo dt <= mp_max mp <= it_hi dt ->
  ref_entry o l r mp dzp i j = Ok v ->
  (mp_min mp <= mp_max mp -> mp_min mp <= v <= mp_max mp) /\ (mp_max mp < mp_min mp -> v = mp_min mp).
Proof.
  intros l r mp dzp i j v H1 H2 H. unfold ref_entry in H.
  apply bind_ok in H. destruct H as (a1 & _ & H). apply bind_ok in H. destruct H as (a2 & _ & H).
  apply finish_clamps in H; auto. destruct H as (s & a & _ & _ & C). apply clamped_bounds in C. tauto.
Qed.
End Clamp.

Lemma SFltb_irrefl : forall x, SFltb x x = false.
Proof.
  intros [[]|[]| |[] m e]; try reflexivity; unfold SFltb, SFcompare; rewrite Z.compare_refl, Pos.compare_refl; reflexivity.
Qed.

Lemma float_finish_clamps : forall prec emax size mp dzp c acc v,
  SFltb (mp_max mp) (mp_min mp) = false ->
  finish (float_ops prec emax size) mp dzp c acc = Ok v ->
  SFltb v (mp_min mp) = false /\ SFltb (mp_max mp) v = false.
Proof.
  intros prec emax size mp dzp c acc v Hb H. unfold finish, apply_multiplier in H.
  cbn [float_ops o_quant o_add_dst_zp o_min o_max o_store bind] in H. injection H as <-.
  unfold fmin, fmax.
  set (a := fadd _ _ _ _). 
  destruct (SFltb (mp_max mp) a) eqn:E1.
  - rewrite Hb. split; [exact Hb|apply SFltb_irrefl].
  - destruct (SFltb a (mp_min mp)) eqn:E2; split; auto using SFltb_irrefl.
Qed.

(** * Defaults *)

Lemma default_raw_ar : forall ar dbg st pt c acc, is_i32 acc -> ar (acc + 0) = Ok acc ->
  finish (int_ops ar dbg st pt s32) (default_mul_params (it_lo s32) (it_hi s32)) 0 c acc = Ok acc.
Proof.
  intros ar dbg st pt c acc Ha Har. unfold finish, apply_multiplier.
  change (o_quant (int_ops ar dbg st pt s32)) with (@None (Z -> Z -> Z -> res Z)).
  cbn [bind int_ops o_add_dst_zp]. rewrite Har. cbn [bind o_min o_max o_store default_mul_params mp_max mp_min].
  f_equal. change (it_lo s32) with int_min. change (it_hi s32) with int_max. unfold is_i32 in Ha.
  rewrite Z.min_l, Z.max_l by lia. apply it_conv_id; [reflexivity|]. exact Ha.
Qed.

Lemma default_raw : forall dbg st pt c acc, is_i32 acc ->
  finish (int_ops checked dbg st pt s32) (default_mul_params (it_lo s32) (it_hi s32)) 0 c acc = Ok acc.
Proof.
  intros. apply default_raw_ar; auto. unfold checked. rewrite i32_ok by (unfold is_i32 in *; lia). f_equal. lia.
Qed.

Lemma default_quantized_constant : forall dbg st pt dt c dzp acc, ity_eqb dt s32 = false -> 0 < it_bits dt ->
  is_i32 acc -> it_lo dt <= dzp <= it_hi dt -> is_i32 dzp ->
  finish (int_ops checked dbg st pt dt) (default_mul_params (it_lo dt) (it_hi dt)) dzp c acc = Ok dzp.
Proof.
  intros dbg st pt dt c dzp acc Hd Hb Ha Hz Hz2. unfold finish, apply_multiplier.
  cbn [int_ops o_quant]. rewrite Hd.
  unfold channel_multiplier, multiplier_fixedpoint_perchannel, multiplier_exponent_perchannel,
    multiplier_fixedpoint, multiplier_exponent. cbn [default_mul_params mp_perchannel mp_mult mp_exp bind].
  rewrite multiply_value by (unfold is_i32, int_min, int_max in *; lia).
  assert (Q : qround acc 0 0 = 0) by (unfold qround; rewrite Z.mul_0_r; reflexivity). rewrite Q.
  change (in_i32 0) with true. rewrite andb_false_r. cbn [bind].
  change (wrap_s 32 0) with 0. cbn [int_ops o_add_dst_zp o_min o_max o_store]. unfold checked.
  rewrite i32_ok by (unfold is_i32 in *; lia). cbn [bind mp_max mp_min default_mul_params].
  f_equal. rewrite Z.min_l, Z.max_l by lia. apply it_conv_id; auto.
Qed.

(** +infinity is not below anything. *)
Lemma SFltb_inf_l : forall x, SFltb (S754_infinity false) x = false.
Proof. intros [[]|[]| |[] m e]; reflexivity. Qed.
Lemma SFltb_ninf_r : forall x, SFltb x (S754_infinity true) = false.
Proof. intros [[]|[]| |[] m e]; reflexivity. Qed.

Lemma default_float : forall prec emax size c acc,
  finish (float_ops prec emax size) (default_mul_params (S754_infinity true) (S754_infinity false)) 0 c acc =
  Ok (fadd prec emax acc fzero).
Proof.
  intros. unfold finish, apply_multiplier. cbn [float_ops o_quant o_add_dst_zp o_min o_max o_store bind default_mul_params mp_max mp_min].
  unfold fmin, fmax. rewrite SFltb_inf_l, SFltb_ninf_r. reflexivity.
Qed.

Lemma fadd_zero : forall prec emax acc, acc <> S754_zero true -> fadd prec emax acc fzero = acc.
Proof. intros prec emax [[]|[]| |[] m e] H; try reflexivity. congruence. Qed.

Lemma default_float_plain : forall prec emax size c acc, acc <> S754_zero true ->
  finish (float_ops prec emax size) (default_mul_params (S754_infinity true) (S754_infinity false)) 0 c acc = Ok acc.
Proof. intros. rewrite default_float, fadd_zero; auto. Qed.

Lemma default_quantized_wrong : exists acc, finish (int_ops checked true (mk_sp s8 s8) (mk_sp s8 s8) s8)
    (default_mul_params (it_lo s8) (it_hi s8)) 0 0 acc <> Ok acc /\ it_lo s8 <= acc <= it_hi s8.
Proof. exists 5. split; [vm_compute; discriminate|vm_compute; intuition discriminate]. Qed.
