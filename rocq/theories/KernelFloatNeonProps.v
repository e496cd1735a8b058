(** The float kernels for AArch64 called with packed matrices. *)
From Coq Require Import ZArith List Bool Lia SpecFloat.
From Verif Require Import Base SidePair Mat MatFacts Scalars FloatOps FloatWords FloatWordsFacts Pack PackFacts MulParams Kernel KernelFacts RunBy SimdFloat KernelFloatX86 KernelFloatFacts MemcpyPackFacts KernelFloatProps
  Simd SimdFacts Neon64 NeonRun NeonTac NeonPack NeonPackMath NeonPackBytes NeonKernelF NeonKernelT NeonKernelM NeonKernelW NeonKernelL NeonKernelR CpuInfo Tune KernelFloatNeon SpecFloatNeon KernelFloatNeonFacts.
Import ListNotations.
Open Scope Z_scope.

Definition neon_value (t : tuning) (lv rv : Z -> Z -> spec_float) (depth : Z) (mp : mul_params spec_float) (i j : Z) : spec_float :=
  neon_finish (bias_value (S754_zero false) mp i j) (mp_min mp) (mp_max mp) (neon_dot (neon_order t depth i j) (fun k => lv k i) (fun k => rv k j)).

Record float_args (lp rp : pmat spec_float) (mp : mul_params spec_float) : Prop := {
  fa_lhs : all_floats (p_data lp); fa_rhs : all_floats (p_data rp);
  fa_bias : forall b, mp_bias mp = Some b -> all_floats b;
  fa_min : is_float (mp_min mp); fa_max : is_float (mp_max mp)
}.

Lemma wrap_bytes : forall z, 0 <= z -> 4 * z <= int_max -> wrap_u 32 (wrap_s 32 (wrap_u 64 (4 * z))) = 4 * z.
Proof. intros z H1 H2. rewrite Kernel8bitProps.wrap_bytes_id by lia. unfold int_max in H2. rewrite wrap_u_small by lia. reflexivity. Qed.
Lemma low_int : forall g k z, 0 <= z <= int_max -> exists x, int_reg g k z = Int x /\ x mod 2 ^ 32 = z.
Proof. intros g k z H. eexists. split; [reflexivity|]. rewrite Z.mul_comm, Z.mod_add by lia. rewrite wrap_u_small by (unfold int_max in H; lia). apply Z.mod_small. unfold int_max in H. lia. Qed.

Lemma word_back : forall D o x, is_float x -> (forall b, 0 <= b < 4 -> bdat D (o + b) = nth (Z.to_nat b) (bytes_of 4 (word_of_float x)) 0) ->
  float_of_word (of_bytes (get_bytes D o 4)) = x.
Proof.
  intros D o x Hx H. assert (E : get_bytes D o 4 = bytes_of 4 (word_of_float x)).
  { unfold get_bytes. cbn [zseq map].  rewrite !H by lia. reflexivity. }
  rewrite E, of_bytes_of. change (256 ^ Z.of_nat 4) with (2 ^ 32). rewrite Z.mod_small by (apply word_range, Hx). apply word_round_trip, Hx.
Qed.

Lemma same_back : forall d D x, is_float (bdat d x) -> (forall e, 0 <= e < 4 -> bdat D (4 * x + e) = bdat (float_bytes d) (4 * x + e)) -> bdat (bytes_float d D) x = bdat d x.
Proof.
  intros d D x Hx H. cbn [bytes_float bdat]. destruct ((0 <=? x) && (x <? blen d)); [|reflexivity].
  rewrite <- (flt_bytes d x Hx). unfold flt. do 2 f_equal. unfold get_bytes. cbn [zseq map]. rewrite !H by lia. reflexivity.
Qed.

Lemma finish_float : forall b lo hi d, is_float b -> is_float lo -> is_float hi -> is_float d -> is_float (neon_finish b lo hi d).
Proof.
  intros b lo hi d H1 H2 H3 H4. unfold neon_finish, is_float in *. rewrite <- smaller_arm, <- larger_arm. apply fmin_valid; [apply fmax_valid; [apply add_valid; assumption|assumption]|assumption].
Qed.
Lemma dot_float : forall o l r, (forall k, In k o -> is_float (l k) /\ is_float (r k)) -> is_float (neon_dot o l r).
Proof.
  intros o l r. unfold neon_dot. assert (H0 : is_float (S754_zero false)) by reflexivity. revert H0. generalize (S754_zero false).
  induction o as [|k o IH]; intros a Ha H; cbn [fold_left]; [exact Ha|]. destruct (H k (or_introl eq_refl)) as (H1 & H2). apply IH; [apply fused_valid; assumption|]. intros k' Hk. apply H. right. exact Hk.
Qed.

Lemma factor_le : forall a b m, 1 <= a -> 0 <= b -> a * b <= m -> b <= m.
Proof. intros. nia. Qed.
Lemma times_blocks : forall a n K len, 0 <= K -> (a + 8 * n) * K <= len -> 4 * (a * K) + 8 * (4 * K) * n <= 4 * len.
Proof. intros. nia. Qed.
Lemma last_entry : forall st a c n b m len, 0 <= st -> 0 <= n <= m - c -> 0 <= a -> a + b <= st -> st * m <= len -> 1 <= n ->
  4 * (c * st + a) + 4 * st * (n - 1) + 4 * b <= 4 * len.
Proof. intros. assert (st * (c + n) <= st * m) by (apply Z.mul_le_mono_nonneg_l; lia). lia. Qed.
Lemma entry_offset : forall st i j r c, 4 * (c * st + r) + 4 * st * (j - c) + 4 * (i - r) = 4 * (i + j * st).
Proof. intros. ring. Qed.

Section Call.
Variables (dbg dotprod : bool) (t : tuning) (g : leftover) (tmp : Z -> Z).
Variables (lp rp : pmat spec_float) (mp : mul_params spec_float) (sr sc er ec : Z) (dl : mat_layout).
Hypothesis C : float_call 8 lp rp mp sr sc er ec dl.
Hypothesis FA : float_args lp rp mp.
Let D := pl_rows (p_layout lp).
Let st := ml_stride dl.
Let bias := kf_bias (made spec_float neon_scalars 8 lp rp mp sr sc er ec dl).
Let hb := match mp_bias mp with Some _ => true | None => false end.
Let cc := match mp_chan mp with ChCol => true | ChRow => false end.
Let nbr := (er - sr) / 8.
Let nbc := (ec - sc) / 8.

Lemma bias_floats : all_floats bias.
Proof. unfold bias, made. cbn [kf_bias]. pose proof (fa_bias _ _ _ FA) as FB. destruct (mp_bias mp) as [b|]; [apply FB; reflexivity|]. intros i. reflexivity. Qed.

Lemma blocks_exact : forall a b, a mod 8 = 0 -> b mod 8 = 0 -> b = a + 8 * ((b - a) / 8).
Proof. intros a b Ha Hb. pose proof (Z.div_mod (b - a) 8 ltac:(lia)) as DM. rewrite Zminus_mod, Ha, Hb in DM. cbn in DM. lia. Qed.

Lemma neon_out : forall r c, 0 <= r -> 0 <= c ->
  out_value (float_bytes (p_data lp)) (float_bytes (p_data rp)) (float_bytes bias) (4 * (sr * D)) (4 * (sc * D)) 0 sr sc (4 * D) (4 * D)
    (word_of_float (mp_min mp)) (word_of_float (mp_max mp)) hb cc (upto 0 (Z.to_nat D)) (if unrolled t then late D else upto 0 (Z.to_nat D)) r c =
  neon_value t (fun k c => bdat (p_data lp) (poff (p_layout lp) k c)) (fun k c => bdat (p_data rp) (poff (p_layout rp) k c)) D mp (sr + r) (sc + c).
Proof.
  intros r c Hr Hc. pose proof (fc_pos _ _ _ _ _ _ _ _ _ C) as D1. fold D in D1. destruct (fc_rows _ _ _ _ _ _ _ _ _ C) as (R1 & R3 & R4 & R5 & R6). destruct (fc_cols _ _ _ _ _ _ _ _ _ C) as (C1 & C3 & C4 & C5 & C6).
  assert (Er : (sr + r) mod 8 = r mod 8 /\ (sr + r) / 8 = sr / 8 + r / 8 /\ sr = 8 * (sr / 8)).
  { pose proof (Z.div_mod sr 8 ltac:(lia)) as DM. rewrite R5 in DM. assert (E : sr + r = r + sr / 8 * 8) by lia. rewrite E, Z.mod_add, Z.div_add by lia. repeat split; lia. }
  assert (Ec : (sc + c) mod 8 = c mod 8 /\ (sc + c) / 8 = sc / 8 + c / 8 /\ sc = 8 * (sc / 8)).
  { pose proof (Z.div_mod sc 8 ltac:(lia)) as DM. rewrite C5 in DM. assert (E : sc + c = c + sc / 8 * 8) by lia. rewrite E, Z.mod_add, Z.div_add by lia. repeat split; lia. }
  destruct Er as (Er1 & Er2 & Er3), Ec as (Ec1 & Ec2 & Ec3).
  unfold out_value, lane_out, neon_value, neon_finish. rewrite smaller_arm, larger_arm, !word_round_trip by first [apply (fa_min _ _ _ FA)|apply (fa_max _ _ _ FA)]. do 3 f_equal.
  - unfold lane_dot.
    assert (EO : levels_at (upto 0 (Z.to_nat D)) (if unrolled t then late D else upto 0 (Z.to_nat D)) (r mod 8) (c mod 8) = rev (order_of t D (r mod 8) (c mod 8))).
    { unfold levels_at, order_of. destruct (unrolled t); cbn [andb]; [|destruct (_ && _); reflexivity]. destruct (_ && _); cbn [negb]; [reflexivity|apply late_rev]. }
    rewrite EO. rewrite (fdot_dot _ _ (fun k => bdat (p_data lp) (poff (p_layout lp) k (sr + r))) (fun k => bdat (p_data rp) (poff (p_layout rp) k (sc + c)))).
    + rewrite <- Er1, <- Ec1, order_levels by exact D1. reflexivity.
    + intros k Hk. apply order_range in Hk; [|exact D1].
      rewrite !poff_one_row by (apply (fd_one 8); first [exact (fc_lhs _ _ _ _ _ _ _ _ _ C)|exact (fc_rhs _ _ _ _ _ _ _ _ _ C)]).
      rewrite (fd_cols _ _ (fc_lhs _ _ _ _ _ _ _ _ _ C)), (fd_cols _ _ (fc_rhs _ _ _ _ _ _ _ _ _ C)), (fc_depth _ _ _ _ _ _ _ _ _ C), Er1, Er2, Ec1, Ec2. fold D. split.
      * replace (4 * (sr * D) + 8 * (4 * D) * (r / 8) + 32 * Z.of_nat k + 4 * (r mod 8)) with (4 * ((sr / 8 + r / 8) * (8 * D) + Z.of_nat k * 8 + r mod 8)) by (rewrite Er3 at 2; ring). apply flt_bytes, (fa_lhs _ _ _ FA).
      * replace (4 * (sc * D) + 8 * (4 * D) * (c / 8) + 32 * Z.of_nat k + 4 * (c mod 8)) with (4 * ((sc / 8 + c / 8) * (8 * D) + Z.of_nat k * 8 + c mod 8)) by (rewrite Ec3 at 2; ring). apply flt_bytes, (fa_rhs _ _ _ FA).
  - unfold lane_bias, bias_at, bias_value. pose proof bias_floats as FB. unfold hb, cc, bias, made in *. cbn [kf_bias] in *.
    pose proof (Z.div_mod r 8 ltac:(lia)). pose proof (Z.div_mod c 8 ltac:(lia)).
    destruct (mp_bias mp) as [b|], (mp_chan mp).
    + replace (0 + 4 * (sr + 8 * (r / 8)) + 4 * (r mod 8)) with (4 * (sr + r)) by lia. apply flt_bytes, FB.
    + replace (0 + 4 * (sc + 8 * (c / 8)) + 4 * (c mod 8)) with (4 * (sc + c)) by lia. apply flt_bytes, FB.
    + replace (0 + 0 + 4 * (r mod 8)) with (4 * (r mod 8)) by lia. rewrite flt_bytes by apply FB. reflexivity.
    + replace (0 + 0 + 4 * (c mod 8)) with (4 * (c mod 8)) by lia. rewrite flt_bytes by apply FB. reflexivity.
Qed.

Lemma kernel_neon_computes : forall d, flat dl <= blen d -> all_floats d ->
  exists d', kernel_float_neon dbg dotprod t g tmp lp rp mp sr sc er ec dl d = Ok d' /\ all_floats d' /\
    computed dl (fun i j v => v = neon_value t (fun k c => bdat (p_data lp) (poff (p_layout lp) k c)) (fun k c => bdat (p_data rp) (poff (p_layout rp) k c)) D mp i j)
      (fun i j => sr <= i < er /\ sc <= j < ec /\ inside dl i j) d d'.
Proof.
  intros d F FD. pose proof (fc_pos _ _ _ _ _ _ _ _ _ C) as D1. fold D in D1.
  destruct (call_blocks _ 8 lp rp mp sr sc er ec dl C) as (BR & BC). destruct (dst_bounds _ 8 lp rp mp sr sc er ec dl C) as (DB & DS). fold st in DB, DS.
  destruct (fc_rows _ _ _ _ _ _ _ _ _ C) as (R1 & R3 & R4 & R5 & R6). destruct (fc_cols _ _ _ _ _ _ _ _ _ C) as (C1 & C3 & C4 & C5 & C6).
  destruct (side_bounds _ 8 lp rp mp sr sc er ec dl C lp sr er (fc_lhs _ _ _ _ _ _ _ _ _ C) eq_refl ltac:(lia) BR R3) as (A1 & A2 & A3 & A4 & A5).
  destruct (side_bounds _ 8 lp rp mp sr sc er ec dl C rp sc ec (fc_rhs _ _ _ _ _ _ _ _ _ C) (fc_depth _ _ _ _ _ _ _ _ _ C) ltac:(lia) BC C3) as (B1 & B2 & B3 & B4 & B5).
  fold D in A2, A5, B2, B5. rewrite A2 in A1, A3. rewrite B2 in B1, B3.
  pose proof (fc_stride _ _ _ _ _ _ _ _ _ C) as ST. fold st in ST.
  destruct (fc_layout _ _ _ _ _ _ _ _ _ C) as [L1 L2 L3 L4]. rewrite (fc_order _ _ _ _ _ _ _ _ _ C) in L3, L4. fold st in L3, L4.
  assert (FL : st * ml_cols dl <= blen d) by (revert F; unfold flat; rewrite (fc_order _ _ _ _ _ _ _ _ _ C); fold st; lia).
  assert (Mr : ml_rows dl <= int_max) by (unfold int_max in *; lia).
  assert (S1 : 1 <= st) by lia. assert (Mc : ml_cols dl <= int_max) by (apply (factor_le st); assumption).
  unfold kernel_float_neon. rewrite (make_ok _ neon_scalars dbg 8 lp rp mp sr sc er ec dl C). cbn [bind].
  set (p := made spec_float neon_scalars 8 lp rp mp sr sc er ec dl).
  pose proof (blocks_exact sr er R5 R6) as Er. pose proof (blocks_exact sc ec C5 C6) as Ec. fold nbr in Er. fold nbc in Ec.
  assert (Nr : 1 <= nbr) by lia. assert (Nc : 1 <= nbc) by lia.
  assert (IM : int_max = 2 ^ 31 - 1) by reflexivity.
  assert (EF : kernel_fuel p = fuel_for D nbr nbc).
  { unfold kernel_fuel, fuel_for, p, made. cbn [kf_depth kf_last_row kf_start_row kf_last_col kf_start_col]. fold D.
    replace (er - 8 - sr) with ((nbr - 1) * 8) by lia. replace (ec - 8 - sc) with ((nbc - 1) * 8) by lia. rewrite !Z.div_mul by lia. rewrite !Z.sub_add. reflexivity. }
  rewrite EF. clear EF.
  destruct (low_int g 46 sr) as (z46 & X46 & E46); [lia|]. destruct (low_int g 47 sc) as (z47 & X47 & E47); [lia|].
  destruct (low_int g 49 (ml_rows dl)) as (z49 & X49 & E49); [lia|]. destruct (low_int g 50 (ml_cols dl)) as (z50 & X50 & E50); [lia|].
  set (s0 := {| xs := kernel_regs g p; vs := fun i => firstn 16 (lo_vs g i ++ repeat 0 16); fl := lo_fl g; mem := kernel_memory p d tmp |}).
  assert (W : 0 <= word_of_float (mp_min mp) < 2 ^ 32 /\ 0 <= word_of_float (mp_max mp) < 2 ^ 32) by (split; apply word_range; [apply (fa_min _ _ _ FA)|apply (fa_max _ _ _ FA)]).
  assert (HS : starting (float_bytes (p_data lp)) (float_bytes (p_data rp)) (float_bytes bias) (4 * (sr * D)) (4 * (sc * D)) (4 * (sc * st + sr)) 0 sr sc (er - 8) (ec - 8) (ml_rows dl) (ml_cols dl)
    (4 * D) (4 * D) (4 * st) D (word_of_float (mp_min mp)) (word_of_float (mp_max mp)) hb cc z49 z50 (float_bytes d) {| blen := 256; bdat := tmp |} s0).
  { constructor; subst s0; cbn [xs mem kernel_regs].
    - constructor; try reflexivity. cbn [kernel_memory]. f_equal. unfold neon_params, kfields, p, made.
      cbn [kf_lhs_base kf_rhs_base kf_dst_base kf_start_row kf_start_col kf_last_row kf_last_col kf_dst_rows kf_dst_cols kf_lhs_stride kf_rhs_stride kf_dst_stride kf_depth kf_clamp_min kf_clamp_max kf_has_bias kf_channel_is_col].
      rewrite A2, B2. fold D st. rewrite !wrap_bytes by lia. rewrite !wrap_u_small by lia. reflexivity.
    - unfold p, made. cbn [kf_lhs_base]. rewrite A2. reflexivity.
    - unfold p, made. cbn [kf_rhs_base]. rewrite B2. reflexivity.
    - unfold p, made. cbn [kf_lhs_base]. rewrite A2. reflexivity.
    - unfold p, made. cbn [kf_rhs_base]. rewrite B2. reflexivity.
    - reflexivity.
    - reflexivity.
    - exists z46. split; [exact X46|exact E46].
    - exists z47. split; [exact X47|exact E47].
    - reflexivity.
    - exact X49.
    - exact X50.
    - reflexivity. }
  assert (HBi : 0 <= 0 /\ 0 + (if hb then 4 * (if cc then sc + 8 * nbc else sr + 8 * nbr) else 32) <= blen (float_bytes bias)).
  { split; [lia|]. pose proof (fc_bias _ _ _ _ _ _ _ _ _ C) as FB. unfold hb, cc, bias, made. cbn [kf_bias float_bytes enc float_words blen].
    destruct (mp_bias mp) as [b|]; [|cbn [blen]; lia]. specialize (FB b eq_refl). destruct (mp_chan mp); lia. }
  assert (HD : 0 <= 4 * (sc * st + sr) /\ 4 * (sc * st + sr) + 4 * st * (Z.min (8 * nbc) (ml_cols dl - sc) - 1) + 4 * Z.min (8 * nbr) (ml_rows dl - sr) <= blen (float_bytes d)).
  { split; [assert (0 <= sc * st) by (apply Z.mul_nonneg_nonneg; lia); lia|]. cbn [float_bytes enc float_words blen]. apply (last_entry st sr sc _ _ (ml_cols dl)); lia. }
  destruct (any_run (float_bytes (p_data lp)) (float_bytes (p_data rp)) (float_bytes bias) (4 * (sr * D)) (4 * (sc * D)) (4 * (sc * st + sr)) 0 sr sc (er - 8) (ec - 8) (ml_rows dl) (ml_cols dl)
    (4 * D) (4 * D) (4 * st) D (word_of_float (mp_min mp)) (word_of_float (mp_max mp)) hb cc z49 z50 ltac:(lia) ltac:(lia) ltac:(lia) E49 E50 ltac:(lia) nbr nbc ltac:(lia) ltac:(lia)) with (D0 := float_bytes d) (T := {| blen := 256; bdat := tmp |}) (s := s0) (dotprod := dotprod) (t := t)
    as (s' & E & D' & T' & KM & DR).
  - split; [apply Z.mul_nonneg_nonneg; [lia|apply Z.mul_nonneg_nonneg; lia]|]. split; [lia|]. cbn [float_bytes enc float_words blen]. apply times_blocks; [lia|]. rewrite <- Er. exact A5.
  - split; [apply Z.mul_nonneg_nonneg; [lia|apply Z.mul_nonneg_nonneg; lia]|]. split; [lia|]. cbn [float_bytes enc float_words blen]. apply times_blocks; [lia|]. rewrite <- Ec. exact B5.
  - exact HBi.
  - intros i. apply enc_byte.
  - intros i. apply enc_byte.
  - intros i. apply enc_byte.
  - exact W.
  - lia.
  - exact HD.
  - cbn [blen]. lia.
  - exact HS.
  - rewrite E. cbn [bind]. rewrite (km4 _ _ _ _ _ _ _ _ _ _ _ _ _ _ _ _ _ _ _ _ _ _ _ _ KM). exists (bytes_float d D'). split; [reflexivity|].
    assert (V : forall i j, sr <= i < er -> sc <= j < ec -> inside dl i j -> bdat (bytes_float d D') (off dl i j) =
      neon_value t (fun k c => bdat (p_data lp) (poff (p_layout lp) k c)) (fun k c => bdat (p_data rp) (poff (p_layout rp) k c)) D mp i j).
    { intros i j Hi Hj (Ii & Ij). unfold off. rewrite (fc_order _ _ _ _ _ _ _ _ _ C). fold st.
      assert (RG : 0 <= i + j * st < blen d) by (assert (0 <= j * st) by (apply Z.mul_nonneg_nonneg; lia); assert (st * (j + 1) <= st * ml_cols dl) by (apply Z.mul_le_mono_nonneg_l; lia); lia).
      cbn [bytes_float bdat]. replace ((0 <=? i + j * st) && (i + j * st <? blen d)) with true by (symmetry; apply andb_true_iff; split; [apply Z.leb_le|apply Z.ltb_lt]; lia).
      pose proof (neon_out (i - sr) (j - sc) ltac:(lia) ltac:(lia)) as NO. replace (sr + (i - sr)) with i in NO by ring. replace (sc + (j - sc)) with j in NO by ring.
      apply word_back.
      - apply finish_float; [|apply (fa_min _ _ _ FA)|apply (fa_max _ _ _ FA)|].
        + unfold bias_value. pose proof (fa_bias _ _ _ FA) as FB. destruct (mp_bias mp) as [b|]; [apply (FB b eq_refl)|reflexivity].
        + apply dot_float. intros k _. split; [apply (fa_lhs _ _ _ FA)|apply (fa_rhs _ _ _ FA)].
      - intros b Hb. rewrite <- NO. rewrite <- (entry_offset st i j sr sc). apply (dn_in _ _ _ _ _ DR (i - sr) (j - sc) b); [|exact Hb]. unfold region. lia. }
    assert (U : forall x, (forall i j, sr <= i < er /\ sc <= j < ec /\ inside dl i j -> x <> off dl i j) -> bdat (bytes_float d D') x = bdat d x).
    { intros x Hx. apply same_back; [apply FD|]. intros e He. apply (dn_out _ _ _ _ _ DR). intros r c (Hr & Hc). unfold out_off.
      intros HH. apply (Hx (sr + r) (sc + c)); [unfold inside; lia|]. unfold off. rewrite (fc_order _ _ _ _ _ _ _ _ _ C). fold st.
      pose proof (entry_offset st (sr + r) (sc + c) sr sc) as EO. replace (sc + c - sc) with c in EO by ring. replace (sr + r - sr) with r in EO by ring. lia. }
    split; [|split; [reflexivity|split; [|exact U]]].
    + intros x. cbn [bytes_float bdat]. destruct (_ && _); [apply float_word_valid|apply FD].
    + intros i j (Hi & Hj & Ii). apply V; assumption.
Qed.
End Call.
