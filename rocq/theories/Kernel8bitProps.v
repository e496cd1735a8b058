(** The 8-bit x86 kernels compute what SpecKernel.v says. *)
From Coq Require Import ZArith List Bool Lia.
From Verif Require Import Base SidePair Mat Scalars Pack IntOps MulParams Kernel MatFacts PackFacts IntEntryFacts.
From Verif Require Import SpecRound SpecMatrix SpecPack SpecMul SpecSimd SpecKernel.
From Verif Require Import Simd SimdRequant SimdFacts RequantFacts RequantProps Kernel8bit Kernel8bitAvx Kernel8bitIsa.
From Verif Require Import Kernel8bitAvx2Facts Kernel8bitAvxFacts Kernel8bitAvx512Facts Kernel8bitFacts.
Import ListNotations.
Open Scope Z_scope.


Lemma packed_blocks_ok : forall n t p, n = 8 \/ n = 16 -> packed_blocks n t p -> playout_ok (p_layout p).
Proof.
  intros n t p Hn (K & O & S & R & R4 & C & Cn & F & _). constructor; rewrite ?K; cbn [kl_rows kl_cols]; try assumption.
  - exists 2. split; [lia | reflexivity].
  - destruct Hn as [-> | ->]; [exists 3 | exists 4]; (split; [lia | reflexivity]).
  - apply Z.mod_divide; [lia | assumption].
  - apply Z.mod_divide; [lia | assumption].
Qed.

Lemma holds_packed : forall n t p f c0 c1, n = 8 \/ n = 16 -> packed_blocks n t p -> holds p f c0 c1 ->
  forall k c, 0 <= k < pl_rows (p_layout p) -> c0 <= c < c1 -> 0 <= c < pl_cols (p_layout p) ->
  packed_at n (p_data p) (pl_stride (p_layout p)) k c = f k c.
Proof.
  intros n t p f c0 c1 Hn B H k c Hk Hc Hc'. pose proof (packed_blocks_ok n t p Hn B) as L. specialize (H k c Hk Hc).
  unfold pelement in H. rewrite poffset_ok in H by assumption. cbn [bind] in H. apply bread_inv in H. destruct H as [_ ->].
  destruct B as (K & _ & S & _). unfold packed_at, poff. rewrite K, S. cbn [kl_rows kl_cols kl_order]. f_equal. ring.
Qed.

Lemma rem0 : forall a n, 0 <= a -> 0 < n -> (n | a) -> (Z.rem a n =? 0) = true.
Proof. intros a n Ha Hn H. rewrite Z.rem_mod_nonneg by lia. apply Z.eqb_eq. apply Z.mod_divide; [lia | assumption]. Qed.

Lemma dcheck_true : forall dbg b, b = true -> dcheck dbg b = Ok tt.
Proof. intros [] b ->; reflexivity. Qed.

Lemma rhs_type_facts : forall wide t, rhs_type wide t -> rhs_size_ok wide (it_size t) /\ (it_size t = 1 \/ it_size t = 2) /\
  (forall z, it_lo t <= z <= it_hi t -> in_bits (8 * it_size t) z).
Proof.
  intros wide t [-> | [-> ->]]; (split; [|split]).
  - left. reflexivity.
  - left. reflexivity.
  - intros z. change (it_lo s8) with (-128). change (it_hi s8) with 127. unfold in_bits. change (2 ^ (8 * it_size s8 - 1)) with 128. lia.
  - right. split; reflexivity.
  - right. reflexivity.
  - intros z. change (it_lo s16) with (-32768). change (it_hi s16) with 32767. unfold in_bits. change (2 ^ (8 * it_size s16 - 1)) with 32768. lia.
Qed.

Lemma dst_type_size : forall t, dst_type t -> it_size t = 1 \/ it_size t = 2 \/ it_size t = 4.
Proof. intros t [-> | [-> | [-> | ->]]]; vm_compute; auto. Qed.

Lemma bounds_i32 : forall t z, dst_type t -> it_lo t <= z <= it_hi t -> int_min <= z <= int_max.
Proof.
  intros t z H B. unfold int_min, int_max. destruct H as [-> | [-> | [-> | ->]]]; revert B; cbv [it_lo it_hi it_signed u8 s8 s16 s32 it_bits smin smax];
    change (2 ^ (8 - 1)) with 128; change (2 ^ (16 - 1)) with 32768; change (2 ^ (32 - 1)) with 2147483648; change (2 ^ 8) with 256; lia.
Qed.

(** A cast that keeps the value. *)
Lemma wrap_bytes_id : forall z, 0 <= z <= int_max -> wrap_s 32 (wrap_u 64 z) = z.
Proof.
  intros z Hz. unfold int_max in Hz. rewrite wrap_u_id by (change (2 ^ 64) with 18446744073709551616; lia).
  apply wrap_s32_id. unfold int_min, int_max. lia.
Qed.

Section Call.
Variables (v : isa) (wide : bool) (dbg : bool) (rt dt : ity) (lp rp : pmat Z) (L R : Z -> Z -> Z) (mp : mul_params Z)
  (sr sc er ec : Z) (dl : mat_layout) (dzp : Z) (dst : buf Z).
Hypothesis Hv : isa_ok v wide.
Hypothesis Ht : rhs_type wide rt.
Hypothesis C : vector_call (v_n v) rt dt lp rp L R mp sr sc er ec dl dst.
Let n := v_n v.

Definition made_params : kparams :=
  {| k_bias := match mp_bias mp with Some b => b | None => const_buf n 0 end;
     k_lhs_sums := opt_buf (p_sums lp); k_rhs_sums := opt_buf (p_sums rp);
     k_lhs := p_data lp; k_lhs_base := sr * pl_stride (p_layout lp);
     k_mult := match multiplier_fixedpoint_perchannel mp with Some m => m | None => const_buf n (multiplier_fixedpoint mp) end;
     k_exp := match multiplier_fixedpoint_perchannel mp with
              | Some m => opt_buf (multiplier_exponent_perchannel mp) | None => const_buf n (multiplier_exponent mp) end;
     k_rhs := p_data rp; k_rhs_base := it_size rt * (sc * pl_stride (p_layout rp));
     k_dst_base := it_size dt * (sc * ml_stride dl + sr);
     k_lhs_zp := p_zp lp; k_rhs_zp := p_zp rp; k_dst_zp := dzp; k_prod_zp_depth := p_zp lp * p_zp rp * pl_rows (p_layout lp);
     k_start_row := sr; k_start_col := sc; k_last_row := er - n; k_last_col := ec - n;
     k_dst_rows := ml_rows dl; k_dst_cols := ml_cols dl;
     k_lhs_stride := pl_stride (p_layout lp);
     k_rhs_stride := it_size rt * pl_stride (p_layout rp);
     k_dst_stride := it_size dt * ml_stride dl;
     k_depth := pl_rows (p_layout lp); k_clamp_min := mp_min mp; k_clamp_max := mp_max mp;
     k_has_bias := is_some (mp_bias mp); k_has_lhs_sums := is_some (p_sums lp);
     k_has_rhs_sums := is_some (p_sums rp);
     k_channel_is_col := match mp_chan mp with ChCol => true | ChRow => false end;
     k_has_perchannel := is_some (multiplier_fixedpoint_perchannel mp); k_dst_type := dt; k_rhs_size := it_size rt |}.

Lemma call_n : n = 8 \/ n = 16. Proof. exact (ok_n _ _ Hv). Qed.

Lemma block_end : forall start end_ packed size, whole_blocks n start end_ packed size -> start + n <= end_.
Proof.
  intros s e p z (H & (a & ->) & (b & ->) & _). destruct call_n as [-> | ->]; lia.
Qed.

Lemma made_ok : make_kernel_params8bit dbg n rt dt lp rp mp sr sc er ec dl dzp = Ok made_params.
Proof.
  pose proof call_n as Hn. pose proof (vk_lhs _ _ _ _ _ _ _ _ _ _ _ _ _ _ C) as (BL & _). pose proof (vk_rhs _ _ _ _ _ _ _ _ _ _ _ _ _ _ C) as (BR & _).
  pose proof (vk_rows _ _ _ _ _ _ _ _ _ _ _ _ _ _ C) as WR. pose proof (vk_cols _ _ _ _ _ _ _ _ _ _ _ _ _ _ C) as WC. fold n in BL, BR, WR, WC.
  pose proof (block_end _ _ _ _ WR) as ER. pose proof (block_end _ _ _ _ WC) as EC.
  destruct WR as (R1 & R2 & R3 & R4 & R5). destruct WC as (C1 & C2 & C3 & C4 & C5).
  destruct BL as (_ & _ & LS & L0 & _ & L1 & _ & LF & _). destruct BR as (_ & _ & RS & Rn0 & _ & Rn1 & _ & RF & _).
  pose proof (vk_layout _ _ _ _ _ _ _ _ _ _ _ _ _ _ C) as ((D1 & D2 & D3 & D4) & DO & D5). unfold inner_size, outer_size in *. rewrite DO in *.
  pose proof (vk_zero_points _ _ _ _ _ _ _ _ _ _ _ _ _ _ C) as (Z1 & Z2). unfold is_i32 in Z1, Z2.
  pose proof (vk_params _ _ _ _ _ _ _ _ _ _ _ _ _ _ C) as (_ & PM). pose proof (vk_rhs_bytes _ _ _ _ _ _ _ _ _ _ _ _ _ _ C) as RB.
  pose proof (vk_dst_bytes _ _ _ _ _ _ _ _ _ _ _ _ _ _ C) as DB. fold n in RB, DB. fold (it_size rt) in RB. fold (it_size dt) in DB.
  pose proof (rhs_type_facts _ _ Ht) as (_ & T1 & _). pose proof (dst_type_size _ (vk_dst _ _ _ _ _ _ _ _ _ _ _ _ _ _ C)) as T2.
  unfold make_kernel_params8bit.
  rewrite !dcheck_true by (apply rem0; clear - R1 R2 R3 C1 C2 C3 Hn; lia || assumption). cbn [bind].
  assert (M : forall a x b y, 0 <= a -> a <= b -> 0 <= x -> x <= y -> y * b <= int_max -> int_min <= a * x <= int_max).
  { clear. intros a x b y H1 H2 H3 H4 H5. unfold int_min. nia. }
  rewrite (i32_ok (sr * _)) by (rewrite LS; apply (M _ _ (pl_cols (p_layout lp)) (pl_rows (p_layout lp))); clear - R1 R4 L0 L1 LF; lia). cbn [bind].
  rewrite (i32_ok (sc * _)) by (rewrite RS; apply (M _ _ (pl_cols (p_layout rp)) (pl_rows (p_layout rp))); clear - C1 C4 Rn0 Rn1 RF; lia). cbn [bind].
  assert (Bn : 8 <= n <= 16) by (clear - Hn; lia).
  assert (Hstr : ml_rows dl <= int_max /\ ml_cols dl <= int_max).
  { clear - D1 D2 D3 D4 C1 C5 R1 R5 ER EC Bn. assert (1 <= ml_rows dl) by lia. assert (1 <= ml_cols dl) by lia. split; nia. }
  assert (ml_rows dl <= ml_stride dl /\ 0 <= ml_stride dl) by (clear - D1 D3; lia).
  rewrite (i32_ok (er - n)) by (clear - R1 R5 ER Bn Hstr; unfold int_min; lia). cbn [bind].
  rewrite (i32_ok (ec - n)) by (clear - C1 C5 EC Bn Hstr; unfold int_min; lia). cbn [bind].
  rewrite (i32_ok (p_zp lp * p_zp rp)) by assumption. cbn [bind]. rewrite (i32_ok (_ * pl_rows _)) by assumption. cbn [bind].
  assert (EM : match multiplier_fixedpoint_perchannel mp with
           | Some m =>
             rcheck (is_some (multiplier_exponent_perchannel mp)) ;;;
             Ok (m, opt_buf (multiplier_exponent_perchannel mp), true)
           | None => Ok (const_buf n (multiplier_fixedpoint mp), const_buf n (multiplier_exponent mp), false)
           end = Ok (k_mult made_params, k_exp made_params, k_has_perchannel made_params)).
  { unfold made_params. cbn [k_mult k_exp k_has_perchannel]. unfold multiplier_fixedpoint_perchannel, multiplier_exponent_perchannel.
    destruct (mp_perchannel mp); [|reflexivity]. destruct PM as (_ & m & e & -> & -> & _). reflexivity. }
  rewrite EM. cbn [bind]. rewrite !dcheck_true by (apply Z.ltb_lt; assumption). cbn [bind].
  assert (Hcs : int_min <= sc * ml_stride dl <= int_max).
  { apply (M _ _ (ml_cols dl) (ml_stride dl)); [clear - C1; lia | clear - C1 C5 EC; lia | apply H | apply Z.le_refl | exact D4]. }
  rewrite (i32_ok (sc * ml_stride dl)) by exact Hcs. cbn [bind].
  rewrite (wrap_bytes_id (it_size rt * _)).
  2: { rewrite RS in *. clear - RB T1 Rn0 Bn. split; [destruct T1 as [-> | ->]; lia | destruct T1 as [E | E]; rewrite E in *; nia]. }
  rewrite (wrap_bytes_id (it_size dt * _)).
  2: { clear - DB T2 H Bn. split; [destruct T2 as [-> | [-> | ->]]; lia | destruct T2 as [E | [E | E]]; rewrite E in *; nia]. }
  cbn [fst snd]. unfold made_params. cbn [k_mult k_exp k_has_perchannel]. reflexivity.
Qed.

Lemma chan_end : (if match mp_chan mp with ChCol => true | ChRow => false end then ec - n else er - n) + n = match mp_chan mp with ChRow => er | ChCol => ec end.
Proof. destruct (mp_chan mp); ring. Qed.

Lemma made_params_ok : kparams_ok v wide made_params (pl_stride (p_layout rp)) (ml_stride dl) (blen dst).
Proof.
  pose proof call_n as Hn. pose proof (vk_lhs _ _ _ _ _ _ _ _ _ _ _ _ _ _ C) as (BL & _ & SL). pose proof (vk_rhs _ _ _ _ _ _ _ _ _ _ _ _ _ _ C) as (BR & _ & SR).
  pose proof (vk_depth _ _ _ _ _ _ _ _ _ _ _ _ _ _ C) as ED.
  pose proof (vk_rows _ _ _ _ _ _ _ _ _ _ _ _ _ _ C) as WR. pose proof (vk_cols _ _ _ _ _ _ _ _ _ _ _ _ _ _ C) as WC. fold n in BL, BR, WR, WC.
  pose proof (block_end _ _ _ _ WR) as ER. pose proof (block_end _ _ _ _ WC) as EC.
  destruct WR as (R1 & R2 & R3 & R4 & R5). destruct WC as (C1 & C2 & C3 & C4 & C5).
  destruct BL as (_ & _ & LS & L0 & L4' & L1 & _ & LF & LB & LV). destruct BR as (_ & _ & RS & Rn0 & Rn4 & Rn1 & _ & RF & RBL & RV).
  pose proof (vk_layout _ _ _ _ _ _ _ _ _ _ _ _ _ _ C) as ((D1 & D2 & D3 & D4) & DO & D5). unfold inner_size, outer_size in *. rewrite DO in *.
  pose proof (vk_params _ _ _ _ _ _ _ _ _ _ _ _ _ _ C) as (PB & PM). pose proof (vk_rhs_bytes _ _ _ _ _ _ _ _ _ _ _ _ _ _ C) as RB.
  pose proof (vk_dst_bytes _ _ _ _ _ _ _ _ _ _ _ _ _ _ C) as DB. fold n in RB, DB. fold (it_size rt) in RB. fold (it_size dt) in DB.
  pose proof (rhs_type_facts _ _ Ht) as (T0 & T1 & TV). pose proof (vk_bounds _ _ _ _ _ _ _ _ _ _ _ _ _ _ C) as (CB1 & CB2).
  pose proof (vk_dst _ _ _ _ _ _ _ _ _ _ _ _ _ _ C) as TD. fold (dst_type dt) in TD.
  assert (Bn : 8 <= n <= 16) by (clear - Hn; lia). assert (Nn : n <> 0) by (clear - Bn; lia).
  assert (DM : forall a, (n | a) -> a mod n = 0) by (intros a Ha; apply Z.mod_divide; assumption).
  assert (DS : forall a, (n | a) -> (a - n) mod n = 0) by (intros a Ha; apply Z.mod_divide; [assumption | apply Z.divide_sub_r; [assumption | apply Z.divide_refl]]).
  constructor; unfold made_params; cbn [k_bias k_lhs_sums k_rhs_sums k_lhs k_lhs_base k_mult k_exp k_rhs k_rhs_base k_dst_base k_lhs_zp k_rhs_zp k_dst_zp
     k_prod_zp_depth k_start_row k_start_col k_last_row k_last_col k_dst_rows k_dst_cols k_lhs_stride k_rhs_stride k_dst_stride k_depth k_clamp_min
     k_clamp_max k_has_bias k_has_lhs_sums k_has_rhs_sums k_channel_is_col k_has_perchannel k_dst_type k_rhs_size]; fold n.
  - exact TD.
  - exact T0.
  - split; [exact L0 | apply Z.mod_divide; [lia | exact L4']].
  - rewrite LS. split; [apply Z.le_refl|]. split; [apply Z.mod_divide; [lia | exact L4']|]. clear - LF L0 R1 R4 ER Bn. nia.
  - rewrite RS, ED in *. split; [apply Z.le_refl|]. split; [apply Z.mod_divide; [lia | exact Rn4]|]. split; [reflexivity | exact RB].
  - split; [exact D3|]. split; [reflexivity | exact DB].
  - split; [clear - R1 ER; lia|]. split; [exact R5|]. split; [apply DM; exact R2 | apply DS; exact R3].
  - split; [clear - C1 EC; lia|]. split; [exact C5|]. split; [apply DM; exact C2 | apply DS; exact C3].
  - reflexivity.
  - reflexivity.
  - reflexivity.
  - rewrite LS. clear - LB R4 R1 L0. replace (er - n + n) with er by ring. nia.
  - rewrite RS. clear - RBL C4 C1 Rn0. replace (ec - n + n) with ec by ring. nia.
  - intros q Hq. specialize (LV q Hq). revert LV. change (it_lo s8) with (-128). change (it_hi s8) with 127. unfold in_bits. change (2 ^ (8 - 1)) with 128. clear. lia.
  - intros q Hq. apply TV. apply RV. exact Hq.
  - intros H. apply andb_prop in H. destruct H as [H1 H2]. apply negb_true_iff, Z.eqb_neq in H2. destruct (SL H2) as (b & -> & Lb & _).
    cbn [opt_buf]. clear - Lb R4. lia.
  - unfold has_rhs_sums_offsets. cbn [k_has_rhs_sums k_lhs_zp]. intros H. apply andb_prop in H. destruct H as [H1 H2]. apply negb_true_iff, Z.eqb_neq in H2. destruct (SR H2) as (b & -> & Lb & _).
    cbn [opt_buf]. clear - Lb C4. lia.
  - intros H. unfold chan_at; cbn [k_channel_is_col]. rewrite chan_end. destruct (mp_bias mp); [|discriminate]. apply PB. reflexivity.
  - intros H. destruct (mp_bias mp); [discriminate|]. cbn [const_buf blen bdat]. split; [apply Z.le_refl | reflexivity].
  - intros Hs. unfold chan_at; cbn [k_channel_is_col]. unfold multiplier_fixedpoint_perchannel, multiplier_fixedpoint. destruct (mp_perchannel mp) eqn:Epc.
    + destruct PM as (_ & m & e & Em & Ee & M1 & M2 & M3). rewrite Em in *. cbn [is_some]. rewrite chan_end. split; [exact M1|]. intros q Hq. apply M3. exact Hq.
    + cbn [is_some const_buf blen bdat]. split; [clear; lia|]. intros q _. apply PM. exact Hs.
  - intros Hs. unfold chan_at; cbn [k_channel_is_col]. unfold multiplier_fixedpoint_perchannel, multiplier_exponent_perchannel, multiplier_exponent. destruct (mp_perchannel mp) eqn:Epc.
    + destruct PM as (_ & m & e & Em & Ee & M1 & M2 & M3). rewrite Em, Ee in *. cbn [is_some]. rewrite chan_end. cbn [opt_buf]. split; [exact M2|]. intros q Hq. apply M3. exact Hq.
    + cbn [is_some const_buf blen bdat]. split; [clear; lia|]. intros q _. apply PM. exact Hs.
  - destruct (multiplier_fixedpoint_perchannel mp); [discriminate|]. intros _. split; reflexivity.
  - split; apply (bounds_i32 dt); assumption.
  - replace ((ml_cols dl - 1) * ml_stride dl + ml_rows dl) with (ml_stride dl * ml_cols dl + (ml_rows dl - ml_stride dl)) by ring. clear - D5 D3. lia.
Qed.

Lemma acc_congruent : forall i j, sr <= i < Z.min er (ml_rows dl) -> sc <= j < Z.min ec (ml_cols dl) ->
  wrap_u 32 (acc_at n made_params (pl_stride (p_layout rp)) i j) =
  wrap_u 32 (exact_accumulator (pl_rows (p_layout lp)) (p_zp lp) (p_zp rp) L R mp i j).
Proof.
  intros i j Hi Hj. pose proof call_n as Hn.
  pose proof (vk_lhs _ _ _ _ _ _ _ _ _ _ _ _ _ _ C) as (BL & HL & SL). pose proof (vk_rhs _ _ _ _ _ _ _ _ _ _ _ _ _ _ C) as (BR & HR & SR).
  pose proof (vk_depth _ _ _ _ _ _ _ _ _ _ _ _ _ _ C) as ED. fold n in BL, BR.
  pose proof (vk_rows _ _ _ _ _ _ _ _ _ _ _ _ _ _ C) as (R1 & _ & _ & R4 & _). pose proof (vk_cols _ _ _ _ _ _ _ _ _ _ _ _ _ _ C) as (C1 & _ & _ & C4 & _).
  set (D := pl_rows (p_layout lp)) in *.
  assert (Edot : dot_upto n made_params (pl_stride (p_layout rp)) D i j = zsum (map (fun k => L k i * R k j) (zrange 0 D))).
  { unfold dot_upto. f_equal. apply map_ext_in. intros k Hk. apply zrange_In in Hk. unfold made_params. cbn [k_lhs k_lhs_stride k_rhs]. f_equal.
    - apply (holds_packed n s8 lp L sr _ Hn BL HL); [exact Hk | exact Hi | clear - Hi R1 R4; lia].
    - apply (holds_packed n rt rp R sc _ Hn BR HR); [rewrite ED; exact Hk | exact Hj | clear - Hj C1 C4; lia]. }
  assert (Hexp : exact_accumulator D (p_zp lp) (p_zp rp) L R mp i j =
     zsum (map (fun k => L k i * R k j) (zrange 0 D)) - p_zp rp * zsum (map (fun k => L k i) (zrange 0 D))
     - p_zp lp * zsum (map (fun k => R k j) (zrange 0 D)) + p_zp lp * p_zp rp * D + bias_at mp i j).
  { unfold exact_accumulator. f_equal. assert (HD : 0 <= D) by (destruct BL as (_ & _ & _ & L0 & _); exact L0).
    replace (p_zp lp * p_zp rp * D) with (p_zp lp * p_zp rp * Z.of_nat (length (zrange 0 D))) by (unfold zrange; rewrite zseq_length; rewrite Z2Nat.id by lia; ring).
    generalize (zrange 0 D). clear. induction l as [|k l IH]; [cbn [map zsum length Z.of_nat]; ring|].
    cbn [map zsum length]. rewrite IH. rewrite Nat2Z.inj_succ. ring. }
  rewrite Hexp. unfold acc_at. change (k_depth made_params) with D. rewrite Edot. unfold initial_at.
  replace (if k_has_bias made_params then bdat (k_bias made_params) (chan_at made_params i j) else 0) with (bias_at mp i j).
  2: { unfold bias_at, chan_at, channel_at, made_params. cbn [k_has_bias k_bias k_channel_is_col]. destruct (mp_bias mp); [|reflexivity]. cbn [is_some]. destruct (mp_chan mp); reflexivity. }
  change (k_prod_zp_depth made_params) with (p_zp lp * p_zp rp * D).
  assert (EL : exists t, (if k_has_lhs_sums made_params && negb (k_rhs_zp made_params =? 0) then k_rhs_zp made_params * bdat (k_lhs_sums made_params) i else 0)
     = p_zp rp * zsum (map (fun k => L k i) (zrange 0 D)) + t * 2 ^ 32).
  { unfold made_params. cbn [k_has_lhs_sums k_rhs_zp k_lhs_sums]. destruct (Z.eq_dec (p_zp rp) 0) as [E0 | N0].
    - exists 0. rewrite E0. cbn [Z.eqb negb]. rewrite andb_false_r. ring.
    - destruct (SL N0) as (b & -> & _ & S). cbn [is_some opt_buf]. apply Z.eqb_neq in N0. rewrite N0. cbn [negb andb]. specialize (S i Hi). fold D in S.
      exists (p_zp rp * ((bdat b i) / 2 ^ 32 - (zsum (map (fun k => L k i) (zrange 0 D))) / 2 ^ 32)).
      pose proof (Z.div_mod (bdat b i) (2 ^ 32) ltac:(discriminate)) as E1. pose proof (Z.div_mod (zsum (map (fun k => L k i) (zrange 0 D))) (2 ^ 32) ltac:(discriminate)) as E2.
      rewrite S in E1. rewrite E1 at 1. rewrite E2 at 2. ring. }
  assert (ER : exists t, (if has_rhs_sums_offsets made_params then k_lhs_zp made_params * bdat (k_rhs_sums made_params) j else 0)
     = p_zp lp * zsum (map (fun k => R k j) (zrange 0 D)) + t * 2 ^ 32).
  { unfold has_rhs_sums_offsets, made_params. cbn [k_has_rhs_sums k_lhs_zp k_rhs_sums]. destruct (Z.eq_dec (p_zp lp) 0) as [E0 | N0].
    - exists 0. rewrite E0. cbn [Z.eqb negb]. rewrite andb_false_r. ring.
    - destruct (SR N0) as (b & -> & _ & S). cbn [is_some opt_buf]. apply Z.eqb_neq in N0. rewrite N0. cbn [negb andb]. specialize (S j Hj). rewrite ED in S. fold D in S.
      exists (p_zp lp * ((bdat b j) / 2 ^ 32 - (zsum (map (fun k => R k j) (zrange 0 D))) / 2 ^ 32)).
      pose proof (Z.div_mod (bdat b j) (2 ^ 32) ltac:(discriminate)) as E1. pose proof (Z.div_mod (zsum (map (fun k => R k j) (zrange 0 D))) (2 ^ 32) ltac:(discriminate)) as E2.
      rewrite S in E1. rewrite E1 at 1. rewrite E2 at 2. ring. }
  destruct EL as (t1 & ->). destruct ER as (t2 & ->). unfold wrap_u.
  match goal with |- ?a mod _ = ?b mod _ => replace a with (b + (- t1 - t2) * 2 ^ 32) by ring end. apply Z.mod_add. discriminate.
Qed.

Lemma twice_rounded_cong : forall a b m e r, wrap_u 32 a = wrap_u 32 b -> twice_rounded a m e r -> twice_rounded b m e r.
Proof.
  intros a b m e r H. unfold twice_rounded. replace (shifted_left a e) with (shifted_left b e); [auto|].
  unfold shifted_left, wrap_u in *. rewrite <- (wrap_s_mod 32 (b * _)), <- (wrap_s_mod 32 (a * _)) by lia. f_equal.
  rewrite Z.mul_mod, <- H, <- Z.mul_mod by discriminate. reflexivity.
Qed.

Lemma stored_result : forall i j, sr <= i < Z.min er (ml_rows dl) -> sc <= j < Z.min ec (ml_cols dl) ->
  vector_result dt mp dzp i j (exact_accumulator (pl_rows (p_layout lp)) (p_zp lp) (p_zp rp) L R mp i j)
    (stored_at n made_params (pl_stride (p_layout rp)) i j).
Proof.
  intros i j Hi Hj. pose proof (acc_congruent i j Hi Hj) as E. revert E.
  generalize (exact_accumulator (pl_rows (p_layout lp)) (p_zp lp) (p_zp rp) L R mp i j). intros acc E.
  pose proof (vk_dst _ _ _ _ _ _ _ _ _ _ _ _ _ _ C) as TD. pose proof (vk_bounds _ _ _ _ _ _ _ _ _ _ _ _ _ _ C) as (CB1 & CB2).
  pose proof (vk_params _ _ _ _ _ _ _ _ _ _ _ _ _ _ C) as (_ & PM).
  unfold vector_result, stored_at, out_at. change (k_dst_type made_params) with dt. destruct (ity_eqb dt s32) eqn:Es.
  - assert (Ed : it_conv dt = wrap_s 32) by (destruct TD as [T | [T | [T | T]]]; rewrite T in *; try discriminate; reflexivity). rewrite Ed.
    rewrite <- (wrap_s_u 32 acc), <- E, wrap_s_u by lia. reflexivity.
  - assert (Ns : dt <> s32) by (intros ->; discriminate).
    change (k_dst_zp made_params) with dzp. change (k_clamp_max made_params) with (mp_max mp). change (k_clamp_min made_params) with (mp_min mp).
    assert (Hm : mult_at made_params i j = multiplier_at mp i j /\ exp_at made_params i j = exponent_at mp i j /\ fixed_point (multiplier_at mp i j) /\ exponent (exponent_at mp i j)).
    { unfold mult_at, exp_at, multiplier_at, exponent_at, chan_at, channel_at, made_params. cbn [k_mult k_exp k_has_perchannel k_channel_is_col].
      unfold multiplier_fixedpoint_perchannel, multiplier_exponent_perchannel, multiplier_fixedpoint, multiplier_exponent. destruct (mp_perchannel mp).
      - destruct PM as (_ & m & e & -> & -> & M1 & M2 & M3). cbn [is_some opt_buf].
        pose proof (vk_rows _ _ _ _ _ _ _ _ _ _ _ _ _ _ C) as (R1 & _). pose proof (vk_cols _ _ _ _ _ _ _ _ _ _ _ _ _ _ C) as (C1 & _).
        destruct (mp_chan mp); (split; [reflexivity|]; split; [reflexivity|]; apply M3); [clear - R1 Hi | clear - C1 Hj]; lia.
      - cbn [is_some const_buf bdat]. split; [reflexivity|]. split; [reflexivity|]. apply PM. exact Ns. }
    destruct Hm as (-> & -> & F1 & F2).
    exists (x86_lane (acc_at n made_params (pl_stride (p_layout rp)) i j) (multiplier_at mp i j) (exponent_at mp i j)). split.
    + eapply twice_rounded_cong; [exact E|]. apply x86_twice_rounded; assumption.
    + match goal with |- clamped _ _ ?a _ => set (q := a) end.
      assert (Hid : forall z, it_lo dt <= z <= it_hi dt -> it_conv dt z = z).
      { clear - TD. intros z Hz. destruct TD as [-> | [-> | [-> | ->]]]; revert Hz; cbv [it_lo it_hi it_conv it_signed u8 s8 s16 s32 it_bits smin smax];
          change (2 ^ (8 - 1)) with 128; change (2 ^ (16 - 1)) with 32768; change (2 ^ (32 - 1)) with 2147483648; change (2 ^ 8) with 256; intros Hz.
        - apply wrap_u_id. change (2 ^ 8) with 256. lia.
        - apply wrap_s_id; [lia|]. change (2 ^ (8 - 1)) with 128. lia.
        - apply wrap_s_id; [lia|]. change (2 ^ (16 - 1)) with 32768. lia.
        - apply wrap_s_id; [lia|]. change (2 ^ (32 - 1)) with 2147483648. lia. }
      rewrite Hid by (clear - CB1 CB2; lia). unfold clamped. clearbody q. clear. lia.
Qed.

Lemma call_result : forall dst', filled (val_at v made_params (pl_stride (p_layout rp))) (ml_rows dl) (ml_stride dl)
    (fun i j => (sr <=? i) && (i <? er - n + n) && (sc <=? j) && (j <? ec - n + n) && (j <? ml_cols dl)) dst dst' ->
  block_computed (fun i j => vector_result dt mp dzp i j (exact_accumulator (pl_rows (p_layout lp)) (p_zp lp) (p_zp rp) L R mp i j))
    sr sc er ec dl dst dst'.
Proof.
  intros dst' [F1 F2 F3]. pose proof (vk_layout _ _ _ _ _ _ _ _ _ _ _ _ _ _ C) as (_ & DO & _).
  pose proof (vk_rows _ _ _ _ _ _ _ _ _ _ _ _ _ _ C) as (R1 & _). pose proof (vk_cols _ _ _ _ _ _ _ _ _ _ _ _ _ _ C) as (C1 & _).
  split; [exact F1|]. unfold position, in_matrix. rewrite DO. split.
  - intros i j Hi Hj Hm. rewrite F2 by (clear - Hi Hj Hm; lia). apply stored_result; clear - Hi Hj Hm; lia.
  - intros q Hq. apply F3. intros i j Hi Hp. apply Hq; clear - Hi Hp C1; lia.
Qed.

Theorem kernel_x86_computes : exists dst', kernel_x86 dbg v rt dt lp rp mp sr sc er ec dl dzp dst = Ok dst' /\
  block_computed (fun i j => vector_result dt mp dzp i j (exact_accumulator (pl_rows (p_layout lp)) (p_zp lp) (p_zp rp) L R mp i j))
    sr sc er ec dl dst dst'.
Proof.
  unfold kernel_x86. fold n. rewrite made_ok. cbn [bind]. pose proof made_params_ok as P.
  destruct ((ml_cols dl =? 1) && match mp_chan mp with ChRow => true | ChCol => false end) eqn:E.
  - apply andb_prop in E. destruct E as [E1 E2]. apply Z.eqb_eq in E1.
    destruct (kernel8bit_single_col_ok v wide Hv made_params _ _ _ P E1) with (dbg := dbg) (dst := dst) as (d & Ed & F);
      [unfold made_params; cbn [k_channel_is_col]; destruct (mp_chan mp); [reflexivity | discriminate] | reflexivity |].
    exists d. split; [exact Ed|]. apply call_result. exact F.
  - destruct (kernel8bit_ok v wide Hv made_params _ _ _ P dst eq_refl) as (d & Ed & F).
    exists d. split; [exact Ed|]. apply call_result. exact F.
Qed.
End Call.
