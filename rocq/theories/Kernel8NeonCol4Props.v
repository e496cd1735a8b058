(** Kernel8bitNeon1Col computes what SpecNeonCol4.v says. *)
From Coq Require Import ZArith List Bool Lia.
From Verif Require Import Base SidePair Mat Scalars Pack IntOps MulParams Kernel MatFacts PackFacts IntEntryFacts.
From Verif Require Import SpecRound SpecMatrix SpecPack SpecMul SpecSimd SpecPackX86 SpecKernel SpecKernelNeon SpecNeonPairs SpecNeonSums SpecNeonCol4.
From Verif Require Import Simd SimdFacts RequantFacts RequantProps Kernel8bit Kernel8bitAvx Kernel8bitIsa Kernel8bitAvx2Facts Kernel8bitFacts Kernel8bitProps.
From Verif Require Import Neon64 NeonRun NeonTac NeonPack NeonPackMath NeonPackBytes NeonKernel8Code Neon8Lanes Neon8Tac Neon8Col Neon8Pairs Neon8Col4 Neon8Col4Store Neon8Col4Run CpuInfo Tune Kernel8Neon Kernel8NeonFacts
  Kernel8NeonProps Kernel8NeonPairsMore Kernel8NeonSums.
Import ListNotations.
Open Scope Z_scope.

Lemma lane_byte4 : forall n f r e, width n -> (r < 4)%nat -> (e < n)%nat -> nth (n * r + e) (lv n 4 f) 0 = nth e (bytes_of n (f r)) 0.
Proof.
  intros n f r e W Hr He. unfold lv, of_lanes.
  do 4 (destruct r as [|r]; [destruct W as [-> | [-> | ->]]; (do 4 (destruct e as [|e]; [try reflexivity; lia|]); lia)|]). lia.
Qed.

(** Entries written in blocks of 4. *)
Lemma elements4 : forall sz (f : Z -> nat -> Z) E cnt D0 D, width sz ->
  (forall x, bdat D x =
    if (Z.of_nat sz * E <=? x) && (x <? Z.of_nat sz * E + Z.of_nat sz * cnt)
    then nth (Z.to_nat ((x - Z.of_nat sz * E) mod (4 * Z.of_nat sz))) (lv sz 4 (f ((x - Z.of_nat sz * E) / (4 * Z.of_nat sz)))) 0
    else bdat D0 x) ->
  forall i, get_bytes D (Z.of_nat sz * i) sz =
    if (E <=? i) && (i <? E + cnt) then bytes_of sz (f ((i - E) / 4) (Z.to_nat ((i - E) mod 4))) else get_bytes D0 (Z.of_nat sz * i) sz.
Proof.
  intros sz f E cnt D0 D W H i. assert (Hs : 1 <= Z.of_nat sz <= 4) by (destruct W as [-> | [-> | ->]]; lia).
  destruct (Z.leb_spec E i) as [H1|H1]; [destruct (Z.ltb_spec i (E + cnt)) as [H2|H2]|]; cbn [andb].
  - apply get_nth; [apply bytes_of_length|]. intros e He. rewrite H.
    replace (_ && _) with true by (symmetry; apply andb_true_intro; split; [apply Z.leb_le|apply Z.ltb_lt]; nia).
    pose proof (Z.div_mod (i - E) 4 ltac:(lia)) as DM. pose proof (Z.mod_pos_bound (i - E) 4 ltac:(lia)) as MB.
    set (b := (i - E) / 4) in *. set (r := (i - E) mod 4) in *. clearbody b r.
    assert (X : Z.of_nat sz * i + Z.of_nat e - Z.of_nat sz * E = 4 * Z.of_nat sz * b + (Z.of_nat sz * r + Z.of_nat e)) by (replace i with (E + (4 * b + r)) by lia; ring).
    assert (B : 0 <= Z.of_nat sz * r + Z.of_nat e < 4 * Z.of_nat sz) by nia. rewrite X, (div_at _ (4 * Z.of_nat sz) b _), (mod_at _ (4 * Z.of_nat sz) b _) by (reflexivity || lia).
    replace (Z.to_nat (Z.of_nat sz * r + Z.of_nat e)) with (sz * Z.to_nat r + e)%nat by nia. apply lane_byte4; [exact W|lia|exact He].
  - apply get_ext. intros e He. rewrite H. replace (_ <? _) with false by (symmetry; apply Z.ltb_ge; nia). rewrite andb_false_r. reflexivity.
  - apply get_ext. intros e He. rewrite H. replace (_ <=? _) with false by (symmetry; apply Z.leb_gt; nia). reflexivity.
Qed.

Section Column.
Variables (dbg : bool) (t : tuning) (g : leftover) (tmp : Z -> Z) (dt : ity) (lp rp : pmat Z) (L R : Z -> Z -> Z) (mp : mul_params Z)
  (sr sc er ec : Z) (dl : mat_layout) (dzp : Z) (dst : buf Z).
Hypothesis C : cells_call dt lp rp L R mp sr sc er ec dl dzp dst.

Definition made4 : kparams :=
  {| k_bias := match mp_bias mp with Some b => b | None => const_buf 4 0 end;
     k_lhs_sums := opt_buf (p_sums lp); k_rhs_sums := opt_buf (p_sums rp);
     k_lhs := p_data lp; k_lhs_base := sr * pl_stride (p_layout lp);
     k_mult := match multiplier_fixedpoint_perchannel mp with Some m => m | None => const_buf 4 (multiplier_fixedpoint mp) end;
     k_exp := match multiplier_fixedpoint_perchannel mp with
              | Some m => opt_buf (multiplier_exponent_perchannel mp) | None => const_buf 4 (multiplier_exponent mp) end;
     k_rhs := p_data rp; k_rhs_base := 1 * (sc * pl_stride (p_layout rp));
     k_dst_base := it_size dt * (sc * ml_stride dl + sr);
     k_lhs_zp := p_zp lp; k_rhs_zp := p_zp rp; k_dst_zp := dzp; k_prod_zp_depth := p_zp lp * p_zp rp * pl_rows (p_layout lp);
     k_start_row := sr; k_start_col := sc; k_last_row := er - 4; k_last_col := ec - 4;
     k_dst_rows := ml_rows dl; k_dst_cols := ml_cols dl;
     k_lhs_stride := pl_stride (p_layout lp);
     k_rhs_stride := 1 * pl_stride (p_layout rp);
     k_dst_stride := it_size dt * ml_stride dl;
     k_depth := pl_rows (p_layout lp); k_clamp_min := mp_min mp; k_clamp_max := mp_max mp;
     k_has_bias := is_some (mp_bias mp); k_has_lhs_sums := is_some (p_sums lp);
     k_has_rhs_sums := is_some (p_sums rp);
     k_channel_is_col := match mp_chan mp with ChCol => true | ChRow => false end;
     k_has_perchannel := is_some (multiplier_fixedpoint_perchannel mp); k_dst_type := dt; k_rhs_size := 1 |}.

Notation K := (pl_rows (p_layout lp)).
Notation nb := ((er - sr) / 4).
Record sizes4 : Prop := {
  z_depth : 16 <= K /\ K <= 2 ^ 29 /\ K mod 16 = 0;
  z_strides : pl_stride (p_layout lp) = K /\ pl_stride (p_layout rp) = K;
  z_rows : 0 <= sr /\ sr + 4 <= er /\ er <= 2 ^ 28 /\ er - 4 < ml_rows dl /\ sr mod 4 = 0 /\ er mod 4 = 0;
  z_cols : 0 <= sc /\ sc + 4 <= ec /\ ec <= 2 ^ 28 /\ ec - 4 < ml_cols dl /\ sc mod 4 = 0 /\ ec mod 4 = 0;
  z_dst : 0 <= ml_rows dl <= ml_stride dl /\ ml_stride dl <= int_max /\ ml_stride dl * ml_cols dl <= blen dst /\ 4 * (it_size dt * ml_stride dl) <= int_max /\ ml_stride dl * ml_cols dl <= int_max;
  z_lhs : er <= pl_cols (p_layout lp) /\ er * K <= blen (p_data lp) /\ er * K <= int_max;
  z_rhs : ec <= pl_cols (p_layout rp) /\ ec * K <= blen (p_data rp) /\ ec * K <= int_max
}.
Lemma sizes4_ok : sizes4.
Proof.
  pose proof (xc_lhs _ _ _ _ _ _ _ _ _ _ _ _ _ C) as (BL & _). pose proof (xc_rhs _ _ _ _ _ _ _ _ _ _ _ _ _ C) as (BR & _).
  pose proof (xc_rows _ _ _ _ _ _ _ _ _ _ _ _ _ C) as (R1 & R2 & R3 & R4 & R5). pose proof (xc_cols _ _ _ _ _ _ _ _ _ _ _ _ _ C) as (C1 & C2 & C3 & C4 & C5).
  pose proof (xc_depth _ _ _ _ _ _ _ _ _ _ _ _ _ C) as ED.
  destruct BL as (_ & _ & LS & L0 & L4 & L1 & _ & LF & LB & _). destruct BR as (_ & _ & RS & Q0 & Q4 & Q1 & _ & QF & QB & _).
  pose proof (xc_layout _ _ _ _ _ _ _ _ _ _ _ _ _ C) as ((D1 & D2 & D3 & D4) & DO & D5). unfold inner_size, outer_size in *. rewrite DO in *.
  pose proof (xc_dst_bytes _ _ _ _ _ _ _ _ _ _ _ _ _ C) as DB. fold (it_size dt) in DB. pose proof (dst_type_size _ (xc_dst _ _ _ _ _ _ _ _ _ _ _ _ _ C)) as T2.
  assert (D16 : 16 <= K) by (destruct L4 as (a & EK); lia). apply Z.mod_divide in L4; [|lia].
  assert (E : sr + 4 <= er) by (destruct R2 as (a & Ea), R3 as (b & Eb); lia). assert (E' : sc + 4 <= ec) by (destruct C2 as (a & Ea), C3 as (b & Eb); lia).
  apply Z.mod_divide in R2; [|lia]. apply Z.mod_divide in R3; [|lia]. apply Z.mod_divide in C2; [|lia]. apply Z.mod_divide in C3; [|lia]. rewrite ED in *. unfold int_max in *.
  assert (A1 : er * K <= K * pl_cols (p_layout lp)) by (rewrite (Z.mul_comm K); apply Z.mul_le_mono_nonneg_r; lia). assert (A2 : ec * K <= K * pl_cols (p_layout rp)) by (rewrite (Z.mul_comm K); apply Z.mul_le_mono_nonneg_r; lia).
  assert (A3 : er * 16 <= er * K) by (apply Z.mul_le_mono_nonneg_l; lia). assert (A4 : ec * 16 <= ec * K) by (apply Z.mul_le_mono_nonneg_l; lia). assert (A5 : 4 * K <= er * K) by (apply Z.mul_le_mono_nonneg_r; lia).
  assert (A6 : ml_stride dl * 1 <= ml_stride dl * ml_cols dl) by (apply Z.mul_le_mono_nonneg_l; lia).
  constructor; change (2 ^ 28) with 268435456; change (2 ^ 29) with 536870912; unfold int_max; repeat split; lia.
Qed.

Lemma made4_ok : make_kernel_params8bit dbg 4 s8 dt lp rp mp sr sc er ec dl dzp = Ok made4.
Proof.
  destruct sizes4_ok as [(Z1 & Z2 & Z3) (Z4 & Z5) (R1 & R2 & R3 & R4 & R5 & R6) (C1 & C2 & C3 & C4 & C5 & C6) (D1 & D2 & D3 & D4 & D5) (L1 & L2 & L3) (Q1 & Q2 & Q3)].
  pose proof (xc_zero_points _ _ _ _ _ _ _ _ _ _ _ _ _ C) as (ZP1 & ZP2). unfold is_i32 in ZP1, ZP2. pose proof (xc_params _ _ _ _ _ _ _ _ _ _ _ _ _ C) as (_ & PM).
  pose proof (dst_type_size _ (xc_dst _ _ _ _ _ _ _ _ _ _ _ _ _ C)) as T2. change (2 ^ 28) with 268435456 in *. change (2 ^ 29) with 536870912 in *. unfold int_max in *.
  assert (X1 : 0 <= sr * K <= er * K) by (split; [apply Z.mul_nonneg_nonneg|apply Z.mul_le_mono_nonneg_r]; lia). assert (X2 : 0 <= sc * K <= ec * K) by (split; [apply Z.mul_nonneg_nonneg|apply Z.mul_le_mono_nonneg_r]; lia).
  assert (X3 : 0 <= sc * ml_stride dl <= ml_stride dl * ml_cols dl) by (split; [apply Z.mul_nonneg_nonneg|rewrite Z.mul_comm; apply Z.mul_le_mono_nonneg_l]; lia).
  unfold make_kernel_params8bit.
  assert (RM : forall z, 0 <= z -> z mod 4 = 0 -> (Z.rem z 4 =? 0) = true) by (intros z H0 H1; rewrite Z.rem_mod_nonneg by lia; apply Z.eqb_eq; exact H1).
  rewrite !dcheck_true by (apply RM; lia). cbn [bind].
  rewrite (i32_ok (sr * _)) by (rewrite Z4; unfold int_min, int_max; lia). cbn [bind].
  rewrite (i32_ok (sc * _)) by (rewrite Z5; unfold int_min, int_max; lia). cbn [bind].
  rewrite (i32_ok (er - 4)) by (unfold int_min, int_max; lia). cbn [bind].
  rewrite (i32_ok (ec - 4)) by (unfold int_min, int_max; lia). cbn [bind].
  rewrite (i32_ok (p_zp lp * p_zp rp)) by assumption. cbn [bind]. rewrite (i32_ok (_ * pl_rows _)) by assumption. cbn [bind].
  assert (EM : match multiplier_fixedpoint_perchannel mp with
           | Some m =>
             rcheck (is_some (multiplier_exponent_perchannel mp)) ;;;
             Ok (m, opt_buf (multiplier_exponent_perchannel mp), true)
           | None => Ok (const_buf 4 (multiplier_fixedpoint mp), const_buf 4 (multiplier_exponent mp), false)
           end = Ok (k_mult made4, k_exp made4, k_has_perchannel made4)).
  { unfold made4. cbn [k_mult k_exp k_has_perchannel]. unfold multiplier_fixedpoint_perchannel, multiplier_exponent_perchannel.
    destruct (mp_perchannel mp); [|reflexivity]. destruct PM as (_ & m & e & -> & -> & _). reflexivity. }
  rewrite EM. cbn [bind]. rewrite !dcheck_true by (apply Z.ltb_lt; assumption). cbn [bind].
  rewrite (i32_ok (sc * ml_stride dl)) by (unfold int_min, int_max; lia). cbn [bind].
  change (it_size s8) with 1. rewrite (wrap_bytes_id (1 * _)) by (rewrite Z5; unfold int_max; lia).
  rewrite (wrap_bytes_id (it_size dt * _)) by (unfold int_max; destruct T2 as [E | [E | E]]; rewrite E in *; lia).
  cbn [fst snd]. unfold made4. cbn [k_mult k_exp k_has_perchannel]. reflexivity.
Qed.

Hypothesis One : ml_cols dl = 1.
Hypothesis Ch : mp_chan mp = ChRow.
Hypothesis U46 : lo_upper g 46 mod 2 ^ 32 = 0.
Hypothesis U47 : lo_upper g 47 mod 2 ^ 32 = 0.

Lemma only_col4 : sc = 0 /\ ec = 4.
Proof. destruct sizes4_ok as [_ _ _ (C1 & C2 & C3 & C4 & C5 & C6) _ _ _]. rewrite One in C4. pose proof (Z.div_mod ec 4). lia. Qed.
Lemma blocks_count4 : 1 <= nb /\ er - 4 = sr + 4 * (nb - 1) /\ er = sr + 4 * nb.
Proof.
  destruct sizes4_ok as [_ _ (Z1 & Z2 & _ & _ & Z3 & Z4) _ _ _ _]. pose proof (Z.div_mod (er - sr) 4). assert (M : (er - sr) mod 4 = 0) by (rewrite Zminus_mod, Z3, Z4; reflexivity). lia.
Qed.
Notation hb := (is_some (mp_bias mp)).
Notation hls := (is_some (p_sums lp)).
Notation hrs := (is_some (p_sums rp)).
Notation hpc := (is_some (multiplier_fixedpoint_perchannel mp)).

Lemma column_fields4 : neon8_params made4 = kfields8 (sr * pl_stride (p_layout lp)) (1 * (0 * pl_stride (p_layout rp))) (it_size dt * (0 * ml_stride dl + sr))
  (wrap_u 32 (p_zp lp)) (wrap_u 32 (p_zp rp)) dzp (wrap_u 32 (p_zp lp * p_zp rp * K)) sr 0 (er - 4) 0 (ml_rows dl) 1 (pl_stride (p_layout lp)) (1 * pl_stride (p_layout rp))
  (it_size dt * ml_stride dl) K (mp_min mp) (mp_max mp) hb hls hrs hpc false.
Proof.
  destruct only_col4 as [S0 E8]. destruct sizes4_ok as [(Z1 & Z2 & Z3) (Z4 & Z5) (Z6 & Z7 & Z8 & Z9 & _) _ (Z10 & Z11 & _ & Z13 & _) _ _]. destruct (type_width dt (xc_dst _ _ _ _ _ _ _ _ _ _ _ _ _ C)) as (_ & _ & W).
  change (2 ^ 28) with 268435456 in *. change (2 ^ 29) with 536870912 in *. unfold int_max in *.
  assert (W2 : 0 <= it_size dt * ml_stride dl) by (apply Z.mul_nonneg_nonneg; lia).
  assert (S : forall z, 0 <= z < 2147483648 -> wrap_u 32 z = z) by (intros z Hz; apply wrap_u_id; change (2 ^ 32) with 4294967296; lia).
  unfold neon8_params, kfields8, made4.
  cbn [k_bias k_lhs_sums k_rhs_sums k_lhs k_lhs_base k_mult k_exp k_rhs k_rhs_base k_dst_base k_lhs_zp k_rhs_zp k_dst_zp
     k_prod_zp_depth k_start_row k_start_col k_last_row k_last_col k_dst_rows k_dst_cols k_lhs_stride k_rhs_stride k_dst_stride k_depth k_clamp_min
     k_clamp_max k_has_bias k_has_lhs_sums k_has_rhs_sums k_channel_is_col k_has_perchannel k_dst_type k_rhs_size].
  rewrite One, S0, E8. change (4 - 4) with 0. rewrite Z4, Z5.
  rewrite (S sr), (S (er - 4)), (S (ml_rows dl)), (S K), (S (1 * K)), (S (it_size dt * ml_stride dl)), (S 0), (S 1) by lia.
  unfold flag_bits, kflags8. cbn [k_has_bias k_has_lhs_sums k_has_rhs_sums k_channel_is_col k_has_perchannel]. rewrite Ch. reflexivity.
Qed.

Lemma type4_raw : raw hls (type_id dt) = ity_eqb dt s32.
Proof.
  unfold raw. pose proof (xc_int32 _ _ _ _ _ _ _ _ _ _ _ _ _ C) as H. destruct (xc_dst _ _ _ _ _ _ _ _ _ _ _ _ _ C) as [-> | [-> | [-> | ->]]]; try apply andb_false_r.
  destruct (p_sums lp); [reflexivity|]. exfalso. apply H; reflexivity.
Qed.
Lemma type4_size : size8 hls (type_id dt) = Z.to_nat (it_size dt).
Proof. unfold size8. rewrite type4_raw. destruct (xc_dst _ _ _ _ _ _ _ _ _ _ _ _ _ C) as [-> | [-> | [-> | ->]]]; reflexivity. Qed.
Lemma type4_bounds : typed8 dzp (mp_min mp) (mp_max mp) hls (type_id dt).
Proof.
  pose proof (xc_zero_point _ _ _ _ _ _ _ _ _ _ _ _ _ C) as HZ. pose proof (xc_bounds _ _ _ _ _ _ _ _ _ _ _ _ _ C) as HB. pose proof type4_raw as TR. unfold typed8.
  destruct (xc_dst _ _ _ _ _ _ _ _ _ _ _ _ _ C) as [E | [E | [E | E]]]; rewrite E in *; (split; [|split; [|split]]); try (intros X; discriminate X); intros _.
  - specialize (HZ ltac:(discriminate)). revert HZ HB. change (it_lo u8) with 0. change (it_hi u8) with 255. lia.
  - specialize (HZ ltac:(discriminate)). revert HZ HB. change (it_lo s8) with (-128). change (it_hi s8) with 127. lia.
  - specialize (HZ ltac:(discriminate)). revert HZ HB. change (it_lo s16) with (-32768). change (it_hi s16) with 32767. lia.
  - unfold raw in TR. destruct hls; [reflexivity|discriminate TR].
Qed.

Lemma params4_mod : forall k z, lo_upper g k mod 2 ^ 32 = 0 -> 0 <= z < 2 ^ 31 -> int_reg g k z = Int z.
Proof. intros k z U H. unfold int_reg, wrap_u. rewrite U, Z.mod_small by lia. f_equal. lia. Qed.
Lemma any4_reg : forall k z, 0 <= z < 2 ^ 31 -> (wrap_u 32 z + 2 ^ 32 * wrap_u 32 (lo_upper g k)) mod 2 ^ 32 = z.
Proof. intros k z H. unfold wrap_u. rewrite (Z.mul_comm (2 ^ 32)), Z.mod_add by lia. rewrite Z.mod_mod, Z.mod_small by lia. reflexivity. Qed.

(** The destination after the program. *)
Notation value := (value4 (p_data lp) (p_data rp) (k_bias made4) (opt_buf (p_sums lp)) (opt_buf (p_sums rp)) (k_mult made4) (k_exp made4) (wrap_u 32 (p_zp lp)) (wrap_u 32 (p_zp rp)) dzp
  (wrap_u 32 (p_zp lp * p_zp rp * K)) (mp_min mp) (mp_max mp) hb hls hrs hpc (type_id dt)).
Notation NR := (Z.min (4 * nb) (ml_rows dl - sr)).

Lemma column_runs4 : exists s' D, run (kernel8_fuel 4 made4) kernel8_1col 0 (kernel8_start 4 g tmp made4 dst) = Ok s' /\ mem s' 4%nat = Bytes D /\
  written4 (p_data lp) (p_data rp) (k_bias made4) (opt_buf (p_sums lp)) (opt_buf (p_sums rp)) (k_mult made4) (k_exp made4) (sr * pl_stride (p_layout lp)) (1 * (0 * pl_stride (p_layout rp))) (it_size dt * (0 * ml_stride dl + sr))
    (wrap_u 32 (p_zp lp)) (wrap_u 32 (p_zp rp)) dzp (wrap_u 32 (p_zp lp * p_zp rp * K)) sr 0 (pl_stride (p_layout lp)) (mp_min mp) (mp_max mp) hb hls hrs hpc (type_id dt)
    (Z.to_nat (K / 16)) NR (enc (it_size dt) dst) D.
Proof.
  destruct only_col4 as [S0 E8]. pose proof blocks_count4 as (B1 & B2 & B3). destruct sizes4_ok as [(Z1 & Z2 & Z3) (Z4 & Z5) (Z6 & Z7 & Z8 & Z9 & Z14 & Z15) _ (Z10 & Z11 & Z12 & Z13 & Z16) (ZL0 & ZL & ZL2) (ZR0 & ZR & ZR2)].
  rewrite One, Z.mul_1_r in Z12. rewrite E8 in ZR, ZR0.
  pose proof (xc_dst _ _ _ _ _ _ _ _ _ _ _ _ _ C) as DT. destruct (type_width dt DT) as (_ & WE & W). pose proof type4_size as TS.
  change (2 ^ 28) with 268435456 in *. change (2 ^ 29) with 536870912 in *. assert (IM : int_max = 2147483647) by reflexivity.
  assert (HK : 16 * Z.of_nat (S (Z.to_nat (K / 16) - 1)) = K) by (pose proof (Z.div_mod K 16); lia).
  assert (HN : S (Z.to_nat (K / 16) - 1) = Z.to_nat (K / 16)) by lia.
  pose proof (program4 (p_data lp) (p_data rp) (k_bias made4) (opt_buf (p_sums lp)) (opt_buf (p_sums rp)) (k_mult made4) (k_exp made4) (sr * pl_stride (p_layout lp)) (1 * (0 * pl_stride (p_layout rp))) (it_size dt * (0 * ml_stride dl + sr))
    (wrap_u 32 (p_zp lp)) (wrap_u 32 (p_zp rp)) dzp (wrap_u 32 (p_zp lp * p_zp rp * K)) sr 0 (er - 4) 0 (ml_rows dl) 1 (pl_stride (p_layout lp)) (1 * pl_stride (p_layout rp))
    (it_size dt * ml_stride dl) K (mp_min mp) (mp_max mp) hb hls hrs hpc false
    (wrap_u 32 (ml_rows dl) + 2 ^ 32 * wrap_u 32 (lo_upper g 49)) (wrap_u 32 1 + 2 ^ 32 * wrap_u 32 (lo_upper g 50)) (type_id dt) (wrap_u 32 (type_id dt) + 2 ^ 32 * wrap_u 32 (lo_upper g 52))) as PR.
  pose proof (xc_params _ _ _ _ _ _ _ _ _ _ _ _ _ C) as (PB & PP). rewrite Ch in PB, PP.
  pose proof (xc_lhs_sums _ _ _ _ _ _ _ _ _ _ _ _ _ C) as SL. pose proof (xc_rhs_sums _ _ _ _ _ _ _ _ _ _ _ _ _ C) as SR.
  assert (LB : (if hb then er else 4) <= blen (k_bias made4)).
  { unfold made4. cbn [k_bias]. destruct (mp_bias mp); [apply PB; reflexivity|]. cbn [is_some const_buf blen]. lia. }
  assert (LM : (if hpc then er else 4) <= blen (k_mult made4) /\ (if hpc then er else 4) <= blen (k_exp made4) /\
    (dt <> s32 -> forall r, 0 <= r < (if hpc then er else 4) -> fixed_point (bdat (k_mult made4) r) /\ exponent (bdat (k_exp made4) r))).
  { unfold made4. cbn [k_mult k_exp]. unfold multiplier_fixedpoint_perchannel, multiplier_exponent_perchannel, multiplier_fixedpoint, multiplier_exponent. destruct (mp_perchannel mp).
    - destruct PP as (_ & m & e & -> & -> & M1 & M2 & M3). cbn [is_some opt_buf]. split; [exact M1|]. split; [exact M2|]. intros _. exact M3.
    - cbn [is_some const_buf blen bdat]. split; [lia|]. split; [lia|]. intros N r _. apply PP. exact N. }
  destruct LM as (LM1 & LM2 & LM3).
  specialize (PR ltac:(lia) ltac:(lia) ltac:(rewrite Z4, Z5; split; [|split]; try lia; split; [apply Z.mul_nonneg_nonneg|]; lia) (any4_reg 49 (ml_rows dl) ltac:(lia)) (any4_reg 50 1 ltac:(lia)) (any4_reg 52 (type_id dt) ltac:(pose proof (type_id_range dt DT); lia)) (type_id_range dt DT) eq_refl nb ltac:(lia) type4_bounds (Z.to_nat (K / 16) - 1)%nat (enc (it_size dt) dst) {| blen := 4 * 4 * 4; bdat := tmp |} (kernel8_start 4 g tmp made4 dst) HK ltac:(lia)).
  rewrite HN in PR. specialize (PR ltac:(rewrite Z4, <- B3 || rewrite Z4; split; [apply Z.mul_nonneg_nonneg; lia|]; split; [lia|]; replace (sr * K + 4 * K * nb) with ((sr + 4 * nb) * K) by ring; rewrite <- B3; exact ZL) ltac:(rewrite Z5; lia)).
  specialize (PR ltac:(destruct hb; lia)).
  specialize (PR ltac:(destruct (p_sums rp) as [b|] eqn:ES; [intros _; specialize (SR b ES); cbn [opt_buf]; lia|discriminate])).
  specialize (PR ltac:(destruct (p_sums lp) as [b|] eqn:ES; [intros _; specialize (SL b ES); cbn [opt_buf]; lia|discriminate])).
  specialize (PR ltac:(destruct hpc; lia) ltac:(destruct hpc; lia)).
  assert (HQ : raw hls (type_id dt) = false -> forall r, 0 <= r < (if hpc then sr + 4 * nb else 4) -> fixed_point (bdat (k_mult made4) r) /\ exponent (bdat (k_exp made4) r)).
  { rewrite type4_raw. intros E32 r Hr. assert (N32 : dt <> s32) by (intros E; rewrite E in E32; discriminate E32). apply (LM3 N32). destruct hpc; lia. }
  specialize (PR HQ). rewrite TS, <- WE in PR. change (blen (enc (it_size dt) dst)) with (it_size dt * blen dst) in PR. assert (W3 : it_size dt * NR <= it_size dt * (blen dst - sr)) by (apply Z.mul_le_mono_nonneg_l; lia).
  specialize (PR ltac:(apply Z.mul_nonneg_nonneg; lia) ltac:(rewrite Z.mul_sub_distr_l in W3; lia)).
  destruct (reach_run _ _ _ _ _ (kernel8_fuel 4 made4) (PR ltac:(constructor; try reflexivity; cbn [kernel8_start mem kernel8_memory]; rewrite column_fields4; reflexivity) ltac:(cbn [blen]; lia)
    ltac:(reflexivity) ltac:(unfold kernel8_start, kernel8_regs; cbn [xs]; unfold made4; cbn [k_rhs_base]; rewrite S0; reflexivity) ltac:(reflexivity) ltac:(unfold kernel8_start, kernel8_regs; cbn [xs]; unfold made4; cbn [k_rhs_base]; rewrite S0; reflexivity)
    ltac:(unfold kernel8_start, kernel8_regs; cbn [xs]; unfold made4; cbn [k_dst_base]; rewrite S0; reflexivity) ltac:(unfold kernel8_start, kernel8_regs; cbn [xs]; unfold made4; cbn [k_dst_base]; rewrite S0; reflexivity)
    ltac:(apply (params4_mod 46); [exact U46|unfold made4; cbn [k_start_row]; lia])
    ltac:(unfold kernel8_start, kernel8_regs; cbn [xs]; unfold made4; cbn [k_start_col]; rewrite S0; apply (params4_mod 47); [exact U47|lia]) ltac:(reflexivity) ltac:(reflexivity)
    ltac:(unfold kernel8_start, kernel8_regs; cbn [xs]; unfold made4; cbn [k_dst_cols]; rewrite One; reflexivity) ltac:(reflexivity) ltac:(reflexivity)
    ltac:(unfold full, kernel8_start; cbn [vs]; rewrite firstn_length, app_length, repeat_length; lia))) as (s' & ER & pc & HP).
  - unfold kernel8_fuel. change (k_depth made4) with K. change (k_last_row made4 - k_start_row made4) with (er - 4 - sr). replace ((er - 4 - sr) / 4 + 1) with nb by (replace (er - 4 - sr) with (er - sr + (-1) * 4) by ring; rewrite Z.div_add by lia; ring).
    replace (k_last_col made4 - k_start_col made4) with 0 by (unfold made4; cbn [k_last_col k_start_col]; lia). change (0 / 4 + 1) with 1. assert (F0 : (22 * (Z.to_nat (K / 16) - 1) + 200 <= Z.to_nat (20 * K + 3000))%nat) by (pose proof (Z.div_mod K 16); lia).
    assert (F1 : ((22 * (Z.to_nat (K / 16) - 1) + 200) * Z.to_nat nb <= Z.to_nat (20 * K + 3000) * Z.to_nat nb)%nat) by (apply Nat.mul_le_mono_r; exact F0).
    rewrite Z.mul_1_r. rewrite <- Z2Nat.inj_mul in F1 by lia. assert (0 <= (20 * K + 3000) * nb) by (apply Z.mul_nonneg_nonneg; lia). lia.
  - intros pc' s' (-> & _). reflexivity.
  - destruct HP as (_ & D & T & KM & HW). exists s', D. split; [exact ER|]. split; [apply (k8_4 _ _ _ _ _ _ _ _ _ _ _ _ _ _ _ _ _ _ _ _ _ _ _ _ _ _ _ _ _ _ _ _ _ _ KM)|]. exact HW.
Qed.

(** The value of an entry. *)
Lemma column_entry4 : forall i, sr <= i < Z.min er (ml_rows dl) ->
  neon_result dt mp dzp i 0 (cells_accumulator K (p_zp lp) (p_zp rp) L R mp i 0)
    (it_conv dt (value (Z.to_nat (K / 16)) (sr + 4 * ((i - sr) / 4)) 0 (sr * pl_stride (p_layout lp) + 4 * pl_stride (p_layout lp) * ((i - sr) / 4)) (1 * (0 * pl_stride (p_layout rp))) (Z.to_nat ((i - sr) mod 4)))).
Proof.
  intros i Hi. destruct only_col4 as [S0 E8]. pose proof blocks_count4 as (B1 & B2 & B3). destruct sizes4_ok as [(Z1 & Z2 & Z3) (Z4 & Z5) (Z6 & Z7 & Z8 & Z9 & Z14 & Z15) _ _ (ZL0 & ZL & ZL2) (ZR0 & ZR & ZR2)].
  pose proof (xc_dst _ _ _ _ _ _ _ _ _ _ _ _ _ C) as DT. pose proof (xc_bounds _ _ _ _ _ _ _ _ _ _ _ _ _ C) as (CB1 & CB2). pose proof (xc_params _ _ _ _ _ _ _ _ _ _ _ _ _ C) as (_ & PM).
  pose proof (xc_lhs _ _ _ _ _ _ _ _ _ _ _ _ _ C) as (CL & HL & SL). pose proof (xc_rhs _ _ _ _ _ _ _ _ _ _ _ _ _ C) as (CR & HR' & SR). pose proof (xc_depth _ _ _ _ _ _ _ _ _ _ _ _ _ C) as ED.
  rewrite S0, E8, One in HR', SR. change (Z.min 4 1) with 1 in HR', SR.
  set (b := (i - sr) / 4). set (r := (i - sr) mod 4). assert (DM : i = sr + 4 * b + r) by (pose proof (Z.div_mod (i - sr) 4); subst b r; lia).
  assert (HR : 0 <= r < 4) by (apply Z.mod_pos_bound; lia). assert (HB : 0 <= b) by (apply Z.div_pos; lia). assert (HBN : b < nb) by (apply Z.div_lt_upper_bound; lia). clearbody b r.
  assert (HRN : r = Z.of_nat (Z.to_nat r)) by lia. set (row := sr + 4 * b) in *.
  replace (sr * pl_stride (p_layout lp) + 4 * pl_stride (p_layout lp) * b) with (row * pl_stride (p_layout lp)) by (subst row; ring).
  change (1 * (0 * pl_stride (p_layout rp))) with (0 * pl_stride (p_layout rp)).
  assert (HK : 16 * Z.of_nat (Z.to_nat (K / 16)) = K) by (pose proof (Z.div_mod K 16); lia).
  assert (FL : four_columns lp row).
  { split; [subst row; lia|]. split; [subst row; lia|]. apply Z.mod_divide; [lia|]. subst row. rewrite Z.mul_comm, Z.mod_add by lia. exact Z14. }
  assert (FR : four_columns rp 0) by (split; [lia|]; split; [lia|]; exists 0; reflexivity).
  assert (EL : forall k, 0 <= k < K -> packed_16x4 (p_data lp) (row * pl_stride (p_layout lp)) r k = L k i).
  { intros k Hk. rewrite DM. apply (cell_entry lp L row (r + 1)); try assumption; try lia. intros k' c' Hk' Hc'. apply HL; [exact Hk'|subst row; lia]. }
  assert (ER : forall k, 0 <= k < K -> packed_16x4 (p_data rp) (0 * pl_stride (p_layout rp)) 0 k = R k 0).
  { intros k Hk. apply (cell_entry rp R 0 1); try assumption; lia. }
  assert (TS : row_sum (p_data lp) (p_data rp) (row * pl_stride (p_layout lp)) (0 * pl_stride (p_layout rp)) 0 (Z.to_nat (K / 16)) (Z.to_nat r) =
    zsum (map (fun k => L k i * R k 0) (zrange 0 K)) - 65536 * overflows (fun k => L k i) (fun k => R k 0) K).
  { destruct (cell_room lp row CL FL) as (A1 & A2). destruct (cell_room rp 0 CR FR) as (A3 & A4). rewrite ED in A4.
    pose proof CL as (_ & _ & _ & _ & _ & _ & _ & _ & _ & TL). pose proof CR as (_ & _ & _ & _ & _ & _ & _ & _ & _ & TR).
    transitivity (packed_dot (p_data lp) (row * pl_stride (p_layout lp)) r (p_data rp) (0 * pl_stride (p_layout rp)) 0 K - 65536 * lowest_pairs (p_data lp) (row * pl_stride (p_layout lp)) r (p_data rp) (0 * pl_stride (p_layout rp)) 0 K).
    { rewrite <- HK at 2 3. apply (row_total (p_data lp) (p_data rp) (row * pl_stride (p_layout lp)) (0 * pl_stride (p_layout rp)) K r 0); try assumption; lia. }
    f_equal; [|f_equal].
    - unfold packed_dot. f_equal. apply map_ext_in. intros k Hk. apply zrange_In in Hk. rewrite EL, ER by assumption. reflexivity.
    - unfold lowest_pairs, overflows. f_equal. apply map_ext_in. intros k Hk. apply zrange_In in Hk. unfold lowest_pair, lowest_at.
      destruct (Z.ltb_spec (k mod 16) 8) as [H8|H8]; cbn [andb]; [|reflexivity].
      assert (Hk8 : 0 <= k + 8 < K) by (pose proof (Z.div_mod K 16); pose proof (Z.div_mod k 16 ltac:(lia)); pose proof (Z.mod_pos_bound k 16 ltac:(lia)); lia).
      rewrite !EL, !ER by assumption. reflexivity. }
  assert (AC : wrap_u 32 (acc4 (p_data lp) (p_data rp) (k_bias made4) (opt_buf (p_sums lp)) (opt_buf (p_sums rp)) (wrap_u 32 (p_zp lp)) (wrap_u 32 (p_zp rp)) (wrap_u 32 (p_zp lp * p_zp rp * K))
      hb hls hrs (Z.to_nat (K / 16)) row 0 (row * pl_stride (p_layout lp)) (0 * pl_stride (p_layout rp)) (Z.to_nat r)) = wrap_u 32 (cells_accumulator K (p_zp lp) (p_zp rp) L R mp i 0)).
  { assert (Hexp : exact_accumulator K (p_zp lp) (p_zp rp) L R mp i 0 =
       zsum (map (fun k => L k i * R k 0) (zrange 0 K)) - p_zp rp * zsum (map (fun k => L k i) (zrange 0 K))
       - p_zp lp * zsum (map (fun k => R k 0) (zrange 0 K)) + p_zp lp * p_zp rp * K + bias_at mp i 0).
    { unfold exact_accumulator. f_equal. assert (HD : 0 <= K) by lia. clear - HD.
      replace (p_zp lp * p_zp rp * K) with (p_zp lp * p_zp rp * Z.of_nat (length (zrange 0 K))) by (unfold zrange; rewrite zseq_length; rewrite Z2Nat.id by lia; ring).
      generalize (zrange 0 K). clear. induction l as [|k l IH]; [cbn [map zsum length Z.of_nat]; ring|].
      cbn [map zsum length]. rewrite IH. rewrite Nat2Z.inj_succ. ring. }
    unfold cells_accumulator. rewrite Hexp. unfold acc4. rewrite TS. clear TS EL ER.
    assert (Eb : bias8 (k_bias made4) hb row (Z.to_nat r) = bias_at mp i 0).
    { unfold bias8, bias_at, channel_at, made4. cbn [k_bias]. rewrite Ch. destruct (mp_bias mp); cbn [is_some]; [f_equal; lia|reflexivity]. }
    rewrite Eb. destruct (wrap_u_form (p_zp lp * p_zp rp * K)) as (k1 & E1). rewrite E1. destruct (wrap_u_form (p_zp lp)) as (k2 & E2). destruct (wrap_u_form (p_zp rp)) as (k3 & E3).
    assert (RS : exists a, rsub (opt_buf (p_sums rp)) (wrap_u 32 (p_zp lp)) hrs 0 = p_zp lp * zsum (map (fun k => R k 0) (zrange 0 K)) + 2 ^ 32 * a).
    { unfold rsub. rewrite E2. destruct (Z.eq_dec (p_zp lp) 0) as [E0 | N0].
      - rewrite E0. destruct hrs; [exists (k2 * bdat (opt_buf (p_sums rp)) 0)|exists 0]; ring.
      - destruct (SR N0) as (u & -> & _ & S). cbn [is_some opt_buf]. specialize (S 0 ltac:(lia)). rewrite ED in S.
        pose proof (Z.div_mod (bdat u 0) (2 ^ 32) ltac:(discriminate)) as F1. pose proof (Z.div_mod (zsum (map (fun k => R k 0) (zrange 0 K))) (2 ^ 32) ltac:(discriminate)) as F2. rewrite S in F1.
        exists (p_zp lp * (bdat u 0 / 2 ^ 32 - zsum (map (fun k => R k 0) (zrange 0 K)) / 2 ^ 32) + k2 * bdat u 0).
        transitivity (p_zp lp * bdat u 0 + 2 ^ 32 * (k2 * bdat u 0)); [ring|]. rewrite F1 at 1. rewrite F2 at 2. ring. }
    assert (LS : exists a, lsub (opt_buf (p_sums lp)) (wrap_u 32 (p_zp rp)) hls row (Z.to_nat r) = p_zp rp * zsum (map (fun k => L k i) (zrange 0 K)) + 2 ^ 32 * a).
    { unfold lsub. rewrite E3. destruct (Z.eq_dec (p_zp rp) 0) as [E0 | N0].
      - rewrite E0. destruct hls; [exists (k3 * bdat (opt_buf (p_sums lp)) (row + Z.of_nat (Z.to_nat r)))|exists 0]; ring.
      - destruct (SL N0) as (u & -> & _ & S). cbn [is_some opt_buf]. replace (row + Z.of_nat (Z.to_nat r)) with i by lia. specialize (S i ltac:(lia)).
        pose proof (Z.div_mod (bdat u i) (2 ^ 32) ltac:(discriminate)) as F1. pose proof (Z.div_mod (zsum (map (fun k => L k i) (zrange 0 K))) (2 ^ 32) ltac:(discriminate)) as F2. rewrite S in F1.
        exists (p_zp rp * (bdat u i / 2 ^ 32 - zsum (map (fun k => L k i) (zrange 0 K)) / 2 ^ 32) + k3 * bdat u i).
        transitivity (p_zp rp * bdat u i + 2 ^ 32 * (k3 * bdat u i)); [ring|]. rewrite F1 at 1. rewrite F2 at 2. ring. }
    destruct RS as (a1 & ->). destruct LS as (a2 & ->). unfold wrap_u.
    match goal with |- ?x mod _ = ?y mod _ => replace x with (y + (k1 - a1 - a2) * 2 ^ 32) by ring end. apply Z.mod_add. discriminate. }
  revert AC. generalize (cells_accumulator K (p_zp lp) (p_zp rp) L R mp i 0). intros acc AC. unfold neon_result, value4. rewrite type4_raw. destruct (ity_eqb dt s32) eqn:Es.
  - assert (Ed : it_conv dt = wrap_s 32) by (destruct DT as [T | [T | [T | T]]]; rewrite T in *; try discriminate; reflexivity). rewrite Ed.
    rewrite <- (wrap_s_u 32 acc), <- AC, wrap_s_u by lia. reflexivity.
  - assert (Ns : dt <> s32) by (intros E; rewrite E in Es; discriminate). pose proof (xc_min_max _ _ _ _ _ _ _ _ _ _ _ _ _ C Ns) as MM.
    assert (Hm : mult8 (k_mult made4) hpc row (Z.to_nat r) = multiplier_at mp i 0 /\ expo8 (k_exp made4) hpc row (Z.to_nat r) = exponent_at mp i 0).
    { unfold mult8, expo8, chan8, multiplier_at, exponent_at, channel_at, made4. cbn [k_mult k_exp]. rewrite Ch.
      unfold multiplier_fixedpoint_perchannel, multiplier_exponent_perchannel, multiplier_fixedpoint, multiplier_exponent. destruct (mp_perchannel mp).
      - destruct PM as (_ & m & e & -> & -> & _). cbn [is_some opt_buf]. replace (row + Z.of_nat (Z.to_nat r)) with i by lia. split; reflexivity.
      - split; reflexivity. }
    destruct Hm as (-> & ->). rewrite (lane_cong _ _ _ _ AC). exists (neon_lane acc (multiplier_at mp i 0) (exponent_at mp i 0)). split; [apply neon_rounded|].
    match goal with |- clamped _ _ ?a _ => set (q := a) end. rewrite conv_id; [|exact DT|unfold between; clear - CB1 CB2; lia]. unfold clamped, between. clearbody q. clear - MM. lia.
Qed.

Theorem column_computes4 : exists dst', kernel_8bit_neon dbg false t g tmp dt lp rp mp sr sc er ec dl dzp dst = Ok dst' /\
  block_computed (fun i j => neon_result dt mp dzp i j (cells_accumulator K (p_zp lp) (p_zp rp) L R mp i j)) sr sc er ec dl dst dst'.
Proof.
  destruct column_runs4 as (s' & D & E & ED & HW). destruct only_col4 as [S0 E8]. pose proof blocks_count4 as (B1 & B2 & B3). pose proof (xc_dst _ _ _ _ _ _ _ _ _ _ _ _ _ C) as DT.
  destruct sizes4_ok as [_ _ (Z6 & Z7 & _) _ (Z10 & Z11 & Z12 & _) _ _]. destruct (type_width dt DT) as (W & WE & _). pose proof (xc_typed _ _ _ _ _ _ _ _ _ _ _ _ _ C) as TY. rewrite One, Z.mul_1_r in Z12.
  exists (dec dt dst D). split.
  - unfold kernel_8bit_neon, kernel8_block, kernel8_code. rewrite One, Ch. cbn [Z.eqb Pos.eqb andb].
    rewrite made4_ok. cbn [bind]. rewrite E. cbn [bind]. rewrite ED. reflexivity.
  - destruct HW as (_ & HW). rewrite type4_size in HW. replace (it_size dt * (0 * ml_stride dl + sr)) with (Z.of_nat (Z.to_nat (it_size dt)) * sr) in HW by (rewrite <- WE; ring).
    pose proof (elements4 (Z.to_nat (it_size dt)) (fun b => value (Z.to_nat (K / 16)) (sr + 4 * b) 0 (sr * pl_stride (p_layout lp) + 4 * pl_stride (p_layout lp) * b) (1 * (0 * pl_stride (p_layout rp)))) sr NR (enc (it_size dt) dst) D W) as EL.
    unfold out4 in HW. rewrite type4_size in HW. specialize (EL HW). rewrite <- WE in EL.
    pose proof (xc_layout _ _ _ _ _ _ _ _ _ _ _ _ _ C) as (_ & DO & _). split; [reflexivity|]. unfold position, in_matrix. rewrite DO, One. split.
    + intros i j Hi Hj (Hm1 & Hm2). assert (j = 0) by lia. subst j. replace (0 * ml_stride dl + i) with i by ring.
      rewrite (dec_value dt dst D i (value (Z.to_nat (K / 16)) (sr + 4 * ((i - sr) / 4)) 0 (sr * pl_stride (p_layout lp) + 4 * pl_stride (p_layout lp) * ((i - sr) / 4)) (1 * (0 * pl_stride (p_layout rp))) (Z.to_nat ((i - sr) mod 4))) DT ltac:(lia)).
      * apply column_entry4. lia.
      * rewrite EL. replace (_ && _) with true by (symmetry; apply andb_true_intro; split; [apply Z.leb_le|apply Z.ltb_lt]; lia). reflexivity.
    + intros q Hq. apply dec_same; [exact DT|exact TY|]. rewrite EL. destruct ((sr <=? q) && (q <? sr + NR)) eqn:EQ; [|reflexivity].
      exfalso. apply (Hq q 0); lia.
Qed.
End Column.
