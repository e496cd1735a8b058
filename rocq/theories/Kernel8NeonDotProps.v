(** The kernels for AArch64 with dot products, any number of columns: they compute what SpecKernelNeon.v says. *)
From Coq Require Import ZArith List Bool Lia.
From Verif Require Import Base SidePair Mat Scalars Pack IntOps MulParams Kernel MatFacts PackFacts IntEntryFacts.
From Verif Require Import SpecRound SpecMatrix SpecPack SpecMul SpecSimd SpecPackX86 SpecKernel SpecKernelNeon.
From Verif Require Import Simd SimdFacts RequantFacts RequantProps Kernel8bit Kernel8bitAvx Kernel8bitIsa Kernel8bitAvx2Facts Kernel8bitFacts Kernel8bitProps.
From Verif Require Import Neon64 NeonRun NeonTac NeonPack NeonPackMath NeonPackBytes NeonKernel8Code Neon8Lanes Neon8Tac Neon8Col Neon8Dot Neon8DotBlock Neon8DotLoop Neon8DotProg CpuInfo Tune Kernel8Neon Kernel8NeonFacts Kernel8NeonProps.
Import ListNotations.
Open Scope Z_scope.

(** The accumulator of an entry, modulo 2^32. *)
Lemma accd_at : forall p rs row col i c m lp rp, (k_has_bias p = false -> forall q, bdat (k_bias p) q = 0) -> 4 * Z.of_nat m = k_depth p ->
  dotted (k_lhs p) (k_rhs p) lp rp i c m = dot_upto 8 p rs (4 * Z.of_nat m) (row + Z.of_nat i) (col + Z.of_nat c) ->
  wrap_u 32 (accd (k_lhs p) (k_rhs p) (k_bias p) (k_lhs_sums p) (k_rhs_sums p) (wrap_u 32 (k_lhs_zp p)) (wrap_u 32 (k_rhs_zp p)) (wrap_u 32 (k_prod_zp_depth p))
      (k_has_bias p) (k_has_lhs_sums p) (k_has_rhs_sums p) (k_channel_is_col p) m row col lp rp i c) = wrap_u 32 (acc_at 8 p rs (row + Z.of_nat i) (col + Z.of_nat c)).
Proof.
  intros p rs row col i c m lp rp Hb Hm Hd. unfold accd, acc_at. rewrite Hd, Hm. unfold initial_at, chan_at.
  assert (B : biasd (k_bias p) (wrap_u 32 (k_prod_zp_depth p)) (k_has_bias p) (k_channel_is_col p) row col i c =
    (if k_has_bias p then bdat (k_bias p) (if k_channel_is_col p then col + Z.of_nat c else row + Z.of_nat i) else 0) + wrap_u 32 (k_prod_zp_depth p)).
  { unfold biasd, first_bias, chn, side. f_equal. destruct (k_has_bias p); [destruct (k_channel_is_col p); reflexivity|]. apply Hb. reflexivity. }
  rewrite B. unfold rsubd, lsub, has_rhs_sums_offsets. clear B.
  destruct (wrap_u_form (k_prod_zp_depth p)) as (k1 & E1). destruct (wrap_u_form (k_lhs_zp p)) as (k2 & E2). destruct (wrap_u_form (k_rhs_zp p)) as (k3 & E3). rewrite E1, E2, E3.
  assert (R : exists a, (if k_has_rhs_sums p then (k_lhs_zp p + 2 ^ 32 * k2) * bdat (k_rhs_sums p) (col + Z.of_nat c) else 0) =
    (if k_has_rhs_sums p && negb (k_lhs_zp p =? 0) then k_lhs_zp p * bdat (k_rhs_sums p) (col + Z.of_nat c) else 0) + 2 ^ 32 * a).
  { destruct (k_has_rhs_sums p); cbn [andb]; [|exists 0; lia]. exists (k2 * bdat (k_rhs_sums p) (col + Z.of_nat c)). destruct (Z.eqb_spec (k_lhs_zp p) 0) as [E|E]; cbn [negb]; [rewrite E|]; ring. }
  assert (L : exists a, (if k_has_lhs_sums p then bdat (k_lhs_sums p) (row + Z.of_nat i) * (k_rhs_zp p + 2 ^ 32 * k3) else 0) =
    (if k_has_lhs_sums p && negb (k_rhs_zp p =? 0) then k_rhs_zp p * bdat (k_lhs_sums p) (row + Z.of_nat i) else 0) + 2 ^ 32 * a).
  { destruct (k_has_lhs_sums p); cbn [andb]; [|exists 0; lia]. exists (k3 * bdat (k_lhs_sums p) (row + Z.of_nat i)). destruct (Z.eqb_spec (k_rhs_zp p) 0) as [E|E]; cbn [negb]; [rewrite E|]; ring. }
  destruct R as (a & ->). destruct L as (b & ->). unfold wrap_u.
  match goal with |- ?x mod _ = ?y mod _ => replace x with (y + (k1 - a - b) * 2 ^ 32) by ring end. apply Z.mod_add. discriminate.
Qed.

Section Region.
Variables (dbg : bool) (t : tuning) (g : leftover) (tmp : Z -> Z) (dt : ity) (lp rp : pmat Z) (L R : Z -> Z -> Z) (mp : mul_params Z)
  (sr sc er ec : Z) (dl : mat_layout) (dzp : Z) (dst : buf Z).
Hypothesis NC : neon_call 8 dt lp rp L R mp sr sc er ec dl dzp dst.
Hypothesis U46 : lo_upper g 46 mod 2 ^ 32 = 0.
Hypothesis U47 : lo_upper g 47 mod 2 ^ 32 = 0.

Let C : vector_call (v_n avx2) s8 dt lp rp L R mp sr sc er ec dl dst := nc_call _ _ _ _ _ _ _ _ _ _ _ _ _ _ NC.
Let p := made_params avx2 s8 dt lp rp mp sr sc er ec dl dzp.
Let PO : kparams_ok avx2 true p (pl_stride (p_layout rp)) (ml_stride dl) (blen dst) := made_params_ok avx2 true s8 dt lp rp L R mp sr sc er ec dl dzp dst avx2_ok (or_introl eq_refl) C.
Notation K := (pl_rows (p_layout lp)).

Record region_sizes : Prop := {
  y_depth : 4 <= K /\ K <= 2 ^ 28 /\ K mod 4 = 0;
  y_strides : pl_stride (p_layout lp) = K /\ pl_stride (p_layout rp) = K;
  y_rows : 0 <= sr /\ sr + 8 <= er /\ er <= 2 ^ 29 /\ er - 8 < ml_rows dl /\ sr mod 8 = 0 /\ er mod 8 = 0;
  y_cols : 0 <= sc /\ sc + 8 <= ec /\ ec <= 2 ^ 29 /\ ec - 8 < ml_cols dl /\ sc mod 8 = 0 /\ ec mod 8 = 0;
  y_dst : 0 <= ml_rows dl <= ml_stride dl /\ 0 <= ml_cols dl <= int_max /\ ml_stride dl <= int_max /\ ml_stride dl * ml_cols dl <= blen dst /\ 8 * (it_size dt * ml_stride dl) <= int_max;
  y_lhs : er * K <= blen (p_data lp);
  y_rhs : ec * K <= blen (p_data rp)
}.
Lemma region_ok : region_sizes.
Proof.
  pose proof (vk_lhs _ _ _ _ _ _ _ _ _ _ _ _ _ _ C) as (BL & _). pose proof (vk_rhs _ _ _ _ _ _ _ _ _ _ _ _ _ _ C) as (BR & _).
  pose proof (vk_rows _ _ _ _ _ _ _ _ _ _ _ _ _ _ C) as (R1 & R2 & R3 & R4 & R5). pose proof (vk_cols _ _ _ _ _ _ _ _ _ _ _ _ _ _ C) as (C1 & C2 & C3 & C4 & C5).
  pose proof (nc_depth _ _ _ _ _ _ _ _ _ _ _ _ _ _ NC) as D0. pose proof (vk_depth _ _ _ _ _ _ _ _ _ _ _ _ _ _ C) as ED.
  destruct BL as (_ & _ & LS & L0 & L4 & L1 & _ & LF & LB & _). destruct BR as (_ & _ & RS & Q0 & Q4 & Q1 & _ & QF & QB & _).
  pose proof (vk_layout _ _ _ _ _ _ _ _ _ _ _ _ _ _ C) as ((D1 & D2 & D3 & D4) & DO & D5). unfold inner_size, outer_size in *. rewrite DO in *.
  pose proof (vk_dst_bytes _ _ _ _ _ _ _ _ _ _ _ _ _ _ C) as DB. change (v_n avx2) with 8 in *. fold (it_size dt) in DB.
  clear PO p U46 U47. clear C NC.
  apply Z.mod_divide in L4; [|lia]. assert (D4' : 4 <= K) by (pose proof (Z.div_mod K 4); lia).
  assert (E : sr + 8 <= er) by (destruct R2 as (a & ->), R3 as (b & ->); lia). assert (E' : sc + 8 <= ec) by (destruct C2 as (a & ->), C3 as (b & ->); lia).
  apply Z.mod_divide in R2; [|lia]. apply Z.mod_divide in R3; [|lia]. apply Z.mod_divide in C2; [|lia]. apply Z.mod_divide in C3; [|lia]. rewrite ED in *. unfold int_max in *.
  assert (F1 : er * K <= pl_cols (p_layout lp) * K) by (apply Z.mul_le_mono_nonneg_r; lia). assert (F2 : ec * K <= pl_cols (p_layout rp) * K) by (apply Z.mul_le_mono_nonneg_r; lia).
  assert (F3 : er * 4 <= er * K) by (apply Z.mul_le_mono_nonneg_l; lia). assert (F4 : ec * 4 <= ec * K) by (apply Z.mul_le_mono_nonneg_l; lia).
  assert (F5 : 8 * K <= er * K) by (apply Z.mul_le_mono_nonneg_r; lia). rewrite (Z.mul_comm K) in *.
  assert (F6 : 1 * ml_cols dl <= ml_stride dl * ml_cols dl) by (apply Z.mul_le_mono_nonneg_r; lia). assert (F7 : ml_stride dl * 1 <= ml_stride dl * ml_cols dl) by (apply Z.mul_le_mono_nonneg_l; lia).
  constructor; change (2 ^ 28) with 268435456; change (2 ^ 29) with 536870912; unfold int_max; repeat split; lia.
Qed.

Notation hb := (is_some (mp_bias mp)).
Notation hls := (is_some (p_sums lp)).
Notation hrs := (is_some (p_sums rp)).
Notation hpc := (is_some (multiplier_fixedpoint_perchannel mp)).
Notation chc := (match mp_chan mp with ChCol => true | ChRow => false end).
Notation nbr := ((er - sr) / 8).
Notation nbc := ((ec - sc) / 8).

Lemma whole : forall a b, a + 8 <= b -> a mod 8 = 0 -> b mod 8 = 0 -> 1 <= (b - a) / 8 /\ b - 8 = a + 8 * ((b - a) / 8 - 1) /\ b = a + 8 * ((b - a) / 8).
Proof. clear. intros a b H A B. pose proof (Z.div_mod (b - a) 8). assert (M : (b - a) mod 8 = 0) by (rewrite Zminus_mod, A, B; reflexivity). lia. Qed.
Lemma region_count : (1 <= nbr /\ er - 8 = sr + 8 * (nbr - 1) /\ er = sr + 8 * nbr) /\ (1 <= nbc /\ ec - 8 = sc + 8 * (nbc - 1) /\ ec = sc + 8 * nbc).
Proof. destruct region_ok as [_ _ (Z1 & Z2 & _ & _ & Z3 & Z4) (Y1 & Y2 & _ & _ & Y3 & Y4) _ _ _]. split; apply whole; assumption. Qed.

Notation lo := (sr * pl_stride (p_layout lp)).
Notation ro := (1 * (sc * pl_stride (p_layout rp))).
Notation dof := (it_size dt * (sc * ml_stride dl + sr)).

Lemma region_fields : neon8_params p = kfields8 lo ro dof
  (wrap_u 32 (p_zp lp)) (wrap_u 32 (p_zp rp)) dzp (wrap_u 32 (p_zp lp * p_zp rp * K)) sr sc (er - 8) (ec - 8) (ml_rows dl) (ml_cols dl) (pl_stride (p_layout lp)) (1 * pl_stride (p_layout rp))
  (it_size dt * ml_stride dl) K (mp_min mp) (mp_max mp) hb hls hrs hpc chc.
Proof.
  destruct region_ok as [(Z1 & Z2 & Z3) (Z4 & Z5) (Z6 & Z7 & Z8 & Z9 & _) (Y6 & Y7 & Y8 & Y9 & _) (Z10 & Y11 & Z11 & Z12 & Z13) _ _]. destruct (type_width dt (vk_dst _ _ _ _ _ _ _ _ _ _ _ _ _ _ C)) as (_ & _ & W).
  change (2 ^ 28) with 268435456 in *. change (2 ^ 29) with 536870912 in *. unfold int_max in *.
  assert (S : forall z, 0 <= z < 2147483648 -> wrap_u 32 z = z) by (intros z Hz; apply wrap_u_id; change (2 ^ 32) with 4294967296; lia).
  assert (N : 0 <= it_size dt * ml_stride dl) by (apply Z.mul_nonneg_nonneg; lia).
  unfold neon8_params, kfields8, p, made_params.
  cbn [k_bias k_lhs_sums k_rhs_sums k_lhs k_lhs_base k_mult k_exp k_rhs k_rhs_base k_dst_base k_lhs_zp k_rhs_zp k_dst_zp
     k_prod_zp_depth k_start_row k_start_col k_last_row k_last_col k_dst_rows k_dst_cols k_lhs_stride k_rhs_stride k_dst_stride k_depth k_clamp_min
     k_clamp_max k_has_bias k_has_lhs_sums k_has_rhs_sums k_channel_is_col k_has_perchannel k_dst_type k_rhs_size].
  change (v_n avx2) with 8. change (it_size s8) with 1. rewrite Z4, Z5.
  rewrite (S sr), (S sc), (S (er - 8)), (S (ec - 8)), (S (ml_rows dl)), (S (ml_cols dl)), (S K), (S (1 * K)), (S (it_size dt * ml_stride dl)) by lia.
  reflexivity.
Qed.

(** The region stays within the destination. *)
Notation NR := (Z.min (8 * nbr) (ml_rows dl - sr)).
Notation NCo := (Z.min (8 * nbc) (ml_cols dl - sc)).
Lemma region_fits : 0 <= dof /\ dof + it_size dt * ml_stride dl * (NCo - 1) + it_size dt * NR <= it_size dt * blen dst /\ it_size dt * NR <= it_size dt * ml_stride dl.
Proof.
  destruct region_ok as [_ _ (Z6 & Z7 & Z8 & Z9 & _) (Y6 & Y7 & Y8 & Y9 & _) (Z10 & Y11 & Z11 & Z12 & Z13) _ _]. destruct (type_width dt (vk_dst _ _ _ _ _ _ _ _ _ _ _ _ _ _ C)) as (_ & _ & W).
  assert (N : 0 <= sc * ml_stride dl) by (apply Z.mul_nonneg_nonneg; lia). split; [apply Z.mul_nonneg_nonneg; lia|]. split; [|apply Z.mul_le_mono_nonneg_l; lia].
  replace (dof + it_size dt * ml_stride dl * (NCo - 1) + it_size dt * NR) with (it_size dt * ((sc + NCo - 1) * ml_stride dl + (sr + NR))) by ring. apply Z.mul_le_mono_nonneg_l; [lia|].
  assert ((sc + NCo - 1) * ml_stride dl <= (ml_cols dl - 1) * ml_stride dl) by (apply Z.mul_le_mono_nonneg_r; lia). lia.
Qed.

Notation chans := (if chc then ec else er).
Lemma region_arrays : (if hb then chans else 8) <= blen (k_bias p) /\ (if hpc then chans else 8) <= blen (k_mult p) /\ (if hpc then chans else 8) <= blen (k_exp p) /\
  (raw hls (type_id dt) = false -> forall r, 0 <= r < (if hpc then chans else 8) -> fixed_point (bdat (k_mult p) r) /\ exponent (bdat (k_exp p) r)).
Proof.
  pose proof (vk_dst _ _ _ _ _ _ _ _ _ _ _ _ _ _ C) as DT.
  pose proof (kp_bias _ _ _ _ _ _ PO) as PB. pose proof (kp_nobias _ _ _ _ _ _ PO) as PN. pose proof (kp_mult _ _ _ _ _ _ PO) as PM. pose proof (kp_exp _ _ _ _ _ _ PO) as PE. pose proof (vk_params _ _ _ _ _ _ _ _ _ _ _ _ _ _ C) as (_ & PP).
  change (k_has_bias p) with hb in *. change (k_has_perchannel p) with hpc in *. unfold chan_at in *. change (k_channel_is_col p) with chc in *.
  change (k_last_row p) with (er - 8) in *. change (k_last_col p) with (ec - 8) in *. change (v_n avx2) with 8 in *. change (k_dst_type p) with dt in *.
  assert (EC : (if chc then ec - 8 else er - 8) + 8 = chans) by (destruct chc; lia). clear PO.
  split; [destruct hb; [rewrite <- EC; apply PB; reflexivity|apply PN; reflexivity]|].
  assert (LM : (if hpc then chans else 8) <= blen (k_mult p) /\ (if hpc then chans else 8) <= blen (k_exp p)).
  { destruct (ity_eqb dt s32) eqn:E32.
    - assert (NP : hpc = false /\ blen (k_mult p) = 8 /\ blen (k_exp p) = 8).
      { unfold p, made_params. cbn [k_mult k_exp]. unfold multiplier_fixedpoint_perchannel. destruct (mp_perchannel mp); [exfalso; apply (proj1 PP); destruct DT as [X|[X|[X|X]]]; rewrite X in *; (discriminate E32 || reflexivity)|]. repeat split. }
      destruct NP as (-> & -> & ->). lia.
    - assert (N32 : dt <> s32) by (intros ->; discriminate E32). specialize (PM N32). specialize (PE N32). destruct hpc; rewrite <- ?EC; lia. }
  split; [apply LM|]. split; [apply LM|]. rewrite (type_raw dt lp rp L R mp sr sc er ec dl dzp dst NC). intros E32 r Hr.
  assert (N32 : dt <> s32) by (intros E; rewrite E in E32; discriminate E32). destruct (PM N32) as (_ & F1). destruct (PE N32) as (_ & F2).
  split; [apply F1|apply F2]; destruct hpc; rewrite <- ?EC in Hr; lia.
Qed.

Notation value := (out_value8 (p_data lp) (p_data rp) (k_bias p) (opt_buf (p_sums lp)) (opt_buf (p_sums rp)) (k_mult p) (k_exp p) lo ro (wrap_u 32 (p_zp lp)) (wrap_u 32 (p_zp rp)) dzp
  (wrap_u 32 (p_zp lp * p_zp rp * K)) sr sc (pl_stride (p_layout lp)) (1 * pl_stride (p_layout rp)) (mp_min mp) (mp_max mp) hb hls hrs hpc chc (type_id dt) (Z.to_nat (K / 4))).
Notation offset := (out_off8 dof (it_size dt * ml_stride dl) hls (type_id dt)).
Notation region := (region8 sr sc (ml_rows dl) (ml_cols dl) nbr nbc).

Lemma region_fuel : (33 + (46 * Z.to_nat (K / 4) + 991) * Z.to_nat (nbr * nbc) < kernel8_fuel 8 p)%nat.
Proof.
  destruct region_count as ((B1 & B2 & B3) & (E1 & E2 & E3)). destruct region_ok as [(Z1 & Z2 & Z3) _ _ _ _ _ _]. unfold kernel8_fuel. change (k_depth p) with K.
  change (k_last_row p - k_start_row p) with (er - 8 - sr). change (k_last_col p - k_start_col p) with (ec - 8 - sc).
  replace ((er - 8 - sr) / 8 + 1) with nbr by (replace (er - 8 - sr) with (er - sr + (-1) * 8) by ring; rewrite Z.div_add by lia; ring).
  replace ((ec - 8 - sc) / 8 + 1) with nbc by (replace (ec - 8 - sc) with (ec - sc + (-1) * 8) by ring; rewrite Z.div_add by lia; ring).
  assert (N : 0 < nbr * nbc) by (apply Z.mul_pos_pos; lia). set (N0 := nbr * nbc) in *. clearbody N0. pose proof (Z.div_mod K 4). set (q := K / 4) in *. clearbody q. clear - N H Z1 Z3.
  assert (E : (Z.of_nat 46 * q + 991) * N0 <= (20 * K + 3000) * N0) by (apply Z.mul_le_mono_nonneg_r; lia). apply Nat2Z.inj_lt. rewrite Z2Nat.id by (cbn in E; nia). rewrite Nat2Z.inj_add, Nat2Z.inj_mul, Nat2Z.inj_add, Nat2Z.inj_mul, !Z2Nat.id by lia. lia.
Qed.

Lemma region_runs : forall x1 : bool, exists s' D, run (kernel8_fuel 8 p) (if x1 then kernel8_dotprod_x1 else kernel8_dotprod) 0 (kernel8_start 8 g tmp p dst) = Ok s' /\ mem s' 4%nat = Bytes D /\
  drawn8 (size8 hls (type_id dt)) offset value region (enc (it_size dt) dst) D.
Proof.
  intros x1. destruct region_count as ((B1 & B2 & B3) & (E1 & E2 & E3)). destruct region_ok as [(Z1 & Z2 & Z3) (Z4 & Z5) (Z6 & Z7 & Z8 & Z9 & Z14 & Z15) (Y6 & Y7 & Y8 & Y9 & Y14 & Y15) (Z10 & Y11 & Z11 & Z12 & Z13) ZL ZR].
  destruct region_fits as (F1 & F2 & F3). destruct region_arrays as (A1 & A2 & A3 & A4).
  pose proof (vk_dst _ _ _ _ _ _ _ _ _ _ _ _ _ _ C) as DT. destruct (type_width dt DT) as (_ & WE & W). pose proof (type_size dt lp rp L R mp sr sc er ec dl dzp dst NC) as TS.
  pose proof (vk_rows _ _ _ _ _ _ _ _ _ _ _ _ _ _ C) as (_ & _ & _ & RC & _). pose proof (vk_cols _ _ _ _ _ _ _ _ _ _ _ _ _ _ C) as (_ & _ & _ & CC & _).
  pose proof (nc_lhs_sums _ _ _ _ _ _ _ _ _ _ _ _ _ _ NC) as SL. pose proof (nc_rhs_sums _ _ _ _ _ _ _ _ _ _ _ _ _ _ NC) as SR.
  change (2 ^ 28) with 268435456 in *. change (2 ^ 29) with 536870912 in *. assert (IM : int_max = 2147483647) by reflexivity.
  assert (HK : 4 * Z.of_nat (Z.to_nat (K / 4)) = K) by (clear - Z1 Z3; pose proof (Z.div_mod K 4); lia).
  assert (NS : 0 <= it_size dt * ml_stride dl) by (apply Z.mul_nonneg_nonneg; lia).
  assert (NL : 0 <= sr * K) by (apply Z.mul_nonneg_nonneg; lia). assert (NR0 : 0 <= sc * K) by (apply Z.mul_nonneg_nonneg; lia).
  assert (TR := type_id_range dt DT).
  assert (EL : sr * K + 8 * K * nbr = er * K) by (rewrite B3 at 2; ring). assert (ER : sc * K + 8 * K * nbc = ec * K) by (rewrite E3 at 2; ring).
  assert (CE : channels sr sc hpc chc nbr nbc = if hpc then chans else 8) by (unfold channels; rewrite <- B3, <- E3; reflexivity).
  assert (G1 : 0 <= sr <= er - 8 /\ er - 8 < ml_rows dl /\ ml_rows dl < 2 ^ 31 /\ er - 8 + 8 < 2 ^ 31) by (clear - Z6 Z7 Z8 Z9 Z10 Z11 IM; lia).
  assert (G2 : 0 <= sc <= ec - 8 /\ ec - 8 < ml_cols dl /\ ml_cols dl < 2 ^ 31 /\ ec - 8 + 8 < 2 ^ 31) by (clear - Y6 Y7 Y8 Y9 Y11 IM; lia).
  assert (G3 : 0 <= pl_stride (p_layout lp) < 2 ^ 31 /\ 0 <= 1 * pl_stride (p_layout rp) < 2 ^ 31 /\ 0 <= it_size dt * ml_stride dl < 2 ^ 31) by (rewrite Z4, Z5; clear - Z1 Z2 NS Z13 IM; lia).
  assert (G4 : (wrap_u 32 (ml_rows dl) + 2 ^ 32 * wrap_u 32 (lo_upper g 49)) mod 2 ^ 32 = ml_rows dl) by (apply (any_reg g tmp); clear - G1; lia).
  assert (G5 : (wrap_u 32 (ml_cols dl) + 2 ^ 32 * wrap_u 32 (lo_upper g 50)) mod 2 ^ 32 = ml_cols dl) by (apply (any_reg g tmp); clear - G2; lia).
  assert (G6 : (wrap_u 32 (type_id dt) + 2 ^ 32 * wrap_u 32 (lo_upper g 52)) mod 2 ^ 32 = type_id dt) by (apply (any_reg g tmp); clear - TR; lia).
  pose proof (programd (p_data lp) (p_data rp) (k_bias p) (opt_buf (p_sums lp)) (opt_buf (p_sums rp)) (k_mult p) (k_exp p) lo ro dof
    (wrap_u 32 (p_zp lp)) (wrap_u 32 (p_zp rp)) dzp (wrap_u 32 (p_zp lp * p_zp rp * K)) sr sc (er - 8) (ec - 8) (ml_rows dl) (ml_cols dl) (pl_stride (p_layout lp)) (1 * pl_stride (p_layout rp))
    (it_size dt * ml_stride dl) K (mp_min mp) (mp_max mp) hb hls hrs hpc chc
    (wrap_u 32 (ml_rows dl) + 2 ^ 32 * wrap_u 32 (lo_upper g 49)) (wrap_u 32 (ml_cols dl) + 2 ^ 32 * wrap_u 32 (lo_upper g 50)) (type_id dt) (wrap_u 32 (type_id dt) + 2 ^ 32 * wrap_u 32 (lo_upper g 52))
    G1 G2 G3 G4 G5 G6 TR (type_bounds g tmp dt lp rp L R mp sr sc er ec dl dzp dst NC) (Z.to_nat (K / 4)) nbr nbc (conj HK Z1)) as PR.
  specialize (PR ltac:(clear - Z2; lia) (conj B1 B2) (conj E1 E2)).
  specialize (PR ltac:(rewrite Z4; clear - NL EL ZL; lia) ltac:(rewrite Z5, !Z.mul_1_l; clear - NR0 ER ZR; lia)).
  rewrite CE, <- B3, <- E3 in PR. specialize (PR A1).
  specialize (PR ltac:(destruct (p_sums rp) as [b|] eqn:ES; [intros _; specialize (SR b ES); cbn [opt_buf]; lia|discriminate])).
  specialize (PR ltac:(destruct (p_sums lp) as [b|] eqn:ES; [intros _; specialize (SL b ES); cbn [opt_buf]; lia|discriminate])).
  specialize (PR A2 A3 A4). unfold all_drawn in PR. rewrite TS, <- WE in PR.
  specialize (PR F3 (enc (it_size dt) dst) (conj F1 F2) x1 {| blen := 4 * 8 * 8; bdat := tmp |} (kernel8_start 8 g tmp p dst)).
  assert (KM : kmem8 (p_data lp) (p_data rp) (k_bias p) (opt_buf (p_sums lp)) (opt_buf (p_sums rp)) (k_mult p) (k_exp p) lo ro dof
    (wrap_u 32 (p_zp lp)) (wrap_u 32 (p_zp rp)) dzp (wrap_u 32 (p_zp lp * p_zp rp * K)) sr sc (er - 8) (ec - 8) (ml_rows dl) (ml_cols dl) (pl_stride (p_layout lp)) (1 * pl_stride (p_layout rp))
    (it_size dt * ml_stride dl) K (mp_min mp) (mp_max mp) hb hls hrs hpc chc (enc (it_size dt) dst) {| blen := 4 * 8 * 8; bdat := tmp |} (mem (kernel8_start 8 g tmp p dst))).
  { constructor; try reflexivity. cbn [kernel8_start mem kernel8_memory]. rewrite region_fields. reflexivity. }
  specialize (PR KM ltac:(cbn [blen]; lia) eq_refl eq_refl eq_refl eq_refl eq_refl eq_refl).
  specialize (PR ltac:(apply (params_mod g tmp 46); [exact U46|unfold p, made_params; cbn [k_start_row]; clear - G1; lia]) ltac:(apply (params_mod g tmp 47); [exact U47|unfold p, made_params; cbn [k_start_col]; clear - G2; lia])).
  specialize (PR eq_refl eq_refl eq_refl eq_refl eq_refl ltac:(unfold full, kernel8_start; cbn [vs]; rewrite firstn_length, app_length, repeat_length; clear; lia)).
  destruct (reach_run _ _ _ _ _ (kernel8_fuel 8 p) PR) as (s' & EX & pc & HP).
  - apply region_fuel.
  - intros pc' s' (-> & _). destruct x1; reflexivity.
  - destruct HP as (_ & D & T & KM' & HW). exists s', D. split; [exact EX|]. split; [apply (k8_4 _ _ _ _ _ _ _ _ _ _ _ _ _ _ _ _ _ _ _ _ _ _ _ _ _ _ _ _ _ _ _ _ _ _ KM')|]. rewrite TS. exact HW.
Qed.

(** The value of an entry. *)
Lemma region_entry : forall i j, sr <= i < Z.min er (ml_rows dl) -> sc <= j < Z.min ec (ml_cols dl) ->
  neon_result dt mp dzp i j (exact_accumulator K (p_zp lp) (p_zp rp) L R mp i j) (it_conv dt (value (i - sr) (j - sc))).
Proof.
  intros i j Hi Hj. destruct region_count as ((B1 & B2 & B3) & (E1 & E2 & E3)). destruct region_ok as [(Z1 & Z2 & Z3) (Z4 & Z5) (Z6 & Z7 & Z8 & Z9 & Z14 & Z15) (Y6 & Y7 & Y8 & Y9 & Y14 & Y15) _ ZL ZR].
  pose proof (vk_dst _ _ _ _ _ _ _ _ _ _ _ _ _ _ C) as DT. pose proof (vk_bounds _ _ _ _ _ _ _ _ _ _ _ _ _ _ C) as (CB1 & CB2). pose proof (vk_params _ _ _ _ _ _ _ _ _ _ _ _ _ _ C) as (_ & PM).
  assert (SP : forall x s e, s <= x < e -> e = s + 8 * ((e - s) / 8) -> exists b r, (x - s) / 8 = b /\ (x - s) mod 8 = r /\ x = s + 8 * b + r /\ 0 <= r < 8 /\ 0 <= b < (e - s) / 8).
  { clear. intros x s e H E. exists ((x - s) / 8), ((x - s) mod 8). pose proof (Z.div_mod (x - s) 8). pose proof (Z.mod_pos_bound (x - s) 8). repeat split; lia. }
  destruct (SP i sr er ltac:(lia) B3) as (b & r & Eb & Er & DM & HR & HB). destruct (SP j sc ec ltac:(lia) E3) as (b' & c & Eb' & Ec & DM' & HC & HB').
  unfold out_value8. rewrite Eb, Er, Eb', Ec. set (row := sr + 8 * b) in *. set (col := sc + 8 * b') in *.
  assert (Rm : row mod 8 = 0) by (subst row; rewrite Z.mul_comm, Z.mod_add by lia; exact Z14). assert (Cm : col mod 8 = 0) by (subst col; rewrite Z.mul_comm, Z.mod_add by lia; exact Y14).
  assert (Rb : 0 <= row /\ row + 8 <= er) by (subst row; clear - Z6 HB B3; lia). assert (Cb : 0 <= col /\ col + 8 <= ec) by (subst col; clear - Y6 HB' E3; lia).
  replace (sr * pl_stride (p_layout lp) + 8 * pl_stride (p_layout lp) * b) with (row * pl_stride (p_layout lp)) by (subst row; ring).
  replace (1 * (sc * pl_stride (p_layout rp)) + 8 * (1 * pl_stride (p_layout rp)) * b') with (col * pl_stride (p_layout rp)) by (subst col; ring). clearbody row col.
  assert (HK : 4 * Z.of_nat (Z.to_nat (K / 4)) = K) by (clear - Z1 Z3; pose proof (Z.div_mod K 4); lia).
  assert (AC : wrap_u 32 (accd (p_data lp) (p_data rp) (k_bias p) (opt_buf (p_sums lp)) (opt_buf (p_sums rp)) (wrap_u 32 (p_zp lp)) (wrap_u 32 (p_zp rp)) (wrap_u 32 (p_zp lp * p_zp rp * K))
      hb hls hrs chc (Z.to_nat (K / 4)) row col (row * pl_stride (p_layout lp)) (col * pl_stride (p_layout rp)) (Z.to_nat r) (Z.to_nat c)) = wrap_u 32 (exact_accumulator K (p_zp lp) (p_zp rp) L R mp i j)).
  { rewrite <- (acc_congruent avx2 true s8 dt lp rp L R mp sr sc er ec dl dzp dst avx2_ok C i j Hi Hj).
    replace i with (row + Z.of_nat (Z.to_nat r)) by (clear - DM HR; lia). replace j with (col + Z.of_nat (Z.to_nat c)) by (clear - DM' HC; lia). change (v_n avx2) with 8. fold p.
    apply (accd_at p (pl_stride (p_layout rp)) row col (Z.to_nat r) (Z.to_nat c) (Z.to_nat (K / 4)) (row * pl_stride (p_layout lp)) (col * pl_stride (p_layout rp))).
    - intros Hn. apply (kp_nobias _ _ _ _ _ _ PO Hn).
    - exact HK.
    - apply (dotted_upto p (pl_stride (p_layout rp)) row col (Z.to_nat r) (Z.to_nat c) Rm Cm ltac:(clear - HR; lia) ltac:(clear - HC; lia) ltac:(clear - Rb; lia) ltac:(clear - Cb; lia)).
      + change (k_lhs_stride p) with (pl_stride (p_layout lp)). lia.
      + lia.
      + exact (kp_lhs_bits _ _ _ _ _ _ PO).
      + exact (kp_rhs_bits _ _ _ _ _ _ PO).
      + change (k_lhs_stride p) with (pl_stride (p_layout lp)). change (k_lhs p) with (p_data lp). rewrite Z4. assert ((row + 8) * K <= er * K) by (apply Z.mul_le_mono_nonneg_r; lia). clear PO. lia.
      + change (k_rhs p) with (p_data rp). rewrite Z5. assert ((col + 8) * K <= ec * K) by (apply Z.mul_le_mono_nonneg_r; lia). clear PO. lia. }
  revert AC. generalize (exact_accumulator K (p_zp lp) (p_zp rp) L R mp i j). intros acc AC. unfold neon_result, valued. rewrite (type_raw dt lp rp L R mp sr sc er ec dl dzp dst NC). destruct (ity_eqb dt s32) eqn:Es.
  - assert (Ed : it_conv dt = wrap_s 32) by (destruct DT as [T | [T | [T | T]]]; rewrite T in *; try discriminate; reflexivity). rewrite Ed.
    rewrite <- (wrap_s_u 32 acc), <- AC, wrap_s_u by lia. reflexivity.
  - assert (Ns : dt <> s32) by (intros E; rewrite E in Es; discriminate). pose proof (nc_bounds _ _ _ _ _ _ _ _ _ _ _ _ _ _ NC Ns) as MM.
    assert (Hm : multd (k_mult p) hpc chc row col (Z.to_nat r) (Z.to_nat c) = multiplier_at mp i j /\ expod (k_exp p) hpc chc row col (Z.to_nat r) (Z.to_nat c) = exponent_at mp i j).
    { unfold multd, expod, first_chan, chn, side, multiplier_at, exponent_at, channel_at, p, made_params. cbn [k_mult k_exp].
      unfold multiplier_fixedpoint_perchannel, multiplier_exponent_perchannel, multiplier_fixedpoint, multiplier_exponent. destruct (mp_perchannel mp).
      - destruct PM as (_ & m & e & -> & -> & _). cbn [is_some opt_buf]. replace i with (row + Z.of_nat (Z.to_nat r)) by (clear - DM HR; lia). replace j with (col + Z.of_nat (Z.to_nat c)) by (clear - DM' HC; lia).
        destruct (mp_chan mp); split; reflexivity.
      - split; reflexivity. }
    destruct Hm as (-> & ->). rewrite (lane_cong _ _ _ _ AC). exists (neon_lane acc (multiplier_at mp i j) (exponent_at mp i j)). split; [apply neon_rounded|].
    match goal with |- clamped _ _ ?a _ => set (q := a) end. rewrite conv_id; [|exact DT|unfold between; clear - CB1 CB2; lia]. unfold clamped, between. clearbody q. clear - MM. lia.
Qed.

(** The program that is run. *)
Definition x1_tuning : bool := match t with TX1 => true | _ => false end.
Hypothesis Tn : t <> TA55ish.
Hypothesis General : ~ (ml_cols dl = 1 /\ mp_chan mp = ChRow).
Lemma region_code : kernel8_code true t dl mp = if x1_tuning then kernel8_dotprod_x1 else kernel8_dotprod.
Proof.
  unfold kernel8_code, x1_tuning. replace (_ && _) with false; [destruct t; try reflexivity; contradiction|].
  symmetry. destruct (Z.eqb_spec (ml_cols dl) 1) as [E|E]; [|reflexivity]. destruct (mp_chan mp) eqn:EC; [exfalso; apply General; split; [exact E|reflexivity]|reflexivity].
Qed.

Lemma region_computes : exists dst', kernel_8bit_neon dbg true t g tmp dt lp rp mp sr sc er ec dl dzp dst = Ok dst' /\
  block_computed (fun i j => neon_result dt mp dzp i j (exact_accumulator K (p_zp lp) (p_zp rp) L R mp i j)) sr sc er ec dl dst dst'.
Proof.
  destruct (region_runs x1_tuning) as (s' & D & E & ED & [HW1 HW2 HW3]). destruct region_count as ((B1 & B2 & B3) & (E1 & E2 & E3)). pose proof (vk_dst _ _ _ _ _ _ _ _ _ _ _ _ _ _ C) as DT.
  destruct region_ok as [_ _ (Z6 & Z7 & Z8 & Z9 & _) (Y6 & Y7 & Y8 & Y9 & _) (Z10 & Y11 & Z11 & Z12 & Z13) _ _]. destruct (type_width dt DT) as (W & WE & W4). pose proof (nc_dst _ _ _ _ _ _ _ _ _ _ _ _ _ _ NC) as TY.
  pose proof (type_size dt lp rp L R mp sr sc er ec dl dzp dst NC) as TS. rewrite TS, <- WE in *.
  assert (OF : forall i j, offset (i - sr) (j - sc) = it_size dt * (j * ml_stride dl + i)) by (intros i j; unfold out_off8; rewrite TS, <- WE; ring).
  exists (dec dt dst D). split.
  - unfold kernel_8bit_neon, kernel8_block. rewrite region_code.
    pose proof (made_ok avx2 true dbg s8 dt lp rp L R mp sr sc er ec dl dzp dst avx2_ok (or_introl eq_refl) C) as MO. change (v_n avx2) with 8 in MO. rewrite MO. cbn [bind]. fold p. rewrite E. cbn [bind]. rewrite ED. reflexivity.
  - pose proof (vk_layout _ _ _ _ _ _ _ _ _ _ _ _ _ _ C) as (_ & DO & _). split; [reflexivity|]. unfold position, in_matrix. rewrite DO. clear E ED. split.
    + intros i j Hi Hj (Hm1 & Hm2). assert (BD : 0 <= j * ml_stride dl + i < blen dst).
      { assert (0 <= j * ml_stride dl) by (apply Z.mul_nonneg_nonneg; lia). assert (j * ml_stride dl <= (ml_cols dl - 1) * ml_stride dl) by (apply Z.mul_le_mono_nonneg_r; lia). lia. }
      rewrite (dec_value dt dst D _ (value (i - sr) (j - sc)) DT BD); [apply region_entry; lia|].
      apply get_nth; [apply bytes_of_length|]. intros e He. rewrite <- OF. apply HW2; [|exact He]. unfold region8. lia.
    + intros q Hq. apply dec_same; [exact DT|exact TY|]. apply get_ext. intros e He. rewrite HW3; [reflexivity|].
      intros r c (Hr & Hc) Hx. replace r with (sr + r - sr) in Hx by ring. replace c with (sc + c - sc) in Hx by ring. rewrite OF in Hx.
      assert (Q : q = (sc + c) * ml_stride dl + (sr + r)) by (clear - Hx He W4 WE; nia). apply (Hq (sr + r) (sc + c)); [lia|lia|lia|exact Q].
Qed.
End Region.
