(** The 8-bit kernels for AArch64 compute what SpecKernelNeon.v says. *)
From Coq Require Import ZArith List Bool Lia.
From Verif Require Import Base SidePair Mat Scalars Pack IntOps MulParams Kernel MatFacts PackFacts IntEntryFacts.
From Verif Require Import SpecRound SpecMatrix SpecPack SpecMul SpecSimd SpecPackX86 SpecKernel SpecKernelNeon.
From Verif Require Import Simd SimdFacts RequantFacts RequantProps Kernel8bit Kernel8bitAvx Kernel8bitIsa Kernel8bitAvx2Facts Kernel8bitFacts Kernel8bitProps.
From Verif Require Import Neon64 NeonRun NeonTac NeonPack NeonPackMath NeonPackBytes NeonKernel8Code Neon8Lanes Neon8Tac Neon8Col CpuInfo Tune Kernel8Neon Kernel8NeonFacts.
Import ListNotations.
Open Scope Z_scope.

Lemma wrap_u_form : forall z, exists k, wrap_u 32 z = z + 2 ^ 32 * k.
Proof. intros z. exists (- (z / 2 ^ 32)). unfold wrap_u. pose proof (Z.div_mod z (2 ^ 32)). lia. Qed.

(** The accumulator of an entry of a column, modulo 2^32. *)
Lemma acc8_at : forall p rs row col i m lp rp, k_channel_is_col p = false -> (k_has_bias p = false -> forall q, bdat (k_bias p) q = 0) -> 4 * Z.of_nat m = k_depth p ->
  dotted (k_lhs p) (k_rhs p) lp rp i 0 m = dot_upto 8 p rs (4 * Z.of_nat m) (row + Z.of_nat i) col ->
  wrap_u 32 (acc8 (k_lhs p) (k_rhs p) (k_bias p) (k_lhs_sums p) (k_rhs_sums p) (wrap_u 32 (k_lhs_zp p)) (wrap_u 32 (k_rhs_zp p)) (wrap_u 32 (k_prod_zp_depth p))
      (k_has_bias p) (k_has_lhs_sums p) (k_has_rhs_sums p) m row col lp rp i) = wrap_u 32 (acc_at 8 p rs (row + Z.of_nat i) col).
Proof.
  intros p rs row col i m lp rp Hc Hb Hm Hd. unfold acc8, acc_at. rewrite Hd, Hm. unfold initial_at, chan_at. rewrite Hc.
  assert (B : bias8 (k_bias p) (k_has_bias p) row i = if k_has_bias p then bdat (k_bias p) (row + Z.of_nat i) else 0).
  { unfold bias8. destruct (k_has_bias p); [reflexivity|]. apply Hb. reflexivity. }
  rewrite B. unfold rsub, lsub, has_rhs_sums_offsets.
  destruct (wrap_u_form (k_prod_zp_depth p)) as (k1 & E1). destruct (wrap_u_form (k_lhs_zp p)) as (k2 & E2). destruct (wrap_u_form (k_rhs_zp p)) as (k3 & E3). rewrite E1, E2, E3.
  assert (R : exists a, (if k_has_rhs_sums p then (k_lhs_zp p + 2 ^ 32 * k2) * bdat (k_rhs_sums p) col else 0) =
    (if k_has_rhs_sums p && negb (k_lhs_zp p =? 0) then k_lhs_zp p * bdat (k_rhs_sums p) col else 0) + 2 ^ 32 * a).
  { destruct (k_has_rhs_sums p); cbn [andb]; [|exists 0; lia]. exists (k2 * bdat (k_rhs_sums p) col). destruct (Z.eqb_spec (k_lhs_zp p) 0) as [E|E]; cbn [negb]; [rewrite E|]; ring. }
  assert (L : exists a, (if k_has_lhs_sums p then bdat (k_lhs_sums p) (row + Z.of_nat i) * (k_rhs_zp p + 2 ^ 32 * k3) else 0) =
    (if k_has_lhs_sums p && negb (k_rhs_zp p =? 0) then k_rhs_zp p * bdat (k_lhs_sums p) (row + Z.of_nat i) else 0) + 2 ^ 32 * a).
  { destruct (k_has_lhs_sums p); cbn [andb]; [|exists 0; lia]. exists (k3 * bdat (k_lhs_sums p) (row + Z.of_nat i)). destruct (Z.eqb_spec (k_rhs_zp p) 0) as [E|E]; cbn [negb]; [rewrite E|]; ring. }
  destruct R as (a & ->). destruct L as (b & ->). unfold wrap_u.
  match goal with |- ?x mod _ = ?y mod _ => replace x with (y + (k1 - a - b) * 2 ^ 32) by ring end. apply Z.mod_add. discriminate.
Qed.

Lemma lane_cong : forall a b m e, wrap_u 32 a = wrap_u 32 b -> neon_lane a m e = neon_lane b m e.
Proof.
  intros a b m e H. unfold neon_lane. replace (neon_shifted a e) with (neon_shifted b e); [reflexivity|].
  unfold neon_shifted, wrap_u in *. rewrite <- (wrap_s_mod 32 (b * _)), <- (wrap_s_mod 32 (a * _)) by lia. f_equal.
  rewrite Z.mul_mod, <- H, <- Z.mul_mod by discriminate. reflexivity.
Qed.

Lemma type_id_range : forall t, dst_type t -> 1 <= type_id t <= 4.
Proof. intros t [-> | [-> | [-> | ->]]]; vm_compute; split; discriminate. Qed.

Section Column.
Variables (dbg : bool) (t : tuning) (g : leftover) (tmp : Z -> Z) (dt : ity) (lp rp : pmat Z) (L R : Z -> Z -> Z) (mp : mul_params Z)
  (sr sc er ec : Z) (dl : mat_layout) (dzp : Z) (dst : buf Z).
Hypothesis NC : neon_call 8 dt lp rp L R mp sr sc er ec dl dzp dst.
Hypothesis One : ml_cols dl = 1.
Hypothesis Ch : mp_chan mp = ChRow.
Hypothesis U46 : lo_upper g 46 mod 2 ^ 32 = 0.
Hypothesis U47 : lo_upper g 47 mod 2 ^ 32 = 0.

Let C : vector_call (v_n avx2) s8 dt lp rp L R mp sr sc er ec dl dst := nc_call _ _ _ _ _ _ _ _ _ _ _ _ _ _ NC.
Let p := made_params avx2 s8 dt lp rp mp sr sc er ec dl dzp.
Let PO : kparams_ok avx2 true p (pl_stride (p_layout rp)) (ml_stride dl) (blen dst) := made_params_ok avx2 true s8 dt lp rp L R mp sr sc er ec dl dzp dst avx2_ok (or_introl eq_refl) C.
Notation K := (pl_rows (p_layout lp)).

Lemma only_col : sc = 0 /\ ec = 8.
Proof.
  pose proof (vk_cols _ _ _ _ _ _ _ _ _ _ _ _ _ _ C) as (C1 & (a & C2) & (b & C3) & C4 & C5). change (v_n avx2) with 8 in *. rewrite One in C5. lia.
Qed.

Record column_sizes : Prop := {
  z_depth : 4 <= K /\ K <= 2 ^ 28 /\ K mod 4 = 0;
  z_strides : pl_stride (p_layout lp) = K /\ pl_stride (p_layout rp) = K;
  z_rows : 0 <= sr /\ sr + 8 <= er /\ er <= 2 ^ 29 /\ er - 8 < ml_rows dl /\ sr mod 8 = 0 /\ er mod 8 = 0;
  z_dst : 0 <= ml_rows dl <= ml_stride dl /\ ml_stride dl <= int_max /\ ml_stride dl <= blen dst /\ 8 * (it_size dt * ml_stride dl) <= int_max;
  z_lhs : er * K <= blen (p_data lp);
  z_rhs : 8 * K <= blen (p_data rp)
}.
Lemma sizes_ok : column_sizes.
Proof.
  destruct only_col as [S0 E8]. pose proof (vk_lhs _ _ _ _ _ _ _ _ _ _ _ _ _ _ C) as (BL & _). pose proof (vk_rhs _ _ _ _ _ _ _ _ _ _ _ _ _ _ C) as (BR & _).
  pose proof (vk_rows _ _ _ _ _ _ _ _ _ _ _ _ _ _ C) as (R1 & R2 & R3 & R4 & R5). pose proof (vk_cols _ _ _ _ _ _ _ _ _ _ _ _ _ _ C) as (C1 & C2 & C3 & C4 & C5).
  pose proof (nc_depth _ _ _ _ _ _ _ _ _ _ _ _ _ _ NC) as D0. pose proof (vk_depth _ _ _ _ _ _ _ _ _ _ _ _ _ _ C) as ED.
  destruct BL as (_ & _ & LS & L0 & L4 & L1 & _ & LF & LB & _). destruct BR as (_ & _ & RS & Q0 & Q4 & Q1 & _ & QF & QB & _).
  pose proof (vk_layout _ _ _ _ _ _ _ _ _ _ _ _ _ _ C) as ((D1 & D2 & D3 & D4) & DO & D5). unfold inner_size, outer_size in *. rewrite DO in *. rewrite One in *.
  pose proof (vk_dst_bytes _ _ _ _ _ _ _ _ _ _ _ _ _ _ C) as DB. change (v_n avx2) with 8 in *. fold (it_size dt) in DB.
  apply Z.mod_divide in L4; [|lia]. assert (D4' : 4 <= K) by (pose proof (Z.div_mod K 4); lia).
  assert (E : sr + 8 <= er) by (destruct R2 as (a & ->), R3 as (b & ->); lia).
  apply Z.mod_divide in R2; [|lia]. apply Z.mod_divide in R3; [|lia]. rewrite ED in *. unfold int_max in *. change (2 ^ 28) with 268435456. change (2 ^ 29) with 536870912.
  constructor; change (2 ^ 28) with 268435456; change (2 ^ 29) with 536870912; unfold int_max; try lia; try nia.
  all: repeat split; try lia; nia.
Qed.

Notation hb := (is_some (mp_bias mp)).
Notation hls := (is_some (p_sums lp)).
Notation hrs := (is_some (p_sums rp)).
Notation hpc := (is_some (multiplier_fixedpoint_perchannel mp)).
Notation nb := ((er - sr) / 8).

Lemma blocks_count : 1 <= nb /\ er - 8 = sr + 8 * (nb - 1) /\ er = sr + 8 * nb.
Proof.
  destruct sizes_ok as [_ _ (Z1 & Z2 & _ & _ & Z3 & Z4) _ _ _]. pose proof (Z.div_mod (er - sr) 8). assert (M : (er - sr) mod 8 = 0) by (rewrite Zminus_mod, Z3, Z4; reflexivity). lia.
Qed.

Lemma column_fields : neon8_params p = kfields8 (sr * pl_stride (p_layout lp)) (1 * (0 * pl_stride (p_layout rp))) (it_size dt * (0 * ml_stride dl + sr))
  (wrap_u 32 (p_zp lp)) (wrap_u 32 (p_zp rp)) dzp (wrap_u 32 (p_zp lp * p_zp rp * K)) sr 0 (er - 8) 0 (ml_rows dl) 1 (pl_stride (p_layout lp)) (1 * pl_stride (p_layout rp))
  (it_size dt * ml_stride dl) K (mp_min mp) (mp_max mp) hb hls hrs hpc false.
Proof.
  destruct only_col as [S0 E8]. destruct sizes_ok as [(Z1 & Z2 & Z3) (Z4 & Z5) (Z6 & Z7 & Z8 & Z9 & _) (Z10 & Z11 & Z12 & Z13) _ _]. destruct (type_width dt (vk_dst _ _ _ _ _ _ _ _ _ _ _ _ _ _ C)) as (_ & _ & W).
  change (2 ^ 28) with 268435456 in *. change (2 ^ 29) with 536870912 in *. unfold int_max in *.
  assert (S : forall z, 0 <= z < 2147483648 -> wrap_u 32 z = z) by (intros z Hz; apply wrap_u_id; change (2 ^ 32) with 4294967296; lia).
  unfold neon8_params, kfields8, p, made_params.
  cbn [k_bias k_lhs_sums k_rhs_sums k_lhs k_lhs_base k_mult k_exp k_rhs k_rhs_base k_dst_base k_lhs_zp k_rhs_zp k_dst_zp
     k_prod_zp_depth k_start_row k_start_col k_last_row k_last_col k_dst_rows k_dst_cols k_lhs_stride k_rhs_stride k_dst_stride k_depth k_clamp_min
     k_clamp_max k_has_bias k_has_lhs_sums k_has_rhs_sums k_channel_is_col k_has_perchannel k_dst_type k_rhs_size].
  change (v_n avx2) with 8. change (it_size s8) with 1. rewrite One, S0, E8. change (8 - 8) with 0. rewrite Z4, Z5.
  rewrite (S sr), (S (er - 8)), (S (ml_rows dl)), (S K), (S (1 * K)), (S (it_size dt * ml_stride dl)), (S 0), (S 1) by nia.
  unfold flag_bits, kflags8. cbn [k_has_bias k_has_lhs_sums k_has_rhs_sums k_channel_is_col k_has_perchannel]. rewrite Ch. reflexivity.
Qed.

Lemma type_raw : raw hls (type_id dt) = ity_eqb dt s32.
Proof.
  unfold raw. pose proof (nc_int32 _ _ _ _ _ _ _ _ _ _ _ _ _ _ NC) as H. destruct (vk_dst _ _ _ _ _ _ _ _ _ _ _ _ _ _ C) as [-> | [-> | [-> | ->]]]; try apply andb_false_r.
  destruct (p_sums lp); [reflexivity|]. exfalso. apply H; reflexivity.
Qed.
Lemma type_size : size8 hls (type_id dt) = Z.to_nat (it_size dt).
Proof. unfold size8. rewrite type_raw. destruct (vk_dst _ _ _ _ _ _ _ _ _ _ _ _ _ _ C) as [-> | [-> | [-> | ->]]]; reflexivity. Qed.
Lemma type_bounds : typed8 dzp (mp_min mp) (mp_max mp) hls (type_id dt).
Proof.
  pose proof (nc_zero_point _ _ _ _ _ _ _ _ _ _ _ _ _ _ NC) as HZ. pose proof (vk_bounds _ _ _ _ _ _ _ _ _ _ _ _ _ _ C) as HB. pose proof type_raw as TR. unfold typed8.
  destruct (vk_dst _ _ _ _ _ _ _ _ _ _ _ _ _ _ C) as [E | [E | [E | E]]]; rewrite E in *; (split; [|split; [|split]]); try (intros X; discriminate X); intros _.
  - specialize (HZ ltac:(discriminate)). revert HZ HB. change (it_lo u8) with 0. change (it_hi u8) with 255. lia.
  - specialize (HZ ltac:(discriminate)). revert HZ HB. change (it_lo s8) with (-128). change (it_hi s8) with 127. lia.
  - specialize (HZ ltac:(discriminate)). revert HZ HB. change (it_lo s16) with (-32768). change (it_hi s16) with 32767. lia.
  - unfold raw in TR. destruct hls; [reflexivity|discriminate TR].
Qed.

Lemma params_mod : forall k z, lo_upper g k mod 2 ^ 32 = 0 -> 0 <= z < 2 ^ 31 -> int_reg g k z = Int z.
Proof. intros k z U H. unfold int_reg, wrap_u. rewrite U, Z.mod_small by lia. f_equal. lia. Qed.
Lemma any_reg : forall k z, 0 <= z < 2 ^ 31 -> (wrap_u 32 z + 2 ^ 32 * wrap_u 32 (lo_upper g k)) mod 2 ^ 32 = z.
Proof. intros k z H. unfold wrap_u. rewrite (Z.mul_comm (2 ^ 32)), Z.mod_add by lia. rewrite Z.mod_mod, Z.mod_small by lia. reflexivity. Qed.

(** The destination after the program. *)
Notation value := (value8 (p_data lp) (p_data rp) (k_bias p) (opt_buf (p_sums lp)) (opt_buf (p_sums rp)) (k_mult p) (k_exp p) (wrap_u 32 (p_zp lp)) (wrap_u 32 (p_zp rp)) dzp
  (wrap_u 32 (p_zp lp * p_zp rp * K)) (mp_min mp) (mp_max mp) hb hls hrs hpc (type_id dt)).
Notation NR := (Z.min (8 * nb) (ml_rows dl - sr)).

Lemma column_runs : exists s' D, run (kernel8_fuel 8 p) kernel8_dotprod_1col 0 (kernel8_start 8 g tmp p dst) = Ok s' /\ mem s' 4%nat = Bytes D /\
  written8 (p_data lp) (p_data rp) (k_bias p) (opt_buf (p_sums lp)) (opt_buf (p_sums rp)) (k_mult p) (k_exp p) (sr * pl_stride (p_layout lp)) (1 * (0 * pl_stride (p_layout rp))) (it_size dt * (0 * ml_stride dl + sr))
    (wrap_u 32 (p_zp lp)) (wrap_u 32 (p_zp rp)) dzp (wrap_u 32 (p_zp lp * p_zp rp * K)) sr 0 (pl_stride (p_layout lp)) (mp_min mp) (mp_max mp) hb hls hrs hpc (type_id dt)
    (Z.to_nat (K / 4)) NR (enc (it_size dt) dst) D.
Proof.
  destruct only_col as [S0 E8]. pose proof blocks_count as (B1 & B2 & B3). destruct sizes_ok as [(Z1 & Z2 & Z3) (Z4 & Z5) (Z6 & Z7 & Z8 & Z9 & Z14 & Z15) (Z10 & Z11 & Z12 & Z13) ZL ZR].
  pose proof (vk_dst _ _ _ _ _ _ _ _ _ _ _ _ _ _ C) as DT. destruct (type_width dt DT) as (_ & WE & W). pose proof type_size as TS.
  change (2 ^ 28) with 268435456 in *. change (2 ^ 29) with 536870912 in *. assert (IM : int_max = 2147483647) by reflexivity.
  assert (HK : 4 * Z.of_nat (S (Z.to_nat (K / 4) - 1)) = K) by (pose proof (Z.div_mod K 4); lia).
  assert (HN : S (Z.to_nat (K / 4) - 1) = Z.to_nat (K / 4)) by lia.
  pose proof (program8 (p_data lp) (p_data rp) (k_bias p) (opt_buf (p_sums lp)) (opt_buf (p_sums rp)) (k_mult p) (k_exp p) (sr * pl_stride (p_layout lp)) (1 * (0 * pl_stride (p_layout rp))) (it_size dt * (0 * ml_stride dl + sr))
    (wrap_u 32 (p_zp lp)) (wrap_u 32 (p_zp rp)) dzp (wrap_u 32 (p_zp lp * p_zp rp * K)) sr 0 (er - 8) 0 (ml_rows dl) 1 (pl_stride (p_layout lp)) (1 * pl_stride (p_layout rp))
    (it_size dt * ml_stride dl) K (mp_min mp) (mp_max mp) hb hls hrs hpc false
    (wrap_u 32 (ml_rows dl) + 2 ^ 32 * wrap_u 32 (lo_upper g 49)) (wrap_u 32 1 + 2 ^ 32 * wrap_u 32 (lo_upper g 50)) (type_id dt) (wrap_u 32 (type_id dt) + 2 ^ 32 * wrap_u 32 (lo_upper g 52))) as PR.
  pose proof (kp_bias _ _ _ _ _ _ PO) as PB. pose proof (kp_nobias _ _ _ _ _ _ PO) as PN. pose proof (kp_mult _ _ _ _ _ _ PO) as PM. pose proof (kp_exp _ _ _ _ _ _ PO) as PE. pose proof (vk_params _ _ _ _ _ _ _ _ _ _ _ _ _ _ C) as (_ & PP).
  pose proof (nc_lhs_sums _ _ _ _ _ _ _ _ _ _ _ _ _ _ NC) as SL. pose proof (nc_rhs_sums _ _ _ _ _ _ _ _ _ _ _ _ _ _ NC) as SR.
  pose proof (vk_rows _ _ _ _ _ _ _ _ _ _ _ _ _ _ C) as (_ & _ & _ & RC & _). pose proof (vk_cols _ _ _ _ _ _ _ _ _ _ _ _ _ _ C) as (_ & _ & _ & CC & _).
  change (k_has_bias p) with hb in *. change (k_has_perchannel p) with hpc in *. unfold chan_at in *. change (k_channel_is_col p) with (match mp_chan mp with ChCol => true | ChRow => false end) in *. rewrite Ch in *.
  change (k_last_row p) with (er - 8) in *. change (v_n avx2) with 8 in *. change (k_dst_type p) with dt in *.
  assert (LM : (if hpc then er else 8) <= blen (k_mult p) /\ (if hpc then er else 8) <= blen (k_exp p)).
  { destruct (ity_eqb dt s32) eqn:E32.
    - assert (NP : hpc = false /\ blen (k_mult p) = 8 /\ blen (k_exp p) = 8).
      { unfold p, made_params. cbn [k_mult k_exp]. unfold multiplier_fixedpoint_perchannel. destruct (mp_perchannel mp); [exfalso; apply (proj1 PP); destruct DT as [X|[X|[X|X]]]; rewrite X in *; (discriminate E32 || reflexivity)|]. repeat split. }
      destruct NP as (-> & -> & ->). lia.
    - assert (N32 : dt <> s32) by (intros ->; discriminate E32). specialize (PM N32). specialize (PE N32). destruct hpc; lia. }
  specialize (PR ltac:(lia) ltac:(lia) ltac:(rewrite Z4, Z5; nia) (any_reg 49 (ml_rows dl) ltac:(lia)) (any_reg 50 1 ltac:(lia)) (any_reg 52 (type_id dt) ltac:(pose proof (type_id_range dt DT); lia)) (type_id_range dt DT) eq_refl nb ltac:(lia) type_bounds (Z.to_nat (K / 4) - 1)%nat (enc (it_size dt) dst) {| blen := 4 * 8 * 8; bdat := tmp |} (kernel8_start 8 g tmp p dst) HK ltac:(lia)).
  rewrite HN in PR. specialize (PR ltac:(rewrite Z4; nia) ltac:(rewrite Z5; lia)).
  specialize (PR ltac:(destruct hb; [specialize (PB eq_refl); lia|specialize (PN eq_refl); lia])).
  specialize (PR ltac:(destruct (p_sums rp) as [b|] eqn:ES; [intros _; specialize (SR b ES); cbn [opt_buf]; lia|discriminate])).
  specialize (PR ltac:(destruct (p_sums lp) as [b|] eqn:ES; [intros _; specialize (SL b ES); cbn [opt_buf]; lia|discriminate])).
  specialize (PR ltac:(destruct hpc; lia) ltac:(destruct hpc; lia)).
  assert (HQ : raw hls (type_id dt) = false -> forall r, 0 <= r < (if hpc then sr + 8 * nb else 8) -> fixed_point (bdat (k_mult p) r) /\ exponent (bdat (k_exp p) r)).
  { rewrite type_raw. intros E32 r Hr. assert (N32 : dt <> s32) by (intros E; rewrite E in E32; discriminate E32). destruct (PM N32) as (_ & F1). destruct (PE N32) as (_ & F2).
    split; [apply F1|apply F2]; destruct hpc; lia. }
  specialize (PR HQ). rewrite TS, <- WE in PR. change (blen (enc (it_size dt) dst)) with (it_size dt * blen dst) in PR. specialize (PR ltac:(nia) ltac:(nia)).
  destruct (reach_run _ _ _ _ _ (kernel8_fuel 8 p) (PR ltac:(constructor; try reflexivity; cbn [kernel8_start mem kernel8_memory]; rewrite column_fields; reflexivity) ltac:(cbn [blen]; lia)
    ltac:(reflexivity) ltac:(unfold kernel8_start, kernel8_regs; cbn [xs]; unfold p, made_params; cbn [k_rhs_base]; rewrite S0; reflexivity) ltac:(reflexivity) ltac:(unfold kernel8_start, kernel8_regs; cbn [xs]; unfold p, made_params; cbn [k_rhs_base]; rewrite S0; reflexivity)
    ltac:(unfold kernel8_start, kernel8_regs; cbn [xs]; unfold p, made_params; cbn [k_dst_base]; rewrite S0; reflexivity) ltac:(unfold kernel8_start, kernel8_regs; cbn [xs]; unfold p, made_params; cbn [k_dst_base]; rewrite S0; reflexivity)
    ltac:(apply (params_mod 46); [exact U46|unfold p, made_params; cbn [k_start_row]; lia])
    ltac:(unfold kernel8_start, kernel8_regs; cbn [xs]; unfold p, made_params; cbn [k_start_col]; rewrite S0; apply (params_mod 47); [exact U47|lia]) ltac:(reflexivity) ltac:(reflexivity)
    ltac:(unfold kernel8_start, kernel8_regs; cbn [xs]; unfold p, made_params; cbn [k_dst_cols]; rewrite One; reflexivity) ltac:(reflexivity) ltac:(reflexivity)
    ltac:(unfold full, kernel8_start; cbn [vs]; rewrite firstn_length, app_length, repeat_length; lia))) as (s' & ER & pc & HP).
  - unfold kernel8_fuel. change (k_depth p) with K. change (k_last_row p - k_start_row p) with (er - 8 - sr). replace ((er - 8 - sr) / 8 + 1) with nb by (replace (er - 8 - sr) with (er - sr + (-1) * 8) by ring; rewrite Z.div_add by lia; ring).
    replace (k_last_col p - k_start_col p) with 0 by (unfold p, made_params; cbn [k_last_col k_start_col]; change (v_n avx2) with 8; lia). change (0 / 8 + 1) with 1. nia.
  - intros pc' s' (-> & _). reflexivity.
  - destruct HP as (_ & D & T & KM & HW). exists s', D. split; [exact ER|]. split; [apply (k8_4 _ _ _ _ _ _ _ _ _ _ _ _ _ _ _ _ _ _ _ _ _ _ _ _ _ _ _ _ _ _ _ _ _ _ KM)|]. exact HW.
Qed.

(** The value of an entry. *)
Lemma column_entry : forall i, sr <= i < Z.min er (ml_rows dl) ->
  neon_result dt mp dzp i 0 (exact_accumulator K (p_zp lp) (p_zp rp) L R mp i 0)
    (it_conv dt (value (Z.to_nat (K / 4)) (sr + 8 * ((i - sr) / 8)) 0 (sr * pl_stride (p_layout lp) + 8 * pl_stride (p_layout lp) * ((i - sr) / 8)) (1 * (0 * pl_stride (p_layout rp))) (Z.to_nat ((i - sr) mod 8)))).
Proof.
  intros i Hi. destruct only_col as [S0 E8]. pose proof blocks_count as (B1 & B2 & B3). destruct sizes_ok as [(Z1 & Z2 & Z3) (Z4 & Z5) (Z6 & Z7 & Z8 & Z9 & Z14 & Z15) _ ZL ZR].
  pose proof (vk_dst _ _ _ _ _ _ _ _ _ _ _ _ _ _ C) as DT. pose proof (vk_bounds _ _ _ _ _ _ _ _ _ _ _ _ _ _ C) as (CB1 & CB2). pose proof (vk_params _ _ _ _ _ _ _ _ _ _ _ _ _ _ C) as (_ & PM).
  set (b := (i - sr) / 8). set (r := (i - sr) mod 8). assert (DM : i = sr + 8 * b + r) by (pose proof (Z.div_mod (i - sr) 8); subst b r; lia).
  assert (HR : 0 <= r < 8) by (apply Z.mod_pos_bound; lia). assert (HB : 0 <= b) by (apply Z.div_pos; lia). assert (HBN : b < nb) by (apply Z.div_lt_upper_bound; lia). clearbody b r.
  assert (HRN : r = Z.of_nat (Z.to_nat r)) by lia. set (row := sr + 8 * b) in *.
  assert (Rm : row mod 8 = 0) by (subst row; rewrite Z.mul_comm, Z.mod_add by lia; exact Z14).
  replace (sr * pl_stride (p_layout lp) + 8 * pl_stride (p_layout lp) * b) with (row * pl_stride (p_layout lp)) by (subst row; ring).
  change (1 * (0 * pl_stride (p_layout rp))) with (0 * pl_stride (p_layout rp)).
  assert (HK : 4 * Z.of_nat (Z.to_nat (K / 4)) = K) by (pose proof (Z.div_mod K 4); lia).
  assert (AC : wrap_u 32 (acc8 (p_data lp) (p_data rp) (k_bias p) (opt_buf (p_sums lp)) (opt_buf (p_sums rp)) (wrap_u 32 (p_zp lp)) (wrap_u 32 (p_zp rp)) (wrap_u 32 (p_zp lp * p_zp rp * K))
      hb hls hrs (Z.to_nat (K / 4)) row 0 (row * pl_stride (p_layout lp)) (0 * pl_stride (p_layout rp)) (Z.to_nat r)) = wrap_u 32 (exact_accumulator K (p_zp lp) (p_zp rp) L R mp i 0)).
  { rewrite <- (acc_congruent avx2 true s8 dt lp rp L R mp sr sc er ec dl dzp dst avx2_ok C i 0 Hi ltac:(change (ml_cols dl) with (ml_cols dl); rewrite One; lia)).
    replace i with (row + Z.of_nat (Z.to_nat r)) by lia. change (v_n avx2) with 8. fold p.
    apply (acc8_at p (pl_stride (p_layout rp)) row 0 (Z.to_nat r) (Z.to_nat (K / 4)) (row * pl_stride (p_layout lp)) (0 * pl_stride (p_layout rp))).
    - unfold p, made_params. cbn [k_channel_is_col]. rewrite Ch. reflexivity.
    - intros Hn. apply (kp_nobias _ _ _ _ _ _ PO Hn).
    - exact HK.
    - apply (dotted_upto p (pl_stride (p_layout rp)) row 0 (Z.to_nat r) 0 Rm eq_refl ltac:(lia) ltac:(lia) ltac:(lia) ltac:(lia)).
      + change (k_lhs_stride p) with (pl_stride (p_layout lp)). lia.
      + lia.
      + exact (kp_lhs_bits _ _ _ _ _ _ PO).
      + exact (kp_rhs_bits _ _ _ _ _ _ PO).
      + change (k_lhs_stride p) with (pl_stride (p_layout lp)). change (k_lhs p) with (p_data lp). rewrite Z4. assert ((row + 8) * K <= er * K) by (apply Z.mul_le_mono_nonneg_r; lia). lia.
      + change (k_rhs p) with (p_data rp). lia. }
  revert AC. generalize (exact_accumulator K (p_zp lp) (p_zp rp) L R mp i 0). intros acc AC. unfold neon_result, value8. rewrite type_raw. destruct (ity_eqb dt s32) eqn:Es.
  - assert (Ed : it_conv dt = wrap_s 32) by (destruct DT as [T | [T | [T | T]]]; rewrite T in *; try discriminate; reflexivity). rewrite Ed.
    rewrite <- (wrap_s_u 32 acc), <- AC, wrap_s_u by lia. reflexivity.
  - assert (Ns : dt <> s32) by (intros E; rewrite E in Es; discriminate). pose proof (nc_bounds _ _ _ _ _ _ _ _ _ _ _ _ _ _ NC Ns) as MM.
    assert (Hm : mult8 (k_mult p) hpc row (Z.to_nat r) = multiplier_at mp i 0 /\ expo8 (k_exp p) hpc row (Z.to_nat r) = exponent_at mp i 0).
    { unfold mult8, expo8, chan8, multiplier_at, exponent_at, channel_at, p, made_params. cbn [k_mult k_exp]. rewrite Ch.
      unfold multiplier_fixedpoint_perchannel, multiplier_exponent_perchannel, multiplier_fixedpoint, multiplier_exponent. destruct (mp_perchannel mp).
      - destruct PM as (_ & m & e & -> & -> & _). cbn [is_some opt_buf]. replace (row + Z.of_nat (Z.to_nat r)) with i by lia. split; reflexivity.
      - split; reflexivity. }
    destruct Hm as (-> & ->). rewrite (lane_cong _ _ _ _ AC). exists (neon_lane acc (multiplier_at mp i 0) (exponent_at mp i 0)). split; [apply neon_rounded|].
    match goal with |- clamped _ _ ?a _ => set (q := a) end. rewrite conv_id; [|exact DT|unfold between; clear - CB1 CB2; lia]. unfold clamped, between. clearbody q. clear - MM. lia.
Qed.

Theorem column_computes : exists dst', kernel_8bit_neon dbg true t g tmp dt lp rp mp sr sc er ec dl dzp dst = Ok dst' /\
  block_computed (fun i j => neon_result dt mp dzp i j (exact_accumulator K (p_zp lp) (p_zp rp) L R mp i j)) sr sc er ec dl dst dst'.
Proof.
  destruct column_runs as (s' & D & E & ED & HW). destruct only_col as [S0 E8]. pose proof blocks_count as (B1 & B2 & B3). pose proof (vk_dst _ _ _ _ _ _ _ _ _ _ _ _ _ _ C) as DT.
  destruct sizes_ok as [_ _ (Z6 & Z7 & _) (Z10 & Z11 & Z12 & _) _ _]. destruct (type_width dt DT) as (W & WE & _). pose proof (nc_dst _ _ _ _ _ _ _ _ _ _ _ _ _ _ NC) as TY.
  exists (dec dt dst D). split.
  - unfold kernel_8bit_neon, kernel8_block, kernel8_code. rewrite One, Ch. cbn [Z.eqb Pos.eqb andb].
    pose proof (made_ok avx2 true dbg s8 dt lp rp L R mp sr sc er ec dl dzp dst avx2_ok (or_introl eq_refl) C) as MO. change (v_n avx2) with 8 in MO. rewrite MO. cbn [bind]. fold p. rewrite E. cbn [bind]. rewrite ED. reflexivity.
  - destruct HW as (_ & HW). rewrite type_size in HW. replace (it_size dt * (0 * ml_stride dl + sr)) with (Z.of_nat (Z.to_nat (it_size dt)) * sr) in HW by (rewrite <- WE; ring).
    pose proof (elements (Z.to_nat (it_size dt)) (fun b => value (Z.to_nat (K / 4)) (sr + 8 * b) 0 (sr * pl_stride (p_layout lp) + 8 * pl_stride (p_layout lp) * b) (1 * (0 * pl_stride (p_layout rp)))) sr NR (enc (it_size dt) dst) D W) as EL.
    unfold out8 in HW. rewrite type_size in HW. specialize (EL HW). rewrite <- WE in EL.
    pose proof (vk_layout _ _ _ _ _ _ _ _ _ _ _ _ _ _ C) as (_ & DO & _). split; [reflexivity|]. unfold position, in_matrix. rewrite DO, One. split.
    + intros i j Hi Hj (Hm1 & Hm2). assert (j = 0) by lia. subst j. replace (0 * ml_stride dl + i) with i by ring.
      rewrite (dec_value dt dst D i (value (Z.to_nat (K / 4)) (sr + 8 * ((i - sr) / 8)) 0 (sr * pl_stride (p_layout lp) + 8 * pl_stride (p_layout lp) * ((i - sr) / 8)) (1 * (0 * pl_stride (p_layout rp))) (Z.to_nat ((i - sr) mod 8))) DT ltac:(lia)).
      * apply column_entry. lia.
      * rewrite EL. replace (_ && _) with true by (symmetry; apply andb_true_intro; split; [apply Z.leb_le|apply Z.ltb_lt]; lia). reflexivity.
    + intros q Hq. apply dec_same; [exact DT|exact TY|]. rewrite EL. destruct ((sr <=? q) && (q <? sr + NR)) eqn:EQ; [|reflexivity].
      exfalso. apply (Hq q 0); lia.
Qed.
End Column.
