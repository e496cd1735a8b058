(** Four rows are packed by Pack8bitRowMajorForNeonDotprod (ruy/pack_arm.cc:1587-1737). *)
From Coq Require Import ZArith List Bool Lia.
From Verif Require Import Base SidePair Mat MatFacts Scalars IntOps Pack Kernel SpecArith SpecMatrix SpecPack PackFacts Simd SimdFacts SpecPackX86 Neon64 NeonRun NeonTac NeonCols
  NeonPackCode NeonPackDot NeonPackMath NeonPack NeonPackBytes SpecPackNeon NeonPackFacts NeonPackBlock NeonPackRow NeonPackRowRun NeonPackRowMath SpecPackNeonRow.
Import ListNotations.
Open Scope Z_scope.

Section Block.
Variables (st : ity) (src : mat Z) (p : pmat Z) (a b br : Z) (sums : buf Z) (g : leftover).
Hypothesis Hst : st = s8 \/ st = u8.
Hypothesis HV : valid_matrix src.
Hypothesis Ho : ml_order (m_layout src) = RowMajor.
Hypothesis HP : packed_for src bytes_4x8 p.
Hypothesis Hz : p_zp p = it_conv s8 (m_zp src - middle st).
Hypothesis Ht : typed s8 (p_data p).
Hypothesis Hs : p_sums p = Some sums.
Hypothesis Hts : typed s32 sums.
Hypothesis Hab : 0 <= a < b.
Hypothesis Hb : b <= pl_cols (p_layout p).
Hypothesis Da : (8 | a).
Hypothesis Db : (8 | b).
Hypothesis Hbr : 0 <= br.
Hypothesis Hbr4 : br + 4 <= pl_rows (p_layout p).
Hypothesis Dbr : (4 | br).

Notation rows := (ml_rows (m_layout src)).
Notation cols := (ml_cols (m_layout src)).
Notation stride := (ml_stride (m_layout src)).
Notation Rp := (pl_rows (p_layout p)).
Definition N : Z := Z.min b cols - a.
Definition away (j : nat) : bool := rows - Z.of_nat j <=? br.
Definition zbuf8 : buf Z := {| blen := 8; bdat := fun _ => wrap_u 8 (m_zp src) |}.
Definition rblk (j : nat) : nat := if away j then zero_block else src_block.
Definition rsb (j : nat) : buf Z := if away j then zbuf8 else enc 1 (m_data src).
Definition rso (j : nat) : Z := if away j then 0 else stride * br + a + Z.of_nat j * stride.
Definition rinc (j : nat) : Z := if away j then 0 else 8.

Lemma sizes : 0 < N /\ N < 2 ^ 31 /\ a + 8 * Z.of_nat (groups N) = b /\ 0 <= stride /\ cols <= stride /\ stride * rows <= blen (m_data src) /\ stride * rows <= int_max /\ br < rows /\
  0 <= Rp * a /\ Rp * b <= Rp * pl_cols (p_layout p) /\ Rp * pl_cols (p_layout p) <= int_max /\ 8 * Rp <= Rp * pl_cols (p_layout p) /\ Rp * pl_cols (p_layout p) <= blen (p_data p) /\
  pl_cols (p_layout p) <= blen sums /\ pl_stride (p_layout p) = Rp /\ pl_kernel (p_layout p) = bytes_4x8.
Proof.
  destruct HV as ((H1 & H2 & H3 & H4) & H5). unfold inner_size, outer_size in *. rewrite Ho in *.
  destruct HP as ((Kl & Or & St & Ru & Cu & RM & CM & RC) & Hlen & Hsl). cbn [bytes_4x8 kl_rows kl_cols] in Ru, Cu.
  destruct Ru as (_ & Ru1 & Ru2). destruct Cu as ([w Hw] & Cu1 & Cu2). specialize (Hsl sums Hs). destruct Dbr as [x Hx]. destruct Da as [y Hy]. destruct Db as [v Hv].
  assert (HN : 0 < N) by (unfold N; lia).
  assert (HG : a + 8 * Z.of_nat (groups N) = b).
  { destruct (rest_bound N HN) as (_ & Lr & EN). unfold groups. destruct (Nat.eqb_spec (rest N) 0) as [E|E]; unfold N in *; lia. }
  assert (0 <= Rp * a) by (apply Z.mul_nonneg_nonneg; lia).
  assert (Rp * b <= Rp * pl_cols (p_layout p)) by (apply Z.mul_le_mono_nonneg_l; lia).
  assert (8 * Rp <= Rp * pl_cols (p_layout p)) by (rewrite (Z.mul_comm 8); apply Z.mul_le_mono_nonneg_l; lia).
  unfold int_max in *. repeat split; try assumption; try lia. unfold N. lia.
Qed.

Lemma row_value : forall zz ix j gr t, zz mod 256 = m_zp src mod 256 -> ix mod 256 = neon_xor st -> (gr < groups N)%nat -> (t < 8)%nat ->
  wrap_s 8 (Z.lxor (nth t (rv rsb rso rinc N zz j gr) 0) (ix mod 256)) = filled_value st s8 src (p_zp p) (br + Z.of_nat j) (a + 8 * Z.of_nat gr + Z.of_nat t).
Proof.
  intros zz ix j gr t Mz Mx Hg Htt. destruct sizes as (HN & _ & HG & _). rewrite rv_nth by assumption. unfold filled_value.
  replace (a + 8 * Z.of_nat gr + Z.of_nat t <? cols) with (8 * Z.of_nat gr + Z.of_nat t <? N) by (unfold N; lia).
  replace (br + Z.of_nat j <? rows) with (negb (away j)) by (unfold away; lia). unfold rsb, rso, rinc.
  destruct (8 * Z.of_nat gr + Z.of_nat t <? N).
  - destruct (away j); cbn [negb andb].
    + unfold zbuf8. cbn [bdat]. unfold wrap_u. change (2 ^ 8) with 256. rewrite xor_value with (st := st) by assumption. symmetry. exact Hz.
    + rewrite enc1. rewrite xor_value with (st := st) by assumption. unfold entry, position. rewrite Ho. do 3 f_equal. ring.
  - rewrite andb_false_r. rewrite Mz. rewrite xor_value with (st := st) by assumption. symmetry. exact Hz.
Qed.

Lemma row_read : forall j k n, 8 * Z.of_nat k + Z.of_nat n <= N -> (n <= 8)%nat -> 0 <= at_ rso rinc j k /\ at_ rso rinc j k + Z.of_nat n <= blen (rsb j).
Proof.
  intros j k n Hk Hn. destruct sizes as (HN & _ & HG & S1 & S2 & S3 & _). unfold at_, rso, rinc, rsb, away. destruct (Z.leb_spec (rows - Z.of_nat j) br) as [G|G]; cbn [zbuf8 blen enc]; [lia|].
  assert (A : stride * (br + Z.of_nat j + 1) <= stride * rows) by (apply Z.mul_le_mono_nonneg_l; lia).
  assert (B : 0 <= stride * (br + Z.of_nat j)) by (apply Z.mul_nonneg_nonneg; lia). unfold N in Hk. lia.
Qed.

Lemma poff_here : forall r c, br <= r < br + 4 -> a <= c < b -> exists gr t j, (gr < groups N)%nat /\ (t < 8)%nat /\ (j < 4)%nat /\ r = br + Z.of_nat j /\ c = a + 8 * Z.of_nat gr + Z.of_nat t.
Proof.
  intros r c Hr Hc. destruct sizes as (HN & _ & HG & _). exists (Z.to_nat ((c - a) / 8)), (Z.to_nat ((c - a) mod 8)), (Z.to_nat (r - br)).
  pose proof (Z.div_mod (c - a) 8 ltac:(lia)). pose proof (Z.mod_pos_bound (c - a) 8 ltac:(lia)). pose proof (Z.div_pos (c - a) 8 ltac:(lia) ltac:(lia)). lia.
Qed.
Lemma poff_at : forall gr t j, (t < 8)%nat -> (j < 4)%nat ->
  poff (p_layout p) (br + Z.of_nat j) (a + 8 * Z.of_nat gr + Z.of_nat t) = Rp * a + 8 * br + 8 * Rp * Z.of_nat gr + 4 * Z.of_nat t + Z.of_nat j.
Proof.
  intros gr t j Htt Hj. destruct sizes as (_ & _ & _ & _ & _ & _ & _ & _ & _ & _ & _ & _ & _ & _ & _ & K). unfold poff. rewrite K. cbn [bytes_4x8 kl_rows kl_cols kl_order].
  destruct Da as [y Hy]. destruct Dbr as [x Hx].
  rewrite (div_at (a + 8 * Z.of_nat gr + Z.of_nat t) 8 (y + Z.of_nat gr) (Z.of_nat t)), (mod_at (a + 8 * Z.of_nat gr + Z.of_nat t) 8 (y + Z.of_nat gr) (Z.of_nat t)) by lia.
  rewrite (div_at (br + Z.of_nat j) 4 x (Z.of_nat j)), (mod_at (br + Z.of_nat j) 4 x (Z.of_nat j)) by lia. subst a br. ring.
Qed.

Definition four_rows (c : Z) : Z :=
  filled_value st s8 src (p_zp p) br c + filled_value st s8 src (p_zp p) (br + 1) c + filled_value st s8 src (p_zp p) (br + 2) c + filled_value st s8 src (p_zp p) (br + 3) c.

Lemma row_block : exists d s', neon_row_block g st src a b br p = Ok {| p_data := d; p_sums := Some s'; p_layout := p_layout p; p_zp := p_zp p |} /\
  blen d = blen (p_data p) /\ typed s8 d /\ blen s' = blen sums /\ typed s32 s' /\
  (forall r c, br <= r < br + 4 -> a <= c < b -> bdat d (poff (p_layout p) r c) = filled_value st s8 src (p_zp p) r c) /\
  (forall i, (forall r c, br <= r < br + 4 -> a <= c < b -> i <> poff (p_layout p) r c) -> bdat d i = bdat (p_data p) i) /\
  (forall c, a <= c < b -> bdat s' c = wrap_s 32 (bdat sums c + four_rows c)) /\
  (forall c, ~ (a <= c < b) -> bdat s' c = bdat sums c).
Proof.
  pose proof sizes as (HN & HN2 & HG & S1 & S2 & S3 & S4 & S5 & S6 & S7 & S8 & S9 & S10 & S11 & S12 & S13).
  destruct (rest_bound N HN) as (_ & Lr & EN).
  assert (Sb : 0 <= stride * br <= int_max) by (split; [apply Z.mul_nonneg_nonneg; lia|eapply Z.le_trans; [|exact S4]; apply Z.mul_le_mono_nonneg_l; lia]).
  destruct (int_reg_mod g 51 (m_zp src)) as (zz & Ezz & Mzz). destruct (int_reg_mod g 52 (neon_xor st)) as (ix & Eix & Mix). destruct (int_reg_mod g 53 N) as (Nz & ENz & MN).
  apply mod_256 in Mzz. apply mod_256 in Mix. rewrite (Z.mod_small (neon_xor st)) in Mix by (unfold neon_xor; destruct (it_signed st); lia).
  assert (Ri : forall k z, exists w, int_reg g k z = Int w /\ (0 <= z < 2 ^ 31 -> wrap_s 32 w = z)).
  { intros k z. destruct (int_reg_mod g k z) as (w & E & M). exists w. split; [exact E|]. intros Hw. rewrite <- (SimdFacts.wrap_s_mod 32 w), M, (SimdFacts.wrap_s_mod 32 z) by lia. apply wrap_s_small; lia. }
  destruct (Ri 44%nat (rinc 0)) as (w0 & E0 & M0). destruct (Ri 45%nat (rinc 1)) as (w1 & E1 & M1). destruct (Ri 46%nat (rinc 2)) as (w2 & E2 & M2). destruct (Ri 47%nat (rinc 3)) as (w3 & E3 & M3).
  assert (RI : forall j, 0 <= rinc j < 2 ^ 31) by (intros j; unfold rinc; destruct (away j); lia).
  set (zi := fun j => match j with 0%nat => w0 | 1%nat => w1 | 2%nat => w2 | 3%nat => w3 | _ => rinc j end).
  assert (Hzi : forall j, wrap_s 32 (zi j) = rinc j).
  { intros j. unfold zi. do 4 (destruct j as [|j]; [auto|]). apply wrap_s_small; [lia|]. specialize (RI (S (S (S (S j))))). lia. }
  unfold neon_row_block. rewrite i32_ok by (unfold int_min, int_max in *; lia). cbn [bind]. fold N. rewrite i32_ok by (unfold int_min, int_max in *; lia). cbn [bind].
  assert (8 * br <= 8 * Rp) by lia. assert (Rp * a <= Rp * b) by (apply Z.mul_le_mono_nonneg_l; lia).
  rewrite S12. rewrite i32_ok by (unfold int_min, int_max in *; lia). cbn [bind]. rewrite i32_ok by (unfold int_min, int_max in *; lia). cbn [bind].
  rewrite Hs. cbn [option_map].
  set (m0 := pack_memory (enc 1 (m_data src)) {| blen := 8; bdat := fun _ => wrap_u 8 (m_zp src) |} (enc 1 (p_data p)) (Some (enc 4 sums))).
  match goal with |- context [run _ _ 0 ?s] => set (s0 := s) end.
  assert (EROW : forall j, neon_row (stride * br + a) stride rows br j = (Ptr (rblk j) (rso j), rinc j)).
  { intros j. unfold neon_row, rblk, rso, rinc, away. destruct (rows - Z.of_nat j <=? br); reflexivity. }
  assert (R : reach (82 + 30 * pieces N) pack8_row_dotprod 0 s0 (fun pc s' => pc = 107%nat /\
    stored m0 packed_block sums_block rsb rso rinc (enc 1 (p_data p)) (enc 4 sums) (Rp * a + 8 * br) (4 * a) Rp N zz ix s')).
  { apply (whole m0 packed_block sums_block rblk rsb rso rinc (enc 1 (p_data p)) (enc 4 sums) (Rp * a + 8 * br) (4 * a) Rp N zz ix Nz) with (zi := zi).
    - discriminate.
    - intros j. unfold rblk, rsb. destruct (away j); reflexivity.
    - intros j. unfold rblk. destruct (away j); discriminate.
    - intros j. unfold rblk. destruct (away j); discriminate.
    - intros j. apply RI.
    - intros j. unfold rso. destruct (away j); [lia|]. pose proof (Z.mul_nonneg_nonneg (Z.of_nat j) stride ltac:(lia) S1). lia.
    - rewrite <- (SimdFacts.wrap_s_mod 32 Nz), MN, (SimdFacts.wrap_s_mod 32 N) by lia. apply wrap_s_small; lia.
    - exact HN.
    - unfold int_max in *. lia.
    - intros j k Hj Hk. change 8 with (Z.of_nat 8). apply row_read; lia.
    - intros j Hj. apply row_read; lia.
    - split; [lia|]. intros k Hk. cbn [enc blen]. assert (Rp * (a + 8 * Z.of_nat k + 8) <= Rp * b) by (apply Z.mul_le_mono_nonneg_l; lia). lia.
    - split; [lia|]. cbn [enc blen]. lia.
    - exact Hzi.
    - constructor; unfold s0; cbn [xs row_regs]; rewrite EROW; reflexivity.
    - unfold s0. cbn [xs row_regs]. rewrite EROW. exact E0.
    - unfold s0. cbn [xs row_regs]. rewrite EROW. exact E1.
    - unfold s0. cbn [xs row_regs]. rewrite EROW. exact E2.
    - unfold s0. cbn [xs row_regs]. rewrite EROW. exact E3.
    - reflexivity.
    - reflexivity.
    - exact Ezz.
    - exact Eix.
    - exact ENz.
    - unfold s0. cbn [xs row_regs]. rewrite wrap_u_small by (unfold int_max in *; lia). reflexivity.
    - split; [reflexivity|]. split; [reflexivity|]. intros; reflexivity. }
  eapply reach_run with (fuel := row_fuel N) in R; [|unfold row_fuel, pieces; lia|intros pc' s' [-> _]; reflexivity].
  destruct R as (s' & Er & _ & _ & (EP & EU & _)). rewrite Er. cbn [bind]. rewrite EP, EU.
  set (gs := groups N) in *. eexists. eexists. split; [reflexivity|]. cbn [dec blen]. split; [reflexivity|]. split; [apply dec8_typed|]. split; [reflexivity|]. split; [apply dec32_typed|].
  assert (HRp : 4 <= Rp) by lia.
  assert (WORD : forall d w, it_conv s32 (of_bytes (get_bytes d (4 * w) (Z.to_nat 4))) = sword d (4 * w)) by reflexivity.
  split; [|split; [|split]].
  - intros r c Hr Hc. destruct (poff_here r c Hr Hc) as (gr & t & j & Hgr & Htt & Hj & -> & ->). rewrite poff_at by assumption. fold gs in Hgr.
    assert (Rp * (a + 8 * Z.of_nat gr + 8) <= Rp * b) by (apply Z.mul_le_mono_nonneg_l; lia). assert (0 <= 8 * Rp * Z.of_nat gr) by (apply Z.mul_nonneg_nonneg; lia).
    rewrite dec8_in by lia. rewrite outp_in by (assumption || lia). apply row_value; try assumption.
  - intros i Hi. apply dec8_same; [exact Ht|]. apply outp_out; [exact HN|]. intros gr Hgr Hin.
    set (e := i - (Rp * a + 8 * br + 8 * Rp * Z.of_nat gr)) in *. pose proof (Z.div_mod e 4 ltac:(lia)) as D. pose proof (Z.mod_pos_bound e 4 ltac:(lia)) as M. pose proof (Z.div_pos e 4 ltac:(lia) ltac:(lia)) as D0.
    apply (Hi (br + Z.of_nat (Z.to_nat (e mod 4))) (a + 8 * Z.of_nat gr + Z.of_nat (Z.to_nat (e / 4)))); [clear - M; lia|clear - D M D0 Hin Hgr HG Hab; lia|].
    rewrite poff_at by (clear - D M D0 Hin; lia). rewrite !Z2Nat.id by (clear - M D0; lia). unfold e in D at 1. clear - D. lia.
  - intros c Hc. destruct (poff_here br c ltac:(lia) Hc) as (gr & t & j & Hgr & Htt & Hj & _ & ->). fold gs in Hgr. rewrite dec32_in by lia. rewrite WORD.
    replace (4 * (a + 8 * Z.of_nat gr + Z.of_nat t)) with (4 * a + 32 * Z.of_nat gr + 4 * Z.of_nat t) by ring. rewrite (outu_in ix rsb rso rinc (enc 4 sums) (4 * a) N zz) by assumption.
    unfold four_sum. rewrite !(row_value zz ix) by assumption. cbn [Z.of_nat Pos.of_succ_nat Pos.succ]. rewrite Z.add_0_r. unfold four_rows.
    f_equal. f_equal. unfold sword. replace (4 * a + 32 * Z.of_nat gr + 4 * Z.of_nat t) with (4 * (a + 8 * Z.of_nat gr + Z.of_nat t)) by ring.
    pose proof (enc4_word sums (a + 8 * Z.of_nat gr + Z.of_nat t)) as EW. change (Z.to_nat 4) with 4%nat in EW. rewrite EW, (SimdFacts.wrap_s_mod 32) by lia.
    apply (conv32_id (bdat sums (a + 8 * Z.of_nat gr + Z.of_nat t))). apply Hts. lia.
  - intros c Hc. apply dec32_same; [exact Hts|]. intros e He. apply (outu_out ix rsb rso rinc (enc 4 sums) (4 * a) N zz); try assumption. fold gs. lia.
Qed.
End Block.
