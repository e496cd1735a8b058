(** What a block of four columns holds after the call. *)
From Coq Require Import ZArith List Bool Lia.
From Verif Require Import Base SidePair Mat MatFacts Scalars IntOps Pack SpecArith SpecMatrix SpecPack PackFacts PackProps Simd SimdFacts SpecPackX86 Neon64 NeonTac
  NeonPackMath NeonPack NeonPackBytes SpecPackNeon NeonPackFacts.
Import ListNotations.
Open Scope Z_scope.

Record block_done (st pt : ity) (src : mat Z) (bc : Z) (p q : pmat Z) : Prop := {
  bd_shape : p_layout q = p_layout p /\ p_zp q = p_zp p /\ blen (p_data q) = blen (p_data p);
  bd_typed : typed pt (p_data q);
  bd_values : forall r c, 0 <= r < pl_rows (p_layout p) -> bc <= c < bc + 4 -> bdat (p_data q) (poff (p_layout p) r c) = filled_value st pt src (p_zp p) r c;
  bd_rest : forall i, (forall r c, 0 <= r < pl_rows (p_layout p) -> bc <= c < bc + 4 -> i <> poff (p_layout p) r c) -> bdat (p_data q) i = bdat (p_data p) i;
  bd_sums : match p_sums p, p_sums q with
    | None, None => True
    | Some s, Some s' => blen s' = blen s /\ typed s32 s' /\
        (forall c, bc <= c < bc + 4 -> bdat s' c = wrap_s 32 (zsum (map (fun r => filled_value st pt src (p_zp p) r c) (zrange 0 (pl_rows (p_layout p)))))) /\
        (forall c, ~ (bc <= c < bc + 4) -> bdat s' c = bdat s c)
    | _, _ => False
    end
}.

(** The values of bytes. *)
Lemma byte_value : forall st src zp bc zz ix r c, (st = s8 \/ st = u8) -> ml_order (m_layout src) = ColMajor -> zp = it_conv s8 (m_zp src - middle st) ->
  zz mod 256 = m_zp src mod 256 -> ix mod 256 = neon_xor st -> 0 <= r ->
  wrap_s 8 (bval (csb 1 (wrap_u 8 (m_zp src)) (m_data src) (ml_cols (m_layout src)) bc) (cso 1 (ml_stride (m_layout src) * bc) (ml_stride (m_layout src)) (ml_cols (m_layout src)) bc)
    (cinc (ml_cols (m_layout src)) bc) (ml_rows (m_layout src)) zz ix c r) = filled_value st s8 src zp r (bc + Z.of_nat c).
Proof.
  intros st src zp bc zz ix r c Hst Ho Hz Mz Mx Hr. rewrite bval_at by exact Hr. unfold filled_value, gone.
  replace (bc + Z.of_nat c <? ml_cols (m_layout src)) with (negb (ml_cols (m_layout src) - Z.of_nat c <=? bc)).
  2:{ destruct (Z.leb_spec (ml_cols (m_layout src) - Z.of_nat c) bc); destruct (Z.ltb_spec (bc + Z.of_nat c) (ml_cols (m_layout src))); try reflexivity; lia. }
  destruct (r <? ml_rows (m_layout src)); cbn [andb].
  - destruct (ml_cols (m_layout src) - Z.of_nat c <=? bc); cbn [negb].
    + unfold wrap_u. change (2 ^ 8) with 256. rewrite xor_value with (st := st) by assumption. symmetry. exact Hz.
    + rewrite enc1. rewrite xor_value with (st := st) by assumption. unfold entry, position. rewrite Ho. do 3 f_equal. ring.
  - rewrite Mz. rewrite xor_value with (st := st) by assumption. symmetry. exact Hz.
Qed.

Lemma rows_16 : forall R Rp, 0 <= R -> is_round_up R 16 Rp -> Rp = 16 * Z.of_nat (sixteens R).
Proof.
  intros R Rp HR ([w Hw] & H1 & H2). destruct (bound_pieces R HR) as [B1 B2]. unfold sixteens. destruct (Nat.eqb_spec (rest R) 0); lia.
Qed.
Lemma rows_4 : forall R Rp, 0 <= R -> is_round_up R 4 Rp -> Rp = 4 * Z.of_nat (fours R).
Proof.
  intros R Rp HR ([w Hw] & H1 & H2). destruct (bound_pieces R HR) as [B1 B2]. unfold fours.
  pose proof (Nat.div_mod (rest R + 3) 4 ltac:(lia)). pose proof (Nat.mod_upper_bound (rest R + 3) 4 ltac:(lia)). lia.
Qed.

Lemma psum_value : forall sb so inc N fill ix c n f Rp, Rp = Z.of_nat n -> (forall r, 0 <= r -> wrap_s 8 (bval sb so inc N fill ix c r) = f r) ->
  psum sb so inc N fill ix c n = zsum (map f (zrange 0 Rp)).
Proof.
  intros sb so inc N fill ix c n f Rp -> H. unfold psum, zrange. rewrite Z.sub_0_r, Nat2Z.id. f_equal. apply map_ext_in. intros r Hr. apply zseq_In in Hr. apply H. lia.
Qed.

Lemma sums_done : forall bc ps qs v f Rp, sums_out_of bc ps qs v -> full v -> 0 <= bc -> (forall s, ps = Some s -> bc + 4 <= blen s) -> (forall s, ps = Some s -> typed s32 s) ->
  (forall c, (c < 4)%nat -> nth c (slanes 4 v) 0 = wrap_s 32 (zsum (map (fun r => f r (bc + Z.of_nat c)) (zrange 0 Rp)))) ->
  match ps, qs with
  | None, None => True
  | Some s, Some s' => blen s' = blen s /\ typed s32 s' /\ (forall c, bc <= c < bc + 4 -> bdat s' c = wrap_s 32 (zsum (map (fun r => f r c) (zrange 0 Rp)))) /\
      (forall c, ~ (bc <= c < bc + 4) -> bdat s' c = bdat s c)
  | _, _ => False
  end.
Proof.
  intros bc ps qs v f Rp H Hv Hbc Hl Ht Hn. destruct ps as [s|]; cbn [sums_out_of] in H; subst qs; [|exact Logic.I].
  split; [reflexivity|]. split; [apply dec32_typed|]. split.
  - intros c Hc. replace c with (bc + Z.of_nat (Z.to_nat (c - bc))) by lia. rewrite sums_in by (first [assumption | apply Hl; reflexivity | lia]). apply Hn. lia.
  - intros c Hc. apply sums_out; [apply Ht; reflexivity|exact Hv|exact Hc].
Qed.

(** ** The positions of a block *)
Lemma poff_16x4 : forall l bc r c, pl_kernel l = bytes_16x4 -> (4 | bc) -> (c < 4)%nat -> poff l r (bc + Z.of_nat c) = pl_rows l * bc + (64 * (r / 16) + 16 * Z.of_nat c + r mod 16).
Proof.
  intros l bc r c Hk [m ->] Hc. unfold poff. rewrite Hk. cbn [bytes_16x4 kl_rows kl_cols kl_order].
  rewrite (div_at (m * 4 + Z.of_nat c) 4 m (Z.of_nat c)), (mod_at (m * 4 + Z.of_nat c) 4 m (Z.of_nat c)) by lia. ring.
Qed.
Definition half (bc : Z) : Z := (bc mod 8) / 4.
Lemma half_cases : forall bc, (4 | bc) -> bc = 8 * (bc / 8) + 4 * half bc /\ (half bc = 0 \/ half bc = 1).
Proof.
  intros bc [m ->]. unfold half. pose proof (Z.div_mod (m * 4) 8 ltac:(lia)). pose proof (Z.mod_pos_bound (m * 4) 8 ltac:(lia)).
  assert (E : (m * 4) mod 8 = 0 \/ (m * 4) mod 8 = 4) by lia. destruct E as [E|E]; rewrite E in *; split; lia.
Qed.
Lemma poff_4x8 : forall l bc r c, pl_kernel l = bytes_4x8 -> (4 | bc) -> (c < 4)%nat ->
  poff l r (bc + Z.of_nat c) = pl_rows l * (8 * (bc / 8)) + 16 * half bc + (32 * (r / 4) + 4 * Z.of_nat c + r mod 4).
Proof.
  intros l bc r c Hk Hbc Hc. destruct (half_cases bc Hbc) as [E H]. unfold poff. rewrite Hk. cbn [bytes_4x8 kl_rows kl_cols kl_order].
  rewrite (div_at (bc + Z.of_nat c) 8 (bc / 8) (4 * half bc + Z.of_nat c)), (mod_at (bc + Z.of_nat c) 8 (bc / 8) (4 * half bc + Z.of_nat c)) by lia. ring.
Qed.
Lemma poff_1x8 : forall l bc r c, pl_kernel l = floats_1x8 -> (4 | bc) -> (c < 4)%nat ->
  poff l r (bc + Z.of_nat c) = pl_rows l * (8 * (bc / 8)) + 4 * half bc + (8 * r + Z.of_nat c).
Proof.
  intros l bc r c Hk Hbc Hc. destruct (half_cases bc Hbc) as [E H]. unfold poff. rewrite Hk. cbn [floats_1x8 kl_rows kl_cols kl_order].
  rewrite (div_at (bc + Z.of_nat c) 8 (bc / 8) (4 * half bc + Z.of_nat c)), (mod_at (bc + Z.of_nat c) 8 (bc / 8) (4 * half bc + Z.of_nat c)) by lia.
  rewrite Z.div_1_r, Z.mod_1_r. ring.
Qed.

Lemma land_hi : forall bc, Z.land bc (Z.lnot 7) = 8 * (bc / 8).
Proof.
  intros bc. change 7 with (Z.ones 3).
  rewrite <- Z.ldiff_land, Z.ldiff_ones_r by lia. rewrite Z.shiftr_div_pow2, Z.shiftl_mul_pow2 by lia. change (2 ^ 3) with 8. ring.
Qed.
Lemma land_4 : forall bc, (4 | bc) -> Z.land bc 4 = 4 * half bc.
Proof.
  intros bc Hbc. destruct (half_cases bc Hbc) as [E H].
  assert (A : Z.land bc 4 = Z.land (bc mod 8) 4).
  { change 8 with (2 ^ 3). rewrite <- Z.land_ones by lia. rewrite <- Z.land_assoc. reflexivity. }
  rewrite A. assert (B : bc mod 8 = 4 * half bc) by (apply (mod_at bc 8 (bc / 8)); lia). rewrite B. destruct H as [-> | ->]; reflexivity.
Qed.

(** ** One block *)
Lemma nat_of : forall bc c, bc <= c < bc + 4 -> exists j, (j < 4)%nat /\ c = bc + Z.of_nat j.
Proof. intros bc c H. exists (Z.to_nat (c - bc)). lia. Qed.

Definition block_call (kl : kernel_layout) (pt st : ity) (src : mat Z) (p : pmat Z) (bc : Z) : Prop :=
  valid_matrix src /\ ml_order (m_layout src) = ColMajor /\ packed_for src kl p /\
  p_zp p = it_conv pt (m_zp src - middle st) /\ (pt = s32 -> m_zp src = 0 /\ p_sums p = None) /\
  typed pt (p_data p) /\ (forall s, p_sums p = Some s -> typed s32 s) /\
  0 <= bc /\ bc + 4 <= pl_cols (p_layout p) /\ (4 | bc) /\ ml_stride (m_layout src) * bc <= int_max.

Lemma call_readable : forall kl pt st src p bc, block_call kl pt st src p bc -> readable src bc.
Proof.
  intros kl pt st src p bc (((H1 & H2 & H3 & H4) & H5) & Ho & (HP & _) & _ & _ & _ & _ & Hbc & _ & _ & Hfit).
  unfold inner_size, outer_size in *. rewrite Ho in *. destruct HP as (_ & _ & _ & (_ & HR) & _ & HR' & _).
  constructor; try assumption. unfold int_max in HR'. lia.
Qed.

Lemma block_16x4 : forall a55 g st src p bc, (st = s8 \/ st = u8) -> block_call bytes_16x4 s8 st src p bc ->
  exists q, neon_block neon_16x4 a55 g st src bc p = Ok q /\ block_done st s8 src bc p q.
Proof.
  intros a55 g st src p bc Hst C. pose proof (call_readable _ _ _ _ _ _ C) as RD. destruct C as (HV & Ho & HP & Hz & _ & Ht & Hts & Hbc & Hbc4 & Hd & Hfit).
  destruct HP as ((Kl & Or & St & Ru & _ & RM & _ & RC) & Hlen & Hsl). cbn [bytes_16x4 kl_rows] in Ru.
  assert (HR : 0 <= ml_rows (m_layout src)) by (apply (rd_rows _ _ RD)).
  pose proof (rows_16 _ _ HR Ru) as ERp. set (Rp := pl_rows (p_layout p)) in *. set (n := sixteens (ml_rows (m_layout src))) in *.
  assert (Room : Rp * bc + 4 * Rp <= Rp * pl_cols (p_layout p)) by nia.
  assert (Room0 : 0 <= Rp * bc) by nia.
  destruct (run_16x4 src bc a55 g st p RD) as (q & zz & ix & v & d & E & Mz & Mx & EL & EZ & ED & Hd' & Fv & Hv & Hs).
  - rewrite St. fold Rp. unfold int_max in *. lia.
  - rewrite St. fold Rp n. lia.
  - intros s Es. specialize (Hsl s Es). lia.
  - rewrite St in Hd'. fold Rp n in Hd', Hv.
    exists q. split; [exact E|].
    assert (BV : forall c r, 0 <= r -> wrap_s 8 (bval (csb 1 (wrap_u 8 (m_zp src)) (m_data src) (ml_cols (m_layout src)) bc) (cso 1 (ml_stride (m_layout src) * bc) (ml_stride (m_layout src)) (ml_cols (m_layout src)) bc)
      (cinc (ml_cols (m_layout src)) bc) (ml_rows (m_layout src)) zz ix c r) = filled_value st s8 src (p_zp p) r (bc + Z.of_nat c)) by (intros; apply byte_value; assumption).
    constructor.
    + rewrite ED. cbn [dec blen]. split; [exact EL|]. split; [exact EZ|reflexivity].
    + rewrite ED. apply dec8_typed.
    + fold Rp. intros r c Hr Hc. destruct (nat_of bc c Hc) as (j & Hj & ->). rewrite poff_16x4 by assumption. fold Rp.
      pose proof (Z.div_mod r 16 ltac:(lia)) as Dr. pose proof (Z.mod_pos_bound r 16 ltac:(lia)) as Mr. pose proof (Z.div_pos r 16 ltac:(lia) ltac:(lia)) as Pr.
      set (i := Rp * bc + (64 * (r / 16) + 16 * Z.of_nat j + r mod 16)). assert (Hi : Rp * bc <= i < Rp * bc + 64 * Z.of_nat n) by (unfold i; lia).
      rewrite ED, dec8_in by lia. rewrite Hd'. unfold placed4. replace (Rp * bc <=? i) with true by lia. replace (i <? Rp * bc + 64 * Z.of_nat n) with true by lia. cbn [andb].
      rewrite (div_at (i - Rp * bc) 16 (4 * (r / 16) + Z.of_nat j) (r mod 16)), (mod_at (i - Rp * bc) 16 (4 * (r / 16) + Z.of_nat j) (r mod 16)) by (unfold i; lia).
      rewrite (mod_at (4 * (r / 16) + Z.of_nat j) 4 (r / 16) (Z.of_nat j)) by lia. rewrite Nat2Z.id.
      rewrite (div_at (i - Rp * bc) 64 (r / 16) (16 * Z.of_nat j + r mod 16)) by (unfold i; lia).
      replace (16 * (r / 16) + r mod 16) with r by lia. apply BV. lia.
    + fold Rp. intros i Hi. rewrite ED. apply dec8_same; [exact Ht|]. rewrite Hd'. unfold placed4.
      destruct (Z.leb_spec (Rp * bc) i) as [L|L]; [|reflexivity]. destruct (Z.ltb_spec i (Rp * bc + 64 * Z.of_nat n)) as [L'|L']; [|reflexivity].
      exfalso. set (e := i - Rp * bc) in *.
      pose proof (Z.div_mod e 16 ltac:(lia)) as D1. pose proof (Z.mod_pos_bound e 16 ltac:(lia)) as M1. pose proof (Z.div_mod (e / 16) 4 ltac:(lia)) as D2. pose proof (Z.mod_pos_bound (e / 16) 4 ltac:(lia)) as M2.
      pose proof (Z.div_pos e 16 ltac:(lia) ltac:(lia)) as P1. pose proof (Z.div_pos (e / 16) 4 ltac:(lia) ltac:(lia)) as P2.
      apply (Hi (16 * (e / 16 / 4) + e mod 16) (bc + Z.of_nat (Z.to_nat (e / 16 mod 4)))); [lia|lia|].
      rewrite poff_16x4 by (try assumption; lia). fold Rp.
      rewrite (div_at (16 * (e / 16 / 4) + e mod 16) 16 (e / 16 / 4) (e mod 16)), (mod_at (16 * (e / 16 / 4) + e mod 16) 16 (e / 16 / 4) (e mod 16)) by lia.
      rewrite Z2Nat.id by lia. lia.
    + fold Rp. apply (sums_done bc _ _ v); try assumption.
      * intros s Es. specialize (Hsl s Es). lia.
      * intros c Hc. rewrite Hv by exact Hc. f_equal. apply psum_value; [lia|]. intros r Hr. apply BV, Hr.
Qed.

Lemma block_4x8 : forall a55 g st src p bc, (st = s8 \/ st = u8) -> block_call bytes_4x8 s8 st src p bc ->
  exists q, neon_block neon_4x8 a55 g st src bc p = Ok q /\ block_done st s8 src bc p q.
Proof.
  intros a55 g st src p bc Hst C. pose proof (call_readable _ _ _ _ _ _ C) as RD. destruct C as (HV & Ho & HP & Hz & _ & Ht & Hts & Hbc & Hbc4 & Hd & Hfit).
  destruct HP as ((Kl & Or & St & Ru & [Cu _] & RM & _ & RC) & Hlen & Hsl). cbn [bytes_4x8 kl_rows kl_cols] in Ru, Cu.
  assert (HR : 0 <= ml_rows (m_layout src)) by (apply (rd_rows _ _ RD)).
  pose proof (rows_4 _ _ HR Ru) as ERp. set (Rp := pl_rows (p_layout p)) in *. set (n := fours (ml_rows (m_layout src))) in *.
  destruct (half_cases bc Hd) as [Ebc Hh]. set (m := bc / 8) in *. assert (Hm : 0 <= m) by (apply Z.div_pos; lia).
  assert (Hm8 : 8 * m + 8 <= pl_cols (p_layout p)) by (destruct Cu as [w Hw]; lia).
  assert (Room : Rp * (8 * m) + 8 * Rp <= Rp * pl_cols (p_layout p)) by nia.
  assert (Room0 : 0 <= Rp * (8 * m)) by nia.
  set (po := Rp * (8 * m) + 16 * half bc). 
  destruct (run_4x8 src bc a55 g st p po RD) as (q & zz & ix & v & d & E & Mz & Mx & EL & EZ & ED & Hd' & Fv & Hv & Hs).
  - cbn [neon_4x8 n_packed_ptr]. rewrite St, land_hi, land_4 by exact Hd. fold Rp m. rewrite i32_ok by (unfold int_min, int_max in *; lia). cbn [bind]. f_equal. unfold po. ring.
  - unfold po. lia.
  - unfold po. fold n. lia.
  - intros s Es. specialize (Hsl s Es). lia.
  - fold n in Hd', Hv.
    exists q. split; [exact E|].
    assert (BV : forall c r, 0 <= r -> wrap_s 8 (bval (csb 1 (wrap_u 8 (m_zp src)) (m_data src) (ml_cols (m_layout src)) bc) (cso 1 (ml_stride (m_layout src) * bc) (ml_stride (m_layout src)) (ml_cols (m_layout src)) bc)
      (cinc (ml_cols (m_layout src)) bc) (ml_rows (m_layout src)) zz ix c r) = filled_value st s8 src (p_zp p) r (bc + Z.of_nat c)) by (intros; apply byte_value; assumption).
    constructor.
    + rewrite ED. cbn [dec blen]. split; [exact EL|]. split; [exact EZ|reflexivity].
    + rewrite ED. apply dec8_typed.
    + fold Rp. intros r c Hr Hc. destruct (nat_of bc c Hc) as (j & Hj & ->). rewrite poff_4x8 by assumption. fold Rp m. fold po.
      pose proof (Z.div_mod r 4 ltac:(lia)) as Dr. pose proof (Z.mod_pos_bound r 4 ltac:(lia)) as Mr. pose proof (Z.div_pos r 4 ltac:(lia) ltac:(lia)) as Pr.
      set (i := po + (32 * (r / 4) + 4 * Z.of_nat j + r mod 4)). assert (Hi : po <= i < po + 32 * Z.of_nat n - 16) by (unfold i; lia).
      rewrite ED, dec8_in by (unfold po in *; lia). rewrite Hd'. unfold placedt. replace (po <=? i) with true by lia. replace (i <? po + 32 * Z.of_nat n) with true by lia. cbn [andb].
      rewrite (mod_at (i - po) 32 (r / 4) (4 * Z.of_nat j + r mod 4)) by (unfold i; lia). replace (4 * Z.of_nat j + r mod 4 <? 16) with true by lia.
      rewrite (div_at (i - po) 4 (4 * (2 * (r / 4)) + Z.of_nat j) (r mod 4)), (mod_at (i - po) 4 (4 * (2 * (r / 4)) + Z.of_nat j) (r mod 4)) by (unfold i; lia).
      rewrite (mod_at (4 * (2 * (r / 4)) + Z.of_nat j) 4 (2 * (r / 4)) (Z.of_nat j)) by lia. rewrite Nat2Z.id.
      rewrite (div_at (i - po) 32 (r / 4) (4 * Z.of_nat j + r mod 4)) by (unfold i; lia).
      replace (4 * (r / 4) + r mod 4) with r by lia. apply BV. lia.
    + fold Rp. intros i Hi. rewrite ED. apply dec8_same; [exact Ht|]. rewrite Hd'. unfold placedt.
      destruct (Z.leb_spec po i) as [L|L]; [|reflexivity]. destruct (Z.ltb_spec i (po + 32 * Z.of_nat n)) as [L'|L']; [|reflexivity].
      destruct (Z.ltb_spec ((i - po) mod 32) 16) as [L2|L2]; [|reflexivity].
      exfalso. set (e := i - po) in *.
      pose proof (Z.div_mod e 32 ltac:(lia)) as D1. pose proof (Z.mod_pos_bound e 32 ltac:(lia)) as M1. pose proof (Z.div_mod (e mod 32) 4 ltac:(lia)) as D2. pose proof (Z.mod_pos_bound (e mod 32) 4 ltac:(lia)) as M2.
      pose proof (Z.div_pos e 32 ltac:(lia) ltac:(lia)) as P1. pose proof (Z.div_pos (e mod 32) 4 ltac:(lia) ltac:(lia)) as P2.
      apply (Hi (4 * (e / 32) + (e mod 32) mod 4) (bc + Z.of_nat (Z.to_nat (e mod 32 / 4)))); [lia|lia|].
      rewrite poff_4x8 by (try assumption; lia). fold Rp m. fold po.
      rewrite (div_at (4 * (e / 32) + (e mod 32) mod 4) 4 (e / 32) ((e mod 32) mod 4)), (mod_at (4 * (e / 32) + (e mod 32) mod 4) 4 (e / 32) ((e mod 32) mod 4)) by lia.
      rewrite Z2Nat.id by lia. lia.
    + fold Rp. apply (sums_done bc _ _ v); try assumption.
      * intros s Es. specialize (Hsl s Es). lia.
      * intros c Hc. rewrite Hv by exact Hc. f_equal. apply psum_value; [lia|]. intros r Hr. apply BV, Hr.
Qed.

Lemma block_float : forall a55 g src p bc, block_call floats_1x8 s32 s32 src p bc ->
  exists q, neon_block neon_float a55 g s32 src bc p = Ok q /\ block_done s32 s32 src bc p q.
Proof.
  intros a55 g src p bc C. pose proof (call_readable _ _ _ _ _ _ C) as RD. destruct C as (HV & Ho & HP & Hz & Hf & Ht & _ & Hbc & Hbc4 & Hd & Hfit).
  destruct (Hf eq_refl) as [Hz0 Hsum]. clear Hf.
  destruct HP as ((Kl & Or & St & Ru & [Cu _] & RM & _ & RC) & Hlen & Hsl). cbn [floats_1x8 kl_rows kl_cols] in Ru, Cu.
  assert (HR : 0 <= ml_rows (m_layout src)) by (apply (rd_rows _ _ RD)).
  assert (ERp : pl_rows (p_layout p) = ml_rows (m_layout src)) by (destruct Ru as (_ & Ru); lia). set (Rp := pl_rows (p_layout p)) in *.
  destruct (half_cases bc Hd) as [Ebc Hh]. set (m := bc / 8) in *. assert (Hm : 0 <= m) by (apply Z.div_pos; lia).
  assert (Hm8 : 8 * m + 8 <= pl_cols (p_layout p)) by (destruct Cu as [w Hw]; lia).
  assert (Room : Rp * (8 * m) + 8 * Rp <= Rp * pl_cols (p_layout p)) by nia.
  assert (Room0 : 0 <= Rp * (8 * m)) by nia.
  set (po := Rp * (8 * m) + 4 * half bc).
  destruct (run_float src bc a55 g s32 p po RD) as (q & d & E & EL & EZ & ED & Hd' & Hs).
  - cbn [neon_float n_packed_ptr]. rewrite St, land_hi, land_4 by exact Hd. fold Rp m. rewrite i32_ok by (unfold int_min, int_max in *; lia). reflexivity.
  - unfold po. lia.
  - unfold po. lia.
  - exact Hsum.
  - exists q. split; [exact E|].
    constructor.
    + rewrite ED. cbn [dec blen]. split; [exact EL|]. split; [exact EZ|reflexivity].
    + rewrite ED. apply dec32_typed.
    + fold Rp. intros r c Hr Hc. destruct (nat_of bc c Hc) as (j & Hj & ->). rewrite poff_1x8 by assumption. fold Rp m. fold po.
      set (i := po + (8 * r + Z.of_nat j)). assert (Hi : po <= i < po + 8 * Rp - 4) by (unfold i; lia).
      rewrite ED, dec32_in by (unfold po in *; lia). rewrite get4.
      assert (B : forall e, 0 <= e < 4 -> bdat d (4 * i + e) = (if ml_cols (m_layout src) - Z.of_nat j <=? bc then 0 else entry src r (bc + Z.of_nat j)) / 256 ^ e mod 256).
      { intros e He. rewrite Hd'. unfold placedt. replace (4 * po <=? 4 * i + e) with true by lia. replace (4 * i + e <? 4 * po + 32 * Z.of_nat (Z.to_nat (ml_rows (m_layout src)))) with true by lia. cbn [andb].
        assert (Ee : 4 * i + e - 4 * po = 32 * r + (4 * Z.of_nat j + e)) by (unfold i; ring). rewrite Ee.
        rewrite (mod_at (32 * r + (4 * Z.of_nat j + e)) 32 r (4 * Z.of_nat j + e)) by lia. replace (4 * Z.of_nat j + e <? 16) with true by lia.
        rewrite (div_at (32 * r + (4 * Z.of_nat j + e)) 4 (4 * (2 * r) + Z.of_nat j) e), (mod_at (32 * r + (4 * Z.of_nat j + e)) 4 (4 * (2 * r) + Z.of_nat j) e) by lia.
        rewrite (mod_at (4 * (2 * r) + Z.of_nat j) 4 (2 * r) (Z.of_nat j)) by lia. rewrite Nat2Z.id.
        rewrite (div_at (32 * r + (4 * Z.of_nat j + e)) 32 r (4 * Z.of_nat j + e)) by lia.
        rewrite bval_at by lia. rewrite Z.mod_0_l, Z.lxor_0_r by lia. replace (4 * r + e <? 4 * ml_rows (m_layout src)) with true by lia. unfold gone.
        destruct (ml_cols (m_layout src) - Z.of_nat j <=? bc).
        - rewrite Z.div_0_l by (apply Z.pow_nonzero; lia). reflexivity.
        - replace (4 * (ml_stride (m_layout src) * bc + Z.of_nat j * ml_stride (m_layout src)) + (4 * r + e)) with (4 * (ml_stride (m_layout src) * bc + Z.of_nat j * ml_stride (m_layout src) + r) + e) by ring.
          rewrite enc4 by exact He. unfold entry, position. rewrite Ho. do 3 f_equal. ring. }
      rewrite <- (Z.add_0_r (4 * i)) at 1. rewrite !B by lia. rewrite word_of, conv32_mod. unfold filled_value. replace (r <? ml_rows (m_layout src)) with true by lia. cbn [andb].
      change (middle s32) with 0 in *. rewrite Hz0 in Hz.
      destruct (Z.leb_spec (ml_cols (m_layout src) - Z.of_nat j) bc); destruct (Z.ltb_spec (bc + Z.of_nat j) (ml_cols (m_layout src))); try lia; [rewrite Hz; reflexivity|rewrite Z.sub_0_r; reflexivity].
    + fold Rp. intros i Hi. rewrite ED. apply dec32_same; [exact Ht|]. intros e He. rewrite Hd'. unfold placedt.
      destruct (Z.leb_spec (4 * po) (4 * i + e)) as [L|L]; [|reflexivity]. destruct (Z.ltb_spec (4 * i + e) (4 * po + 32 * Z.of_nat (Z.to_nat (ml_rows (m_layout src))))) as [L'|L']; [|reflexivity].
      destruct (Z.ltb_spec ((4 * i + e - 4 * po) mod 32) 16) as [L2|L2]; [|reflexivity].
      exfalso. set (f := i - po). assert (Ef : 4 * i + e - 4 * po = 4 * f + e) by (unfold f; ring). rewrite Ef in L2.
      pose proof (Z.div_mod f 8 ltac:(lia)) as D1. pose proof (Z.mod_pos_bound f 8 ltac:(lia)) as M1. pose proof (Z.div_pos f 8 ltac:(unfold f; lia) ltac:(lia)) as P1.
      rewrite (mod_at (4 * f + e) 32 (f / 8) (4 * (f mod 8) + e)) in L2 by lia.
      apply (Hi (f / 8) (bc + Z.of_nat (Z.to_nat (f mod 8)))); [unfold f in *; lia|lia|].
      rewrite poff_1x8 by (try assumption; lia). fold Rp m. fold po. rewrite Z2Nat.id by lia. unfold f in *. lia.
    + rewrite Hsum, Hs. exact Logic.I.
Qed.
