(** The products of the kNeon kernels, against the exact ones. *)
From Coq Require Import ZArith List Bool Lia.
From Verif Require Import Base SidePair Mat Scalars IntOps MulParams Kernel SpecArith SpecMatrix SpecPack SpecPackX86 IntEntryFacts Simd SimdFacts SpecSimd SimdRequant Kernel8bitFacts Kernel8bit Neon64 NeonRun NeonPack NeonKernel8Code Neon8Lanes Neon8Pairs Neon8Pairs4 Neon8Pairs5 SimdFloatFacts Kernel8Neon NeonDeclBad Kernel8NeonPairs SpecNeonPairs.
Import ListNotations.
Open Scope Z_scope.

Lemma pair_value : forall a b c d, -128 <= a <= 127 -> -128 <= b <= 127 -> -128 <= c <= 127 -> -128 <= d <= 127 ->
  wrap_s 16 (wrap_s 16 (a * b) + c * d) = a * b + c * d - 65536 * (if (a =? -128) && (b =? -128) && (c =? -128) && (d =? -128) then 1 else 0).
Proof.
  intros a b c d Ha Hb Hc Hd. destruct (pair_exact a b c d Ha Hb Hc Hd) as [_ P].
  destruct (Z.eqb_spec a (-128)) as [->|]; cbn [andb]; [|rewrite P by tauto; lia].
  destruct (Z.eqb_spec b (-128)) as [->|]; cbn [andb]; [|rewrite P by tauto; lia].
  destruct (Z.eqb_spec c (-128)) as [->|]; cbn [andb]; [|rewrite P by tauto; lia].
  destruct (Z.eqb_spec d (-128)) as [->|]; cbn [andb]; [|rewrite P by tauto; lia]. reflexivity.
Qed.

Lemma byte_id : forall x, -128 <= x <= 127 -> wrap_s 8 x = x.
Proof. intros x H. apply Base.wrap_s_id; [lia|]. unfold smin, smax. change (2 ^ (8 - 1)) with 128. lia. Qed.

Section Sum.
Variables (Lb Rb : buf Z) (lp rp K i c : Z).
Hypothesis HL : typed s8 Lb.
Hypothesis HR : typed s8 Rb.
Hypothesis Hi : 0 <= i < 4.
Hypothesis Hc : 0 <= c < 4.
Hypothesis BL : 0 <= lp /\ lp + 4 * K <= blen Lb.
Hypothesis BR : 0 <= rp /\ rp + 4 * K <= blen Rb.
Notation L := (packed_16x4 Lb lp i).
Notation R := (packed_16x4 Rb rp c).
Notation low := (lowest_pair Lb lp i Rb rp c).

Lemma at_level : forall b p j t e, 0 <= e < 16 -> packed_16x4 b p j (16 * t + e) = bdat b (p + 64 * t + 16 * j + e).
Proof.
  intros b p j t e He. unfold packed_16x4. replace (16 * t + e) with (e + t * 16) by lia. rewrite Z.div_add, Z.mod_add, Z.div_small, Z.mod_small by lia. f_equal.
Qed.
Lemma two_value : forall n e, 16 * Z.of_nat n + 16 <= K -> (e < 8)%nat ->
  two (row_byte Lb lp (Z.to_nat i) n) (col_byte Rb rp (Z.to_nat c) n) e =
  L (16 * Z.of_nat n + Z.of_nat e) * R (16 * Z.of_nat n + Z.of_nat e) + L (16 * Z.of_nat n + (Z.of_nat e + 8)) * R (16 * Z.of_nat n + (Z.of_nat e + 8)) -
  65536 * (if low (16 * Z.of_nat n + Z.of_nat e) then 1 else 0).
Proof using HL HR Hi Hc BL BR.
  intros n e Hn He. unfold lowest_pair. replace (16 * Z.of_nat n + Z.of_nat e + 8) with (16 * Z.of_nat n + (Z.of_nat e + 8)) by lia. rewrite !at_level by lia.
  replace ((16 * Z.of_nat n + Z.of_nat e) mod 16) with (Z.of_nat e) by (rewrite Z.add_comm, Z.mul_comm, Z.mod_add, Z.mod_small; lia).
  replace (Z.of_nat e <? 8) with true by (symmetry; apply Z.ltb_lt; lia). cbn [andb]. unfold two, s8_of, row_byte, col_byte. rewrite !Z2Nat.id by lia.
  replace (lp + 64 * Z.of_nat n + 16 * i + Z.of_nat (8 + e)) with (lp + 64 * Z.of_nat n + 16 * i + (Z.of_nat e + 8)) by lia.
  replace (rp + 64 * Z.of_nat n + 16 * c + Z.of_nat (8 + e)) with (rp + 64 * Z.of_nat n + 16 * c + (Z.of_nat e + 8)) by lia.
  pose proof (HL (lp + 64 * Z.of_nat n + 16 * i + Z.of_nat e) ltac:(lia)) as L1. pose proof (HL (lp + 64 * Z.of_nat n + 16 * i + (Z.of_nat e + 8)) ltac:(lia)) as L2.
  pose proof (HR (rp + 64 * Z.of_nat n + 16 * c + Z.of_nat e) ltac:(lia)) as R1. pose proof (HR (rp + 64 * Z.of_nat n + 16 * c + (Z.of_nat e + 8)) ltac:(lia)) as R2.
  change (it_lo s8) with (-128) in *. change (it_hi s8) with 127 in *. rewrite !byte_id by assumption. apply pair_value; assumption.
Qed.
Lemma high_level : forall n e, 8 <= e < 16 -> low (16 * n + e) = false.
Proof. intros n e He. unfold lowest_pair. replace ((16 * n + e) mod 16) with e by (rewrite Z.add_comm, Z.mul_comm, Z.mod_add, Z.mod_small; lia). destruct (Z.ltb_spec e 8); [lia|reflexivity]. Qed.

Lemma sixteen : forall (f : Z -> Z) n, 0 <= n -> zsum (map f (zrange 0 (16 * (n + 1)))) = zsum (map f (zrange 0 (16 * n))) +
  ((f (16 * n + 0) + f (16 * n + 1) + f (16 * n + 2) + f (16 * n + 3) + f (16 * n + 4) + f (16 * n + 5) + f (16 * n + 6) + f (16 * n + 7)) +
   (f (16 * n + 8) + f (16 * n + 9) + f (16 * n + 10) + f (16 * n + 11) + f (16 * n + 12) + f (16 * n + 13) + f (16 * n + 14) + f (16 * n + 15))).
Proof.
  intros f n Hn. rewrite (zrange_split 0 (16 * n)) by lia. rewrite map_app, zsum_app. f_equal. replace (16 * (n + 1)) with (16 * n + 16) by lia. rewrite SimdFloatFacts.zrange_shift.
  change (zrange 0 16) with [0; 1; 2; 3; 4; 5; 6; 7; 8; 9; 10; 11; 12; 13; 14; 15]. cbn [map zsum]. ring.
Qed.

Lemma row_total : forall n, 16 * Z.of_nat n <= K ->
  row_sum Lb Rb lp rp (Z.to_nat c) n (Z.to_nat i) = packed_dot Lb lp i Rb rp c (16 * Z.of_nat n) - 65536 * lowest_pairs Lb lp i Rb rp c (16 * Z.of_nat n).
Proof using HL HR Hi Hc BL BR.
  induction n as [|n IH]; intros Hn; [reflexivity|].
  unfold packed_dot, lowest_pairs in *. replace (Z.of_nat (S n)) with (Z.of_nat n + 1) by lia. rewrite !sixteen by lia.
  rewrite (high_level _ 8), (high_level _ 9), (high_level _ 10), (high_level _ 11), (high_level _ 12), (high_level _ 13), (high_level _ 14), (high_level _ 15) by lia. unfold row_sum in *. cbn [lane_sum Nat.mul Nat.add]. rewrite !two_value by lia.
  cbn [Z.of_nat Pos.of_succ_nat Pos.succ Z.add Pos.add Pos.add_carry]. specialize (IH ltac:(lia)). lia.
Qed.
End Sum.

Lemma column_products : forall g tmp p dst fuel,
  typed s8 (k_lhs p) -> typed s8 (k_rhs p) ->
  0 < k_depth p < 2 ^ 31 - 16 -> k_depth p mod 16 = 0 ->
  0 <= k_lhs_base p -> k_lhs_base p + 4 * k_depth p <= blen (k_lhs p) -> 0 <= k_rhs_base p -> k_rhs_base p + 4 * k_depth p <= blen (k_rhs p) ->
  (Z.to_nat (2 * k_depth p + 40) <= fuel)%nat ->
  exists s, run fuel (firstn 60 kernel8_1col) 0 (kernel8_start 4 g tmp p dst) = Ok s /\ mem s = kernel8_memory 4 p dst tmp /\
    forall i, 0 <= i < 4 -> nth (Z.to_nat i) (slanes 4 (vs s 16)) 0 =
      wrap_s 32 (packed_dot (k_lhs p) (k_lhs_base p) i (k_rhs p) (k_rhs_base p) 0 (k_depth p) -
                 65536 * lowest_pairs (k_lhs p) (k_lhs_base p) i (k_rhs p) (k_rhs_base p) 0 (k_depth p)).
Proof.
  intros g tmp p dst fuel HL HR HK HM L0 L1 R0 R1 Hf.
  destruct (Z_div_exact_full_2 (k_depth p) 16 ltac:(lia) HM) . set (q := k_depth p / 16) in *.
  assert (Hq : 1 <= q) by lia. destruct (Z.to_nat q) as [|n] eqn:En; [lia|]. assert (E : k_depth p = 16 * Z.of_nat (S n)) by lia.
  set (s0 := kernel8_start 4 g tmp p dst). set (K := k_depth p) in *.
  assert (W : wrap_u 32 K = K) by (unfold wrap_u; apply Z.mod_small; lia).
  assert (H1 : reach 27 products_1col 0 s0 (fun pc s' => pc = 27%nat /\ deepp (k_lhs p) (k_rhs p) (k_lhs_base p) (k_rhs_base p) K 1 s0 s')).
  { apply head_p with (f := neon8_params p); try reflexivity; try lia.
    - eexists. reflexivity.
    - intros o Ho. cbn in Ho. repeat (destruct Ho as [<-|Ho]; [eexists; reflexivity|]). destruct Ho.
    - rewrite <- W at 1. reflexivity. }
  assert (H2 : reach (27 + (22 * n + 11)) products_1col 0 s0 (fun pc s' => pc = 60%nat /\ vs s' 16 = w4 (row_sum (k_lhs p) (k_rhs p) (k_lhs_base p) (k_rhs_base p) 0 (S n)) /\ mem s' = mem s0)).
  { eapply reach_trans; [exact H1|]. intros pc s1 [-> D]. apply (tail_p (k_lhs p) (k_rhs p) (k_lhs_base p) (k_rhs_base p) K n s0 s1); [reflexivity|reflexivity|lia|lia|exact D|lia|lia]. }
  destruct (reach_run _ _ _ _ _ fuel H2 ltac:(lia)) as (s' & Hrun & pc' & -> & V & M).
  { intros pc s' [-> _]. reflexivity. }
  exists s'. split; [exact Hrun|]. split; [exact M|]. intros i Hi. rewrite V, slanes_lv by lia.
  assert (N : forall f (j : nat), (j < 4)%nat -> nth j (vrow 4 f) 0 = f j) by (intros f j Hj; do 4 (destruct j as [|j]; [reflexivity|]); lia).
  rewrite N by lia. change (8 * Z.of_nat 4) with 32. f_equal. rewrite E. apply (row_total (k_lhs p) (k_rhs p) (k_lhs_base p) (k_rhs_base p) K i 0); try assumption; lia.
Qed.

Lemma lane4 : forall f (j : nat), (j < 4)%nat -> nth j (vrow 4 f) 0 = f j.
Proof. intros f j Hj. do 4 (destruct j as [|j]; [reflexivity|]). lia. Qed.

Lemma block_products : forall g tmp p dst code len fuel, code = kernel8_neon /\ len = 157%nat \/ code = kernel8_a55 /\ len = 181%nat ->
  typed s8 (k_lhs p) -> typed s8 (k_rhs p) ->
  0 < k_depth p < 2 ^ 31 - 16 -> k_depth p mod 16 = 0 ->
  0 <= k_lhs_base p -> k_lhs_base p + 4 * k_depth p <= blen (k_lhs p) -> 0 <= k_rhs_base p -> k_rhs_base p + 4 * k_depth p <= blen (k_rhs p) ->
  (Z.to_nat (5 * k_depth p + 110) <= fuel)%nat ->
  exists s, run fuel (firstn len code) 0 (kernel8_start 4 g tmp p dst) = Ok s /\ mem s = kernel8_memory 4 p dst tmp /\
    forall i c, 0 <= i < 4 -> 0 <= c < 4 -> nth (Z.to_nat i) (slanes 4 (vs s (16 + Z.to_nat c))) 0 =
      wrap_s 32 (packed_dot (k_lhs p) (k_lhs_base p) i (k_rhs p) (k_rhs_base p) c (k_depth p) -
                 65536 * lowest_pairs (k_lhs p) (k_lhs_base p) i (k_rhs p) (k_rhs_base p) c (k_depth p)).
Proof.
  intros g tmp p dst code len fuel HC HL HR HK HM L0 L1 R0 R1 Hf.
  destruct (Z_div_exact_full_2 (k_depth p) 16 ltac:(lia) HM) . set (q := k_depth p / 16) in *.
  assert (Hq : 1 <= q) by lia. destruct (Z.to_nat q) as [|n] eqn:En; [lia|]. assert (E : k_depth p = 16 * Z.of_nat (S n)) by lia.
  set (s0 := kernel8_start 4 g tmp p dst). set (K := k_depth p) in *.
  assert (W : wrap_u 32 K = K) by (unfold wrap_u; apply Z.mod_small; lia).
  assert (F1 : find_field (neon8_params p) 116 4 = Ok (Int K)) by (rewrite <- W at 1; reflexivity).
  assert (F2 : forall o, In o [80; 88; 92; 104; 108; 112] -> exists a, find_field (neon8_params p) o 4 = Ok a).
  { intros o Ho. cbn in Ho. repeat (destruct Ho as [<-|Ho]; [eexists; reflexivity|]). destruct Ho. }
  assert (F3 : exists a, find_field (neon8_params p) 24 8 = Ok a) by (eexists; reflexivity).
  assert (G : exists s, run fuel (firstn len code) 0 s0 = Ok s /\ summed (k_lhs p) (k_rhs p) (k_lhs_base p) (k_rhs_base p) (S n) s0 s).
  { destruct HC as [[-> ->] | [-> ->]].
    - assert (H2 : reach (49 + (60 * n + 48)) products_4col 0 s0 (fun pc s' => pc = 157%nat /\ summed (k_lhs p) (k_rhs p) (k_lhs_base p) (k_rhs_base p) (S n) s0 s')).
      { eapply reach_trans; [apply (head_4 (k_lhs p) (k_rhs p) (k_lhs_base p) (k_rhs_base p) K s0 (neon8_params p)); try reflexivity; try assumption; lia|].
        intros pc s1 [-> D]. apply (tail_4 (k_lhs p) (k_rhs p) (k_lhs_base p) (k_rhs_base p) K n s0 s1); [reflexivity|reflexivity|lia|lia|exact D|lia|lia]. }
      destruct (reach_run _ _ _ _ _ fuel H2 ltac:(lia)) as (s' & Hrun & pc' & -> & V); [intros pc s' [-> _]; reflexivity|]. exists s'. split; assumption.
    - assert (H2 : reach (49 + (78 * n + 54)) products_a55 0 s0 (fun pc s' => pc = 181%nat /\ summed (k_lhs p) (k_rhs p) (k_lhs_base p) (k_rhs_base p) (S n) s0 s')).
      { eapply reach_trans; [apply (head_5 (k_lhs p) (k_rhs p) (k_lhs_base p) (k_rhs_base p) K s0 (neon8_params p)); try reflexivity; try assumption; lia|].
        intros pc s1 [-> D]. apply (tail_5 (k_lhs p) (k_rhs p) (k_lhs_base p) (k_rhs_base p) K n s0 s1); [exists (neon8_params p); split; [reflexivity|split; assumption]|reflexivity|reflexivity|lia|lia|exact D|lia|lia]. }
      destruct (reach_run _ _ _ _ _ fuel H2 ltac:(lia)) as (s' & Hrun & pc' & -> & V); [intros pc s' [-> _]; reflexivity|]. exists s'. split; assumption. }
  destruct G as (s & Hrun & V0 & V1 & V2 & V3 & M). exists s. split; [exact Hrun|]. split; [exact M|]. intros i c Hi Hc.
  assert (V : vs s (16 + Z.to_nat c) = w4 (row_sum (k_lhs p) (k_rhs p) (k_lhs_base p) (k_rhs_base p) (Z.to_nat c) (S n))).
  { destruct (Z.to_nat c) as [|[|[|[|j]]]] eqn:Ej; [assumption|assumption|assumption|assumption|lia]. }
  rewrite V, slanes_lv by lia. rewrite lane4 by lia. change (8 * Z.of_nat 4) with 32. f_equal. rewrite E.
  apply (row_total (k_lhs p) (k_rhs p) (k_lhs_base p) (k_rhs_base p) K i c); try assumption; lia.
Qed.

(** ** Thirty-two levels, of mixed values; in row 1 levels 3 and 11 are -128, in column 2 as well. *)
Definition pm_lhs : buf Z := {| blen := 128; bdat := fun i => if (i =? 19) || (i =? 27) then -128 else (i * 37) mod 251 - 125 |}.
Definition pm_rhs : buf Z := {| blen := 128; bdat := fun i => if (i =? 35) || (i =? 43) then -128 else (i * 59) mod 249 - 123 |}.
Definition pm_params : kparams := {|
  k_bias := no_buf; k_lhs_sums := no_buf; k_rhs_sums := no_buf; k_lhs := pm_lhs; k_lhs_base := 0; k_mult := no_buf; k_exp := no_buf; k_rhs := pm_rhs; k_rhs_base := 0; k_dst_base := 0;
  k_lhs_zp := 0; k_rhs_zp := 0; k_dst_zp := 0; k_prod_zp_depth := 0; k_start_row := 0; k_start_col := 0; k_last_row := 0; k_last_col := 0; k_dst_rows := 4; k_dst_cols := 4;
  k_lhs_stride := 32; k_rhs_stride := 32; k_dst_stride := 16; k_depth := 32; k_clamp_min := int_min; k_clamp_max := int_max;
  k_has_bias := false; k_has_lhs_sums := false; k_has_rhs_sums := false; k_channel_is_col := false; k_has_perchannel := false; k_dst_type := s32; k_rhs_size := 1 |}.
Definition pm_dst : buf Z := {| blen := 16; bdat := fun _ => 7 |}.
Definition pm_lanes (code : list instr) (cols : Z) : list Z :=
  match run 600 code 0 (kernel8_start 4 ex_leftover (fun _ => 5) pm_params pm_dst) with
  | Ok s => flat_map (fun c => slanes 4 (vs s (16 + Z.to_nat c))) (zrange 0 cols)
  | _ => []
  end.
Definition pm_exact (cols : Z) : list Z := flat_map (fun c => map (fun i => packed_dot pm_lhs 0 i pm_rhs 0 c 32) (zrange 0 4)) (zrange 0 cols).

Lemma pm_typed : typed s8 (k_lhs pm_params) /\ typed s8 (k_rhs pm_params).
Proof.
  split; intros i Hi; cbn [k_lhs k_rhs pm_params pm_lhs pm_rhs bdat]; change (it_lo s8) with (-128); change (it_hi s8) with 127;
  match goal with |- context [if ?b then _ else _] => destruct b end; try lia;
  match goal with |- context [?x mod ?y] => pose proof (Z.mod_pos_bound x y ltac:(lia)) end; lia.
Qed.
Lemma pm_values : map2 Z.sub (pm_exact 4) (pm_lanes (firstn 157 kernel8_neon) 4) = [0; 0; 0; 0; 0; 0; 0; 0; 0; 65536; 0; 0; 0; 0; 0; 0] /\
  map2 Z.sub (pm_exact 4) (pm_lanes (firstn 181 kernel8_a55) 4) = [0; 0; 0; 0; 0; 0; 0; 0; 0; 65536; 0; 0; 0; 0; 0; 0] /\
  map2 Z.sub (pm_exact 1) (pm_lanes (firstn 60 kernel8_1col) 1) = [0; 0; 0; 0].
Proof. repeat split; vm_compute; reflexivity. Qed.
