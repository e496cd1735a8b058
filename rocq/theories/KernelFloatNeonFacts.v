(** What the float kernels for AArch64 compute. *)
From Coq Require Import ZArith List Bool Lia SpecFloat.
From Verif Require Import Base SidePair Mat MatFacts Scalars FloatOps FloatWords FloatWordsFacts Pack PackFacts MulParams Kernel KernelFacts RunBy SimdFloat KernelFloatX86 MemcpyPackFacts KernelFloatProps FloatX86More
  Simd SimdFacts Neon64 NeonRun NeonTac NeonCols NeonPack NeonPackMath NeonPackBytes NeonKTac NeonKernelCode NeonKernelF NeonKernelT NeonKernelM NeonKernelB NeonKernelW NeonKernelL NeonKernelR CpuInfo Tune KernelFloatNeon SpecFloatNeon.
Import ListNotations.
Open Scope Z_scope.

(** ** Orders *)
Lemma fdot_rev : forall lv rv l, fdot lv rv (rev l) = fold_left (fun acc k => fused_mul_add 24 128 (lv k) (rv k) acc) l (S754_zero false).
Proof.
  intros lv rv l. rewrite <- fold_left_rev_right. induction (rev l) as [|k r IH]; [reflexivity|]. cbn [fdot fold_right]. rewrite IH. reflexivity.
Qed.
Lemma seq_zseq : forall n a, map Z.of_nat (seq a n) = zseq (Z.of_nat a) n.
Proof. induction n as [|n IH]; intros a; [reflexivity|]. cbn [seq map zseq]. rewrite IH. do 2 f_equal. lia. Qed.
Lemma fold_map : forall {A B C} (f : A -> C -> A) (g : B -> C) l a, fold_left (fun acc k => f acc (g k)) l a = fold_left f (map g l) a.
Proof. intros A B C f g l. induction l as [|b l IH]; intros a; [reflexivity|]. cbn. apply IH. Qed.

Lemma fdot_dot : forall (lv rv : nat -> spec_float) (l r : Z -> spec_float) (o : list nat), (forall k, In k o -> lv k = l (Z.of_nat k) /\ rv k = r (Z.of_nat k)) ->
  fdot lv rv (rev o) = neon_dot (map Z.of_nat o) l r.
Proof.
  intros lv rv l r o H. rewrite fdot_rev. unfold neon_dot. rewrite <- (fold_map (fun acc k => fused_mul_add 24 128 (l k) (r k) acc) Z.of_nat).
  generalize (S754_zero false). induction o as [|k o IH]; intros a; [reflexivity|]. cbn [fold_left]. destruct (H k (or_introl eq_refl)) as (-> & ->). apply IH. intros k' Hk. apply H. right. exact Hk.
Qed.

Definition late_order (K : Z) : list nat := let b := Z.to_nat (4 * (K / 4) - 4) in if K <? 8 then seq 0 (Z.to_nat K) else seq 0 b ++ [1 + b; 2 + b; 3 + b; b]%nat ++ seq (4 + b) (Z.to_nat K - (4 + b)).
Lemma late_rev : forall K, late K = rev (late_order K).
Proof.
  intros K. unfold late, late_order. destruct (K <? 8); [reflexivity|]. cbv zeta. rewrite !rev_app_distr. unfold upto. rewrite <- app_assoc. reflexivity.
Qed.
Definition order_of (t : tuning) (K r c : Z) : list nat := if unrolled t && negb ((r <? 4) && (c <? 4)) then late_order K else seq 0 (Z.to_nat K).
Lemma order_levels : forall t K i j, 1 <= K -> map Z.of_nat (order_of t K (i mod 8) (j mod 8)) = neon_order t K i j.
Proof.
  intros t K i j HK. unfold order_of, neon_order, late_order. rewrite (Z.leb_antisym). pose proof (Z.div_mod K 4). pose proof (Z.mod_pos_bound K 4).
  destruct (unrolled t); cbn [andb].
  2: { rewrite seq_zseq. unfold zrange. rewrite Z.sub_0_r. reflexivity. }
  destruct (Z.ltb_spec K 8); cbn [negb andb].
  { destruct (negb _); rewrite seq_zseq; unfold zrange; rewrite Z.sub_0_r; reflexivity. }
  destruct (negb _).
  2: { rewrite seq_zseq. unfold zrange. rewrite Z.sub_0_r. reflexivity. }
  rewrite !map_app, !seq_zseq. unfold zrange. cbn [map]. f_equal; [f_equal; lia|]. cbn [app]. repeat (f_equal; try lia).
Qed.
Lemma order_range : forall t K r c k, 1 <= K -> In k (order_of t K r c) -> (k < Z.to_nat K)%nat.
Proof.
  intros t K r c k HK. unfold order_of, late_order. pose proof (Z.div_mod K 4). pose proof (Z.mod_pos_bound K 4).
  assert (S0 : In k (seq 0 (Z.to_nat K)) -> (k < Z.to_nat K)%nat) by (intros H1; apply in_seq in H1; lia).
  destruct (_ && _); [|exact S0]. destruct (Z.ltb_spec K 8); [exact S0|]. cbv zeta. rewrite !in_app_iff, !in_seq. cbn [In]. lia.
Qed.

(** ** Clamping *)
Lemma larger_arm : forall x y, fmax_arm x y = larger x y.
Proof.
  intros x y. destruct x as [s|s| |s m e], y as [s'|s'| |s' m' e']; try reflexivity; try (destruct s, s'; reflexivity); try (destruct s; reflexivity); try (destruct s'; reflexivity).
  pose proof (compare_eq (S754_finite s m e) (S754_finite s' m' e')) as CE. unfold fmax_arm, larger, SFltb. rewrite (compare_swap (S754_finite s m e) (S754_finite s' m' e')).
  destruct (SFcompare (S754_finite s m e) (S754_finite s' m' e')) as [[]|] eqn:E; try reflexivity.
  - destruct (CE eq_refl) as [EQ|(u & u' & E1 & E2)]; [symmetry; exact EQ|discriminate].
  - destruct (compare_some (S754_finite s m e) (S754_finite s' m' e')); [discriminate|discriminate|exact E].
Qed.
Lemma smaller_arm : forall x y, fmin_arm x y = smaller x y.
Proof.
  intros x y. destruct x as [s|s| |s m e], y as [s'|s'| |s' m' e']; try reflexivity; try (destruct s, s'; reflexivity); try (destruct s; reflexivity); try (destruct s'; reflexivity).
  pose proof (compare_eq (S754_finite s m e) (S754_finite s' m' e')) as CE. unfold fmin_arm, smaller, SFltb.
  destruct (SFcompare (S754_finite s m e) (S754_finite s' m' e')) as [[]|] eqn:E; try reflexivity.
  - destruct (CE eq_refl) as [EQ|(u & u' & E1 & E2)]; [symmetry; exact EQ|discriminate].
  - destruct (compare_some (S754_finite s m e) (S754_finite s' m' e')); [discriminate|discriminate|exact E].
Qed.

(** ** Memory *)
Lemma flt_bytes : forall b i, is_float (bdat b i) -> flt (float_bytes b) (4 * i) = bdat b i.
Proof.
  intros b i H. unfold flt, float_bytes. change 4%nat with (Z.to_nat 4). rewrite enc4_word. cbn [float_words bdat]. rewrite Z.mod_small by (apply word_range, H). apply word_round_trip, H.
Qed.

(** ** From the first instruction to the last *)
Lemma positive_product : forall a b, 1 <= a -> 1 <= b -> a * b = Z.of_nat (S (Z.to_nat (a * b) - 1)).
Proof. intros. assert (1 <= a * b) by nia. lia. Qed.
Lemma first_block : forall o K s n len, 1 <= K -> 1 <= n -> 0 <= o /\ 4 * K <= s /\ o + 8 * s * n <= len -> 0 <= o /\ o + 32 <= len.
Proof. intros. assert (8 * s * 1 <= 8 * s * n) by (apply Z.mul_le_mono_nonneg_l; lia). lia. Qed.
Lemma enough : forall a n K m x, 1 <= K -> (a < 40)%nat -> (n <= 47 * Z.to_nat K + 200)%nat -> x = Z.of_nat (S m) -> (a + (n + 640) * S m < Z.to_nat (40 + (47 * K + 840) * x))%nat.
Proof.
  intros a n K m x HK Ha Hn ->. assert (H : ((n + 640) * S m <= (47 * Z.to_nat K + 840) * S m)%nat) by (apply Nat.mul_le_mono_r; lia).
  assert (E : Z.of_nat ((47 * Z.to_nat K + 840) * S m) = (47 * K + 840) * Z.of_nat (S m)) by (rewrite Nat2Z.inj_mul, Nat2Z.inj_add, Nat2Z.inj_mul, Z2Nat.id by lia; reflexivity). lia.
Qed.
Section Whole.
Variables (L R Bi : buf Z) (lo ro dof bo sr sc lr lc dr dc ls rs ds K cmin cmax : Z) (hb cc : bool) (drz dcz : Z).
Hypothesis Hlr : 0 <= sr <= lr /\ lr < dr /\ dr < 2 ^ 31 /\ lr + 8 < 2 ^ 31.
Hypothesis Hlc : 0 <= sc <= lc /\ lc < dc /\ dc < 2 ^ 31 /\ lc + 8 < 2 ^ 31.
Hypothesis Hst : 0 <= ls < 2 ^ 31 /\ 0 <= rs < 2 ^ 31 /\ 0 <= ds < 2 ^ 31.
Hypothesis Hdr : drz mod 2 ^ 32 = dr.
Hypothesis Hdc : dcz mod 2 ^ 32 = dc.
Hypothesis HK : 1 <= K < 2 ^ 31.
Variables (nbr nbc : Z).
Hypothesis Hnr : 1 <= nbr /\ lr = sr + 8 * (nbr - 1).
Hypothesis Hnc : 1 <= nbc /\ lc = sc + 8 * (nbc - 1).
Hypothesis HL : 0 <= lo /\ 4 * K <= ls /\ lo + 8 * ls * nbr <= blen L.
Hypothesis HR : 0 <= ro /\ 4 * K <= rs /\ ro + 8 * rs * nbc <= blen R.
Hypothesis HBi : 0 <= bo /\ bo + (if hb then 4 * (if cc then sc + 8 * nbc else sr + 8 * nbr) else 32) <= blen Bi.
Hypothesis HByte : forall i, 0 <= bdat Bi i < 256.
Hypothesis HLb : forall i, 0 <= bdat L i < 256.
Hypothesis HRb : forall i, 0 <= bdat R i < 256.
Hypothesis Hcl : 0 <= cmin < 2 ^ 32 /\ 0 <= cmax < 2 ^ 32.
Notation NR := (Z.min (8 * nbr) (dr - sr)).
Notation NC := (Z.min (8 * nbc) (dc - sc)).
Hypothesis Hds : 4 * NR <= ds.
Variable D0 : buf Z.
Hypothesis HD : 0 <= dof /\ dof + ds * (NC - 1) + 4 * NR <= blen D0.
Notation kmem := (kmem L R Bi lo ro dof bo sr sc lr lc dr dc ls rs ds K cmin cmax hb cc).
Notation drawing l1 l2 := (drawn (out_off dof ds) (out_word L R Bi lo ro bo sr sc ls rs cmin cmax hb cc l1 l2) (region sr sc dr dc nbr nbc) D0).
Variables (T : buf Z) (s : state).
Hypothesis HT : 256 <= blen T.
Hypothesis HS : starting L R Bi lo ro dof bo sr sc lr lc dr dc ls rs ds K cmin cmax hb cc drz dcz D0 T s.

Definition fuel_for : nat := Z.to_nat (40 + (47 * K + 840) * (nbr * nbc)).

Lemma whole_run : forall code a b n c1 l1 l2 bpart,
  (forall lp rp, 0 <= lp /\ lp + 32 * K <= blen L -> 0 <= rp /\ rp + 32 * K <= blen R -> sums L R lp rp K code a b n c1 l1 l2) ->
  part_at code advance_part b -> part_at code bpart (b + 26) -> part_at code finish_part (b + 70) ->
  (forall u v f s, outs f s -> vs s 14 = u -> vs s 15 = v -> f_eq (fl s) = negb cc ->
    reach 44 bpart 0 s (fun pc s' => pc = 44%nat /\ outs (biased cc u v f) s' /\ xs s' = xs s /\ mem s' = mem s /\ keepv [0; 1; 2; 3]%nat s s')) ->
  round lc ls rs ds K drz dcz code a b c1 ->
  enters L R Bi lo ro dof bo sr sc lr lc dr dc ls rs ds K cmin cmax hb cc drz dcz code a c1 ->
  (a < 40)%nat -> (n <= 47 * Z.to_nat K + 200)%nat -> length code = (b + 206)%nat ->
  exists s', run fuel_for code 0 s = Ok s' /\ exists D T', kmem D T' (mem s') /\ drawing l1 l2 D.
Proof.
  intros code a b n c1 l1 l2 bpart H1 H2 H3 H4 H5 H6 H7 Ha Hn Hlen.
  set (m := (Z.to_nat (nbr * nbc) - 1)%nat). assert (Hm : nbr * nbc = Z.of_nat (S m)) by (apply positive_product; lia).
  assert (G : reach (a + (n + 640) * S m) code 0 s (fun pc s' => pc = (b + 206)%nat /\ exists D T', kmem D T' (mem s') /\ drawing l1 l2 D)).
  { eapply reach_trans; [apply (H7 D0 T s HS HT); [apply (first_block _ K ls nbr); lia|apply (first_block _ K rs nbc); lia]|]. intros pc s1 (-> & HB).
    apply (loop L R Bi lo ro dof bo sr sc lr lc dr dc ls rs ds K cmin cmax hb cc drz dcz Hlr Hlc Hst Hdr Hdc code a b n c1 l1 l2 bpart HK H1 H2 H3 H4 H5 H6 nbr nbc Hnr Hnc HL HR HBi HByte Hcl Hds D0 HD m 0 0 s1); [lia|lia|rewrite <- Hm; ring|].
    exists D0. split; [apply drawn_none; unfold done, region; intros r c HH; lia|].
    replace (sr + 8 * 0) with sr by ring. replace (sc + 8 * 0) with sc by ring. replace (lo + 8 * ls * 0) with lo by ring. replace (ro + 8 * rs * 0) with ro by ring.
    replace (dof + 8 * ds * 0 + 32 * 0) with dof by ring. replace (dof + 8 * ds * 0) with dof by ring. exact HB. }
  destruct (reach_run _ _ _ _ _ fuel_for G) as (s' & E & pc & -> & HH).
  - apply enough; [lia|exact Ha|exact Hn|exact Hm].
  - intros pc s' (-> & _). apply nth_error_None. lia.
  - exists s'. split; [exact E|exact HH].
Qed.

Lemma any_run : forall dotprod t, exists s', run fuel_for (float_kernel_code dotprod t) 0 s = Ok s' /\ exists D T', kmem D T' (mem s') /\
  drawing (upto 0 (Z.to_nat K)) (if unrolled t then late K else upto 0 (Z.to_nat K)) D.
Proof.
  intros dotprod t.
  pose proof (whole_run kernelf_neon 29 225 (47 * Z.to_nat K + 200) 1 (upto 0 (Z.to_nat K)) (late K) bias_part
    (fun lp rp hl hr => sums_neon L R lp rp K HK hl hr) advance_neon bias_neon finish_neon (add_bias cc) (round_neon lc ls rs ds K drz dcz)
    (enters_neon L R Bi lo ro dof bo sr sc lr lc dr dc ls rs ds K cmin cmax hb cc drz dcz) ltac:(lia) ltac:(lia) ltac:(reflexivity)) as W1.
  pose proof (whole_run kernelf_x1 29 74 (25 * Z.to_nat K + 20) 1 (upto 0 (Z.to_nat K)) (upto 0 (Z.to_nat K)) bias_part
    (fun lp rp hl hr => sums_x1 L R lp rp K HK hl hr) advance_x1 bias_x1 finish_x1 (add_bias cc) (round_x1 lc ls rs ds K drz dcz)
    (enters_x1 L R Bi lo ro dof bo sr sc lr lc dr dc ls rs ds K cmin cmax hb cc drz dcz) ltac:(lia) ltac:(lia) ltac:(reflexivity)) as W2.
  pose proof (whole_run kernelf_a55 37 92 (34 * Z.to_nat K + 21) (K - 1) (upto 0 (Z.to_nat K)) (upto 0 (Z.to_nat K)) bias_part5
    (fun lp rp hl hr => sums_a55 L R lp rp K HK hl hr HLb HRb) advance_a55 bias_a55 finish_a55 (add_bias5 cc) (round_a55 lc ls rs ds K drz dcz HK)
    (enters_a55 L R Bi lo ro dof bo sr sc lr lc dr dc ls rs ds K cmin cmax hb cc drz dcz HK) ltac:(lia) ltac:(lia) ltac:(reflexivity)) as W3.
  pose proof (whole_run kernelf_dotprod_a55 37 92 (34 * Z.to_nat K + 21) (K - 1) (upto 0 (Z.to_nat K)) (upto 0 (Z.to_nat K)) bias_part5
    (fun lp rp hl hr => sums_dotprod_a55 L R lp rp K HK hl hr HLb HRb) advance_dotprod_a55 bias_dotprod_a55 finish_dotprod_a55 (add_bias5 cc) (round_dotprod_a55 lc ls rs ds K drz dcz HK)
    (enters_dotprod_a55 L R Bi lo ro dof bo sr sc lr lc dr dc ls rs ds K cmin cmax hb cc drz dcz HK) ltac:(lia) ltac:(lia) ltac:(reflexivity)) as W4.
  destruct t; [exact W1|exact W1|destruct dotprod; [exact W4|exact W3]|exact W2].
Qed.
End Whole.
