(** Kernel8bitNeonDotprodX1 and Kernel8bitNeonDotprod (kernel_arm64.cc:4414-5667, 2987-4412): how a block is stored. *)
From Coq Require Import ZArith List Bool Lia.
From Verif Require Import Base Mat Simd SimdFacts SpecSimd Kernel8bitFacts RequantProps Neon64 NeonRun NeonTac NeonCols NeonPack NeonKTac NeonKernelF NeonKernelT NeonKernel8Code Neon8Lanes Neon8Tac NeonKernelB Neon8Col Neon8Blk Neon8Dot.
Import ListNotations.
Open Scope Z_scope.

Section Store.
Variables (Lb Rb Bi SL SR Mu Ex : buf Z) (lo ro dof lzw rzw dzp pzw sr sc lr lc dr dc ls rs ds K cmin cmax : Z) (hb hls hrs hpc cc : bool) (drz dcz ty tyz : Z).
Notation kmem8 := (kmem8 Lb Rb Bi SL SR Mu Ex lo ro dof lzw rzw dzp pzw sr sc lr lc dr dc ls rs ds K cmin cmax hb hls hrs hpc cc).
Notation core8 := (core8 lc ls rs ds K drz dcz tyz).
Notation lvec := (lvec Lb).
Notation rvec4 := (rvec4 Rb).
Notation accs8 := (accs8 Lb Rb).
Hypothesis Hlr : 0 <= sr <= lr /\ lr < dr /\ dr < 2 ^ 31 /\ lr + 8 < 2 ^ 31.
Hypothesis Hlc : 0 <= sc <= lc /\ lc < dc /\ dc < 2 ^ 31 /\ lc + 8 < 2 ^ 31.
Hypothesis Hst : 0 <= ls < 2 ^ 31 /\ 0 <= rs < 2 ^ 31 /\ 0 <= ds < 2 ^ 31.
Hypothesis Hdr : drz mod 2 ^ 32 = dr.
Hypothesis Hdc : dcz mod 2 ^ 32 = dc.

Ltac sdots := rewrite ?sdotl by (reflexivity || lia).
(** ** The size of the block *)
Definition whole (row col : Z) : bool := (fit dr row =? 8) && (fit dc col =? 8).
Lemma fit_rows : forall row, row <= lr -> 1 <= fit dr row <= 8.
Proof. intros row H. unfold fit. destruct (Z.leb_spec (dr - row) 8); lia. Qed.
Lemma fit_cols : forall col, col <= lc -> 1 <= fit dc col <= 8.
Proof. intros col H. unfold fit. destruct (Z.leb_spec (dc - col) 8); lia. Qed.
Record sized (row col : Z) (s0 s : state) : Prop := {
  g_1 : xs s 1 = Int (fit dr row); g_2 : xs s 2 = Int (fit dc col); g_fl : f_eq (fl s) = whole row col; g_mem : mem s = mem s0; g_vs : vs s = vs s0; g_keep : keep mainregs s0 s }.
Ltac sizes_proof :=
  intros row col s [C8 C9 C10 C11 C12 C48 C49 C50 C51 C52] X46 X47 Hrow Hcol;
  pose proof (fit_rows row ltac:(lia)) as Hnr; pose proof (fit_cols col ltac:(lia)) as Hnc;
  assert (Enr : fit dr row = if dr - row <=? 8 then dr - row else 8) by reflexivity; assert (Enc : fit dc col = if dc - col <=? 8 then dc - col else 8) by reflexivity; rewrite Enr in Hnr; rewrite Enc in Hnc;
  begin; do 4 kstepd;
  (eapply k_cselw with (t := (dr - row <=? 8)) (z := if dr - row <=? 8 then dr - row else 8) (v := if dr - row <=? 8 then dr - row else 8);
    [reflexivity|look; cbn [holds f_lt f_eq]; f_equal; destruct (Z.leb_spec (dr - row) 8), (Z.ltb_spec (dr - row) 8), (Z.eqb_spec (dr - row) 8); try reflexivity; lia
    |destruct (dr - row <=? 8); reads|apply small_low; lia|]); look; kstepd;
  (eapply k_cselw with (t := (dc - col <=? 8)) (z := if dc - col <=? 8 then dc - col else 8) (v := if dc - col <=? 8 then dc - col else 8);
    [reflexivity|look; cbn [holds f_lt f_eq]; f_equal; destruct (Z.leb_spec (dc - col) 8), (Z.ltb_spec (dc - col) 8), (Z.eqb_spec (dc - col) 8); try reflexivity; lia
    |destruct (dc - col <=? 8); reads|apply small_low; lia|]); look;
  set (nr := if dr - row <=? 8 then dr - row else 8) in *; set (nc := if dc - col <=? 8 then dc - col else 8) in *; clearbody nr nc; kstepd;
  destruct (Z.eqb_spec nr 8) as [E8|E8]; assert (E8' := E8); [apply Z.eqb_eq in E8'|apply Z.eqb_neq in E8'];
  [ (eapply k_ccmp; [reflexivity|reflexivity|reads|reads|apply small_low; lia|reflexivity|lia|lia|]); look; (eapply reach_b with (b := (nc =? 8)); [reflexivity|reflexivity|reflexivity|])
  | (eapply r_ccmp_not; [reflexivity|reflexivity|]); look; (eapply reach_b with (b := false); [reflexivity|reflexivity|reflexivity|]) ];
  finish; (split; [unfold whole; rewrite Enr, Enc, E8'; reflexivity|]); constructor; look; unfold whole; rewrite ?Enr, ?Enc, ?E8'; try reflexivity; kept_here.

(** ** One block *)
(** The first [fit dr row] rows of the first [fit dc col] columns in [out] have been stored, and the first products of the next block added. *)
Definition doned (sz : Z) (row col ip : Z) (out : nat -> list Z) (np nq : Z) (D T : buf Z) (s s' : state) : Prop :=
  exists D' T', kmem8 D' T' (mem s') /\ cols ip ds (sz * fit dr row) (Z.to_nat (fit dc col)) out D D' /\ blen T' = blen T /\ xs s' 45 = Ptr 4 (ip + 8 * sz) /\
    accs8 np nq [0%nat] [] s' /\ full (vs s' 13) /\ keep keptregs s s' /\ keepv [0; 1; 2; 3]%nat s s'.

Lemma sizes_u8 : forall row col s, core8 s -> xs s 46 = Int row -> xs s 47 = Int col -> 0 <= row <= lr -> 0 <= col <= lc ->
  reach 10 tail8 368 s (fun pc s' => pc = (if whole row col then 381 else 378)%nat /\ sized row col s s').
Proof. sizes_proof. Qed.

Lemma sizes_s8 : forall row col s, core8 s -> xs s 46 = Int row -> xs s 47 = Int col -> 0 <= row <= lr -> 0 <= col <= lc ->
  reach 10 tail8 492 s (fun pc s' => pc = (if whole row col then 505 else 502)%nat /\ sized row col s s').
Proof. sizes_proof. Qed.

Lemma sizes_s16 : forall row col s, core8 s -> xs s 46 = Int row -> xs s 47 = Int col -> 0 <= row <= lr -> 0 <= col <= lc ->
  reach 10 tail8 620 s (fun pc s' => pc = (if whole row col then 633 else 630)%nat /\ sized row col s s').
Proof. sizes_proof. Qed.

Lemma sizes_s32 : forall row col s, core8 s -> xs s 46 = Int row -> xs s 47 = Int col -> 0 <= row <= lr -> 0 <= col <= lc ->
  reach 10 tail8 687 s (fun pc s' => pc = (if whole row col then 731 else 697)%nat /\ sized row col s s').
Proof. sizes_proof. Qed.

Lemma inner_u8 : forall D T q tp nr n r s, (r + S n = nr)%nat -> (nr <= 8)%nat -> xs s 1 = Int (Z.of_nat nr) -> xs s 3 = Ptr 5 tp -> xs s 4 = Ptr 4 q -> xs s 5 = Int (Z.of_nat r) ->
  kmem8 (copyn 1 D T q tp r) T (mem s) -> (forall x, 0 <= x < 64 -> 0 <= bdat T x < 256) -> 256 <= blen T -> 0 <= tp <= 56 -> 0 <= q -> q + 1 * Z.of_nat nr <= blen D ->
  reach (6 * S n) tail8 420 s (fun pc s' => pc = 426%nat /\ kmem8 (copyn 1 D T q tp nr) T (mem s') /\ keep (1 :: 2 :: 3 :: 4 :: 6 :: mainregs)%nat s s' /\ vs s' = vs s).
Proof.
  intros D T q tp nr n r s Hn Hnr X1 X3 X4 X5 HM HT HbT Htp Hq HbD. revert r s Hn X1 X3 X4 X5 HM.
  assert (HS : forall r s, (r < nr)%nat -> xs s 1 = Int (Z.of_nat nr) -> xs s 3 = Ptr 5 tp -> xs s 4 = Ptr 4 q -> xs s 5 = Int (Z.of_nat r) -> kmem8 (copyn 1 D T q tp r) T (mem s) -> reach 6 tail8 420 s (fun pc s' => pc = (if (Z.of_nat r + 1 <? Z.of_nat nr)%Z then 420 else 426)%nat /\ kmem8 (copyn 1 D T q tp (S r)) T (mem s') /\ xs s' 5 = Int (Z.of_nat (S r)) /\ keep (1 :: 2 :: 3 :: 4 :: 6 :: mainregs)%nat s s' /\ vs s' = vs s)) by
   (intros r s Hr X1 X3 X4 X5 [M0 M1 M2 M3 M4 M5 M6 M7 M8 M9]; begin; kstepd; (eapply m_ldr; [reflexivity|reads|eapply uxtw; [reads|lia]|lia|mem_fact|lia|lia|lia|]); cbn [xs vs fl mem];
    (eapply m_strk with (l := get_bytes T (tp + Z.of_nat r) 1); [reflexivity|reads|eapply uxtw; [reads|lia]|lia|reads|mem_fact|lia|rewrite copyn_blen; lia|apply same_bytes; intros; apply HT; lia|]); cbn [xs vs fl mem];
    kstepd; kstepd; (eapply reach_b with (b := (Z.of_nat r + 1 <? Z.of_nat nr)); [reflexivity|reflexivity|reflexivity|]); finish;
    (split; [reflexivity|]); (split; [|split; [reads_lia|split; [kept_here|reflexivity]]]);
    constructor; look; try assumption; f_equal; cbn [copyn]; apply put_eq; [reflexivity|lia|f_equal; lia]).
  induction n as [|n IH]; intros r s Hn X1 X3 X4 X5 HM; specialize (HS r s ltac:(lia) X1 X3 X4 X5 HM) as HSr.
  - eapply reach_weaken; [exact HSr|lia|]. intros pc s' (-> & HM' & H5 & HK & HV).
    replace (Z.of_nat r + 1 <? Z.of_nat nr) with false by (symmetry; apply Z.ltb_ge; lia). replace (S r) with nr in HM' by lia. auto.
  - replace (6 * S (S n))%nat with (6 + 6 * S n)%nat by lia. eapply reach_trans; [exact HSr|]. intros pc s' (-> & HM' & H5 & HK & HV).
    replace (Z.of_nat r + 1 <? Z.of_nat nr) with true by (symmetry; apply Z.ltb_lt; lia).
    eapply reach_weaken; [apply (IH (S r) s'); try assumption; try lia; (rewrite (keep_read _ _ _ _ HK) by (cbn; tauto); assumption)|lia|].
    intros pc s2 (-> & HM2 & HK2 & HV2). split; [reflexivity|]. split; [exact HM2|]. split; [eapply keep_trans; eassumption|congruence].
Qed.

Lemma outer_u8 : forall D T q nr nc n c s, (c + S n = nc)%nat -> (1 <= nr <= 8)%nat -> (nc <= 8)%nat -> xs s 1 = Int (Z.of_nat nr) -> xs s 2 = Int (Z.of_nat nc) -> xs s 3 = Ptr 5 (8 * Z.of_nat c) -> xs s 4 = Ptr 4 (q + ds * Z.of_nat c) ->
  xs s 6 = Int (Z.of_nat c) -> xs s 11 = Int ds -> kmem8 (copyb 1 D T q ds nr c) T (mem s) -> (forall x, 0 <= x < 64 -> 0 <= bdat T x < 256) -> 256 <= blen T -> 0 <= q -> q + ds * (Z.of_nat nc - 1) + 1 * Z.of_nat nr <= blen D ->
  reach ((6 * nr + 8) * S n) tail8 417 s (fun pc s' => pc = 431%nat /\ kmem8 (copyb 1 D T q ds nr nc) T (mem s') /\ keep mainregs s s' /\ vs s' = vs s).
Proof.
  intros D T q nr nc n c s Hn Hnr Hnc X1 X2 X3 X4 X6 X11 HM HT HbT Hq HbD. revert c s Hn X1 X2 X3 X4 X6 X11 HM.
  assert (HS : forall c s, (c < nc)%nat -> xs s 1 = Int (Z.of_nat nr) -> xs s 2 = Int (Z.of_nat nc) -> xs s 3 = Ptr 5 (8 * Z.of_nat c) -> xs s 4 = Ptr 4 (q + ds * Z.of_nat c) ->
    xs s 6 = Int (Z.of_nat c) -> xs s 11 = Int ds -> kmem8 (copyb 1 D T q ds nr c) T (mem s) -> reach (6 * nr + 8) tail8 417 s (fun pc s' => pc = (if (Z.of_nat c + 1 <? Z.of_nat nc)%Z then 417 else 431)%nat /\ kmem8 (copyb 1 D T q ds nr (S c)) T (mem s') /\
      xs s' 3 = Ptr 5 (8 * Z.of_nat (S c)) /\ xs s' 4 = Ptr 4 (q + ds * Z.of_nat (S c)) /\ xs s' 6 = Int (Z.of_nat (S c)) /\ keep (1 :: 2 :: mainregs)%nat s s' /\ vs s' = vs s)) by
   (intros c s Hc X1 X2 X3 X4 X6 X11 HM; assert (Hdsc : 0 <= ds * Z.of_nat c) by lia; assert (Hdsn : ds * Z.of_nat c <= ds * (Z.of_nat nc - 1)) by (apply Z.mul_le_mono_nonneg_l; lia);
    replace (6 * nr + 8)%nat with (3 + (6 * S (nr - 1) + 5))%nat by lia; begin; do 3 kstepd;
    (eapply reach_trans; [apply (inner_u8 (copyb 1 D T q ds nr c) T (q + ds * Z.of_nat c) (8 * Z.of_nat c) nr (nr - 1) 0); try assumption; try lia; try reads; rewrite copyb_blen; lia|]);
    intros pc s1 (-> & HM1 & HK1 & HV1);
    assert (Y1 := keep_read _ _ _ 1%nat HK1 ltac:(cbn; tauto)); assert (Y2 := keep_read _ _ _ 2%nat HK1 ltac:(cbn; tauto)); assert (Y3 := keep_read _ _ _ 3%nat HK1 ltac:(cbn; tauto)); assert (Y4 := keep_read _ _ _ 4%nat HK1 ltac:(cbn; tauto));
    assert (Y6 := keep_read _ _ _ 6%nat HK1 ltac:(cbn; tauto)); assert (Y11 := keep_read _ _ _ 11%nat HK1 ltac:(cbn; tauto)); cbn [xs upd Nat.eqb] in Y1, Y2, Y3, Y4, Y6, Y11;
    rewrite X1 in Y1; rewrite X2 in Y2; rewrite X3 in Y3; rewrite X4 in Y4; rewrite X6 in Y6; rewrite X11 in Y11;
    do 4 kstepd; (eapply reach_b with (b := (Z.of_nat c + 1 <? Z.of_nat nc)); [reflexivity|reflexivity|reflexivity|]); finish;
    (split; [reflexivity|]); (split; [exact HM1|]); (split; [reads_lia|]); (split; [reads_lia|]); (split; [reads_lia|]);
    (split; [|look; exact HV1]); eapply keep_trans; [|eapply keep_trans; [apply (NeonKernelB.keep_incl (1 :: 2 :: 3 :: 4 :: 6 :: mainregs)%nat (1 :: 2 :: mainregs)%nat); [reflexivity|exact HK1]|]]; kept_here).
  induction n as [|n IH]; intros c s Hn X1 X2 X3 X4 X6 X11 HM; specialize (HS c s ltac:(lia) X1 X2 X3 X4 X6 X11 HM) as HSc.
  - eapply reach_weaken; [exact HSc|lia|]. intros pc s' (-> & HM' & _ & _ & _ & HK & HV).
    replace (Z.of_nat c + 1 <? Z.of_nat nc) with false by (symmetry; apply Z.ltb_ge; lia). replace (S c) with nc in HM' by lia. split; [reflexivity|]. split; [exact HM'|]. split; [|exact HV].
    apply (NeonKernelB.keep_incl (1 :: 2 :: mainregs)%nat mainregs); [reflexivity|exact HK].
  - replace ((6 * nr + 8) * S (S n))%nat with ((6 * nr + 8) + (6 * nr + 8) * S n)%nat by lia. eapply reach_trans; [exact HSc|]. intros pc s' (-> & HM' & H3 & H4 & H6 & HK & HV).
    replace (Z.of_nat c + 1 <? Z.of_nat nc) with true by (symmetry; apply Z.ltb_lt; lia).
    eapply reach_weaken; [apply (IH (S c) s'); try assumption; try lia; (rewrite (keep_read _ _ _ _ HK) by (cbn; tauto); assumption)|lia|].
    intros pc s2 (-> & HM2 & HK2 & HV2). split; [reflexivity|]. split; [exact HM2|]. split; [|congruence]. eapply keep_trans; [|exact HK2].
    apply (NeonKernelB.keep_incl (1 :: 2 :: mainregs)%nat mainregs); [reflexivity|exact HK].
Qed.

Lemma inner_s8 : forall D T q tp nr n r s, (r + S n = nr)%nat -> (nr <= 8)%nat -> xs s 1 = Int (Z.of_nat nr) -> xs s 3 = Ptr 5 tp -> xs s 4 = Ptr 4 q -> xs s 5 = Int (Z.of_nat r) ->
  kmem8 (copyn 1 D T q tp r) T (mem s) -> (forall x, 0 <= x < 64 -> 0 <= bdat T x < 256) -> 256 <= blen T -> 0 <= tp <= 56 -> 0 <= q -> q + 1 * Z.of_nat nr <= blen D ->
  reach (6 * S n) tail8 544 s (fun pc s' => pc = 550%nat /\ kmem8 (copyn 1 D T q tp nr) T (mem s') /\ keep (1 :: 2 :: 3 :: 4 :: 6 :: mainregs)%nat s s' /\ vs s' = vs s).
Proof.
  intros D T q tp nr n r s Hn Hnr X1 X3 X4 X5 HM HT HbT Htp Hq HbD. revert r s Hn X1 X3 X4 X5 HM.
  assert (HS : forall r s, (r < nr)%nat -> xs s 1 = Int (Z.of_nat nr) -> xs s 3 = Ptr 5 tp -> xs s 4 = Ptr 4 q -> xs s 5 = Int (Z.of_nat r) -> kmem8 (copyn 1 D T q tp r) T (mem s) -> reach 6 tail8 544 s (fun pc s' => pc = (if (Z.of_nat r + 1 <? Z.of_nat nr)%Z then 544 else 550)%nat /\ kmem8 (copyn 1 D T q tp (S r)) T (mem s') /\ xs s' 5 = Int (Z.of_nat (S r)) /\ keep (1 :: 2 :: 3 :: 4 :: 6 :: mainregs)%nat s s' /\ vs s' = vs s)) by
   (intros r s Hr X1 X3 X4 X5 [M0 M1 M2 M3 M4 M5 M6 M7 M8 M9]; begin; kstepd; (eapply m_ldr; [reflexivity|reads|eapply uxtw; [reads|lia]|lia|mem_fact|lia|lia|lia|]); cbn [xs vs fl mem];
    (eapply m_strk with (l := get_bytes T (tp + Z.of_nat r) 1); [reflexivity|reads|eapply uxtw; [reads|lia]|lia|reads|mem_fact|lia|rewrite copyn_blen; lia|apply same_bytes; intros; apply HT; lia|]); cbn [xs vs fl mem];
    kstepd; kstepd; (eapply reach_b with (b := (Z.of_nat r + 1 <? Z.of_nat nr)); [reflexivity|reflexivity|reflexivity|]); finish;
    (split; [reflexivity|]); (split; [|split; [reads_lia|split; [kept_here|reflexivity]]]);
    constructor; look; try assumption; f_equal; cbn [copyn]; apply put_eq; [reflexivity|lia|f_equal; lia]).
  induction n as [|n IH]; intros r s Hn X1 X3 X4 X5 HM; specialize (HS r s ltac:(lia) X1 X3 X4 X5 HM) as HSr.
  - eapply reach_weaken; [exact HSr|lia|]. intros pc s' (-> & HM' & H5 & HK & HV).
    replace (Z.of_nat r + 1 <? Z.of_nat nr) with false by (symmetry; apply Z.ltb_ge; lia). replace (S r) with nr in HM' by lia. auto.
  - replace (6 * S (S n))%nat with (6 + 6 * S n)%nat by lia. eapply reach_trans; [exact HSr|]. intros pc s' (-> & HM' & H5 & HK & HV).
    replace (Z.of_nat r + 1 <? Z.of_nat nr) with true by (symmetry; apply Z.ltb_lt; lia).
    eapply reach_weaken; [apply (IH (S r) s'); try assumption; try lia; (rewrite (keep_read _ _ _ _ HK) by (cbn; tauto); assumption)|lia|].
    intros pc s2 (-> & HM2 & HK2 & HV2). split; [reflexivity|]. split; [exact HM2|]. split; [eapply keep_trans; eassumption|congruence].
Qed.

Lemma outer_s8 : forall D T q nr nc n c s, (c + S n = nc)%nat -> (1 <= nr <= 8)%nat -> (nc <= 8)%nat -> xs s 1 = Int (Z.of_nat nr) -> xs s 2 = Int (Z.of_nat nc) -> xs s 3 = Ptr 5 (8 * Z.of_nat c) -> xs s 4 = Ptr 4 (q + ds * Z.of_nat c) ->
  xs s 6 = Int (Z.of_nat c) -> xs s 11 = Int ds -> kmem8 (copyb 1 D T q ds nr c) T (mem s) -> (forall x, 0 <= x < 64 -> 0 <= bdat T x < 256) -> 256 <= blen T -> 0 <= q -> q + ds * (Z.of_nat nc - 1) + 1 * Z.of_nat nr <= blen D ->
  reach ((6 * nr + 8) * S n) tail8 541 s (fun pc s' => pc = 555%nat /\ kmem8 (copyb 1 D T q ds nr nc) T (mem s') /\ keep mainregs s s' /\ vs s' = vs s).
Proof.
  intros D T q nr nc n c s Hn Hnr Hnc X1 X2 X3 X4 X6 X11 HM HT HbT Hq HbD. revert c s Hn X1 X2 X3 X4 X6 X11 HM.
  assert (HS : forall c s, (c < nc)%nat -> xs s 1 = Int (Z.of_nat nr) -> xs s 2 = Int (Z.of_nat nc) -> xs s 3 = Ptr 5 (8 * Z.of_nat c) -> xs s 4 = Ptr 4 (q + ds * Z.of_nat c) ->
    xs s 6 = Int (Z.of_nat c) -> xs s 11 = Int ds -> kmem8 (copyb 1 D T q ds nr c) T (mem s) -> reach (6 * nr + 8) tail8 541 s (fun pc s' => pc = (if (Z.of_nat c + 1 <? Z.of_nat nc)%Z then 541 else 555)%nat /\ kmem8 (copyb 1 D T q ds nr (S c)) T (mem s') /\
      xs s' 3 = Ptr 5 (8 * Z.of_nat (S c)) /\ xs s' 4 = Ptr 4 (q + ds * Z.of_nat (S c)) /\ xs s' 6 = Int (Z.of_nat (S c)) /\ keep (1 :: 2 :: mainregs)%nat s s' /\ vs s' = vs s)) by
   (intros c s Hc X1 X2 X3 X4 X6 X11 HM; assert (Hdsc : 0 <= ds * Z.of_nat c) by lia; assert (Hdsn : ds * Z.of_nat c <= ds * (Z.of_nat nc - 1)) by (apply Z.mul_le_mono_nonneg_l; lia);
    replace (6 * nr + 8)%nat with (3 + (6 * S (nr - 1) + 5))%nat by lia; begin; do 3 kstepd;
    (eapply reach_trans; [apply (inner_s8 (copyb 1 D T q ds nr c) T (q + ds * Z.of_nat c) (8 * Z.of_nat c) nr (nr - 1) 0); try assumption; try lia; try reads; rewrite copyb_blen; lia|]);
    intros pc s1 (-> & HM1 & HK1 & HV1);
    assert (Y1 := keep_read _ _ _ 1%nat HK1 ltac:(cbn; tauto)); assert (Y2 := keep_read _ _ _ 2%nat HK1 ltac:(cbn; tauto)); assert (Y3 := keep_read _ _ _ 3%nat HK1 ltac:(cbn; tauto)); assert (Y4 := keep_read _ _ _ 4%nat HK1 ltac:(cbn; tauto));
    assert (Y6 := keep_read _ _ _ 6%nat HK1 ltac:(cbn; tauto)); assert (Y11 := keep_read _ _ _ 11%nat HK1 ltac:(cbn; tauto)); cbn [xs upd Nat.eqb] in Y1, Y2, Y3, Y4, Y6, Y11;
    rewrite X1 in Y1; rewrite X2 in Y2; rewrite X3 in Y3; rewrite X4 in Y4; rewrite X6 in Y6; rewrite X11 in Y11;
    do 4 kstepd; (eapply reach_b with (b := (Z.of_nat c + 1 <? Z.of_nat nc)); [reflexivity|reflexivity|reflexivity|]); finish;
    (split; [reflexivity|]); (split; [exact HM1|]); (split; [reads_lia|]); (split; [reads_lia|]); (split; [reads_lia|]);
    (split; [|look; exact HV1]); eapply keep_trans; [|eapply keep_trans; [apply (NeonKernelB.keep_incl (1 :: 2 :: 3 :: 4 :: 6 :: mainregs)%nat (1 :: 2 :: mainregs)%nat); [reflexivity|exact HK1]|]]; kept_here).
  induction n as [|n IH]; intros c s Hn X1 X2 X3 X4 X6 X11 HM; specialize (HS c s ltac:(lia) X1 X2 X3 X4 X6 X11 HM) as HSc.
  - eapply reach_weaken; [exact HSc|lia|]. intros pc s' (-> & HM' & _ & _ & _ & HK & HV).
    replace (Z.of_nat c + 1 <? Z.of_nat nc) with false by (symmetry; apply Z.ltb_ge; lia). replace (S c) with nc in HM' by lia. split; [reflexivity|]. split; [exact HM'|]. split; [|exact HV].
    apply (NeonKernelB.keep_incl (1 :: 2 :: mainregs)%nat mainregs); [reflexivity|exact HK].
  - replace ((6 * nr + 8) * S (S n))%nat with ((6 * nr + 8) + (6 * nr + 8) * S n)%nat by lia. eapply reach_trans; [exact HSc|]. intros pc s' (-> & HM' & H3 & H4 & H6 & HK & HV).
    replace (Z.of_nat c + 1 <? Z.of_nat nc) with true by (symmetry; apply Z.ltb_lt; lia).
    eapply reach_weaken; [apply (IH (S c) s'); try assumption; try lia; (rewrite (keep_read _ _ _ _ HK) by (cbn; tauto); assumption)|lia|].
    intros pc s2 (-> & HM2 & HK2 & HV2). split; [reflexivity|]. split; [exact HM2|]. split; [|congruence]. eapply keep_trans; [|exact HK2].
    apply (NeonKernelB.keep_incl (1 :: 2 :: mainregs)%nat mainregs); [reflexivity|exact HK].
Qed.

Lemma inner_s16 : forall D T q tp nr n r s, (r + S n = nr)%nat -> (nr <= 8)%nat -> xs s 1 = Int (Z.of_nat nr) -> xs s 3 = Ptr 5 tp -> xs s 4 = Ptr 4 q -> xs s 5 = Int (Z.of_nat r) ->
  kmem8 (copyn 2 D T q tp r) T (mem s) -> (forall x, 0 <= x < 128 -> 0 <= bdat T x < 256) -> 256 <= blen T -> 0 <= tp <= 112 -> 0 <= q -> q + 2 * Z.of_nat nr <= blen D ->
  reach (6 * S n) tail8 672 s (fun pc s' => pc = 678%nat /\ kmem8 (copyn 2 D T q tp nr) T (mem s') /\ keep (1 :: 2 :: 3 :: 4 :: 6 :: mainregs)%nat s s' /\ vs s' = vs s).
Proof.
  intros D T q tp nr n r s Hn Hnr X1 X3 X4 X5 HM HT HbT Htp Hq HbD. revert r s Hn X1 X3 X4 X5 HM.
  assert (HS : forall r s, (r < nr)%nat -> xs s 1 = Int (Z.of_nat nr) -> xs s 3 = Ptr 5 tp -> xs s 4 = Ptr 4 q -> xs s 5 = Int (Z.of_nat r) -> kmem8 (copyn 2 D T q tp r) T (mem s) -> reach 6 tail8 672 s (fun pc s' => pc = (if (Z.of_nat r + 1 <? Z.of_nat nr)%Z then 672 else 678)%nat /\ kmem8 (copyn 2 D T q tp (S r)) T (mem s') /\ xs s' 5 = Int (Z.of_nat (S r)) /\ keep (1 :: 2 :: 3 :: 4 :: 6 :: mainregs)%nat s s' /\ vs s' = vs s)) by
   (intros r s Hr X1 X3 X4 X5 [M0 M1 M2 M3 M4 M5 M6 M7 M8 M9]; begin; kstepd; (eapply m_ldrs; [reflexivity|reads|eapply lsl1; [reads|lia]|lia|mem_fact|lia|lia|lia|]); cbn [xs vs fl mem];
    (eapply m_strk with (l := get_bytes T (tp + Z.of_nat r * 2) 2); [reflexivity|reads|eapply lsl1; [reads|lia]|lia|reads|mem_fact|lia|rewrite copyn_blen; lia|apply same_bytes2; intros; apply HT; lia|]); cbn [xs vs fl mem];
    kstepd; kstepd; (eapply reach_b with (b := (Z.of_nat r + 1 <? Z.of_nat nr)); [reflexivity|reflexivity|reflexivity|]); finish;
    (split; [reflexivity|]); (split; [|split; [reads_lia|split; [kept_here|reflexivity]]]);
    constructor; look; try assumption; f_equal; cbn [copyn]; apply put_eq; [reflexivity|lia|f_equal; lia]).
  induction n as [|n IH]; intros r s Hn X1 X3 X4 X5 HM; specialize (HS r s ltac:(lia) X1 X3 X4 X5 HM) as HSr.
  - eapply reach_weaken; [exact HSr|lia|]. intros pc s' (-> & HM' & H5 & HK & HV).
    replace (Z.of_nat r + 1 <? Z.of_nat nr) with false by (symmetry; apply Z.ltb_ge; lia). replace (S r) with nr in HM' by lia. auto.
  - replace (6 * S (S n))%nat with (6 + 6 * S n)%nat by lia. eapply reach_trans; [exact HSr|]. intros pc s' (-> & HM' & H5 & HK & HV).
    replace (Z.of_nat r + 1 <? Z.of_nat nr) with true by (symmetry; apply Z.ltb_lt; lia).
    eapply reach_weaken; [apply (IH (S r) s'); try assumption; try lia; (rewrite (keep_read _ _ _ _ HK) by (cbn; tauto); assumption)|lia|].
    intros pc s2 (-> & HM2 & HK2 & HV2). split; [reflexivity|]. split; [exact HM2|]. split; [eapply keep_trans; eassumption|congruence].
Qed.

Lemma outer_s16 : forall D T q nr nc n c s, (c + S n = nc)%nat -> (1 <= nr <= 8)%nat -> (nc <= 8)%nat -> xs s 1 = Int (Z.of_nat nr) -> xs s 2 = Int (Z.of_nat nc) -> xs s 3 = Ptr 5 (16 * Z.of_nat c) -> xs s 4 = Ptr 4 (q + ds * Z.of_nat c) ->
  xs s 6 = Int (Z.of_nat c) -> xs s 11 = Int ds -> kmem8 (copyb 2 D T q ds nr c) T (mem s) -> (forall x, 0 <= x < 128 -> 0 <= bdat T x < 256) -> 256 <= blen T -> 0 <= q -> q + ds * (Z.of_nat nc - 1) + 2 * Z.of_nat nr <= blen D ->
  reach ((6 * nr + 8) * S n) tail8 669 s (fun pc s' => pc = 683%nat /\ kmem8 (copyb 2 D T q ds nr nc) T (mem s') /\ keep mainregs s s' /\ vs s' = vs s).
Proof.
  intros D T q nr nc n c s Hn Hnr Hnc X1 X2 X3 X4 X6 X11 HM HT HbT Hq HbD. revert c s Hn X1 X2 X3 X4 X6 X11 HM.
  assert (HS : forall c s, (c < nc)%nat -> xs s 1 = Int (Z.of_nat nr) -> xs s 2 = Int (Z.of_nat nc) -> xs s 3 = Ptr 5 (16 * Z.of_nat c) -> xs s 4 = Ptr 4 (q + ds * Z.of_nat c) ->
    xs s 6 = Int (Z.of_nat c) -> xs s 11 = Int ds -> kmem8 (copyb 2 D T q ds nr c) T (mem s) -> reach (6 * nr + 8) tail8 669 s (fun pc s' => pc = (if (Z.of_nat c + 1 <? Z.of_nat nc)%Z then 669 else 683)%nat /\ kmem8 (copyb 2 D T q ds nr (S c)) T (mem s') /\
      xs s' 3 = Ptr 5 (16 * Z.of_nat (S c)) /\ xs s' 4 = Ptr 4 (q + ds * Z.of_nat (S c)) /\ xs s' 6 = Int (Z.of_nat (S c)) /\ keep (1 :: 2 :: mainregs)%nat s s' /\ vs s' = vs s)) by
   (intros c s Hc X1 X2 X3 X4 X6 X11 HM; assert (Hdsc : 0 <= ds * Z.of_nat c) by lia; assert (Hdsn : ds * Z.of_nat c <= ds * (Z.of_nat nc - 1)) by (apply Z.mul_le_mono_nonneg_l; lia);
    replace (6 * nr + 8)%nat with (3 + (6 * S (nr - 1) + 5))%nat by lia; begin; do 3 kstepd;
    (eapply reach_trans; [apply (inner_s16 (copyb 2 D T q ds nr c) T (q + ds * Z.of_nat c) (16 * Z.of_nat c) nr (nr - 1) 0); try assumption; try lia; try reads; rewrite copyb_blen; lia|]);
    intros pc s1 (-> & HM1 & HK1 & HV1);
    assert (Y1 := keep_read _ _ _ 1%nat HK1 ltac:(cbn; tauto)); assert (Y2 := keep_read _ _ _ 2%nat HK1 ltac:(cbn; tauto)); assert (Y3 := keep_read _ _ _ 3%nat HK1 ltac:(cbn; tauto)); assert (Y4 := keep_read _ _ _ 4%nat HK1 ltac:(cbn; tauto));
    assert (Y6 := keep_read _ _ _ 6%nat HK1 ltac:(cbn; tauto)); assert (Y11 := keep_read _ _ _ 11%nat HK1 ltac:(cbn; tauto)); cbn [xs upd Nat.eqb] in Y1, Y2, Y3, Y4, Y6, Y11;
    rewrite X1 in Y1; rewrite X2 in Y2; rewrite X3 in Y3; rewrite X4 in Y4; rewrite X6 in Y6; rewrite X11 in Y11;
    do 4 kstepd; (eapply reach_b with (b := (Z.of_nat c + 1 <? Z.of_nat nc)); [reflexivity|reflexivity|reflexivity|]); finish;
    (split; [reflexivity|]); (split; [exact HM1|]); (split; [reads_lia|]); (split; [reads_lia|]); (split; [reads_lia|]);
    (split; [|look; exact HV1]); eapply keep_trans; [|eapply keep_trans; [apply (NeonKernelB.keep_incl (1 :: 2 :: 3 :: 4 :: 6 :: mainregs)%nat (1 :: 2 :: mainregs)%nat); [reflexivity|exact HK1]|]]; kept_here).
  induction n as [|n IH]; intros c s Hn X1 X2 X3 X4 X6 X11 HM; specialize (HS c s ltac:(lia) X1 X2 X3 X4 X6 X11 HM) as HSc.
  - eapply reach_weaken; [exact HSc|lia|]. intros pc s' (-> & HM' & _ & _ & _ & HK & HV).
    replace (Z.of_nat c + 1 <? Z.of_nat nc) with false by (symmetry; apply Z.ltb_ge; lia). replace (S c) with nc in HM' by lia. split; [reflexivity|]. split; [exact HM'|]. split; [|exact HV].
    apply (NeonKernelB.keep_incl (1 :: 2 :: mainregs)%nat mainregs); [reflexivity|exact HK].
  - replace ((6 * nr + 8) * S (S n))%nat with ((6 * nr + 8) + (6 * nr + 8) * S n)%nat by lia. eapply reach_trans; [exact HSc|]. intros pc s' (-> & HM' & H3 & H4 & H6 & HK & HV).
    replace (Z.of_nat c + 1 <? Z.of_nat nc) with true by (symmetry; apply Z.ltb_lt; lia).
    eapply reach_weaken; [apply (IH (S c) s'); try assumption; try lia; (rewrite (keep_read _ _ _ _ HK) by (cbn; tauto); assumption)|lia|].
    intros pc s2 (-> & HM2 & HK2 & HV2). split; [reflexivity|]. split; [exact HM2|]. split; [|congruence]. eapply keep_trans; [|exact HK2].
    apply (NeonKernelB.keep_incl (1 :: 2 :: mainregs)%nat mainregs); [reflexivity|exact HK].
Qed.

Lemma inner_s32 : forall D T q tp nr n r s, (r + S n = nr)%nat -> (nr <= 8)%nat -> xs s 1 = Int (Z.of_nat nr) -> xs s 3 = Ptr 5 tp -> xs s 4 = Ptr 4 q -> xs s 5 = Int (Z.of_nat r) ->
  kmem8 (copyn 4 D T q tp r) T (mem s) -> (forall x, 0 <= x < 256 -> 0 <= bdat T x < 256) -> 256 <= blen T -> 0 <= tp <= 224 -> 0 <= q -> q + 4 * Z.of_nat nr <= blen D ->
  reach (6 * S n) tail8 792 s (fun pc s' => pc = 798%nat /\ kmem8 (copyn 4 D T q tp nr) T (mem s') /\ keep (1 :: 2 :: 3 :: 4 :: 6 :: mainregs)%nat s s' /\ vs s' = vs s).
Proof.
  intros D T q tp nr n r s Hn Hnr X1 X3 X4 X5 HM HT HbT Htp Hq HbD. revert r s Hn X1 X3 X4 X5 HM.
  assert (HS : forall r s, (r < nr)%nat -> xs s 1 = Int (Z.of_nat nr) -> xs s 3 = Ptr 5 tp -> xs s 4 = Ptr 4 q -> xs s 5 = Int (Z.of_nat r) -> kmem8 (copyn 4 D T q tp r) T (mem s) -> reach 6 tail8 792 s (fun pc s' => pc = (if (Z.of_nat r + 1 <? Z.of_nat nr)%Z then 792 else 798)%nat /\ kmem8 (copyn 4 D T q tp (S r)) T (mem s') /\ xs s' 5 = Int (Z.of_nat (S r)) /\ keep (1 :: 2 :: 3 :: 4 :: 6 :: mainregs)%nat s s' /\ vs s' = vs s)) by
   (intros r s Hr X1 X3 X4 X5 [M0 M1 M2 M3 M4 M5 M6 M7 M8 M9]; begin; kstepd; (eapply m_ldr; [reflexivity|reads|eapply lsl2; [reads|lia]|lia|mem_fact|lia|lia|lia|]); cbn [xs vs fl mem];
    (eapply m_strk with (l := get_bytes T (tp + Z.of_nat r * 4) 4); [reflexivity|reads|eapply lsl2; [reads|lia]|lia|reads|mem_fact|lia|rewrite copyn_blen; lia|apply same_bytes; intros; apply HT; lia|]); cbn [xs vs fl mem];
    kstepd; kstepd; (eapply reach_b with (b := (Z.of_nat r + 1 <? Z.of_nat nr)); [reflexivity|reflexivity|reflexivity|]); finish;
    (split; [reflexivity|]); (split; [|split; [reads_lia|split; [kept_here|reflexivity]]]);
    constructor; look; try assumption; f_equal; cbn [copyn]; apply put_eq; [reflexivity|lia|f_equal; lia]).
  induction n as [|n IH]; intros r s Hn X1 X3 X4 X5 HM; specialize (HS r s ltac:(lia) X1 X3 X4 X5 HM) as HSr.
  - eapply reach_weaken; [exact HSr|lia|]. intros pc s' (-> & HM' & H5 & HK & HV).
    replace (Z.of_nat r + 1 <? Z.of_nat nr) with false by (symmetry; apply Z.ltb_ge; lia). replace (S r) with nr in HM' by lia. auto.
  - replace (6 * S (S n))%nat with (6 + 6 * S n)%nat by lia. eapply reach_trans; [exact HSr|]. intros pc s' (-> & HM' & H5 & HK & HV).
    replace (Z.of_nat r + 1 <? Z.of_nat nr) with true by (symmetry; apply Z.ltb_lt; lia).
    eapply reach_weaken; [apply (IH (S r) s'); try assumption; try lia; (rewrite (keep_read _ _ _ _ HK) by (cbn; tauto); assumption)|lia|].
    intros pc s2 (-> & HM2 & HK2 & HV2). split; [reflexivity|]. split; [exact HM2|]. split; [eapply keep_trans; eassumption|congruence].
Qed.

Lemma outer_s32 : forall D T q nr nc n c s, (c + S n = nc)%nat -> (1 <= nr <= 8)%nat -> (nc <= 8)%nat -> xs s 1 = Int (Z.of_nat nr) -> xs s 2 = Int (Z.of_nat nc) -> xs s 3 = Ptr 5 (32 * Z.of_nat c) -> xs s 4 = Ptr 4 (q + ds * Z.of_nat c) ->
  xs s 6 = Int (Z.of_nat c) -> xs s 11 = Int ds -> kmem8 (copyb 4 D T q ds nr c) T (mem s) -> (forall x, 0 <= x < 256 -> 0 <= bdat T x < 256) -> 256 <= blen T -> 0 <= q -> q + ds * (Z.of_nat nc - 1) + 4 * Z.of_nat nr <= blen D ->
  reach ((6 * nr + 8) * S n) tail8 789 s (fun pc s' => pc = 803%nat /\ kmem8 (copyb 4 D T q ds nr nc) T (mem s') /\ keep mainregs s s' /\ vs s' = vs s).
Proof.
  intros D T q nr nc n c s Hn Hnr Hnc X1 X2 X3 X4 X6 X11 HM HT HbT Hq HbD. revert c s Hn X1 X2 X3 X4 X6 X11 HM.
  assert (HS : forall c s, (c < nc)%nat -> xs s 1 = Int (Z.of_nat nr) -> xs s 2 = Int (Z.of_nat nc) -> xs s 3 = Ptr 5 (32 * Z.of_nat c) -> xs s 4 = Ptr 4 (q + ds * Z.of_nat c) ->
    xs s 6 = Int (Z.of_nat c) -> xs s 11 = Int ds -> kmem8 (copyb 4 D T q ds nr c) T (mem s) -> reach (6 * nr + 8) tail8 789 s (fun pc s' => pc = (if (Z.of_nat c + 1 <? Z.of_nat nc)%Z then 789 else 803)%nat /\ kmem8 (copyb 4 D T q ds nr (S c)) T (mem s') /\
      xs s' 3 = Ptr 5 (32 * Z.of_nat (S c)) /\ xs s' 4 = Ptr 4 (q + ds * Z.of_nat (S c)) /\ xs s' 6 = Int (Z.of_nat (S c)) /\ keep (1 :: 2 :: mainregs)%nat s s' /\ vs s' = vs s)) by
   (intros c s Hc X1 X2 X3 X4 X6 X11 HM; assert (Hdsc : 0 <= ds * Z.of_nat c) by lia; assert (Hdsn : ds * Z.of_nat c <= ds * (Z.of_nat nc - 1)) by (apply Z.mul_le_mono_nonneg_l; lia);
    replace (6 * nr + 8)%nat with (3 + (6 * S (nr - 1) + 5))%nat by lia; begin; do 3 kstepd;
    (eapply reach_trans; [apply (inner_s32 (copyb 4 D T q ds nr c) T (q + ds * Z.of_nat c) (32 * Z.of_nat c) nr (nr - 1) 0); try assumption; try lia; try reads; rewrite copyb_blen; lia|]);
    intros pc s1 (-> & HM1 & HK1 & HV1);
    assert (Y1 := keep_read _ _ _ 1%nat HK1 ltac:(cbn; tauto)); assert (Y2 := keep_read _ _ _ 2%nat HK1 ltac:(cbn; tauto)); assert (Y3 := keep_read _ _ _ 3%nat HK1 ltac:(cbn; tauto)); assert (Y4 := keep_read _ _ _ 4%nat HK1 ltac:(cbn; tauto));
    assert (Y6 := keep_read _ _ _ 6%nat HK1 ltac:(cbn; tauto)); assert (Y11 := keep_read _ _ _ 11%nat HK1 ltac:(cbn; tauto)); cbn [xs upd Nat.eqb] in Y1, Y2, Y3, Y4, Y6, Y11;
    rewrite X1 in Y1; rewrite X2 in Y2; rewrite X3 in Y3; rewrite X4 in Y4; rewrite X6 in Y6; rewrite X11 in Y11;
    do 4 kstepd; (eapply reach_b with (b := (Z.of_nat c + 1 <? Z.of_nat nc)); [reflexivity|reflexivity|reflexivity|]); finish;
    (split; [reflexivity|]); (split; [exact HM1|]); (split; [reads_lia|]); (split; [reads_lia|]); (split; [reads_lia|]);
    (split; [|look; exact HV1]); eapply keep_trans; [|eapply keep_trans; [apply (NeonKernelB.keep_incl (1 :: 2 :: 3 :: 4 :: 6 :: mainregs)%nat (1 :: 2 :: mainregs)%nat); [reflexivity|exact HK1]|]]; kept_here).
  induction n as [|n IH]; intros c s Hn X1 X2 X3 X4 X6 X11 HM; specialize (HS c s ltac:(lia) X1 X2 X3 X4 X6 X11 HM) as HSc.
  - eapply reach_weaken; [exact HSc|lia|]. intros pc s' (-> & HM' & _ & _ & _ & HK & HV).
    replace (Z.of_nat c + 1 <? Z.of_nat nc) with false by (symmetry; apply Z.ltb_ge; lia). replace (S c) with nc in HM' by lia. split; [reflexivity|]. split; [exact HM'|]. split; [|exact HV].
    apply (NeonKernelB.keep_incl (1 :: 2 :: mainregs)%nat mainregs); [reflexivity|exact HK].
  - replace ((6 * nr + 8) * S (S n))%nat with ((6 * nr + 8) + (6 * nr + 8) * S n)%nat by lia. eapply reach_trans; [exact HSc|]. intros pc s' (-> & HM' & H3 & H4 & H6 & HK & HV).
    replace (Z.of_nat c + 1 <? Z.of_nat nc) with true by (symmetry; apply Z.ltb_lt; lia).
    eapply reach_weaken; [apply (IH (S c) s'); try assumption; try lia; (rewrite (keep_read _ _ _ _ HK) by (cbn; tauto); assumption)|lia|].
    intros pc s2 (-> & HM2 & HK2 & HV2). split; [reflexivity|]. split; [exact HM2|]. split; [|congruence]. eapply keep_trans; [|exact HK2].
    apply (NeonKernelB.keep_incl (1 :: 2 :: mainregs)%nat mainregs); [reflexivity|exact HK].
Qed.
End Store.
