(** Pack8bitColMajorForNeon and Pack8bitColMajorForNeonA55ish (ruy/pack_arm.cc): what their code does. *)
From Coq Require Import ZArith List Bool Lia.
From Verif Require Import Base Mat Simd SimdFacts Neon64 NeonRun NeonTac NeonCols NeonPackCode.
Import ListNotations.
Open Scope Z_scope.

Section Pack8.
Variables (m0 : memory) (pb : nat) (sbk : nat -> nat) (sb : nat -> buf Z) (so inc : nat -> Z) (P0 : buf Z) (po : Z) (sums : val) (Rz R zz ix : Z).
Hypothesis Hsb : forall c, m0 (sbk c) = Bytes (sb c).
Hypothesis Hne : forall c, sbk c <> pb.
Hypothesis Hinc : forall c, 0 <= inc c < 2 ^ 31.
Hypothesis HRz : Rz mod 2 ^ 32 = R.
Hypothesis HR : 0 <= R < 2 ^ 31.
Notation before := (before so inc).
Notation cvec := (cvec sb so inc).
Notation cols_at := (cols_at sbk inc).

(** Whole pieces, and rows after them. *)
Definition pieces8 : nat := Z.to_nat (R / 16).
Definition rest8 : nat := Z.to_nat (R mod 16).
Hypothesis Hcols : forall c k, (c < 4)%nat -> (k < pieces8)%nat -> 0 <= before k c /\ before k c + 16 <= blen (sb c).
Hypothesis Htail : forall c, (c < 4)%nat -> 0 <= before pieces8 c /\ before pieces8 c + Z.of_nat rest8 <= blen (sb c).
Hypothesis Hpo : 0 <= po /\ po + 64 * Z.of_nat pieces8 + (if Nat.eqb rest8 0 then 0 else 64) <= blen P0.

Definition X8 : list Z := extend (of_lanes 1 (repeat ix 16)).
Definition fill8 : list Z := extend (of_lanes 1 (repeat zz 16)).
(** The piece that is packed. *)
Definition xv (c k : nat) : list Z := vop_val Eor (cvec c k) X8.
Definition last8 (c : nat) : list Z := vop_val Eor (row_piece sb 1 (before pieces8) fill8 c rest8) X8.

Definition store4 (P : buf Z) (p : Z) (v : nat -> list Z) : buf Z :=
  put (put (put (put P (p + 0) (v 0%nat)) (p + 16) (v 1%nat)) (p + 32) (v 2%nat)) (p + 48) (v 3%nat).
Fixpoint out8 (k : nat) : buf Z := match k with O => P0 | S k => store4 (out8 k) (po + 64 * Z.of_nat k) (fun c => xv c k) end.
Fixpoint acc8 (c k : nat) : list Z := match k with O => repeat 0 16 | S k => sadalp 2 (acc8 c k) (saddlp 1 (xv c k)) end.
Definition out8_end : buf Z := if Nat.eqb rest8 0 then out8 pieces8 else store4 (out8 pieces8) (po + 64 * Z.of_nat pieces8) last8.
Definition acc8_end (c : nat) : list Z := if Nat.eqb rest8 0 then acc8 c pieces8 else sadalp 2 (acc8 c pieces8) (saddlp 1 (last8 c)).
Definition sum8 : list Z := vop_val (Addp 4) (vop_val (Addp 4) (acc8_end 0) (acc8_end 1)) (vop_val (Addp 4) (acc8_end 2) (acc8_end 3)).

Lemma full_X8 : full X8. Proof. reflexivity. Qed.
Lemma full_fill8 : full fill8. Proof. reflexivity. Qed.
Lemma full_cv : forall c k, full (cvec c k). Proof. intros. apply full_cvec. Qed.
Lemma full_xv : forall c k, full (xv c k). Proof. intros. apply full_eor; [apply full_cv|apply full_X8]. Qed.
Lemma full_acc8 : forall c k, full (acc8 c k).
Proof. intros c. induction k as [|k IH]; [reflexivity|]. cbn [acc8]. apply full_sadalp; [exact IH|apply full_saddlp, full_xv]. Qed.
Lemma out8_blen : forall k, blen (out8 k) = blen P0.
Proof. induction k as [|k IH]; [reflexivity|]. cbn [out8 store4]. unfold store4. rewrite !put_blen. exact IH. Qed.
Lemma n_bound : 16 * Z.of_nat pieces8 = 16 * (R / 16) /\ 16 * Z.of_nat pieces8 <= R.
Proof.
  unfold pieces8. rewrite Z2Nat.id by (apply Z.div_pos; lia). split; [reflexivity|]. apply Z.mul_div_le. lia.
Qed.
Lemma T_bound : Z.of_nat rest8 = R mod 16 /\ (rest8 <= 15)%nat.
Proof. unfold rest8. pose proof (Z.mod_pos_bound R 16). split; lia. Qed.

Record args8 (s : state) : Prop := { a_sums : xs s 49 = sums; a_rows : xs s 50 = Int Rz; a_zp : xs s 51 = Int zz }.

Record loop8 (k : nat) (s : state) : Prop := {
  l_x1 : xs s 1 = Int (16 * Z.of_nat (S k)); l_x2 : xs s 2 = Int (16 * Z.of_nat pieces8); l_cols : cols_at s (before (S k));
  l_p : xs s 48 = Ptr pb (po + 64 * Z.of_nat k); l_args : args8 s;
  l_v0 : vs s 0 = cvec 0 k; l_v1 : vs s 1 = cvec 1 k; l_v2 : vs s 2 = cvec 2 k; l_v3 : vs s 3 = cvec 3 k; l_X : vs s 26 = X8;
  l_a0 : vs s 28 = acc8 0 k; l_a1 : vs s 29 = acc8 1 k; l_a2 : vs s 30 = acc8 2 k; l_a3 : vs s 31 = acc8 3 k;
  l_mem : changed m0 pb (out8 k) (mem s) }.

(** After all whole pieces. *)
Record whole8 (s : state) : Prop := {
  w_cols : cols_at s (before pieces8); w_p : xs s 48 = Ptr pb (po + 64 * Z.of_nat pieces8); w_args : args8 s; w_X : vs s 26 = X8;
  w_a0 : vs s 28 = acc8 0 pieces8; w_a1 : vs s 29 = acc8 1 pieces8; w_a2 : vs s 30 = acc8 2 pieces8; w_a3 : vs s 31 = acc8 3 pieces8;
  w_mem : changed m0 pb (out8 pieces8) (mem s) }.

Ltac side := first [apply Hsb | apply Hne | solve [repeat first [apply full_cv | apply full_X8 | apply full_acc8 | apply full_eor | assumption | match goal with F : forall c, full _ |- _ => apply F end]] | rewrite ?put_blen, ?out8_blen; lia].
Ltac step := step_with side.
Ltac bounds k := pose proof (Hcols 0 k ltac:(lia) ltac:(lia)); pose proof (Hcols 1 k ltac:(lia) ltac:(lia)); pose proof (Hcols 2 k ltac:(lia) ltac:(lia)); pose proof (Hcols 3 k ltac:(lia) ltac:(lia)).

Lemma body8 : forall k s, (S k < pieces8)%nat -> loop8 k s -> reach 25 pack8_neon 15 s (fun pc s' => pc = (if Nat.eqb (S (S k)) pieces8 then 40 else 15)%nat /\ loop8 (S k) s').
Proof.
  intros k s Hk [X1 X2 [C0 C1 C2 C3 I0 I1 I2 I3] XP [A1 A2 A3] V0 V1 V2 V3 VX W0 W1 W2 W3 HM].
  pose proof n_bound as [_ Hn]. bounds (S k).
  pose proof (Hinc 0). pose proof (Hinc 1). pose proof (Hinc 2). pose proof (Hinc 3).
  assert (Hpk : 0 <= po + 64 * Z.of_nat k /\ po + 64 * Z.of_nat k + 64 <= blen P0) by (destruct (Nat.eqb rest8 0); lia).
  begin. do 24 step.
  eapply reach_b with (b := negb (16 * Z.of_nat (S k) + 16 =? 16 * Z.of_nat pieces8)); [reflexivity|reflexivity|reflexivity|].
  finish. split; [apply loop_test; lia|].
  constructor; [| |constructor| |constructor|..]; try reads_lia; try (look; facts; rewrite before_S; reflexivity).
  look. exact Hm2.
Qed.

Lemma piece8 : forall s, (0 < pieces8)%nat -> loop8 (pieces8 - 1) s -> reach 18 pack8_neon 40 s (fun pc s' => pc = 58%nat /\ whole8 s').
Proof.
  intros s Hk. assert (En : pieces8 = S (pieces8 - 1)) by lia. set (k := (pieces8 - 1)%nat) in *. clearbody k.
  intros [X1 X2 [C0 C1 C2 C3 I0 I1 I2 I3] XP [A1 A2 A3] V0 V1 V2 V3 VX W0 W1 W2 W3 HM].
  assert (Hpk : 0 <= po + 64 * Z.of_nat k /\ po + 64 * Z.of_nat k + 64 <= blen P0) by (destruct (Nat.eqb rest8 0); lia).
  begin. do 18 step. finish. split; [reflexivity|].
  constructor; rewrite ?En; [constructor| |constructor|..]; try reads_lia.
  look. exact Hm2.
Qed.

Lemma start8 : forall s, cols_at s (before 0) -> xs s 48 = Ptr pb po -> args8 s -> xs s 52 = Int ix -> changed m0 pb P0 (mem s) ->
  reach 15 pack8_neon 0 s (fun pc s' => if Nat.eqb pieces8 0 then pc = 58%nat /\ whole8 s' else pc = (if Nat.eqb 1 pieces8 then 40 else 15)%nat /\ loop8 0 s').
Proof.
  intros s [C0 C1 C2 C3 I0 I1 I2 I3] XP [A1 A2 A3] X52 HM.
  pose proof n_bound as [Hn Hn']. pose proof (Hinc 0). pose proof (Hinc 1). pose proof (Hinc 2). pose proof (Hinc 3).
  begin. do 6 step.
  eapply s_ands_high with (k := 4); [reflexivity|reflexivity|lia|reads|exact HRz|lia|]. look. change (2 ^ 4) with 16. rewrite <- Hn.
  eapply reach_b with (b := (16 * Z.of_nat pieces8 =? 0)); [reflexivity|reflexivity|reflexivity|].
  destruct (Z.eqb_spec (16 * Z.of_nat pieces8) 0) as [E|E].
  - finish. replace (Nat.eqb pieces8 0) with true by (symmetry; apply Nat.eqb_eq; lia). split; [reflexivity|].
    assert (E0 : pieces8 = 0%nat) by lia. constructor; rewrite ?E0; [constructor| |constructor|..]; try reads_lia. look. exact HM.
  - bounds 0%nat. do 6 step.
    eapply reach_b with (b := (0 + 16 =? 16 * Z.of_nat pieces8)); [reflexivity|reflexivity|reflexivity|].
    finish. replace (Nat.eqb pieces8 0) with false by (symmetry; apply Nat.eqb_neq; lia). split.
    + destruct (Nat.eqb_spec 1 pieces8) as [E1|E1].
      * replace (0 + 16 =? 16 * Z.of_nat pieces8) with true by (symmetry; apply Z.eqb_eq; lia). reflexivity.
      * replace (0 + 16 =? 16 * Z.of_nat pieces8) with false by (symmetry; apply Z.eqb_neq; lia). reflexivity.
    + constructor; [| |constructor| |constructor|..]; try reads_lia; try (look; facts; rewrite before_S; reflexivity). look. exact HM.
Qed.

(** After the last rows. *)
Record end8 (s : state) : Prop := {
  e_sums : xs s 49 = sums;
  e_a0 : vs s 28 = acc8_end 0; e_a1 : vs s 29 = acc8_end 1; e_a2 : vs s 30 = acc8_end 2; e_a3 : vs s 31 = acc8_end 3;
  e_mem : changed m0 pb out8_end (mem s) }.

Lemma tail_code8 : tail_code 1 pack8_neon 65 15.
Proof. intros r Hr. do 15 (destruct r as [|r]; [repeat split|]). lia. Qed.

Lemma rest8_reach : forall s, whole8 s -> reach 150 pack8_neon 58 s (fun pc s' => pc = 173%nat /\ end8 s').
Proof.
  intros s [[C0 C1 C2 C3 I0 I1 I2 I3] XP [A1 A2 A3] VX W0 W1 W2 W3 HM].
  pose proof T_bound as [HT HT']. begin. step.
  eapply s_ands_low with (k := 4); [reflexivity|reflexivity|lia|reads|exact HRz|]. look. change (2 ^ 4) with 16. rewrite <- HT.
  eapply reach_b with (b := (Z.of_nat rest8 =? 0)); [reflexivity|reflexivity|reflexivity|].
  destruct (Z.eqb_spec (Z.of_nat rest8) 0) as [E|E].
  - finish. split; [reflexivity|]. assert (E0 : Nat.eqb rest8 0 = true) by (apply Nat.eqb_eq; lia).
    constructor; unfold acc8_end, out8_end; rewrite ?E0; try reads_lia. look. exact HM.
  - assert (E0 : Nat.eqb rest8 0 = false) by (apply Nat.eqb_neq; lia). rewrite E0 in Hpo. do 4 step.
    match goal with |- reach ?N _ _ _ _ => replace N with ((6 * rest8 + 2) + (N - (6 * rest8 + 2)))%nat by lia end.
    eapply reach_trans.
    + eapply (tail_all m0 pb sbk sb so inc Hsb Hne 1 pack8_neon 65 15 (out8 pieces8) (before pieces8) fill8) with (R := rest8); try reads.
      * lia.
      * apply tail_code8.
      * lia.
      * intros c Hc. pose proof (Htail c Hc). rewrite Nat.mul_1_l. lia.
      * look. exact HM.
      * constructor; reads.
    + intros pc' s' [-> [R0 R1 R2 R3 U0 U1 U2 U3 HX HV HMem]].
      replace (65 + 6 * 15)%nat with 155%nat by reflexivity.
      assert (B26 : vs s' 26 = X8) by (rewrite HV by lia; reads).
      assert (B28 : vs s' 28 = acc8 0 pieces8) by (rewrite HV by lia; reads).
      assert (B29 : vs s' 29 = acc8 1 pieces8) by (rewrite HV by lia; reads).
      assert (B30 : vs s' 30 = acc8 2 pieces8) by (rewrite HV by lia; reads).
      assert (B31 : vs s' 31 = acc8 3 pieces8) by (rewrite HV by lia; reads).
      assert (B48 : xs s' 48 = Ptr pb (po + 64 * Z.of_nat pieces8)) by (rewrite HX by lia; reads).
      assert (B49 : xs s' 49 = sums) by (rewrite HX by lia; reads).
      cbn [mem] in HMem. rewrite <- HMem in HM.
      assert (F : forall c, full (row_piece sb 1 (before pieces8) fill8 c rest8)) by (intros c; apply partly_full; [apply full_fill8|lia]).
      apply (reach_weaken 20 _ pack8_neon 155 s' (fun pc s2 => pc = 173%nat /\ end8 s2)); [|lia|intros pc2 s2 Hq; subst Q; exact Hq].
      clear - Hsb Hne Hpo R0 R1 R2 R3 U0 U1 U2 U3 B26 B28 B29 B30 B31 B48 B49 HM E0 F.
      begin. do 18 step. finish. split; [reflexivity|].
      constructor; unfold acc8_end, out8_end, last8; rewrite ?E0; try reads_lia. look. exact Hm2.
Qed.

Lemma pack8_neon_reach : forall s, cols_at s (before 0) -> xs s 48 = Ptr pb po -> args8 s -> xs s 52 = Int ix -> changed m0 pb P0 (mem s) -> sums_ok m0 pb sums ->
  reach (250 + 25 * pieces8) pack8_neon 0 s (fun pc s' => nth_error pack8_neon pc = None /\ finished m0 pb out8_end sums sum8 (mem s')).
Proof.
  intros s Hc Hp Ha Hx Hm Hs.
  assert (Hend : forall s, end8 s -> reach 20 pack8_neon 173 s (fun pc s' => nth_error pack8_neon pc = None /\ finished m0 pb out8_end sums sum8 (mem s'))).
  { intros s1 [ES E1 E2 E3 E4 EM]. begin. do 4 step. eapply (reach_trans 3 13).
    - eapply (sums_end m0 pb out8_end sums); [exact EM|reads|exact Hs| |reflexivity|reflexivity|reflexivity|reflexivity].
      look. facts. assert (F : forall c, full (acc8_end c)) by (intros c; unfold acc8_end; destruct (Nat.eqb rest8 0); [apply full_acc8|apply full_sadalp; [apply full_acc8|apply full_saddlp, full_eor; [apply partly_full; [reflexivity|pose proof T_bound; lia]|reflexivity]]]). fulls; apply F.
    - intros pc2 s2 [-> HF]. step. finish. split; [reflexivity|]. look. exact HF. }
  assert (Hrest : forall s, whole8 s -> reach 170 pack8_neon 58 s (fun pc s' => nth_error pack8_neon pc = None /\ finished m0 pb out8_end sums sum8 (mem s'))).
  { intros s1 H1. eapply (reach_trans 150 20); [apply rest8_reach, H1|]. intros pc2 s2 [-> H2]. apply Hend, H2. }
  replace (250 + 25 * pieces8)%nat with (15 + (25 * pieces8 + 235))%nat by lia. eapply reach_trans; [apply (start8 s); assumption|].
  intros pc1 s1. destruct (Nat.eqb_spec pieces8 0) as [E|E].
  - intros [-> H1]. eapply reach_weaken; [apply Hrest, H1|lia|intros pc2 s2 H2; exact H2].
  - intros [-> H1]. apply (reach_weaken (25 * (pieces8 - 1) + (18 + 170)) _ pack8_neon _ s1 (fun pc s' => nth_error pack8_neon pc = None /\ finished m0 pb out8_end sums sum8 (mem s'))); [|lia|intros pc2 s2 H2; exact H2].
    eapply reach_trans; [apply (loop_rule loop8 25 pack8_neon 15 40 pieces8 body8 (pieces8 - 1) 0 s1); [lia|exact H1]|].
    intros pc2 s2 [-> H2]. eapply (reach_trans 18 170); [apply piece8; [lia|exact H2]|]. intros pc3 s3 [-> H3]. apply Hrest, H3.
Qed.

(** ** Pack8bitColMajorForNeonA55ish: the two halves of a piece are loaded separately. *)
Hypothesis Hbyte : forall c i, 0 <= bdat (sb c) i < 256.
Notation lo := (lo sb so inc).
Notation hi := (hi sb so inc).
Let join := join sb so inc Hbyte.

Record loop8a (k : nat) (s : state) : Prop := {
  la_x1 : xs s 1 = Int (16 * Z.of_nat (S k)); la_x2 : xs s 2 = Int (16 * Z.of_nat pieces8); la_cols : cols_at s (before (S k));
  la_h0 : xs s 10 = Int (hi 0 k); la_h1 : xs s 11 = Int (hi 1 k); la_h2 : xs s 12 = Int (hi 2 k); la_h3 : xs s 13 = Int (hi 3 k);
  la_p : xs s 48 = Ptr pb (po + 64 * Z.of_nat k); la_args : args8 s;
  la_v0 : vs s 0 = lo 0 k; la_v1 : vs s 1 = lo 1 k; la_v2 : vs s 2 = lo 2 k; la_v3 : vs s 3 = lo 3 k; la_X : vs s 26 = X8;
  la_a0 : vs s 28 = acc8 0 k; la_a1 : vs s 29 = acc8 1 k; la_a2 : vs s 30 = acc8 2 k; la_a3 : vs s 31 = acc8 3 k;
  la_mem : changed m0 pb (out8 k) (mem s) }.

Lemma body8a : forall k s, (S k < pieces8)%nat -> loop8a k s -> reach 37 pack8_neon_a55 31 s (fun pc s' => pc = (if Nat.eqb (S (S k)) pieces8 then 68 else 31)%nat /\ loop8a (S k) s').
Proof.
  intros k s Hk [X1 X2 [C0 C1 C2 C3 I0 I1 I2 I3] H10 H11 H12 H13 XP [A1 A2 A3] V0 V1 V2 V3 VX W0 W1 W2 W3 HM].
  pose proof n_bound as [_ Hn]. bounds (S k).
  pose proof (Hinc 0). pose proof (Hinc 1). pose proof (Hinc 2). pose proof (Hinc 3).
  assert (Hpk : 0 <= po + 64 * Z.of_nat k /\ po + 64 * Z.of_nat k + 64 <= blen P0) by (destruct (Nat.eqb rest8 0); lia).
  begin. do 36 (step; rewrite ?join).
  eapply reach_b with (b := negb (16 * Z.of_nat (S k) + 16 =? 16 * Z.of_nat pieces8)); [reflexivity|reflexivity|reflexivity|].
  finish. split; [apply loop_test; lia|].
  constructor; [| |constructor| | | | | |constructor|..]; try reads_lia; try (look; facts; rewrite before_S; reflexivity).
  look. exact Hm2.
Qed.

Lemma piece8a : forall s, (0 < pieces8)%nat -> loop8a (pieces8 - 1) s -> reach 22 pack8_neon_a55 68 s (fun pc s' => pc = 90%nat /\ whole8 s').
Proof.
  intros s Hk. assert (En : pieces8 = S (pieces8 - 1)) by lia. set (k := (pieces8 - 1)%nat) in *. clearbody k.
  intros [X1 X2 [C0 C1 C2 C3 I0 I1 I2 I3] H10 H11 H12 H13 XP [A1 A2 A3] V0 V1 V2 V3 VX W0 W1 W2 W3 HM].
  assert (Hpk : 0 <= po + 64 * Z.of_nat k /\ po + 64 * Z.of_nat k + 64 <= blen P0) by (destruct (Nat.eqb rest8 0); lia).
  begin. do 22 (step; rewrite ?join). finish. split; [reflexivity|].
  constructor; rewrite ?En; [constructor| |constructor|..]; try reads_lia.
  look. exact Hm2.
Qed.

Lemma start8a : forall s, cols_at s (before 0) -> xs s 48 = Ptr pb po -> args8 s -> xs s 52 = Int ix -> changed m0 pb P0 (mem s) ->
  reach 31 pack8_neon_a55 0 s (fun pc s' => if Nat.eqb pieces8 0 then pc = 90%nat /\ whole8 s' else pc = (if Nat.eqb 1 pieces8 then 68 else 31)%nat /\ loop8a 0 s').
Proof.
  intros s [C0 C1 C2 C3 I0 I1 I2 I3] XP [A1 A2 A3] X52 HM.
  pose proof n_bound as [Hn Hn']. pose proof (Hinc 0). pose proof (Hinc 1). pose proof (Hinc 2). pose proof (Hinc 3).
  begin. do 6 step.
  eapply s_ands_high with (k := 4); [reflexivity|reflexivity|lia|reads|exact HRz|lia|]. look. change (2 ^ 4) with 16. rewrite <- Hn.
  eapply reach_b with (b := (16 * Z.of_nat pieces8 =? 0)); [reflexivity|reflexivity|reflexivity|].
  destruct (Z.eqb_spec (16 * Z.of_nat pieces8) 0) as [E|E].
  - finish. replace (Nat.eqb pieces8 0) with true by (symmetry; apply Nat.eqb_eq; lia). split; [reflexivity|].
    assert (E0 : pieces8 = 0%nat) by lia. constructor; rewrite ?E0; [constructor| |constructor|..]; try reads_lia. look. exact HM.
  - bounds 0%nat. do 22 step.
    eapply reach_b with (b := (0 + 16 =? 16 * Z.of_nat pieces8)); [reflexivity|reflexivity|reflexivity|].
    finish. replace (Nat.eqb pieces8 0) with false by (symmetry; apply Nat.eqb_neq; lia). split.
    + destruct (Nat.eqb_spec 1 pieces8) as [E1|E1].
      * replace (0 + 16 =? 16 * Z.of_nat pieces8) with true by (symmetry; apply Z.eqb_eq; lia). reflexivity.
      * replace (0 + 16 =? 16 * Z.of_nat pieces8) with false by (symmetry; apply Z.eqb_neq; lia). reflexivity.
    + constructor; [| |constructor| | | | | |constructor|..]; try reads_lia; try (look; facts; rewrite before_S; reflexivity). look. exact HM.
Qed.

Lemma tail_code8a : tail_code 1 pack8_neon_a55 97 15.
Proof. intros r Hr. do 15 (destruct r as [|r]; [repeat split|]). lia. Qed.

Lemma rest8a_reach : forall s, whole8 s -> reach 150 pack8_neon_a55 90 s (fun pc s' => pc = 205%nat /\ end8 s').
Proof.
  intros s [[C0 C1 C2 C3 I0 I1 I2 I3] XP [A1 A2 A3] VX W0 W1 W2 W3 HM].
  pose proof T_bound as [HT HT']. begin. step.
  eapply s_ands_low with (k := 4); [reflexivity|reflexivity|lia|reads|exact HRz|]. look. change (2 ^ 4) with 16. rewrite <- HT.
  eapply reach_b with (b := (Z.of_nat rest8 =? 0)); [reflexivity|reflexivity|reflexivity|].
  destruct (Z.eqb_spec (Z.of_nat rest8) 0) as [E|E].
  - finish. split; [reflexivity|]. assert (E0 : Nat.eqb rest8 0 = true) by (apply Nat.eqb_eq; lia).
    constructor; unfold acc8_end, out8_end; rewrite ?E0; try reads_lia. look. exact HM.
  - assert (E0 : Nat.eqb rest8 0 = false) by (apply Nat.eqb_neq; lia). rewrite E0 in Hpo. do 4 step.
    match goal with |- reach ?N _ _ _ _ => replace N with ((6 * rest8 + 2) + (N - (6 * rest8 + 2)))%nat by lia end.
    eapply reach_trans.
    + eapply (tail_all m0 pb sbk sb so inc Hsb Hne 1 pack8_neon_a55 97 15 (out8 pieces8) (before pieces8) fill8) with (R := rest8); try reads.
      * lia.
      * apply tail_code8a.
      * lia.
      * intros c Hc. pose proof (Htail c Hc). rewrite Nat.mul_1_l. lia.
      * look. exact HM.
      * constructor; reads.
    + intros pc' s' [-> [R0 R1 R2 R3 U0 U1 U2 U3 HX HV HMem]].
      replace (97 + 6 * 15)%nat with 187%nat by reflexivity.
      assert (B26 : vs s' 26 = X8) by (rewrite HV by lia; reads).
      assert (B28 : vs s' 28 = acc8 0 pieces8) by (rewrite HV by lia; reads).
      assert (B29 : vs s' 29 = acc8 1 pieces8) by (rewrite HV by lia; reads).
      assert (B30 : vs s' 30 = acc8 2 pieces8) by (rewrite HV by lia; reads).
      assert (B31 : vs s' 31 = acc8 3 pieces8) by (rewrite HV by lia; reads).
      assert (B48 : xs s' 48 = Ptr pb (po + 64 * Z.of_nat pieces8)) by (rewrite HX by lia; reads).
      assert (B49 : xs s' 49 = sums) by (rewrite HX by lia; reads).
      cbn [mem] in HMem. rewrite <- HMem in HM.
      assert (F : forall c, full (row_piece sb 1 (before pieces8) fill8 c rest8)) by (intros c; apply partly_full; [apply full_fill8|lia]).
      apply (reach_weaken 20 _ pack8_neon_a55 187 s' (fun pc s2 => pc = 205%nat /\ end8 s2)); [|lia|intros pc2 s2 Hq; subst Q; exact Hq].
      clear - Hsb Hne Hpo R0 R1 R2 R3 U0 U1 U2 U3 B26 B28 B29 B30 B31 B48 B49 HM E0 F.
      begin. do 18 step. finish. split; [reflexivity|].
      constructor; unfold acc8_end, out8_end, last8; rewrite ?E0; try reads_lia. look. exact Hm2.
Qed.

Lemma pack8_neon_a55_reach : forall s, cols_at s (before 0) -> xs s 48 = Ptr pb po -> args8 s -> xs s 52 = Int ix -> changed m0 pb P0 (mem s) -> sums_ok m0 pb sums ->
  reach (282 + 37 * pieces8) pack8_neon_a55 0 s (fun pc s' => nth_error pack8_neon_a55 pc = None /\ finished m0 pb out8_end sums sum8 (mem s')).
Proof.
  intros s Hc Hp Ha Hx Hm Hs.
  assert (Hend : forall s, end8 s -> reach 20 pack8_neon_a55 205 s (fun pc s' => nth_error pack8_neon_a55 pc = None /\ finished m0 pb out8_end sums sum8 (mem s'))).
  { intros s1 [ES E1 E2 E3 E4 EM]. begin. do 4 step. eapply (reach_trans 3 13).
    - eapply (sums_end m0 pb out8_end sums); [exact EM|reads|exact Hs| |reflexivity|reflexivity|reflexivity|reflexivity].
      look. facts. assert (F : forall c, full (acc8_end c)) by (intros c; unfold acc8_end; destruct (Nat.eqb rest8 0); [apply full_acc8|apply full_sadalp; [apply full_acc8|apply full_saddlp, full_eor; [apply partly_full; [reflexivity|pose proof T_bound; lia]|reflexivity]]]). fulls; apply F.
    - intros pc2 s2 [-> HF]. step. finish. split; [reflexivity|]. look. exact HF. }
  assert (Hrest : forall s, whole8 s -> reach 170 pack8_neon_a55 90 s (fun pc s' => nth_error pack8_neon_a55 pc = None /\ finished m0 pb out8_end sums sum8 (mem s'))).
  { intros s1 H1. eapply (reach_trans 150 20); [apply rest8a_reach, H1|]. intros pc2 s2 [-> H2]. apply Hend, H2. }
  replace (282 + 37 * pieces8)%nat with (31 + (37 * pieces8 + 251))%nat by lia. eapply reach_trans; [apply (start8a s); assumption|].
  intros pc1 s1. destruct (Nat.eqb_spec pieces8 0) as [E|E].
  - intros [-> H1]. eapply reach_weaken; [apply Hrest, H1|lia|intros pc2 s2 H2; exact H2].
  - intros [-> H1]. apply (reach_weaken (37 * (pieces8 - 1) + (22 + 170)) _ pack8_neon_a55 _ s1 (fun pc s' => nth_error pack8_neon_a55 pc = None /\ finished m0 pb out8_end sums sum8 (mem s'))); [|lia|intros pc2 s2 H2; exact H2].
    eapply reach_trans; [apply (loop_rule loop8a 37 pack8_neon_a55 31 68 pieces8 body8a (pieces8 - 1) 0 s1); [lia|exact H1]|].
    intros pc2 s2 [-> H2]. eapply (reach_trans 22 170); [apply piece8a; [lia|exact H2]|]. intros pc3 s3 [-> H3]. apply Hrest, H3.
Qed.

End Pack8.
