(** Pack8bitColMajorForNeonDotprod and Pack8bitColMajorForNeonDotprodA55ish (ruy/pack_arm.cc): what their code does. *)
From Coq Require Import ZArith List Bool Lia.
From Verif Require Import Base Mat Simd SimdFacts Neon64 NeonRun NeonTac NeonCols NeonPackCode.
Import ListNotations.
Open Scope Z_scope.

Section PackDot.
Variables (m0 : memory) (pb : nat) (sbk : nat -> nat) (sb : nat -> buf Z) (so inc : nat -> Z) (P0 : buf Z) (po : Z) (sums : val) (Rz R zz ix : Z).
Hypothesis Hsb : forall c, m0 (sbk c) = Bytes (sb c).
Hypothesis Hne : forall c, sbk c <> pb.
Hypothesis Hinc : forall c, 0 <= inc c < 2 ^ 31.
Hypothesis HRz : Rz mod 2 ^ 32 = R.
Hypothesis HR : 0 <= R < 2 ^ 31.
Notation before := (before so inc).
Notation cvec := (cvec sb so inc).
Notation cols_at := (cols_at sbk inc).

(** Whole pieces, and rows after them. *)
Definition piecesd : nat := Z.to_nat (R / 16).
Definition restd : nat := Z.to_nat (R mod 16).
Hypothesis Hcols : forall c k, (c < 4)%nat -> (k < piecesd)%nat -> 0 <= before k c /\ before k c + 16 <= blen (sb c).
Hypothesis Htail : forall c, (c < 4)%nat -> 0 <= before piecesd c /\ before piecesd c + Z.of_nat restd <= blen (sb c).
Hypothesis Hpo : 0 <= po /\ (forall k, (k < piecesd)%nat -> po + 128 * Z.of_nat k + 112 <= blen P0) /\ (forall j, (4 * j < restd)%nat -> po + 128 * Z.of_nat piecesd + 32 * Z.of_nat j + 16 <= blen P0).

Definition Xd : list Z := extend (of_lanes 1 (repeat ix 16)).
Definition filld : list Z := extend (of_lanes 1 (repeat zz 16)).
(** The piece that is packed. *)
Definition dv (c k : nat) : list Z := vop_val Eor (cvec c k) Xd.
(** Four rows of the four columns. *)
Definition td (j k : nat) : list Z := trans j (dv 0 k) (dv 1 k) (dv 2 k) (dv 3 k).
Definition lastd (c : nat) : list Z := vop_val Eor (row_piece sb 1 (before piecesd) filld c restd) Xd.
Definition tl (j : nat) : list Z := trans j (lastd 0) (lastd 1) (lastd 2) (lastd 3).
Definition ones : list Z := extend (of_lanes 1 (repeat 1 16)).

Fixpoint outd (k : nat) : buf Z := match k with O => P0 | S k => store_t (outd k) (po + 128 * Z.of_nat k) (fun j => td j k) end.
Fixpoint accd (j k : nat) : list Z := match k with O => repeat 0 16 | S k => sdot (accd j k) (td j k) ones end.
(** Groups of four rows among the last rows. *)
Definition groupsd : nat := ((restd + 3) / 4)%nat.
Definition outd_end : buf Z := store_first groupsd (outd piecesd) (po + 128 * Z.of_nat piecesd) tl.
Definition accd_end (j : nat) : list Z := if Nat.ltb j groupsd then sdot (accd j piecesd) (tl j) ones else accd j piecesd.
Definition sumd : list Z := vop_val (VAdd 4) (vop_val (VAdd 4) (accd_end 0) (accd_end 2)) (vop_val (VAdd 4) (accd_end 1) (accd_end 3)).

Lemma full_Xd : full Xd. Proof. reflexivity. Qed.
Lemma full_ones : full ones. Proof. reflexivity. Qed.
Lemma full_filld : full filld. Proof. reflexivity. Qed.
Lemma full_cv : forall c k, full (cvec c k). Proof. intros. apply full_cvec. Qed.
Lemma full_dv : forall c k, full (dv c k). Proof. intros. apply full_eor; [apply full_cv|apply full_Xd]. Qed.
Lemma full_td : forall j k, full (td j k). Proof. intros. apply full_trans; apply full_dv. Qed.
Lemma full_accd : forall j k, full (accd j k).
Proof. intros j. induction k as [|k IH]; [reflexivity|]. cbn [accd]. apply full_sdot; [exact IH|apply full_td|apply full_ones]. Qed.
Lemma outd_blen : forall k, blen (outd k) = blen P0.
Proof. induction k as [|k IH]; [reflexivity|]. cbn [outd]. rewrite store_t_blen. exact IH. Qed.
Lemma nd_bound : 16 * Z.of_nat piecesd = 16 * (R / 16) /\ 16 * Z.of_nat piecesd <= R.
Proof.
  unfold piecesd. rewrite Z2Nat.id by (apply Z.div_pos; lia). split; [reflexivity|]. apply Z.mul_div_le. lia.
Qed.
Lemma Td_bound : Z.of_nat restd = R mod 16 /\ (restd <= 15)%nat.
Proof. unfold restd. pose proof (Z.mod_pos_bound R 16). split; lia. Qed.

Record argsd (s : state) : Prop := { a_sums : xs s 49 = sums; a_rows : xs s 50 = Int Rz; a_zp : xs s 51 = Int zz }.
(** [k] pieces have been processed. *)
Record cored (k : nat) (s : state) : Prop := {
  c_p : xs s 48 = Ptr pb (po + 128 * Z.of_nat k); c_args : argsd s; c_X : vs s 26 = Xd; c_ones : vs s 27 = ones;
  c_a0 : vs s 28 = accd 0 k; c_a2 : vs s 29 = accd 2 k; c_a1 : vs s 30 = accd 1 k; c_a3 : vs s 31 = accd 3 k;
  c_mem : changed m0 pb (outd k) (mem s) }.
(** Piece [k] is loaded in the registers from [4 * g]. *)
Record loaded (g k : nat) (s : state) : Prop := {
  ld_0 : vs s (4 * g) = cvec 0 k; ld_1 : vs s (4 * g + 1) = cvec 1 k; ld_2 : vs s (4 * g + 2) = cvec 2 k; ld_3 : vs s (4 * g + 3) = cvec 3 k }.

Ltac side := first [apply Hsb | apply Hne
  | solve [repeat first [apply full_cv | apply full_Xd | apply full_ones | apply full_accd | apply full_eor | apply full_sdot | assumption | match goal with F : forall c, full _ |- _ => apply F end
                        | apply full_trn1_4 | apply full_trn2_4 | apply full_trn1_8 | apply full_trn2_8]]
  | rewrite ?put_blen, ?outd_blen; lia].
Ltac step := step_with side.
Ltac bounds k := pose proof (Hcols 0 k ltac:(lia) ltac:(lia)); pose proof (Hcols 1 k ltac:(lia) ltac:(lia)); pose proof (Hcols 2 k ltac:(lia) ltac:(lia)); pose proof (Hcols 3 k ltac:(lia) ltac:(lia)).
Ltac incs := pose proof (Hinc 0); pose proof (Hinc 1); pose proof (Hinc 2); pose proof (Hinc 3).
Ltac memfact := look; match goal with H : changed m0 pb _ ?m |- changed m0 pb _ ?m => exact H end.
Ltac fields := try reads_lia; try (look; facts; rewrite before_S; reflexivity); try memfact.
Ltac out_bounds k := assert (0 <= po /\ po + 128 * Z.of_nat k + 112 <= blen P0) by (split; [apply Hpo|apply Hpo; lia]).

(** ** Sixty-four rows at a time *)
Definition quads : nat := Z.to_nat (R / 64).
Lemma quads_bound : 64 * Z.of_nat quads = 64 * (R / 64) /\ 64 * Z.of_nat quads <= R /\ (4 * quads <= piecesd)%nat.
Proof.
  unfold quads, piecesd. assert (0 <= R / 64) by (apply Z.div_pos; lia). rewrite Z2Nat.id by lia. split; [reflexivity|]. split; [apply Z.mul_div_le; lia|].
  apply Nat2Z.inj_le. rewrite Nat2Z.inj_mul, !Z2Nat.id by (apply Z.div_pos; lia). change (Z.of_nat 4) with 4.
  apply Z.div_le_lower_bound; [lia|]. pose proof (Z.mul_div_le R 64). lia.
Qed.

(** Four pieces are loaded, the first of them [k]. *)
Record four (k a b c d : nat) (s : state) : Prop := {
  f_x1 : xs s 1 = Int (16 * Z.of_nat (k + 4)); f_x2 : xs s 2 = Int (64 * Z.of_nat quads); f_cols : cols_at s (before (k + 4));
  f_core : cored k s; f_0 : loaded 0 a s; f_1 : loaded 1 b s; f_2 : loaded 2 c s; f_3 : loaded 3 d s }.

Ltac open_four := intros [X1 X2 [C0 C1 C2 C3 I0 I1 I2 I3] [XP [A1 A2 A3] VX V1 W0 W1 W2 W3 HM] [L0 L1 L2 L3] [L4 L5 L6 L7] [L8 L9 L10 L11] [L12 L13 L14 L15]];
  cbn [Nat.mul Nat.add] in L0, L1, L2, L3, L4, L5, L6, L7, L8, L9, L10, L11, L12, L13, L14, L15.
Ltac close_four := constructor; [| |constructor|constructor; [|constructor|..]|constructor|constructor|constructor|constructor]; cbn [Nat.mul Nat.add]; fields.

Lemma seg0 : forall k b c d s, (k + 4 < piecesd)%nat -> four k k b c d s -> reach 27 pack8_dotprod 29 s (fun pc s' => pc = 56%nat /\ four (S k) (k + 4) b c d s').
Proof.
  intros k b c d s Hk. open_four. pose proof nd_bound as [_ Hn]. bounds (k + 4)%nat. incs. out_bounds k.
  begin. do 27 step. finish. split; [reflexivity|]. close_four.
Qed.
Lemma seg1 : forall k a c d s, (k + 4 < piecesd)%nat -> four k a k c d s -> reach 26 pack8_dotprod 56 s (fun pc s' => pc = 82%nat /\ four (S k) a (k + 4) c d s').
Proof.
  intros k a c d s Hk. open_four. pose proof nd_bound as [_ Hn]. bounds (k + 4)%nat. incs. out_bounds k.
  begin. do 26 step. finish. split; [reflexivity|]. close_four.
Qed.
Lemma seg2 : forall k a b d s, (k + 4 < piecesd)%nat -> four k a b k d s -> reach 26 pack8_dotprod 82 s (fun pc s' => pc = 108%nat /\ four (S k) a b (k + 4) d s').
Proof.
  intros k a b d s Hk. open_four. pose proof nd_bound as [_ Hn]. bounds (k + 4)%nat. incs. out_bounds k.
  begin. do 26 step. finish. split; [reflexivity|]. close_four.
Qed.
Lemma seg3 : forall k a b c s, (k + 4 < piecesd)%nat -> four k a b c k s ->
  reach 28 pack8_dotprod 108 s (fun pc s' => pc = (if negb (16 * Z.of_nat (k + 4) + 16 =? 64 * Z.of_nat quads) then 29%nat else 136%nat) /\ four (S k) a b c (k + 4) s').
Proof.
  intros k a b c s Hk. open_four. pose proof nd_bound as [_ Hn]. pose proof quads_bound as (_ & Hq & _). bounds (k + 4)%nat. incs. out_bounds k.
  begin. do 27 step. eapply reach_b with (b := negb (16 * Z.of_nat (k + 4) + 16 =? 64 * Z.of_nat quads)); [reflexivity|reflexivity|reflexivity|].
  finish. split; [reflexivity|]. close_four.
Qed.

Definition loop64 (t : nat) (s : state) : Prop := four (4 * t) (4 * t) (4 * t + 1) (4 * t + 2) (4 * t + 3) s.
Lemma body64 : forall t s, (S t < quads)%nat -> loop64 t s -> reach 107 pack8_dotprod 29 s (fun pc s' => pc = (if Nat.eqb (S (S t)) quads then 136 else 29)%nat /\ loop64 (S t) s').
Proof.
  intros t s Ht H. pose proof quads_bound as (_ & _ & Hq).
  eapply (reach_trans 27 80); [apply (seg0 (4 * t)); [lia|exact H]|]. intros pc1 s1 [-> H1].
  replace (4 * t + 1)%nat with (S (4 * t)) in H1 by lia.
  eapply (reach_trans 26 54); [apply (seg1 (S (4 * t))); [lia|exact H1]|]. intros pc2 s2 [-> H2].
  replace (4 * t + 2)%nat with (S (S (4 * t))) in H2 by lia.
  eapply (reach_trans 26 28); [apply (seg2 (S (S (4 * t)))); [lia|exact H2]|]. intros pc3 s3 [-> H3].
  replace (4 * t + 3)%nat with (S (S (S (4 * t)))) in H3 by lia.
  eapply reach_weaken; [apply (seg3 (S (S (S (4 * t))))); [lia|exact H3]|lia|]. intros pc4 s4 [-> H4]. split.
  - rewrite <- (loop_test 64) by lia. replace (16 * Z.of_nat (S (S (S (4 * t))) + 4) + 16) with (64 * Z.of_nat (S t) + 64) by lia. reflexivity.
  - unfold loop64. replace (4 * S t)%nat with (S (S (S (S (4 * t))))) by lia.
    replace (4 * t + 4)%nat with (S (S (S (S (4 * t))))) in H4 by lia. replace (S (4 * t) + 4)%nat with (S (S (S (S (4 * t)))) + 1)%nat in H4 by lia.
    replace (S (S (4 * t)) + 4)%nat with (S (S (S (S (4 * t)))) + 2)%nat in H4 by lia. replace (S (S (S (4 * t))) + 4)%nat with (S (S (S (S (4 * t)))) + 3)%nat in H4 by lia. exact H4.
Qed.

(** [K] pieces have been loaded, [k] processed. *)
Record mid (K k : nat) (s : state) : Prop := { d_x1 : xs s 1 = Int (16 * Z.of_nat K); d_cols : cols_at s (before K); d_core : cored k s }.
Ltac open_mid := intros [X1 [C0 C1 C2 C3 I0 I1 I2 I3] [XP [A1 A2 A3] VX V1 W0 W1 W2 W3 HM]].
Ltac close_mid := constructor; [|constructor|constructor; [|constructor|..]]; fields.
Ltac close_loaded := constructor; cbn [Nat.mul Nat.add]; reads.

Lemma drain0 : forall K k b c d s, (k < piecesd)%nat -> mid K k s -> loaded 0 k s -> loaded 1 b s -> loaded 2 c s -> loaded 3 d s ->
  reach 22 pack8_dotprod 136 s (fun pc s' => pc = 158%nat /\ mid K (S k) s' /\ loaded 1 b s' /\ loaded 2 c s' /\ loaded 3 d s').
Proof.
  intros K k b c d s Hk. open_mid. intros [L0 L1 L2 L3] [L4 L5 L6 L7] [L8 L9 L10 L11] [L12 L13 L14 L15].
  cbn [Nat.mul Nat.add] in L0, L1, L2, L3, L4, L5, L6, L7, L8, L9, L10, L11, L12, L13, L14, L15. out_bounds k.
  begin. do 22 step. finish. split; [reflexivity|]. split; [close_mid|]. repeat (split; [close_loaded|]); close_loaded.
Qed.
Lemma drain1 : forall K k c d s, (k < piecesd)%nat -> mid K k s -> loaded 1 k s -> loaded 2 c s -> loaded 3 d s ->
  reach 21 pack8_dotprod 158 s (fun pc s' => pc = 179%nat /\ mid K (S k) s' /\ loaded 2 c s' /\ loaded 3 d s').
Proof.
  intros K k c d s Hk. open_mid. intros [L4 L5 L6 L7] [L8 L9 L10 L11] [L12 L13 L14 L15].
  cbn [Nat.mul Nat.add] in L4, L5, L6, L7, L8, L9, L10, L11, L12, L13, L14, L15. out_bounds k.
  begin. do 21 step. finish. split; [reflexivity|]. split; [close_mid|]. repeat (split; [close_loaded|]); close_loaded.
Qed.
Lemma drain2 : forall K k d s, (k < piecesd)%nat -> mid K k s -> loaded 2 k s -> loaded 3 d s ->
  reach 21 pack8_dotprod 179 s (fun pc s' => pc = 200%nat /\ mid K (S k) s' /\ loaded 3 d s').
Proof.
  intros K k d s Hk. open_mid. intros [L8 L9 L10 L11] [L12 L13 L14 L15].
  cbn [Nat.mul Nat.add] in L8, L9, L10, L11, L12, L13, L14, L15. out_bounds k.
  begin. do 21 step. finish. split; [reflexivity|]. split; [close_mid|]. close_loaded.
Qed.
Lemma drain3 : forall K k s, (k < piecesd)%nat -> mid K k s -> loaded 3 k s -> reach 21 pack8_dotprod 200 s (fun pc s' => pc = 221%nat /\ mid K (S k) s').
Proof.
  intros K k s Hk. open_mid. intros [L12 L13 L14 L15]. cbn [Nat.mul Nat.add] in L12, L13, L14, L15. out_bounds k.
  begin. do 21 step. finish. split; [reflexivity|]. close_mid.
Qed.
Lemma drain : forall t s, (t < quads)%nat -> loop64 t s -> reach 85 pack8_dotprod 136 s (fun pc s' => pc = 221%nat /\ mid (4 * S t) (4 * S t) s').
Proof.
  intros t s Ht [X1 _ Hc Hcore H0 H1 H2 H3]. pose proof quads_bound as (_ & _ & Hq).
  assert (M : mid (4 * S t) (4 * t) s).
  { replace (4 * t + 4)%nat with (4 * S t)%nat in X1, Hc by lia. constructor; assumption. }
  eapply (reach_trans 22 63); [eapply (drain0 (4 * S t) (4 * t) _ _ _ s); [lia|eassumption|eassumption|eassumption|eassumption|eassumption]|]. intros pc1 s1 (-> & M1 & K1 & K2 & K3).
  replace (4 * t + 1)%nat with (S (4 * t)) in K1 by lia.
  eapply (reach_trans 21 42); [eapply (drain1 (4 * S t) (S (4 * t)) _ _ s1); [lia|eassumption|eassumption|eassumption|eassumption]|]. intros pc2 s2 (-> & M2 & J2 & J3).
  replace (4 * t + 2)%nat with (S (S (4 * t))) in J2 by lia.
  eapply (reach_trans 21 21); [eapply (drain2 (4 * S t) (S (S (4 * t))) _ s2); [lia|eassumption|eassumption|eassumption]|]. intros pc3 s3 (-> & M3 & G3).
  replace (4 * t + 3)%nat with (S (S (S (4 * t)))) in G3 by lia.
  eapply reach_weaken; [eapply (drain3 (4 * S t) (S (S (S (4 * t)))) s3); [lia|eassumption|eassumption]|lia|]. intros pc4 s4 [-> M4]. split; [reflexivity|].
  replace (4 * S t)%nat with (S (S (S (S (4 * t))))) in M4 at 2 by lia. replace (4 * S t)%nat with (S (S (S (S (4 * t))))) at 2 by lia. exact M4.
Qed.

Lemma startd : forall s, cols_at s (before 0) -> xs s 48 = Ptr pb po -> argsd s -> xs s 52 = Int ix -> changed m0 pb P0 (mem s) ->
  reach 29 pack8_dotprod 0 s (fun pc s' => if Nat.eqb quads 0 then pc = 221%nat /\ mid 0 0 s' else pc = (if Nat.eqb 1 quads then 136 else 29)%nat /\ loop64 0 s').
Proof.
  intros s [C0 C1 C2 C3 I0 I1 I2 I3] XP [A1 A2 A3] X52 HM.
  pose proof quads_bound as (Hq1 & Hq2 & Hq). pose proof nd_bound as [_ Hn]. incs. 
  begin. do 8 step.
  eapply s_ands_high with (k := 6); [reflexivity|reflexivity|lia|reads|exact HRz|lia|]. look. change (2 ^ 6) with 64. rewrite <- Hq1.
  eapply reach_b with (b := (64 * Z.of_nat quads =? 0)); [reflexivity|reflexivity|reflexivity|].
  destruct (Z.eqb_spec (64 * Z.of_nat quads) 0) as [E|E].
  - finish. replace (Nat.eqb quads 0) with true by (symmetry; apply Nat.eqb_eq; lia). split; [reflexivity|]. close_mid.
  - bounds 0%nat. bounds 1%nat. bounds 2%nat. bounds 3%nat. 
    do 18 (step; rewrite ?before_S).
    eapply reach_b with (b := (0 + 64 =? 64 * Z.of_nat quads)); [reflexivity|reflexivity|reflexivity|].
    finish. replace (Nat.eqb quads 0) with false by (symmetry; apply Nat.eqb_neq; lia). split.
    + destruct (Nat.eqb_spec 1 quads) as [E1|E1].
      * replace (0 + 64 =? 64 * Z.of_nat quads) with true by (symmetry; apply Z.eqb_eq; lia). reflexivity.
      * replace (0 + 64 =? 64 * Z.of_nat quads) with false by (symmetry; apply Z.eqb_neq; lia). reflexivity.
    + unfold loop64. close_four.
Qed.

(** ** Sixteen rows at a time *)
Record loopd (k : nat) (s : state) : Prop := {
  l_x1 : xs s 1 = Int (16 * Z.of_nat (S k)); l_x2 : xs s 2 = Int (16 * Z.of_nat piecesd); l_cols : cols_at s (before (S k));
  l_core : cored k s; l_0 : loaded 0 k s }.
(** After all whole pieces. *)
Record wholed (s : state) : Prop := { w_cols : cols_at s (before piecesd); w_core : cored piecesd s }.

Lemma nextd : forall K s, (K <= piecesd)%nat -> mid K K s ->
  reach 11 pack8_dotprod 221 s (fun pc s' => if Nat.eqb K piecesd then pc = 283%nat /\ wholed s' else pc = (if Nat.eqb (S K) piecesd then 261 else 232)%nat /\ loopd K s').
Proof.
  intros K s HK. open_mid. pose proof nd_bound as [Hn Hn']. incs. begin. step.
  eapply s_and_high with (k := 4); [reflexivity|reflexivity|lia|reads|exact HRz|lia|]. look. change (2 ^ 4) with 16. rewrite <- Hn. step.
  eapply reach_b with (b := (16 * Z.of_nat K =? 16 * Z.of_nat piecesd)); [reflexivity|reflexivity|reflexivity|].
  destruct (Z.eqb_spec (16 * Z.of_nat K) (16 * Z.of_nat piecesd)) as [E|E].
  - finish. replace (Nat.eqb K piecesd) with true by (symmetry; apply Nat.eqb_eq; lia). split; [reflexivity|].
    assert (E0 : piecesd = K) by lia. constructor; rewrite ?E0; [constructor|constructor; [|constructor|..]]; fields.
  - bounds K. do 6 step.
    eapply reach_b with (b := (16 * Z.of_nat K + 16 =? 16 * Z.of_nat piecesd)); [reflexivity|reflexivity|reflexivity|].
    finish. replace (Nat.eqb K piecesd) with false by (symmetry; apply Nat.eqb_neq; lia). split.
    + destruct (Nat.eqb_spec (S K) piecesd) as [E1|E1].
      * replace (16 * Z.of_nat K + 16 =? 16 * Z.of_nat piecesd) with true by (symmetry; apply Z.eqb_eq; lia). reflexivity.
      * replace (16 * Z.of_nat K + 16 =? 16 * Z.of_nat piecesd) with false by (symmetry; apply Z.eqb_neq; lia). reflexivity.
    + constructor; [| |constructor|constructor; [|constructor|..]|constructor]; cbn [Nat.mul Nat.add]; fields.
Qed.

Lemma bodyd : forall k s, (S k < piecesd)%nat -> loopd k s -> reach 29 pack8_dotprod 232 s (fun pc s' => pc = (if Nat.eqb (S (S k)) piecesd then 261 else 232)%nat /\ loopd (S k) s').
Proof.
  intros k s Hk [X1 X2 [C0 C1 C2 C3 I0 I1 I2 I3] [XP [A1 A2 A3] VX V1 W0 W1 W2 W3 HM] [L0 L1 L2 L3]]. cbn [Nat.mul Nat.add] in L0, L1, L2, L3.
  pose proof nd_bound as [_ Hn]. bounds (S k). incs. out_bounds k.
  begin. do 28 step.
  eapply reach_b with (b := negb (16 * Z.of_nat (S k) + 16 =? 16 * Z.of_nat piecesd)); [reflexivity|reflexivity|reflexivity|].
  finish. split; [apply loop_test; lia|].
  constructor; [| |constructor|constructor; [|constructor|..]|constructor]; cbn [Nat.mul Nat.add]; fields.
Qed.

Lemma pieced : forall s, (0 < piecesd)%nat -> loopd (piecesd - 1) s -> reach 22 pack8_dotprod 261 s (fun pc s' => pc = 283%nat /\ wholed s').
Proof.
  intros s Hk. assert (En : piecesd = S (piecesd - 1)) by lia. set (k := (piecesd - 1)%nat) in *. clearbody k.
  intros [X1 X2 [C0 C1 C2 C3 I0 I1 I2 I3] [XP [A1 A2 A3] VX V1 W0 W1 W2 W3 HM] [L0 L1 L2 L3]]. cbn [Nat.mul Nat.add] in L0, L1, L2, L3. out_bounds k.
  begin. do 22 step. finish. split; [reflexivity|].
  constructor; rewrite ?En; [constructor|constructor; [|constructor|..]]; fields.
Qed.

(** After the last rows. *)
Record endd (s : state) : Prop := {
  e_sums : xs s 49 = sums;
  e_a0 : vs s 28 = accd_end 0; e_a2 : vs s 29 = accd_end 2; e_a1 : vs s 30 = accd_end 1; e_a3 : vs s 31 = accd_end 3;
  e_mem : changed m0 pb outd_end (mem s) }.

Lemma groups_cases : forall r, (0 < r <= 15)%nat ->
  (((r + 3) / 4 = 1 /\ r <= 4) \/ ((r + 3) / 4 = 2 /\ 4 < r <= 8) \/ ((r + 3) / 4 = 3 /\ 8 < r <= 12) \/ ((r + 3) / 4 = 4 /\ 12 < r))%nat.
Proof. clear. intros r Hr. do 16 (destruct r as [|r]; [first [lia | left; split; [reflexivity|lia] | right; left; split; [reflexivity|lia] | right; right; left; split; [reflexivity|lia] | right; right; right; split; [reflexivity|lia]]|]). lia. Qed.

Ltac no_more := finish; split; [reflexivity|constructor; unfold accd_end, outd_end, store_first; match goal with G : groupsd = _ |- _ => rewrite ?G end; cbn [Nat.ltb Nat.leb]; try reads_lia; memfact].
Ltac more n := eapply reach_b with (b := orb (Z.of_nat restd <? n) (Z.of_nat restd =? n)); [reflexivity|reflexivity|reflexivity|];
  first [ replace (orb (Z.of_nat restd <? n) (Z.of_nat restd =? n)) with true by (symmetry; apply orb_true_iff; destruct (Z.ltb_spec (Z.of_nat restd) n); [left; reflexivity|right; apply Z.eqb_eq; lia])
        | replace (orb (Z.of_nat restd <? n) (Z.of_nat restd =? n)) with false by (symmetry; apply orb_false_iff; split; [apply Z.ltb_ge; lia|apply Z.eqb_neq; lia])].

Lemma full_accd_end : forall c, full (accd_end c).
Proof.
  intros c. unfold accd_end. destruct (Nat.ltb c groupsd); [|apply full_accd].
  assert (F : forall c, full (lastd c)) by (intros c'; apply full_eor; [apply partly_full; [reflexivity|pose proof Td_bound; lia]|reflexivity]).
  apply full_sdot; [apply full_accd|apply full_trans; apply F|apply full_ones].
Qed.

Lemma tail_coded : tail_code 1 pack8_dotprod 290 15.
Proof. intros r Hr. do 15 (destruct r as [|r]; [repeat split|]). lia. Qed.

Lemma restd_reach : forall s, wholed s -> reach 150 pack8_dotprod 283 s (fun pc s' => pc = 408%nat /\ endd s').
Proof.
  intros s [[C0 C1 C2 C3 I0 I1 I2 I3] [XP [A1 A2 A3] VX V1 W0 W1 W2 W3 HM]].
  pose proof Td_bound as [HT HT']. begin. step.
  eapply s_ands_low with (k := 4); [reflexivity|reflexivity|lia|reads|exact HRz|]. look. change (2 ^ 4) with 16. rewrite <- HT.
  eapply reach_b with (b := (Z.of_nat restd =? 0)); [reflexivity|reflexivity|reflexivity|].
  destruct (Z.eqb_spec (Z.of_nat restd) 0) as [E|E].
  - finish. split; [reflexivity|]. assert (E0 : groupsd = 0%nat) by (unfold groupsd; replace restd with 0%nat by lia; reflexivity).
    constructor; unfold accd_end, outd_end, store_first; rewrite ?E0; cbn [Nat.ltb Nat.leb]; try reads_lia. memfact.
  - do 4 step.
    match goal with |- reach _ ?c ?p ?s ?q => apply (reach_weaken ((6 * restd + 2) + 30) _ c p s q); [|lia|intros pc2 s2 Hq; exact Hq] end.
    eapply reach_trans.
    + eapply (tail_all m0 pb sbk sb so inc Hsb Hne 1 pack8_dotprod 290 15 (outd piecesd) (before piecesd) filld) with (R := restd); try reads.
      * lia.
      * apply tail_coded.
      * lia.
      * intros c Hc. pose proof (Htail c Hc). rewrite Nat.mul_1_l. lia.
      * look. exact HM.
      * constructor; reads.
    + intros pc' s' [-> [R0 R1 R2 R3 U0 U1 U2 U3 HX HV HMem]].
      replace (290 + 6 * 15)%nat with 380%nat by reflexivity.
      assert (B26 : vs s' 26 = Xd) by (rewrite HV by lia; reads).
      assert (B27 : vs s' 27 = ones) by (rewrite HV by lia; reads).
      assert (B28 : vs s' 28 = accd 0 piecesd) by (rewrite HV by lia; reads).
      assert (B29 : vs s' 29 = accd 2 piecesd) by (rewrite HV by lia; reads).
      assert (B30 : vs s' 30 = accd 1 piecesd) by (rewrite HV by lia; reads).
      assert (B31 : vs s' 31 = accd 3 piecesd) by (rewrite HV by lia; reads).
      assert (B2 : xs s' 2 = Int (Z.of_nat restd)) by (rewrite HX by lia; reads).
      assert (B48 : xs s' 48 = Ptr pb (po + 128 * Z.of_nat piecesd)) by (rewrite HX by lia; reads).
      assert (B49 : xs s' 49 = sums) by (rewrite HX by lia; reads).
      cbn [mem] in HMem. rewrite <- HMem in HM.
      assert (F : forall c, full (row_piece sb 1 (before piecesd) filld c restd)) by (intros c; apply partly_full; [apply full_filld|lia]).
      pose proof (groups_cases restd ltac:(lia)) as G. fold groupsd in G.
      assert (Hp0 := proj1 Hpo). assert (Ht0 := proj2 (proj2 Hpo) 0%nat). assert (Ht1 := proj2 (proj2 Hpo) 1%nat). assert (Ht2 := proj2 (proj2 Hpo) 2%nat). assert (Ht3 := proj2 (proj2 Hpo) 3%nat).
      apply (reach_weaken 30 _ pack8_dotprod 380 s' (fun pc s2 => pc = 408%nat /\ endd s2)); [|lia|intros pc2 s2 Hq; subst Q; exact Hq].
      clear - Hsb Hne Hp0 Ht0 Ht1 Ht2 Ht3 R0 R1 R2 R3 U0 U1 U2 U3 B2 B26 B27 B28 B29 B30 B31 B48 B49 HM F G E HT'.
      begin. do 16 step. destruct G as [[G Hr]|[[G Hr]|[[G Hr]|[G Hr]]]].
      * more 4. no_more.
      * more 4. do 3 step. more 8. no_more.
      * more 4. do 3 step. more 8. do 3 step. more 12. no_more.
      * more 4. do 3 step. more 8. do 3 step. more 12. do 3 step. no_more.
Qed.

Lemma endd_reach : forall s, endd s -> sums_ok m0 pb sums -> reach 20 pack8_dotprod 408 s (fun pc s' => nth_error pack8_dotprod pc = None /\ finished m0 pb outd_end sums sumd (mem s')).
Proof.
  intros s1 [ES E1 E2 E3 E4 EM] Hs. begin. do 4 step. eapply (reach_trans 3 13).
  - eapply (sums_end m0 pb outd_end sums); [exact EM|reads|exact Hs| |reflexivity|reflexivity|reflexivity|reflexivity].
    look. facts. assert (F : forall c, full (accd_end c)) by apply full_accd_end. fulls; apply F.
  - intros pc2 s2 [-> HF]. step. finish. split; [reflexivity|]. look. exact HF.
Qed.

Lemma pack8_dotprod_reach : forall s, cols_at s (before 0) -> xs s 48 = Ptr pb po -> argsd s -> xs s 52 = Int ix -> changed m0 pb P0 (mem s) -> sums_ok m0 pb sums ->
  reach (350 + 30 * piecesd) pack8_dotprod 0 s (fun pc s' => nth_error pack8_dotprod pc = None /\ finished m0 pb outd_end sums sumd (mem s')).
Proof.
  intros s Hc Hp Ha Hx Hm Hs. pose proof quads_bound as (_ & _ & Hq).
  assert (Hrest : forall s, wholed s -> reach 170 pack8_dotprod 283 s (fun pc s' => nth_error pack8_dotprod pc = None /\ finished m0 pb outd_end sums sumd (mem s'))).
  { intros s1 H1. eapply (reach_trans 150 20); [apply restd_reach, H1|]. intros pc2 s2 [-> H2]. apply endd_reach; assumption. }
  assert (Hmid : forall K s, (K <= piecesd)%nat -> mid K K s -> reach (220 + 29 * (piecesd - K)) pack8_dotprod 221 s (fun pc s' => nth_error pack8_dotprod pc = None /\ finished m0 pb outd_end sums sumd (mem s'))).
  { intros K s1 HK H1. replace (220 + 29 * (piecesd - K))%nat with (11 + (209 + 29 * (piecesd - K)))%nat by lia. eapply reach_trans; [apply (nextd K s1); assumption|].
    intros pc2 s2. destruct (Nat.eqb_spec K piecesd) as [E|E].
    - intros [-> H2]. eapply reach_weaken; [apply Hrest, H2|lia|intros pc3 s3 H3; exact H3].
    - intros [-> H2]. apply (reach_weaken (29 * (piecesd - 1 - K) + (22 + 170)) _ pack8_dotprod _ s2 (fun pc s' => nth_error pack8_dotprod pc = None /\ finished m0 pb outd_end sums sumd (mem s'))); [|lia|intros pc3 s3 H3; exact H3].
      eapply reach_trans; [apply (loop_rule loopd 29 pack8_dotprod 232 261 piecesd bodyd (piecesd - 1 - K) K s2); [lia|exact H2]|].
      intros pc3 s3 [-> H3]. eapply (reach_trans 22 170); [apply pieced; [lia|exact H3]|]. intros pc4 s4 [-> H4]. apply Hrest, H4. }
  replace (350 + 30 * piecesd)%nat with (29 + (321 + 30 * piecesd))%nat by lia. eapply reach_trans; [apply (startd s); assumption|].
  intros pc1 s1. destruct (Nat.eqb_spec quads 0) as [E|E].
  - intros [-> H1]. eapply reach_weaken; [apply (Hmid 0%nat); [lia|exact H1]|lia|intros pc2 s2 H2; exact H2].
  - intros [-> H1]. apply (reach_weaken (107 * (quads - 1) + (85 + (220 + 29 * (piecesd - 4 * quads)))) _ pack8_dotprod _ s1 (fun pc s' => nth_error pack8_dotprod pc = None /\ finished m0 pb outd_end sums sumd (mem s'))); [|lia|intros pc2 s2 H2; exact H2].
    eapply reach_trans; [apply (loop_rule loop64 107 pack8_dotprod 29 136 quads body64 (quads - 1) 0 s1); [lia|exact H1]|].
    intros pc2 s2 [-> H2]. eapply reach_trans; [apply (drain (quads - 1) s2); [lia|exact H2]|]. intros pc3 s3 [-> H3].
    replace (S (quads - 1)) with quads in H3 by lia. apply (Hmid (4 * quads)%nat); [lia|exact H3].
Qed.

(** ** Pack8bitColMajorForNeonDotprodA55ish *)
Hypothesis Hbyte : forall c i, 0 <= bdat (sb c) i < 256.
Notation lo := (lo sb so inc).
Notation hi := (hi sb so inc).
Let join := join sb so inc Hbyte.

Record loopda (k : nat) (s : state) : Prop := {
  la_x1 : xs s 1 = Int (16 * Z.of_nat (S k)); la_x2 : xs s 2 = Int (16 * Z.of_nat piecesd); la_cols : cols_at s (before (S k)); la_core : cored k s;
  la_h0 : xs s 10 = Int (hi 0 k); la_h1 : xs s 11 = Int (hi 1 k); la_h2 : xs s 12 = Int (hi 2 k); la_h3 : xs s 13 = Int (hi 3 k);
  la_v0 : vs s 0 = lo 0 k; la_v1 : vs s 1 = lo 1 k; la_v2 : vs s 2 = lo 2 k; la_v3 : vs s 3 = lo 3 k }.

Lemma bodyda : forall k s, (S k < piecesd)%nat -> loopda k s -> reach 41 pack8_dotprod_a55 33 s (fun pc s' => pc = (if Nat.eqb (S (S k)) piecesd then 74 else 33)%nat /\ loopda (S k) s').
Proof.
  intros k s Hk [X1 X2 [C0 C1 C2 C3 I0 I1 I2 I3] [XP [A1 A2 A3] VX V1 W0 W1 W2 W3 HM] H10 H11 H12 H13 L0 L1 L2 L3].
  pose proof nd_bound as [_ Hn]. bounds (S k). incs. out_bounds k.
  begin. do 40 (step; rewrite ?join).
  eapply reach_b with (b := negb (16 * Z.of_nat (S k) + 16 =? 16 * Z.of_nat piecesd)); [reflexivity|reflexivity|reflexivity|].
  finish. split; [apply loop_test; lia|].
  constructor; [| |constructor|constructor; [|constructor|..]|..]; fields.
Qed.

Lemma pieceda : forall s, (0 < piecesd)%nat -> loopda (piecesd - 1) s -> reach 26 pack8_dotprod_a55 74 s (fun pc s' => pc = 100%nat /\ wholed s').
Proof.
  intros s Hk. assert (En : piecesd = S (piecesd - 1)) by lia. set (k := (piecesd - 1)%nat) in *. clearbody k.
  intros [X1 X2 [C0 C1 C2 C3 I0 I1 I2 I3] [XP [A1 A2 A3] VX V1 W0 W1 W2 W3 HM] H10 H11 H12 H13 L0 L1 L2 L3]. out_bounds k.
  begin. do 26 (step; rewrite ?join). finish. split; [reflexivity|].
  constructor; rewrite ?En; [constructor|constructor; [|constructor|..]]; fields.
Qed.

Lemma startda : forall s, cols_at s (before 0) -> xs s 48 = Ptr pb po -> argsd s -> xs s 52 = Int ix -> changed m0 pb P0 (mem s) ->
  reach 33 pack8_dotprod_a55 0 s (fun pc s' => if Nat.eqb piecesd 0 then pc = 100%nat /\ wholed s' else pc = (if Nat.eqb 1 piecesd then 74 else 33)%nat /\ loopda 0 s').
Proof.
  intros s [C0 C1 C2 C3 I0 I1 I2 I3] XP [A1 A2 A3] X52 HM.
  pose proof nd_bound as [Hn Hn']. incs.
  begin. do 8 step.
  eapply s_ands_high with (k := 4); [reflexivity|reflexivity|lia|reads|exact HRz|lia|]. look. change (2 ^ 4) with 16. rewrite <- Hn.
  eapply reach_b with (b := (16 * Z.of_nat piecesd =? 0)); [reflexivity|reflexivity|reflexivity|].
  destruct (Z.eqb_spec (16 * Z.of_nat piecesd) 0) as [E|E].
  - finish. replace (Nat.eqb piecesd 0) with true by (symmetry; apply Nat.eqb_eq; lia). split; [reflexivity|].
    assert (E0 : piecesd = 0%nat) by lia. constructor; rewrite ?E0; [constructor|constructor; [|constructor|..]]; fields.
  - bounds 0%nat. do 22 step.
    eapply reach_b with (b := (0 + 16 =? 16 * Z.of_nat piecesd)); [reflexivity|reflexivity|reflexivity|].
    finish. replace (Nat.eqb piecesd 0) with false by (symmetry; apply Nat.eqb_neq; lia). split.
    + destruct (Nat.eqb_spec 1 piecesd) as [E1|E1].
      * replace (0 + 16 =? 16 * Z.of_nat piecesd) with true by (symmetry; apply Z.eqb_eq; lia). reflexivity.
      * replace (0 + 16 =? 16 * Z.of_nat piecesd) with false by (symmetry; apply Z.eqb_neq; lia). reflexivity.
    + constructor; [| |constructor|constructor; [|constructor|..]|..]; fields.
Qed.

Lemma tail_codeda : tail_code 1 pack8_dotprod_a55 107 15.
Proof. intros r Hr. do 15 (destruct r as [|r]; [repeat split|]). lia. Qed.

Lemma restda_reach : forall s, wholed s -> reach 150 pack8_dotprod_a55 100 s (fun pc s' => pc = 225%nat /\ endd s').
Proof.
  intros s [[C0 C1 C2 C3 I0 I1 I2 I3] [XP [A1 A2 A3] VX V1 W0 W1 W2 W3 HM]].
  pose proof Td_bound as [HT HT']. begin. step.
  eapply s_ands_low with (k := 4); [reflexivity|reflexivity|lia|reads|exact HRz|]. look. change (2 ^ 4) with 16. rewrite <- HT.
  eapply reach_b with (b := (Z.of_nat restd =? 0)); [reflexivity|reflexivity|reflexivity|].
  destruct (Z.eqb_spec (Z.of_nat restd) 0) as [E|E].
  - finish. split; [reflexivity|]. assert (E0 : groupsd = 0%nat) by (unfold groupsd; replace restd with 0%nat by lia; reflexivity).
    constructor; unfold accd_end, outd_end, store_first; rewrite ?E0; cbn [Nat.ltb Nat.leb]; try reads_lia. memfact.
  - do 4 step.
    match goal with |- reach _ ?c ?p ?s ?q => apply (reach_weaken ((6 * restd + 2) + 30) _ c p s q); [|lia|intros pc2 s2 Hq; exact Hq] end.
    eapply reach_trans.
    + eapply (tail_all m0 pb sbk sb so inc Hsb Hne 1 pack8_dotprod_a55 107 15 (outd piecesd) (before piecesd) filld) with (R := restd); try reads.
      * lia.
      * apply tail_codeda.
      * lia.
      * intros c Hc. pose proof (Htail c Hc). rewrite Nat.mul_1_l. lia.
      * look. exact HM.
      * constructor; reads.
    + intros pc' s' [-> [R0 R1 R2 R3 U0 U1 U2 U3 HX HV HMem]].
      replace (107 + 6 * 15)%nat with 197%nat by reflexivity.
      assert (B26 : vs s' 26 = Xd) by (rewrite HV by lia; reads).
      assert (B27 : vs s' 27 = ones) by (rewrite HV by lia; reads).
      assert (B28 : vs s' 28 = accd 0 piecesd) by (rewrite HV by lia; reads).
      assert (B29 : vs s' 29 = accd 2 piecesd) by (rewrite HV by lia; reads).
      assert (B30 : vs s' 30 = accd 1 piecesd) by (rewrite HV by lia; reads).
      assert (B31 : vs s' 31 = accd 3 piecesd) by (rewrite HV by lia; reads).
      assert (B2 : xs s' 2 = Int (Z.of_nat restd)) by (rewrite HX by lia; reads).
      assert (B48 : xs s' 48 = Ptr pb (po + 128 * Z.of_nat piecesd)) by (rewrite HX by lia; reads).
      assert (B49 : xs s' 49 = sums) by (rewrite HX by lia; reads).
      cbn [mem] in HMem. rewrite <- HMem in HM.
      assert (F : forall c, full (row_piece sb 1 (before piecesd) filld c restd)) by (intros c; apply partly_full; [apply full_filld|lia]).
      pose proof (groups_cases restd ltac:(lia)) as G. fold groupsd in G.
      assert (Hp0 := proj1 Hpo). assert (Ht0 := proj2 (proj2 Hpo) 0%nat). assert (Ht1 := proj2 (proj2 Hpo) 1%nat). assert (Ht2 := proj2 (proj2 Hpo) 2%nat). assert (Ht3 := proj2 (proj2 Hpo) 3%nat).
      apply (reach_weaken 30 _ pack8_dotprod_a55 197 s' (fun pc s2 => pc = 225%nat /\ endd s2)); [|lia|intros pc2 s2 Hq; subst Q; exact Hq].
      clear - Hsb Hne Hp0 Ht0 Ht1 Ht2 Ht3 R0 R1 R2 R3 U0 U1 U2 U3 B2 B26 B27 B28 B29 B30 B31 B48 B49 HM F G E HT'.
      begin. do 16 step. destruct G as [[G Hr]|[[G Hr]|[[G Hr]|[G Hr]]]].
      * more 4. no_more.
      * more 4. do 3 step. more 8. no_more.
      * more 4. do 3 step. more 8. do 3 step. more 12. no_more.
      * more 4. do 3 step. more 8. do 3 step. more 12. do 3 step. no_more.
Qed.

Lemma endda_reach : forall s, endd s -> sums_ok m0 pb sums -> reach 20 pack8_dotprod_a55 225 s (fun pc s' => nth_error pack8_dotprod_a55 pc = None /\ finished m0 pb outd_end sums sumd (mem s')).
Proof.
  intros s1 [ES E1 E2 E3 E4 EM] Hs. begin. do 4 step. eapply (reach_trans 3 13).
  - eapply (sums_end m0 pb outd_end sums); [exact EM|reads|exact Hs| |reflexivity|reflexivity|reflexivity|reflexivity].
    look. facts. assert (F : forall c, full (accd_end c)) by apply full_accd_end. fulls; apply F.
  - intros pc2 s2 [-> HF]. step. finish. split; [reflexivity|]. look. exact HF.
Qed.

Lemma pack8_dotprod_a55_reach : forall s, cols_at s (before 0) -> xs s 48 = Ptr pb po -> argsd s -> xs s 52 = Int ix -> changed m0 pb P0 (mem s) -> sums_ok m0 pb sums ->
  reach (300 + 41 * piecesd) pack8_dotprod_a55 0 s (fun pc s' => nth_error pack8_dotprod_a55 pc = None /\ finished m0 pb outd_end sums sumd (mem s')).
Proof.
  intros s Hc Hp Ha Hx Hm Hs.
  assert (Hrest : forall s, wholed s -> reach 170 pack8_dotprod_a55 100 s (fun pc s' => nth_error pack8_dotprod_a55 pc = None /\ finished m0 pb outd_end sums sumd (mem s'))).
  { intros s1 H1. eapply (reach_trans 150 20); [apply restda_reach, H1|]. intros pc2 s2 [-> H2]. apply endda_reach; assumption. }
  replace (300 + 41 * piecesd)%nat with (33 + (41 * piecesd + 267))%nat by lia. eapply reach_trans; [apply (startda s); assumption|].
  intros pc1 s1. destruct (Nat.eqb_spec piecesd 0) as [E|E].
  - intros [-> H1]. eapply reach_weaken; [apply Hrest, H1|lia|intros pc2 s2 H2; exact H2].
  - intros [-> H1]. apply (reach_weaken (41 * (piecesd - 1) + (26 + 170)) _ pack8_dotprod_a55 _ s1 (fun pc s' => nth_error pack8_dotprod_a55 pc = None /\ finished m0 pb outd_end sums sumd (mem s'))); [|lia|intros pc2 s2 H2; exact H2].
    eapply reach_trans; [apply (loop_rule loopda 41 pack8_dotprod_a55 33 74 piecesd bodyda (piecesd - 1) 0 s1); [lia|exact H1]|].
    intros pc2 s2 [-> H2]. eapply (reach_trans 26 170); [apply pieceda; [lia|exact H2]|]. intros pc3 s3 [-> H3]. apply Hrest, H3.
Qed.

End PackDot.
