(** PackFloatColMajorForNeon and PackFloatColMajorForNeonA55ish (ruy/pack_arm.cc): what their code does. *)
From Coq Require Import ZArith List Bool Lia.
From Verif Require Import Base Mat Simd SimdFacts Neon64 NeonRun NeonTac NeonCols NeonPackCode.
Import ListNotations.
Open Scope Z_scope.

Section PackF.
Variables (m0 : memory) (pb : nat) (sbk : nat -> nat) (sb : nat -> buf Z) (so inc : nat -> Z) (P0 : buf Z) (po : Z) (Rz R : Z).
Hypothesis Hsb : forall c, m0 (sbk c) = Bytes (sb c).
Hypothesis Hne : forall c, sbk c <> pb.
Hypothesis Hinc : forall c, 0 <= inc c < 2 ^ 31.
Hypothesis HRz : Rz mod 2 ^ 32 = R.
Hypothesis HR : 0 <= R < 2 ^ 31.
Notation before := (before so inc).
Notation cvec := (cvec sb so inc).
Notation cols_at := (cols_at sbk inc).

(** Whole pieces of four rows, and rows after them. *)
Definition piecesf : nat := Z.to_nat (R / 4).
Definition restf : nat := Z.to_nat (R mod 4).
Hypothesis Hcols : forall c k, (c < 4)%nat -> (k < piecesf)%nat -> 0 <= before k c /\ before k c + 16 <= blen (sb c).
Hypothesis Htail : forall c, (c < 4)%nat -> 0 <= before piecesf c /\ before piecesf c + Z.of_nat (4 * restf) <= blen (sb c).
Hypothesis Hpo : 0 <= po /\ (forall k, (k < piecesf)%nat -> po + 128 * Z.of_nat k + 112 <= blen P0) /\ (forall j, (j < restf)%nat -> po + 128 * Z.of_nat piecesf + 32 * Z.of_nat j + 16 <= blen P0).

(** One row of the four columns. *)
Definition tf (j k : nat) : list Z := trans j (cvec 0 k) (cvec 1 k) (cvec 2 k) (cvec 3 k).
Definition lastf (c : nat) : list Z := row_piece sb 4 (before piecesf) (repeat 0 16) c restf.
Definition tlf (j : nat) : list Z := trans j (lastf 0) (lastf 1) (lastf 2) (lastf 3).

Fixpoint outf (k : nat) : buf Z := match k with O => P0 | S k => store_t (outf k) (po + 128 * Z.of_nat k) (fun j => tf j k) end.
Definition outf_end : buf Z := store_first restf (outf piecesf) (po + 128 * Z.of_nat piecesf) tlf.

Lemma full_cv : forall c k, full (cvec c k). Proof. intros. apply full_cvec. Qed.
Lemma outf_blen : forall k, blen (outf k) = blen P0.
Proof. induction k as [|k IH]; [reflexivity|]. cbn [outf]. rewrite store_t_blen. exact IH. Qed.
Lemma nf_bound : 4 * Z.of_nat piecesf = 4 * (R / 4) /\ 4 * Z.of_nat piecesf <= R.
Proof.
  unfold piecesf. rewrite Z2Nat.id by (apply Z.div_pos; lia). split; [reflexivity|]. apply Z.mul_div_le. lia.
Qed.
Lemma Tf_bound : Z.of_nat restf = R mod 4 /\ (restf <= 3)%nat.
Proof. unfold restf. pose proof (Z.mod_pos_bound R 4). split; lia. Qed.

(** [k] pieces have been processed. *)
Record coref (k : nat) (s : state) : Prop := {
  c_p : xs s 48 = Ptr pb (po + 128 * Z.of_nat k); c_rows : xs s 50 = Int Rz; c_mem : changed m0 pb (outf k) (mem s) }.

Ltac side := first [apply Hsb | apply Hne
  | solve [repeat first [apply full_cv | assumption | match goal with F : forall c, full _ |- _ => apply F end
                        | apply full_trn1_4 | apply full_trn2_4 | apply full_trn1_8 | apply full_trn2_8]]
  | rewrite ?put_blen, ?outf_blen; lia].
Ltac step := step_with side.
Ltac bounds k := pose proof (Hcols 0 k ltac:(lia) ltac:(lia)); pose proof (Hcols 1 k ltac:(lia) ltac:(lia)); pose proof (Hcols 2 k ltac:(lia) ltac:(lia)); pose proof (Hcols 3 k ltac:(lia) ltac:(lia)).
Ltac incs := pose proof (Hinc 0); pose proof (Hinc 1); pose proof (Hinc 2); pose proof (Hinc 3).
Ltac memfact := look; match goal with H : changed m0 pb _ ?m |- changed m0 pb _ ?m => exact H end.
Ltac fields := try reads_lia; try (look; facts; rewrite before_S; reflexivity); try memfact.
Ltac out_bounds k := assert (0 <= po /\ po + 128 * Z.of_nat k + 112 <= blen P0) by (split; [apply Hpo|apply Hpo; lia]).

(** The next piece is loaded. *)
Record loopf (k : nat) (s : state) : Prop := {
  l_x1 : xs s 1 = Int (4 * Z.of_nat (S k)); l_x2 : xs s 2 = Int (4 * Z.of_nat piecesf); l_cols : cols_at s (before (S k)); l_core : coref k s;
  l_v0 : vs s 0 = cvec 0 k; l_v1 : vs s 1 = cvec 1 k; l_v2 : vs s 2 = cvec 2 k; l_v3 : vs s 3 = cvec 3 k }.
(** After all whole pieces. *)
Record wholef (s : state) : Prop := { w_cols : cols_at s (before piecesf); w_core : coref piecesf s }.

Ltac no_more := step; finish; split; [reflexivity|unfold outf_end, store_first; match goal with G : restf = _ |- _ => rewrite ?G end; cbn [Nat.ltb Nat.leb]; memfact].
Ltac next := step; match goal with |- context [Ptr pb (?x + ?a + 32)] => let b := eval vm_compute in (a + 32) in replace (x + a + 32) with (x + b) by ring end; step.
Ltac more n := eapply reach_b with (b := (Z.of_nat restf =? n)); [reflexivity|reflexivity|reflexivity|];
  first [replace (Z.of_nat restf =? n) with false by (symmetry; apply Z.eqb_neq; lia) | replace (Z.of_nat restf =? n) with true by (symmetry; apply Z.eqb_eq; lia) | idtac].

Lemma bodyf : forall k s, (S k < piecesf)%nat -> loopf k s -> reach 21 packf_neon 10 s (fun pc s' => pc = (if Nat.eqb (S (S k)) piecesf then 31 else 10)%nat /\ loopf (S k) s').
Proof.
  intros k s Hk [X1 X2 [C0 C1 C2 C3 I0 I1 I2 I3] [XP A2 HM] L0 L1 L2 L3].
  pose proof nf_bound as [_ Hn]. bounds (S k). incs. out_bounds k.
  begin. do 20 step.
  eapply reach_b with (b := negb (4 * Z.of_nat (S k) + 4 =? 4 * Z.of_nat piecesf)); [reflexivity|reflexivity|reflexivity|].
  finish. split; [apply loop_test; lia|].
  constructor; [| |constructor|constructor|..]; fields.
Qed.

Lemma piecef : forall s, (0 < piecesf)%nat -> loopf (piecesf - 1) s -> reach 14 packf_neon 31 s (fun pc s' => pc = 45%nat /\ wholef s').
Proof.
  intros s Hk. assert (En : piecesf = S (piecesf - 1)) by lia. set (k := (piecesf - 1)%nat) in *. clearbody k.
  intros [X1 X2 [C0 C1 C2 C3 I0 I1 I2 I3] [XP A2 HM] L0 L1 L2 L3]. out_bounds k.
  begin. do 14 step. finish. split; [reflexivity|].
  constructor; rewrite ?En; [constructor|constructor]; fields.
Qed.

Lemma startf : forall s, cols_at s (before 0) -> xs s 48 = Ptr pb po -> xs s 50 = Int Rz -> changed m0 pb P0 (mem s) ->
  reach 10 packf_neon 0 s (fun pc s' => if Nat.eqb piecesf 0 then pc = 45%nat /\ wholef s' else pc = (if Nat.eqb 1 piecesf then 31 else 10)%nat /\ loopf 0 s').
Proof.
  intros s [C0 C1 C2 C3 I0 I1 I2 I3] XP A2 HM. pose proof nf_bound as [Hn Hn']. incs. begin. step.
  eapply s_ands_high with (k := 2); [reflexivity|reflexivity|lia|reads|exact HRz|lia|]. look. change (2 ^ 2) with 4. rewrite <- Hn.
  eapply reach_b with (b := (4 * Z.of_nat piecesf =? 0)); [reflexivity|reflexivity|reflexivity|].
  destruct (Z.eqb_spec (4 * Z.of_nat piecesf) 0) as [E|E].
  - finish. replace (Nat.eqb piecesf 0) with true by (symmetry; apply Nat.eqb_eq; lia). split; [reflexivity|].
    assert (E0 : piecesf = 0%nat) by lia. constructor; rewrite ?E0; [constructor|constructor]; fields.
  - bounds 0%nat. do 6 step.
    eapply reach_b with (b := (0 + 4 =? 4 * Z.of_nat piecesf)); [reflexivity|reflexivity|reflexivity|].
    finish. replace (Nat.eqb piecesf 0) with false by (symmetry; apply Nat.eqb_neq; lia). split.
    + destruct (Nat.eqb_spec 1 piecesf) as [E1|E1].
      * replace (0 + 4 =? 4 * Z.of_nat piecesf) with true by (symmetry; apply Z.eqb_eq; lia). reflexivity.
      * replace (0 + 4 =? 4 * Z.of_nat piecesf) with false by (symmetry; apply Z.eqb_neq; lia). reflexivity.
    + constructor; [| |constructor|constructor|..]; fields.
Qed.

Lemma tail_codef : tail_code 4 packf_neon 52 3.
Proof. intros r Hr. do 3 (destruct r as [|r]; [repeat split|]). lia. Qed.

Lemma restf_reach : forall s, wholef s -> reach 70 packf_neon 45 s (fun pc s' => nth_error packf_neon pc = None /\ changed m0 pb outf_end (mem s')).
Proof.
  intros s [[C0 C1 C2 C3 I0 I1 I2 I3] [XP A2 HM]].
  pose proof Tf_bound as [HT HT']. begin. step.
  eapply s_ands_low with (k := 2); [reflexivity|reflexivity|lia|reads|exact HRz|]. look. change (2 ^ 2) with 4. rewrite <- HT.
  eapply reach_b with (b := (Z.of_nat restf =? 0)); [reflexivity|reflexivity|reflexivity|].
  destruct (Z.eqb_spec (Z.of_nat restf) 0) as [E|E].
  - step. finish. split; [reflexivity|]. assert (E0 : restf = 0%nat) by lia.
    unfold outf_end, store_first. rewrite ?E0. cbn [Nat.ltb Nat.leb]. memfact.
  - do 4 step.
    match goal with |- reach _ ?c ?p ?s ?q => apply (reach_weaken ((6 * restf + 2) + 22) _ c p s q); [|lia|intros pc2 s2 Hq; exact Hq] end.
    eapply reach_trans.
    + eapply (tail_all m0 pb sbk sb so inc Hsb Hne 4 packf_neon 52 3 (outf piecesf) (before piecesf) (repeat 0 16)) with (R := restf); try reads.
      * lia.
      * apply tail_codef.
      * lia.
      * intros c Hc. pose proof (Htail c Hc). lia.
      * look. exact HM.
      * constructor; reads.
    + intros pc' s' [-> [R0 R1 R2 R3 U0 U1 U2 U3 HX HV HMem]].
      replace (52 + 6 * 3)%nat with 70%nat by reflexivity.
      assert (B2 : xs s' 2 = Int (Z.of_nat restf)) by (rewrite HX by lia; reads).
      assert (B48 : xs s' 48 = Ptr pb (po + 128 * Z.of_nat piecesf + 0)) by (rewrite Z.add_0_r, HX by lia; reads).
      cbn [mem] in HMem. rewrite <- HMem in HM.
      assert (F : forall c, full (row_piece sb 4 (before piecesf) (repeat 0 16) c restf)) by (intros c; apply partly_full; [reflexivity|lia]).
      assert (Hp0 := proj1 Hpo). assert (Ht0 := proj2 (proj2 Hpo) 0%nat). assert (Ht1 := proj2 (proj2 Hpo) 1%nat). assert (Ht2 := proj2 (proj2 Hpo) 2%nat).
      apply (reach_weaken 22 _ packf_neon 70 s' (fun pc s' => nth_error packf_neon pc = None /\ changed m0 pb outf_end (mem s'))); [|lia|intros pc2 s2 Hq; subst Q; exact Hq].
      clear - Hsb Hne Hp0 Ht0 Ht1 Ht2 R0 R1 R2 R3 U0 U1 U2 U3 B2 B48 HM F E HT'.
      assert (G : (restf = 1 \/ restf = 2 \/ restf = 3)%nat) by lia.
      begin. do 11 step. more 0. next. destruct G as [G|[G|G]].
      * more 1. no_more.
      * more 1. next. more 2. no_more.
      * more 1. next. more 2. next. more 3. no_more.
Qed.

Lemma packf_neon_reach : forall s, cols_at s (before 0) -> xs s 48 = Ptr pb po -> xs s 50 = Int Rz -> changed m0 pb P0 (mem s) ->
  reach (10 + 90 + 21 * piecesf) packf_neon 0 s (fun pc s' => nth_error packf_neon pc = None /\ changed m0 pb outf_end (mem s')).
Proof.
  intros s Hc Hp Ha Hm.
  replace (10 + 90 + 21 * piecesf)%nat with (10 + (21 * piecesf + 90))%nat by lia. eapply reach_trans; [apply (startf s); assumption|].
  intros pc1 s1. destruct (Nat.eqb_spec piecesf 0) as [E|E].
  - intros [-> H1]. eapply reach_weaken; [apply restf_reach, H1|lia|intros pc2 s2 H2; exact H2].
  - intros [-> H1]. apply (reach_weaken (21 * (piecesf - 1) + (14 + 70)) _ packf_neon _ s1 (fun pc s' => nth_error packf_neon pc = None /\ changed m0 pb outf_end (mem s'))); [|lia|intros pc2 s2 H2; exact H2].
    eapply reach_trans; [apply (loop_rule loopf 21 packf_neon 10 31 piecesf bodyf (piecesf - 1) 0 s1); [lia|exact H1]|].
    intros pc2 s2 [-> H2]. eapply (reach_trans 14 70); [apply piecef; [lia|exact H2]|]. intros pc3 s3 [-> H3]. apply restf_reach, H3.
Qed.

(** ** PackFloatColMajorForNeonA55ish *)
Hypothesis Hbyte : forall c i, 0 <= bdat (sb c) i < 256.
Let join := join sb so inc Hbyte.

Lemma bodyfa : forall k s, (S k < piecesf)%nat -> loopf k s -> reach 33 packf_neon_a55 23 s (fun pc s' => pc = (if Nat.eqb (S (S k)) piecesf then 56 else 23)%nat /\ loopf (S k) s').
Proof.
  intros k s Hk [X1 X2 [C0 C1 C2 C3 I0 I1 I2 I3] [XP A2 HM] L0 L1 L2 L3].
  pose proof nf_bound as [_ Hn]. bounds (S k). incs. out_bounds k.
  begin. do 32 step.
  eapply reach_b with (b := negb (4 * Z.of_nat (S k) + 4 =? 4 * Z.of_nat piecesf)); [reflexivity|reflexivity|reflexivity|].
  finish. split; [apply loop_test; lia|].
  constructor; [| |constructor|constructor|..]; fields; look; apply join.
Qed.

Lemma piecefa : forall s, (0 < piecesf)%nat -> loopf (piecesf - 1) s -> reach 14 packf_neon_a55 56 s (fun pc s' => pc = 70%nat /\ wholef s').
Proof.
  intros s Hk. assert (En : piecesf = S (piecesf - 1)) by lia. set (k := (piecesf - 1)%nat) in *. clearbody k.
  intros [X1 X2 [C0 C1 C2 C3 I0 I1 I2 I3] [XP A2 HM] L0 L1 L2 L3]. out_bounds k.
  begin. do 14 step. finish. split; [reflexivity|].
  constructor; rewrite ?En; [constructor|constructor]; fields.
Qed.

Lemma startfa : forall s, cols_at s (before 0) -> xs s 48 = Ptr pb po -> xs s 50 = Int Rz -> changed m0 pb P0 (mem s) ->
  reach 23 packf_neon_a55 0 s (fun pc s' => if Nat.eqb piecesf 0 then pc = 70%nat /\ wholef s' else pc = (if Nat.eqb 1 piecesf then 56 else 23)%nat /\ loopf 0 s').
Proof.
  intros s [C0 C1 C2 C3 I0 I1 I2 I3] XP A2 HM. pose proof nf_bound as [Hn Hn']. incs. begin. step.
  eapply s_and_high with (k := 2); [reflexivity|reflexivity|lia|reads|exact HRz|lia|]. look. change (2 ^ 2) with 4. rewrite <- Hn. step.
  eapply reach_b with (b := (0 =? 4 * Z.of_nat piecesf)); [reflexivity|reflexivity|reflexivity|].
  destruct (Z.eqb_spec 0 (4 * Z.of_nat piecesf)) as [E|E].
  - finish. replace (Nat.eqb piecesf 0) with true by (symmetry; apply Nat.eqb_eq; lia). split; [reflexivity|].
    assert (E0 : piecesf = 0%nat) by lia. constructor; rewrite ?E0; [constructor|constructor]; fields.
  - bounds 0%nat. do 18 step.
    eapply reach_b with (b := (0 + 4 =? 4 * Z.of_nat piecesf)); [reflexivity|reflexivity|reflexivity|].
    finish. replace (Nat.eqb piecesf 0) with false by (symmetry; apply Nat.eqb_neq; lia). split.
    + destruct (Nat.eqb_spec 1 piecesf) as [E1|E1].
      * replace (0 + 4 =? 4 * Z.of_nat piecesf) with true by (symmetry; apply Z.eqb_eq; lia). reflexivity.
      * replace (0 + 4 =? 4 * Z.of_nat piecesf) with false by (symmetry; apply Z.eqb_neq; lia). reflexivity.
    + constructor; [| |constructor|constructor|..]; fields.
Qed.

Lemma tail_codefa : tail_code 4 packf_neon_a55 77 4.
Proof. intros r Hr. do 4 (destruct r as [|r]; [repeat split|]). lia. Qed.

Lemma restfa_reach : forall s, wholef s -> reach 70 packf_neon_a55 70 s (fun pc s' => nth_error packf_neon_a55 pc = None /\ changed m0 pb outf_end (mem s')).
Proof.
  intros s [[C0 C1 C2 C3 I0 I1 I2 I3] [XP A2 HM]].
  pose proof Tf_bound as [HT HT']. begin. step.
  eapply s_ands_low with (k := 2); [reflexivity|reflexivity|lia|reads|exact HRz|]. look. change (2 ^ 2) with 4. rewrite <- HT.
  eapply reach_b with (b := (Z.of_nat restf =? 0)); [reflexivity|reflexivity|reflexivity|].
  destruct (Z.eqb_spec (Z.of_nat restf) 0) as [E|E].
  - step. finish. split; [reflexivity|]. assert (E0 : restf = 0%nat) by lia.
    unfold outf_end, store_first. rewrite ?E0. cbn [Nat.ltb Nat.leb]. memfact.
  - do 4 step.
    match goal with |- reach _ ?c ?p ?s ?q => apply (reach_weaken ((6 * restf + 2) + 22) _ c p s q); [|lia|intros pc2 s2 Hq; exact Hq] end.
    eapply reach_trans.
    + eapply (tail_all m0 pb sbk sb so inc Hsb Hne 4 packf_neon_a55 77 4 (outf piecesf) (before piecesf) (repeat 0 16)) with (R := restf); try reads.
      * lia.
      * apply tail_codefa.
      * lia.
      * intros c Hc. pose proof (Htail c Hc). lia.
      * look. exact HM.
      * constructor; reads.
    + intros pc' s' [-> [R0 R1 R2 R3 U0 U1 U2 U3 HX HV HMem]].
      replace (77 + 6 * 4)%nat with 101%nat by reflexivity.
      assert (B2 : xs s' 2 = Int (Z.of_nat restf)) by (rewrite HX by lia; reads).
      assert (B48 : xs s' 48 = Ptr pb (po + 128 * Z.of_nat piecesf + 0)) by (rewrite Z.add_0_r, HX by lia; reads).
      cbn [mem] in HMem. rewrite <- HMem in HM.
      assert (F : forall c, full (row_piece sb 4 (before piecesf) (repeat 0 16) c restf)) by (intros c; apply partly_full; [reflexivity|lia]).
      assert (Hp0 := proj1 Hpo). assert (Ht0 := proj2 (proj2 Hpo) 0%nat). assert (Ht1 := proj2 (proj2 Hpo) 1%nat). assert (Ht2 := proj2 (proj2 Hpo) 2%nat).
      apply (reach_weaken 22 _ packf_neon_a55 101 s' (fun pc s' => nth_error packf_neon_a55 pc = None /\ changed m0 pb outf_end (mem s'))); [|lia|intros pc2 s2 Hq; subst Q; exact Hq].
      clear - Hsb Hne Hp0 Ht0 Ht1 Ht2 R0 R1 R2 R3 U0 U1 U2 U3 B2 B48 HM F E HT'.
      assert (G : (restf = 1 \/ restf = 2 \/ restf = 3)%nat) by lia.
      begin. do 11 step. more 0. next. destruct G as [G|[G|G]].
      * more 1. no_more.
      * more 1. next. more 2. no_more.
      * more 1. next. more 2. next. more 3. no_more.
Qed.

Lemma packf_neon_a55_reach : forall s, cols_at s (before 0) -> xs s 48 = Ptr pb po -> xs s 50 = Int Rz -> changed m0 pb P0 (mem s) ->
  reach (23 + 90 + 33 * piecesf) packf_neon_a55 0 s (fun pc s' => nth_error packf_neon_a55 pc = None /\ changed m0 pb outf_end (mem s')).
Proof.
  intros s Hc Hp Ha Hm.
  replace (23 + 90 + 33 * piecesf)%nat with (23 + (33 * piecesf + 90))%nat by lia. eapply reach_trans; [apply (startfa s); assumption|].
  intros pc1 s1. destruct (Nat.eqb_spec piecesf 0) as [E|E].
  - intros [-> H1]. eapply reach_weaken; [apply restfa_reach, H1|lia|intros pc2 s2 H2; exact H2].
  - intros [-> H1]. apply (reach_weaken (33 * (piecesf - 1) + (14 + 70)) _ packf_neon_a55 _ s1 (fun pc s' => nth_error packf_neon_a55 pc = None /\ changed m0 pb outf_end (mem s'))); [|lia|intros pc2 s2 H2; exact H2].
    eapply reach_trans; [apply (loop_rule loopf 33 packf_neon_a55 23 56 piecesf bodyfa (piecesf - 1) 0 s1); [lia|exact H1]|].
    intros pc2 s2 [-> H2]. eapply (reach_trans 14 70); [apply piecefa; [lia|exact H2]|]. intros pc3 s3 [-> H3]. apply restfa_reach, H3.
Qed.

End PackF.
