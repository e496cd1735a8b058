(** The products of Kernel8bitNeonA55ish (kernel_arm64.cc:1872-2117): v16 to v19 after the first block of rows and columns. *)
From Coq Require Import ZArith List Bool Lia.
From Verif Require Import Base SidePair Mat Simd SimdFacts SpecSimd Kernel8bitFacts RequantProps Neon64 NeonRun NeonTac NeonCols NeonPack NeonKTac NeonKernelF NeonKernelT NeonKernel8Code Neon8Lanes Neon8Tac Neon8Pairs Neon8Pairs4.
Import ListNotations.
Open Scope Z_scope.

Definition products_a55 : list instr := firstn 181 kernel8_a55.
Ltac joins8 := repeat match goal with |- context [splice (extend (get_bytes ?b ?o 8)) (8 * 1) (bytes_of 8 (of_bytes (get_bytes ?b ?o' (Z.to_nat 8))))] =>
  rewrite (join8 b o o') by first [apply enc_byte | lia] end.

Section Loads.
Variables (n : nat) (code : list instr) (pc : nat) (s : state) (Q : nat -> state -> Prop).
Lemma m_ldr_back : forall k d base o j oo sb z, nth_error code pc = Some (Ldr k d base o) -> xs s base = Ptr j oo -> operand_val X s o = Ok (Int (wrap_u 64 z)) -> - 2 ^ 63 <= z < 2 ^ 63 ->
  mem s j = Bytes sb -> 0 <= k -> 0 <= oo + z -> oo + z + k <= blen sb ->
  reach n code (S pc) {| xs := upd (xs s) d (Int (of_bytes (get_bytes sb (oo + z) (Z.to_nat k)))); vs := vs s; fl := fl s; mem := mem s |} Q -> reach (S n) code pc s Q.
Proof.
  intros k d base o j oo sb z Hi Hb Hp Hz Hj Hk H1 H2 H. eapply r_ldr with (1 := Hi) (2 := Hp).
  - rewrite Hb. cbn [sum_val]. rewrite wrap_s_wrap, wrap_s_small by lia. reflexivity.
  - unfold load_val. rewrite Hj, (loaded s Q j sb (oo + z) (Z.to_nat k) Hj H1) by lia. reflexivity.
  - exact H.
Qed.
End Loads.
Ltac qstep :=
  match goal with |- reach _ ?code ?pc ?s _ =>
    let i := eval vm_compute in (nth_error code pc) in
    match i with
    | Some (Ldr 8 _ _ (Imm _)) => eapply m_ldr_back; [reflexivity|reads|imm_neg|lia|mem_fact|lia|lia|lia|]
    | _ => pstep
    end; cbn [xs vs fl mem]
  end.

Section Products.
Variables (Lb Rb : buf Z) (lp rp K : Z).
Notation code := products_a55.
Notation pairs_cell := (pairs_cell Lb Rb lp rp).
Notation four_rows := (four_rows Lb Rb lp rp).
Notation summed := (summed Lb Rb lp rp).
Notation pairs := (pairs Lb Rb lp rp).
Notation sums := (sums Lb Rb lp rp).
(** [p] groups of sixteen levels have been loaded; of the last, no product has been added and those of columns 0 and 1 are in v8 to v15. *)
Record deep5 (p : nat) (s0 s : state) : Prop := {
  h_1 : xs s 1 = Int (16 * Z.of_nat p); h_12 : xs s 12 = Int K; h_48 : xs s 48 = Ptr 0 0; h_42 : xs s 42 = Ptr 1 (lp + 64 * Z.of_nat p); h_43 : xs s 43 = Ptr 2 (rp + 64 * Z.of_nat p);
  h_v0 : vs s 0 = cell Lb lp 0 (p - 1);
  h_v1 : vs s 1 = cell Lb lp 1 (p - 1);
  h_v2 : vs s 2 = cell Lb lp 2 (p - 1);
  h_v3 : vs s 3 = cell Lb lp 3 (p - 1);
  h_v6 : vs s 6 = cell Rb rp 2 (p - 1);
  h_v7 : vs s 7 = cell Rb rp 3 (p - 1);
  h_v8 : vs s 8 = pairs 0 0 (p - 1);
  h_v9 : vs s 9 = pairs 1 0 (p - 1);
  h_v10 : vs s 10 = pairs 2 0 (p - 1);
  h_v11 : vs s 11 = pairs 3 0 (p - 1);
  h_v12 : vs s 12 = pairs 0 1 (p - 1);
  h_v13 : vs s 13 = pairs 1 1 (p - 1);
  h_v14 : vs s 14 = pairs 2 1 (p - 1);
  h_v15 : vs s 15 = pairs 3 1 (p - 1);
  h_v16 : vs s 16 = sums 0 0 (p - 1);
  h_v17 : vs s 17 = sums 1 0 (p - 1);
  h_v18 : vs s 18 = sums 2 0 (p - 1);
  h_v19 : vs s 19 = sums 3 0 (p - 1);
  h_v20 : vs s 20 = sums 0 1 (p - 1);
  h_v21 : vs s 21 = sums 1 1 (p - 1);
  h_v22 : vs s 22 = sums 2 1 (p - 1);
  h_v23 : vs s 23 = sums 3 1 (p - 1);
  h_v24 : vs s 24 = sums 0 2 (p - 1);
  h_v25 : vs s 25 = sums 1 2 (p - 1);
  h_v26 : vs s 26 = sums 2 2 (p - 1);
  h_v27 : vs s 27 = sums 3 2 (p - 1);
  h_v28 : vs s 28 = sums 0 3 (p - 1);
  h_v29 : vs s 29 = sums 1 3 (p - 1);
  h_v30 : vs s 30 = sums 2 3 (p - 1);
  h_v31 : vs s 31 = sums 3 3 (p - 1);
  h_mem : mem s = mem s0 }.

Lemma body_5 : forall p s0 s, mem s0 1%nat = Bytes (enc 1 Lb) -> mem s0 2%nat = Bytes (enc 1 Rb) -> (1 <= p)%nat -> 16 * Z.of_nat p + 16 <= K -> K < 2 ^ 31 - 16 -> deep5 p s0 s ->
  0 <= lp /\ lp + 4 * K <= blen Lb -> 0 <= rp /\ rp + 4 * K <= blen Rb ->
  reach 78 code 52 s (fun pc s' => pc = (if (16 * Z.of_nat (S p) <? K)%Z then 52 else 130)%nat /\ deep5 (S p) s0 s').
Proof.
  intros p s0 s M1 M2 Hp HpK HK [Q1 Q12 Q48 Q42 Q43 V0 V1 V2 V3 V6 V7 V8 V9 V10 V11 V12 V13 V14 V15 V16 V17 V18 V19 V20 V21 V22 V23 V24 V25 V26 V27 V28 V29 V30 V31 QM] HL HR.
  rewrite <- QM in M1, M2.
  assert (BL : blen (enc 1 Lb) = blen Lb) by apply Z.mul_1_l. assert (BR : blen (enc 1 Rb) = blen Rb) by apply Z.mul_1_l.
  begin. do 77 (qstep; joins8). eapply reach_b with (b := (16 * Z.of_nat p + 16 <? K)); [reflexivity|reflexivity|reflexivity|].
  finish. replace (16 * Z.of_nat (S p)) with (16 * Z.of_nat p + 16) by lia. split; [reflexivity|].
  assert (E : (S p - 1 = p)%nat) by lia. assert (E2 : p = S (p - 1)) by lia.
  constructor; look; rewrite ?E.
  - f_equal. lia.
  - exact Q12.
  - exact Q48.
  - f_equal. lia.
  - f_equal. lia.
  - apply cell_at. lia.
  - apply cell_at. lia.
  - apply cell_at. lia.
  - apply cell_at. lia.
  - apply cell_at. lia.
  - apply cell_at. lia.
  - apply (pairs_at Lb Rb lp rp 0 0); lia.
  - apply (pairs_at Lb Rb lp rp 1 0); lia.
  - apply (pairs_at Lb Rb lp rp 2 0); lia.
  - apply (pairs_at Lb Rb lp rp 3 0); lia.
  - apply (pairs_at Lb Rb lp rp 0 1); lia.
  - apply (pairs_at Lb Rb lp rp 1 1); lia.
  - apply (pairs_at Lb Rb lp rp 2 1); lia.
  - apply (pairs_at Lb Rb lp rp 3 1); lia.
  - rewrite add_pairs, <- E2. reflexivity.
  - rewrite add_pairs, <- E2. reflexivity.
  - rewrite add_pairs, <- E2. reflexivity.
  - rewrite add_pairs, <- E2. reflexivity.
  - rewrite add_pairs, <- E2. reflexivity.
  - rewrite add_pairs, <- E2. reflexivity.
  - rewrite add_pairs, <- E2. reflexivity.
  - rewrite add_pairs, <- E2. reflexivity.
  - rewrite pairs_cell, add_pairs, <- E2. reflexivity.
  - rewrite pairs_cell, add_pairs, <- E2. reflexivity.
  - rewrite pairs_cell, add_pairs, <- E2. reflexivity.
  - rewrite pairs_cell, add_pairs, <- E2. reflexivity.
  - rewrite pairs_cell, add_pairs, <- E2. reflexivity.
  - rewrite pairs_cell, add_pairs, <- E2. reflexivity.
  - rewrite pairs_cell, add_pairs, <- E2. reflexivity.
  - rewrite pairs_cell, add_pairs, <- E2. reflexivity.
  - exact QM.
Qed.

Lemma loop_5 : forall n p s0 s, mem s0 1%nat = Bytes (enc 1 Lb) -> mem s0 2%nat = Bytes (enc 1 Rb) -> (1 <= p)%nat -> 16 * Z.of_nat (p + S n) = K -> K < 2 ^ 31 - 16 -> deep5 p s0 s ->
  0 <= lp /\ lp + 4 * K <= blen Lb -> 0 <= rp /\ rp + 4 * K <= blen Rb ->
  reach (78 * S n) code 52 s (fun pc s' => pc = 130%nat /\ deep5 (p + S n) s0 s').
Proof.
  induction n as [|n IH]; intros p s0 s M1 M2 Hp HpK HK HD HL HR.
  - eapply reach_weaken; [apply (body_5 p s0 s); try assumption; lia|lia|].
    intros pc s' [-> HD']. replace (16 * Z.of_nat (S p) <? K) with false by (symmetry; apply Z.ltb_ge; lia). split; [reflexivity|]. replace (p + 1)%nat with (S p) by lia. exact HD'.
  - replace (78 * S (S n))%nat with (78 + 78 * S n)%nat by lia. eapply reach_trans; [apply (body_5 p s0 s); try assumption; lia|].
    intros pc s' [-> HD']. replace (16 * Z.of_nat (S p) <? K) with true by (symmetry; apply Z.ltb_lt; lia).
    replace (p + S (S n))%nat with (S p + S n)%nat by lia. apply (IH (S p) s0 s'); try assumption; lia.
Qed.

Definition has_fields (s : state) : Prop := exists f, mem s 0%nat = Struct f /\ (exists a, find_field f 24 8 = Ok a) /\ forall o, In o [80; 88; 92; 104; 108; 112] -> exists a, find_field f o 4 = Ok a.
Lemma end_5 : forall n s0 s, has_fields s0 -> deep5 (S n) s0 s -> reach 51 code 130 s (fun pc s' => pc = 181%nat /\ summed (S n) s0 s').
Proof.
  intros n s0 s (f & M0 & [a24 F24] & F) [Q1 Q12 Q48 Q42 Q43 V0 V1 V2 V3 V6 V7 V8 V9 V10 V11 V12 V13 V14 V15 V16 V17 V18 V19 V20 V21 V22 V23 V24 V25 V26 V27 V28 V29 V30 V31 QM]. replace (S n - 1)%nat with n in * by lia.
  destruct (F 80) as [a80 F80]; [cbn; tauto|]. destruct (F 88) as [a88 F88]; [cbn; tauto|]. destruct (F 92) as [a92 F92]; [cbn; tauto|].
  destruct (F 104) as [a104 F104]; [cbn; tauto|]. destruct (F 108) as [a108 F108]; [cbn; tauto|]. destruct (F 112) as [a112 F112]; [cbn; tauto|]. clear F.
  rewrite <- QM in M0. begin. do 26 pstep. do 6 ((eapply m_field; [reflexivity|reads|imm|lia|mem_fact|eassumption|]; cbn [xs vs fl mem]); pstep). do 13 pstep. finish. split; [reflexivity|]. repeat split; look.
  - rewrite !add_pairs. apply four_rows.
  - rewrite !add_pairs. apply four_rows.
  - rewrite !pairs_cell, !add_pairs. apply four_rows.
  - rewrite !pairs_cell, !add_pairs. apply four_rows.
  - exact QM.
Qed.

Lemma tail_5 : forall n s0 s, has_fields s0 -> mem s0 1%nat = Bytes (enc 1 Lb) -> mem s0 2%nat = Bytes (enc 1 Rb) -> 16 * Z.of_nat (S n) = K -> K < 2 ^ 31 - 16 -> deep5 1 s0 s ->
  0 <= lp /\ lp + 4 * K <= blen Lb -> 0 <= rp /\ rp + 4 * K <= blen Rb ->
  reach (78 * n + 54) code 49 s (fun pc s' => pc = 181%nat /\ summed (S n) s0 s').
Proof.
  intros n s0 s HF M1 M2 Hn HK HD HL HR.
  assert (Hstart : reach 3 code 49 s (fun pc s' => pc = (if (16 =? K)%Z then 130 else 52)%nat /\ deep5 1 s0 s')).
  { pose proof HD as [Q1 Q12 Q48 Q42 Q43 V0 V1 V2 V3 V6 V7 V8 V9 V10 V11 V12 V13 V14 V15 V16 V17 V18 V19 V20 V21 V22 V23 V24 V25 V26 V27 V28 V29 V30 V31 QM]. change (16 * Z.of_nat 1) with 16 in Q1.
    begin. do 2 pstep. eapply reach_b with (b := (16 =? K)); [reflexivity|reflexivity|reflexivity|]. finish. split; [reflexivity|]. constructor; look; assumption. }
  replace (78 * n + 54)%nat with (3 + (78 * n + 51))%nat by lia. eapply reach_trans; [exact Hstart|]. intros pc s1 [-> H1]. destruct n as [|n].
  - replace (16 =? K) with true by (symmetry; apply Z.eqb_eq; lia). apply end_5; assumption.
  - replace (16 =? K) with false by (symmetry; apply Z.eqb_neq; lia).
    eapply reach_trans; [apply (loop_5 n 1 s0 s1); try assumption; lia|]. intros pc s2 [-> H2]. apply end_5; assumption.
Qed.

Lemma head_5 : forall s f, mem s 0%nat = Struct f -> mem s 1%nat = Bytes (enc 1 Lb) -> mem s 2%nat = Bytes (enc 1 Rb) ->
  xs s 48 = Ptr 0 0 -> xs s 42 = Ptr 1 lp -> xs s 43 = Ptr 2 rp ->
  (exists a, find_field f 24 8 = Ok a) -> (forall o, In o [80; 88; 92; 104; 108; 112] -> exists a, find_field f o 4 = Ok a) -> find_field f 116 4 = Ok (Int K) ->
  16 <= K < 2 ^ 31 - 16 -> 0 <= lp /\ lp + 4 * K <= blen Lb -> 0 <= rp /\ rp + 4 * K <= blen Rb ->
  reach 49 code 0 s (fun pc s' => pc = 49%nat /\ deep5 1 s s').
Proof.
  intros s f M0 M1 M2 X48 X42 X43 [a24 F24] F F116 HK HL HR.
  destruct (F 80) as [a80 F80]; [cbn; tauto|]. destruct (F 88) as [a88 F88]; [cbn; tauto|]. destruct (F 92) as [a92 F92]; [cbn; tauto|].
  destruct (F 104) as [a104 F104]; [cbn; tauto|]. destruct (F 108) as [a108 F108]; [cbn; tauto|]. destruct (F 112) as [a112 F112]; [cbn; tauto|]. clear F.
  assert (BL : blen (enc 1 Lb) = blen Lb) by apply Z.mul_1_l. assert (BR : blen (enc 1 Rb) = blen Rb) by apply Z.mul_1_l.
  begin. do 8 ((eapply m_field; [reflexivity|reads|imm|lia|mem_fact|eassumption|]; cbn [xs vs fl mem]); pstep).
  do 33 pstep. finish. split; [reflexivity|]. change (1 - 1)%nat with 0%nat. constructor; look.
  - reflexivity.
  - reflexivity.
  - exact X48.
  - f_equal. lia.
  - f_equal. lia.
  - apply cell_at. lia.
  - apply cell_at. lia.
  - apply cell_at. lia.
  - apply cell_at. lia.
  - apply cell_at. lia.
  - apply cell_at. lia.
  - apply (pairs_at Lb Rb lp rp 0 0); lia.
  - apply (pairs_at Lb Rb lp rp 1 0); lia.
  - apply (pairs_at Lb Rb lp rp 2 0); lia.
  - apply (pairs_at Lb Rb lp rp 3 0); lia.
  - apply (pairs_at Lb Rb lp rp 0 1); lia.
  - apply (pairs_at Lb Rb lp rp 1 1); lia.
  - apply (pairs_at Lb Rb lp rp 2 1); lia.
  - apply (pairs_at Lb Rb lp rp 3 1); lia.
  - reflexivity.
  - reflexivity.
  - reflexivity.
  - reflexivity.
  - reflexivity.
  - reflexivity.
  - reflexivity.
  - reflexivity.
  - reflexivity.
  - reflexivity.
  - reflexivity.
  - reflexivity.
  - reflexivity.
  - reflexivity.
  - reflexivity.
  - reflexivity.
  - reflexivity.
Qed.
End Products.
