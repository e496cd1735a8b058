(** The products of Kernel8bitNeon1Col (kernel_arm64.cc:1204-1318): v16 after the first block of rows. *)
From Coq Require Import ZArith List Bool Lia.
From Verif Require Import Base SidePair Mat Simd SimdFacts SpecSimd Kernel8bitFacts RequantProps Neon64 NeonRun NeonTac NeonCols NeonPack NeonKTac NeonKernelF NeonKernelT NeonKernel8Code Neon8Lanes Neon8Tac.
Import ListNotations.
Open Scope Z_scope.

(** ** The instructions, lane by lane *)
Section Rules.
Variables (n : nat) (code : list instr) (pc : nat) (s : state) (Q : nat -> state -> Prop).
Lemma v_smull : forall d a b va vb, nth_error code pc = Some (Smull d a b) -> vs s a = va -> vs s b = vb ->
  reach n code (S pc) {| xs := xs s; vs := upd (vs s) d (smull va vb); fl := fl s; mem := mem s |} Q -> reach (S n) code pc s Q.
Proof. intros d a b va vb H <- <-. apply reach_next with (1 := H); [discriminate|]. reflexivity. Qed.
Lemma v_smlal2 : forall d a b vd va vb, nth_error code pc = Some (Smlal2 d a b) -> vs s d = vd -> vs s a = va -> vs s b = vb ->
  reach n code (S pc) {| xs := xs s; vs := upd (vs s) d (smlal2 vd va vb); fl := fl s; mem := mem s |} Q -> reach (S n) code pc s Q.
Proof. intros d a b vd va vb H <- <- <-. apply reach_next with (1 := H); [discriminate|]. reflexivity. Qed.
End Rules.

Ltac pstep :=
  match goal with |- reach _ ?code ?pc ?s _ =>
    let i := eval vm_compute in (nth_error code pc) in
    match i with
    | Some (Smull _ _ _) => eapply v_smull; [reflexivity|reads|reads|]
    | Some (Smlal2 _ _ _) => eapply v_smlal2; [reflexivity|reads|reads|reads|]
    | Some (Sadalp _ _ _) => eapply v_sadalp; [reflexivity|reads|reads|]
    | _ => kstep8
    end; cbn [xs vs fl mem]
  end.

Definition s8_of (f : nat -> Z) (e : nat) : Z := wrap_s 8 (f e).
(** Two products, of the bytes [e] and [8 + e]. *)
Definition two (a b : nat -> Z) (e : nat) : Z := wrap_s 16 (wrap_s 16 (s8_of a e * s8_of b e) + s8_of a (8 + e) * s8_of b (8 + e)).
Lemma pair_lanes : forall a b, smlal2 (smull (lv 1 16 a) (lv 1 16 b)) (lv 1 16 a) (lv 1 16 b) = lv 2 8 (two a b).
Proof.
  intros a b. unfold smull, smlal2.
  assert (E : forall f, skipn 8 (lv 1 16 f) = lv 1 8 (fun e => f (8 + e)%nat)) by reflexivity.
  rewrite !first8, !E, !slanes_lv by lia. change (8 * Z.of_nat 1) with 8.
  assert (M : forall h f g, map2 h (vrow 8 f) (vrow 8 g) = vrow 8 (fun i => h (f i) (g i))) by reflexivity.
  rewrite !M. fold (lv 2 8 (fun i => wrap_s 8 (a i) * wrap_s 8 (b i))). rewrite slanes_lv by lia. rewrite M. change (8 * Z.of_nat 2) with 16.
  fold (lv 2 8 (fun i => wrap_s 16 (wrap_s 8 (a i) * wrap_s 8 (b i)) + wrap_s 8 (a (8 + i)%nat) * wrap_s 8 (b (8 + i)%nat))).
  apply lv_ext. intros i Hi. change (8 * Z.of_nat 2) with 16. unfold two, s8_of. symmetry. apply wrap_u_s; lia.
Qed.
Lemma sadalp_lanes : forall f g, (forall e, (e < 8)%nat -> wrap_s 16 (g e) = g e) -> sadalp 2 (w4 f) (lv 2 8 g) = w4 (fun i => f i + (g (2 * i)%nat + g (2 * i + 1)%nat)).
Proof.
  intros f g H. unfold sadalp. change (2 * 2)%nat with 4%nat. rewrite !slanes_lv by lia.
  change (of_lanes 4 (map2 Z.add (vrow 4 (fun i => wrap_s 32 (f i))) (vrow 4 (fun i => wrap_s 16 (g (2 * i)%nat) + wrap_s 16 (g (2 * i + 1)%nat)))) = w4 (fun i => f i + (g (2 * i)%nat + g (2 * i + 1)%nat))).
  change (w4 (fun i => wrap_s 32 (f i) + (wrap_s 16 (g (2 * i)%nat) + wrap_s 16 (g (2 * i + 1)%nat))) = w4 (fun i => f i + (g (2 * i)%nat + g (2 * i + 1)%nat))).
  apply w4_ext. intros i Hi. rewrite wrap_s_left by lia. rewrite !H by lia. reflexivity.
Qed.
Lemma addp_lanes : forall f g, vop_val (Addp 4) (w4 f) (w4 g) = w4 (fun i => if Nat.ltb i 2 then f (2 * i)%nat + f (2 * i + 1)%nat else g (2 * (i - 2))%nat + g (2 * (i - 2) + 1)%nat).
Proof.
  intros f g. cbn [vop_val]. rewrite !slanes_lv by lia. change (8 * Z.of_nat 4) with 32.
  transitivity (w4 (fun i => if Nat.ltb i 2 then wrap_s 32 (f (2 * i)%nat) + wrap_s 32 (f (2 * i + 1)%nat) else wrap_s 32 (g (2 * (i - 2))%nat) + wrap_s 32 (g (2 * (i - 2) + 1)%nat))); [reflexivity|].
  apply w4_ext. intros i Hi. destruct (Nat.ltb i 2); apply wrap_s_sum; lia.
Qed.

(** ** The loop *)
Definition products_1col : list instr := firstn 60 kernel8_1col.

Section Products.
Variables (Lb Rb : buf Z) (lp rp K : Z).
Definition row_byte (i t e : nat) : Z := bdat Lb (lp + 64 * Z.of_nat t + 16 * Z.of_nat i + Z.of_nat e).
Definition col_byte (c t e : nat) : Z := bdat Rb (rp + 64 * Z.of_nat t + 16 * Z.of_nat c + Z.of_nat e).
Definition pairs (i c t : nat) : list Z := lv 2 8 (two (row_byte i t) (col_byte c t)).
Fixpoint lane_sum (i c p l : nat) : Z := match p with O => 0 | S p => lane_sum i c p l + (two (row_byte i p) (col_byte c p) (2 * l) + two (row_byte i p) (col_byte c p) (2 * l + 1)) end.
Definition sums (i c p : nat) : list Z := w4 (lane_sum i c p).

Lemma two_in16 : forall a b e, wrap_s 16 (two a b e) = two a b e.
Proof. intros a b e. unfold two. apply wrap_s_cong, wrap_u_s; lia. Qed.
Lemma add_pairs : forall i c p, sadalp 2 (sums i c p) (pairs i c p) = sums i c (S p).
Proof. intros i c p. unfold sums, pairs. rewrite sadalp_lanes by (intros; apply two_in16). reflexivity. Qed.
Lemma pairs_at : forall i c t lo ro, lo = lp + 64 * Z.of_nat t + 16 * Z.of_nat i -> ro = rp + 64 * Z.of_nat t + 16 * Z.of_nat c ->
  smlal2 (smull (get_bytes (enc 1 Lb) lo 16) (get_bytes (enc 1 Rb) ro 16)) (get_bytes (enc 1 Lb) lo 16) (get_bytes (enc 1 Rb) ro 16) = pairs i c t.
Proof. intros i c t lo ro -> ->. rewrite !get_enc1. apply pair_lanes. Qed.

Notation code := products_1col.
Record deepp (p : nat) (s0 s : state) : Prop := {
  d_1 : xs s 1 = Int (16 * Z.of_nat p); d_12 : xs s 12 = Int K; d_42 : xs s 42 = Ptr 1 (lp + 64 * Z.of_nat p); d_43 : xs s 43 = Ptr 2 (rp + 64 * Z.of_nat p);
  d_8 : vs s 8 = pairs 0 0 (p - 1); d_9 : vs s 9 = pairs 1 0 (p - 1); d_10 : vs s 10 = pairs 2 0 (p - 1); d_11 : vs s 11 = pairs 3 0 (p - 1);
  d_16 : vs s 16 = sums 0 0 (p - 1); d_17 : vs s 17 = sums 1 0 (p - 1); d_18 : vs s 18 = sums 2 0 (p - 1); d_19 : vs s 19 = sums 3 0 (p - 1); d_mem : mem s = mem s0 }.

Lemma body_p : forall p s0 s, mem s0 1%nat = Bytes (enc 1 Lb) -> mem s0 2%nat = Bytes (enc 1 Rb) -> (1 <= p)%nat -> 16 * Z.of_nat p + 16 <= K -> K < 2 ^ 31 - 16 -> deepp p s0 s ->
  0 <= lp /\ lp + 4 * K <= blen Lb -> 0 <= rp /\ rp + 4 * K <= blen Rb ->
  reach 22 code 30 s (fun pc s' => pc = (if (16 * Z.of_nat (S p) <? K)%Z then 30 else 52)%nat /\ deepp (S p) s0 s').
Proof.
  intros p s0 s M1 M2 Hp HpK HK [Q1 Q12 Q42 Q43 Q8 Q9 Q10 Q11 Q16 Q17 Q18 Q19 QM] HL HR.
  rewrite <- QM in M1, M2.
  assert (BL : blen (enc 1 Lb) = blen Lb) by apply Z.mul_1_l. assert (BR : blen (enc 1 Rb) = blen Rb) by apply Z.mul_1_l.
  begin. do 21 pstep. eapply reach_b with (b := (16 * Z.of_nat p + 16 <? K)); [reflexivity|reflexivity|reflexivity|].
  finish. replace (16 * Z.of_nat (S p)) with (16 * Z.of_nat p + 16) by lia. split; [reflexivity|].
  assert (E : (S p - 1 = p)%nat) by lia. assert (E2 : p = S (p - 1)) by lia.
  constructor; look; rewrite ?E.
  - f_equal. lia.
  - exact Q12.
  - f_equal. lia.
  - f_equal. lia.
  - apply (pairs_at 0 0); lia.
  - apply (pairs_at 1 0); lia.
  - apply (pairs_at 2 0); lia.
  - apply (pairs_at 3 0); lia.
  - rewrite add_pairs, <- E2. reflexivity.
  - rewrite add_pairs, <- E2. reflexivity.
  - rewrite add_pairs, <- E2. reflexivity.
  - rewrite add_pairs, <- E2. reflexivity.
  - exact QM.
Qed.

Lemma loop_p : forall n p s0 s, mem s0 1%nat = Bytes (enc 1 Lb) -> mem s0 2%nat = Bytes (enc 1 Rb) -> (1 <= p)%nat -> 16 * Z.of_nat (p + S n) = K -> K < 2 ^ 31 - 16 -> deepp p s0 s ->
  0 <= lp /\ lp + 4 * K <= blen Lb -> 0 <= rp /\ rp + 4 * K <= blen Rb ->
  reach (22 * S n) code 30 s (fun pc s' => pc = 52%nat /\ deepp (p + S n) s0 s').
Proof.
  induction n as [|n IH]; intros p s0 s M1 M2 Hp HpK HK HD HL HR.
  - eapply reach_weaken; [apply (body_p p s0 s); try assumption; lia|lia|].
    intros pc s' [-> HD']. replace (16 * Z.of_nat (S p) <? K) with false by (symmetry; apply Z.ltb_ge; lia). split; [reflexivity|]. replace (p + 1)%nat with (S p) by lia. exact HD'.
  - replace (22 * S (S n))%nat with (22 + 22 * S n)%nat by lia. eapply reach_trans; [apply (body_p p s0 s); try assumption; lia|].
    intros pc s' [-> HD']. replace (16 * Z.of_nat (S p) <? K) with true by (symmetry; apply Z.ltb_lt; lia).
    replace (p + S (S n))%nat with (S p + S n)%nat by lia. apply (IH (S p) s0 s'); try assumption; lia.
Qed.

(** The sum of the four lanes of row [i]. *)
Definition row_sum (c n i : nat) : Z := lane_sum i c n 0 + lane_sum i c n 1 + (lane_sum i c n 2 + lane_sum i c n 3).
Lemma end_p : forall n s0 s, deepp (S n) s0 s -> reach 8 code 52 s (fun pc s' => pc = 60%nat /\ vs s' 16 = w4 (row_sum 0 (S n)) /\ mem s' = mem s0).
Proof.
  intros n s0 s [Q1 Q12 Q42 Q43 Q8 Q9 Q10 Q11 Q16 Q17 Q18 Q19 QM]. replace (S n - 1)%nat with n in * by lia.
  begin. do 8 pstep. finish. split; [reflexivity|]. split; [|exact QM]. look. rewrite !add_pairs. unfold sums. rewrite !addp_lanes.
  apply w4_eq. intros i Hi. unfold row_sum. do 4 (destruct i as [|i]; [reflexivity|]). lia.
Qed.

Lemma tail_p : forall n s0 s, mem s0 1%nat = Bytes (enc 1 Lb) -> mem s0 2%nat = Bytes (enc 1 Rb) -> 16 * Z.of_nat (S n) = K -> K < 2 ^ 31 - 16 -> deepp 1 s0 s ->
  0 <= lp /\ lp + 4 * K <= blen Lb -> 0 <= rp /\ rp + 4 * K <= blen Rb ->
  reach (22 * n + 11) code 27 s (fun pc s' => pc = 60%nat /\ vs s' 16 = w4 (row_sum 0 (S n)) /\ mem s' = mem s0).
Proof.
  intros n s0 s M1 M2 Hn HK HD HL HR.
  assert (Hstart : reach 3 code 27 s (fun pc s' => pc = (if (16 =? K)%Z then 52 else 30)%nat /\ deepp 1 s0 s')).
  { pose proof HD as [Q1 Q12 Q42 Q43 Q8 Q9 Q10 Q11 Q16 Q17 Q18 Q19 QM]. change (16 * Z.of_nat 1) with 16 in Q1.
    begin. do 2 pstep. eapply reach_b with (b := (16 =? K)); [reflexivity|reflexivity|reflexivity|]. finish. split; [reflexivity|]. constructor; look; assumption. }
  replace (22 * n + 11)%nat with (3 + (22 * n + 8))%nat by lia. eapply reach_trans; [exact Hstart|]. intros pc s1 [-> H1]. destruct n as [|n].
  - replace (16 =? K) with true by (symmetry; apply Z.eqb_eq; lia). apply end_p, H1.
  - replace (16 =? K) with false by (symmetry; apply Z.eqb_neq; lia).
    eapply reach_trans; [apply (loop_p n 1 s0 s1); try assumption; lia|]. intros pc s2 [-> H2]. apply end_p, H2.
Qed.

Lemma head_p : forall s f, mem s 0%nat = Struct f -> mem s 1%nat = Bytes (enc 1 Lb) -> mem s 2%nat = Bytes (enc 1 Rb) ->
  xs s 48 = Ptr 0 0 -> xs s 42 = Ptr 1 lp -> xs s 43 = Ptr 2 rp ->
  (exists a, find_field f 24 8 = Ok a) -> (forall o, In o [80; 88; 92; 104; 108; 112] -> exists a, find_field f o 4 = Ok a) -> find_field f 116 4 = Ok (Int K) ->
  16 <= K < 2 ^ 31 - 16 -> 0 <= lp /\ lp + 4 * K <= blen Lb -> 0 <= rp /\ rp + 4 * K <= blen Rb ->
  reach 27 code 0 s (fun pc s' => pc = 27%nat /\ deepp 1 s s').
Proof.
  intros s f M0 M1 M2 X48 X42 X43 [a24 F24] F F116 HK HL HR.
  destruct (F 80) as [a80 F80]; [cbn; tauto|]. destruct (F 88) as [a88 F88]; [cbn; tauto|]. destruct (F 92) as [a92 F92]; [cbn; tauto|].
  destruct (F 104) as [a104 F104]; [cbn; tauto|]. destruct (F 108) as [a108 F108]; [cbn; tauto|]. destruct (F 112) as [a112 F112]; [cbn; tauto|]. clear F.
  assert (BL : blen (enc 1 Lb) = blen Lb) by apply Z.mul_1_l. assert (BR : blen (enc 1 Rb) = blen Rb) by apply Z.mul_1_l.
  begin. do 8 (eapply m_field; [reflexivity|reads|imm|lia|mem_fact|eassumption|]; cbn [xs vs fl mem]).
  do 19 pstep. finish. split; [reflexivity|]. change (1 - 1)%nat with 0%nat. constructor; look.
  - reflexivity.
  - reflexivity.
  - f_equal. lia.
  - f_equal. lia.
  - apply (pairs_at 0 0); lia.
  - apply (pairs_at 1 0); lia.
  - apply (pairs_at 2 0); lia.
  - apply (pairs_at 3 0); lia.
  - reflexivity.
  - reflexivity.
  - reflexivity.
  - reflexivity.
  - reflexivity.
Qed.
End Products.
