(** Pack8bitRowMajorForNeonDotprod (ruy/pack_arm.cc:1587-1737): what its code does. *)
From Coq Require Import ZArith List Bool Lia.
From Verif Require Import Base Mat Simd SimdFacts Neon64 NeonRun NeonTac NeonCols NeonPackCode NeonPackDot.
Import ListNotations.
Open Scope Z_scope.

(** ** Programs that store in two blocks *)
Definition two (m0 : memory) (pb ub : nat) (P U : buf Z) (m : memory) : Prop :=
  m pb = Bytes P /\ m ub = Bytes U /\ forall j, j <> pb -> j <> ub -> m j = m0 j.

Section Rules.
Variables (n : nat) (code : list instr) (pc : nat) (s : state) (Q : nat -> state -> Prop) (m0 : memory) (pb ub : nat) (P U : buf Z).
Hypothesis Hpu : pb <> ub.
Hypothesis Hm : two m0 pb ub P U (mem s).

Lemma w_load : forall j o sb k, m0 j = Bytes sb -> j <> pb -> j <> ub -> 0 <= o -> o + Z.of_nat k <= blen sb -> load_bytes (mem s) (Ptr j o) k = Ok (get_bytes sb o k).
Proof. intros j o sb k Hj H1 H2 H3 H4. destruct Hm as (_ & _ & H). unfold load_bytes. rewrite (H j H1 H2), Hj. replace (0 <=? o) with true by lia. replace (o + Z.of_nat k <=? blen sb) with true by lia. reflexivity. Qed.
Lemma w_store_p : forall o v, 0 <= o -> o + Z.of_nat (length v) <= blen P -> exists m, store_vec (mem s) (Ptr pb o) v = Ok m /\ two m0 pb ub (put P o v) U m.
Proof.
  intros o v H1 H2. destruct Hm as (E1 & E2 & E3). unfold store_vec. rewrite E1. replace (0 <=? o) with true by lia. replace (o + Z.of_nat (length v) <=? blen P) with true by lia.
  eexists. split; [reflexivity|]. unfold upd. repeat split.
  - rewrite Nat.eqb_refl. reflexivity.
  - replace (Nat.eqb ub pb) with false by (symmetry; apply Nat.eqb_neq; congruence). exact E2.
  - intros j Ha Hb. replace (Nat.eqb j pb) with false by (symmetry; apply Nat.eqb_neq; congruence). apply E3; assumption.
Qed.
Lemma w_store_u : forall o v, 0 <= o -> o + Z.of_nat (length v) <= blen U -> exists m, store_vec (mem s) (Ptr ub o) v = Ok m /\ two m0 pb ub P (put U o v) m.
Proof.
  intros o v H1 H2. destruct Hm as (E1 & E2 & E3). unfold store_vec. rewrite E2. replace (0 <=? o) with true by lia. replace (o + Z.of_nat (length v) <=? blen U) with true by lia.
  eexists. split; [reflexivity|]. unfold upd. repeat split.
  - replace (Nat.eqb pb ub) with false by (symmetry; apply Nat.eqb_neq; congruence). exact E1.
  - rewrite Nat.eqb_refl. reflexivity.
  - intros j Ha Hb. replace (Nat.eqb j ub) with false by (symmetry; apply Nat.eqb_neq; congruence). apply E3; assumption.
Qed.

Lemma w_ld1_8 : forall d base j o sb, nth_error code pc = Some (Ld1 8 d base (Imm 0)) -> xs s base = Ptr j o ->
  m0 j = Bytes sb -> j <> pb -> j <> ub -> 0 <= o -> o + 8 <= blen sb ->
  reach n code (S pc) {| xs := upd (xs s) base (Ptr j o); vs := upd (vs s) d (extend (get_bytes sb o 8)); fl := fl s; mem := mem s |} Q -> reach (S n) code pc s Q.
Proof.
  intros d base j o sb Hi Hb Hj Hn1 Hn2 H1 H2 H. eapply r_ld1 with (1 := Hi).
  - rewrite Hb. apply w_load; eassumption.
  - reflexivity.
  - rewrite Hb. change (Int (wrap_u (bits_of X) 0)) with (Int 0). rewrite addp by lia. reflexivity.
  - rewrite Z.add_0_r. exact H.
Qed.
Lemma w_ld1lane : forall d i base j o sb v, nth_error code pc = Some (Ld1Lane 1 d i base (Imm 1)) -> xs s base = Ptr j o -> vs s d = v ->
  m0 j = Bytes sb -> j <> pb -> j <> ub -> 0 <= o -> o + 1 <= blen sb ->
  reach n code (S pc) {| xs := upd (xs s) base (Ptr j (o + 1)); vs := upd (vs s) d (splice v i (get_bytes sb o 1)); fl := fl s; mem := mem s |} Q -> reach (S n) code pc s Q.
Proof.
  intros d i base j o sb v Hi Hb <- Hj Hn1 Hn2 H1 H2 H. eapply r_ld1lane with (1 := Hi).
  - rewrite Hb. apply w_load; eassumption.
  - reflexivity.
  - rewrite Hb. change (Int (wrap_u (bits_of X) 1)) with (Int 1). rewrite addp by lia. reflexivity.
  - rewrite Nat.mul_1_l. exact H.
Qed.
Lemma w_ldrq : forall d base o z, nth_error code pc = Some (LdrQ d base (Imm z)) -> 0 <= z < 2 ^ 31 -> xs s base = Ptr ub o -> 0 <= o -> o + z + 16 <= blen U ->
  reach n code (S pc) {| xs := xs s; vs := upd (vs s) d (get_bytes U (o + z) 16); fl := fl s; mem := mem s |} Q -> reach (S n) code pc s Q.
Proof.
  intros d base o z Hi Hz Hb H1 H2 H. eapply r_ldrq with (1 := Hi); [reflexivity| | |exact H].
  - cbn [bits_of]. rewrite wrap_u_small by lia. rewrite Hb. apply addp. lia.
  - destruct Hm as (_ & E & _). unfold load_bytes. rewrite E. replace (0 <=? o + z) with true by lia. change (Z.of_nat 16) with 16. replace (o + z + 16 <=? blen U) with true by lia. reflexivity.
Qed.
Lemma w_strq : forall a base o z v, nth_error code pc = Some (StrQ a base (Imm z)) -> 0 <= z < 2 ^ 31 -> xs s base = Ptr pb o -> vs s a = v -> full v -> 0 <= o -> o + z + 16 <= blen P ->
  (forall m, two m0 pb ub (put P (o + z) v) U m -> reach n code (S pc) {| xs := xs s; vs := vs s; fl := fl s; mem := m |} Q) -> reach (S n) code pc s Q.
Proof.
  intros a base o z v Hi Hz Hb <- Hf H1 H2 H. destruct (w_store_p (o + z) (vs s a)) as (m & Hs & Hc); [lia|rewrite Hf; change (Z.of_nat 16) with 16; lia|].
  eapply r_strq with (1 := Hi); [reflexivity| |exact Hs|apply H, Hc]. cbn [bits_of]. rewrite wrap_u_small by lia. rewrite Hb. apply addp. lia.
Qed.
Lemma w_st1 : forall a base o v, nth_error code pc = Some (St1 16 a base (Imm 16)) -> xs s base = Ptr ub o -> vs s a = v -> full v -> 0 <= o -> o + 16 <= blen U ->
  (forall m, two m0 pb ub P (put U o v) m -> reach n code (S pc) {| xs := upd (xs s) base (Ptr ub (o + 16)); vs := vs s; fl := fl s; mem := m |} Q) -> reach (S n) code pc s Q.
Proof.
  intros a base o v Hi Hb <- Hf H1 H2 H. destruct (w_store_u o (vs s a)) as (m & Hs & Hc); [lia|rewrite Hf; change (Z.of_nat 16) with 16; lia|].
  eapply r_st1 with (1 := Hi); [rewrite Hb, firstn_full by exact Hf; exact Hs|reflexivity| |apply H, Hc]. cbn [bits_of]. rewrite wrap_u_small by lia. rewrite Hb. apply addp. lia.
Qed.
End Rules.

Section Arith.
Variables (n : nat) (code : list instr) (pc : nat) (s : state) (Q : nat -> state -> Prop).
Lemma w_sxtw : forall d r b o z i, nth_error code pc = Some (Alu AAdd false X d d (Sxtw r)) -> xs s d = Ptr b o -> xs s r = Int z -> wrap_s 32 z = i -> 0 <= i ->
  reach n code (S pc) {| xs := upd (xs s) d (Ptr b (o + i)); vs := vs s; fl := fl s; mem := mem s |} Q -> reach (S n) code pc s Q.
Proof.
  intros d r b o z i Hi Hd Hr Hz H0 H. pose proof (wrap_s_range 32 z ltac:(lia)) as R. change (32 - 1) with 31 in R.
  eapply r_alu with (1 := Hi); [cbn [operand_val]; rewrite Hr; cbn [as_int bind bits_of]; rewrite Hz, wrap_u_small by lia; reflexivity|cbn [alu_val]; rewrite Hd; apply addp; lia|exact H].
Qed.
Lemma w_lsl3 : forall d r b o z, nth_error code pc = Some (Alu AAdd false X d d (Lsl r 3)) -> xs s d = Ptr b o -> xs s r = Int z -> 0 <= z < 2 ^ 31 ->
  reach n code (S pc) {| xs := upd (xs s) d (Ptr b (o + 8 * z)); vs := vs s; fl := fl s; mem := mem s |} Q -> reach (S n) code pc s Q.
Proof.
  intros d r b o z Hi Hd Hr Hz H.
  eapply r_alu with (1 := Hi); [cbn [operand_val]; rewrite Hr; cbn [as_int bind bits_of]; rewrite wrap_u_small by lia; reflexivity|cbn [alu_val]; rewrite Hd; apply addp; lia|].
  replace (z * 2 ^ 3) with (8 * z) by lia. exact H.
Qed.
(** The register holds a number modulo 2^32. *)
Lemma w_subs8 : forall d r z a, nth_error code pc = Some (Alu ASub true W d r (Imm 8)) -> xs s r = Int z -> wrap_s 32 z = a ->
  reach n code (S pc) {| xs := upd (xs s) d (Int (wrap_u 32 (a - 8))); vs := vs s; fl := {| f_eq := a =? 8; f_lt := Some (a <? 8) |}; mem := mem s |} Q -> reach (S n) code pc s Q.
Proof.
  intros d r z a Hi Hr Ha H. eapply r_alus with (1 := Hi); [reflexivity| | |exact H].
  - rewrite Hr. cbn [alu_val as_int bind bits_of]. do 2 f_equal. change (wrap_u 32 8) with 8. subst a. unfold wrap_u.
    rewrite Zminus_mod, <- (Base.wrap_s_mod 32 z) by lia. rewrite <- Zminus_mod. reflexivity.
  - rewrite Hr. cbn [alu_flags compare_flags bits_of]. rewrite Ha. reflexivity.
Qed.
Lemma w_adds8 : forall d r z a, nth_error code pc = Some (Alu AAdd true W d r (Imm 8)) -> xs s r = Int z -> wrap_s 32 z = a -> 0 <= a + 8 < 2 ^ 31 ->
  reach n code (S pc) {| xs := upd (xs s) d (Int (a + 8)); vs := vs s; fl := {| f_eq := a + 8 =? 0; f_lt := Some (a + 8 <? 0) |}; mem := mem s |} Q -> reach (S n) code pc s Q.
Proof.
  intros d r z a Hi Hr Ha Hb H. eapply r_alus with (1 := Hi); [reflexivity| | |exact H].
  - rewrite Hr. cbn [alu_val sum_val bits_of]. do 2 f_equal. change (wrap_u 32 8) with 8. unfold wrap_u.
    rewrite Z.add_mod, <- (Base.wrap_s_mod 32 z), Ha by lia. rewrite <- Z.add_mod by lia. apply Z.mod_small. lia.
  - rewrite Hr. cbn [alu_flags as_int bind bits_of]. rewrite Ha. change (wrap_s 32 (wrap_u 32 8)) with 8. rewrite wrap_u_small by lia. reflexivity.
Qed.
End Arith.

(** ** The program *)
Section Row.
Variables (m0 : memory) (pb ub : nat) (blk : nat -> nat) (sb : nat -> buf Z) (so inc : nat -> Z) (P0 U0 : buf Z) (po uo stride N zz ix Nz : Z).
Hypothesis Hpu : pb <> ub.
Hypothesis Hsb : forall j, m0 (blk j) = Bytes (sb j).
Hypothesis Hne : forall j, blk j <> pb.
Hypothesis Hnu : forall j, blk j <> ub.
Hypothesis Hinc : forall j, 0 <= inc j.
Hypothesis Hso : forall j, 0 <= so j.
Hypothesis HNz : wrap_s 32 Nz = N.
Hypothesis HN : 0 < N.
Hypothesis Hstride : 0 <= stride < 2 ^ 31.

Definition pieces : nat := Z.to_nat (N / 8).
Definition rest : nat := Z.to_nat (N mod 8).
(** Groups of eight columns. *)
Definition groups : nat := if Nat.eqb rest 0 then pieces else S pieces.
Definition at_ (j k : nat) : Z := so j + inc j * Z.of_nat k.
Hypothesis Hpieces : forall j k, (j < 4)%nat -> (k < pieces)%nat -> at_ j k + 8 <= blen (sb j).
Hypothesis Hlast : forall j, (j < 4)%nat -> at_ j pieces + Z.of_nat rest <= blen (sb j).
Hypothesis Hpo : 0 <= po /\ forall k, (k < groups)%nat -> po + 8 * stride * Z.of_nat k + 32 <= blen P0.
Hypothesis Huo : 0 <= uo /\ uo + 32 * Z.of_nat groups <= blen U0.

Definition Xr : list Z := extend (of_lanes 1 (repeat ix 16)).
Definition fillr : list Z := extend (of_lanes 1 (repeat zz 8)).
(** The eight columns of row [j] in group [k]. *)
Definition rv (j k : nat) : list Z := if Nat.ltb k pieces then extend (get_bytes (sb j) (at_ j k) 8) else partly (sb j) (at_ j k) rest fillr.
Definition lo4 (r : nat -> list Z) : list Z := vop_val Eor (vop_val (Zip1 2) (vop_val (Zip1 1) (r 0%nat) (r 1%nat)) (vop_val (Zip1 1) (r 2%nat) (r 3%nat))) Xr.
Definition hi4 (r : nat -> list Z) : list Z := vop_val Eor (vop_val (Zip2 2) (vop_val (Zip1 1) (r 0%nat) (r 1%nat)) (vop_val (Zip1 1) (r 2%nat) (r 3%nat))) Xr.
Definition put_data (P : buf Z) (o : Z) (r : nat -> list Z) : buf Z := put (put P o (lo4 r)) (o + 16) (hi4 r).
Definition put_sums (U : buf Z) (o : Z) (r : nat -> list Z) : buf Z :=
  put (put U o (sdot (get_bytes U o 16) (lo4 r) ones)) (o + 16) (sdot (get_bytes U (o + 16) 16) (hi4 r) ones).
Fixpoint outp (k : nat) : buf Z := match k with O => P0 | S k => put_data (outp k) (po + 8 * stride * Z.of_nat k) (fun j => rv j k) end.
Fixpoint outu (k : nat) : buf Z := match k with O => U0 | S k => put_sums (outu k) (uo + 32 * Z.of_nat k) (fun j => rv j k) end.

Lemma outp_blen : forall k, blen (outp k) = blen P0.
Proof using Type. induction k as [|k IH]; [reflexivity|]. exact IH. Qed.
Lemma outu_blen : forall k, blen (outu k) = blen U0.
Proof using Type. induction k as [|k IH]; [reflexivity|]. exact IH. Qed.
Lemma full_zip1_1 : forall a b, full a -> full b -> full (vop_val (Zip1 1) a b). Proof using Type. intros a b Ha Hb. expand_full. reflexivity. Qed.
Lemma full_zip1_2 : forall a b, full a -> full b -> full (vop_val (Zip1 2) a b). Proof using Type. intros a b Ha Hb. expand_full. reflexivity. Qed.
Lemma full_zip2_2 : forall a b, full a -> full b -> full (vop_val (Zip2 2) a b). Proof using Type. intros a b Ha Hb. expand_full. reflexivity. Qed.
Lemma full_Xr : full Xr. Proof using Type. reflexivity. Qed.
Lemma full_fillr : full fillr. Proof using Type. reflexivity. Qed.
Lemma full_lo4 : forall r, (forall j, full (r j)) -> full (lo4 r).
Proof using Type. intros r H. apply full_eor; [apply full_zip1_2; apply full_zip1_1; apply H|apply full_Xr]. Qed.
Lemma full_hi4 : forall r, (forall j, full (r j)) -> full (hi4 r).
Proof using Type. intros r H. apply full_eor; [apply full_zip2_2; apply full_zip1_1; apply H|apply full_Xr]. Qed.
Lemma rest_bound : Z.of_nat rest = N mod 8 /\ (rest < 8)%nat /\ N = 8 * Z.of_nat pieces + Z.of_nat rest.
Proof using HN.
  clear - HN. unfold rest, pieces. pose proof (Z.mod_pos_bound N 8 ltac:(lia)). pose proof (Z.div_mod N 8 ltac:(lia)). pose proof (Z.div_pos N 8 ltac:(lia) ltac:(lia)).
  rewrite !Z2Nat.id by lia. split; [reflexivity|]. split; [lia|assumption].
Qed.
Lemma full_rv : forall j k, full (rv j k).
Proof using HN. intros j k. unfold rv. destruct (Nat.ltb k pieces); [reflexivity|]. apply partly_full; [apply full_fillr|]. pose proof rest_bound as H. clear - H. lia. Qed.
Lemma N_bound : N < 2 ^ 31.
Proof. pose proof (wrap_s_range 32 Nz ltac:(lia)) as R. change (32 - 1) with 31 in R. lia. Qed.

Variables (zi : nat -> Z).
Hypothesis Hzi : forall j, wrap_s 32 (zi j) = inc j.
Record argsr (s : state) : Prop := {
  g_i0 : xs s 44 = Int (zi 0%nat); g_i1 : xs s 45 = Int (zi 1%nat); g_i2 : xs s 46 = Int (zi 2%nat); g_i3 : xs s 47 = Int (zi 3%nat);
  g_zp : xs s 51 = Int zz; g_stride : xs s 54 = Int stride; g_X : vs s 26 = Xr; g_ones : vs s 27 = ones }.
Record rows_at (o : nat -> Z) (s : state) : Prop := {
  r_0 : xs s 40 = Ptr (blk 0) (o 0%nat); r_1 : xs s 41 = Ptr (blk 1) (o 1%nat); r_2 : xs s 42 = Ptr (blk 2) (o 2%nat); r_3 : xs s 43 = Ptr (blk 3) (o 3%nat) }.
(** [k] groups have been packed. *)
Record done (k : nat) (s : state) : Prop := {
  d_p : xs s 48 = Ptr pb (po + 8 * stride * Z.of_nat k); d_u : xs s 49 = Ptr ub (uo + 32 * Z.of_nat k);
  d_mem : two m0 pb ub (outp k) (outu k) (mem s) }.
Record inv (k : nat) (s : state) : Prop := {
  i_x0 : exists z, xs s 0 = Int z /\ wrap_s 32 z = N - 8 * Z.of_nat (S k); i_rows : rows_at (fun j => at_ j k) s; i_args : argsr s; i_done : done k s }.

Lemma group_bounds : forall k, (k < groups)%nat -> 0 <= po + 8 * stride * Z.of_nat k /\ po + 8 * stride * Z.of_nat k + 32 <= blen P0 /\ 0 <= uo + 32 * Z.of_nat k /\ uo + 32 * Z.of_nat k + 32 <= blen U0.
Proof.
  intros k Hk. destruct Hpo as [H1 H2]. destruct Huo as [H3 H4]. specialize (H2 k Hk). clear - H1 H2 H3 H4 Hk Hstride.
  assert (0 <= 8 * stride * Z.of_nat k) by (apply Z.mul_nonneg_nonneg; lia). lia.
Qed.
Lemma at_0 : forall j k, 0 <= at_ j k.
Proof. intros j k. unfold at_. pose proof (Hso j). pose proof (Z.mul_nonneg_nonneg (inc j) (Z.of_nat k) (Hinc j) ltac:(lia)). lia. Qed.
Lemma at_S : forall j k, at_ j (S k) = at_ j k + inc j.
Proof. intros. unfold at_. lia. Qed.

Ltac wmem k := match goal with |- reach _ _ _ ?s _ => let m := eval cbn [mem] in (mem s) in match goal with H : two _ _ _ _ _ m |- _ => k H end end.
Ltac fullside := solve [repeat first [apply full_rv | apply full_Xr | apply full_ones | apply full_eor | apply full_sdot | apply full_get | assumption | reflexivity
   | apply full_zip1_1 | apply full_zip1_2 | apply full_zip2_2 | match goal with F : forall c, full _ |- _ => apply F end]].
Ltac side := first [assumption | apply Hsb | apply Hne | apply Hnu | apply Hinc | apply Hzi | apply at_0 | fullside | rewrite ?put_blen, ?outp_blen, ?outu_blen; lia].
Ltac step :=
  match goal with |- reach _ ?code ?pc ?s _ =>
    let i := eval vm_compute in (nth_error code pc) in
    match i with
    | Some (Ld1 8 _ _ _) => wmem ltac:(fun H => eapply w_ld1_8; [exact Hpu|exact H|reflexivity|reads|side|side|side|side|side|]); cbn [xs vs fl mem]
    | Some (Ld1Lane _ _ _ _ _) => wmem ltac:(fun H => eapply w_ld1lane; [exact Hpu|exact H|reflexivity|reads|reads|side|side|side|side|side|]); cbn [xs vs fl mem]
    | Some (LdrQ _ _ _) => wmem ltac:(fun H => eapply w_ldrq; [exact Hpu|exact H|reflexivity|lia|reads|side|side|]); cbn [xs vs fl mem]
    | Some (StrQ _ _ _) => wmem ltac:(fun H => eapply w_strq; [exact Hpu|exact H|reflexivity|lia|reads|reads|side|side|side|intros ?m ?Hm]); cbn [xs vs fl mem]
    | Some (St1 _ _ _ _) => wmem ltac:(fun H => eapply w_st1; [exact Hpu|exact H|reflexivity|reads|reads|side|side|side|intros ?m ?Hm]); cbn [xs vs fl mem]
    | Some (Alu _ _ X _ _ (Sxtw _)) => eapply w_sxtw; [reflexivity|reads|reads|apply Hzi|side|]; cbn [xs vs fl mem]
    | Some (Alu _ _ X _ _ (Lsl _ _)) => eapply w_lsl3; [reflexivity|reads|reads|side|]; cbn [xs vs fl mem]
    | _ => step_with side
    end
  end.

(** ** A group that is stored *)
Definition loaded_rows (r : nat -> list Z) (s : state) : Prop := vs s 0 = r 0%nat /\ vs s 1 = r 1%nat /\ vs s 2 = r 2%nat /\ vs s 3 = r 3%nat.

Lemma body : forall k s, (k < pieces)%nat -> inv k s ->
  reach 30 pack8_row_dotprod 12 s (fun pc s' => pc = (if Nat.ltb (S k) pieces then 12%nat else 42%nat) /\ inv (S k) s').
Proof.
  intros k s Hk [(z & X0 & Ez) [R0 R1 R2 R3] [I0 I1 I2 I3 ZP ST VX V1] [XP XU HM]]. cbv beta in R0, R1, R2, R3.
  assert (Hg : (k < groups)%nat) by (unfold groups; destruct (Nat.eqb rest 0); lia). destruct (group_bounds k Hg) as (B1 & B2 & B3 & B4).
  pose proof (Hpieces 0 k ltac:(lia) Hk). pose proof (Hpieces 1 k ltac:(lia) Hk). pose proof (Hpieces 2 k ltac:(lia) Hk). pose proof (Hpieces 3 k ltac:(lia) Hk).
  begin. do 26 step.
  eapply w_subs8; [reflexivity|reads|exact Ez|]. cbn [xs vs fl mem]. do 2 step.
  eapply reach_b; [reflexivity|reflexivity|cbn [holds f_lt]; reflexivity|]. destruct rest_bound as (Er & Lr & EN). pose proof N_bound.
  replace (negb (N - 8 * Z.of_nat (S k) <? 8)) with (Nat.ltb (S k) pieces) by (destruct (Nat.ltb_spec (S k) pieces); lia).
  apply reach_done. match goal with Q := _ |- _ => subst Q end. cbv beta. split; [reflexivity|].
  assert (ER : forall j, rv j k = extend (get_bytes (sb j) (at_ j k) 8)) by (intros j; unfold rv; replace (Nat.ltb k pieces) with true by (symmetry; apply Nat.ltb_lt; lia); reflexivity).
  constructor; [|constructor|constructor|constructor]; try reads.
  - look. eexists. split; [reflexivity|]. rewrite (wrap_s_u 32) by lia. rewrite wrap_s_small by lia. lia.
  - look. rewrite at_S. reflexivity.
  - look. rewrite at_S. reflexivity.
  - look. rewrite at_S. reflexivity.
  - look. rewrite at_S. reflexivity.
  - look. f_equal. lia.
  - look. f_equal. lia.
  - look. cbn [outp outu]. unfold put_data, put_sums, lo4, hi4. rewrite !ER.
    repeat match goal with H : two _ _ _ _ _ _ |- _ => rewrite ?Z.add_0_r in H end. assumption.
Qed.

(** ** The columns after the whole groups *)
Record part (t : nat) (s : state) : Prop := {
  t_x0 : xs s 0 = Int (Z.of_nat rest); t_rows : rows_at (fun j => at_ j pieces + Z.of_nat t) s; t_args : argsr s; t_done : done pieces s;
  t_v0 : vs s 0 = partly (sb 0) (at_ 0 pieces) t fillr; t_v1 : vs s 1 = partly (sb 1) (at_ 1 pieces) t fillr;
  t_v2 : vs s 2 = partly (sb 2) (at_ 2 pieces) t fillr; t_v3 : vs s 3 = partly (sb 3) (at_ 3 pieces) t fillr }.

Lemma test : forall t s n Q, (t < 7)%nat -> part t s ->
  (forall s', part t s' -> reach n pack8_row_dotprod (if Nat.eqb rest t then 91 else 51 + 6 * t)%nat s' Q) -> reach (S (S n)) pack8_row_dotprod (49 + 6 * t) s Q.
Proof.
  intros t s n Q Ht [X0 [R0 R1 R2 R3] [I0 I1 I2 I3 ZP ST VX V1] [XP XU HM] W0 W1 W2 W3] H. destruct rest_bound as (_ & Lr & _).
  eapply (s_cmpi _ _ _ _ _ 0 (Z.of_nat t) (Z.of_nat rest)); [do 7 (destruct t as [|t]; [reflexivity|]); lia|exact X0|lia|lia|]. cbn [xs vs fl mem].
  eapply (reach_b _ _ _ _ EQ (Fwd 4) (Nat.eqb rest t) 91); [do 7 (destruct t as [|t]; [reflexivity|]); lia|do 7 (destruct t as [|t]; [reflexivity|]); lia| |].
  { cbn [holds fl f_eq]. f_equal. destruct (Nat.eqb_spec rest t); lia. }
  change (S (S (49 + 6 * t))) with (51 + 6 * t)%nat. apply H. constructor; [|constructor|constructor|constructor|..]; cbn [xs vs fl mem]; assumption.
Qed.

Lemma load_four : forall t s, (t < rest)%nat -> part t s -> reach 4 pack8_row_dotprod (51 + 6 * t) s (fun pc s' => pc = (49 + 6 * S t)%nat /\ part (S t) s').
Proof.
  intros t s Ht [X0 [R0 R1 R2 R3] [I0 I1 I2 I3 ZP ST VX V1] [XP XU HM] W0 W1 W2 W3]. destruct rest_bound as (_ & Lr & _).
  pose proof (Hlast 0 ltac:(lia)). pose proof (Hlast 1 ltac:(lia)). pose proof (Hlast 2 ltac:(lia)). pose proof (Hlast 3 ltac:(lia)).
  pose proof (at_0 0 pieces). pose proof (at_0 1 pieces). pose proof (at_0 2 pieces). pose proof (at_0 3 pieces).
  assert (SP : forall j, splice (partly (sb j) (at_ j pieces) t fillr) t (get_bytes (sb j) (at_ j pieces + Z.of_nat t) 1) = partly (sb j) (at_ j pieces) (S t) fillr).
  { intros j. rewrite partly_splice by (try apply full_fillr; lia). f_equal. lia. }
  assert (E : forall d, (d < 4)%nat -> nth_error pack8_row_dotprod (d + (51 + 6 * t)) = Some (Ld1Lane 1 d t (40 + d) (Imm 1))).
  { clear - Ht Lr. intros d Hd. assert (Ht' : (t < 7)%nat) by lia. clear - Hd Ht'. do 4 (destruct d as [|d]; [do 7 (destruct t as [|t]; [reflexivity|]); lia|]). lia. }
  begin.
  wmem ltac:(fun H => eapply w_ld1lane with (d := 0%nat) (i := t) (base := 40%nat); [exact Hpu|exact H|exact (E 0%nat ltac:(lia))|reads|reads|side|side|side|lia|lia|]). cbn [xs vs fl mem].
  wmem ltac:(fun H => eapply w_ld1lane with (d := 1%nat) (i := t) (base := 41%nat); [exact Hpu|exact H|exact (E 1%nat ltac:(lia))|reads|reads|side|side|side|lia|lia|]). cbn [xs vs fl mem].
  wmem ltac:(fun H => eapply w_ld1lane with (d := 2%nat) (i := t) (base := 42%nat); [exact Hpu|exact H|exact (E 2%nat ltac:(lia))|reads|reads|side|side|side|lia|lia|]). cbn [xs vs fl mem].
  wmem ltac:(fun H => eapply w_ld1lane with (d := 3%nat) (i := t) (base := 43%nat); [exact Hpu|exact H|exact (E 3%nat ltac:(lia))|reads|reads|side|side|side|lia|lia|]). cbn [xs vs fl mem].
  finish. split; [lia|]. constructor; [|constructor|constructor|constructor|..]; look; rewrite ?SP; try assumption; try reflexivity; f_equal; lia.
Qed.

Lemma stages : forall k t s, (t + k = rest)%nat -> part t s -> reach (6 * k + 2) pack8_row_dotprod (49 + 6 * t) s (fun pc s' => pc = 91%nat /\ part rest s').
Proof.
  destruct rest_bound as (_ & Lr & _). induction k as [|k IH]; intros t s Hk HP.
  - assert (t = rest) by lia. subst t. destruct (Nat.eq_dec rest 7) as [E|E]; [rewrite E in *; apply reach_done; split; [reflexivity|exact HP]|].
    apply (test rest s 0); [lia|exact HP|]. intros s' HP'. rewrite Nat.eqb_refl. apply reach_done. split; [reflexivity|exact HP'].
  - replace (6 * S k + 2)%nat with (S (S (4 + (6 * k + 2)))) by lia. apply test; [lia|exact HP|]. intros s' HP'.
    replace (Nat.eqb rest t) with false by (symmetry; apply Nat.eqb_neq; lia). eapply reach_trans; [apply load_four; [lia|exact HP']|].
    intros pc s2 [-> H2]. apply IH; [lia|exact H2].
Qed.

Definition stored (s : state) : Prop := two m0 pb ub (outp groups) (outu groups) (mem s).

Lemma last_group : forall s, (0 < rest)%nat -> part rest s -> reach 16 pack8_row_dotprod 91 s (fun pc s' => pc = 107%nat /\ stored s').
Proof.
  intros s Hr [X0 [R0 R1 R2 R3] [I0 I1 I2 I3 ZP ST VX V1] [XP XU HM] W0 W1 W2 W3].
  assert (EG : groups = S pieces) by (unfold groups; replace (Nat.eqb rest 0) with false by (symmetry; apply Nat.eqb_neq; lia); reflexivity).
  destruct (group_bounds pieces ltac:(lia)) as (B1 & B2 & B3 & B4).
  assert (ER : forall j, partly (sb j) (at_ j pieces) rest fillr = rv j pieces) by (intros j; unfold rv; rewrite Nat.ltb_irrefl; reflexivity).
  rewrite ER in W0, W1, W2, W3. begin. do 16 step. finish. split; [reflexivity|].
  unfold stored. look. rewrite EG. cbn [outp outu]. unfold put_data, put_sums, lo4, hi4.
  repeat match goal with H : two _ _ _ _ _ _ |- _ => rewrite ?Z.add_0_r in H end. assumption.
Qed.

Lemma tail : forall s, inv pieces s -> reach 70 pack8_row_dotprod 42 s (fun pc s' => pc = 107%nat /\ stored s').
Proof.
  intros s [(z & X0 & Ez) [R0 R1 R2 R3] [I0 I1 I2 I3 ZP ST VX V1] [XP XU HM]]. cbv beta in R0, R1, R2, R3. destruct rest_bound as (_ & Lr & EN).
  begin. step. eapply (w_adds8 _ _ _ _ _ _ _ z (Z.of_nat rest - 8)); [reflexivity|exact X0|lia|lia|]. cbn [xs vs fl mem]. replace (Z.of_nat rest - 8 + 8) with (Z.of_nat rest) by lia.
  eapply reach_b; [reflexivity|reflexivity|cbn [holds f_eq]; reflexivity|]. destruct (Z.eqb_spec (Z.of_nat rest) 0) as [E|E].
  - step. finish. split; [reflexivity|]. unfold stored. look. unfold groups. replace (Nat.eqb rest 0) with true by (symmetry; apply Nat.eqb_eq; lia). exact HM.
  - do 4 step. match goal with Q := _ |- _ => subst Q end. apply (reach_weaken (44 + 16) 63 _ _ _ (fun pc s' => pc = 107%nat /\ stored s')); [|lia|intros pc s' H; exact H].
    eapply reach_trans with (P := fun pc s' => pc = 91%nat /\ part rest s').
    + eapply reach_weaken; [apply (stages rest 0); [lia|]| lia|intros pc s' H; exact H].
      constructor; [|constructor|constructor|constructor|..]; look; rewrite ?partly_0, ?Z.add_0_r; try assumption; reflexivity.
    + intros pc s' [-> H]. apply last_group; [lia|exact H].
Qed.

Lemma loop : forall m k s, (k + m = pieces)%nat -> inv k s -> reach (30 * m) pack8_row_dotprod (if Nat.ltb k pieces then 12 else 42)%nat s (fun pc s' => pc = 42%nat /\ inv pieces s').
Proof.
  induction m as [|m IH]; intros k s Hk HI.
  - replace k with pieces in * by lia. rewrite Nat.ltb_irrefl. apply reach_done. split; [reflexivity|exact HI].
  - replace (Nat.ltb k pieces) with true by (symmetry; apply Nat.ltb_lt; lia). replace (30 * S m)%nat with (30 + 30 * m)%nat by lia.
    eapply reach_trans; [apply (body k); [lia|exact HI]|]. intros pc s' [-> H]. apply IH; [lia|exact H].
Qed.

Lemma whole : forall s, rows_at so s -> xs s 44 = Int (zi 0%nat) -> xs s 45 = Int (zi 1%nat) -> xs s 46 = Int (zi 2%nat) -> xs s 47 = Int (zi 3%nat) ->
  xs s 48 = Ptr pb po -> xs s 49 = Ptr ub uo -> xs s 51 = Int zz -> xs s 52 = Int ix -> xs s 53 = Int Nz -> xs s 54 = Int stride -> two m0 pb ub P0 U0 (mem s) ->
  reach (82 + 30 * pieces) pack8_row_dotprod 0 s (fun pc s' => pc = 107%nat /\ stored s').
Proof.
  intros s [R0 R1 R2 R3] I0 I1 I2 I3 XP XU ZP XI XN ST HM. destruct rest_bound as (_ & Lr & EN). pose proof N_bound as HNb.
  replace (82 + 30 * pieces)%nat with (12 + (30 * pieces + 70))%nat by lia. apply reach_trans with (P := fun pc s' => pc = (if Nat.ltb 0 pieces then 12 else 42)%nat /\ inv 0 s').
  - begin. do 4 step. eapply w_subs8; [reflexivity|reads|exact HNz|]. cbn [xs vs fl mem]. do 5 step.
    eapply reach_b; [reflexivity|reflexivity|cbn [holds f_lt]; reflexivity|]. destruct (Z.ltb_spec N 8) as [L|L].
    + finish. split; [replace (Nat.ltb 0 pieces) with false by (symmetry; apply Nat.ltb_ge; lia); reflexivity|].
      constructor; [|constructor|constructor|constructor]; try reads; unfold at_; look; rewrite ?Z.mul_0_r, ?Z.add_0_r; try assumption; try reflexivity.
      eexists. split; [reflexivity|]. rewrite (wrap_s_u 32) by lia. rewrite wrap_s_small by lia. lia.
    + step. finish. split; [replace (Nat.ltb 0 pieces) with true by (symmetry; apply Nat.ltb_lt; lia); reflexivity|].
      constructor; [|constructor|constructor|constructor]; try reads; unfold at_; look; rewrite ?Z.mul_0_r, ?Z.add_0_r; try assumption; try reflexivity.
      eexists. split; [reflexivity|]. rewrite (wrap_s_u 32) by lia. rewrite wrap_s_small by lia. lia.
  - intros pc s' [-> H]. eapply reach_trans; [apply (loop pieces 0); [lia|exact H]|]. intros pc s2 [-> H2]. apply tail, H2.
Qed.
End Row.
