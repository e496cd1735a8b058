(** Rules for the instructions of the kernels, and their tactics. *)
From Coq Require Import ZArith List Bool Lia.
From Verif Require Import Base Mat Simd SimdFacts Neon64 NeonRun NeonTac.
Import ListNotations.
Open Scope Z_scope.

(** A number in the low half of a register. *)
Lemma low_s : forall z a, z mod 2 ^ 32 = a -> a < 2 ^ 31 -> wrap_s 32 z = a.
Proof. intros z a <- H. unfold wrap_s. pose proof (Z.mod_pos_bound z (2 ^ 32)). rewrite Z.add_mod by lia.
  destruct (Z.eq_dec 0 0) as [_|]; [|lia]. rewrite (Z.mod_small (2 ^ (32 - 1))) by lia. rewrite Z.mod_small by lia. lia. Qed.
Lemma small_low : forall a, 0 <= a < 2 ^ 31 -> a mod 2 ^ 32 = a.
Proof. intros a H. apply Z.mod_small. lia. Qed.

Lemma wrap_s_wrap : forall w z, 0 < w -> wrap_s w (wrap_u w z) = wrap_s w z.
Proof. intros w z H. unfold wrap_s, wrap_u. rewrite Zplus_mod_idemp_l. reflexivity. Qed.

Section Loads.
Variables (n : nat) (code : list instr) (pc : nat) (s : state) (Q : nat -> state -> Prop).

Lemma loaded : forall j sb o k, mem s j = Bytes sb -> 0 <= o -> o + Z.of_nat k <= blen sb -> load_bytes (mem s) (Ptr j o) k = Ok (get_bytes sb o k).
Proof.
  intros j sb o k Hj H1 H2. unfold load_bytes. rewrite Hj. replace (0 <=? o) with true by (symmetry; apply Z.leb_le; lia).
  replace (o + Z.of_nat k <=? blen sb) with true by (symmetry; apply Z.leb_le; lia). reflexivity.
Qed.
Lemma m_ld1 : forall d base post j o sb z, nth_error code pc = Some (Ld1 16 d base post) -> xs s base = Ptr j o -> operand_val X s post = Ok (Int z) ->
  mem s j = Bytes sb -> 0 <= o -> o + 16 <= blen sb -> - 2 ^ 63 <= z < 2 ^ 63 ->
  reach n code (S pc) {| xs := upd (xs s) base (Ptr j (o + z)); vs := upd (vs s) d (get_bytes sb o 16); fl := fl s; mem := mem s |} Q -> reach (S n) code pc s Q.
Proof.
  intros d base post j o sb z Hi Hb Hp Hj H1 H2 Hz H. eapply r_ld1 with (1 := Hi) (3 := Hp).
  - rewrite Hb. apply (loaded j sb o 16 Hj H1). exact H2.
  - rewrite Hb. apply addp, Hz.
  - rewrite extend_full by apply full_get. exact H.
Qed.
Lemma m_ld1_8 : forall d base post j o sb z, nth_error code pc = Some (Ld1 8 d base post) -> xs s base = Ptr j o -> operand_val X s post = Ok (Int z) ->
  mem s j = Bytes sb -> 0 <= o -> o + 8 <= blen sb -> - 2 ^ 63 <= z < 2 ^ 63 ->
  reach n code (S pc) {| xs := upd (xs s) base (Ptr j (o + z)); vs := upd (vs s) d (extend (get_bytes sb o 8)); fl := fl s; mem := mem s |} Q -> reach (S n) code pc s Q.
Proof.
  intros d base post j o sb z Hi Hb Hp Hj H1 H2 Hz H. eapply r_ld1 with (1 := Hi) (3 := Hp).
  - rewrite Hb. apply (loaded j sb o 8 Hj H1). exact H2.
  - rewrite Hb. apply addp, Hz.
  - exact H.
Qed.
Lemma m_ldrq : forall d base o j p sb z, nth_error code pc = Some (LdrQ d base o) -> xs s base = Ptr j p -> operand_val X s o = Ok (Int (wrap_u 64 z)) -> - 2 ^ 63 <= z < 2 ^ 63 ->
  mem s j = Bytes sb -> 0 <= p + z -> p + z + 16 <= blen sb ->
  reach n code (S pc) {| xs := xs s; vs := upd (vs s) d (get_bytes sb (p + z) 16); fl := fl s; mem := mem s |} Q -> reach (S n) code pc s Q.
Proof.
  intros d base o j p sb z Hi Hb Hp Hz Hj H1 H2 H. eapply r_ldrq with (1 := Hi) (2 := Hp).
  - rewrite Hb. cbn [sum_val]. rewrite wrap_s_wrap, wrap_s_small by lia. reflexivity.
  - apply (loaded j sb _ 16 Hj H1). exact H2.
  - exact H.
Qed.
Lemma m_ldrd : forall d base o j p sb z, nth_error code pc = Some (LdrD d base o) -> xs s base = Ptr j p -> operand_val X s o = Ok (Int (wrap_u 64 z)) -> - 2 ^ 63 <= z < 2 ^ 63 ->
  mem s j = Bytes sb -> 0 <= p + z -> p + z + 8 <= blen sb ->
  reach n code (S pc) {| xs := xs s; vs := upd (vs s) d (extend (get_bytes sb (p + z) 8)); fl := fl s; mem := mem s |} Q -> reach (S n) code pc s Q.
Proof.
  intros d base o j p sb z Hi Hb Hp Hz Hj H1 H2 H. eapply r_ldrd with (1 := Hi) (2 := Hp).
  - rewrite Hb. cbn [sum_val]. rewrite wrap_s_wrap, wrap_s_small by lia. reflexivity.
  - apply (loaded j sb _ 8 Hj H1). exact H2.
  - exact H.
Qed.
Lemma m_ldr : forall k d base o j oo sb z, nth_error code pc = Some (Ldr k d base o) -> xs s base = Ptr j oo -> operand_val X s o = Ok (Int z) -> - 2 ^ 63 <= z < 2 ^ 63 ->
  mem s j = Bytes sb -> 0 <= k -> 0 <= oo + z -> oo + z + k <= blen sb ->
  reach n code (S pc) {| xs := upd (xs s) d (Int (of_bytes (get_bytes sb (oo + z) (Z.to_nat k)))); vs := vs s; fl := fl s; mem := mem s |} Q -> reach (S n) code pc s Q.
Proof.
  intros k d base o j oo sb z Hi Hb Hp Hz Hj Hk H1 H2 H. eapply r_ldr with (1 := Hi) (2 := Hp).
  - rewrite Hb. apply addp, Hz.
  - unfold load_val. rewrite Hj, (loaded j sb (oo + z) (Z.to_nat k) Hj H1) by lia. reflexivity.
  - exact H.
Qed.
Lemma m_field : forall k d base o j oo f z v, nth_error code pc = Some (Ldr k d base o) -> xs s base = Ptr j oo -> operand_val X s o = Ok (Int z) -> - 2 ^ 63 <= z < 2 ^ 63 ->
  mem s j = Struct f -> find_field f (oo + z) k = Ok v ->
  reach n code (S pc) {| xs := upd (xs s) d v; vs := vs s; fl := fl s; mem := mem s |} Q -> reach (S n) code pc s Q.
Proof.
  intros k d base o j oo f z v Hi Hb Hp Hz Hj Hf H. eapply r_ldr with (1 := Hi) (2 := Hp).
  - rewrite Hb. apply addp, Hz.
  - unfold load_val. rewrite Hj. exact Hf.
  - exact H.
Qed.
End Loads.

Section Arith.
Variables (n : nat) (code : list instr) (pc : nat) (s : state) (Q : nat -> state -> Prop).

Lemma k_addx_lsl : forall d m r i b o z, nth_error code pc = Some (Alu AAdd false X d m (Lsl r i)) -> xs s m = Ptr b o -> xs s r = Int z -> 0 <= z < 2 ^ 32 -> 0 <= i <= 4 ->
  reach n code (S pc) {| xs := upd (xs s) d (Ptr b (o + z * 2 ^ i)); vs := vs s; fl := fl s; mem := mem s |} Q -> reach (S n) code pc s Q.
Proof.
  intros d m r i b o z Hi Ha Hz Hr Hl H.
  assert (0 <= z * 2 ^ i < 2 ^ 36).
  { assert (1 <= 2 ^ i <= 2 ^ 4) by (split; [change 1 with (2 ^ 0); apply Z.pow_le_mono_r; lia|apply Z.pow_le_mono_r; lia]). nia. }
  eapply r_alu with (1 := Hi); [cbn [operand_val bits_of]; rewrite Hz; cbn [as_int bind]; rewrite wrap_u_small by lia; reflexivity|cbn [alu_val]; rewrite Ha; apply addp; lia|exact H].
Qed.
Lemma k_addx_reg : forall d m r b o z, nth_error code pc = Some (Alu AAdd false X d m (Reg r)) -> xs s m = Ptr b o -> xs s r = Int z -> 0 <= z < 2 ^ 32 ->
  reach n code (S pc) {| xs := upd (xs s) d (Ptr b (o + z)); vs := vs s; fl := fl s; mem := mem s |} Q -> reach (S n) code pc s Q.
Proof.
  intros d m r b o z Hi Ha Hz Hr H.
  eapply r_alu with (1 := Hi); [cbn [operand_val]; rewrite Hz; reflexivity|cbn [alu_val]; rewrite Ha; apply addp; lia|exact H].
Qed.
Lemma k_addw : forall d m za a z, nth_error code pc = Some (Alu AAdd false W d m (Imm z)) -> xs s m = Int za -> za mod 2 ^ 32 = a -> a < 2 ^ 31 -> 0 <= z < 2 ^ 31 ->
  reach n code (S pc) {| xs := upd (xs s) d (Int (a + z)); vs := vs s; fl := fl s; mem := mem s |} Q -> reach (S n) code pc s Q.
Proof.
  intros d m za a z Hi Ha Hl Hb Hz H. pose proof (Z.mod_pos_bound za (2 ^ 32)).
  eapply r_alu with (1 := Hi); [cbn [operand_val bits_of]; rewrite wrap_u_small by lia; reflexivity| |exact H].
  cbn [alu_val]. rewrite Ha. cbn [sum_val bits_of]. unfold wrap_u. rewrite <- Zplus_mod_idemp_l, Hl, Z.mod_small by lia. reflexivity.
Qed.
Lemma k_subw : forall d m r za zb a b, nth_error code pc = Some (Alu ASub false W d m (Reg r)) -> xs s m = Int za -> xs s r = Int zb ->
  za mod 2 ^ 32 = a -> zb mod 2 ^ 32 = b -> 0 <= a - b ->
  reach n code (S pc) {| xs := upd (xs s) d (Int (a - b)); vs := vs s; fl := fl s; mem := mem s |} Q -> reach (S n) code pc s Q.
Proof.
  intros d m r za zb a b Hi Ha Hb Ea Eb Hr H. pose proof (Z.mod_pos_bound za (2 ^ 32)). pose proof (Z.mod_pos_bound zb (2 ^ 32)).
  eapply r_alu with (1 := Hi); [cbn [operand_val]; rewrite Hb; reflexivity| |exact H].
  cbn [alu_val]. rewrite Ha. cbn [as_int bind bits_of]. unfold wrap_u. rewrite Zminus_mod, Ea, Eb, Z.mod_small by lia. reflexivity.
Qed.
Lemma k_subw_imm : forall d m a z, nth_error code pc = Some (Alu ASub false W d m (Imm z)) -> xs s m = Int a -> 0 <= z <= a -> a < 2 ^ 31 ->
  reach n code (S pc) {| xs := upd (xs s) d (Int (a - z)); vs := vs s; fl := fl s; mem := mem s |} Q -> reach (S n) code pc s Q.
Proof.
  intros d m a z Hi Ha Hz Hr H. eapply r_alu with (1 := Hi); [cbn [operand_val bits_of]; rewrite wrap_u_small by lia; reflexivity| |exact H].
  cbn [alu_val]. rewrite Ha. cbn [as_int bind bits_of]. rewrite wrap_u_small by lia. reflexivity.
Qed.
Lemma k_subsw_imm : forall d m a z, nth_error code pc = Some (Alu ASub true W d m (Imm z)) -> xs s m = Int a -> 0 <= z <= a -> a < 2 ^ 31 ->
  reach n code (S pc) {| xs := upd (xs s) d (Int (a - z)); vs := vs s; fl := {| f_eq := a =? z; f_lt := Some (a <? z) |}; mem := mem s |} Q -> reach (S n) code pc s Q.
Proof.
  intros d m a z Hi Ha Hz Hr H. eapply r_alus with (1 := Hi); [cbn [operand_val bits_of]; rewrite wrap_u_small by lia; reflexivity| | |exact H].
  - cbn [alu_val]. rewrite Ha. cbn [as_int bind bits_of]. rewrite wrap_u_small by lia. reflexivity.
  - cbn [alu_flags]. rewrite Ha. apply cmpw; lia.
Qed.
Lemma k_cmpr : forall m r za zb a b, nth_error code pc = Some (Cmp W m (Reg r)) -> xs s m = Int za -> xs s r = Int zb ->
  za mod 2 ^ 32 = a -> zb mod 2 ^ 32 = b -> a < 2 ^ 31 -> b < 2 ^ 31 ->
  reach n code (S pc) {| xs := xs s; vs := vs s; fl := {| f_eq := a =? b; f_lt := Some (a <? b) |}; mem := mem s |} Q -> reach (S n) code pc s Q.
Proof.
  intros m r za zb a b Hi Ha Hb Ea Eb H1 H2 H. eapply r_cmp with (1 := Hi); [cbn [operand_val]; rewrite Hb; reflexivity| |exact H].
  rewrite Ha. cbn [compare_flags bits_of]. rewrite (low_s za a Ea H1), (low_s zb b Eb H2). reflexivity.
Qed.
Lemma k_ccmp : forall m r za zb a b c, nth_error code pc = Some (Ccmp W m (Reg r) c) -> holds c (fl s) = Ok true -> xs s m = Int za -> xs s r = Int zb ->
  za mod 2 ^ 32 = a -> zb mod 2 ^ 32 = b -> a < 2 ^ 31 -> b < 2 ^ 31 ->
  reach n code (S pc) {| xs := xs s; vs := vs s; fl := {| f_eq := a =? b; f_lt := Some (a <? b) |}; mem := mem s |} Q -> reach (S n) code pc s Q.
Proof.
  intros m r za zb a b c Hi Hh Ha Hb Ea Eb H1 H2 H. eapply r_ccmp with (1 := Hi) (2 := Hh); [cbn [operand_val]; rewrite Hb; reflexivity| |exact H].
  rewrite Ha. cbn [compare_flags bits_of]. rewrite (low_s za a Ea H1), (low_s zb b Eb H2). reflexivity.
Qed.
Lemma k_movw : forall d r za a, nth_error code pc = Some (Mov W d (Reg r)) -> xs s r = Int za -> za mod 2 ^ 32 = a ->
  reach n code (S pc) {| xs := upd (xs s) d (Int a); vs := vs s; fl := fl s; mem := mem s |} Q -> reach (S n) code pc s Q.
Proof. intros d r za a Hi Ha Ea H. eapply r_movw with (1 := Hi); [cbn [operand_val]; rewrite Ha; reflexivity|]. unfold wrap_u. rewrite Ea. exact H. Qed.
Lemma k_cselw : forall d a b c t z v, nth_error code pc = Some (Csel W d a b c) -> holds c (fl s) = Ok t -> xs s (if t then a else b) = Int z -> z mod 2 ^ 32 = v ->
  reach n code (S pc) {| xs := upd (xs s) d (Int v); vs := vs s; fl := fl s; mem := mem s |} Q -> reach (S n) code pc s Q.
Proof. intros d a b c t z v Hi Ht Hz Ev H. eapply r_cselw with (1 := Hi) (2 := Ht) (3 := Hz). unfold wrap_u. rewrite Ev. exact H. Qed.
Lemma k_tst : forall m i z, nth_error code pc = Some (Tst W m (Imm i)) -> xs s m = Int z -> 0 <= i < 2 ^ 31 ->
  reach n code (S pc) {| xs := xs s; vs := vs s; fl := {| f_eq := wrap_s 32 (Z.land z i) =? 0; f_lt := Some (wrap_s 32 (Z.land z i) <? 0) |}; mem := mem s |} Q -> reach (S n) code pc s Q.
Proof.
  intros m i z Hi Hz Hr H. eapply r_tst with (1 := Hi); [cbn [operand_val bits_of]; rewrite wrap_u_small by lia; reflexivity| |exact H].
  cbn [alu_flags]. rewrite Hz. reflexivity.
Qed.
End Arith.

Section Vectors.
Variables (n : nat) (code : list instr) (pc : nat) (s : state) (Q : nat -> state -> Prop).
Lemma v_vmov : forall d a v, nth_error code pc = Some (VMov d a) -> vs s a = v ->
  reach n code (S pc) {| xs := xs s; vs := upd (vs s) d v; fl := fl s; mem := mem s |} Q -> reach (S n) code pc s Q.
Proof. intros d a v H <-. apply r_vmov, H. Qed.
Lemma v_duplane : forall d a i v, nth_error code pc = Some (DupLane 4 4 d a i) -> vs s a = v ->
  reach n code (S pc) {| xs := xs s; vs := upd (vs s) d (of_lanes 4 (repeat (nth i (ulanes 4 v) 0) 4)); fl := fl s; mem := mem s |} Q -> reach (S n) code pc s Q.
Proof. intros d a i v H <-. apply (r_duplane n code pc s Q 4 4 d a i H). Qed.
Lemma v_dup4 : forall d r z, nth_error code pc = Some (Dup 4 4 d r) -> xs s r = Int z ->
  reach n code (S pc) {| xs := xs s; vs := upd (vs s) d (of_lanes 4 (repeat z 4)); fl := fl s; mem := mem s |} Q -> reach (S n) code pc s Q.
Proof. intros d r z H Hz. apply (v_dup n code pc s Q 4 4 d r z H Hz). Qed.
Lemma v_fmla : forall d a b i vd va vb, nth_error code pc = Some (Fmla d a b i) -> vs s d = vd -> vs s a = va -> vs s b = vb ->
  reach n code (S pc) {| xs := xs s; vs := upd (vs s) d (fmla_lane vd va vb i); fl := fl s; mem := mem s |} Q -> reach (S n) code pc s Q.
Proof. intros d a b i vd va vb H <- <- <-. apply r_fmla, H. Qed.
End Vectors.

(** ** Shapes of vectors of words *)
Lemma of_lanes_length : forall n l, length (of_lanes n l) = (n * length l)%nat.
Proof.
  intros n l. unfold of_lanes. induction l as [|a l IH]; [cbn; lia|]. cbn [map concat length]. rewrite app_length, IH, bytes_of_length. lia.
Qed.
Lemma full_words : forall l, length l = 4%nat -> full (of_lanes 4 l).
Proof. intros l H. unfold full. rewrite of_lanes_length, H. reflexivity. Qed.
Lemma ulanes4 : forall v, full v -> length (ulanes 4 v) = 4%nat.
Proof. intros v H. expand_full. reflexivity. Qed.
Lemma map2_length : forall A B C (f : A -> B -> C) x y, length (map2 f x y) = Nat.min (length x) (length y).
Proof. induction x as [|a x IH]; intros [|b y]; cbn; [reflexivity..|]. rewrite IH. reflexivity. Qed.
Lemma full_on_words : forall f a b, full a -> full b -> full (on_words f a b).
Proof. intros f a b Ha Hb. apply full_words. rewrite map2_length, !ulanes4 by assumption. reflexivity. Qed.
Lemma full_fmla : forall d a b i, full d -> full a -> full (fmla_lane d a b i).
Proof. intros d a b i Hd Ha. apply full_words. rewrite map2_length, !ulanes4 by assumption. reflexivity. Qed.
Lemma full_fadd : forall a b, full a -> full b -> full (vop_val Fadd a b).
Proof. intros. apply full_on_words; assumption. Qed.
Lemma full_fmax : forall a b, full a -> full b -> full (vop_val Fmax a b).
Proof. intros. apply full_on_words; assumption. Qed.
Lemma full_fmin : forall a b, full a -> full b -> full (vop_val Fmin a b).
Proof. intros. apply full_on_words; assumption. Qed.
Lemma full_dup : forall z, full (of_lanes 4 (repeat z 4)).
Proof. intros z. apply full_words. reflexivity. Qed.
