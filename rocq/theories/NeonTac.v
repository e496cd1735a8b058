(** Rules with the memory described by [changed], and tactics for symbolic execution. *)
From Coq Require Import ZArith List Bool Lia.
From Verif Require Import Base Mat Simd SimdFacts Neon64 NeonRun.
Import ListNotations.
Open Scope Z_scope.

(** ** Numbers in registers *)
Lemma wrap_u_small : forall w z, 0 <= z < 2 ^ w -> wrap_u w z = z.
Proof. intros w z H. unfold wrap_u. apply Z.mod_small, H. Qed.
Lemma wrap_s_small : forall w z, 0 < w -> - 2 ^ (w - 1) <= z < 2 ^ (w - 1) -> wrap_s w z = z.
Proof.
  intros w z Hw H. unfold wrap_s. assert (E : 2 ^ w = 2 * 2 ^ (w - 1)) by (rewrite <- Z.pow_succ_r by lia; f_equal; lia).
  rewrite Z.mod_small by lia. lia.
Qed.
Lemma addw : forall a b, 0 <= a -> 0 <= b -> a + b < 2 ^ 32 -> sum_val W (Int a) (Int b) = Ok (Int (a + b)).
Proof. intros a b H1 H2 H3. cbn [sum_val bits_of]. rewrite wrap_u_small by lia. reflexivity. Qed.
Lemma addp : forall k o b, - 2 ^ 63 <= b < 2 ^ 63 -> sum_val X (Ptr k o) (Int b) = Ok (Ptr k (o + b)).
Proof. intros k o b H. cbn [sum_val]. rewrite wrap_s_small by lia. reflexivity. Qed.
Lemma cmpw : forall a b, 0 <= a < 2 ^ 31 -> 0 <= b < 2 ^ 31 -> compare_flags W (Int a) (Int b) = Ok {| f_eq := a =? b; f_lt := Some (a <? b) |}.
Proof. intros a b H1 H2. cbn [compare_flags bits_of]. rewrite !wrap_s_small by lia. reflexivity. Qed.
Lemma cmp_null : forall v, compare_flags X v (Int 0) = Ok {| f_eq := true; f_lt := Some false |} \/ v <> Int 0.
Proof. intros [z|b o]; [|right; discriminate]. destruct (Z.eq_dec z 0) as [->|H]; [left; reflexivity|right; congruence]. Qed.

(** ** Registers of sixteen bytes *)
Definition full (v : list Z) : Prop := length v = 16%nat.
Lemma full_get : forall b o, full (get_bytes b o 16).
Proof. intros. apply get_bytes_length. Qed.
Lemma extend_full : forall v, full v -> extend v = v.
Proof. intros v H. unfold extend, full in *. rewrite H. cbn. apply app_nil_r. Qed.
Lemma firstn_full : forall v, full v -> firstn 16 v = v.
Proof. intros v H. rewrite <- H. apply firstn_all. Qed.
Lemma list16 : forall v : list Z, full v -> exists a b c d e f g h i j k l m n o p, v = [a; b; c; d; e; f; g; h; i; j; k; l; m; n; o; p].
Proof.
  intros v H. unfold full in H. do 16 (destruct v as [|? v]; [discriminate|]). destruct v; [|discriminate]. repeat eexists.
Qed.
Ltac expand_full := repeat match goal with H : full ?v |- _ => destruct (list16 v H) as (? & ? & ? & ? & ? & ? & ? & ? & ? & ? & ? & ? & ? & ? & ? & ? & ->); clear H end.
Lemma full_eor : forall a b, full a -> full b -> full (vop_val Eor a b).
Proof. intros. expand_full. reflexivity. Qed.
Lemma full_trn1_4 : forall a b, full a -> full b -> full (vop_val (Trn1 4) a b).
Proof. intros. expand_full. reflexivity. Qed.
Lemma full_trn2_4 : forall a b, full a -> full b -> full (vop_val (Trn2 4) a b).
Proof. intros. expand_full. reflexivity. Qed.
Lemma full_trn1_8 : forall a b, full a -> full b -> full (vop_val (Trn1 8) a b).
Proof. intros. expand_full. reflexivity. Qed.
Lemma full_trn2_8 : forall a b, full a -> full b -> full (vop_val (Trn2 8) a b).
Proof. intros. expand_full. reflexivity. Qed.
Lemma full_add_4 : forall a b, full a -> full b -> full (vop_val (VAdd 4) a b).
Proof. intros. expand_full. reflexivity. Qed.
Lemma full_addp_4 : forall a b, full a -> full b -> full (vop_val (Addp 4) a b).
Proof. intros. expand_full. reflexivity. Qed.
Lemma full_sadalp : forall a b, full a -> full b -> full (sadalp 2 a b).
Proof. intros. expand_full. reflexivity. Qed.
Lemma full_saddlp : forall a, full a -> full (saddlp 1 a).
Proof. intros. expand_full. reflexivity. Qed.
Lemma full_sdot : forall a b c, full a -> full b -> full c -> full (sdot a b c).
Proof. intros. expand_full. reflexivity. Qed.
Lemma full_repeat : forall z, full (repeat z 16).
Proof. reflexivity. Qed.
Ltac fulls := repeat first [assumption | apply full_get | apply full_repeat | apply full_eor | apply full_trn1_4 | apply full_trn2_4 | apply full_trn1_8 | apply full_trn2_8
  | apply full_add_4 | apply full_addp_4 | apply full_sadalp | apply full_saddlp | apply full_sdot].

(** ** Loads and stores *)
Section Rules.
Variables (n : nat) (code : list instr) (pc : nat) (s : state) (Q : nat -> state -> Prop) (m0 : memory) (pb : nat) (P : buf Z).
Hypothesis Hm : changed m0 pb P (mem s).

Lemma c_ld1 : forall d base post j o sb z, nth_error code pc = Some (Ld1 16 d base post) -> xs s base = Ptr j o -> operand_val X s post = Ok (Int z) ->
  m0 j = Bytes sb -> j <> pb -> 0 <= o -> o + 16 <= blen sb -> - 2 ^ 63 <= z < 2 ^ 63 ->
  reach n code (S pc) {| xs := upd (xs s) base (Ptr j (o + z)); vs := upd (vs s) d (get_bytes sb o 16); fl := fl s; mem := mem s |} Q -> reach (S n) code pc s Q.
Proof.
  intros d base post j o sb z Hi Hb Hp Hj Hn H1 H2 Hz H. eapply r_ld1 with (1 := Hi) (3 := Hp).
  - rewrite Hb. refine (load_unchanged m0 pb P (mem s) j sb o _ Hm Hj Hn H1 _); exact H2.
  - rewrite Hb. apply addp, Hz.
  - rewrite extend_full by apply full_get. exact H.
Qed.

Lemma c_ld1_8 : forall d base post j o sb z, nth_error code pc = Some (Ld1 8 d base post) -> xs s base = Ptr j o -> operand_val X s post = Ok (Int z) ->
  m0 j = Bytes sb -> j <> pb -> 0 <= o -> o + 8 <= blen sb -> - 2 ^ 63 <= z < 2 ^ 63 ->
  reach n code (S pc) {| xs := upd (xs s) base (Ptr j (o + z)); vs := upd (vs s) d (extend (get_bytes sb o 8)); fl := fl s; mem := mem s |} Q -> reach (S n) code pc s Q.
Proof.
  intros d base post j o sb z Hi Hb Hp Hj Hn H1 H2 Hz H. eapply r_ld1 with (1 := Hi) (3 := Hp).
  - rewrite Hb. refine (load_unchanged m0 pb P (mem s) j sb o _ Hm Hj Hn H1 _); exact H2.
  - rewrite Hb. apply addp, Hz.
  - exact H.
Qed.

Lemma c_ld1lane : forall k d i base post j o sb z, nth_error code pc = Some (Ld1Lane k d i base post) -> xs s base = Ptr j o -> operand_val X s post = Ok (Int z) ->
  m0 j = Bytes sb -> j <> pb -> 0 <= o -> o + Z.of_nat k <= blen sb -> - 2 ^ 63 <= z < 2 ^ 63 ->
  reach n code (S pc) {| xs := upd (xs s) base (Ptr j (o + z)); vs := upd (vs s) d (splice (vs s d) (k * i) (get_bytes sb o k)); fl := fl s; mem := mem s |} Q -> reach (S n) code pc s Q.
Proof.
  intros k d i base post j o sb z Hi Hb Hp Hj Hn H1 H2 Hz H. eapply r_ld1lane with (1 := Hi) (3 := Hp).
  - rewrite Hb. refine (load_unchanged m0 pb P (mem s) j sb o _ Hm Hj Hn H1 _); exact H2.
  - rewrite Hb. apply addp, Hz.
  - exact H.
Qed.

Lemma c_ldr : forall k d base o j oo sb z, nth_error code pc = Some (Ldr k d base o) -> xs s base = Ptr j oo -> operand_val X s o = Ok (Int z) -> - 2 ^ 63 <= z < 2 ^ 63 ->
  m0 j = Bytes sb -> j <> pb -> 0 <= k -> 0 <= oo + z -> oo + z + k <= blen sb ->
  reach n code (S pc) {| xs := upd (xs s) d (Int (of_bytes (get_bytes sb (oo + z) (Z.to_nat k)))); vs := vs s; fl := fl s; mem := mem s |} Q -> reach (S n) code pc s Q.
Proof.
  intros k d base o j oo sb z Hi Hb Hp Hz Hj Hn Hk H1 H2 H. eapply r_ldr with (1 := Hi) (2 := Hp).
  - rewrite Hb. apply addp, Hz.
  - exact (load_val_unchanged m0 pb P (mem s) j sb (oo + z) k Hm Hj Hn Hk H1 H2).
  - exact H.
Qed.

Lemma c_strq : forall a base o p z, nth_error code pc = Some (StrQ a base o) -> xs s base = Ptr pb p -> operand_val X s o = Ok (Int z) -> - 2 ^ 63 <= z < 2 ^ 63 ->
  forall v, vs s a = v -> full v -> 0 <= p + z -> p + z + 16 <= blen P ->
  (forall m, changed m0 pb (put P (p + z) v) m -> reach n code (S pc) {| xs := xs s; vs := vs s; fl := fl s; mem := m |} Q) -> reach (S n) code pc s Q.
Proof.
  intros a base o p z Hi Hb Hp Hz v <- Hf H1 H2 H. destruct (store_changed m0 pb P (mem s) (p + z) (vs s a) Hm H1) as (m & Hs & Hc); [rewrite Hf; exact H2|].
  eapply r_strq with (1 := Hi) (2 := Hp); [rewrite Hb; apply addp, Hz|exact Hs|]. apply H, Hc.
Qed.

Lemma c_st1 : forall a base post p z, nth_error code pc = Some (St1 16 a base post) -> xs s base = Ptr pb p -> operand_val X s post = Ok (Int z) -> - 2 ^ 63 <= z < 2 ^ 63 ->
  forall v, vs s a = v -> full v -> 0 <= p -> p + 16 <= blen P ->
  (forall m, changed m0 pb (put P p v) m -> reach n code (S pc) {| xs := upd (xs s) base (Ptr pb (p + z)); vs := vs s; fl := fl s; mem := m |} Q) -> reach (S n) code pc s Q.
Proof.
  intros a base post p z Hi Hb Hp Hz v <- Hf H1 H2 H. destruct (store_changed m0 pb P (mem s) p (vs s a) Hm H1) as (m & Hs & Hc); [rewrite Hf; exact H2|].
  eapply r_st1 with (1 := Hi) (3 := Hp); [rewrite Hb, firstn_full by exact Hf; exact Hs|rewrite Hb; apply addp, Hz|]. apply H, Hc.
Qed.
End Rules.

(** ** Arithmetic *)
Section Arith.
Variables (n : nat) (code : list instr) (pc : nat) (s : state) (Q : nat -> state -> Prop).

Lemma s_addw : forall d m a z, nth_error code pc = Some (Alu AAdd false W d m (Imm z)) -> xs s m = Int a -> 0 <= z < 2 ^ 31 -> 0 <= a < 2 ^ 31 ->
  reach n code (S pc) {| xs := upd (xs s) d (Int (a + z)); vs := vs s; fl := fl s; mem := mem s |} Q -> reach (S n) code pc s Q.
Proof.
  intros d m a z Hi Ha Hz Hr H. eapply r_alu with (1 := Hi); [cbn [operand_val bits_of]; rewrite wrap_u_small by lia; reflexivity|cbn [alu_val]; rewrite Ha; apply addw; lia|exact H].
Qed.
Lemma s_addx : forall d m b o z, nth_error code pc = Some (Alu AAdd false X d m (Imm z)) -> xs s m = Ptr b o -> 0 <= z < 2 ^ 31 ->
  reach n code (S pc) {| xs := upd (xs s) d (Ptr b (o + z)); vs := vs s; fl := fl s; mem := mem s |} Q -> reach (S n) code pc s Q.
Proof.
  intros d m b o z Hi Ha Hz H. eapply r_alu with (1 := Hi); [cbn [operand_val bits_of]; rewrite wrap_u_small by lia; reflexivity|cbn [alu_val]; rewrite Ha; apply addp; lia|exact H].
Qed.
Lemma s_cmpr : forall m r a b, nth_error code pc = Some (Cmp W m (Reg r)) -> xs s m = Int a -> xs s r = Int b -> 0 <= a < 2 ^ 31 -> 0 <= b < 2 ^ 31 ->
  reach n code (S pc) {| xs := xs s; vs := vs s; fl := {| f_eq := a =? b; f_lt := Some (a <? b) |}; mem := mem s |} Q -> reach (S n) code pc s Q.
Proof.
  intros m r a b Hi Ha Hb H1 H2 H. eapply r_cmp with (1 := Hi); [cbn [operand_val]; rewrite Hb; reflexivity|rewrite Ha; apply cmpw; assumption|exact H].
Qed.
Lemma s_cmpi : forall m z a, nth_error code pc = Some (Cmp W m (Imm z)) -> xs s m = Int a -> 0 <= a < 2 ^ 31 -> 0 <= z < 2 ^ 31 ->
  reach n code (S pc) {| xs := xs s; vs := vs s; fl := {| f_eq := a =? z; f_lt := Some (a <? z) |}; mem := mem s |} Q -> reach (S n) code pc s Q.
Proof.
  intros m z a Hi Ha H1 H2 H. eapply r_cmp with (1 := Hi); [cbn [operand_val bits_of]; rewrite wrap_u_small by lia; reflexivity|rewrite Ha; apply cmpw; assumption|exact H].
Qed.
End Arith.

(** Vector instructions with the values of their operands given. *)
Section Vectors.
Variables (n : nat) (code : list instr) (pc : nat) (s : state) (Q : nat -> state -> Prop).
Lemma v_v2 : forall o d a b va vb, nth_error code pc = Some (V2 o d a b) -> vs s a = va -> vs s b = vb ->
  reach n code (S pc) {| xs := xs s; vs := upd (vs s) d (vop_val o va vb); fl := fl s; mem := mem s |} Q -> reach (S n) code pc s Q.
Proof. intros o d a b va vb H <- <-. apply r_v2, H. Qed.
Lemma v_saddlp : forall k d a va, nth_error code pc = Some (Saddlp k d a) -> vs s a = va ->
  reach n code (S pc) {| xs := xs s; vs := upd (vs s) d (saddlp k va); fl := fl s; mem := mem s |} Q -> reach (S n) code pc s Q.
Proof. intros k d a va H <-. apply r_saddlp, H. Qed.
Lemma v_sadalp : forall k d a va vd, nth_error code pc = Some (Sadalp k d a) -> vs s a = va -> vs s d = vd ->
  reach n code (S pc) {| xs := xs s; vs := upd (vs s) d (sadalp k vd va); fl := fl s; mem := mem s |} Q -> reach (S n) code pc s Q.
Proof. intros k d a va vd H <- <-. apply r_sadalp, H. Qed.
Lemma v_inst : forall w d a b va vb vd, nth_error code pc = Some (Inst w) -> decode w = Some (Sdot d a b) -> vs s a = va -> vs s b = vb -> vs s d = vd ->
  reach n code (S pc) {| xs := xs s; vs := upd (vs s) d (sdot vd va vb); fl := fl s; mem := mem s |} Q -> reach (S n) code pc s Q.
Proof. intros w d a b va vb vd H Hd <- <- <-. apply (r_inst n code pc s Q w d a b H Hd). Qed.
Lemma v_dup : forall k c d r z, nth_error code pc = Some (Dup k c d r) -> xs s r = Int z ->
  reach n code (S pc) {| xs := xs s; vs := upd (vs s) d (extend (of_lanes k (repeat z c))); fl := fl s; mem := mem s |} Q -> reach (S n) code pc s Q.
Proof. intros k c d r z H Hz. apply (r_dup n code pc s Q k c d r z H). rewrite Hz. reflexivity. Qed.
Lemma v_ins : forall k d i r z vd, nth_error code pc = Some (Ins k d i r) -> xs s r = Int z -> vs s d = vd ->
  reach n code (S pc) {| xs := xs s; vs := upd (vs s) d (splice vd (k * i) (bytes_of k z)); fl := fl s; mem := mem s |} Q -> reach (S n) code pc s Q.
Proof. intros k d i r z vd H Hz <-. apply (r_ins n code pc s Q k d i r z H). rewrite Hz. reflexivity. Qed.
End Vectors.

(** Clearing the low bits and keeping only them. *)
Lemma land_high : forall z r k, 0 <= k <= 31 -> z mod 2 ^ 32 = r -> Z.land z (2 ^ 32 - 2 ^ k) = 2 ^ k * (r / 2 ^ k).
Proof.
  intros z r k Hk Hr. assert (E : 2 ^ 32 - 2 ^ k = Z.ldiff (Z.ones 32) (Z.ones k)).
  { rewrite Z.ldiff_ones_r by lia. rewrite Z.ones_equiv, Z.shiftr_div_pow2, Z.shiftl_mul_pow2 by lia.
    replace (Z.pred (2 ^ 32)) with (2 ^ 32 - 1) by lia. replace (2 ^ 32) with (2 ^ (32 - k) * 2 ^ k) by (rewrite <- Z.pow_add_r by lia; f_equal; lia).
    assert (0 < 2 ^ k) by (apply Z.pow_pos_nonneg; lia).
    replace (2 ^ (32 - k) * 2 ^ k - 1) with (2 ^ k - 1 + (2 ^ (32 - k) - 1) * 2 ^ k) by lia.
    rewrite Z.div_add by lia. rewrite (Z.div_small (2 ^ k - 1)) by lia. lia. }
  rewrite E. assert (F : Z.land z (Z.ldiff (Z.ones 32) (Z.ones k)) = Z.ldiff (Z.land z (Z.ones 32)) (Z.ones k)).
  { apply Z.bits_inj'. intros i Hi. rewrite !Z.land_spec, !Z.ldiff_spec, !Z.land_spec. rewrite andb_assoc. reflexivity. }
  rewrite F, Z.land_ones, Hr by lia. rewrite Z.ldiff_ones_r, Z.shiftr_div_pow2, Z.shiftl_mul_pow2 by lia. lia.
Qed.
Lemma land_low : forall z r k, 0 <= k <= 31 -> z mod 2 ^ 32 = r -> Z.land z (2 ^ k - 1) = r mod 2 ^ k.
Proof.
  intros z r k Hk Hr. replace (2 ^ k - 1) with (Z.ones k) by (rewrite Z.ones_equiv; lia). rewrite Z.land_ones by lia.
  subst r. rewrite <- Znumtheory.Zmod_div_mod; [reflexivity|apply Z.pow_pos_nonneg; lia|apply Z.pow_pos_nonneg; lia|].
  exists (2 ^ (32 - k)). rewrite <- Z.pow_add_r by lia. f_equal. lia.
Qed.
Lemma high_range : forall r k, 0 <= k -> 0 <= r -> 0 <= 2 ^ k * (r / 2 ^ k) <= r.
Proof.
  intros r k Hk Hr. assert (0 < 2 ^ k) by (apply Z.pow_pos_nonneg; lia). split; [apply Z.mul_nonneg_nonneg; [lia|apply Z.div_pos; lia]|apply Z.mul_div_le; lia].
Qed.

Section Masks.
Variables (n : nat) (code : list instr) (pc : nat) (s : state) (Q : nat -> state -> Prop).
Lemma s_and_high : forall d m c k z r, nth_error code pc = Some (Alu AAnd false W d m (Imm c)) -> c = - 2 ^ k -> 0 <= k <= 31 -> xs s m = Int z -> z mod 2 ^ 32 = r -> r < 2 ^ 31 ->
  reach n code (S pc) {| xs := upd (xs s) d (Int (2 ^ k * (r / 2 ^ k))); vs := vs s; fl := fl s; mem := mem s |} Q -> reach (S n) code pc s Q.
Proof.
  intros d m c k z r Hi Hc Hk Hz Hr Hm H.
  assert (0 <= r) by (subst r; apply Z.mod_pos_bound; lia). pose proof (high_range r k (proj1 Hk) H0) as Hh.
  eapply r_alu with (1 := Hi); [reflexivity| |exact H].
  cbn [alu_val bits_of]. rewrite Hz. cbn [as_int bind]. subst c.
  assert (E : wrap_u 32 (- 2 ^ k) = 2 ^ 32 - 2 ^ k).
  { unfold wrap_u. assert (0 < 2 ^ k <= 2 ^ 31) by (split; [apply Z.pow_pos_nonneg; lia|apply Z.pow_le_mono_r; lia]).
    symmetry. apply (Z.mod_unique _ _ (-1)); lia. }
  rewrite E, (land_high z r k Hk Hr), wrap_u_small by lia. reflexivity.
Qed.
Lemma s_ands_high : forall d m c k z r, nth_error code pc = Some (Alu AAnd true W d m (Imm c)) -> c = - 2 ^ k -> 0 <= k <= 31 -> xs s m = Int z -> z mod 2 ^ 32 = r -> r < 2 ^ 31 ->
  reach n code (S pc) {| xs := upd (xs s) d (Int (2 ^ k * (r / 2 ^ k))); vs := vs s; fl := {| f_eq := 2 ^ k * (r / 2 ^ k) =? 0; f_lt := Some (2 ^ k * (r / 2 ^ k) <? 0) |}; mem := mem s |} Q -> reach (S n) code pc s Q.
Proof.
  intros d m c k z r Hi Hc Hk Hz Hr Hm H.
  assert (0 <= r) by (subst r; apply Z.mod_pos_bound; lia). pose proof (high_range r k (proj1 Hk) H0) as Hh.
  assert (E : wrap_u 32 (- 2 ^ k) = 2 ^ 32 - 2 ^ k).
  { unfold wrap_u. assert (0 < 2 ^ k <= 2 ^ 31) by (split; [apply Z.pow_pos_nonneg; lia|apply Z.pow_le_mono_r; lia]).
    symmetry. apply (Z.mod_unique _ _ (-1)); lia. }
  eapply r_alus with (1 := Hi); [reflexivity| | |exact H].
  - cbn [alu_val bits_of]. rewrite Hz. cbn [as_int bind]. subst c. rewrite E, (land_high z r k Hk Hr), wrap_u_small by lia. reflexivity.
  - cbn [alu_flags bits_of]. rewrite Hz. cbn [as_int bind]. subst c. rewrite E, (land_high z r k Hk Hr), wrap_s_small by lia. reflexivity.
Qed.
Lemma s_ands_low : forall d m c k z r, nth_error code pc = Some (Alu AAnd true W d m (Imm c)) -> c = 2 ^ k - 1 -> 0 <= k <= 30 -> xs s m = Int z -> z mod 2 ^ 32 = r ->
  reach n code (S pc) {| xs := upd (xs s) d (Int (r mod 2 ^ k)); vs := vs s; fl := {| f_eq := r mod 2 ^ k =? 0; f_lt := Some (r mod 2 ^ k <? 0) |}; mem := mem s |} Q -> reach (S n) code pc s Q.
Proof.
  intros d m c k z r Hi Hc Hk Hz Hr H.
  assert (Hp : 0 < 2 ^ k <= 2 ^ 30) by (split; [apply Z.pow_pos_nonneg; lia|apply Z.pow_le_mono_r; lia]).
  pose proof (Z.mod_pos_bound r (2 ^ k) (proj1 Hp)) as Hb.
  assert (E : wrap_u 32 (2 ^ k - 1) = 2 ^ k - 1) by (apply wrap_u_small; lia).
  eapply r_alus with (1 := Hi); [reflexivity| | |exact H].
  - cbn [alu_val bits_of]. rewrite Hz. cbn [as_int bind]. subst c. rewrite E, (land_low z r k) by (assumption || lia). rewrite wrap_u_small by lia. reflexivity.
  - cbn [alu_flags bits_of]. rewrite Hz. cbn [as_int bind]. subst c. rewrite E, (land_low z r k) by (assumption || lia). rewrite wrap_s_small by lia. reflexivity.
Qed.
End Masks.

(** ** Loops in which a piece is processed while the next one is loaded *)

(** [I k]: [k] pieces have been processed and the next one is loaded. *)
Lemma loop_rule : forall (I : nat -> state -> Prop) N code L1 L2 n,
  (forall k s, (S k < n)%nat -> I k s -> reach N code L1 s (fun pc s' => pc = (if Nat.eqb (S (S k)) n then L2 else L1) /\ I (S k) s')) ->
  forall m k s, (k + 1 + m = n)%nat -> I k s ->
  reach (N * m) code (if Nat.eqb (S k) n then L2 else L1) s (fun pc s' => pc = L2 /\ I (n - 1)%nat s').
Proof.
  intros I N code L1 L2 n Hbody. induction m as [|m IH]; intros k s Hk HI.
  - replace (Nat.eqb (S k) n) with true by (symmetry; apply Nat.eqb_eq; lia). apply reach_done. split; [reflexivity|]. replace (n - 1)%nat with k by lia. exact HI.
  - replace (Nat.eqb (S k) n) with false by (symmetry; apply Nat.eqb_neq; lia). replace (N * S m)%nat with (N + N * m)%nat by lia. eapply reach_trans; [apply (Hbody k); [lia|exact HI]|].
    intros pc' s' [-> HI']. apply (IH (S k)); [lia|exact HI'].
Qed.

Lemma loop_test : forall u k n (a b : nat), 0 < u ->
  (if negb (u * Z.of_nat (S k) + u =? u * Z.of_nat n) then a else b) = (if Nat.eqb (S (S k)) n then b else a).
Proof.
  intros u k n a b Hu. destruct (Nat.eqb_spec (S (S k)) n) as [E|E].
  - subst n. replace (u * Z.of_nat (S k) + u =? u * Z.of_nat (S (S k))) with true by (symmetry; apply Z.eqb_eq; lia). reflexivity.
  - replace (u * Z.of_nat (S k) + u =? u * Z.of_nat n) with false by (symmetry; apply Z.eqb_neq; nia). reflexivity.
Qed.

(** ** Tactics *)
Arguments upd {A} f i a j /.

(** Read registers. *)
Ltac look := cbn [xs vs fl mem upd Nat.eqb operand_val bits_of f_eq f_lt].
Ltac facts := repeat match goal with
  | |- context [xs ?s ?k] => match goal with H : xs s k = _ |- _ => rewrite H end
  | |- context [vs ?s ?k] => match goal with H : vs s k = _ |- _ => rewrite H end
  end.
Ltac reads := look; facts; reflexivity.
Ltac reads_lia := look; facts; first [reflexivity | f_equal; lia].
Ltac imm := look; match goal with |- Ok (Int (wrap_u ?w ?z)) = _ => let r := eval vm_compute in (wrap_u w z) in exact (eq_refl (Ok (Int r))) | _ => facts; reflexivity end.
Ltac small := cbn; lia.

(** The fact about the memory of the state. *)
Ltac memory_fact k := match goal with |- reach _ _ _ ?s _ => let m := eval cbn [mem] in (mem s) in match goal with H : changed _ _ _ m |- _ => k H end end.

(** The aim is kept out of the way while instructions are executed. *)
Ltac begin := match goal with |- reach _ _ _ _ ?q => let Q := fresh "Q" in set (Q := q) end.
Ltac finish := apply reach_done; match goal with Q := _ |- _ => subst Q end; cbv beta.

(** One instruction; [side] proves the bounds of loads and stores. *)
Ltac step_with side :=
  match goal with |- reach _ ?code ?pc ?s _ =>
    let i := eval vm_compute in (nth_error code pc) in
    match i with
    | Some (Label _) => eapply r_label; [reflexivity|]
    | Some Nop => eapply r_nop; [reflexivity|]
    | Some (Mov W _ _) => eapply r_movw; [reflexivity|imm|match goal with |- context [wrap_u 32 ?z] => let r := eval vm_compute in (wrap_u 32 z) in change (wrap_u 32 z) with r end]
    | Some (Mov X _ _) => eapply r_movx; [reflexivity|imm|]
    | Some (Alu AAdd false W _ _ _) => eapply s_addw; [reflexivity|reads|lia|side|]
    | Some (Alu AAdd false X _ _ _) => eapply s_addx; [reflexivity|reads|lia|]
    | Some (Cmp W _ (Reg _)) => eapply s_cmpr; [reflexivity|reads|reads|side|side|]
    | Some (Cmp W _ (Imm _)) => eapply s_cmpi; [reflexivity|reads|side|lia|]
    | Some (Ld1 16 _ _ _) => memory_fact ltac:(fun H => eapply c_ld1; [exact H|reflexivity|reads|imm|side|side|side|side|side|])
    | Some (Ld1 8 _ _ _) => memory_fact ltac:(fun H => eapply c_ld1_8; [exact H|reflexivity|reads|imm|side|side|side|side|side|])
    | Some (Ldr _ _ _ _) => memory_fact ltac:(fun H => eapply c_ldr; [exact H|reflexivity|reads|imm|lia|side|side|lia|side|side|])
    | Some (StrQ _ _ _) => memory_fact ltac:(fun H => eapply c_strq; [exact H|reflexivity|reads|imm|lia|reads|side|side|side|intros ?m ?Hm])
    | Some (St1 16 _ _ _) => memory_fact ltac:(fun H => eapply c_st1; [exact H|reflexivity|reads|imm|lia|reads|side|side|side|intros ?m ?Hm])
    | Some (Dup _ _ _ _) => eapply v_dup; [reflexivity|reads|]
    | Some (Ins _ _ _ _) => eapply v_ins; [reflexivity|reads|reads|]
    | Some (Movi _ _) => eapply r_movi; [reflexivity|]
    | Some (V2 _ _ _ _) => eapply v_v2; [reflexivity|reads|reads|]
    | Some (Saddlp _ _ _) => eapply v_saddlp; [reflexivity|reads|]
    | Some (Sadalp _ _ _) => eapply v_sadalp; [reflexivity|reads|reads|]
    | Some (Inst ?w) => let r := eval vm_compute in (decode w) in
      match r with Some (Sdot ?d ?a ?b) => eapply (v_inst _ _ _ _ _ w d a b); [reflexivity|vm_compute; reflexivity|reads|reads|reads|] end
    end; cbn [xs vs fl mem]
  end.
