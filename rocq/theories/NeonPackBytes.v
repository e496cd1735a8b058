(** Arrays as bytes. *)
From Coq Require Import ZArith List Bool Lia.
From Verif Require Import Base Mat IntOps Simd SimdFacts SpecPackX86 Neon64 NeonTac NeonPack NeonPackMath PackX86Facts.
Import ListNotations.
Open Scope Z_scope.

Lemma get1 : forall b i, of_bytes (get_bytes b (1 * i) (Z.to_nat 1)) = bdat b i.
Proof. intros b i. change (Z.to_nat 1) with 1%nat. unfold get_bytes. cbn [zseq map of_bytes]. replace (1 * i + 0) with i by ring. ring. Qed.
Lemma get4 : forall b i, get_bytes b (4 * i) (Z.to_nat 4) = [bdat b (4 * i); bdat b (4 * i + 1); bdat b (4 * i + 2); bdat b (4 * i + 3)].
Proof. intros b i. change (Z.to_nat 4) with 4%nat. unfold get_bytes. cbn [zseq map]. rewrite Z.add_0_r. reflexivity. Qed.

Lemma enc1 : forall b i, bdat (enc 1 b) i = bdat b i mod 256.
Proof. intros b i. cbn [enc bdat]. rewrite Z.div_1_r, Z.mod_1_r, Z.pow_0_r, Z.div_1_r. reflexivity. Qed.
Lemma enc4 : forall b i e, 0 <= e < 4 -> bdat (enc 4 b) (4 * i + e) = bdat b i / 256 ^ e mod 256.
Proof. intros b i e He. cbn [enc bdat]. rewrite (div_at _ 4 i e), (mod_at _ 4 i e) by lia. reflexivity. Qed.
Lemma enc_byte : forall n b i, 0 <= bdat (enc n b) i < 256.
Proof. intros. cbn [enc bdat]. apply Z.mod_pos_bound. lia. Qed.

Lemma word_bytes : forall z, [z / 256 ^ 0 mod 256; z / 256 ^ 1 mod 256; z / 256 ^ 2 mod 256; z / 256 ^ 3 mod 256] = bytes_of 4 z.
Proof.
  intros z. cbn [bytes_of]. rewrite Z.pow_0_r, Z.div_1_r, Z.pow_1_r. rewrite !Z.div_div by lia. reflexivity.
Qed.
Lemma word_of : forall z, of_bytes [z / 256 ^ 0 mod 256; z / 256 ^ 1 mod 256; z / 256 ^ 2 mod 256; z / 256 ^ 3 mod 256] = z mod 2 ^ 32.
Proof. intros z. rewrite word_bytes, of_bytes_of. reflexivity. Qed.
Lemma enc4_word : forall b i, of_bytes (get_bytes (enc 4 b) (4 * i) (Z.to_nat 4)) = bdat b i mod 2 ^ 32.
Proof.
  intros b i. rewrite get4. rewrite <- (Z.add_0_r (4 * i)) at 1. rewrite !enc4 by lia. apply word_of.
Qed.

Lemma conv8_mod : forall z, it_conv s8 (z mod 256) = it_conv s8 z.
Proof. intros z. unfold it_conv. cbn [it_signed s8 it_bits]. apply (SimdFacts.wrap_s_mod 8). lia. Qed.
Lemma conv32_mod : forall z, it_conv s32 (z mod 2 ^ 32) = it_conv s32 z.
Proof. intros z. unfold it_conv. cbn [it_signed s32 it_bits]. apply (SimdFacts.wrap_s_mod 32). lia. Qed.
Lemma conv8_id : forall z, it_lo s8 <= z <= it_hi s8 -> it_conv s8 z = z.
Proof. intros z H. change (it_lo s8) with (-128) in H. change (it_hi s8) with 127 in H. apply (SimdFacts.wrap_s_id 8); [lia|]. change (2 ^ (8 - 1)) with 128. lia. Qed.
Lemma conv32_id : forall z, it_lo s32 <= z <= it_hi s32 -> it_conv s32 z = z.
Proof. intros z H. change (it_lo s32) with (- 2 ^ 31) in H. change (it_hi s32) with (2 ^ 31 - 1) in H. apply (SimdFacts.wrap_s_id 32); [lia|]. change (2 ^ (32 - 1)) with (2 ^ 31). lia. Qed.

(** Elements of the decoded arrays. *)
Lemma dec8_in : forall old d i, 0 <= i < blen old -> bdat (dec s8 old d) i = it_conv s8 (bdat d i).
Proof. intros old d i H. cbn [dec bdat]. change (it_bits s8 / 8) with 1. replace (0 <=? i) with true by lia. replace (i <? blen old) with true by lia. cbn [andb]. rewrite get1. reflexivity. Qed.
Lemma dec32_in : forall old d i, 0 <= i < blen old -> bdat (dec s32 old d) i = it_conv s32 (of_bytes (get_bytes d (4 * i) (Z.to_nat 4))).
Proof. intros old d i H. cbn [dec bdat]. change (it_bits s32 / 8) with 4. replace (0 <=? i) with true by lia. replace (i <? blen old) with true by lia. reflexivity. Qed.
Lemma dec_out : forall t old d i, ~ (0 <= i < blen old) -> bdat (dec t old d) i = bdat old i.
Proof. intros t old d i H. cbn [dec bdat]. destruct (Z.leb_spec 0 i); [|reflexivity]. destruct (Z.ltb_spec i (blen old)); [lia|reflexivity]. Qed.
Lemma dec8_same : forall old d i, typed s8 old -> bdat d i = bdat (enc 1 old) i -> bdat (dec s8 old d) i = bdat old i.
Proof.
  intros old d i T E. destruct (Z_le_gt_dec 0 i) as [H|H]; [destruct (Z_lt_le_dec i (blen old)) as [H'|H']|].
  - rewrite dec8_in by lia. rewrite E, enc1, conv8_mod. apply conv8_id, T. lia.
  - apply dec_out. lia.
  - apply dec_out. lia.
Qed.
Lemma dec32_same : forall old d i, typed s32 old -> (forall e, 0 <= e < 4 -> bdat d (4 * i + e) = bdat (enc 4 old) (4 * i + e)) -> bdat (dec s32 old d) i = bdat old i.
Proof.
  intros old d i T E. destruct (Z_le_gt_dec 0 i) as [H|H]; [destruct (Z_lt_le_dec i (blen old)) as [H'|H']|].
  - rewrite dec32_in by lia. rewrite get4. rewrite <- (Z.add_0_r (4 * i)) at 1. rewrite !E by lia. rewrite Z.add_0_r. rewrite <- get4, enc4_word, conv32_mod. apply conv32_id, T. lia.
  - apply dec_out. lia.
  - apply dec_out. lia.
Qed.
Lemma conv8_typed : forall z, it_lo s8 <= it_conv s8 z <= it_hi s8.
Proof. intros z. pose proof (range8 z) as H. change (it_lo s8) with (-128). change (it_hi s8) with 127. exact H. Qed.
Lemma conv32_typed : forall z, it_lo s32 <= it_conv s32 z <= it_hi s32.
Proof. intros z. pose proof (SimdFacts.wrap_s_range 32 z ltac:(lia)) as H. change (2 ^ (32 - 1)) with (2 ^ 31) in H. change (it_lo s32) with (- 2 ^ 31). change (it_hi s32) with (2 ^ 31 - 1). unfold it_conv. cbn [it_signed s32 it_bits]. lia. Qed.
Lemma dec8_typed : forall old d, typed s8 (dec s8 old d).
Proof. intros old d i H. rewrite dec8_in by exact H. apply conv8_typed. Qed.
Lemma dec32_typed : forall old d, typed s32 (dec s32 old d).
Proof. intros old d i H. rewrite dec32_in by exact H. apply conv32_typed. Qed.

(** The sums stored. *)
Lemma sums_in : forall old v o c, full v -> 0 <= o -> o + 4 <= blen old -> (c < 4)%nat ->
  bdat (dec s32 old (put (enc 4 old) (4 * o) v)) (o + Z.of_nat c) = nth c (slanes 4 v) 0.
Proof.
  intros old v o c Hv H0 H1 Hc. rewrite dec32_in by lia. rewrite get4.
  assert (L : Z.of_nat (length v) = 16) by (rewrite Hv; reflexivity).
  rewrite !put_in by (rewrite L; lia). unfold it_conv. cbn [it_signed s32 it_bits].
  replace (Z.to_nat (4 * (o + Z.of_nat c) - 4 * o)) with (4 * c)%nat by lia. replace (Z.to_nat (4 * (o + Z.of_nat c) + 1 - 4 * o)) with (4 * c + 1)%nat by lia.
  replace (Z.to_nat (4 * (o + Z.of_nat c) + 2 - 4 * o)) with (4 * c + 2)%nat by lia. replace (Z.to_nat (4 * (o + Z.of_nat c) + 3 - 4 * o)) with (4 * c + 3)%nat by lia.
  clear - Hv Hc. expand_full. destruct c as [|[|[|[|]]]]; [| | | |lia]; reflexivity.
Qed.
Lemma sums_out : forall old v o i, typed s32 old -> full v -> ~ (o <= i < o + 4) -> bdat (dec s32 old (put (enc 4 old) (4 * o) v)) i = bdat old i.
Proof.
  intros old v o i T Hv H. apply dec32_same; [exact T|]. intros e He. apply put_out. rewrite Hv. change (Z.of_nat 16) with 16. lia.
Qed.
Lemma sums_same : forall old i, typed s32 old -> bdat (dec s32 old (enc 4 old)) i = bdat old i.
Proof. intros old i T. apply dec32_same; [exact T|]. reflexivity. Qed.
