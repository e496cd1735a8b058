(** What the instruction sequences of the x86 packing functions for row-major matrices do. *)
From Coq Require Import ZArith List Bool Lia.
From Verif Require Import Base SidePair Mat Scalars IntOps Pack SpecPack MulParams Kernel Simd SimdFacts SimdRequant AvxFacts Kernel8bit Kernel8bitAvx
  Kernel8bitIsa Kernel8bitAvx2Facts Kernel8bitAvxFacts Kernel8bitFacts PackX86 PackX86Laws.
Import ListNotations.
Open Scope Z_scope.

(** Four rows of bytes. *)
Definition rows_of (f : nat -> nat -> Z) : list vec := map (fun r => of_lanes 1 (vrow 16 (f r))) (seq 0 4).

Record row_laws (k : row_packer) : Prop := {
  rl_width : r_width k = 8 \/ r_width k = 16;
  rl_load : forall b off, 0 <= off -> off + r_width k <= blen b ->
    exists x, r_load k b off = Ok (of_lanes 1 (vrow 16 x)) /\ forall i, Z.of_nat i < r_width k -> x i = bdat b (off + Z.of_nat i);
  rl_zip : forall f, r_zip k (rows_of f) =
    map (fun j => of_lanes 1 (vrow 16 (fun e => f (e mod 4)%nat (4 * j + e / 4)%nat))) (seq 0 (Z.to_nat (r_width k / 4)));
  rl_sum : forall f s, (forall r i, in_bits 8 (f r i)) ->
    r_sum k (rows_of f) (L4 (vrow (Z.to_nat (r_width k)) s)) =
    L4 (vrow (Z.to_nat (r_width k)) (fun i => s i + (f 0%nat i + f 1%nat i + f 2%nat i + f 3%nat i)))
}.

Lemma rows_bytes : forall f, rows_of f = map (fun r => vrow 16 (fun i => f r i mod 256)) (seq 0 4).
Proof. intros f. unfold rows_of. apply map_ext. intros r. apply lanes1. Qed.

Lemma zip8_bytes : forall h : nat -> nat -> Z, row_zip8 (map (fun r => vrow 16 (h r)) (seq 0 4)) =
  map (fun j => vrow 16 (fun e => h (e mod 4)%nat (4 * j + e / 4)%nat)) (seq 0 2).
Proof. intros h. vm_compute. reflexivity. Qed.
Lemma zip16_bytes : forall h : nat -> nat -> Z, row_zip16 (map (fun r => vrow 16 (h r)) (seq 0 4)) =
  map (fun j => vrow 16 (fun e => h (e mod 4)%nat (4 * j + e / 4)%nat)) (seq 0 4).
Proof. intros h. vm_compute. reflexivity. Qed.

Lemma loadu_ok : forall b off, 0 <= off -> off + 8 <= blen b ->
  exists x, loadu_si64 b off = Ok (of_lanes 1 (vrow 16 x)) /\ forall i, Z.of_nat i < 8 -> x i = bdat b (off + Z.of_nat i).
Proof.
  intros b off H1 H2. unfold loadu_si64. rewrite load_ok by assumption. cbn [bind].
  exists (fun i => if (i <? 8)%nat then span b off i else 0). split; [reflexivity|]. intros i Hi.
  replace (i <? 8)%nat with true by (symmetry; apply Nat.ltb_lt; lia). reflexivity.
Qed.

Lemma low8_bytes : forall x, low_bytes 8 (of_lanes 1 (vrow 16 x)) = of_lanes 1 (vrow 8 x).
Proof. intros x. reflexivity. Qed.

Lemma mm_cvt8 : forall x, (forall i, in_bits 8 (x i)) -> avx_mm_cvtepi8_epi16 (of_lanes 1 (vrow 16 x)) = of_lanes 2 (vrow 8 x).
Proof. intros x H. unfold avx_mm_cvtepi8_epi16. rewrite low8_bytes. apply cvt8_16. apply Forall_vrow. intros. apply H. Qed.
Lemma cvt8_row : forall x, (forall i, in_bits 8 (x i)) -> cvtepi8_epi16 (of_lanes 1 (vrow 16 x)) = of_lanes 2 (vrow 16 x).
Proof. intros x H. apply cvt8_16. apply Forall_vrow. intros. apply H. Qed.

Lemma cvt16_row : forall m x, (forall i, in_bits 16 (x i)) -> cvtepi16_epi32 (of_lanes 2 (vrow m x)) = L4 (vrow m x).
Proof.
  intros m x H. unfold cvtepi16_epi32. rewrite slanes_of_lanes by lia. change (8 * Z.of_nat 2) with 16.
  rewrite Forall_in_wrap; [reflexivity|lia|]. apply Forall_vrow. intros. apply H.
Qed.
Lemma avx_cvt16_row : forall x, (forall i, in_bits 16 (x i)) -> avx_mm256_cvtepi16_epi32 (of_lanes 2 (vrow 8 x)) = L4 (vrow 8 x).
Proof.
  intros x H. unfold avx_mm256_cvtepi16_epi32, avx_mm_cvtepi16_epi32, set_m128i. cbv zeta.
  match goal with |- cvtepi16_epi32 ?a ++ cvtepi16_epi32 ?c = _ =>
    replace a with (of_lanes 2 (vrow 4 x)) by reflexivity; replace c with (of_lanes 2 (vrow 4 (fun i => x (4 + i)%nat))) end.
  - rewrite !cvt16_row by (intros; apply H). reflexivity.
  - unfold vrow. cbn [seq map Nat.add]. name_bytes. vm_compute. reflexivity.
Qed.

Lemma in16_sum4 : forall a b c d, in_bits 8 a -> in_bits 8 b -> in_bits 8 c -> in_bits 8 d -> in_bits 16 (a + b + (c + d)).
Proof. unfold in_bits. intros a b c d. change (2 ^ (8 - 1)) with 128. change (2 ^ (16 - 1)) with 32768. lia. Qed.

Section Sum8.
Variables (cvt8 cvt16 : vec -> vec) (add32 : vec -> vec -> vec) (m : nat).
Hypothesis H8 : forall x, (forall i, in_bits 8 (x i)) -> cvt8 (of_lanes 1 (vrow 16 x)) = of_lanes 2 (vrow m x).
Hypothesis H16 : forall x, (forall i, in_bits 16 (x i)) -> cvt16 (of_lanes 2 (vrow m x)) = L4 (vrow m x).
Hypothesis Hadd : forall a b, length a = m -> length b = m -> add32 (L4 a) (L4 b) = L4 (map2 Z.add a b).
Lemma row_sum8_ok : forall f s, (forall r i, in_bits 8 (f r i)) ->
  row_sum8 cvt8 cvt16 add32 (rows_of f) (L4 (vrow m s)) = L4 (vrow m (fun i => s i + (f 0%nat i + f 1%nat i + f 2%nat i + f 3%nat i))).
Proof.
  intros f s H. unfold row_sum8, rows_of. cbn [seq map]. rewrite !H8 by apply H. rewrite !add16_lanes, !map2_vrow.
  rewrite H16 by (intros; apply in16_sum4; apply H). rewrite Hadd by apply vrow_length. rewrite map2_vrow. f_equal. apply vrow_ext. intros. lia.
Qed.
End Sum8.

Lemma avx2_row_laws : row_laws avx2_row.
Proof.
  constructor.
  - left. reflexivity.
  - exact loadu_ok.
  - intros f. rewrite rows_bytes. change (r_zip avx2_row) with row_zip8. rewrite zip8_bytes. apply map_ext. intros j. symmetry. apply lanes1.
  - intros f s H. apply row_sum8_ok; [exact mm_cvt8|apply cvt16_row|intros; apply add_L4|exact H].
Qed.
Lemma avx_row_laws : row_laws avx_row.
Proof.
  constructor.
  - left. reflexivity.
  - exact loadu_ok.
  - intros f. rewrite rows_bytes. change (r_zip avx_row) with row_zip8. rewrite zip8_bytes. apply map_ext. intros j. symmetry. apply lanes1.
  - intros f s H. apply row_sum8_ok; [exact mm_cvt8|exact avx_cvt16_row|exact avx_add_L4|exact H].
Qed.
Lemma avx512_row_laws : row_laws avx512_row.
Proof.
  constructor.
  - right. reflexivity.
  - intros b off H1 H2. exists (span b off). split; [exact (load_ok 1 16 b off H1 H2)|]. intros i _. reflexivity.
  - intros f. rewrite rows_bytes. change (r_zip avx512_row) with row_zip16. rewrite zip16_bytes. apply map_ext. intros j. symmetry. apply lanes1.
  - intros f s H. apply row_sum8_ok; [exact cvt8_row|apply cvt16_row|intros; apply add_L4|exact H].
Qed.
