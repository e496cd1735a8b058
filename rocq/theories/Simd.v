(** Vector registers and the x86 vector instructions used by the kernels of
    ruy/kernel_avx.cc, ruy/kernel_avx2_fma.cc and ruy/kernel_avx512.cc.

    A register (__m128i, __m256i, __m512i) is the list of its bytes, least
    significant first. The definitions follow Intel's description of the
    instructions, which is part of the trusted base; each intrinsic keeps its
    name without the prefix _mm, _mm256 or _mm512, and one definition serves all
    widths unless the instruction treats 128-bit lanes apart. *)
From Coq Require Import ZArith List Bool.
From Verif Require Import Base.
Import ListNotations.
Open Scope Z_scope.

Definition vec := list Z.

(** ** Views *)

Fixpoint bytes_of (n : nat) (z : Z) : list Z :=
  match n with O => [] | S n => z mod 256 :: bytes_of n (z / 256) end.
Fixpoint of_bytes (l : list Z) : Z :=
  match l with [] => 0 | b :: l => b + 256 * of_bytes l end.

(** The chunks of [n] bytes of a register. *)
Fixpoint chunks_aux (fuel n : nat) (v : vec) : list (list Z) :=
  match fuel with
  | O => []
  | S f => match v with [] => [] | _ => firstn n v :: chunks_aux f n (skipn n v) end
  end.
Definition chunks (n : nat) (v : vec) : list (list Z) := chunks_aux (length v) n v.

(** The register seen as unsigned and as signed lanes of [n] bytes, and back
    (each lane keeps its low [n] bytes). *)
Definition ulanes (n : nat) (v : vec) : list Z := map of_bytes (chunks n v).
Definition slanes (n : nat) (v : vec) : list Z := map (wrap_s (8 * Z.of_nat n)) (ulanes n v).
Definition of_lanes (n : nat) (l : list Z) : vec := concat (map (bytes_of n) l).

Fixpoint map2 {A B C} (f : A -> B -> C) (a : list A) (b : list B) : list C :=
  match a, b with x :: a, y :: b => f x y :: map2 f a b | _, _ => [] end.

(** ** Constants *)
Definition set1 (n : nat) (count : nat) (z : Z) : vec := of_lanes n (repeat z count).
Definition setzero (bytes : nat) : vec := repeat 0 bytes.

(** ** Lane-wise arithmetic *)
Definition binop (n : nat) (f : Z -> Z -> Z) (a b : vec) : vec := of_lanes n (map2 f (slanes n a) (slanes n b)).
Definition add_epi32 := binop 4 Z.add.
Definition sub_epi32 := binop 4 Z.sub.
Definition mullo_epi32 := binop 4 Z.mul.
Definition max_epi32 := binop 4 Z.max.
Definition min_epi32 := binop 4 Z.min.
Definition cmpgt_epi32 := binop 4 (fun x y => if y <? x then -1 else 0).
Definition add_epi64 := binop 8 Z.add.
Definition sub_epi64 := binop 8 Z.sub.
(** Products of the low signed halves of the 64-bit lanes. *)
Definition mul_epi32 := binop 8 (fun x y => wrap_s 32 x * wrap_s 32 y).

(** Sums of the two products of adjacent 16-bit lanes. *)
Fixpoint pair_sums (l : list Z) : list Z :=
  match l with a :: b :: l => (a + b) :: pair_sums l | _ => [] end.
Definition madd_epi16 (a b : vec) : vec := of_lanes 4 (pair_sums (map2 Z.mul (slanes 2 a) (slanes 2 b))).

(** ** Shifts; the counts are unsigned lanes *)
Definition sllv (n : nat) (a b : vec) : vec :=
  of_lanes n (map2 (fun x c => if c <? 8 * Z.of_nat n then x * 2 ^ c else 0) (ulanes n a) (ulanes n b)).
Definition srlv (n : nat) (a b : vec) : vec :=
  of_lanes n (map2 (fun x c => if c <? 8 * Z.of_nat n then x / 2 ^ c else 0) (ulanes n a) (ulanes n b)).
Definition srav (n : nat) (a b : vec) : vec :=
  of_lanes n (map2 (fun x c => x / 2 ^ Z.min c (8 * Z.of_nat n - 1)) (slanes n a) (ulanes n b)).
Definition sllv_epi32 := sllv 4.
Definition sllv_epi64 := sllv 8.
Definition srlv_epi64 := srlv 8.
Definition srav_epi32 := srav 4.
Definition srav_epi64 := srav 8.
(** All lanes by one count: an immediate, or the low 64 bits of a register. *)
Definition slli (n : nat) (a : vec) (c : Z) : vec :=
  of_lanes n (map (fun x => if c <? 8 * Z.of_nat n then x * 2 ^ c else 0) (ulanes n a)).
Definition srli (n : nat) (a : vec) (c : Z) : vec :=
  of_lanes n (map (fun x => if c <? 8 * Z.of_nat n then x / 2 ^ c else 0) (ulanes n a)).
Definition srai (n : nat) (a : vec) (c : Z) : vec :=
  of_lanes n (map (fun x => x / 2 ^ Z.min c (8 * Z.of_nat n - 1)) (slanes n a)).
Definition slli_epi64 := slli 8.
Definition srai_epi32 := srai 4.
Definition count_of (b : vec) : Z := nth 0 (ulanes 8 b) 0.
Definition sll_epi32 (a b : vec) : vec := slli 4 a (count_of b).
Definition srl_epi64 (a b : vec) : vec := srli 8 a (count_of b).

(** ** Conversions *)
Definition cvtepi32_epi64 (a : vec) : vec := of_lanes 8 (slanes 4 a).
Definition cvtepi64_epi32 (a : vec) : vec := of_lanes 4 (slanes 8 a).
Definition cvtepi8_epi16 (a : vec) : vec := of_lanes 2 (slanes 1 a).

(** ** Moving lanes *)

(** The lanes of [n] bytes numbered by [idx]. *)
Definition pick (n : nat) (v : vec) (idx : list nat) : vec :=
  concat (map (fun i => nth i (chunks n v) (repeat 0 n)) idx).

(** extracti128_si256, extractf128_si256, castsi256_si128 (i = 0). *)
Definition extracti128 (a : vec) (i : nat) : vec := pick 16 a [i].
(** extracti32x8_epi32, castsi512_si256 (i = 0). *)
Definition extracti256 (a : vec) (i : nat) : vec := pick 32 a [i].
(** set_m128i (hi, lo). *)
Definition set_m128i (hi lo : vec) : vec := lo ++ hi.
(** inserti32x8 (a, b, 1) of a register whose low half is [a]. *)
Definition insert_high (a b : vec) : vec := a ++ b.

(** permutevar8x32_epi32 (a, idx): lanes of 32 bits, indices modulo 8. *)
Definition permutevar8x32 (a idx : vec) : vec :=
  pick 4 a (map (fun i => Z.to_nat (i mod 8)) (ulanes 4 idx)).
(** permutexvar_epi32 and permutexvar_epi64 of 512-bit registers. *)
Definition permutexvar_epi32 (idx a : vec) : vec :=
  pick 4 a (map (fun i => Z.to_nat (i mod 16)) (ulanes 4 idx)).
Definition permutexvar_epi64 (idx a : vec) : vec :=
  pick 8 a (map (fun i => Z.to_nat (i mod 8)) (ulanes 8 idx)).

(** Bit [i] of [imm] chooses lane [i] of [b]. *)
Definition blend (n : nat) (a b : vec) (imm : Z) : vec :=
  concat (map2 (fun i p => if Z.testbit imm i then snd p else fst p)
    (zseq 0 (length (chunks n a))) (map2 pair (chunks n a) (chunks n b))).
Definition blend_epi32 := blend 4.
(** blendv_ps: the sign bit of each 32-bit lane of the mask chooses. *)
Definition blendv_epi32 (a b mask : vec) : vec :=
  concat (map2 (fun (m : Z) p => if m <? 0 then snd p else fst p)
    (slanes 4 mask) (map2 pair (chunks 4 a) (chunks 4 b))).
(** Masks of 64-bit lanes and mask_mov (src, mask, a). *)
Definition cmpgt_epi64_mask (a b : vec) : list bool := map2 (fun x y => y <? x) (slanes 8 a) (slanes 8 b).
Definition mask_mov_epi64 (src : vec) (mask : list bool) (a : vec) : vec :=
  concat (map2 (fun (m : bool) p => if m then snd p else fst p) mask (map2 pair (chunks 8 src) (chunks 8 a))).

(** Within 128-bit lanes. [imm_field imm k]: bits 2k and 2k+1. *)
Definition imm_field (imm : Z) (k : nat) : nat := Z.to_nat (imm / 4 ^ Z.of_nat k mod 4).
Definition in_lanes (f : vec -> vec) (a : vec) : vec := concat (map f (chunks 16 a)).
Definition in_lanes2 (f : vec -> vec -> vec) (a b : vec) : vec := concat (map2 f (chunks 16 a) (chunks 16 b)).
(** shuffle_epi32, permute_ps. *)
Definition shuffle_epi32 (a : vec) (imm : Z) : vec :=
  in_lanes (fun v => pick 4 v (map (imm_field imm) [0; 1; 2; 3]%nat)) a.
(** shuffle_ps: two lanes of [a], then two of [b]. *)
Definition shuffle_ps (a b : vec) (imm : Z) : vec :=
  in_lanes2 (fun x y => pick 4 x [imm_field imm 0; imm_field imm 1] ++ pick 4 y [imm_field imm 2; imm_field imm 3]) a b.
(** unpacklo_epi32/ps, unpackhi_epi32/ps, unpacklo_epi64, unpackhi_epi64. *)
Definition unpacklo_epi32 := in_lanes2 (fun x y => pick 4 x [0%nat] ++ pick 4 y [0%nat] ++ pick 4 x [1%nat] ++ pick 4 y [1%nat]).
Definition unpackhi_epi32 := in_lanes2 (fun x y => pick 4 x [2%nat] ++ pick 4 y [2%nat] ++ pick 4 x [3%nat] ++ pick 4 y [3%nat]).
Definition unpacklo_epi64 := in_lanes2 (fun x y => pick 8 x [0%nat] ++ pick 8 y [0%nat]).
Definition unpackhi_epi64 := in_lanes2 (fun x y => pick 8 x [1%nat] ++ pick 8 y [1%nat]).
(** permute_pd of a 128-bit register: bit k of imm chooses the source of lane k. *)
Definition permute_pd (a : vec) (imm : Z) : vec :=
  pick 8 a [Z.to_nat (imm mod 2); Z.to_nat (imm / 2 mod 2)].
(** permute2x128_si256, permute2f128_ps: a field of 4 bits for each half. *)
Definition half_of (a b : vec) (f : Z) : vec :=
  if Z.testbit f 3 then repeat 0 16
  else match f mod 4 with 0 => extracti128 a 0 | 1 => extracti128 a 1 | 2 => extracti128 b 0 | _ => extracti128 b 1 end.
Definition permute2x128 (a b : vec) (imm : Z) : vec := half_of a b (imm mod 16) ++ half_of a b (imm / 16 mod 16).

(** shuffle_epi8: each byte of the index chooses a byte of the same 128-bit
    lane, or zero if its top bit is set. *)
Definition shuffle_epi8 (a b : vec) : vec :=
  in_lanes2 (fun x y => map (fun i => if Z.testbit i 7 then 0 else nth (Z.to_nat (i mod 16)) x 0) y) a b.
