(** Model of the x86 floating-point instructions used by ruy/kernel_x86.h, ruy/kernel_avx512.cc,
    ruy/pack_x86.h, ruy/pack_avx.cc and ruy/pack_avx512.cc.

    A register is the list of its lanes, lane 0 first. The instructions that only move lanes are modelled
    for lanes of any type. Memory is typed: a pointer is an offset in scalars from the start of a buffer,
    and loads and stores outside the buffer are undefined behaviour. *)
From Coq Require Import ZArith List Bool SpecFloat.
From Verif Require Import Base Mat FloatOps.
Import ListNotations.
Open Scope Z_scope.

Section Lanes.
Context {V : Type}.

(** ** Memory *)

(** loadu_ps of [n] lanes. *)
Definition fload (n : Z) (b : buf V) (off : Z) : res (list V) :=
  if (0 <=? off) && (off + n <=? blen b) then Ok (map (bdat b) (zrange off (off + n))) else UB.

(** storeu_ps. *)
Fixpoint fstore (v : list V) (off : Z) (b : buf V) : res (buf V) :=
  match v with [] => Ok b | x :: v => b <- bwrite b off x ;; fstore v (off + 1) b end.

(** maskload_ps, maskz_loadu_ps: lanes whose mask is not set are not read and become zero. *)
Fixpoint fmask_load (zero : V) (mask : list bool) (b : buf V) (off : Z) : res (list V) :=
  match mask with
  | [] => Ok []
  | m :: mask =>
    x <- (if m then bread b off else Ok zero) ;;
    v <- fmask_load zero mask b (off + 1) ;;
    Ok (x :: v)
  end.

(** _mm512_mask_storeu_ps: lanes whose mask is not set are not written. *)
Fixpoint fmask_store (mask : list bool) (v : list V) (off : Z) (b : buf V) : res (buf V) :=
  match mask, v with
  | m :: mask, x :: v => b <- (if m then bwrite b off x else Ok b) ;; fmask_store mask v (off + 1) b
  | _, _ => Ok b
  end.

(** The mask of [n] lanes made of the low bits of an integer. *)
Definition bit_mask (n mask : Z) : list bool := map (Z.testbit mask) (zrange 0 n).

(** ** Broadcasts *)

(** set1_ps, broadcast_ss. *)
Definition fset1 (n : Z) (x : V) : list V := map (fun _ => x) (zrange 0 n).
(** _mm256_broadcast_ps: the same four lanes twice. *)
Definition broadcast_ps (v : list V) : list V := v ++ v.
(** _mm256_permute_ps: within each group of four lanes, lane i is the one selected by bits 2i, 2i+1. *)
Definition ps_field (imm i : Z) : nat := Z.to_nat ((imm / 4 ^ i) mod 4).
Definition permute_ps (zero : V) (v : list V) (imm : Z) : list V :=
  map (fun i => nth (Z.to_nat (4 * (i / 4)) + ps_field imm (i mod 4)) v zero) (zrange 0 (Z.of_nat (length v))).

(** ** Rearrangements, within groups of four lanes *)

Fixpoint in_fours (f : V -> V -> V -> V -> V -> V -> V -> V -> list V) (a b : list V) : list V :=
  match a, b with
  | a0 :: a1 :: a2 :: a3 :: a, b0 :: b1 :: b2 :: b3 :: b => f a0 a1 a2 a3 b0 b1 b2 b3 ++ in_fours f a b
  | _, _ => []
  end.
Definition unpacklo_ps := in_fours (fun a0 a1 _ _ b0 b1 _ _ => [a0; b0; a1; b1]).
Definition unpackhi_ps := in_fours (fun _ _ a2 a3 _ _ b2 b3 => [a2; b2; a3; b3]).
(** unpacklo_pd, unpackhi_pd on the same registers (Mm256UnpackloPsx2 and the like, pack_x86.h:470-480,
    pack_avx512.cc:677-685). *)
Definition unpacklo_pd := in_fours (fun a0 a1 _ _ b0 b1 _ _ => [a0; a1; b0; b1]).
Definition unpackhi_pd := in_fours (fun _ _ a2 a3 _ _ b2 b3 => [a2; a3; b2; b3]).

(** Group [i] of four lanes. *)
Definition four (v : list V) (i : nat) : list V := firstn 4 (skipn (4 * i) v).
(** _mm256_permute2f128_ps for selectors without the bits that zero a half. *)
Definition permute2f128_ps (a b : list V) (imm : Z) : list V :=
  let half s := if s <? 2 then four a (Z.to_nat s) else four b (Z.to_nat (s - 2)) in
  half (imm mod 4) ++ half ((imm / 16) mod 4).
(** _mm512_shuffle_f32x4: two groups of [a], then two of [b]. *)
Definition shuffle_f32x4 (a b : list V) (imm : Z) : list V :=
  four a (ps_field imm 0) ++ four a (ps_field imm 1) ++ four b (ps_field imm 2) ++ four b (ps_field imm 3).
(** _mm512_castps512_ps256, _mm512_extractf32x8_ps(_, 1). *)
Definition low_half (v : list V) : list V := firstn 8 v.
Definition high_half (v : list V) : list V := skipn 8 v.

(** ** Arithmetic, lane by lane *)
Fixpoint lanes2 (f : V -> V -> V) (a b : list V) : list V :=
  match a, b with x :: a, y :: b => f x y :: lanes2 f a b | _, _ => [] end.
Fixpoint lanes3 (f : V -> V -> V -> V) (a b c : list V) : list V :=
  match a, b, c with x :: a, y :: b, z :: c => f x y z :: lanes3 f a b c | _, _, _ => [] end.
End Lanes.

(** ** Scalars

    Arithmetic as in FloatOps.v; rounding to nearest even (the default of MXCSR, as are flush-to-zero and
    denormals-are-zero off). *)
Section Scalars.
Variables (prec emax : Z).

(** min_ps, max_ps: the second operand if either is NaN or both are zero. *)
Definition min_ps (a b : spec_float) : spec_float := if SFltb a b then a else b.
Definition max_ps (a b : spec_float) : spec_float := if SFltb b a then a else b.

(** mul_ps, then add_ps: MulAdd<Path::kAvx>, kernel_avx.cc:433-438. *)
Definition mul_add (a b c : spec_float) : spec_float := fadd prec emax (fmul prec emax a b) c.

(** The exact product: not rounded, so its mantissa may be longer than [prec] bits. *)
Definition exact_product (a b : spec_float) : spec_float :=
  match a, b with
  | S754_finite s m e, S754_finite s' m' e' => S754_finite (xorb s s') (m * m') (e + e')
  | _, _ => fmul prec emax a b
  end.
(** fmadd_ps: rounded once. [SFadd] aligns and adds exactly and then rounds, except that it returns one operand if
    the other is zero: then the product is rounded. (MulAdd<Path::kAvx2Fma>, kernel_avx2_fma.cc:71-75.) *)
Definition fused_mul_add (a b c : spec_float) : spec_float :=
  match a, b, c with
  | S754_finite _ _ _, S754_finite _ _ _, S754_zero _ => fmul prec emax a b
  | _, _, _ => fadd prec emax (exact_product a b) c
  end.
End Scalars.
