(** How far multiplications of floats are from the exact product.

    Floats are integers times 2^-149, the smallest of them, and their products integers times 2^-298. *)
From Coq Require Import ZArith List SpecFloat.
From Verif Require Import Base Mat MulParams SpecMatrix SpecMul X86Mul SpecFloatX86 SpecFloatExact.
Open Scope Z_scope.

Record finite_values (l r dst : mat spec_float) (mp : mul_params spec_float) (a b c : Z -> Z -> Z) : Prop := {
  fv_lhs : forall i k, in_matrix (m_layout l) i k -> is_number 24 128 (entry l i k) (a i k) (-149);
  fv_rhs : forall k j, in_matrix (m_layout r) k j -> is_number 24 128 (entry r k j) (b k j) (-149);
  fv_bias : forall i j, in_matrix (m_layout dst) i j -> is_number 24 128 (float_bias mp i j) (c i j) (-149)
}.

(** The entry of the exact product, *)
Definition exact_entry (r : mat spec_float) (a b c : Z -> Z -> Z) (i j : Z) : Z :=
  sum_of (fun k => a i k * b k j) (ml_rows (m_layout r)) + c i j * 2 ^ 149.
(** and the sum of the magnitudes of its terms, each product counting as 2^-126 (2^172 units) more for underflow. *)
Definition magnitude (r : mat spec_float) (a b c : Z -> Z -> Z) (i j : Z) : Z :=
  sum_of (fun k => Z.abs (a i k * b k j)) (ml_rows (m_layout r)) + Z.abs (c i j) * 2 ^ 149 + ml_rows (m_layout r) * 2 ^ 172.

(** [v], a float, is within [((1 + 2^-24)^n - 1) * w] of [t]. *)
Definition within (n w t v : Z) : Prop := (2 ^ 24) ^ n * Z.abs (v * 2 ^ 149 - t) <= ((2 ^ 24 + 1) ^ n - (2 ^ 24) ^ n) * w.
(** [(1 + 2^-24)^n * w] is less than 2^128. *)
Definition no_overflow (n w : Z) : Prop := (2 ^ 24 + 1) ^ n * w < (2 ^ 24) ^ n * 2 ^ 426.

(** How often a term is rounded, at most. *)
Definition roundings (p : x86_path) (depth : Z) : Z := match p with PathAvx => depth + 1 | _ => depth end.
