(** Floats as numbers [z * 2^e]. *)
From Coq Require Import ZArith List SpecFloat.
From Verif Require Import Base Mat MulParams SpecMatrix SpecMul SpecFloatX86.
Open Scope Z_scope.

(** [m * 2^e = m' * 2^e']. *)
Definition same_number (m e m' e' : Z) : Prop := m * 2 ^ (e - Z.min e e') = m' * 2 ^ (e' - Z.min e e').

(** [x] is a float and its value is [z * 2^e]. *)
Definition is_number (prec emax : Z) (x : spec_float) (z e : Z) : Prop :=
  valid_binary prec emax x = true /\
  match x with
  | S754_zero _ => z = 0
  | S754_finite s m e' => same_number (if s then Z.neg m else Z.pos m) e' z e
  | _ => False
  end.

(** The operands are integers [a] and [b] times a power of two each, the biases integers [c] times the product of these
    powers. *)
Record scaled_integers (l r dst : mat spec_float) (mp : mul_params spec_float) (a b c : Z -> Z -> Z) (p q : Z) : Prop := {
  si_lhs : forall i k, in_matrix (m_layout l) i k -> is_number 24 128 (entry l i k) (a i k) p;
  si_rhs : forall k j, in_matrix (m_layout r) k j -> is_number 24 128 (entry r k j) (b k j) q;
  si_bias : forall i j, in_matrix (m_layout dst) i j ->
    is_number 24 128 (float_bias mp i j) (c i j) (p + q) /\ float_bias mp i j <> S754_zero true;
  (** neither below the smallest float nor overflowing *)
  si_scale : -149 <= p + q <= 103
}.

Definition sum_of (f : Z -> Z) (n : Z) : Z := fold_left (fun s k => s + f k) (zrange 0 n) 0.

(** All intermediate results are at most 2^24 in magnitude. *)
Definition small_sums (l r dst : mat spec_float) (a b c : Z -> Z -> Z) : Prop := forall i j, in_matrix (m_layout dst) i j ->
  sum_of (fun k => Z.abs (a i k * b k j)) (ml_rows (m_layout r)) + Z.abs (c i j) <= 2 ^ 24.

(** The product as integers. *)
Definition integer_entry (r : mat spec_float) (a b c : Z -> Z -> Z) (i j : Z) : Z :=
  sum_of (fun k => a i k * b k j) (ml_rows (m_layout r)) + c i j.
