(** A call that packs columns of a row-major matrix of bytes for kNeon, and what becomes of the padding. *)
From Coq Require Import ZArith List Bool.
From Verif Require Import Base SidePair Mat Scalars IntOps Pack SpecMatrix SpecPack SpecPackX86.
Open Scope Z_scope.

(** Blocks of sixteen rows and [n] columns. *)
Definition sixteens (n : Z) : kernel_layout := {| kl_order := ColMajor; kl_rows := 16; kl_cols := n |}.

(** Whole blocks of columns of a packed matrix made for the source, with sums. The zero point is a byte; sums of as many bytes as
    there are rows fit in 32 bits. *)
Definition row16_call (n : Z) (src : mat Z) (p : pmat Z) (a b : Z) : Prop :=
  valid_matrix src /\ ml_order (m_layout src) = RowMajor /\ packed_for src (sixteens n) p /\
  -128 <= p_zp p <= 127 /\ p_sums p <> None /\ pl_rows (p_layout p) <= 2 ^ 24 /\
  0 <= a <= b /\ b <= pl_cols (p_layout p) /\ (n | a) /\ (n | b).

(** The columns of [a, b) beyond the source are filled with zeros, and so are their sums. *)
Definition padding_zero (src : mat Z) (a b : Z) (q : pmat Z) : Prop :=
  forall c, a <= c < b -> ml_cols (m_layout src) <= c ->
    (forall r, 0 <= r < pl_rows (p_layout q) -> pelement false q r c = Ok 0) /\ (forall s, p_sums q = Some s -> bdat s c = 0).
