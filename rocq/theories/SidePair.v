(** Model of ruy/side_pair.h: a pair indexed by the side of the product. *)
From Verif Require Import Base.

(** side_pair.h:26-31. *)
Inductive side := Lhs | Rhs.

(** side_pair.h:33-35. *)
Definition other_side (s : side) : side := match s with Lhs => Rhs | Rhs => Lhs end.

(** side_pair.h:37-64. *)
Record sp (A : Type) := mk_sp { lhs : A; rhs : A }.
Arguments mk_sp {A} lhs rhs.
Arguments lhs {A} s.
Arguments rhs {A} s.

Definition get {A} (s : side) (p : sp A) : A := match s with Lhs => lhs p | Rhs => rhs p end.

Definition side_eqb (a b : side) : bool :=
  match a, b with Lhs, Lhs => true | Rhs, Rhs => true | _, _ => false end.

Lemma side_eqb_eq : forall a b, side_eqb a b = true <-> a = b.
Proof. intros [] []; cbn; split; congruence. Qed.

Lemma side_eq_dec : forall a b : side, {a = b} + {a <> b}.
Proof. decide equality. Defined.

Lemma sp_ext : forall {A} (p q : sp A), lhs p = lhs q -> rhs p = rhs q -> p = q.
Proof. intros A [a b] [c d]; cbn; congruence. Qed.
