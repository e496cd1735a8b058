(** Rounding of exact numbers [x * 2^e] to nearest, ties to even. *)
From Coq Require Import ZArith SpecFloat.
From Verif Require Import SpecFloatExact.
Open Scope Z_scope.

(** The exponent of the last of [prec] digits of [x * 2^e], not below that of the smallest float. *)
Definition last_place (prec emax x e : Z) : Z := Z.max (Z.log2 (Z.abs x) + 1 + e - prec) (3 - emax - prec).

(** [n * 2^g] is a multiple of [2^g] nearest to [x * 2^e]; if two are, the even one. *)
Definition nearest_even (x e n g : Z) : Prop :=
  let k := Z.min e g in
  let d := 2 * Z.abs (x * 2 ^ (e - k) - n * 2 ^ (g - k)) in
  d <= 2 ^ (g - k) /\ (d = 2 ^ (g - k) -> Z.Even n).

(** [r] is [x * 2^e], not zero, rounded: infinite if that is [2^emax] or more. *)
Definition rounded (prec emax x e : Z) (r : spec_float) : Prop :=
  exists n, nearest_even x e n (last_place prec emax x e) /\
  if emax <=? Z.log2 (Z.abs n) + last_place prec emax x e then r = S754_infinity (x <? 0)
  else is_number prec emax r n (last_place prec emax x e) /\ (n = 0 -> r = S754_zero (x <? 0)).

Definition negative (x : spec_float) : bool :=
  match x with S754_zero s | S754_infinity s | S754_finite s _ _ => s | S754_nan => false end.

Definition finite (x : spec_float) : Prop := match x with S754_zero _ | S754_finite _ _ _ => True | _ => False end.
Definition is_zero (x : spec_float) : Prop := match x with S754_zero _ => True | _ => False end.
