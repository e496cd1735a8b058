(** C59: single-precision operations, the fused one included, round their exact results to nearest, ties to even. *)
From Coq Require Import ZArith SpecFloat.
From Verif Require Import FloatOps SimdFloat SpecFloatExact SpecFloatRound FloatRound.
Open Scope Z_scope.

(** Finite operands: the product is rounded once; if it is zero its sign is that of the signs multiplied. *)
Theorem C59_mul : forall prec emax, 1 <= prec -> prec < emax -> forall x y a b e f, is_number prec emax x a e -> is_number prec emax y b f ->
  if a * b =? 0 then fmul prec emax x y = S754_zero (xorb (negative x) (negative y)) else rounded prec emax (a * b) (e + f) (fmul prec emax x y).
Proof. exact mul_rounded. Qed.
Print Assumptions C59_mul.

(** So is the sum; if it is zero it is -0 only if both operands are negative. *)
Theorem C59_add : forall prec emax, 1 <= prec -> prec < emax -> forall x y a b f, is_number prec emax x a f -> is_number prec emax y b f ->
  if a + b =? 0 then fadd prec emax x y = S754_zero (negative x && negative y) else rounded prec emax (a + b) f (fadd prec emax x y).
Proof. exact add_rounded. Qed.
Print Assumptions C59_add.

(** The fused operation rounds once, too: the product is not rounded before the addition. *)
Theorem C59_fused : forall prec emax, 1 <= prec -> prec < emax -> forall x y c a b s e f,
  is_number prec emax x a e -> is_number prec emax y b f -> is_number prec emax c s (e + f) ->
  if a * b + s =? 0 then fused_mul_add prec emax x y c = S754_zero (xorb (negative x) (negative y) && negative c)
  else rounded prec emax (a * b + s) (e + f) (fused_mul_add prec emax x y c).
Proof. exact fused_rounded. Qed.
Print Assumptions C59_fused.
(** 4097 * 4097 = 2^24 + 2^13 + 1 is rounded to 2^24 + 2^13 if nothing is added, and is not if 2^24 + 2^13 is subtracted. *)
Example C59_nonvacuous :
  let x := S754_finite false (4097 * 2 ^ 11) (-11) in let c := S754_finite true (2 ^ 23 + 2 ^ 12) 1 in
  is_number 24 128 x 4097 0 /\ is_number 24 128 c (- (2 ^ 24 + 2 ^ 13)) 0 /\
  fmul 24 128 x x = S754_finite false (2 ^ 23 + 2 ^ 12) 1 /\ fused_mul_add 24 128 x x c = S754_finite false (2 ^ 23) (-23).
Proof. repeat split. Qed.

(** There is only one rounding, *)
Theorem C59_unique : forall prec emax x e r r', rounded prec emax x e r -> rounded prec emax x e r' -> r = r'.
Proof. exact rounded_unique. Qed.
Print Assumptions C59_unique.

(** and floats are their own. *)
Theorem C59_floats : forall prec emax, 1 <= prec -> prec < emax -> forall x z e, is_number prec emax x z e -> z <> 0 -> rounded prec emax z e x.
Proof. exact number_rounded. Qed.
Print Assumptions C59_floats.
(** 2^24 + 1 and 2^24 + 3 lie between floats, the even ones of which are 2^24 and 2^24 + 4. The largest float is 2^128 - 2^104. *)
Example C59_ties : rounded 24 128 (2 ^ 24 + 1) 0 (S754_finite false (2 ^ 23) 1) /\ rounded 24 128 (- (2 ^ 24 + 3)) 0 (S754_finite true (2 ^ 23 + 2) 1) /\
  rounded 24 128 (2 ^ 25 - 1) 103 (S754_infinity false) /\ rounded 24 128 (-1) (-150) (S754_zero true).
Proof.
  split; [|split; [|split]]; [exists (2 ^ 23)|exists (- (2 ^ 23 + 2))|exists (2 ^ 24)|exists 0]; (split; [split; [vm_compute; discriminate|]|]).
  - intros _. exists (2 ^ 22). reflexivity.
  - repeat split. discriminate.
  - intros _. exists (- (2 ^ 22 + 1)). reflexivity.
  - repeat split. discriminate.
  - intros _. exists (2 ^ 23). reflexivity.
  - reflexivity.
  - intros _. exists 0. reflexivity.
  - repeat split.
Qed.

(** NaN and infinities: as in the standard. *)
Theorem C59_special : forall prec emax x y c, let r := fused_mul_add prec emax x y c in
  (x = S754_nan \/ y = S754_nan \/ c = S754_nan -> r = S754_nan) /\
  (forall s, x = S754_infinity s /\ is_zero y \/ is_zero x /\ y = S754_infinity s -> r = S754_nan) /\
  (forall s, (x = S754_infinity s \/ y = S754_infinity s) -> x <> S754_nan -> y <> S754_nan -> ~ is_zero x -> ~ is_zero y ->
    (c = S754_infinity (negb (xorb (negative x) (negative y))) -> r = S754_nan) /\
    (c <> S754_infinity (negb (xorb (negative x) (negative y))) -> c <> S754_nan -> r = S754_infinity (xorb (negative x) (negative y)))) /\
  (forall s, finite x -> finite y -> c = S754_infinity s -> r = S754_infinity s).
Proof. exact fused_special. Qed.
Print Assumptions C59_special.
