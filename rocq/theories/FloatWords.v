(** The 32-bit words of IEEE single precision. There is one NaN: its payload is not modelled, so that two words are the same
    float if both are NaNs. *)
From Coq Require Import ZArith Bool SpecFloat.
From Verif Require Import Base.
Open Scope Z_scope.

(** Sign, eight bits of exponent, 23 bits of mantissa. *)
Definition float_of_word (w : Z) : spec_float :=
  let s := Z.odd (w / 2 ^ 31) in
  let e := (w / 2 ^ 23) mod 2 ^ 8 in
  let m := w mod 2 ^ 23 in
  if e =? 0 then match m with Z.pos p => S754_finite s p (-149) | _ => S754_zero s end
  else if e =? 255 then (if m =? 0 then S754_infinity s else S754_nan)
  else match m + 2 ^ 23 with Z.pos p => S754_finite s p (e - 150) | _ => S754_nan end.

Definition word_of_float (x : spec_float) : Z :=
  let sign (s : bool) := if s then 2 ^ 31 else 0 in
  match x with
  | S754_zero s => sign s
  | S754_infinity s => sign s + 255 * 2 ^ 23
  | S754_nan => 255 * 2 ^ 23 + 2 ^ 22
  | S754_finite s m e => sign s + (if Z.pos m <? 2 ^ 23 then Z.pos m else (e + 150) * 2 ^ 23 + (Z.pos m - 2 ^ 23))
  end.
