(** What is stored for an accumulator, in terms of the parameters of the product. *)
From Verif Require Import Base Mat Multiplier IntOps MulParams SpecRound.

(** The multiplier of channel [c]: fixed-point part and exponent. *)
Definition multiplier_for (mp : mul_params Z) (c : Z) : Z :=
  if mp_perchannel mp then match mp_mult_pc mp with Some b => bdat b c | None => 0 end else mp_mult mp.
Definition exponent_for (mp : mul_params Z) (c : Z) : Z :=
  if mp_perchannel mp then match mp_exp_pc mp with Some b => bdat b c | None => 0 end else mp_exp mp.

(** [s] is the accumulator scaled to the destination type: rounded to nearest, or unchanged if the
    destination is int32. *)
Definition scaled_for (dt : ity) (mp : mul_params Z) (c acc s : Z) : Prop :=
  if ity_eqb dt s32 then s = acc
  else nearest_ties_up (acc * multiplier_for mp c) (2 ^ (31 - exponent_for mp c)) s.

Definition valid_multiplier (dt : ity) (mp : mul_params Z) (c : Z) : Prop :=
  ity_eqb dt s32 = false -> is_i32 (multiplier_for mp c) /\ -31 <= exponent_for mp c <= 30.
