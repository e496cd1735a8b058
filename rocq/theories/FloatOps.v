(** The scalar operations of the floating-point instantiations of ruy::Mul, in
    IEEE arithmetic with round to nearest even (Coq's SpecFloat). There is one
    NaN: payloads are not modelled. *)
From Coq Require Import SpecFloat.
From Verif Require Import Base SidePair SizeUtil Mat Scalars.

Section FloatOps.
Variables (prec emax : Z).

Definition fzero : spec_float := S754_zero false.
(** Conversion of an int to floating point. *)
Definition f_of_Z (z : Z) : spec_float := binary_normalize prec emax z 0 false.
Definition fadd := SFadd prec emax.
Definition fsub := SFsub prec emax.
Definition fmul := SFmul prec emax.

(** pack_common.h:57-60 with SymmetricZeroPoint<float>() = 0. *)
Definition pack_float (x : spec_float) : spec_float := fadd (fsub x fzero) fzero.

(** std::min(a, b) is [(b < a) ? b : a], std::max(a, b) is [(a < b) ? b : a]. *)
Definition fmin (a b : spec_float) := if SFltb b a then b else a.
Definition fmax (a b : spec_float) := if SFltb a b then b else a.

Definition float_ops (size : Z) : ops spec_float := {|
  o_pack := fun _ x => pack_float x;
  o_pack_zp := fun _ z => z;
  o_of_zp := fun _ z => f_of_Z z;
  o_sum0 := fun _ => fzero;
  o_sum_add := fun _ a v => Ok (fadd a v);
  o_to_acc := fun _ v => v;
  o_acc0 := fzero;
  o_mul := fun a b => Ok (fmul a b);
  o_add := fun a b => Ok (fadd a b);
  o_sub_zp_sum := fun _ a zp sum => Ok (fsub a (fmul (f_of_Z zp) sum));
  o_add_zp_zp_depth := fun a zl zr depth =>
     Ok (fadd a (fmul (fmul (f_of_Z zl) (f_of_Z zr)) (f_of_Z depth)));
  o_quant := None;
  o_add_dst_zp := fun a zp => Ok (fadd a (f_of_Z zp));
  o_min := fmin;
  o_max := fmax;
  o_store := fun a => a;
  o_ref_sub_zp := fun _ x zp => Ok (fsub x (f_of_Z zp));
  o_is_zero := fun x => SFeqb x fzero;
  o_src_size := fun _ => size;
  o_data_size := fun _ => size;
  o_sums_size := fun _ => size;
  o_validate := fun l r d => (l =? 0) && (r =? 0) && (d =? 0) |}.
End FloatOps.

(** IEEE single precision. *)
Definition f32_ops : ops spec_float := float_ops 24 128 4.
