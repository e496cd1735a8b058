(** The scalar operations of the integer instantiations of ruy::Mul. *)
From Verif Require Import Base SidePair SizeUtil Mat Scalars Multiplier.

(** An integer type: width and signedness. *)
Record ity := { it_bits : Z; it_signed : bool }.
Definition u8 : ity := {| it_bits := 8; it_signed := false |}.
Definition s8 : ity := {| it_bits := 8; it_signed := true |}.
Definition s16 : ity := {| it_bits := 16; it_signed := true |}.
Definition s32 : ity := {| it_bits := 32; it_signed := true |}.

(** numeric_limits<T>::lowest(), max(). *)
Definition it_lo (t : ity) : Z := if it_signed t then smin (it_bits t) else 0.
Definition it_hi (t : ity) : Z := if it_signed t then smax (it_bits t) else 2 ^ it_bits t - 1.
(** Integral conversion to T. *)
Definition it_conv (t : ity) (z : Z) : Z :=
  if it_signed t then wrap_s (it_bits t) z else wrap_u (it_bits t) z.
Definition ity_eqb (a b : ity) : bool := (it_bits a =? it_bits b) && Bool.eqb (it_signed a) (it_signed b).

(** pack_common.h:36-46. *)
Definition symmetric_zero_point (t : ity) : Z := if it_signed t then 0 else it_hi t / 2 + 1.

(** pack_common.h:57-60; the sum is computed in int, which cannot overflow for
    8- and 16-bit types, then converted. *)
Definition pack_int (src packed : ity) (x : Z) : Z :=
  it_conv packed (x - symmetric_zero_point src + symmetric_zero_point packed).

(** validate.h:40-76 for integer types. *)
Definition validate_int (tl tr : ity) (zl zr zd : Z) : bool :=
  (if ity_eqb tl s16 || ity_eqb tr s16 then (zl =? 0) && (zr =? 0) && (zd =? 0) else true) &&
  (if negb (ity_eqb tl u8) || negb (ity_eqb tr u8)
   then negb (zl =? it_lo tl) || negb (zr =? it_lo tr) else true).

(** [ar z]: the outcome of an int32 operation whose mathematical value is [z]. *)
Definition checked : Z -> res Z := i32.
(** What the generated code does: wrap modulo 2^32. *)
Definition wrapping (z : Z) : res Z := Ok (wrap_s 32 z).

Section IntOps.
Variables (ar : Z -> res Z) (dbg : bool).
(** Source types, packed types, destination type. *)
Variables (src packed : sp ity) (dst : ity).

Definition int_ops : ops Z := {|
  o_pack := fun s x => pack_int (get s src) (get s packed) x;
  o_pack_zp := fun s z => pack_int (get s src) (get s packed) z;
  o_of_zp := fun s z => it_conv (get s packed) z;
  o_sum0 := fun _ => 0;
  o_sum_add := fun _ a v => ar (a + v);
  o_to_acc := fun _ v => v;
  o_acc0 := 0;
  o_mul := fun a b => ar (a * b);
  o_add := fun a b => ar (a + b);
  o_sub_zp_sum := fun _ a zp sum => p <- ar (zp * sum) ;; ar (a - p);
  o_add_zp_zp_depth := fun a zl zr depth => p <- ar (zl * zr) ;; p <- ar (p * depth) ;; ar (a + p);
  o_quant := if ity_eqb dst s32 then None else Some (multiply_by_quantized_multiplier dbg);
  o_add_dst_zp := fun a zp => ar (a + zp);
  o_min := Z.min;
  o_max := Z.max;
  o_store := it_conv dst;
  o_ref_sub_zp := fun _ x zp => ar (x - zp);
  o_is_zero := fun z => z =? 0;
  o_src_size := fun s => it_bits (get s src) / 8;
  o_data_size := fun s => it_bits (get s packed) / 8;
  o_sums_size := fun _ => 4;
  o_validate := fun l r d => validate_int (lhs src) (rhs src) l r d |}.
End IntOps.
