(** Model of ruy/mul_params.h and the ApplyMultiplier dispatch of
    ruy/apply_multiplier.h. *)
From Verif Require Import Base SidePair SizeUtil Mat Scalars.

(** mul_params.h:31-36. *)
Inductive channel_dimension := ChRow | ChCol.

(** create_trmul_params.h:444-447. *)
Definition transpose_channel (c : channel_dimension) : channel_dimension :=
  match c with ChCol => ChRow | ChRow => ChCol end.

(** The fields of the storage (mul_params.h:221-297). Pointers are optional buffers. *)
Record mul_params (V : Type) := {
  mp_bias : option (buf V);
  mp_mult_pc : option (buf Z);
  mp_mult : Z;
  mp_exp_pc : option (buf Z);
  mp_exp : Z;
  mp_min : V;
  mp_max : V;
  mp_chan : channel_dimension;
  mp_perchannel : bool;
  mp_rounding_log2 : Z }.
Arguments mp_bias {V}. Arguments mp_mult_pc {V}. Arguments mp_mult {V}. Arguments mp_exp_pc {V}.
Arguments mp_exp {V}. Arguments mp_min {V}. Arguments mp_max {V}. Arguments mp_chan {V}.
Arguments mp_perchannel {V}. Arguments mp_rounding_log2 {V}.

(** mul_params.h:110-112. *)
Definition multiplier_fixedpoint {V} (p : mul_params V) : Z := if mp_perchannel p then 0 else mp_mult p.
(** mul_params.h:119-121. *)
Definition multiplier_exponent {V} (p : mul_params V) : Z := if mp_perchannel p then 0 else mp_exp p.
(** mul_params.h:134-137. *)
Definition multiplier_fixedpoint_perchannel {V} (p : mul_params V) : option (buf Z) :=
  if mp_perchannel p then mp_mult_pc p else None.
(** mul_params.h:144-147. *)
Definition multiplier_exponent_perchannel {V} (p : mul_params V) : option (buf Z) :=
  if mp_perchannel p then mp_exp_pc p else None.

(** mul_params.h:190-192: [1 << log2], log2 an int8. *)
Definition capacity_rounding {V} (p : mul_params V) : res Z := shl32 1 (mp_rounding_log2 p).

Definition set_bias {V} (p : mul_params V) (b : option (buf V)) : mul_params V :=
  {| mp_bias := b; mp_mult_pc := mp_mult_pc p; mp_mult := mp_mult p; mp_exp_pc := mp_exp_pc p;
     mp_exp := mp_exp p; mp_min := mp_min p; mp_max := mp_max p; mp_chan := mp_chan p;
     mp_perchannel := mp_perchannel p; mp_rounding_log2 := mp_rounding_log2 p |}.

Definition set_channel_dimension {V} (p : mul_params V) (c : channel_dimension) : mul_params V :=
  {| mp_bias := mp_bias p; mp_mult_pc := mp_mult_pc p; mp_mult := mp_mult p; mp_exp_pc := mp_exp_pc p;
     mp_exp := mp_exp p; mp_min := mp_min p; mp_max := mp_max p; mp_chan := c;
     mp_perchannel := mp_perchannel p; mp_rounding_log2 := mp_rounding_log2 p |}.

(** mul_params.h:202-214 (set_perchannel). *)
Definition set_perchannel {V} (dbg : bool) (p : mul_params V) (b : bool) : res (mul_params V) :=
  if Bool.eqb (mp_perchannel p) b then Ok p else
  (if b then
     dcheck dbg (mp_mult p =? 0) ;;; dcheck dbg (mp_exp p =? 0)
   else
     dcheck dbg (match mp_mult_pc p with None => true | Some _ => false end) ;;;
     dcheck dbg (match mp_exp_pc p with None => true | Some _ => false end)) ;;;
  Ok {| mp_bias := mp_bias p; mp_mult_pc := mp_mult_pc p; mp_mult := mp_mult p; mp_exp_pc := mp_exp_pc p;
     mp_exp := mp_exp p; mp_min := mp_min p; mp_max := mp_max p; mp_chan := mp_chan p;
     mp_perchannel := b; mp_rounding_log2 := mp_rounding_log2 p |}.

(** mul_params.h:138-141. *)
Definition set_multiplier_fixedpoint_perchannel {V} (dbg : bool) (p : mul_params V) (b : option (buf Z))
  : res (mul_params V) :=
  p <- set_perchannel dbg p true ;;
  Ok {| mp_bias := mp_bias p; mp_mult_pc := b; mp_mult := mp_mult p; mp_exp_pc := mp_exp_pc p;
     mp_exp := mp_exp p; mp_min := mp_min p; mp_max := mp_max p; mp_chan := mp_chan p;
     mp_perchannel := mp_perchannel p; mp_rounding_log2 := mp_rounding_log2 p |}.

(** mul_params.h:148-151. *)
Definition set_multiplier_exponent_perchannel {V} (dbg : bool) (p : mul_params V) (b : option (buf Z))
  : res (mul_params V) :=
  p <- set_perchannel dbg p true ;;
  Ok {| mp_bias := mp_bias p; mp_mult_pc := mp_mult_pc p; mp_mult := mp_mult p; mp_exp_pc := b;
     mp_exp := mp_exp p; mp_min := mp_min p; mp_max := mp_max p; mp_chan := mp_chan p;
     mp_perchannel := mp_perchannel p; mp_rounding_log2 := mp_rounding_log2 p |}.

(** mul_params.h:113-116. *)
Definition set_multiplier_fixedpoint {V} (dbg : bool) (p : mul_params V) (v : Z) : res (mul_params V) :=
  p <- set_perchannel dbg p false ;;
  Ok {| mp_bias := mp_bias p; mp_mult_pc := mp_mult_pc p; mp_mult := v; mp_exp_pc := mp_exp_pc p;
     mp_exp := mp_exp p; mp_min := mp_min p; mp_max := mp_max p; mp_chan := mp_chan p;
     mp_perchannel := mp_perchannel p; mp_rounding_log2 := mp_rounding_log2 p |}.

(** mul_params.h:122-125. *)
Definition set_multiplier_exponent {V} (dbg : bool) (p : mul_params V) (v : Z) : res (mul_params V) :=
  p <- set_perchannel dbg p false ;;
  Ok {| mp_bias := mp_bias p; mp_mult_pc := mp_mult_pc p; mp_mult := mp_mult p; mp_exp_pc := mp_exp_pc p;
     mp_exp := v; mp_min := mp_min p; mp_max := mp_max p; mp_chan := mp_chan p;
     mp_perchannel := mp_perchannel p; mp_rounding_log2 := mp_rounding_log2 p |}.

(** mul_params.h:241-271: a default-constructed MulParams; [lo] and [hi] are the
    default clamp bounds of the destination type. *)
Definition default_mul_params {V} (lo hi : V) : mul_params V :=
  {| mp_bias := None; mp_mult_pc := None; mp_mult := 0; mp_exp_pc := None; mp_exp := 0;
     mp_min := lo; mp_max := hi; mp_chan := ChRow; mp_perchannel := false; mp_rounding_log2 := 0 |}.

(** apply_multiplier.h:75-99: which (multiplier, exponent) pair applies. *)
Definition channel_multiplier {V} (p : mul_params V) (channel : Z) : res (Z * Z) :=
  m <- match multiplier_fixedpoint_perchannel p with
       | Some b => bread b channel | None => Ok (multiplier_fixedpoint p) end ;;
  e <- match multiplier_exponent_perchannel p with
       | Some b => bread b channel | None => Ok (multiplier_exponent p) end ;;
  Ok (m, e).

Definition apply_multiplier {V} (o : ops V) (p : mul_params V) (channel : Z) (accum : V) : res V :=
  match o_quant o with
  | None => Ok accum
  | Some q => '(m, e) <- channel_multiplier p channel ;; q accum m e
  end.

(** The computation after the accumulation that ReferenceMul
    (reference_mul.h:40-49) and the kernel (kernel.h:219-223, 233-237) share;
    the kernel corrects for zero points between [add_bias] and [finish]. *)
Definition channel_of {V} (p : mul_params V) (i j : Z) : Z :=
  match mp_chan p with ChRow => i | ChCol => j end.

Definition add_bias {V} (o : ops V) (p : mul_params V) (channel : Z) (accum : V) : res V :=
  match mp_bias p with
  | None => Ok accum
  | Some b => v <- bread b channel ;; o_add o accum v
  end.

Definition finish {V} (o : ops V) (p : mul_params V) (dst_zp channel : Z) (accum : V) : res V :=
  a <- apply_multiplier o p channel accum ;;
  a <- o_add_dst_zp o a dst_zp ;;
  let a := o_min o a (mp_max p) in
  let a := o_max o a (mp_min p) in
  Ok (o_store o a).
