(** What a multiplication of floats on the AArch64 paths takes and gives. *)
From Coq Require Import ZArith List Bool SpecFloat.
From Verif Require Import Base SidePair Mat Scalars FloatOps MulParams SpecMatrix SpecMul TrMulRun SimdFloat Tune.
Import ListNotations.
Open Scope Z_scope.

(** A float, as opposed to a value of [spec_float] that no float has. *)
Definition is_float (x : spec_float) : Prop := valid_binary 24 128 x = true.
Definition all_floats (b : buf spec_float) : Prop := forall i, is_float (bdat b i).

(** The order in which the products of an entry are added: increasing depth, but the kernel unrolled for out-of-order
    processors moves one product by three places for three quarters of the entries if the depth is at least 8. *)
Definition unrolled (t : tuning) : bool := match t with TA55ish | TX1 => false | _ => true end.
Definition neon_order (t : tuning) (depth i j : Z) : list Z :=
  if unrolled t && (8 <=? depth) && negb ((i mod 8 <? 4) && (j mod 8 <? 4)) then
    let b := 4 * (depth / 4) - 4 in zrange 0 b ++ [b + 1; b + 2; b + 3; b] ++ zrange (b + 4) depth
  else zrange 0 depth.

(** The entries for which it does not. *)
Definition quarter (i j : Z) : bool := (i mod 8 <? 4) && (j mod 8 <? 4).

(** Each product and sum is rounded once; the first is added to +0. *)
Definition neon_dot (order : list Z) (l r : Z -> spec_float) : spec_float :=
  fold_left (fun acc k => fused_mul_add 24 128 (l k) (r k) acc) order (S754_zero false).

(** NaN if either is; +0 is larger than -0. *)
Definition larger (x y : spec_float) : spec_float :=
  match SFcompare x y, x, y with
  | None, _, _ => S754_nan
  | Some Eq, S754_zero s, S754_zero s' => S754_zero (s && s')
  | Some Lt, _, _ => y
  | _, _, _ => x
  end.
Definition smaller (x y : spec_float) : spec_float :=
  match SFcompare x y, x, y with
  | None, _, _ => S754_nan
  | Some Eq, S754_zero s, S754_zero s' => S754_zero (s || s')
  | Some Gt, _, _ => y
  | _, _, _ => x
  end.

(** The bias is added after the products, then the lower bound is applied, then the upper one. *)
Definition neon_finish (bias lo hi dot : spec_float) : spec_float := smaller (larger (SFadd 24 128 dot bias) lo) hi.

(** Blocks of the kernels. *)
Definition neon_blocks : sp kernel_layout := let k := {| kl_order := RowMajor; kl_rows := 1; kl_cols := 8 |} in mk_sp k k.

(** [n] columns of stride [s]: the offset of the last four of them, the number being rounded up to a multiple of 8. *)
Definition last_offset (s n : Z) : Z := s * (8 * ((n + 7) / 8) - 4).

Record neon_mul (c : config) (g : garbage spec_float) (l r dst : mat spec_float) (mp : mul_params spec_float) : Prop := {
  nm_call : valid_call c f32_ops neon_blocks l r dst mp;
  (** the stride in bytes is an int32 *)
  nm_stride : 4 * ml_stride (m_layout dst) <= int_max;
  (** the offsets of blocks of four columns are ints, even if there is no such column *)
  nm_lhs_offsets : ml_order (m_layout l) = RowMajor -> last_offset (ml_stride (m_layout l)) (ml_rows (m_layout l)) <= int_max;
  nm_rhs_offsets : ml_order (m_layout r) = ColMajor -> last_offset (ml_stride (m_layout r)) (ml_cols (m_layout r)) <= int_max;
  (** the memory holds floats *)
  nm_lhs : all_floats (m_data l);
  nm_rhs : all_floats (m_data r);
  nm_dst : all_floats (m_data dst);
  nm_bias : forall b, mp_bias mp = Some b -> all_floats b;
  nm_bounds : is_float (mp_min mp) /\ is_float (mp_max mp);
  nm_fresh : forall i, is_float (g_chan g i) /\ forall s, is_float (g_packed g s i)
}.

Definition neon_bias (mp : mul_params spec_float) (i j : Z) : spec_float :=
  match mp_bias mp with Some b => bdat b (channel_at mp i j) | None => S754_zero false end.
Definition neon_entry (t : tuning) (l r : mat spec_float) (mp : mul_params spec_float) (i j : Z) : spec_float :=
  neon_finish (neon_bias mp i j) (mp_min mp) (mp_max mp) (neon_dot (neon_order t (ml_rows (m_layout r)) i j) (fun k => entry l i k) (fun k => entry r k j)).

(** [out] is the product, each entry computed with one of the tunings that occur; the rest is as before. *)
Definition neon_product (occurs : tuning -> Prop) (l r : mat spec_float) (mp : mul_params spec_float) (dst out : mat spec_float) : Prop :=
  m_layout out = m_layout dst /\ m_zp out = m_zp dst /\ blen (m_data out) = blen (m_data dst) /\
  (forall i j, in_matrix (m_layout dst) i j -> exists t, occurs t /\ entry out i j = neon_entry t l r mp i j) /\
  (forall q, (forall i j, in_matrix (m_layout dst) i j -> q <> position (m_layout dst) i j) -> bdat (m_data out) q = bdat (m_data dst) q).
