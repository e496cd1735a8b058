(** Specification vocabulary for whole multiplications. *)
From Verif Require Import Base SidePair SpecArith SpecMatrix SpecPack SpecRound SpecBlockMap BlockMap Mat Scalars
  Multiplier IntOps MulParams TrMul TrMulMachine SpecMachine TrMulRun.

(** A per-channel array for [n] channels: the user provides [cap] values, of which
    those past [n] are zero. *)
Definition channel_array {A} (is_zero : A -> bool) (b : option (buf A)) (n cap : Z) : Prop :=
  forall x, b = Some x -> cap <= blen x /\ forall i, n <= i < cap -> is_zero (bdat x i) = true.

(** The per-channel arrays of a MulParams hold as many values as their documentation
    asks for: the number of channels rounded up to the declared capacity rounding. *)
Definition valid_params {V} (o : ops V) (mp : mul_params V) (n : Z) : Prop :=
  0 <= mp_rounding_log2 mp <= 30 /\ n + 2 ^ mp_rounding_log2 mp <= int_max /\
  forall cap, is_round_up n (2 ^ mp_rounding_log2 mp) cap ->
    channel_array (o_is_zero o) (mp_bias mp) n cap /\
    channel_array (fun z => z =? 0) (multiplier_fixedpoint_perchannel mp) n cap /\
    channel_array (fun z => z =? 0) (multiplier_exponent_perchannel mp) n cap.

(** The number of channels: rows or columns of the destination. *)
Definition channel_count {V} (mp : mul_params V) (dst : mat_layout) : Z :=
  match mp_chan mp with ChRow => ml_rows dst | ChCol => ml_cols dst end.

(** The kernel layout that applies to the rows of the destination, and to its columns: a
    product with row-major destination is computed transposed. *)
Definition row_kernel (kl : sp kernel_layout) (dst : mat_layout) : kernel_layout :=
  match ml_order dst with ColMajor => lhs kl | RowMajor => rhs kl end.
Definition col_kernel (kl : sp kernel_layout) (dst : mat_layout) : kernel_layout :=
  match ml_order dst with ColMajor => rhs kl | RowMajor => lhs kl end.

(** Well-formed calls of ruy::Mul: the matrices are valid, their shapes match, the
    parameters hold what their documentation asks for, and sizes fit in an int. *)
Record well_formed_call {V} (dbg : bool) (o : ops V) (kl : sp kernel_layout) (l r dst : mat V) (mp : mul_params V) : Prop := {
  wc_kernels : valid_kernel_layout (lhs kl) /\ valid_kernel_layout (rhs kl) /\ kl_rows (rhs kl) = kl_rows (lhs kl);
  wc_matrices : valid_matrix l /\ valid_matrix r /\ valid_matrix dst;
  wc_shapes : ml_cols (m_layout l) = ml_rows (m_layout r) /\ ml_rows (m_layout dst) = ml_rows (m_layout l) /\
    ml_cols (m_layout dst) = ml_cols (m_layout r);
  (** packed matrices have at most [int_max] entries and their sums fit *)
  wc_fits : forall k n s, k = lhs kl \/ k = rhs kl -> n = ml_rows (m_layout dst) \/ n = ml_cols (m_layout dst) ->
    (ml_rows (m_layout r) + kl_rows k) * (n + kl_cols k) <= int_max /\ (n + kl_cols k) * o_sums_size o s <= int_max;
  (** sizes of scalars in bytes *)
  wc_sizes : forall s, 1 <= o_src_size o s <= o_data_size o s /\ o_data_size o s <= 8 /\ 0 < o_sums_size o s;
  wc_params : valid_params o mp (channel_count mp (m_layout dst));
  (** only asserted in debug builds *)
  wc_zero_points : dbg = true -> o_validate o (m_zp l) (m_zp r) (m_zp dst) = true
}.

(** The calls that can be computed: well-formed, non-empty, and small enough that the
    block map can be made. *)
Record valid_call {V} (c : config) (o : ops V) (kl : sp kernel_layout) (l r dst : mat V) (mp : mul_params V) : Prop := {
  vc_well_formed : well_formed_call (c_dbg c) o kl l r dst mp;
  vc_nonempty : 0 < ml_rows (m_layout dst) /\ 0 < ml_cols (m_layout dst) /\ 0 < ml_rows (m_layout r);
  vc_threads : 1 <= c_max_threads c <= int_max;
  vc_blocks : forall R C n,
    is_round_up (ml_rows (m_layout dst)) (kl_cols (row_kernel kl (m_layout dst))) R ->
    is_round_up (ml_cols (m_layout dst)) (kl_cols (col_kernel kl (m_layout dst))) C ->
    1 <= n <= c_max_threads c ->
    match ml_order (m_layout dst) with
    | ColMajor => bm_domain R C (ml_rows (m_layout r)) (kl_cols (lhs kl)) (kl_cols (rhs kl))
                    (o_data_size o Lhs) (o_data_size o Rhs) n (c_cache c)
    | RowMajor => bm_domain C R (ml_rows (m_layout r)) (kl_cols (lhs kl)) (kl_cols (rhs kl))
                    (o_data_size o Rhs) (o_data_size o Lhs) n (c_cache c)
    end
}.

(** Bit-for-bit equality of matrices: layout, zero point, all of the buffer. *)
Definition same_matrix {V} (a b : mat V) : Prop :=
  m_layout a = m_layout b /\ m_zp a = m_zp b /\ blen (m_data a) = blen (m_data b) /\
  forall x, bdat (m_data a) x = bdat (m_data b) x.

(** The same logical matrix, possibly stored in another order or with another stride. *)
Definition same_entries {V} (a b : mat V) : Prop :=
  ml_rows (m_layout a) = ml_rows (m_layout b) /\ ml_cols (m_layout a) = ml_cols (m_layout b) /\ m_zp a = m_zp b /\
  forall i j, in_matrix (m_layout a) i j -> entry a i j = entry b i j.

(** * Integers *)

(** Packed scalars are the source scalars, or int8 for uint8 sources. *)
Definition packed_as (s p : ity) : Prop := p = s \/ (s = u8 /\ p = s8).

(** Entries and zero point are values of the type. *)
Definition values_of (t : ity) (m : mat Z) : Prop :=
  it_lo t <= m_zp m <= it_hi t /\ forall i j, in_matrix (m_layout m) i j -> it_lo t <= entry m i j <= it_hi t.

Definition integer_operands (st pt : sp ity) (l r : mat Z) : Prop :=
  (forall s, 0 < it_bits (get s st) /\ packed_as (get s st) (get s pt)) /\ values_of (lhs st) l /\ values_of (rhs st) r.

(** The product of the matrices of real values (entry minus zero point). *)
Definition exact_dot (l r : mat Z) (i j : Z) : Z :=
  zsum (map (fun k => (entry l i k - m_zp l) * (entry r k j - m_zp r)) (zrange 0 (ml_rows (m_layout r)))).

Definition channel_at {V} (mp : mul_params V) (i j : Z) : Z := match mp_chan mp with ChRow => i | ChCol => j end.
Definition bias_at (mp : mul_params Z) (i j : Z) : Z :=
  match mp_bias mp with None => 0 | Some b => bdat b (channel_at mp i j) end.
Definition exact_acc (l r : mat Z) (mp : mul_params Z) (i j : Z) : Z := exact_dot l r i j + bias_at mp i j.

(** The multiplier of a channel: fixed-point part and exponent. *)
Definition multiplier_at (mp : mul_params Z) (i j : Z) : Z :=
  if mp_perchannel mp then match mp_mult_pc mp with Some b => bdat b (channel_at mp i j) | None => 0 end else mp_mult mp.
Definition exponent_at (mp : mul_params Z) (i j : Z) : Z :=
  if mp_perchannel mp then match mp_exp_pc mp with Some b => bdat b (channel_at mp i j) | None => 0 end else mp_exp mp.

(** [s] is the accumulator scaled to the destination: rounded to nearest, or unchanged
    if the destination is int32. *)
Definition scaled_to (dt : ity) (mp : mul_params Z) (i j acc s : Z) : Prop :=
  if ity_eqb dt s32 then s = acc
  else nearest_ties_up (acc * multiplier_at mp i j) (2 ^ (31 - exponent_at mp i j)) s.

(** No intermediate value of the exact computation of an entry leaves int32, and the
    multiplier is one. *)
Definition representable (dt : ity) (mp : mul_params Z) (dzp i j acc : Z) : Prop :=
  is_i32 acc /\
  (ity_eqb dt s32 = false -> is_i32 (multiplier_at mp i j) /\ -31 <= exponent_at mp i j <= 30) /\
  exists s, scaled_to dt mp i j acc s /\ is_i32 s /\ is_i32 (s + dzp).

(** [v] is what should be stored for accumulator [acc]: scaled, offset by the zero point
    and clamped. *)
Definition exact_result (dt : ity) (mp : mul_params Z) (dzp i j acc v : Z) : Prop :=
  exists s, scaled_to dt mp i j acc s /\ clamped (mp_min mp) (mp_max mp) (s + dzp) v.

(** The clamp bounds are values of the destination type. *)
Definition valid_bounds (dt : ity) (mp : mul_params Z) : Prop :=
  0 < it_bits dt /\ it_lo dt <= mp_min mp <= it_hi dt /\ it_lo dt <= mp_max mp <= it_hi dt.

(** The largest absolute value of a type. *)
Definition max_abs (t : ity) : Z := Z.max (- it_lo t) (it_hi t).

(** * Per-channel arrays *)

(** [b'] stands in for the user's array [b] of [n] channels where [req] values are read:
    it is the same array, or a private copy continued with zeros. *)
Definition stands_for {A} (zero : A) (copied : bool) (b b' : option (buf A)) (n req : Z) : Prop :=
  match b, b' with
  | None, None => True
  | Some x, Some y => req <= blen y /\ (forall i, 0 <= i < n -> bdat y i = bdat x i) /\
      (if copied then forall i, n <= i < req -> bdat y i = zero else y = x)
  | _, _ => False
  end.

(** All that kernels use of [mp] is kept by [mp']. *)
Record params_stand_for {V} (o : ops V) (copied : bool) (mp mp' : mul_params V) (n req : Z) : Prop := {
  sf_bias : stands_for (o_acc0 o) copied (mp_bias mp) (mp_bias mp') n req;
  (** the multipliers of quantized destinations *)
  sf_mult : o_quant o <> None ->
     stands_for 0 copied (multiplier_fixedpoint_perchannel mp) (multiplier_fixedpoint_perchannel mp') n req;
  sf_exp : o_quant o <> None ->
     stands_for 0 copied (multiplier_exponent_perchannel mp) (multiplier_exponent_perchannel mp') n req;
  sf_uniform : multiplier_fixedpoint mp' = multiplier_fixedpoint mp /\ multiplier_exponent mp' = multiplier_exponent mp;
  sf_bounds : mp_min mp' = mp_min mp /\ mp_max mp' = mp_max mp
}.

(** The kernel layout that applies to the channels. *)
Definition channel_kernel {V} (kl : sp kernel_layout) (mp : mul_params V) (dst : mat_layout) : kernel_layout :=
  match mp_chan mp with ChRow => row_kernel kl dst | ChCol => col_kernel kl dst end.
