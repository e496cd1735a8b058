(** What the 8-bit vector kernels compute: calls they accept, values they store. *)
From Coq Require Import ZArith List.
From Verif Require Import Base SidePair Mat Scalars Pack IntOps MulParams SpecRound SpecMatrix SpecPack SpecMul SpecSimd Kernel8bit Kernel8bitAvx.
Import ListNotations.
Open Scope Z_scope.

(** A packed matrix in blocks of [n] columns and four levels of depth, with values of type [t]. *)
Definition packed_blocks (n : Z) (t : ity) (p : pmat Z) : Prop :=
  let l := p_layout p in
  pl_kernel l = {| kl_order := ColMajor; kl_rows := 4; kl_cols := n |} /\ pl_order l = ColMajor /\ pl_stride l = pl_rows l /\
  0 <= pl_rows l /\ (4 | pl_rows l) /\ 0 <= pl_cols l /\ (n | pl_cols l) /\ pl_rows l * pl_cols l <= int_max /\
  pl_rows l * pl_cols l <= blen (p_data p) /\
  forall q, 0 <= q < blen (p_data p) -> it_lo t <= bdat (p_data p) q <= it_hi t.

(** Columns [c0, c1) of [p] hold [f]. *)
Definition holds (p : pmat Z) (f : Z -> Z -> Z) (c0 c1 : Z) : Prop :=
  forall k c, 0 <= k < pl_rows (p_layout p) -> c0 <= c < c1 -> pelement false p k c = Ok (f k c).

(** Where the zero point [zp] of the other side is not 0, there are sums of the columns, right modulo 2^32. *)
Definition has_sums (p : pmat Z) (f : Z -> Z -> Z) (c0 c1 zp : Z) : Prop :=
  zp <> 0 -> exists b, p_sums p = Some b /\ pl_cols (p_layout p) <= blen b /\
    forall c, c0 <= c < c1 ->
      (bdat b c) mod 2 ^ 32 = (zsum (map (fun k => f k c) (zrange 0 (pl_rows (p_layout p))))) mod 2 ^ 32.

(** Whole blocks [start, end_), at least one, the last of which begins inside the destination. *)
Definition whole_blocks (n start end_ packed size : Z) : Prop :=
  0 <= start < end_ /\ (n | start) /\ (n | end_) /\ end_ <= packed /\ end_ - n < size.

(** The arrays of channels cover the blocks of channels up to [c]: kernels load whole blocks. *)
Definition params_cover (dt : ity) (mp : mul_params Z) (c : Z) : Prop :=
  (forall b, mp_bias mp = Some b -> c <= blen b) /\
  (if mp_perchannel mp then
     dt <> s32 /\ exists m e, mp_mult_pc mp = Some m /\ mp_exp_pc mp = Some e /\ c <= blen m /\ c <= blen e /\
       forall i, 0 <= i < c -> fixed_point (bdat m i) /\ exponent (bdat e i)
   else dt <> s32 -> fixed_point (mp_mult mp) /\ exponent (mp_exp mp)).

(** A call of a kernel with blocks of [n] rows and columns, on the entries [sr, er) x [sc, ec) of
    the destination. Columns of the operands beyond those of the destination may hold anything. *)
Record vector_call (n : Z) (rt dt : ity) (lp rp : pmat Z) (L R : Z -> Z -> Z) (mp : mul_params Z)
    (sr sc er ec : Z) (dl : mat_layout) (dst : buf Z) : Prop := {
  vk_lhs : packed_blocks n s8 lp /\ holds lp L sr (Z.min er (ml_rows dl)) /\ has_sums lp L sr (Z.min er (ml_rows dl)) (p_zp rp);
  vk_rhs : packed_blocks n rt rp /\ holds rp R sc (Z.min ec (ml_cols dl)) /\ has_sums rp R sc (Z.min ec (ml_cols dl)) (p_zp lp);
  vk_depth : pl_rows (p_layout rp) = pl_rows (p_layout lp);
  vk_rows : whole_blocks n sr er (pl_cols (p_layout lp)) (ml_rows dl);
  vk_cols : whole_blocks n sc ec (pl_cols (p_layout rp)) (ml_cols dl);
  vk_dst : dt = u8 \/ dt = s8 \/ dt = s16 \/ dt = s32;
  vk_layout : valid_layout dl /\ ml_order dl = ColMajor /\ ml_stride dl * ml_cols dl <= blen dst;
  vk_params : params_cover dt mp (match mp_chan mp with ChRow => er | ChCol => ec end);
  vk_bounds : it_lo dt <= mp_min mp <= it_hi dt /\ it_lo dt <= mp_max mp <= it_hi dt;
  (** offsets in bytes computed as int32 *)
  vk_rhs_bytes : n * (it_bits rt / 8 * pl_stride (p_layout rp)) <= int_max;
  vk_dst_bytes : n * (it_bits dt / 8 * ml_stride dl) <= int_max;
  vk_zero_points : is_i32 (p_zp lp * p_zp rp) /\ is_i32 (p_zp lp * p_zp rp * pl_rows (p_layout lp))
}.

(** The exact accumulator of an entry. *)
Definition exact_accumulator (depth zl zr : Z) (L R : Z -> Z -> Z) (mp : mul_params Z) (i j : Z) : Z :=
  zsum (map (fun k => (L k i - zl) * (R k j - zr)) (zrange 0 depth)) + bias_at mp i j.

(** What is stored for the accumulator [acc]: modulo 2^32 for int32 (the zero point of the destination is
    not used); else rounded twice, offset in 32 bits and clamped. *)
Definition vector_result (dt : ity) (mp : mul_params Z) (dst_zp i j acc v : Z) : Prop :=
  if ity_eqb dt s32 then v = wrap_s 32 acc
  else exists q, twice_rounded acc (multiplier_at mp i j) (exponent_at mp i j) q /\
         clamped (mp_min mp) (mp_max mp) (wrap_s 32 (q + dst_zp)) v.

(** The entries [sr, er) x [sc, ec) of the destination satisfy [P], and nothing else changed. *)
Definition block_computed (P : Z -> Z -> Z -> Prop) (sr sc er ec : Z) (dl : mat_layout) (dst dst' : buf Z) : Prop :=
  blen dst' = blen dst /\
  (forall i j, sr <= i < er -> sc <= j < ec -> in_matrix dl i j -> P i j (bdat dst' (position dl i j))) /\
  (forall q, (forall i j, sr <= i < er -> sc <= j < ec -> in_matrix dl i j -> q <> position dl i j) ->
     bdat dst' q = bdat dst q).

(** The accumulator is an int32, and so is what the left shift makes of it. *)
Definition entry_fits (acc e : Z) : Prop := is_i32 acc /\ e <= 30 /\ is_i32 (acc * 2 ^ Z.max e 0).

(** What the right-hand side of a kernel may hold: the kernels of AVX2 and AVX-512 also take int16. *)
Definition rhs_type (wide : bool) (t : ity) : Prop := t = s8 \/ (wide = true /\ t = s16).

(** The kernels and the right-hand sides they take. *)
Definition vector_kernel (v : isa) (rt : ity) : Prop :=
  (v = avx2 /\ rhs_type true rt) \/ (v = avx /\ rt = s8) \/ (v = avx512 /\ rhs_type true rt).
