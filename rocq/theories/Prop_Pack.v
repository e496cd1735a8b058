(** C17-C20: packed layouts and packing. *)
From Coq Require Import SpecFloat.
From Verif Require Import Base SidePair SpecArith Mat Scalars Pack SpecMatrix SpecPack FloatOps IntOps PackProps.

(** The packed layout exists for every source whose packed size fits in an int. *)
Theorem C17_layout : forall dbg src k, valid_kernel_layout k -> 0 <= ml_rows src -> 0 <= ml_cols src ->
  (ml_rows src + kl_rows k) * (ml_cols src + kl_cols k) <= int_max ->
  exists l, create_packed_layout dbg src k = Ok l /\ packed_layout_of src k l.
Proof. exact created_layout. Qed.
Print Assumptions C17_layout.
Example C17_layout_nonvacuous :
  create_packed_layout true {| ml_rows := 5; ml_cols := 9; ml_stride := 5; ml_order := ColMajor |}
    {| kl_order := RowMajor; kl_rows := 4; kl_cols := 8 |} =
  Ok {| pl_rows := 8; pl_cols := 16; pl_stride := 8; pl_order := ColMajor;
        pl_kernel := {| kl_order := RowMajor; kl_rows := 4; kl_cols := 8 |} |}.
Proof. reflexivity. Qed.

(** Positions are a bijection; each range of whole kernel columns [a, b) occupies
    exactly the contiguous range [a * rows, b * rows) (with a = 0 and b = cols:
    the whole buffer). *)
Theorem C17_bijection : forall dbg src k l, valid_kernel_layout k ->
  0 <= ml_rows src -> 0 <= ml_cols src -> packed_layout_of src k l ->
  forall a b, 0 <= a <= b -> b <= pl_cols l -> (kl_cols k | a) -> (kl_cols k | b) ->
  numbers_cells (poffset dbg l) (pl_rows l) a b (a * pl_rows l) (b * pl_rows l).
Proof. exact packed_offsets_number. Qed.
Print Assumptions C17_bijection.
Example C17_bijection_nonvacuous :
  let l := {| pl_rows := 4; pl_cols := 4; pl_stride := 4; pl_order := ColMajor;
              pl_kernel := {| kl_order := RowMajor; kl_rows := 2; kl_cols := 2 |} |} in
  map (fun c => map (fun r => poffset true l r c) (zrange 0 4)) (zrange 2 4) =
  [[Ok 8; Ok 10; Ok 12; Ok 14]; [Ok 9; Ok 11; Ok 13; Ok 15]].
Proof. vm_compute. reflexivity. Qed.

Theorem C17_flat_size : forall src k l, 0 <= ml_rows src -> 0 <= ml_cols src -> valid_kernel_layout k ->
  packed_layout_of src k l -> pflat_size l = Ok (pl_rows l * pl_cols l).
Proof. exact packed_flat_size. Qed.
Print Assumptions C17_flat_size.
Example C17_flat_size_nonvacuous :
  pflat_size {| pl_rows := 8; pl_cols := 16; pl_stride := 8; pl_order := ColMajor;
     pl_kernel := {| kl_order := RowMajor; kl_rows := 4; kl_cols := 8 |} |} = Ok 128.
Proof. reflexivity. Qed.

(** Without the size bound the claim is false: a packed matrix whose sizes are
    perfectly representable, but whose positions overflow int. *)
Theorem C17_without_size_bound_refuted : exists src k l, valid_kernel_layout k /\
  create_packed_layout false src k = Ok l /\ pflat_size l = Ok (pl_rows l * pl_cols l) /\
  exists r c, 0 <= r < pl_rows l /\ 0 <= c < pl_cols l /\ poffset false l r c = UB.
Proof. exact large_packed_offset_overflows. Qed.
Print Assumptions C17_without_size_bound_refuted.

(** Content after packing any list of block ranges, in any order: packed entries,
    padding, sums, and everything else untouched. *)
Theorem C18_content : forall V dbg (o : ops V) s k src, valid_kernel_layout k -> valid_matrix src ->
  forall p l, packed_for src k p -> block_ranges (kl_cols k) (pl_cols (p_layout p)) l ->
  (forall c, covered l c -> exists v, packed_sum o s src (p_zp p) (pl_rows (p_layout p)) c = Ok v) ->
  exists q, pack_ranges dbg o s (kl_cols k) src l p = Ok q /\
    p_layout q = p_layout p /\ p_zp q = p_zp p /\ blen (p_data q) = blen (p_data p) /\
    (forall r c, 0 <= r < pl_rows (p_layout p) -> covered l c ->
       pelement dbg q r c = Ok (packed_entry o s src (p_zp p) r c)) /\
    (forall i, (forall r c, 0 <= r < pl_rows (p_layout p) -> covered l c -> poffset dbg (p_layout p) r c <> Ok i) ->
       bdat (p_data q) i = bdat (p_data p) i) /\
    match p_sums p, p_sums q with
    | None, None => True
    | Some b, Some b' => blen b' = blen b /\
        (forall c, covered l c -> packed_sum o s src (p_zp p) (pl_rows (p_layout p)) c = Ok (bdat b' c)) /\
        (forall c, ~ covered l c -> bdat b' c = bdat b c)
    | _, _ => False
    end.
Proof. exact run_pack_ranges. Qed.
Print Assumptions C18_content.

(** Two lists of ranges covering the same columns give the same buffers. *)
Theorem C18_order_independent : forall V dbg (o : ops V) s k src, valid_kernel_layout k -> valid_matrix src ->
  forall p l1 l2, packed_for src k p ->
  block_ranges (kl_cols k) (pl_cols (p_layout p)) l1 -> block_ranges (kl_cols k) (pl_cols (p_layout p)) l2 ->
  (forall c, covered l1 c <-> covered l2 c) ->
  (forall c, covered l1 c -> exists v, packed_sum o s src (p_zp p) (pl_rows (p_layout p)) c = Ok v) ->
  exists q1 q2, pack_ranges dbg o s (kl_cols k) src l1 p = Ok q1 /\
    pack_ranges dbg o s (kl_cols k) src l2 p = Ok q2 /\ same_buffers q1 q2.
Proof. exact pack_ranges_order. Qed.
Print Assumptions C18_order_independent.

(** Non-vacuity of both: a 3x3 int8 source packed in 2x2 blocks, in two orders. *)
Example C18_nonvacuous :
  let src := {| m_data := {| blen := 9; bdat := fun i => i + 1 |};
                m_layout := {| ml_rows := 3; ml_cols := 3; ml_stride := 3; ml_order := ColMajor |}; m_zp := 7 |} in
  let k := {| kl_order := ColMajor; kl_rows := 2; kl_cols := 2 |} in
  let p := {| p_data := {| blen := 16; bdat := fun _ => 99 |};
              p_sums := Some {| blen := 4; bdat := fun _ => 99 |};
              p_layout := {| pl_rows := 4; pl_cols := 4; pl_stride := 4; pl_order := ColMajor; pl_kernel := k |};
              p_zp := 7 |} in
  let o := int_ops checked true (mk_sp s8 s8) (mk_sp s8 s8) s8 in
  match pack_ranges true o Lhs 2 src [(2, 4); (0, 2)] p with
  | Ok q => map (bdat (p_data q)) (zrange 0 16) = [1; 2; 4; 5; 3; 7; 6; 7; 7; 8; 7; 7; 9; 7; 7; 7] /\
            option_map (fun b => map (bdat b) (zrange 0 4)) (p_sums q) = Some [13; 22; 31; 28]
  | _ => False
  end.
Proof. vm_compute. auto. Qed.

(** For integers the stored sums are the mathematical sums (no overflow). *)
Theorem C18_integer_sums : forall dbg st pt dt s (src : mat Z) zp rows c,
  0 < it_bits (get s pt) -> 0 <= rows ->
  rows * Z.max (- it_lo (get s pt)) (it_hi (get s pt)) <= int_max ->
  packed_sum (int_ops checked dbg st pt dt) s src zp rows c =
  Ok (zsum (map (fun r => packed_entry (int_ops checked dbg st pt dt) s src zp r c) (zrange 0 rows))).
Proof. exact sums_are_exact. Qed.
Print Assumptions C18_integer_sums.
Example C18_integer_sums_nonvacuous : 8000000 * Z.max (- it_lo s8) (it_hi s8) <= int_max.
Proof. vm_compute. discriminate. Qed.

(** The fast pack stores what the generic pack stores, up to the sign of zero;
    exactly the same bits if the source has no negative zero. *)
Theorem C19_fast_pack : forall dbg prec emax size s kc src p,
  valid_kernel_layout {| kl_order := RowMajor; kl_rows := 1; kl_cols := kc |} ->
  valid_matrix src -> ml_order (m_layout src) = RowMajor ->
  packed_for src {| kl_order := RowMajor; kl_rows := 1; kl_cols := kc |} p -> p_zp p = 0 ->
  forall a b, 0 <= a < b -> b <= pl_cols (p_layout p) -> (kc | a) -> (kc | b) ->
  exists q1 q2, memcpy_pack dbg fzero kc src p a b = Ok q1 /\
    run_pack dbg (float_ops prec emax size) s kc src p a b = Ok q2 /\
    p_sums q1 = p_sums p /\
    blen (p_data q1) = blen (p_data q2) /\
    (forall i, zero_sign_only (bdat (p_data q1) i) (bdat (p_data q2) i)) /\
    ((forall r c, in_matrix (m_layout src) r c -> a <= c < b -> entry src r c <> S754_zero true) ->
      forall i, bdat (p_data q1) i = bdat (p_data q2) i).
Proof. exact fast_pack_cells. Qed.
Print Assumptions C19_fast_pack.
Example C19_fast_pack_nonvacuous :
  let one := S754_finite false 1 0 in
  let src := {| m_data := {| blen := 6; bdat := fun i => S754_finite false (Z.to_pos (i + 1)) 0 |};
                m_layout := {| ml_rows := 2; ml_cols := 3; ml_stride := 3; ml_order := RowMajor |}; m_zp := 0 |} in
  let k := {| kl_order := RowMajor; kl_rows := 1; kl_cols := 2 |} in
  let p := {| p_data := {| blen := 8; bdat := fun _ => one |}; p_sums := None;
              p_layout := {| pl_rows := 2; pl_cols := 4; pl_stride := 2; pl_order := ColMajor; pl_kernel := k |};
              p_zp := 0 |} in
  match memcpy_pack true fzero 2 src p 0 4, run_pack true f32_ops Lhs 2 src p 0 4 with
  | Ok q1, Ok q2 => map (bdat (p_data q1)) (zrange 0 8) = map (bdat (p_data q2)) (zrange 0 8) /\
      bdat (p_data q1) 6 = S754_finite false 6 0 /\ bdat (p_data q1) 7 = fzero
  | _, _ => False
  end.
Proof. vm_compute. auto. Qed.

(** The two are not bit-identical: -0 is copied by one and becomes +0 in the other. *)
Theorem C19_bit_identical_refuted : exists src p a b q1 q2,
  valid_matrix src /\ packed_for src {| kl_order := RowMajor; kl_rows := 1; kl_cols := 2 |} p /\
  memcpy_pack true fzero 2 src p a b = Ok q1 /\ run_pack true f32_ops Lhs 2 src p a b = Ok q2 /\
  exists i, 0 <= i < blen (p_data p) /\ bdat (p_data q1) i <> bdat (p_data q2) i.
Proof. exact fast_pack_negative_zero. Qed.
Print Assumptions C19_bit_identical_refuted.

(** uint8 to int8: in range, and differences to the zero point are preserved. *)
Theorem C20_uint8_to_int8 : forall x z, 0 <= x <= 255 -> 0 <= z <= 255 ->
  -128 <= pack_int u8 s8 x <= 127 /\ pack_int u8 s8 x - pack_int u8 s8 z = x - z.
Proof. exact uint8_to_int8. Qed.
Print Assumptions C20_uint8_to_int8.
Example C20_uint8_to_int8_nonvacuous : pack_int u8 s8 255 = 127 /\ pack_int u8 s8 0 = -128.
Proof. vm_compute. auto. Qed.

(** The SIMD conversion: XOR with 0x80, reinterpreted as signed. *)
Theorem C20_xor : forall x, 0 <= x <= 255 -> wrap_s 8 (Z.lxor x 128) = pack_int u8 s8 x.
Proof. exact xor_is_conversion. Qed.
Print Assumptions C20_xor.
Example C20_xor_nonvacuous : wrap_s 8 (Z.lxor 200 128) = 72.
Proof. reflexivity. Qed.

(** Types that are not converted keep their values. *)
Theorem C20_same_type : forall t x, 0 < it_bits t -> it_lo t <= x <= it_hi t -> pack_int t t x = x.
Proof. exact same_type_pack. Qed.
Print Assumptions C20_same_type.
Example C20_same_type_nonvacuous : pack_int u8 u8 200 = 200 /\ pack_int s16 s16 (-32768) = -32768.
Proof. vm_compute. auto. Qed.
