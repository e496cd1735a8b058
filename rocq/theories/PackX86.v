(** Model of the x86 packing functions for 8- and 16-bit integers: the PackImpl::Run of
    ruy/pack_x86.h and the functions of ruy/pack_avx2_fma.cc, ruy/pack_avx.cc and
    ruy/pack_avx512.cc.

    The three files spell out the same loops with different instructions; the loops are
    modelled once over a record of the instruction sequences that differ. The variables
    src_ptr0, ..., src_ptr7 are a list, as are the registers t0, ... and r0, .... A pointer
    is a buffer with an offset in scalars; reading or writing outside the buffer is
    undefined behaviour, but computing a pointer outside it is not (the code computes
    src_ptr + j * src_stride for columns that do not exist, without reading from it). *)
From Coq Require Import ZArith List Bool.
From Verif Require Import Base SidePair Mat Scalars IntOps Pack MulParams Kernel Simd SimdRequant Kernel8bit Kernel8bitAvx.
Import ListNotations.
Open Scope Z_scope.

(** ** Instructions not in Simd.v *)

(** xor_si128, xor_si256, xor_si512. *)
Definition xor_si (a b : vec) : vec := map2 Z.lxor a b.
Definition add_epi16 := binop 2 Z.add.
Definition cvtepi16_epi32 (a : vec) : vec := of_lanes 4 (slanes 2 a).
(** unpacklo_epi8, unpacklo_epi16, unpackhi_epi16. *)
Definition interleave (n : nat) (idx : list nat) : vec -> vec -> vec :=
  in_lanes2 (fun x y => concat (map (fun i => pick n x [i] ++ pick n y [i]) idx)).
Definition unpacklo_epi8 := interleave 1 [0; 1; 2; 3; 4; 5; 6; 7]%nat.
Definition unpacklo_epi16 := interleave 2 [0; 1; 2; 3]%nat.
Definition unpackhi_epi16 := interleave 2 [4; 5; 6; 7]%nat.
(** _mm512_shuffle_i32x4: two 128-bit lanes of [a], then two of [b]. *)
Definition shuffle_i32x4 (a b : vec) (imm : Z) : vec :=
  pick 16 a [imm_field imm 0; imm_field imm 1] ++ pick 16 b [imm_field imm 2; imm_field imm 3].
(** _mm512_permutex_epi64: 64-bit lanes within each half of 256 bits. *)
Definition permutex_epi64 (a : vec) (imm : Z) : vec :=
  concat (map (fun v => pick 8 v (map (imm_field imm) [0; 1; 2; 3]%nat)) (chunks 32 a)).
Definition mask_blend_epi64 (mask : Z) (a b : vec) : vec := blend 8 a b mask.
(** _mm256_permutexvar_epi64. *)
Definition permutexvar4_epi64 (idx a : vec) : vec :=
  pick 8 a (map (fun i => Z.to_nat (i mod 4)) (ulanes 8 idx)).
(** mask_loadu_epi8, mask_loadu_epi16: lane i is read if bit i of the mask is set, else taken from [src]. *)
Fixpoint mask_loadu (w : nat) (mask i : Z) (src : list vec) (b : buf Z) (off : Z) : res vec :=
  match src with
  | [] => Ok []
  | v :: src =>
    x <- (if Z.testbit mask i then load w 1 b (off + i) else Ok v) ;;
    l <- mask_loadu w mask (i + 1) src b off ;;
    Ok (x ++ l)
  end.

(** ** The instruction sequences of a column-major source *)
Record col_packer := {
  c_width : Z;                             (* Layout::kCols: 8 or 16 *)
  c_size : nat;                            (* bytes of a scalar *)
  c_unroll : Z;                            (* chunks of rows in an iteration *)
  c_mask_load : bool -> Z -> Z -> buf Z -> Z -> res vec;   (* available rows, zero point, pointer *)
  c_transpose : list vec -> list vec;      (* from the 8 loads to the registers stored *)
  c_xor : vec -> vec -> vec;
  c_order : list (nat * Z);                (* the stores: register, block of 4 rows *)
  c_sums0 : list vec;
  c_sum : list vec -> list vec -> list vec;      (* registers stored, sums so far *)
  c_total : list vec -> vec -> vec -> vec        (* sums so far, stored sums, adjustment *)
}.
(** kNumChunkedSrcRows. *)
Definition c_rows (k : col_packer) : Z := 32 / Z.of_nat (c_size k).

(** A pointer to a column and its increment. pack_avx2_fma.cc:81-124, pack_avx.cc:228-271,
    pack_avx512.cc:134-177, 491-534. *)
Record column := { q_buf : buf Z; q_off : Z; q_inc : Z }.
Definition column_ptr (k : col_packer) (src zerobuf : buf Z) (off stride remaining j : Z) : column :=
  if remaining <=? j then {| q_buf := zerobuf; q_off := 0; q_inc := 0 |}
  else {| q_buf := src; q_off := off + j * stride; q_inc := c_rows k |}.
Definition advance (q : column) : column := {| q_buf := q_buf q; q_off := q_off q + q_inc q; q_inc := q_inc q |}.

Fixpoint load_all (f : column -> res vec) (qs : list column) : res (list vec) :=
  match qs with [] => Ok [] | q :: qs => v <- f q ;; vs <- load_all f qs ;; Ok (v :: vs) end.
(** The stores of a chunk; [t] is the type of the packed scalars. *)
Fixpoint store_all (t : ity) (w : Z) (rs : list vec) (order : list (nat * Z)) (p : Z) (b : buf Z) : res (buf Z) :=
  match order with
  | [] => Ok b
  | (i, slot) :: order => b <- store_bytes t (nth i rs []) (p + slot * (w * 4)) b ;; store_all t w rs order p b
  end.

Definition packed_type (k : col_packer) : ity := if Nat.eqb (c_size k) 1 then s8 else s16.

Record cstate := {
  s_data : buf Z; s_trailing : buf Z; s_cols : list column; s_packed : Z; s_acc : list vec; s_adj : Z }.

(** One chunk of rows, pack_avx2_fma.cc:148-511, pack_avx.cc:295-643, pack_avx512.cc:197-456, 551-642.
    The sums are accumulated even if there is no array of sums (the code then skips this for full chunks);
    they are not used in that case. *)
Definition chunk (dbg : bool) (k : col_packer) (input_xor zero_point toff avail : Z) (s : cstate) : res cstate :=
  let xor_v := set1 1 32 input_xor in
  let finish data trailing acc adj :=
    Ok {| s_data := data; s_trailing := trailing; s_cols := map advance (s_cols s);
          s_packed := s_packed s + c_width k * c_rows k; s_acc := acc; s_adj := adj |} in
  if c_rows k <=? avail then
    t <- load_all (fun q => load (c_size k) (c_rows k) (q_buf q) (q_off q)) (s_cols s) ;;
    let r := map (fun v => c_xor k v xor_v) (c_transpose k t) in
    data <- store_all (packed_type k) (c_width k) r (c_order k) (s_packed s) (s_data s) ;;
    finish data (s_trailing s) (c_sum k r (s_acc s)) (s_adj s)
  else if 0 <? avail then
    adj <- i32 (s_adj s + - Z.lxor zero_point input_xor * 4 * (c_rows k / 4 - (avail + 3) / 4)) ;;
    t <- load_all (fun q => c_mask_load k dbg avail zero_point (q_buf q) (q_off q)) (s_cols s) ;;
    let r := map (fun v => c_xor k v xor_v) (c_transpose k t) in
    trailing <- store_all (packed_type k) (c_width k) r (c_order k) toff (s_trailing s) ;;
    finish (s_data s) trailing (c_sum k r (s_acc s)) adj
  else finish (s_data s) (s_trailing s) (s_acc s) (s_adj s).

(** The packing of 8 columns: Pack8bitColMajorForAvx2Packer, Pack8bitColMajorForAvxPacker,
    HalfPack8bitAvx512, HalfPack16bitAvx512. *)
Definition half_pack (dbg : bool) (k : col_packer) (src zerobuf : buf Z)
    (input_xor off stride remaining rows poff toff soff : Z)
    (data trailing : buf Z) (sums : option (buf Z)) : res (buf Z * buf Z * option (buf Z)) :=
  zero_point <- bread zerobuf 0 ;;
  sums <- match sums with None => Ok None | Some b => b <- bzero 0 b soff 8 ;; Ok (Some b) end ;;
  s <- forstep 0 rows (c_unroll k * c_rows k)
    (fun r s => forto 0 (c_unroll k)
       (fun m s => chunk dbg k input_xor zero_point toff (rows - r - m * c_rows k) s) s)
    {| s_data := data; s_trailing := trailing;
       s_cols := map (column_ptr k src zerobuf off stride remaining) (zrange 0 8);
       s_packed := poff; s_acc := c_sums0 k; s_adj := 0 |} ;;
  sums <- match sums with
    | None => Ok None
    | Some b =>
      v <- load 4 8 b soff ;;
      b <- store_bytes s32 (c_total k (s_acc s) v (set1 4 8 (s_adj s))) soff b ;;
      Ok (Some b)
    end ;;
  Ok (s_data s, s_trailing s, sums).

(** pack_avx2_fma.cc:571-582, pack_avx.cc:712-723, pack_avx512.cc:894-905, 956-967. *)
Definition copy_trailing (k : col_packer) (rows poff : Z) (trailing data : buf Z) : res (buf Z) :=
  let mask := c_rows k - 1 in
  if 0 <? Z.land rows mask then
    let non_trailing_rows := Z.land rows (Z.lnot mask) in
    r3 <- i32 (rows + 3) ;;
    let dst_rows := Z.land r3 (Z.lnot 3) in
    let trailing_rows := dst_rows - non_trailing_rows in
    d <- i32 (c_width k * non_trailing_rows) ;;
    bcopy data (poff + d) trailing 0 (c_width k * trailing_rows)
  else Ok data.

(** pack_avx512.cc:71-90. *)
Definition zero_half (k : col_packer) (rows packed_zp poff : Z) (data : buf Z) : res (buf Z) :=
  let non_trailing_blocks := Z.land rows (Z.lnot (c_rows k - 1)) / 4 in
  forto 0 non_trailing_blocks (fun r data =>
    forto 0 32 (fun j data => i <- i32 (16 * 4 * r + j) ;; bwrite data (poff + i) packed_zp) data) data.

(** Pack8bitColMajorForAvx2 (pack_avx2_fma.cc:546-583), Pack8bitColMajorForAvx (pack_avx.cc:687-724),
    Pack8bitColMajorForAvx512 (pack_avx512.cc:840-906), Pack16bitColMajorForAvx512 (908-968). *)
Definition pack_block (dbg : bool) (k : col_packer) (src zerobuf : buf Z)
    (input_xor off stride remaining rows poff soff : Z)
    (data : buf Z) (sums : option (buf Z)) : res (buf Z * option (buf Z)) :=
  let trailing := const_buf (c_rows k * c_width k) 0 in
  '(data, trailing, sums) <- half_pack dbg k src zerobuf input_xor off stride remaining rows poff 0 soff
                               data trailing sums ;;
  '(data, trailing, sums) <-
    (if c_width k =? 8 then Ok (data, trailing, sums)
     else if 8 <? remaining then
       d <- i32 (stride * 8) ;;
       half_pack dbg k src zerobuf input_xor (off + d) stride (remaining - 8) rows (poff + 32) 32 (soff + 8)
         data trailing sums
     else
       zero_point <- bread zerobuf 0 ;;
       let packed_zp := Z.lxor zero_point input_xor in
       data <- zero_half k rows packed_zp (poff + 32) data ;;
       sums <- match sums with
         | None => Ok None
         | Some b =>
           r3 <- i32 (rows + 3) ;;
           b <- forto 0 8 (fun i b => v <- i32 (packed_zp * Z.land r3 (Z.lnot 3)) ;; bwrite b (soff + 8 + i) v) b ;;
           Ok (Some b)
         end ;;
       Ok (data, trailing, sums)) ;;
  data <- copy_trailing k rows poff trailing data ;;
  Ok (data, sums).

(** kInputXor, an int8: pack_x86.h:71-72, 118-119, 230-231; the 16-bit functions have none. *)
Definition input_xor_of (st : ity) : Z := if it_signed st then 0 else -128.

(** PackImpl::Run for a column-major source, pack_x86.h:65-106, 112-153, 222-264, 273-315. [zerobuf] has
    kCols * kRows or kHalfLayoutCols * kRows entries: 32. *)
Definition pack_col_x86 (dbg : bool) (k : col_packer) (st : ity) (src : mat Z) (p : pmat Z)
    (start_col end_col : Z) : res (pmat Z) :=
  dcheck dbg (order_eqb (ml_order (m_layout src)) ColMajor) ;;;
  dcheck dbg (order_eqb (pl_order (p_layout p)) ColMajor) ;;;
  n <- i32 (end_col - start_col) ;;
  dcheck dbg (Z.rem n (c_width k) =? 0) ;;;
  dcheck dbg (Z.rem start_col (c_width k) =? 0) ;;;
  let input_xor := input_xor_of st in
  let zerobuf := const_buf 32 (it_conv (packed_type k) (Z.lxor (p_zp p) input_xor)) in
  let src_stride := ml_stride (m_layout src) in
  '(data, sums) <- forstep start_col end_col (c_width k)
    (fun block_col '(data, sums) =>
       off <- i32 (src_stride * block_col) ;;
       remaining <- i32 (ml_cols (m_layout src) - block_col) ;;
       poff <- i32 (pl_stride (p_layout p) * Z.land block_col (Z.lnot (c_width k - 1))) ;;
       pack_block dbg k (m_data src) zerobuf input_xor off src_stride remaining (ml_rows (m_layout src))
         poff block_col data sums)
    (p_data p, p_sums p) ;;
  Ok {| p_data := data; p_sums := sums; p_layout := p_layout p; p_zp := p_zp p |}.

(** ** The 256-bit sequences, shared by AVX2 and AVX *)

(** memcpy of [part] to the start of a register. *)
Definition overlay (part v : vec) : vec := part ++ skipn (length part) v.
(** pack_x86.h:489-507 (MaskLoadu). *)
Definition mask_load_256 (dbg : bool) (avail zero_point : Z) (b : buf Z) (off : Z) : res vec :=
  dcheck dbg (avail <? 32) ;;;
  let zp_v := set1 1 16 zero_point in
  if 16 <=? avail then
    lo <- load 1 16 b off ;;
    hi <- load 1 (avail - 16) b (off + 16) ;;
    Ok (set_m128i (overlay hi zp_v) lo)
  else
    lo <- load 1 avail b off ;;
    Ok (set_m128i zp_v (overlay lo zp_v)).

(** pack_avx2_fma.cc:169-201, 387-419, pack_avx.cc:322-345 and the same for partial chunks; the result is
    r0, ..., r7. *)
Definition transpose_256 (unpacklo32 unpackhi32 unpacklo64 unpackhi64 : vec -> vec -> vec)
    (permute : vec -> vec -> Z -> vec) (t : list vec) : list vec :=
  match t with
  | [t0; t1; t2; t3; t4; t5; t6; t7] =>
    let r0 := unpacklo32 t0 t1 in
    let r4 := unpacklo32 t4 t5 in
    let r2 := unpackhi32 t0 t1 in
    let r6 := unpackhi32 t4 t5 in
    let r1 := unpacklo32 t2 t3 in
    let r5 := unpacklo32 t6 t7 in
    let r3 := unpackhi32 t2 t3 in
    let r7 := unpackhi32 t6 t7 in
    let t0 := unpacklo64 r0 r1 in
    let t4 := unpacklo64 r4 r5 in
    let t2 := unpackhi64 r0 r1 in
    let t6 := unpackhi64 r4 r5 in
    let t1 := unpacklo64 r2 r3 in
    let t5 := unpacklo64 r6 r7 in
    let t3 := unpackhi64 r2 r3 in
    let t7 := unpackhi64 r6 r7 in
    [permute t0 t4 0x20; permute t0 t4 0x31; permute t2 t6 0x20; permute t2 t6 0x31;
     permute t1 t5 0x20; permute t1 t5 0x31; permute t3 t7 0x20; permute t3 t7 0x31]
  | _ => []
  end.
(** pack_avx2_fma.cc:273-288, 483-498, pack_avx.cc:411-426, 626-641. *)
Definition order_256 : list (nat * Z) :=
  [(0%nat, 0); (4%nat, 2); (1%nat, 4); (5%nat, 6); (2%nat, 1); (6%nat, 3); (3%nat, 5); (7%nat, 7)].

(** pack_avx2_fma.cc:212-241: the sum of the registers as 16-bit numbers, [part] being the half of them. *)
Definition sum16 (cvt : vec -> vec) (add16 : vec -> vec -> vec) (part : vec -> vec) (r : list vec) : vec :=
  match r with
  | [] => []
  | r0 :: r => fold_left (fun a v => add16 a (cvt (part v))) r (cvt (part r0))
  end.
(** pack_avx2_fma.cc:212-271, 430-481, pack_avx.cc:363-409, 572-624: sums_4x2_32bit_lo and _hi. *)
Definition sum_256 (cvt : vec -> vec) (add16 madd add32 : vec -> vec -> vec) (extract : vec -> nat -> vec)
    (r acc : list vec) : list vec :=
  match acc with
  | [lo; hi] =>
    let ones := set1 2 16 1 in
    [add32 lo (madd (sum16 cvt add16 (fun v => extract v 0%nat) r) ones);
     add32 hi (madd (sum16 cvt add16 (fun v => extract v 1%nat) r) ones)]
  | _ => acc
  end.
(** pack_avx2_fma.cc:512-534, pack_avx.cc:655-671. *)
Definition total_256 (evenodds : vec -> vec) (permute : vec -> vec -> Z -> vec) (add32 : vec -> vec -> vec)
    (acc : list vec) (sums adj : vec) : vec :=
  match acc with
  | [lo; hi] =>
    let lo := evenodds lo in
    let hi := evenodds hi in
    let a := permute lo hi 0x20 in
    let b := permute lo hi 0x31 in
    add32 (add32 (add32 sums adj) a) b
  | _ => []
  end.

(** ** AVX2 *)
Definition avx2_col : col_packer := {|
  c_width := 8;
  c_size := 1;
  c_unroll := 1;
  c_mask_load := mask_load_256;
  c_transpose := transpose_256 unpacklo_epi32 unpackhi_epi32 unpacklo_epi64 unpackhi_epi64 permute2x128;
  c_xor := xor_si;
  c_order := order_256;
  c_sums0 := [set1 4 8 0; set1 4 8 0];
  c_sum := sum_256 cvtepi8_epi16 add_epi16 madd_epi16 add_epi32 extracti128;
  c_total := total_256 (fun v => permutevar8x32 v (of_lanes 4 [0; 2; 4; 6; 1; 3; 5; 7])) permute2x128 add_epi32
|}.

(** ** AVX, pack_avx.cc *)

(** 67-81. *)
Definition avx_permute_epi32_even_odds (a : vec) : vec :=
  let tmp_lo := shuffle_epi32 (extracti128 a 0) 0xd8 in
  let tmp_hi := shuffle_epi32 (extracti128 a 1) 0xd8 in
  set_m128i (unpackhi_epi64 tmp_lo tmp_hi) (unpacklo_epi64 tmp_lo tmp_hi).
(** 83-93. *)
Definition avx_extracti128 (a : vec) (imm : nat) : vec :=
  match imm with O => extracti128 a 0 | 1%nat => extracti128 a 1 | _ => setzero 16 end.
(** 101-105; the 128-bit cvtepi16_epi32 converts the low half. *)
Definition avx_mm_cvtepi16_epi32 (a : vec) : vec := cvtepi16_epi32 (low_bytes 8 a).
Definition avx_mm256_cvtepi16_epi32 (a : vec) : vec :=
  let hi := unpackhi_epi64 a (setzero 16) in
  set_m128i (avx_mm_cvtepi16_epi32 hi) (avx_mm_cvtepi16_epi32 a).

(** The polyfills of 95-212 ([avx_mm256_cvtepi8_epi16] and [avx_mm256_permute2x128] have the same text in
    kernel_avx.cc). *)
Definition avx_col : col_packer := {|
  c_width := 8;
  c_size := 1;
  c_unroll := 1;
  c_mask_load := mask_load_256;
  c_transpose := transpose_256 (avx_halves2 unpacklo_epi32) (avx_halves2 unpackhi_epi32)
                   (avx_halves2 unpacklo_epi64) (avx_halves2 unpackhi_epi64) avx_mm256_permute2x128;
  c_xor := avx_halves2 xor_si;
  c_order := order_256;
  c_sums0 := [set1 4 8 0; set1 4 8 0];
  c_sum := sum_256 avx_mm256_cvtepi8_epi16 (avx_halves2 add_epi16) (avx_halves2 madd_epi16) (avx_halves2 add_epi32)
             avx_extracti128;
  c_total := total_256 avx_permute_epi32_even_odds avx_mm256_permute2x128 (avx_halves2 add_epi32)
|}.

(** ** AVX-512, pack_avx512.cc *)

(** 101-119, 349-352, 372-375, 571-588: the mask is converted to 32 bits. *)
Definition mask_load_512 (w n : nat) (rows : Z) (dbg : bool) (avail zero_point : Z) (b : buf Z) (off : Z) : res vec :=
  dcheck dbg (avail / 4 <? rows) ;;;
  mask_loadu w ((2 ^ avail - 1) mod 2 ^ 32) 0 (chunks w (set1 w n zero_point)) b off.

(** LoaduTwo, 92-99. *)
Definition two (lo hi : vec) : vec := insert_high lo hi.

(** 208-243, 372-404: r0_0, r0_1, r1_0, ..., r3_1. *)
Definition transpose_512 (t : list vec) : list vec :=
  match t with
  | [p0; p1; p2; p3; p4; p5; p6; p7] =>
    let t0 := two p0 p4 in
    let t1 := two p1 p5 in
    let t2 := two p2 p6 in
    let t3 := two p3 p7 in
    let r0 := unpacklo_epi32 t0 t1 in
    let r2 := unpackhi_epi32 t0 t1 in
    let r1 := unpacklo_epi32 t2 t3 in
    let r3 := unpackhi_epi32 t2 t3 in
    let t0 := unpacklo_epi64 r0 r1 in
    let t2 := unpackhi_epi64 r0 r1 in
    let t1 := unpacklo_epi64 r2 r3 in
    let t3 := unpackhi_epi64 r2 r3 in
    [shuffle_i32x4 t0 t1 0x88; shuffle_i32x4 t0 t1 0xdd; shuffle_i32x4 t2 t3 0x88; shuffle_i32x4 t2 t3 0xdd]
  | _ => []
  end.
(** The halves of the registers, after the exclusive or. *)
Definition split_512 (r : list vec) : list vec := flat_map (fun v => [extracti256 v 0; extracti256 v 1]) r.

(** 262-266, 421-425: [part] is the register after conversion; the sum of the eight halves. *)
Definition sum_512 (r acc : list vec) : list vec :=
  match acc with
  | [s] => [add_epi32 s (madd_epi16 (sum16 cvtepi8_epi16 add_epi16 (fun v => v) r) (set1 2 32 1))]
  | _ => acc
  end.
(** 457-474, 645-660. *)
Definition total_512 (acc : list vec) (sums adj : vec) : vec :=
  match acc with
  | [s] =>
    let idx := of_lanes 4 [0; 2; 4; 6; 8; 10; 12; 14; 1; 3; 5; 7; 9; 11; 13; 15] in
    let sums_2x8 := permutexvar_epi32 idx s in
    add_epi32 (add_epi32 (add_epi32 sums adj) (extracti256 sums_2x8 0)) (extracti256 sums_2x8 1)
  | _ => []
  end.

(** The exclusive or is applied to the four 512-bit registers before they are split; here to the halves,
    with the same constant in all bytes. *)
Definition avx512_col : col_packer := {|
  c_width := 16;
  c_size := 1;
  c_unroll := 2;
  c_mask_load := mask_load_512 1 32 32;
  c_transpose := fun t => split_512 (transpose_512 t);
  c_xor := xor_si;
  c_order := [(0%nat, 0); (1%nat, 2); (2%nat, 4); (3%nat, 6); (4%nat, 1); (5%nat, 3); (6%nat, 5); (7%nat, 7)];
  c_sums0 := [set1 4 16 0];
  c_sum := sum_512;
  c_total := total_512
|}.

(** 592-608: t0, t1, t2, t3. *)
Definition transpose16_512 (t : list vec) : list vec :=
  match t with
  | [p0; p1; p2; p3; p4; p5; p6; p7] =>
    let t0 := two p0 p4 in
    let t1 := two p1 p5 in
    let t2 := two p2 p6 in
    let t3 := two p3 p7 in
    let r0 := unpacklo_epi64 t0 t1 in
    let r2 := unpackhi_epi64 t0 t1 in
    let r1 := unpacklo_epi64 t2 t3 in
    let r3 := unpackhi_epi64 t2 t3 in
    let r1 := permutex_epi64 r1 0x4e in
    let r3 := permutex_epi64 r3 0x4e in
    let t0 := mask_blend_epi64 0xcc r0 r1 in
    let t1 := mask_blend_epi64 0x33 r0 r1 in
    let t2 := mask_blend_epi64 0xcc r2 r3 in
    let t3 := mask_blend_epi64 0x33 r2 r3 in
    let t1 := permutex_epi64 t1 0x4e in
    let t3 := permutex_epi64 t3 0x4e in
    [t0; t1; t2; t3]
  | _ => []
  end.
(** 619-628. *)
Definition sum16_512 (r acc : list vec) : list vec :=
  match acc with
  | [s] => [fold_left (fun s v => add_epi32 s (madd_epi16 v (set1 2 32 1))) r s]
  | _ => acc
  end.
Definition avx512_col16 : col_packer := {|
  c_width := 16;
  c_size := 2;
  c_unroll := 2;
  c_mask_load := mask_load_512 2 16 16;
  c_transpose := transpose16_512;
  c_xor := fun v _ => v;
  c_order := [(0%nat, 0); (1%nat, 2); (2%nat, 1); (3%nat, 3)];
  c_sums0 := [set1 4 16 0];
  c_sum := sum16_512;
  c_total := total_512
|}.

(** ** Row-major sources *)
Record row_packer := {
  r_width : Z;                              (* 8 or 16 columns at once *)
  r_load : buf Z -> Z -> res vec;
  r_sum : list vec -> vec -> vec;           (* four rows, stored sums *)
  r_zip : list vec -> list vec              (* registers stored one after the other *)
}.

(** Pack8bitRowMajorForAvx2 (pack_avx2_fma.cc:607-684), Pack8bitRowMajorForAvx (pack_avx.cc:748-825),
    Pack8bitRowMajorForAvx512 (pack_avx512.cc:995-1095). The trip count of the first loop,
    [col <= src_end_col - width], is that of [src_end_col - start_col] divided by the width. *)
Definition row_value (k : row_packer) (src : buf Z) (off stride zp block_row rows r : Z) : res vec :=
  if block_row + r <? rows then o <- i32 (r * stride) ;; r_load k src (off + o) else Ok (set1 1 16 zp).

Fixpoint store_regs (rs : list vec) (p : Z) (b : buf Z) : res (buf Z) :=
  match rs with [] => Ok b | r :: rs => b <- store_bytes s8 r p b ;; store_regs rs (p + 16) b end.

Definition row_group (k : row_packer) (src : buf Z) (input_xor stride zp packed_stride block_row rows col : Z)
    (st : buf Z * buf Z * Z * Z) : res (buf Z * buf Z * Z * Z) :=
  let '(data, sums, off, poff) := st in
  v0 <- row_value k src off stride zp block_row rows 0 ;;
  v1 <- row_value k src off stride zp block_row rows 1 ;;
  v2 <- row_value k src off stride zp block_row rows 2 ;;
  v3 <- row_value k src off stride zp block_row rows 3 ;;
  let vals := map (fun v => xor_si v (set1 1 16 input_xor)) [v0; v1; v2; v3] in
  s <- load 4 (r_width k) sums col ;;
  sums <- store_bytes s32 (r_sum k vals s) col sums ;;
  data <- store_regs (r_zip k vals) poff data ;;
  d <- i32 (packed_stride * r_width k) ;;
  Ok (data, sums, off + r_width k, poff + d).

Definition row_single (src : buf Z) (input_xor stride zp block_row rows col : Z)
    (st : buf Z * buf Z * Z * Z) : res (buf Z * buf Z * Z * Z) :=
  let '(data, sums, off, poff) := st in
  '(accum, data, poff) <- forto 0 4 (fun r '(accum, data, poff) =>
      v <- (if block_row + r <? rows
            then o <- i32 (r * stride) ;; x <- bread src (off + o) ;; Ok (wrap_s 8 (Z.lxor input_xor (wrap_u 8 x)))
            else Ok (wrap_s 8 (Z.lxor input_xor zp))) ;;
      accum <- i32 (accum + v) ;;
      data <- bwrite data poff v ;;
      Ok (accum, data, poff + 1)) (0, data, poff) ;;
  s <- bread sums col ;;
  s <- i32 (s + accum) ;;
  sums <- bwrite sums col s ;;
  Ok (data, sums, off + 1, poff).

Definition pack_row_block (k : row_packer) (src : buf Z)
    (input_xor off stride zp poff packed_stride start_col end_col src_cols block_row rows : Z)
    (st : buf Z * buf Z) : res (buf Z * buf Z) :=
  let src_end_col := Z.min end_col src_cols in
  let groups := (src_end_col - start_col) / r_width k in
  s <- forto 0 groups
    (fun g s => row_group k src input_xor stride zp packed_stride block_row rows (start_col + r_width k * g) s)
    (fst st, snd st, off, poff) ;;
  let col := start_col + r_width k * Z.max 0 groups in
  '(data, sums, _, poff) <- forto col src_end_col (row_single src input_xor stride zp block_row rows) s ;;
  data <- bzero 0 data poff (4 * Z.max 0 (end_col - Z.max col src_end_col)) ;;
  Ok (data, sums).

(** PackImpl::Run for a row-major source, pack_x86.h:358-386, 394-423, 432-462. kInputXor is an int here.
    There is no test that the array of sums exists. *)
Definition pack_row_x86 (dbg : bool) (k : row_packer) (st : ity) (src : mat Z) (p : pmat Z)
    (start_col end_col : Z) : res (pmat Z) :=
  dcheck dbg (order_eqb (ml_order (m_layout src)) RowMajor) ;;;
  let input_xor := if it_signed st then 0 else 0x80 in
  sums <- match p_sums p with None => UB | Some b => Ok b end ;;
  n <- i32 (end_col - start_col) ;;
  sums <- bzero 0 sums start_col n ;;
  let src_stride := ml_stride (m_layout src) in
  let packed_stride := pl_stride (p_layout p) in
  '(data, sums) <- forstep 0 (pl_rows (p_layout p)) 4
    (fun block_row st =>
       a <- i32 (block_row * src_stride) ;;
       b <- i32 (start_col * packed_stride) ;;
       c <- i32 (block_row * r_width k) ;;
       pack_row_block k (m_data src) input_xor (a + start_col) src_stride (m_zp src) (b + c) packed_stride
         start_col end_col (ml_cols (m_layout src)) block_row (ml_rows (m_layout src)) st)
    (p_data p, sums) ;;
  Ok {| p_data := data; p_sums := Some sums; p_layout := p_layout p; p_zp := p_zp p |}.

(** _mm_loadu_si64. *)
Definition loadu_si64 (b : buf Z) (off : Z) : res vec := v <- load 1 8 b off ;; Ok (v ++ setzero 8).

(** pack_avx2_fma.cc:641-666, pack_avx.cc:782-807. *)
Definition row_sum8 (cvt8 cvt16 : vec -> vec) (add32 : vec -> vec -> vec) (vals : list vec) (sums : vec) : vec :=
  match map cvt8 vals with
  | [w0; w1; w2; w3] => add32 sums (cvt16 (add_epi16 (add_epi16 w0 w1) (add_epi16 w2 w3)))
  | _ => []
  end.
Definition row_zip8 (vals : list vec) : list vec :=
  match vals with
  | [v0; v1; v2; v3] =>
    let t2_0 := unpacklo_epi8 v0 v1 in
    let t2_1 := unpacklo_epi8 v2 v3 in
    [unpacklo_epi16 t2_0 t2_1; unpackhi_epi16 t2_0 t2_1]
  | _ => []
  end.
Definition avx2_row : row_packer := {|
  r_width := 8; r_load := loadu_si64;
  r_sum := row_sum8 avx_mm_cvtepi8_epi16 cvtepi16_epi32 add_epi32;
  r_zip := row_zip8 |}.
Definition avx_row : row_packer := {|
  r_width := 8; r_load := loadu_si64;
  r_sum := row_sum8 avx_mm_cvtepi8_epi16 avx_mm256_cvtepi16_epi32 (avx_halves2 add_epi32);
  r_zip := row_zip8 |}.

(** pack_avx512.cc:1039-1069. The upper half of castsi128_si256, undefined, is taken as zero; it is not
    among the bytes used. *)
Definition zip_512 (x y : vec) : vec :=
  let perm v := permutexvar4_epi64 (of_lanes 8 [0; 2; 1; 3]) (v ++ setzero 16) in
  unpacklo_epi8 (perm x) (perm y).
Definition row_zip16 (vals : list vec) : list vec :=
  match vals with
  | [v0; v1; v2; v3] =>
    let t2_0 := zip_512 v0 v1 in
    let t2_1 := zip_512 v2 v3 in
    let t4_0 := unpacklo_epi16 t2_0 t2_1 in
    let t4_1 := unpackhi_epi16 t2_0 t2_1 in
    [extracti128 t4_0 0; extracti128 t4_1 0; extracti128 t4_0 1; extracti128 t4_1 1]
  | _ => []
  end.
Definition avx512_row : row_packer := {|
  r_width := 16; r_load := fun b off => load 1 16 b off;
  r_sum := row_sum8 cvtepi8_epi16 cvtepi16_epi32 add_epi32;
  r_zip := row_zip16 |}.
