(** What packing a range of columns with vector instructions does. *)
From Coq Require Import ZArith List.
From Verif Require Import Base SidePair Mat Scalars IntOps Pack PackX86 SpecMatrix SpecPack.
Import ListNotations.
Open Scope Z_scope.

(** Unsigned values are shifted to signed ones. *)
Definition middle (t : ity) : Z := if it_signed t then 0 else 2 ^ (it_bits t - 1).

(** Row [r] of column [c] of the source, as packed; the zero point below the last row. *)
Definition packed_value (st pt : ity) (src : mat Z) (zp r c : Z) : Z :=
  if r <? ml_rows (m_layout src) then it_conv pt (entry src r c - middle st) else zp.

(** The values are of type [t]. *)
Definition typed (t : ity) (b : buf Z) : Prop := forall i, 0 <= i < blen b -> it_lo t <= bdat b i <= it_hi t.

(** [q] is [p] after the columns [a, b) of [src] have been packed into it. Of the columns beyond the last
    one of the source nothing is said but that they hold values of the type. *)
Record columns_packed (st pt : ity) (src : mat Z) (a b : Z) (p q : pmat Z) : Prop := {
  cp_shape : p_layout q = p_layout p /\ p_zp q = p_zp p /\ blen (p_data q) = blen (p_data p);
  cp_values : forall r c, 0 <= r < pl_rows (p_layout p) -> a <= c < b -> c < ml_cols (m_layout src) ->
    pelement false q r c = Ok (packed_value st pt src (p_zp p) r c);
  cp_sums : match p_sums p, p_sums q with
    | None, None => True
    | Some s, Some s' => blen s' = blen s /\
        (forall c, a <= c < b -> c < ml_cols (m_layout src) ->
           bdat s' c = wrap_s 32 (zsum (map (fun r => packed_value st pt src (p_zp p) r c) (zrange 0 (pl_rows (p_layout p)))))) /\
        (forall c, ~ (a <= c < b) -> bdat s' c = bdat s c)
    | _, _ => False
    end;
  cp_typed : typed pt (p_data p) -> typed pt (p_data q);
  cp_rest : forall i, (forall r c, 0 <= r < pl_rows (p_layout p) -> a <= c < b -> poffset false (p_layout p) r c <> Ok i) ->
    bdat (p_data q) i = bdat (p_data p) i
}.

(** Blocks of four rows and [n] columns. *)
Definition blocks_of (n : Z) : kernel_layout := {| kl_order := ColMajor; kl_rows := 4; kl_cols := n |}.

(** A call: whole blocks of columns of a packed matrix made for the source, whose zero point is of the packed type. *)
Definition pack_call (n : Z) (pt : ity) (src : mat Z) (p : pmat Z) (a b : Z) : Prop :=
  valid_matrix src /\ packed_for src (blocks_of n) p /\ it_lo pt <= p_zp p <= it_hi pt /\
  0 <= a <= b /\ b <= pl_cols (p_layout p) /\ (n | a) /\ (n | b).

(** [q] and [q'] hold the same columns of the source, and outside the columns [a, b) the same sums. *)
Definition same_columns (src : mat Z) (a b : Z) (q q' : pmat Z) : Prop :=
  (forall r c, 0 <= r < pl_rows (p_layout q) -> a <= c < b -> c < ml_cols (m_layout src) -> pelement false q r c = pelement false q' r c) /\
  match p_sums q, p_sums q' with
  | None, None => True
  | Some s, Some s' => forall c, ~ (a <= c < b) \/ c < ml_cols (m_layout src) -> bdat s c = bdat s' c
  | _, _ => False
  end.

(** The functions for column-major sources: block width, packed type, source type. *)
Definition column_function (k : col_packer) (n : Z) (pt st : ity) : Prop :=
  (k = avx_col /\ n = 8 /\ pt = s8 /\ (st = s8 \/ st = u8)) \/
  (k = avx2_col /\ n = 8 /\ pt = s8 /\ (st = s8 \/ st = u8)) \/
  (k = avx512_col /\ n = 16 /\ pt = s8 /\ (st = s8 \/ st = u8)) \/
  (k = avx512_col16 /\ n = 16 /\ pt = s16 /\ st = s16).

(** Those for row-major sources; the packed type is int8. *)
Definition row_function (k : row_packer) (n : Z) : Prop :=
  (k = avx_row /\ n = 8) \/ (k = avx2_row /\ n = 8) \/ (k = avx512_row /\ n = 16).
