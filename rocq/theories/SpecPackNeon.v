(** What packing a range of columns on AArch64 does. *)
From Coq Require Import ZArith List Bool.
From Verif Require Import Base SidePair Mat Scalars IntOps Pack SpecMatrix SpecPack SpecPackX86 NeonPack.
Import ListNotations.
Open Scope Z_scope.

(** The functions: kernel block, packed type, source type. Floats are words. *)
Definition bytes_16x4 : kernel_layout := {| kl_order := ColMajor; kl_rows := 16; kl_cols := 4 |}.
Definition bytes_4x8 : kernel_layout := {| kl_order := ColMajor; kl_rows := 4; kl_cols := 8 |}.
Definition floats_1x8 : kernel_layout := {| kl_order := RowMajor; kl_rows := 1; kl_cols := 8 |}.
Definition neon_function (k : neon_packer) (kl : kernel_layout) (pt st : ity) : Prop :=
  (k = neon_16x4 /\ kl = bytes_16x4 /\ pt = s8 /\ (st = s8 \/ st = u8)) \/
  (k = neon_4x8 /\ kl = bytes_4x8 /\ pt = s8 /\ (st = s8 \/ st = u8)) \/
  (k = neon_float /\ kl = floats_1x8 /\ pt = s32 /\ st = s32).

(** The packed value at row [r], column [c]: the entry of the source, the zero point [zp] outside. *)
Definition filled_value (st pt : ity) (src : mat Z) (zp r c : Z) : Z :=
  if (r <? ml_rows (m_layout src)) && (c <? ml_cols (m_layout src)) then it_conv pt (entry src r c - middle st) else zp.

(** [q] is [p] after the columns [a, b) of [src] have been packed into it, padding included. *)
Record columns_filled (st pt : ity) (src : mat Z) (a b : Z) (p q : pmat Z) : Prop := {
  cf_shape : p_layout q = p_layout p /\ p_zp q = p_zp p /\ blen (p_data q) = blen (p_data p);
  cf_values : forall r c, 0 <= r < pl_rows (p_layout p) -> a <= c < b -> pelement false q r c = Ok (filled_value st pt src (p_zp p) r c);
  cf_rest : forall i, (forall r c, 0 <= r < pl_rows (p_layout p) -> a <= c < b -> poffset false (p_layout p) r c <> Ok i) ->
    bdat (p_data q) i = bdat (p_data p) i;
  cf_sums : match p_sums p, p_sums q with
    | None, None => True
    | Some s, Some s' => blen s' = blen s /\
        (forall c, a <= c < b -> bdat s' c = wrap_s 32 (zsum (map (fun r => filled_value st pt src (p_zp p) r c) (zrange 0 (pl_rows (p_layout p)))))) /\
        (forall c, ~ (a <= c < b) -> bdat s' c = bdat s c)
    | _, _ => False
    end
}.

(** A call: whole blocks of columns of a packed matrix made for the source, whose zero point is the packed one of the source. The
    memory holds values of its type. There are no sums and no zero points of floats. *)
Definition neon_call (kl : kernel_layout) (pt st : ity) (src : mat Z) (p : pmat Z) (a b : Z) : Prop :=
  valid_matrix src /\ ml_order (m_layout src) = ColMajor /\ packed_for src kl p /\
  p_zp p = it_conv pt (m_zp src - middle st) /\ (pt = s32 -> m_zp src = 0 /\ p_sums p = None) /\
  typed pt (p_data p) /\ (forall s, p_sums p = Some s -> typed s32 s) /\
  0 <= a <= b /\ b <= pl_cols (p_layout p) /\ (kl_cols kl | a) /\ (kl_cols kl | b).

(** The offset of the last block of four columns fits in an int. (With blocks of four columns it always does.) *)
Definition blocks_fit (src : mat Z) (b : Z) : Prop := ml_stride (m_layout src) * (b - 4) <= int_max.
