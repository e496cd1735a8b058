(** Specification vocabulary for packing. *)
From Coq Require Import SpecFloat.
From Verif Require Import Base SidePair SpecArith Mat Scalars Pack SpecMatrix.

(** [f] numbers the cells of [0, rows) x [c0, c1) bijectively by [lo, hi). *)
Definition numbers_cells (f : Z -> Z -> res Z) (rows c0 c1 lo hi : Z) : Prop :=
  (forall r c, 0 <= r < rows -> c0 <= c < c1 -> exists o, f r c = Ok o /\ lo <= o < hi) /\
  (forall r c r' c' o, 0 <= r < rows -> c0 <= c < c1 -> 0 <= r' < rows -> c0 <= c' < c1 ->
     f r c = Ok o -> f r' c' = Ok o -> r = r' /\ c = c') /\
  (forall o, lo <= o < hi -> exists r c, 0 <= r < rows /\ c0 <= c < c1 /\ f r c = Ok o).

(** Kernel block sizes: powers of two, at most 128 (they are stored in uint8). *)
Definition valid_kernel_layout (k : kernel_layout) : Prop :=
  power_of_two (kl_rows k) /\ power_of_two (kl_cols k) /\ kl_rows k <= 128 /\ kl_cols k <= 128.

(** [l] is the packed layout for a source of layout [src]: sizes rounded up to the
    kernel block, at most [int_max] entries. *)
Definition packed_layout_of (src : mat_layout) (k : kernel_layout) (l : pmat_layout) : Prop :=
  pl_kernel l = k /\ pl_order l = ColMajor /\ pl_stride l = pl_rows l /\
  is_round_up (ml_rows src) (kl_rows k) (pl_rows l) /\
  is_round_up (ml_cols src) (kl_cols k) (pl_cols l) /\
  pl_rows l <= int_max /\ pl_cols l <= int_max /\ pl_rows l * pl_cols l <= int_max.

(** A packed matrix for source [src] with enough memory for data and sums. *)
Definition packed_for {V} (src : mat V) (k : kernel_layout) (p : pmat V) : Prop :=
  packed_layout_of (m_layout src) k (p_layout p) /\
  pl_rows (p_layout p) * pl_cols (p_layout p) <= blen (p_data p) /\
  (forall b, p_sums p = Some b -> pl_cols (p_layout p) <= blen b).

(** The packed value of (r, c): the converted entry, or the zero point outside. *)
Definition packed_entry {V} (o : ops V) (s : side) (src : mat V) (zp r c : Z) : V :=
  if (r <? ml_rows (m_layout src)) && (c <? ml_cols (m_layout src))
  then o_pack o s (entry src r c) else o_of_zp o s zp.

(** Left-to-right accumulation of a list. *)
Fixpoint accumulate {V} (f : V -> V -> res V) (acc : V) (l : list V) : res V :=
  match l with [] => Ok acc | x :: t => acc' <- f acc x ;; accumulate f acc' t end.

(** Sum of the [rows] packed entries of column [c]. *)
Definition packed_sum {V} (o : ops V) (s : side) (src : mat V) (zp rows c : Z) : res V :=
  accumulate (o_sum_add o s) (o_sum0 o s)
    (map (fun r => packed_entry o s src zp r c) (zrange 0 rows)).

(** Packing a list of column ranges one after the other. *)
Fixpoint pack_ranges {V} (dbg : bool) (o : ops V) (s : side) (kc : Z) (src : mat V)
    (l : list (Z * Z)) (p : pmat V) : res (pmat V) :=
  match l with
  | [] => Ok p
  | (a, b) :: t => p' <- run_pack dbg o s kc src p a b ;; pack_ranges dbg o s kc src t p'
  end.

Definition covered (l : list (Z * Z)) (c : Z) : Prop := exists a b, In (a, b) l /\ a <= c < b.

(** Ranges of whole kernel blocks inside the packed matrix. *)
Definition block_ranges (kc cols : Z) (l : list (Z * Z)) : Prop :=
  forall a b, In (a, b) l -> 0 <= a <= b /\ b <= cols /\ (kc | a) /\ (kc | b).

(** Same buffers: data and sums, cell by cell. *)
Definition same_buffers {V} (p q : pmat V) : Prop :=
  blen (p_data p) = blen (p_data q) /\ (forall i, bdat (p_data p) i = bdat (p_data q) i) /\
  match p_sums p, p_sums q with
  | None, None => True
  | Some b, Some b' => blen b = blen b' /\ forall i, bdat b i = bdat b' i
  | _, _ => False
  end.

Fixpoint zsum (l : list Z) : Z := match l with [] => 0 | x :: t => x + zsum t end.

(** Equal, except that the first may be -0 where the second is +0. *)
Definition zero_sign_only (a b : spec_float) : Prop :=
  a = b \/ (a = S754_zero true /\ b = S754_zero false).
