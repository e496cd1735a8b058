(** Specification vocabulary for matrices: strided storage. *)
From Verif Require Import Base Mat.

(** Where entry (r, c) of a strided matrix is stored. *)
Definition position (l : mat_layout) (r c : Z) : Z :=
  match ml_order l with
  | ColMajor => c * ml_stride l + r
  | RowMajor => r * ml_stride l + c
  end.

(** Entry (r, c) of a matrix. *)
Definition entry {V} (m : mat V) (r c : Z) : V := bdat (m_data m) (position (m_layout m) r c).

(** The two loops of a strided layout: contiguous and strided extent. *)
Definition inner_size (l : mat_layout) : Z := match ml_order l with ColMajor => ml_rows l | RowMajor => ml_cols l end.
Definition outer_size (l : mat_layout) : Z := match ml_order l with ColMajor => ml_cols l | RowMajor => ml_rows l end.

(** Sizes are non-negative, the stride is at least the contiguous extent, and
    offsets fit in an int. *)
Definition valid_layout (l : mat_layout) : Prop :=
  0 <= ml_rows l /\ 0 <= ml_cols l /\ inner_size l <= ml_stride l /\ ml_stride l * outer_size l <= int_max.

(** A matrix with a valid layout and enough memory behind its data pointer. *)
Definition valid_matrix {V} (m : mat V) : Prop :=
  valid_layout (m_layout m) /\ ml_stride (m_layout m) * outer_size (m_layout m) <= blen (m_data m).

Definition in_matrix (l : mat_layout) (r c : Z) : Prop := 0 <= r < ml_rows l /\ 0 <= c < ml_cols l.
