(** Entries packed in cells of 16 levels by 4 columns, and sums over the levels. *)
From Coq Require Import ZArith List Bool.
From Verif Require Import Base SidePair Mat SpecMatrix SpecPack.
Import ListNotations.
Open Scope Z_scope.

(** Level [k] of column [i] among the four columns packed from [base]: 64 bytes for every 16 levels, 16 successive levels of a column together. *)
Definition packed_16x4 (b : buf Z) (base i k : Z) : Z := bdat b (base + 64 * (k / 16) + 16 * i + k mod 16).

(** The product of two packed columns. *)
Definition packed_dot (l : buf Z) (lb i : Z) (r : buf Z) (rb c depth : Z) : Z :=
  zsum (map (fun k => packed_16x4 l lb i k * packed_16x4 r rb c k) (zrange 0 depth)).

(** Levels [k] in the first half of a cell where both columns hold -128, at [k] and eight levels further. *)
Definition lowest_pair (l : buf Z) (lb i : Z) (r : buf Z) (rb c k : Z) : bool :=
  (k mod 16 <? 8) && (packed_16x4 l lb i k =? -128) && (packed_16x4 r rb c k =? -128) &&
  (packed_16x4 l lb i (k + 8) =? -128) && (packed_16x4 r rb c (k + 8) =? -128).
Definition lowest_pairs (l : buf Z) (lb i : Z) (r : buf Z) (rb c depth : Z) : Z :=
  zsum (map (fun k => if lowest_pair l lb i r rb c k then 1 else 0) (zrange 0 depth)).
