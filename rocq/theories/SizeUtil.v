(** Model of ruy/size_util.h. The [Integer] template parameter is a signed type
    of [w] bits (32 or 64); [dbg] selects the build with RUY_DCHECK. *)
From Verif Require Import Base.

(** __builtin_clz / __builtin_clzll: number of leading zero bits of the unsigned
    [w]-bit value [n], scanning from the top bit (undefined for 0). *)
Fixpoint count_leading_zeros (k : nat) (n : Z) : Z :=
  match k with
  | O => 0
  | S j => if Z.testbit n (Z.of_nat j) then 0 else 1 + count_leading_zeros j n
  end.

Definition builtin_clz (w n : Z) : res Z :=
  let u := wrap_u w n in
  if u =? 0 then UB else Ok (count_leading_zeros (Z.to_nat w) u).

(** size_util.h:29-63 (the non-MSVC branch, 57-61). *)
Definition floor_log2 (dbg : bool) (w n : Z) : res Z :=
  dcheck dbg (1 <=? n) ;;;
  c <- builtin_clz w n ;;
  Ok (w - 1 - c).

(** size_util.h:65-69. *)
Definition ceil_log2 (dbg : bool) (w n : Z) : res Z :=
  dcheck dbg (1 <=? n) ;;;
  if n =? 1 then Ok 0
  else (if in_s w (n - 1) then f <- floor_log2 dbg w (n - 1) ;; Ok (f + 1) else UB).

(** size_util.h:71-74. *)
Definition is_pot (n : Z) : bool := (0 <? n) && (Z.land n (n - 1) =? 0).

(** size_util.h:76-80. *)
Definition pot_log2 (dbg : bool) (w n : Z) : res Z :=
  dcheck dbg (is_pot n) ;;; floor_log2 dbg w n.

(** [static_cast<Integer>(1) << s] in a [w]-bit signed type. *)
Definition one_shl (w s : Z) : res Z :=
  if (0 <=? s) && (s <? w - 1) then Ok (2 ^ s) else UB.

(** size_util.h:82-85. *)
Definition round_down_pot1 (dbg : bool) (w n : Z) : res Z :=
  f <- floor_log2 dbg w n ;; one_shl w f.

(** size_util.h:87-90. *)
Definition round_up_pot1 (dbg : bool) (w n : Z) : res Z :=
  c <- ceil_log2 dbg w n ;; one_shl w c.

(** size_util.h:92-96. [~(modulo-1)] is [Z.lnot]. The subtraction [modulo - 1]
    cannot overflow for positive modulo, the only values ruy passes. *)
Definition round_down_pot (dbg : bool) (v m : Z) : res Z :=
  dcheck dbg (Z.land m (m - 1) =? 0) ;;;
  Ok (Z.land v (Z.lnot (m - 1))).

(** size_util.h:98-101. [w] is the width of the type of [value + modulo]. *)
Definition round_up_pot (dbg : bool) (w v m : Z) : res Z :=
  if in_s w (v + m) && in_s w (v + m - 1) then round_down_pot dbg (v + m - 1) m else UB.
