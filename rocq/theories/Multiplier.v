(** Model of ruy/apply_multiplier.cc. *)
From Verif Require Import Base SizeUtil.

(** apply_multiplier.cc:42-62. [x] and [m] are int32, [shift] an int. *)
Definition multiply_by_quantized_multiplier (dbg : bool) (x m shift : Z) : res Z :=
  rcheck (-31 <=? shift) ;;;
  total_shift <- i32 (31 - shift) ;;
  sh <- i32 (total_shift - 1) ;;
  (* (int64_t)1 << (total_shift - 1) *)
  round <- (if (0 <=? sh) && (sh <? 64) then i64 (2 ^ sh) else UB) ;;
  p <- i64 (x * m) ;;
  r <- i64 (p + round) ;;
  (* result >> total_shift *)
  r <- (if (0 <=? total_shift) && (total_shift <? 64) then Ok (r / 2 ^ total_shift) else UB) ;;
  dcheck dbg (int_min <=? r) ;;;
  dcheck dbg (r <=? int_max) ;;;
  Ok (wrap_s 32 r).
