(** Model of the choice of the number of threads in ruy/trmul.cc. *)
From Verif Require Import Base SidePair SizeUtil BlockMap.

(** strategy_controls.h: NumThreadsStrategy. *)
Inductive num_threads_strategy := StrategyDefault | StrategyForceMax.

(** trmul.cc:250-284 (not on emscripten). C++ integer division truncates: Z.quot.
    The RUY_CHECK_EQ of line 265 cannot fail: the enum has two values. *)
Definition get_tentative_thread_count (dbg : bool) (strategy : num_threads_strategy)
    (max_num_threads rows cols depth : Z) : res Z :=
  match strategy with
  | StrategyForceMax => Ok max_num_threads
  | StrategyDefault =>
    rc <- i64 (rows * cols) ;;
    problem_size <- i64 (rc * depth) ;;
    let t := Z.quot problem_size 32768 in
    let t := Z.max t 1 in
    let t := Z.min t max_num_threads in
    dcheck dbg (t <=? int_max) ;;;
    Ok t
  end.

(** trmul.cc:286-299. *)
Definition get_use_simple_loop (opts : fractal_opts) (tentative rows cols depth lhs_size rhs_size : Z)
    (cp : cache_params) : res bool :=
  if tentative =? 1 then is_obviously_linear opts rows cols depth lhs_size rhs_size cp
  else Ok false.
