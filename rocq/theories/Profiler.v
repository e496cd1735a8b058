(** Model of the profiler, ruy/profiler/instrumentation.{h,cc}, profiler.cc and treeview.cc, compiled with RUY_PROFILER.

    Objects are records. The bytes of an object are those of a 64-bit little-endian machine, where sizeof(Label) is 32. *)
From Coq Require Import ZArith List Bool.
From Verif Require Import Base Simd.
Import ListNotations.
Open Scope Z_scope.

(** ** Labels, instrumentation.h:36-74

    [lb_format] is a pointer to a literal, [lb_args] the array of four ints, not initialised; [lb_pad] the padding. *)
Record label := { lb_format : Z; lb_count : Z; lb_args : list Z; lb_pad : Z }.

(** instrumentation.h:43-52, 62-68 (Set, SetArgs): the other arguments keep their values. A fifth one would be
    written beyond the array. *)
Definition set_label (format : Z) (args : list Z) (l : label) : res label :=
  if (4 <? length args)%nat then UB
  else Ok {| lb_format := format; lb_count := Z.of_nat (length args); lb_args := args ++ skipn (length args) (lb_args l); lb_pad := lb_pad l |}.

Section Text.
(** The characters at a pointer. *)
Variable text : Z -> list Z.

Fixpoint list_eqb (a b : list Z) : bool :=
  match a, b with [] , [] => true | x :: a, y :: b => (x =? y) && list_eqb a b | _, _ => false end.

(** instrumentation.cc:33-46 (operator==). *)
Definition label_eq (a b : label) : bool :=
  list_eqb (text (lb_format a)) (text (lb_format b)) && (lb_count a =? lb_count b) &&
  forallb (fun i => nth (Z.to_nat i) (lb_args a) 0 =? nth (Z.to_nat i) (lb_args b) 0) (zrange 0 (lb_count a)).
End Text.

(** instrumentation.cc:25-31 (operator=). *)
Definition assign_label (dst other : label) : label :=
  let n := Z.to_nat (lb_count other) in
  {| lb_format := lb_format other; lb_count := lb_count other; lb_args := firstn n (lb_args other) ++ skipn n (lb_args dst); lb_pad := lb_pad dst |}.

(** ** Stacks, instrumentation.h:96-101, 132-165 *)
Record stack := { st_id : Z; st_size : Z; st_labels : list label }.
Definition max_size : Z := 64.

Fixpoint replace {A} (n : nat) (x : A) (l : list A) : list A :=
  match n, l with O, _ :: l => x :: l | S n, y :: l => y :: replace n x l | _, [] => [] end.

Definition push (format : Z) (args : list Z) (s : stack) : res stack :=
  if max_size <=? st_size s then Abort
  else match nth_error (st_labels s) (Z.to_nat (st_size s)) with
       | None => UB
       | Some l =>
         l <- set_label format args l ;;
         Ok {| st_id := st_id s; st_size := st_size s + 1; st_labels := replace (Z.to_nat (st_size s)) l (st_labels s) |}
       end.
Definition pop (s : stack) : res stack :=
  n <- i32 (st_size s - 1) ;; Ok {| st_id := st_id s; st_size := n; st_labels := st_labels s |}.

(** ** Samples, instrumentation.cc:107-126 *)
Definition label_bytes (l : label) : list Z :=
  bytes_of 8 (lb_format l) ++ bytes_of 4 (lb_count l) ++ concat (map (bytes_of 4) (lb_args l)) ++ bytes_of 4 (lb_pad l).
Definition label_of (b : list Z) : label :=
  let word n := of_bytes (firstn 4 (skipn n b)) in
  {| lb_format := of_bytes (firstn 8 b); lb_count := wrap_s 32 (word 8%nat);
     lb_args := map (fun n => wrap_s 32 (word n)) [12; 16; 20; 24]%nat; lb_pad := wrap_s 32 (word 28%nat) |}.

(** GetBufferSize: computed as size_t, returned as int. *)
Definition buffer_size (s : stack) : Z := wrap_s 32 (wrap_u 64 (4 + 4 + wrap_u 64 (st_size s) * 32)).

Definition stack_bytes (s : stack) : res (list Z) :=
  if (0 <=? st_size s) && (st_size s <=? max_size)
  then Ok (bytes_of 4 (st_id s) ++ bytes_of 4 (st_size s) ++ concat (map label_bytes (firstn (Z.to_nat (st_size s)) (st_labels s))))
  else UB.

(** ReadFromBuffer into a fresh Stack whose labels are [fresh]. *)
Definition read_stack (fresh : list label) (b : list Z) : res stack :=
  if (length b <? 8)%nat then UB else
  let id := of_bytes (firstn 4 b) in
  let size := wrap_s 32 (of_bytes (firstn 4 (skipn 4 b))) in
  if (0 <=? size) && (size <=? max_size) && (8 + 32 * size <=? Z.of_nat (length b)) then
    let n := Z.to_nat size in
    Ok {| st_id := id; st_size := size;
          st_labels := map (fun i => label_of (firstn 32 (skipn (8 + 32 * i) b))) (seq 0 n) ++ skipn n fresh |}
  else UB.

(** ** ScopeProfile::Sample, profiler.cc:74-86

    [old_buf_size] and the sum are ints. (Where the conversion of the size loses bits, memory would be overwritten; the sum
    overflows before the buffer is that long.) *)
Definition sample (s : stack) (buf : list Z) : res (list Z) :=
  if st_size s =? 0 then Ok buf else
  let old_buf_size := wrap_s 32 (Z.of_nat (length buf)) in
  new_size <- i32 (old_buf_size + buffer_size s) ;;
  if negb (old_buf_size =? Z.of_nat (length buf)) then UB else
  b <- stack_bytes s ;;
  Ok (buf ++ b).
