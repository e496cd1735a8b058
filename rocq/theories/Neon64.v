(** A machine for the AArch64 instructions of the inline assembly in ruy/pack_arm.cc and
    ruy/kernel_arm64.cc.

    The definitions follow Arm's description of the instructions, which is part of the trusted
    base. The programs (NeonPackCode.v and others) are transcribed from the sources by
    tools/asm2coq.py, one constructor for each instruction.

    Memory is a set of blocks, one for each array that the assembly has access to; a pointer is
    a block and an offset in bytes. Accessing bytes outside of a block is undefined behaviour.
    Instructions whose result the model does not describe (arithmetic on pointers other than
    adding or subtracting an integer, comparing pointers to different blocks) are undefined
    behaviour too; the programs do not use them. *)
From Coq Require Import ZArith List Bool SpecFloat.
From Verif Require Import Base Mat Simd FloatOps SimdFloat FloatWords.
Import ListNotations.
Open Scope Z_scope.

(** ** State *)

(** The content of a general-purpose register: 64 bits, or a pointer. *)
Inductive val := Int (z : Z) | Ptr (b : nat) (o : Z).

(** The condition flags: Z, and whether N and V differ ("less", if it is known). *)
Record flags := { f_eq : bool; f_lt : option bool }.

(** A block: bytes, or a structure, some of whose fields are pointers (offset in bytes, size, content). *)
Inductive block := Bytes (b : buf Z) | Struct (fields : list (Z * Z * val)).
Definition memory := nat -> block.

(** Registers x0, ..., x30 have these numbers; the compiler keeps the operands of the asm statement in
    registers that the statement does not clobber, all different: these have numbers from 40. v0, ..., v31
    are lists of 16 bytes, least significant first. *)
Record state := { xs : nat -> val; vs : nat -> list Z; fl : flags; mem : memory }.

Definition upd {A} (f : nat -> A) (i : nat) (a : A) : nat -> A := fun j => if Nat.eqb j i then a else f j.
Definition set_x (s : state) (i : nat) (v : val) : state := {| xs := upd (xs s) i v; vs := vs s; fl := fl s; mem := mem s |}.
Definition set_v (s : state) (i : nat) (v : list Z) : state := {| xs := xs s; vs := upd (vs s) i v; fl := fl s; mem := mem s |}.
Definition set_fl (s : state) (f : flags) : state := {| xs := xs s; vs := vs s; fl := f; mem := mem s |}.
Definition set_mem (s : state) (m : memory) : state := {| xs := xs s; vs := vs s; fl := fl s; mem := m |}.

(** ** Instructions *)
Inductive width := W | X.
Inductive cond := EQ | NE | LT | LE | GT | GE | Always.
(** "1f" and "1b". *)
Inductive target := Fwd (l : nat) | Back (l : nat).
(** An immediate, a register, a register shifted to the left, the low half of a register sign-extended or zero-extended. *)
Inductive operand := Imm (z : Z) | Reg (r : nat) | Lsl (r : nat) (n : Z) | Sxtw (r : nat) | Uxtw (r : nat).
Inductive alu := AAdd | ASub | AAnd | AMul.
(** Two vectors to one; the number is the size of a lane in bytes. *)
Inductive vop := Eor | Trn1 (n : nat) | Trn2 (n : nat) | Zip1 (n : nat) | Zip2 (n : nat) | VAdd (n : nat) | VSub (n : nat) | Addp (n : nat)
  | Smin (n : nat) | Smax (n : nat) | Umin (n : nat) | Umax (n : nat) | Sshl (n : nat) | Srshl (n : nat) | Sqdmulh (n : nat) | Sqadd (n : nat)
  | Fadd | Fmax | Fmin.   (* four floats *)

Inductive instr :=
| Label (l : nat)
| B (c : cond) (t : target)
| Nop                                                      (* prefetching *)
| Mov (w : width) (d : nat) (o : operand)
| Alu (a : alu) (s : bool) (w : width) (d n : nat) (o : operand)   (* [s]: sets the flags *)
| Cmp (w : width) (n : nat) (o : operand)
| Ld1 (bytes : nat) (d base : nat) (post : operand)         (* base is advanced by [post] *)
| St1 (bytes : nat) (s base : nat) (post : operand)
| Ld1Lane (n : nat) (d lane base : nat) (post : operand)
| LdrQ (d base : nat) (o : operand)
| StrQ (s base : nat) (o : operand)
| Ldr (bytes : Z) (d base : nat) (o : operand)
| Dup (n count : nat) (d r : nat)
| Movi (d : nat) (z : Z)                                    (* every byte *)
| Ins (n : nat) (d lane r : nat)
| V2 (o : vop) (d a b : nat)
| Saddlp (n : nat) (d a : nat)
| Sadalp (n : nat) (d a : nat)
| Sdot (d a b : nat)
| SdotLane (d a b lane : nat)                               (* by element *)
| Smull (d a b : nat)                                       (* low bytes to 16-bit lanes *)
| Smlal2 (d a b : nat)                                      (* high bytes, added to 16-bit lanes *)
| MulLane (d a b lane : nat)                                (* 32-bit lanes *)
| MlsLane (d a b lane : nat)
| SqdmulhLane (d a b lane : nat)
| Saddw (d a b : nat)                                       (* low 16-bit lanes added to 32-bit lanes *)
| Narrow (unsigned high : bool) (n d a : nat)               (* saturating, to lanes of [n] bytes, in the low or high half *)
| Tst (w : width) (n : nat) (o : operand)
| Csel (w : width) (d a b : nat) (c : cond)
| Ccmp (w : width) (n : nat) (o : operand) (c : cond)       (* the flags given for the other case are all clear *)
| VMov (d a : nat)
| DupLane (n count : nat) (d a lane : nat)
| Fmla (d a b lane : nat)                                   (* by element *)
| LdrD (d base : nat) (o : operand)
| Str (bytes : nat) (a base : nat) (o : operand)
| Ldrs (bytes : Z) (d base : nat) (o : operand)             (* sign-extended to 32 bits *)
| LdrPost (bytes : Z) (d base : nat) (post : operand)
| St1Lane (n : nat) (s lane base : nat) (post : operand)
| St1Two (s base : nat) (post : operand)                    (* registers s and s + 1 *)
| Inst (word : Z).                                          (* an instruction given by its encoding *)

(** ** Integers *)

Definition bits_of (w : width) : Z := match w with W => 32 | X => 64 end.
Definition as_int (v : val) : res Z := match v with Int z => Ok z | Ptr _ _ => UB end.

Definition operand_val (w : width) (s : state) (o : operand) : res val :=
  match o with
  | Imm z => Ok (Int (wrap_u (bits_of w) z))
  | Reg r => Ok (xs s r)
  | Lsl r n => z <- as_int (xs s r) ;; Ok (Int (wrap_u (bits_of w) (z * 2 ^ n)))
  | Sxtw r => z <- as_int (xs s r) ;; Ok (Int (wrap_u (bits_of w) (wrap_s 32 z)))
  | Uxtw r => z <- as_int (xs s r) ;; Ok (Int (wrap_u 32 z))
  end.

Definition sum_val (w : width) (a b : val) : res val :=
  match a, b with
  | Int x, Int y => Ok (Int (wrap_u (bits_of w) (x + y)))
  | Ptr k o, Int y => match w with X => Ok (Ptr k (o + wrap_s 64 y)) | W => UB end
  | _, _ => UB
  end.

Definition alu_val (a : alu) (w : width) (x y : val) : res val :=
  match a with
  | AAdd => sum_val w x y
  | ASub =>
    match w, x with
    | X, Ptr k o => q <- as_int y ;; Ok (Ptr k (o - wrap_s 64 q))
    | _, _ => p <- as_int x ;; q <- as_int y ;; Ok (Int (wrap_u (bits_of w) (p - q)))
    end
  | AAnd => p <- as_int x ;; q <- as_int y ;; Ok (Int (wrap_u (bits_of w) (Z.land p q)))
  | AMul => p <- as_int x ;; q <- as_int y ;; Ok (Int (wrap_u (bits_of w) (p * q)))
  end.

(** Flags after subtracting, adding and after a bitwise operation. "Less" is the sign of the exact result:
    N differs from V. A pointer to a block is not null; addresses in a block are ordered like the offsets. *)
Definition compare_flags (w : width) (x y : val) : res flags :=
  match x, y with
  | Int p, Int q =>
    let p := wrap_s (bits_of w) p in let q := wrap_s (bits_of w) q in
    Ok {| f_eq := p =? q; f_lt := Some (p <? q) |}
  | Ptr _ _, Int 0 => match w with X => Ok {| f_eq := false; f_lt := None |} | W => UB end
  | Ptr k o, Ptr k' o' =>
    match w with X => if Nat.eqb k k' then Ok {| f_eq := o =? o'; f_lt := Some (o <? o') |} else UB | W => UB end
  | _, _ => UB
  end.
Definition alu_flags (a : alu) (w : width) (x y : val) : res flags :=
  match a with
  | ASub => compare_flags w x y
  | AAdd =>
    p <- as_int x ;; q <- as_int y ;;
    let z := wrap_s (bits_of w) p + wrap_s (bits_of w) q in
    Ok {| f_eq := wrap_u (bits_of w) z =? 0; f_lt := Some (z <? 0) |}
  | AAnd =>
    p <- as_int x ;; q <- as_int y ;;
    let z := wrap_s (bits_of w) (Z.land p q) in
    Ok {| f_eq := z =? 0; f_lt := Some (z <? 0) |}
  | AMul => UB
  end.

Definition holds (c : cond) (f : flags) : res bool :=
  match c with
  | Always => Ok true
  | EQ => Ok (f_eq f)
  | NE => Ok (negb (f_eq f))
  | LT => match f_lt f with Some b => Ok b | None => UB end
  | GE => match f_lt f with Some b => Ok (negb b) | None => UB end
  | LE => match f_lt f with Some b => Ok (b || f_eq f) | None => UB end
  | GT => match f_lt f with Some b => Ok (negb (b || f_eq f)) | None => UB end
  end.

(** ** Memory *)

Definition put (b : buf Z) (o : Z) (v : list Z) : buf Z :=
  {| blen := blen b;
     bdat := fun j => if (o <=? j) && (j <? o + Z.of_nat (length v)) then nth (Z.to_nat (j - o)) v 0 else bdat b j |}.
Definition get_bytes (b : buf Z) (o : Z) (n : nat) : list Z := map (fun i => bdat b (o + i)) (zseq 0 n).

Definition load_bytes (m : memory) (p : val) (n : nat) : res (list Z) :=
  match p with
  | Ptr k o =>
    match m k with
    | Bytes b => if (0 <=? o) && (o + Z.of_nat n <=? blen b) then Ok (get_bytes b o n) else UB
    | Struct _ => UB
    end
  | Int _ => UB
  end.

Definition store_vec (m : memory) (p : val) (v : list Z) : res memory :=
  match p with
  | Ptr k o =>
    match m k with
    | Bytes b => if (0 <=? o) && (o + Z.of_nat (length v) <=? blen b) then Ok (upd m k (Bytes (put b o v))) else UB
    | Struct _ => UB
    end
  | Int _ => UB
  end.

Fixpoint find_field (l : list (Z * Z * val)) (o n : Z) : res val :=
  match l with
  | [] => UB
  | ((o', n'), v) :: l => if (o =? o') && (n =? n') then Ok v else find_field l o n
  end.

(** Loads into a general-purpose register. *)
Definition load_val (m : memory) (p : val) (n : Z) : res val :=
  match p with
  | Ptr k o =>
    match m k with
    | Bytes _ => l <- load_bytes m p (Z.to_nat n) ;; Ok (Int (of_bytes l))
    | Struct fields => find_field fields o n
    end
  | Int _ => UB
  end.

(** ** Vectors *)

(** Lanes 2i of [a] and [b], or lanes 2i + 1. *)
Fixpoint trn (odd : bool) (a b : list vec) : vec :=
  match a, b with
  | a0 :: a1 :: a, b0 :: b1 :: b => (if odd then a1 ++ b1 else a0 ++ b0) ++ trn odd a b
  | _, _ => []
  end.
Definition zip_half (n : nat) (high : bool) (a b : vec) : vec :=
  let part v := if high then skipn 8 v else firstn 8 v in
  concat (map2 (fun x y => x ++ y) (chunks n (part a)) (chunks n (part b))).

(** Floats are the words in the lanes. The operations round to nearest even; results that are NaNs are the default one (the
    value of FPCR with which programs start, except that it keeps the payloads of NaNs, which are not modelled). FMAX and FMIN
    give NaN if an operand is NaN, and order -0 before +0. *)
Definition fmax_arm (a b : spec_float) : spec_float :=
  match a, b with
  | S754_nan, _ | _, S754_nan => S754_nan
  | S754_zero s, S754_zero s' => S754_zero (s && s')
  | _, _ => if SFltb b a then a else b
  end.
Definition fmin_arm (a b : spec_float) : spec_float :=
  match a, b with
  | S754_nan, _ | _, S754_nan => S754_nan
  | S754_zero s, S754_zero s' => S754_zero (s || s')
  | _, _ => if SFltb a b then a else b
  end.
Definition on_words (f : spec_float -> spec_float -> spec_float) (a b : vec) : vec :=
  of_lanes 4 (map2 (fun x y => word_of_float (f (float_of_word x) (float_of_word y))) (ulanes 4 a) (ulanes 4 b)).
(** Each lane of [a] is multiplied by lane [i] of [b] and added to that of [d], rounded once. *)
Definition fmla_lane (d a b : vec) (i : nat) : vec :=
  let y := float_of_word (nth i (ulanes 4 b) 0) in
  of_lanes 4 (map2 (fun x z => word_of_float (fused_mul_add 24 128 (float_of_word x) y (float_of_word z))) (ulanes 4 a) (ulanes 4 d)).

(** The nearest number with [n] bytes. *)
Definition sat_s (n : nat) (z : Z) : Z := let m := 2 ^ (8 * Z.of_nat n - 1) in Z.max (- m) (Z.min (m - 1) z).
Definition sat_u (n : nat) (z : Z) : Z := Z.max 0 (Z.min (2 ^ (8 * Z.of_nat n) - 1) z).
(** Shifts to the left by the low byte of a lane, which is signed; to the right they round down or to nearest, ties up. *)
Definition shift_left (round : bool) (x c : Z) : Z :=
  let c := wrap_s 8 c in
  if 0 <=? c then x * 2 ^ c else if round then (x + 2 ^ (- c - 1)) / 2 ^ (- c) else x / 2 ^ (- c).
(** The high half of the doubled product, saturated. *)
Definition doubling_high (n : nat) (x y : Z) : Z := sat_s n (2 * x * y / 2 ^ (8 * Z.of_nat n)).

Definition vop_val (o : vop) (a b : vec) : vec :=
  match o with
  | Smin n => of_lanes n (map2 Z.min (slanes n a) (slanes n b))
  | Smax n => of_lanes n (map2 Z.max (slanes n a) (slanes n b))
  | Umin n => of_lanes n (map2 Z.min (ulanes n a) (ulanes n b))
  | Umax n => of_lanes n (map2 Z.max (ulanes n a) (ulanes n b))
  | Sshl n => of_lanes n (map2 (shift_left false) (slanes n a) (slanes n b))
  | Srshl n => of_lanes n (map2 (shift_left true) (slanes n a) (slanes n b))
  | Sqdmulh n => of_lanes n (map2 (doubling_high n) (slanes n a) (slanes n b))
  | Sqadd n => of_lanes n (map2 (fun x y => sat_s n (x + y)) (slanes n a) (slanes n b))
  | Eor => map2 Z.lxor a b
  | Trn1 n => trn false (chunks n a) (chunks n b)
  | Trn2 n => trn true (chunks n a) (chunks n b)
  | Zip1 n => zip_half n false a b
  | Zip2 n => zip_half n true a b
  | VAdd n => of_lanes n (map2 Z.add (slanes n a) (slanes n b))
  | VSub n => of_lanes n (map2 Z.sub (slanes n a) (slanes n b))
  | Addp n => of_lanes n (pair_sums (slanes n a) ++ pair_sums (slanes n b))
  | Fadd => on_words (SFadd 24 128) a b
  | Fmax => on_words fmax_arm a b
  | Fmin => on_words fmin_arm a b
  end.

Definition saddlp (n : nat) (a : vec) : vec := of_lanes (2 * n) (pair_sums (slanes n a)).
Definition sadalp (n : nat) (d a : vec) : vec := of_lanes (2 * n) (map2 Z.add (slanes (2 * n) d) (pair_sums (slanes n a))).
(** Four products of signed bytes are added to each 32-bit lane. *)
Definition sdot (d a b : vec) : vec :=
  of_lanes 4 (map2 Z.add (slanes 4 d) (pair_sums (pair_sums (map2 Z.mul (slanes 1 a) (slanes 1 b))))).
(** The same with the four bytes at lane [i] of [b] for each lane. *)
Definition sdot_lane (d a b : vec) (i : nat) : vec := sdot d a (concat (repeat (nth i (chunks 4 b) []) 4)).
(** Products of signed bytes in 16-bit lanes. *)
Definition smull (a b : vec) : vec := of_lanes 2 (map2 Z.mul (slanes 1 (firstn 8 a)) (slanes 1 (firstn 8 b))).
Definition smlal2 (d a b : vec) : vec :=
  of_lanes 2 (map2 Z.add (slanes 2 d) (map2 Z.mul (slanes 1 (skipn 8 a)) (slanes 1 (skipn 8 b)))).
(** An operation on each 32-bit lane of [a] and lane [i] of [b]. *)
Definition by_lane (f : Z -> Z -> Z) (a b : vec) (i : nat) : vec :=
  let y := nth i (slanes 4 b) 0 in of_lanes 4 (map (fun x => f x y) (slanes 4 a)).
Definition mls_lane (d a b : vec) (i : nat) : vec :=
  let y := nth i (slanes 4 b) 0 in of_lanes 4 (map2 (fun z x => z - x * y) (slanes 4 d) (slanes 4 a)).
Definition saddw (a b : vec) : vec := of_lanes 4 (map2 Z.add (slanes 4 a) (slanes 2 (firstn 8 b))).
Definition narrow (unsigned : bool) (n : nat) (a : vec) : list Z :=
  of_lanes n (map (if unsigned then sat_u n else sat_s n) (slanes (2 * n) a)).
(** The register with [b] in place of its bytes from [i]. *)
Definition splice (v : vec) (i : nat) (b : list Z) : vec := firstn i v ++ b ++ skipn (i + length b) v.
(** Writing fewer than 16 bytes to a register clears the others. *)
Definition extend (v : list Z) : vec := v ++ repeat 0 (16 - length v).

(** SDOT (vector), 128 bits: 0 1 0 0 1 1 1 0 1 0 0 Rm 1 0 0 1 0 1 Rn Rd.
    SDOT (by element), 128 bits: 0 1 0 0 1 1 1 1 1 0 L Rm 1 1 1 0 H 0 Rn Rd; the lane is H L. *)
Definition decode (w : Z) : option instr :=
  if (Z.land w 4292934656 =? 1317049344)   (* 0xffe0fc00, 0x4e809400 *)
  then Some (Sdot (Z.to_nat (w mod 32)) (Z.to_nat (w / 2 ^ 5 mod 32)) (Z.to_nat (w / 2 ^ 16 mod 32)))
  else if (Z.land w 4290835456 =? 1333846016)   (* 0xffc0f400, 0x4f80e000 *)
  then Some (SdotLane (Z.to_nat (w mod 32)) (Z.to_nat (w / 2 ^ 5 mod 32)) (Z.to_nat (w / 2 ^ 16 mod 32))
               (Z.to_nat (2 * (w / 2 ^ 11 mod 2) + w / 2 ^ 21 mod 2)))
  else None.

(** ** Execution *)

Definition advance_base (s : state) (base : nat) (post : operand) : res state :=
  o <- operand_val X s post ;; p <- sum_val X (xs s base) o ;; Ok (set_x s base p).

(** An instruction that is not a branch. *)
Definition exec_plain (i : instr) (s : state) : res state :=
  match i with
  | Label _ | Nop => Ok s
  | B _ _ | Inst _ => UB
  | Mov w d o =>
    v <- operand_val w s o ;;
    match w, v with
    | W, Int z => Ok (set_x s d (Int (wrap_u 32 z)))
    | W, Ptr _ _ => UB
    | X, v => Ok (set_x s d v)
    end
  | Alu a f w d n o =>
    y <- operand_val w s o ;;
    v <- alu_val a w (xs s n) y ;;
    s' <- (if f then g <- alu_flags a w (xs s n) y ;; Ok (set_fl s g) else Ok s) ;;
    Ok (set_x s' d v)
  | Cmp w n o => y <- operand_val w s o ;; g <- compare_flags w (xs s n) y ;; Ok (set_fl s g)
  | Ld1 n d base post => v <- load_bytes (mem s) (xs s base) n ;; advance_base (set_v s d (extend v)) base post
  | St1 n a base post => m <- store_vec (mem s) (xs s base) (firstn n (vs s a)) ;; advance_base (set_mem s m) base post
  | Ld1Lane n d lane base post =>
    v <- load_bytes (mem s) (xs s base) n ;; advance_base (set_v s d (splice (vs s d) (n * lane) v)) base post
  | LdrQ d base o =>
    y <- operand_val X s o ;; p <- sum_val X (xs s base) y ;; v <- load_bytes (mem s) p 16 ;; Ok (set_v s d v)
  | StrQ a base o =>
    y <- operand_val X s o ;; p <- sum_val X (xs s base) y ;; m <- store_vec (mem s) p (vs s a) ;; Ok (set_mem s m)
  | Ldr n d base o =>
    y <- operand_val X s o ;; p <- sum_val X (xs s base) y ;; v <- load_val (mem s) p n ;; Ok (set_x s d v)
  | Dup n count d r => z <- as_int (xs s r) ;; Ok (set_v s d (extend (of_lanes n (repeat z count))))
  | Movi d z => Ok (set_v s d (repeat z 16))
  | Ins n d lane r => z <- as_int (xs s r) ;; Ok (set_v s d (splice (vs s d) (n * lane) (bytes_of n z)))
  | V2 o d a b => Ok (set_v s d (vop_val o (vs s a) (vs s b)))
  | Saddlp n d a => Ok (set_v s d (saddlp n (vs s a)))
  | Sadalp n d a => Ok (set_v s d (sadalp n (vs s d) (vs s a)))
  | Sdot d a b => Ok (set_v s d (sdot (vs s d) (vs s a) (vs s b)))
  | SdotLane d a b i => Ok (set_v s d (sdot_lane (vs s d) (vs s a) (vs s b) i))
  | Smull d a b => Ok (set_v s d (smull (vs s a) (vs s b)))
  | Smlal2 d a b => Ok (set_v s d (smlal2 (vs s d) (vs s a) (vs s b)))
  | MulLane d a b i => Ok (set_v s d (by_lane Z.mul (vs s a) (vs s b) i))
  | MlsLane d a b i => Ok (set_v s d (mls_lane (vs s d) (vs s a) (vs s b) i))
  | SqdmulhLane d a b i => Ok (set_v s d (by_lane (doubling_high 4) (vs s a) (vs s b) i))
  | Saddw d a b => Ok (set_v s d (saddw (vs s a) (vs s b)))
  | Narrow u high n d a =>
    let v := narrow u n (vs s a) in
    Ok (set_v s d (if high then firstn 8 (vs s d) ++ v else extend v))
  | Tst w n o => y <- operand_val w s o ;; g <- alu_flags AAnd w (xs s n) y ;; Ok (set_fl s g)
  | Csel w d a b c =>
    t <- holds c (fl s) ;;
    let v := xs s (if t : bool then a else b) in
    match w with W => z <- as_int v ;; Ok (set_x s d (Int (wrap_u 32 z))) | X => Ok (set_x s d v) end
  | Ccmp w n o c =>
    t <- holds c (fl s) ;;
    if t : bool then y <- operand_val w s o ;; g <- compare_flags w (xs s n) y ;; Ok (set_fl s g)
    else Ok (set_fl s {| f_eq := false; f_lt := Some false |})
  | VMov d a => Ok (set_v s d (vs s a))
  | DupLane n count d a i => Ok (set_v s d (extend (of_lanes n (repeat (nth i (ulanes n (vs s a)) 0) count))))
  | Fmla d a b i => Ok (set_v s d (fmla_lane (vs s d) (vs s a) (vs s b) i))
  | LdrD d base o =>
    y <- operand_val X s o ;; p <- sum_val X (xs s base) y ;; v <- load_bytes (mem s) p 8 ;; Ok (set_v s d (extend v))
  | Str n a base o =>
    y <- operand_val X s o ;; p <- sum_val X (xs s base) y ;; z <- as_int (xs s a) ;;
    m <- store_vec (mem s) p (bytes_of n z) ;; Ok (set_mem s m)
  | Ldrs n d base o =>
    y <- operand_val X s o ;; p <- sum_val X (xs s base) y ;; v <- load_val (mem s) p n ;; z <- as_int v ;;
    Ok (set_x s d (Int (wrap_u 32 (wrap_s (8 * n) z))))
  | LdrPost n d base post =>
    v <- load_val (mem s) (xs s base) n ;; s' <- advance_base s base post ;; Ok (set_x s' d v)
  | St1Lane n a lane base post =>
    m <- store_vec (mem s) (xs s base) (firstn n (skipn (n * lane) (vs s a))) ;; advance_base (set_mem s m) base post
  | St1Two a base post => m <- store_vec (mem s) (xs s base) (vs s a ++ vs s (S a)) ;; advance_base (set_mem s m) base post
  end.
Definition exec (i : instr) (s : state) : res state :=
  match i with
  | Inst w => match decode w with Some i => exec_plain i s | None => UB end
  | _ => exec_plain i s
  end.

(** The place of the first definition of label [l] at or after the head of [code], numbered from [at]. *)
Fixpoint find_label (code : list instr) (l at_ : nat) : option nat :=
  match code with
  | [] => None
  | Label l' :: code => if Nat.eqb l l' then Some at_ else find_label code l (S at_)
  | _ :: code => find_label code l (S at_)
  end.
(** The last definition of [l]. *)
Fixpoint find_last (code : list instr) (l at_ : nat) : option nat :=
  match code with
  | [] => None
  | i :: code =>
    match find_last code l (S at_) with
    | Some p => Some p
    | None => match i with Label l' => if Nat.eqb l l' then Some at_ else None | _ => None end
    end
  end.
Definition target_of (code : list instr) (pc : nat) (t : target) : option nat :=
  match t with
  | Fwd l => find_label (skipn (S pc) code) l (S pc)
  | Back l => find_last (firstn pc code) l 0
  end.

(** The program ends when control reaches its end. Running out of [fuel] is reported as Abort. *)
Fixpoint run (fuel : nat) (code : list instr) (pc : nat) (s : state) : res state :=
  match fuel with
  | O => Abort
  | S fuel =>
    match nth_error code pc with
    | None => Ok s
    | Some (B c t) =>
      b <- holds c (fl s) ;;
      if b : bool then match target_of code pc t with Some p => run fuel code p s | None => UB end
      else run fuel code (S pc) s
    | Some i => s' <- exec i s ;; run fuel code (S pc) s'
    end
  end.
