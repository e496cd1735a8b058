(** What the hardware does about denormals, and what is required of the threads. *)
From Verif Require Import Base.

(** Where the mode is kept: the MXCSR of x86, the FPSCR of 32-bit ARM, the FPCR of 64-bit
    ARM (for two families of compilers), or nowhere that the library knows of. *)
Inductive fpu := Mxcsr | Fpscr | FpcrGnu | FpcrMsvc | NoRegister.
Definition reg_width (a : fpu) : Z := match a with Mxcsr | Fpscr => 32 | FpcrGnu | FpcrMsvc => 64 | NoRegister => 0 end.
(** The bits that make denormals flush to zero: FTZ and DAZ; FZ; FZ and FZ16. *)
Definition flush_bits (a : fpu) : list Z :=
  match a with Mxcsr => [15; 6] | Fpscr => [24] | FpcrGnu | FpcrMsvc => [24; 19] | NoRegister => [] end.
Definition suppressed (a : fpu) (r : Z) : Prop := forall b, In b (flush_bits a) -> Z.testbit r b = true.
Definition a_register (a : fpu) (r : Z) : Prop := 0 <= r < 2 ^ reg_width a.
