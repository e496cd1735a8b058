(** What the asm statements for AArch64 in ruy/pack_arm.cc and ruy/kernel_arm64.cc declare to the compiler.

    Printed by tools/asmdecl.py from the operand and clobber lists of the statements. Operands have the registers that
    NeonPackCode.v, NeonKernelCode.v and NeonKernel8Code.v give them (from 40). *)
From Coq Require Import ZArith List.
From Verif Require Import Neon64 NeonPackCode NeonKernelCode NeonKernel8Code.
Import ListNotations.

(** [ad_inout]: operands with constraint "+r"; [ad_in]: with constraint "r". The clobbered registers x and v, and whether
    "cc" and "memory" are listed. *)
Record asm_decl := { ad_code : list instr; ad_inout : list nat; ad_in : list nat; ad_x : list nat; ad_v : list nat; ad_cc : bool; ad_memory : bool }.

(** pack_arm.cc:200-212. *)
Definition pack8_neon_decl : asm_decl := {| ad_code := pack8_neon; ad_inout := seq 40 4 ++ seq 48 2; ad_in := seq 44 4 ++ seq 50 3; ad_x := seq 1 2; ad_v := seq 0 32; ad_cc := true; ad_memory := true |}.
(** pack_arm.cc:826-837. *)
Definition pack8_neon_a55_decl : asm_decl := {| ad_code := pack8_neon_a55; ad_inout := seq 40 4 ++ seq 48 2; ad_in := seq 44 4 ++ seq 50 3; ad_x := seq 1 2 ++ seq 10 4; ad_v := seq 0 32; ad_cc := true; ad_memory := true |}.
(** pack_arm.cc:1571-1584. *)
Definition pack8_dotprod_decl : asm_decl := {| ad_code := pack8_dotprod; ad_inout := seq 40 4 ++ seq 48 2; ad_in := seq 44 4 ++ seq 50 3; ad_x := seq 1 2; ad_v := seq 0 32; ad_cc := true; ad_memory := true |}.
(** pack_arm.cc:1074-1083. *)
Definition pack8_dotprod_a55_decl : asm_decl := {| ad_code := pack8_dotprod_a55; ad_inout := seq 40 4 ++ seq 48 2; ad_in := seq 44 4 ++ seq 50 3; ad_x := seq 1 2 ++ seq 10 4; ad_v := seq 0 32; ad_cc := true; ad_memory := true |}.
(** pack_arm.cc:1724-1735. *)
Definition pack8_row_dotprod_decl : asm_decl := {| ad_code := pack8_row_dotprod; ad_inout := seq 40 4 ++ seq 48 2; ad_in := seq 44 4 ++ seq 51 4; ad_x := seq 0 3; ad_v := seq 0 32; ad_cc := true; ad_memory := true |}.
(** pack_arm.cc:1869-1880. *)
Definition packf_neon_decl : asm_decl := {| ad_code := packf_neon; ad_inout := seq 40 4 ++ seq 48 1; ad_in := seq 44 4 ++ seq 50 1; ad_x := seq 1 2 ++ seq 10 4; ad_v := seq 0 32; ad_cc := true; ad_memory := true |}.
(** pack_arm.cc:2211-2217. *)
Definition packf_neon_a55_decl : asm_decl := {| ad_code := packf_neon_a55; ad_inout := seq 40 4 ++ seq 48 1; ad_in := seq 44 4 ++ seq 50 1; ad_x := seq 1 2 ++ seq 10 4; ad_v := seq 0 32; ad_cc := true; ad_memory := true |}.
(** kernel_arm64.cc:8323-8331. *)
Definition kernelf_neon_decl : asm_decl := {| ad_code := kernelf_neon; ad_inout := seq 40 8; ad_in := seq 48 4; ad_x := seq 1 13; ad_v := seq 0 32; ad_cc := true; ad_memory := true |}.
(** kernel_arm64.cc:8789-8797. *)
Definition kernelf_x1_decl : asm_decl := {| ad_code := kernelf_x1; ad_inout := seq 40 8; ad_in := seq 48 4; ad_x := seq 1 13; ad_v := seq 0 32; ad_cc := true; ad_memory := true |}.
(** kernel_arm64.cc:9282-9290. *)
Definition kernelf_a55_decl : asm_decl := {| ad_code := kernelf_a55; ad_inout := seq 40 8; ad_in := seq 48 4; ad_x := seq 1 13; ad_v := seq 0 32; ad_cc := true; ad_memory := true |}.
(** kernel_arm64.cc:9775-9783. *)
Definition kernelf_dotprod_a55_decl : asm_decl := {| ad_code := kernelf_dotprod_a55; ad_inout := seq 40 8; ad_in := seq 48 4; ad_x := seq 1 13; ad_v := seq 0 32; ad_cc := true; ad_memory := true |}.
(** kernel_arm64.cc:1142-1151. *)
Definition kernel8_neon_decl : asm_decl := {| ad_code := kernel8_neon; ad_inout := seq 40 8; ad_in := seq 48 5; ad_x := seq 1 13; ad_v := seq 0 32; ad_cc := true; ad_memory := true |}.
(** kernel_arm64.cc:1811-1819. *)
Definition kernel8_1col_decl : asm_decl := {| ad_code := kernel8_1col; ad_inout := seq 40 8; ad_in := seq 48 5; ad_x := seq 1 13; ad_v := seq 0 20; ad_cc := true; ad_memory := true |}.
(** kernel_arm64.cc:2961-2970. *)
Definition kernel8_a55_decl : asm_decl := {| ad_code := kernel8_a55; ad_inout := seq 40 8; ad_in := seq 48 5; ad_x := seq 1 13; ad_v := seq 0 32; ad_cc := true; ad_memory := true |}.
(** kernel_arm64.cc:4397-4406. *)
Definition kernel8_dotprod_decl : asm_decl := {| ad_code := kernel8_dotprod; ad_inout := seq 40 8; ad_in := seq 48 5; ad_x := seq 1 13; ad_v := seq 0 32; ad_cc := true; ad_memory := true |}.
(** kernel_arm64.cc:5652-5661. *)
Definition kernel8_dotprod_x1_decl : asm_decl := {| ad_code := kernel8_dotprod_x1; ad_inout := seq 40 8; ad_in := seq 48 5; ad_x := seq 1 13; ad_v := seq 0 32; ad_cc := true; ad_memory := true |}.
(** kernel_arm64.cc:6344-6352. *)
Definition kernel8_dotprod_1col_decl : asm_decl := {| ad_code := kernel8_dotprod_1col; ad_inout := seq 40 8; ad_in := seq 48 5; ad_x := seq 1 13; ad_v := seq 0 18; ad_cc := true; ad_memory := true |}.
(** kernel_arm64.cc:7622-7631. *)
Definition kernel8_dotprod_a55_decl : asm_decl := {| ad_code := kernel8_dotprod_a55; ad_inout := seq 40 8; ad_in := seq 48 5; ad_x := seq 1 13; ad_v := seq 0 32; ad_cc := true; ad_memory := true |}.

(** All but the statement of Kernel8bitNeonDotprod1Col. *)
Definition asm_decls : list asm_decl :=
  [pack8_neon_decl; pack8_neon_a55_decl; pack8_dotprod_decl; pack8_dotprod_a55_decl; pack8_row_dotprod_decl; packf_neon_decl; packf_neon_a55_decl;
   kernelf_neon_decl; kernelf_x1_decl; kernelf_a55_decl; kernelf_dotprod_a55_decl;
   kernel8_neon_decl; kernel8_1col_decl; kernel8_a55_decl; kernel8_dotprod_decl; kernel8_dotprod_x1_decl; kernel8_dotprod_a55_decl].
