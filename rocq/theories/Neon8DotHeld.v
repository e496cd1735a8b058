(** Kernel8bitNeonDotprodX1 and Kernel8bitNeonDotprod (kernel_arm64.cc:4414-5667, 2987-4412): the registers that hold the columns of a block before they are stored. *)
From Coq Require Import ZArith List Bool.
From Verif Require Import Base Mat Neon64 NeonRun NeonKernelF NeonKernelT.
Import ListNotations.
Open Scope Z_scope.

Definition held_u8 (out : nat -> list Z) (s : state) : Prop := firstn 8 (vs s 16) = out 0%nat /\ firstn 8 (vs s 20) = out 1%nat /\ firstn 8 (vs s 17) = out 2%nat /\ firstn 8 (vs s 21) = out 3%nat /\ firstn 8 (vs s 18) = out 4%nat /\ firstn 8 (vs s 22) = out 5%nat /\ firstn 8 (vs s 19) = out 6%nat /\ firstn 8 (vs s 23) = out 7%nat.
Definition held_s8 (out : nat -> list Z) (s : state) : Prop := firstn 8 (vs s 16) = out 0%nat /\ firstn 8 (vs s 20) = out 1%nat /\ firstn 8 (vs s 17) = out 2%nat /\ firstn 8 (vs s 21) = out 3%nat /\ firstn 8 (vs s 18) = out 4%nat /\ firstn 8 (vs s 22) = out 5%nat /\ firstn 8 (vs s 19) = out 6%nat /\ firstn 8 (vs s 23) = out 7%nat.
Definition held_s16 (out : nat -> list Z) (s : state) : Prop := firstn 16 (vs s 16) = out 0%nat /\ firstn 16 (vs s 17) = out 1%nat /\ firstn 16 (vs s 18) = out 2%nat /\ firstn 16 (vs s 19) = out 3%nat /\ firstn 16 (vs s 20) = out 4%nat /\ firstn 16 (vs s 21) = out 5%nat /\ firstn 16 (vs s 22) = out 6%nat /\ firstn 16 (vs s 23) = out 7%nat.
Definition held_s32 (out : nat -> list Z) (s : state) : Prop := exists g, outs g s /\ (forall h c, length (g h c) = 16%nat) /\ out = (fun c => g 0%nat c ++ g 1%nat c).
