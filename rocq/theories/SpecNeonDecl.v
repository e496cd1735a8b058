(** What a compiler assumes of an asm statement: registers that are neither written operands nor clobbered keep their values,
    the flags do unless "cc" is listed, memory does unless "memory" is listed. *)
From Coq Require Import List.
From Verif Require Import Base Neon64 NeonDecl.

Definition respects (d : asm_decl) : Prop := forall fuel s s', run fuel (ad_code d) 0 s = Ok s' ->
  (forall r, ~ In r (ad_inout d) -> ~ In r (ad_x d) -> xs s' r = xs s r) /\
  (forall r, ~ In r (ad_v d) -> vs s' r = vs s r) /\
  (ad_cc d = false -> fl s' = fl s) /\ (ad_memory d = false -> mem s' = mem s).
