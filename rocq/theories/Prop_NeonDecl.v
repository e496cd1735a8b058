(** C64: the registers that the asm statements for AArch64 declare. *)
From Coq Require Import ZArith List.
From Verif Require Import Base SidePair Mat Scalars Pack IntOps MulParams Kernel Kernel8bit Neon64 NeonPack NeonKernel8Code NeonDecl Kernel8Neon.
From Verif Require Import SpecNeonDecl Kernel8bitExamples NeonDeclFacts NeonDeclBad.
Import ListNotations.
Open Scope Z_scope.

Theorem C64_respects : forall d, In d asm_decls -> respects d.
Proof. exact asm_respects. Qed.
Print Assumptions C64_respects.

Theorem C64_dotprod_1col_partial : forall fuel s s', run fuel kernel8_dotprod_1col 0 s = Ok s' ->
  (forall r, ~ In r (ad_inout kernel8_dotprod_1col_decl) -> ~ In r (ad_x kernel8_dotprod_1col_decl) -> xs s' r = xs s r) /\
  (forall r, ~ In r (ad_v kernel8_dotprod_1col_decl) -> r <> 20%nat -> vs s' r = vs s r).
Proof. exact dotprod_1col_but_v20. Qed.
Print Assumptions C64_dotprod_1col_partial.

Theorem C64_dotprod_1col_v20_refuted : exists p s',
  make_kernel_params8bit true 8 s8 s8 (ex_packed 8 ex_lhs 3) (ex_packed 8 ex_rhs (-2)) (ex_params ChRow (-128) 127) 0 0 16 8 (ex_dst 13 1) 4 = Ok p /\
  run (kernel8_fuel 8 p) (ad_code kernel8_dotprod_1col_decl) 0 (kernel8_start 8 ex_leftover (fun _ => 5) p ex_buf) = Ok s' /\
  ~ In 20%nat (ad_v kernel8_dotprod_1col_decl) /\
  vs s' 20%nat <> vs (kernel8_start 8 ex_leftover (fun _ => 5) p ex_buf) 20%nat.
Proof. exact dotprod_1col_v20. Qed.
Print Assumptions C64_dotprod_1col_v20_refuted.

Theorem C64_dotprod_1col_refuted : ~ respects kernel8_dotprod_1col_decl.
Proof. exact dotprod_1col_disrespects. Qed.
Print Assumptions C64_dotprod_1col_refuted.

(** A run of Kernel8bitNeonDotprod on two blocks of rows and two blocks of columns ends; it changes registers that it declares. *)
Example C64_run : exists p s',
  make_kernel_params8bit true 8 s8 s8 (ex_packed 8 ex_lhs 3) (ex_packed 8 ex_rhs (-2)) (ex_params ChCol (-128) 127) 0 0 16 16 (ex_dst 13 10) 4 = Ok p /\
  run (kernel8_fuel 8 p) (ad_code kernel8_dotprod_decl) 0 (kernel8_start 8 ex_leftover (fun _ => 5) p ex_buf) = Ok s' /\ In kernel8_dotprod_decl asm_decls.
Proof. exact dotprod_runs. Qed.
