(** Kernel8bitNeonDotprod1Col changes v20, which its asm statement does not declare. *)
From Coq Require Import ZArith List Bool.
From Verif Require Import Base SidePair Mat Scalars Pack IntOps MulParams Kernel Kernel8bit Neon64 NeonPack NeonKernel8Code NeonDecl CpuInfo Tune Kernel8Neon.
From Verif Require Import SpecNeonDecl Kernel8bitExamples.
Import ListNotations.
Open Scope Z_scope.

Definition ex_leftover : leftover :=
  {| lo_xs := fun _ => Int 77; lo_vs := fun _ => repeat 7 16; lo_fl := {| f_eq := true; f_lt := None |}; lo_upper := fun _ => 0 |}.

(** The call of a matrix times a vector with int8 results. *)
Definition ex_1col_params : res kparams :=
  make_kernel_params8bit true 8 s8 s8 (ex_packed 8 ex_lhs 3) (ex_packed 8 ex_rhs (-2)) (ex_params ChRow (-128) 127) 0 0 16 8 (ex_dst 13 1) 4.

Lemma ex_1col_v20 :
  match ex_1col_params with
  | Ok p => match run (kernel8_fuel 8 p) kernel8_dotprod_1col 0 (kernel8_start 8 ex_leftover (fun _ => 5) p ex_buf) with
            | Ok s' => negb (nth 0 (vs s' 20%nat) 0 =? 7)
            | _ => false
            end
  | _ => false
  end = true.
Proof. vm_compute. reflexivity. Qed.

Lemma dotprod_1col_v20 : exists p s',
  make_kernel_params8bit true 8 s8 s8 (ex_packed 8 ex_lhs 3) (ex_packed 8 ex_rhs (-2)) (ex_params ChRow (-128) 127) 0 0 16 8 (ex_dst 13 1) 4 = Ok p /\
  run (kernel8_fuel 8 p) (ad_code kernel8_dotprod_1col_decl) 0 (kernel8_start 8 ex_leftover (fun _ => 5) p ex_buf) = Ok s' /\
  ~ In 20%nat (ad_v kernel8_dotprod_1col_decl) /\
  vs s' 20%nat <> vs (kernel8_start 8 ex_leftover (fun _ => 5) p ex_buf) 20%nat.
Proof.
  pose proof ex_1col_v20 as H. unfold ex_1col_params in H.
  destruct (make_kernel_params8bit _ _ _ _ _ _ _ _ _ _ _ _ _) as [p| |]; [|discriminate..].
  change (ad_code kernel8_dotprod_1col_decl) with kernel8_dotprod_1col.
  destruct (run _ _ _ _) as [s'| |] eqn:E; [|discriminate..].
  exists p, s'. split; [reflexivity|]. split; [exact E|]. split.
  - intros Hi. apply in_seq in Hi. destruct Hi as [_ Hi]. apply PeanoNat.Nat.ltb_lt in Hi. discriminate Hi.
  - intros Hv. rewrite Hv in H. discriminate H.
Qed.

Lemma dotprod_1col_disrespects : ~ respects kernel8_dotprod_1col_decl.
Proof.
  intros H. destruct dotprod_1col_v20 as (p & s' & _ & E & Hi & Hv). destruct (H _ _ _ E) as (_ & V & _). exact (Hv (V _ Hi)).
Qed.

Lemma ex_dotprod_ends :
  match make_kernel_params8bit true 8 s8 s8 (ex_packed 8 ex_lhs 3) (ex_packed 8 ex_rhs (-2)) (ex_params ChCol (-128) 127) 0 0 16 16 (ex_dst 13 10) 4 with
  | Ok p => match run (kernel8_fuel 8 p) kernel8_dotprod 0 (kernel8_start 8 ex_leftover (fun _ => 5) p ex_buf) with Ok _ => true | _ => false end
  | _ => false
  end = true.
Proof. vm_compute. reflexivity. Qed.
Lemma dotprod_runs : exists p s',
  make_kernel_params8bit true 8 s8 s8 (ex_packed 8 ex_lhs 3) (ex_packed 8 ex_rhs (-2)) (ex_params ChCol (-128) 127) 0 0 16 16 (ex_dst 13 10) 4 = Ok p /\
  run (kernel8_fuel 8 p) (ad_code kernel8_dotprod_decl) 0 (kernel8_start 8 ex_leftover (fun _ => 5) p ex_buf) = Ok s' /\ In kernel8_dotprod_decl asm_decls.
Proof.
  pose proof ex_dotprod_ends as H.
  destruct (make_kernel_params8bit _ _ _ _ _ _ _ _ _ _ _ _ _) as [p| |]; [|discriminate..].
  change (ad_code kernel8_dotprod_decl) with kernel8_dotprod.
  destruct (run _ _ _ _) as [s'| |] eqn:E; [|discriminate..].
  exists p, s'. split; [reflexivity|]. split; [exact E|]. unfold asm_decls. do 14 right. left. reflexivity.
Qed.
