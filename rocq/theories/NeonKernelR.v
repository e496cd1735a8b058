(** The float kernels for AArch64: from the first instruction to the last. *)
From Coq Require Import ZArith List Bool Lia SpecFloat.
From Verif Require Import Base Mat Simd SimdFacts FloatWords FloatWordsFacts Neon64 NeonRun NeonTac NeonCols NeonPackMath NeonKTac NeonKernelCode NeonKernelF NeonKernelT NeonKernelM NeonKernelB NeonKernelW NeonKernelL.
Import ListNotations.
Open Scope Z_scope.

Ltac part_here k m := match goal with |- part_at ?c _ _ => exists (firstn k c), (skipn m c); split; vm_compute; reflexivity end.
Lemma advance_x1 : part_at kernelf_x1 advance_part 74. Proof. part_here 74%nat 100%nat. Qed.
Lemma bias_x1 : part_at kernelf_x1 bias_part 100. Proof. part_here 100%nat 144%nat. Qed.
Lemma finish_x1 : part_at kernelf_x1 finish_part 144. Proof. part_here 144%nat (144 + length finish_part)%nat. Qed.
Lemma advance_neon : part_at kernelf_neon advance_part 225. Proof. part_here 225%nat 251%nat. Qed.
Lemma bias_neon : part_at kernelf_neon bias_part 251. Proof. part_here 251%nat 295%nat. Qed.
Lemma finish_neon : part_at kernelf_neon finish_part 295. Proof. part_here 295%nat (295 + length finish_part)%nat. Qed.
Lemma advance_a55 : part_at kernelf_a55 advance_part 92. Proof. part_here 92%nat 118%nat. Qed.
Lemma bias_a55 : part_at kernelf_a55 bias_part5 118. Proof. part_here 118%nat 162%nat. Qed.
Lemma finish_a55 : part_at kernelf_a55 finish_part 162. Proof. part_here 162%nat (162 + length finish_part)%nat. Qed.
Lemma advance_dotprod_a55 : part_at kernelf_dotprod_a55 advance_part 92. Proof. part_here 92%nat 118%nat. Qed.
Lemma bias_dotprod_a55 : part_at kernelf_dotprod_a55 bias_part5 118. Proof. part_here 118%nat 162%nat. Qed.
Lemma finish_dotprod_a55 : part_at kernelf_dotprod_a55 finish_part 162. Proof. part_here 162%nat (162 + length finish_part)%nat. Qed.

Section Run.
Variables (L R Bi : buf Z) (lo ro dof bo sr sc lr lc dr dc ls rs ds K cmin cmax : Z) (hb cc : bool) (drz dcz : Z).
Notation kmem := (kmem L R Bi lo ro dof bo sr sc lr lc dr dc ls rs ds K cmin cmax hb cc).
Notation core := (core lc ls rs ds K drz dcz).
Hypothesis HK : 1 <= K < 2 ^ 31.

(** *** Going round *)
Definition round (code : list instr) (a b : nat) (c1 : Z) : Prop := forall s t, core s -> holds LE (fl s) = Ok t ->
  reach 2 code (b + 204) s (fun pc s' => pc = (if t then a else b + 206)%nat /\ xs s' 1 = Int c1 /\ mem s' = mem s /\ vs s' = vs s /\ keep (5 :: 6 :: 7 :: rest)%nat s s').
Ltac going_round :=
  intros s t [C8 C9 C10 C11 C12 C48 C49 C50 C51] Ht; begin; kstep; (eapply reach_b with (b := t); [reflexivity|reflexivity|exact Ht|]);
  destruct t; finish; (split; [reflexivity|]); (split; [reads|]); (split; [reflexivity|]); (split; [reflexivity|kept_here]).
Lemma round_x1 : round kernelf_x1 29 74 1.
Proof. going_round. Qed.
Lemma round_neon : round kernelf_neon 29 225 1.
Proof. going_round. Qed.
Lemma round_a55 : round kernelf_a55 37 92 (K - 1).
Proof. going_round. Qed.
Lemma round_dotprod_a55 : round kernelf_dotprod_a55 37 92 (K - 1).
Proof. going_round. Qed.

(** *** Up to the first block *)
Record starting (D T : buf Z) (s : state) : Prop := {
  i_mem : kmem D T (mem s); i_40 : xs s 40 = Ptr 1 lo; i_41 : xs s 41 = Ptr 2 ro; i_42 : xs s 42 = Ptr 1 lo; i_43 : xs s 43 = Ptr 2 ro;
  i_44 : xs s 44 = Ptr 4 dof; i_45 : xs s 45 = Ptr 4 dof; i_46 : exists z, xs s 46 = Int z /\ z mod 2 ^ 32 = sr; i_47 : exists z, xs s 47 = Int z /\ z mod 2 ^ 32 = sc;
  i_48 : xs s 48 = Ptr 0 0; i_49 : xs s 49 = Int drz; i_50 : xs s 50 = Int dcz; i_51 : xs s 51 = Ptr 5 0 }.
Definition enters (code : list instr) (a : nat) (c1 : Z) : Prop := forall D T s, starting D T s -> 256 <= blen T -> 0 <= lo /\ lo + 32 <= blen L -> 0 <= ro /\ ro + 32 <= blen R ->
  reach a code 0 s (fun pc s' => pc = a /\ at_block L R Bi lo ro dof bo sr sc lr lc dr dc ls rs ds K cmin cmax hb cc drz dcz c1 D sr sc lo ro dof dof s').
Ltac entering_from := intros D T s [[M0 M1 M2 M3 M4 M5] X40 X41 X42 X43 X44 X45 (z46 & X46 & E46) (z47 & X47 & E47) X48 X49 X50 X51] HT HL HR; begin.
Ltac entered T HT z46 E46 z47 E47 := finish;
  (split; [reflexivity|]); constructor; try reads; try reflexivity;
  [ exists T; split; [exact HT|]; constructor; assumption
  | constructor; reads
  | exists z46; split; [reads|exact E46]
  | exists z47; split; [reads|exact E47]
  | constructor; [reads_lia|reads_lia|..]; look; unfold lv, rv; f_equal; lia
  | constructor; reads ].
Lemma enters_x1 : enters kernelf_x1 29 1.
Proof. entering_from. do 29 kstep. entered T HT z46 E46 z47 E47. Qed.
Lemma enters_neon : enters kernelf_neon 29 1.
Proof. entering_from. do 29 kstep. entered T HT z46 E46 z47 E47. Qed.
Lemma enters_a55 : enters kernelf_a55 37 (K - 1).
Proof. entering_from. do 37 kstep. entered T HT z46 E46 z47 E47. Qed.
Lemma enters_dotprod_a55 : enters kernelf_dotprod_a55 37 (K - 1).
Proof. entering_from. do 37 kstep. entered T HT z46 E46 z47 E47. Qed.
End Run.
