(** Calls of the kernels for AArch64 with dot products: one that the theorem covers, and one that it does not. *)
From Coq Require Import ZArith List Bool Lia.
From Verif Require Import Base SidePair SizeUtil Mat Scalars Pack IntOps MulParams Kernel MatFacts.
From Verif Require Import SpecRound SpecMatrix SpecPack SpecMul SpecSimd SpecPackX86 SpecKernel SpecKernelNeon.
From Verif Require Import Kernel8bit Kernel8bitIsa Kernel8bitExamples Neon64 NeonPack NeonKernel8Code CpuInfo Tune Kernel8Neon NeonDeclBad Kernel8NeonProps Kernel8NeonDotProps Kernel8NeonExamples SpecKernel.
Import ListNotations.
Open Scope Z_scope.

(** Either of the programs. *)
Lemma dotprod_computes : forall dbg t g tmp dt lp rp L R mp sr sc er ec dl dst_zp dst,
  neon_call 8 dt lp rp L R mp sr sc er ec dl dst_zp dst -> t <> TA55ish ->
  lo_upper g 46 mod 2 ^ 32 = 0 -> lo_upper g 47 mod 2 ^ 32 = 0 ->
  exists dst', kernel_8bit_neon dbg true t g tmp dt lp rp mp sr sc er ec dl dst_zp dst = Ok dst' /\
    block_computed (fun i j => neon_result dt mp dst_zp i j (exact_accumulator (pl_rows (p_layout lp)) (p_zp lp) (p_zp rp) L R mp i j)) sr sc er ec dl dst dst'.
Proof.
  intros dbg t g tmp dt lp rp L R mp sr sc er ec dl dst_zp dst NC T U1 U2. destruct (Z.eq_dec (ml_cols dl) 1) as [E|E]; [destruct (mp_chan mp) eqn:EC|].
  - exact (column_computes dbg t g tmp dt lp rp L R mp sr sc er ec dl dst_zp dst NC E EC U1 U2).
  - apply region_computes; try assumption. rewrite EC. intros (_ & H). discriminate H.
  - apply region_computes; try assumption. intros (H & _). contradiction.
Qed.

(** The results of a call on 13 rows and 11 columns: the first and the last column. *)
Lemma region_result : forall t, t = TGeneric \/ t = TX1 -> exists d,
  kernel_8bit_neon true true t ex_leftover (fun _ => 5) s8 (ex_packed 8 ex_lhs 3) (ex_packed 8 ex_rhs (-2)) (ex_params ChCol (-128) 127) 0 0 16 16 (ex_dst 13 11) 4 ex_buf = Ok d /\
  map (bdat d) (zrange 0 14) = [-4; 1; -2; -8; -1; 1; -1; -7; 0; 0; -4; -4; 1; 99] /\ map (bdat d) (zrange 150 164) = [6; 2; 3; 5; 4; -3; 4; 7; 0; 1; 6; 6; 2; 99].
Proof.
  intros t Ht.
  assert (E : match kernel_8bit_neon true true t ex_leftover (fun _ => 5) s8 (ex_packed 8 ex_lhs 3) (ex_packed 8 ex_rhs (-2)) (ex_params ChCol (-128) 127) 0 0 16 16 (ex_dst 13 11) 4 ex_buf with
    Ok d => (map (bdat d) (zrange 0 14), map (bdat d) (zrange 150 164)) | _ => ([], []) end = ([-4; 1; -2; -8; -1; 1; -1; -7; 0; 0; -4; -4; 1; 99], [6; 2; 3; 5; 4; -3; 4; 7; 0; 1; 6; 6; 2; 99])).
  { destruct Ht as [-> | ->]; vm_compute; reflexivity. }
  destruct (kernel_8bit_neon _ _ _ _ _ _ _ _ _ _ _ _ _ _ _ _); try discriminate E. eexists. split; [reflexivity|]. split; [exact (f_equal fst E)|exact (f_equal snd E)].
Qed.

(** Likewise for the int32 variable col: the statement adds the whole register to pointers. *)
Lemma upper_half_col : exists g dt lp rp L R mp dl dst, neon_call 8 dt lp rp L R mp 0 0 16 16 dl 4 dst /\
  (forall k, k <> 47%nat -> lo_upper g k = 0) /\ kernel_8bit_neon true true TGeneric g (fun _ => 5) dt lp rp mp 0 0 16 16 dl 4 dst = UB.
Proof.
  exists (nx_upper 47), s8, (ex_packed 8 ex_lhs 3), (ex_packed 8 ex_rhs (-2)), ex_lhs, ex_rhs, (ex_params ChCol (-128) 127), (ex_dst 13 11), ex_buf.
  split; [apply ex_neon_call; auto; vm_compute; intuition discriminate|]. split.
  - intros k Hk. cbn [nx_upper lo_upper]. apply Nat.eqb_neq in Hk. rewrite Hk. reflexivity.
  - vm_compute. reflexivity.
Qed.
