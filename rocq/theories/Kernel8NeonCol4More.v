(** One column of kNeon's kernels: products without overflow, and examples. *)
From Coq Require Import ZArith List Bool Lia.
From Verif Require Import Base SidePair Mat Scalars Pack IntOps MulParams Kernel MatFacts.
From Verif Require Import SpecRound SpecMatrix SpecPack SpecMul SpecSimd SpecPackX86 SpecPackNeon SpecKernel SpecKernelNeon SpecNeonSums SpecNeonCol4.
From Verif Require Import Kernel8bit Kernel8bitExamples Neon64 NeonPack NeonKernel8Code CpuInfo Tune Kernel8Neon NeonDeclBad Kernel8NeonExamples Kernel8NeonSums Kernel8NeonCol4Props.
Import ListNotations.
Open Scope Z_scope.

Lemma column_exact : forall dbg t g tmp dt lp rp L R mp sr sc er ec dl dst_zp dst,
  cells_call dt lp rp L R mp sr sc er ec dl dst_zp dst -> ml_cols dl = 1 -> mp_chan mp = ChRow ->
  lo_upper g 46 mod 2 ^ 32 = 0 -> lo_upper g 47 mod 2 ^ 32 = 0 ->
  (forall i k, sr <= i < er -> i < ml_rows dl -> 0 <= k < pl_rows (p_layout lp) -> L k i <> -128 \/ R k 0 <> -128) ->
  exists dst', kernel_8bit_neon dbg false t g tmp dt lp rp mp sr sc er ec dl dst_zp dst = Ok dst' /\
    block_computed (fun i j => neon_result dt mp dst_zp i j (exact_accumulator (pl_rows (p_layout lp)) (p_zp lp) (p_zp rp) L R mp i j)) sr sc er ec dl dst dst'.
Proof.
  intros dbg t g tmp dt lp rp L R mp sr sc er ec dl dst_zp dst C One Ch U46 U47 H.
  destruct (column_computes4 dbg t g tmp dt lp rp L R mp sr sc er ec dl dst_zp dst C One Ch U46 U47) as (d & E & B1 & B2 & B3).
  exists d. split; [exact E|]. split; [exact B1|]. split; [|exact B3].
  intros i j Hi Hj Hm. specialize (B2 i j Hi Hj Hm). unfold cells_accumulator in B2. destruct Hm as (Hm1 & Hm2). rewrite no_overflow in B2; [rewrite Z.mul_0_r, Z.sub_0_r in B2; exact B2|].
  intros k Hk. replace j with 0 by lia. apply H; lia.
Qed.

(** ** Thirty-two levels and twelve columns; column 5 of the left-hand side and the columns of the right-hand side hold -128 at levels 2 and 10. *)
Definition fx_lhs (k c : Z) : Z := if (c =? 5) && ((k =? 2) || (k =? 10)) then -128 else (7 * k + 3 * c) mod 251 - 125.
Definition fx_rhs (k c : Z) : Z := if (k =? 2) || (k =? 10) then -128 else (5 * k + 2 * c) mod 241 - 120.
Definition fx_packed (f : Z -> Z -> Z) (zp : Z) (sums : bool) : pmat Z := {|
  p_data := {| blen := 384; bdat := fun q => f (16 * (q mod 128 / 64) + q mod 16) (4 * (q / 128) + q mod 64 / 16) |};
  p_sums := if sums then Some {| blen := 12; bdat := fun c => zsum (map (fun k => f k c) (zrange 0 32)) |} else None;
  p_layout := {| pl_rows := 32; pl_cols := 12; pl_stride := 32; pl_order := ColMajor; pl_kernel := bytes_16x4 |};
  p_zp := zp |}.

Lemma fx_cells : forall f zp b, (forall k c, -128 <= f k c <= 127) -> packed_cells (fx_packed f zp b).
Proof.
  intros f zp b H. unfold packed_cells, fx_packed. cbn [p_layout pl_kernel pl_order pl_stride pl_rows pl_cols p_data blen].
  repeat split; try (vm_compute; congruence); try (exists 2; reflexivity); try (exists 3; reflexivity).
  all: cbn [bdat]; change (it_lo s8) with (-128); change (it_hi s8) with 127; apply H.
Qed.
Lemma fx_lhs_range : forall k c, -128 <= fx_lhs k c <= 127.
Proof. intros k c. unfold fx_lhs. destruct (_ && _); [lia|]. pose proof (Z.mod_pos_bound (7 * k + 3 * c) 251). lia. Qed.
Lemma fx_rhs_range : forall k c, -128 <= fx_rhs k c <= 127.
Proof. intros k c. unfold fx_rhs. destruct (_ || _); [lia|]. pose proof (Z.mod_pos_bound (5 * k + 2 * c) 241). lia. Qed.

Lemma fx_call : cells_call s16 (fx_packed fx_lhs 3 true) (fx_packed fx_rhs (-2) true) fx_lhs fx_rhs (ex_params ChRow (it_lo s16) (it_hi s16)) 4 0 12 4 (ex_dst 11 1) 4 ex_buf.
Proof.
  constructor.
  - split; [apply fx_cells; exact fx_lhs_range|]. split; [apply holdsb_ok; vm_compute; reflexivity|]. intros _. eexists. split; [reflexivity|]. split; [vm_compute; discriminate|reflexivity].
  - split; [apply fx_cells; exact fx_rhs_range|]. split; [apply holdsb_ok; vm_compute; reflexivity|]. intros _. eexists. split; [reflexivity|]. split; [vm_compute; discriminate|reflexivity].
  - reflexivity.
  - unfold whole_blocks. cbn. split; [lia|]. split; [exists 1; reflexivity|]. split; [exists 3; reflexivity|]. lia.
  - unfold whole_blocks. cbn. split; [lia|]. split; [exists 0; reflexivity|]. split; [exists 1; reflexivity|]. lia.
  - tauto.
  - unfold valid_layout, inner_size, outer_size, ex_dst. cbn [ml_rows ml_cols ml_stride ml_order ex_buf blen]. unfold int_max. repeat split; lia.
  - unfold params_cover. cbn [ex_params mp_bias mp_perchannel mp_mult_pc mp_exp_pc mp_chan]. split.
    + intros b E. injection E as <-. cbn [blen]. lia.
    + split; [discriminate|]. eexists. eexists. split; [reflexivity|]. split; [reflexivity|]. cbn [blen bdat]. split; [lia|]. split; [lia|]. intros i Hi.
      change (2 ^ 30) with 1073741824. unfold fixed_point, exponent, int_max. pose proof (Z.mod_pos_bound i 5). lia.
  - vm_compute. repeat split; discriminate.
  - vm_compute. discriminate.
  - vm_compute. repeat split; discriminate.
  - intros b E. injection E as <-. apply Z.le_refl.
  - intros b E. injection E as <-. apply Z.le_refl.
  - discriminate.
  - intros _. vm_compute. discriminate.
  - intros _. vm_compute. split; discriminate.
  - intros i _. vm_compute. split; discriminate.
Qed.

(** The results, and how far they are from those of the exact accumulators. *)
Definition fx_run (g : leftover) : res (buf Z) :=
  kernel_8bit_neon true false TGeneric g (fun _ => 5) s16 (fx_packed fx_lhs 3 true) (fx_packed fx_rhs (-2) true) (ex_params ChRow (it_lo s16) (it_hi s16)) 4 0 12 4 (ex_dst 11 1) 4 ex_buf.
Lemma fx_result : exists d, fx_run ex_leftover = Ok d /\ map (bdat d) (zrange 0 14) = [99; 99; 99; 99; 32767; 3452; 12689; 24348; 32767; 32767; 5320; 99; 99; 99].
Proof.
  assert (E : match fx_run ex_leftover with Ok d => map (bdat d) (zrange 0 14) | _ => [] end = [99; 99; 99; 99; 32767; 3452; 12689; 24348; 32767; 32767; 5320; 99; 99; 99]) by (vm_compute; reflexivity).
  destruct (fx_run ex_leftover); try discriminate E. eexists. split; [reflexivity|exact E].
Qed.
Lemma fx_accumulators : map (fun i => exact_accumulator 32 3 (-2) fx_lhs fx_rhs (ex_params ChRow (it_lo s16) (it_hi s16)) i 0) (zrange 4 11) = [109694; 120708; 101482; 97376; 93270; 89164; 85058] /\
  map (fun i => cells_accumulator 32 3 (-2) fx_lhs fx_rhs (ex_params ChRow (it_lo s16) (it_hi s16)) i 0) (zrange 4 11) = [109694; 55172; 101482; 97376; 93270; 89164; 85058].
Proof. split; vm_compute; reflexivity. Qed.

(** The whole register of the variable row, of 32 bits, is added to pointers. *)
Lemma upper_half4 : exists g dt lp rp L R mp dl dst, cells_call dt lp rp L R mp 4 0 12 4 dl 4 dst /\ ml_cols dl = 1 /\ mp_chan mp = ChRow /\
  (forall k, k <> 46%nat -> lo_upper g k = 0) /\ kernel_8bit_neon true false TGeneric g (fun _ => 5) dt lp rp mp 4 0 12 4 dl 4 dst = UB.
Proof.
  exists (nx_upper 46), s16, (fx_packed fx_lhs 3 true), (fx_packed fx_rhs (-2) true), fx_lhs, fx_rhs, (ex_params ChRow (it_lo s16) (it_hi s16)), (ex_dst 11 1), ex_buf.
  split; [exact fx_call|]. split; [reflexivity|]. split; [reflexivity|]. split.
  - intros k Hk. cbn [nx_upper lo_upper]. apply Nat.eqb_neq in Hk. rewrite Hk. reflexivity.
  - vm_compute. reflexivity.
Qed.
