(** Examples of kNeon's kernel on packed sources. *)
From Coq Require Import ZArith List Bool Lia.
From Verif Require Import Base SidePair Mat Scalars Pack IntOps MulParams Kernel MatFacts.
From Verif Require Import SpecArith SpecRound SpecMatrix SpecPack SpecMul SpecSimd SpecPackX86 SpecPackNeon SpecPackNeonRow16 SpecKernel SpecKernelNeon SpecNeonSums SpecNeonCol4 SpecNeonSources.
From Verif Require Import Kernel8bit Kernel8bitExamples Neon64 NeonPack NeonPackProps NeonPackRow16 NeonPackRow16Props NeonPackExamples NeonPackRow16Examples NeonKernel8Code CpuInfo Tune Kernel8Neon NeonDeclBad
  Kernel8NeonExamples Kernel8NeonPairs Kernel8NeonSums Kernel8NeonCol4Props Kernel8NeonCol4More Kernel8NeonSources.
Import ListNotations.
Open Scope Z_scope.

Definition or_empty (q : res (pmat Z)) : pmat Z := match q with Ok p => p | _ => ex_neon_dst bytes_16x4 false 0 0 0 end.
Lemma packed_columns : forall a55 gs st src p a b, (st = s8 \/ st = u8) -> 0 < pl_rows (p_layout p) -> SpecPackNeon.neon_call bytes_16x4 s8 st src p a b ->
  neon_operand st src p a b (or_empty (pack_neon true neon_16x4 a55 gs st src p a b)).
Proof.
  intros a55 gs st src p a b Hst Hr C. split; [exact Hst|]. split; [exact Hr|]. left. exists true, a55, gs. split; [exact C|].
  destruct (packs_cells true a55 gs st src p a b Hst C Hr) as (q & E & _). rewrite E. reflexivity.
Qed.
Lemma packed_rows : forall st src p a b, (st = s8 \/ st = u8) -> 0 < pl_rows (p_layout p) -> row16_call 4 src p a b -> typed s8 (p_data p) ->
  neon_operand st src p a b (or_empty (pack_row16_neon true 4 st src p a b)).
Proof.
  intros st src p a b Hst Hr C T. split; [exact Hst|]. split; [exact Hr|]. right. exists true. split; [exact C|]. split; [exact T|].
  destruct (rows16_packed true 4 st src p a b (or_intror eq_refl) ltac:(tauto) C) as (q & E & _). rewrite E. reflexivity.
Qed.

(** ** Twenty-one levels: a column-major matrix of int8, a row-major column of uint8 *)
Definition gx_lsrc : mat Z :=
  {| m_data := {| blen := 168; bdat := fun i => (i * 37) mod 251 - 125 |}; m_layout := {| ml_rows := 21; ml_cols := 7; ml_stride := 24; ml_order := ColMajor |}; m_zp := 3 |}.
Definition gx_rsrc : mat Z :=
  {| m_data := {| blen := 84; bdat := fun i => (i * 59) mod 256 |}; m_layout := {| ml_rows := 21; ml_cols := 1; ml_stride := 4; ml_order := RowMajor |}; m_zp := 200 |}.
Definition gx_lp : pmat Z := ex_neon_dst bytes_16x4 true 32 8 3.
Definition gx_rp : pmat Z := ex_neon_dst bytes_16x4 true 32 4 72.
Definition gx_l : pmat Z := or_empty (pack_neon true neon_16x4 false ex_left s8 gx_lsrc gx_lp 4 8).
Definition gx_r : pmat Z := or_empty (pack_row16_neon true 4 u8 gx_rsrc gx_rp 0 4).
Definition gx_params : mul_params Z := ex_params ChRow (it_lo s16) (it_hi s16).

Lemma gx_call : sources_call s16 s8 u8 gx_lsrc gx_rsrc gx_lp gx_rp 4 8 gx_l gx_r gx_params 4 8 (ex_dst 7 1) 4 ex_buf.
Proof.
  constructor.
  - apply packed_columns; [left; reflexivity|reflexivity|]. unfold gx_lsrc, gx_lp. ex_neon; [exists 2|exists 2|exists 1|exists 2]; reflexivity.
  - apply packed_rows; [right; reflexivity|reflexivity| |]; unfold gx_rsrc, gx_rp; [ex_row16; [exists 2|exists 1|exists 0|exists 1]; reflexivity|]. intros i _. cbn. lia.
  - reflexivity.
  - repeat split.
  - cbn. split; [lia|]. split; [lia|]. split; [exists 1; reflexivity|]. split; [exists 2; reflexivity|lia].
  - split; intros _; discriminate.
  - vm_compute. repeat split; discriminate.
  - tauto.
  - unfold valid_layout, inner_size, outer_size, ex_dst. cbn [ml_rows ml_cols ml_stride ml_order ex_buf blen]. unfold int_max. repeat split; lia.
  - split; [reflexivity|]. unfold params_cover. cbn [gx_params ex_params mp_bias mp_perchannel mp_mult_pc mp_exp_pc mp_chan]. split.
    + intros b E. injection E as <-. cbn [blen]. lia.
    + split; [discriminate|]. eexists. eexists. split; [reflexivity|]. split; [reflexivity|]. cbn [blen bdat]. split; [lia|]. split; [lia|]. intros i Hi.
      change (2 ^ 30) with 1073741824. unfold fixed_point, exponent, int_max. pose proof (Z.mod_pos_bound i 5). lia.
  - vm_compute. repeat split; discriminate.
  - intros _. vm_compute. discriminate.
  - intros _. vm_compute. split; discriminate.
  - vm_compute. discriminate.
  - intros i _. vm_compute. split; discriminate.
Qed.
Lemma gx_matching : matching_sources s8 u8 gx_lsrc gx_rsrc gx_lp gx_rp /\
  (forall i k, 4 <= i < 8 -> in_matrix (m_layout gx_lsrc) k i -> entry gx_lsrc k i <> it_lo s8 \/ entry gx_rsrc k 0 <> it_lo u8) /\ m_zp gx_rsrc <> it_lo u8.
Proof.
  assert (A : forall z, -125 <= z mod 251 - 125 <= 125) by (intros z; pose proof (Z.mod_pos_bound z 251); lia).
  assert (B : forall z, 0 <= z mod 256 <= 255) by (intros z; pose proof (Z.mod_pos_bound z 256); lia).
  split; [|split; [|discriminate]].
  - split; [|split; [|repeat split]].
    + split; [vm_compute; split; discriminate|]. intros i j _. change (it_lo s8) with (-128). change (it_hi s8) with 127. unfold entry. cbn [gx_lsrc m_data bdat]. specialize (A (position (m_layout gx_lsrc) i j * 37)). lia.
    + split; [vm_compute; split; discriminate|]. intros i j _. change (it_lo u8) with 0. change (it_hi u8) with 255. unfold entry. cbn [gx_rsrc m_data bdat]. apply B.
  - intros i k _ _. left. change (it_lo s8) with (-128). unfold entry. cbn [gx_lsrc m_data bdat]. specialize (A (position (m_layout gx_lsrc) k i * 37)). lia.
Qed.
Definition gx_stored : list Z := match kernel_8bit_neon true false TGeneric ex_leftover (fun _ => 5) s16 gx_l gx_r gx_params 4 0 8 4 (ex_dst 7 1) 4 ex_buf with Ok d => map (bdat d) (zrange 3 9) | _ => [] end.
Lemma gx_values : (gx_stored, map (fun i => source_accumulator gx_lsrc gx_rsrc gx_params i 0) (zrange 4 7)) = ([99; -15258; 1833; -2694; 99; 99], [-15262; 29268; -21582]).
Proof. vm_compute. reflexivity. Qed.

(** ** One product of uint8, 200 * 200, with zero points of 0: fifteen of sixteen levels are padding *)
Definition hx_src (o : order) : mat Z :=
  {| m_data := {| blen := 1; bdat := fun _ => 200 |}; m_layout := {| ml_rows := 1; ml_cols := 1; ml_stride := 1; ml_order := o |}; m_zp := 0 |}.
Definition hx_p : pmat Z := ex_neon_dst bytes_16x4 true 16 4 (-128).
Definition hx_q : pmat Z := or_empty (pack_neon true neon_16x4 false ex_left u8 (hx_src ColMajor) hx_p 0 4).
Definition hx_dst : buf Z := {| blen := 1; bdat := fun _ => 7 |}.
Definition hx_layout : mat_layout := {| ml_rows := 1; ml_cols := 1; ml_stride := 1; ml_order := ColMajor |}.

Lemma hx_call : sources_call s32 u8 u8 (hx_src ColMajor) (hx_src ColMajor) hx_p hx_p 0 4 hx_q hx_q px_params 0 4 hx_layout 0 hx_dst.
Proof.
  assert (O : neon_operand u8 (hx_src ColMajor) hx_p 0 4 hx_q).
  { apply packed_columns; [right; reflexivity|reflexivity|]. unfold hx_src, hx_p. ex_neon; [exists 1|exists 1|exists 0|exists 1]; reflexivity. }
  constructor; try exact O.
  - reflexivity.
  - repeat split.
  - cbn. split; [lia|]. split; [lia|]. split; [exists 0; reflexivity|]. split; [exists 1; reflexivity|lia].
  - split; intros _; discriminate.
  - vm_compute. repeat split; discriminate.
  - tauto.
  - unfold valid_layout, inner_size, outer_size, hx_layout. cbn [ml_rows ml_cols ml_stride ml_order hx_dst blen]. unfold int_max. repeat split; lia.
  - split; [reflexivity|]. split; [discriminate|]. intros N. exfalso. apply N. reflexivity.
  - vm_compute. repeat split; discriminate.
  - intros N. exfalso. apply N. reflexivity.
  - intros N. exfalso. apply N. reflexivity.
  - vm_compute. discriminate.
  - intros i _. vm_compute. split; discriminate.
Qed.
Lemma hx_matching : matching_sources u8 u8 (hx_src ColMajor) (hx_src ColMajor) hx_p hx_p.
Proof. repeat split; vm_compute; discriminate. Qed.
Lemma hx_wrong : exists lsrc rsrc lp rp l r mp dl dst d, sources_call s32 u8 u8 lsrc rsrc lp rp 0 4 l r mp 0 4 dl 0 dst /\ matching_sources u8 u8 lsrc rsrc lp rp /\
  (forall k i, entry lsrc k i = 200 /\ entry rsrc k i = 200) /\ ml_rows (m_layout lsrc) = 1 /\ m_zp lsrc = 0 /\ m_zp rsrc = 0 /\ mp_bias mp = None /\
  kernel_8bit_neon true false TGeneric ex_leftover (fun _ => 5) s32 l r mp 0 0 4 4 dl 0 dst = Ok d /\ bdat d 0 = 200 * 200 - 7 * 65536.
Proof.
  exists (hx_src ColMajor), (hx_src ColMajor), hx_p, hx_p, hx_q, hx_q, px_params, hx_layout, hx_dst.
  assert (E : stored (kernel_8bit_neon true false TGeneric ex_leftover (fun _ => 5) s32 hx_q hx_q px_params 0 0 4 4 hx_layout 0 hx_dst) 0 = -418752) by (vm_compute; reflexivity).
  destruct (kernel_8bit_neon true false TGeneric ex_leftover (fun _ => 5) s32 hx_q hx_q px_params 0 0 4 4 hx_layout 0 hx_dst) as [d| |]; try discriminate E.
  exists d. split; [exact hx_call|]. split; [exact hx_matching|]. split; [intros k i; split; reflexivity|]. do 4 (split; [reflexivity|]). split; [reflexivity|exact E].
Qed.

(** ** Without sums of the left-hand side, int32 results are requantized and stored as bytes *)
Lemma int32_without_sums4 : exists lp rp L R mp dl dst d,
  packed_cells lp /\ SpecKernel.holds lp L 0 11 /\ packed_cells rp /\ SpecKernel.holds rp R 0 1 /\ pl_rows (p_layout rp) = pl_rows (p_layout lp) /\
  p_zp lp = 0 /\ p_zp rp = 0 /\ p_sums lp = None /\ typed s32 dst /\ params_cover s32 mp 12 /\ ml_cols dl = 1 /\ mp_chan mp = ChRow /\
  kernel_8bit_neon true false TGeneric ex_leftover (fun _ => 5) s32 lp rp mp 0 0 12 4 dl 0 dst = Ok d /\
  ~ block_computed (fun i j => neon_result s32 mp 0 i j (cells_accumulator (pl_rows (p_layout lp)) 0 0 L R mp i j)) 0 0 12 4 dl dst d.
Proof.
  set (mp := nx_plain (- 2 ^ 31) (2 ^ 31 - 1)).
  exists (fx_packed fx_lhs 0 false), (fx_packed fx_rhs 0 false), fx_lhs, fx_rhs, mp, (ex_dst 11 1), ex_buf.
  assert (E : exists v, stored (kernel_8bit_neon true false TGeneric ex_leftover (fun _ => 5) s32 (fx_packed fx_lhs 0 false) (fx_packed fx_rhs 0 false) mp 0 0 12 4 (ex_dst 11 1) 0 ex_buf) 0 = v /\
    (v =? -1000) = false /\ (v =? wrap_s 32 (cells_accumulator 32 0 0 fx_lhs fx_rhs mp 0 0)) = false).
  { eexists. split; [vm_compute; reflexivity|]. split; vm_compute; reflexivity. }
  destruct E as (v & E & N1 & N2).
  destruct (kernel_8bit_neon true false TGeneric ex_leftover (fun _ => 5) s32 (fx_packed fx_lhs 0 false) (fx_packed fx_rhs 0 false) mp 0 0 12 4 (ex_dst 11 1) 0 ex_buf) as [d| |];
    cbn [stored] in E; try (subst v; discriminate N1).
  exists d. split; [apply fx_cells; exact fx_lhs_range|]. split; [apply holdsb_ok; vm_compute; reflexivity|]. split; [apply fx_cells; exact fx_rhs_range|].
  split; [apply holdsb_ok; vm_compute; reflexivity|]. do 4 (split; [reflexivity|]). split; [intros i _; vm_compute; split; discriminate|].
  split; [split; [discriminate|]; intros N; exfalso; apply N; reflexivity|]. do 3 (split; [reflexivity|]). intros (_ & B & _).
  specialize (B 0 0 ltac:(lia) ltac:(lia) ltac:(vm_compute; repeat split; discriminate)). change (position (ex_dst 11 1) 0 0) with 0 in B. rewrite E in B.
  unfold neon_result in B. change (ity_eqb s32 s32) with true in B. cbv iota in B. change (pl_rows (p_layout (fx_packed fx_lhs 0 false))) with 32 in B. apply Z.eqb_neq in N2. apply N2. exact B.
Qed.
