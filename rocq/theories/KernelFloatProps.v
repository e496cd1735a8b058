(** A call of a floating-point x86 kernel. *)
From Coq Require Import ZArith List Bool Lia.
From Verif Require Import Base SidePair Mat MatFacts Scalars Pack PackFacts MulParams Kernel KernelFacts RunBy SimdFloat SimdFloatFacts KernelFloatX86 MemcpyPackFacts KernelFloatFacts Kernel8bitProps.
Import ListNotations.
Open Scope Z_scope.

(** The bias of an entry, and the entry: multiply-adds in increasing depth, then the bounds. *)
Definition bias_value {V} (zero : V) (mp : mul_params V) (i j : Z) : V :=
  match mp_bias mp with Some b => bdat b (match mp_chan mp with ChRow => i | ChCol => j end) | None => zero end.
Definition kernel_value {V} (fs : fscalars V) (lv rv : Z -> Z -> V) (depth : Z) (mp : mul_params V) (i j : Z) : V :=
  fs_max fs (fs_min fs (fold_left (fun a k => fs_madd fs (lv k i) (rv k j) a) (zrange 0 depth) (bias_value (fs_zero fs) mp i j)) (mp_max mp)) (mp_min mp).

Record float_side {V} (n : Z) (p : pmat V) : Prop := {
  fd_ok : pmat_ok p;
  fd_one : one_row_layout (p_layout p);
  fd_cols : kl_cols (pl_kernel (p_layout p)) = n
}.

Record float_call {V} (n : Z) (lp rp : pmat V) (mp : mul_params V) (sr sc er ec : Z) (dl : mat_layout) : Prop := {
  fc_n : n = 8 \/ n = 16;
  fc_lhs : float_side n lp;
  fc_rhs : float_side n rp;
  fc_depth : pl_rows (p_layout rp) = pl_rows (p_layout lp);
  fc_pos : 1 <= pl_rows (p_layout lp);
  fc_layout : layout_ok dl;
  fc_order : ml_order dl = ColMajor;
  fc_stride : 4 * ml_stride dl <= int_max;
  fc_rows : 0 <= sr < er /\ er <= pl_cols (p_layout lp) /\ er < ml_rows dl + n /\ sr mod n = 0 /\ er mod n = 0;
  fc_cols : 0 <= sc < ec /\ ec <= pl_cols (p_layout rp) /\ ec < ml_cols dl + n /\ sc mod n = 0 /\ ec mod n = 0;
  fc_bias : forall b, mp_bias mp = Some b -> match mp_chan mp with ChRow => er | ChCol => ec end <= blen b
}.

Lemma wrap_stride : forall z, 0 <= z -> 4 * z <= int_max -> scaled (wrap_s 32 (wrap_u 64 (4 * z))) = z.
Proof.
  intros z H1 H2. rewrite Kernel8bitProps.wrap_bytes_id by lia.
  unfold scaled. rewrite Z.shiftr_div_pow2 by lia. change (2 ^ 2) with 4. rewrite Z.mul_comm. apply Z.div_mul. lia.
Qed.

Lemma aligned_le : forall n a b, 0 < n -> a mod n = 0 -> b mod n = 0 -> a < b -> a + n <= b.
Proof.
  intros n a b Hn Ha Hb H. pose proof (Z.div_mod a n ltac:(lia)) as A. pose proof (Z.div_mod b n ltac:(lia)) as B. rewrite Ha in A. rewrite Hb in B.
  assert (a / n < b / n) by (clear Ha Hb; nia). assert (n * (a / n + 1) <= n * (b / n)) by (apply Z.mul_le_mono_nonneg_l; lia). lia.
Qed.

Section Call.
Variables (V : Type) (fs : fscalars V) (dbg : bool) (n : Z) (lp rp : pmat V) (mp : mul_params V) (sr sc er ec : Z) (dl : mat_layout).
Hypothesis C : float_call n lp rp mp sr sc er ec dl.
Let D := pl_rows (p_layout lp).

Definition made : fkparams V :=
  {| kf_lhs := p_data lp; kf_lhs_base := sr * pl_stride (p_layout lp);
     kf_rhs := p_data rp; kf_rhs_base := sc * pl_stride (p_layout rp);
     kf_dst_base := sc * ml_stride dl + sr;
     kf_bias := match mp_bias mp with Some b => b | None => {| blen := n; bdat := fun _ => fs_zero fs |} end;
     kf_has_bias := match mp_bias mp with Some _ => true | None => false end;
     kf_channel_is_col := match mp_chan mp with ChCol => true | ChRow => false end;
     kf_start_row := sr; kf_start_col := sc; kf_last_row := er - n; kf_last_col := ec - n;
     kf_dst_rows := ml_rows dl; kf_dst_cols := ml_cols dl;
     kf_lhs_stride := wrap_s 32 (wrap_u 64 (4 * pl_stride (p_layout lp))); kf_rhs_stride := wrap_s 32 (wrap_u 64 (4 * pl_stride (p_layout rp)));
     kf_dst_stride := wrap_s 32 (wrap_u 64 (4 * ml_stride dl));
     kf_depth := pl_rows (p_layout lp); kf_clamp_min := mp_min mp; kf_clamp_max := mp_max mp |}.

Lemma call_width : 0 < n /\ 8 <= n <= 16.
Proof. destruct (fc_n _ _ _ _ _ _ _ _ _ C); lia. Qed.

Lemma call_blocks : sr + n <= er /\ sc + n <= ec.
Proof.
  pose proof call_width. destruct (fc_rows _ _ _ _ _ _ _ _ _ C) as ((R1 & R2) & R3 & R4 & R5 & R6). destruct (fc_cols _ _ _ _ _ _ _ _ _ C) as ((C1 & C2) & C3 & C4 & C5 & C6).
  split; apply aligned_le; lia.
Qed.

(** Offsets in a packed side. *)
Lemma side_bounds : forall (p : pmat V) start end_, float_side n p -> pl_rows (p_layout p) = D -> 0 <= start -> start + n <= end_ -> end_ <= pl_cols (p_layout p) ->
  4 * pl_stride (p_layout p) <= int_max /\ pl_stride (p_layout p) = D /\ int_min <= start * pl_stride (p_layout p) <= int_max /\ end_ <= int_max /\
  end_ * D <= blen (p_data p).
Proof.
  intros p start end_ [PM O KC] ED Hs Hse He. pose proof call_width as N. pose proof (fc_pos _ _ _ _ _ _ _ _ _ C) as D1. fold D in D1.
  destruct PM as [L LEN _]. rewrite (po_stride _ L), ED. pose proof (po_flat _ L) as F. rewrite ED in F, LEN. unfold int_min.
  assert (D * 8 <= D * pl_cols (p_layout p)) by (apply Z.mul_le_mono_nonneg_l; lia). assert (D * end_ <= D * pl_cols (p_layout p)) by (apply Z.mul_le_mono_nonneg_l; lia).
  assert (0 <= start * D) by (apply Z.mul_nonneg_nonneg; lia). assert (start * D <= end_ * D) by (apply Z.mul_le_mono_nonneg_r; lia).
  assert (1 * end_ <= D * end_) by (apply Z.mul_le_mono_nonneg_r; lia). repeat split; lia.
Qed.

Lemma dst_bounds : int_min <= sc * ml_stride dl <= int_max /\ 0 <= ml_stride dl.
Proof.
  destruct (fc_layout _ _ _ _ _ _ _ _ _ C) as [L1 L2 L3 L4]. rewrite (fc_order _ _ _ _ _ _ _ _ _ C) in L3. unfold flat in L4. rewrite (fc_order _ _ _ _ _ _ _ _ _ C) in L4.
  destruct (fc_cols _ _ _ _ _ _ _ _ _ C) as ((C1 & C2) & C3 & C4 & C5 & C6). destruct call_blocks as (_ & B).
  assert (0 <= sc * ml_stride dl) by (apply Z.mul_nonneg_nonneg; lia). assert (sc * ml_stride dl <= ml_cols dl * ml_stride dl) by (apply Z.mul_le_mono_nonneg_r; lia).
  unfold int_min. lia.
Qed.

Lemma make_ok : make_kernel_params_float fs dbg n lp rp mp sr sc er ec dl = Ok made.
Proof.
  pose proof call_width as N. destruct call_blocks as (BR & BC). destruct dst_bounds as (DB & _).
  destruct (fc_rows _ _ _ _ _ _ _ _ _ C) as (R1 & R3 & R4 & R5 & R6). destruct (fc_cols _ _ _ _ _ _ _ _ _ C) as (C1 & C3 & C4 & C5 & C6).
  destruct (side_bounds lp sr er (fc_lhs _ _ _ _ _ _ _ _ _ C) eq_refl ltac:(lia) BR R3) as (_ & _ & L1 & L2 & _).
  destruct (side_bounds rp sc ec (fc_rhs _ _ _ _ _ _ _ _ _ C) (fc_depth _ _ _ _ _ _ _ _ _ C) ltac:(lia) BC C3) as (_ & _ & L3 & L4 & _).
  unfold make_kernel_params_float. rewrite !(dcheck_ok dbg (Z.rem _ _ =? 0)) by (rewrite Z.rem_mod_nonneg by lia; lia). cbn [bind].
  rewrite !i32_ok; try assumption; try (unfold int_min, int_max in *; lia). cbn [bind].
  rewrite !dcheck_ok by lia. cbn [bind]. reflexivity.
Qed.

Lemma made_facts : kernel_facts fs n made dl.
Proof.
  pose proof call_width as N. destruct call_blocks as (BR & BC). destruct dst_bounds as (DB & DS).
  destruct (fc_rows _ _ _ _ _ _ _ _ _ C) as (R1 & R3 & R4 & R5 & R6). destruct (fc_cols _ _ _ _ _ _ _ _ _ C) as (C1 & C3 & C4 & C5 & C6).
  destruct (side_bounds lp sr er (fc_lhs _ _ _ _ _ _ _ _ _ C) eq_refl ltac:(lia) BR R3) as (A1 & A2 & A3 & A4 & A5).
  destruct (side_bounds rp sc ec (fc_rhs _ _ _ _ _ _ _ _ _ C) (fc_depth _ _ _ _ _ _ _ _ _ C) ltac:(lia) BC C3) as (B1 & B2 & B3 & B4 & B5).
  pose proof (fc_pos _ _ _ _ _ _ _ _ _ C) as D1.
  constructor; unfold lhs_col_ptr, rhs_col_ptr, fdst_ptr, kernel_end_row, kernel_end_col; cbn [made kf_lhs kf_lhs_base kf_rhs kf_rhs_base kf_dst_base kf_bias kf_has_bias kf_channel_is_col
    kf_start_row kf_start_col kf_last_row kf_last_col kf_dst_rows kf_dst_cols kf_lhs_stride kf_rhs_stride kf_dst_stride kf_depth].
  - exact (fc_n _ _ _ _ _ _ _ _ _ C).
  - exact D1.
  - exact (fc_layout _ _ _ _ _ _ _ _ _ C).
  - exact (fc_order _ _ _ _ _ _ _ _ _ C).
  - reflexivity.
  - reflexivity.
  - clear - R1 R4 BR N. lia.
  - clear - C1 C4 BC N. lia.
  - exact R5.
  - exact C5.
  - intros row. rewrite wrap_stride by (rewrite ?A2 in *; unfold D in *; clear - D1 A1; lia). rewrite A2. fold D. ring.
  - intros col. rewrite wrap_stride by (rewrite ?B2 in *; unfold D in *; clear - D1 B1; lia). rewrite B2. fold D. ring.
  - intros row col. rewrite wrap_stride by (try exact DS; apply (fc_stride _ _ _ _ _ _ _ _ _ C)). ring.
  - apply wrap_stride; [exact DS|apply (fc_stride _ _ _ _ _ _ _ _ _ C)].
  - intros row Hr Ar. fold D. assert (LE : row + n <= er) by (apply (aligned_le n); [|exact Ar|exact R6|]; clear - Hr N; lia).
    assert ((row + n) * D <= er * D) by (apply Z.mul_le_mono_nonneg_r; [unfold D; clear - D1; lia|exact LE]). clear - H A5. lia.
  - intros col Hc Ac. fold D. assert (LE : col + n <= ec) by (apply (aligned_le n); [|exact Ac|exact C6|]; clear - Hc N; lia).
    assert ((col + n) * D <= ec * D) by (apply Z.mul_le_mono_nonneg_r; [unfold D; clear - D1; lia|exact LE]). clear - H B5. lia.
  - pose proof (fc_bias _ _ _ _ _ _ _ _ _ C) as FB. destruct (mp_bias mp) as [b|]; [|discriminate]. intros _ x Hx Ax. specialize (FB b eq_refl).
    destruct (mp_chan mp).
    + assert (LE : x + n <= er) by (apply (aligned_le n); [|exact Ax|exact R6|]; clear - Hx N; lia). clear - LE FB. lia.
    + assert (LE : x + n <= ec) by (apply (aligned_le n); [|exact Ax|exact C6|]; clear - Hx N; lia). clear - LE FB. lia.
  - destruct (mp_bias mp); [discriminate|]. intros _. cbn [blen bdat]. split; [apply Z.le_refl|reflexivity].
Qed.

Lemma made_value : forall i j, 0 <= i -> 0 <= j ->
  result_at V fs n made i j =
  kernel_value fs (fun k c => bdat (p_data lp) (poff (p_layout lp) k c)) (fun k c => bdat (p_data rp) (poff (p_layout rp) k c)) D mp i j.
Proof.
  intros i j Hi Hj. unfold result_at, kernel_value. cbn [made kf_clamp_max kf_clamp_min kf_depth]. do 2 f_equal. unfold acc_at.
  assert (EB : start_value V fs made i j = bias_value (fs_zero fs) mp i j).
  { unfold start_value, bias_value. cbn [made kf_has_bias kf_bias kf_channel_is_col]. destruct (mp_bias mp); [|reflexivity]. destruct (mp_chan mp); reflexivity. }
  rewrite EB. fold D. generalize (bias_value (fs_zero fs) mp i j). induction (zrange 0 D) as [|k ks IH]; intros a; cbn [fold_left]; [reflexivity|]. rewrite IH. f_equal.
  unfold side_at. cbn [made kf_lhs kf_rhs kf_depth].
  rewrite !poff_one_row by (apply (fd_one n); first [exact (fc_lhs _ _ _ _ _ _ _ _ _ C)|exact (fc_rhs _ _ _ _ _ _ _ _ _ C)]).
  rewrite (fd_cols _ _ (fc_lhs _ _ _ _ _ _ _ _ _ C)), (fd_cols _ _ (fc_rhs _ _ _ _ _ _ _ _ _ C)), (fc_depth _ _ _ _ _ _ _ _ _ C). reflexivity.
Qed.

Lemma kernel_float_computes : forall (wide : bool) (d : buf V), n = (if wide then 16 else 8) -> flat dl <= blen d ->
  exists d', kernel_float_x86 fs dbg wide lp rp mp sr sc er ec dl d = Ok d' /\
    computed dl (fun i j v => v = kernel_value fs (fun k c => bdat (p_data lp) (poff (p_layout lp) k c)) (fun k c => bdat (p_data rp) (poff (p_layout rp) k c)) D mp i j)
      (fun i j => sr <= i < er /\ sc <= j < ec /\ inside dl i j) d d'.
Proof.
  intros wide d En F. unfold kernel_float_x86. rewrite <- En, make_ok. cbn [bind]. pose proof made_facts as K. destruct call_blocks as (BR & BC). pose proof call_width as N.
  destruct (fc_rows _ _ _ _ _ _ _ _ _ C) as (R1 & R3 & R4 & R5 & R6). destruct (fc_cols _ _ _ _ _ _ _ _ _ C) as (C1 & C3 & C4 & C5 & C6).
  assert (W : forall d', computed dl (fun i j v => v = result_at V fs n made i j) (in_rect sr (kernel_end_row n made) sc (kernel_end_col n made)) d d' ->
    computed dl (fun i j v => v = kernel_value fs (fun k c => bdat (p_data lp) (poff (p_layout lp) k c)) (fun k c => bdat (p_data rp) (poff (p_layout rp) k c)) D mp i j)
      (fun i j => sr <= i < er /\ sc <= j < ec /\ inside dl i j) d d').
  { intros d' (W1 & W2 & W3). unfold in_rect, kernel_end_row, kernel_end_col in *. cbn [made kf_dst_rows kf_dst_cols kf_last_row kf_last_col] in *. split; [exact W1|]. split.
    - intros i j (Hi & Hj & Ii). unfold inside in Ii. rewrite (W2 i j) by (clear - Hi Hj Ii; lia). apply made_value; clear - Hi Hj R1 C1; lia.
    - intros x Hx. apply W3. intros i j (Hi & Hj). apply Hx. unfold inside. clear - Hi Hj R1 C1. lia. }
  destruct ((ml_cols dl =? 1) && match mp_chan mp with ChRow => true | ChCol => false end) eqn:Es.
  - assert (E1 : ml_cols dl = 1) by lia. assert (Ech : kf_channel_is_col made = false) by (cbn [made kf_channel_is_col]; destruct (mp_chan mp); [reflexivity|lia]).
    assert (Eec : ec = n /\ sc = 0).
    { pose proof (Z.div_mod ec n ltac:(lia)) as DM. rewrite C6 in DM. assert (ec / n = 1) by nia. lia. }
    destruct Eec as (Eec & Esc). assert (Ecc : kernel_end_col n made = 1) by (unfold kernel_end_col; cbn [made kf_dst_cols kf_last_col]; lia).
    destruct wide.
    + destruct (avx512_single_ok V fs n made dl K dbg d En F E1) as (d' & E & Q); try assumption; try (cbn [made kf_start_col kf_last_col]; lia).
      exists d'. split; [exact E|]. apply W. rewrite Ecc, Esc. exact Q.
    + destruct (avx_single_ok V fs n made dl K dbg d En F E1) as (d' & E & Q); try assumption; try (cbn [made kf_start_col kf_last_col]; lia).
      exists d'. split; [exact E|]. apply W. rewrite Ecc, Esc. exact Q.
  - destruct wide.
    + destruct (avx512_ok V fs n made dl K dbg d En F) as (d' & E & Q). exists d'. split; [exact E|]. apply W. exact Q.
    + destruct (avx_ok V fs n made dl K dbg d En F) as (d' & E & Q). exists d'. split; [exact E|]. apply W. exact Q.
Qed.
End Call.
