(** Concrete calls of the 8-bit kernels, for the examples beside the theorems. *)
From Coq Require Import ZArith List Bool Lia.
From Verif Require Import Base SidePair SizeUtil Mat Scalars Pack IntOps MulParams Multiplier Kernel MatFacts.
From Verif Require Import SpecRound SpecMatrix SpecPack SpecMul SpecSimd SpecKernel.
Import ListNotations.
Open Scope Z_scope.

(** Eight levels of depth and two blocks of [n] columns. *)
Definition ex_lhs (k c : Z) : Z := (7 * k + 3 * c) mod 11 - 5.
Definition ex_rhs (k c : Z) : Z := (5 * k + 2 * c) mod 13 - 6.

Definition ex_packed (n : Z) (f : Z -> Z -> Z) (zp : Z) : pmat Z := {|
  p_data := {| blen := 16 * n; bdat := fun q => f (4 * (q mod (8 * n) / (4 * n)) + q mod 4) (q / (8 * n) * n + (q mod (4 * n)) / 4) |};
  p_sums := Some {| blen := 2 * n; bdat := fun c => zsum (map (fun k => f k c) (zrange 0 8)) |};
  p_layout := {| pl_rows := 8; pl_cols := 2 * n; pl_stride := 8; pl_order := ColMajor;
                 pl_kernel := {| kl_order := ColMajor; kl_rows := 4; kl_cols := n |} |};
  p_zp := zp |}.

Definition ex_params (chan : channel_dimension) (lo hi : Z) : mul_params Z := {|
  mp_bias := Some {| blen := 32; bdat := fun c => 10 * c - 50 |};
  mp_mult_pc := Some {| blen := 32; bdat := fun c => 2 ^ 30 + c |}; mp_mult := 0;
  mp_exp_pc := Some {| blen := 32; bdat := fun c => c mod 5 - 3 |}; mp_exp := 0;
  mp_perchannel := true; mp_chan := chan; mp_min := lo; mp_max := hi; mp_rounding_log2 := 4 |}.

Definition ex_dst (rows cols : Z) : mat_layout := {| ml_rows := rows; ml_cols := cols; ml_stride := rows + 2; ml_order := ColMajor |}.
Definition ex_buf : buf Z := {| blen := 4096; bdat := fun _ => 99 |}.

Definition holdsb (p : pmat Z) (f : Z -> Z -> Z) (c0 c1 : Z) : bool :=
  forallb (fun k => forallb (fun c => match pelement false p k c with Ok v => v =? f k c | _ => false end) (zrange c0 c1))
    (zrange 0 (pl_rows (p_layout p))).

Lemma holdsb_ok : forall p f c0 c1, holdsb p f c0 c1 = true -> holds p f c0 c1.
Proof.
  intros p f c0 c1 H k c Hk Hc. unfold holdsb in H. rewrite forallb_forall in H. specialize (H k ltac:(apply zrange_In; lia)).
  rewrite forallb_forall in H. specialize (H c ltac:(apply zrange_In; lia)). destruct (pelement false p k c); [|discriminate..].
  apply Z.eqb_eq in H. congruence.
Qed.

Lemma ex_blocks : forall n t f zp, n = 8 \/ n = 16 -> (forall k c, it_lo t <= f k c <= it_hi t) -> packed_blocks n t (ex_packed n f zp).
Proof.
  intros n t f zp Hn Hf. unfold packed_blocks, ex_packed. cbn [p_layout pl_kernel pl_order pl_stride pl_rows pl_cols p_data blen bdat].
  assert (B : 8 <= n <= 16) by lia. repeat split; try lia; try apply Hf.
  - exists 2. reflexivity.
  - exists 2. ring.
  - unfold int_max. lia.
Qed.

Lemma ex_sums : forall n f zp c0 c1 z, has_sums (ex_packed n f zp) f c0 c1 z.
Proof.
  intros n f zp c0 c1 z _. unfold ex_packed. cbn [p_sums p_layout pl_cols pl_rows blen bdat]. eexists. split; [reflexivity|]. split; [apply Z.le_refl | reflexivity].
Qed.

Lemma ex_call : forall n rt dt chan rows cols ec, n = 8 \/ n = 16 -> rt = s8 \/ rt = s16 ->
  n < rows <= 2 * n -> (ec = n /\ 0 < cols) \/ (ec = 2 * n /\ n < cols) -> cols <= 2 * n ->
  dt = u8 \/ dt = s8 \/ dt = s16 ->
  vector_call n rt dt (ex_packed n ex_lhs 3) (ex_packed n ex_rhs (-2)) ex_lhs ex_rhs (ex_params chan (it_lo dt) (it_hi dt))
    0 0 (2 * n) ec (ex_dst rows cols) ex_buf.
Proof.
  intros n rt dt chan rows cols ec Hn Hrt Hrows Hec Hcols Hdt.
  assert (B : 8 <= n <= 16) by lia.
  assert (FL : forall k c, -5 <= ex_lhs k c <= 5) by (intros k c; unfold ex_lhs; pose proof (Z.mod_pos_bound (7 * k + 3 * c) 11); lia).
  assert (FR : forall k c, -6 <= ex_rhs k c <= 6) by (intros k c; unfold ex_rhs; pose proof (Z.mod_pos_bound (5 * k + 2 * c) 13); lia).
  assert (NT : dt <> s32) by (destruct Hdt as [-> | [-> | ->]]; discriminate).
  assert (BT : it_lo dt <= it_hi dt /\ 1 <= it_bits dt / 8 <= 2) by (destruct Hdt as [-> | [-> | ->]]; vm_compute; repeat split; intro; discriminate).
  constructor.
  - split; [|split].
    + apply ex_blocks; [exact Hn|]. intros k c. change (it_lo s8) with (-128). change (it_hi s8) with 127. specialize (FL k c). lia.
    + assert (H2 : holds (ex_packed n ex_lhs 3) ex_lhs 0 (2 * n)) by (apply holdsb_ok; destruct Hn as [-> | ->]; vm_compute; reflexivity).
      intros k c Hk Hc. apply H2; [exact Hk | lia].
    + apply ex_sums.
  - split; [|split].
    + apply ex_blocks; [exact Hn|]. intros k c. specialize (FR k c). destruct Hrt as [-> | ->];
        [change (it_lo s8) with (-128); change (it_hi s8) with 127 | change (it_lo s16) with (-32768); change (it_hi s16) with 32767]; lia.
    + assert (H2 : holds (ex_packed n ex_rhs (-2)) ex_rhs 0 (2 * n)) by (apply holdsb_ok; destruct Hn as [-> | ->]; vm_compute; reflexivity).
      intros k c Hk Hc. apply H2; [exact Hk | lia].
    + apply ex_sums.
  - reflexivity.
  - unfold whole_blocks. cbn [ex_packed p_layout pl_cols ex_dst ml_rows]. split; [lia|]. split; [exists 0; ring|]. split; [exists 2; ring|]. lia.
  - unfold whole_blocks. cbn [ex_packed p_layout pl_cols ex_dst ml_cols]. split; [lia|]. split; [exists 0; ring|]. split; [|lia]. destruct Hec as [(-> & _) | (-> & _)]; [exists 1 | exists 2]; ring.
  - tauto.
  - unfold valid_layout, inner_size, outer_size, ex_dst. cbn [ml_rows ml_cols ml_stride ml_order ex_buf blen]. unfold int_max. repeat split; nia.
  - unfold params_cover. cbn [ex_params mp_bias mp_perchannel mp_mult_pc mp_exp_pc mp_chan]. split.
    + intros b E. injection E as <-. cbn [blen]. destruct chan; lia.
    + split; [exact NT|]. eexists. eexists. split; [reflexivity|]. split; [reflexivity|]. cbn [blen bdat].
      split; [destruct chan; lia|]. split; [destruct chan; lia|]. intros i Hi. assert (Hi' : 0 <= i < 32) by (destruct chan; lia).
      change (2 ^ 30) with 1073741824. unfold fixed_point, exponent, int_max. pose proof (Z.mod_pos_bound i 5). lia.
  - cbn [ex_params mp_min mp_max]. lia.
  - cbn [ex_packed p_layout pl_stride]. assert (1 <= it_bits rt / 8 <= 2) by (destruct Hrt as [-> | ->]; vm_compute; split; intro; discriminate). unfold int_max. nia.
  - cbn [ex_dst ml_stride]. unfold int_max. nia.
  - cbn [ex_packed p_zp p_layout pl_rows]. vm_compute. repeat split; intro; discriminate.
Qed.
