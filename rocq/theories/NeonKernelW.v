(** The float kernels for AArch64: the values of a block. *)
From Coq Require Import ZArith List Bool Lia SpecFloat.
From Verif Require Import Base Mat Simd SimdFacts FloatOps SimdFloat FloatWords FloatWordsFacts Neon64 NeonRun NeonTac NeonCols NeonPackMath NeonKTac NeonKernelCode NeonKernelF NeonKernelT NeonKernelM NeonKernelB.
Import ListNotations.
Open Scope Z_scope.

Local Notation fzero32 := (S754_zero false).
(** The float at byte [o]. *)
Definition flt (B : buf Z) (o : Z) : spec_float := float_of_word (of_bytes (get_bytes B o 4)).
(** Products added to +0, the last one first. *)
Fixpoint fdot (lv rv : nat -> spec_float) (l : list nat) : spec_float :=
  match l with [] => fzero32 | k :: l => fused_mul_add 24 128 (lv k) (rv k) (fdot lv rv l) end.

Lemma flt_valid : forall B o, valid (flt B o) = true.
Proof. intros. apply float_word_valid. Qed.
Lemma fdot_valid : forall lv rv l, (forall k, valid (lv k) = true) -> (forall k, valid (rv k) = true) -> valid (fdot lv rv l) = true.
Proof. intros lv rv l Hl Hr. induction l as [|k l IH]; [reflexivity|]. cbn [fdot]. apply fused_valid; auto. Qed.
Lemma fmax_valid : forall x y, valid x = true -> valid y = true -> valid (fmax_arm x y) = true.
Proof. intros x y Hx Hy. unfold fmax_arm. destruct x, y; try reflexivity; destruct (SFltb _ _); assumption. Qed.
Lemma fmin_valid : forall x y, valid x = true -> valid y = true -> valid (fmin_arm x y) = true.
Proof. intros x y Hx Hy. unfold fmin_arm. destruct x, y; try reflexivity; destruct (SFltb _ _); assumption. Qed.

Definition four {A} (f : Z -> A) : list A := map f [0; 1; 2; 3].
Lemma four_ext : forall {A} (f g : Z -> A), (forall i, 0 <= i < 4 -> f i = g i) -> four f = four g.
Proof. intros A f g H. unfold four. cbn [map]. rewrite !H by lia. reflexivity. Qed.
Lemma four_nth : forall (f : Z -> Z) i, 0 <= i < 4 -> nth (Z.to_nat i) (four f) 0 = f i.
Proof. intros f i H. assert (i = 0 \/ i = 1 \/ i = 2 \/ i = 3) as [-> | [-> | [-> | ->]]] by lia; reflexivity. Qed.

Lemma four_nat : forall (f : Z -> Z) i, (i < 4)%nat -> nth i (four f) 0 = f (Z.of_nat i).
Proof. intros f i H. destruct i as [|[|[|[|i]]]]; try reflexivity. lia. Qed.
Lemma lanes_get : forall B o, ulanes 4 (get_bytes B o 16) = four (fun i => of_bytes (get_bytes B (o + 4 * i) 4)).
Proof.
  intros B o. unfold ulanes, chunks, get_bytes, four. cbn [zseq map length chunks_aux firstn skipn of_bytes]. repeat (f_equal; try lia).
Qed.
Lemma lanes_words : forall f, (forall i, valid (f i) = true) -> ulanes 4 (of_lanes 4 (four (fun i => word_of_float (f i)))) = four (fun i => word_of_float (f i)).
Proof.
  intros f H. rewrite ulanes_of_lanes by lia. unfold four. rewrite map_map. change (8 * Z.of_nat 4) with 32. cbn [map].
  rewrite !wrap_u_id by (apply word_range, H). reflexivity.
Qed.

Lemma fmla_words : forall d B o v p i, (forall j, valid (d j) = true) -> (i < 4)%nat ->
  fmla_lane (of_lanes 4 (four (fun j => word_of_float (d j)))) (get_bytes B o 16) (get_bytes v p 16) i =
  of_lanes 4 (four (fun j => word_of_float (fused_mul_add 24 128 (flt B (o + 4 * j)) (flt v (p + 4 * Z.of_nat i)) (d j)))).
Proof.
  intros d B o v p i Hd Hi. unfold fmla_lane. rewrite lanes_words by exact Hd. rewrite !lanes_get.
  rewrite four_nat by exact Hi.
  f_equal. unfold four. cbn [map map2]. rewrite !word_round_trip by apply Hd. reflexivity.
Qed.
Lemma on_words_four : forall op a b, (forall j, valid (a j) = true) ->
  on_words op (of_lanes 4 (four (fun j => word_of_float (a j)))) b = of_lanes 4 (map2 (fun x y => word_of_float (op x (float_of_word y))) (four a) (ulanes 4 b)).
Proof.
  intros op a b Ha. unfold on_words. rewrite lanes_words by exact Ha. f_equal. unfold four. destruct (ulanes 4 b) as [|y0 [|y1 [|y2 [|y3 l]]]]; cbn [map map2]; rewrite ?word_round_trip by apply Ha; reflexivity.
Qed.

Section Values.
Variables (L R Bi : buf Z) (bo cmin cmax : Z) (hb cc : bool) (l1 l2 : list nat).
Hypothesis HB : forall i, 0 <= bdat Bi i < 256.
Definition lane_dot (p q r c : Z) (l : list nat) : spec_float :=
  fdot (fun k => flt L (p + 32 * Z.of_nat k + 4 * r)) (fun k => flt R (q + 32 * Z.of_nat k + 4 * c)) l.
Lemma acc_words : forall p q h c l, (h < 2)%nat -> (c < 8)%nat -> acc L R p q h c l = of_lanes 4 (four (fun i => word_of_float (lane_dot p q (4 * Z.of_nat h + i) (Z.of_nat c) l))).
Proof.
  intros p q h c l Hh Hc. induction l as [|k l IH]; [reflexivity|]. cbn [acc]. rewrite IH. unfold lv, rv.
  assert (Hm : (c mod 4 < 4)%nat) by (apply Nat.mod_upper_bound; lia).
  rewrite fmla_words by first [exact Hm|intros; apply fdot_valid; intros; apply flt_valid]. f_equal. apply four_ext. intros i Hi. unfold lane_dot. cbn [fdot].
  assert (Ed : Z.of_nat c = 4 * Z.of_nat (c / 4) + Z.of_nat (c mod 4)) by (pose proof (Nat.div_mod c 4 ltac:(lia)); lia).
  f_equal. f_equal; [unfold flt; do 3 f_equal; lia|unfold flt; do 3 f_equal; lia].
Qed.

(** The bias of entry (r, c) of the block at (row, col), as the kernel reads it. *)
Definition lane_bias (row col r c : Z) : spec_float := flt Bi (bias_at bo hb cc row col + 4 * (if cc then c else r)).
Definition lane_out (row col p q r c : Z) (l : list nat) : spec_float :=
  fmin_arm (fmax_arm (SFadd 24 128 (lane_dot p q r c l) (lane_bias row col r c)) (float_of_word cmin)) (float_of_word cmax).
(** The order of the levels for entry (r, c) of a block. *)
Definition levels_at (r c : Z) : list nat := if (r <? 4) && (c <? 4) then l1 else l2.

Lemma result_words : forall row col p q h c, 0 <= cmin < 2 ^ 32 -> 0 <= cmax < 2 ^ 32 -> (h < 2)%nat -> (c < 8)%nat ->
  result L R Bi bo cmin cmax hb cc l1 l2 row col p q h c = vec_of (fun r c => word_of_float (lane_out row col p q r c (levels_at r c))) h c.
Proof.
  intros row col p q h c Hcm Hcx Hh Hc. unfold result, clamped, biased, sums_of. rewrite acc_words by assumption.
  set (l := if (h =? 0)%nat && (c <? 4)%nat then l1 else l2).
  assert (El : forall i, 0 <= i < 4 -> levels_at (4 * Z.of_nat h + i) (Z.of_nat c) = l).
  { intros i Hi. unfold levels_at, l. f_equal.  assert (h = 0 \/ h = 1)%nat as [-> | ->] by lia.
    - replace (4 * Z.of_nat 0 + i <? 4) with true by lia. cbn [Nat.eqb andb]. destruct (Nat.ltb_spec c 4), (Z.ltb_spec (Z.of_nat c) 4); reflexivity || lia.
    - replace (4 * Z.of_nat 1 + i <? 4) with false by lia. reflexivity. }
  set (d := fun i => lane_dot p q (4 * Z.of_nat h + i) (Z.of_nat c) l).
  assert (Hd : forall i, valid (d i) = true) by (intros; apply fdot_valid; intros; apply flt_valid).
  change (fun i => word_of_float (lane_dot p q (4 * Z.of_nat h + i) (Z.of_nat c) l)) with (fun i => word_of_float (d i)).
  set (e := fun i => lane_bias row col (4 * Z.of_nat h + i) (Z.of_nat c)).
  assert (EB : vop_val Fadd (of_lanes 4 (four (fun i => word_of_float (d i)))) (bias_vec cc (get_bytes Bi (bias_of bo hb cc row col) 16) (get_bytes Bi (bias_of bo hb cc row col + 16) 16) h c) =
    of_lanes 4 (four (fun i => word_of_float (SFadd 24 128 (d i) (e i))))).
  { cbn [vop_val]. rewrite on_words_four by exact Hd. f_equal. unfold bias_vec, e, lane_bias, bias_of. set (bb := bias_at bo hb cc row col).
    destruct cc.
    - assert (EE : nth (c mod 4) (ulanes 4 (if (c <? 4)%nat then get_bytes Bi bb 16 else get_bytes Bi (bb + 16) 16)) 0 = of_bytes (get_bytes Bi (bb + 4 * Z.of_nat c) 4)).
      { destruct (Nat.ltb_spec c 4) as [H4|H4]; rewrite lanes_get.
        - rewrite Nat.mod_small by lia. rewrite four_nat by lia. reflexivity.
        - replace (c mod 4)%nat with (Z.to_nat (Z.of_nat c - 4)); [rewrite four_nth by lia; do 2 f_equal; lia|].
          replace c with (c - 4 + 1 * 4)%nat at 2 by lia. rewrite Nat.mod_add, Nat.mod_small by lia. lia. }
      rewrite EE. rewrite ulanes_of_lanes by lia. cbn [repeat map]. change (8 * Z.of_nat 4) with 32.
      rewrite wrap_u_id by (unfold get_bytes; cbn [zseq map of_bytes]; pose proof (HB (bb + 4 * Z.of_nat c + 0)); pose proof (HB (bb + 4 * Z.of_nat c + (0 + 1)));
        pose proof (HB (bb + 4 * Z.of_nat c + (0 + 1 + 1))); pose proof (HB (bb + 4 * Z.of_nat c + (0 + 1 + 1 + 1))); lia).
      unfold four. cbn [map map2]. reflexivity.
    - assert (h = 0 \/ h = 1)%nat as [-> | ->] by lia; cbn [Nat.eqb]; rewrite lanes_get; unfold four; cbn [map map2]; unfold flt; repeat (f_equal; try lia). }
  rewrite EB. cbn [vop_val]. assert (He : forall i, valid (e i) = true) by (intros; apply flt_valid).
  assert (Hs : forall i, valid (SFadd 24 128 (d i) (e i)) = true) by (intros; apply add_valid; auto).
  rewrite on_words_four by exact Hs. rewrite ulanes_of_lanes by lia. cbn [repeat map]. change (8 * Z.of_nat 4) with 32. rewrite wrap_u_id by exact Hcm.
  assert (E1 : map2 (fun x y => word_of_float (fmax_arm x (float_of_word y))) (four (fun i => SFadd 24 128 (d i) (e i))) [cmin; cmin; cmin; cmin] =
    four (fun i => word_of_float (fmax_arm (SFadd 24 128 (d i) (e i)) (float_of_word cmin)))) by reflexivity.
  rewrite E1. rewrite on_words_four by (intros; apply fmax_valid; [apply Hs|apply float_word_valid]). rewrite ulanes_of_lanes by lia. cbn [repeat map]. change (8 * Z.of_nat 4) with 32. rewrite wrap_u_id by exact Hcx.
  unfold vec_of. change (map ?f [0; 1; 2; 3]) with (four f). f_equal. rewrite (four_ext _ _ (fun i Hi => f_equal (fun z => word_of_float (lane_out row col p q (4 * Z.of_nat h + i) (Z.of_nat c) z)) (El i Hi))).
  reflexivity.
Qed.
End Values.
