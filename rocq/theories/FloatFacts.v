(** Floating-point accumulation: it never produces -0, so that padding with zeros and the
    packing of -0 as +0 leave sums of products unchanged. *)
From Coq Require Import SpecFloat.
From Verif Require Import Base SidePair SizeUtil SizeUtilFacts Mat MatFacts Scalars FloatOps MulParams Pack PackFacts Kernel KernelFacts
  FrontEndFacts EntryFacts.

Section Round.
Variables (prec emax : Z).
Hypothesis Hp : 1 <= prec.
Notation emin := (emin prec emax).
Notation fexp := (fexp prec emax).

Lemma digits2_spec : forall m, 2 ^ (Z.pos (digits2_pos m) - 1) <= Z.pos m < 2 ^ Z.pos (digits2_pos m).
Proof.
  induction m as [m IH|m IH|]; cbn [digits2_pos]; [| |split; reflexivity || (vm_compute; discriminate)].
  - rewrite Pos2Z.inj_succ. rewrite Z.pow_succ_r by lia. replace (Z.succ (Z.pos (digits2_pos m)) - 1) with (Z.succ (Z.pos (digits2_pos m) - 1)) by lia.
    rewrite Z.pow_succ_r by lia. lia.
  - rewrite Pos2Z.inj_succ. rewrite Z.pow_succ_r by lia. replace (Z.succ (Z.pos (digits2_pos m)) - 1) with (Z.succ (Z.pos (digits2_pos m) - 1)) by lia.
    rewrite Z.pow_succ_r by lia. lia.
Qed.

Lemma shr_1_m : forall x, 0 <= shr_m x -> shr_m (shr_1 x) = shr_m x / 2.
Proof.
  intros [m r s] H. cbn [shr_m] in *. destruct m as [|[p|p|]|p]; try reflexivity; try lia.
  - cbn [shr_1 shr_m]. rewrite Pos2Z.inj_xI. rewrite (Z.mul_comm 2), Z.div_add_l by lia. reflexivity.
  - cbn [shr_1 shr_m]. rewrite Pos2Z.inj_xO. rewrite Z.mul_comm, Z.div_mul by lia. reflexivity.
Qed.

Lemma iter_pos_iter : forall {A} (f : A -> A) n x, SpecFloat.iter_pos f n x = Pos.iter f x n.
Proof.
  intros A f. induction n as [n IH|n IH|]; intros x; cbn [SpecFloat.iter_pos Pos.iter]; rewrite ?IH; auto.
  rewrite <- !Pos.iter_swap. reflexivity.
Qed.

Lemma shr_m_iter : forall n x, 0 <= shr_m x -> shr_m (SpecFloat.iter_pos shr_1 n x) = shr_m x / 2 ^ Z.pos n.
Proof.
  intros n x H. rewrite iter_pos_iter. revert n. apply Pos.peano_ind.
  - cbn [Pos.iter]. apply shr_1_m; auto.
  - intros n IH. rewrite Pos.iter_succ, shr_1_m.
    + rewrite IH, Pos2Z.inj_succ, Z.pow_succ_r by lia. rewrite Zdiv_Zdiv by (try apply Z.pow_nonneg; lia). f_equal. lia.
    + rewrite IH. apply Z.div_pos; [exact H|]. apply Z.pow_pos_nonneg; lia.
Qed.

Lemma record_of_loc_m : forall m lc, shr_m (shr_record_of_loc m lc) = m.
Proof. intros m [|[]]; reflexivity. Qed.

(** Rounding a positive number whose exponent is not below the minimum keeps it positive. *)
Lemma shr_fexp_pos : forall m e lc x e', 0 < m -> emin <= e -> shr_fexp prec emax m e lc = (x, e') -> 0 < shr_m x /\ emin <= e'.
Proof.
  intros m e lc x e' Hm He E. unfold shr_fexp, shr in E. destruct m as [|m|m]; try lia. cbn [Zdigits2] in E.
  destruct (fexp (Z.pos (digits2_pos m) + e) - e) as [|n|n] eqn:N; injection E as <- <-; rewrite ?record_of_loc_m; [lia| |lia].
  rewrite shr_m_iter by (rewrite record_of_loc_m; lia). rewrite record_of_loc_m.
  unfold SpecFloat.fexp in *. assert (NE : Z.pos n = Z.pos (digits2_pos m) - prec) by lia.
  pose proof (digits2_spec m) as [L _]. split; [|lia].
  apply Z.div_str_pos. split; [apply Z.pow_pos_nonneg; lia|]. etransitivity; [|exact L]. apply Z.pow_le_mono_r; lia.
Qed.

Lemma shr_fexp_exp : forall m e lc x e', shr_fexp prec emax m e lc = (x, e') -> emin <= e'.
Proof.
  intros m e lc x e' E. unfold shr_fexp, shr in E. unfold SpecFloat.fexp in E. 
  destruct (Z.max (Zdigits2 m + e - prec) emin - e) as [|n|n] eqn:N; injection E as <- <-; lia.
Qed.

Lemma round_exp : forall sx m e lc s m' e', binary_round_aux prec emax sx m e lc = S754_finite s m' e' -> emin <= e'.
Proof.
  intros sx m e lc s m' e'. unfold binary_round_aux. destruct (shr_fexp prec emax m e lc) as [x1 e1].
  destruct (shr_fexp prec emax _ e1 loc_Exact) as [x2 e2] eqn:E2. apply shr_fexp_exp in E2.
  destruct (shr_m x2); try discriminate. destruct (Zle_bool e2 (emax - prec)); [|discriminate]. intros [= _ _ <-]. exact E2.
Qed.

Lemma round_nonzero : forall sx m e lc s, 0 < m -> emin <= e -> binary_round_aux prec emax sx m e lc <> S754_zero s.
Proof.
  intros sx m e lc s Hm He. unfold binary_round_aux. destruct (shr_fexp prec emax m e lc) as [x1 e1] eqn:E1.
  apply shr_fexp_pos in E1; auto. destruct E1 as [P1 L1].
  destruct (shr_fexp prec emax _ e1 loc_Exact) as [x2 e2] eqn:E2. apply shr_fexp_pos in E2; auto.
  - destruct E2 as [P2 L2]. destruct (shr_m x2); try lia. destruct (Zle_bool e2 (emax - prec)); discriminate.
  - unfold round_nearest_even. destruct (loc_of_shr_record x1) as [|[]]; try lia. destruct (Z.even (shr_m x1)); lia.
Qed.

Lemma normalize_exp : forall m e z s m' e', binary_normalize prec emax m e z = S754_finite s m' e' -> emin <= e'.
Proof.
  intros m e z s m' e'. unfold binary_normalize, binary_round.
  destruct m as [|m|m]; [discriminate| |]; destruct (shl_align m e _); apply round_exp.
Qed.

Lemma normalize_not_negative_zero : forall m e, emin <= e -> binary_normalize prec emax m e false <> S754_zero true.
Proof.
  intros m e He. unfold binary_normalize, binary_round. destruct m as [|m|m]; [discriminate| |].
  - destruct (shl_align m e (fexp (Z.pos (digits2_pos m) + e))) as [mz ez] eqn:E. apply round_nonzero; [lia|].
    unfold shl_align in E. unfold SpecFloat.fexp in E. destruct (_ - e); injection E as _ <-; lia.
  - destruct (shl_align m e (fexp (Z.pos (digits2_pos m) + e))) as [mz ez] eqn:E. apply round_nonzero; [lia|].
    unfold shl_align in E. unfold SpecFloat.fexp in E. destruct (_ - e); injection E as _ <-; lia.
Qed.

(** A value an accumulator may have: not -0, exponents not below the minimum. *)
Definition acc_ok (x : spec_float) : Prop :=
  match x with S754_zero s => s = false | S754_finite _ _ e => emin <= e | _ => True end.
(** A value a product may have. *)
Definition exp_ok (x : spec_float) : Prop := match x with S754_finite _ _ e => emin <= e | _ => True end.

Lemma mul_exp_ok : forall x y, exp_ok (fmul prec emax x y).
Proof.
  intros x y. unfold exp_ok. destruct (fmul prec emax x y) as [| | |s m e] eqn:E; auto.
  unfold fmul, SFmul in E. destruct x; destruct y; try discriminate. apply round_exp in E. exact E.
Qed.

Lemma add_acc_ok : forall x y, acc_ok x -> exp_ok y -> acc_ok (fadd prec emax x y).
Proof.
  intros x y Hx Hy. unfold fadd, SFadd.
  destruct x as [sx|sx| |sx mx ex]; destruct y as [sy|sy| |sy my ey]; cbn [acc_ok exp_ok] in *; auto.
  - subst sx. destruct sy; reflexivity.
  - destruct (Bool.eqb sx sy); exact I.
  - destruct (binary_normalize prec emax _ _ false) as [s|s| |s m e] eqn:E; try exact I.
    + destruct s; [|reflexivity]. apply normalize_not_negative_zero in E; [destruct E|lia].
    + apply normalize_exp in E. exact E.
Qed.

Lemma add_zero_ok : forall x s, acc_ok x -> fadd prec emax x (S754_zero s) = x.
Proof. intros [[]|[]| |[] m e] [] H; try reflexivity; discriminate. Qed.

Lemma mul_comm : forall x y, fmul prec emax x y = fmul prec emax y x.
Proof.
  intros x y. unfold fmul, SFmul.
  destruct x as [sx|sx| |sx mx ex]; destruct y as [sy|sy| |sy my ey]; rewrite ?(xorb_comm sx sy); auto.
  rewrite Pos.mul_comm, Z.add_comm. reflexivity.
Qed.

Lemma sub_zero : forall x, fsub prec emax x fzero = x.
Proof. intros [[]|[]| |[] m e]; reflexivity. Qed.

(** The product of packed values is the product of the values, up to the sign of zero. *)
Lemma pack_product : forall acc x y, acc_ok acc ->
  fadd prec emax acc (fmul prec emax (pack_float prec emax x) (pack_float prec emax y)) =
  fadd prec emax acc (fmul prec emax x y).
Proof.
  intros acc x y Ha. unfold pack_float. rewrite !sub_zero.
  destruct x as [[]|[]| |[] mx ex]; destruct y as [[]|[]| |[] my ey]; try reflexivity;
    cbn [fadd SFadd fzero fmul SFmul Bool.eqb xorb]; rewrite !add_zero_ok by auto; reflexivity.
Qed.

Lemma product_of_zeros : forall acc, acc_ok acc -> fadd prec emax acc (fmul prec emax fzero fzero) = acc.
Proof. intros. apply add_zero_ok. auto. Qed.

Variable size : Z.
Notation o := (float_ops prec emax size).

Section Entry.
Variables (l r : mat spec_float).
Hypotheses (Zl : m_zp l = 0) (Zr : m_zp r = 0).
Hypotheses (Ml : mat_ok l) (Mr : mat_ok r).
Hypothesis Ed : ml_cols (m_layout l) = ml_rows (m_layout r).

Lemma float_accum : forall depth i j, 0 <= ml_rows (m_layout r) <= depth ->
  0 <= i < ml_rows (m_layout l) -> 0 <= j < ml_cols (m_layout r) ->
  spec_accum o (transpose_mat l) r 0 0 depth i j = ref_accum o l r i j.
Proof.
  intros depth i j Hd Hi Hj. unfold spec_accum, ref_accum. rewrite Ed, Zl, Zr.
  match goal with |- forto _ _ ?ff _ = forto _ _ ?gg _ => set (f := ff); set (g := gg) end.
  assert (A : forall k acc, 0 <= k < ml_rows (m_layout r) -> acc_ok acc -> f k acc = g k acc /\ exists acc', g k acc = Ok acc' /\ acc_ok acc').
  { intros k acc Hk Ha. unfold f, g. rewrite !element_ok by (auto; lia). cbn [bind o_mul o_add o_to_acc o_ref_sub_zp float_ops].
    change (f_of_Z prec emax 0) with fzero. rewrite !sub_zero.
    unfold pval. replace (k <? ml_rows (m_layout r)) with true by lia. replace (j <? ml_cols (m_layout r)) with true by lia.
    cbn [transpose_mat m_layout transpose_layout ml_rows ml_cols]. replace (i <? ml_rows (m_layout l)) with true by lia.
    replace (k <? ml_cols (m_layout l)) with true by lia. cbn [andb o_pack float_ops].
    fold (transpose_mat l). rewrite ent_transpose, pack_product by auto. split; [reflexivity|].
    eexists. split; [reflexivity|]. apply add_acc_ok; auto using mul_exp_ok. }
  assert (B : forall k acc, ml_rows (m_layout r) <= k < depth -> acc_ok acc -> f k acc = Ok acc).
  { intros k acc Hk Ha. unfold f. cbn [bind o_mul o_add o_to_acc float_ops].
    unfold pval. replace (k <? ml_rows (m_layout r)) with false by lia. 
    cbn [transpose_mat m_layout transpose_layout ml_rows ml_cols].
    replace (k <? ml_cols (m_layout l)) with false by lia. rewrite !andb_false_r. cbn [o_of_zp float_ops].
    change (f_of_Z prec emax 0) with fzero. rewrite product_of_zeros by auto. reflexivity. }
  clearbody f g.
  assert (C : exists acc, forto 0 (ml_rows (m_layout r)) g (o_acc0 o) = Ok acc /\
    (forto 0 (ml_rows (m_layout r)) f (o_acc0 o) = Ok acc /\ acc_ok acc)).
  { apply (forto_inv (fun k acc => forto 0 k f (o_acc0 o) = Ok acc /\ acc_ok acc)); [lia| |].
    - rewrite forto_empty by lia. split; reflexivity.
    - intros k acc Hk [F Ha]. destruct (A k acc Hk Ha) as (E & acc' & G & Ha'). exists acc'. split; [exact G|].
      rewrite forto_snoc by lia. rewrite F. cbn [bind]. split; congruence. }
  destruct C as (acc & C1 & C2 & C3). rewrite C1.
  destruct (forto_inv (fun k a => 0 <= k - ml_rows (m_layout r) -> a = acc /\ forto 0 k f (o_acc0 o) = Ok acc)
    (fun _ a => Ok a) (ml_rows (m_layout r)) depth acc) as (a & _ & H); [lia|auto| |].
  - intros k a Hk IH. exists a. split; [reflexivity|]. intros _. destruct (IH ltac:(lia)) as [-> F]. split; [reflexivity|].
    rewrite forto_snoc by lia. rewrite F. cbn [bind]. apply B; auto.
  - apply H. lia.
Qed.
End Entry.

Lemma float_accum_swapped : forall (l r : mat spec_float) zl zr depth i j,
  spec_accum o r l zr zl depth j i = spec_accum o l r zl zr depth i j.
Proof.
  intros l r zl zr depth i j. unfold spec_accum. apply forto_ext. intros k a _.
  cbn [bind o_mul o_add o_to_acc float_ops]. rewrite mul_comm. reflexivity.
Qed.

(** The portable kernels and the reference compute the same entry, bit for bit. *)
Lemma float_mul_entry : forall l r mp d dzp kr i j, m_zp l = 0 -> m_zp r = 0 -> mat_ok l -> mat_ok r ->
  ml_cols (m_layout l) = ml_rows (m_layout r) -> 0 < ml_rows (m_layout r) -> 0 < kr ->
  0 <= i < ml_rows (m_layout l) -> 0 <= j < ml_cols (m_layout r) ->
  mul_entry o kr l r mp d dzp i j = ref_entry o l r mp dzp i j.
Proof.
  intros l r mp d dzp kr i j Zl Zr Ml Mr Ed H0 Hk Hi Hj. unfold mul_entry.
  pose proof (round_up_spec (ml_rows (m_layout r)) kr Hk) as [R _].
  set (depth := round_up (ml_rows (m_layout r)) kr) in *.
  assert (A : spec_entry o (transpose_mat l) r 0 0 depth mp dzp i j = ref_entry o l r mp dzp i j).
  { unfold spec_entry, ref_entry. rewrite (float_accum l r Zl Zr Ml Mr Ed) by lia.
    unfold spec_zp_terms. cbn [Z.eqb orb]. reflexivity. }
  cbn [o_pack_zp float_ops]. rewrite Zl, Zr. destruct d; [exact A|].
  rewrite (spec_entry_agree _ _ (swap_float_agree prec emax size)). rewrite <- A.
  unfold spec_entry. rewrite float_accum_swapped, channel_transposed.
  unfold spec_zp_terms. cbn [Z.eqb orb]. reflexivity.
Qed.

Lemma float_sums_ok : forall kr l r s x, exists v, mul_col_sum o kr l r s x = Ok v.
Proof.
  intros kr l r s x. unfold mul_col_sum.
  assert (A : forall s m zp n c, exists v, col_sum o s m zp n c = Ok v).
  { intros s' m zp n c. unfold col_sum. destruct (Z_le_gt_dec 0 n) as [L|G].
    - destruct (forto_inv (fun _ _ => True) (fun row acc => o_sum_add o s' acc (pval o s' m zp row c)) 0 n (o_sum0 o s') L I) as (v & E & _); [|eauto].
      intros k a _ _. eexists. split; [reflexivity|exact I].
    - exists (o_sum0 o s'). apply forto_empty. lia. }
  destruct s; apply A.
Qed.
End Round.
