(** The entry computed by the kernel for integer types: zero-point algebra. *)
From Verif Require Import Base SidePair SizeUtil SizeUtilFacts Mat MatFacts Scalars Pack PackFacts
  MulParams Kernel KernelFacts Multiplier IntOps SpecMatrix SpecPack PackProps FrontEndFacts.

(** Finite sums. *)
Definition sum (n : Z) (f : Z -> Z) : Z := zsum (map f (zrange 0 n)).

Lemma zsum_app : forall a b, zsum (a ++ b) = zsum a + zsum b.
Proof. induction a as [|x a IH]; intros b; cbn [app zsum]; [lia|]. rewrite IH. lia. Qed.

Lemma sum_0 : forall n f, n <= 0 -> sum n f = 0.
Proof. intros n f H. unfold sum. rewrite zrange_nil by lia. reflexivity. Qed.

Lemma sum_snoc : forall n f, 0 <= n -> sum (n + 1) f = sum n f + f n.
Proof.
  intros n f H. unfold sum. rewrite zrange_snoc by lia. rewrite map_app, zsum_app. cbn [map zsum]. lia.
Qed.

Lemma sum_ind : forall (P : Z -> Prop), P 0 -> (forall n, 0 <= n -> P n -> P (n + 1)) -> forall n, 0 <= n -> P n.
Proof.
  intros P H0 HS n Hn. pattern n. apply natlike_ind; auto.
Qed.

Lemma sum_ext : forall n f g, (forall k, 0 <= k < n -> f k = g k) -> sum n f = sum n g.
Proof.
  intros n f g H. unfold sum. f_equal. apply map_ext_in. intros k Hk. apply H. apply zrange_In in Hk. auto.
Qed.

Lemma sum_bound : forall n f B, 0 <= n -> (forall k, 0 <= k < n -> - B <= f k <= B) -> - (n * B) <= sum n f <= n * B.
Proof.
  intros n f B Hn. pattern n. apply sum_ind; [| |exact Hn].
  - intros _. rewrite sum_0 by lia. lia.
  - intros m Hm IH H. rewrite sum_snoc by lia. pose proof (H m ltac:(lia)).
    specialize (IH (fun k Hk => H k ltac:(lia))). lia.
Qed.

(** Padding contributes nothing. *)
Lemma sum_pad : forall n m f, 0 <= n <= m -> (forall k, n <= k < m -> f k = 0) -> sum m f = sum n f.
Proof.
  intros n m f [Hn Hm] H. replace m with (n + (m - n)) in * by lia.
  remember (m - n) as d. assert (Hd : 0 <= d) by lia. clear Hm Heqd m. revert H. pattern d. apply sum_ind; [| |exact Hd].
  - intros _. f_equal. lia.
  - intros e He IH H. rewrite Z.add_assoc, sum_snoc by lia. rewrite IH; [|intros; apply H; lia].
    rewrite H by lia. lia.
Qed.

(** Expanding the product of differences. *)
Lemma sum_expand : forall n x y a b, 0 <= n ->
  sum n (fun k => (x k - a) * (y k - b)) =
  sum n (fun k => x k * y k) - a * sum n y - b * sum n x + a * b * n.
Proof.
  intros n x y a b Hn. pattern n. apply sum_ind; [| |exact Hn].
  - rewrite !sum_0 by lia. lia.
  - intros m Hm IH. rewrite !sum_snoc by lia. rewrite IH. ring.
Qed.

(** * Loops *)

Lemma forto_sum_wrap : forall n (f : Z -> Z) (body : Z -> Z -> res Z), 0 <= n ->
  (forall k a, 0 <= k < n -> exists p, p mod 2 ^ 32 = f k mod 2 ^ 32 /\ body k a = Ok (wrap_s 32 (a + p))) ->
  forto 0 n body 0 = Ok (wrap_s 32 (sum n f)).
Proof.
  intros n f body Hn. pattern n. apply sum_ind; [| |exact Hn].
  - intros _. rewrite forto_empty by lia. rewrite sum_0 by lia. reflexivity.
  - intros m Hm IH H. rewrite forto_snoc by lia.
    rewrite IH by (intros; apply H; lia). cbn [bind].
    destruct (H m (wrap_s 32 (sum m f)) ltac:(lia)) as (p & Hp & E). rewrite E. f_equal.
    rewrite sum_snoc by lia. apply wrap_s_congr; [lia|].
    rewrite Zplus_mod, (Zplus_mod (sum m f)), wrap_s_mod by lia. rewrite Hp. reflexivity.
Qed.

Lemma forto_sum_checked : forall n (f : Z -> Z) (body : Z -> Z -> res Z) B, 0 <= n ->
  (forall k, 0 <= k < n -> - B <= f k <= B) -> n * B <= int_max ->
  (forall k a, 0 <= k < n -> - int_max <= a + f k <= int_max -> body k a = Ok (a + f k)) ->
  forto 0 n body 0 = Ok (sum n f).
Proof.
  intros n f body B Hn. pattern n. apply sum_ind; [| |exact Hn].
  - intros _ _ _. rewrite forto_empty by lia. rewrite sum_0 by lia. reflexivity.
  - intros m Hm IH HB Hmax H. rewrite forto_snoc by lia.
    assert (0 <= B) by (pose proof (HB m ltac:(lia)); lia).
    rewrite IH by (auto; intros; try apply HB; try apply H; lia). cbn [bind].
    rewrite sum_snoc by lia. apply H; [lia|].
    pose proof (sum_bound m f B Hm (fun k Hk => HB k ltac:(lia))). pose proof (HB m ltac:(lia)). lia.
Qed.

(** What a successful checked accumulation returns. *)
Lemma forto_sum_inv : forall n (f : Z -> Z) (body : Z -> Z -> res Z) v, 0 <= n ->
  (forall k a b, 0 <= k < n -> body k a = Ok b -> b = a + f k) ->
  forto 0 n body 0 = Ok v -> v = sum n f.
Proof.
  intros n f body v Hn. revert v. pattern n. apply sum_ind; [| |exact Hn].
  - intros v _ E. rewrite forto_empty in E by lia. injection E as <-. rewrite sum_0 by lia. reflexivity.
  - intros m Hm IH v H E. rewrite forto_snoc in E by lia.
    apply bind_ok in E. destruct E as (a & E1 & E2).
    apply IH in E1; [|intros; eapply H; eauto; lia]. apply H in E2; [|lia]. rewrite sum_snoc by lia. lia.
Qed.

(** * Packed entries *)

(** The packed type is the source type, or uint8 is converted to int8. *)
Definition conv_ok (s p : ity) : Prop := p = s \/ (s = u8 /\ p = s8).

Definition entries_in (t : ity) (m : mat Z) : Prop :=
  (forall r c, 0 <= r < ml_rows (m_layout m) -> 0 <= c < ml_cols (m_layout m) -> it_lo t <= ent m r c <= it_hi t) /\
  it_lo t <= m_zp m <= it_hi t.

Lemma conv_diff : forall s p x z, 0 < it_bits s -> conv_ok s p -> it_lo s <= x <= it_hi s -> it_lo s <= z <= it_hi s ->
  pack_int s p x - pack_int s p z = x - z.
Proof.
  intros s p x z Hb [->|[-> ->]] Hx Hz.
  - rewrite !same_type_pack by auto. reflexivity.
  - apply uint8_to_int8; auto.
Qed.

Lemma conv_bits : forall s p, 0 < it_bits s -> conv_ok s p -> 0 < it_bits p.
Proof. intros s p H [->|[-> ->]]; auto. Qed.

Section Packed.
Variables (ar : Z -> res Z) (dbg : bool) (st pt : sp ity) (dt : ity).
Notation o := (int_ops ar dbg st pt dt).

Lemma pval_range : forall s m zp k c, 0 < it_bits (get s pt) ->
  it_lo (get s pt) <= pval o s m zp k c <= it_hi (get s pt).
Proof.
  intros s m zp k c H. unfold pval. destruct (_ && _); cbn [int_ops o_pack o_of_zp]; apply it_conv_range; auto.
Qed.

Lemma pval_diff : forall s m k c, 0 < it_bits (get s st) -> conv_ok (get s st) (get s pt) ->
  entries_in (get s st) m -> 0 <= k -> 0 <= c < ml_cols (m_layout m) ->
  pval o s m (o_pack_zp o s (m_zp m)) k c - o_pack_zp o s (m_zp m) =
  (if k <? ml_rows (m_layout m) then ent m k c - m_zp m else 0).
Proof.
  intros s m k c Hb Hc [E1 E2] Hk Hcol. unfold pval.
  assert (Hb' : 0 < it_bits (get s pt)) by (eapply conv_bits; eauto).
  replace (c <? ml_cols (m_layout m)) with true by (symmetry; apply Z.ltb_lt; lia). cbn [andb].
  destruct (Z.ltb_spec k (ml_rows (m_layout m))); cbn [int_ops o_pack o_of_zp o_pack_zp].
  - apply conv_diff; auto.
  - rewrite it_conv_id by (auto; apply pack_int_range; auto). lia.
Qed.
End Packed.

(** * The exact accumulator *)

(** [acc l r i j] = sum over k of (l(k,i) - zl) (r(k,j) - zr); l, r as stored by
    TrMul (both with depth as rows). *)
Definition exact_acc (l r : mat Z) (i j : Z) : Z :=
  sum (ml_rows (m_layout r)) (fun k => (ent l k i - m_zp l) * (ent r k j - m_zp r)).

Definition bias_of (mp : mul_params Z) (c : Z) : res Z :=
  match mp_bias mp with None => Ok 0 | Some b => bread b c end.

Lemma packed_acc : forall ar dbg st pt dt (l r : mat Z) depth i j,
  (forall s, 0 < it_bits (get s st)) -> (forall s, conv_ok (get s st) (get s pt)) ->
  entries_in (lhs st) l -> entries_in (rhs st) r ->
  0 <= ml_rows (m_layout l) -> ml_rows (m_layout l) = ml_rows (m_layout r) -> ml_rows (m_layout r) <= depth ->
  0 <= i < ml_cols (m_layout l) -> 0 <= j < ml_cols (m_layout r) ->
  let o := int_ops ar dbg st pt dt in
  let zl := o_pack_zp o Lhs (m_zp l) in
  let zr := o_pack_zp o Rhs (m_zp r) in
  sum depth (fun k => pval o Lhs l zl k i * pval o Rhs r zr k j)
    - zl * sum depth (fun k => pval o Rhs r zr k j)
    - zr * sum depth (fun k => pval o Lhs l zl k i) + zl * zr * depth = exact_acc l r i j.
Proof.
  intros ar dbg st pt dt l r depth i j Hb Hc El Er Hd Ed Hdepth Hi Hj o zl zr.
  rewrite <- sum_expand by lia. unfold exact_acc. rewrite <- Ed in *.
  rewrite (sum_pad (ml_rows (m_layout l)) depth) by
    (try lia; intros k Hk; unfold zl, o; rewrite (pval_diff ar dbg st pt dt Lhs) by (auto; lia);
     replace (k <? ml_rows (m_layout l)) with false by (symmetry; apply Z.ltb_ge; lia); reflexivity).
  apply sum_ext. intros k Hk.
  pose proof (pval_diff ar dbg st pt dt Lhs l k i (Hb Lhs) (Hc Lhs) El ltac:(lia) Hi) as D1.
  pose proof (pval_diff ar dbg st pt dt Rhs r k j (Hb Rhs) (Hc Rhs) Er ltac:(lia) Hj) as D2.
  rewrite <- Ed in D2. replace (k <? ml_rows (m_layout l)) with true in D1, D2 by (symmetry; apply Z.ltb_lt; lia).
  fold o in D1, D2. fold zl in D1. fold zr in D2. rewrite D1, D2. reflexivity.
Qed.

(** * Wrapping arithmetic *)

Lemma wrap_add_l : forall a b, wrap_s 32 (wrap_s 32 a + b) = wrap_s 32 (a + b).
Proof. intros. apply wrap_s_congr; [lia|]. rewrite Zplus_mod, wrap_s_mod, <- Zplus_mod by lia. reflexivity. Qed.
Lemma wrap_add_r : forall a b, wrap_s 32 (a + wrap_s 32 b) = wrap_s 32 (a + b).
Proof. intros. rewrite Z.add_comm, wrap_add_l, Z.add_comm. reflexivity. Qed.
Lemma wrap_mul_l : forall a b, wrap_s 32 (wrap_s 32 a * b) = wrap_s 32 (a * b).
Proof. intros. apply wrap_s_congr; [lia|]. rewrite Zmult_mod, wrap_s_mod, <- Zmult_mod by lia. reflexivity. Qed.
Lemma wrap_mul_r : forall a b, wrap_s 32 (a * wrap_s 32 b) = wrap_s 32 (a * b).
Proof. intros. rewrite Z.mul_comm, wrap_mul_l, Z.mul_comm. reflexivity. Qed.
Lemma wrap_sub_r : forall a b, wrap_s 32 (a - wrap_s 32 b) = wrap_s 32 (a - b).
Proof. intros. apply wrap_s_congr; [lia|]. rewrite Zminus_mod, wrap_s_mod, <- Zminus_mod by lia. reflexivity. Qed.
Lemma wrap_sub_l : forall a b, wrap_s 32 (wrap_s 32 a - b) = wrap_s 32 (a - b).
Proof. intros. unfold Z.sub. apply wrap_add_l. Qed.

Section Wrapping.
Variables (dbg : bool) (st pt : sp ity) (dt : ity).
Notation o := (int_ops wrapping dbg st pt dt).

Lemma wrap_col_sum : forall s m zp depth c, 0 <= depth ->
  col_sum o s m zp depth c = Ok (wrap_s 32 (sum depth (fun k => pval o s m zp k c))).
Proof.
  intros s m zp depth c Hd. unfold col_sum. cbn [int_ops o_sum0 o_sum_add].
  apply forto_sum_wrap; auto. intros k a Hk. eexists. split; [|reflexivity]. reflexivity.
Qed.

Lemma wrap_accum : forall l r zl zr depth i j, 0 <= depth ->
  spec_accum o l r zl zr depth i j =
  Ok (wrap_s 32 (sum depth (fun k => pval o Lhs l zl k i * pval o Rhs r zr k j))).
Proof.
  intros l r zl zr depth i j Hd. unfold spec_accum. cbn [int_ops o_acc0 o_mul o_add o_to_acc].
  apply forto_sum_wrap; auto. intros k a Hk. unfold wrapping. cbn [bind].
  eexists. split; [|reflexivity]. apply wrap_s_mod; lia.
Qed.

Lemma wrap_zp_terms : forall l r zl zr depth i j a, 0 <= depth ->
  spec_zp_terms o l r zl zr depth i j (wrap_s 32 a) =
  Ok (wrap_s 32 (a - zl * sum depth (fun k => pval o Rhs r zr k j)
                   - zr * sum depth (fun k => pval o Lhs l zl k i) + zl * zr * depth)).
Proof.
  intros l r zl zr depth i j a Hd. unfold spec_zp_terms. rewrite !wrap_col_sum by auto.
  set (sr := sum depth (fun k => pval o Rhs r zr k j)). set (sl := sum depth (fun k => pval o Lhs l zl k i)).
  cbn [int_ops o_sub_zp_sum o_add_zp_zp_depth]. unfold wrapping. cbn [bind].
  destruct (Z.eqb_spec zl 0) as [->|]; destruct (Z.eqb_spec zr 0) as [->|]; cbn [orb bind]; f_equal.
  - f_equal. lia.
  - rewrite wrap_mul_r, wrap_sub_r, wrap_sub_l. f_equal. lia.
  - rewrite wrap_mul_r, wrap_sub_r, wrap_sub_l. f_equal. lia.
  - rewrite !wrap_mul_r, !wrap_sub_r, !wrap_sub_l, wrap_mul_l.
    rewrite wrap_add_l, wrap_add_r.
    replace (wrap_s 32 a - zl * sr - zr * sl + zl * zr * depth)
      with (wrap_s 32 a + (- zl * sr - zr * sl + zl * zr * depth)) by lia.
    rewrite wrap_add_l. f_equal. lia.
Qed.

Lemma wrap_entry : forall l r mp dzp depth i j b,
  (forall s, 0 < it_bits (get s st)) -> (forall s, conv_ok (get s st) (get s pt)) ->
  entries_in (lhs st) l -> entries_in (rhs st) r ->
  0 <= ml_rows (m_layout l) -> ml_rows (m_layout l) = ml_rows (m_layout r) -> ml_rows (m_layout r) <= depth ->
  0 <= i < ml_cols (m_layout l) -> 0 <= j < ml_cols (m_layout r) ->
  bias_of mp (channel_of mp i j) = Ok b ->
  spec_entry o l r (o_pack_zp o Lhs (m_zp l)) (o_pack_zp o Rhs (m_zp r)) depth mp dzp i j =
  finish o mp dzp (channel_of mp i j) (wrap_s 32 (exact_acc l r i j + b)).
Proof.
  intros l r mp dzp depth i j b Hb Hc El Er H0 Ed Hd Hi Hj HB. unfold spec_entry.
  rewrite wrap_accum by lia. cbn [bind].
  set (zl := o_pack_zp o Lhs (m_zp l)). set (zr := o_pack_zp o Rhs (m_zp r)).
  assert (EB : forall a, add_bias o mp (channel_of mp i j) (wrap_s 32 a) = Ok (wrap_s 32 (a + b))).
  { intros a. unfold add_bias. unfold bias_of in HB. destruct (mp_bias mp).
    - rewrite HB. cbn [bind int_ops o_add]. unfold wrapping. rewrite wrap_add_l. reflexivity.
    - injection HB as <-. rewrite Z.add_0_r. reflexivity. }
  rewrite EB. cbn [bind]. rewrite wrap_zp_terms by lia. cbn [bind]. f_equal. f_equal.
  rewrite <- (packed_acc wrapping dbg st pt dt l r depth i j) by auto. fold zl zr. ring.
Qed.
End Wrapping.

(** * Checked arithmetic *)

Lemma checked_ok : forall z, int_min <= z <= int_max -> checked z = Ok z.
Proof. exact i32_ok. Qed.

(** Largest absolute value of a type. *)
Definition it_abs (t : ity) : Z := Z.max (- it_lo t) (it_hi t).

Lemma it_abs_bound : forall t z, it_lo t <= z <= it_hi t -> - it_abs t <= z <= it_abs t.
Proof. intros. unfold it_abs. lia. Qed.

Section Checked.
Variables (dbg : bool) (st pt : sp ity) (dt : ity).
Notation o := (int_ops checked dbg st pt dt).
Hypothesis Hbits : forall s, 0 < it_bits (get s pt).
Notation A := (it_abs (lhs pt)).
Notation B := (it_abs (rhs pt)).

Lemma it_abs_pos : forall t, 0 < it_bits t -> 0 < it_abs t.
Proof.
  intros t H. unfold it_abs, it_lo, it_hi, smin, smax.
  assert (0 < 2 ^ (it_bits t - 1)) by (apply pow2_pos; lia).
  assert (2 ^ 1 <= 2 ^ it_bits t) by (apply Z.pow_le_mono_r; lia).
  destruct (it_signed t); [lia|]. change (2 ^ 1) with 2 in *. lia.
Qed.

Lemma pval_abs : forall s m zp k c, - it_abs (get s pt) <= pval o s m zp k c <= it_abs (get s pt).
Proof. intros. apply it_abs_bound. apply pval_range. auto. Qed.

Lemma checked_col_sum : forall s m zp depth c, 0 <= depth -> depth * it_abs (get s pt) <= int_max ->
  col_sum o s m zp depth c = Ok (sum depth (fun k => pval o s m zp k c)).
Proof.
  intros s m zp depth c Hd HM. unfold col_sum. cbn [int_ops o_sum0 o_sum_add].
  apply forto_sum_checked with (B := it_abs (get s pt)); auto.
  - intros. apply pval_abs.
  - intros k a Hk Ha. cbv beta in Ha. apply checked_ok.
    unfold int_min, int_max in *. lia.
Qed.

Lemma mul_abs : forall x y a b, 0 <= a -> 0 <= b -> - a <= x <= a -> - b <= y <= b -> - (a * b) <= x * y <= a * b.
Proof. intros. apply Z.abs_le. rewrite Z.abs_mul. apply Z.mul_le_mono_nonneg; try apply Z.abs_nonneg; lia. Qed.

Lemma checked_accum : forall l r zl zr depth i j, 0 <= depth -> depth * (A * B) <= int_max ->
  spec_accum o l r zl zr depth i j =
  Ok (sum depth (fun k => pval o Lhs l zl k i * pval o Rhs r zr k j)).
Proof.
  intros l r zl zr depth i j Hd HM. unfold spec_accum. cbn [int_ops o_acc0 o_mul o_add o_to_acc].
  pose proof (it_abs_pos _ (Hbits Lhs)) as PA. pose proof (it_abs_pos _ (Hbits Rhs)) as PB. cbn [get] in PA, PB.
  assert (X : forall k, - (A * B) <= pval o Lhs l zl k i * pval o Rhs r zr k j <= A * B).
  { intros k. apply mul_abs; try lia; [apply (pval_abs Lhs)|apply (pval_abs Rhs)]. }
  apply forto_sum_checked with (B := A * B); auto.
  intros k a Hk Ha. cbv beta in Ha.
  assert (A * B <= int_max).
  { eapply Z.le_trans; [|exact HM]. transitivity (1 * (A * B)); [lia|]. apply Z.mul_le_mono_nonneg_r; lia. }
  rewrite checked_ok by (pose proof (X k); unfold int_min, int_max in *; lia). cbn [bind].
  apply checked_ok. unfold int_min, int_max in *. lia.
Qed.

(** The kernel's accumulator does not overflow if 4 depth A B + |bias| <= INT_MAX. *)
Lemma checked_entry : forall l r mp dzp depth i j b,
  (forall s, 0 < it_bits (get s st)) -> (forall s, conv_ok (get s st) (get s pt)) ->
  entries_in (lhs st) l -> entries_in (rhs st) r ->
  0 < ml_rows (m_layout l) -> ml_rows (m_layout l) = ml_rows (m_layout r) -> ml_rows (m_layout r) <= depth ->
  0 <= i < ml_cols (m_layout l) -> 0 <= j < ml_cols (m_layout r) ->
  bias_of mp (channel_of mp i j) = Ok b -> 4 * (depth * (A * B)) + Z.abs b <= int_max ->
  spec_entry o l r (o_pack_zp o Lhs (m_zp l)) (o_pack_zp o Rhs (m_zp r)) depth mp dzp i j =
  finish o mp dzp (channel_of mp i j) (exact_acc l r i j + b).
Proof.
  intros l r mp dzp depth i j b Hb Hc El Er H0 Ed Hd Hi Hj HB HM. unfold spec_entry.
  pose proof (it_abs_pos _ (Hbits Lhs)) as PA. pose proof (it_abs_pos _ (Hbits Rhs)) as PB. cbn [get] in PA, PB.
  set (zl := o_pack_zp o Lhs (m_zp l)). set (zr := o_pack_zp o Rhs (m_zp r)).
  assert (N : 0 <= depth * (A * B)) by (apply Z.mul_nonneg_nonneg; [lia|apply Z.mul_nonneg_nonneg; lia]).
  assert (D0 : 0 <= depth) by lia.
  assert (Zl : - A <= zl <= A).
  { apply it_abs_bound. unfold zl. cbn [int_ops o_pack_zp]. apply pack_int_range. apply (Hbits Lhs). }
  assert (Zr : - B <= zr <= B).
  { apply it_abs_bound. unfold zr. cbn [int_ops o_pack_zp]. apply pack_int_range. apply (Hbits Rhs). }
  assert (DA : depth * A <= depth * (A * B)).
  { apply Z.mul_le_mono_nonneg_l; [lia|]. transitivity (A * 1); [lia|]. apply Z.mul_le_mono_nonneg_l; lia. }
  assert (DB : depth * B <= depth * (A * B)).
  { apply Z.mul_le_mono_nonneg_l; [lia|]. transitivity (1 * B); [lia|]. apply Z.mul_le_mono_nonneg_r; lia. }
  rewrite checked_accum by lia. cbn [bind].
  pose proof (packed_acc checked dbg st pt dt l r depth i j Hb Hc El Er ltac:(lia) Ed Hd Hi Hj) as PAcc.
  cbv zeta in PAcc. fold zl zr in PAcc.
  assert (S1 : - (depth * (A * B)) <= sum depth (fun k => pval o Lhs l zl k i * pval o Rhs r zr k j) <= depth * (A * B)).
  { apply sum_bound; auto. intros k _. apply mul_abs; try lia; [apply (pval_abs Lhs)|apply (pval_abs Rhs)]. }
  assert (S2 : - (depth * A) <= sum depth (fun k => pval o Lhs l zl k i) <= depth * A).
  { apply sum_bound; auto. intros k _. apply (pval_abs Lhs). }
  assert (S3 : - (depth * B) <= sum depth (fun k => pval o Rhs r zr k j) <= depth * B).
  { apply sum_bound; auto. intros k _. apply (pval_abs Rhs). }
  pose proof (checked_col_sum Lhs l zl depth i D0) as C1. pose proof (checked_col_sum Rhs r zr depth j D0) as C2.
  cbn [get] in C1, C2. specialize (C1 ltac:(lia)). specialize (C2 ltac:(lia)).
  set (s := sum depth (fun k => pval o Lhs l zl k i * pval o Rhs r zr k j)) in *.
  set (sl := sum depth (fun k => pval o Lhs l zl k i)) in *.
  set (sr := sum depth (fun k => pval o Rhs r zr k j)) in *.
  assert (T1 : - (depth * (A * B)) <= zl * sr <= depth * (A * B)).
  { replace (depth * (A * B)) with (A * (depth * B)) by ring. apply mul_abs; try lia. }
  assert (T2 : - (depth * (A * B)) <= zr * sl <= depth * (A * B)).
  { replace (depth * (A * B)) with (B * (depth * A)) by ring. apply mul_abs; try lia. }
  assert (T3 : - (A * B) <= zl * zr <= A * B) by (apply mul_abs; lia).
  assert (T4 : - (depth * (A * B)) <= zl * zr * depth <= depth * (A * B)).
  { replace (depth * (A * B)) with ((A * B) * depth) by ring. apply mul_abs; try lia. }
  assert (EB : add_bias o mp (channel_of mp i j) s = Ok (s + b)).
  { unfold add_bias. unfold bias_of in HB. destruct (mp_bias mp).
    - rewrite HB. cbn [bind int_ops o_add]. apply checked_ok. unfold int_min, int_max in *. lia.
    - injection HB as <-. rewrite Z.add_0_r. reflexivity. }
  rewrite EB. cbn [bind].
  assert (ZT : spec_zp_terms o l r zl zr depth i j (s + b) = Ok (exact_acc l r i j + b)).
  { unfold spec_zp_terms. rewrite C1, C2. fold sl sr. cbn [int_ops o_sub_zp_sum o_add_zp_zp_depth].
    cbn [bind]. rewrite <- PAcc.
    rewrite (checked_ok (zl * sr)), (checked_ok (zr * sl)) by (unfold int_min, int_max in *; lia). cbn [bind].
    clearbody s sl sr zl zr. clear PAcc C1 C2 EB S2 S3 DA DB.
    destruct (Z.eqb_spec zl 0) as [E|En]; destruct (Z.eqb_spec zr 0) as [E'|En']; cbn [orb bind].
    - subst zl zr. f_equal. ring.
    - subst zl. rewrite checked_ok by (unfold int_min, int_max in *; lia). cbn [bind]. f_equal. ring.
    - subst zr. rewrite checked_ok by (unfold int_min, int_max in *; lia). cbn [bind]. f_equal. ring.
    - rewrite checked_ok by (unfold int_min, int_max in *; lia). cbn [bind].
      rewrite checked_ok by (unfold int_min, int_max in *; lia). cbn [bind].
      assert (A * B <= depth * (A * B)).
        { transitivity (1 * (A * B)); [lia|]. apply Z.mul_le_mono_nonneg_r; [apply Z.mul_nonneg_nonneg|]; lia. }
        rewrite (checked_ok (zl * zr)) by (unfold int_min, int_max in *; lia). cbn [bind].
        rewrite checked_ok by (unfold int_min, int_max in *; lia). cbn [bind].
        rewrite checked_ok by (unfold int_min, int_max in *; lia). f_equal. ring. }
  rewrite ZT. reflexivity.
Qed.
End Checked.
