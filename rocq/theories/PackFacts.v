(** Lemmas about generic packing. *)
From Verif Require Import Base SidePair SizeUtil SizeUtilFacts Mat MatFacts Scalars Pack.

(** A matrix whose buffer covers its layout. *)
Record mat_ok {V} (m : mat V) : Prop := {
  mo_layout : layout_ok (m_layout m);
  mo_len : flat (m_layout m) <= blen (m_data m)
}.

(** Logical entry (row, col). *)
Definition ent {V} (m : mat V) (row col : Z) : V := bdat (m_data m) (off (m_layout m) row col).

Lemma element_ok : forall {V} (m : mat V) row col, mat_ok m ->
  0 <= row < ml_rows (m_layout m) -> 0 <= col < ml_cols (m_layout m) ->
  element m row col = Ok (ent m row col).
Proof.
  intros V m row col [L B] Hr Hc. unfold element. rewrite offset_ok by auto. cbn [bind].
  pose proof (off_range _ _ _ L Hr Hc). apply bread_ok. lia.
Qed.

Lemma ent_transpose : forall {V} (m : mat V) r c, ent (transpose_mat m) r c = ent m c r.
Proof. intros. unfold ent, transpose_mat; cbn [m_data m_layout]. rewrite off_transpose. reflexivity. Qed.

Lemma mat_ok_transpose : forall {V} (m : mat V), mat_ok m -> mat_ok (transpose_mat m).
Proof.
  intros V m [L B]. constructor; cbn [transpose_mat m_data m_layout].
  - apply layout_ok_transpose; auto.
  - rewrite flat_transpose. auto.
Qed.

Record pmat_ok {V} (p : pmat V) : Prop := {
  pmo_layout : playout_ok (p_layout p);
  pmo_len : pl_rows (p_layout p) * pl_cols (p_layout p) <= blen (p_data p);
  pmo_sums : forall b, p_sums p = Some b -> pl_cols (p_layout p) <= blen b
}.

(** Same shape: layout, zero point, buffer lengths, presence of sums. *)
Definition opt_len {V} (b : option (buf V)) : option Z := option_map blen b.
Record same_shape {V} (p q : pmat V) : Prop := {
  ss_layout : p_layout q = p_layout p;
  ss_zp : p_zp q = p_zp p;
  ss_len : blen (p_data q) = blen (p_data p);
  ss_sums : opt_len (p_sums q) = opt_len (p_sums p)
}.

Lemma same_shape_refl : forall {V} (p : pmat V), same_shape p p.
Proof. constructor; reflexivity. Qed.
Lemma same_shape_trans : forall {V} (p q r : pmat V), same_shape p q -> same_shape q r -> same_shape p r.
Proof. intros V p q r [] []. constructor; congruence. Qed.

Lemma opt_len_some : forall {V} (x y : option (buf V)) b, opt_len x = opt_len y -> x = Some b ->
  exists b', y = Some b' /\ blen b' = blen b.
Proof. intros V x y b E ->. destruct y as [b'|]; cbn in E; [|discriminate]. injection E as E. eauto. Qed.

Lemma pmat_ok_same : forall {V} (p q : pmat V), same_shape p q -> pmat_ok p -> pmat_ok q.
Proof.
  intros V p q [E1 E2 E3 E4] [L B S]. constructor.
  - rewrite E1; auto.
  - rewrite E1, E3; auto.
  - intros b Hb. destruct (opt_len_some _ _ _ E4 Hb) as (b' & Hb' & El). rewrite E1. rewrite <- El. auto.
Qed.

(** The value of the packed entry (row, col): specification-level. *)
Definition pval {V} (o : ops V) (s : side) (src : mat V) (zp row col : Z) : V :=
  if (col <? ml_cols (m_layout src)) && (row <? ml_rows (m_layout src))
  then o_pack o s (ent src row col) else o_of_zp o s zp.

Definition col_sum {V} (o : ops V) (s : side) (src : mat V) (zp rows col : Z) : res V :=
  forto 0 rows (fun row acc => o_sum_add o s acc (pval o s src zp row col)) (o_sum0 o s).

Lemma packed_val_ok : forall {V} (o : ops V) s src zp row col, mat_ok src -> 0 <= row -> 0 <= col ->
  packed_val o s src zp row col = Ok (pval o s src zp row col).
Proof.
  intros V o s src zp row col M Hr Hc. unfold packed_val, pval.
  destruct (_ && _) eqn:E; [|reflexivity].
  rewrite element_ok by (auto; lia). reflexivity.
Qed.

Lemma bind_ok_pre : forall {A B} (x : res A) (f : A -> res B) b, bind x f = Ok b -> exists a, x = Ok a.
Proof. intros A B [a| |] f b H; cbn in H; try discriminate. eauto. Qed.

(** Prefixes of a successful loop are successful. *)
Lemma forto_prefix : forall {S} a m b (body : Z -> S -> res S) s s', a <= m <= b ->
  forto a b body s = Ok s' -> exists s1, forto a m body s = Ok s1.
Proof.
  intros S a m b body s s' H. remember (Z.to_nat (b - m)) as n eqn:En. revert b s' H En.
  induction n as [|n IH]; intros b s' H En E.
  - assert (b = m) by lia. subst b. eauto.
  - replace b with ((b - 1) + 1) in E by lia. rewrite forto_snoc in E by lia.
    apply bind_ok_pre in E. destruct E as [s2 E]. apply (IH (b - 1) s2); auto; lia.
Qed.

Lemma pack_column_ok : forall {V} dbg (o : ops V) s src l zp col data sum,
  mat_ok src -> playout_ok l -> pl_rows l * pl_cols l <= blen data ->
  0 <= col < pl_cols l ->
  col_sum o s src zp (pl_rows l) col = Ok sum ->
  exists data', pack_column dbg o s src l zp col data = Ok (sum, data') /\
    blen data' = blen data /\
    (forall row, 0 <= row < pl_rows l -> bdat data' (poff l row col) = pval o s src zp row col) /\
    (forall i, (forall row, 0 <= row < pl_rows l -> i <> poff l row col) -> bdat data' i = bdat data i).
Proof.
  intros V dbg o s src l zp col data sum M L B Hc Hs.
  unfold pack_column.
  set (P := fun row (st : V * buf V) =>
    col_sum o s src zp row col = Ok (fst st) /\
    blen (snd st) = blen data /\
    (forall r, 0 <= r < row -> bdat (snd st) (poff l r col) = pval o s src zp r col) /\
    (forall i, (forall r, 0 <= r < row -> i <> poff l r col) -> bdat (snd st) i = bdat data i)).
  destruct (forto_inv P
    (fun row '(accum, data) =>
       v <- packed_val o s src zp row col ;;
       accum' <- o_sum_add o s accum v ;;
       off <- poffset dbg l row col ;;
       data' <- bwrite data off v ;;
       Ok (accum', data')) 0 (pl_rows l) (o_sum0 o s, data) (po_rows _ L)) as ([acc d] & E & H).
  - unfold P; cbn [fst snd]. split; [|split; [|split]]; auto. intros; lia.
  - intros row [acc d] Hr (H1 & H2 & H3 & H4). cbn [fst snd] in *.
    rewrite packed_val_ok by (auto; lia). cbn [bind].
    unfold col_sum in Hs. destruct (forto_prefix 0 (row + 1) (pl_rows l) _ _ _ ltac:(lia) Hs) as [acc' Ea].
    pose proof Ea as Ea2.
    rewrite forto_snoc in Ea by lia. unfold col_sum in H1. rewrite H1 in Ea. cbn [bind] in Ea.
    rewrite Ea. cbn [bind]. rewrite poffset_ok by (auto; lia). cbn [bind].
    pose proof (poff_range l row col L ltac:(lia) Hc) as R.
    destruct (bwrite_ok d (poff l row col) (pval o s src zp row col)) as (d' & Ed & Ld & Hd); [lia|].
    rewrite Ed. cbn [bind]. eexists. split; [reflexivity|]. unfold P; cbn [fst snd].
    split; [exact Ea2|]. split; [congruence|]. split.
    + intros r Hr'. rewrite Hd. destruct (Z.eqb_spec (poff l r col) (poff l row col)) as [Eq|Ne].
      * apply poff_inj in Eq; auto; try lia. destruct Eq as [-> _]. reflexivity.
      * apply H3. assert (r <> row) by congruence. lia.
    + intros i Hi. rewrite Hd. destruct (Z.eqb_spec i (poff l row col)) as [Eq|Ne].
      * exfalso. apply (Hi row); auto; lia.
      * apply H4. intros r Hr'. apply Hi. lia.
  - destruct H as (H1 & H2 & H3 & H4). cbn [fst snd] in *. rewrite E.
    assert (acc = sum) by congruence. subst acc. eauto 10.
Qed.

(** Column [c] of side [s] is completely packed in [p]. *)
Definition col_done {V} (o : ops V) (s : side) (src : mat V) (p : pmat V) (c : Z) : Prop :=
  (forall row, 0 <= row < pl_rows (p_layout p) ->
     bdat (p_data p) (poff (p_layout p) row c) = pval o s src (p_zp p) row c) /\
  (forall b, p_sums p = Some b ->
     col_sum o s src (p_zp p) (pl_rows (p_layout p)) c = Ok (bdat b c)).

(** Cells of the packed buffers not belonging to columns [a, b). *)
Definition unchanged_outside {V} (p q : pmat V) (a b : Z) : Prop :=
  (forall i, (forall row c, 0 <= row < pl_rows (p_layout p) -> a <= c < b -> i <> poff (p_layout p) row c) ->
     bdat (p_data q) i = bdat (p_data p) i) /\
  (forall bp bq, p_sums p = Some bp -> p_sums q = Some bq ->
     forall i, ~ (a <= i < b) -> bdat bq i = bdat bp i).

Lemma run_pack_ok : forall {V} dbg (o : ops V) s kcols src p a b,
  mat_ok src -> pmat_ok p -> kcols = kl_cols (pl_kernel (p_layout p)) ->
  0 <= a <= b -> b <= pl_cols (p_layout p) -> b <= int_max -> (b - a) mod kcols = 0 ->
  (forall c, a <= c < b -> exists v, col_sum o s src (p_zp p) (pl_rows (p_layout p)) c = Ok v) ->
  exists q, run_pack dbg o s kcols src p a b = Ok q /\ same_shape p q /\
    (forall c, a <= c < b -> col_done o s src q c) /\ unchanged_outside p q a b.
Proof.
  intros V dbg o s kcols src p a b M PM Ek Hab Hb Hmax Hmod Hsum.
  pose proof (pmo_layout _ PM) as L. destruct (playout_kpos _ L) as [Pr Pc].
  unfold run_pack. rewrite i32_ok by (unfold int_min, int_max in *; lia). cbn [bind].
  rewrite dcheck_ok by (rewrite Z.rem_mod_nonneg by lia; lia). cbn [bind].
  set (l := p_layout p) in *. set (zp := p_zp p) in *.
  set (P := fun c (st : buf V * option (buf V)) =>
    blen (fst st) = blen (p_data p) /\ opt_len (snd st) = opt_len (p_sums p) /\
    (forall c' row, a <= c' < c -> 0 <= row < pl_rows l ->
        bdat (fst st) (poff l row c') = pval o s src zp row c') /\
    (forall bs, snd st = Some bs -> forall c', a <= c' < c ->
        col_sum o s src zp (pl_rows l) c' = Ok (bdat bs c')) /\
    (forall i, (forall row c', 0 <= row < pl_rows l -> a <= c' < c -> i <> poff l row c') ->
        bdat (fst st) i = bdat (p_data p) i) /\
    (forall bp bq, p_sums p = Some bp -> snd st = Some bq ->
        forall i, ~ (a <= i < c) -> bdat bq i = bdat bp i)).
  destruct (forto_inv P
      (fun col '(data, sums) =>
         '(accum, data') <- pack_column dbg o s src l zp col data ;;
         sums' <- store_sum sums col accum ;;
         Ok (data', sums')) a b (p_data p, p_sums p) ltac:(lia)) as ([d ss] & E & H).
  - unfold P; cbn [fst snd]. repeat split; auto; intros; try lia. congruence.
  - intros c [d ss] Hc (H1 & H2 & H3 & H4 & H5 & H6). cbn [fst snd] in *.
    destruct (Hsum c Hc) as [v Hv].
    destruct (pack_column_ok dbg o s src l zp c d v M L) as (d' & Ed & Ld & Hd & Hf); auto; try lia.
    { rewrite H1. apply (pmo_len _ PM). }
    rewrite Ed. cbn [bind].
    assert (S : exists ss', store_sum ss c v = Ok ss' /\ opt_len ss' = opt_len ss /\
       (forall bs bq, ss = Some bs -> ss' = Some bq -> forall j, bdat bq j = if j =? c then v else bdat bs j)).
    { destruct ss as [bs|]; cbn [store_sum].
      - destruct (opt_len_some _ _ _ H2 eq_refl) as (bp & Ep & El).
        pose proof (pmo_sums _ PM bp Ep). fold l in H.
        destruct (bwrite_ok bs c v) as (bs' & Eb & Lb & Hb'); [lia|]. rewrite Eb. cbn [bind].
        eexists. split; [reflexivity|]. cbn. rewrite Lb. split; auto.
        intros ? ? [= <-] [= <-]. auto.
      - eexists. split; [reflexivity|]. split; auto. intros; discriminate. }
    destruct S as (ss' & Es & Ls & Hss). rewrite Es. cbn [bind]. eexists. split; [reflexivity|].
    unfold P; cbn [fst snd]. split; [congruence|]. split; [congruence|].
    split; [|split; [|split]].
    + intros c' row Hc' Hr. destruct (Z.eq_dec c' c) as [->|Ne]; [auto|].
      rewrite Hf; [apply H3; auto; lia|]. intros r Hr' Eq. apply poff_inj in Eq; auto; lia.
    + intros bq Eq c' Hc'. destruct (opt_len_some _ _ _ Ls Eq) as (bs & Ebs & _).
      rewrite (Hss bs bq Ebs Eq). destruct (Z.eqb_spec c' c) as [->|Ne]; [auto|].
      apply H4; auto; lia.
    + intros i Hi. rewrite Hf; [apply H5; intros; apply Hi; lia|]. intros r Hr. apply Hi; auto; lia.
    + intros bp bq Ep Eq i Hi. destruct (opt_len_some _ _ _ Ls Eq) as (bs & Ebs & _).
      rewrite (Hss bs bq Ebs Eq). destruct (Z.eqb_spec i c) as [->|Ne]; [lia|].
      apply (H6 bp bs); auto; lia.
  - rewrite E. cbn [bind]. destruct H as (H1 & H2 & H3 & H4 & H5 & H6). cbn [fst snd] in *.
    eexists. split; [reflexivity|]. split; [|split].
    + constructor; cbn; auto.
    + intros c Hc. split; cbn [p_layout p_zp p_data p_sums]; fold l zp; auto.
    + split; cbn [p_layout p_zp p_data p_sums]; fold l; auto.
Qed.

(** ** Inversion: packing succeeds only if the sums of the packed columns are defined. *)

Lemma pack_column_inv : forall {V} dbg (o : ops V) s src l zp col data r,
  mat_ok src -> 0 <= col -> 0 <= pl_rows l -> pack_column dbg o s src l zp col data = Ok r ->
  col_sum o s src zp (pl_rows l) col = Ok (fst r).
Proof.
  intros V dbg o s src l zp col data r M Hc Hr E. unfold pack_column in E.
  apply (forto_ok_ind (fun row (st : V * buf V) => col_sum o s src zp row col = Ok (fst st)) _ _ _ _ _ Hr) in E; auto.
  intros row [acc d] [acc' d'] Hi IH Eb. cbn [fst] in *.
  rewrite packed_val_ok in Eb by (auto; lia). cbn [bind] in Eb.
  destruct (o_sum_add o s acc _) as [a1| |] eqn:Ea; cbn [bind] in Eb; try discriminate.
  destruct (poffset dbg l row col); cbn [bind] in Eb; try discriminate.
  destruct (bwrite d _ _); cbn [bind] in Eb; try discriminate. injection Eb as <- _.
  unfold col_sum in *. rewrite forto_snoc by lia. rewrite IH. cbn [bind]. exact Ea.
Qed.

Lemma run_pack_inv : forall {V} dbg (o : ops V) s kcols src p a b q,
  mat_ok src -> 0 <= a -> 0 <= pl_rows (p_layout p) -> run_pack dbg o s kcols src p a b = Ok q ->
  forall c, a <= c < b -> exists v, col_sum o s src (p_zp p) (pl_rows (p_layout p)) c = Ok v.
Proof.
  intros V dbg o s kcols src p a b q M Ha Hr E c Hc. unfold run_pack in E.
  destruct (i32 (b - a)); cbn [bind] in E; try discriminate.
  destruct (dcheck dbg _); cbn [bind] in E; try discriminate.
  apply bind_ok_pre in E. destruct E as [st E].
  destruct (forto_ok_body _ _ _ _ _ E c Hc) as ([d ss] & [d' ss'] & Eb).
  destruct (pack_column dbg o s src (p_layout p) (p_zp p) c d) as [r| |] eqn:Er; cbn [bind] in Eb; try discriminate.
  apply pack_column_inv in Er; eauto. lia.
Qed.
