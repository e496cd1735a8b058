(** The memcpy packing of row-major float matrices. *)
From Verif Require Import Base SidePair SizeUtil SizeUtilFacts Mat MatFacts Scalars Pack PackFacts.

Lemma bcopy_ok : forall {V} (d : buf V) doff (s : buf V) soff n,
  0 <= n -> 0 <= doff -> doff + n <= blen d -> 0 <= soff -> soff + n <= blen s ->
  exists d', bcopy d doff s soff n = Ok d' /\ blen d' = blen d /\
    forall j, bdat d' j = if (doff <=? j) && (j <? doff + n) then bdat s (soff + (j - doff)) else bdat d j.
Proof.
  intros V d doff s soff n Hn Hd Hdl Hs Hsl. unfold bcopy.
  destruct (forto_inv (fun i (x : buf V) => blen x = blen d /\
     forall j, bdat x j = if (doff <=? j) && (j <? doff + i) then bdat s (soff + (j - doff)) else bdat d j)
     (fun i d => v <- bread s (soff + i) ;; bwrite d (doff + i) v) 0 n d Hn) as (d' & E & H1 & H2).
  - split; auto. intros j. replace (_ && _) with false by lia. reflexivity.
  - intros i x Hi (H1 & H2). rewrite bread_ok by lia. cbn [bind].
    destruct (bwrite_ok x (doff + i) (bdat s (soff + i))) as (x' & E & Lx & Hx); [lia|].
    rewrite E. eexists. split; [reflexivity|]. split; [congruence|]. intros j. rewrite Hx.
    destruct (Z.eqb_spec j (doff + i)) as [->|Ne].
    + replace (_ && _) with true by lia. f_equal. lia.
    + rewrite H2. replace ((doff <=? j) && (j <? doff + (i + 1))) with ((doff <=? j) && (j <? doff + i)) by lia.
      reflexivity.
  - eauto.
Qed.

Lemma bzero_ok : forall {V} (z : V) (d : buf V) doff n,
  0 <= n -> 0 <= doff -> doff + n <= blen d ->
  exists d', bzero z d doff n = Ok d' /\ blen d' = blen d /\
    forall j, bdat d' j = if (doff <=? j) && (j <? doff + n) then z else bdat d j.
Proof.
  intros V z d doff n Hn Hd Hdl. unfold bzero.
  destruct (forto_inv (fun i (x : buf V) => blen x = blen d /\
     forall j, bdat x j = if (doff <=? j) && (j <? doff + i) then z else bdat d j)
     (fun i d => bwrite d (doff + i) z) 0 n d Hn) as (d' & E & H1 & H2).
  - split; auto. intros j. replace (_ && _) with false by lia. reflexivity.
  - intros i x Hi (H1 & H2).
    destruct (bwrite_ok x (doff + i) z) as (x' & E & Lx & Hx); [lia|].
    rewrite E. eexists. split; [reflexivity|]. split; [congruence|]. intros j. rewrite Hx.
    destruct (Z.eqb_spec j (doff + i)) as [->|Ne].
    + replace (_ && _) with true by lia. reflexivity.
    + rewrite H2. replace ((doff <=? j) && (j <? doff + (i + 1))) with ((doff <=? j) && (j <? doff + i)) by lia.
      reflexivity.
  - eauto.
Qed.

(** Layouts of a single row per kernel block, row-major. *)
Definition one_row_layout (l : pmat_layout) : Prop :=
  kl_rows (pl_kernel l) = 1 /\ kl_order (pl_kernel l) = RowMajor.

Lemma poff_one_row : forall l row col, one_row_layout l ->
  poff l row col = (col / kl_cols (pl_kernel l)) * (kl_cols (pl_kernel l) * pl_rows l) +
                   row * kl_cols (pl_kernel l) + col mod kl_cols (pl_kernel l).
Proof.
  intros l row col [E1 E2]. unfold poff. rewrite E1, E2. rewrite Z.div_1_r, Z.mod_1_r. lia.
Qed.

(** The cells of one packed row of one kernel block are consecutive. *)
Lemma poff_block : forall l row q i, one_row_layout l -> 0 < kl_cols (pl_kernel l) ->
  0 <= i < kl_cols (pl_kernel l) ->
  poff l row (q * kl_cols (pl_kernel l) + i) =
  q * (kl_cols (pl_kernel l) * pl_rows l) + row * kl_cols (pl_kernel l) + i.
Proof.
  intros l row q i O P Hi. rewrite poff_one_row by auto.
  rewrite Z.div_add_l, Z.div_small by lia. rewrite Z.add_comm with (n := q * _) at 1.
  rewrite Z_mod_plus_full, Z.mod_small by lia. lia.
Qed.

Lemma blk_idx : forall kc q j, 0 < kc -> q * kc <= j < q * kc + kc -> exists i, j = q * kc + i /\ 0 <= i < kc.
Proof. intros. exists (j - q * kc). lia. Qed.

Section Row.
Variables (V : Type) (src : mat V) (l : pmat_layout) (data0 : buf V) (r qa : Z).
Let kc := kl_cols (pl_kernel l).
Let a := qa * kc.
Hypotheses (M : mat_ok src) (Hord : ml_order (m_layout src) = RowMajor).
Hypotheses (L : playout_ok l) (O : one_row_layout l) (B : pl_rows l * pl_cols l <= blen data0).
Hypotheses (Hrows : pl_rows l = ml_rows (m_layout src)).
Hypotheses (Hr : 0 <= r < pl_rows l) (Hqa : 0 <= qa).

(** Row [r] after the first [w] columns of the range have been written. *)
Definition row_inv (w : Z) (d : buf V) : Prop :=
  blen d = blen data0 /\
  (forall c, a <= c < a + w -> bdat d (poff l r c) = ent src r c) /\
  (forall i, (forall c, a <= c < a + w -> i <> poff l r c) -> bdat d i = bdat data0 i).

Lemma kc_pos : 0 < kc.
Proof. apply (playout_kpos l L). Qed.

Lemma ent_row : forall c, ent src r c = bdat (m_data src) (r * ml_stride (m_layout src) + c).
Proof. intros. unfold ent, off. rewrite Hord. reflexivity. Qed.

Lemma quad_eq : forall {A} (x : A) (b b' c c' d d' : Z), b = b' -> c = c' -> d = d' -> (x, b, c, d) = (x, b', c', d').
Proof. intros; subst; reflexivity. Qed.

Lemma row_blocks : forall n, 0 <= n -> a + n * kc <= ml_cols (m_layout src) -> a + n * kc <= pl_cols l ->
  exists d, forto 0 n
    (fun _ '(data, pp, sp, col) =>
       data' <- bcopy data pp (m_data src) sp kc ;;
       d <- i32 (kc * pl_stride l) ;;
       Ok (data', pp + d, sp + kc, col + kc))
    (data0, pl_rows l * a + kc * r, r * ml_stride (m_layout src) + a, 0) =
    Ok (d, pl_rows l * (a + n * kc) + kc * r, r * ml_stride (m_layout src) + a + n * kc, n * kc) /\
    row_inv (n * kc) d.
Proof.
  intros n Hn Hsc Hpc. pose proof kc_pos as Pk.
  destruct (forto_inv (fun t (st : buf V * Z * Z * Z) =>
      exists d, st = (d, pl_rows l * (a + t * kc) + kc * r, r * ml_stride (m_layout src) + a + t * kc, t * kc) /\
        row_inv (t * kc) d)
    (fun _ '(data, pp, sp, col) =>
       data' <- bcopy data pp (m_data src) sp kc ;;
       d <- i32 (kc * pl_stride l) ;;
       Ok (data', pp + d, sp + kc, col + kc)) 0 n
    (data0, pl_rows l * a + kc * r, r * ml_stride (m_layout src) + a, 0) Hn) as (st & E & d & -> & I).
  - exists data0. split; [apply quad_eq; lia|]. repeat split; intros; auto; lia.
  - intros t st Ht (d & -> & (I1 & I2 & I3)).
    assert (Q : a + t * kc = (qa + t) * kc) by (unfold a; lia).
    assert (W : (qa + t) * kc + kc <= pl_cols l) by nia.
    assert (W2 : (qa + t) * kc + kc <= ml_cols (m_layout src)) by nia.
    assert (W3 : 0 <= (qa + t) * kc) by nia.
    pose proof (poff_range l r ((qa + t) * kc) L Hr ltac:(lia)) as R0.
    pose proof (poff_range l r ((qa + t) * kc + (kc - 1)) L Hr ltac:(lia)) as R1.
    pose proof (poff_block l r (qa + t) 0 O Pk ltac:(lia)) as P0. rewrite Z.add_0_r in P0.
    pose proof (poff_block l r (qa + t) (kc - 1) O Pk ltac:(fold kc; lia)) as P1.
    fold kc in P0, P1.
    assert (EPP : pl_rows l * (a + t * kc) + kc * r = poff l r ((qa + t) * kc)) by (rewrite P0, Q; lia).
    pose proof (mo_layout _ M) as ML. pose proof (mo_len _ M) as MB.
    pose proof (off_range _ r ((qa + t) * kc) ML ltac:(lia) ltac:(lia)) as S0.
    pose proof (off_range _ r ((qa + t) * kc + (kc - 1)) ML ltac:(lia) ltac:(lia)) as S1.
    unfold off in S0, S1. rewrite Hord in S0, S1.
    assert (ESP : r * ml_stride (m_layout src) + a + t * kc = r * ml_stride (m_layout src) + (qa + t) * kc) by lia.
    rewrite EPP, ESP.
    destruct (bcopy_ok d (poff l r ((qa + t) * kc)) (m_data src) (r * ml_stride (m_layout src) + (qa + t) * kc) kc)
      as (d' & Ed & Ld & Hd); try lia.
    rewrite Ed. cbn [bind].
    rewrite i32_ok.
    2: { pose proof (po_flat _ L). pose proof (po_rows _ L). rewrite (po_stride _ L).
         assert (kc * pl_rows l <= pl_rows l * pl_cols l) by nia. assert (0 <= kc * pl_rows l) by nia.
         unfold int_min, int_max in *. lia. }
    cbn [bind]. eexists. split; [reflexivity|]. exists d'. split.
    + rewrite (po_stride _ L). assert (poff l r ((qa + t) * kc) + kc * pl_rows l = pl_rows l * (a + (t + 1) * kc) + kc * r)
        by (rewrite <- EPP; lia). apply quad_eq; lia.
    + split; [congruence|]. split.
      * intros c Hc. rewrite Hd. destruct (Z_lt_ge_dec c (a + t * kc)) as [Hlt|Hge].
        -- replace (_ && _) with false; [apply I2; lia|].
           symmetry. apply andb_false_iff.
           destruct (Z_lt_ge_dec (poff l r c) (poff l r ((qa + t) * kc))); [left; lia|].
           right. apply Z.ltb_ge.
           destruct (Z_lt_ge_dec (poff l r c) (poff l r ((qa + t) * kc) + kc)); [|lia].
           exfalso. assert (X : poff l r c = poff l r ((qa + t) * kc + (poff l r c - poff l r ((qa + t) * kc)))).
           { rewrite poff_block by (auto; fold kc; lia). fold kc. lia. }
           apply poff_inj in X; auto; try lia.
        -- destruct (blk_idx kc (qa + t) c Pk ltac:(lia)) as (i & -> & Hi).
           rewrite poff_block by auto. fold kc. rewrite P0.
           replace (_ && _) with true by lia. rewrite ent_row. f_equal. lia.
      * intros i Hi. rewrite Hd.
        destruct ((poff l r ((qa + t) * kc) <=? i) && (i <? poff l r ((qa + t) * kc) + kc)) eqn:Ei.
        -- exfalso. apply (Hi ((qa + t) * kc + (i - poff l r ((qa + t) * kc)))); [lia|].
           rewrite poff_block by (auto; fold kc; lia). fold kc. lia.
        -- apply I3. intros c Hc. apply Hi. lia.
  - exists d. rewrite E. auto.
Qed.
End Row.

(** What the fast path stores: the source entry, or zero past the last column. *)
Definition fval {V} (zero : V) (src : mat V) (row col : Z) : V :=
  if col <? ml_cols (m_layout src) then ent src row col else zero.

Lemma memcpy_row_ok : forall {V} (zero : V) (src : mat V) l (data0 : buf V) r qa qb,
  let kc := kl_cols (pl_kernel l) in
  mat_ok src -> ml_order (m_layout src) = RowMajor -> playout_ok l -> one_row_layout l ->
  pl_rows l * pl_cols l <= blen data0 ->
  pl_rows l = ml_rows (m_layout src) -> pl_cols l < ml_cols (m_layout src) + kc ->
  0 <= r < pl_rows l -> 0 <= qa < qb -> qb * kc <= pl_cols l ->
  exists d,
   (a <- i32 (ml_stride (m_layout src) * r) ;;
    b <- i32 (pl_stride l * (qa * kc)) ;;
    c <- i32 (kc * r) ;;
    '(data1, pp, sp, col) <-
       memcpy_row_blocks kc (pl_stride l) (Z.min (qb * kc) (ml_cols (m_layout src)) - qa * kc)
         (m_data src) (data0, b + c, a + qa * kc, 0) ;;
    if 0 <? Z.min (qb * kc) (ml_cols (m_layout src)) - qa * kc - col then
       data2 <- bcopy data1 pp (m_data src) sp (Z.min (qb * kc) (ml_cols (m_layout src)) - qa * kc - col) ;;
       bzero zero data2 (pp + (Z.min (qb * kc) (ml_cols (m_layout src)) - qa * kc - col))
         (kc - (Z.min (qb * kc) (ml_cols (m_layout src)) - qa * kc - col))
    else Ok data1) = Ok d /\
   blen d = blen data0 /\
   (forall c, qa * kc <= c < qb * kc -> bdat d (poff l r c) = fval zero src r c) /\
   (forall i, (forall c, qa * kc <= c < qb * kc -> i <> poff l r c) -> bdat d i = bdat data0 i).
Proof.
  intros V zero src l data0 r qa qb kc M Hord L O B Hrows Hcols Hr Hq Hqb.
  pose proof (playout_kpos l L) as [_ Pk]. fold kc in Pk.
  pose proof (po_flat _ L) as F. pose proof (mo_layout _ M) as ML. pose proof (mo_len _ M) as MB.
  pose proof (lo_flat _ ML) as MF. rewrite Hord in MF. pose proof (lo_stride _ ML) as MS. rewrite Hord in MS.
  pose proof (lo_cols _ ML) as MC.
  assert (W0 : 0 <= qa * kc) by nia. assert (W1 : qa * kc + kc <= qb * kc) by nia.
  rewrite i32_ok by (unfold int_min, int_max in *; nia). cbn [bind].
  rewrite (po_stride _ L). rewrite i32_ok by (unfold int_min, int_max in *; nia). cbn [bind].
  rewrite i32_ok by (unfold int_min, int_max in *; nia). cbn [bind].
  set (sc := Z.min (qb * kc) (ml_cols (m_layout src)) - qa * kc).
  assert (Hsc : 0 < sc <= (qb - qa) * kc) by (unfold sc; nia).
  set (n := sc / kc).
  pose proof (Z.div_mod sc kc ltac:(lia)) as Dn. pose proof (Z.mod_pos_bound sc kc Pk) as Mn.
  assert (Hn : 0 <= n) by (apply Z.div_pos; lia). fold n in Dn.
  unfold memcpy_row_blocks. fold n.
  destruct (row_blocks V src l data0 r qa M Hord L O B Hrows Hr ltac:(lia) n Hn) as (d & E & I1 & I2 & I3).
  { fold kc. unfold sc in *. nia. } { fold kc. unfold sc in *. nia. }
  fold kc in E, I2, I3. rewrite (po_stride _ L) in E.
  replace (ml_stride (m_layout src) * r + qa * kc) with (r * ml_stride (m_layout src) + qa * kc) by lia.
  rewrite E. cbn [bind]. set (rem := sc - n * kc). assert (Hrem : rem = sc mod kc) by (unfold rem; lia).
  destruct (Z.ltb_spec 0 rem) as [Hpos|Hz].
  - (* the last, incomplete block *)
    assert (Elast : (qa + n + 1) * kc = qb * kc).
    { assert (ml_cols (m_layout src) < qb * kc).
      { destruct (Z_lt_ge_dec (ml_cols (m_layout src)) (qb * kc)); auto.
        assert (sc = (qb - qa) * kc) by (unfold sc; lia). rewrite H in Hrem. rewrite Z_mod_mult in Hrem. lia. }
      assert (sc = ml_cols (m_layout src) - qa * kc) by (unfold sc; lia).
      assert (qa + n + 1 = qb) by nia. nia. }
    assert (Hml : qa * kc + sc = ml_cols (m_layout src)).
    { unfold sc. destruct (Z_le_gt_dec (qb * kc) (ml_cols (m_layout src))); [|lia].
      exfalso. assert (sc = (qb - qa) * kc) by (unfold sc; lia). rewrite H in Hrem. rewrite Z_mod_mult in Hrem. lia. }
    set (q := qa + n). assert (Hq0 : 0 <= q) by (unfold q; lia). assert (Eq : qa * kc + n * kc = q * kc) by (unfold q; lia).
    assert (W3 : 0 <= q * kc) by nia. assert (Elq : q * kc + kc = qb * kc) by (unfold q; lia).
    pose proof (poff_range l r (q * kc) L Hr ltac:(lia)) as R0.
    pose proof (poff_range l r (q * kc + (kc - 1)) L Hr ltac:(lia)) as R1.
    pose proof (poff_block l r q 0 O Pk ltac:(lia)) as P0. rewrite Z.add_0_r in P0.
    pose proof (poff_block l r q (kc - 1) O Pk ltac:(fold kc; lia)) as P1. fold kc in P0, P1.
    rewrite Eq.
    replace (pl_rows l * (q * kc) + kc * r) with (poff l r (q * kc)) by (rewrite P0; lia).
    replace (r * ml_stride (m_layout src) + qa * kc + n * kc) with (r * ml_stride (m_layout src) + q * kc) by lia.
    assert (Hce : q * kc + rem = ml_cols (m_layout src)) by (unfold rem; lia).
    pose proof (off_range _ r (q * kc) ML ltac:(lia) ltac:(lia)) as S0.
    pose proof (off_range _ r (q * kc + (rem - 1)) ML ltac:(lia) ltac:(lia)) as S1.
    unfold off in S0, S1. rewrite Hord in S0, S1.
    destruct (bcopy_ok d (poff l r (q * kc)) (m_data src) (r * ml_stride (m_layout src) + q * kc) rem)
      as (d1 & Ed1 & Ld1 & Hd1); try lia.
    rewrite Ed1. cbn [bind].
    destruct (bzero_ok zero d1 (poff l r (q * kc) + rem) (kc - rem)) as (d2 & Ed2 & Ld2 & Hd2); try lia.
    rewrite Ed2. eexists. split; [reflexivity|]. split; [congruence|]. split.
    + intros c Hc. rewrite Hd2, Hd1. destruct (Z_lt_ge_dec c (q * kc)) as [Hlt|Hge].
      * assert (Nin : poff l r c < poff l r (q * kc) \/ poff l r (q * kc) + kc <= poff l r c).
        { destruct (Z_lt_ge_dec (poff l r c) (poff l r (q * kc))); [auto|].
          destruct (Z_lt_ge_dec (poff l r c) (poff l r (q * kc) + kc)); [|lia].
          exfalso. assert (X : poff l r c = poff l r (q * kc + (poff l r c - poff l r (q * kc)))).
          { rewrite poff_block by (auto; fold kc; lia). fold kc. lia. }
          apply poff_inj in X; auto; try lia. }
        replace (_ && _) with false by lia. replace (_ && _) with false by lia.
        rewrite I2 by lia. unfold fval. replace (c <? _) with true by lia. reflexivity.
      * destruct (blk_idx kc q c Pk ltac:(lia)) as (i & -> & Hi).
        rewrite poff_block by auto. fold kc. rewrite P0. unfold fval.
        destruct (Z_lt_ge_dec i rem) as [Hir|Hir].
        -- replace (_ && _) with false by lia. replace (_ && _) with true by lia.
           replace (q * kc + i <? _) with true by lia. rewrite ent_row by auto. f_equal. lia.
        -- replace (_ && _) with true by lia. replace (q * kc + i <? _) with false by lia. reflexivity.
    + intros i Hi. rewrite Hd2, Hd1.
      assert (Nin : i < poff l r (q * kc) \/ poff l r (q * kc) + kc <= i).
      { destruct (Z_lt_ge_dec i (poff l r (q * kc))); [auto|].
        destruct (Z_lt_ge_dec i (poff l r (q * kc) + kc)); [|lia].
        exfalso. apply (Hi (q * kc + (i - poff l r (q * kc)))); [lia|].
        rewrite poff_block by (auto; fold kc; lia). fold kc. lia. }
      replace (_ && _) with false by lia. replace (_ && _) with false by lia.
      apply I3. intros c Hc. apply Hi. lia.
  - (* all blocks complete *)
    assert (Esc : sc = n * kc) by lia.
    assert (Eqb : qa * kc + n * kc = qb * kc).
    { destruct (Z_le_gt_dec (qb * kc) (ml_cols (m_layout src))); [unfold sc in *; lia|].
      exfalso. assert (X : qa * kc + n * kc = ml_cols (m_layout src)) by (unfold sc in *; lia).
      assert (qa + n < qb) by nia. assert ((qa + n + 1) * kc <= qb * kc) by nia. lia. }
    exists d. split; [reflexivity|]. split; [auto|]. rewrite <- Eqb. split; [|exact I3].
    intros c Hc. rewrite I2 by lia. unfold fval. replace (c <? _) with true; [reflexivity|].
    unfold sc in *; lia.
Qed.

Lemma memcpy_pack_ok : forall {V} dbg (zero : V) (src : mat V) (p : pmat V) qa qb,
  let l := p_layout p in let kc := kl_cols (pl_kernel l) in
  mat_ok src -> ml_order (m_layout src) = RowMajor -> pmat_ok p -> one_row_layout l ->
  pl_rows l = ml_rows (m_layout src) -> pl_cols l < ml_cols (m_layout src) + kc ->
  0 <= qa < qb -> qb * kc <= pl_cols l ->
  exists q, memcpy_pack dbg zero kc src p (qa * kc) (qb * kc) = Ok q /\
    p_layout q = p_layout p /\ p_zp q = p_zp p /\ p_sums q = p_sums p /\ blen (p_data q) = blen (p_data p) /\
    (forall row c, 0 <= row < pl_rows l -> qa * kc <= c < qb * kc ->
        bdat (p_data q) (poff l row c) = fval zero src row c) /\
    (forall i, (forall row c, 0 <= row < pl_rows l -> qa * kc <= c < qb * kc -> i <> poff l row c) ->
        bdat (p_data q) i = bdat (p_data p) i).
Proof.
  intros V dbg zero src p qa qb l kc M Hord PM O Hrows Hcols Hq Hqb.
  pose proof (pmo_layout _ PM) as L. fold l in L. destruct (playout_kpos l L) as [_ Pk]. fold kc in Pk.
  unfold memcpy_pack. fold l. rewrite Hord, (po_order _ L). cbn [order_eqb].
  rewrite !dcheck_ok by reflexivity. cbn [bind].
  rewrite dcheck_ok by (rewrite Z.rem_mul by lia; reflexivity). cbn [bind].
  set (body := fun block_row data => _).
  destruct (forto_inv (fun r (d : buf V) => blen d = blen (p_data p) /\
     (forall row c, 0 <= row < r -> qa * kc <= c < qb * kc -> bdat d (poff l row c) = fval zero src row c) /\
     (forall i, (forall row c, 0 <= row < r -> qa * kc <= c < qb * kc -> i <> poff l row c) ->
        bdat d i = bdat (p_data p) i)) body 0 (ml_rows (m_layout src)) (p_data p)) as (d & E & H1 & H2 & H3).
  - apply (lo_rows _ (mo_layout _ M)).
  - repeat split; auto; intros; lia.
  - intros r d Hr (H1 & H2 & H3).
    assert (W0 : 0 <= qa * kc) by nia.
    destruct (memcpy_row_ok zero src l d r qa qb M Hord L O) as (d' & E & L' & A & F); auto; try lia.
    { rewrite H1. apply (pmo_len _ PM). }
    fold kc in E, A, F. exists d'. split; [exact E|]. split; [congruence|]. split.
    + intros row c Hrow Hc. destruct (Z.eq_dec row r) as [->|Ne]; [auto|].
      rewrite F; [apply H2; auto; lia|]. intros c' Hc' X. apply poff_inj in X; auto; lia.
    + intros i Hi. rewrite F; [|intros; apply Hi; auto; lia]. apply H3. intros. apply Hi; auto; lia.
  - rewrite E. cbn [bind]. eexists. split; [reflexivity|]. cbn [p_data p_layout p_zp p_sums].
    rewrite Hrows. repeat split; auto.
Qed.
