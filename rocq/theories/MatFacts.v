(** Lemmas about layouts, offsets and buffers. *)
From Verif Require Import Base SidePair SizeUtil SizeUtilFacts Mat.

(** * Loops *)

Lemma forr_inv : forall {S} (P : Z -> S -> Prop) body n a s,
  P a s ->
  (forall i s, a <= i < a + Z.of_nat n -> P i s -> exists s', body i s = Ok s' /\ P (i + 1) s') ->
  exists s', forr n a body s = Ok s' /\ P (a + Z.of_nat n) s'.
Proof.
  intros S P body. induction n as [|n IH]; intros a s H0 Hstep.
  - exists s. cbn. rewrite Z.add_0_r. auto.
  - destruct (Hstep a s ltac:(lia) H0) as (s1 & E1 & H1).
    cbn [forr]. rewrite E1. cbn [bind].
    destruct (IH (a + 1) s1 H1) as (s2 & E2 & H2).
    { intros i s' Hi. apply Hstep. lia. }
    exists s2. split; auto. replace (a + Z.of_nat (Datatypes.S n)) with (a + 1 + Z.of_nat n) by lia. auto.
Qed.

Lemma forto_inv : forall {S} (P : Z -> S -> Prop) body a b s, a <= b ->
  P a s ->
  (forall i s, a <= i < b -> P i s -> exists s', body i s = Ok s' /\ P (i + 1) s') ->
  exists s', forto a b body s = Ok s' /\ P b s'.
Proof.
  intros S P body a b s Hab H0 Hstep. unfold forto.
  destruct (forr_inv P body (Z.to_nat (b - a)) a s H0) as (s' & E & H).
  { intros. apply Hstep; auto. lia. }
  exists s'. split; auto. replace b with (a + Z.of_nat (Z.to_nat (b - a))) by lia. auto.
Qed.

Lemma forto_empty : forall {S} a b (body : Z -> S -> res S) s, b <= a -> forto a b body s = Ok s.
Proof. intros. unfold forto. replace (Z.to_nat (b - a)) with 0%nat by lia. reflexivity. Qed.

Lemma forto_step : forall {S} a b (body : Z -> S -> res S) s, a < b ->
  forto a b body s = (s' <- body a s ;; forto (a + 1) b body s').
Proof.
  intros. unfold forto. replace (Z.to_nat (b - a)) with (Datatypes.S (Z.to_nat (b - (a + 1)))) by lia.
  reflexivity.
Qed.

Lemma forr_snoc : forall {S} n a (body : Z -> S -> res S) s,
  forr (Datatypes.S n) a body s = (s' <- forr n a body s ;; body (a + Z.of_nat n) s').
Proof.
  intros S. induction n as [|n IH]; intros a body s.
  - cbn. rewrite Z.add_0_r. destruct (body a s); reflexivity.
  - change (forr (Datatypes.S (Datatypes.S n)) a body s)
      with (s' <- body a s ;; forr (Datatypes.S n) (a + 1) body s').
    change (forr (Datatypes.S n) a body s) with (s' <- body a s ;; forr n (a + 1) body s').
    destruct (body a s) as [s1| |]; try reflexivity. unfold bind at 1 3.
    rewrite IH. replace (a + 1 + Z.of_nat n) with (a + Z.of_nat (Datatypes.S n)) by lia. reflexivity.
Qed.

Lemma forto_snoc : forall {S} a b (body : Z -> S -> res S) s, a <= b ->
  forto a (b + 1) body s = (s' <- forto a b body s ;; body b s').
Proof.
  intros. unfold forto. replace (Z.to_nat (b + 1 - a)) with (Datatypes.S (Z.to_nat (b - a))) by lia.
  rewrite forr_snoc. replace (a + Z.of_nat (Z.to_nat (b - a))) with b by lia. reflexivity.
Qed.

Lemma forr_ext : forall {S} n a (f g : Z -> S -> res S) s,
  (forall i s, a <= i < a + Z.of_nat n -> f i s = g i s) -> forr n a f s = forr n a g s.
Proof.
  intros S. induction n as [|n IH]; intros a f g s H; [reflexivity|].
  cbn [forr]. rewrite H by lia. destruct (g a s); try reflexivity. cbn [bind]. apply IH.
  intros. apply H. lia.
Qed.

Lemma forto_ext : forall {S} a b (f g : Z -> S -> res S) s,
  (forall i s, a <= i < b -> f i s = g i s) -> forto a b f s = forto a b g s.
Proof.
  intros S a b f g s H. destruct (Z_le_gt_dec a b).
  - apply forr_ext. intros. apply H. lia.
  - rewrite !forto_empty by lia. reflexivity.
Qed.

(** In a successful loop every iteration is successful. *)
Lemma forto_ok_ind : forall {S} (P : Z -> S -> Prop) body a b s s', a <= b ->
  P a s -> (forall i s s', a <= i < b -> P i s -> body i s = Ok s' -> P (i + 1) s') ->
  forto a b body s = Ok s' -> P b s'.
Proof.
  intros S P body a b s s' Hab H0 Hs. remember (Z.to_nat (b - a)) as n eqn:En.
  revert b s' Hab En Hs. induction n as [|n IH]; intros b s' Hab En Hs E.
  - assert (b = a) by lia. subst b. rewrite forto_empty in E by lia. congruence.
  - replace b with ((b - 1) + 1) in E |- * by lia. rewrite forto_snoc in E by lia.
    destruct (forto a (b - 1) body s) as [s1| |] eqn:E1; cbn [bind] in E; try discriminate.
    apply (Hs (b - 1) s1 s'); [lia| |exact E].
    apply (IH (b - 1) s1); [lia|lia| |exact E1]. intros i x y Hi. apply Hs. lia.
Qed.

Lemma forto_ok_body : forall {S} (body : Z -> S -> res S) a b s s',
  forto a b body s = Ok s' -> forall i, a <= i < b -> exists x y, body i x = Ok y.
Proof.
  intros S body a b s s' E i Hi.
  apply (forto_ok_ind (fun k (_ : S) => forall i, a <= i < k -> exists x y, body i x = Ok y) body a b s s');
    [lia|intros; lia| |exact E|exact Hi].
  intros k x y Hk IH Ek j Hj. destruct (Z.eq_dec j k) as [->|N]; [eauto|]. apply IH. lia.
Qed.

(** * Buffers *)

Lemma bread_ok : forall {V} (b : buf V) i, 0 <= i < blen b -> bread b i = Ok (bdat b i).
Proof. intros. unfold bread. replace (_ && _) with true by lia. reflexivity. Qed.

Lemma bread_inv : forall {V} (b : buf V) i v, bread b i = Ok v -> 0 <= i < blen b /\ v = bdat b i.
Proof. intros V b i v. unfold bread. destruct (_ && _) eqn:E; [|discriminate]. intros [= <-]. split; auto; lia. Qed.

Lemma bwrite_ok : forall {V} (b : buf V) i v, 0 <= i < blen b ->
  exists b', bwrite b i v = Ok b' /\ blen b' = blen b /\
    forall j, bdat b' j = if j =? i then v else bdat b j.
Proof.
  intros. unfold bwrite. replace (_ && _) with true by lia. eexists. split; [reflexivity|]. auto.
Qed.

(** * Offsets *)

(** A layout whose entries all have distinct non-negative int offsets. *)
Record layout_ok (l : mat_layout) : Prop := {
  lo_rows : 0 <= ml_rows l;
  lo_cols : 0 <= ml_cols l;
  lo_stride : match ml_order l with ColMajor => ml_rows l | RowMajor => ml_cols l end <= ml_stride l;
  lo_flat : ml_stride l * match ml_order l with ColMajor => ml_cols l | RowMajor => ml_rows l end <= int_max
}.

Definition off (l : mat_layout) (row col : Z) : Z :=
  match ml_order l with ColMajor => row + col * ml_stride l | RowMajor => row * ml_stride l + col end.

Definition flat (l : mat_layout) : Z :=
  ml_stride l * match ml_order l with ColMajor => ml_cols l | RowMajor => ml_rows l end.

Lemma off_range : forall l row col, layout_ok l -> 0 <= row < ml_rows l -> 0 <= col < ml_cols l ->
  0 <= off l row col < flat l.
Proof.
  intros l row col [H1 H2 H3 H4] Hr Hc. unfold off, flat in *. destruct (ml_order l); nia.
Qed.

Lemma offset_ok : forall l row col, layout_ok l -> 0 <= row < ml_rows l -> 0 <= col < ml_cols l ->
  offset l row col = Ok (off l row col).
Proof.
  intros l row col L Hr Hc. pose proof (off_range l row col L Hr Hc) as R.
  destruct L as [H1 H2 H3 H4]. unfold offset, off, flat in *. unfold int_max in *.
  destruct (ml_order l).
  - rewrite i32_ok by (unfold int_min, int_max; nia). cbn [bind].
    rewrite i32_ok by (unfold int_min, int_max; nia). cbn [bind].
    rewrite i32_ok by (unfold int_min, int_max; nia). f_equal; lia.
  - rewrite i32_ok by (unfold int_min, int_max; nia). cbn [bind].
    rewrite i32_ok by (unfold int_min, int_max; nia). cbn [bind].
    rewrite i32_ok by (unfold int_min, int_max; nia). f_equal; lia.
Qed.

Lemma off_inj : forall l r c r' c', layout_ok l ->
  0 <= r < ml_rows l -> 0 <= c < ml_cols l -> 0 <= r' < ml_rows l -> 0 <= c' < ml_cols l ->
  off l r c = off l r' c' -> r = r' /\ c = c'.
Proof.
  intros l r c r' c' [H1 H2 H3 H4] Hr Hc Hr' Hc'. unfold off in *.
  destruct (ml_order l); intros E.
  - assert (c = c') by nia. subst. split; lia.
  - assert (r = r') by nia. subst. split; lia.
Qed.

Lemma off_transpose : forall l r c, off (transpose_layout l) r c = off l c r.
Proof. intros l r c. unfold off, transpose_layout; cbn. destruct (ml_order l); cbn; lia. Qed.

Lemma flat_transpose : forall l, flat (transpose_layout l) = flat l.
Proof. intros l. unfold flat, transpose_layout; cbn. destruct (ml_order l); reflexivity. Qed.

Lemma layout_ok_transpose : forall l, layout_ok l -> layout_ok (transpose_layout l).
Proof.
  intros l [H1 H2 H3 H4]. constructor; unfold transpose_layout; cbn; auto; destruct (ml_order l); cbn; auto.
Qed.

(** * Packed offsets *)

Record playout_ok (l : pmat_layout) : Prop := {
  po_krows : exists k, 0 <= k /\ kl_rows (pl_kernel l) = 2 ^ k;
  po_kcols : exists k, 0 <= k /\ kl_cols (pl_kernel l) = 2 ^ k;
  po_rows : 0 <= pl_rows l;
  po_cols : 0 <= pl_cols l;
  po_rows_al : pl_rows l mod kl_rows (pl_kernel l) = 0;
  po_cols_al : pl_cols l mod kl_cols (pl_kernel l) = 0;
  po_order : pl_order l = ColMajor;
  po_stride : pl_stride l = pl_rows l;
  po_flat : pl_rows l * pl_cols l <= int_max
}.

(** Column-major blocks of [krows x kcols], each block in its own order. *)
Definition poff (l : pmat_layout) (row col : Z) : Z :=
  let kr := kl_rows (pl_kernel l) in let kc := kl_cols (pl_kernel l) in
  (col / kc) * (kc * pl_rows l) + (row / kr) * (kr * kc) +
  match kl_order (pl_kernel l) with
  | ColMajor => (col mod kc) * kr + row mod kr
  | RowMajor => (row mod kr) * kc + col mod kc
  end.

Lemma playout_kpos : forall l, playout_ok l -> 0 < kl_rows (pl_kernel l) /\ 0 < kl_cols (pl_kernel l).
Proof.
  intros l L. destruct (po_krows _ L) as (a & Ha & ->). destruct (po_kcols _ L) as (b & Hb & ->).
  split; apply pow2_pos; auto.
Qed.

Lemma inner_bound : forall kr kc r c o, 0 <= r < kr -> 0 <= c < kc ->
  0 <= (match o with ColMajor => c * kr + r | RowMajor => r * kc + c end) < kr * kc.
Proof. intros kr kc r c []; nia. Qed.

Lemma inner_inj : forall kr kc r c r' c' o, 0 <= r < kr -> 0 <= c < kc -> 0 <= r' < kr -> 0 <= c' < kc ->
  (match o with ColMajor => c * kr + r | RowMajor => r * kc + c end) =
  (match o with ColMajor => c' * kr + r' | RowMajor => r' * kc + c' end) -> r = r' /\ c = c'.
Proof.
  intros kr kc r c r' c' [] Hr Hc Hr' Hc' E.
  - assert (c = c') by nia. subst. split; lia.
  - assert (r = r') by nia. subst. split; lia.
Qed.

(** Mixed-radix decomposition: a block of columns, a block of rows, an inner offset. *)
Lemma poff_bounds : forall l row col, playout_ok l -> 0 <= row < pl_rows l -> 0 <= col ->
  let kc := kl_cols (pl_kernel l) in
  (col / kc) * (kc * pl_rows l) <= poff l row col < (col / kc) * (kc * pl_rows l) + kc * pl_rows l.
Proof.
  intros l row col L Hr Hc kc. destruct (playout_kpos l L) as [Pr Pc]. fold kc in Pc.
  unfold poff. fold kc. set (kr := kl_rows (pl_kernel l)) in *.
  pose proof (Z.mod_pos_bound col kc Pc) as Mc. pose proof (Z.mod_pos_bound row kr Pr) as Mr.
  pose proof (inner_bound kr kc (row mod kr) (col mod kc) (kl_order (pl_kernel l)) Mr Mc) as I.
  set (inn := match kl_order (pl_kernel l) with ColMajor => _ | RowMajor => _ end) in *.
  pose proof (Z.div_mod (pl_rows l) kr ltac:(lia)) as D. unfold kr in D at 3. rewrite (po_rows_al _ L) in D.
  fold kr in D.
  assert (B : 0 <= row / kr < pl_rows l / kr).
  { split; [apply Z.div_pos; lia|]. apply Z.div_lt_upper_bound; lia. }
  set (q := row / kr) in *. set (Q := pl_rows l / kr) in *. clearbody inn q Q.
  set (cb := col / kc * (kc * pl_rows l)). clearbody cb. rewrite D. nia.
Qed.

Lemma poff_range : forall l row col, playout_ok l -> 0 <= row < pl_rows l -> 0 <= col < pl_cols l ->
  0 <= poff l row col < pl_rows l * pl_cols l.
Proof.
  intros l row col L Hr Hc. pose proof (poff_bounds l row col L Hr ltac:(lia)) as B. cbv zeta in B.
  destruct (playout_kpos l L) as [Pr Pc]. set (kc := kl_cols (pl_kernel l)) in *.
  pose proof (Z.div_mod (pl_cols l) kc ltac:(lia)) as D. unfold kc in D at 3. rewrite (po_cols_al _ L) in D.
  fold kc in D.
  assert (0 <= col / kc < pl_cols l / kc).
  { split; [apply Z.div_pos; lia|]. apply Z.div_lt_upper_bound; lia. }
  set (q := col / kc) in *. set (Q := pl_cols l / kc) in *. clearbody q Q.
  rewrite D. assert (0 <= kc * pl_rows l) by nia. nia.
Qed.

Lemma divmod_ext : forall a b k, 0 < k -> a / k = b / k -> a mod k = b mod k -> a = b.
Proof.
  intros a b k Hk E1 E2. rewrite (Z.div_mod a k), (Z.div_mod b k) by lia. rewrite E1, E2. reflexivity.
Qed.

Lemma radix_inj : forall m a b r s, 0 <= r < m -> 0 <= s < m -> a * m + r = b * m + s -> a = b /\ r = s.
Proof. intros m a b r s Hr Hs E. assert (a = b) by nia. subst. split; lia. Qed.

Lemma poff_inj : forall l r c r' c', playout_ok l ->
  0 <= r < pl_rows l -> 0 <= c -> 0 <= r' < pl_rows l -> 0 <= c' ->
  poff l r c = poff l r' c' -> r = r' /\ c = c'.
Proof.
  intros l r c r' c' L Hr Hc Hr' Hc' E. destruct (playout_kpos l L) as [Pr Pc].
  pose proof (poff_bounds l r c L Hr Hc) as B. pose proof (poff_bounds l r' c' L Hr' Hc') as B'.
  cbv zeta in B, B'.
  set (kc := kl_cols (pl_kernel l)) in *.
  assert (Ec : c / kc = c' / kc) by nia.
  unfold poff in E. fold kc in E. rewrite Ec in E.
  set (kr := kl_rows (pl_kernel l)) in *.
  pose proof (Z.mod_pos_bound c kc Pc) as Mc. pose proof (Z.mod_pos_bound r kr Pr) as Mr.
  pose proof (Z.mod_pos_bound c' kc Pc) as Mc'. pose proof (Z.mod_pos_bound r' kr Pr) as Mr'.
  pose proof (inner_bound kr kc _ _ (kl_order (pl_kernel l)) Mr Mc) as I.
  pose proof (inner_bound kr kc _ _ (kl_order (pl_kernel l)) Mr' Mc') as I'.
  destruct (radix_inj (kr * kc) (r / kr) (r' / kr) _ _ I I' ltac:(lia)) as [Er Ei].
  destruct (inner_inj kr kc _ _ _ _ _ Mr Mc Mr' Mc' Ei) as [E1 E2].
  split; [apply (divmod_ext r r' kr)|apply (divmod_ext c c' kc)]; auto.
Qed.

Lemma poffset_ok : forall dbg l row col, playout_ok l -> 0 <= row < pl_rows l -> 0 <= col < pl_cols l ->
  poffset dbg l row col = Ok (poff l row col).
Proof.
  intros dbg l row col L Hr Hc.
  pose proof (poff_range l row col L Hr Hc) as R. pose proof (po_flat _ L) as F.
  pose proof (playout_kpos l L) as [Pr Pc].
  unfold poffset. destruct (po_krows _ L) as (a & Ha & Ea). destruct (po_kcols _ L) as (b & Hb & Eb).
  rewrite (po_order _ L), (po_stride _ L).
  rewrite (dcheck_ok dbg (is_pot (kl_rows (pl_kernel l)))) by (rewrite Ea; apply is_pot_pow2; auto).
  rewrite (dcheck_ok dbg (is_pot (kl_cols (pl_kernel l)))) by (rewrite Eb; apply is_pot_pow2; auto).
  cbn [bind].
  assert (LR : Z.land row (Z.lnot (kl_rows (pl_kernel l) - 1)) =
               row / kl_rows (pl_kernel l) * kl_rows (pl_kernel l)).
  { rewrite Ea. rewrite land_lnot_pow2 by auto. lia. }
  assert (LC : Z.land col (Z.lnot (kl_cols (pl_kernel l) - 1)) =
               col / kl_cols (pl_kernel l) * kl_cols (pl_kernel l)).
  { rewrite Eb. rewrite land_lnot_pow2 by auto. lia. }
  rewrite LR, LC. clear LR LC Ea Eb.
  unfold poff in *. set (kr := kl_rows (pl_kernel l)) in *. set (kc := kl_cols (pl_kernel l)) in *.
  pose proof (Z.div_mod row kr ltac:(lia)) as Dr. pose proof (Z.div_mod col kc ltac:(lia)) as Dc.
  pose proof (Z.mod_pos_bound col kc Pc) as Mc. pose proof (Z.mod_pos_bound row kr Pr) as Mr.
  pose proof (inner_bound kr kc _ _ (kl_order (pl_kernel l)) Mr Mc) as I.
  replace (row - row / kr * kr) with (row mod kr) by lia.
  replace (col - col / kc * kc) with (col mod kc) by lia.
  assert (0 <= row / kr) by (apply Z.div_pos; lia). assert (0 <= col / kc) by (apply Z.div_pos; lia).
  set (qr := row / kr) in *. set (qc := col / kc) in *. set (mr := row mod kr) in *. set (mc := col mod kc) in *.
  assert (A1 : 0 <= qr * (kr * kc)) by (apply Z.mul_nonneg_nonneg; nia).
  assert (A2 : 0 <= qc * (kc * pl_rows l)) by (apply Z.mul_nonneg_nonneg; nia).
  replace (qr * kr * kc) with (qr * (kr * kc)) by lia.
  replace (qc * kc * pl_rows l) with (qc * (kc * pl_rows l)) by lia.
  set (A := qr * (kr * kc)) in *. set (B := qc * (kc * pl_rows l)) in *.
  set (F0 := pl_rows l * pl_cols l) in *.
  clearbody A B F0. unfold int_max in F.
  destruct (kl_order (pl_kernel l)).
  - assert (0 <= mc * kr) by nia.
    set (X := mc * kr) in *. clearbody X. clear - A1 A2 R F I Mr H1.
    rewrite i32_ok by (unfold int_min, int_max; lia). cbn [bind].
    rewrite i32_ok by (unfold int_min, int_max; lia). cbn [bind].
    rewrite i32_ok by (unfold int_min, int_max; lia). cbn [bind].
    rewrite i32_ok by (unfold int_min, int_max; lia). cbn [bind].
    rewrite i32_ok by (unfold int_min, int_max; lia). cbn [bind].
    rewrite i32_ok by (unfold int_min, int_max; lia). cbn [bind].
    rewrite i32_ok by (unfold int_min, int_max; lia). f_equal. lia.
  - assert (0 <= mr * kc) by nia.
    set (X := mr * kc) in *. clearbody X. clear - A1 A2 R F I Mc H1.
    rewrite i32_ok by (unfold int_min, int_max; lia). cbn [bind].
    rewrite i32_ok by (unfold int_min, int_max; lia). cbn [bind].
    rewrite i32_ok by (unfold int_min, int_max; lia). cbn [bind].
    rewrite i32_ok by (unfold int_min, int_max; lia). cbn [bind].
    rewrite i32_ok by (unfold int_min, int_max; lia). cbn [bind].
    rewrite i32_ok by (unfold int_min, int_max; lia). cbn [bind].
    rewrite i32_ok by (unfold int_min, int_max; lia). f_equal. lia.
Qed.

(** The inverse of [poff]: every cell of the packed buffer is some entry. *)
Lemma poff_surj : forall l o, playout_ok l -> 0 <= o < pl_rows l * pl_cols l ->
  exists row col, 0 <= row < pl_rows l /\ 0 <= col < pl_cols l /\ poff l row col = o.
Proof.
  intros l o L Ho. destruct (playout_kpos l L) as [Pr Pc].
  pose proof (po_rows_al _ L) as Ar. pose proof (po_cols_al _ L) as Ac.
  pose proof (po_rows _ L) as Rr. pose proof (po_cols _ L) as Rc.
  unfold poff.
  set (kr := kl_rows (pl_kernel l)) in *. set (kc := kl_cols (pl_kernel l)) in *.
  set (R := pl_rows l) in *. set (C := pl_cols l) in *. set (ord := kl_order (pl_kernel l)).
  clearbody kr kc R C ord. clear L l.
  assert (HR : 0 < R) by nia.
  pose proof (Z.div_mod R kr ltac:(lia)) as DR. rewrite Ar in DR.
  pose proof (Z.div_mod C kc ltac:(lia)) as DC. rewrite Ac in DC.
  set (QR := R / kr) in *. set (QC := C / kc) in *. clearbody QR QC.
  assert (W : 0 < kc * R) by nia.
  pose proof (Z.div_mod o (kc * R) ltac:(lia)) as D1. pose proof (Z.mod_pos_bound o (kc * R) W) as M1.
  assert (B1 : 0 <= o / (kc * R) < QC).
  { split; [apply Z.div_pos; lia|]. apply Z.div_lt_upper_bound; nia. }
  set (cb := o / (kc * R)) in *. set (o1 := o mod (kc * R)) in *. clearbody cb o1.
  assert (W2 : 0 < kr * kc) by nia.
  pose proof (Z.div_mod o1 (kr * kc) ltac:(lia)) as D2. pose proof (Z.mod_pos_bound o1 (kr * kc) W2) as M2.
  assert (B2 : 0 <= o1 / (kr * kc) < QR).
  { split; [apply Z.div_pos; lia|]. apply Z.div_lt_upper_bound; nia. }
  set (rb := o1 / (kr * kc)) in *. set (o2 := o1 mod (kr * kc)) in *. clearbody rb o2.
  assert (I : exists ri ci, 0 <= ri < kr /\ 0 <= ci < kc /\
     (match ord with ColMajor => ci * kr + ri | RowMajor => ri * kc + ci end) = o2).
  { destruct ord.
    - exists (o2 mod kr), (o2 / kr). pose proof (Z.mod_pos_bound o2 kr Pr). pose proof (Z.div_mod o2 kr ltac:(lia)).
      split; [lia|]. split; [|lia]. split; [apply Z.div_pos; lia|apply Z.div_lt_upper_bound; lia].
    - exists (o2 / kc), (o2 mod kc). pose proof (Z.mod_pos_bound o2 kc Pc). pose proof (Z.div_mod o2 kc ltac:(lia)).
      split; [|split; [lia|lia]]. split; [apply Z.div_pos; lia|apply Z.div_lt_upper_bound; lia]. }
  destruct I as (ri & ci & Hri & Hci & Ei).
  exists (rb * kr + ri), (cb * kc + ci).
  assert (E1 : (rb * kr + ri) / kr = rb) by (rewrite Z.div_add_l, Z.div_small by lia; lia).
  assert (E2 : (rb * kr + ri) mod kr = ri) by (rewrite Z.add_comm, Z_mod_plus_full, Z.mod_small by lia; lia).
  assert (E3 : (cb * kc + ci) / kc = cb) by (rewrite Z.div_add_l, Z.div_small by lia; lia).
  assert (E4 : (cb * kc + ci) mod kc = ci) by (rewrite Z.add_comm, Z_mod_plus_full, Z.mod_small by lia; lia).
  rewrite E1, E2, E3, E4, Ei.
  split; [|split].
  - clear - DR B2 Hri. rewrite DR. assert ((rb + 1) * kr <= QR * kr) by (apply Z.mul_le_mono_nonneg_r; lia).
    assert (0 <= rb * kr) by (apply Z.mul_nonneg_nonneg; lia). lia.
  - clear - DC B1 Hci. rewrite DC. assert ((cb + 1) * kc <= QC * kc) by (apply Z.mul_le_mono_nonneg_r; lia).
    assert (0 <= cb * kc) by (apply Z.mul_nonneg_nonneg; lia). lia.
  - lia.
Qed.

(** A kernel-aligned range of columns occupies a contiguous range of cells. *)
Lemma poff_region : forall l a b row col, playout_ok l ->
  a mod kl_cols (pl_kernel l) = 0 -> b mod kl_cols (pl_kernel l) = 0 ->
  0 <= a -> 0 <= row < pl_rows l -> a <= col < b ->
  a * pl_rows l <= poff l row col < b * pl_rows l.
Proof.
  intros l a b row col L Ha Hb Ha0 Hr Hc. destruct (playout_kpos l L) as [Pr Pc].
  pose proof (poff_bounds l row col L Hr ltac:(lia)) as B. cbv zeta in B.
  set (kc := kl_cols (pl_kernel l)) in *.
  pose proof (Z.div_mod a kc ltac:(lia)) as Da. rewrite Ha in Da.
  pose proof (Z.div_mod b kc ltac:(lia)) as Db. rewrite Hb in Db.
  assert (a / kc <= col / kc) by (apply Z.div_le_mono; lia).
  assert (col / kc < b / kc) by (apply Z.div_lt_upper_bound; lia).
  set (x := poff l row col) in *. clearbody x. set (q := col / kc) in *. set (qa := a / kc) in *. set (qb := b / kc) in *.
  clearbody q qa qb. set (R := pl_rows l) in *.
  assert (0 <= kc * R) by nia. rewrite Da, Db. nia.
Qed.

Lemma poff_region_onto : forall l a b o, playout_ok l ->
  a mod kl_cols (pl_kernel l) = 0 -> b mod kl_cols (pl_kernel l) = 0 ->
  0 <= a -> b <= pl_cols l -> a * pl_rows l <= o < b * pl_rows l ->
  exists row col, 0 <= row < pl_rows l /\ a <= col < b /\ poff l row col = o.
Proof.
  intros l a b o L Ha Hb Ha0 Hb0 Ho. pose proof (po_rows _ L) as Rr.
  destruct (poff_surj l o L) as (row & col & Hr & Hc & E); [nia|].
  exists row, col. split; auto. split; auto.
  destruct (Z_lt_ge_dec col a) as [Hlt|].
  { pose proof (poff_region l 0 a row col L ltac:(apply Zmod_0_l) Ha ltac:(lia) Hr ltac:(lia)). nia. }
  destruct (Z_le_gt_dec b col) as [Hge|]; [|lia].
  pose proof (poff_region l b (pl_cols l) row col L Hb (po_cols_al _ L)) as P.
  destruct (Z_le_gt_dec 0 b); [|nia]. specialize (P ltac:(lia) Hr ltac:(lia)). nia.
Qed.

(** * Packed layouts made by CreatePackedLayout *)

Definition round_up (v k : Z) : Z := (v + k - 1) / k * k.

Lemma round_up_spec : forall v k, 0 < k -> v <= round_up v k < v + k /\ round_up v k mod k = 0.
Proof.
  intros v k Hk. unfold round_up. split.
  - pose proof (Z.div_mod (v + k - 1) k ltac:(lia)). pose proof (Z.mod_pos_bound (v + k - 1) k Hk). lia.
  - apply Z_mod_mult.
Qed.

Record kernel_layout_ok (k : kernel_layout) : Prop := {
  ko_rows : exists i, 0 <= i /\ kl_rows k = 2 ^ i;
  ko_cols : exists i, 0 <= i /\ kl_cols k = 2 ^ i;
  ko_rows_max : kl_rows k <= 128;
  ko_cols_max : kl_cols k <= 128
}.

Lemma create_packed_layout_ok : forall dbg src k, kernel_layout_ok k ->
  0 <= ml_rows src -> 0 <= ml_cols src ->
  ml_rows src + kl_rows k <= int_max -> ml_cols src + kl_cols k <= int_max ->
  round_up (ml_rows src) (kl_rows k) * round_up (ml_cols src) (kl_cols k) <= int_max ->
  exists l, create_packed_layout dbg src k = Ok l /\ playout_ok l /\ pl_kernel l = k /\
    pl_rows l = round_up (ml_rows src) (kl_rows k) /\ pl_cols l = round_up (ml_cols src) (kl_cols k).
Proof.
  intros dbg src k [(a & Ha & Ea) (b & Hb & Eb) _ _] Hr Hc Hr1 Hc1 Hf.
  unfold create_packed_layout.
  assert (Pa := pow2_pos a Ha). assert (Pb := pow2_pos b Hb).
  assert (E1 : round_up_pot dbg 32 (ml_rows src) (kl_rows k) = Ok (round_up (ml_rows src) (kl_rows k))).
  { unfold round_up. rewrite Ea in *. apply round_up_pot_ok; [lia|exact Ha|exact Hr|exact Hr1]. }
  assert (E2 : round_up_pot dbg 32 (ml_cols src) (kl_cols k) = Ok (round_up (ml_cols src) (kl_cols k))).
  { unfold round_up. rewrite Eb in *. apply round_up_pot_ok; [lia|exact Hb|exact Hc|exact Hc1]. }
  rewrite E1, E2. cbn [bind]. eexists. split; [reflexivity|].
  pose proof (round_up_spec (ml_rows src) (kl_rows k) ltac:(lia)).
  pose proof (round_up_spec (ml_cols src) (kl_cols k) ltac:(lia)).
  split; [|auto]. constructor; cbn; eauto; try lia.
Qed.
