(** What the floating-point x86 kernels compute. *)
From Coq Require Import ZArith List Bool Lia.
From Verif Require Import Base SidePair Mat MatFacts Scalars Pack PackFacts MulParams Kernel KernelFacts RunBy SimdFloat SimdFloatFacts KernelFloatX86 MemcpyPackFacts.
Import ListNotations.
Open Scope Z_scope.

Lemma rmap_ok : forall {A B} (f : A -> res B) (g : A -> B) l, (forall a, In a l -> f a = Ok (g a)) -> rmap f l = Ok (map g l).
Proof.
  intros A B f g l. induction l as [|a l IH]; intros H; cbn [rmap map]; [reflexivity|]. rewrite (H a) by (left; reflexivity). cbn [bind].
  rewrite IH by (intros x Hx; apply H; right; exact Hx). reflexivity.
Qed.

Lemma combine_map : forall {A B C} (f : A -> B) (g : A -> C) l, combine (map f l) (map g l) = map (fun x => (f x, g x)) l.
Proof. intros A B C f g l. induction l as [|a l IH]; cbn [map combine]; [reflexivity|]. rewrite IH. reflexivity. Qed.

Lemma madd_columns_map : forall {V} (fs : fscalars V) n f g (A : Z -> Z -> V),
  madd_columns fs (map f (zrange 0 n)) (map (fun j => fset1 n (g j)) (zrange 0 8)) (map (fun j => map (A j) (zrange 0 n)) (zrange 0 8)) =
  map (fun j => map (fun i => fs_madd fs (f i) (g j) (A j i)) (zrange 0 n)) (zrange 0 8).
Proof.
  intros V fs n f g A. unfold madd_columns. rewrite combine_map, map_map. apply map_ext. intros j. unfold fset1. rewrite lanes3_map. reflexivity.
Qed.

Lemma full_blocks_spec : forall n start end_, 0 < n -> start <= end_ ->
  0 <= full_blocks n start end_ /\ start + n * full_blocks n start end_ <= end_ < start + n * full_blocks n start end_ + n.
Proof.
  intros n s e Hn H. unfold full_blocks. pose proof (Z.div_mod (e - s) n ltac:(lia)). pose proof (Z.mod_pos_bound (e - s) n ltac:(lia)).
  assert (0 <= (e - s) / n) by (apply Z.div_pos; lia). rewrite Z.max_r by lia. lia.
Qed.

(** ** Rectangles of the destination *)
Definition in_rect (a b c d i j : Z) : Prop := a <= i < b /\ c <= j < d.

Section Rects.
Variables (V : Type) (dl : mat_layout) (P : Z -> Z -> V -> Prop).
Hypothesis L : layout_ok dl.

Lemma rect_none : forall a b c d x, b <= a \/ d <= c -> computed dl P (in_rect a b c d) x x.
Proof. intros. apply computed_none. intros i j (A & B). lia. Qed.

Lemma join_rows : forall a b e c d x y z, 0 <= a <= b -> b <= e <= ml_rows dl -> 0 <= c -> d <= ml_cols dl ->
  computed dl P (in_rect a b c d) x y -> computed dl P (in_rect b e c d) y z -> computed dl P (in_rect a e c d) x z.
Proof.
  intros a b e c d x y z Ha Hb Hc Hd X Y. apply (computed_trans dl P _ _ _ _ _ _ L X Y); unfold in_rect, inside; intros i j; try lia. apply rect_dec.
Qed.

Lemma join_cols : forall a b c e d x y z, 0 <= a -> b <= ml_rows dl -> 0 <= c <= e -> e <= d <= ml_cols dl ->
  computed dl P (in_rect a b c e) x y -> computed dl P (in_rect a b e d) y z -> computed dl P (in_rect a b c d) x z.
Proof.
  intros a b c e d x y z Ha Hb Hc Hd X Y. apply (computed_trans dl P _ _ _ _ _ _ L X Y); unfold in_rect, inside; intros i j; try lia. apply rect_dec.
Qed.

(** A loop over blocks of [n] rows (columns). *)
Lemma loop_rows : forall f n k a e c d x, 0 < n -> 0 <= k -> 0 <= a <= e -> e <= ml_rows dl -> 0 <= c -> d <= ml_cols dl ->
  (forall t y, 0 <= t < k -> blen y = blen x -> a + n * t < e ->
     exists z, f t y = Ok z /\ computed dl P (in_rect (a + n * t) (Z.min (a + n * t + n) e) c d) y z) ->
  (k = 0 \/ a + n * (k - 1) < e) ->
  exists z, forto 0 k f x = Ok z /\ computed dl P (in_rect a (Z.min (a + n * k) e) c d) x z.
Proof.
  intros f n k a e c d x Hn Hk Ha He Hc Hd F Hlast.
  destruct (forto_inv (fun t y => computed dl P (in_rect a (Z.min (a + n * t) e) c d) x y) f 0 k x Hk) as (z & E & W).
  - apply rect_none. left. lia.
  - intros t y Ht Y. destruct (F t y Ht (proj1 Y)) as (z & E & Z0); [clear - Ht Hlast Hn; nia|]. exists z. split; [exact E|].
    assert (LT : a + n * t < e) by (clear - Ht Hlast Hn; nia). rewrite (Z.min_l (a + n * t)) in Y by lia.
    replace (a + n * (t + 1)) with (a + n * t + n) by ring.
    apply (join_rows a (a + n * t) _ c d x y z); try assumption; try lia; clear - Ht Hn; nia.
  - eauto.
Qed.

Lemma loop_cols : forall f n k a b c e x, 0 < n -> 0 <= k -> 0 <= a -> b <= ml_rows dl -> 0 <= c <= e -> e <= ml_cols dl ->
  (forall t y, 0 <= t < k -> blen y = blen x -> c + n * t < e ->
     exists z, f t y = Ok z /\ computed dl P (in_rect a b (c + n * t) (Z.min (c + n * t + n) e)) y z) ->
  (k = 0 \/ c + n * (k - 1) < e) ->
  exists z, forto 0 k f x = Ok z /\ computed dl P (in_rect a b c (Z.min (c + n * k) e)) x z.
Proof.
  intros f n k a b c e x Hn Hk Ha Hb Hc He F Hlast.
  destruct (forto_inv (fun t y => computed dl P (in_rect a b c (Z.min (c + n * t) e)) x y) f 0 k x Hk) as (z & E & W).
  - apply rect_none. right. lia.
  - intros t y Ht Y. destruct (F t y Ht (proj1 Y)) as (z & E & Z0); [clear - Ht Hlast Hn; nia|]. exists z. split; [exact E|].
    assert (LT : c + n * t < e) by (clear - Ht Hlast Hn; nia). rewrite (Z.min_l (c + n * t)) in Y by lia.
    replace (c + n * (t + 1)) with (c + n * t + n) by ring.
    apply (join_cols a b c (c + n * t) _ x y z); try assumption; try lia; clear - Ht Hn; nia.
  - eauto.
Qed.

(** All rows. *)
Lemma step_rows : forall f n a e c d x, 0 < n -> 0 <= a <= e -> e <= ml_rows dl -> 0 <= c -> d <= ml_cols dl ->
  (forall row y, blen y = blen x -> a <= row < e -> (row - a) mod n = 0 ->
     exists z, f row y = Ok z /\ computed dl P (in_rect row (Z.min (row + n) e) c d) y z) ->
  exists z, forstep a e n f x = Ok z /\ computed dl P (in_rect a e c d) x z.
Proof.
  intros f n a e c d x Hn Ha He Hc Hd F. unfold forstep. set (k := (e - a + n - 1) / n).
  pose proof (Z.div_mod (e - a + n - 1) n ltac:(lia)) as DM. pose proof (Z.mod_pos_bound (e - a + n - 1) n ltac:(lia)) as MB. fold k in DM.
  assert (K0 : 0 <= k) by (apply Z.div_pos; lia).
  destruct (loop_rows (fun t s => f (a + t * n) s) n k a e c d x Hn K0 Ha He Hc Hd) as (z & E & W).
  - intros t y Ht Ly LT. rewrite (Z.mul_comm t). apply F; [exact Ly|clear - Ht Hn LT; nia|].
    replace (a + n * t - a) with (t * n) by ring. apply Z.mod_mul. lia.
  - destruct (Z.eq_dec k 0); [left; assumption|right]. clear - DM MB. nia.
  - exists z. split; [exact E|]. rewrite (Z.min_r (a + n * k)) in W by (clear - DM MB; lia). exact W.
Qed.
End Rects.

(** ** The facts about the parameters *)
Record kernel_facts {V} (fs : fscalars V) (n : Z) (p : fkparams V) (dl : mat_layout) : Prop := {
  kq_n : n = 8 \/ n = 16;
  kq_depth : 1 <= kf_depth p;
  kq_dl : layout_ok dl;
  kq_order : ml_order dl = ColMajor;
  kq_rows : kf_dst_rows p = ml_rows dl;
  kq_cols : kf_dst_cols p = ml_cols dl;
  kq_start_row : 0 <= kf_start_row p < kernel_end_row n p;
  kq_start_col : 0 <= kf_start_col p < kernel_end_col n p;
  kq_start_row_al : kf_start_row p mod n = 0;
  kq_start_col_al : kf_start_col p mod n = 0;
  kq_lhs_ptr : forall row, lhs_col_ptr p row = row * kf_depth p;
  kq_rhs_ptr : forall col, rhs_col_ptr p col = col * kf_depth p;
  kq_dst_ptr : forall row col, fdst_ptr p row col = row + col * ml_stride dl;
  kq_stride : scaled (kf_dst_stride p) = ml_stride dl;
  kq_lhs_len : forall row, 0 <= row < kernel_end_row n p -> row mod n = 0 -> (row + n) * kf_depth p <= blen (kf_lhs p);
  kq_rhs_len : forall col, 0 <= col < kernel_end_col n p -> col mod n = 0 -> (col + n) * kf_depth p <= blen (kf_rhs p);
  kq_bias : kf_has_bias p = true -> forall x, 0 <= x < (if kf_channel_is_col p then kernel_end_col n p else kernel_end_row n p) ->
    x mod n = 0 -> x + n <= blen (kf_bias p);
  kq_no_bias : kf_has_bias p = false -> n <= blen (kf_bias p) /\ forall x, bdat (kf_bias p) x = fs_zero fs
}.

Section Tiles.
Variables (V : Type) (fs : fscalars V) (n : Z) (p : fkparams V) (dl : mat_layout).
Hypothesis K : kernel_facts fs n p dl.
Let D := kf_depth p.

(** The entry of one side, level [k] of depth; the bias; the accumulator after [m] levels; the result. *)
Definition side_at (b : buf V) (i k : Z) : V := bdat b (i / n * (n * kf_depth p) + k * n + i mod n).
Definition start_value (i j : Z) : V :=
  if kf_has_bias p then bdat (kf_bias p) (if kf_channel_is_col p then j else i) else fs_zero fs.
Definition acc_at (m i j : Z) : V :=
  fold_left (fun a k => fs_madd fs (side_at (kf_lhs p) i k) (side_at (kf_rhs p) j k) a) (zrange 0 m) (start_value i j).
Definition result_at (i j : Z) : V := fs_max fs (fs_min fs (acc_at (kf_depth p) i j) (kf_clamp_max p)) (kf_clamp_min p).
Let P i j (v : V) := v = result_at i j.

Lemma n_range : 0 < n /\ 8 <= n /\ 4 <= n.
Proof. destruct (kq_n _ _ _ _ K); lia. Qed.

Lemma side_at_block : forall b c i k, c mod n = 0 -> 0 <= i < n -> side_at b (c + i) k = bdat b (c * D + n * k + i).
Proof.
  intros b c i k Hc Hi. pose proof n_range. unfold side_at. f_equal.
  assert (E : c = c / n * n) by (pose proof (Z.div_mod c n ltac:(lia)); lia). revert E. generalize (c / n). intros q ->.
  rewrite Z.div_add_l by lia. rewrite (Z.div_small i) by lia. rewrite (Z.add_comm (q * n) i), Z.mod_add by lia. rewrite (Z.mod_small i) by lia. fold D. ring.
Qed.

Lemma acc_succ : forall m i j, 0 <= m -> acc_at (m + 1) i j = fs_madd fs (side_at (kf_lhs p) i m) (side_at (kf_rhs p) j m) (acc_at m i j).
Proof. intros m i j Hm. unfold acc_at. rewrite zrange_snoc by lia. rewrite fold_left_app. reflexivity. Qed.

Definition accs (m row col : Z) : list (list V) := map (fun j => map (fun i => acc_at m (row + i) (col + j)) (zrange 0 n)) (zrange 0 8).

Lemma zrange_repeat : forall {A} (x : A) k, map (fun _ => x) (zrange 0 (Z.of_nat k)) = repeat x k.
Proof.
  intros A x k. unfold zrange. rewrite Z.sub_0_r, Nat2Z.id. generalize 0. induction k as [|k IH]; intros z; cbn [zseq map repeat]; [reflexivity|]. rewrite IH. reflexivity.
Qed.

(** [col] is a block of columns, [h] the place of eight of them. *)
Lemma initial_ok : forall row col h, 0 <= row < kernel_end_row n p -> row mod n = 0 -> 0 <= col < kernel_end_col n p -> col mod n = 0 ->
  0 <= h <= n - 8 -> initial_accums n p row (col + h) = Ok (accs 0 row (col + h)).
Proof.
  intros row col h Hr Ar Hc Ac Hh. pose proof n_range as N. unfold initial_accums, accs, bias_increment.
  assert (A0 : forall i j, acc_at 0 i j = start_value i j) by reflexivity.
  pose proof (kq_bias _ _ _ _ K) as B. pose proof (kq_no_bias _ _ _ _ K) as NB.
  destruct (kf_channel_is_col p) eqn:Ec.
  - erewrite rmap_ok.
    2:{ intros j Hj. apply zrange_In in Hj. rewrite bread_ok; [cbn [bind]; reflexivity|].
        destruct (kf_has_bias p); [specialize (B eq_refl col Hc Ac)|destruct (NB eq_refl)]; lia. }
    f_equal. apply map_ext. intros j. unfold fset1. apply map_ext. intros i. rewrite A0. unfold start_value. rewrite Ec.
    destruct (kf_has_bias p); [f_equal; lia|]. destruct (NB eq_refl) as (_ & Z0). apply Z0.
  - rewrite fload_ok; [|destruct (kf_has_bias p); lia|].
    2:{ destruct (kf_has_bias p); [specialize (B eq_refl row Hr Ar)|destruct (NB eq_refl)]; lia. }
    cbn [bind]. change 8%nat with (Z.to_nat 8). rewrite <- (Z2Nat.id 8) at 2 by lia. rewrite <- zrange_repeat. f_equal. apply map_ext. intros j. apply map_ext. intros i.
    rewrite A0. unfold start_value. rewrite Ec. destruct (kf_has_bias p); [f_equal; lia|]. destruct (NB eq_refl) as (_ & Z0). apply Z0.
Qed.

Lemma depth_bounds : forall c (b : buf V) i k, 0 <= c -> c mod n = 0 -> (c + n) * D <= blen b -> 0 <= i -> i <= n -> 0 <= k < D ->
  0 <= c * D + n * k + i /\ c * D + n * k + i + (n - i) <= blen b.
Proof.
  intros c b i k Hc Ac Hb Hi Hin Hk. pose proof n_range. assert (0 <= c * D) by (apply Z.mul_nonneg_nonneg; lia).
  assert (0 <= n * k) by (apply Z.mul_nonneg_nonneg; lia). assert (n * (k + 1) <= n * D) by (apply Z.mul_le_mono_nonneg_l; lia). lia.
Qed.

(** Stores of the first [m] lanes. *)
Definition stores (m : Z) (store : list V -> Z -> buf V -> res (buf V)) : Prop := forall f ptr d, 0 <= ptr -> ptr + m <= blen d ->
  exists d', store (map f (zrange 0 n)) ptr d = Ok d' /\ blen d' = blen d /\
    forall q, bdat d' q = if (ptr <=? q) && (q <? ptr + m) then f (q - ptr) else bdat d q.

Lemma full_stores : stores n fstore.
Proof. intros f ptr d H1 H2. pose proof n_range. apply fstore_ok; lia. Qed.

Lemma n_stores : forall m, 0 <= m <= n -> stores m (n_storeu_ps fs m).
Proof.
  intros m Hm f ptr d H1 H2. unfold n_storeu_ps.
  match goal with |- exists d', forto 0 m ?g d = _ /\ _ =>
    destruct (forto_inv (fun i x => blen x = blen d /\ forall q, bdat x q = if (ptr <=? q) && (q <? ptr + i) then f (q - ptr) else bdat d q) g 0 m d) as (d' & E & W1 & W2) end.
  - lia.
  - split; [reflexivity|]. intros q. replace (_ && _) with false by lia. reflexivity.
  - intros i x Hi (W1 & W2). rewrite nth_map_zrange by lia. destruct (bwrite_ok x (ptr + i) (f i)) as (y & E & Ly & Dy); [lia|].
    exists y. split; [exact E|]. split; [lia|]. intros q. rewrite Dy, W2. destruct (Z.eqb_spec q (ptr + i)) as [->|N].
    + replace (_ && _) with true by lia. f_equal. lia.
    + destruct ((ptr <=? q) && (q <? ptr + i)) eqn:B1; [replace (_ && _) with true by lia|replace (_ && _) with false by lia]; reflexivity.
  - exists d'. split; [exact E|]. split; assumption.
Qed.

Lemma mask_stores : forall m, n = 16 -> 0 <= m <= 16 -> stores m (fmask_store (row_mask m)).
Proof.
  intros m En Hm f ptr d H1 H2. unfold row_mask. rewrite low_mask by lia. rewrite En.
  destruct (fmask_store_ok (fun i => i <? m) f 16 ptr d H1) as (d' & E & Ld & Dd); [intros; lia|]. exists d'. split; [exact E|]. split; [exact Ld|].
  intros q. rewrite Dd. replace ((ptr <=? q) && (q <? ptr + 16) && (q - ptr <? m)) with ((ptr <=? q) && (q <? ptr + m)) by lia. reflexivity.
Qed.

Lemma clamp_ok : forall f, fclamp fs n p (map f (zrange 0 n)) = map (fun i => fs_max fs (fs_min fs (f i) (kf_clamp_max p)) (kf_clamp_min p)) (zrange 0 n).
Proof. intros f. unfold fclamp, fset1. rewrite !lanes2_map. reflexivity. Qed.

Lemma dst_room : forall row m col (d : buf V), flat dl <= blen d -> 0 <= row -> 0 <= m -> row + m <= ml_rows dl -> 0 <= col < ml_cols dl ->
  0 <= row + col * ml_stride dl /\ row + col * ml_stride dl + m <= blen d.
Proof.
  intros row m col d F Hr Hm Hrm Hc. pose proof (kq_dl _ _ _ _ K) as [L1 L2 L3 L4]. unfold flat in F. rewrite (kq_order _ _ _ _ K) in *.
  assert (0 <= col * ml_stride dl) by (apply Z.mul_nonneg_nonneg; lia).
  assert (ml_stride dl * (col + 1) <= ml_stride dl * ml_cols dl) by (apply Z.mul_le_mono_nonneg_l; lia). lia.
Qed.

(** A register of results stored in one column. *)
Lemma store_column : forall store m row col d, stores m store -> flat dl <= blen d -> 0 <= row -> 0 <= m <= n -> row + m <= ml_rows dl -> 0 <= col < ml_cols dl ->
  exists d', store (map (fun i => result_at (row + i) col) (zrange 0 n)) (row + col * ml_stride dl) d = Ok d' /\
    computed dl P (in_rect row (row + m) col (col + 1)) d d'.
Proof.
  intros store m row col d S F Hr Hm Hrm Hc. destruct (dst_room row m col d F Hr (proj1 Hm) Hrm Hc) as (R1 & R2).
  destruct (S (fun i => result_at (row + i) col) _ d R1 R2) as (d' & E & Ld & Dd). exists d'. split; [exact E|].
  assert (O : forall i, off dl i col = i + col * ml_stride dl) by (intros i; unfold off; rewrite (kq_order _ _ _ _ K); reflexivity).
  split; [exact Ld|]. split.
  - intros i j (Hi & Hj). replace j with col by lia. unfold P. rewrite O, Dd. replace (_ && _) with true by lia. f_equal. lia.
  - intros x Hx. rewrite Dd. destruct (_ && _) eqn:B; [|reflexivity]. destruct (Hx (x - col * ml_stride dl) col); [split; lia|]. rewrite O. lia.
Qed.

Lemma store_accums_ok : forall store m cols row col h d, stores m store -> flat dl <= blen d ->
  0 <= row -> 0 <= m <= n -> row + m <= ml_rows dl -> 0 <= col -> 0 <= h -> cols <= 8 -> 0 <= cols -> col + h + cols <= ml_cols dl ->
  exists d', store_accums fs n p store cols (accs D row (col + h)) (row + col * ml_stride dl + h * ml_stride dl) d = Ok d' /\
    computed dl P (in_rect row (row + m) (col + h) (col + h + cols)) d d'.
Proof.
  intros store m cols row col h d S F Hr Hm Hrm Hc Hh C8 C0 Hcm. unfold store_accums. rewrite (kq_stride _ _ _ _ K).
  match goal with |- exists d', forto 0 cols ?f d = _ /\ _ =>
    destruct (loop_cols V dl P (kq_dl _ _ _ _ K) f 1 cols row (row + m) (col + h) (col + h + cols) d) as (d' & E & W); try lia end.
  - intros j y Hj Ly LT. rewrite Z.mul_1_l. unfold accs. rewrite nth_map_zrange by lia. rewrite clamp_ok.
    replace (row + col * ml_stride dl + h * ml_stride dl + j * ml_stride dl) with (row + (col + h + j) * ml_stride dl) by ring.
    destruct (store_column store m row (col + h + j) y S) as (z & E & W); try lia.
    exists z. split; [exact E|]. rewrite Z.min_l by lia. exact W.
  - exists d'. split; [exact E|]. rewrite Z.mul_1_l, Z.min_l in W by lia. exact W.
Qed.

(** The same for cols <= 0 too. *)
Lemma store_accums_ok' : forall store m cols row col h d, stores m store -> flat dl <= blen d ->
  0 <= row -> 0 <= m <= n -> row + m <= ml_rows dl -> 0 <= col -> 0 <= h -> cols <= 8 -> col + h + cols <= ml_cols dl ->
  exists d', store_accums fs n p store cols (accs D row (col + h)) (row + col * ml_stride dl + h * ml_stride dl) d = Ok d' /\
    computed dl P (in_rect row (row + m) (col + h) (col + h + cols)) d d'.
Proof.
  intros store m cols row col h d S F Hr Hm Hrm Hc Hh C8 Hcm. destruct (Z_le_gt_dec 0 cols); [apply store_accums_ok; assumption|].
  exists d. split; [unfold store_accums; rewrite forto_empty by lia; reflexivity|]. apply rect_none. lia.
Qed.

Lemma end_rows : kernel_end_row n p <= ml_rows dl /\ kernel_end_col n p <= ml_cols dl.
Proof. unfold kernel_end_row, kernel_end_col. rewrite (kq_rows _ _ _ _ K), (kq_cols _ _ _ _ K). lia. Qed.

(** ** One column *)
Definition acc1 (m row : Z) : list V := map (fun i => acc_at m (row + i) 0) (zrange 0 n).

Lemma step_single_ok : forall row m, 0 <= row < kernel_end_row n p -> row mod n = 0 -> 0 < kernel_end_col n p -> 0 <= m < D ->
  step_single fs n p (lhs_col_ptr p row + n * m) (n * m) (acc1 m row) = Ok (acc1 (m + 1) row).
Proof.
  intros row m Hr Ar Hc Hm. pose proof n_range as N. rewrite (kq_lhs_ptr _ _ _ _ K). unfold step_single.
  pose proof (kq_lhs_len _ _ _ _ K row Hr Ar) as LL. pose proof (kq_rhs_len _ _ _ _ K 0 ltac:(lia) ltac:(apply Z.mod_0_l; lia)) as RL. fold D in LL, RL |- *.
  pose proof (depth_bounds row (kf_lhs p) 0 m ltac:(lia) Ar LL ltac:(lia) ltac:(lia) Hm) as B1.
  pose proof (depth_bounds 0 (kf_rhs p) 0 m ltac:(lia) ltac:(apply Z.mod_0_l; lia) RL ltac:(lia) ltac:(lia) Hm) as B2.
  rewrite fload_ok by lia. cbn [bind]. rewrite bread_ok by lia. cbn [bind]. f_equal. unfold fset1, acc1. rewrite lanes3_map. apply map_ext_in. intros i Hi. apply zrange_In in Hi.
  rewrite acc_succ by lia. rewrite side_at_block by assumption. replace (side_at (kf_rhs p) 0 m) with (bdat (kf_rhs p) (n * m)); [reflexivity|].
  change 0 with (0 + 0) at 1. rewrite side_at_block by (try apply Z.mod_0_l; lia). f_equal. ring.
Qed.

Lemma depth_single_ok : forall row a, 0 <= row < kernel_end_row n p -> row mod n = 0 -> 0 < kernel_end_col n p -> 0 <= a <= D ->
  forto a D (fun d acc => step_single fs n p (lhs_col_ptr p row + n * d) (n * d) acc) (acc1 a row) = Ok (acc1 D row).
Proof.
  intros row a Hr Ar Hc Ha.
  match goal with |- forto a D ?f _ = _ => destruct (forto_inv (fun m x => x = acc1 m row) f a D (acc1 a row)) as (x & E & W) end.
  - lia.
  - reflexivity.
  - intros m x Hm ->. eexists. split; [apply step_single_ok; try assumption; lia|reflexivity].
  - rewrite E, W. reflexivity.
Qed.

Lemma depth_by_4_ok : forall row, n = 8 -> 0 <= row < kernel_end_row n p -> row mod n = 0 -> 0 < kernel_end_col n p ->
  depth_by_4 fs p (lhs_col_ptr p row) 0 (acc1 0 row) = Ok (acc1 D row).
Proof.
  intros row En Hr Ar Hc. unfold depth_by_4. fold D. pose proof (kq_depth _ _ _ _ K) as D1. fold D in D1.
  destruct (full_blocks_spec 4 0 D ltac:(lia) ltac:(lia)) as (F0 & F1). set (fours := full_blocks 4 0 D) in *.
  match goal with |- bind (forto 0 fours ?f _) _ = _ => destruct (forto_inv (fun m x => x = acc1 (4 * m) row) f 0 fours (acc1 0 row)) as (x & E & W) end.
  - exact F0.
  - reflexivity.
  - intros b x Hb ->. cbv zeta.
    assert (ST : forall m l r, 0 <= m < D -> l = lhs_col_ptr p row + 8 * m -> r = 8 * m -> step_single fs 8 p l r (acc1 m row) = Ok (acc1 (m + 1) row)).
    { intros m l r Hm -> ->. rewrite <- En. apply step_single_ok; assumption. }
    rewrite (ST (4 * b)) by lia. cbn [bind]. rewrite (ST (4 * b + 1)) by lia. cbn [bind]. rewrite (ST (4 * b + 1 + 1)) by lia. cbn [bind].
    rewrite (ST (4 * b + 1 + 1 + 1)) by lia. eexists. split; [reflexivity|]. f_equal. lia.
  - rewrite E. cbn [bind]. rewrite W. pose proof (depth_single_ok row (4 * fours) Hr Ar Hc ltac:(lia)) as H. rewrite En in H. exact H.
Qed.

Lemma single_initial : forall row, kf_channel_is_col p = false -> 0 <= row < kernel_end_row n p -> row mod n = 0 ->
  fload n (kf_bias p) (row * bias_increment p) = Ok (acc1 0 row).
Proof.
  intros row Ec Hr Ar. pose proof (kq_bias _ _ _ _ K) as B. pose proof (kq_no_bias _ _ _ _ K) as NB. rewrite Ec in B. unfold bias_increment.
  rewrite fload_ok; [|destruct (kf_has_bias p); lia|].
  - f_equal. unfold acc1. apply map_ext. intros i. change (acc_at 0 (row + i) 0) with (start_value (row + i) 0). unfold start_value. rewrite Ec.
    destruct (kf_has_bias p); [f_equal; lia|]. destruct (NB eq_refl) as (_ & Z0). apply Z0.
  - destruct (kf_has_bias p); [specialize (B eq_refl row Hr Ar)|destruct (NB eq_refl)]; lia.
Qed.

Lemma single_store : forall store m row d, stores m store -> flat dl <= blen d -> 0 <= row -> 0 <= m <= n -> row + m <= ml_rows dl -> 0 < ml_cols dl ->
  exists d', store (fclamp fs n p (acc1 D row)) row d = Ok d' /\ computed dl P (in_rect row (row + m) 0 1) d d'.
Proof.
  intros store m row d S F Hr Hm Hrm Hc. unfold acc1. rewrite clamp_ok.
  destruct (store_column store m row 0 d S F Hr Hm Hrm ltac:(lia)) as (d' & E & W). rewrite Z.mul_0_l, Z.add_0_r in E. eauto.
Qed.

Lemma step_aligned : forall a t, a mod n = 0 -> (a + n * t) mod n = 0.
Proof. intros a t Ha. pose proof n_range. rewrite Z.mul_comm, Z.mod_add by lia. exact Ha. Qed.

Lemma single_ptr_ok : forall row, kf_start_col p = 0 -> single_ptr p row = row.
Proof.
  intros row H. pose proof (kq_dst_ptr _ _ _ _ K row 0) as E. unfold fdst_ptr in E. unfold single_ptr. rewrite H in E. lia.
Qed.

Lemma rhs_base_0 : kf_start_col p = 0 -> kf_rhs_base p = 0.
Proof. intros H. pose proof (kq_rhs_ptr _ _ _ _ K 0) as E. unfold rhs_col_ptr in E. rewrite H in E. lia. Qed.

(** One column: whole blocks, then the rest. *)
Lemma single_loops : forall (full : Z -> buf V -> res (buf V)) (rest : Z -> Z -> buf V -> res (buf V)) d, flat dl <= blen d -> ml_cols dl = 1 ->
  let start := kf_start_row p in let end_ := kernel_end_row n p in let blocks := full_blocks n start end_ in
  (forall row x, flat dl <= blen x -> 0 <= row < end_ -> row mod n = 0 -> row + n <= ml_rows dl ->
     exists y, full row x = Ok y /\ computed dl P (in_rect row (row + n) 0 1) x y) ->
  (forall row x, flat dl <= blen x -> 0 <= row < end_ -> row mod n = 0 -> end_ - row < n ->
     exists y, rest row (end_ - row) x = Ok y /\ computed dl P (in_rect row end_ 0 1) x y) ->
  exists d', bind (forto 0 blocks (fun b d => full (start + n * b) d) d) (fun d =>
      let row := start + n * blocks in if row <? end_ then rest row (end_ - row) d else Ok d) = Ok d' /\
    computed dl P (in_rect start end_ 0 1) d d'.
Proof.
  intros full rest d F C1 start end_ blocks Hfull Hrest. pose proof n_range as N. pose proof (kq_start_row _ _ _ _ K) as SR. fold start end_ in SR.
  destruct end_rows as (ER & _). fold end_ in ER. destruct (full_blocks_spec n start end_ ltac:(lia) ltac:(lia)) as (B0 & B1 & B2). fold blocks in B0, B1, B2.
  pose proof (kq_start_row_al _ _ _ _ K) as SA. fold start in SA.
  destruct (loop_rows V dl P (kq_dl _ _ _ _ K) (fun b d => full (start + n * b) d) n blocks start end_ 0 1 d) as (x & E & W); try lia.
  - intros t y Ht Ly LT. assert (n * t + n <= n * blocks) by (clear - Ht N; nia). assert (0 <= n * t) by (apply Z.mul_nonneg_nonneg; lia).
    destruct (Hfull (start + n * t) y) as (z & E & W); try lia; [apply step_aligned; exact SA|]. exists z. split; [exact E|]. rewrite Z.min_l by lia. exact W.
  - rewrite E. cbn [bind]. cbv zeta. rewrite Z.min_l in W by lia. destruct (Z.ltb_spec (start + n * blocks) end_) as [LT|GE].
    + assert (0 <= n * blocks) by (apply Z.mul_nonneg_nonneg; lia).
      destruct (Hrest (start + n * blocks) x) as (y & E2 & W2); try lia; [destruct W; lia|apply step_aligned; exact SA|]. exists y. split; [exact E2|].
      apply (join_rows V dl P (kq_dl _ _ _ _ K) start (start + n * blocks) end_ 0 1 d x y); try assumption; lia.
    + exists x. split; [reflexivity|]. replace end_ with (start + n * blocks) by lia. exact W.
Qed.

Lemma avx_single_ok : forall dbg d, n = 8 -> flat dl <= blen d -> ml_cols dl = 1 -> kf_start_col p = 0 -> kf_last_col p = 0 -> kf_channel_is_col p = false ->
  exists d', kernel_float_avx_single_col fs dbg p d = Ok d' /\ computed dl P (in_rect (kf_start_row p) (kernel_end_row n p) 0 1) d d'.
Proof.
  intros dbg d En F C1 SC LC Ec. assert (DEP : 0 <= 0 <= D) by (pose proof (kq_depth _ _ _ _ K); unfold D; lia). unfold kernel_float_avx_single_col. rewrite (kq_cols _ _ _ _ K), C1, SC, LC. rewrite !dcheck_ok by reflexivity. cbn [bind].
  assert (EC : 0 < kernel_end_col n p) by (pose proof (kq_start_col _ _ _ _ K); lia). rewrite (rhs_base_0 SC).
  destruct (single_loops
    (fun row d => acc <- fload 8 (kf_bias p) (row * bias_increment p) ;; acc <- depth_by_4 fs p (lhs_col_ptr p row) 0 acc ;; fstore (fclamp fs 8 p acc) (single_ptr p row) d)
    (fun row res d => rcheck (1 <=? res) ;;; rcheck (res <? 8) ;;; acc <- fload 8 (kf_bias p) (row * bias_increment p) ;;
       acc <- forto 0 (kf_depth p) (fun d acc => step_single fs 8 p (lhs_col_ptr p row + 8 * d) (0 + 8 * d) acc) acc ;;
       n_storeu_ps fs res (fclamp fs 8 p acc) (single_ptr p row) d) d F C1) as (d' & E & W).
  - intros row x Fx Hr Ar Hrow. pose proof (single_initial row Ec Hr Ar) as I0. rewrite En in I0. rewrite I0. cbn [bind]. rewrite (depth_by_4_ok row En Hr Ar EC). cbn [bind].
    rewrite single_ptr_ok by exact SC. pose proof (single_store fstore n row x full_stores Fx ltac:(lia) ltac:(lia) Hrow ltac:(lia)) as S. rewrite En in S. rewrite En. exact S.
  - intros row x Fx Hr Ar Hrow. unfold rcheck. replace (1 <=? _) with true by lia. replace (_ <? 8) with true by lia. cbn [bind].
    pose proof (single_initial row Ec Hr Ar) as I0. rewrite En in I0. rewrite I0. cbn [bind].
    pose proof (depth_single_ok row 0 Hr Ar EC DEP) as DS.
    erewrite forto_ext; [|intros m s Hm; rewrite Z.add_0_l, <- En; reflexivity]. fold D. rewrite DS. cbn [bind]. rewrite single_ptr_ok by exact SC.
    destruct end_rows as (ER & _).
    pose proof (single_store (n_storeu_ps fs (kernel_end_row n p - row)) (kernel_end_row n p - row) row x (n_stores (kernel_end_row n p - row) ltac:(lia)) Fx ltac:(lia) ltac:(lia) ltac:(lia) ltac:(lia)) as S.
    replace (row + (kernel_end_row n p - row)) with (kernel_end_row n p) in S by lia. rewrite En in S |- *. exact S.
  - exists d'. rewrite En in *. split; [exact E|exact W].
Qed.

Lemma avx512_single_ok : forall dbg d, n = 16 -> flat dl <= blen d -> ml_cols dl = 1 -> kf_start_col p = 0 -> kf_last_col p = 0 -> kf_channel_is_col p = false ->
  exists d', kernel_float_avx512_single_col fs dbg p d = Ok d' /\ computed dl P (in_rect (kf_start_row p) (kernel_end_row n p) 0 1) d d'.
Proof.
  intros dbg d En F C1 SC LC Ec. assert (DEP : 0 <= 0 <= D) by (pose proof (kq_depth _ _ _ _ K); unfold D; lia). unfold kernel_float_avx512_single_col. rewrite (kq_cols _ _ _ _ K), C1, SC, LC. rewrite !dcheck_ok by reflexivity. cbn [bind].
  assert (EC : 0 < kernel_end_col n p) by (pose proof (kq_start_col _ _ _ _ K); lia). rewrite (rhs_base_0 SC). cbv zeta.
  set (block := fun row (store : list V -> Z -> buf V -> res (buf V)) dst =>
    acc <- fload 16 (kf_bias p) (row * bias_increment p) ;;
    acc <- forto 0 (kf_depth p) (fun d acc => step_single fs 16 p (lhs_col_ptr p row + 16 * d) (0 + 16 * d) acc) acc ;;
    store (fclamp fs 16 p acc) (single_ptr p row) dst).
  assert (BL : forall store m row x, stores m store -> flat dl <= blen x -> 0 <= row < kernel_end_row n p -> row mod n = 0 -> 0 <= m <= n -> row + m <= ml_rows dl ->
    exists y, block row store x = Ok y /\ computed dl P (in_rect row (row + m) 0 1) x y).
  { intros store m row x S Fx Hr Ar Hm Hrm. unfold block. pose proof (single_initial row Ec Hr Ar) as I0. rewrite En in I0. rewrite I0. cbn [bind].
    pose proof (depth_single_ok row 0 Hr Ar EC DEP) as DS.
    erewrite forto_ext; [|intros k s Hk; rewrite Z.add_0_l, <- En; reflexivity]. fold D. rewrite DS. cbn [bind]. rewrite single_ptr_ok by exact SC.
    pose proof (single_store store m row x S Fx ltac:(lia) Hm Hrm ltac:(lia)) as Q. rewrite En in Q. exact Q. }
  destruct (single_loops (fun row d => block row fstore d)
    (fun row res d => rcheck (1 <=? res) ;;; rcheck (res <? 16) ;;; block row (fmask_store (row_mask res)) d) d F C1) as (d' & E & W).
  - intros row x Fx Hr Ar Hrow. pose proof n_range. apply (BL fstore n row x full_stores Fx Hr Ar); lia.
  - intros row x Fx Hr Ar Hrow. unfold rcheck. replace (1 <=? _) with true by lia. replace (_ <? 16) with true by lia. cbn [bind].
    destruct end_rows as (ER & _).
    pose proof (BL (fmask_store (row_mask (kernel_end_row n p - row))) (kernel_end_row n p - row) row x (mask_stores (kernel_end_row n p - row) En ltac:(lia)) Fx Hr Ar ltac:(lia) ltac:(lia)) as S.
    replace (row + (kernel_end_row n p - row)) with (kernel_end_row n p) in S by lia. exact S.
  - exists d'. rewrite En in *. split; [exact E|exact W].
Qed.

(** ** Tiles of eight and of sixteen columns *)
Lemma eight_columns : forall b c h k, 0 <= h <= n - 8 -> c mod n = 0 ->
  forall j, 0 <= j < 8 -> side_at b (c + h + j) k = bdat b (c * D + n * k + h + j).
Proof.
  intros b c h k Hh Ac j Hj. rewrite <- Z.add_assoc, side_at_block by lia. f_equal. ring.
Qed.

Lemma accs_step : forall m row col h g, 0 <= m -> row mod n = 0 -> 0 <= h <= n - 8 ->
  (forall j, 0 <= j < 8 -> g j = side_at (kf_rhs p) (col + h + j) m) ->
  map (fun j => map (fun i => fs_madd fs (bdat (kf_lhs p) (row * D + n * m + i)) (g j) (acc_at m (row + i) (col + h + j))) (zrange 0 n)) (zrange 0 8) = accs (m + 1) row (col + h).
Proof.
  intros m row col h g Hm Ar Hh Hg. unfold accs. apply map_ext_in. intros j Hj. apply zrange_In in Hj. apply map_ext_in. intros i Hi. apply zrange_In in Hi.
  rewrite acc_succ by exact Hm. rewrite side_at_block by assumption. rewrite Hg by exact Hj. reflexivity.
Qed.

Lemma step_avx_ok : forall m row col, n = 8 -> 0 <= row < kernel_end_row n p -> row mod n = 0 -> 0 <= col < kernel_end_col n p -> col mod n = 0 -> 0 <= m < D ->
  step_avx fs p (lhs_col_ptr p row + 8 * m) (rhs_col_ptr p col + 8 * m) (accs m row (col + 0)) = Ok (accs (m + 1) row (col + 0)).
Proof.
  intros m row col En Hr Ar Hc Ac Hm. rewrite (kq_lhs_ptr _ _ _ _ K), (kq_rhs_ptr _ _ _ _ K). fold D. unfold step_avx.
  pose proof (kq_lhs_len _ _ _ _ K row Hr Ar) as LL. pose proof (kq_rhs_len _ _ _ _ K col Hc Ac) as RL. fold D in LL, RL.
  pose proof (depth_bounds row (kf_lhs p) 0 m ltac:(lia) Ar LL ltac:(lia) ltac:(lia) Hm) as B1.
  pose proof (depth_bounds col (kf_rhs p) 0 m ltac:(lia) Ac RL ltac:(lia) ltac:(lia) Hm) as B2. rewrite En in B1, B2.
  rewrite !fload_ok by lia. cbn [bind]. f_equal.
  rewrite <- (accs_step m row col 0 (fun j => bdat (kf_rhs p) (col * D + 8 * m + j))); [|lia|exact Ar|lia|].
  2:{ intros j Hj. rewrite eight_columns by (try assumption; lia). f_equal. lia. }
  unfold accs. rewrite En. rewrite <- (madd_columns_map fs 8 (fun i => bdat (kf_lhs p) (row * D + 8 * m + i)) (fun j => bdat (kf_rhs p) (col * D + 8 * m + j)) (fun j i => acc_at m (row + i) (col + 0 + j))).
  assert (DUP : forall f : Z -> V, map (permute_ps (fs_zero fs) (broadcast_ps (map f (zrange 0 4)))) [0; 85; 170; 255] = map (fun j => fset1 8 (f j)) [0; 1; 2; 3]).
  { intros f. change [0; 85; 170; 255] with (map (fun j => 85 * j) [0; 1; 2; 3]). rewrite map_map. apply map_ext_in. intros j Hj. apply broadcast_permute. cbn in Hj. lia. }
  rewrite !DUP. f_equal. cbn [map app]. change (zrange 0 8) with [0; 1; 2; 3; 4; 5; 6; 7]. cbn [map].
  replace (col * D + 8 * m + 4 + 0) with (col * D + 8 * m + 4) by lia. rewrite <- !(Z.add_assoc _ 4). reflexivity.
Qed.

Lemma step_512_ok : forall m row col h, n = 16 -> 0 <= row < kernel_end_row n p -> row mod n = 0 -> 0 <= col < kernel_end_col n p -> col mod n = 0 -> 0 <= h <= 8 -> 0 <= m < D ->
  step_512 fs p (lhs_col_ptr p row + 16 * m) (rhs_col_ptr p col + h + 16 * m) (accs m row (col + h)) = Ok (accs (m + 1) row (col + h)).
Proof.
  intros m row col h En Hr Ar Hc Ac Hh Hm. rewrite (kq_lhs_ptr _ _ _ _ K), (kq_rhs_ptr _ _ _ _ K). fold D. unfold step_512.
  pose proof (kq_lhs_len _ _ _ _ K row Hr Ar) as LL. pose proof (kq_rhs_len _ _ _ _ K col Hc Ac) as RL. fold D in LL, RL.
  pose proof (depth_bounds row (kf_lhs p) 0 m ltac:(lia) Ar LL ltac:(lia) ltac:(lia) Hm) as B1.
  pose proof (depth_bounds col (kf_rhs p) 0 m ltac:(lia) Ac RL ltac:(lia) ltac:(lia) Hm) as B2. rewrite En in B1, B2.
  rewrite fload_ok by lia. cbn [bind].
  rewrite (rmap_ok _ (fun j => bdat (kf_rhs p) (col * D + h + 16 * m + j))) by (intros j Hj; apply zrange_In in Hj; apply bread_ok; lia). cbn [bind]. f_equal.
  rewrite <- (accs_step m row col h (fun j => bdat (kf_rhs p) (col * D + h + 16 * m + j))); [|lia|exact Ar|lia|].
  2:{ intros j Hj. rewrite eight_columns by (try assumption; lia). f_equal. lia. }
  unfold accs. rewrite En, map_map.
  apply (madd_columns_map fs 16 (fun i => bdat (kf_lhs p) (row * D + 16 * m + i)) (fun j => bdat (kf_rhs p) (col * D + h + 16 * m + j)) (fun j i => acc_at m (row + i) (col + h + j))).
Qed.

Lemma depth_loop : forall (step : Z -> list (list V) -> res (list (list V))) row col a, 0 <= a ->
  (forall m, 0 <= m < a -> step m (accs m row col) = Ok (accs (m + 1) row col)) -> forto 0 a step (accs 0 row col) = Ok (accs a row col).
Proof.
  intros step row col a Ha H. destruct (forto_inv (fun m x => x = accs m row col) step 0 a (accs 0 row col)) as (x & E & W).
  - exact Ha.
  - reflexivity.
  - intros m x Hm ->. eexists. split; [apply H; exact Hm|reflexivity].
  - rewrite E, W. reflexivity.
Qed.

Lemma tile_avx_ok : forall whole rc row col d, n = 8 -> flat dl <= blen d -> 0 <= row < kernel_end_row n p -> row mod n = 0 -> 0 <= col < kernel_end_col n p -> col mod n = 0 ->
  0 <= rc <= 8 -> col + rc <= kernel_end_col n p ->
  exists d', tile_avx fs p whole rc row col d = Ok d' /\ computed dl P (in_rect row (Z.min (row + 8) (kernel_end_row n p)) col (col + rc)) d d'.
Proof.
  intros whole rc row col d En F Hr Ar Hc Ac Hrc Hcm. unfold tile_avx. destruct end_rows as (ER & EC).
  pose proof (initial_ok row col 0 Hr Ar Hc Ac ltac:(lia)) as I0. rewrite En in I0. replace (initial_accums 8 p row col) with (initial_accums 8 p row (col + 0)) by (f_equal; lia).
  rewrite I0. cbn [bind]. fold D. rewrite (depth_loop _ row (col + 0) D).
  2:{ pose proof (kq_depth _ _ _ _ K). unfold D. lia. }
  2:{ intros m Hm. apply step_avx_ok; assumption. }
  cbn [bind]. rewrite (kq_dst_ptr _ _ _ _ K). rewrite En in Hr, Hc, Hcm, ER, EC |- *. set (m := Z.min (kernel_end_row 8 p - row) 8).
  assert (St : stores m (if whole && (m =? 8) then fstore else n_storeu_ps fs m)).
  { destruct (whole && (m =? 8)) eqn:B; [|apply n_stores; unfold m; lia]. pose proof full_stores as FS. replace m with n by lia. exact FS. }
  destruct (store_accums_ok _ m rc row col 0 d St F) as (d' & E & W); try (unfold m; lia).
  exists d'. rewrite En in E. rewrite Z.mul_0_l, (Z.add_0_r (row + col * ml_stride dl)) in E. rewrite Z.add_0_r in W. split; [exact E|].
  replace (Z.min (row + 8) (kernel_end_row 8 p)) with (row + m) by (unfold m; lia). exact W.
Qed.

Lemma sub_aligned : forall a b, a mod n = 0 -> (b - a) mod n = 0 -> b mod n = 0.
Proof. intros a b Ha Hb. replace b with ((b - a) + a) by lia. pose proof n_range. rewrite Z.add_mod, Ha, Hb by lia. apply Z.mod_0_l. lia. Qed.

Lemma avx_ok : forall dbg d, n = 8 -> flat dl <= blen d ->
  exists d', kernel_float_avx fs dbg p d = Ok d' /\ computed dl P (in_rect (kf_start_row p) (kernel_end_row n p) (kf_start_col p) (kernel_end_col n p)) d d'.
Proof.
  intros dbg d En F. unfold kernel_float_avx. destruct end_rows as (ER & EC). pose proof (kq_start_row _ _ _ _ K) as SR. pose proof (kq_start_col _ _ _ _ K) as SC.
  assert (ROWS : forall whole rc col x, flat dl <= blen x -> 0 <= col < kernel_end_col n p -> col mod n = 0 -> 0 <= rc <= 8 -> col + rc <= kernel_end_col n p ->
    exists y, forstep (kf_start_row p) (kernel_end_row n p) 8 (fun row dst => tile_avx fs p whole rc row col dst) x = Ok y /\
      computed dl P (in_rect (kf_start_row p) (kernel_end_row n p) col (col + rc)) x y).
  { intros whole rc col x Fx Hc Ac Hrc Hcm. apply step_rows; try lia; [apply (kq_dl _ _ _ _ K)|]. intros row y Ly Hrow Al.
    apply tile_avx_ok; try assumption; try lia. apply (sub_aligned (kf_start_row p)); [apply (kq_start_row_al _ _ _ _ K)|]. rewrite En. exact Al. }
  rewrite En in ROWS |- *. rewrite En in SR, SC, ER, EC.
  destruct (full_blocks_spec 8 (kf_start_col p) (kernel_end_col 8 p) ltac:(lia) ltac:(lia)) as (B0 & B1 & B2). set (blocks := full_blocks 8 (kf_start_col p) (kernel_end_col 8 p)) in *.
  assert (AL : forall t, (kf_start_col p + 8 * t) mod 8 = 0) by (intros t; pose proof (step_aligned (kf_start_col p) t (kq_start_col_al _ _ _ _ K)) as Q; rewrite En in Q; exact Q).
  match goal with |- exists d', bind (forto 0 blocks ?f d) _ = _ /\ _ =>
    destruct (loop_cols V dl P (kq_dl _ _ _ _ K) f 8 blocks (kf_start_row p) (kernel_end_row 8 p) (kf_start_col p) (kernel_end_col 8 p) d) as (x & E & W); try lia end.
  - intros t y Ht Ly LT. destruct (ROWS true 8 (kf_start_col p + 8 * t) y) as (z & Ez & Wz); try lia; [apply AL|]. exists z. split; [exact Ez|]. rewrite Z.min_l by lia. exact Wz.
  - rewrite E. cbn [bind]. rewrite Z.min_l in W by lia. destruct (Z.ltb_spec (kf_start_col p + 8 * blocks) (kernel_end_col 8 p)) as [LT|GE].
    + rewrite !dcheck_ok by lia. cbn [bind]. rewrite Z.min_l by lia.
      destruct (ROWS false (kernel_end_col 8 p - (kf_start_col p + 8 * blocks)) (kf_start_col p + 8 * blocks) x) as (y & E2 & W2); try lia; [destruct W; lia|apply AL|]. exists y. split; [exact E2|].
      replace (kf_start_col p + 8 * blocks + (kernel_end_col 8 p - (kf_start_col p + 8 * blocks))) with (kernel_end_col 8 p) in W2 by lia.
      apply (join_cols V dl P (kq_dl _ _ _ _ K) _ _ _ (kf_start_col p + 8 * blocks) _ d x y); try assumption; lia.
    + exists x. split; [reflexivity|]. replace (kernel_end_col 8 p) with (kf_start_col p + 8 * blocks) by lia. exact W.
Qed.

(** One half of a block of sixteen columns. *)
Lemma half_512_ok : forall store m row col mmm d, n = 16 -> stores m store -> flat dl <= blen d -> 0 <= row < kernel_end_row n p -> row mod n = 0 ->
  0 <= col -> col mod n = 0 -> col + 16 <= kernel_end_col n p -> 0 <= mmm < 2 -> 0 <= m <= n -> row + m <= ml_rows dl ->
  exists d', half_512 fs p store row col mmm d = Ok d' /\ computed dl P (in_rect row (row + m) (col + 8 * mmm) (col + 8 * mmm + 8)) d d'.
Proof.
  intros store m row col mmm d En St F Hr Ar Hc Ac Hc16 Hm Hmn Hrm. unfold half_512. destruct end_rows as (ER & EC).
  assert (D1 : 1 <= D) by exact (kq_depth _ _ _ _ K).
  pose proof (initial_ok row col (8 * mmm) Hr Ar ltac:(lia) Ac ltac:(lia)) as I0. rewrite En in I0. rewrite I0. cbn [bind]. fold D.
  rewrite (depth_loop _ row (col + 8 * mmm) (D - 1)); [|lia|].
  2:{ intros k Hk. apply step_512_ok; try assumption; lia. }
  cbn [bind]. rewrite Z.max_r by lia. rewrite step_512_ok by (try assumption; lia). cbn [bind]. replace (D - 1 + 1) with D by lia.
  rewrite (kq_dst_ptr _ _ _ _ K), (kq_stride _ _ _ _ K).
  destruct (store_accums_ok _ m 8 row col (8 * mmm) d St F) as (d' & E & W); try lia. exists d'. rewrite En in E. split; [|exact W]. rewrite <- E. f_equal. lia.
Qed.

Lemma halves : forall f a b c d x, 0 <= a -> b <= ml_rows dl -> 0 <= c <= d -> d <= ml_cols dl ->
  (forall mmm y, 0 <= mmm < 2 -> blen y = blen x -> exists z, f mmm y = Ok z /\ computed dl P (in_rect a b (c + 8 * mmm) (Z.min (c + 8 * mmm + 8) d)) y z) ->
  exists z, forto 0 2 f x = Ok z /\ computed dl P (in_rect a b c (Z.min (c + 16) d)) x z.
Proof.
  intros f a b c d x Ha Hb Hc Hd H. destruct (H 0 x ltac:(lia) eq_refl) as (y & E1 & W1). destruct (H 1 y ltac:(lia) (proj1 W1)) as (z & E2 & W2).
  exists z. split; [unfold forto, forr; cbn [zseq Z.to_nat Z.sub]; change (Z.to_nat (2 - 0)) with 2%nat; cbn; rewrite E1; cbn; rewrite E2; reflexivity|].
  destruct (Z_le_gt_dec d (c + 8)) as [LE|GT].
  - replace (c + 8 * 0) with c in W1 by lia. replace (Z.min (c + 16) d) with (Z.min (c + 8) d) by lia.
    apply (computed_trans dl P _ _ _ _ _ _ (kq_dl _ _ _ _ K) W1 W2); unfold in_rect, inside; intros i j; try lia. apply rect_dec.
  - replace (c + 8 * 0) with c in W1 by lia. replace (c + 8 * 1) with (c + 8) in W2 by lia. rewrite Z.min_l in W1 by lia. replace (c + 8 + 8) with (c + 16) in W2 by lia.
    apply (join_cols V dl P (kq_dl _ _ _ _ K) a b c (c + 8) _ x y z); try assumption; lia.
Qed.

Lemma partial_half_ok : forall row col mmm d, n = 16 -> flat dl <= blen d -> 0 <= row < kernel_end_row n p -> row mod n = 0 ->
  0 <= col < kernel_end_col n p -> col mod n = 0 -> 0 <= mmm < 2 ->
  exists d', partial_half_512 fs p row col mmm d = Ok d' /\
    computed dl P (in_rect row (Z.min (row + 16) (kernel_end_row n p)) (col + 8 * mmm) (Z.min (col + 8 * mmm + 8) (kernel_end_col n p))) d d'.
Proof.
  intros row col mmm d En F Hr Ar Hc Ac Hm. unfold partial_half_512. destruct end_rows as (ER & EC).
  assert (D1 : 1 <= D) by exact (kq_depth _ _ _ _ K).
  pose proof (initial_ok row col (8 * mmm) Hr Ar ltac:(lia) Ac ltac:(lia)) as I0. rewrite En in I0. rewrite I0. cbn [bind]. fold D.
  rewrite (depth_loop _ row (col + 8 * mmm) D); [|lia|].
  2:{ intros k Hk. apply step_512_ok; try assumption; lia. }
  cbn [bind]. rewrite (kq_dst_ptr _ _ _ _ K), (kq_stride _ _ _ _ K). rewrite En in Hr, Hc, ER, EC |- *.
  set (m := Z.min (kernel_end_row 16 p - row) 16). set (rc := Z.min (kernel_end_col 16 p - col - 8 * mmm) 8).
  assert (St : stores m (if m =? 16 then fstore else fmask_store (row_mask m))).
  { destruct (Z.eqb_spec m 16) as [B|B]; [|apply mask_stores; [exact En|unfold m; lia]]. pose proof full_stores as FS. replace m with n by lia. exact FS. }
  destruct (store_accums_ok' _ m rc row col (8 * mmm) d St F) as (d' & E & W); try (unfold m, rc; lia).
  exists d'. rewrite En in E. split; [rewrite <- E; f_equal; lia|].
  replace (Z.min (row + 16) (kernel_end_row 16 p)) with (row + m) by (unfold m; lia).
  replace (Z.min (col + 8 * mmm + 8) (kernel_end_col 16 p)) with (col + 8 * mmm + rc) by (unfold rc; lia). exact W.
Qed.

Lemma avx512_ok : forall dbg d, n = 16 -> flat dl <= blen d ->
  exists d', kernel_float_avx512 fs dbg p d = Ok d' /\ computed dl P (in_rect (kf_start_row p) (kernel_end_row n p) (kf_start_col p) (kernel_end_col n p)) d d'.
Proof.
  intros dbg d En F. unfold kernel_float_avx512. destruct end_rows as (ER & EC). pose proof (kq_start_row _ _ _ _ K) as SR. pose proof (kq_start_col _ _ _ _ K) as SC.
  assert (ALC : forall t, (kf_start_col p + 16 * t) mod n = 0) by (intros t; rewrite <- En; apply step_aligned, (kq_start_col_al _ _ _ _ K)).
  assert (ALR : forall t, (kf_start_row p + 16 * t) mod n = 0) by (intros t; rewrite <- En; apply step_aligned, (kq_start_row_al _ _ _ _ K)).
  rewrite En in SR, SC, ER, EC |- *.
  destruct (full_blocks_spec 16 (kf_start_col p) (kernel_end_col 16 p) ltac:(lia) ltac:(lia)) as (B0 & B1 & B2). set (cb := full_blocks 16 (kf_start_col p) (kernel_end_col 16 p)) in *.
  destruct (full_blocks_spec 16 (kf_start_row p) (kernel_end_row 16 p) ltac:(lia) ltac:(lia)) as (A0 & A1 & A2). set (rb := full_blocks 16 (kf_start_row p) (kernel_end_row 16 p)) in *.
  assert (HALVES : forall store m row col x, stores m store -> flat dl <= blen x -> 0 <= row < kernel_end_row 16 p -> row mod n = 0 ->
    0 <= col -> col mod n = 0 -> col + 16 <= kernel_end_col 16 p -> 0 <= m <= 16 -> row + m <= ml_rows dl ->
    exists y, forto 0 2 (fun mmm dst => half_512 fs p store row col mmm dst) x = Ok y /\ computed dl P (in_rect row (row + m) col (col + 16)) x y).
  { intros store m row col x St Fx Hr Ar Hc Ac Hc16 Hm Hrm.
    destruct (halves (fun mmm dst => half_512 fs p store row col mmm dst) row (row + m) col (col + 16) x) as (y & E & W); try lia.
    - intros mmm y Hmm Ly. rewrite Z.min_l by lia. apply half_512_ok; rewrite ?En; try assumption; lia.
    - exists y. split; [exact E|]. rewrite Z.min_l in W by lia. exact W. }
  cbv zeta.
  match goal with |- exists d', bind (forto 0 cb ?f d) _ = _ /\ _ =>
    destruct (loop_cols V dl P (kq_dl _ _ _ _ K) f 16 cb (kf_start_row p) (kernel_end_row 16 p) (kf_start_col p) (kernel_end_col 16 p) d) as (x & E & W); try lia end.
  - intros t y Ht Ly LT. rewrite Z.min_l by lia. set (col := kf_start_col p + 16 * t).
    match goal with |- exists z, bind (forto 0 rb ?f y) _ = _ /\ _ =>
      destruct (loop_rows V dl P (kq_dl _ _ _ _ K) f 16 rb (kf_start_row p) (kernel_end_row 16 p) col (col + 16) y) as (x & E & W); try (unfold col; lia) end.
    + intros s u Hs Lu LTs. rewrite Z.min_l by lia. pose proof full_stores as FS. rewrite En in FS. apply HALVES; try apply ALR; try apply ALC; try assumption; unfold col; lia.
    + rewrite E. cbn [bind]. rewrite Z.min_l in W by lia. destruct (Z.ltb_spec (kf_start_row p + 16 * rb) (kernel_end_row 16 p)) as [LTr|GEr].
      * set (row := kf_start_row p + 16 * rb) in *.
        destruct (HALVES (fmask_store (row_mask (kernel_end_row 16 p - row))) (kernel_end_row 16 p - row) row col x) as (z & E2 & W2);
          try apply ALR; try apply ALC; try (unfold col; lia); [apply mask_stores; [exact En|lia]|destruct W; lia|].
        exists z. split; [exact E2|]. replace (row + (kernel_end_row 16 p - row)) with (kernel_end_row 16 p) in W2 by lia.
        apply (join_rows V dl P (kq_dl _ _ _ _ K) _ row _ _ _ y x z); try assumption; unfold col; lia.
      * exists x. split; [reflexivity|]. replace (kernel_end_row 16 p) with (kf_start_row p + 16 * rb) by lia. exact W.
  - rewrite E. cbn [bind]. rewrite Z.min_l in W by lia. destruct (Z.ltb_spec (kf_start_col p + 16 * cb) (kernel_end_col 16 p)) as [LT|GE].
    + rewrite !dcheck_ok by lia. cbn [bind]. set (col := kf_start_col p + 16 * cb) in *.
      match goal with |- exists d', forstep _ _ 16 ?f x = _ /\ _ =>
        destruct (step_rows V dl P (kq_dl _ _ _ _ K) f 16 (kf_start_row p) (kernel_end_row 16 p) col (kernel_end_col 16 p) x) as (y & E2 & W2); try lia end.
      * intros row u Lu Hrow Al.
        destruct (halves (fun mmm dst => partial_half_512 fs p row col mmm dst) row (Z.min (row + 16) (kernel_end_row 16 p)) col (kernel_end_col 16 p) u) as (v & Ev & Wv); try lia.
        -- intros mmm w Hmm Lw. pose proof (partial_half_ok row col mmm w En) as Q. rewrite En in Q. apply Q; try lia.
           ++ destruct W; lia.
           ++ rewrite <- En. rewrite <- En in Al. apply (sub_aligned (kf_start_row p)); [apply (kq_start_row_al _ _ _ _ K)|exact Al].
           ++ rewrite <- En. apply ALC.
        -- exists v. split; [exact Ev|]. rewrite (Z.min_r (col + 16)) in Wv by lia. exact Wv.
      * exists y. split; [exact E2|]. apply (join_cols V dl P (kq_dl _ _ _ _ K) _ _ _ col _ d x y); try assumption; lia.
    + exists x. split; [reflexivity|]. replace (kernel_end_col 16 p) with (kf_start_col p + 16 * cb) by lia. exact W.
Qed.
End Tiles.
