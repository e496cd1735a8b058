(** The loops of Kernel8bit.v over any instruction sequences satisfying [isa_ok]: the
    values of the accumulators, and the parts of the destination written. *)
From Coq Require Import ZArith List Bool Lia.
From Verif Require Import Base SidePair Mat Scalars IntOps MulParams Kernel MatFacts SpecPack IntEntryFacts.
From Verif Require Import Simd SimdRequant SimdFacts RequantFacts Kernel8bit Kernel8bitIsa Kernel8bitAvx2Facts.
Import ListNotations.
Open Scope Z_scope.

(** ** Lists *)

Definition vrow (m : nat) (f : nat -> Z) : list Z := map f (seq 0 m).
Definition block (m : nat) (f : nat -> nat -> Z) : list (list Z) := map (fun j => vrow m (fun i => f i j)) (seq 0 m).

Lemma vrow_length : forall m f, length (vrow m f) = m.
Proof. intros. unfold vrow. rewrite map_length, seq_length. reflexivity. Qed.

Lemma block_length : forall m f, length (block m f) = m.
Proof. intros. unfold block. rewrite map_length, seq_length. reflexivity. Qed.

Lemma block_rows : forall m f, Forall (fun a => length a = m) (block m f).
Proof.
  intros. unfold block. apply Forall_forall. intros a Ha. apply in_map_iff in Ha. destruct Ha as (j & <- & _). apply vrow_length.
Qed.

Lemma map2_same : forall {A B C D} (h : B -> C -> D) (f : A -> B) (g : A -> C) s,
  map2 h (map f s) (map g s) = map (fun x => h (f x) (g x)) s.
Proof. intros A B C D h f g. induction s; cbn [map map2]; [reflexivity | f_equal; assumption]. Qed.

Lemma map2_same_l : forall {A C D} (h : A -> C -> D) (g : A -> C) s,
  map2 h s (map g s) = map (fun x => h x (g x)) s.
Proof. intros A C D h g. induction s; cbn [map map2]; [reflexivity | f_equal; assumption]. Qed.

Lemma map2_same_r : forall {A C D} (h : C -> A -> D) (g : A -> C) s,
  map2 h (map g s) s = map (fun x => h (g x) x) s.
Proof. intros A C D h g. induction s; cbn [map map2]; [reflexivity | f_equal; assumption]. Qed.

Lemma map3_same : forall {A B C D E} (h : B -> C -> D -> E) (f : A -> B) (g : A -> C) (k : A -> D) s,
  map3 h (map f s) (map g s) (map k s) = map (fun x => h (f x) (g x) (k x)) s.
Proof. intros A B C D E h f g k. induction s; cbn [map map3]; [reflexivity | f_equal; assumption]. Qed.

Lemma repeat_seq : forall {A} (z : A) m a, repeat z m = map (fun _ => z) (seq a m).
Proof. intros A z. induction m; intros a; cbn [repeat seq map]; [reflexivity | f_equal; apply IHm]. Qed.

Lemma repeat_vrow : forall z m, repeat z m = vrow m (fun _ => z).
Proof. intros. apply repeat_seq. Qed.

Lemma nth_map_seq : forall {A} (f : nat -> A) m q d, (q < m)%nat -> nth q (map f (seq 0 m)) d = f q.
Proof.
  intros. rewrite nth_indep with (d' := f 0%nat) by (rewrite map_length, seq_length; assumption).
  rewrite map_nth, seq_nth by assumption. reflexivity.
Qed.

Lemma vrow_nth : forall m f q, (q < m)%nat -> nth q (vrow m f) 0 = f q.
Proof. intros. apply nth_map_seq. assumption. Qed.

Lemma zseq_seq : forall m a, zseq a m = map (fun i => a + Z.of_nat i) (seq 0 m).
Proof.
  intros m a. cut (forall b, zseq (a + Z.of_nat b) m = map (fun i => a + Z.of_nat i) (seq b m)).
  - intros H. rewrite <- (H 0%nat). f_equal. lia.
  - induction m; intros b; cbn [zseq seq map]; [reflexivity|]. f_equal. rewrite <- IHm. f_equal. lia.
Qed.

Lemma L4_ext : forall m f g, (forall i, (i < m)%nat -> wrap_u 32 (f i) = wrap_u 32 (g i)) -> L4 (vrow m f) = L4 (vrow m g).
Proof.
  intros m f g H. unfold L4. apply of_lanes_ext. rewrite width4. unfold vrow. rewrite !map_map. apply map_ext_in.
  intros i Hi. apply H. apply in_seq in Hi. lia.
Qed.

Lemma block_ext : forall m f g, (forall i j, (i < m)%nat -> (j < m)%nat -> wrap_u 32 (f i j) = wrap_u 32 (g i j)) ->
  map L4 (block m f) = map L4 (block m g).
Proof.
  intros m f g H. unfold block. rewrite !map_map. apply map_ext_in. intros j Hj. apply L4_ext. intros i Hi. apply H; [assumption|].
  apply in_seq in Hj. lia.
Qed.

Lemma Forall_vrow : forall (P : Z -> Prop) m f, (forall i, (i < m)%nat -> P (f i)) -> Forall P (vrow m f).
Proof.
  intros P m f H. apply Forall_forall. intros x Hx. apply in_map_iff in Hx. destruct Hx as (i & <- & Hi). apply H. apply in_seq in Hi. lia.
Qed.

(** ** Memory *)

Definition span (b : buf Z) (off : Z) (i : nat) : Z := bdat b (off + Z.of_nat i).

Lemma load_ok : forall w m b off, 0 <= off -> off + m <= blen b ->
  load w m b off = Ok (of_lanes w (vrow (Z.to_nat m) (span b off))).
Proof.
  intros w m b off H1 H2. unfold load. replace (_ && _) with true by lia. unfold zrange. rewrite zseq_seq, map_map.
  replace (off + m - off) with m by lia. reflexivity.
Qed.

Lemma load_aligned_ok : forall align w m b off, (Z.of_nat w * off) mod align = 0 -> 0 <= off -> off + m <= blen b ->
  load_aligned align w m b off = Ok (of_lanes w (vrow (Z.to_nat m) (span b off))).
Proof. intros. unfold load_aligned. rewrite H. cbn [Z.eqb]. apply load_ok; assumption. Qed.

Lemma scalar_index_ok : forall size q, 0 < size -> scalar_index size (size * q) = Ok q.
Proof.
  intros. unfold scalar_index. rewrite (Z.mul_comm size q), Z_mod_mult, Z_div_mult by lia. reflexivity.
Qed.

Lemma write_list_ok : forall l off b, 0 <= off -> off + Z.of_nat (length l) <= blen b ->
  exists b', write_list l off b = Ok b' /\ blen b' = blen b /\
    forall q, bdat b' q = if (off <=? q) && (q <? off + Z.of_nat (length l)) then nth (Z.to_nat (q - off)) l 0 else bdat b q.
Proof.
  induction l as [|x l IH]; intros off b H1 H2; cbn [write_list length] in *.
  - exists b. split; [reflexivity|]. split; [reflexivity|]. intros q. replace (_ && _) with false by lia. reflexivity.
  - destruct (bwrite_ok b off x) as (b1 & E1 & L1 & D1); [lia|]. rewrite E1. cbn [bind].
    destruct (IH (off + 1) b1) as (b2 & E2 & L2 & D2); [lia | rewrite L1; lia|].
    exists b2. split; [exact E2|]. split; [congruence|]. intros q. rewrite D2, D1.
    destruct (Z.eq_dec q off) as [-> |].
    + replace (off + 1 <=? off) with false by lia. cbn [andb]. rewrite Z.eqb_refl.
      replace (_ && _) with true by lia. replace (Z.to_nat (off - off)) with 0%nat by lia. reflexivity.
    + replace (q =? off) with false by lia.
      replace ((off <=? q) && (q <? off + Z.of_nat (S (length l)))) with ((off + 1 <=? q) && (q <? off + 1 + Z.of_nat (length l))) by lia.
      destruct (_ && _) eqn:E; [|reflexivity].
      replace (Z.to_nat (q - off)) with (S (Z.to_nat (q - (off + 1)))) by lia. reflexivity.
Qed.

(** ** Values *)

Definition packed_at (n : Z) (b : buf Z) (stride k c : Z) : Z :=
  bdat b (c / n * (n * stride) + k / 4 * (4 * n) + c mod n * 4 + k mod 4).

Definition chan_at (p : kparams) (i j : Z) : Z := if k_channel_is_col p then j else i.

Definition initial_at (p : kparams) (i j : Z) : Z :=
  k_prod_zp_depth p + (if k_has_bias p then bdat (k_bias p) (chan_at p i j) else 0)
  - (if k_has_lhs_sums p && negb (k_rhs_zp p =? 0) then k_rhs_zp p * bdat (k_lhs_sums p) i else 0)
  - (if has_rhs_sums_offsets p then k_lhs_zp p * bdat (k_rhs_sums p) j else 0).

Definition dot_upto (n : Z) (p : kparams) (rs d i j : Z) : Z :=
  zsum (map (fun k => packed_at n (k_lhs p) (k_lhs_stride p) k i * packed_at n (k_rhs p) rs k j) (zrange 0 d)).

Definition acc_at (n : Z) (p : kparams) (rs i j : Z) : Z := initial_at p i j + dot_upto n p rs (k_depth p) i j.

Definition mult_at (p : kparams) (i j : Z) : Z := bdat (k_mult p) (if k_has_perchannel p then chan_at p i j else 0).
Definition exp_at (p : kparams) (i j : Z) : Z := bdat (k_exp p) (if k_has_perchannel p then chan_at p i j else 0).

Definition out_at (n : Z) (p : kparams) (rs i j : Z) : Z :=
  if ity_eqb (k_dst_type p) s32 then acc_at n p rs i j
  else Z.max (Z.min (wrap_s 32 (x86_lane (acc_at n p rs i j) (mult_at p i j) (exp_at p i j) + k_dst_zp p)) (k_clamp_max p)) (k_clamp_min p).

Definition stored_at (n : Z) (p : kparams) (rs i j : Z) : Z := it_conv (k_dst_type p) (out_at n p rs i j).

(** ** Hypotheses *)

Record kparams_ok (v : isa) (wide : bool) (p : kparams) (rs ds len : Z) : Prop := {
  kp_type : dst_type (k_dst_type p);
  kp_size : rhs_size_ok wide (k_rhs_size p);
  kp_depth : 0 <= k_depth p /\ k_depth p mod 4 = 0;
  kp_lstride : k_depth p <= k_lhs_stride p /\ k_lhs_stride p mod 4 = 0 /\ v_n v * k_lhs_stride p <= int_max;
  kp_rstride : k_depth p <= rs /\ rs mod 4 = 0 /\ k_rhs_stride p = k_rhs_size p * rs /\ v_n v * k_rhs_stride p <= int_max;
  kp_dstride : k_dst_rows p <= ds /\ k_dst_stride p = it_size (k_dst_type p) * ds /\ v_n v * k_dst_stride p <= int_max;
  kp_rows : 0 <= k_start_row p <= k_last_row p /\ k_last_row p < k_dst_rows p /\
            k_start_row p mod v_n v = 0 /\ k_last_row p mod v_n v = 0;
  kp_cols : 0 <= k_start_col p <= k_last_col p /\ k_last_col p < k_dst_cols p /\
            k_start_col p mod v_n v = 0 /\ k_last_col p mod v_n v = 0;
  kp_lbase : k_lhs_base p = k_start_row p * k_lhs_stride p;
  kp_rbase : k_rhs_base p = k_rhs_size p * (k_start_col p * rs);
  kp_dbase : k_dst_base p = it_size (k_dst_type p) * (k_start_col p * ds + k_start_row p);
  kp_lhs : (k_last_row p + v_n v) * k_lhs_stride p <= blen (k_lhs p);
  kp_rhs : (k_last_col p + v_n v) * rs <= blen (k_rhs p);
  kp_lhs_bits : forall q, 0 <= q < blen (k_lhs p) -> in_bits 8 (bdat (k_lhs p) q);
  kp_rhs_bits : forall q, 0 <= q < blen (k_rhs p) -> in_bits (8 * k_rhs_size p) (bdat (k_rhs p) q);
  kp_lsums : k_has_lhs_sums p && negb (k_rhs_zp p =? 0) = true -> k_last_row p + v_n v <= blen (k_lhs_sums p);
  kp_rsums : has_rhs_sums_offsets p = true -> k_last_col p + v_n v <= blen (k_rhs_sums p);
  kp_bias : k_has_bias p = true -> chan_at p (k_last_row p) (k_last_col p) + v_n v <= blen (k_bias p);
  kp_nobias : k_has_bias p = false -> v_n v <= blen (k_bias p) /\ forall q, bdat (k_bias p) q = 0;
  kp_mult : k_dst_type p <> s32 ->
            (if k_has_perchannel p then chan_at p (k_last_row p) (k_last_col p) else 0) + v_n v <= blen (k_mult p) /\
            forall q, 0 <= q < (if k_has_perchannel p then chan_at p (k_last_row p) (k_last_col p) else 0) + v_n v -> is_mult (bdat (k_mult p) q);
  kp_exp : k_dst_type p <> s32 ->
            (if k_has_perchannel p then chan_at p (k_last_row p) (k_last_col p) else 0) + v_n v <= blen (k_exp p) /\
            forall q, 0 <= q < (if k_has_perchannel p then chan_at p (k_last_row p) (k_last_col p) else 0) + v_n v -> is_exp (bdat (k_exp p) q);
  kp_const : k_has_perchannel p = false ->
            (forall q, bdat (k_mult p) q = bdat (k_mult p) 0) /\ (forall q, bdat (k_exp p) q = bdat (k_exp p) 0);
  kp_clamp : int_min <= k_clamp_min p <= int_max /\ int_min <= k_clamp_max p <= int_max;
  kp_dst : (k_dst_cols p - 1) * ds + k_dst_rows p <= len
}.

(** The destination after the entries with [P i j] are written. *)
Record filled (val : Z -> Z -> Z) (rows ds : Z) (P : Z -> Z -> bool) (dst dst' : buf Z) : Prop := {
  fl_len : blen dst' = blen dst;
  fl_in : forall i j, 0 <= i < rows -> P i j = true -> bdat dst' (j * ds + i) = val i j;
  fl_out : forall q, (forall i j, 0 <= i < rows -> P i j = true -> q <> j * ds + i) -> bdat dst' q = bdat dst q
}.

Lemma filled_refl : forall val rows ds dst, filled val rows ds (fun _ _ => false) dst dst.
Proof. intros. constructor; intros; [reflexivity | discriminate | reflexivity]. Qed.

Lemma filled_ext : forall val rows ds P Q a b, (forall i j, 0 <= i < rows -> P i j = Q i j) ->
  filled val rows ds P a b -> filled val rows ds Q a b.
Proof.
  intros val rows ds P Q a b E [H1 H2 H3]. constructor; [exact H1 | intros; apply H2; [assumption | rewrite E; assumption] |].
  intros q Hq. apply H3. intros i j Hi Hp. apply Hq; [assumption | rewrite <- E; assumption].
Qed.

Lemma filled_trans : forall val rows ds P Q a b c, rows <= ds ->
  filled val rows ds P a b -> filled val rows ds Q b c -> filled val rows ds (fun i j => P i j || Q i j) a c.
Proof.
  intros val rows ds P Q a b c Hr [A1 A2 A3] [B1 B2 B3]. constructor.
  - congruence.
  - intros i j Hi Hpq. destruct (Q i j) eqn:Eq; [apply B2; assumption|]. rewrite B3.
    + apply A2; [assumption|]. destruct (P i j); [reflexivity | discriminate].
    + intros i' j' Hi' Hq' E. assert (j = j').
      { assert (j <= j') by nia. assert (j' <= j) by nia. lia. }
      subst j'. assert (i = i') by lia. subst i'. congruence.
  - intros q Hq. rewrite B3.
    + apply A3. intros i j Hi Hp. apply Hq; [assumption|]. rewrite Hp. reflexivity.
    + intros i j Hi Hp. apply Hq; [assumption|]. rewrite Hp, orb_true_r. reflexivity.
Qed.

Section Generic.
Variables (v : isa) (wide : bool).
Hypothesis Hv : isa_ok v wide.
Variables (p : kparams) (rs ds len : Z).
Hypothesis Hp : kparams_ok v wide p rs ds len.
Let n := v_n v.
Let nn := v_nat v.

Lemma n_pos : 8 <= n <= 16 /\ n mod 8 = 0 /\ Z.of_nat nn = n.
Proof. unfold nn, v_nat, n. destruct (ok_n _ _ Hv) as [-> | ->]; repeat split; lia. Qed.

Lemma set1_row : forall z, v_set1 v z = L4 (vrow nn (fun _ => z)).
Proof. intros. unfold v_set1, set1. rewrite repeat_vrow. reflexivity. Qed.

Lemma load4 : forall b off, 0 <= off -> off + n <= blen b -> load 4 n b off = Ok (L4 (vrow nn (span b off))).
Proof. intros. rewrite load_ok by assumption. reflexivity. Qed.

Lemma add_rows : forall f g, v_add v (L4 (vrow nn f)) (L4 (vrow nn g)) = L4 (vrow nn (fun i => f i + g i)).
Proof. intros. rewrite (ok_add _ _ Hv) by apply vrow_length. unfold vrow. rewrite map2_same. reflexivity. Qed.
Lemma sub_rows : forall f g, v_sub v (L4 (vrow nn f)) (L4 (vrow nn g)) = L4 (vrow nn (fun i => f i - g i)).
Proof. intros. rewrite (ok_sub _ _ Hv) by apply vrow_length. unfold vrow. rewrite map2_same. reflexivity. Qed.
Lemma mullo_rows : forall f g, v_mullo v (L4 (vrow nn f)) (L4 (vrow nn g)) = L4 (vrow nn (fun i => f i * g i)).
Proof. intros. rewrite (ok_mullo _ _ Hv) by apply vrow_length. unfold vrow. rewrite map2_same. reflexivity. Qed.
Lemma min_rows : forall f g, v_min v (L4 (vrow nn f)) (L4 (vrow nn g)) = L4 (vrow nn (fun i => Z.min (wrap_s 32 (f i)) (wrap_s 32 (g i)))).
Proof. intros. rewrite (ok_min _ _ Hv) by apply vrow_length. unfold vrow. rewrite map2_same. reflexivity. Qed.
Lemma max_rows : forall f g, v_max v (L4 (vrow nn f)) (L4 (vrow nn g)) = L4 (vrow nn (fun i => Z.max (wrap_s 32 (f i)) (wrap_s 32 (g i)))).
Proof. intros. rewrite (ok_max _ _ Hv) by apply vrow_length. unfold vrow. rewrite map2_same. reflexivity. Qed.

(** A block of rows, of columns. *)
Definition in_rows (row : Z) : Prop := k_start_row p <= row <= k_last_row p /\ row mod n = 0.
Definition in_cols (col : Z) : Prop := k_start_col p <= col <= k_last_col p /\ col mod n = 0.

Definition offset_row (col : Z) : list Z := vrow nn (fun j => wrap_s 32 (k_lhs_zp p * span (k_rhs_sums p) col j)).

Lemma rhs_sums_offsets_ok : forall col, in_cols col -> has_rhs_sums_offsets p = true ->
  rhs_sums_offsets v p col = Ok (offset_row col).
Proof.
  intros col [Hc _] Ho. unfold rhs_sums_offsets. pose proof (kp_rsums _ _ _ _ _ _ Hp Ho). pose proof (kp_cols _ _ _ _ _ _ Hp).
  fold n in H, H0 |- *. rewrite load4 by lia. cbn [bind]. rewrite set1_row, mullo_rows. unfold L4. rewrite slanes_of_lanes by lia.
  rewrite width4. unfold vrow. rewrite map_map. reflexivity.
Qed.

Definition offsets_for (col : Z) : list Z := if has_rhs_sums_offsets p then offset_row col else [].

Lemma wrap_sub : forall a b, wrap_u 32 (a - wrap_s 32 b) = wrap_u 32 (a - b).
Proof.
  intros a b. destruct (wrap_s32_form b) as [k ->]. unfold wrap_u.
  replace (a - (b + k * 2 ^ 32)) with (a - b + (- k) * 2 ^ 32) by ring. apply Z.mod_add. discriminate.
Qed.

Lemma wrap_sub_add : forall a b c, wrap_u 32 (a - wrap_s 32 b + c) = wrap_u 32 (a - b + c).
Proof.
  intros a b c. destruct (wrap_s32_form b) as [k ->]. unfold wrap_u.
  replace (a - (b + k * 2 ^ 32) + c) with (a - b + c + (- k) * 2 ^ 32) by ring. apply Z.mod_add. discriminate.
Qed.

Lemma subtract_ok : forall row f, in_rows row ->
  subtract_lhs_sums v p row (L4 (vrow nn f)) =
  Ok (L4 (vrow nn (fun i => f i - (if k_has_lhs_sums p && negb (k_rhs_zp p =? 0) then k_rhs_zp p * span (k_lhs_sums p) row i else 0)))).
Proof.
  intros row f [Hr _]. unfold subtract_lhs_sums. destruct (_ && _) eqn:E.
  - pose proof (kp_lsums _ _ _ _ _ _ Hp E). pose proof (kp_rows _ _ _ _ _ _ Hp). fold n in H, H0 |- *.
    rewrite load4 by lia. cbn [bind]. rewrite set1_row, mullo_rows, sub_rows. reflexivity.
  - f_equal. f_equal. unfold vrow. apply map_ext. intros. lia.
Qed.

Lemma map_row : forall {A B} (f : nat -> A) (g : A -> B), map g (map f (seq 0 nn)) = map (fun i => g (f i)) (seq 0 nn).
Proof. intros. apply map_map. Qed.

Lemma initial_ok : forall row col, in_rows row -> in_cols col ->
  initial_accumulators v p (offsets_for col) row col =
  Ok (map L4 (block nn (fun i j => initial_at p (row + Z.of_nat i) (col + Z.of_nat j)))).
Proof.
  intros row col Hr Hc. unfold initial_accumulators. fold n. pose proof n_pos as (Hn1 & Hn2 & Hn3).
  pose proof (kp_rows _ _ _ _ _ _ Hp) as R. pose proof (kp_cols _ _ _ _ _ _ Hp) as C. pose proof (kp_bias _ _ _ _ _ _ Hp) as B.
  fold n in R, C, B. unfold chan_at in B.
  set (bias_row := fun i => if k_has_bias p && negb (k_channel_is_col p) then span (k_bias p) row i else 0).
  assert (E1 : (if k_has_bias p && negb (k_channel_is_col p)
              then b <- load 4 n (k_bias p) row ;; Ok (v_add v (v_set1 v (k_prod_zp_depth p)) b)
              else Ok (v_set1 v (k_prod_zp_depth p))) = Ok (L4 (vrow nn (fun i => k_prod_zp_depth p + bias_row i)))).
  { unfold bias_row. destruct (k_has_bias p) eqn:Eb, (k_channel_is_col p) eqn:Ec; cbn [andb negb];
      try (rewrite set1_row; f_equal; f_equal; unfold vrow; apply map_ext; intros; lia).
    specialize (B eq_refl). destruct Hr as [Hr _]. rewrite load4 by lia. cbn [bind]. rewrite set1_row, add_rows. reflexivity. }
  rewrite E1. cbn [bind]. rewrite subtract_ok by assumption. cbn [bind].
  match goal with |- context [L4 (vrow nn ?f)] => set (ini := f) end.
  set (off := fun j => if has_rhs_sums_offsets p then wrap_s 32 (k_lhs_zp p * span (k_rhs_sums p) col j) else 0).
  assert (E2 : (if has_rhs_sums_offsets p then map (fun o => v_sub v (L4 (vrow nn ini)) (v_set1 v o)) (offsets_for col)
                else repeat (L4 (vrow nn ini)) (v_nat v)) = map L4 (block nn (fun i j => ini i - off j))).
  { unfold off, offsets_for, offset_row. destruct (has_rhs_sums_offsets p).
    - unfold vrow at 2. rewrite map_row. unfold block. rewrite map_row. apply map_ext. intros j. rewrite set1_row, sub_rows. reflexivity.
    - fold nn. rewrite (repeat_seq _ nn 0). unfold block. rewrite map_row. apply map_ext. intros j. f_equal. unfold vrow. apply map_ext. intros; lia. }
  rewrite E2.
  assert (Hoff : forall i j c, wrap_u 32 (ini i - off j + c) =
     wrap_u 32 (ini i - (if has_rhs_sums_offsets p then k_lhs_zp p * bdat (k_rhs_sums p) (col + Z.of_nat j) else 0) + c)).
  { intros. unfold off. destruct (has_rhs_sums_offsets p); [apply wrap_sub_add | reflexivity]. }
  destruct (k_has_bias p && k_channel_is_col p) eqn:Ebc.
  - apply andb_prop in Ebc. destruct Ebc as [Eb Ec]. rewrite Eb, Ec in B. specialize (B eq_refl). destruct Hc as [Hc _].
    rewrite load4 by lia. cbn [bind]. f_equal. fold nn. rewrite zseq_seq. unfold block. rewrite map_row, map2_same, map_row.
    apply map_ext_in. intros j Hj. apply in_seq in Hj. cbv beta. rewrite (ok_bias _ _ Hv) by (try apply vrow_length; fold n; lia).
    fold nn. rewrite repeat_vrow. replace (Z.to_nat (0 + Z.of_nat j)) with j by lia. rewrite vrow_nth by lia.
    rewrite add_rows. apply L4_ext. intros i Hi. rewrite Hoff. f_equal. unfold ini, initial_at, bias_row, chan_at, span. rewrite Eb, Ec. cbn [andb negb]. lia.
  - f_equal. apply block_ext. intros i j Hi Hj. rewrite <- (Z.add_0_r (ini i - off j)), Hoff. f_equal.
    unfold ini, initial_at, bias_row, chan_at, span. destruct (k_has_bias p), (k_channel_is_col p); cbn [andb negb] in *; try discriminate; lia.
Qed.

(** *** The depth *)

(** Linear arithmetic without the hypotheses on remainders. *)
Ltac lin := repeat match goal with H : context [_ mod _] |- _ => clear H end; clear Hp Hv; lia.

Lemma dot_snoc : forall t i j, 0 <= t -> dot_upto n p rs (4 * (t + 1)) i j =
  dot_upto n p rs (4 * t) i j +
  (packed_at n (k_lhs p) (k_lhs_stride p) (4 * t) i * packed_at n (k_rhs p) rs (4 * t) j +
   packed_at n (k_lhs p) (k_lhs_stride p) (4 * t + 1) i * packed_at n (k_rhs p) rs (4 * t + 1) j +
   (packed_at n (k_lhs p) (k_lhs_stride p) (4 * t + 2) i * packed_at n (k_rhs p) rs (4 * t + 2) j +
    packed_at n (k_lhs p) (k_lhs_stride p) (4 * t + 3) i * packed_at n (k_rhs p) rs (4 * t + 3) j)).
Proof.
  intros t i j Ht. unfold dot_upto. rewrite (zrange_split 0 (4 * t) (4 * (t + 1))) by lia. rewrite map_app, zsum_app.
  rewrite (zrange_cons (4 * t)), (zrange_cons (4 * t + 1)), (zrange_cons (4 * t + 1 + 1)), (zrange_cons (4 * t + 1 + 1 + 1)), (zrange_nil (4 * t + 1 + 1 + 1 + 1)) by lia.
  replace (4 * t + 1 + 1) with (4 * t + 2) by lia. replace (4 * t + 2 + 1) with (4 * t + 3) by lia.
  cbn [map zsum fold_right]. unfold zsum. cbn [fold_right]. ring.
Qed.

Lemma packed_span : forall b stride c t i u, 0 <= t -> c mod n = 0 -> (i < nn)%nat -> 0 <= u < 4 ->
  packed_at n b stride (4 * t + u) (c + Z.of_nat i) = span b (c * stride + 4 * n * t) (4 * i + Z.to_nat u).
Proof.
  intros b stride c t i u Ht Hc Hi Hu. pose proof n_pos as (Hn1 & Hn2 & Hn3). unfold packed_at, span. f_equal.
  assert (Hq : (c + Z.of_nat i) / n = c / n). { rewrite (Z.div_mod c n) at 1 by lia. rewrite Hc. replace (n * (c / n) + 0 + Z.of_nat i) with (Z.of_nat i + c / n * n) by ring. rewrite Z.div_add, Z.div_small by lia. lia. }
  assert (Hm : (c + Z.of_nat i) mod n = Z.of_nat i). { rewrite Z.add_mod, Hc by lia. rewrite Z.add_0_l, Z.mod_mod by lia. apply Z.mod_small. lia. }
  rewrite Hq, Hm. replace ((4 * t + u) / 4) with t by (rewrite Z.mul_comm, Z.div_add_l, (Z.div_small u) by lia; lia).
  replace ((4 * t + u) mod 4) with u by (rewrite Z.mul_comm, Z.add_comm, Z.mod_add, Z.mod_small by lia; lia).
  pose proof (Z.div_mod c n ltac:(lia)) as E. rewrite Hc in E. replace (c * stride) with (c / n * (n * stride)) by (rewrite E at 2; ring).
  rewrite !Nat2Z.inj_add, Nat2Z.inj_mul, Z2Nat.id by lia. change (Z.of_nat 4) with 4. ring.
Qed.

Lemma dot4_packed : forall row col t i j m', 0 <= t -> row mod n = 0 -> col mod n = 0 -> (i < nn)%nat -> (j < nn)%nat -> (4 * j + 4 <= m')%nat ->
  dot4 (vrow (4 * nn) (span (k_lhs p) (row * k_lhs_stride p + 4 * n * t))) i (vrow m' (span (k_rhs p) (col * rs + 4 * n * t))) j =
  dot_upto n p rs (4 * (t + 1)) (row + Z.of_nat i) (col + Z.of_nat j) - dot_upto n p rs (4 * t) (row + Z.of_nat i) (col + Z.of_nat j).
Proof.
  intros row col t i j m' Ht Hr Hc Hi Hj Hm. rewrite dot_snoc by assumption. unfold dot4. rewrite !vrow_nth by lia.
  generalize (dot_upto n p rs (4 * t) (row + Z.of_nat i) (col + Z.of_nat j)). intros d0.
  pose proof (fun b s c i Hc Hi => packed_span b s c t i 0 Ht Hc Hi ltac:(lia)) as PS. rewrite Z.add_0_r in PS.
  rewrite !PS by assumption. rewrite !packed_span by (assumption || lia).
  change (Z.to_nat 0) with 0%nat. change (Z.to_nat 1) with 1%nat. change (Z.to_nat 2) with 2%nat. change (Z.to_nat 3) with 3%nat.
  rewrite !Nat.add_0_r. ring.
Qed.

Lemma size_cases : k_rhs_size p = 1 \/ k_rhs_size p = 2.
Proof. destruct (kp_size _ _ _ _ _ _ Hp) as [H | [_ H]]; auto. Qed.

Lemma aligned : forall c stride t, c mod n = 0 -> stride mod 4 = 0 -> (c * stride + 4 * n * t) mod 32 = 0.
Proof.
  intros c stride t Hc Hs. pose proof n_pos as (Hn1 & Hn2 & Hn3).
  pose proof (Z.div_mod c n ltac:(lia)) as Ec. pose proof (Z.div_mod stride 4 ltac:(lia)) as Es. pose proof (Z.div_mod n 8 ltac:(lia)) as En.
  rewrite Hc in Ec. rewrite Hs in Es. rewrite Hn2 in En. rewrite Ec, Es, En.
  replace ((8 * (n / 8) + 0) * (c / (8 * (n / 8) + 0)) + 0) with (8 * ((n / 8) * (c / (8 * (n / 8) + 0)))) by ring.
  match goal with |- (8 * ?a * (4 * ?b + 0) + 4 * (8 * ?d + 0) * t) mod 32 = 0 => replace (8 * a * (4 * b + 0) + 4 * (8 * d + 0) * t) with ((a * b + d * t) * 32) by ring end.
  apply Z_mod_mult.
Qed.

Lemma align_ok : forall w c stride t, c mod n = 0 -> stride mod 4 = 0 -> (w * (c * stride + 4 * n * t)) mod v_align v = 0.
Proof.
  intros w c stride t Hc Hs. destruct (ok_align _ _ Hv) as [-> | ->]; [apply Z.mod_1_r|].
  rewrite Z.mul_mod, aligned, Z.mul_0_r by (assumption || lia). reflexivity.
Qed.

(** The positions loaded. *)
Lemma inside_packed : forall c last stride len' t m, 0 <= c <= last -> k_depth p <= stride -> 0 <= t -> t < k_depth p / 4 -> m <= 4 * n ->
  (last + n) * stride <= len' -> 0 <= c * stride + 4 * n * t /\ c * stride + 4 * n * t + m <= len'.
Proof.
  intros c last stride len' t m Hc Hs Ht Ht' Hm Hl. pose proof n_pos as (Hn1 & _ & _). pose proof (kp_depth _ _ _ _ _ _ Hp) as [D1 D2].
  pose proof (Z.div_mod (k_depth p) 4 ltac:(lia)) as E. rewrite D2 in E. clear Hp Hv.
  assert (4 * (t + 1) <= stride) by lia. split; [nia|]. assert (4 * n * (t + 1) <= n * stride) by nia. nia.
Qed.

Lemma steps_depth : (k_depth p - 0 + 4 - 1) / 4 = k_depth p / 4 /\ 4 * (k_depth p / 4) = k_depth p /\ 0 <= k_depth p / 4.
Proof.
  pose proof (kp_depth _ _ _ _ _ _ Hp) as [D1 D2]. pose proof (Z.div_mod (k_depth p) 4 ltac:(lia)) as E. rewrite D2 in E.
  split; [|split; [lia | apply Z.div_pos; lia]]. replace (k_depth p - 0 + 4 - 1) with (3 + (k_depth p / 4) * 4) by lia. rewrite Z.div_add by lia. reflexivity.
Qed.

Lemma bits_span : forall w b off m, (forall q, 0 <= q < blen b -> in_bits w (bdat b q)) -> 0 <= off -> off + Z.of_nat m <= blen b ->
  Forall (in_bits w) (vrow m (span b off)).
Proof. intros. apply Forall_vrow. intros i Hi. unfold span. apply H. lia. Qed.

Lemma depth_ok : forall row col ini, in_rows row -> in_cols col ->
  depth_loop v p (row * k_lhs_stride p) (k_rhs_size p * (col * rs)) (map L4 (block nn ini)) =
  Ok (map L4 (block nn (fun i j => ini i j + dot_upto n p rs (k_depth p) (row + Z.of_nat i) (col + Z.of_nat j)))).
Proof.
  intros row col ini [Hr Hrm] [Hc Hcm]. unfold depth_loop, forstep. fold n. destruct steps_depth as (S1 & S2 & S3). rewrite S1.
  pose proof n_pos as (Hn1 & Hn2 & Hn3).
  pose proof (kp_rows _ _ _ _ _ _ Hp) as (R & _). pose proof (kp_cols _ _ _ _ _ _ Hp) as (C & _).
  pose proof (kp_lstride _ _ _ _ _ _ Hp) as (L1 & L2 & _). pose proof (kp_rstride _ _ _ _ _ _ Hp) as (R1 & R2 & _).
  pose proof (kp_lhs _ _ _ _ _ _ Hp) as BL. pose proof (kp_rhs _ _ _ _ _ _ Hp) as BR. fold n in BL, BR.
  set (P := fun (t : Z) (s : list vec * Z * Z) =>
    s = (map L4 (block nn (fun i j => ini i j + dot_upto n p rs (4 * t) (row + Z.of_nat i) (col + Z.of_nat j))),
         row * k_lhs_stride p + 4 * n * t, k_rhs_size p * (col * rs + 4 * n * t))).
  match goal with |- context [forto 0 _ ?b ?s] => destruct (forto_inv P b 0 (k_depth p / 4) s) as (s' & E & HP) end.
  - assumption.
  - unfold P. f_equal; [f_equal|].
    + apply block_ext. intros i j _ _. unfold dot_upto. rewrite (zrange_nil 0 (4 * 0)) by lia. cbn [map]. f_equal. unfold zsum. cbn [fold_right]. lia.
    + lia.
    + rewrite Z.mul_0_r, Z.add_0_r. reflexivity.
  - intros t s Ht ->. cbv beta. eexists. split.
    + destruct (inside_packed row (k_last_row p) (k_lhs_stride p) (blen (k_lhs p)) t (4 * n)) as [I1 I2];
        [lin | assumption | apply Ht | apply Ht | apply Z.le_refl | assumption |].
      destruct (inside_packed col (k_last_col p) rs (blen (k_rhs p)) t (4 * n)) as [J1 J2];
        [lin | assumption | apply Ht | apply Ht | apply Z.le_refl | assumption |].
      assert (Hsz : 0 < k_rhs_size p) by (destruct size_cases as [-> | ->]; reflexivity).
      assert (Hn4 : Z.to_nat (4 * n) = (4 * nn)%nat) by lin.
      assert (Hn5 : Z.of_nat (4 * nn) = 4 * n) by lin.
      rewrite load_aligned_ok by (first [rewrite Z.mul_1_l; rewrite <- (Z.mul_1_l (_ + _)); apply align_ok; assumption | assumption]). cbn [bind].
      rewrite scalar_index_ok by assumption. cbn [bind].
      rewrite load_aligned_ok by (first [apply align_ok; assumption | assumption]). cbn [bind]. rewrite Hn4.
      rewrite (ok_step _ _ Hv); [reflexivity | apply (kp_size _ _ _ _ _ _ Hp) | apply vrow_length | apply vrow_length
        | apply bits_span; [apply (kp_lhs_bits _ _ _ _ _ _ Hp) | assumption | rewrite Hn5; assumption]
        | apply bits_span; [apply (kp_rhs_bits _ _ _ _ _ _ Hp) | assumption | rewrite Hn5; assumption]
        | apply block_length | apply block_rows].
    + unfold P. f_equal; [f_equal; [|ring] | ring].
      fold nn. unfold block at 1. rewrite map2_same_l. unfold block. f_equal. apply map_ext_in. intros j Hj. apply in_seq in Hj.
      unfold vrow at 3. rewrite map2_same_l. unfold vrow at 3. apply map_ext_in. intros i Hi. apply in_seq in Hi.
      unfold step_lane. rewrite dot4_packed by (assumption || lin). ring.
  - rewrite E. cbn [bind]. unfold P in HP. rewrite HP. cbn [fst]. rewrite S2. reflexivity.
Qed.

(** *** Requantization and clamping *)

Lemma span_at : forall b c i, span b c i = bdat b (c + Z.of_nat i).
Proof. reflexivity. Qed.

Lemma not_s32 : ity_eqb (k_dst_type p) s32 = false -> k_dst_type p <> s32.
Proof. intros H E. rewrite E in H. discriminate. Qed.

Definition scaled_block (row col : Z) (acc : nat -> nat -> Z) (i j : nat) : Z :=
  if ity_eqb (k_dst_type p) s32 then acc i j
  else x86_lane (acc i j) (mult_at p (row + Z.of_nat i) (col + Z.of_nat j)) (exp_at p (row + Z.of_nat i) (col + Z.of_nat j)) + k_dst_zp p.

Lemma mult_loads : forall row col, in_rows row -> in_cols col -> ity_eqb (k_dst_type p) s32 = false ->
  exists c, c = (if k_has_perchannel p then chan_at p row col else 0) /\ 0 <= c /\
    c + n <= blen (k_mult p) /\ c + n <= blen (k_exp p) /\
    Forall is_mult (vrow nn (span (k_mult p) c)) /\ Forall is_exp (vrow nn (span (k_exp p) c)).
Proof.
  intros row col [Hr _] [Hc _] Et. pose proof n_pos as (Hn1 & _ & Hn3). apply not_s32 in Et.
  destruct (kp_mult _ _ _ _ _ _ Hp Et) as [M1 M2]. destruct (kp_exp _ _ _ _ _ _ Hp Et) as [E1 E2]. fold n in M1, M2, E1, E2.
  pose proof (kp_rows _ _ _ _ _ _ Hp) as (R & _). pose proof (kp_cols _ _ _ _ _ _ Hp) as (C & _).
  assert (B : 0 <= (if k_has_perchannel p then chan_at p row col else 0) <= (if k_has_perchannel p then chan_at p (k_last_row p) (k_last_col p) else 0))
    by (unfold chan_at; destruct (k_has_perchannel p), (k_channel_is_col p); lin).
  eexists. split; [reflexivity|]. revert B M1 E1 M2 E2. generalize (if k_has_perchannel p then chan_at p row col else 0).
  generalize (if k_has_perchannel p then chan_at p (k_last_row p) (k_last_col p) else 0). intros l c B M1 E1 M2 E2.
  split; [lin|]. split; [lin|]. split; [lin|]. split; apply Forall_vrow; intros i Hi; [apply M2 | apply E2]; clear - B M1 E1 Hi Hn3 Hn1; lia.
Qed.

Lemma requant_ok : forall row col acc, in_rows row -> in_cols col ->
  requantize v p (chan_at p row col) (map L4 (block nn acc)) = Ok (map L4 (block nn (scaled_block row col acc))).
Proof.
  intros row col acc Hr Hc. unfold requantize, scaled_block. destruct (ity_eqb _ _) eqn:Et; [reflexivity|].
  destruct (mult_loads row col Hr Hc Et) as (c & Ec & C0 & C1 & C2 & C3 & C4). fold n. rewrite <- Ec.
  rewrite !load4 by assumption. cbn [bind]. f_equal.
  destruct (k_has_perchannel p && k_channel_is_col p) eqn:Epc.
  - rewrite (ok_requant_col _ _ Hv) by (first [apply vrow_length | assumption | apply block_length | apply block_rows]).
    f_equal. unfold vrow at 1 2. unfold block at 1. rewrite map3_same. unfold block. apply map_ext. intros j. unfold vrow. rewrite map_map. apply map_ext. intros i.
    unfold mult_at, exp_at, chan_at. apply andb_prop in Epc. destruct Epc as [E1 E2]. unfold chan_at in Ec. rewrite E1, E2 in *. rewrite !span_at, Ec. reflexivity.
  - rewrite (ok_requant _ _ Hv) by (first [apply vrow_length | assumption | apply block_length | apply block_rows]).
    f_equal. unfold block. rewrite map_map. apply map_ext. intros j. unfold vrow. rewrite map3_same. apply map_ext. intros i.
    unfold mult_at, exp_at, chan_at in *. rewrite !span_at, Ec. destruct (k_has_perchannel p) eqn:E1.
    + destruct (k_channel_is_col p); [discriminate | reflexivity].
    + destruct (kp_const _ _ _ _ _ _ Hp E1) as [K1 K2]. rewrite K1, K2. reflexivity.
Qed.

Definition clamp_lane (x : Z) : Z :=
  if ity_eqb (k_dst_type p) s32 then x else Z.max (Z.min (wrap_s 32 x) (k_clamp_max p)) (k_clamp_min p).

Lemma clamp_ok : forall f, clamp_block v p (L4 (vrow nn f)) = L4 (vrow nn (fun i => clamp_lane (f i))).
Proof.
  intros f. unfold clamp_block, clamp_lane. destruct (ity_eqb _ _); [reflexivity|]. rewrite !set1_row, min_rows, max_rows. f_equal.
  unfold vrow. apply map_ext. intros i. destruct (kp_clamp _ _ _ _ _ _ Hp) as [C1 C2].
  rewrite (wrap_s32_id (k_clamp_max p)), (wrap_s32_id (k_clamp_min p)) by assumption. f_equal.
  apply wrap_s32_id. pose proof (wrap_s_range 32 (f i) ltac:(lia)) as W. change (2 ^ (32 - 1)) with 2147483648 in W.
  unfold int_min, int_max in *. lia.
Qed.

(** *** Stores *)

Lemma firstn_vrow : forall k f, 0 <= k <= n -> firstn (Z.to_nat k) (vrow nn f) = vrow (Z.to_nat k) f.
Proof.
  intros k f Hk. pose proof n_pos as (_ & _ & Hn3). unfold vrow. replace nn with (Z.to_nat k + (nn - Z.to_nat k))%nat by lia.
  rewrite seq_app, map_app, firstn_app, map_length, seq_length, Nat.sub_diag. cbn [firstn]. rewrite app_nil_r.
  apply firstn_all2. rewrite map_length, seq_length. lia.
Qed.

Lemma write_vrow_filled : forall val k f row col dst, blen dst = len -> 0 <= row -> row + Z.of_nat k <= k_dst_rows p ->
  0 <= col < k_dst_cols p -> (forall i, (i < k)%nat -> f i = val (row + Z.of_nat i) col) ->
  exists dst', write_list (vrow k f) (col * ds + row) dst = Ok dst' /\
    filled val (k_dst_rows p) ds (fun i j => (row <=? i) && (i <? row + Z.of_nat k) && (j =? col)) dst dst'.
Proof.
  intros val k f row col dst Hl Hr Hk Hc Hf.
  pose proof (kp_dst _ _ _ _ _ _ Hp) as D. pose proof (kp_dstride _ _ _ _ _ _ Hp) as (S & _).
  destruct (write_list_ok (vrow k f) (col * ds + row) dst) as (b & E & L & B); rewrite ?vrow_length in *.
  - clear - Hr Hk Hc S. nia.
  - rewrite Hl. clear - Hr Hk Hc S D. assert (col * ds <= (k_dst_cols p - 1) * ds) by nia. lia.
  - exists b. split; [exact E|]. constructor; [exact L | |].
    + intros i j Hi H. apply andb_prop in H. destruct H as [H Hj]. apply andb_prop in H. apply Z.eqb_eq in Hj. subst j. rewrite B.
      replace ((col * ds + row <=? col * ds + i) && (col * ds + i <? col * ds + row + Z.of_nat k)) with true by (clear - H; lia).
      rewrite vrow_nth by (clear - H; lia). rewrite Hf by (clear - H; lia). f_equal. clear - H. lia.
    + intros q Hq. rewrite B. destruct (_ && _) eqn:Eb; [|reflexivity]. exfalso.
      apply (Hq (q - col * ds) col); clear - Eb Hr Hk; lia.
Qed.

(** One column of a block, stored completely or partially. *)
Lemma store_ok : forall val full k f row col dst, blen dst = len -> 0 <= row -> 1 <= k <= n -> row + k <= k_dst_rows p ->
  (full = true -> k = n) -> 0 <= col < k_dst_cols p ->
  (forall i, (i < nn)%nat -> it_conv (k_dst_type p) (clamp_lane (f i)) = val (row + Z.of_nat i) col) ->
  exists dst', (if full : bool then v_store_full v (k_dst_type p) (clamp_block v p (L4 (vrow nn f))) (col * ds + row) dst
                else v_store v (k_dst_type p) k (clamp_block v p (L4 (vrow nn f))) (col * ds + row) dst) = Ok dst' /\
    filled val (k_dst_rows p) ds (fun i j => (row <=? i) && (i <? row + k) && (j =? col)) dst dst'.
Proof.
  intros val full k f row col dst Hl Hr Hk Hrk Hfull Hc Hf. pose proof n_pos as (_ & _ & Hn3). pose proof (kp_type _ _ _ _ _ _ Hp) as Ht.
  rewrite clamp_ok.
  assert (E : (if full : bool then v_store_full v (k_dst_type p) (L4 (vrow nn (fun i => clamp_lane (f i)))) (col * ds + row) dst
                else v_store v (k_dst_type p) k (L4 (vrow nn (fun i => clamp_lane (f i)))) (col * ds + row) dst)
              = write_list (vrow (Z.to_nat k) (fun i => it_conv (k_dst_type p) (clamp_lane (f i)))) (col * ds + row) dst).
  { destruct full.
    - rewrite (ok_store_full _ _ Hv) by (assumption || apply vrow_length). rewrite Hfull by reflexivity.
      f_equal. replace (Z.to_nat n) with nn by (clear - Hn3; lia). unfold vrow. apply map_map.
    - rewrite (ok_store _ _ Hv) by (first [assumption | apply vrow_length]). rewrite firstn_vrow by (clear - Hk; lia).
      f_equal. unfold vrow. apply map_map. }
  rewrite E.
  destruct (write_vrow_filled val (Z.to_nat k) (fun i => it_conv (k_dst_type p) (clamp_lane (f i))) row col dst) as (d & E' & F);
    [assumption | assumption | clear - Hrk Hk; lia | assumption | intros i Hi; apply Hf; clear - Hi Hk Hn3; lia |].
  exists d. split; [exact E'|]. rewrite Z2Nat.id in F by (clear - Hk; lia). exact F.
Qed.

Lemma dst_stride_ok : dst_stride_scalars p = ds.
Proof.
  unfold dst_stride_scalars. pose proof (kp_dstride _ _ _ _ _ _ Hp) as (S1 & S2 & S3). fold n in S3.
  pose proof n_pos as (Hn1 & _). pose proof (kp_rows _ _ _ _ _ _ Hp) as (R1 & R2 & _). rewrite S2 in *. unfold int_max in S3.
  destruct (kp_type _ _ _ _ _ _ Hp) as [E | [E | [E | E]]]; rewrite E in *; cbv [it_size it_bits u8 s8 s16 s32] in *; cbn [Z.eqb Pos.eqb].
  - change (8 / 8) with 1. lia.
  - change (8 / 8) with 1. lia.
  - change (16 / 8) with 2 in *. rewrite wrap_u_id by lin. rewrite Z.mul_comm, Z_div_mult by lia. apply wrap_s32_id. unfold int_min, int_max. lin.
  - change (32 / 8) with 4 in *. rewrite wrap_u_id by lin. rewrite Z.mul_comm, Z_div_mult by lia. apply wrap_s32_id. unfold int_min, int_max. lin.
Qed.

Lemma ds_bounds : 0 <= ds /\ n * ds <= int_max /\ 0 < it_size (k_dst_type p).
Proof.
  pose proof (kp_dstride _ _ _ _ _ _ Hp) as (S1 & S2 & S3). fold n in S3.
  pose proof n_pos as (Hn1 & _). pose proof (kp_rows _ _ _ _ _ _ Hp) as (R1 & R2 & _). rewrite S2 in *.
  assert (T : 1 <= it_size (k_dst_type p)) by (destruct (kp_type _ _ _ _ _ _ Hp) as [E | [E | [E | E]]]; rewrite E; vm_compute; discriminate).
  assert (0 <= ds) by lin. split; [assumption|]. split; [|lin]. clear Hp Hv. nia.
Qed.

Definition val_at := stored_at n p rs.

Lemma store_block_ok : forall row col dst f, in_rows row -> in_cols col -> blen dst = len ->
  (forall i j, (i < nn)%nat -> (j < nn)%nat ->
     it_conv (k_dst_type p) (clamp_lane (f i j)) = val_at (row + Z.of_nat i) (col + Z.of_nat j)) ->
  exists dst', store_block v p ds (Z.min (k_dst_rows p - row) n) (Z.min (k_dst_cols p - col) n) (map L4 (block nn f)) (col * ds + row) dst = Ok dst' /\
    filled val_at (k_dst_rows p) ds (fun i j => (row <=? i) && (i <? row + n) && (col <=? j) && (j <? col + n) && (j <? k_dst_cols p)) dst dst'.
Proof.
  intros row col dst f [Hr _] [Hc _] Hl Hf. pose proof n_pos as (Hn1 & _ & Hn3). destruct ds_bounds as (D1 & D2 & _).
  pose proof (kp_rows _ _ _ _ _ _ Hp) as (R1 & R2 & _). pose proof (kp_cols _ _ _ _ _ _ Hp) as (C1 & C2 & _).
  pose proof (kp_dstride _ _ _ _ _ _ Hp) as (S1 & _).
  set (rr := Z.min (k_dst_rows p - row) n). set (rc := Z.min (k_dst_cols p - col) n).
  assert (Hrr : 1 <= rr <= n) by (unfold rr; lin). assert (Hrc : 1 <= rc <= n) by (unfold rc; lin).
  assert (Hrow : row + rr <= k_dst_rows p) by (unfold rr; lin). assert (Hcol : col + rc <= k_dst_cols p) by (unfold rc; lin).
  set (full := (rr =? n) && (rc =? n)).
  assert (Efull : store_block v p ds rr rc (map L4 (block nn f)) (col * ds + row) dst =
    forto 0 rc (fun j dst => o <- i32 (j * ds) ;;
      if full then v_store_full v (k_dst_type p) (clamp_block v p (nth (Z.to_nat j) (map L4 (block nn f)) [])) (col * ds + row + o) dst
      else v_store v (k_dst_type p) rr (clamp_block v p (nth (Z.to_nat j) (map L4 (block nn f)) [])) (col * ds + row + o) dst) dst).
  { unfold store_block, full. fold n. destruct ((rr =? n) && (rc =? n)) eqn:E; [|reflexivity].
    replace n with rc by (clear - E; lia). reflexivity. }
  rewrite Efull.
  set (P := fun (j : Z) (d : buf Z) => filled val_at (k_dst_rows p) ds
     (fun i j' => (row <=? i) && (i <? row + rr) && ((col <=? j') && (j' <? col + j))) dst d).
  match goal with |- context [forto 0 rc ?b dst] => destruct (forto_inv P b 0 rc dst) as (d' & E & HP) end.
  - clear - Hrc. lia.
  - unfold P. eapply filled_ext; [|apply filled_refl]. intros i j _. cbv beta. clear. lia.
  - intros j d Hj Hd. unfold P in Hd.
    assert (Ho : int_min <= j * ds <= int_max) by (assert (0 <= j * ds <= n * ds) by (clear - Hj Hrc D1; nia); clear - H D2; unfold int_min; lia).
    rewrite i32_ok by exact Ho. cbn [bind].
    assert (En : nth (Z.to_nat j) (map L4 (block nn f)) [] = L4 (vrow nn (fun i => f i (Z.to_nat j)))).
    { unfold block. rewrite map_map. rewrite nth_map_seq by (clear - Hj Hrc Hn3; lia). reflexivity. }
    rewrite En. replace (col * ds + row + j * ds) with ((col + j) * ds + row) by ring.
    destruct (store_ok val_at full rr (fun i => f i (Z.to_nat j)) row (col + j) d) as (d' & E' & F').
    + rewrite (fl_len _ _ _ _ _ _ Hd). exact Hl.
    + clear - Hr R1. lia.
    + exact Hrr.
    + exact Hrow.
    + unfold full. clear. lia.
    + clear - Hj Hc C1 Hcol. lia.
    + intros i Hi. rewrite Hf by (first [assumption | clear - Hj Hrc Hn3; lia]). f_equal. clear - Hj. lia.
    + exists d'. split; [exact E'|]. unfold P. pose proof (filled_trans _ _ _ _ _ _ _ _ S1 Hd F') as T.
      eapply filled_ext; [|exact T]. intros i j' _. cbv beta. clear - Hj. lia.
  - exists d'. split; [exact E|]. unfold P in HP. eapply filled_ext; [|exact HP]. intros i j Hi. cbv beta. unfold rr, rc. clear - Hi. lia.
Qed.

(** *** One block *)

Lemma row_block_ok : forall row col dst, in_rows row -> in_cols col -> blen dst = len ->
  exists dst', row_block v p ds (offsets_for col) (k_rhs_size p * (col * rs)) col row
      (dst, row * k_lhs_stride p, it_size (k_dst_type p) * (col * ds + row)) =
    Ok (dst', (row + n) * k_lhs_stride p, it_size (k_dst_type p) * (col * ds + (row + n))) /\
    filled val_at (k_dst_rows p) ds (fun i j => (row <=? i) && (i <? row + n) && (col <=? j) && (j <? col + n) && (j <? k_dst_cols p)) dst dst'.
Proof.
  intros row col dst Hr Hc Hl. unfold row_block. fold n. rewrite initial_ok by assumption. cbn [bind]. rewrite depth_ok by assumption. cbn [bind].
  change (if k_channel_is_col p then col else row) with (chan_at p row col). rewrite requant_ok by assumption. cbn [bind].
  destruct ds_bounds as (D1 & D2 & D3). rewrite scalar_index_ok by assumption. cbn [bind].
  match goal with |- context [map L4 (block nn (scaled_block row col ?a))] => set (acc := a) end.
  destruct (store_block_ok row col dst (scaled_block row col acc) Hr Hc Hl) as (d' & E & F).
  { intros i j _ _. unfold val_at, stored_at. f_equal. unfold clamp_lane, scaled_block, out_at, acc_at, acc. destruct (ity_eqb _ _); reflexivity. }
  rewrite E. cbn [bind]. pose proof (kp_lstride _ _ _ _ _ _ Hp) as (L1 & _ & L3). pose proof (kp_depth _ _ _ _ _ _ Hp) as (K1 & _).
  pose proof n_pos as (Hn1 & _). fold n in L3.
  rewrite i32_ok by (split; [unfold int_min; clear - L1 K1 Hn1; nia | exact L3]). cbn [bind].
  exists d'. split; [|exact F]. f_equal. f_equal; [f_equal|]; ring.
Qed.

Lemma count_ok : forall start last, 0 <= start <= last -> start mod n = 0 -> last mod n = 0 ->
  0 <= (last + 1 - start + n - 1) / n /\ start + (last + 1 - start + n - 1) / n * n = last + n /\
  forall t, 0 <= t < (last + 1 - start + n - 1) / n -> start <= start + t * n <= last /\ (start + t * n) mod n = 0.
Proof.
  intros start last H H1 H2. pose proof n_pos as (Hn1 & _). pose proof (Z.div_mod start n ltac:(clear - Hn1; lia)) as E1. pose proof (Z.div_mod last n ltac:(clear - Hn1; lia)) as E2.
  rewrite H1 in E1. rewrite H2 in E2.
  assert (E : (last + 1 - start + n - 1) / n = last / n - start / n + 1).
  { replace (last + 1 - start + n - 1) with (0 + (last / n - start / n + 1) * n) by (clear - E1 E2; lia). rewrite Z.div_add by (clear - Hn1; lia). reflexivity. }
  rewrite E. assert (start / n <= last / n) by (apply Z.div_le_mono; clear - H Hn1; lia).
  split; [clear - H0; lia|]. split; [clear - E1 E2; nia|].
  intros t Ht. split; [clear - Ht E1 E2 Hn1 H; nia|]. rewrite Z.mod_add by (clear - Hn1; lia). exact H1.
Qed.

Lemma rows_loop_ok : forall col dst, in_cols col -> blen dst = len ->
  exists dst' a b, forstep (k_start_row p) (k_last_row p + 1) n
    (row_block v p ds (offsets_for col) (k_rhs_size p * (col * rs)) col)
    (dst, k_lhs_base p, it_size (k_dst_type p) * (col * ds + k_start_row p)) = Ok (dst', a, b) /\
  filled val_at (k_dst_rows p) ds
    (fun i j => (k_start_row p <=? i) && (i <? k_last_row p + n) && (col <=? j) && (j <? col + n) && (j <? k_dst_cols p)) dst dst'.
Proof.
  intros col dst Hc Hl. unfold forstep. pose proof (kp_rows _ _ _ _ _ _ Hp) as (R1 & R2 & R3 & R4). fold n in R3, R4.
  destruct (count_ok _ _ R1 R3 R4) as (K1 & K2 & K3). pose proof (kp_dstride _ _ _ _ _ _ Hp) as (S1 & _).
  set (P := fun (t : Z) (s : buf Z * Z * Z) => exists d, s = (d, (k_start_row p + t * n) * k_lhs_stride p, it_size (k_dst_type p) * (col * ds + (k_start_row p + t * n))) /\
     filled val_at (k_dst_rows p) ds (fun i j => (k_start_row p <=? i) && (i <? k_start_row p + t * n) && (col <=? j) && (j <? col + n) && (j <? k_dst_cols p)) dst d).
  match goal with |- context [forto 0 ?c ?b ?s] => destruct (forto_inv P b 0 c s) as (s' & E & HP) end.
  - exact K1.
  - exists dst. split.
    + rewrite (kp_lbase _ _ _ _ _ _ Hp). rewrite Z.mul_0_l, Z.add_0_r. reflexivity.
    + eapply filled_ext; [|apply filled_refl]. intros i j _. cbv beta. clear. lia.
  - intros t s Ht (d & -> & Hd). destruct (K3 t Ht) as (T1 & T2). cbv beta.
    destruct (row_block_ok (k_start_row p + t * n) col d) as (d' & E & F);
      [split; assumption | assumption | rewrite (fl_len _ _ _ _ _ _ Hd); exact Hl |].
    eexists. split; [exact E|]. exists d'. split; [f_equal; [f_equal|]; ring|].
    pose proof (filled_trans _ _ _ _ _ _ _ _ S1 Hd F) as T. eapply filled_ext; [|exact T]. intros i j _. cbv beta.
    replace (k_start_row p + (t + 1) * n) with (k_start_row p + t * n + n) by ring.
    pose proof n_pos as (Hn1 & _). clear - Hn1 T1. lia.
  - destruct HP as (d & -> & Hd). exists d. eexists. eexists. split; [exact E|]. rewrite K2 in Hd. exact Hd.
Qed.

Theorem kernel8bit_ok : forall dst, blen dst = len ->
  exists dst', kernel8bit v p dst = Ok dst' /\
    filled val_at (k_dst_rows p) ds
      (fun i j => (k_start_row p <=? i) && (i <? k_last_row p + n) && (k_start_col p <=? j) && (j <? k_last_col p + n) && (j <? k_dst_cols p)) dst dst'.
Proof.
  intros dst Hl. unfold kernel8bit. fold n. unfold forstep at 1.
  pose proof (kp_cols _ _ _ _ _ _ Hp) as (R1 & R2 & R3 & R4). fold n in R3, R4.
  destruct (count_ok _ _ R1 R3 R4) as (K1 & K2 & K3). pose proof (kp_dstride _ _ _ _ _ _ Hp) as (S1 & S2 & S3).
  pose proof (kp_rstride _ _ _ _ _ _ Hp) as (Q1 & Q2 & Q3 & Q4). fold n in S3, Q4. pose proof (kp_depth _ _ _ _ _ _ Hp) as (Q5 & _).
  destruct ds_bounds as (D1 & D2 & D3). pose proof n_pos as (Hn1 & _).
  assert (I1 : i32 (n * k_dst_stride p) = Ok (n * k_dst_stride p)) by (apply i32_ok; split; [rewrite S2; unfold int_min; clear - D1 D3 Hn1; assert (0 <= it_size (k_dst_type p) * ds) by nia; nia | exact S3]).
  assert (I2 : i32 (n * k_rhs_stride p) = Ok (n * k_rhs_stride p)) by (apply i32_ok; split; [rewrite Q3; unfold int_min; destruct size_cases as [-> | ->]; clear - Q1 Q5 Hn1; nia | exact Q4]).
  set (P := fun (t : Z) (s : buf Z * Z * Z) => exists d, s = (d, k_rhs_size p * ((k_start_col p + t * n) * rs), it_size (k_dst_type p) * ((k_start_col p + t * n) * ds + k_start_row p)) /\
     filled val_at (k_dst_rows p) ds (fun i j => (k_start_row p <=? i) && (i <? k_last_row p + n) && (k_start_col p <=? j) && (j <? k_start_col p + t * n) && (j <? k_dst_cols p)) dst d).
  match goal with |- context [forto 0 ?c ?b ?s] => destruct (forto_inv P b 0 c s) as (s' & E & HP) end.
  - exact K1.
  - exists dst. split.
    + rewrite (kp_rbase _ _ _ _ _ _ Hp), (kp_dbase _ _ _ _ _ _ Hp). rewrite Z.mul_0_l, !Z.add_0_r. reflexivity.
    + eapply filled_ext; [|apply filled_refl]. intros i j _. cbv beta. clear. lia.
  - intros t s Ht (d & -> & Hd). destruct (K3 t Ht) as (T1 & T2). cbv beta.
    assert (Hc : in_cols (k_start_col p + t * n)) by (split; assumption).
    replace (if has_rhs_sums_offsets p then rhs_sums_offsets v p (k_start_col p + t * n) else Ok []) with (Ok (offsets_for (k_start_col p + t * n)) : res (list Z)).
    2: { unfold offsets_for. destruct (has_rhs_sums_offsets p) eqn:Eo; [|reflexivity]. rewrite rhs_sums_offsets_ok by assumption. reflexivity. }
    cbn [bind]. rewrite dst_stride_ok.
    destruct (rows_loop_ok (k_start_col p + t * n) d) as (d' & a & b & E & F); [assumption | rewrite (fl_len _ _ _ _ _ _ Hd); exact Hl |].
    rewrite E. cbn [bind fst]. rewrite I1, I2. cbn [bind].
    eexists. split; [reflexivity|]. exists d'. split; [rewrite S2, Q3; f_equal; [f_equal|]; ring|].
    pose proof (filled_trans _ _ _ _ _ _ _ _ S1 Hd F) as T. eapply filled_ext; [|exact T]. intros i j _. cbv beta.
    replace (k_start_col p + (t + 1) * n) with (k_start_col p + t * n + n) by ring.
    clear - Hn1 T1. lia.
  - rewrite E. cbn [bind]. destruct HP as (d & -> & Hd). exists d. split; [reflexivity|]. rewrite K2 in Hd. exact Hd.
Qed.

(** *** The single column *)

Hypothesis Hone : k_dst_cols p = 1.
Hypothesis Hchan : k_channel_is_col p = false.

Lemma one_col : k_start_col p = 0 /\ k_last_col p = 0 /\ in_cols 0.
Proof.
  pose proof (kp_cols _ _ _ _ _ _ Hp) as (R1 & R2 & R3 & R4). rewrite Hone in R2.
  assert (k_start_col p = 0) by (clear - R1 R2; lia). assert (k_last_col p = 0) by (clear - R1 R2; lia).
  split; [assumption|]. split; [assumption|]. split; [clear - H H0; lia | apply Zmod_0_l].
Qed.

Lemma initial1_ok : forall row, in_rows row ->
  initial_accumulator1 v p (offsets_for 0) (if k_has_bias p then row else 0) row =
  Ok (L4 (vrow nn (fun i => initial_at p (row + Z.of_nat i) 0))).
Proof.
  intros row Hr. unfold initial_accumulator1. fold n. pose proof n_pos as (Hn1 & Hn2 & Hn3).
  pose proof (kp_rows _ _ _ _ _ _ Hp) as (R & _). pose proof (kp_bias _ _ _ _ _ _ Hp) as B. pose proof (kp_nobias _ _ _ _ _ _ Hp) as B0.
  fold n in B, B0. unfold chan_at in B. rewrite Hchan in B.
  set (bias := fun i : nat => if k_has_bias p then bdat (k_bias p) (row + Z.of_nat i) else 0).
  assert (E1 : load 4 n (k_bias p) (if k_has_bias p then row else 0) = Ok (L4 (vrow nn bias))).
  { unfold bias. destruct (k_has_bias p).
    - specialize (B eq_refl). destruct Hr as [Hr _]. rewrite load4 by (clear - Hr R B; lia). reflexivity.
    - destruct (B0 eq_refl) as [B1 B2]. rewrite load4 by (clear - B1; lia). f_equal. f_equal. unfold vrow. apply map_ext. intros i. apply B2. }
  rewrite E1. cbn [bind]. rewrite subtract_ok by assumption. cbn [bind].
  match goal with |- context [L4 (vrow nn ?f)] => set (ini := f) end.
  replace (if k_prod_zp_depth p =? 0 then L4 (vrow nn ini) else v_add v (L4 (vrow nn ini)) (v_set1 v (k_prod_zp_depth p)))
    with (L4 (vrow nn (fun i => ini i + k_prod_zp_depth p))).
  2: { destruct (k_prod_zp_depth p =? 0) eqn:E.
    - apply Z.eqb_eq in E. f_equal. unfold vrow. apply map_ext. intros i. rewrite E. apply Z.add_0_r.
    - rewrite set1_row, add_rows. reflexivity. }
  f_equal. unfold offsets_for, offset_row. destruct (has_rhs_sums_offsets p) eqn:Eo.
  - rewrite vrow_nth by (clear - Hn1 Hn3; lia). rewrite set1_row, sub_rows. apply L4_ext. intros i Hi. rewrite wrap_sub. f_equal.
    unfold ini, initial_at, bias, chan_at, span. rewrite Eo, Hchan. change (0 + Z.of_nat 0) with 0. ring.
  - apply L4_ext. intros i Hi. f_equal. unfold ini, initial_at, bias, chan_at, span. rewrite Eo, Hchan. ring.
Qed.

Lemma depth1_ok : forall row ini, in_rows row ->
  depth_loop1 v p (row * k_lhs_stride p) (k_rhs_base p) (L4 (vrow nn ini)) =
  Ok (L4 (vrow nn (fun i => ini i + dot_upto n p rs (k_depth p) (row + Z.of_nat i) 0))).
Proof.
  intros row ini [Hr Hrm]. unfold depth_loop1, forstep. fold n. destruct steps_depth as (S1 & S2 & S3). rewrite S1.
  pose proof n_pos as (Hn1 & Hn2 & Hn3). destruct one_col as (O1 & O2 & Hc). rewrite (kp_rbase _ _ _ _ _ _ Hp), O1.
  pose proof (kp_rows _ _ _ _ _ _ Hp) as (R & _). pose proof (kp_cols _ _ _ _ _ _ Hp) as (C & _).
  pose proof (kp_lstride _ _ _ _ _ _ Hp) as (L1 & L2 & _). pose proof (kp_rstride _ _ _ _ _ _ Hp) as (R1 & R2 & _).
  pose proof (kp_lhs _ _ _ _ _ _ Hp) as BL. pose proof (kp_rhs _ _ _ _ _ _ Hp) as BR. fold n in BL, BR.
  pose proof (ok_load1 _ _ Hv (k_rhs_size p) (kp_size _ _ _ _ _ _ Hp)) as H1. fold n in H1.
  set (P := fun (t : Z) (s : vec * Z * Z) =>
    s = (L4 (vrow nn (fun i => ini i + dot_upto n p rs (4 * t) (row + Z.of_nat i) 0)),
         row * k_lhs_stride p + 4 * n * t, k_rhs_size p * (0 * rs + 4 * n * t))).
  match goal with |- context [forto 0 _ ?b ?s] => destruct (forto_inv P b 0 (k_depth p / 4) s) as (s' & E & HP) end.
  - assumption.
  - unfold P. f_equal; [f_equal|].
    + apply L4_ext. intros i _. unfold dot_upto. rewrite (zrange_nil 0 (4 * 0)) by lia. cbn [map]. f_equal. unfold zsum. cbn [fold_right]. ring.
    + ring.
    + ring.
  - intros t s Ht ->. cbv beta. eexists. split.
    + destruct (inside_packed row (k_last_row p) (k_lhs_stride p) (blen (k_lhs p)) t (4 * n)) as [I1 I2];
        [lin | assumption | apply Ht | apply Ht | apply Z.le_refl | assumption |].
      destruct (inside_packed 0 (k_last_col p) rs (blen (k_rhs p)) t (v_load1 v (k_rhs_size p))) as [J1 J2];
        [clear - O2; lia | assumption | apply Ht | apply Ht | apply H1 | assumption |].
      assert (Hsz : 0 < k_rhs_size p) by (destruct size_cases as [-> | ->]; reflexivity).
      assert (Hn4 : Z.to_nat (4 * n) = (4 * nn)%nat) by lin.
      assert (Hn5 : Z.of_nat (4 * nn) = 4 * n) by lin.
      rewrite load_aligned_ok by (first [apply align_ok; assumption | assumption]). cbn [bind].
      rewrite scalar_index_ok by assumption. cbn [bind].
      rewrite load_ok by assumption. cbn [bind]. rewrite Hn4.
      rewrite (ok_step1 _ _ Hv); [reflexivity | apply (kp_size _ _ _ _ _ _ Hp) | apply vrow_length | apply vrow_length
        | apply bits_span; [apply (kp_lhs_bits _ _ _ _ _ _ Hp) | assumption | rewrite Hn5; assumption]
        | apply bits_span; [apply (kp_rhs_bits _ _ _ _ _ _ Hp) | assumption | rewrite Z2Nat.id by (clear - H1; lia); assumption]
        | apply vrow_length].
    + unfold P. f_equal; [f_equal; [|ring] | ring].
      fold nn. f_equal. unfold vrow at 3. rewrite map2_same_l. unfold vrow at 3. apply map_ext_in. intros i Hi. apply in_seq in Hi.
      unfold step_lane. rewrite (dot4_packed row 0 t i 0) by (first [assumption | apply Zmod_0_l | clear - Ht; lia | clear - Hi; lia | clear - Hn1 Hn3; lia | clear - H1; lia]).
      change (0 + Z.of_nat 0) with 0. ring.
  - rewrite E. cbn [bind]. unfold P in HP. rewrite HP. cbn [fst]. rewrite S2. reflexivity.
Qed.

Lemma requant1_ok : forall row acc, in_rows row ->
  requantize1 v p row (L4 (vrow nn acc)) =
  Ok (L4 (vrow nn (fun i => if ity_eqb (k_dst_type p) s32 then acc i
    else x86_lane (acc i) (mult_at p (row + Z.of_nat i) 0) (exp_at p (row + Z.of_nat i) 0) + k_dst_zp p))).
Proof.
  intros row acc Hr. unfold requantize1. destruct (ity_eqb _ _) eqn:Et; [reflexivity|]. destruct one_col as (_ & _ & Hc).
  destruct (mult_loads row 0 Hr Hc Et) as (c & Ec & C0 & C1 & C2 & C3 & C4). fold n. unfold chan_at in Ec. rewrite Hchan in Ec. rewrite <- Ec.
  rewrite !load4 by assumption. cbn [bind]. f_equal.
  rewrite (ok_requant1 _ _ Hv) by (first [apply vrow_length | assumption]).
  f_equal. unfold vrow. rewrite map3_same. apply map_ext. intros i.
  unfold mult_at, exp_at, chan_at. rewrite Hchan, !span_at, Ec. destruct (k_has_perchannel p) eqn:E1; [reflexivity|].
  destruct (kp_const _ _ _ _ _ _ Hp E1) as [K1 K2]. rewrite K1, K2. reflexivity.
Qed.

Lemma row_block1_ok : forall row dst, in_rows row -> blen dst = len ->
  exists dst', row_block1 v p (offsets_for 0) row
      (dst, row * k_lhs_stride p, it_size (k_dst_type p) * row, if k_has_bias p then row else 0) =
    Ok (dst', (row + n) * k_lhs_stride p, it_size (k_dst_type p) * (row + n), if k_has_bias p then row + n else 0) /\
    filled val_at (k_dst_rows p) ds (fun i j => (row <=? i) && (i <? row + n) && (j =? 0)) dst dst'.
Proof.
  intros row dst Hr Hl. unfold row_block1. fold n. rewrite initial1_ok by assumption. cbn [bind]. rewrite depth1_ok by assumption. cbn [bind].
  rewrite requant1_ok by assumption. cbn [bind].
  destruct ds_bounds as (D1 & D2 & D3). rewrite scalar_index_ok by assumption. cbn [bind].
  pose proof (kp_rows _ _ _ _ _ _ Hp) as (R1 & R2 & _). pose proof n_pos as (Hn1 & _). pose proof Hr as [Hr1 _].
  match goal with |- context [clamp_block v p (L4 (vrow nn ?a))] => set (acc := a) end.
  destruct (store_ok val_at false (Z.min (k_dst_rows p - row) n) acc row 0 dst) as (d' & E & F).
  - exact Hl.
  - clear - Hr1 R1. lia.
  - clear - Hr1 R1 R2 Hn1. lia.
  - clear - Hr1 R1 R2 Hn1. lia.
  - discriminate.
  - rewrite Hone. clear. lia.
  - intros i _. unfold val_at, stored_at. f_equal. unfold clamp_lane, out_at, acc_at, acc. destruct (ity_eqb _ _); reflexivity.
  - replace (0 * ds + row) with row in E by ring. rewrite E. cbn [bind]. pose proof (kp_lstride _ _ _ _ _ _ Hp) as (L1 & _ & L3). pose proof (kp_depth _ _ _ _ _ _ Hp) as (K1 & _).
    fold n in L3. rewrite i32_ok by (split; [unfold int_min; clear - L1 K1 Hn1; nia | exact L3]). cbn [bind].
    exists d'. split.
    + f_equal. f_equal; [f_equal; [f_equal|]; ring | destruct (k_has_bias p); reflexivity].
    + eapply filled_ext; [|exact F]. intros i j Hi. cbv beta. clear - Hi. lia.
Qed.

Theorem kernel8bit_single_col_ok : forall dbg dst, blen dst = len ->
  exists dst', kernel8bit_single_col dbg v p dst = Ok dst' /\
    filled val_at (k_dst_rows p) ds
      (fun i j => (k_start_row p <=? i) && (i <? k_last_row p + n) && (k_start_col p <=? j) && (j <? k_last_col p + n) && (j <? k_dst_cols p)) dst dst'.
Proof.
  intros dbg dst Hl. unfold kernel8bit_single_col. fold n. destruct one_col as (O1 & O2 & Hc). rewrite Hone, O1, O2.
  assert (D0 : forall b, dcheck b true = Ok tt) by (intros []; reflexivity). cbn [Z.eqb Pos.eqb]. rewrite !D0. cbn [bind].
  replace (if has_rhs_sums_offsets p then rhs_sums_offsets v p 0 else Ok []) with (Ok (offsets_for 0) : res (list Z)).
  2: { unfold offsets_for. destruct (has_rhs_sums_offsets p) eqn:Eo; [|reflexivity]. rewrite rhs_sums_offsets_ok by assumption. reflexivity. }
  cbn [bind]. unfold forstep.
  pose proof (kp_rows _ _ _ _ _ _ Hp) as (R1 & R2 & R3 & R4). fold n in R3, R4.
  destruct (count_ok _ _ R1 R3 R4) as (K1 & K2 & K3). pose proof (kp_dstride _ _ _ _ _ _ Hp) as (S1 & S2 & S3).
  pose proof (kp_rstride _ _ _ _ _ _ Hp) as (Q1 & Q2 & Q3 & Q4). fold n in S3, Q4. pose proof (kp_depth _ _ _ _ _ _ Hp) as (Q5 & _).
  destruct ds_bounds as (D1 & D2 & D3). pose proof n_pos as (Hn1 & _).
  assert (I1 : i32 (n * k_dst_stride p) = Ok (n * k_dst_stride p)) by (apply i32_ok; split; [rewrite S2; unfold int_min; clear - D1 D3 Hn1; assert (0 <= it_size (k_dst_type p) * ds) by nia; nia | exact S3]).
  assert (I2 : i32 (n * k_rhs_stride p) = Ok (n * k_rhs_stride p)) by (apply i32_ok; split; [rewrite Q3; unfold int_min; destruct size_cases as [-> | ->]; clear - Q1 Q5 Hn1; nia | exact Q4]).
  rewrite I1, I2. cbn [bind].
  set (P := fun (t : Z) (s : buf Z * Z * Z * Z) => exists d, s = (d, (k_start_row p + t * n) * k_lhs_stride p, it_size (k_dst_type p) * (k_start_row p + t * n), if k_has_bias p then k_start_row p + t * n else 0) /\
     filled val_at (k_dst_rows p) ds (fun i j => (k_start_row p <=? i) && (i <? k_start_row p + t * n) && (j =? 0)) dst d).
  match goal with |- context [forto 0 ?c ?b ?s] => destruct (forto_inv P b 0 c s) as (s' & E & HP) end.
  - exact K1.
  - exists dst. split.
    + rewrite (kp_lbase _ _ _ _ _ _ Hp), (kp_dbase _ _ _ _ _ _ Hp), O1. rewrite !Z.mul_0_l, Z.add_0_r, Z.add_0_l. reflexivity.
    + eapply filled_ext; [|apply filled_refl]. intros i j _. cbv beta. clear. lia.
  - intros t s Ht (d & -> & Hd). destruct (K3 t Ht) as (T1 & T2). cbv beta.
    destruct (row_block1_ok (k_start_row p + t * n) d) as (d' & E & F);
      [split; assumption | rewrite (fl_len _ _ _ _ _ _ Hd); exact Hl |].
    eexists. split; [exact E|]. exists d'. split; [f_equal; [f_equal; [f_equal|]; ring | destruct (k_has_bias p); [ring | reflexivity]]|].
    pose proof (filled_trans _ _ _ _ _ _ _ _ S1 Hd F) as T. eapply filled_ext; [|exact T]. intros i j _. cbv beta.
    replace (k_start_row p + (t + 1) * n) with (k_start_row p + t * n + n) by ring. clear - Hn1 T1. lia.
  - rewrite E. cbn [bind]. destruct HP as (d & -> & Hd). exists d. split; [destruct (v_trailing v); reflexivity|]. rewrite K2 in Hd.
    eapply filled_ext; [|exact Hd]. intros i j _. cbv beta. clear - Hn1. lia.
Qed.

End Generic.
