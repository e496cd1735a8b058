(** Blocks of columns stored by the 8-bit kernels for AArch64, byte by byte. *)
From Coq Require Import ZArith List Bool Lia.
From Verif Require Import Base Mat Simd SimdFacts Neon64 NeonRun NeonTac NeonCols NeonPackMath NeonKTac NeonKernelCode NeonKernelF NeonKernelT NeonKernelM Neon8Lanes Neon8Tac.
Import ListNotations.
Open Scope Z_scope.

(** The columns [out c] of [m] bytes, [st] bytes apart from [p] on, replace what [D] has there. *)
Record cols (p st m : Z) (n : nat) (out : nat -> list Z) (D D' : buf Z) : Prop := {
  cl_len : blen D' = blen D;
  cl_in : forall c y, (c < n)%nat -> 0 <= y < m -> bdat D' (p + st * Z.of_nat c + y) = nth (Z.to_nat y) (out c) 0;
  cl_out : forall x, (forall c, (c < n)%nat -> ~ 0 <= x - (p + st * Z.of_nat c) < m) -> bdat D' x = bdat D x }.

Fixpoint putc (P : buf Z) (p st : Z) (out : nat -> list Z) (n : nat) : buf Z := match n with O => P | S n => put (putc P p st out n) (p + st * Z.of_nat n) (out n) end.
Lemma putc_blen : forall P p st out n, blen (putc P p st out n) = blen P.
Proof. induction n as [|n IH]; [reflexivity|]. exact IH. Qed.
Lemma stride_far : forall st (c n : nat), (c < n)%nat -> 0 <= st -> st <= st * (Z.of_nat n - Z.of_nat c).
Proof. intros. nia. Qed.
Lemma putc_cols : forall P p st m out n, (forall c, Z.of_nat (length (out c)) = m) -> m <= st -> cols p st m n out P (putc P p st out n).
Proof.
  intros P p st m out n Hm Hst. assert (Hm0 : 0 <= m) by (rewrite <- (Hm O); lia). induction n as [|n [I1 I2 I3]].
  - constructor; [reflexivity|intros; lia|reflexivity].
  - constructor; cbn [putc].
    + exact I1.
    + intros c y Hc Hy. destruct (Nat.eq_dec c n) as [->|Hne].
      * rewrite put_in by (rewrite Hm; lia). do 2 f_equal. lia.
      * pose proof (stride_far st c n ltac:(lia) ltac:(lia)). rewrite put_out by (rewrite Hm; lia). apply I2; lia.
    + intros x Hx. pose proof (Hx n ltac:(lia)). rewrite put_out by (rewrite Hm; lia). apply I3. intros c Hc. apply Hx. lia.
Qed.

(** Elements of [sz] bytes copied one by one, and whole columns of them. *)
Fixpoint copyn (sz : nat) (D T : buf Z) (q tp : Z) (n : nat) : buf Z :=
  match n with O => D | S n => put (copyn sz D T q tp n) (q + Z.of_nat sz * Z.of_nat n) (get_bytes T (tp + Z.of_nat sz * Z.of_nat n) sz) end.
Lemma copyn_blen : forall sz D T q tp n, blen (copyn sz D T q tp n) = blen D.
Proof. induction n as [|n IH]; [reflexivity|]. exact IH. Qed.
Lemma copyn_at : forall sz D T q tp n x, bdat (copyn sz D T q tp n) x = if (q <=? x) && (x <? q + Z.of_nat sz * Z.of_nat n) then bdat T (tp + (x - q)) else bdat D x.
Proof.
  intros sz D T q tp n x. induction n as [|n IH].
  - cbn [copyn]. destruct (Z.leb_spec q x); cbn [andb]; [|reflexivity]. destruct (Z.ltb_spec x (q + Z.of_nat sz * Z.of_nat 0)); [lia|reflexivity].
  - cbn [copyn put bdat]. rewrite get_bytes_length, IH. set (m := Z.of_nat sz * Z.of_nat n) in *. assert (E : Z.of_nat sz * Z.of_nat (S n) = m + Z.of_nat sz) by (subst m; lia). rewrite E.
    assert (0 <= m) by (subst m; lia).
    destruct (Z.leb_spec (q + m) x), (Z.ltb_spec x (q + m + Z.of_nat sz)), (Z.leb_spec q x), (Z.ltb_spec x (q + m)), (Z.ltb_spec x (q + (m + Z.of_nat sz))); cbn [andb]; try lia; try reflexivity.
    rewrite get_bytes_nth by lia. f_equal. lia.
Qed.
Fixpoint copyb (sz : nat) (D T : buf Z) (q ds : Z) (nr n : nat) : buf Z :=
  match n with O => D | S n => copyn sz (copyb sz D T q ds nr n) T (q + ds * Z.of_nat n) (8 * Z.of_nat sz * Z.of_nat n) nr end.
Lemma copyb_blen : forall sz D T q ds nr n, blen (copyb sz D T q ds nr n) = blen D.
Proof. induction n as [|n IH]; [reflexivity|]. cbn [copyb]. rewrite copyn_blen. exact IH. Qed.
Lemma copyb_cols : forall sz D T0 T out q ds nr n, cols 0 (8 * Z.of_nat sz) (8 * Z.of_nat sz) 8 out T0 T -> (nr <= 8)%nat -> (n <= 8)%nat -> Z.of_nat sz * Z.of_nat nr <= ds ->
  cols q ds (Z.of_nat sz * Z.of_nat nr) n out D (copyb sz D T q ds nr n).
Proof.
  intros sz D T0 T out q ds nr n [_ HT _] Hnr Hn Hds. assert (Hm8 : 0 <= Z.of_nat sz * Z.of_nat nr <= 8 * Z.of_nat sz) by nia.
  set (m := Z.of_nat sz * Z.of_nat nr) in *. induction n as [|n IH].
  - constructor; [reflexivity|intros; lia|reflexivity].
  - destruct (IH ltac:(lia)) as [I1 I2 I3]. constructor; cbn [copyb].
    + rewrite copyn_blen. exact I1.
    + intros c y Hc Hy. rewrite copyn_at. fold m. destruct (Nat.eq_dec c n) as [->|Hne].
      * replace (q + ds * Z.of_nat n <=? q + ds * Z.of_nat n + y) with true by (symmetry; apply Z.leb_le; lia).
        replace (q + ds * Z.of_nat n + y <? q + ds * Z.of_nat n + m) with true by (symmetry; apply Z.ltb_lt; lia). cbn [andb].
        rewrite <- (HT n y) by lia. f_equal. lia.
      * pose proof (stride_far ds c n ltac:(lia) ltac:(lia)). replace (q + ds * Z.of_nat n <=? q + ds * Z.of_nat c + y) with false by (symmetry; apply Z.leb_gt; lia). cbn [andb]. apply I2; lia.
    + intros x Hx. pose proof (Hx n ltac:(lia)). rewrite copyn_at. fold m.
      replace ((q + ds * Z.of_nat n <=? x) && (x <? q + ds * Z.of_nat n + m)) with false by (symmetry; apply andb_false_iff; rewrite Z.leb_gt, Z.ltb_ge; lia).
      apply I3. intros c Hc. apply Hx. lia.
Qed.

(** Two registers per column. *)
Lemma put_at : forall b b' o v x, bdat b x = bdat b' x -> bdat (put b o v) x = bdat (put b' o v) x.
Proof. intros b b' o v x H. cbn [put bdat]. rewrite H. reflexivity. Qed.
Lemma put_cols_putc : forall P p st g n x, (forall h c, length (g h c) = 16%nat) -> bdat (put_cols P p st g n) x = bdat (putc P p st (fun c => g 0%nat c ++ g 1%nat c) n) x.
Proof.
  intros P p st g n x Hg. induction n as [|n IH]; [reflexivity|]. cbn [put_cols putc]. rewrite put_put by (rewrite Hg; lia). apply put_at, IH.
Qed.
Lemma cols_same : forall p st m n out D D' D'', cols p st m n out D D' -> blen D'' = blen D' -> (forall x, bdat D'' x = bdat D' x) -> cols p st m n out D D''.
Proof. intros p st m n out D D' D'' [H1 H2 H3] Hl Hx. constructor; [congruence|intros; rewrite Hx; auto|intros; rewrite Hx; auto]. Qed.

(** The bytes of the temporary buffer. *)
Lemma cols_bytes : forall sz out T0 T x, cols 0 (8 * Z.of_nat sz) (8 * Z.of_nat sz) 8 out T0 T -> (0 < sz)%nat -> (forall c, length (out c) = (8 * sz)%nat /\ Forall (fun z => 0 <= z < 256) (out c)) ->
  0 <= x < 64 * Z.of_nat sz -> 0 <= bdat T x < 256.
Proof.
  intros sz out T0 T x [_ HT _] Hsz Ho Hx. set (m := 8 * Z.of_nat sz) in *. assert (Hm : 0 < m) by lia.
  pose proof (Z.div_mod x m ltac:(lia)) as E. pose proof (Z.mod_pos_bound x m Hm) as B. assert (Hq : 0 <= x / m < 8) by (split; [apply Z.div_pos; lia|apply Z.div_lt_upper_bound; lia]).
  replace x with (0 + m * Z.of_nat (Z.to_nat (x / m)) + x mod m) by lia. rewrite HT by lia.
  destruct (Ho (Z.to_nat (x / m))) as [HL HF]. rewrite Forall_forall in HF. apply HF, nth_In. lia.
Qed.
