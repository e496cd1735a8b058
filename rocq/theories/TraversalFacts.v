(** Lemmas about the traversal orders of block_map.cc. *)
From Verif Require Import Base SidePair SizeUtil SizeUtilFacts BlockMap.

(** * Counting: an injection between finite sets of the same size is onto *)

Lemma list_prod_length : forall {A B} (l : list A) (m : list B),
  length (list_prod l m) = (length l * length m)%nat.
Proof. intros. apply prod_length. Qed.

Lemma NoDup_map_inj_in : forall {A B} (f : A -> B) l,
  (forall x y, In x l -> In y l -> f x = f y -> x = y) -> NoDup l -> NoDup (map f l).
Proof.
  intros A B f l Hinj Hnd. induction Hnd as [|a l Hn Hnd IH]; cbn; constructor.
  - intros Hin. apply in_map_iff in Hin. destruct Hin as (b & E & Hb).
    assert (b = a) by (apply Hinj; cbn; auto). subst. contradiction.
  - apply IH. intros; apply Hinj; cbn; auto.
Qed.

Lemma pigeonhole_surj : forall (N A B : Z) (f : Z -> Z * Z),
  0 <= A -> 0 <= B -> N = A * B ->
  (forall i, 0 <= i < N -> 0 <= fst (f i) < A /\ 0 <= snd (f i) < B) ->
  (forall i j, 0 <= i < N -> 0 <= j < N -> f i = f j -> i = j) ->
  forall a b, 0 <= a < A -> 0 <= b < B -> exists i, 0 <= i < N /\ f i = (a, b).
Proof.
  intros N A B f HA HB HN Hrange Hinj a b Ha Hb.
  set (dom := zrange 0 N).
  set (cod := list_prod (zrange 0 A) (zrange 0 B)).
  assert (Hnd : NoDup (map f dom)).
  { apply NoDup_map_inj_in; [|apply zrange_NoDup].
    intros x y Hx Hy. apply zrange_In in Hx, Hy. apply Hinj; auto. }
  assert (Hincl : incl (map f dom) cod).
  { intros p Hp. apply in_map_iff in Hp. destruct Hp as (i & <- & Hi).
    apply zrange_In in Hi. destruct (Hrange i Hi).
    rewrite (surjective_pairing (f i)). apply in_prod; apply zrange_In; auto. }
  assert (Hlen : (length cod <= length (map f dom))%nat).
  { unfold cod, dom. rewrite map_length, list_prod_length. unfold zrange.
    rewrite !zseq_length, <- Z2Nat.inj_mul by lia.
    replace (N - 0) with ((A - 0) * (B - 0)) by lia. lia. }
  assert (Hin : In (a, b) (map f dom)).
  { apply (NoDup_length_incl Hnd Hlen Hincl). apply in_prod; apply zrange_In; auto. }
  apply in_map_iff in Hin. destruct Hin as (i & E & Hi).
  apply zrange_In in Hi. eauto.
Qed.

(** * The Z-order decoder extracts the even and the odd bits *)

Definition swap_middle (g i : Z) : Z :=
  if (i / g) mod 4 =? 1 then i + g else if (i / g) mod 4 =? 2 then i - g else i.

Ltac case32 i H :=
  let L := fresh in
  assert (L : i = 0 \/ i = 1 \/ i = 2 \/ i = 3 \/ i = 4 \/ i = 5 \/ i = 6 \/ i = 7 \/
              i = 8 \/ i = 9 \/ i = 10 \/ i = 11 \/ i = 12 \/ i = 13 \/ i = 14 \/ i = 15 \/
              i = 16 \/ i = 17 \/ i = 18 \/ i = 19 \/ i = 20 \/ i = 21 \/ i = 22 \/ i = 23 \/
              i = 24 \/ i = 25 \/ i = 26 \/ i = 27 \/ i = 28 \/ i = 29 \/ i = 30 \/ i = 31) by lia;
  clear H;
  repeat (destruct L as [L|L]; [subst i|]); try subst i.

Ltac stage_bits g :=
  unfold shl_u32, wrap_u;
  rewrite ?Z.lor_spec, ?Z.land_spec;
  rewrite Z.shiftr_spec by lia;
  rewrite Z.mod_pow2_bits_low by lia;
  rewrite ?Z.land_spec.

Lemma stage_generic : forall n m0 m1 m2 g i, 0 <= i < 32 -> 0 < g ->
  Z.testbit (Z.lor (Z.lor (Z.land n m0) (Z.shiftr (Z.land n m1) g)) (shl_u32 (Z.land n m2) g)) i =
  (Z.testbit n i && Z.testbit m0 i) || (Z.testbit n (i + g) && Z.testbit m1 (i + g))
  || (Z.testbit n (i - g) && Z.testbit m2 (i - g)).
Proof.
  intros n m0 m1 m2 g i Hi Hg. unfold shl_u32, wrap_u.
  rewrite !Z.lor_spec, Z.land_spec, Z.shiftr_spec, Z.land_spec by lia.
  rewrite Z.mod_pow2_bits_low by lia.
  destruct (Z_lt_le_dec i g).
  - rewrite Z.shiftl_spec_low by lia. rewrite (Z.testbit_neg_r n (i - g)) by lia. reflexivity.
  - rewrite Z.shiftl_spec by lia. rewrite Z.land_spec. reflexivity.
Qed.

Ltac stage_solve n i Hi :=
  rewrite stage_generic by lia;
  case32 i Hi;
  match goal with
  | |- context [Z.testbit n (swap_middle ?g ?j)] =>
    let v := eval vm_compute in (swap_middle g j) in change (swap_middle g j) with v
  end;
  repeat match goal with
  | |- context [Z.testbit n (?a + ?b)] => let v := eval vm_compute in (a + b) in change (a + b) with v
  | |- context [Z.testbit n (?a - ?b)] => let v := eval vm_compute in (a - b) in change (a - b) with v
  end;
  repeat match goal with
  | |- context [Z.testbit ?c ?d] =>
    is_ground c; is_ground d;
    let v := eval vm_compute in (Z.testbit c d) in change (Z.testbit c d) with v
  end;
  rewrite ?andb_true_r, ?andb_false_r, ?orb_false_l, ?orb_false_r; reflexivity.

Lemma z_n2_bits : forall n i, 0 <= i < 32 -> Z.testbit (z_n2 n) i = Z.testbit n (swap_middle 1 i).
Proof. intros n i Hi. unfold z_n2. stage_solve n i Hi. Qed.
Lemma z_n4_bits : forall n i, 0 <= i < 32 -> Z.testbit (z_n4 n) i = Z.testbit n (swap_middle 2 i).
Proof. intros n i Hi. unfold z_n4. stage_solve n i Hi. Qed.
Lemma z_n8_bits : forall n i, 0 <= i < 32 -> Z.testbit (z_n8 n) i = Z.testbit n (swap_middle 4 i).
Proof. intros n i Hi. unfold z_n8. stage_solve n i Hi. Qed.
Lemma z_n16_bits : forall n i, 0 <= i < 32 -> Z.testbit (z_n16 n) i = Z.testbit n (swap_middle 8 i).
Proof. intros n i Hi. unfold z_n16. stage_solve n i Hi. Qed.

Definition z_all (n : Z) : Z := z_n16 (z_n8 (z_n4 (z_n2 n))).

Lemma z_all_bits : forall n i, 0 <= i < 32 ->
  Z.testbit (z_all n) i = Z.testbit n (if i <? 16 then 2 * i else 2 * i - 31).
Proof.
  intros n i Hi. unfold z_all.
  rewrite z_n16_bits by lia.
  rewrite z_n8_bits by (unfold swap_middle; case32 i Hi; vm_compute; split; congruence).
  rewrite z_n4_bits by (case32 i Hi; vm_compute; split; congruence).
  rewrite z_n2_bits by (case32 i Hi; vm_compute; split; congruence).
  f_equal. case32 i Hi; reflexivity.
Qed.

#[local] Opaque z_n2 z_n4 z_n8 z_n16.

Lemma decode_z_eq : forall n, decode_z n = mk_sp (Z.land (z_all n) (Z.ones 16)) (Z.shiftr (z_all n) 16).
Proof. reflexivity. Qed.

Lemma decode_z_lhs_bits : forall n i, 0 <= i < 16 ->
  Z.testbit (lhs (decode_z n)) i = Z.testbit n (2 * i).
Proof.
  intros n i Hi. rewrite decode_z_eq; cbn [lhs].
  rewrite Z.land_spec, Z.ones_spec_low, andb_true_r by lia.
  rewrite z_all_bits by lia. replace (i <? 16) with true by lia. reflexivity.
Qed.

Lemma decode_z_lhs_high : forall n i, 16 <= i -> Z.testbit (lhs (decode_z n)) i = false.
Proof.
  intros n i Hi. rewrite decode_z_eq; cbn [lhs].
  rewrite Z.land_spec, Z.ones_spec_high by lia. apply andb_false_r.
Qed.

Lemma stage_high : forall n m0 m1 m2 g i, 0 < g -> 32 <= i ->
  0 <= m0 < 2 ^ 32 -> 0 <= m1 < 2 ^ 32 ->
  Z.testbit (Z.lor (Z.lor (Z.land n m0) (Z.shiftr (Z.land n m1) g)) (shl_u32 (Z.land n m2) g)) i = false.
Proof.
  intros n m0 m1 m2 g i Hg Hi H0 H1. unfold shl_u32, wrap_u.
  rewrite !Z.lor_spec, Z.land_spec, Z.shiftr_spec, Z.land_spec by lia.
  rewrite Z.mod_pow2_bits_high by lia.
  assert (Hz : forall m j, 0 <= m < 2 ^ 32 -> 32 <= j -> Z.testbit m j = false).
  { intros m j Hm Hj. destruct (Z.eq_dec m 0) as [->|]; [apply Z.testbit_0_l|].
    apply Z.bits_above_log2; [lia|].
    assert (Z.log2 m < 32) by (apply Z.log2_lt_pow2; lia). lia. }
  rewrite (Hz m0), (Hz m1) by lia. rewrite !andb_false_r. reflexivity.
Qed.

Lemma decode_z_rhs_bits : forall n i, 0 <= i < 16 ->
  Z.testbit (rhs (decode_z n)) i = Z.testbit n (2 * i + 1).
Proof.
  intros n i Hi. rewrite decode_z_eq; cbn [rhs].
  rewrite Z.shiftr_spec by lia.
  rewrite z_all_bits by lia. replace (i + 16 <? 16) with false by lia. f_equal. lia.
Qed.

Lemma decode_z_rhs_high : forall n i, 16 <= i -> Z.testbit (rhs (decode_z n)) i = false.
Proof.
  intros n i Hi. rewrite decode_z_eq; cbn [rhs].
  rewrite Z.shiftr_spec by lia. unfold z_all. with_strategy transparent [z_n16] unfold z_n16. apply stage_high; lia.
Qed.

Lemma decode_z_nonneg : forall n, 0 <= lhs (decode_z n) /\ 0 <= rhs (decode_z n).
Proof.
  intros n. split.
  - rewrite decode_z_eq; cbn [lhs]. apply Z.land_nonneg. right. vm_compute. discriminate.
  - apply Z.bits_iff_nonneg_ex. exists 16. intros m Hm. apply decode_z_rhs_high. lia.
Qed.

Lemma lt_pow2_of_bits : forall n k, 0 <= k -> 0 <= n ->
  (forall i, k <= i -> Z.testbit n i = false) -> n < 2 ^ k.
Proof.
  intros n k Hk Hn H. destruct (Z.eq_dec n 0) as [->|]; [apply pow2_pos; auto|].
  apply Z.log2_lt_pow2; [lia|].
  destruct (Z_lt_le_dec (Z.log2 n) k); auto.
  specialize (H (Z.log2 n) l). rewrite Z.bit_log2 in H by lia. discriminate.
Qed.

Lemma bits_of_lt_pow2 : forall n k i, 0 <= n < 2 ^ k -> k <= i -> Z.testbit n i = false.
Proof.
  intros n k i Hn Hi.
  destruct (Z.eq_dec n 0) as [->|]; [apply Z.testbit_0_l|].
  apply Z.bits_above_log2; [lia|].
  assert (Z.log2 n < k) by (apply Z.log2_lt_pow2; lia). lia.
Qed.

Lemma decode_z_range : forall k n, 0 <= k <= 16 -> 0 <= n < 2 ^ (2 * k) ->
  0 <= lhs (decode_z n) < 2 ^ k /\ 0 <= rhs (decode_z n) < 2 ^ k.
Proof.
  intros k n Hk Hn. destruct (decode_z_nonneg n) as [H1 H2].
  repeat split; auto.
  - apply lt_pow2_of_bits; auto; [lia|]. intros i Hi.
    destruct (Z_lt_le_dec i 16); [|apply decode_z_lhs_high; lia].
    rewrite decode_z_lhs_bits by lia. apply (bits_of_lt_pow2 n (2 * k)); lia.
  - apply lt_pow2_of_bits; auto; [lia|]. intros i Hi.
    destruct (Z_lt_le_dec i 16); [|apply decode_z_rhs_high; lia].
    rewrite decode_z_rhs_bits by lia. apply (bits_of_lt_pow2 n (2 * k)); lia.
Qed.

Lemma decode_z_inj : forall n m, 0 <= n < 2 ^ 32 -> 0 <= m < 2 ^ 32 ->
  lhs (decode_z n) = lhs (decode_z m) -> rhs (decode_z n) = rhs (decode_z m) -> n = m.
Proof.
  intros n m Hn Hm El Er. apply Z.bits_inj'. intros i Hi.
  destruct (Z_lt_le_dec i 32).
  - destruct (Z.eq_dec (i mod 2) 0).
    + assert (Hd : 0 <= i / 2 < 16) by (pose proof (Z.div_mod i 2); lia).
      replace i with (2 * (i / 2)) by (pose proof (Z.div_mod i 2); lia).
      rewrite <- !decode_z_lhs_bits by auto. congruence.
    + pose proof (Z.mod_pos_bound i 2).
      assert (Hd : 0 <= i / 2 < 16) by (pose proof (Z.div_mod i 2); lia).
      replace i with (2 * (i / 2) + 1) by (pose proof (Z.div_mod i 2); lia).
      rewrite <- !decode_z_rhs_bits by auto. congruence.
  - rewrite !(bits_of_lt_pow2 _ 32) by lia. reflexivity.
Qed.

(** * U-order *)

Lemma lxor_range : forall k a b, 0 <= k -> 0 <= a < 2 ^ k -> 0 <= b < 2 ^ k ->
  0 <= Z.lxor a b < 2 ^ k.
Proof.
  intros k a b Hk Ha Hb. assert (H : 0 <= Z.lxor a b) by (apply Z.lxor_nonneg; lia).
  split; auto. apply lt_pow2_of_bits; auto. intros i Hi.
  rewrite Z.lxor_spec, (bits_of_lt_pow2 a k), (bits_of_lt_pow2 b k) by lia. reflexivity.
Qed.

Lemma decode_u_lhs : forall n, lhs (decode_u n) = Z.lxor (lhs (decode_z n)) (rhs (decode_z n)).
Proof. intros n. unfold decode_u. generalize (decode_z n). reflexivity. Qed.
Lemma decode_u_rhs : forall n, rhs (decode_u n) = rhs (decode_z n).
Proof. intros n. unfold decode_u. generalize (decode_z n). reflexivity. Qed.

Lemma decode_u_range : forall k n, 0 <= k <= 16 -> 0 <= n < 2 ^ (2 * k) ->
  0 <= lhs (decode_u n) < 2 ^ k /\ 0 <= rhs (decode_u n) < 2 ^ k.
Proof.
  intros k n Hk Hn. destruct (decode_z_range k n Hk Hn).
  rewrite decode_u_lhs, decode_u_rhs. split; auto. apply lxor_range; auto; lia.
Qed.

Lemma decode_u_inj : forall n m, 0 <= n < 2 ^ 32 -> 0 <= m < 2 ^ 32 ->
  lhs (decode_u n) = lhs (decode_u m) -> rhs (decode_u n) = rhs (decode_u m) -> n = m.
Proof.
  intros n m Hn Hm. rewrite !decode_u_lhs, !decode_u_rhs. intros El Er.
  apply decode_z_inj; auto.
  rewrite Er in El.
  apply (f_equal (fun z => Z.lxor z (rhs (decode_z m)))) in El.
  rewrite !Z.lxor_assoc, !Z.lxor_nilpotent, !Z.lxor_0_r in El. exact El.
Qed.

(** * Linear order *)

Lemma decode_linear_eq : forall k n, 0 <= k ->
  decode_linear k n = mk_sp (n mod 2 ^ k) (n / 2 ^ k).
Proof.
  intros k n Hk. unfold decode_linear.
  replace (2 ^ k - 1) with (Z.ones k) by (rewrite Z.ones_equiv; lia).
  rewrite Z.land_ones, Z.shiftr_div_pow2 by lia. reflexivity.
Qed.

Lemma pow2_double : forall k, 0 <= k -> 2 ^ (2 * k) = 2 ^ k * 2 ^ k.
Proof. intros. rewrite <- Z.pow_add_r by lia. f_equal; lia. Qed.

Lemma decode_linear_range : forall k n, 0 <= k -> 0 <= n < 2 ^ (2 * k) ->
  0 <= lhs (decode_linear k n) < 2 ^ k /\ 0 <= rhs (decode_linear k n) < 2 ^ k.
Proof.
  intros k n Hk Hn. rewrite decode_linear_eq by auto; cbn [lhs rhs].
  pose proof (pow2_pos k Hk). rewrite pow2_double in Hn by auto.
  split; [apply Z.mod_pos_bound; auto|].
  split; [apply Z.div_pos; lia|apply Z.div_lt_upper_bound; lia].
Qed.

Lemma decode_linear_inj : forall k n m, 0 <= k ->
  lhs (decode_linear k n) = lhs (decode_linear k m) ->
  rhs (decode_linear k n) = rhs (decode_linear k m) -> n = m.
Proof.
  intros k n m Hk. rewrite !decode_linear_eq by auto; cbn [lhs rhs]. intros E1 E2.
  pose proof (pow2_pos k Hk).
  rewrite (Z.div_mod n (2 ^ k)), (Z.div_mod m (2 ^ k)) by lia. congruence.
Qed.

(** * Hilbert order *)

Lemma forz_snoc : forall {S} (body : Z -> S -> S) n i s,
  forz (Datatypes.S n) i body s = body (i + Z.of_nat n) (forz n i body s).
Proof.
  intros S body. induction n as [|n IH]; intros i s.
  - cbn [forz]. f_equal. lia.
  - change (forz (Datatypes.S (Datatypes.S n)) i body s)
      with (forz (Datatypes.S n) (i + 1) body (body i s)).
    rewrite IH. cbn [forz]. f_equal. lia.
Qed.

(** The loop state after [k] iterations. *)
Definition hil_state (k : nat) (idx : Z) : Z * Z * Z := forz k 0 hilbert_iter (idx, 0, 0).
Definition hil_x (k : nat) (idx : Z) : Z := snd (fst (hil_state k idx)).
Definition hil_y (k : nat) (idx : Z) : Z := snd (hil_state k idx).

(** Geometric description of one level: quadrant [d] of a square of half-size [s]. *)
Definition quadrant (d s x y : Z) : Z * Z :=
  if d =? 0 then (y, x)
  else if d =? 1 then (x, y + s)
  else if d =? 2 then (x + s, y + s)
  else (2 * s - 1 - y, s - 1 - x).

Lemma land_2_test : forall t, negb (Z.land t 2 =? 0) = Z.testbit t 1.
Proof.
  intros t. change 2 with (2 ^ 1). destruct (Z.testbit t 1) eqn:E.
  - assert (H : Z.testbit (Z.land t (2 ^ 1)) 1 = true)
      by (rewrite Z.land_spec, E, Z.pow2_bits_true by lia; reflexivity).
    destruct (Z.land t (2 ^ 1) =? 0) eqn:F; auto.
    apply Z.eqb_eq in F. rewrite F, Z.testbit_0_l in H. discriminate.
  - assert (H : Z.land t (2 ^ 1) = 0).
    { apply Z.bits_inj'. intros i Hi. rewrite Z.land_spec, Z.testbit_0_l.
      destruct (Z.eq_dec i 1) as [->|]; [rewrite E; reflexivity|].
      rewrite Z.pow2_bits_false by lia. apply andb_false_r. }
    rewrite H. reflexivity.
Qed.

Lemma land_1_test : forall t, negb (Z.land t 1 =? 0) = Z.testbit t 0.
Proof.
  intros t. change 1 with (Z.ones 1) at 1. rewrite Z.land_ones by lia.
  change (2 ^ 1) with 2. rewrite <- Z.bit0_mod. destruct (Z.testbit t 0); reflexivity.
Qed.

Lemma hilbert_iter_eq : forall sb t x y, 0 <= sb <= 30 ->
  0 <= x < 2 ^ sb -> 0 <= y < 2 ^ sb ->
  hilbert_iter sb (t, x, y) =
    (t / 4, fst (quadrant (t mod 4) (2 ^ sb) x y), snd (quadrant (t mod 4) (2 ^ sb) x y)).
Proof.
  intros sb t x y Hsb Hx Hy. unfold hilbert_iter.
  rewrite land_2_test, land_1_test.
  assert (Hs : 2 ^ sb <= 2 ^ 30) by (apply Z.pow_le_mono_r; lia).
  change (2 ^ 30) with 1073741824 in Hs.
  unfold wrap_u. change (2 ^ 32) with 4294967296.
  rewrite Z.shiftr_div_pow2 by lia. change (2 ^ 2) with 4.
  pose proof (Z.mod_pos_bound t 4 ltac:(lia)).
  assert (B0 : Z.b2z (Z.testbit t 0) = t mod 2) by apply Z.bit0_mod.
  assert (B1 : Z.b2z (Z.testbit t 1) = (t / 2) mod 2).
  { rewrite Z.testbit_spec' by lia. reflexivity. }
  assert (D : t mod 4 = 2 * Z.b2z (Z.testbit t 1) + Z.b2z (Z.testbit t 0)).
  { rewrite B0, B1. Ltac Zify.zify_post_hook ::= Z.div_mod_to_equations. lia. }
  unfold quadrant. rewrite D.
  destruct (Z.testbit t 1), (Z.testbit t 0); cbn [Z.b2z xorb negb];
    change (2 * 1 + 1) with 3; change (2 * 1 + 0) with 2;
    change (2 * 0 + 1) with 1; change (2 * 0 + 0) with 0;
    cbn [Z.eqb Pos.eqb fst snd].
  all: rewrite ?Z.mod_small by lia; try reflexivity.
  apply f_equal2; [apply f_equal2|]; try reflexivity; lia.
Qed.
Ltac Zify.zify_post_hook ::= idtac.

Lemma quadrant_range : forall d s x y, 0 <= d < 4 -> 0 < s -> 0 <= x < s -> 0 <= y < s ->
  0 <= fst (quadrant d s x y) < 2 * s /\ 0 <= snd (quadrant d s x y) < 2 * s.
Proof.
  intros. unfold quadrant.
  destruct (d =? 0), (d =? 1), (d =? 2); cbn [fst snd]; lia.
Qed.

Lemma quadrant_inj : forall d d' s x y x' y', 0 <= d < 4 -> 0 <= d' < 4 -> 0 < s ->
  0 <= x < s -> 0 <= y < s -> 0 <= x' < s -> 0 <= y' < s ->
  quadrant d s x y = quadrant d' s x' y' -> d = d' /\ x = x' /\ y = y'.
Proof.
  intros d d' s x y x' y' Hd Hd' Hs Hx Hy Hx' Hy' E. unfold quadrant in E.
  destruct (d =? 0) eqn:?, (d =? 1) eqn:?, (d =? 2) eqn:?; try lia;
  destruct (d' =? 0) eqn:?, (d' =? 1) eqn:?, (d' =? 2) eqn:?; try lia;
  apply pair_equal_spec in E; destruct E; lia.
Qed.

Lemma hil_state_eq : forall k idx, Z.of_nat k <= 31 -> 0 <= idx ->
  hil_state k idx = (idx / 4 ^ Z.of_nat k, hil_x k idx, hil_y k idx) /\
  0 <= hil_x k idx < 2 ^ Z.of_nat k /\ 0 <= hil_y k idx < 2 ^ Z.of_nat k.
Proof.
  induction k as [|k IH]; intros idx Hk Hidx.
  - cbn. rewrite Z.div_1_r. repeat split; lia.
  - destruct (IH idx ltac:(lia) Hidx) as (E & Rx & Ry).
    assert (Hst : hil_state (S k) idx = hilbert_iter (Z.of_nat k) (hil_state k idx)).
    { unfold hil_state. rewrite forz_snoc. reflexivity. }
    rewrite E, hilbert_iter_eq in Hst by lia.
    unfold hil_x, hil_y. rewrite Hst. cbn [fst snd]. clear Hst.
    assert (P2 : 2 ^ Z.of_nat (S k) = 2 * 2 ^ Z.of_nat k)
      by (rewrite Nat2Z.inj_succ, Z.pow_succ_r by lia; reflexivity).
    assert (P4 : 4 ^ Z.of_nat (S k) = 4 ^ Z.of_nat k * 4)
      by (rewrite Nat2Z.inj_succ, Z.pow_succ_r by lia; lia).
    rewrite P2, P4, Z.div_div by (try apply Z.pow_nonzero; lia).
    split; [reflexivity|].
    apply quadrant_range; auto; try lia; apply Z.mod_pos_bound; lia.
Qed.

Lemma hil_pos_succ : forall k idx, Z.of_nat (S k) <= 31 -> 0 <= idx ->
  (hil_x (S k) idx, hil_y (S k) idx) =
  quadrant ((idx / 4 ^ Z.of_nat k) mod 4) (2 ^ Z.of_nat k) (hil_x k idx) (hil_y k idx).
Proof.
  intros k idx Hk Hidx.
  destruct (hil_state_eq k idx ltac:(lia) Hidx) as (E & Rx & Ry).
  unfold hil_x at 1, hil_y at 1. unfold hil_state. rewrite forz_snoc.
  fold (hil_state k idx). rewrite E, Z.add_0_l, hilbert_iter_eq by lia. cbn [fst snd].
  rewrite <- surjective_pairing. reflexivity.
Qed.

(** The position depends on the low [2k] bits of the index only. *)
Lemma hil_pos_mod : forall k idx, Z.of_nat k <= 31 -> 0 <= idx ->
  hil_x k idx = hil_x k (idx mod 4 ^ Z.of_nat k) /\ hil_y k idx = hil_y k (idx mod 4 ^ Z.of_nat k).
Proof.
  assert (G : forall k m idx, (k <= m)%nat -> Z.of_nat m <= 31 -> 0 <= idx ->
    hil_x k idx = hil_x k (idx mod 4 ^ Z.of_nat m) /\ hil_y k idx = hil_y k (idx mod 4 ^ Z.of_nat m)).
  { induction k as [|k IH]; intros m idx Hm Hk Hidx; [split; reflexivity|].
    assert (0 < 4 ^ Z.of_nat m) by (apply Z.pow_pos_nonneg; lia).
    assert (0 < 4 ^ Z.of_nat k) by (apply Z.pow_pos_nonneg; lia).
    pose proof (Z.mod_pos_bound idx (4 ^ Z.of_nat m) ltac:(lia)).
    destruct (IH m idx ltac:(lia) Hk Hidx) as [Ex Ey].
    pose proof (hil_pos_succ k idx ltac:(lia) Hidx) as S1.
    pose proof (hil_pos_succ k (idx mod 4 ^ Z.of_nat m) ltac:(lia) ltac:(lia)) as S2.
    assert (D : (idx / 4 ^ Z.of_nat k) mod 4 = (idx mod 4 ^ Z.of_nat m / 4 ^ Z.of_nat k) mod 4).
    { replace (4 ^ Z.of_nat m) with (4 ^ Z.of_nat k * (4 * 4 ^ (Z.of_nat m - Z.of_nat k - 1))).
      2:{ rewrite <- Z.pow_succ_r, <- Z.pow_add_r by lia. f_equal. lia. }
      assert (0 < 4 ^ (Z.of_nat m - Z.of_nat k - 1)) by (apply Z.pow_pos_nonneg; lia).
      rewrite Z.rem_mul_r by lia.
      rewrite (Z.mul_comm (4 ^ Z.of_nat k)), Z.div_add by lia.
      rewrite (Z.div_small (idx mod 4 ^ Z.of_nat k)) by (apply Z.mod_pos_bound; lia).
      rewrite Z.add_0_l, Z.rem_mul_r by lia.
      rewrite Z.mul_comm, Z.mod_add by lia. rewrite Z.mod_mod by lia. reflexivity. }
    rewrite <- D, <- Ex, <- Ey, <- S1 in S2. inversion S2; auto. }
  intros k idx Hk Hidx. apply (G k k); auto.
Qed.

Lemma hil_inj : forall k i j, Z.of_nat k <= 31 ->
  0 <= i < 4 ^ Z.of_nat k -> 0 <= j < 4 ^ Z.of_nat k ->
  hil_x k i = hil_x k j -> hil_y k i = hil_y k j -> i = j.
Proof.
  induction k as [|k IH]; intros i j Hk Hi Hj Ex Ey.
  - change (4 ^ Z.of_nat 0) with 1 in *. lia.
  - assert (P : 0 < 4 ^ Z.of_nat k) by (apply Z.pow_pos_nonneg; lia).
    assert (P4 : 4 ^ Z.of_nat (S k) = 4 ^ Z.of_nat k * 4)
      by (rewrite Nat2Z.inj_succ, Z.pow_succ_r by lia; lia).
    pose proof (hil_pos_succ k i Hk ltac:(lia)) as Si.
    pose proof (hil_pos_succ k j Hk ltac:(lia)) as Sj.
    rewrite Ex, Ey, Sj in Si.
    destruct (hil_state_eq k i ltac:(lia) ltac:(lia)) as (_ & Rxi & Ryi).
    destruct (hil_state_eq k j ltac:(lia) ltac:(lia)) as (_ & Rxj & Ryj).
    apply quadrant_inj in Si; auto; try (apply Z.mod_pos_bound; lia); try (apply pow2_pos; lia).
    destruct Si as (Ed & Ex' & Ey').
    destruct (hil_pos_mod k i ltac:(lia) ltac:(lia)) as [Mxi Myi].
    destruct (hil_pos_mod k j ltac:(lia) ltac:(lia)) as [Mxj Myj].
    assert (Em : i mod 4 ^ Z.of_nat k = j mod 4 ^ Z.of_nat k).
    { apply IH; try lia; try (apply Z.mod_pos_bound; lia); congruence. }
    assert (Dq : forall n, 0 <= n < 4 ^ Z.of_nat (S k) -> (n / 4 ^ Z.of_nat k) mod 4 = n / 4 ^ Z.of_nat k).
    { intros n Hn. apply Z.mod_small. split; [apply Z.div_pos; lia|apply Z.div_lt_upper_bound; lia]. }
    rewrite !Dq in Ed by lia.
    rewrite (Z.div_mod i (4 ^ Z.of_nat k)), (Z.div_mod j (4 ^ Z.of_nat k)) by lia. congruence.
Qed.

Lemma pow4_pow2 : forall k, 0 <= k -> 4 ^ k = 2 ^ (2 * k).
Proof. intros. change 4 with (2 ^ 2). rewrite <- Z.pow_mul_r by lia. reflexivity. Qed.

Lemma decode_hilbert_eq : forall k n, 0 <= k <= 31 -> 0 <= n ->
  decode_hilbert k n = mk_sp (hil_y (Z.to_nat k) n) (hil_x (Z.to_nat k) n).
Proof.
  intros k n Hk Hn. unfold decode_hilbert, hil_x, hil_y. fold (hil_state (Z.to_nat k) n).
  destruct (hil_state (Z.to_nat k) n) as [[t x] y]. reflexivity.
Qed.

Lemma decode_hilbert_range : forall k n, 0 <= k <= 16 -> 0 <= n < 2 ^ (2 * k) ->
  0 <= lhs (decode_hilbert k n) < 2 ^ k /\ 0 <= rhs (decode_hilbert k n) < 2 ^ k.
Proof.
  intros k n Hk Hn. rewrite decode_hilbert_eq by lia. cbn [lhs rhs].
  destruct (hil_state_eq (Z.to_nat k) n ltac:(lia) ltac:(lia)) as (_ & Rx & Ry).
  rewrite Z2Nat.id in * by lia. auto.
Qed.

Lemma decode_hilbert_inj : forall k n m, 0 <= k <= 16 ->
  0 <= n < 2 ^ (2 * k) -> 0 <= m < 2 ^ (2 * k) ->
  lhs (decode_hilbert k n) = lhs (decode_hilbert k m) ->
  rhs (decode_hilbert k n) = rhs (decode_hilbert k m) -> n = m.
Proof.
  intros k n m Hk Hn Hm. rewrite !decode_hilbert_eq by lia. cbn [lhs rhs]. intros Ey Ex.
  apply (hil_inj (Z.to_nat k)); auto; try lia; rewrite Z2Nat.id, pow4_pow2 by lia; auto.
Qed.

(** * All four orders *)

Lemma decode_range : forall o k n, 0 <= k <= 16 -> 0 <= n < 2 ^ (2 * k) ->
  0 <= lhs (decode o k n) < 2 ^ k /\ 0 <= rhs (decode o k n) < 2 ^ k.
Proof.
  intros [] k n Hk Hn; cbn [decode].
  - apply decode_linear_range; auto; lia.
  - apply decode_z_range; auto.
  - apply decode_u_range; auto.
  - apply decode_hilbert_range; auto.
Qed.

Lemma decode_inj : forall o k n m, 0 <= k <= 16 ->
  0 <= n < 2 ^ (2 * k) -> 0 <= m < 2 ^ (2 * k) ->
  decode o k n = decode o k m -> n = m.
Proof.
  intros o k n m Hk Hn Hm E.
  assert (2 ^ (2 * k) <= 2 ^ 32) by (apply Z.pow_le_mono_r; lia).
  assert (El : lhs (decode o k n) = lhs (decode o k m)) by congruence.
  assert (Er : rhs (decode o k n) = rhs (decode o k m)) by congruence.
  destruct o; cbn [decode] in *.
  - apply (decode_linear_inj k); auto; lia.
  - apply decode_z_inj; auto; lia.
  - apply decode_u_inj; auto; lia.
  - apply (decode_hilbert_inj k); auto.
Qed.

(** With a single block per square all the orders coincide. *)
Lemma decode_base0 : forall o, decode o 0 0 = mk_sp 0 0.
Proof. intros []; reflexivity. Qed.

(** The decoders are used through the lemmas above from here on. *)
#[global] Opaque decode decode_z decode_u decode_hilbert.
