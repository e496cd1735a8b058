(** Proofs of the packing properties in terms of the specifications. *)
From Coq Require Import SpecFloat.
From Verif Require Import Base SidePair SizeUtil SizeUtilFacts SpecArith Mat MatFacts Scalars Pack PackFacts
  MemcpyPackFacts SpecMatrix SpecPack FloatOps IntOps.

Lemma position_off : forall l r c, position l r c = off l r c.
Proof. intros. unfold position, off. destruct (ml_order l); lia. Qed.

Lemma entry_ent : forall {V} (m : mat V) r c, entry m r c = ent m r c.
Proof. intros. unfold entry, ent. rewrite position_off. reflexivity. Qed.

Lemma valid_layout_iff : forall l, valid_layout l <-> layout_ok l.
Proof.
  intros l. unfold valid_layout, inner_size, outer_size. split.
  - intros (H1 & H2 & H3 & H4). constructor; auto.
  - intros [H1 H2 H3 H4]. auto.
Qed.

Lemma flat_outer : forall l, ml_stride l * outer_size l = flat l.
Proof. reflexivity. Qed.

Lemma valid_matrix_iff : forall {V} (m : mat V), valid_matrix m <-> mat_ok m.
Proof.
  intros V m. unfold valid_matrix. rewrite valid_layout_iff, flat_outer. split.
  - intros [H1 H2]. constructor; auto.
  - intros [H1 H2]. auto.
Qed.

Lemma valid_kernel_iff : forall k, valid_kernel_layout k <-> kernel_layout_ok k.
Proof.
  intros k. unfold valid_kernel_layout, power_of_two. split.
  - intros (H1 & H2 & H3 & H4). constructor; auto.
  - intros [H1 H2 H3 H4]. auto.
Qed.

Lemma power_of_two_pos : forall n, power_of_two n -> 0 < n.
Proof. intros n (k & Hk & ->). apply pow2_pos. auto. Qed.

Lemma div_iff_mod : forall k a, 0 < k -> (k | a) <-> a mod k = 0.
Proof. intros. split; [apply Z.mod_divide|apply Z.mod_divide]; lia. Qed.

Lemma packed_layout_ok : forall src k l, valid_kernel_layout k -> 0 <= ml_rows src -> 0 <= ml_cols src ->
  packed_layout_of src k l -> playout_ok l.
Proof.
  intros src k l (K1 & K2 & K3 & K4) Hr Hc (E1 & E2 & E3 & [D1 R1] & [D2 R2] & _ & _ & F).
  pose proof (power_of_two_pos _ K1). pose proof (power_of_two_pos _ K2).
  constructor; rewrite ?E1; auto; try lia.
  - apply div_iff_mod; auto.
  - apply div_iff_mod; auto.
Qed.

Lemma packed_for_ok : forall {V} (src : mat V) k p, valid_kernel_layout k -> valid_matrix src ->
  packed_for src k p -> pmat_ok p.
Proof.
  intros V src k p K [(H1 & H2 & _) _] (L & B & S). constructor; auto.
  eapply packed_layout_ok; eauto.
Qed.

Lemma round_up_is : forall v k, 0 < k -> is_round_up v k (round_up v k).
Proof.
  intros v k Hk. destruct (round_up_spec v k Hk) as [H1 H2]. split; [|lia].
  apply Z.mod_divide; lia.
Qed.

(** * C17 *)

Lemma created_layout : forall dbg src k, valid_kernel_layout k ->
  0 <= ml_rows src -> 0 <= ml_cols src ->
  (ml_rows src + kl_rows k) * (ml_cols src + kl_cols k) <= int_max ->
  exists l, create_packed_layout dbg src k = Ok l /\ packed_layout_of src k l.
Proof.
  intros dbg src k K Hr Hc F. pose proof K as (K1 & K2 & K3 & K4).
  pose proof (power_of_two_pos _ K1) as P1. pose proof (power_of_two_pos _ K2) as P2.
  pose proof (round_up_spec (ml_rows src) _ P1) as [R1 _]. pose proof (round_up_spec (ml_cols src) _ P2) as [R2 _].
  assert (F2 : round_up (ml_rows src) (kl_rows k) * round_up (ml_cols src) (kl_cols k) <= int_max).
  { eapply Z.le_trans; [|exact F]. apply Z.mul_le_mono_nonneg; lia. }
  assert (ml_rows src + kl_rows k <= int_max).
  { eapply Z.le_trans; [|exact F].
    transitivity ((ml_rows src + kl_rows k) * 1); [lia|]. apply Z.mul_le_mono_nonneg_l; lia. }
  assert (ml_cols src + kl_cols k <= int_max).
  { eapply Z.le_trans; [|exact F].
    transitivity (1 * (ml_cols src + kl_cols k)); [lia|]. apply Z.mul_le_mono_nonneg_r; lia. }
  destruct (create_packed_layout_ok dbg src k) as (l & E & L & E1 & E2 & E3); auto.
  { apply valid_kernel_iff; auto. }
  exists l. split; auto. unfold packed_layout_of. rewrite E2, E3.
  pose proof (po_order _ L). pose proof (po_stride _ L).
  repeat split; auto; try congruence; try (apply round_up_is; auto); lia.
Qed.

Lemma packed_offsets_number : forall dbg src k l, valid_kernel_layout k ->
  0 <= ml_rows src -> 0 <= ml_cols src -> packed_layout_of src k l ->
  forall a b, 0 <= a <= b -> b <= pl_cols l -> (kl_cols k | a) -> (kl_cols k | b) ->
  numbers_cells (poffset dbg l) (pl_rows l) a b (a * pl_rows l) (b * pl_rows l).
Proof.
  intros dbg src k l K Hr Hc P a b Hab Hb Da Db.
  pose proof (packed_layout_ok _ _ _ K Hr Hc P) as L. destruct P as (Ek & _).
  pose proof K as (_ & K2 & _). pose proof (power_of_two_pos _ K2) as P2.
  apply div_iff_mod in Da; auto. apply div_iff_mod in Db; auto. rewrite <- Ek in Da, Db.
  split; [|split].
  - intros r c H1 H2. exists (poff l r c). split; [apply poffset_ok; auto; lia|].
    apply poff_region; auto. lia.
  - intros r c r' c' o H1 H2 H3 H4 E1 E2. rewrite poffset_ok in E1, E2 by (auto; lia).
    injection E1 as E1. injection E2 as E2. apply (poff_inj l); auto; try lia.
  - intros o Ho. destruct (poff_region_onto l a b o) as (r & c & H1 & H2 & H3); auto; try lia.
    exists r, c. split; auto. split; auto. rewrite poffset_ok by (auto; lia). congruence.
Qed.

Lemma packed_flat_size : forall src k l, 0 <= ml_rows src -> 0 <= ml_cols src -> valid_kernel_layout k ->
  packed_layout_of src k l -> pflat_size l = Ok (pl_rows l * pl_cols l).
Proof.
  intros src k l Hr Hc K P. pose proof (packed_layout_ok _ _ _ K Hr Hc P) as L.
  unfold pflat_size. rewrite (po_order _ L), (po_stride _ L). apply i64_ok.
  pose proof (po_flat _ L). pose proof (po_rows _ L). pose proof (po_cols _ L). unfold int_max in *.
  pose proof (Z.mul_nonneg_nonneg (pl_rows l) (pl_cols l)). lia.
Qed.

(** * C18 *)

Lemma packed_entry_pval : forall {V} (o : ops V) s src zp r c, packed_entry o s src zp r c = pval o s src zp r c.
Proof. intros. unfold packed_entry, pval. rewrite entry_ent, andb_comm. reflexivity. Qed.

Lemma accumulate_app : forall {V} (f : V -> V -> res V) l1 l2 acc,
  accumulate f acc (l1 ++ l2) = (a <- accumulate f acc l1 ;; accumulate f a l2).
Proof.
  intros V f. induction l1 as [|x t IH]; intros l2 acc; [reflexivity|].
  cbn [app accumulate]. destruct (f acc x); cbn [bind]; auto.
Qed.

Lemma packed_sum_col_sum : forall {V} (o : ops V) s src zp rows c,
  packed_sum o s src zp rows c = col_sum o s src zp rows c.
Proof.
  intros V o s src zp rows c. unfold packed_sum, col_sum.
  destruct (Z.leb_spec rows 0) as [H|H].
  { rewrite zrange_nil, forto_empty by lia. reflexivity. }
  assert (G : forall n, accumulate (o_sum_add o s) (o_sum0 o s) (map (fun r => packed_entry o s src zp r c) (zrange 0 (Z.of_nat n))) =
    forto 0 (Z.of_nat n) (fun row acc => o_sum_add o s acc (pval o s src zp row c)) (o_sum0 o s)).
  { induction n as [|n IH].
    - rewrite zrange_nil, forto_empty by lia. reflexivity.
    - rewrite Nat2Z.inj_succ. unfold Z.succ. rewrite zrange_snoc, forto_snoc by lia.
      rewrite map_app, accumulate_app, IH. destruct (forto _ _ _ _); try reflexivity.
      cbn [bind map accumulate]. rewrite packed_entry_pval. destruct (o_sum_add o s a _); reflexivity. }
  specialize (G (Z.to_nat rows)). rewrite Z2Nat.id in G by lia. exact G.
Qed.

Lemma poff_col_neq : forall l r c r' c', playout_ok l -> 0 <= r < pl_rows l -> 0 <= c ->
  0 <= r' < pl_rows l -> 0 <= c' -> c <> c' -> poff l r c <> poff l r' c'.
Proof. intros l r c r' c' L H1 H2 H3 H4 Hn E. apply poff_inj in E; auto. tauto. Qed.

Lemma covered_dec : forall l c, {covered l c} + {~ covered l c}.
Proof.
  induction l as [|[a b] t IH]; intros c.
  - right. intros (x & y & [] & _).
  - destruct (IH c) as [H|H].
    + left. destruct H as (x & y & Hin & Hxy). exists x, y. split; [right|]; auto.
    + destruct (Z_le_dec a c); [destruct (Z_lt_dec c b)|].
      * left. exists a, b. split; [left; reflexivity|lia].
      * right. intros (x & y & [Hin|Hin] & Hxy); [injection Hin as <- <-; lia|apply H; exists x, y; auto].
      * right. intros (x & y & [Hin|Hin] & Hxy); [injection Hin as <- <-; lia|apply H; exists x, y; auto].
Qed.

Section Ranges.
Variables (V : Type) (dbg : bool) (o : ops V) (s : side) (k : kernel_layout) (src : mat V).
Hypotheses (K : valid_kernel_layout k) (M : valid_matrix src).

(** The state after packing some set [C] of columns, starting from [p]. *)
Record packed_state (p : pmat V) (C : Z -> Prop) (q : pmat V) : Prop := {
  pst_shape : same_shape p q;
  pst_done : forall c, C c -> col_done o s src q c;
  pst_data : forall i, (forall r c, 0 <= r < pl_rows (p_layout p) -> C c -> i <> poff (p_layout p) r c) ->
     bdat (p_data q) i = bdat (p_data p) i;
  pst_sums : forall bp bq, p_sums p = Some bp -> p_sums q = Some bq -> forall i, ~ C i -> bdat bq i = bdat bp i
}.

Lemma col_done_outside : forall p q a b c, playout_ok (p_layout p) -> same_shape p q -> unchanged_outside p q a b ->
  0 <= a -> 0 <= c -> ~ (a <= c < b) -> col_done o s src p c -> col_done o s src q c.
Proof.
  intros p q a b c L [E1 E2 E3 E4] [U1 U2] Ha Hc Hn [D1 D2]. split.
  - intros row Hr. rewrite E1 in *. rewrite E2. rewrite U1; auto.
    intros row' c' Hr' Hc'. apply poff_col_neq; auto; lia.
  - intros bq Hq. rewrite E1, E2. destruct (opt_len_some _ _ _ E4 Hq) as (bp & Hp & _).
    rewrite (U2 bp bq Hp Hq c Hn). auto.
Qed.

Lemma pack_ranges_ok : forall l p, packed_for src k p -> block_ranges (kl_cols k) (pl_cols (p_layout p)) l ->
  (forall c, covered l c -> exists v, packed_sum o s src (p_zp p) (pl_rows (p_layout p)) c = Ok v) ->
  exists q, pack_ranges dbg o s (kl_cols k) src l p = Ok q /\ packed_state p (covered l) q.
Proof.
  pose proof K as (_ & K2 & _). pose proof (power_of_two_pos _ K2) as P2. 
  induction l as [|[a b] t IH]; intros p PF BR SUM.
  - exists p. split; [reflexivity|]. constructor; auto using same_shape_refl.
    + intros c (x & y & [] & _).
    + intros bp bq E1 E2. congruence.
  - pose proof (packed_for_ok _ _ _ K M PF) as PM. pose proof (pmo_layout _ PM) as L.
    destruct PF as (PL & PB & PS). pose proof PL as (Ek & _).
    destruct (BR a b) as (B1 & B2 & B3 & B4); [left; reflexivity|].
    assert (Hb : b <= int_max) by (destruct PL as (_ & _ & _ & _ & _ & _ & C & _); lia).
    destruct (run_pack_ok dbg o s (kl_cols k) src p a b) as (q1 & E1 & S1 & D1 & U1); auto; try congruence.
    { apply valid_matrix_iff; auto. }
    { apply div_iff_mod; auto. apply Z.divide_sub_r; auto. }
    { intros c Hc. rewrite <- packed_sum_col_sum. apply SUM. exists a, b. split; [left; reflexivity|auto]. }
    pose proof S1 as [F1 F2 F3 F4].
    destruct (IH q1) as (q & E & [S2 D2 A2 B2']).
    { split; [|split].
      - rewrite F1; auto.
      - rewrite F1, F3; auto.
      - intros bs Hbs. destruct (opt_len_some _ _ _ F4 Hbs) as (b' & Hb' & El). rewrite F1. rewrite <- El. auto. }
    { intros x y Hxy. rewrite F1. apply BR. right; auto. }
    { intros c (x & y & Hin & Hxy). rewrite F1, F2. apply SUM. exists x, y. split; [right; auto|auto]. }
    exists q. split; [cbn [pack_ranges]; rewrite E1; exact E|].
    assert (CV : forall c, covered ((a, b) :: t) c <-> (a <= c < b) \/ covered t c).
    { intros c. split.
      - intros (x & y & [Hin|Hin] & Hxy); [injection Hin as <- <-; auto|right; exists x, y; auto].
      - intros [H|(x & y & Hin & Hxy)]; [exists a, b; split; [left|]; auto|exists x, y; split; [right|]; auto]. }
    assert (CR : forall c, covered t c -> 0 <= c < pl_cols (p_layout p)).
    { intros c (x & y & Hin & Hxy). destruct (BR x y) as (G1 & G2 & _); [right; auto|lia]. }
    constructor.
    + eapply same_shape_trans; eauto.
    + intros c Hc. apply CV in Hc. destruct (covered_dec t c) as [Ht|Ht]; [apply D2; auto|].
      destruct Hc as [Hc|Hc]; [|contradiction]. destruct (D1 c Hc) as [G1 G2]. destruct S2 as [X1 X2 X3 X4].
      split.
      * intros row Hr. rewrite X1 in *. rewrite X2. rewrite A2; auto.
        intros r' c' Hr' Hc'. rewrite F1 in *. apply poff_col_neq; auto; try lia.
        -- destruct (CR c' Hc'). lia.
        -- intros ->. contradiction.
      * intros bs Hbs. rewrite X1, X2. destruct (opt_len_some _ _ _ X4 Hbs) as (b1 & Hb1 & _).
        rewrite (B2' b1 bs Hb1 Hbs c Ht). auto.
    + intros i Hi. rewrite A2.
      * apply (proj1 U1). intros r c Hr Hc. apply Hi; auto. apply CV; auto.
      * intros r c Hr Hc. rewrite F1 in *. apply Hi; auto. apply CV; auto.
    + intros bp bq Hp Hq i Hi.
      destruct (opt_len_some _ _ _ (eq_sym F4) Hp) as (b1 & Hb1 & _).
      rewrite (B2' b1 bq Hb1 Hq i) by (intro; apply Hi; apply CV; auto).
      apply (proj2 U1); auto. intro; apply Hi; apply CV; auto.
Qed.

Lemma run_pack_ranges : forall p l, packed_for src k p -> block_ranges (kl_cols k) (pl_cols (p_layout p)) l ->
  (forall c, covered l c -> exists v, packed_sum o s src (p_zp p) (pl_rows (p_layout p)) c = Ok v) ->
  exists q, pack_ranges dbg o s (kl_cols k) src l p = Ok q /\
    p_layout q = p_layout p /\ p_zp q = p_zp p /\ blen (p_data q) = blen (p_data p) /\
    (forall r c, 0 <= r < pl_rows (p_layout p) -> covered l c ->
       pelement dbg q r c = Ok (packed_entry o s src (p_zp p) r c)) /\
    (forall i, (forall r c, 0 <= r < pl_rows (p_layout p) -> covered l c -> poffset dbg (p_layout p) r c <> Ok i) ->
       bdat (p_data q) i = bdat (p_data p) i) /\
    match p_sums p, p_sums q with
    | None, None => True
    | Some b, Some b' => blen b' = blen b /\
        (forall c, covered l c -> packed_sum o s src (p_zp p) (pl_rows (p_layout p)) c = Ok (bdat b' c)) /\
        (forall c, ~ covered l c -> bdat b' c = bdat b c)
    | _, _ => False
    end.
Proof.
  intros p l PF BR SUM. destruct (pack_ranges_ok l p PF BR SUM) as (q & E & [S D A B]).
  pose proof (packed_for_ok _ _ _ K M PF) as PM. pose proof (pmo_layout _ PM) as L.
  pose proof S as [E1 E2 E3 E4].
  assert (CR : forall c, covered l c -> 0 <= c < pl_cols (p_layout p)).
  { intros c (x & y & Hin & Hxy). destruct (BR x y) as (G1 & G2 & _); auto; lia. }
  exists q. split; auto. split; auto. split; auto. split; auto. split; [|split].
  - intros r c Hr Hc. pose proof (CR c Hc). pose proof (pmat_ok_same _ _ S PM) as [_ QB _].
    unfold pelement. rewrite E1. rewrite poffset_ok by auto. cbn [bind].
    pose proof (poff_range _ r c L Hr (CR c Hc)). rewrite E1 in QB. rewrite bread_ok by lia.
    rewrite packed_entry_pval. f_equal. destruct (D c Hc) as [G _]. rewrite E1, E2 in G. auto.
  - intros i Hi. apply A. intros r c Hr Hc Heq. apply (Hi r c Hr Hc). rewrite poffset_ok; auto. congruence.
  - destruct (p_sums p) as [b|] eqn:Ep, (p_sums q) as [b'|] eqn:Eq; cbn in E4; try discriminate; auto.
    injection E4 as E4. split; auto. split; auto.
    intros c Hc. rewrite packed_sum_col_sum. destruct (D c Hc) as [_ G]. rewrite E1, E2 in G. auto.
Qed.

Lemma pack_ranges_order : forall p l1 l2, packed_for src k p ->
  block_ranges (kl_cols k) (pl_cols (p_layout p)) l1 -> block_ranges (kl_cols k) (pl_cols (p_layout p)) l2 ->
  (forall c, covered l1 c <-> covered l2 c) ->
  (forall c, covered l1 c -> exists v, packed_sum o s src (p_zp p) (pl_rows (p_layout p)) c = Ok v) ->
  exists q1 q2, pack_ranges dbg o s (kl_cols k) src l1 p = Ok q1 /\
    pack_ranges dbg o s (kl_cols k) src l2 p = Ok q2 /\ same_buffers q1 q2.
Proof.
  intros p l1 l2 PF BR1 BR2 C SUM.
  destruct (pack_ranges_ok l1 p PF BR1 SUM) as (q1 & E1 & [S1 D1 A1 B1]).
  destruct (pack_ranges_ok l2 p PF BR2) as (q2 & E2 & [S2 D2 A2 B2]).
  { intros c Hc. apply SUM. apply C; auto. }
  pose proof (packed_for_ok _ _ _ K M PF) as PM. pose proof (pmo_layout _ PM) as L.
  assert (CR1 : forall c, covered l1 c -> 0 <= c < pl_cols (p_layout p)).
  { intros c (x & y & Hin & Hxy). destruct (BR1 x y Hin) as (G1 & G2 & _); lia. }
  exists q1, q2. split; auto. split; auto. destruct S1 as [X1 X2 X3 X4]. destruct S2 as [Y1 Y2 Y3 Y4].
  split; [congruence|]. split.
  - intros i.
    destruct (Z_lt_ge_dec i 0) as [Hneg|Hpos]; [|destruct (Z_lt_ge_dec i (pl_rows (p_layout p) * pl_cols (p_layout p))) as [Hlt|Hge]].
    2: { destruct (poff_surj _ i L ltac:(lia)) as (r & c & Hr & Hc & Hi).
      destruct (covered_dec l1 c) as [Hcv|Hcv].
      - destruct (D1 c Hcv) as [G1 _]. destruct (D2 c (proj1 (C c) Hcv)) as [G2 _].
        rewrite X1, X2 in G1. rewrite Y1, Y2 in G2. rewrite <- Hi, G1, G2 by auto. reflexivity.
      - rewrite A1, A2; auto.
        + intros r' c' Hr' Hc' Heq. rewrite <- Hi in Heq. apply C in Hc'.
          assert (0 <= c') by (destruct Hc' as (x & y & Hin & Hxy); destruct (BR1 x y Hin); lia).
          apply poff_inj in Heq; auto; try lia. destruct Heq as [_ <-]. contradiction.
        + intros r' c' Hr' Hc' Heq. rewrite <- Hi in Heq.
          assert (0 <= c') by (destruct Hc' as (x & y & Hin & Hxy); destruct (BR1 x y Hin); lia).
          apply poff_inj in Heq; auto; try lia. destruct Heq as [_ <-]. contradiction. }
    all: rewrite A1, A2; auto; intros r c Hr Hc;
      assert (Hc2 : 0 <= c < pl_cols (p_layout p))
        by (first [apply CR1; exact Hc | apply CR1; apply C; exact Hc]);
      pose proof (poff_range _ r c L Hr Hc2); lia.
  - destruct (p_sums p) as [b|] eqn:Ep.
    2: { destruct (p_sums q1), (p_sums q2); cbn in *; try discriminate; auto. }
    destruct (p_sums q1) as [b1|] eqn:Eq1; [|discriminate]. destruct (p_sums q2) as [b2|] eqn:Eq2; [|discriminate].
    cbn in X4, Y4. split; [congruence|]. intros i.
    destruct (covered_dec l1 i) as [Hcv|Hcv].
    + destruct (D1 i Hcv) as [_ G1]. destruct (D2 i (proj1 (C i) Hcv)) as [_ G2].
      specialize (G1 b1 Eq1). specialize (G2 b2 Eq2). rewrite X1, X2 in G1. rewrite Y1, Y2 in G2. congruence.
    + rewrite (B1 b b1 eq_refl eq_refl i Hcv), (B2 b b2 eq_refl eq_refl i); auto. intro H; apply Hcv; apply C; auto.
Qed.
End Ranges.

(** * Integer sums *)

Lemma accumulate_checked : forall l acc B, (forall x, In x l -> - B <= x <= B) -> 0 <= B ->
  int_min <= acc - B * Z.of_nat (length l) -> acc + B * Z.of_nat (length l) <= int_max ->
  accumulate (fun a v => checked (a + v)) acc l = Ok (acc + zsum l).
Proof.
  induction l as [|x t IH]; intros acc B Hx HB H1 H2.
  - cbn. f_equal. lia.
  - cbn [accumulate zsum]. cbn [length] in H1, H2. rewrite Nat2Z.inj_succ in H1, H2.
    pose proof (Hx x (or_introl eq_refl)).
    assert (0 <= B * Z.of_nat (length t)) by nia.
    unfold checked at 1. rewrite i32_ok by nia. cbn [bind].
    rewrite (IH (acc + x) B); try lia; [f_equal; lia|]. intros y Hy. apply Hx. right; auto.
Qed.

(** * C19 *)

Definition is_neg_zero (x : spec_float) : bool := match x with S754_zero true => true | _ => false end.

Lemma pack_float_id : forall prec emax x, is_neg_zero x = false -> pack_float prec emax x = x.
Proof.
  intros prec emax [[]|[]| |sx m e] H; try discriminate; reflexivity.
Qed.

Lemma pack_float_neg_zero : forall prec emax, pack_float prec emax (S754_zero true) = S754_zero false.
Proof. reflexivity. Qed.

Lemma f_of_Z_0 : forall prec emax, f_of_Z prec emax 0 = fzero.
Proof. reflexivity. Qed.

Section Fast.
Variables (dbg : bool) (prec emax size : Z) (s : side) (kc : Z) (src : mat spec_float) (p : pmat spec_float).
Let k := {| kl_order := RowMajor; kl_rows := 1; kl_cols := kc |}.
Hypotheses (K : valid_kernel_layout k) (M : valid_matrix src) (Hord : ml_order (m_layout src) = RowMajor).
Hypotheses (PF : packed_for src k p) (Hzp : p_zp p = 0).

Lemma fast_pack_cells : forall a b, 0 <= a < b -> b <= pl_cols (p_layout p) -> (kc | a) -> (kc | b) ->
  exists q1 q2, memcpy_pack dbg fzero kc src p a b = Ok q1 /\
    run_pack dbg (float_ops prec emax size) s kc src p a b = Ok q2 /\
    p_sums q1 = p_sums p /\
    blen (p_data q1) = blen (p_data q2) /\
    (forall i, zero_sign_only (bdat (p_data q1) i) (bdat (p_data q2) i)) /\
    ((forall r c, in_matrix (m_layout src) r c -> a <= c < b -> entry src r c <> S754_zero true) ->
      forall i, bdat (p_data q1) i = bdat (p_data q2) i).
Proof.
  intros a b Hab Hb [qa ->] [qb ->].
  pose proof (packed_for_ok _ _ _ K M PF) as PM. pose proof (pmo_layout _ PM) as L.
  destruct PF as (PL & PB & PS). pose proof PL as (Ek & Eo & Es & [D1 R1] & [D2 R2] & I1 & I2 & I3).
  pose proof (power_of_two_pos _ (proj1 (proj2 K))) as Pk. cbn [k kl_cols kl_rows] in Pk, R1, R2.
  assert (Erows : pl_rows (p_layout p) = ml_rows (m_layout src)) by lia.
  assert (OR : one_row_layout (p_layout p)) by (split; rewrite Ek; reflexivity).
  assert (Ekc : kl_cols (pl_kernel (p_layout p)) = kc) by (rewrite Ek; reflexivity).
  apply valid_matrix_iff in M.
  destruct (memcpy_pack_ok dbg fzero src p qa qb) as (q1 & E1 & F1 & F2 & F3 & F4 & F5 & F6); auto.
  { rewrite Ekc. lia. } { nia. } { rewrite Ekc. lia. }
  rewrite Ekc in *.
  destruct (run_pack_ok dbg (float_ops prec emax size) s kc src p (qa * kc) (qb * kc)) as (q2 & E2 & [G1 G2 G3 G4] & G5 & G6); auto; try lia.
  { rewrite <- Z.mul_sub_distr_r. apply Z_mod_mult. }
  { intros c Hc. unfold col_sum.
    destruct (forto_inv (fun _ (_ : spec_float) => True)
       (fun row acc => o_sum_add (float_ops prec emax size) s acc (pval (float_ops prec emax size) s src (p_zp p) row c))
       0 (pl_rows (p_layout p)) (o_sum0 (float_ops prec emax size) s) (po_rows _ L)) as (v & E & _); auto.
    - intros i x _ _. eexists. split; [reflexivity|auto].
    - exists v. exact E. }
  exists q1, q2. split; auto. split; auto. split; auto. split; [congruence|].
  (* every cell is either in the packed columns or untouched *)
  assert (CELL : forall i, (exists r c, 0 <= r < pl_rows (p_layout p) /\ qa * kc <= c < qb * kc /\
        poff (p_layout p) r c = i) \/ bdat (p_data q1) i = bdat (p_data q2) i).
  { intros i. destruct (Z_lt_ge_dec i (qa * kc * pl_rows (p_layout p))) as [H|H];
      [|destruct (Z_lt_ge_dec i (qb * kc * pl_rows (p_layout p))) as [H'|H']].
    2: { left. destruct (poff_region_onto (p_layout p) (qa * kc) (qb * kc) i) as (r & c & X1 & X2 & X3); auto; try lia.
         - rewrite Ekc. apply Z_mod_mult.
         - rewrite Ekc. apply Z_mod_mult.
         - eauto 10. }
    all: right; rewrite F6; [rewrite (proj1 G6); auto|];
      intros r c Hr Hc;
      pose proof (poff_region (p_layout p) (qa * kc) (qb * kc) r c L) as X; rewrite Ekc in X;
      specialize (X (Z_mod_mult _ _) (Z_mod_mult _ _)); lia. }
  assert (VAL : forall r c, 0 <= r < pl_rows (p_layout p) -> qa * kc <= c < qb * kc ->
     bdat (p_data q1) (poff (p_layout p) r c) = fval fzero src r c /\
     bdat (p_data q2) (poff (p_layout p) r c) =
       if c <? ml_cols (m_layout src) then pack_float prec emax (entry src r c) else fzero).
  { intros r c Hr Hc. split; [apply F5; auto|].
    destruct (G5 c Hc) as [X _]. rewrite G1, G2, Hzp in X. rewrite X by auto.
    unfold pval. rewrite <- entry_ent. replace (r <? ml_rows (m_layout src)) with true by lia.
    rewrite andb_true_r. reflexivity. }
  assert (Hqc : 0 <= qa * kc) by lia.
  split.
  - intros i. destruct (CELL i) as [(r & c & Hr & Hc & Hi)|Hi]; [|left; auto].
    destruct (VAL r c Hr Hc) as [V1 V2]. rewrite <- Hi, V1, V2. unfold fval. rewrite <- entry_ent.
    destruct (c <? ml_cols (m_layout src)); [|left; reflexivity].
    destruct (is_neg_zero (entry src r c)) eqn:Z.
    + right. destruct (entry src r c) as [[]|[]| |]; try discriminate. auto.
    + left. rewrite pack_float_id; auto.
  - intros NZ i. destruct (CELL i) as [(r & c & Hr & Hc & Hi)|Hi]; [|auto].
    destruct (VAL r c Hr Hc) as [V1 V2]. rewrite <- Hi, V1, V2. unfold fval. rewrite <- entry_ent.
    destruct (c <? ml_cols (m_layout src)) eqn:Ec; [|reflexivity].
    rewrite pack_float_id; auto.
    assert (N : entry src r c <> S754_zero true) by (apply NZ; [split; lia|lia]).
    destruct (entry src r c) as [[]|[]| |]; auto. congruence.
Qed.
End Fast.

(** * Integer packing *)

Lemma zrange_map_length : forall {A} (f : Z -> A) n, 0 <= n -> Z.of_nat (length (map f (zrange 0 n))) = n.
Proof. intros. rewrite map_length. unfold zrange. rewrite zseq_length. lia. Qed.

Lemma it_conv_range : forall t z, 0 < it_bits t -> it_lo t <= it_conv t z <= it_hi t.
Proof.
  intros t z Hb. unfold it_lo, it_hi, it_conv. destruct (it_signed t).
  - apply wrap_s_range; auto.
  - unfold wrap_u. pose proof (pow2_pos (it_bits t) ltac:(lia)) as P.
    pose proof (Z.mod_pos_bound z (2 ^ it_bits t) P). lia.
Qed.

Lemma it_conv_id : forall t z, 0 < it_bits t -> it_lo t <= z <= it_hi t -> it_conv t z = z.
Proof.
  intros t z Hb. unfold it_lo, it_hi, it_conv. destruct (it_signed t); intros H.
  - apply wrap_s_id; auto.
  - unfold wrap_u. apply Z.mod_small. lia.
Qed.

Lemma pack_int_range : forall a b x, 0 < it_bits b -> it_lo b <= pack_int a b x <= it_hi b.
Proof. intros. apply it_conv_range; auto. Qed.

Lemma sums_are_exact : forall dbg st pt dt s (src : mat Z) zp rows c,
  0 < it_bits (get s pt) -> 0 <= rows ->
  rows * Z.max (- it_lo (get s pt)) (it_hi (get s pt)) <= int_max ->
  packed_sum (int_ops checked dbg st pt dt) s src zp rows c =
  Ok (zsum (map (fun r => packed_entry (int_ops checked dbg st pt dt) s src zp r c) (zrange 0 rows))).
Proof.
  intros dbg st pt dt s src zp rows c Hb Hr Hmax. unfold packed_sum.
  cbn [int_ops o_sum_add o_sum0].
  set (f := fun r => packed_entry _ s src zp r c) in *.
  set (B := Z.max (- it_lo (get s pt)) (it_hi (get s pt))) in *.
  assert (E : forall x, In x (map f (zrange 0 rows)) -> - B <= x <= B).
  { intros x Hx. apply in_map_iff in Hx. destruct Hx as (r & <- & _).
    assert (it_lo (get s pt) <= f r <= it_hi (get s pt)); [|unfold B; lia].
    unfold f, packed_entry. destruct (_ && _); cbn [int_ops o_pack o_of_zp]; apply it_conv_range; auto. }
  assert (0 <= B).
  { unfold B, it_lo, it_hi, smin, smax. pose proof (pow2_pos (it_bits (get s pt) - 1) ltac:(lia)).
    pose proof (pow2_pos (it_bits (get s pt)) ltac:(lia)).
    destruct (it_signed _); lia. }
  rewrite (accumulate_checked (map f (zrange 0 rows)) 0 B E) by (try rewrite zrange_map_length by auto; unfold int_min; unfold int_max in *; lia).
  reflexivity.
Qed.

Lemma pack_u8_s8 : forall x, pack_int u8 s8 x = wrap_s 8 (x - 128).
Proof. intros. unfold pack_int. cbn [it_signed u8 s8 symmetric_zero_point it_conv it_bits it_hi]. f_equal.
  change (symmetric_zero_point u8) with 128. change (symmetric_zero_point s8) with 0. lia. Qed.

Lemma pack_u8_s8_exact : forall x, 0 <= x <= 255 -> pack_int u8 s8 x = x - 128.
Proof. intros x Hx. rewrite pack_u8_s8. apply wrap_s_id; [lia|]. unfold smin, smax. lia. Qed.

Lemma uint8_to_int8 : forall x z, 0 <= x <= 255 -> 0 <= z <= 255 ->
  -128 <= pack_int u8 s8 x <= 127 /\ pack_int u8 s8 x - pack_int u8 s8 z = x - z.
Proof. intros x z Hx Hz. rewrite !pack_u8_s8_exact by lia. lia. Qed.

Lemma forall_bytes : forall P : Z -> bool, forallb P (zrange 0 256) = true -> forall x, 0 <= x <= 255 -> P x = true.
Proof. intros P H x Hx. rewrite forallb_forall in H. apply H. apply zrange_In. lia. Qed.

Lemma xor_is_conversion : forall x, 0 <= x <= 255 -> wrap_s 8 (Z.lxor x 128) = pack_int u8 s8 x.
Proof.
  intros x Hx. apply Z.eqb_eq.
  apply (forall_bytes (fun x => wrap_s 8 (Z.lxor x 128) =? pack_int u8 s8 x)); [vm_compute; reflexivity|auto].
Qed.

Lemma same_type_pack : forall t x, 0 < it_bits t -> it_lo t <= x <= it_hi t -> pack_int t t x = x.
Proof.
  intros t x Hb Hx. unfold pack_int. replace (x - _ + _) with x by lia. apply it_conv_id; auto.
Qed.

(** * Witnesses *)

Lemma large_packed_offset_overflows : exists src k l, valid_kernel_layout k /\
  create_packed_layout false src k = Ok l /\ pflat_size l = Ok (pl_rows l * pl_cols l) /\
  exists r c, 0 <= r < pl_rows l /\ 0 <= c < pl_cols l /\ poffset false l r c = UB.
Proof.
  exists {| ml_rows := 65536; ml_cols := 65536; ml_stride := 65536; ml_order := ColMajor |},
    {| kl_order := ColMajor; kl_rows := 1; kl_cols := 1 |}.
  eexists. split.
  { split; [exists 0; split; [lia|reflexivity]|]. split; [exists 0; split; [lia|reflexivity]|].
    cbn [kl_rows kl_cols]. lia. }
  split; [vm_compute; reflexivity|]. split; [vm_compute; reflexivity|].
  exists 65535, 65535. cbn [pl_rows pl_cols]. split; [lia|]. split; [lia|]. vm_compute. reflexivity.
Qed.

Lemma fast_pack_negative_zero : exists src p a b q1 q2,
  valid_matrix src /\ packed_for src {| kl_order := RowMajor; kl_rows := 1; kl_cols := 2 |} p /\
  memcpy_pack true fzero 2 src p a b = Ok q1 /\ run_pack true f32_ops Lhs 2 src p a b = Ok q2 /\
  exists i, 0 <= i < blen (p_data p) /\ bdat (p_data q1) i <> bdat (p_data q2) i.
Proof.
  exists {| m_data := {| blen := 2; bdat := fun _ => S754_zero true |};
            m_layout := {| ml_rows := 1; ml_cols := 2; ml_stride := 2; ml_order := RowMajor |}; m_zp := 0 |},
    {| p_data := {| blen := 2; bdat := fun _ => S754_nan |}; p_sums := None;
       p_layout := {| pl_rows := 1; pl_cols := 2; pl_stride := 1; pl_order := ColMajor;
                      pl_kernel := {| kl_order := RowMajor; kl_rows := 1; kl_cols := 2 |} |}; p_zp := 0 |}, 0, 2.
  eexists. eexists. split.
  { repeat split; cbn [m_layout m_data ml_rows ml_cols ml_stride ml_order inner_size outer_size blen]; unfold int_max; lia. }
  split.
  { repeat split; cbn [p_layout p_data p_sums pl_kernel pl_order pl_stride pl_rows pl_cols m_layout ml_rows ml_cols kl_rows kl_cols blen];
      unfold int_max; try lia; try (exists 1; reflexivity). intros b Hb; discriminate. }
  split; [vm_compute; reflexivity|]. split; [vm_compute; reflexivity|].
  exists 0. split; [cbn; lia|]. vm_compute. discriminate.
Qed.
