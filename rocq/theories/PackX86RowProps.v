(** The x86 packing functions pack row-major matrices. *)
From Coq Require Import ZArith List Bool Lia.
From Verif Require Import Base SidePair SizeUtilFacts BlockMapFacts Mat MatFacts Scalars IntOps Pack SpecMatrix SpecPack PackFacts PackProps MulParams Kernel Simd SimdFacts
  MemcpyPackFacts Kernel8bit Kernel8bitIsa Kernel8bitAvx2Facts Kernel8bitFacts PackX86 PackX86Laws PackX86Facts PackX86RowLaws SpecPackX86.
Import ListNotations.
Open Scope Z_scope.

Lemma store_rows : forall f n o p b, (forall r i, in_bits 8 (f r i)) ->
  store_regs (map (fun j => of_lanes 1 (vrow 16 (fun e => f (e mod 4)%nat (4 * j + e / 4)%nat))) (seq o n)) p b =
  write_list (map (fun e => f (e mod 4)%nat (e / 4)%nat) (seq (16 * o) (16 * n))) p b.
Proof.
  intros f n. induction n as [|n IH]; intros o p b H.
  - replace (16 * 0)%nat with 0%nat by reflexivity. reflexivity.
  - cbn [seq map store_regs]. rewrite (store_lanes_w s8 1) by (try reflexivity; right; left; reflexivity).
    replace (16 * S n)%nat with (16 + 16 * n)%nat by lia. rewrite seq_app, map_app, write_list_app.
    rewrite map_length, seq_length. replace (map (fun e => f (e mod 4)%nat (e / 4)%nat) (seq (16 * o) 16)) with
      (map (it_conv s8) (vrow 16 (fun e => f (e mod 4)%nat (4 * o + e / 4)%nat))).
    + destruct (write_list _ _ _); cbn [bind]; try reflexivity. rewrite IH by exact H. replace (16 * S o)%nat with (16 * o + 16)%nat by lia. reflexivity.
    + unfold vrow. rewrite map_map. replace (seq (16 * o) 16) with (map (fun e => 16 * o + e)%nat (seq 0 16)).
      * rewrite map_map. apply map_ext_in. intros e He. apply in_seq in He.
        replace ((16 * o + e) mod 4)%nat with (e mod 4)%nat by (replace (16 * o + e)%nat with (e + (4 * o) * 4)%nat by lia; rewrite Nat.mod_add by lia; reflexivity).
        replace ((16 * o + e) / 4)%nat with (4 * o + e / 4)%nat by (replace (16 * o + e)%nat with (e + (4 * o) * 4)%nat by lia; rewrite Nat.div_add by lia; lia).
        unfold it_conv. cbn [it_signed s8 it_bits]. apply SimdFacts.wrap_s_id; [lia|]. apply H.
      * cbn [seq map]. repeat (f_equal; try lia).
Qed.

(** Every position belongs to one of the columns, or to none. *)
Lemma cell_dec : forall (p : pmat Z) r4 a b W i,
  (forall r c, poff (p_layout p) r c = r4 * (c / W * W) + (4 * W * (r / 4) + 4 * (c mod W) + r mod 4)) ->
  (4 | r4) -> W = 8 \/ W = 16 -> (W | a) -> (W | b) -> 0 <= a <= b ->
  (exists r c, 0 <= r < r4 /\ a <= c < b /\ poff (p_layout p) r c = i) \/ (forall r c, 0 <= r < r4 -> a <= c < b -> poff (p_layout p) r c <> i).
Proof.
  intros p r4 a b W i E D4 HW Da Db Hab.
  destruct (Z_lt_le_dec 0 r4) as [Hr|Hr]; [|right; intros r c Hr'; lia].
  destruct (Z_lt_le_dec i (r4 * a)) as [L|L]; [right|destruct (Z_lt_le_dec i (r4 * b)) as [L'|L']; [left|right]].
  - intros r c Hr' Hc Ei. rewrite E in Ei. pose proof (Z.mod_pos_bound c W ltac:(lia)). pose proof (Z.mod_pos_bound r 4 ltac:(lia)). pose proof (Z.div_pos r 4 ltac:(lia) ltac:(lia)).
    destruct Da as [na Ea]. pose proof (Z.div_mod c W ltac:(lia)) as D. subst a. assert (na <= c / W) by nia. nia.
  - destruct Da as [na Ea]. destruct Db as [nb Eb]. destruct D4 as [m4 E4].
    set (n := i / (W * r4)). set (d := i mod (W * r4)).
    assert (D : i = W * r4 * n + d) by (apply Z.div_mod; clear - HW Hr; nia). assert (Hd : 0 <= d < W * r4) by (apply Z.mod_pos_bound; clear - HW Hr; nia).
    assert (Hn : na <= n < nb) by (subst a b; clear - D Hd L L' HW Hr; nia).
    set (m := d / (4 * W)). set (e := d mod (4 * W)).
    assert (D2 : d = 4 * W * m + e) by (apply Z.div_mod; clear - HW; lia). assert (He : 0 <= e < 4 * W) by (apply Z.mod_pos_bound; clear - HW; lia).
    pose proof (Z.div_mod e 4 ltac:(lia)) as D3. pose proof (Z.mod_pos_bound e 4 ltac:(lia)) as M3.
    assert (Hm : 0 <= m < m4) by (rewrite E4 in Hd; clear - D2 He Hd HW; nia).
    exists (4 * m + e mod 4), (n * W + e / 4).
    assert (Ec : 0 <= e / 4 < W) by (clear - D3 M3 He; lia).
    split; [clear - Hm E4 M3; lia|]. split; [subst a b; clear - Hn Ec; nia|].
    rewrite E.
    replace ((n * W + e / 4) / W) with n by (apply (Z.div_unique _ _ _ (e / 4)); [left; exact Ec|ring]).
    replace ((n * W + e / 4) mod W) with (e / 4) by (apply (Z.mod_unique _ _ n); [left; exact Ec|ring]).
    replace ((4 * m + e mod 4) / 4) with m by (apply (Z.div_unique _ _ _ (e mod 4)); [left; exact M3|ring]).
    replace ((4 * m + e mod 4) mod 4) with (e mod 4) by (apply (Z.mod_unique _ _ m); [left; exact M3|ring]).
    rewrite D, D2. clear - D3. nia.
  - intros r c Hr' Hc Ei. rewrite E in Ei. pose proof (Z.mod_pos_bound c W ltac:(lia)) as Mc. pose proof (Z.mod_pos_bound r 4 ltac:(lia)) as Mr. pose proof (Z.div_mod r 4 ltac:(lia)) as Dr.
    destruct Db as [nb Eb]. destruct D4 as [m4 E4]. pose proof (Z.div_mod c W ltac:(lia)) as D. subst b. assert (c / W < nb) by nia. assert (r / 4 < m4) by lia.
    assert (4 * W * (r / 4) + 4 * (c mod W) + r mod 4 < W * r4) by (subst r4; clear - Mc Mr H0 HW; nia). nia.
Qed.

Section Rows.
Variables (k : row_packer).
Hypothesis K : row_laws k.
Let W := r_width k.
Variables (dbg : bool) (st : ity) (src : mat Z) (p : pmat Z) (a b : Z).
Hypothesis Hst : st = u8 \/ st = s8.
Hypothesis Hrow : ml_order (m_layout src) = RowMajor.
Hypothesis Hcall : pack_call W s8 src p a b.
Hypothesis Hmzp : it_lo st <= m_zp src <= it_hi st.
Hypothesis Hzp : p_zp p = it_conv s8 (m_zp src - middle st).
Hypothesis Hsmall : pl_rows (p_layout p) <= 2 ^ 24.

Let rows := ml_rows (m_layout src).
Let cols := ml_cols (m_layout src).
Let stride := ml_stride (m_layout src).
Let r4 := pl_rows (p_layout p).
Let zp := m_zp src.
Let xor := if it_signed st then 0 else 0x80.
Let xs := if it_signed st then 0 else -128.
Let pofs := poff (p_layout p).

Lemma rW : W = 8 \/ W = 16.
Proof. exact (rl_width _ K). Qed.

Lemma xs_good : good_xor 1 xs.
Proof. unfold good_xor, xs. destruct Hst as [-> | ->]; [right; split; reflexivity|left; reflexivity]. Qed.

Lemma xs_xor : set1 1 16 xor = set1 1 16 xs.
Proof. unfold xor, xs. destruct Hst as [-> | ->]; reflexivity. Qed.

(** The packed value, for any row of the packed matrix. *)
Definition rv (r c : Z) : Z := wrap_s 8 ((if r <? rows then bdat (m_data src) (r * stride + c) else zp) + xs).

Lemma rv_bits : forall r c, in_bits 8 (rv r c).
Proof. intros r c. unfold rv, in_bits. apply SimdFacts.wrap_s_range. lia. Qed.

Lemma rv_value : forall r c, rv r c = packed_value st s8 src (p_zp p) r c.
Proof.
  intros r c. unfold rv, packed_value. fold rows. rewrite Hzp.
  assert (E : forall x, wrap_s 8 (x + xs) = it_conv s8 (x - middle st)) by (intros x; unfold it_conv, xs, middle; destruct Hst as [-> | ->]; cbn [it_signed s8 u8 it_bits]; f_equal; change (2 ^ (8 - 1)) with 128; lia).
  unfold entry, position. rewrite Hrow. fold stride. destruct (r <? rows); apply E.
Qed.

Lemma lxor_scalar : forall x, wrap_s 8 (Z.lxor xor (wrap_u 8 x)) = wrap_s 8 (x + xs).
Proof.
  intros x. unfold xor, xs. destruct Hst as [-> | ->]; cbn [it_signed u8 s8].
  - rewrite Z.lxor_comm. unfold wrap_u. change (2 ^ 8) with 256. rewrite lxor_128 by (apply Z.mod_pos_bound; lia).
    rewrite Z.add_mod_idemp_l by lia. change 256 with (2 ^ 8). apply SimdFacts.wrap_s_mod. lia.
  - rewrite Z.lxor_0_l, Z.add_0_r. apply wrap_s_u. lia.
Qed.

Lemma lxor_zp : wrap_s 8 (Z.lxor xor zp) = wrap_s 8 (zp + xs).
Proof.
  unfold xor, xs. fold zp in Hmzp. destruct Hst as [Es | Es]; rewrite Es in *; cbn [it_signed u8 s8].
  - change (it_lo u8) with 0 in Hmzp. change (it_hi u8) with 255 in Hmzp. rewrite Z.lxor_comm, lxor_128 by (clear - Hmzp; lia).
    change 256 with (2 ^ 8). apply SimdFacts.wrap_s_mod. lia.
  - rewrite Z.lxor_0_l, Z.add_0_r. reflexivity.
Qed.

(** ** Layout *)
Lemma row_layout : 0 <= rows /\ 0 <= cols /\ cols <= stride /\ stride * rows <= int_max /\ stride * rows <= blen (m_data src) /\
  r4 * pl_cols (p_layout p) <= int_max /\ r4 * pl_cols (p_layout p) <= blen (p_data p) /\ pl_stride (p_layout p) = r4 /\ rows <= r4 < rows + 4 /\ (4 | r4) /\
  (W | pl_cols (p_layout p)) /\ cols <= pl_cols (p_layout p) < cols + W /\ pl_cols (p_layout p) <= int_max.
Proof.
  destruct Hcall as (((V1 & V2 & V3 & V4) & V5) & ((_ & _ & L3 & L4 & L5 & L6 & L7 & L8) & L9 & _) & _).
  unfold inner_size, outer_size in *. rewrite Hrow in *. cbn [blocks_of kl_rows kl_cols] in *. destruct L4 as [D4 R4]. destruct L5 as [D5 R5].
  unfold rows, cols, stride, r4 in *. repeat split; try assumption; lia.
Qed.

Lemma rblocks_valid : valid_kernel_layout (blocks_of W).
Proof.
  unfold valid_kernel_layout. cbn [blocks_of kl_rows kl_cols]. split; [exists 2; lia|]. destruct rW as [-> | ->]; (split; [|lia]); [exists 3|exists 4]; lia.
Qed.

Lemma row_pmat_ok : pmat_ok p.
Proof. destruct Hcall as (HV & HP & _). apply (packed_for_ok src (blocks_of W)); [exact rblocks_valid|exact HV|exact HP]. Qed.

Lemma rpoff : forall r c, pofs r c = r4 * (c / W * W) + (4 * W * (r / 4) + 4 * (c mod W) + r mod 4).
Proof.
  intros r c. unfold pofs, poff. destruct Hcall as (_ & ((E & _) & _) & _). rewrite E. cbn [blocks_of kl_rows kl_cols kl_order]. fold r4. ring.
Qed.

(** Within a block of columns and of four rows the cells follow one another. *)
Lemma rpoff_at : forall br e d n, (4 | br) -> 0 <= e -> e mod W + n <= W -> 0 <= d < 4 * n ->
  pofs (br + d mod 4) (e + d / 4) = r4 * (e / W * W) + (W * br + 4 * (e mod W)) + d.
Proof.
  intros br e d n [m Em] He Hn Hd. rewrite rpoff. pose proof rW as HW. pose proof (Z.mod_pos_bound e W ltac:(clear - HW; lia)) as M.
  pose proof (Z.div_mod e W ltac:(clear - HW; lia)) as D. pose proof (Z.mod_pos_bound d 4 ltac:(lia)) as M4. pose proof (Z.div_mod d 4 ltac:(lia)) as D4.
  replace ((e + d / 4) / W) with (e / W) by (apply (Z.div_unique _ _ _ (e mod W + d / 4)); [left; clear - M Hn Hd D4 M4; lia|clear - D; lia]).
  replace ((e + d / 4) mod W) with (e mod W + d / 4) by (apply (Z.mod_unique _ _ (e / W)); [left; clear - M Hn Hd D4 M4; lia|clear - D; lia]).
  replace ((br + d mod 4) / 4) with m by (apply (Z.div_unique _ _ _ (d mod 4)); [left; exact M4|clear - Em; lia]).
  replace ((br + d mod 4) mod 4) with (d mod 4) by (apply (Z.mod_unique _ _ m); [left; exact M4|clear - Em; lia]).
  rewrite Em. clear - D4. nia.
Qed.

(** ** The loop *)
Definition cellv (r c : Z) : Z := if c <? cols then rv r c else 0.
Definition done (br e r c : Z) : Prop := a <= c < b /\ 0 <= r /\ (r < br \/ (r < br + 4 /\ c < e)).
Definition colsum (n c : Z) : Z := if c <? cols then zsum (map (fun r => rv r c) (zrange 0 n)) else 0.

Variable sums0 : buf Z.
Hypothesis Hsums0 : p_sums p = Some sums0.

Record rinv (br e : Z) (data sums : buf Z) : Prop := {
  ri_len : blen data = blen (p_data p);
  ri_in : forall r c, done br e r c -> bdat data (pofs r c) = cellv r c;
  ri_out : forall q, (forall r c, 0 <= r < r4 -> a <= c < b -> pofs r c <> q) -> bdat data q = bdat (p_data p) q;
  ri_slen : blen sums = blen sums0;
  ri_sums : forall c, a <= c < b -> bdat sums c = colsum (if c <? e then br + 4 else br) c;
  ri_sout : forall c, ~ (a <= c < b) -> bdat sums c = bdat sums0 c
}.

Lemma sum_bound : forall n c, 0 <= n -> - 128 * n <= zsum (map (fun r => rv r c) (zrange 0 n)) <= 127 * n.
Proof.
  intros n c Hn. pose proof (zsum_bound (map (fun r => rv r c) (zrange 0 n))) as B. rewrite map_length in B.
  assert (L : length (zrange 0 n) = Z.to_nat n) by (unfold zrange; rewrite zseq_seq, map_length, seq_length; f_equal; lia). rewrite L, Z2Nat.id in B by exact Hn.
  apply B. apply Forall_forall. intros x Hx. apply in_map_iff in Hx. destruct Hx as (r & <- & _). apply rv_bits.
Qed.

Lemma sum_next : forall n c, 0 <= n -> zsum (map (fun r => rv r c) (zrange 0 (n + 4))) =
  zsum (map (fun r => rv r c) (zrange 0 n)) + (rv n c + rv (n + 1) c + rv (n + 2) c + rv (n + 3) c).
Proof.
  intros n c Hn. replace (n + 4) with (n + 1 + 1 + 1 + 1) by lia. rewrite !zrange_snoc by lia. rewrite !map_app.
  assert (A : forall l l', zsum (l ++ l') = zsum l + zsum l') by (induction l as [|x l IH]; intros l'; cbn [app zsum]; [reflexivity|rewrite IH; lia]).
  rewrite !A. cbn [map zsum]. replace (n + 1 + 1) with (n + 2) by lia. replace (n + 2 + 1) with (n + 3) by lia. lia.
Qed.

Lemma extend : forall br e n data sums data' sums', rinv br e data sums -> (4 | br) -> 0 <= br -> br + 4 <= r4 -> a <= e -> 0 <= n -> e + n <= b ->
  e mod W + n <= W ->
  blen data' = blen data -> (forall q, bdat data' q = let d := q - (r4 * (e / W * W) + (W * br + 4 * (e mod W))) in
    if (0 <=? d) && (d <? 4 * n) then cellv (br + d mod 4) (e + d / 4) else bdat data q) ->
  blen sums' = blen sums -> (forall c, bdat sums' c = if (e <=? c) && (c <? e + n) then colsum (br + 4) c else bdat sums c) ->
  rinv br (e + n) data' sums'.
Proof.
  intros br e n data sums data' sums' I Hbr Hbr0 Hbr4 He Hn Hen Hw L D Ls Ds.
  pose proof Hcall as (_ & _ & _ & Hab & Hb & _). pose proof row_pmat_ok as PO. pose proof (pmo_layout _ PO) as PL.
  constructor.
  - rewrite L. apply (ri_len _ _ _ _ I).
  - intros r c (Hc & Hr & Hd). rewrite D. cbv zeta. set (base := r4 * (e / W * W) + (W * br + 4 * (e mod W))).
    destruct (Z_lt_le_dec r br) as [L1|L1]; [|destruct (Z_lt_le_dec c e) as [L2|L2]].
    + destruct ((0 <=? pofs r c - base) && (pofs r c - base <? 4 * n)) eqn:E; [exfalso|apply (ri_in _ _ _ _ I); split; [exact Hc|split; [exact Hr|left; exact L1]]].
      apply andb_prop in E. destruct E as [E1 E2]. apply Z.leb_le in E1. apply Z.ltb_lt in E2.
      pose proof (rpoff_at br e _ n Hbr ltac:(clear - Hab He; lia) Hw (conj E1 E2)) as P. fold base in P. rewrite Zplus_minus in P.
      pose proof (Z.mod_pos_bound (pofs r c - base) 4 ltac:(lia)) as M4. pose proof (Z.div_pos (pofs r c - base) 4 E1 ltac:(lia)) as P4.
      apply poff_inj in P; [clear - P L1 M4; lia|exact PL|fold r4; clear - M4 Hbr0 Hbr4; lia|clear - P4 Hab He; lia|fold r4; clear - Hr L1 Hbr4; lia|clear - Hc Hab; lia].
    + destruct ((0 <=? pofs r c - base) && (pofs r c - base <? 4 * n)) eqn:E; [exfalso|apply (ri_in _ _ _ _ I); split; [exact Hc|split; [exact Hr|right; split; [clear - Hd L1; lia|exact L2]]]].
      apply andb_prop in E. destruct E as [E1 E2]. apply Z.leb_le in E1. apply Z.ltb_lt in E2.
      pose proof (rpoff_at br e _ n Hbr ltac:(clear - Hab He; lia) Hw (conj E1 E2)) as P. fold base in P. rewrite Zplus_minus in P.
      pose proof (Z.mod_pos_bound (pofs r c - base) 4 ltac:(lia)) as M4. pose proof (Z.div_pos (pofs r c - base) 4 E1 ltac:(lia)) as P4.
      apply poff_inj in P; [clear - P L2 P4; lia|exact PL|fold r4; clear - M4 Hbr0 Hbr4; lia|clear - P4 Hab He; lia|fold r4; clear - Hr Hd Hbr4; lia|clear - Hc Hab; lia].
    + assert (Hd' : 0 <= 4 * (c - e) + (r - br) < 4 * n) by (clear - Hd L1 L2; lia).
      pose proof (rpoff_at br e _ n Hbr ltac:(clear - Hab He; lia) Hw Hd') as P. fold base in P.
      assert (M : (4 * (c - e) + (r - br)) mod 4 = r - br) by (symmetry; apply (Z.mod_unique _ _ (c - e)); [left; clear - Hd L1; lia|ring]).
      assert (Q : (4 * (c - e) + (r - br)) / 4 = c - e) by (symmetry; apply (Z.div_unique _ _ _ (r - br)); [left; clear - Hd L1; lia|ring]).
      rewrite M, Q in P. rewrite !Zplus_minus in P. rewrite P. replace (base + (4 * (c - e) + (r - br)) - base) with (4 * (c - e) + (r - br)) by ring.
      rewrite M, Q, !Zplus_minus. replace (_ && _) with true; [reflexivity|]. symmetry. apply andb_true_intro. split; [apply Z.leb_le|apply Z.ltb_lt]; apply Hd'.
  - intros q Hq. rewrite D. cbv zeta. destruct (_ && _) eqn:E; [exfalso|apply (ri_out _ _ _ _ I); exact Hq].
    apply andb_prop in E. destruct E as [E1 E2]. apply Z.leb_le in E1. apply Z.ltb_lt in E2.
    pose proof (rpoff_at br e _ n Hbr ltac:(clear - Hab He; lia) Hw (conj E1 E2)) as P. rewrite Zplus_minus in P. revert P. apply Hq.
    + match goal with |- context [?x mod 4] => pose proof (Z.mod_pos_bound x 4 ltac:(lia)) as M4 end. clear - M4 Hbr0 Hbr4. lia.
    + match goal with |- context [?x / 4] => pose proof (Z.div_pos x 4 E1 ltac:(lia)) as P4; pose proof (Z.div_lt_upper_bound x 4 n ltac:(lia) E2) as U4 end. clear - P4 U4 He Hen. lia.
  - rewrite Ls. apply (ri_slen _ _ _ _ I).
  - intros c Hc. rewrite Ds. destruct ((e <=? c) && (c <? e + n)) eqn:E.
    + apply andb_prop in E. destruct E as [_ E]. rewrite E. reflexivity.
    + rewrite (ri_sums _ _ _ _ I c Hc). f_equal. assert (N : ~ (e <= c < e + n)) by (intros [N1 N2]; apply Z.leb_le in N1; apply Z.ltb_lt in N2; rewrite N1, N2 in E; discriminate).
      destruct (Z.ltb_spec c e); destruct (Z.ltb_spec c (e + n)); try reflexivity; clear - N H H0 Hn; lia.
  - intros c Hc. rewrite Ds. replace (_ && _) with false; [apply (ri_sout _ _ _ _ I); exact Hc|]. symmetry. apply andb_false_iff. rewrite Z.leb_gt, Z.ltb_ge. clear - Hc He Hen. lia.
Qed.

Lemma xor16 : forall x, xor_si (of_lanes 1 (vrow 16 x)) (set1 1 16 xor) = of_lanes 1 (vrow 16 (fun e => wrap_s 8 (x e + xs))).
Proof.
  intros x. rewrite xs_xor. rewrite !lanes1. change (set1 1 16 xs) with (repeat (xs mod 256) 16).
  unfold xor_si, vrow. cbn [seq map map2 repeat]. rewrite !xor_byte by exact xs_good. reflexivity.
Qed.

Lemma row_value_ok : forall br c0 r, 0 <= br -> 0 <= c0 -> c0 + W <= cols -> 0 <= r < 4 ->
  exists x, row_value k (m_data src) (br * stride + c0) stride zp br rows r = Ok (of_lanes 1 (vrow 16 x)) /\
    forall i, Z.of_nat i < W -> wrap_s 8 (x i + xs) = rv (br + r) (c0 + Z.of_nat i).
Proof.
  intros br c0 r Hbr Hc0 Hcw Hr. destruct row_layout as (F1 & F2 & F3 & F4 & F5 & _). unfold row_value, rv.
  destruct (Z.ltb_spec (br + r) rows) as [L|L].
  - assert (Hm : (br + r) * stride + stride <= stride * rows) by (clear - L F3 F2; nia).
    assert (Hr0 : 0 <= r * stride <= (br + r) * stride) by (clear - Hr Hbr F2 F3; nia). pose proof rW as HW.
    rewrite i32_ok by (clear - Hm Hr0 F4 F2 F3; unfold int_min; lia). cbn [bind].
    destruct (rl_load _ K (m_data src) (br * stride + c0 + r * stride)) as (x & E & X).
    + assert (0 <= br * stride) by (clear - Hbr F2 F3; nia). clear - H Hr0 Hc0. lia.
    + fold W. clear - Hm Hcw F3 F5. nia.
    + exists x. split; [exact E|]. intros i Hi. rewrite X by exact Hi. do 3 f_equal. clear. ring.
  - exists (fun _ => zp). split; [reflexivity|]. intros i _. reflexivity.
Qed.

Lemma group_ok : forall br c0 data sums, rinv br c0 data sums -> (4 | br) -> 0 <= br -> br + 4 <= r4 -> a <= c0 -> (W | c0) -> c0 + W <= b -> c0 + W <= cols ->
  exists data' sums', row_group k (m_data src) xor stride zp r4 br rows c0 (data, sums, br * stride + c0, r4 * c0 + W * br) =
    Ok (data', sums', br * stride + (c0 + W), r4 * (c0 + W) + W * br) /\ rinv br (c0 + W) data' sums'.
Proof.
  intros br c0 data sums I Hbr Hbr0 Hbr4 Ha Hdiv Hcb Hcc. pose proof rW as HW.
  pose proof Hcall as (_ & (_ & _ & Ls) & _ & Hab & Hb & _).
  destruct row_layout as (F1 & F2 & F3 & F4 & F5 & F6 & F7 & F8 & F9 & F10 & F11 & F12 & F13).
  assert (Hc0 : 0 <= c0) by (clear - Ha Hab; lia).
  destruct (row_value_ok br c0 0 Hbr0 Hc0 Hcc ltac:(lia)) as (x0 & E0 & X0). destruct (row_value_ok br c0 1 Hbr0 Hc0 Hcc ltac:(lia)) as (x1 & E1 & X1).
  destruct (row_value_ok br c0 2 Hbr0 Hc0 Hcc ltac:(lia)) as (x2 & E2 & X2). destruct (row_value_ok br c0 3 Hbr0 Hc0 Hcc ltac:(lia)) as (x3 & E3 & X3).
  unfold row_group. rewrite E0. cbn [bind]. rewrite E1. cbn [bind]. rewrite E2. cbn [bind]. rewrite E3. cbn [bind].
  cbn [map]. rewrite !xor16.
  set (f := fun r i => wrap_s 8 (match r with 0%nat => x0 i | 1%nat => x1 i | 2%nat => x2 i | _ => x3 i end + xs)).
  change [of_lanes 1 (vrow 16 (fun i0 => wrap_s 8 (x0 i0 + xs))); of_lanes 1 (vrow 16 (fun i1 => wrap_s 8 (x1 i1 + xs)));
    of_lanes 1 (vrow 16 (fun i2 => wrap_s 8 (x2 i2 + xs))); of_lanes 1 (vrow 16 (fun i3 => wrap_s 8 (x3 i3 + xs)))] with (rows_of f).
  assert (Hf : forall r i, in_bits 8 (f r i)) by (intros r i; unfold f, in_bits; apply SimdFacts.wrap_s_range; clear; lia).
  assert (Fv : forall r i, (r < 4)%nat -> Z.of_nat i < W -> f r i = rv (br + Z.of_nat r) (c0 + Z.of_nat i)).
  { intros r i Hr Hi. unfold f. destruct r as [|[|[|[|r]]]]; [apply X0|apply X1|apply X2|apply X3|clear - Hr; lia]; exact Hi. }
  clearbody f. clear E0 E1 E2 E3 X0 X1 X2 X3 x0 x1 x2 x3.
  assert (Hs : c0 + W <= blen sums) by (rewrite (ri_slen _ _ _ _ I); specialize (Ls sums0 Hsums0); clear - Ls Hcb Hb; lia).
  fold W. rewrite load_ok; [|exact Hc0|exact Hs]. cbn [bind]. change (of_lanes 4 (vrow (Z.to_nat W) (span sums c0))) with (L4 (vrow (Z.to_nat W) (span sums c0))).
  rewrite (rl_sum _ K) by exact Hf. fold W. unfold L4 at 1. rewrite (store_lanes_w s32 4) by (try reflexivity; right; right; right; reflexivity).
  assert (LW : Z.of_nat (Z.to_nat W) = W) by (apply Z2Nat.id; clear - HW; lia).
  match goal with |- context [write_list ?l c0 sums] => destruct (write_list_ok l c0 sums) as (sums' & ES & LS & DS) end.
  { exact Hc0. } { rewrite map_length, vrow_length, LW. exact Hs. }
  rewrite ES. cbn [bind]. rewrite (rl_zip _ K), store_rows by exact Hf. fold W.
  assert (Hd : 0 <= r4 * c0 + W * br /\ r4 * c0 + W * br + 4 * W <= blen data).
  { rewrite (ri_len _ _ _ _ I). clear - F7 Hc0 Hbr0 Hbr4 Hcb Hb HW. split; [nia|]. assert (r4 * (c0 + W) <= r4 * pl_cols (p_layout p)) by nia. nia. }
  assert (LW4 : Z.of_nat (16 * Z.to_nat (W / 4)) = 4 * W) by (destruct HW as [-> | ->]; reflexivity).
  match goal with |- context [write_list ?l (r4 * c0 + W * br) data] => destruct (write_list_ok l (r4 * c0 + W * br) data) as (data' & ED & LD & DD) end.
  { apply Hd. } { rewrite map_length, seq_length, LW4. apply Hd. }
  rewrite ED. cbn [bind]. rewrite i32_ok by (assert (0 <= r4 * W <= r4 * pl_cols (p_layout p)) by (clear - HW Hc0 Hcb Hb Hbr0 Hbr4; nia); clear - H F6; unfold int_min; lia). cbn [bind].
  exists data', sums'. split; [fold W; replace (br * stride + c0 + W) with (br * stride + (c0 + W)) by ring; replace (r4 * c0 + W * br + r4 * W) with (r4 * (c0 + W) + W * br) by ring; reflexivity|].
  assert (Hmod : c0 mod W = 0) by (destruct Hdiv as [m ->]; apply Z.mod_mul; clear - HW; lia).
  assert (Hdiv' : c0 / W * W = c0) by (pose proof (Z.div_mod c0 W ltac:(clear - HW; lia)) as D; clear - D Hmod; lia).
  apply (extend br c0 W data sums data' sums'); try assumption.
  - clear - HW. lia.
  - rewrite Hmod. clear. lia.
  - intros q. rewrite DD, map_length, seq_length, LW4, Hdiv', Hmod. cbv zeta. rewrite Z.mul_0_r, Z.add_0_r.
    set (base := r4 * c0 + W * br). destruct (Z.leb_spec base q); destruct (Z.leb_spec 0 (q - base)); try (clear - H H0; lia); cbn [andb]; [|reflexivity].
    destruct (Z.ltb_spec q (base + 4 * W)); destruct (Z.ltb_spec (q - base) (4 * W)); try (clear - H1 H2; lia).
    set (d := q - base) in *. assert (Hdn : (Z.to_nat d < 16 * Z.to_nat (W / 4))%nat) by (apply Nat2Z.inj_lt; rewrite LW4, Z2Nat.id by assumption; assumption).
    rewrite (nth_indep _ 0 (f (0 mod 4)%nat (0 / 4)%nat)) by (rewrite map_length, seq_length; exact Hdn).
    rewrite (map_nth (fun e => f (e mod 4)%nat (e / 4)%nat)). rewrite seq_nth by exact Hdn. rewrite Nat.mul_0_r, Nat.add_0_l.
    rewrite Fv.
    + unfold cellv. replace (c0 + d / 4 <? cols) with true by (symmetry; apply Z.ltb_lt; pose proof (Z.div_lt_upper_bound d 4 W ltac:(clear; lia) H2) as U; clear - U Hcc; lia).
      f_equal; [rewrite Nat2Z.inj_mod|rewrite Nat2Z.inj_div]; rewrite Z2Nat.id by assumption; reflexivity.
    + apply Nat.mod_upper_bound. clear. lia.
    + rewrite Nat2Z.inj_div, Z2Nat.id by assumption. apply Z.div_lt_upper_bound; [clear; lia|exact H2].
  - intros c. rewrite DS, map_length, vrow_length, LW. destruct (_ && _) eqn:E; [|reflexivity].
    apply andb_prop in E. destruct E as [Ea Eb]. apply Z.leb_le in Ea. apply Z.ltb_lt in Eb.
    assert (Hi : (Z.to_nat (c - c0) < Z.to_nat W)%nat) by (apply Z2Nat.inj_lt; clear - Ea Eb HW; lia).
    rewrite (nth_indep _ 0 (it_conv s32 0)) by (rewrite map_length, vrow_length; exact Hi). rewrite map_nth, vrow_nth by exact Hi.
    assert (Ci : Z.of_nat (Z.to_nat (c - c0)) = c - c0) by (apply Z2Nat.id; clear - Ea; lia).
    rewrite !Fv by (try (clear; lia); rewrite Ci; clear - Eb; lia). unfold span. rewrite Ci, !Zplus_minus.
    rewrite (ri_sums _ _ _ _ I) by (clear - Ea Eb Ha Hcb; lia). replace (c <? c0) with false by (symmetry; apply Z.ltb_ge; exact Ea).
    unfold colsum. replace (c <? cols) with true by (symmetry; apply Z.ltb_lt; clear - Eb Hcc; lia).
    rewrite sum_next by exact Hbr0. change (Z.of_nat 0) with 0. change (Z.of_nat 1) with 1. change (Z.of_nat 2) with 2. change (Z.of_nat 3) with 3. rewrite (Z.add_0_r br).
    unfold it_conv. cbn [it_signed s32 it_bits]. rewrite <- sum_next by exact Hbr0. apply SimdFacts.wrap_s_id; [clear; lia|].
    pose proof (sum_bound (br + 4) c ltac:(clear - Hbr0; lia)) as B. fold r4 in Hsmall. change (2 ^ 24) with 16777216 in Hsmall. change (2 ^ (32 - 1)) with 2147483648. clear - B Hsmall Hbr4. lia.
Qed.

Definition scalar_of (br c r : Z) : res Z :=
  if br + r <? rows then o <- i32 (r * stride) ;; x <- bread (m_data src) (br * stride + c + o) ;; Ok (wrap_s 8 (Z.lxor xor (wrap_u 8 x)))
  else Ok (wrap_s 8 (Z.lxor xor zp)).

Lemma scalar_ok : forall br c r, 0 <= br -> 0 <= c < cols -> 0 <= r < 4 -> scalar_of br c r = Ok (rv (br + r) c).
Proof.
  intros br c r Hbr Hc Hr. destruct row_layout as (F1 & F2 & F3 & F4 & F5 & _). unfold scalar_of, rv.
  destruct (Z.ltb_spec (br + r) rows) as [L|L]; [|f_equal; exact lxor_zp].
  assert (Hm : (br + r) * stride + stride <= stride * rows) by (clear - L F3 F2; nia).
  assert (Hr0 : 0 <= r * stride <= (br + r) * stride) by (clear - Hr Hbr F2 F3; nia).
  rewrite i32_ok by (clear - Hm Hr0 F4 F2 F3; unfold int_min; lia). cbn [bind].
  assert (E : br * stride + c + r * stride = (br + r) * stride + c) by ring. rewrite E.
  rewrite bread_ok by (clear - Hm Hr0 F5 F3 Hc; lia). cbn [bind]. f_equal. apply lxor_scalar.
Qed.

Lemma single_ok : forall br c0 c data sums, rinv br c data sums -> (4 | br) -> 0 <= br -> br + 4 <= r4 -> a <= c0 -> (W | c0) -> c0 <= c < c0 + W -> c < b -> c < cols ->
  exists data' sums', row_single (m_data src) xor stride zp br rows c (data, sums, br * stride + c, r4 * c0 + W * br + 4 * (c - c0)) =
    Ok (data', sums', br * stride + (c + 1), r4 * c0 + W * br + 4 * (c + 1 - c0)) /\ rinv br (c + 1) data' sums'.
Proof.
  intros br c0 c data sums I Hbr Hbr0 Hbr4 Ha Hdiv Hcr Hcb Hcc. pose proof rW as HW.
  pose proof Hcall as (_ & (_ & _ & Ls) & _ & Hab & Hb & _ & Db).
  destruct row_layout as (F1 & F2 & F3 & F4 & F5 & F6 & F7 & F8 & F9 & F10 & F11 & F12 & F13).
  assert (Hc : 0 <= c) by (clear - Ha Hab Hcr; lia). set (cur := r4 * c0 + W * br + 4 * (c - c0)).
  assert (Hcur : 0 <= cur /\ cur + 4 <= blen data).
  { rewrite (ri_len _ _ _ _ I). assert (Hcw : c0 + W <= b) by (destruct Hdiv as [m ->]; destruct Db as [mb Eb]; rewrite Eb in *; clear - Hcr Hcb HW; nia).
    unfold cur. clear - F7 Hc Ha Hab Hbr0 Hbr4 Hcr Hcw Hb HW. split; [nia|]. assert (r4 * (c0 + W) <= r4 * pl_cols (p_layout p)) by nia. nia. }
  unfold row_single.
  destruct (forto_inv (fun i (s : Z * buf Z * Z) => let '(acc, d, pp) := s in acc = zsum (map (fun r => rv (br + r) c) (zrange 0 i)) /\ pp = cur + i /\ blen d = blen data /\
       forall q, bdat d q = if (0 <=? q - cur) && (q - cur <? i) then rv (br + (q - cur)) c else bdat data q)
     (fun r '(accum, data, poff) => v <- scalar_of br c r ;; accum <- i32 (accum + v) ;; data <- bwrite data poff v ;; Ok (accum, data, poff + 1)) 0 4 (0, data, cur))
    as ([[acc d] pp] & E & Ea & Ep & Ld & Dd).
  - clear. lia.
  - split; [reflexivity|]. split; [ring|]. split; [reflexivity|]. intros q. replace (_ && _) with false by (clear; lia). reflexivity.
  - intros i [[acc d] pp] Hi (Ea & Ep & Ld & Dd). rewrite scalar_ok by (try assumption; split; assumption). cbn [bind].
    assert (Eacc : acc + rv (br + i) c = zsum (map (fun r => rv (br + r) c) (zrange 0 (i + 1)))).
    { rewrite zrange_snoc by apply Hi. rewrite map_app. assert (A : forall l l', zsum (l ++ l') = zsum l + zsum l') by (induction l as [|x l IH]; intros l'; cbn [app zsum]; [reflexivity|rewrite IH; lia]).
      rewrite A, <- Ea. cbn [map zsum]. clear. lia. }
    rewrite i32_ok.
    + cbn [bind]. rewrite Ep. destruct (bwrite_ok d (cur + i) (rv (br + i) c)) as (d' & Ew & Lw & Dw); [rewrite Ld; clear - Hcur Hi; lia|].
      rewrite Ew. cbn [bind]. eexists. split; [reflexivity|]. split; [exact Eacc|]. split; [ring|]. split; [rewrite Lw; exact Ld|]. intros q. rewrite Dw, Dd.
      destruct (Z.eqb_spec q (cur + i)) as [->|Hq].
      * replace (cur + i - cur) with i by ring. replace (_ && _) with true by (clear - Hi; lia). reflexivity.
      * replace (q - cur <? i + 1) with (q - cur <? i) by (clear - Hq; lia). reflexivity.
    + pose proof (zsum_bound (map (fun r => rv (br + r) c) (zrange 0 i))) as B. rewrite map_length in B.
      assert (L : length (zrange 0 i) = Z.to_nat i) by (unfold zrange; rewrite zseq_seq, map_length, seq_length; f_equal; lia). rewrite L, Z2Nat.id, <- Ea in B by apply Hi.
      assert (B' : - 128 * i <= acc <= 127 * i) by (apply B; apply Forall_forall; intros x Hx; apply in_map_iff in Hx; destruct Hx as (r & <- & _); apply rv_bits).
      pose proof (rv_bits (br + i) c) as V. unfold in_bits in V. change (2 ^ (8 - 1)) with 128 in V. clear - B' V Hi. unfold int_min, int_max. lia.
  - unfold scalar_of in E. rewrite E. cbn [bind].
    specialize (Ls sums0 Hsums0). assert (Hs : 0 <= c < blen sums) by (rewrite (ri_slen _ _ _ _ I); clear - Ls Hcb Hb Hc; lia).
    rewrite bread_ok by exact Hs. cbn [bind].
    assert (Es : bdat sums c + acc = zsum (map (fun r => rv r c) (zrange 0 (br + 4)))).
    { rewrite (ri_sums _ _ _ _ I) by (clear - Ha Hcr Hcb; lia). rewrite Z.ltb_irrefl. unfold colsum. replace (c <? cols) with true by (symmetry; apply Z.ltb_lt; exact Hcc).
      rewrite sum_next by exact Hbr0. f_equal. rewrite Ea. change (zrange 0 4) with [0; 1; 2; 3]. cbn [map zsum]. rewrite Z.add_0_r. clear. ring. }
    rewrite Es. rewrite i32_ok.
    2: { pose proof (sum_bound (br + 4) c ltac:(clear - Hbr0; lia)) as B. fold r4 in Hsmall. change (2 ^ 24) with 16777216 in Hsmall. clear - B Hsmall Hbr4. unfold int_min, int_max. lia. }
    cbn [bind]. destruct (bwrite_ok sums c (zsum (map (fun r => rv r c) (zrange 0 (br + 4)))) Hs) as (sums' & Ew & Lw & Dw). rewrite Ew. cbn [bind].
    exists d, sums'. split; [rewrite Ep; replace (br * stride + c + 1) with (br * stride + (c + 1)) by ring; replace (cur + 4) with (r4 * c0 + W * br + 4 * (c + 1 - c0)) by (unfold cur; ring); reflexivity|].
    destruct Hdiv as [m Em].
    assert (Hmod : c mod W = c - c0) by (symmetry; apply (Z.mod_unique _ _ m); [left; clear - Hcr; lia|rewrite Em; ring]).
    assert (Hdv : c / W * W = c0) by (rewrite Em; f_equal; symmetry; apply (Z.div_unique _ _ _ (c - c0)); [left; clear - Hcr; lia|rewrite Em; ring]).
    apply (extend br c 1 data sums d sums'); try assumption.
    + clear - Ha Hcr. lia.
    + clear. lia.
    + clear - Hcb. lia.
    + rewrite Hmod. clear - Hcr. lia.
    + intros q. rewrite Dd, Hmod, Hdv. cbv zeta. replace (r4 * c0 + (W * br + 4 * (c - c0))) with cur by (unfold cur; ring). change (4 * 1) with 4.
      destruct (_ && _) eqn:E4; [|reflexivity]. apply andb_prop in E4. destruct E4 as [Q1 Q2]. apply Z.leb_le in Q1. apply Z.ltb_lt in Q2.
      rewrite Z.mod_small, Z.div_small by (split; assumption). rewrite Z.add_0_r. unfold cellv. replace (c <? cols) with true by (symmetry; apply Z.ltb_lt; exact Hcc). reflexivity.
    + intros c'. rewrite Dw. destruct (Z.eqb_spec c' c) as [->|Hne].
      * replace (_ && _) with true by (clear; lia). unfold colsum. replace (c <? cols) with true by (symmetry; apply Z.ltb_lt; exact Hcc). reflexivity.
      * replace (_ && _) with false by (clear - Hne; lia). reflexivity.
Qed.

Lemma next_block : forall br data sums, rinv br b data sums -> rinv (br + 4) a data sums.
Proof.
  intros br data sums I. constructor; try apply I.
  - intros r c (Hc & Hr & Hd). apply (ri_in _ _ _ _ I). split; [exact Hc|]. split; [exact Hr|]. clear - Hd Hc. lia.
  - intros c Hc. rewrite (ri_sums _ _ _ _ I c Hc). replace (c <? b) with true by (clear - Hc; lia). replace (c <? a) with false by (clear - Hc; lia). reflexivity.
Qed.

Lemma row_block_ok : forall br data sums, rinv br a data sums -> (4 | br) -> 0 <= br -> br + 4 <= r4 ->
  exists data' sums', pack_row_block k (m_data src) xor (br * stride + a) stride zp (a * r4 + br * W) r4 a b cols br rows (data, sums) = Ok (data', sums') /\
    rinv (br + 4) a data' sums'.
Proof.
  intros br data sums I Hbr Hbr0 Hbr4. pose proof rW as HW.
  pose proof Hcall as (_ & (_ & _ & Ls) & _ & Hab & Hb & Da & Db).
  destruct row_layout as (F1 & F2 & F3 & F4 & F5 & F6 & F7 & F8 & F9 & F10 & F11 & F12 & F13).
  destruct (Z.eq_dec a b) as [Eab|Nab].
  { unfold pack_row_block. fold W. rewrite forto_empty by (assert ((Z.min b cols - a) / W <= 0 / W) by (apply Z.div_le_mono; clear - HW Eab; lia); rewrite Z.div_0_l in H by (clear - HW; lia); clear - H; lia).
    cbn [bind fst snd].
    rewrite forto_empty by (clear - Eab HW; nia). cbn [bind]. unfold bzero. rewrite forto_empty by (clear - Eab HW; nia). cbn [bind].
    exists data, sums. split; [reflexivity|]. apply next_block. rewrite <- Eab. exact I. }
  set (e := Z.min b cols). assert (Hae : a < e).
  { unfold e. destruct Da as [ma Ea]. destruct Db as [mb Eb]. destruct F11 as [mp Ep]. rewrite Ep in *. clear - Nab Hab Hb F12 HW Ea Eb. assert (a < b) by lia. assert (a + W <= b) by nia. lia. }
  unfold pack_row_block. fold W e. set (G := (e - a) / W). cbn [fst snd].
  assert (HG : 0 <= G /\ a + W * G <= e < a + W * G + W).
  { pose proof (Z.div_mod (e - a) W ltac:(clear - HW; lia)) as D. pose proof (Z.mod_pos_bound (e - a) W ltac:(clear - HW; lia)) as M. fold G in D.
    split; [apply Z.div_pos; clear - Hae HW; lia|clear - D M; lia]. }
  destruct (forto_inv (fun g (s : buf Z * buf Z * Z * Z) => exists d s', s = (d, s', br * stride + (a + W * g), r4 * (a + W * g) + W * br) /\ rinv br (a + W * g) d s')
     (fun g s => row_group k (m_data src) xor stride zp r4 br rows (a + W * g) s) 0 G (data, sums, br * stride + a, a * r4 + br * W))
    as (s1 & E1 & d1 & sm1 & -> & I1).
  - apply HG.
  - exists data, sums. rewrite Z.mul_0_r, Z.add_0_r. split; [f_equal; ring|exact I].
  - intros g s Hg (d & s' & -> & I'). assert (Hgw : a + W * g + W <= e) by (clear - Hg HG HW; nia).
    destruct (group_ok br (a + W * g) d s' I' Hbr Hbr0 Hbr4) as (d'' & s'' & E & I'').
    + clear - Hg HW. nia.
    + apply Z.divide_add_r; [exact Da|exists g; ring].
    + clear - Hgw. unfold e in Hgw. lia.
    + clear - Hgw. unfold e in Hgw. lia.
    + exists (d'', s'', br * stride + (a + W * g + W), r4 * (a + W * g + W) + W * br). split; [exact E|]. exists d'', s''. replace (a + W * (g + 1)) with (a + W * g + W) by ring. split; [reflexivity|exact I''].
  - rewrite E1. cbn [bind]. rewrite Z.max_r by apply HG. set (c0 := a + W * G) in *.
    assert (Dc0 : (W | c0)) by (apply Z.divide_add_r; [exact Da|exists G; ring]).
    assert (Hac0 : a <= c0) by (unfold c0; clear - HG HW; nia).
    destruct (forto_inv (fun c (s : buf Z * buf Z * Z * Z) => exists d s', s = (d, s', br * stride + c, r4 * c0 + W * br + 4 * (c - c0)) /\ rinv br c d s')
       (row_single (m_data src) xor stride zp br rows) c0 e (d1, sm1, br * stride + c0, r4 * c0 + W * br))
      as (s2 & E2 & d2 & sm2 & -> & I2).
    + apply HG.
    + exists d1, sm1. split; [f_equal; ring|exact I1].
    + intros c s Hc (d & s' & -> & I'). destruct (single_ok br c0 c d s' I' Hbr Hbr0 Hbr4 Hac0 Dc0) as (d'' & s'' & E & I'').
      * clear - Hc HG. lia.
      * clear - Hc. unfold e in Hc. lia.
      * clear - Hc. unfold e in Hc. lia.
      * eexists. split; [exact E|]. exists d'', s''. split; [reflexivity|exact I''].
    + rewrite E2. cbn [bind]. rewrite (Z.max_r c0 e) by apply HG. set (n := b - e). assert (Hn : 0 <= n) by (unfold n, e; clear; lia). rewrite Z.max_r by exact Hn.
      destruct (Z.eq_dec n 0) as [En|Nn].
      { rewrite En. unfold bzero. rewrite forto_empty by (clear; lia). cbn [bind]. exists d2, sm2. split; [reflexivity|]. apply next_block. replace b with e by (clear - En; unfold n in En; lia). exact I2. }
      assert (Ecols : e = cols /\ cols < b) by (clear - Nn; unfold n, e in *; lia).
      assert (Ec0b : c0 + W = b).
      { destruct Dc0 as [m0 E0]. destruct Db as [mb Eb]. rewrite E0, Eb in *. destruct Ecols as [Ee Ecb]. rewrite Ee in HG. clear - HG Ecb Hb F12 HW. nia. }
      assert (Hmod : e mod W = e - c0) by (destruct Dc0 as [m0 E0]; symmetry; apply (Z.mod_unique _ _ m0); [left; clear - HG; lia|rewrite E0; ring]).
      assert (Hdv : e / W * W = c0) by (destruct Dc0 as [m0 E0]; rewrite E0 at 1; f_equal; symmetry; apply (Z.div_unique _ _ _ (e - c0)); [left; clear - HG; lia|rewrite E0; ring]).
      assert (Hcur : 0 <= r4 * c0 + W * br + 4 * (e - c0) /\ r4 * c0 + W * br + 4 * (e - c0) + 4 * n <= blen d2).
      { rewrite (ri_len _ _ _ _ I2). assert (Hb0 : r4 * b <= r4 * pl_cols (p_layout p)) by (clear - Hb Hbr0 Hbr4; nia).
        assert (W * (br + 4) <= W * r4) by (clear - HW Hbr4; nia). assert (r4 * b = r4 * c0 + W * r4) by (rewrite <- Ec0b; ring). assert (0 <= r4 * c0) by (clear - Hac0 Hab Hbr0 Hbr4; nia).
        assert (0 <= W * br) by (clear - HW Hbr0; nia). unfold n. clear - Hb0 H H0 H1 H2 F7 HG Ec0b. split; [lia|]. replace b with (c0 + W) by lia. lia. }
      destruct (bzero_ok 0 d2 (r4 * c0 + W * br + 4 * (e - c0)) (4 * n)) as (d3 & E3 & L3 & D3); [clear - Hn; lia|apply Hcur|apply Hcur|].
      rewrite E3. cbn [bind]. exists d3, sm2. split; [reflexivity|]. apply next_block. replace b with (e + n) by (unfold n; ring).
      apply (extend br e n d2 sm2 d3 sm2); try assumption; try reflexivity.
      * clear - Hae. lia.
      * unfold n. clear. lia.
      * rewrite Hmod. unfold n. clear - Ec0b. lia.
      * intros q. rewrite D3, Hmod, Hdv. cbv zeta. set (base := r4 * c0 + W * br + 4 * (e - c0)). replace (r4 * c0 + (W * br + 4 * (e - c0))) with base by (unfold base; ring).
        destruct (Z.leb_spec base q); destruct (Z.leb_spec 0 (q - base)); try (clear - H H0; lia); cbn [andb]; [|reflexivity].
        destruct (Z.ltb_spec q (base + 4 * n)); destruct (Z.ltb_spec (q - base) (4 * n)); try (clear - H1 H2; lia); try reflexivity.
        unfold cellv. replace (e + (q - base) / 4 <? cols) with false; [reflexivity|]. symmetry. apply Z.ltb_ge. pose proof (Z.div_pos (q - base) 4 H0 ltac:(clear; lia)) as P. clear - P Ecols. lia.
      * intros c. destruct (_ && _) eqn:E; [|reflexivity]. apply andb_prop in E. destruct E as [Q1 Q2]. apply Z.leb_le in Q1. apply Z.ltb_lt in Q2.
        rewrite (ri_sums _ _ _ _ I2) by (unfold n in Q2; clear - Q1 Q2 Hae; lia). unfold colsum. replace (c <? cols) with false; [reflexivity|]. symmetry. apply Z.ltb_ge. clear - Q1 Ecols. lia.
Qed.

Theorem pack_row_packed : exists q, pack_row_x86 dbg k st src p a b = Ok q /\ columns_packed st s8 src a b p q.
Proof.
  pose proof rW as HW. pose proof Hcall as (_ & (_ & _ & Ls) & _ & Hab & Hb & Da & Db). specialize (Ls sums0 Hsums0).
  destruct row_layout as (F1 & F2 & F3 & F4 & F5 & F6 & F7 & F8 & F9 & F10 & F11 & F12 & F13).
  pose proof row_pmat_ok as PO. pose proof (pmo_layout _ PO) as PL.
  unfold pack_row_x86. rewrite Hrow, dcheck_ok by reflexivity. cbn [bind]. cbv zeta. rewrite Hsums0. cbn [bind].
  rewrite i32_ok by (clear - Hab Hb F13; unfold int_min; lia). cbn [bind].
  destruct (bzero_ok 0 sums0 a (b - a)) as (s1 & E1 & L1 & D1); [clear - Hab; lia|apply Hab|clear - Hb Ls; lia|]. rewrite E1. cbn [bind].
  rewrite F8. fold rows cols stride zp xor r4 W.
  destruct F10 as [m Em].
  match goal with |- context [forstep 0 r4 4 ?f ?s] => set (body := f); set (s0 := s) end.
  assert (G : exists s, forstep 0 r4 4 body s0 = Ok s /\ rinv r4 a (fst s) (snd s)).
  { unfold forstep. replace ((r4 - 0 + 4 - 1) / 4) with m by (apply (Z.div_unique _ _ _ 3); [left; clear; lia|rewrite Em; ring]).
    replace (rinv r4 a) with (rinv (m * 4) a) by (rewrite Em; reflexivity).
    apply (forto_inv (fun t (s : buf Z * buf Z) => rinv (t * 4) a (fst s) (snd s))).
    - clear - F1 F9 Em. lia.
    - unfold s0. cbn [fst snd]. constructor; try reflexivity.
      + intros r c (Hc & Hr & Hd). clear - Hc Hr Hd. lia.
      + exact L1.
      + intros c Hc. rewrite D1. replace (_ && _) with true by (clear - Hc; lia). replace (c <? a) with false by (clear - Hc; lia). unfold colsum. change (zrange 0 (0 * 4)) with (@nil Z). destruct (c <? cols); reflexivity.
      + intros c Hc. rewrite D1. replace (_ && _) with false by (clear - Hc; lia). reflexivity.
    - intros t [d sm] Ht I. cbn [fst snd] in I. unfold body. set (br := 0 + t * 4).
      assert (Hbr : 0 <= br /\ br + 4 <= r4 /\ br < rows) by (unfold br; clear - Ht F9 Em; lia).
      assert (Hm1 : 0 <= br * stride /\ br * stride <= stride * rows) by (clear - Hbr F2 F3; nia).
      rewrite i32_ok by (clear - Hm1 F4; unfold int_min; lia). cbn [bind].
      assert (Hm2 : 0 <= a * r4 <= r4 * pl_cols (p_layout p)) by (clear - Hab Hb Hbr; nia).
      rewrite i32_ok by (clear - Hm2 F6; unfold int_min; lia). cbn [bind].
      rewrite i32_ok by (fold r4 in Hsmall; change (2 ^ 24) with 16777216 in Hsmall; clear - Hsmall Hbr HW; unfold int_min, int_max; lia). cbn [bind].
      destruct (row_block_ok br d sm) as (d' & sm' & E & I').
      + unfold br. rewrite Z.add_0_l. exact I.
      + exists t. unfold br. ring.
      + apply Hbr.
      + apply Hbr.
      + exists (d', sm'). split; [exact E|]. cbn [fst snd]. replace ((t + 1) * 4) with (br + 4) by (unfold br; ring). exact I'. }
  destruct G as ([data sums] & E & I). cbn [fst snd] in I. rewrite E. cbn [bind]. eexists. split; [reflexivity|]. clear E body s0 E1.
  assert (CV : forall r c, 0 <= r < r4 -> a <= c < b -> c < cols -> bdat data (pofs r c) = packed_value st s8 src (p_zp p) r c).
  { intros r c Hr Hc Hcc. rewrite (ri_in _ _ _ _ I) by (split; [exact Hc|split; [apply Hr|left; apply Hr]]). unfold cellv. replace (c <? cols) with true by (symmetry; apply Z.ltb_lt; exact Hcc). apply rv_value. }
  constructor; cbn [p_layout p_zp p_data p_sums].
  - split; [reflexivity|]. split; [reflexivity|]. apply (ri_len _ _ _ _ I).
  - intros r c Hr Hc Hcc. unfold pelement. cbn [p_layout p_data]. rewrite poffset_ok; [|exact PL|exact Hr|clear - Hc Hab Hb; lia]. cbn [bind].
    pose proof (poff_range (p_layout p) r c PL Hr ltac:(clear - Hc Hab Hb; lia)) as R. fold r4 in R. rewrite bread_ok by (rewrite (ri_len _ _ _ _ I); clear - R F7; lia). f_equal. apply CV; assumption.
  - rewrite Hsums0. split; [apply (ri_slen _ _ _ _ I)|]. split.
    + intros c Hc Hcc. rewrite (ri_sums _ _ _ _ I c Hc). replace (c <? a) with false by (clear - Hc; lia). unfold colsum. replace (c <? cols) with true by (symmetry; apply Z.ltb_lt; exact Hcc).
      fold r4. rewrite (map_ext _ _ (fun r => rv_value r c)). symmetry. apply SimdFacts.wrap_s_id; [clear; lia|].
      pose proof (sum_bound r4 c ltac:(clear - F1 F9; lia)) as B. rewrite (map_ext _ _ (fun r => rv_value r c)) in B. fold r4 in Hsmall. change (2 ^ 24) with 16777216 in Hsmall. change (2 ^ (32 - 1)) with 2147483648. clear - B Hsmall. lia.
    + apply (ri_sout _ _ _ _ I).
  - intros T i Hi. rewrite (ri_len _ _ _ _ I) in Hi.
    destruct (cell_dec p r4 a b W i) as [(r & c & Hr & Hc & Ei)|N].
    + apply rpoff.
    + exists m. exact Em.
    + exact HW.
    + exact Da.
    + exact Db.
    + exact Hab.
    + fold pofs in Ei. rewrite <- Ei. rewrite (ri_in _ _ _ _ I) by (split; [exact Hc|split; [apply Hr|left; apply Hr]]). unfold cellv. destruct (c <? cols).
      * pose proof (rv_bits r c) as B. unfold in_bits in B. change (2 ^ (8 - 1)) with 128 in B. change (it_lo s8) with (-128). change (it_hi s8) with 127. clear - B. lia.
      * change (it_lo s8) with (-128). change (it_hi s8) with 127. clear. lia.
    + rewrite (ri_out _ _ _ _ I) by exact N. apply T. exact Hi.
  - intros i Hi. apply (ri_out _ _ _ _ I). intros r c Hr Hc Ei. apply (Hi r c Hr Hc). rewrite poffset_ok; [|exact PL|exact Hr|clear - Hc Hab Hb; lia]. fold pofs. rewrite Ei. reflexivity.
Qed.
End Rows.
