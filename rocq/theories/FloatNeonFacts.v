(** TrMul with the floating-point AArch64 packing functions and kernels. *)
From Coq Require Import ZArith List Bool Lia SpecFloat.
From Verif Require Import Base SidePair Mat MatFacts Scalars IntOps FloatOps FloatFacts FloatWords FloatWordsFacts Pack SpecArith SpecMatrix SpecMul SpecPack PackFacts PackProps
  MulParams Kernel KernelFacts TrMul TrMulFacts TrMulMachine TrMulRun RunFacts RunBy X86MulFacts MemcpyPackFacts SpecPackX86
  SimdFloat PackFloatX86 PackFloatFacts KernelFloatX86 KernelFloatFacts KernelFloatProps NeonPack SpecPackNeon NeonPackFacts NeonPackProps CpuInfo Tune KernelFloatNeon SpecFloatNeon KernelFloatNeonProps FloatNeonMul.
Import ListNotations.
Open Scope Z_scope.

(** ** Words *)
Lemma word_mod : forall w w', w mod 2 ^ 32 = w' mod 2 ^ 32 -> float_of_word w = float_of_word w'.
Proof.
  intros w w' E. assert (S : forall x, float_of_word x = float_of_word (x mod 2 ^ 32)); [|rewrite (S w), (S w'), E; reflexivity].
  intros x. unfold float_of_word. pose proof (Z.div_mod x (2 ^ 32) ltac:(lia)) as D. set (q := x / 2 ^ 32) in *. set (y := x mod 2 ^ 32) in *. clearbody q y. rewrite D.
  assert (E1 : (2 ^ 32 * q + y) / 2 ^ 31 = y / 2 ^ 31 + 2 * q) by (replace (2 ^ 32 * q + y) with (y + 2 * q * 2 ^ 31) by ring; apply Z.div_add; lia).
  assert (E2 : (2 ^ 32 * q + y) / 2 ^ 23 = y / 2 ^ 23 + 2 * q * 2 ^ 8) by (replace (2 ^ 32 * q + y) with (y + 2 * q * 2 ^ 8 * 2 ^ 23) by ring; apply Z.div_add; lia).
  assert (E3 : (2 ^ 32 * q + y) mod 2 ^ 23 = y mod 2 ^ 23) by (replace (2 ^ 32 * q + y) with (y + 2 ^ 9 * q * 2 ^ 23) by ring; apply Z.mod_add; lia).
  rewrite E1, E2, E3, Z.mod_add by lia. rewrite Z.odd_add_mul_2. reflexivity.
Qed.

Lemma wrapped_mod : forall z, wrap_s 32 z mod 2 ^ 32 = z mod 2 ^ 32.
Proof. intros z. apply Base.wrap_s_mod. lia. Qed.

Lemma word_float : forall x, is_float x -> float_of_word (wrap_s 32 (word_of_float x)) = x.
Proof. intros x H. rewrite (word_mod _ (word_of_float x)) by apply wrapped_mod. apply word_round_trip, H. Qed.

(** ** Packing *)
Lemma found : forall (P : Z -> Prop) a b, (forall x, {P x} + {~ P x}) -> (exists x, a <= x < b /\ P x) \/ (forall x, a <= x < b -> ~ P x).
Proof.
  intros P a b Dec. destruct (Exists_dec P (zrange a b) Dec) as [H|H].
  - left. apply Exists_exists in H. destruct H as (x & Hx & H). apply zrange_In in Hx. eauto.
  - right. intros x Hx Px. apply H. apply Exists_exists. exists x. split; [apply zrange_In; exact Hx|exact Px].
Qed.

Lemma cell_or_not : forall l rows a b i, (exists r c, 0 <= r < rows /\ a <= c < b /\ i = poff l r c) \/ (forall r c, 0 <= r < rows -> a <= c < b -> i <> poff l r c).
Proof.
  intros l rows a b i. assert (D1 : forall r, {exists c, a <= c < b /\ i = poff l r c} + {~ exists c, a <= c < b /\ i = poff l r c}).
  { intros r. destruct (Exists_dec (fun c => i = poff l r c) (zrange a b) (fun c => Z.eq_dec _ _)) as [H|H].
    - left. apply Exists_exists in H. destruct H as (c & Hc & H). apply zrange_In in Hc. eauto.
    - right. intros (c & Hc & E). apply H. apply Exists_exists. exists c. split; [apply zrange_In; exact Hc|exact E]. }
  destruct (found _ 0 rows D1) as [(r & Hr & c & Hc & E)|H]; [left; eauto 6|right]. intros r c Hr Hc E. apply (H r Hr). eauto.
Qed.

Lemma typed_words : forall b, typed s32 (words b).
Proof. intros b i _. exact (wrap_s_range 32 (word_of_float (bdat b i)) ltac:(lia)). Qed.

Lemma matrix_valid : forall {V} (m : mat V), mat_ok m -> valid_matrix m.
Proof.
  intros V m [[H1 H2 H3 H4] H5]. unfold valid_matrix, valid_layout, inner_size, outer_size. unfold flat in H5. repeat split; try assumption; destruct (ml_order (m_layout m)); try assumption; lia.
Qed.

Record neon_tparams (t : tparams spec_float) : Prop := {
  nt_ok : tparams_ok t;
  nt_kl : tp_kl t = mk_sp neon_layout neon_layout;
  nt_rows : forall s, pl_rows (get s (tp_packed_layout t)) = ml_rows (m_layout (get s (tp_src t)));
  nt_pos : 1 <= pl_rows (get Lhs (tp_packed_layout t));
  nt_order : ml_order (tp_dst_layout t) = ColMajor;
  nt_stride : 4 * ml_stride (tp_dst_layout t) <= int_max;
  nt_bias : forall b, mp_bias (tp_mp t) = Some b -> pl_cols (get (channel_side (tp_mp t)) (tp_packed_layout t)) <= blen b;
  nt_fits : forall s, ml_order (m_layout (get s (tp_src t))) = ColMajor -> ml_stride (m_layout (get s (tp_src t))) * (pl_cols (get s (tp_packed_layout t)) - 4) <= int_max;
  nt_src : forall s, all_floats (m_data (get s (tp_src t)));
  nt_biases : forall b, mp_bias (tp_mp t) = Some b -> all_floats b;
  nt_min : is_float (mp_min (tp_mp t));
  nt_max : is_float (mp_max (tp_mp t))
}.

Section NeonTrMul.
Variables (dbg fat dotprod : bool) (ci : circumstances) (t : tparams spec_float).
Hypothesis X : neon_tparams t.
Let src s := get s (tp_src t).
Let plt s := get s (tp_packed_layout t).
Let dl := tp_dst_layout t.
Let T := nt_ok _ X.

Definition n_column (m : tmem spec_float) (s : side) (c : Z) : Prop :=
  c < ml_cols (m_layout (src s)) ->
  forall r, 0 <= r < pl_rows (plt s) -> bdat (p_data (get s (tm_packed m))) (poff (plt s) r c) = ent (src s) r c.

(** For some tuning that occurs. *)
Definition n_entry (i j : Z) (v : spec_float) : Prop :=
  exists a b, v = neon_value (ci_tuning ci a b) (ent (src Lhs)) (ent (src Rhs)) (pl_rows (plt Lhs)) (tp_mp t) i j.

Definition n_memory (m : tmem spec_float) : Prop :=
  tmem_ok t m /\ (forall s, all_floats (p_data (get s (tm_packed m)))) /\ all_floats (tm_dst m).

Lemma nkl_side : forall s, get s (tp_kl t) = neon_layout.
Proof. intros s. rewrite (nt_kl _ X). destruct s; reflexivity. Qed.
Lemma npl_kernel : forall s, pl_kernel (plt s) = neon_layout.
Proof. intros s. unfold plt. rewrite (to_kernel _ _ T s). apply nkl_side. Qed.
Lemma n_one_row : forall s, one_row_layout (plt s).
Proof. intros s. unfold one_row_layout. rewrite npl_kernel. split; reflexivity. Qed.

(** One call of a packing function. *)
Lemma neon_packs : forall tu gs s a b (pm : pmat spec_float), pmat_ok pm -> p_layout pm = plt s -> all_floats (p_data pm) -> 0 <= a < b -> b <= pl_cols (plt s) -> a mod 8 = 0 -> b mod 8 = 0 ->
  exists q, neon_run_pack dbg tu gs (src s) pm a b = Ok q /\ same_shape pm q /\ all_floats (p_data q) /\
    (forall r c, 0 <= r < pl_rows (plt s) -> a <= c < b -> c < ml_cols (m_layout (src s)) -> bdat (p_data q) (poff (plt s) r c) = ent (src s) r c) /\
    (forall i, (forall r c, 0 <= r < pl_rows (plt s) -> a <= c < b -> i <> poff (plt s) r c) -> bdat (p_data q) i = bdat (p_data pm) i).
Proof.
  intros tu gs s a b pm PM EL FP Hab Hb Ha' Hb'.
  pose proof (to_src _ _ T s) as MS. pose proof (to_cols _ _ T s) as C. pose proof (to_max _ _ T s) as MX. cbv beta in C, MX, MS.
  rewrite nkl_side in C, MX. cbn [neon_layout kl_cols] in C, MX. fold (src s) in MS, C, MX. fold (plt s) in C.
  pose proof (nt_rows _ X s) as ER. fold (src s) (plt s) in ER. pose proof (nt_src _ X s) as FS. fold (src s) in FS.
  assert (EK : kl_cols (pl_kernel (p_layout pm)) = 8) by (rewrite EL, npl_kernel; reflexivity).
  assert (Qa : a = a / 8 * 8) by (pose proof (Z.div_mod a 8 ltac:(lia)); lia). assert (Qb : b = b / 8 * 8) by (pose proof (Z.div_mod b 8 ltac:(lia)); lia).
  unfold neon_run_pack. destruct (ml_order (m_layout (src s))) eqn:Eo.
  - assert (NC : neon_call floats_1x8 s32 s32 (mat_words (src s)) (pmat_words pm) a b).
    { pose proof (pmo_layout _ PM) as PL. rewrite EL in PL. destruct PL as [_ _ P3 P4 _ P6 P7 P8 P9].
      assert (V0 : valid_matrix (mat_words (src s))) by (pose proof (matrix_valid _ MS) as V0; exact V0).
      split; [exact V0|]. split; [exact Eo|]. split.
      { split; [|split].
        - cbn [pmat_words p_layout mat_words m_layout]. rewrite EL. unfold packed_layout_of. rewrite npl_kernel. change (kl_rows floats_1x8) with 1. change (kl_cols floats_1x8) with 8.
          assert (G1 : 1 <= pl_rows (plt s)). { pose proof (nt_pos _ X) as G1. pose proof (to_depth _ _ T) as TD. cbv beta in TD. unfold plt. clear - G1 TD. destruct s; lia. }
          rewrite npl_kernel in P6. change (kl_cols neon_layout) with 8 in P6.
          assert (Gc : pl_cols (plt s) <= int_max) by (clear - C MX; lia). assert (Gr : pl_rows (plt s) <= int_max).
          { rewrite ER. pose proof (mo_layout _ MS) as [L1 L2 L3 L4]. rewrite Eo in L3, L4. clear - L1 L3 L4 C Hab Hb Hb' Ha'.
            assert (1 <= ml_cols (m_layout (src s))) by lia. nia. }
          split; [reflexivity|]. split; [exact P7|]. split; [exact P8|]. split; [split; [exists (pl_rows (plt s)); ring|rewrite ER; lia]|].
          split; [split; [apply Z.mod_divide; [lia|exact P6]|clear - C; lia]|]. auto.
        - cbn [pmat_words p_layout p_data words blen]. apply (pmo_len _ PM).
        - discriminate. }
      split; [reflexivity|]. split; [intros _; split; reflexivity|]. split; [apply typed_words|]. split; [discriminate|].
      change (kl_cols floats_1x8) with 8. cbn [pmat_words p_layout]. rewrite EL. split; [lia|]. split; [exact Hb|]. split; apply Z.mod_divide; (lia || assumption). }
    assert (BF : kl_cols floats_1x8 = 8 -> blocks_fit (mat_words (src s)) b).
    { intros _. unfold blocks_fit. cbn [mat_words m_layout]. pose proof (nt_fits _ X s Eo) as F. fold (src s) (plt s) in F.
      eapply Z.le_trans; [|exact F]. pose proof (mo_layout _ MS) as [L1 L2 L3 L4]. rewrite Eo in L3. apply Z.mul_le_mono_nonneg_l; lia. }
    destruct (loop_done dbg neon_float floats_1x8 s32 s32 (is_a55ish tu) gs _ _ a b ltac:(right; right; repeat split) NC BF) as (q & E & [(S1 & S2 & S3) TY V Rs Su]).
    cbn [pmat_words p_layout p_data p_zp words blen bdat] in S1, S2, S3, V, Rs. rewrite EL in V, Rs.
    rewrite E. cbn [bind]. exists (pmat_floats pm q). split; [reflexivity|]. split; [constructor; [exact S1|reflexivity|exact S3|reflexivity]|].
    split; [intros i; apply float_word_valid|]. cbn [pmat_floats p_data bdat]. split.
    + intros r c Hr Hc Hcc. rewrite V by assumption. unfold filled_value. cbn [mat_words m_layout]. rewrite ER in Hr.
      replace ((r <? ml_rows (m_layout (src s))) && (c <? ml_cols (m_layout (src s)))) with true by (symmetry; apply andb_true_iff; split; apply Z.ltb_lt; lia).
      change (middle s32) with 0. rewrite Z.sub_0_r. change (it_conv s32) with (wrap_s 32).
      unfold entry. cbn [mat_words m_data m_layout words bdat]. rewrite position_off.
      rewrite (word_mod _ (word_of_float (bdat (m_data (src s)) (off (m_layout (src s)) r c)))) by (rewrite !wrapped_mod; reflexivity). apply word_round_trip, FS.
    + intros i Hi. rewrite Rs by exact Hi. apply word_float, FP.
  - pose proof (memcpy_pack_ok dbg fzero (src s) pm (a / 8) (b / 8)) as P. cbv zeta in P. rewrite EK, EL, <- Qa, <- Qb in P.
    destruct (P MS Eo PM (n_one_row s) ER (proj2 C)) as (q & E & E1 & E2 & E3 & E4 & V1 & V2); try lia. clear P.
    exists q. split; [exact E|]. split; [constructor; [congruence|assumption|assumption|congruence]|]. split; [|split; [|exact V2]].
    + intros i. destruct (cell_or_not (plt s) (pl_rows (plt s)) a b i) as [(r & c & Hr & Hc & ->)|H]; [|rewrite V2 by exact H; apply FP].
      rewrite V1 by assumption. unfold fval. destruct (_ <? _); [apply FS|reflexivity].
    + intros r c Hr Hc Hcc. rewrite V1 by assumption. unfold fval. replace (c <? ml_cols (m_layout (src s))) with true by (clear - Hcc; lia). reflexivity.
Qed.

Lemma neon_pack_ok : forall s a b m, n_memory m -> 0 <= a < b -> b <= pl_cols (plt s) ->
  a mod kl_cols (get s (tp_kl t)) = 0 -> b mod kl_cols (get s (tp_kl t)) = 0 ->
  exists m', tm_pack_neon dbg ci t s a b m = Ok m' /\ n_memory m' /\ (forall c, a <= c < b -> n_column m' s c) /\
    (forall s' c, 0 <= c < pl_cols (plt s') -> (s' <> s \/ ~ (a <= c < b)) -> n_column m s' c -> n_column m' s' c) /\
    tm_dst m' = tm_dst m.
Proof.
  intros s a b m (M & FM & FD) Hab Hb Ha' Hb'. rewrite nkl_side in Ha', Hb'. cbn [neon_layout kl_cols] in Ha', Hb'.
  pose proof (mm_l _ _ _ M s) as EL. pose proof (mm_p _ _ _ M s) as PM. cbv beta in EL. fold (plt s) in EL.
  destruct (neon_packs (ci_pack_tuning ci s a) (ci_pack_regs ci s a) s a b _ PM EL (FM s) Hab Hb Ha' Hb') as (q & E & SH & FQ & V1 & V2). pose proof (pmat_ok_same _ _ SH PM) as PQ. destruct SH as [S1 S2 S3 S4].
  exists (set_packed m s q). split; [unfold tm_pack_neon; fold (src s); rewrite E; reflexivity|].
  assert (GO : forall s', s' <> s -> get s' (tm_packed (set_packed m s q)) = get s' (tm_packed m)) by (intros s' Ne; destruct s, s'; try congruence; reflexivity).
  assert (SD : forall s' : side, {s' = s} + {s' <> s}) by (intros s'; destruct s, s'; (left; reflexivity) || (right; discriminate)).
  split; [split; [|split; [|exact FD]]|split; [|split]].
  - destruct M as [M1 M2 M3 M4 M5]. constructor; try exact M5.
    + intros s'. destruct (SD s') as [-> | Ne]; [rewrite get_set_packed_same; exact PQ|rewrite GO by exact Ne; apply M1].
    + intros s'. destruct (SD s') as [-> | Ne]; [rewrite get_set_packed_same, S1; apply M2|rewrite GO by exact Ne; apply M2].
    + intros s'. destruct (SD s') as [-> | Ne]; [rewrite get_set_packed_same, S2; apply M3|rewrite GO by exact Ne; apply M3].
    + intros s'. destruct (SD s') as [-> | Ne]; [|rewrite GO by exact Ne; apply M4]. rewrite get_set_packed_same. intros Hz EN. apply (M4 s Hz).
      rewrite EN in S4. destruct (p_sums (get s (tm_packed m))); [discriminate|reflexivity].
  - intros s'. destruct (SD s') as [-> | Ne]; [rewrite get_set_packed_same; exact FQ|rewrite GO by exact Ne; apply FM].
  - intros c Hc Hcc r Hr. rewrite get_set_packed_same. apply V1; assumption.
  - intros s' c Hc Hd PC Hcc r Hr. destruct (SD s') as [-> | Ne]; [|rewrite GO by exact Ne; apply PC; assumption].
    destruct Hd as [Ne|Hd]; [congruence|]. rewrite get_set_packed_same. rewrite V2; [apply PC; assumption|].
    intros r' c' Hr' Hc' EQ. pose proof (pmo_layout _ PM) as L. rewrite EL in L. apply poff_inj in EQ; try assumption; lia.
  - reflexivity.
Qed.

Lemma order_in : forall tu d i j k, 0 <= d -> In k (neon_order tu d i j) -> 0 <= k < d.
Proof.
  intros tu d i j k Hd H. unfold neon_order in H. destruct (unrolled tu && (8 <=? d) && _) eqn:Eb; [|apply zrange_In in H; exact H].
  apply andb_true_iff in Eb. destruct Eb as (Eb & _). apply andb_true_iff in Eb. destruct Eb as (_ & Eb). apply Z.leb_le in Eb.
  pose proof (Z.div_mod d 4 ltac:(lia)) as D4. pose proof (Z.mod_pos_bound d 4 ltac:(lia)) as M4.
  apply in_app_or in H. destruct H as [H|H]; [apply zrange_In in H; lia|]. apply in_app_or in H. destruct H as [H|H]; [|apply zrange_In in H; lia].
  cbn [In] in H. lia.
Qed.

Lemma neon_value_ext : forall tu lv lv' rv rv' d mp i j, 0 <= d -> (forall k, 0 <= k < d -> lv k i = lv' k i) -> (forall k, 0 <= k < d -> rv k j = rv' k j) ->
  neon_value tu lv rv d mp i j = neon_value tu lv' rv' d mp i j.
Proof.
  intros tu lv lv' rv rv' d mp i j Hd H1 H2. unfold neon_value, neon_dot. f_equal. pose proof (fun k => order_in tu d i j k Hd) as HO. generalize (S754_zero false). revert HO.
  induction (neon_order tu d i j) as [|k ks IH]; intros HO a; cbn [fold_left]; [reflexivity|]. rewrite H1, H2 by (apply HO; left; reflexivity). apply IH. intros k' Hk. apply HO. right. exact Hk.
Qed.

Lemma neon_kernel_ok : forall start end_ m, n_memory m ->
  (forall s, 0 <= get s start < get s end_) -> (forall s, get s end_ <= pl_cols (plt s)) ->
  (forall s, get s start mod kl_cols (get s (tp_kl t)) = 0) -> (forall s, get s end_ mod kl_cols (get s (tp_kl t)) = 0) ->
  (forall s c, get s start <= c < get s end_ -> n_column m s c) ->
  exists m', tm_kernel_neon dbg fat dotprod ci t start end_ m = Ok m' /\ n_memory m' /\ (forall s c, n_column m s c -> n_column m' s c) /\
    computed dl n_entry (fun i j => lhs start <= i < lhs end_ /\ rhs start <= j < rhs end_ /\ inside dl i j) (tm_dst m) (tm_dst m').
Proof.
  intros start end_ m (M & FM & FD) H1 H2 H3 H4 PC.
  assert (H3' : forall s, get s start mod 8 = 0) by (intros s; specialize (H3 s); rewrite nkl_side in H3; exact H3).
  assert (H4' : forall s, get s end_ mod 8 = 0) by (intros s; specialize (H4 s); rewrite nkl_side in H4; exact H4). clear H3 H4.
  pose proof (to_dst _ _ T) as DL. pose proof (to_drows _ _ T) as Dr. pose proof (to_dcols _ _ T) as Dc. cbv beta in Dr, Dc.
  assert (CL : forall s, ml_cols (m_layout (src s)) <= pl_cols (plt s) < ml_cols (m_layout (src s)) + 8).
  { intros s. pose proof (to_cols _ _ T s) as C. cbv beta in C. rewrite nkl_side in C. exact C. }
  assert (CM : forall s, ml_cols (m_layout (src s)) + 8 <= int_max).
  { intros s. pose proof (to_max _ _ T s) as C. cbv beta in C. rewrite nkl_side in C. exact C. }
  fold (src Lhs) in Dr. fold (src Rhs) in Dc. fold dl in Dr, Dc, DL.
  pose proof (H1 Lhs) as HL. pose proof (H1 Rhs) as HR. pose proof (H2 Lhs) as HL2. pose proof (H2 Rhs) as HR2. pose proof (CL Lhs) as CLl. pose proof (CL Rhs) as CLr. cbn [get] in HL, HR, HL2, HR2.
  destruct (run_kernel_by_keeps spec_float dbg (fun sr sc er ec dst =>
            kernel_float_neon dbg dotprod (ci_tuning ci (lhs start) (rhs start)) (ci_regs ci sr sc) (ci_tmp ci sr sc) (lhs (tm_packed m)) (rhs (tm_packed m)) (tp_mp t) sr sc er ec dl dst)
      8 8 dl all_floats n_entry (lhs start) (rhs start) (lhs end_) (rhs end_)) with (fat := fat) (d0 := tm_dst m) as (d & E & FD' & W).
  - exact DL.
  - lia.
  - lia.
  - rewrite Dr. apply CM.
  - rewrite Dc. apply CM.
  - exact HL.
  - clear - HL2 CLl Dr. lia.
  - apply (H3' Lhs).
  - apply (H4' Lhs).
  - exact HR.
  - clear - HR2 CLr Dc. lia.
  - apply (H3' Rhs).
  - apply (H4' Rhs).
  - intros r0 c0 r1 c1 d Hd Fd Hr0 Hr1 Hc0 Hc1 A1 A2 A3 A4.
    pose proof (mm_l _ _ _ M) as EL. pose proof (EL Lhs) as E1. pose proof (EL Rhs) as E2. cbn [get] in E1, E2. change (lhs (tp_packed_layout t)) with (plt Lhs) in E1. change (rhs (tp_packed_layout t)) with (plt Rhs) in E2.
    assert (FS : forall s, float_side 8 (get s (tm_packed m))).
    { intros s. pose proof (EL s) as Es. cbv beta in Es. fold (plt s) in Es. constructor; [apply (mm_p _ _ _ M s)|rewrite Es; apply n_one_row|rewrite Es, npl_kernel; reflexivity]. }
    assert (FC : float_call 8 (lhs (tm_packed m)) (rhs (tm_packed m)) (tp_mp t) r0 c0 r1 c1 dl).
    { constructor.
      - left. reflexivity.
      - apply (FS Lhs).
      - apply (FS Rhs).
      - rewrite E1, E2. apply (to_depth _ _ T).
      - rewrite E1. apply (nt_pos _ X).
      - exact DL.
      - apply (nt_order _ X).
      - apply (nt_stride _ X).
      - rewrite E1. clear - HL HL2 CLl Dr Hr0 Hr1 A1 A2. repeat split; try assumption; lia.
      - rewrite E2. clear - HR HR2 CLr Dc Hc0 Hc1 A3 A4. repeat split; try assumption; lia.
      - intros b Eb. pose proof (nt_bias _ X b Eb) as B. unfold channel_side in B. destruct (mp_chan (tp_mp t)).
        + fold (plt Lhs) in B. clear - B HL2 Hr1. lia.
        + fold (plt Rhs) in B. clear - B HR2 Hc1. lia. }
    assert (FA : float_args (lhs (tm_packed m)) (rhs (tm_packed m)) (tp_mp t)).
    { constructor; [apply (FM Lhs)|apply (FM Rhs)|apply (nt_biases _ X)|apply (nt_min _ X)|apply (nt_max _ X)]. }
    destruct (kernel_neon_computes dbg dotprod (ci_tuning ci (lhs start) (rhs start)) (ci_regs ci r0 c0) (ci_tmp ci r0 c0) _ _ _ _ _ _ _ _ FC FA d Hd Fd) as (d' & E' & Fd' & B1 & B2 & B3).
    exists d'. split; [exact E'|]. split; [exact Fd'|]. split; [exact B1|]. split; [|exact B3].
    intros i j (Hi & Hj & I). exists (lhs start), (rhs start). rewrite (B2 i j (conj Hi (conj Hj I))). rewrite E1, E2. destruct I as (Ii & Ij).
    pose proof (nt_pos _ X) as GP. cbn [get] in GP. change (lhs (tp_packed_layout t)) with (plt Lhs) in GP.
    apply neon_value_ext; [clear - GP; lia| |]; intros k Hk.
    + apply (PC Lhs i); cbn [get]; try (clear - Hi Hr0 Hr1; lia); [rewrite <- Dr; apply Ii|exact Hk].
    + apply (PC Rhs j); cbn [get]; try (clear - Hj Hc0 Hc1; lia); [rewrite <- Dc; apply Ij|]. pose proof (to_depth _ _ T) as TD. cbv beta in TD. fold (plt Lhs) (plt Rhs) in TD. rewrite TD. exact Hk.
  - apply (mm_dst _ _ _ M).
  - exact FD.
  - exists {| tm_packed := tm_packed m; tm_dst := d |}. split; [unfold tm_kernel_neon; fold dl; rewrite E; reflexivity|].
    split; [|split; [intros s c H; exact H|exact W]]. split; [|split; [exact FM|exact FD']].
    destruct M as [M1 M2 M3 M4 M5]. constructor; try assumption. cbn [tm_dst]. destruct W as (W & _). rewrite W. exact M5.
Qed.

(** Any schedule. *)
Variable c : config.
Hypothesis D : trmul_domain c t.

Lemma neon_trmul_ok : forall sched m, n_memory m ->
  exists out, trmul_by (tm_pack_neon dbg ci t) (tm_kernel_neon dbg fat dotprod ci t) c t (mk_sp false false) sched m = Ok out /\
    forall m', out = Some m' -> n_memory m' /\ computed dl n_entry (inside dl) (tm_dst m) (tm_dst m').
Proof.
  intros sched m M. destruct (trmul_by_ok spec_float t _ _ n_memory n_column n_entry T neon_pack_ok neon_kernel_ok c (mk_sp false false) D sched m M) as (out & E & H).
  - intros [] x F; discriminate.
  - exists out. split; [exact E|]. intros m' Em. destruct (H m' Em) as (A & _ & B). auto.
Qed.

Lemma neon_trmul_fair : forall sg N0 m, n_memory m ->
  (forall i k, 0 <= i < c_max_threads c -> exists k', (k <= k')%nat /\ fst (sg k') = i) -> (forall k, (N0 <= k)%nat -> snd (sg k) = false) ->
  exists k m', trmul_by (tm_pack_neon dbg ci t) (tm_kernel_neon dbg fat dotprod ci t) c t (mk_sp false false) (map sg (seq 0 k)) m = Ok (Some m').
Proof.
  intros sg N0 m M FA VI. apply (trmul_by_fair spec_float t _ _ n_memory n_column n_entry T neon_pack_ok neon_kernel_ok c (mk_sp false false) D sg N0 m M); try assumption.
  intros [] x F; discriminate.
Qed.
End NeonTrMul.
