(** TrMul with the floating-point x86 packing functions and kernels. *)
From Coq Require Import ZArith List Bool Lia SpecFloat.
From Verif Require Import Base SidePair Mat MatFacts Scalars FloatOps FloatFacts Pack SpecMatrix SpecMul PackFacts PackProps
  MulParams Kernel KernelFacts TrMul TrMulFacts TrMulMachine TrMulRun RunFacts RunBy X86Mul X86MulFacts MemcpyPackFacts
  SimdFloat PackFloatX86 PackFloatFacts KernelFloatX86 KernelFloatFacts KernelFloatProps FloatX86Mul SpecFloatX86.
Import ListNotations.
Open Scope Z_scope.

Record float_params (p : x86_path) (t : tparams spec_float) : Prop := {
  xf_ok : tparams_ok t;
  xf_kl : tp_kl t = mk_sp (float_layout p) (float_layout p);
  xf_ops : forall dbg s src q a b, run_pack dbg (tp_ops t) s (x86_width p) src q a b = run_pack dbg f32_ops s (x86_width p) src q a b;
  xf_rows : forall s, pl_rows (get s (tp_packed_layout t)) = ml_rows (m_layout (get s (tp_src t)));
  xf_pos : 1 <= pl_rows (get Lhs (tp_packed_layout t));
  xf_order : ml_order (tp_dst_layout t) = ColMajor;
  xf_stride : 4 * ml_stride (tp_dst_layout t) <= int_max;
  xf_bias : forall b, mp_bias (tp_mp t) = Some b -> pl_cols (get (channel_side (tp_mp t)) (tp_packed_layout t)) <= blen b
}.

Lemma pack_float_value : forall o x, pack_float 24 128 x = vector_read PathAvx RowMajor x /\ vector_read PathAvx2 o x = x /\ vector_read PathAvx512 o x = x /\ vector_read PathAvx ColMajor x = x.
Proof.
  intros o x. repeat split; try (destruct o, x; reflexivity). unfold pack_float. rewrite sub_zero. destruct x as [[]|[]| |[] m e]; reflexivity.
Qed.

Section FloatTrMul.
Variables (dbg fat : bool) (p : x86_path) (t : tparams spec_float).
Hypothesis X : float_params p t.
Let n := x86_width p.
Let src s := get s (tp_src t).
Let plt s := get s (tp_packed_layout t).
Let dl := tp_dst_layout t.
Let T := xf_ok _ _ X.

(** The packed value of row [r] of column [c] of a side. *)
Definition f_value (s : side) (r c : Z) : spec_float := vector_read p (ml_order (m_layout (get s (tp_src t)))) (ent (get s (tp_src t)) r c).

Definition f_column (m : tmem spec_float) (s : side) (c : Z) : Prop :=
  c < ml_cols (m_layout (src s)) ->
  forall r, 0 <= r < pl_rows (plt s) -> bdat (p_data (get s (tm_packed m))) (poff (plt s) r c) = f_value s r c.

Definition f_entry (i j : Z) (v : spec_float) : Prop :=
  v = kernel_value (float_scalars p) (f_value Lhs) (f_value Rhs) (pl_rows (plt Lhs)) (tp_mp t) i j.

Lemma fkl_side : forall s, get s (tp_kl t) = float_layout p.
Proof. intros s. rewrite (xf_kl _ _ X). destruct s; reflexivity. Qed.

Lemma fn_range : n = 8 \/ n = 16.
Proof. unfold n. destruct p; cbn; auto. Qed.

Lemma fpl_kernel : forall s, pl_kernel (plt s) = float_layout p.
Proof. intros s. unfold plt. rewrite (to_kernel _ _ T s). apply fkl_side. Qed.

Lemma one_row : forall s, one_row_layout (plt s).
Proof. intros s. unfold one_row_layout. rewrite fpl_kernel. split; reflexivity. Qed.

Lemma float_col_laws : packer_laws (float_col p) /\ fp_width (float_col p) = n.
Proof. unfold n. destruct p; (split; [|reflexivity]); [apply float_avx_laws|apply float_avx2_laws|apply float_avx512_laws]. Qed.

Lemma float_col_sum : forall s m zp k c, exists v, col_sum f32_ops s m zp k c = Ok v.
Proof.
  intros s m zp k c. unfold col_sum. destruct (Z_le_gt_dec 0 k) as [L|G].
  - destruct (forto_inv (fun _ _ => True) (fun row acc => o_sum_add f32_ops s acc (pval f32_ops s m zp row c)) 0 k (o_sum0 f32_ops s) L I) as (v & E & _); [|eauto].
    intros i a _ _. eexists. split; [reflexivity|exact I].
  - exists (o_sum0 f32_ops s). apply forto_empty. lia.
Qed.

(** One call of a packing function. *)
Lemma float_packs : forall s a b (pm : pmat spec_float), pmat_ok pm -> p_layout pm = plt s -> 0 <= a < b -> b <= pl_cols (plt s) -> a mod n = 0 -> b mod n = 0 ->
  exists q, float_run_pack dbg p (tp_ops t) s (src s) pm a b = Ok q /\ same_shape pm q /\
    (forall r c, 0 <= r < pl_rows (plt s) -> a <= c < b -> c < ml_cols (m_layout (src s)) -> bdat (p_data q) (poff (plt s) r c) = f_value s r c) /\
    (forall i, (forall r c, 0 <= r < pl_rows (plt s) -> a <= c < b -> i <> poff (plt s) r c) -> bdat (p_data q) i = bdat (p_data pm) i).
Proof.
  intros s a b pm PM EL Hab Hb Ha' Hb'. pose proof fn_range as N. assert (Np : 0 < n) by (clear - N; lia).
  pose proof (to_src _ _ T s) as MS. pose proof (to_cols _ _ T s) as C. pose proof (to_max _ _ T s) as MX. cbv beta in C, MX, MS.
  rewrite fkl_side in C, MX. cbn [float_layout kl_cols] in C, MX. fold n in C, MX. fold (src s) in MS, C, MX. fold (plt s) in C.
  pose proof (xf_rows _ _ X s) as ER. fold (src s) (plt s) in ER.
  assert (EK : kl_cols (pl_kernel (p_layout pm)) = n) by (rewrite EL, fpl_kernel; reflexivity).
  assert (Qa : a = a / n * n) by (pose proof (Z.div_mod a n ltac:(lia)); lia). assert (Qb : b = b / n * n) by (pose proof (Z.div_mod b n ltac:(lia)); lia).
  assert (Q0 : 0 <= a / n) by (apply Z.div_pos; lia). assert (Qab : a / n < b / n) by (clear - Qa Qb Hab Np; nia).
  assert (FV : forall r c v, v = ent (src s) r c -> vector_read p (ml_order (m_layout (src s))) v = v -> v = f_value s r c) by (intros r c v -> E; unfold f_value; fold (src s); congruence).
  unfold float_run_pack. destruct (ml_order (m_layout (src s))) eqn:Eo.
  - destruct float_col_laws as (LW & W).
    pose proof (pack_float_col_ok dbg fzero (float_col p) (src s) pm (a / n) (b / n) LW) as P. cbv zeta in P.
    rewrite EK, EL, W, <- Qa, <- Qb in P.
    destruct (P eq_refl MS Eo PM (one_row s) ER (proj2 C)) as (q & E & E1 & E2 & E3 & E4 & V1 & V2); try (clear - C MX N Q0 Qab Hb; lia). clear P.
    exists q. split; [exact E|]. split.
      * constructor; [congruence|assumption|assumption|congruence].
      * split; [|exact V2]. intros r c Hr Hc Hcc. rewrite V1 by assumption. apply FV.
        -- unfold fval. replace (c <? ml_cols (m_layout (src s))) with true by (clear - Hcc; lia). reflexivity.
        -- destruct p; apply pack_float_value; exact ColMajor.
  - assert (MC : p <> PathAvx -> exists q, memcpy_pack dbg fzero n (src s) pm a b = Ok q /\ same_shape pm q /\
      (forall r c, 0 <= r < pl_rows (plt s) -> a <= c < b -> c < ml_cols (m_layout (src s)) -> bdat (p_data q) (poff (plt s) r c) = f_value s r c) /\
      (forall i, (forall r c, 0 <= r < pl_rows (plt s) -> a <= c < b -> i <> poff (plt s) r c) -> bdat (p_data q) i = bdat (p_data pm) i)).
    { intros NP. pose proof (memcpy_pack_ok dbg fzero (src s) pm (a / n) (b / n)) as P. cbv zeta in P. rewrite EK, EL, <- Qa, <- Qb in P.
      destruct (P MS Eo PM (one_row s) ER (proj2 C)) as (q & E & E1 & E2 & E3 & E4 & V1 & V2); try (clear - C MX N Q0 Qab Hb; lia). clear P.
      exists q. split; [exact E|]. split.
        * constructor; [congruence|assumption|assumption|congruence].
        * split; [|exact V2]. intros r c Hr Hc Hcc. rewrite V1 by assumption. apply FV.
          -- unfold fval. replace (c <? ml_cols (m_layout (src s))) with true by (clear - Hcc; lia). reflexivity.
          -- destruct p; [congruence| |]; apply pack_float_value; exact ColMajor. }
    assert (DP : {p = PathAvx} + {p <> PathAvx}) by (clear; destruct p; (left; reflexivity) || (right; discriminate)).
    destruct DP as [EP|NP].
    2:{ destruct (MC NP) as (q & E & R). exists q. split; [|exact R]. rewrite <- E. unfold n. clear - NP. destruct p; congruence. }
    clear MC. assert (EM : forall q, run_pack dbg (tp_ops t) s n (src s) pm a b = Ok q ->
      match p with PathAvx => run_pack dbg (tp_ops t) s (x86_width p) (src s) pm a b | _ => memcpy_pack dbg fzero (x86_width p) (src s) pm a b end = Ok q) by (intros q <-; unfold n; clear - EP; rewrite EP; reflexivity).
    destruct (run_pack_ok dbg f32_ops s n (src s) pm a b MS PM (eq_sym EK)) as (q & E & SH & CD & [U1 _]).
    + clear - Hab. lia.
    + rewrite EL. exact Hb.
    + clear - C MX Hb. lia.
    + rewrite Zminus_mod, Ha', Hb'. apply Z.mod_0_l. clear - Np. lia.
    + intros c Hc. apply float_col_sum.
    + exists q. split; [apply EM; rewrite (xf_ops _ _ X); exact E|]. split; [exact SH|]. rewrite EL in U1. split; [|exact U1].
      intros r c Hr Hc Hcc. destruct (CD c Hc) as (CV & _). rewrite (ss_layout _ _ SH), EL in CV. rewrite (CV r Hr). unfold pval, f_value. fold (src s).
      rewrite ER in Hr. replace (_ && _) with true by (clear - Hr Hcc; lia). rewrite Eo, EP. apply (pack_float_value ColMajor).
Qed.

Lemma float_pack_ok : forall s a b m, tmem_ok t m -> 0 <= a < b -> b <= pl_cols (plt s) ->
  a mod kl_cols (get s (tp_kl t)) = 0 -> b mod kl_cols (get s (tp_kl t)) = 0 ->
  exists m', tm_pack_float dbg p t s a b m = Ok m' /\ tmem_ok t m' /\ (forall c, a <= c < b -> f_column m' s c) /\
    (forall s' c, 0 <= c < pl_cols (plt s') -> (s' <> s \/ ~ (a <= c < b)) -> f_column m s' c -> f_column m' s' c) /\
    tm_dst m' = tm_dst m.
Proof.
  intros s a b m M Hab Hb Ha' Hb'. rewrite fkl_side in Ha', Hb'. cbn [float_layout kl_cols] in Ha', Hb'. fold n in Ha', Hb'.
  pose proof (mm_l _ _ _ M s) as EL. pose proof (mm_p _ _ _ M s) as PM. cbv beta in EL. fold (plt s) in EL.
  destruct (float_packs s a b _ PM EL Hab Hb Ha' Hb') as (q & E & SH & V1 & V2). pose proof (pmat_ok_same _ _ SH PM) as PQ. destruct SH as [S1 S2 S3 S4].
  exists (set_packed m s q). split; [unfold tm_pack_float; fold (src s); rewrite E; reflexivity|].
  assert (GO : forall s', s' <> s -> get s' (tm_packed (set_packed m s q)) = get s' (tm_packed m)) by (intros s' Ne; destruct s, s'; try congruence; reflexivity).
  assert (SD : forall s' : side, {s' = s} + {s' <> s}) by (intros s'; destruct s, s'; (left; reflexivity) || (right; discriminate)).
  split; [|split; [|split]].
  - destruct M as [M1 M2 M3 M4 M5]. constructor; try exact M5.
    + intros s'. destruct (SD s') as [-> | Ne]; [rewrite get_set_packed_same; exact PQ|rewrite GO by exact Ne; apply M1].
    + intros s'. destruct (SD s') as [-> | Ne]; [rewrite get_set_packed_same, S1; apply M2|rewrite GO by exact Ne; apply M2].
    + intros s'. destruct (SD s') as [-> | Ne]; [rewrite get_set_packed_same, S2; apply M3|rewrite GO by exact Ne; apply M3].
    + intros s'. destruct (SD s') as [-> | Ne]; [|rewrite GO by exact Ne; apply M4]. rewrite get_set_packed_same. intros Hz EN. apply (M4 s Hz).
      rewrite EN in S4. destruct (p_sums (get s (tm_packed m))); [discriminate|reflexivity].
  - intros c Hc Hcc r Hr. rewrite get_set_packed_same. apply V1; assumption.
  - intros s' c Hc Hd PC Hcc r Hr. destruct (SD s') as [-> | Ne]; [|rewrite GO by exact Ne; apply PC; assumption].
    destruct Hd as [Ne|Hd]; [congruence|]. rewrite get_set_packed_same. rewrite V2; [apply PC; assumption|].
    intros r' c' Hr' Hc' EQ. pose proof (pmo_layout _ PM) as L. rewrite EL in L. apply poff_inj in EQ; try assumption; lia.
  - reflexivity.
Qed.

Lemma kernel_value_ext : forall fs lv lv' rv rv' d mp i j, (forall k, 0 <= k < d -> lv k i = lv' k i) -> (forall k, 0 <= k < d -> rv k j = rv' k j) ->
  @kernel_value spec_float fs lv rv d mp i j = kernel_value fs lv' rv' d mp i j.
Proof.
  intros fs lv lv' rv rv' d mp i j H1 H2. unfold kernel_value. do 2 f_equal. generalize (bias_value (fs_zero fs) mp i j).
  assert (H : forall k, In k (zrange 0 d) -> lv k i = lv' k i /\ rv k j = rv' k j) by (intros k Hk; apply zrange_In in Hk; auto). clear H1 H2. revert H.
  induction (zrange 0 d) as [|k ks IH]; intros H a; cbn [fold_left]; [reflexivity|]. destruct (H k (or_introl eq_refl)) as (-> & ->). apply IH. intros k' Hk. apply H. right. exact Hk.
Qed.

Lemma float_kernel_ok : forall start end_ m, tmem_ok t m ->
  (forall s, 0 <= get s start < get s end_) -> (forall s, get s end_ <= pl_cols (plt s)) ->
  (forall s, get s start mod kl_cols (get s (tp_kl t)) = 0) -> (forall s, get s end_ mod kl_cols (get s (tp_kl t)) = 0) ->
  (forall s c, get s start <= c < get s end_ -> f_column m s c) ->
  exists m', tm_kernel_float dbg fat p t start end_ m = Ok m' /\ tmem_ok t m' /\ (forall s c, f_column m s c -> f_column m' s c) /\
    computed dl f_entry (fun i j => lhs start <= i < lhs end_ /\ rhs start <= j < rhs end_ /\ inside dl i j) (tm_dst m) (tm_dst m').
Proof.
  intros start end_ m M H1 H2 H3 H4 PC. pose proof fn_range as N.
  assert (H3' : forall s, get s start mod n = 0) by (intros s; specialize (H3 s); rewrite fkl_side in H3; exact H3).
  assert (H4' : forall s, get s end_ mod n = 0) by (intros s; specialize (H4 s); rewrite fkl_side in H4; exact H4). clear H3 H4.
  pose proof (to_dst _ _ T) as DL. pose proof (to_drows _ _ T) as Dr. pose proof (to_dcols _ _ T) as Dc. cbv beta in Dr, Dc.
  assert (CL : forall s, ml_cols (m_layout (src s)) <= pl_cols (plt s) < ml_cols (m_layout (src s)) + n).
  { intros s. pose proof (to_cols _ _ T s) as C. cbv beta in C. rewrite fkl_side in C. exact C. }
  assert (CM : forall s, ml_cols (m_layout (src s)) + n <= int_max).
  { intros s. pose proof (to_max _ _ T s) as C. cbv beta in C. rewrite fkl_side in C. exact C. }
  fold (src Lhs) in Dr. fold (src Rhs) in Dc. fold dl in Dr, Dc, DL.
  pose proof (H1 Lhs) as HL. pose proof (H1 Rhs) as HR. pose proof (H2 Lhs) as HL2. pose proof (H2 Rhs) as HR2. pose proof (CL Lhs) as CLl. pose proof (CL Rhs) as CLr. cbn [get] in HL, HR, HL2, HR2.
  destruct (run_kernel_by_ok spec_float dbg (fun sr sc er ec dst =>
            kernel_float_x86 (float_scalars p) dbg (match p with PathAvx512 => true | _ => false end) (lhs (tm_packed m)) (rhs (tm_packed m)) (tp_mp t) sr sc er ec dl dst)
      n n dl f_entry (lhs start) (rhs start) (lhs end_) (rhs end_)) with (fat := fat) (d0 := tm_dst m) as (d & E & W).
  - exact DL.
  - clear - N. lia.
  - clear - N. lia.
  - rewrite Dr. apply CM.
  - rewrite Dc. apply CM.
  - exact HL.
  - clear - HL2 CLl Dr. lia.
  - apply (H3' Lhs).
  - apply (H4' Lhs).
  - exact HR.
  - clear - HR2 CLr Dc. lia.
  - apply (H3' Rhs).
  - apply (H4' Rhs).
  - intros r0 c0 r1 c1 d Hd Hr0 Hr1 Hc0 Hc1 A1 A2 A3 A4.
    pose proof (mm_l _ _ _ M) as EL. pose proof (EL Lhs) as E1. pose proof (EL Rhs) as E2. cbn [get] in E1, E2. change (lhs (tp_packed_layout t)) with (plt Lhs) in E1. change (rhs (tp_packed_layout t)) with (plt Rhs) in E2.
    assert (FS : forall s, float_side n (get s (tm_packed m))).
    { intros s. pose proof (EL s) as Es. cbv beta in Es. fold (plt s) in Es. constructor; [apply (mm_p _ _ _ M s)|rewrite Es; apply one_row|rewrite Es, fpl_kernel; reflexivity]. }
    assert (FC : float_call n (lhs (tm_packed m)) (rhs (tm_packed m)) (tp_mp t) r0 c0 r1 c1 dl).
    { constructor.
      - exact N.
      - apply (FS Lhs).
      - apply (FS Rhs).
      - rewrite E1, E2. apply (to_depth _ _ T).
      - rewrite E1. apply (xf_pos _ _ X).
      - exact DL.
      - apply (xf_order _ _ X).
      - apply (xf_stride _ _ X).
      - rewrite E1. clear - HL HL2 CLl Dr Hr0 Hr1 A1 A2. repeat split; try assumption; lia.
      - rewrite E2. clear - HR HR2 CLr Dc Hc0 Hc1 A3 A4. repeat split; try assumption; lia.
      - intros b Eb. pose proof (xf_bias _ _ X b Eb) as B. unfold channel_side in B. destruct (mp_chan (tp_mp t)).
        + fold (plt Lhs) in B. clear - B HL2 Hr1. lia.
        + fold (plt Rhs) in B. clear - B HR2 Hc1. lia. }
    destruct (kernel_float_computes spec_float (float_scalars p) dbg n _ _ _ _ _ _ _ _ FC (match p with PathAvx512 => true | _ => false end) d) as (d' & E' & B1 & B2 & B3); [unfold n; destruct p; reflexivity|exact Hd|].
    exists d'. split; [exact E'|]. split; [exact B1|]. split; [|exact B3].
    intros i j (Hi & Hj & I). unfold f_entry. rewrite (B2 i j (conj Hi (conj Hj I))). rewrite E1, E2. destruct I as (Ii & Ij).
    apply kernel_value_ext; intros k Hk.
    + apply (PC Lhs i); cbn [get]; try (clear - Hi Hr0 Hr1; lia); [rewrite <- Dr; apply Ii|exact Hk].
    + apply (PC Rhs j); cbn [get]; try (clear - Hj Hc0 Hc1; lia); [rewrite <- Dc; apply Ij|]. pose proof (to_depth _ _ T) as TD. cbv beta in TD. fold (plt Lhs) (plt Rhs) in TD. rewrite TD. exact Hk.
  - apply (mm_dst _ _ _ M).
  - exists {| tm_packed := tm_packed m; tm_dst := d |}. split; [unfold tm_kernel_float; fold dl; fold n; rewrite E; reflexivity|].
    split; [|split; [intros s c H; exact H|exact W]].
    destruct M as [M1 M2 M3 M4 M5]. constructor; try assumption. cbn [tm_dst]. destruct W as (W & _). rewrite W. exact M5.
Qed.

(** Any schedule. *)
Variable c : config.
Hypothesis D : trmul_domain c t.

Lemma float_trmul_ok : forall sched m, tmem_ok t m ->
  exists out, trmul_by (tm_pack_float dbg p t) (tm_kernel_float dbg fat p t) c t (mk_sp false false) sched m = Ok out /\
    forall m', out = Some m' -> tmem_ok t m' /\ computed dl f_entry (inside dl) (tm_dst m) (tm_dst m').
Proof.
  intros sched m M. destruct (trmul_by_ok spec_float t _ _ (tmem_ok t) f_column f_entry T float_pack_ok float_kernel_ok c (mk_sp false false) D sched m M) as (out & E & H).
  - intros [] x F; discriminate.
  - exists out. split; [exact E|]. intros m' Em. destruct (H m' Em) as (A & _ & B). auto.
Qed.

Lemma float_trmul_fair : forall sg N0 m, tmem_ok t m ->
  (forall i k, 0 <= i < c_max_threads c -> exists k', (k <= k')%nat /\ fst (sg k') = i) -> (forall k, (N0 <= k)%nat -> snd (sg k) = false) ->
  exists k m', trmul_by (tm_pack_float dbg p t) (tm_kernel_float dbg fat p t) c t (mk_sp false false) (map sg (seq 0 k)) m = Ok (Some m').
Proof.
  intros sg N0 m M FA VI. apply (trmul_by_fair spec_float t _ _ (tmem_ok t) f_column f_entry T float_pack_ok float_kernel_ok c (mk_sp false false) D sg N0 m M); try assumption.
  intros [] x F; discriminate.
Qed.
End FloatTrMul.
