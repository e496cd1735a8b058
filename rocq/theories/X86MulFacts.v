(** TrMul with the x86 packing functions and kernels. *)
From Coq Require Import ZArith List Bool Lia.
From Verif Require Import Base SidePair Mat MatFacts Scalars IntOps Pack SpecArith SpecRound SpecMatrix SpecPack SpecMul SpecKernel PackFacts PackProps
  MulParams Kernel KernelFacts PackX86 SpecPackX86 PackX86Portable Kernel8bit Kernel8bitAvx Kernel8bitBad TrMul TrMulFacts TrMulMachine TrMulRun RunFacts RunBy X86Mul X86PackFacts.
Import ListNotations.
Open Scope Z_scope.

(** The side along which the channels run. *)
Definition channel_side {V} (mp : mul_params V) : side := match mp_chan mp with ChRow => Lhs | ChCol => Rhs end.

Record x86_params (p : x86_path) (st : sp ity) (dt : ity) (t : tparams Z) : Prop := {
  xp_ok : tparams_ok t;
  xp_kl : tp_kl t = mk_sp (x86_layout p) (x86_layout p);
  xp_kernel : x86_has_kernel p (x86_packed (lhs st)) (x86_packed (rhs st)) = true;
  xp_source : forall s, x86_source (get s st);
  xp_ops : forall dbg dbg' s src q a b, run_pack dbg (tp_ops t) s (x86_width p) src q a b =
    run_pack dbg (int_ops checked dbg' st (x86_packed_types st) dt) s (x86_width p) src q a b;
  xp_rows : forall s, is_round_up (ml_rows (m_layout (get s (tp_src t)))) 4 (pl_rows (get s (tp_packed_layout t)));
  xp_zp : forall s, it_lo (get s st) <= m_zp (get s (tp_src t)) <= it_hi (get s st) /\
    get s (tp_packed_zp t) = it_conv (x86_packed (get s st)) (m_zp (get s (tp_src t)) - middle (get s st));
  xp_max : forall s, pl_rows (get s (tp_packed_layout t)) * max_abs (x86_packed (get s st)) <= int_max;
  xp_dst : dt = u8 \/ dt = s8 \/ dt = s16 \/ dt = s32;
  xp_order : ml_order (tp_dst_layout t) = ColMajor;
  xp_mp : params_cover dt (tp_mp t) (pl_cols (get (channel_side (tp_mp t)) (tp_packed_layout t)));
  xp_bounds : it_lo dt <= mp_min (tp_mp t) <= it_hi dt /\ it_lo dt <= mp_max (tp_mp t) <= it_hi dt;
  xp_dst_bytes : x86_width p * (it_bits dt / 8 * ml_stride (tp_dst_layout t)) <= int_max;
  xp_prod : is_i32 (lhs (tp_packed_zp t) * rhs (tp_packed_zp t)) /\
    is_i32 (lhs (tp_packed_zp t) * rhs (tp_packed_zp t) * pl_rows (get Lhs (tp_packed_layout t)))
}.

Lemma max_abs_pos : forall st, x86_source st -> 127 <= max_abs (x86_packed st).
Proof. intros st [-> | [-> | ->]]; cbv; discriminate. Qed.

Section X86TrMul.
Variables (dbg fat : bool) (p : x86_path) (st : sp ity) (dt : ity) (t : tparams Z).
Hypothesis X : x86_params p st dt t.
Let n := x86_width p.
Let pt s := x86_packed (get s st).
Let src s := get s (tp_src t).
Let plt s := get s (tp_packed_layout t).
Let zp s := get s (tp_packed_zp t).
Let dl := tp_dst_layout t.
Let T := xp_ok _ _ _ _ X.

(** The packed value of row [r] of column [c] of a side, and of the sum of the column. *)
Definition x86_value (s : side) (r c : Z) : Z := packed_value (get s st) (pt s) (src s) (zp s) r c.

Definition x86_mem (m : tmem Z) : Prop :=
  tmem_ok t m /\ (forall s, typed (pt s) (p_data (get s (tm_packed m)))) /\ (forall s, p_sums (get s (tm_packed m)) <> None).

Definition x86_column (m : tmem Z) (s : side) (c : Z) : Prop :=
  c < ml_cols (m_layout (src s)) ->
  (forall r, 0 <= r < pl_rows (plt s) -> pelement false (get s (tm_packed m)) r c = Ok (x86_value s r c)) /\
  (forall b, p_sums (get s (tm_packed m)) = Some b ->
     bdat b c = wrap_s 32 (zsum (map (fun r => x86_value s r c) (zrange 0 (pl_rows (plt s)))))).

Definition x86_entry (i j v : Z) : Prop :=
  vector_result dt (tp_mp t) (tp_dst_zp t) i j
    (exact_accumulator (pl_rows (plt Lhs)) (zp Lhs) (zp Rhs) (x86_value Lhs) (x86_value Rhs) (tp_mp t) i j) v.

Lemma kl_side : forall s, get s (tp_kl t) = x86_layout p.
Proof. intros s. rewrite (xp_kl _ _ _ _ X). destruct s; reflexivity. Qed.

Lemma n_pos : 0 < n /\ n <= 16.
Proof. unfold n. destruct p; cbn; lia. Qed.

Lemma pl_blocks : forall s, pl_kernel (plt s) = blocks_of n.
Proof. intros s. unfold plt. rewrite (to_kernel _ _ T s). apply kl_side. Qed.

Lemma packed_layout_x86 : forall s, packed_layout_of (m_layout (src s)) (blocks_of n) (plt s).
Proof.
  intros s. pose proof (to_pl _ _ T s) as L. pose proof (to_cols _ _ T s) as C. pose proof (to_max _ _ T s) as M. cbv beta in *.
  rewrite kl_side in C, M. cbn [x86_layout kl_cols] in C, M. fold (plt s) in *. fold (src s) in *. fold n in C, M.
  split; [apply pl_blocks|]. split; [apply (po_order _ L)|]. split; [apply (po_stride _ L)|].
  split; [apply (xp_rows _ _ _ _ X s)|].
  split. { split; [|cbn [blocks_of kl_cols]; lia]. pose proof (po_cols_al _ L) as A. rewrite pl_blocks in A. cbn [blocks_of kl_cols] in A.
    cbn [blocks_of kl_cols]; apply Z.mod_divide; [pose proof n_pos; lia|exact A]. }
  pose proof (xp_max _ _ _ _ X s) as B. pose proof (max_abs_pos _ (xp_source _ _ _ _ X s)) as B2. fold (pt s) in *. fold (plt s) in B.
  pose proof (po_rows _ L). pose proof (po_flat _ L). split; [|split; [lia|assumption]]. clear - B B2 H. nia.
Qed.

Lemma zp_range : forall s, it_lo (pt s) <= zp s <= it_hi (pt s).
Proof.
  intros s. unfold zp. rewrite (proj2 (xp_zp _ _ _ _ X s)). apply it_conv_range.
  destruct (x86_source_facts _ (xp_source _ _ _ _ X s)) as (_ & B & _). unfold pt. lia.
Qed.

Lemma x86_pack_call : forall s a b m, x86_mem m -> 0 <= a <= b -> b <= pl_cols (plt s) -> a mod n = 0 -> b mod n = 0 ->
  pack_call n (pt s) (src s) (get s (tm_packed m)) a b.
Proof.
  intros s a b m (M & _ & _) Hab Hb Ha' Hb'. pose proof n_pos. split; [apply valid_matrix_iff, (to_src _ _ T s)|].
  destruct (mm_p _ _ _ M s) as [_ PL PS]. pose proof (mm_l _ _ _ M s) as EL. pose proof (mm_zp _ _ _ M s) as EZ. cbv beta in *.
  fold (plt s) in EL. split.
  - unfold packed_for. rewrite EL in *. split; [apply packed_layout_x86|]. split; assumption.
  - rewrite EZ, EL. split; [apply zp_range|]. split; [exact Hab|]. split; [exact Hb|]. split; apply Z.mod_divide; lia || assumption.
Qed.

Lemma same_packed : forall s a b (pm q : pmat Z), columns_packed (get s st) (pt s) (src s) a b pm q -> same_shape pm q.
Proof.
  intros s a b pm q C. destruct (cp_shape _ _ _ _ _ _ _ C) as (E1 & E2 & E3). pose proof (cp_sums _ _ _ _ _ _ _ C) as S.
  constructor; try assumption. destruct (p_sums pm), (p_sums q); try contradiction; [|reflexivity]. cbn. f_equal. apply S.
Qed.

Lemma x86_pack_ok : forall s a b m, x86_mem m -> 0 <= a < b -> b <= pl_cols (plt s) ->
  a mod kl_cols (get s (tp_kl t)) = 0 -> b mod kl_cols (get s (tp_kl t)) = 0 ->
  exists m', tm_pack_x86 dbg p st t s a b m = Ok m' /\ x86_mem m' /\ (forall c, a <= c < b -> x86_column m' s c) /\
    (forall s' c, 0 <= c < pl_cols (plt s') -> (s' <> s \/ ~ (a <= c < b)) -> x86_column m s' c -> x86_column m' s' c) /\
    tm_dst m' = tm_dst m.
Proof.
  intros s a b m M Hab Hb Ha' Hb'. rewrite kl_side in Ha', Hb'. cbn [x86_layout kl_cols] in Ha', Hb'. fold n in Ha', Hb'.
  pose proof (x86_pack_call s a b m M (conj (proj1 Hab) (Z.lt_le_incl _ _ (proj2 Hab))) Hb Ha' Hb') as C. pose proof M as (MM & MT & MS).
  pose proof (mm_l _ _ _ MM s) as EL. pose proof (mm_zp _ _ _ MM s) as EZ. pose proof (mm_p _ _ _ MM s) as PM. cbv beta in EL, EZ. fold (plt s) in EL. fold (zp s) in EZ.
  destruct (x86_packs dbg p (tp_ops t) s st dt (src s) (get s (tm_packed m)) a b (xp_source _ _ _ _ X s)) as (q & E & Q).
  { intros q. apply (xp_ops _ _ _ _ X). } { exact C. } { apply (xp_zp _ _ _ _ X s). }
  { rewrite EZ. apply (xp_zp _ _ _ _ X s). } { rewrite EL. apply (xp_max _ _ _ _ X s). } { apply MS. }
  fold (pt s) in Q. pose proof (same_packed s a b _ q Q) as SH. pose proof (pmat_ok_same _ _ SH PM) as PQ.
  destruct (cp_shape _ _ _ _ _ _ _ Q) as (Q1 & Q2 & Q3). pose proof (cp_sums _ _ _ _ _ _ _ Q) as QS.
  exists (set_packed m s q). split; [unfold tm_pack_x86; fold (src s); rewrite E; reflexivity|].
  assert (GO : forall s', s' <> s -> get s' (tm_packed (set_packed m s q)) = get s' (tm_packed m)) by (intros s' N; destruct s, s'; try congruence; reflexivity).
  assert (SD : forall s' : side, {s' = s} + {s' <> s}) by (intros s'; destruct s, s'; (left; reflexivity) || (right; discriminate)).
  assert (QN : p_sums q <> None).
  { specialize (MS s). destruct (p_sums (get s (tm_packed m))); [|contradiction]. destruct (p_sums q); [discriminate|contradiction]. }
  split; [|split; [|split]].
  - split; [|split].
    + destruct MM as [M1 M2 M3 M4 M5]. constructor; try exact M5.
      * intros s'. destruct (SD s') as [-> | N]; [rewrite get_set_packed_same; exact PQ|rewrite GO by exact N; apply M1].
      * intros s'. destruct (SD s') as [-> | N]; [rewrite get_set_packed_same, Q1; apply M2|rewrite GO by exact N; apply M2].
      * intros s'. destruct (SD s') as [-> | N]; [rewrite get_set_packed_same, Q2; apply M3|rewrite GO by exact N; apply M3].
      * intros s'. destruct (SD s') as [-> | N]; [rewrite get_set_packed_same; intros _; exact QN|rewrite GO by exact N; apply M4].
    + intros s'. destruct (SD s') as [-> | N]; [rewrite get_set_packed_same; apply (cp_typed _ _ _ _ _ _ _ Q), MT|rewrite GO by exact N; apply MT].
    + intros s'. destruct (SD s') as [-> | N]; [rewrite get_set_packed_same; exact QN|rewrite GO by exact N; apply MS].
  - intros c Hc Hcc. rewrite get_set_packed_same. split.
    + intros r Hr. unfold x86_value. rewrite <- EZ. apply (cp_values _ _ _ _ _ _ _ Q); try assumption. rewrite EL. exact Hr.
    + intros b' Eb. rewrite Eb in QS. destruct (p_sums (get s (tm_packed m))) as [b0|]; [|contradiction]. destruct QS as (_ & QS & _).
      rewrite (QS c Hc Hcc), EL, EZ. reflexivity.
  - intros s' c Hc Hd PC Hcc. destruct (SD s') as [-> | N]; [|rewrite GO by exact N; apply PC, Hcc].
    destruct Hd as [N|Hd]; [congruence|]. rewrite get_set_packed_same. destruct (PC Hcc) as (PV & PS). split.
    + intros r Hr. rewrite <- (PV r Hr). pose proof (pmo_layout _ PM) as L. unfold pelement. rewrite Q1, EL, !poffset_ok by (rewrite <- EL; try exact L; rewrite EL; assumption).
      cbn [bind]. unfold bread. rewrite Q3. rewrite (cp_rest _ _ _ _ _ _ _ Q); [reflexivity|].
      intros r' c' Hr' Hc' EQ. rewrite EL in *. rewrite poffset_ok in EQ by (try assumption; lia). injection EQ as EQ. apply poff_inj in EQ; try assumption; lia.
    + intros b' Eb. rewrite Eb in QS. destruct (p_sums (get s (tm_packed m))) as [b0|]; [|contradiction]. destruct QS as (_ & _ & QS).
      rewrite (QS c Hd). apply PS. reflexivity.
  - reflexivity.
Qed.

Lemma x86_side : forall s a b m z, x86_mem m -> 0 <= a -> (forall c, a <= c < b -> x86_column m s c) ->
  packed_blocks n (pt s) (get s (tm_packed m)) /\
  holds (get s (tm_packed m)) (x86_value s) a (Z.min b (ml_cols (m_layout (src s)))) /\
  has_sums (get s (tm_packed m)) (x86_value s) a (Z.min b (ml_cols (m_layout (src s)))) z.
Proof.
  intros s a b m z (MM & MT & MS) Ha PC. pose proof (mm_l _ _ _ MM s) as EL. pose proof (mm_p _ _ _ MM s) as [L PL PS]. cbv beta in EL. fold (plt s) in EL.
  split; [|split].
  - unfold packed_blocks. rewrite EL in *. pose proof n_pos. pose proof (xp_rows _ _ _ _ X s) as [R4 _]. fold (plt s) in R4.
    destruct (packed_layout_x86 s) as (P1 & P2 & P3 & P4 & (P5 & _) & P6 & P7 & P8). cbn [blocks_of kl_cols] in P5.
    split; [exact P1|]. split; [exact P2|]. split; [exact P3|]. split; [apply (po_rows _ L)|]. split; [exact R4|]. split; [apply (po_cols _ L)|].
    split; [exact P5|]. split; [exact P8|]. split; [exact PL|]. intros q Hq. apply MT; exact Hq.
  - intros k c Hk Hc. rewrite EL in Hk. apply PC; [lia|lia|exact Hk].
  - intros _. specialize (MS s). destruct (p_sums (get s (tm_packed m))) as [b0|] eqn:Eb; [|contradiction]. exists b0. split; [reflexivity|]. split; [apply PS; reflexivity|].
    intros c Hc. destruct (PC c ltac:(lia) ltac:(lia)) as (_ & S). rewrite (S b0 Eb), EL. apply Base.wrap_s_mod. lia.
Qed.

Lemma x86_vector_kernel : pt Lhs = s8 /\ vector_kernel (x86_isa p) (pt Rhs) /\ v_n (x86_isa p) = n.
Proof.
  pose proof (xp_kernel _ _ _ _ X) as K. pose proof (xp_source _ _ _ _ X Lhs) as SL. pose proof (xp_source _ _ _ _ X Rhs) as SR.
  unfold pt. cbn [get] in *. unfold n. clear - K SL SR. unfold x86_has_kernel in K.
  destruct SL as [E | [E | E]]; rewrite E in *; [| |cbv in K; discriminate K]; (split; [reflexivity|]); destruct SR as [E' | [E' | E']]; rewrite E' in *;
    destruct p; try (cbv in K; discriminate K); (split; [|reflexivity]); cbn [x86_isa]; unfold vector_kernel, rhs_type; auto 10.
Qed.

Lemma x86_kernel_ok : forall start end_ m, x86_mem m ->
  (forall s, 0 <= get s start < get s end_) -> (forall s, get s end_ <= pl_cols (plt s)) ->
  (forall s, get s start mod kl_cols (get s (tp_kl t)) = 0) -> (forall s, get s end_ mod kl_cols (get s (tp_kl t)) = 0) ->
  (forall s c, get s start <= c < get s end_ -> x86_column m s c) ->
  exists m', tm_kernel_x86 dbg fat p (pt Rhs) dt t start end_ m = Ok m' /\ x86_mem m' /\ (forall s c, x86_column m s c -> x86_column m' s c) /\
    computed dl x86_entry (fun i j => lhs start <= i < lhs end_ /\ rhs start <= j < rhs end_ /\ inside dl i j) (tm_dst m) (tm_dst m').
Proof.
  intros start end_ m M H1 H2 H3 H4 PC. pose proof M as (MM & MT & MS). pose proof n_pos as Np.
  assert (H3' : forall s, get s start mod n = 0) by (intros s; specialize (H3 s); rewrite kl_side in H3; exact H3).
  assert (H4' : forall s, get s end_ mod n = 0) by (intros s; specialize (H4 s); rewrite kl_side in H4; exact H4). clear H3 H4.
  pose proof (to_dst _ _ T) as DL. pose proof (to_drows _ _ T) as Dr. pose proof (to_dcols _ _ T) as Dc. cbv beta in Dr, Dc.
  assert (CL : forall s, ml_cols (m_layout (src s)) <= pl_cols (plt s) < ml_cols (m_layout (src s)) + n).
  { intros s. pose proof (to_cols _ _ T s) as C. cbv beta in C. rewrite kl_side in C. exact C. }
  assert (CM : forall s, ml_cols (m_layout (src s)) + n <= int_max).
  { intros s. pose proof (to_max _ _ T s) as C. cbv beta in C. rewrite kl_side in C. exact C. }
  fold (src Lhs) in Dr. fold (src Rhs) in Dc. fold dl in Dr, Dc, DL.
  destruct x86_vector_kernel as (PL & VK & VN).
  destruct (run_kernel_by_ok Z dbg (fun sr sc er ec dst =>
            kernel_x86 dbg (x86_isa p) (pt Rhs) dt (lhs (tm_packed m)) (rhs (tm_packed m)) (tp_mp t) sr sc er ec dl (tp_dst_zp t) dst)
      n n dl x86_entry (lhs start) (rhs start) (lhs end_) (rhs end_)) with (fat := fat) (d0 := tm_dst m) as (d & E & W).
  - exact DL.
  - lia.
  - lia.
  - rewrite Dr. apply CM.
  - rewrite Dc. apply CM.
  - apply (H1 Lhs).
  - pose proof (H2 Lhs). pose proof (CL Lhs). cbn [get] in *. lia.
  - apply (H3' Lhs).
  - apply (H4' Lhs).
  - apply (H1 Rhs).
  - pose proof (H2 Rhs). pose proof (CL Rhs). cbn [get] in *. lia.
  - apply (H3' Rhs).
  - apply (H4' Rhs).
  - intros r0 c0 r1 c1 d Hd Hr0 Hr1 Hc0 Hc1 A1 A2 A3 A4.
    pose proof (H1 Lhs) as HL. pose proof (H1 Rhs) as HR. pose proof (H2 Lhs) as HL2. pose proof (H2 Rhs) as HR2. cbn [get] in HL, HR, HL2, HR2.
    pose proof (mm_l _ _ _ MM) as EL. pose proof (mm_zp _ _ _ MM) as EZ. pose proof (CL Lhs) as CLl. pose proof (CL Rhs) as CLr.
    assert (VC : vector_call n (pt Rhs) dt (lhs (tm_packed m)) (rhs (tm_packed m)) (x86_value Lhs) (x86_value Rhs) (tp_mp t) r0 c0 r1 c1 dl d).
    { constructor.
      - rewrite <- PL, Dr. apply (x86_side Lhs r0 r1 m _ M); [lia|]. intros c Hc. apply PC. cbn [get]. lia.
      - rewrite Dc. apply (x86_side Rhs c0 c1 m _ M); [lia|]. intros c Hc. apply PC. cbn [get]. lia.
      - pose proof (EL Lhs) as E1. pose proof (EL Rhs) as E2. cbn [get] in E1, E2. rewrite E1, E2. apply (to_depth _ _ T).
      - pose proof (EL Lhs) as E1. cbn [get] in E1. rewrite E1. change (lhs (tp_packed_layout t)) with (plt Lhs). unfold whole_blocks.
        repeat split; try lia; try (apply Z.mod_divide; [lia|assumption]).
      - pose proof (EL Rhs) as E1. cbn [get] in E1. rewrite E1. change (rhs (tp_packed_layout t)) with (plt Rhs). unfold whole_blocks.
        repeat split; try lia; try (apply Z.mod_divide; [lia|assumption]).
      - apply (xp_dst _ _ _ _ X).
      - split; [apply valid_layout_iff; exact DL|]. split; [apply (xp_order _ _ _ _ X)|].
        unfold flat in Hd. unfold dl in *. rewrite (xp_order _ _ _ _ X) in Hd. exact Hd.
      - pose proof (xp_mp _ _ _ _ X) as (P1 & P2).
        assert (LE : match mp_chan (tp_mp t) with ChRow => r1 | ChCol => c1 end <= pl_cols (get (channel_side (tp_mp t)) (tp_packed_layout t))).
        { unfold channel_side. destruct (mp_chan (tp_mp t)); [change (get Lhs (tp_packed_layout t)) with (plt Lhs)|change (get Rhs (tp_packed_layout t)) with (plt Rhs)]; lia. }
        split; [intros b Hb; specialize (P1 b Hb); lia|]. destruct (mp_perchannel (tp_mp t)); [|exact P2].
        destruct P2 as (P2 & mm & ee & Q1 & Q2 & Q3 & Q4 & Q5). split; [exact P2|]. exists mm, ee. repeat (split; [assumption || lia|]). intros i Hi. apply Q5. lia.
      - apply (xp_bounds _ _ _ _ X).
      - pose proof (EL Rhs) as E1. cbn [get] in E1. rewrite E1. change (rhs (tp_packed_layout t)) with (plt Rhs).
        change (pl_stride (plt Rhs)) with (pl_stride (get Rhs (tp_packed_layout t))). rewrite (po_stride _ (to_pl _ _ T Rhs)). pose proof (xp_max _ _ _ _ X Rhs) as B. pose proof (po_rows _ (to_pl _ _ T Rhs)) as B0.
        fold (pt Rhs) in B. fold (plt Rhs) in B, B0 |- *.
        pose proof (xp_source _ _ _ _ X Rhs) as SR. unfold pt in *. set (rows := pl_rows (plt Rhs)) in *. clearbody rows. clear - B B0 SR Np.
        destruct SR as [E | [E | E]]; rewrite E in *; [change (max_abs (x86_packed s8)) with 128 in B; change (it_bits (x86_packed s8) / 8) with 1
          |change (max_abs (x86_packed u8)) with 128 in B; change (it_bits (x86_packed u8) / 8) with 1
          |change (max_abs (x86_packed s16)) with 32768 in B; change (it_bits (x86_packed s16) / 8) with 2]; clear E; nia.
      - apply (xp_dst_bytes _ _ _ _ X).
      - pose proof (EL Lhs) as E1. pose proof (EZ Lhs) as Z1. pose proof (EZ Rhs) as Z2. cbn [get] in E1, Z1, Z2. rewrite E1, Z1, Z2. apply (xp_prod _ _ _ _ X). }
    destruct (kernel_known _ _ VK) as (wide & Iok & Rt). rewrite <- VN in VC.
    destruct (Kernel8bitProps.kernel_x86_computes _ wide dbg _ _ _ _ _ _ _ _ _ _ _ _ (tp_dst_zp t) _ Iok Rt VC) as (d' & E' & B1 & B2 & B3).
    exists d'. split; [exact E'|]. split; [exact B1|].
    pose proof (EL Lhs) as E1. pose proof (EZ Lhs) as Z1. pose proof (EZ Rhs) as Z2. cbn [get] in E1, Z1, Z2. rewrite E1, Z1, Z2 in B2. split.
    + intros i j (Hi & Hj & I). specialize (B2 i j Hi Hj I). rewrite position_off in B2. exact B2.
    + intros x Hx. apply B3. intros i j Hi Hj I. rewrite position_off. apply Hx. auto.
  - apply (mm_dst _ _ _ MM).
  - exists {| tm_packed := tm_packed m; tm_dst := d |}. split; [unfold tm_kernel_x86; fold dl; fold n; rewrite E; reflexivity|].
    split; [|split; [intros s c H; exact H|exact W]]. split; [|split; [exact MT|exact MS]].
    destruct MM as [M1 M2 M3 M4 M5]. constructor; try assumption. cbn [tm_dst]. destruct W as (W & _). rewrite W. exact M5.
Qed.

(** Any schedule. *)
Variable c : config.
Hypothesis D : trmul_domain c t.

Lemma x86_trmul_ok : forall sched m, x86_mem m ->
  exists out, trmul_by (tm_pack_x86 dbg p st t) (tm_kernel_x86 dbg fat p (pt Rhs) dt t) c t (mk_sp false false) sched m = Ok out /\
    forall m', out = Some m' -> x86_mem m' /\ computed dl x86_entry (inside dl) (tm_dst m) (tm_dst m').
Proof.
  intros sched m M. destruct (trmul_by_ok Z t _ _ x86_mem x86_column x86_entry T x86_pack_ok x86_kernel_ok c (mk_sp false false) D sched m M) as (out & E & H).
  - intros [] x F; discriminate.
  - exists out. split; [exact E|]. intros m' Em. destruct (H m' Em) as (A & _ & B). auto.
Qed.

Lemma x86_trmul_fair : forall sg N0 m, x86_mem m ->
  (forall i k, 0 <= i < c_max_threads c -> exists k', (k <= k')%nat /\ fst (sg k') = i) -> (forall k, (N0 <= k)%nat -> snd (sg k) = false) ->
  exists k m', trmul_by (tm_pack_x86 dbg p st t) (tm_kernel_x86 dbg fat p (pt Rhs) dt t) c t (mk_sp false false) (map sg (seq 0 k)) m = Ok (Some m').
Proof.
  intros sg N0 m M FA VI. apply (trmul_by_fair Z t _ _ x86_mem x86_column x86_entry T x86_pack_ok x86_kernel_ok c (mk_sp false false) D sg N0 m M); try assumption.
  intros [] x F; discriminate.
Qed.
End X86TrMul.
