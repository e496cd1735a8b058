(** TrMul with the AArch64 packing functions and dot-product kernels. *)
From Coq Require Import ZArith List Bool Lia.
From Verif Require Import Base SidePair Mat MatFacts Scalars IntOps Pack SpecArith SpecRound SpecMatrix SpecPack SpecMul PackFacts PackProps MulProps
  MulParams Kernel KernelFacts PackX86 SpecPackX86 TrMul TrMulFacts TrMulMachine TrMulRun RunFacts RunBy X86Mul X86PackFacts X86MulFacts
  NeonPack SpecPackNeon NeonPackBytes NeonPackProps NeonPackRow SpecPackNeonRow NeonPackRowProps Tune FloatNeonMul Kernel8Neon Kernel8NeonDotExamples Neon8Mul SpecKernelNeon SpecNeonMul SpecKernel.
Import ListNotations.
Open Scope Z_scope.

(** ** Packing *)
Lemma filled_packed : forall st src zp r c, c < ml_cols (m_layout src) -> filled_value st s8 src zp r c = packed_value st s8 src zp r c.
Proof. intros st src zp r c H. unfold filled_value, packed_value. replace (c <? ml_cols (m_layout src)) with true by lia. rewrite andb_true_r. reflexivity. Qed.

Lemma filled_typed : forall st src zp r c, it_lo s8 <= zp <= it_hi s8 -> it_lo s8 <= filled_value st s8 src zp r c <= it_hi s8.
Proof. intros st src zp r c H. unfold filled_value. destruct ((r <? ml_rows (m_layout src)) && (c <? ml_cols (m_layout src))); [apply conv8_typed|exact H]. Qed.

Lemma wrap32_typed : forall z, it_lo s32 <= wrap_s 32 z <= it_hi s32.
Proof. exact conv32_typed. Qed.

Lemma filled_is_packed : forall st src a b p q, pmat_ok p -> it_lo s8 <= p_zp p <= it_hi s8 -> 0 <= a -> b <= pl_cols (p_layout p) -> columns_filled st s8 src a b p q ->
  columns_packed st s8 src a b p q /\ (forall s s', p_sums p = Some s -> p_sums q = Some s' -> typed s32 s -> typed s32 s').
Proof.
  intros st src a b p q [PL Pn _] Hz Ha Hb [(S1 & S2 & S3) V Rs Su]. split; [constructor|].
  - auto.
  - intros r c Hr Hc Hcc. rewrite (V r c Hr Hc). f_equal. apply filled_packed, Hcc.
  - destruct (p_sums p), (p_sums q); try exact Su. destruct Su as (U1 & U2 & U3). split; [exact U1|]. split; [|exact U3].
    intros c Hc Hcc. rewrite (U2 c Hc). do 2 f_equal. apply map_ext. intros r. apply filled_packed, Hcc.
  - intros Ty i Hi. rewrite S3 in Hi.
    assert (RC : (exists r c, 0 <= r < pl_rows (p_layout p) /\ a <= c < b /\ poff (p_layout p) r c = i) \/
                 (forall r c, 0 <= r < pl_rows (p_layout p) -> a <= c < b -> poffset false (p_layout p) r c <> Ok i)).
    { destruct (Z_lt_le_dec i (pl_rows (p_layout p) * pl_cols (p_layout p))) as [L|L].
      - destruct (poff_surj (p_layout p) i PL ltac:(lia)) as (r & c & Hr & Hc & Ei).
        assert (DC : (a <= c < b) \/ ~ (a <= c < b)) by (clear; lia). destruct DC as [D|D]; [left; exists r, c; auto|right].
        intros r' c' Hr' Hc'. rewrite poffset_ok by (try assumption; lia). intros X. injection X as X. rewrite <- Ei in X. apply poff_inj in X; try assumption; lia.
      - right. intros r' c' Hr' Hc'. rewrite poffset_ok by (try assumption; lia). intros X. injection X as X. pose proof (poff_range (p_layout p) r' c' PL Hr' ltac:(lia)). lia. }
    destruct RC as [(r & c & Hr & Hc & Ei)|RC]; [|rewrite (Rs i RC); apply Ty; exact Hi].
    pose proof (V r c Hr Hc) as X. unfold pelement in X. rewrite S1, poffset_ok in X by (try assumption; lia). cbn [bind] in X. rewrite bread_ok in X by (rewrite S3; lia).
    rewrite Ei in X. injection X as ->. apply filled_typed, Hz.
  - intros i Hi. apply Rs, Hi.
  - intros s s' E1 E2 Ty. rewrite E1, E2 in Su. destruct Su as (U1 & U2 & U3). intros i Hi. rewrite U1 in Hi.
    assert (DC : (a <= i < b) \/ ~ (a <= i < b)) by (clear; lia). destruct DC as [D|D]; [rewrite (U2 i D); apply wrap32_typed|rewrite (U3 i D); apply Ty, Hi].
Qed.

Lemma dot_packs : forall dbg tu gs st src p a b, byte_type st -> pack_call 8 s8 src p a b -> a < b ->
  p_zp p = it_conv s8 (m_zp src - middle st) -> typed s8 (p_data p) -> p_sums p <> None -> (forall s, p_sums p = Some s -> typed s32 s) ->
  (ml_order (m_layout src) = ColMajor -> blocks_fit src b) ->
  exists q, dot_run_pack dbg tu gs st src p a b = Ok q /\ columns_filled st s8 src a b p q.
Proof.
  intros dbg tu gs st src p a b B (HV & HP & _ & Hab & Hb & Da & Db) Lt Hz Ht Hn Hs Hf. unfold dot_run_pack. destruct (ml_order (m_layout src)) eqn:Eo.
  - apply (neon_packs_columns dbg neon_4x8 bytes_4x8 s8 st).
    + right. left. auto.
    + split; [exact HV|]. split; [exact Eo|]. split; [exact HP|]. split; [exact Hz|]. split; [intros F; discriminate F|]. split; [exact Ht|]. split; [exact Hs|].
      split; [exact Hab|]. split; [exact Hb|]. split; assumption.
    + intros _. apply Hf. reflexivity.
  - apply neon_packs_rows; [exact B|]. split; [exact HV|]. split; [exact Eo|]. split; [exact HP|]. split; [exact Hz|]. split; [exact Ht|].
    split; [|split; [lia|]; split; [exact Hb|]; split; assumption].
    destruct (p_sums p) as [s|]; [|contradiction]. exists s. auto.
Qed.

Lemma byte_packed : forall t, byte_type t -> x86_packed t = s8.
Proof. intros t [-> | ->]; reflexivity. Qed.

(** ** The result keeps to its type *)
Lemma same_ity : forall x y, ity_eqb x y = true -> x = y.
Proof. intros [b s] [b' s'] H. unfold ity_eqb in H. cbn [it_bits it_signed] in H. apply andb_true_iff in H as [H1 H2]. apply Z.eqb_eq in H1. apply eqb_prop in H2. congruence. Qed.

Lemma neon_result_typed : forall dt mp zp i j acc v, it_lo dt <= mp_min mp <= it_hi dt -> it_lo dt <= mp_max mp <= it_hi dt ->
  neon_result dt mp zp i j acc v -> it_lo dt <= v <= it_hi dt.
Proof.
  intros dt mp zp i j acc v B1 B2 H. unfold neon_result in H. destruct (ity_eqb dt s32) eqn:E.
  - apply same_ity in E. subst dt. subst v. apply wrap32_typed.
  - destruct H as (q & _ & H). unfold clamped in H. lia.
Qed.

Lemma block_typed : forall dt (P : Z -> Z -> Z -> Prop) sr sc er ec dl d d', layout_ok dl -> typed dt d -> (forall i j v, P i j v -> it_lo dt <= v <= it_hi dt) ->
  block_computed P sr sc er ec dl d d' -> typed dt d'.
Proof.
  intros dt P sr sc er ec dl d d' DL Ty HP (B1 & B2 & B3) q Hq. rewrite B1 in Hq.
  destruct (off_dec dl q DL) as [(i & j & I & E)|N].
  - assert (DC : (sr <= i < er /\ sc <= j < ec) \/ ~ (sr <= i < er /\ sc <= j < ec)) by (clear; lia). destruct DC as [(D1 & D2)|D].
    + subst q. rewrite <- position_off. apply (HP i j). apply B2; assumption.
    + rewrite B3; [apply Ty, Hq|]. intros i' j' Hi Hj I'. subst q. rewrite position_off. intros X. destruct I as (I1 & I2). destruct I' as (I1' & I2').
      destruct (off_inj dl i j i' j' DL I1 I2 I1' I2' X) as (-> & ->). apply D. auto.
  - rewrite B3; [apply Ty, Hq|]. intros i j _ _ I. rewrite position_off. intros X. apply (N i j I). congruence.
Qed.

Record dot_params (st : sp ity) (dt : ity) (t : tparams Z) : Prop := {
  dp_x : x86_params PathAvx st dt t;
  dp_bytes : forall s, byte_type (get s st);
  dp_pos : 0 < pl_rows (get Lhs (tp_packed_layout t));
  dp_order : dt <> s32 -> mp_min (tp_mp t) <= mp_max (tp_mp t);
  dp_zp : dt <> s32 -> it_lo dt <= tp_dst_zp t <= it_hi dt;
  dp_fits : forall s, ml_order (m_layout (get s (tp_src t))) = ColMajor -> blocks_fit (get s (tp_src t)) (pl_cols (get s (tp_packed_layout t)))
}.

Section DotTrMul.
Variables (dbg fat : bool) (ci : circumstances) (st : sp ity) (dt : ity) (t : tparams Z).
Hypothesis X' : dot_params st dt t.
Hypothesis CI : dot_circumstances ci.
Let X := dp_x _ _ _ X'.
Let pt s := x86_packed (get s st).
Let src s := get s (tp_src t).
Let plt s := get s (tp_packed_layout t).
Let zp s := get s (tp_packed_zp t).
Let dl := tp_dst_layout t.
Let T := xp_ok _ _ _ _ X.

Definition dot_mem (m : tmem Z) : Prop :=
  x86_mem st t m /\ typed dt (tm_dst m) /\ (forall s b, p_sums (get s (tm_packed m)) = Some b -> typed s32 b).

Definition dot_entry (i j v : Z) : Prop :=
  neon_result dt (tp_mp t) (tp_dst_zp t) i j
    (exact_accumulator (pl_rows (plt Lhs)) (zp Lhs) (zp Rhs) (x86_value st t Lhs) (x86_value st t Rhs) (tp_mp t) i j) v.

Lemma pt8 : forall s, pt s = s8.
Proof. intros s. apply byte_packed, (dp_bytes _ _ _ X'). Qed.

Lemma dot_kl : forall s, kl_cols (get s (tp_kl t)) = 8.
Proof. intros s. rewrite (kl_side _ _ _ _ X). reflexivity. Qed.

Lemma dot_pack_ok : forall s a b m, dot_mem m -> 0 <= a < b -> b <= pl_cols (plt s) ->
  a mod kl_cols (get s (tp_kl t)) = 0 -> b mod kl_cols (get s (tp_kl t)) = 0 ->
  exists m', tm_pack_dot dbg ci st t s a b m = Ok m' /\ dot_mem m' /\ (forall c, a <= c < b -> x86_column st t m' s c) /\
    (forall s' c, 0 <= c < pl_cols (plt s') -> (s' <> s \/ ~ (a <= c < b)) -> x86_column st t m s' c -> x86_column st t m' s' c) /\
    tm_dst m' = tm_dst m.
Proof.
  intros s a b m (M & MDt & MSt) Hab Hb Ha' Hb'. rewrite dot_kl in Ha', Hb'.
  pose proof (x86_pack_call PathAvx st dt t X s a b m M (conj (proj1 Hab) (Z.lt_le_incl _ _ (proj2 Hab))) Hb Ha' Hb') as C. pose proof M as (MM & MT & MS).
  change (x86_width PathAvx) with 8 in C. fold (pt s) in C. rewrite pt8 in C.
  pose proof (mm_l _ _ _ MM s) as EL. pose proof (mm_zp _ _ _ MM s) as EZ. pose proof (mm_p _ _ _ MM s) as PM. cbv beta in EL, EZ. fold (plt s) in EL. fold (zp s) in EZ.
  pose proof (MT s) as MTs. change (x86_packed (get s st)) with (pt s) in MTs. rewrite pt8 in MTs.
  destruct (xp_zp _ _ _ _ X s) as (_ & Z2). fold (zp s) (src s) (pt s) in Z2. rewrite pt8 in Z2.
  destruct (dot_packs dbg (ci_pack_tuning ci s a) (ci_pack_regs ci s a) (get s st) (src s) (get s (tm_packed m)) a b (dp_bytes _ _ _ X' s) C (proj2 Hab)) as (q & E & QF).
  { rewrite EZ. exact Z2. } { exact MTs. } { apply MS. } { intros b' Eb. apply (MSt s b' Eb). }
  { intros Eo. pose proof (dp_fits _ _ _ X' s Eo) as F. unfold blocks_fit in *. fold (plt s) (src s) in F.
    pose proof (to_src _ _ T s) as SO. pose proof (mo_layout _ SO) as LO. pose proof (lo_stride _ LO) as LS. pose proof (lo_rows _ LO) as LR. fold (src s) in LS, LR, Eo. rewrite Eo in LS. clear - F Hb LS LR. nia. }
  destruct (filled_is_packed (get s st) (src s) a b (get s (tm_packed m)) q PM) as (Q & QT).
  { rewrite EZ. pose proof (zp_range _ _ _ _ X s) as R. fold (pt s) (zp s) in R. rewrite pt8 in R. exact R. } { lia. } { rewrite EL. exact Hb. } { exact QF. }
  rewrite <- (pt8 s) in Q. pose proof (same_packed st t s a b _ q Q) as SH. pose proof (pmat_ok_same _ _ SH PM) as PQ.
  destruct (cp_shape _ _ _ _ _ _ _ Q) as (Q1 & Q2 & Q3). pose proof (cp_sums _ _ _ _ _ _ _ Q) as QS.
  exists (set_packed m s q). split; [unfold tm_pack_dot; fold (src s); rewrite E; reflexivity|].
  assert (GO : forall s', s' <> s -> get s' (tm_packed (set_packed m s q)) = get s' (tm_packed m)) by (intros s' N; destruct s, s'; try congruence; reflexivity).
  assert (SD : forall s' : side, {s' = s} + {s' <> s}) by (intros s'; destruct s, s'; (left; reflexivity) || (right; discriminate)).
  assert (QN : p_sums q <> None).
  { specialize (MS s). destruct (p_sums (get s (tm_packed m))); [|contradiction]. destruct (p_sums q); [discriminate|contradiction]. }
  split; [|split; [|split]].
  - split; [|split].
    + split; [|split].
      * destruct MM as [M1 M2 M3 M4 M5]. constructor; try exact M5.
        -- intros s'. destruct (SD s') as [-> | N]; [rewrite get_set_packed_same; exact PQ|rewrite GO by exact N; apply M1].
        -- intros s'. destruct (SD s') as [-> | N]; [rewrite get_set_packed_same, Q1; apply M2|rewrite GO by exact N; apply M2].
        -- intros s'. destruct (SD s') as [-> | N]; [rewrite get_set_packed_same, Q2; apply M3|rewrite GO by exact N; apply M3].
        -- intros s'. destruct (SD s') as [-> | N]; [rewrite get_set_packed_same; intros _; exact QN|rewrite GO by exact N; apply M4].
      * intros s'. destruct (SD s') as [-> | N]; [rewrite get_set_packed_same; apply (cp_typed _ _ _ _ _ _ _ Q), MT|rewrite GO by exact N; apply MT].
      * intros s'. destruct (SD s') as [-> | N]; [rewrite get_set_packed_same; exact QN|rewrite GO by exact N; apply MS].
    + exact MDt.
    + intros s' b'. destruct (SD s') as [-> | N]; [rewrite get_set_packed_same|rewrite GO by exact N; apply MSt]. intros Eb.
      specialize (MS s). destruct (p_sums (get s (tm_packed m))) as [b0|] eqn:E0; [|contradiction]. exact (QT b0 b' eq_refl Eb (MSt s b0 E0)).
  - intros c Hc Hcc. rewrite get_set_packed_same. split.
    + intros r Hr. unfold x86_value. fold (zp s). rewrite <- EZ. apply (cp_values _ _ _ _ _ _ _ Q); try assumption. rewrite EL. exact Hr.
    + intros b' Eb. rewrite Eb in QS. destruct (p_sums (get s (tm_packed m))) as [b0|]; [|contradiction]. destruct QS as (_ & QS & _).
      rewrite (QS c Hc Hcc), EL, EZ. reflexivity.
  - intros s' c Hc Hd PC Hcc. destruct (SD s') as [-> | N]; [|rewrite GO by exact N; apply PC, Hcc].
    destruct Hd as [N|Hd]; [congruence|]. rewrite get_set_packed_same. destruct (PC Hcc) as (PV & PS). split.
    + intros r Hr. rewrite <- (PV r Hr). pose proof (pmo_layout _ PM) as L. unfold pelement. rewrite Q1, EL. fold (plt s) in Hr. rewrite !poffset_ok by (rewrite <- EL; try exact L; rewrite EL; assumption).
      cbn [bind]. unfold bread. rewrite Q3. rewrite (cp_rest _ _ _ _ _ _ _ Q); [reflexivity|].
      intros r' c' Hr' Hc' EQ. rewrite EL in *. rewrite poffset_ok in EQ by (try assumption; lia). injection EQ as EQ. apply poff_inj in EQ; try assumption; lia.
    + intros b' Eb. rewrite Eb in QS. destruct (p_sums (get s (tm_packed m))) as [b0|]; [|contradiction]. destruct QS as (_ & _ & QS).
      rewrite (QS c Hd). apply PS. reflexivity.
  - reflexivity.
Qed.

Lemma dot_kernel_ok : forall start end_ m, dot_mem m ->
  (forall s, 0 <= get s start < get s end_) -> (forall s, get s end_ <= pl_cols (plt s)) ->
  (forall s, get s start mod kl_cols (get s (tp_kl t)) = 0) -> (forall s, get s end_ mod kl_cols (get s (tp_kl t)) = 0) ->
  (forall s c, get s start <= c < get s end_ -> x86_column st t m s c) ->
  exists m', tm_kernel_dot dbg fat ci dt t start end_ m = Ok m' /\ dot_mem m' /\ (forall s c, x86_column st t m s c -> x86_column st t m' s c) /\
    computed dl dot_entry (fun i j => lhs start <= i < lhs end_ /\ rhs start <= j < rhs end_ /\ inside dl i j) (tm_dst m) (tm_dst m').
Proof.
  intros start end_ m (M & MDt & MSt) H1 H2 H3 H4 PC. pose proof M as (MM & MT & MS).
  assert (H3' : forall s, get s start mod 8 = 0) by (intros s; specialize (H3 s); rewrite dot_kl in H3; exact H3).
  assert (H4' : forall s, get s end_ mod 8 = 0) by (intros s; specialize (H4 s); rewrite dot_kl in H4; exact H4). clear H3 H4.
  pose proof (to_dst _ _ T) as DL. pose proof (to_drows _ _ T) as Dr. pose proof (to_dcols _ _ T) as Dc. cbv beta in Dr, Dc.
  assert (CL : forall s, ml_cols (m_layout (src s)) <= pl_cols (plt s) < ml_cols (m_layout (src s)) + 8).
  { intros s. pose proof (to_cols _ _ T s) as C. cbv beta in C. rewrite dot_kl in C. exact C. }
  assert (CM : forall s, ml_cols (m_layout (src s)) + 8 <= int_max).
  { intros s. pose proof (to_max _ _ T s) as C. cbv beta in C. rewrite dot_kl in C. exact C. }
  fold (src Lhs) in Dr. fold (src Rhs) in Dc. fold dl in Dr, Dc, DL.
  pose proof (H1 Lhs) as HL. pose proof (H1 Rhs) as HR. pose proof (H2 Lhs) as HL2. pose proof (H2 Rhs) as HR2. cbn [get] in HL, HR, HL2, HR2.
  pose proof (CL Lhs) as CLl. pose proof (CL Rhs) as CLr.
  destruct (run_kernel_by_keeps Z dbg (fun sr sc er ec dst =>
            kernel_8bit_neon dbg true (ci_tuning ci (lhs start) (rhs start)) (ci_regs ci sr sc) (ci_tmp ci sr sc) dt (lhs (tm_packed m)) (rhs (tm_packed m)) (tp_mp t)
              sr sc er ec dl (tp_dst_zp t) dst)
      8 8 dl (typed dt) dot_entry (lhs start) (rhs start) (lhs end_) (rhs end_)) with (fat := fat) (d0 := tm_dst m) as (d & E & Td & W).
  - exact DL.
  - lia.
  - lia.
  - rewrite Dr. apply CM.
  - rewrite Dc. apply CM.
  - exact HL.
  - clear - HL2 CLl Dr. lia.
  - apply (H3' Lhs).
  - apply (H4' Lhs).
  - exact HR.
  - clear - HR2 CLr Dc. lia.
  - apply (H3' Rhs).
  - apply (H4' Rhs).
  - intros r0 c0 r1 c1 d Hd Fd Hr0 Hr1 Hc0 Hc1 A1 A2 A3 A4.
    pose proof (mm_l _ _ _ MM) as EL. pose proof (mm_zp _ _ _ MM) as EZ.
    pose proof (EL Lhs) as E1. pose proof (EL Rhs) as E2. pose proof (EZ Lhs) as Z1. pose proof (EZ Rhs) as Z2. cbn [get] in E1, E2, Z1, Z2.
    change (lhs (tp_packed_layout t)) with (plt Lhs) in E1. change (rhs (tp_packed_layout t)) with (plt Rhs) in E2.
    pose proof (x86_side PathAvx st dt t X Lhs r0 r1 m (p_zp (rhs (tm_packed m))) M ltac:(lia) ltac:(intros c Hc; apply PC; cbn [get]; lia)) as SL.
    pose proof (x86_side PathAvx st dt t X Rhs c0 c1 m (p_zp (lhs (tm_packed m))) M ltac:(lia) ltac:(intros c Hc; apply PC; cbn [get]; lia)) as SR.
    fold (pt Lhs) in SL. fold (pt Rhs) in SR. rewrite pt8 in SL, SR. change (x86_width PathAvx) with 8 in SL, SR. fold (src Lhs) in SL. fold (src Rhs) in SR. rewrite <- Dr in SL. rewrite <- Dc in SR.
    assert (VC : vector_call 8 s8 dt (lhs (tm_packed m)) (rhs (tm_packed m)) (x86_value st t Lhs) (x86_value st t Rhs) (tp_mp t) r0 c0 r1 c1 dl d).
    { constructor.
      - exact SL.
      - exact SR.
      - rewrite E1, E2. apply (to_depth _ _ T).
      - rewrite E1. unfold whole_blocks. repeat split; try lia; try (apply Z.mod_divide; [lia|assumption]).
      - rewrite E2. unfold whole_blocks. repeat split; try lia; try (apply Z.mod_divide; [lia|assumption]).
      - apply (xp_dst _ _ _ _ X).
      - split; [apply valid_layout_iff; exact DL|]. split; [apply (xp_order _ _ _ _ X)|].
        unfold flat in Hd. unfold dl in *. rewrite (xp_order _ _ _ _ X) in Hd. exact Hd.
      - pose proof (xp_mp _ _ _ _ X) as (P1 & P2).
        assert (LE : match mp_chan (tp_mp t) with ChRow => r1 | ChCol => c1 end <= pl_cols (get (channel_side (tp_mp t)) (tp_packed_layout t))).
        { unfold channel_side. destruct (mp_chan (tp_mp t)); [change (get Lhs (tp_packed_layout t)) with (plt Lhs)|change (get Rhs (tp_packed_layout t)) with (plt Rhs)]; lia. }
        split; [intros b Hb; specialize (P1 b Hb); lia|]. destruct (mp_perchannel (tp_mp t)); [|exact P2].
        destruct P2 as (P2 & mm & ee & Q1 & Q2 & Q3 & Q4 & Q5). split; [exact P2|]. exists mm, ee. repeat (split; [assumption || lia|]). intros i Hi. apply Q5. lia.
      - apply (xp_bounds _ _ _ _ X).
      - rewrite E2. change (pl_stride (plt Rhs)) with (pl_stride (get Rhs (tp_packed_layout t))). rewrite (po_stride _ (to_pl _ _ T Rhs)). pose proof (xp_max _ _ _ _ X Rhs) as B. pose proof (po_rows _ (to_pl _ _ T Rhs)) as B0.
        fold (pt Rhs) in B. rewrite pt8 in B. change (max_abs s8) with 128 in B. change (it_bits s8 / 8) with 1.
        fold (plt Rhs) in B, B0 |- *. set (rows := pl_rows (plt Rhs)) in *. clearbody rows. clear - B B0. nia.
      - apply (xp_dst_bytes _ _ _ _ X).
      - rewrite E1, Z1, Z2. apply (xp_prod _ _ _ _ X). }
    assert (NC : SpecKernelNeon.neon_call 8 dt (lhs (tm_packed m)) (rhs (tm_packed m)) (x86_value st t Lhs) (x86_value st t Rhs) (tp_mp t) r0 c0 r1 c1 dl (tp_dst_zp t) d).
    { constructor.
      - exact VC.
      - rewrite E1. apply (dp_pos _ _ _ X').
      - intros b Eb. apply (pmo_sums _ (mm_p _ _ _ MM Lhs) b Eb).
      - intros b Eb. apply (pmo_sums _ (mm_p _ _ _ MM Rhs) b Eb).
      - intros _. apply (MS Lhs).
      - apply (dp_order _ _ _ X').
      - apply (dp_zp _ _ _ X').
      - exact Fd. }
    destruct (CI (lhs start) (rhs start)) as (C1 & _). destruct (CI r0 c0) as (_ & C2 & C3).
    destruct (dotprod_computes dbg (ci_tuning ci (lhs start) (rhs start)) (ci_regs ci r0 c0) (ci_tmp ci r0 c0) _ _ _ _ _ _ _ _ _ _ _ _ _ NC C1 C2 C3) as (d' & E' & B).
    rewrite E1, Z1, Z2 in B. pose proof (block_typed dt _ _ _ _ _ _ _ _ DL Fd (fun i j v H => neon_result_typed dt _ _ _ _ _ _ (proj1 (xp_bounds _ _ _ _ X)) (proj2 (xp_bounds _ _ _ _ X)) H) B) as Td'.
    destruct B as (B1 & B2 & B3). exists d'. split; [exact E'|]. split; [exact Td'|]. split; [exact B1|]. split.
    + intros i j (Hi & Hj & I). specialize (B2 i j Hi Hj I). rewrite position_off in B2. exact B2.
    + intros x Hx. apply B3. intros i j Hi Hj I. rewrite position_off. apply Hx. auto.
  - apply (mm_dst _ _ _ MM).
  - exact MDt.
  - exists {| tm_packed := tm_packed m; tm_dst := d |}. split; [unfold tm_kernel_dot; fold dl; rewrite E; reflexivity|].
    split; [|split; [intros s c H; exact H|exact W]]. split; [|split; [exact Td|exact MSt]]. split; [|split; [exact MT|exact MS]].
    destruct MM as [M1 M2 M3 M4 M5]. constructor; try assumption. cbn [tm_dst]. destruct W as (W & _). rewrite W. exact M5.
Qed.

(** Any schedule. *)
Variable c : config.
Hypothesis D : trmul_domain c t.

Lemma dot_trmul_ok : forall sched m, dot_mem m ->
  exists out, trmul_by (tm_pack_dot dbg ci st t) (tm_kernel_dot dbg fat ci dt t) c t (mk_sp false false) sched m = Ok out /\
    forall m', out = Some m' -> dot_mem m' /\ computed dl dot_entry (inside dl) (tm_dst m) (tm_dst m').
Proof.
  intros sched m M. destruct (trmul_by_ok Z t _ _ dot_mem (x86_column st t) dot_entry T dot_pack_ok dot_kernel_ok c (mk_sp false false) D sched m M) as (out & E & H).
  - intros [] x F; discriminate.
  - exists out. split; [exact E|]. intros m' Em. destruct (H m' Em) as (A & _ & B). auto.
Qed.

Lemma dot_trmul_fair : forall sg N0 m, dot_mem m ->
  (forall i k, 0 <= i < c_max_threads c -> exists k', (k <= k')%nat /\ fst (sg k') = i) -> (forall k, (N0 <= k)%nat -> snd (sg k) = false) ->
  exists k m', trmul_by (tm_pack_dot dbg ci st t) (tm_kernel_dot dbg fat ci dt t) c t (mk_sp false false) (map sg (seq 0 k)) m = Ok (Some m').
Proof.
  intros sg N0 m M FA VI. apply (trmul_by_fair Z t _ _ dot_mem (x86_column st t) dot_entry T dot_pack_ok dot_kernel_ok c (mk_sp false false) D sg N0 m M); try assumption.
  intros [] x F; discriminate.
Qed.
End DotTrMul.
