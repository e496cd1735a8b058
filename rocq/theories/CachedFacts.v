(** Multiplications with cached operands. *)
From Coq Require Import Permutation.
From Verif Require Import Allocator SpecAlloc AllocFacts PrepackedCache SpecCache CacheFacts CacheProps.
From Verif Require Import Base SidePair SpecArith SizeUtil SizeUtilFacts SpecMatrix SpecPack BlockMap SpecBlockMap
  Mat MatFacts Scalars Pack PackFacts PackProps MulParams Kernel KernelFacts TrMul TrMulFacts ChannelFacts FrontEndFacts
  TrMulMachine SpecMachine TrMulRun RunFacts MulFacts SpecMul MulProps
  CachedMul SpecCached.

(** * One call: from the user's operands to the sides of TrMul *)

Section Front.
Variables (V : Type) (cl : call V).
Hypothesis C : cacheable_call cl.

Let d := ml_order (m_layout (cl_dst cl)).
(** The operand of side [s] as TrMul gets it. *)
Definition src_of (s : side) : mat V := match s with Lhs => transpose_mat (cl_lhs cl) | Rhs => cl_rhs cl end.

Let CO := valid_call_ok _ _ _ _ _ _ _ _ (cc_valid _ C).
Let CD := valid_call_domain _ _ _ _ _ _ _ _ (cc_valid _ C).

Lemma front_zp : forall dbg fresh freshz t adv,
  mul_front_end dbg (cl_ops cl) (cl_kl cl) fresh freshz (cl_lhs cl) (cl_rhs cl) (cl_dst cl) (cl_mp cl) = Ok (t, adv) ->
  forall s, get s (tp_packed_zp t) = o_pack_zp (cl_ops cl) (dside d s) (zero_point cl (dside d s)).
Proof.
  intros dbg fresh freshz t adv E. unfold mul_front_end, create_trmul_params, create_trmul_params_col_major in E.
  destruct (dcheck _ _) as [u| |]; cbn [bind] in E; try discriminate. fold d in E.
  destruct d; (destruct (dcheck dbg _) as [u1| |]; cbn [bind] in E; try discriminate);
    (destruct (create_packed_layout dbg _ (lhs (cl_kl cl))) as [pl| |]; cbn [bind] in E; try discriminate);
    (destruct (create_packed_layout dbg _ (rhs (cl_kl cl))) as [pr| |]; cbn [bind] in E; try discriminate);
    (destruct (ensure_per_channel_buffers _ _ _ _ _ _ _) as [[mp b]| |]; cbn [bind] in E; try discriminate);
    injection E as <- <-; intros []; reflexivity.
Qed.

Lemma front_ok : forall g, exists t adv,
  mul_front_end (c_dbg (cl_config cl)) (cl_ops cl) (cl_kl cl) (g_chan g) (g_exp g) (cl_lhs cl) (cl_rhs cl) (cl_dst cl) (cl_mp cl) = Ok (t, adv) /\
  tparams_ok t /\ sizes_ok t /\ trmul_domain (cl_config cl) t /\
  tp_dst_layout t = sub_layout d (m_layout (cl_dst cl)) /\
  (forall s, pl_cols (get s (tp_packed_layout t)) = packed_dim (cl_kl cl) (m_layout (cl_dst cl)) (dside d s)) /\
  (forall s x, t_sum t (dside d s) x = mul_col_sum (cl_ops cl) (kl_rows (lhs (cl_kl cl))) (cl_lhs cl) (cl_rhs cl) s x) /\
  (forall i j, inside (m_layout (cl_dst cl)) i j ->
     dentry d (t_entry t) i j = mul_entry (cl_ops cl) (kl_rows (lhs (cl_kl cl))) (cl_lhs cl) (cl_rhs cl) (cl_mp cl) d (m_zp (cl_dst cl)) i j) /\
  tp_ops t = match d with ColMajor => cl_ops cl | RowMajor => swap_ops (cl_ops cl) end /\
  tp_kl t = cl_kl cl /\
  (forall s, get s (tp_src t) = src_of (dside d s)) /\
  (forall s, pemat_of t (cl_float cl) s = snd (request cl (dside d s))).
Proof using C.
  intros g.
  destruct (front_end_domain V (cl_config cl) (cl_ops cl) (cl_kl cl) g (cl_lhs cl) (cl_rhs cl) (cl_dst cl) (cl_mp cl) CO CD)
    as (t & adv & m & E & _ & T1 & TD & _ & _ & T6 & PC & TS & TE & T3).
  destruct (front_end_ok (c_dbg (cl_config cl)) (cl_ops cl) (cl_kl cl) (g_chan g) (g_exp g) (cl_lhs cl) (cl_rhs cl) (cl_dst cl) (cl_mp cl) CO)
    as (t' & adv' & E' & _ & SZ & T4 & _ & T5 & T9 & _).
  assert (ET : t' = t /\ adv' = adv) by (rewrite E in E'; injection E'; auto). destruct ET as [-> ->]. clear E'.
  exists t, adv. split; [exact E|]. split; [exact T1|]. split; [exact SZ|]. split; [exact TD|]. split; [exact T6|].
  split; [exact PC|]. split; [exact TS|]. split; [exact TE|]. split; [exact T3|]. split; [exact T4|].
  split.
  { intros s. rewrite T5. fold d. destruct d, s; reflexivity. }
  intros s. unfold pemat_of, request. cbn [snd].
  assert (EK : get s (cl_kl cl) = kernel_of cl (dside d s)).
  { unfold kernel_of, row_kernel, col_kernel. fold d. destruct d, s; reflexivity. }
  f_equal.
  - rewrite T3. fold d. destruct d, s; reflexivity.
  - rewrite T3. fold d. destruct d, s; reflexivity.
  - pose proof (to_pl V t T1 s) as L. pose proof (to_kernel V t T1 s) as KK. pose proof (PC s) as HC. pose proof (T9 s) as HR.
    cbv beta in *. rewrite T4, EK in KK.
    assert (EC : pl_cols (get s (tp_packed_layout t)) = next_multiple (width cl (dside d s)) (kl_cols (kernel_of cl (dside d s)))).
    { rewrite HC. unfold packed_dim. rewrite <- EK. fold d. rewrite dside_dside. unfold next_multiple, round_up. f_equal. f_equal. f_equal. f_equal.
      destruct (vc_shapes _ _ _ _ _ _ _ (cc_valid _ C)) as (_ & S2 & S3). unfold width, dim. destruct (dside d s); assumption. }
    assert (ER : pl_rows (get s (tp_packed_layout t)) = next_multiple (depth cl) (kl_rows (kernel_of cl (dside d s)))).
    { rewrite HR. unfold next_multiple, round_up, depth. rewrite <- EK.
      assert (X : kl_rows (get s (cl_kl cl)) = kl_rows (lhs (cl_kl cl))) by (destruct s; [reflexivity|apply (ca_krows _ _ _ _ _ _ _ CO)]).
      rewrite X. reflexivity. }
    destruct L as [_ _ _ _ _ _ Lo Ls _]. destruct (get s (tp_packed_layout t)) as [pr pc ps po pk].
    cbn [pl_rows pl_cols pl_stride pl_order pl_kernel] in *. rewrite Ls, Lo, KK, ER, EC. reflexivity.
  - apply (front_zp _ _ _ _ _ E).
Qed.

Lemma caches_ok : forall t, tp_kl t = cl_kl cl -> tparams_ok t -> (forall s, get s (tp_src t) = src_of (dside d s)) ->
  forall s, should_cache t (to_sides cl (cl_policy cl)) s = Ok (caches cl (dside d s)).
Proof using C.
  intros t T4 T1 TS s. unfold should_cache, caches. rewrite (to_kernel V t T1), T4, TS.
  assert (EP : get s (to_sides cl (cl_policy cl)) = get (dside d s) (cl_policy cl)).
  { unfold to_sides. fold d. destruct d, s; reflexivity. }
  rewrite EP.
  assert (EK : get (other_side s) (cl_kl cl) = kernel_of cl (other_side (dside d s))).
  { unfold kernel_of, row_kernel, col_kernel. fold d. destruct d, s; reflexivity. }
  assert (EW : ml_cols (m_layout (src_of (dside d (other_side s)))) = width cl (other_side (dside d s))).
  { destruct d, s; reflexivity. }
  rewrite EW, EK.
  assert (KB : 0 <= kl_cols (kernel_of cl (other_side (dside d s))) <= 128).
  { rewrite <- EK. destruct (wc_kernels _ _ _ _ _ _ _ (vc_well_formed _ _ _ _ _ _ _ (cc_valid _ C))) as (K1 & K2 & _).
    assert (K : valid_kernel_layout (get (other_side s) (cl_kl cl))) by (destruct s; assumption).
    destruct K as (_ & P & _ & B). pose proof (power_of_two_pos _ P). lia. }
  destruct (get (dside d s) (cl_policy cl)); try reflexivity. rewrite i32_ok by (unfold int_min, int_max; lia). reflexivity.
Qed.

Lemma addr_ok : forall s, get s (to_sides cl (cl_addr cl)) = fst (request cl (dside d s)).
Proof. intros s. unfold to_sides. fold d. destruct d, s; reflexivity. Qed.

Lemma lookups_eq : lookups cl = (if caches cl (dside d Lhs) then [request cl (dside d Lhs)] else []) ++
  (if caches cl (dside d Rhs) then [request cl (dside d Rhs)] else []).
Proof.
  unfold lookups, operands. fold d. destruct d; cbn [dside other_side filter];
  destruct (caches cl Lhs), (caches cl Rhs); reflexivity.
Qed.
End Front.
Arguments src_of {V}.

(** * What the cache holds *)

(** [q] is the packed form of operand [s] of [cl]. *)
Record stored {V} (cl : call V) (s : side) (q : pmat V) : Prop := {
  st_ok : pmat_ok q;
  st_layout : p_layout q = pe_layout (snd (request cl s));
  st_zp : p_zp q = pe_zp (snd (request cl s));
  st_sums : p_sums q = None -> cl_float cl = true;
  st_cols : forall c, 0 <= c < pl_cols (p_layout q) ->
    col_done (cl_ops cl) s (src_of cl s) q c /\
    exists v, col_sum (cl_ops cl) s (src_of cl s) (p_zp q) (pl_rows (p_layout q)) c = Ok v
}.

Lemma src_dims : forall {V} (cl : call V) s, cacheable_call cl ->
  ml_rows (m_layout (src_of cl s)) = depth cl /\ ml_cols (m_layout (src_of cl s)) = width cl s.
Proof.
  intros V cl s C. destruct (vc_shapes _ _ _ _ _ _ _ (cc_valid _ C)) as (S1 & _).
  destruct s; cbn [src_of transpose_mat transpose_layout m_layout ml_rows ml_cols]; split; auto.
Qed.

Lemma ent_source : forall {V} (cl : call V) s k i, ent (src_of cl s) k i = source_entry cl s k i.
Proof. intros V cl [] k i; cbn [src_of source_entry]; [rewrite ent_transpose|]; symmetry; apply entry_ent. Qed.

Lemma pval_interchange : forall {V} (cl cl' : call V) s s' zp r c, cacheable_call cl -> cacheable_call cl' -> interchangeable cl cl' s s' ->
  0 <= r -> 0 <= c ->
  pval (cl_ops cl) s (src_of cl s) zp r c = pval (cl_ops cl') s' (src_of cl' s') zp r c.
Proof.
  intros V cl cl' s s' zp r c C C' I Hr Hc. unfold pval.
  destruct (src_dims cl s C) as [D1 W1]. destruct (src_dims cl' s' C') as [D2 W2].
  rewrite D1, W1, D2, W2, <- (in_depth _ _ _ _ I), <- (in_width _ _ _ _ I), !ent_source.
  destruct ((c <? width cl s) && (r <? depth cl)) eqn:E; [|apply (in_of_zp _ _ _ _ I)].
  rewrite (in_pack _ _ _ _ I), (in_entries _ _ _ _ I) by lia. reflexivity.
Qed.

Lemma forto_ext : forall {S} a b (f g : Z -> S -> res S) s, (forall i x, a <= i < b -> f i x = g i x) -> forto a b f s = forto a b g s.
Proof.
  intros S a b f g s H. destruct (Z_le_gt_dec a b) as [L|L].
  - remember (Z.to_nat (b - a)) as n eqn:En. revert b L H En. induction n as [|n IH]; intros b L H En.
    + assert (b = a) by lia. subst b. rewrite !forto_empty by lia. reflexivity.
    + replace b with ((b - 1) + 1) by lia. rewrite !forto_snoc by lia. rewrite (IH (b - 1)) by (try lia; intros; apply H; lia).
      destruct (forto a (b - 1) g s) as [x| |]; try reflexivity. cbn [bind]. apply H. lia.
  - rewrite !forto_empty by lia. reflexivity.
Qed.

Lemma sum_interchange : forall {V} (cl cl' : call V) s s' zp rows c, cacheable_call cl -> cacheable_call cl' -> interchangeable cl cl' s s' ->
  0 <= c -> col_sum (cl_ops cl) s (src_of cl s) zp rows c = col_sum (cl_ops cl') s' (src_of cl' s') zp rows c.
Proof.
  intros V cl cl' s s' zp rows c C C' I Hc. unfold col_sum. rewrite (in_sum0 _ _ _ _ I). apply forto_ext.
  intros i x Hi. rewrite (pval_interchange cl cl' s s') by (auto; lia). apply (in_sum_add _ _ _ _ I).
Qed.

Lemma stored_interchange : forall {V} (cl cl' : call V) s s' q, cacheable_call cl -> cacheable_call cl' -> interchangeable cl cl' s s' ->
  request_key (request cl s) = request_key (request cl' s') -> stored cl s q -> stored cl' s' q.
Proof.
  intros V cl cl' s s' q C C' I K [S1 S2 S3 S4 S5].
  pose proof (f_equal k_layout K) as KL. pose proof (f_equal k_zp K) as KZ. unfold request_key in KL, KZ. cbn [k_layout k_zp] in KL, KZ.
  constructor; auto.
  - congruence.
  - congruence.
  - intros H. destruct (in_types _ _ _ _ I) as (_ & _ & F). rewrite <- F. auto.
  - intros c Hc. destruct (S5 c Hc) as ((A & B) & v & E). split; [split|].
    + intros row Hr. rewrite A by auto. apply pval_interchange; auto; lia.
    + intros b Hb. rewrite <- (B b Hb). symmetry. apply sum_interchange; auto; lia.
    + exists v. rewrite <- E. symmetry. apply sum_interchange; auto; lia.
Qed.

(** The requests are those the cache accepts. *)
Lemma request_valid : forall {V} (cl : call V) s, cacheable_call cl -> caches cl s = true -> valid_request (request cl s).
Proof.
  intros V cl s C H. pose proof (cc_hashable _ C s H) as HH.
  destruct (front_ok V cl C (cl_garbage cl)) as (t & adv & E & T1 & SZ & _ & _ & _ & _ & _ & T3 & T4 & TS & TP).
  set (d := ml_order (m_layout (cl_dst cl))) in *.
  pose proof (TP (dside d s)) as P. rewrite dside_dside in P. rewrite <- P in HH.
  assert (FR : fst (request cl s) = fst (request cl s)) by reflexivity.
  unfold valid_request. rewrite <- P. unfold data_size, sums_size. cbn [pemat_of pe_layout pe_data_size pe_sums_size pe_sums].
  set (s' := dside d s) in *. pose proof (to_pl V t T1 s') as L. pose proof (po_flat _ L) as F.
  destruct SZ as [Z1 Z2 Z3 Z4]. specialize (Z1 s'). specialize (Z2 s'). specialize (Z3 s'). specialize (Z4 s').
  cbv beta in *. rewrite (po_order _ L), (po_stride _ L). unfold int_max in *.
  assert (0 < pl_rows (get s' (tp_packed_layout t)) * pl_cols (get s' (tp_packed_layout t))) by (apply Z.mul_pos_pos; lia).
  assert (0 < pl_rows (get s' (tp_packed_layout t)) * pl_cols (get s' (tp_packed_layout t)) * o_data_size (tp_ops t) s' <= 2147483647 * 8).
  { split; [apply Z.mul_pos_pos; lia|]. apply Z.mul_le_mono_nonneg; lia. }
  assert (0 < pl_cols (get s' (tp_packed_layout t)) * o_sums_size (tp_ops t) s') by (apply Z.mul_pos_pos; lia).
  split; [lia|]. split; [lia|]. split; [lia|]. split; [reflexivity|exact HH].
Qed.

(** Entries have different buffers. *)
Lemma in_buffers : forall p, pe_data p <> 0 -> In (pe_data p, data_size p) (buffers p).
Proof. intros p H. unfold buffers. apply Z.eqb_neq in H. rewrite H. left. reflexivity. Qed.

Lemma FOP_perm_gen : forall {A} (R : A -> A -> Prop) a b, (forall x y, R x y -> R y x) -> Permutation a b -> ForallOrdPairs R a -> ForallOrdPairs R b.
Proof.
  intros A R a b SY H. induction H; intros F; auto.
  - inversion F as [|? ? Fx Fl]; subst. constructor; [|auto]. rewrite Forall_forall in *. intros z Hz. apply Fx. eapply Permutation_in; [apply Permutation_sym; exact H|exact Hz].
  - inversion F as [|? ? Fx Fl]; subst. inversion Fl as [|? ? Fy Fl']; subst. inversion Fx as [|? ? Fxy Fxl]; subst.
    constructor; [|constructor; auto]. constructor; [|auto]. apply SY. exact Fxy.
Qed.

Lemma data_distinct : forall s y l tb x, CInv s (y :: l) tb [] -> In x l -> pe_data (e_mat (snd x)) <> 0 ->
  pe_data (e_mat (snd y)) <> pe_data (e_mat (snd x)).
Proof.
  intros s y l tb x CI Hx N E.
  pose proof (ci_live _ _ _ _ CI) as P. rewrite app_nil_r in P. cbn [flat_map] in P.
  pose proof (FOP_perm _ _ P (me_disj _ _ (ci_mem _ _ _ _ CI))) as F.
  assert (B1 : In (pe_data (e_mat (snd y)), data_size (e_mat (snd y))) (buffers (e_mat (snd y)))) by (apply in_buffers; congruence).
  assert (B2 : In (pe_data (e_mat (snd x)), data_size (e_mat (snd x))) (flat_map (fun x => buffers (e_mat (snd x))) l)).
  { apply in_flat_map. exists x. split; [exact Hx|]. apply in_buffers. exact N. }
  assert (D : disjoint (pe_data (e_mat (snd y)), data_size (e_mat (snd y))) (pe_data (e_mat (snd x)), data_size (e_mat (snd x)))).
  { clear - F B1 B2. induction (buffers (e_mat (snd y))) as [|b bs IH]; [contradiction|]. cbn [app] in F. inversion F as [|? ? F1 F2]; subst.
    destruct B1 as [-> | B1]; [|auto]. rewrite Forall_forall in F1. apply F1. apply in_app_iff. right. exact B2. }
  pose proof (sz_data _ (ci_sized _ _ _ _ CI y (or_introl eq_refl))). pose proof (sz_data _ (ci_sized _ _ _ _ CI x (or_intror Hx))).
  unfold disjoint in D. cbn [fst snd] in D. lia.
Qed.

Section Context.
Variable sys : list sys_event -> list (Z * Z) -> Z -> Z.
Hypothesis Hsys : good_system sys.
Variable iter : list sys_event -> list (key * PrepackedCache.entry) -> list (key * PrepackedCache.entry).
Hypothesis Hiter : good_iteration iter.
Variable max : Z.
Variables (V : Type) (calls : list (call V)).
Hypothesis Hcalls : Forall cacheable_call calls.
Hypothesis Hkeys : keys_identify calls.

(** The entry [x] was made for operand [s] of [cl]. *)
Definition made_for (mem : Z -> pmat V) (x : key * PrepackedCache.entry) (cl : call V) (s : side) : Prop :=
  In cl calls /\ caches cl s = true /\ fst x = request_key (request cl s) /\
  (exists a b, e_mat (snd x) = set_buffers (snd (request cl s)) a b) /\ stored cl s (mem (pe_data (e_mat (snd x)))).

Record XInv (x : context V) (l : list (key * PrepackedCache.entry)) (tb : Z) : Prop := {
  xi_cache : CInv (x_cache x) l tb [];
  xi_under : under (x_cache x) l;
  xi_complete : complete l;
  xi_mem : forall y, In y l -> exists cl s, made_for (x_mem x) y cl s
}.

Lemma good_call : forall cl, In cl calls -> cacheable_call cl.
Proof using Hcalls. rewrite Forall_forall in Hcalls. auto. Qed.

(** The buffers of [p] are those of an entry. *)
Definition in_cache (l : list (key * PrepackedCache.entry)) (p : pemat) : Prop := exists y, In y l /\ e_mat (snd y) = p.

Lemma usable_in : forall x l tb p, CInv x l tb [] -> in_cache l p -> usable (cs_live x) (Some p) = true.
Proof.
  intros x l tb p CI (y & Hy & E). pose proof (alive_in _ _ _ _ _ CI Hy) as A. rewrite E in A. cbn [usable].
  assert (BL : forall a n, (a <> 0 -> In (a, n) (buffers p)) -> buffer_live (cs_live x) a = true).
  { intros a n H. unfold buffer_live. destruct (Z.eqb_spec a 0) as [| N]; [reflexivity|]. cbn [orb]. apply existsb_exists.
    exists (a, n). split; [apply A; auto|]. apply Z.eqb_refl. }
  rewrite (BL (pe_data p) (data_size p)), (BL (pe_sums p) (sums_size p)); [reflexivity| |].
  - intros N. unfold buffers. apply Z.eqb_neq in N. rewrite N. apply in_app_iff. right. left. reflexivity.
  - apply in_buffers.
Qed.

(** One lookup, with packing if needed. *)
Lemma cached_side_ok : forall cl t s x l tb, In cl calls -> tparams_ok t -> sizes_ok t -> tp_kl t = cl_kl cl ->
  tp_ops t = match ml_order (m_layout (cl_dst cl)) with ColMajor => cl_ops cl | RowMajor => swap_ops (cl_ops cl) end ->
  let u := dside (ml_order (m_layout (cl_dst cl))) s in
  get s (tp_src t) = src_of cl u -> pemat_of t (cl_float cl) s = snd (request cl u) -> caches cl u = true ->
  XInv x l tb ->
  forall a p cs l', cache_get sys iter max (fst (request cl u)) (snd (request cl u)) (x_cache x) = Ok (a, p, cs) ->
    CInv cs l' (tb + full_size (snd (request cl u))) [] -> get_spec max (request cl u) (x_cache x) l a p cs l' ->
    ~ some_call_failed (cs_trace cs) ->
    (exists q x', cached_side sys iter max cl t s x = Ok (q, p, x') /\ x_cache x' = cs /\ stored cl u q /\
       XInv x' l' (tb + full_size (snd (request cl u))) /\ size_in_cache p = size_in_cache (snd (request cl u))) \/
    (~ all_defined t /\ forall y, cached_side sys iter max cl t s x <> Ok y).
Proof using Hcalls Hkeys.
  intros cl t s x l tb Hcl T1 SZ T4 T3 u TS TP Hca [XC XU XO XM] a p cs l' EG CI G NF.
  pose proof (good_call cl Hcl) as C.
  pose proof (get_complete _ _ _ _ _ _ _ _ G NF XO) as CO'. pose proof (get_under _ _ _ _ _ _ _ _ _ XC G XU) as U'.
  destruct (get_returned _ _ _ _ _ _ _ _ G) as (tm & rest & EL).
  assert (Pd : pe_data p <> 0) by (destruct (CO' (request_key (request cl u), {| e_mat := p; e_time := tm |})) as (A & _); [rewrite EL; left; reflexivity|exact A]).
  unfold cached_side. rewrite addr_ok. fold u. rewrite TP, EG. cbn [bind]. rewrite (proj2 (Z.eqb_neq _ _) Pd).
  inversion G as [l1 e l2 s' EQ Bs Ls Ts | kept ejected d0 a0 n1 n2 fr s' EQ N Bs CC AN F T]; subst a p s'; match goal with H : _ :: _ = l' |- _ => clear EL; subst l' end.
  - (* found *)
    left. destruct (XM (request_key (request cl u), e)) as (cl0 & s0 & J1 & J2 & J3 & (b1 & b2 & J4) & J5).
    { rewrite EQ. apply in_app_iff. right. left. reflexivity. }
    cbn [fst snd] in *. pose proof (Hkeys cl0 cl s0 u J1 Hcl J2 Hca (eq_sym J3)) as I.
    assert (LE : pe_layout (snd (request cl0 s0)) = pe_layout (snd (request cl u))).
    { pose proof (f_equal k_layout J3) as KL. unfold request_key in KL. cbn [k_layout] in KL. congruence. }
    destruct (in_types _ _ _ _ I) as (I1 & I2 & I3).
    assert (PS : pe_data_size (snd (request cl0 s0)) = pe_data_size (snd (request cl u)) /\
                 pe_sums_size (snd (request cl0 s0)) = pe_sums_size (snd (request cl u)) /\
                 pe_sums_float (snd (request cl0 s0)) = pe_sums_float (snd (request cl u))) by (cbn; auto).
    destruct PS as (P1 & P2 & P3).
    assert (ST : same_types (e_mat e) (snd (request cl u)) = true).
    { unfold same_types. rewrite J4. cbn [set_buffers pe_data_size pe_sums_size pe_sums_float]. rewrite P1, P2, P3, !Z.eqb_refl.
      rewrite Bool.eqb_reflx. reflexivity. }
    rewrite ST. eexists _, _. split; [reflexivity|]. cbn [x_cache x_mem]. split; [reflexivity|].
    split; [apply (stored_interchange cl0 cl s0 u); [apply good_call; exact J1|exact C|exact I|congruence|exact J5]|].
    split.
    + constructor; cbn [x_cache x_mem]; auto. intros y Hy. destruct Hy as [<- | Hy].
      * exists cl0, s0. unfold made_for. cbn [fst snd e_mat]. split; [exact J1|]. split; [exact J2|]. split; [exact J3|]. split; [eauto|exact J5].
      * apply XM. rewrite EQ. apply in_middle. exact Hy.
    + unfold size_in_cache, data_size, sums_size. rewrite J4. cbn [set_buffers pe_data_size pe_sums_size pe_sums_float pe_layout].
      rewrite P1, P2, P3, LE. reflexivity.
  - (* new *)
    cbn [set_buffers pe_data pe_sums pe_layout pe_zp] in *. rewrite <- TP. cbn [pemat_of pe_layout pe_zp].
    set (ly := get s (tp_packed_layout t)).
    pose proof (to_pl V t T1 s) as L. cbv beta in L. fold ly in L. pose proof (po_flat _ L) as FL.
    pose proof (so_nonempty V t SZ s) as NE. cbv beta in NE. fold ly in NE.
    assert (0 < pl_rows ly * pl_cols ly) by (apply Z.mul_pos_pos; lia).
    assert (EF : pflat_size ly = Ok (pl_rows ly * pl_cols ly)).
    { unfold pflat_size. rewrite (po_order _ L), (po_stride _ L). apply AllocFacts.i64_ok. unfold int_max in FL. lia. }
    rewrite EF. cbn [bind].
    set (q0 := {| p_data := _; p_sums := _; p_layout := ly; p_zp := _ |}).
    assert (PQ : pmat_ok q0).
    { constructor; unfold q0; cbn [p_layout p_data p_sums blen]; auto; [lia|]. intros b Hb. destruct (a0 =? 0); [discriminate|]. injection Hb as <-. cbn [blen]. lia. }
    assert (LS : forall c, col_sum (tp_ops t) s (get s (tp_src t)) (get s (tp_packed_zp t)) (pl_rows ly) c = t_sum t s c) by reflexivity.
    pose proof (to_cols V t T1 s) as TC. pose proof (to_max V t T1 s) as TM. pose proof (to_kernel V t T1 s) as TK.
    cbv beta in TC, TM, TK. fold ly in TC, TK.
    assert (KP := kl_cols_pos V t T1 s). cbv beta in KP.
    destruct (range_dec V (t_sum t s) 0 (pl_cols ly)) as [DF|(c & Hc & ND)].
    + left. destruct (run_pack_ok (c_dbg (cl_config cl)) (tp_ops t) s (kl_cols (get s (tp_kl t))) (get s (tp_src t)) q0 0 (pl_cols ly))
        as (q & EP & SH & DN & _).
      * apply (to_src V t T1 s).
      * exact PQ.
      * unfold q0. cbn [p_layout]. rewrite TK. reflexivity.
      * lia.
      * unfold q0. cbn [p_layout]. lia.
      * lia.
      * rewrite Z.sub_0_r. pose proof (po_cols_al _ L) as AL. rewrite TK in AL. exact AL.
      * intros c Hc. unfold q0. cbn [p_layout p_zp]. rewrite LS. apply DF. exact Hc.
      * rewrite EP. cbn [bind]. eexists _, _. split; [reflexivity|]. cbn [x_cache]. split; [reflexivity|].
        pose proof SH as [Q1 Q2 Q3 Q4]. unfold q0 in Q1, Q2, Q4. cbn [p_layout p_zp p_sums] in Q1, Q2, Q4.
        assert (SQ : stored cl u q).
        { constructor.
          - apply (pmat_ok_same q0); [|exact PQ]. exact SH.
          - rewrite Q1, <- TP. reflexivity.
          - rewrite Q2, <- TP. reflexivity.
          - intros HN. rewrite HN in Q4. destruct (Z.eqb_spec a0 0) as [Ea|]; [|discriminate].
            destruct (cl_float cl) eqn:Efl; [reflexivity|].
            destruct (CO' (request_key (request cl u), {| e_mat := set_buffers (snd (request cl u)) d0 a0; e_time := cs_time (x_cache x) |})) as (_ & A & _).
            { left. reflexivity. }
            exfalso. apply A; [exact Efl|exact Ea].
          - intros c Hc. rewrite Q1 in Hc. split.
            + assert (X : col_done (tp_ops t) s (get s (tp_src t)) q c) by (apply DN; exact Hc). rewrite TS, T3 in X.
              unfold u in *. destruct (ml_order (m_layout (cl_dst cl))), s; exact X.
            + destruct (DF c Hc) as [v Ev]. exists v. rewrite <- Ev, Q1, Q2. unfold t_sum. fold ly. rewrite TS, T3.
              unfold u. destruct (ml_order (m_layout (cl_dst cl))), s; reflexivity. }
        split; [exact SQ|]. rewrite !TP. split.
        -- constructor; cbn [x_cache x_mem]; auto. intros y Hy. destruct Hy as [<- | Hy].
           ++ exists cl, u. unfold made_for. cbn [fst snd e_mat set_buffers pe_data]. rewrite Z.eqb_refl.
              split; [exact Hcl|]. split; [exact Hca|]. split; [reflexivity|]. split; [eauto|exact SQ].
           ++ destruct (XM y) as (cl0 & s0 & H1 & H2 & H3 & H4 & H5). { rewrite EQ. apply in_app_iff. left. exact Hy. }
              exists cl0, s0. unfold made_for. split; [exact H1|]. split; [exact H2|]. split; [exact H3|]. split; [exact H4|].
              destruct (CO' y (or_intror Hy)) as (Ny & _).
              pose proof (data_distinct _ _ _ _ _ CI Hy Ny) as DD. cbn [snd e_mat set_buffers pe_data] in DD.
              rewrite (proj2 (Z.eqb_neq _ _)) by congruence. exact H5.
        -- reflexivity.
    + right. split.
      * intros [A _]. destruct (A s c Hc) as [v Ev]. exact (ND v Ev).
      * intros y E. apply bind_ok_pre in E. destruct E as [q E].
        apply run_pack_inv with (c := c) in E; auto.
        -- destruct E as [v Ev]. apply (ND v). exact Ev.
        -- apply (to_src V t T1 s).
        -- lia.
        -- unfold q0. cbn [p_layout]. lia.
Qed.

(** ** The two operands *)

Lemma run_app : forall a b s es s', run sys iter max a s = Ok (es, s') ->
  run sys iter max (a ++ b) s = ('(fs, s'') <- run sys iter max b s' ;; Ok (es ++ fs, s'')).
Proof.
  induction a as [|r a IH]; intros b s es s' H; cbn [run app] in *.
  - injection H as <- <-. destruct (run sys iter max b s) as [[fs s'']| |]; reflexivity.
  - destruct (cache_get sys iter max (fst r) (snd r) s) as [[[a0 p] s0]| |]; cbn [bind] in *; try discriminate.
    destruct (run sys iter max a s0) as [[es0 s1]| |] eqn:E; cbn [bind] in *; try discriminate. injection H as <- <-.
    rewrite (IH b _ _ _ E). destruct (run sys iter max b s1) as [[fs s'']| |]; reflexivity.
Qed.

Lemma requested_app : forall a b, bytes_requested (a ++ b) = bytes_requested a + bytes_requested b.
Proof. induction a as [|x a IH]; intros b; cbn [app bytes_requested fold_right]; [reflexivity|]. fold (bytes_requested (a ++ b)) (bytes_requested a). rewrite IH. lia. Qed.

Definition head (l : list (key * PrepackedCache.entry)) (p : pemat) : Prop :=
  exists k tm rest, l = (k, {| e_mat := p; e_time := tm |}) :: rest.

Lemma head_in : forall l p, head l p -> in_cache l p.
Proof. intros l p (k & tm & rest & ->). eexists. split; [left; reflexivity|reflexivity]. Qed.

Definition front (cl : call V) (t : tparams V) : Prop :=
  let d := ml_order (m_layout (cl_dst cl)) in
  tparams_ok t /\ sizes_ok t /\ tp_kl t = cl_kl cl /\
  tp_ops t = match d with ColMajor => cl_ops cl | RowMajor => swap_ops (cl_ops cl) end /\
  (forall s, get s (tp_src t) = src_of cl (dside d s)) /\
  (forall s, pemat_of t (cl_float cl) s = snd (request cl (dside d s))).

Definition asked (cl : call V) (u : side) : list (Z * pemat) := if caches cl u then [request cl u] else [].

(** A side is ready for TrMul. *)
Record ready (cl : call V) (t : tparams V) (s : side) (e : option pemat) (q : pmat V) : Prop := {
  rd_ok : pmat_ok q;
  rd_layout : p_layout q = get s (tp_packed_layout t);
  rd_zp : p_zp q = get s (tp_packed_zp t);
  rd_sums : get (other_side s) (tp_packed_zp t) <> 0 -> p_sums q <> None;
  rd_cols : is_some e = true -> forall c, 0 <= c < pl_cols (get s (tp_packed_layout t)) ->
    col_done (tp_ops t) s (get s (tp_src t)) q c /\ exists v, t_sum t s c = Ok v
}.

Lemma prepare_side_ok : forall cl t s c0 l tb, In cl calls -> front cl t ->
  let u := dside (ml_order (m_layout (cl_dst cl))) s in
  CInv c0 l tb [] -> under c0 l -> tb + bytes_requested (asked cl u) < 2 ^ 62 ->
  exists evs cs l', run sys iter max (asked cl u) c0 = Ok (evs, cs) /\
    CInv cs l' (tb + bytes_requested (asked cl u)) [] /\ under cs l' /\ (exists tr, cs_trace cs = cs_trace c0 ++ tr) /\
    (forall p, head l p -> (caches cl u = true -> size_in_cache p + size_in_cache (snd (request cl u)) <= max) -> in_cache l' p) /\
    (forall x, x_cache x = c0 -> XInv x l tb -> ~ some_call_failed (cs_trace cs) ->
     (exists q e x', prepare_side sys iter max cl t s x = Ok (q, e, x') /\ x_cache x' = cs /\
        XInv x' l' (tb + bytes_requested (asked cl u)) /\ is_some e = caches cl u /\ ready cl t s e q /\
        (forall p, e = Some p -> head l' p /\ size_in_cache p = size_in_cache (snd (request cl u)))) \/
     (~ all_defined t /\ forall y, prepare_side sys iter max cl t s x <> Ok y)).
Proof using Hsys Hiter Hcalls Hkeys.
  intros cl t s c0 l tb Hcl (T1 & SZ & T4 & T3 & TS & TP) u XC XU Htb.
  pose proof (good_call cl Hcl) as C.
  pose proof (caches_ok V cl C t T4 T1 TS s) as SC. fold u in SC.
  unfold asked in *. destruct (caches cl u) eqn:Eca.
  - assert (EB : bytes_requested [request cl u] = full_size (snd (request cl u))).
    { unfold bytes_requested, full_size. cbn [fold_right]. lia. }
    rewrite EB in *.
    pose proof (request_valid cl u C Eca) as VR.
    destruct (cache_get_ok sys Hsys iter Hiter max c0 l tb (request cl u) XC VR Htb) as (a & p & cs & l' & EG & CI & G).
    cbn [run]. rewrite EG. cbn [bind]. eexists _, cs, l'. split; [reflexivity|]. split; [exact CI|].
    split; [exact (get_under _ _ _ _ _ _ _ _ _ XC G XU)|]. split; [eapply get_trace; exact G|]. split.
    { intros p0 (k & tm & rest & ->) Hmax.
      destruct (second_lookup max (request cl u) c0 k _ rest a p cs l' G XU (ci_sized _ _ _ _ XC) (Hmax eq_refl)) as (y & Hy & Ey).
      exists y. split; [exact Hy|]. rewrite Ey. reflexivity. }
    intros x <- XI NF. unfold prepare_side. rewrite SC. cbn [bind].
    destruct (cached_side_ok cl t s x l tb Hcl T1 SZ T4 T3 (TS s) (TP s) Eca XI a p cs l' EG CI G NF) as [(q & x' & E & Ex & ST & XI' & Esz)|[ND N]].
    + left. rewrite E. cbn [bind]. eexists _, _, _. split; [reflexivity|]. split; [exact Ex|]. split; [exact XI'|]. split; [reflexivity|]. fold u in ST. split.
      * destruct ST as [S1 S2 S3 S4 S5].
        assert (LY : p_layout q = get s (tp_packed_layout t)) by (rewrite S2; unfold u; rewrite <- TP; reflexivity).
        assert (ZP : p_zp q = get s (tp_packed_zp t)) by (rewrite S3; unfold u; rewrite <- TP; reflexivity).
        constructor; auto.
        -- intros Hz HN. apply Hz. specialize (S4 HN). pose proof (cc_float _ C S4) as CF.
           pose proof (f_equal pe_zp (TP (other_side s))) as X. cbn [pemat_of pe_zp request snd] in X. rewrite X. apply CF.
        -- intros _ c Hc. rewrite LY in S5. destruct (S5 c Hc) as [D [v Ev]]. rewrite ZP in Ev. split.
           ++ rewrite TS, T3. unfold u in D. destruct (ml_order (m_layout (cl_dst cl))), s; exact D.
           ++ exists v. unfold t_sum. rewrite <- Ev, TS, T3. unfold u. destruct (ml_order (m_layout (cl_dst cl))), s; reflexivity.
      * intros p0 Ep. injection Ep as <-. split; [|exact Esz].
        destruct (get_returned _ _ _ _ _ _ _ _ G) as (tm & rest & EL). exists (request_key (request cl u)), tm, rest. exact EL.
    + right. split; [exact ND|]. intros y E. apply bind_ok_pre in E. destruct E as [z E]. exact (N z E).
  - cbn [run bytes_requested fold_right]. rewrite Z.add_0_r. eexists _, c0, l. split; [reflexivity|]. split; [exact XC|]. split; [exact XU|].
    split; [exists []; rewrite app_nil_r; reflexivity|]. split; [intros p H _; apply head_in; exact H|].
    intros x <- XI NF. left. unfold prepare_side. rewrite SC. cbn [bind].
    destruct (allocate_packed_ok V t T1 s (g_packed (cl_garbage cl) s) (g_sums (cl_garbage cl) s) SZ) as (q & E & Q1 & Q2 & Q3 & Q4).
    rewrite E. cbn [bind]. eexists _, _, _. split; [reflexivity|]. split; [reflexivity|]. split; [exact XI|]. split; [reflexivity|]. split.
    + constructor; auto. discriminate.
    + discriminate.
Qed.

(** ** A whole call *)

(** Everything before TrMul. *)
Definition both_sides (cl : call V) (t : tparams V) (x : context V) : res (pmat V * option pemat * (pmat V * option pemat * context V)) :=
  '(pl, el, x) <- prepare_side sys iter max cl t Lhs x ;;
  r <- prepare_side sys iter max cl t Rhs x ;; Ok (pl, el, r).

Definition rest_of_call (cl : call V) (t : tparams V) (sched : list (Z * bool)) (pl : pmat V) (el : option pemat) (pr : pmat V) (er : option pemat)
  (x : context V) : res (option (mat V) * context V) :=
  if usable (cs_live (x_cache x)) el && usable (cs_live (x_cache x)) er then
    out <- trmul (cl_config cl) t (mk_sp (is_some el) (is_some er)) sched {| tm_packed := mk_sp pl pr; tm_dst := m_data (cl_dst cl) |} ;;
    Ok (match out with
        | Some m' => Some {| m_data := tm_dst m'; m_layout := m_layout (cl_dst cl); m_zp := m_zp (cl_dst cl) |}
        | None => None
        end, x)
  else UB.

Lemma cached_mul_eq : forall cl x sched t adv,
  mul_front_end (c_dbg (cl_config cl)) (cl_ops cl) (cl_kl cl) (g_chan (cl_garbage cl)) (g_exp (cl_garbage cl)) (cl_lhs cl) (cl_rhs cl) (cl_dst cl) (cl_mp cl) = Ok (t, adv) ->
  cached_mul sys iter max (with_schedule cl sched) x =
  ('(pl, el, (pr, er, x)) <- both_sides cl t x ;; rest_of_call cl t sched pl el pr er x).
Proof.
  intros cl x sched t adv E. unfold cached_mul, both_sides, rest_of_call.
  cbn [with_schedule cl_config cl_ops cl_kl cl_garbage cl_lhs cl_rhs cl_dst cl_mp cl_sched]. rewrite E. cbn [bind].
  change (prepare_side sys iter max (with_schedule cl sched) t) with (prepare_side sys iter max cl t).
  destruct (prepare_side sys iter max cl t Lhs x) as [[[pl el] x1]| |]; cbn [bind]; try reflexivity.
  destruct (prepare_side sys iter max cl t Rhs x1) as [[[pr er] x2]| |]; cbn [bind]; reflexivity.
Qed.

Lemma same_schedule : forall cl : call V, with_schedule cl (cl_sched cl) = cl.
Proof. intros []. reflexivity. Qed.

Definition cl_defined (cl : call V) : Prop := mul_defined (cl_ops cl) (cl_kl cl) (cl_lhs cl) (cl_rhs cl) (cl_dst cl) (cl_mp cl).
Definition cl_done (cl : call V) (out : mat V) : Prop := mul_done (cl_ops cl) (cl_kl cl) (cl_lhs cl) (cl_rhs cl) (cl_dst cl) (cl_mp cl) out.

Lemma both_sides_ok : forall cl t c0 l tb, In cl calls -> front cl t ->
  CInv c0 l tb [] -> under c0 l -> tb + bytes_requested (lookups cl) < 2 ^ 62 ->
  exists evs cs l', run sys iter max (lookups cl) c0 = Ok (evs, cs) /\
    CInv cs l' (tb + bytes_requested (lookups cl)) [] /\ under cs l' /\ (exists tr, cs_trace cs = cs_trace c0 ++ tr) /\
    (forall x, x_cache x = c0 -> XInv x l tb -> ~ some_call_failed (cs_trace cs) ->
     (exists pl el pr er x', both_sides cl t x = Ok (pl, el, (pr, er, x')) /\ x_cache x' = cs /\
        XInv x' l' (tb + bytes_requested (lookups cl)) /\ ready cl t Lhs el pl /\ ready cl t Rhs er pr /\
        (room_for_both max cl -> usable (cs_live cs) el = true) /\ usable (cs_live cs) er = true) \/
     (~ all_defined t /\ forall y, both_sides cl t x <> Ok y)).
Proof using Hsys Hiter Hcalls Hkeys.
  intros cl t c0 l tb Hcl F XC XU Htb. rewrite lookups_eq in *. set (d := ml_order (m_layout (cl_dst cl))) in *.
  change (if caches cl (dside d Lhs) then [request cl (dside d Lhs)] else []) with (asked cl (dside d Lhs)) in *.
  change (if caches cl (dside d Rhs) then [request cl (dside d Rhs)] else []) with (asked cl (dside d Rhs)) in *.
  rewrite requested_app in *.
  assert (N2 : 0 <= bytes_requested (asked cl (dside d Rhs))).
  { apply requested_nonneg. unfold asked. destruct (caches cl (dside d Rhs)) eqn:E; constructor; [|constructor]. apply request_valid; [apply good_call; exact Hcl|exact E]. }
  destruct (prepare_side_ok cl t Lhs c0 l tb Hcl F XC XU) as (ev1 & cs1 & l1 & R1 & CI1 & U1 & (tr1 & T1) & _ & P1); [fold d; lia|]. fold d in R1, CI1, P1.
  destruct (prepare_side_ok cl t Rhs cs1 l1 _ Hcl F CI1 U1) as (ev2 & cs2 & l2 & R2 & CI2 & U2 & (tr2 & T2) & K2 & P2); [fold d; lia|]. fold d in R2, CI2, K2, P2.
  rewrite (run_app _ _ _ _ _ R1), R2. cbn [bind]. rewrite Z.add_assoc.
  eexists _, cs2, l2. split; [reflexivity|]. split; [exact CI2|]. split; [exact U2|]. split; [exists (tr1 ++ tr2); rewrite T2, T1, app_assoc; reflexivity|].
  intros x Hx XI NF. unfold both_sides.
  assert (NF1 : ~ some_call_failed (cs_trace cs1)) by (rewrite T2 in NF; eapply no_failure_before; exact NF).
  destruct (P1 x Hx XI NF1) as [(pl & el & y & E1 & Ex & XI1 & I1 & RD1 & HD1)|[ND N]].
  2:{ right. split; [exact ND|]. intros z E. apply bind_ok_pre in E. destruct E as [w E]. exact (N w E). }
  rewrite E1. cbn [bind].
  destruct (P2 y Ex XI1 NF) as [(pr & er & x' & E2 & Ex' & XI2 & I2 & RD2 & HD2)|[ND N]].
  2:{ right. split; [exact ND|]. intros z E. apply bind_ok_pre in E. destruct E as [w E]. exact (N w E). }
  rewrite E2. cbn [bind]. left. eexists _, _, _, _, _. split; [reflexivity|]. split; [exact Ex'|]. split; [exact XI2|].
  split; [exact RD1|]. split; [exact RD2|]. split.
  - intros RB. destruct el as [p|]; [|reflexivity]. destruct (HD1 p eq_refl) as [H1 Hs]. eapply usable_in; [exact CI2|].
    apply K2; [exact H1|]. intros Hc. rewrite Hs. cbn [is_some] in I1. unfold room_for_both in RB.
    destruct d; cbn [dside other_side] in *; [|rewrite Z.add_comm]; apply RB; auto.
  - destruct er as [p|]; [|reflexivity]. eapply usable_in; [exact CI2|]. apply head_in. apply HD2. reflexivity.
Qed.

Lemma call_front : forall cl, In cl calls -> exists t adv,
  mul_front_end (c_dbg (cl_config cl)) (cl_ops cl) (cl_kl cl) (g_chan (cl_garbage cl)) (g_exp (cl_garbage cl)) (cl_lhs cl) (cl_rhs cl) (cl_dst cl) (cl_mp cl) = Ok (t, adv) /\
  front cl t /\ trmul_domain (cl_config cl) t /\
  flat (tp_dst_layout t) <= blen (m_data (cl_dst cl)) /\
  (all_defined t <-> cl_defined cl) /\
  (forall prepacked m m', tm_dst m = m_data (cl_dst cl) -> finished t prepacked m m' ->
     cl_done cl {| m_data := tm_dst m'; m_layout := m_layout (cl_dst cl); m_zp := m_zp (cl_dst cl) |}).
Proof using Hcalls.
  intros cl Hcl. pose proof (good_call cl Hcl) as C.
  destruct (front_ok V cl C (cl_garbage cl)) as (t & adv & E & T1 & SZ & TD & T6 & PC & TS & TE & T3 & T4 & Tsrc & TP).
  exists t, adv. split; [exact E|]. split; [repeat (split; [assumption|]); assumption|]. split; [exact TD|]. split; [|split].
  - rewrite T6. pose proof (valid_call_ok _ _ _ _ _ _ _ _ (cc_valid _ C)) as CO. pose proof (mo_len _ (ca_d _ _ _ _ _ _ _ CO)).
    destruct (ml_order (m_layout (cl_dst cl))); cbn [sub_layout]; rewrite ?flat_transpose; auto.
  - apply (defined_iff V (cl_ops cl) (cl_kl cl) (cl_lhs cl) (cl_rhs cl) (cl_dst cl) (cl_mp cl) t T6 PC TS TE).
  - intros prepacked m m' Hd F. apply (done_of_finished V (cl_ops cl) (cl_kl cl) (cl_lhs cl) (cl_rhs cl) (cl_dst cl) (cl_mp cl) prepacked t m m' T6 TE T3 Hd F).
Qed.

Lemma cached_mul_ok : forall cl c0 l tb, In cl calls ->
  CInv c0 l tb [] -> under c0 l -> tb + bytes_requested (lookups cl) < 2 ^ 62 ->
  exists evs cs l', run sys iter max (lookups cl) c0 = Ok (evs, cs) /\
    CInv cs l' (tb + bytes_requested (lookups cl)) [] /\ under cs l' /\ (exists tr, cs_trace cs = cs_trace c0 ++ tr) /\
    (forall x, x_cache x = c0 -> XInv x l tb -> ~ some_call_failed (cs_trace cs) ->
     (forall sched out x', cached_mul sys iter max (with_schedule cl sched) x = Ok (out, x') ->
        x_cache x' = cs /\ XInv x' l' (tb + bytes_requested (lookups cl)) /\ forall m, out = Some m -> cl_defined cl /\ cl_done cl m) /\
     (cl_defined cl -> room_for_both max cl ->
        (forall sched, exists out x', cached_mul sys iter max (with_schedule cl sched) x = Ok (out, x')) /\
        forall sched, fair (c_max_threads (cl_config cl)) sched ->
          exists n m x', cached_mul sys iter max (with_schedule cl (prefix sched n)) x = Ok (Some m, x'))).
Proof using Hsys Hiter Hcalls Hkeys.
  intros cl c0 l tb Hcl XC XU Htb. destruct (call_front cl Hcl) as (t & adv & E & F & TD & FL & DI & DN).
  destruct (both_sides_ok cl t c0 l tb Hcl F XC XU Htb) as (evs & cs & l' & R & CI & U & T & P).
  exists evs, cs, l'. split; [exact R|]. split; [exact CI|]. split; [exact U|]. split; [exact T|].
  intros x Hx XI NF. destruct (P x Hx XI NF) as [(pl & el & pr & er & x' & EB & Ex & XI' & RL & RR & UL & UR)|[ND N]].
  2:{ split.
      - intros sched out x' H. rewrite (cached_mul_eq cl x sched t adv E) in H. apply bind_ok_pre in H. destruct H as [y H]. destruct (N y H).
      - intros D. destruct (ND (proj2 DI D)). }
  set (m0 := {| tm_packed := mk_sp pl pr; tm_dst := m_data (cl_dst cl) |}). set (pp := mk_sp (is_some el) (is_some er)).
  assert (MM : tmem_ok t m0).
  { constructor; [intros []|intros []|intros []|intros []|exact FL]; cbn [m0 tm_packed get lhs rhs].
    - apply (rd_ok _ _ _ _ _ RL). - apply (rd_ok _ _ _ _ _ RR). - apply (rd_layout _ _ _ _ _ RL). - apply (rd_layout _ _ _ _ _ RR).
    - apply (rd_zp _ _ _ _ _ RL). - apply (rd_zp _ _ _ _ _ RR). - apply (rd_sums _ _ _ _ _ RL). - apply (rd_sums _ _ _ _ _ RR). }
  assert (PP : prepacked_ok t pp m0).
  { intros [] c H Hc; cbn [pp get lhs rhs] in H; unfold packed_col; cbn [m0 tm_packed get lhs rhs]; [apply (rd_cols _ _ _ _ _ RL)|apply (rd_cols _ _ _ _ _ RR)]; assumption. }
  pose proof F as (T1 & _).
  assert (EQ : forall sched, cached_mul sys iter max (with_schedule cl sched) x = rest_of_call cl t sched pl el pr er x').
  { intros sched. rewrite (cached_mul_eq cl x sched t adv E), EB. reflexivity. }
  unfold rest_of_call in EQ. fold pp m0 in EQ. rewrite Ex, UR in EQ. rewrite andb_true_r in EQ. split.
  - intros sched out x'' H. rewrite EQ in H. destruct (usable (cs_live cs) el); [|discriminate].
    destruct (trmul (cl_config cl) t pp sched m0) as [o| |] eqn:Et; cbn [bind] in H; try discriminate.
    injection H as H1 H2. subst x''. split; [exact Ex|]. split; [exact XI'|]. intros m Hm. subst out.
    destruct o as [m'|]; [|discriminate]. injection Hm as <-.
    pose proof (trmul_partial V (cl_config cl) t pp T1 TD sched m0 _ MM PP Et m' eq_refl) as FI. split.
    + apply DI. split.
      * intros s c Hc. destruct (get s pp) eqn:Es; [|apply (fi_sums _ _ _ _ _ FI); assumption].
        destruct s; cbn [pp get lhs rhs] in Es; [apply (rd_cols _ _ _ _ _ RL)|apply (rd_cols _ _ _ _ _ RR)]; assumption.
      * intros i j Hij. eexists. apply (fi_entries _ _ _ _ _ FI). exact Hij.
    + apply (DN pp m0 m'); [reflexivity|exact FI].
  - intros D RB. rewrite (UL RB) in EQ. apply DI in D. split.
    + intros sched. rewrite EQ. destruct (trmul_total V (cl_config cl) t pp T1 TD D sched m0 MM PP) as (out & ->). cbn [bind]. eauto.
    + intros sched (F1 & k0 & F2). destruct (trmul_fair V (cl_config cl) t pp T1 TD D sched k0 m0 MM PP F1 F2) as (n & m' & Et).
      exists n. rewrite EQ. unfold prefix. rewrite Et. cbn [bind]. eauto.
Qed.
End Context.
