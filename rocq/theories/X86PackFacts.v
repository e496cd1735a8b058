(** Packing on the x86 paths: whichever function is selected, the columns are packed. *)
From Coq Require Import ZArith List Bool Lia.
From Verif Require Import Base SidePair Mat MatFacts Scalars IntOps Pack SpecArith SpecMatrix SpecPack SpecMul PackFacts PackProps
  PackX86 SpecPackX86 PackX86Portable TrMul TrMulFacts X86Mul.
Import ListNotations.
Open Scope Z_scope.

(** The operations of an exchanged TrMul are those of the exchanged types. *)
Lemma run_pack_swap : forall ar dbg dbg' st pt dt s n src p a b,
  run_pack dbg (swap_ops (int_ops ar dbg' st pt dt)) s n src p a b =
  run_pack dbg (int_ops ar dbg' (mk_sp (rhs st) (lhs st)) (mk_sp (rhs pt) (lhs pt)) dt) s n src p a b.
Proof. intros. destruct s; reflexivity. Qed.

(** Is position [i] in one of the columns [a, b)? *)
Lemma in_columns_dec : forall l a b i,
  (forall r c, 0 <= r < pl_rows l -> a <= c < b -> poff l r c <> i) \/ (exists r c, 0 <= r < pl_rows l /\ a <= c < b /\ poff l r c = i).
Proof.
  intros l a b i. destruct (rect_dec_ok Z (fun r c => if poff l r c =? i then UB else Ok 0) 0 (pl_rows l) a b) as [H|(r & c & Hr & Hc & H)].
  - left. intros r c Hr Hc E. destruct (H r c Hr Hc) as (v & Hv). replace (poff l r c =? i) with true in Hv by lia. discriminate.
  - right. exists r, c. split; [exact Hr|]. split; [exact Hc|]. destruct (Z.eqb_spec (poff l r c) i); [assumption|]. destruct (H 0 eq_refl).
Qed.

Lemma accumulated_int : forall l acc v, int_min <= acc <= int_max -> accumulate (fun a x => checked (a + x)) acc l = Ok v -> int_min <= v <= int_max.
Proof.
  induction l as [|x l IH]; intros acc v H E; cbn [accumulate] in E.
  - injection E as <-. exact H.
  - destruct (checked (acc + x)) as [a| |] eqn:Ea; cbn [bind] in E; try discriminate. apply IH in E; [exact E|].
    unfold checked, i32, in_i32 in Ea. destruct (_ && _) eqn:Eb in Ea; [|discriminate]. injection Ea as <-. unfold int_min, int_max in *. lia.
Qed.

Lemma portable_is_packed : forall dbg dbg' s sts pts dt n src p a b, valid_kernel_layout (blocks_of n) ->
  symmetric_zero_point (get s sts) = middle (get s sts) -> 0 < it_bits (get s pts) -> it_bits (get s pts) <= 32 -> it_signed (get s pts) = true ->
  pack_call n (get s pts) src p a b -> pl_rows (p_layout p) * max_abs (get s pts) <= int_max ->
  exists q, run_pack dbg (int_ops checked dbg' sts pts dt) s n src p a b = Ok q /\
    columns_packed (get s sts) (get s pts) src a b p q.
Proof.
  intros dbg dbg' s sts pts dt n src p a b Hk Hmid Hbits Hbits' Hsg (HV & HP & Hz & Hab & Hb & Da & Db) Hmax.
  set (o := int_ops checked dbg' sts pts dt).
  assert (SE : forall r c, c < ml_cols (m_layout src) -> packed_entry o s src (p_zp p) r c = packed_value (get s sts) (get s pts) src (p_zp p) r c)
    by (intros; exact (value_is_entry dbg' s sts pts dt src (p_zp p) r c Hmid Hbits Hsg Hz H)).
  pose proof (packed_for_ok src (blocks_of n) p Hk HV HP) as PM. pose proof (pmo_layout _ PM) as PL.
  assert (SS : forall c, packed_sum o s src (p_zp p) (pl_rows (p_layout p)) c = Ok (zsum (map (fun r => packed_entry o s src (p_zp p) r c) (zrange 0 (pl_rows (p_layout p))))))
    by (intros c; apply sums_are_exact; [exact Hbits|apply (po_rows _ PL)|exact Hmax]).
  destruct (run_pack_ranges Z dbg o s (blocks_of n) src Hk HV p [(a, b)] HP) as (q & E & EL & EZ & ELen & V & Rest & S).
  - intros a' b' [H|[]]. injection H as <- <-. cbn [blocks_of kl_cols]. repeat split; try assumption; apply Hab.
  - intros c _. eexists. apply SS.
  - cbn [pack_ranges blocks_of kl_cols] in E. destruct (run_pack dbg o s n src p a b) as [q1| |] eqn:E1; cbn [bind] in E; try discriminate. injection E as ->.
    assert (CC : forall c, a <= c < b -> covered [(a, b)] c) by (intros c Hc; exists a, b; split; [left; reflexivity|exact Hc]).
    assert (CN : forall c, covered [(a, b)] c -> a <= c < b) by (intros c (a' & b' & [H|[]] & Hab'); injection H as <- <-; exact Hab').
    assert (VV : forall r c, 0 <= r < pl_rows (p_layout p) -> a <= c < b -> bdat (p_data q) (poff (p_layout p) r c) = packed_entry o s src (p_zp p) r c).
    { intros r c Hr Hc. specialize (V r c Hr (CC c Hc)). unfold pelement in V. rewrite EL, poffset_ok in V by (try exact PL; try exact Hr; lia).
      cbn [bind] in V. apply bread_inv in V. destruct V as (_ & V). congruence. }
    exists q. split; [reflexivity|]. constructor.
    + auto.
    + intros r c Hr Hc Hcc. rewrite <- SE by exact Hcc. specialize (V r c Hr (CC c Hc)). unfold pelement in *. rewrite EL in *.
      rewrite poffset_ok in * by (try exact PL; try exact Hr; lia). exact V.
    + destruct (p_sums p) as [s1|]; destruct (p_sums q) as [s2|]; try (destruct S; fail); [|exact Logic.I].
      destruct S as (SL & S1 & S2). split; [exact SL|]. split.
      * intros c Hc Hcc. specialize (S1 c (CC c Hc)). rewrite SS in S1. injection S1 as <-.
        assert (Em : map (fun r => packed_entry o s src (p_zp p) r c) (zrange 0 (pl_rows (p_layout p))) =
                     map (fun r => packed_value (get s sts) (get s pts) src (p_zp p) r c) (zrange 0 (pl_rows (p_layout p))))
          by (apply map_ext_in; intros r _; apply SE; exact Hcc).
        rewrite Em. symmetry. apply Base.wrap_s_id; [lia|].
        pose proof (SS c) as Q. rewrite Em in Q. unfold packed_sum in Q. cbn [o int_ops o_sum_add o_sum0] in Q.
        apply accumulated_int in Q; [exact Q|unfold int_min, int_max; lia].
      * intros c Hc. apply S2. intros X. apply Hc, CN, X.
    + intros Ht i Hi. rewrite ELen in Hi. destruct (in_columns_dec (p_layout p) a b i) as [N|(r & c & Hr & Hc & <-)].
      * rewrite Rest; [apply Ht; exact Hi|]. intros r c Hr Hc X. rewrite poffset_ok in X by (try exact PL; try exact Hr; pose proof (CN c Hc); lia).
        injection X as X. exact (N r c Hr (CN c Hc) X).
      * rewrite VV by assumption. unfold packed_entry. destruct (_ && _); cbn [o int_ops o_pack o_of_zp]; apply it_conv_range; exact Hbits.
    + intros i Hi. apply Rest. intros r c Hr Hc. pose proof (CN c Hc). specialize (Hi r c Hr H). rewrite poffset_ok in * by (try exact PL; try exact Hr; lia). exact Hi.
Qed.

(** The source types of which the specialised kernels take the packed type. *)
Definition x86_source (st : ity) : Prop := st = s8 \/ st = u8 \/ st = s16.

Lemma x86_source_facts : forall st, x86_source st -> symmetric_zero_point st = middle st /\ 0 < it_bits (x86_packed st) <= 32 /\
  it_signed (x86_packed st) = true /\ (it_bits (x86_packed st) = 8 \/ it_bits (x86_packed st) = 16).
Proof. intros st [-> | [-> | ->]]; (split; [reflexivity|]); cbv; intuition discriminate. Qed.

Lemma x86_blocks : forall p, valid_kernel_layout (blocks_of (x86_width p)).
Proof.
  intros p. unfold valid_kernel_layout. cbn [blocks_of kl_rows kl_cols]. split; [exists 2; lia|].
  destruct p; cbn [x86_width]; (split; [|lia]); [exists 3|exists 3|exists 4]; lia.
Qed.

Lemma x86_packs : forall dbg p o s sts dt src pm a b, x86_source (get s sts) ->
  (forall q, run_pack dbg o s (x86_width p) src q a b = run_pack dbg (int_ops checked dbg sts (x86_packed_types sts) dt) s (x86_width p) src q a b) ->
  pack_call (x86_width p) (x86_packed (get s sts)) src pm a b ->
  it_lo (get s sts) <= m_zp src <= it_hi (get s sts) -> p_zp pm = it_conv (x86_packed (get s sts)) (m_zp src - middle (get s sts)) ->
  pl_rows (p_layout pm) * max_abs (x86_packed (get s sts)) <= int_max -> p_sums pm <> None ->
  exists q, x86_run_pack dbg p o s (get s sts) src pm a b = Ok q /\ columns_packed (get s sts) (x86_packed (get s sts)) src a b pm q.
Proof.
  intros dbg p o s sts dt src pm a b Hst Ho C Hzp Ez Hmax Hs.
  assert (GP : get s (x86_packed_types sts) = x86_packed (get s sts)) by (destruct s; reflexivity).
  assert (Port : exists q, run_pack dbg o s (x86_width p) src pm a b = Ok q /\ columns_packed (get s sts) (x86_packed (get s sts)) src a b pm q).
  { rewrite Ho. destruct (x86_source_facts _ Hst) as (F1 & F2 & F3 & _). rewrite <- GP in *.
    apply portable_is_packed; try assumption; try lia. apply x86_blocks. }
  assert (HR : 0 <= pl_rows (p_layout pm)).
  { destruct C as (HV & HP & _). apply (po_rows _ (pmo_layout _ (packed_for_ok src _ pm (x86_blocks p) HV HP))). }
  assert (HZ : int_min <= p_zp pm * pl_rows (p_layout pm) <= int_max).
  { destruct C as (_ & _ & Hz & _). clear - Hz HR Hmax Hst. unfold max_abs, int_min, int_max in *.
    set (lo := it_lo _) in *. set (hi := it_hi _) in *. set (z := p_zp pm) in *. set (n := pl_rows _) in *.
    assert (- Z.max (- lo) hi <= z <= Z.max (- lo) hi) by lia. set (B := Z.max (- lo) hi) in *. clearbody B z n. nia. }
  unfold x86_run_pack. destruct (ml_order (m_layout src)) eqn:Eo.
  - destruct Hst as [H | [H | H]]; rewrite H in *; cbn [ity_eqb orb].
    + change (ity_eqb s8 s8 || ity_eqb s8 u8) with true. cbv iota. apply (columns_are_packed dbg _ (x86_width p) s8 s8 src pm a b); try assumption; try (intros; exact HZ); unfold column_function; destruct p; cbn [x86_col x86_width]; auto 10.
    + change (ity_eqb u8 s8 || ity_eqb u8 u8) with true. cbv iota. apply (columns_are_packed dbg _ (x86_width p) s8 u8 src pm a b); try assumption; try (intros; exact HZ); unfold column_function; destruct p; cbn [x86_col x86_width]; auto 10.
    + change (ity_eqb s16 s8 || ity_eqb s16 u8) with false. change (ity_eqb s16 s16) with true. cbv iota. destruct p; cbn [andb]; try exact Port.
      apply (columns_are_packed dbg _ 16 s16 s16 src pm a b); try assumption; try (intros; exact HZ); unfold column_function; auto 10.
  - assert (R24 : x86_packed (get s sts) = s8 -> pl_rows (p_layout pm) <= 2 ^ 24).
    { intros E. rewrite E in Hmax. change (max_abs s8) with 128 in Hmax. change (2 ^ 24) with 16777216. unfold int_max in Hmax. lia. }
    destruct Hst as [H | [H | H]]; rewrite H in *; cbn [ity_eqb orb].
    + change (ity_eqb s8 s8 || ity_eqb s8 u8) with true. cbv iota. apply (rows_are_packed dbg _ (x86_width p) s8 src pm a b); try assumption; try (apply R24; reflexivity); try (right; reflexivity); unfold row_function; destruct p; cbn [x86_row x86_width]; auto 10.
    + change (ity_eqb u8 s8 || ity_eqb u8 u8) with true. cbv iota. apply (rows_are_packed dbg _ (x86_width p) u8 src pm a b); try assumption; try (apply R24; reflexivity); try (left; reflexivity); unfold row_function; destruct p; cbn [x86_row x86_width]; auto 10.
    + change (ity_eqb s16 s8 || ity_eqb s16 u8) with false. cbv iota. exact Port.
Qed.
