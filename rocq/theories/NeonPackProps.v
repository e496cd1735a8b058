(** Packing ranges of columns on AArch64. *)
From Coq Require Import ZArith List Bool Lia.
From Verif Require Import Base SidePair Mat MatFacts Scalars IntOps Pack Kernel SpecArith SpecMatrix SpecPack PackFacts PackProps PackX86Portable SpecPackX86 SimdFacts Neon64
  NeonPackMath NeonPack NeonPackBytes SpecPackNeon NeonPackFacts NeonPackBlock.
Import ListNotations.
Open Scope Z_scope.

Lemma function_kernel : forall k kl pt st, neon_function k kl pt st ->
  valid_kernel_layout kl /\ n_cols k = kl_cols kl /\ (kl_cols kl = 4 \/ kl_cols kl = 8) /\ it_signed pt = true /\ 0 < it_bits pt /\ symmetric_zero_point st = middle st.
Proof.
  intros k kl pt st [(-> & -> & -> & H)|[(-> & -> & -> & H)|(-> & -> & -> & ->)]]; unfold valid_kernel_layout; cbn.
  - repeat split; try lia; [exists 4; lia|exists 2; lia|]. destruct H as [-> | ->]; reflexivity.
  - repeat split; try lia; [exists 2; lia|exists 3; lia|]. destruct H as [-> | ->]; reflexivity.
  - repeat split; try lia; [exists 0; lia|exists 3; lia].
Qed.

Lemma block_ok : forall k kl pt st a55 g src p bc, neon_function k kl pt st -> block_call kl pt st src p bc ->
  exists q, neon_block k a55 g st src bc p = Ok q /\ block_done st pt src bc p q.
Proof.
  intros k kl pt st a55 g src p bc [(-> & -> & -> & H)|[(-> & -> & -> & H)|(-> & -> & -> & ->)]] C.
  - apply block_16x4; assumption.
  - apply block_4x8; assumption.
  - apply block_float; assumption.
Qed.

(** After some blocks. *)
Record blocks_done (st pt : ity) (src : mat Z) (a b : Z) (p q : pmat Z) : Prop := {
  bs_shape : p_layout q = p_layout p /\ p_zp q = p_zp p /\ blen (p_data q) = blen (p_data p);
  bs_typed : typed pt (p_data q);
  bs_values : forall r c, 0 <= r < pl_rows (p_layout p) -> a <= c < b -> bdat (p_data q) (poff (p_layout p) r c) = filled_value st pt src (p_zp p) r c;
  bs_rest : forall i, (forall r c, 0 <= r < pl_rows (p_layout p) -> a <= c < b -> i <> poff (p_layout p) r c) -> bdat (p_data q) i = bdat (p_data p) i;
  bs_sums : match p_sums p, p_sums q with
    | None, None => True
    | Some s, Some s' => blen s' = blen s /\ typed s32 s' /\
        (forall c, a <= c < b -> bdat s' c = wrap_s 32 (zsum (map (fun r => filled_value st pt src (p_zp p) r c) (zrange 0 (pl_rows (p_layout p)))))) /\
        (forall c, ~ (a <= c < b) -> bdat s' c = bdat s c)
    | _, _ => False
    end
}.

Lemma packed_for_other : forall (src : mat Z) kl p q, packed_for src kl p -> p_layout q = p_layout p -> blen (p_data q) = blen (p_data p) ->
  match p_sums p, p_sums q with None, None => True | Some s, Some s' => blen s' = blen s | _, _ => False end -> packed_for src kl q.
Proof.
  intros src kl p q (H1 & H2 & H3) El Ed Es. split; [rewrite El; exact H1|]. split; [rewrite El, Ed; exact H2|]. intros b Eb. rewrite El. rewrite Eb in Es.
  destruct (p_sums p) as [s|]; [|destruct Es]. rewrite Es. apply H3. reflexivity.
Qed.

Lemma blocks_next : forall k kl pt st a55 g src a bc p q, neon_function k kl pt st -> 0 <= a <= bc -> block_call kl pt st src p bc -> blocks_done st pt src a bc p q ->
  exists q', neon_block k a55 g st src bc q = Ok q' /\ blocks_done st pt src a (bc + 4) p q'.
Proof.
  intros k kl pt st a55 g src a bc p q Hk Ha C [(S1 & S2 & S3) T V Rs Su]. pose proof C as (HV & Ho & HP & Hz & Hf & Ht & Hts & Hbc & Hb4 & Hd & Hfit).
  destruct (function_kernel _ _ _ _ Hk) as (VK & _).
  assert (PL : playout_ok (p_layout p)) by (apply (packed_for_ok src kl p VK HV HP)).
  assert (C' : block_call kl pt st src q bc).
  { split; [exact HV|]. split; [exact Ho|]. split.
    { eapply packed_for_other; [exact HP|exact S1|exact S3|]. destruct (p_sums p), (p_sums q); try exact Su. apply Su. }
    split; [rewrite S2; exact Hz|]. split.
    { intros E. destruct (Hf E) as [F1 F2]. split; [exact F1|]. rewrite F2 in Su. destruct (p_sums q); [destruct Su|reflexivity]. }
    split; [exact T|]. split.
    { intros s Es. rewrite Es in Su. destruct (p_sums p); [apply Su|destruct Su]. }
    rewrite S1. split; [exact Hbc|]. split; [exact Hb4|]. split; assumption. }
  destruct (block_ok k kl pt st a55 g src q bc Hk C') as (q' & E & [(D1 & D2 & D3) T' V' R' Su']).
  exists q'. split; [exact E|]. rewrite S1 in *. rewrite S2 in *. constructor.
  - split; [exact D1|]. split; [exact D2|]. rewrite D3. exact S3.
  - exact T'.
  - intros r c Hr Hc. destruct (Z_lt_le_dec c bc) as [L|L].
    + rewrite R'; [apply V; [exact Hr|lia]|]. intros r' c' Hr' Hc' Eo. apply poff_inj in Eo; try assumption; lia.
    + apply V'; [exact Hr|lia].
  - intros i Hi. rewrite R'; [apply Rs|]; intros r c Hr Hc; apply Hi; try exact Hr; lia.
  - destruct (p_sums p) as [s|], (p_sums q) as [s1|], (p_sums q') as [s2|]; try (destruct Su; fail); try (destruct Su'; fail); [|exact Logic.I].
    destruct Su as (L1 & _ & V1 & R1). destruct Su' as (L2 & T2 & V2 & R2). split; [congruence|]. split; [exact T2|]. split.
    + intros c Hc. destruct (Z_lt_le_dec c bc) as [L|L]; [rewrite R2 by lia; apply V1; lia|apply V2; lia].
    + intros c Hc. rewrite R2, R1 by lia. reflexivity.
Qed.

Lemma fits : forall k kl pt st src p a b, neon_function k kl pt st -> neon_call kl pt st src p a b -> (kl_cols kl = 8 -> blocks_fit src b) ->
  forall bc, 0 <= bc -> bc + 4 <= b -> (4 | bc) -> ml_stride (m_layout src) * bc <= int_max.
Proof.
  intros k kl pt st src p a b Hk (((H1 & H2 & H3 & H4) & H5) & Ho & ((_ & _ & _ & _ & Cu & _) & _) & _ & _ & _ & _ & _ & Hb & _) Hf bc Hbc Hb4 [m Em].
  unfold inner_size, outer_size in *. rewrite Ho in *. assert (Hs : 0 <= ml_stride (m_layout src)) by lia.
  destruct (function_kernel _ _ _ _ Hk) as (_ & _ & [K|K] & _).
  - rewrite K in Cu. destruct Cu as ([w Hw] & Cu & _). eapply Z.le_trans; [|exact H4]. apply Z.mul_le_mono_nonneg_l; lia.
  - specialize (Hf K). unfold blocks_fit in Hf. eapply Z.le_trans; [|exact Hf]. apply Z.mul_le_mono_nonneg_l; lia.
Qed.

Lemma rem_0 : forall a n, 0 <= a -> 0 < n -> (n | a) -> (Z.rem a n =? 0) = true.
Proof. intros a n Ha Hn [m ->]. apply Z.eqb_eq. apply Z.rem_mul. lia. Qed.

Lemma loop_done : forall dbg k kl pt st a55 gs src p a b, neon_function k kl pt st -> neon_call kl pt st src p a b -> (kl_cols kl = 8 -> blocks_fit src b) ->
  exists q, pack_neon dbg k a55 gs st src p a b = Ok q /\ blocks_done st pt src a b p q.
Proof.
  intros dbg k kl pt st a55 gs src p a b Hk C Hf. pose proof (fits _ _ _ _ _ _ _ _ Hk C Hf) as FIT. destruct C as (HV & Ho & HP & Hz & Hf' & Ht & Hts & Hab & Hb & Da & Db).
  destruct (function_kernel _ _ _ _ Hk) as (VK & Kc & Kc' & _).
  unfold pack_neon. rewrite Ho. assert (Or : pl_order (p_layout p) = ColMajor) by (destruct HP as ((_ & Or & _) & _); exact Or). rewrite Or. cbn [order_eqb].
  rewrite Kc, rem_0 by (try assumption; lia). destruct dbg; cbn [dcheck bind]; unfold forstep.
  all: assert (D4 : exists u w, a = 4 * u /\ b = 4 * w) by (destruct Da as [x Hx], Db as [y Hy]; destruct Kc' as [E|E]; rewrite E in *; [exists x, y|exists (2 * x), (2 * y)]; lia);
    destruct D4 as (u & w & Ea & Eb);
    replace ((b - a + 4 - 1) / 4) with (w - u) by (symmetry; apply (div_at _ 4 (w - u) 3); lia);
    (destruct (forto_inv (fun t q => blocks_done st pt src a (a + t * 4) p q) (fun t s => neon_block k a55 (gs (a + t * 4)) st src (a + t * 4) s) 0 (w - u) p) as (q & E & D);
     [lia
     |constructor; [split; [reflexivity|split; reflexivity]|exact Ht|intros; lia|reflexivity|destruct (p_sums p) as [s|] eqn:Es; [|exact Logic.I]; split; [reflexivity|]; split; [apply Hts; reflexivity|]; split; [intros; lia|reflexivity]]
     |intros t s Hr D; replace (a + (t + 1) * 4) with (a + t * 4 + 4) by ring; apply (blocks_next k kl pt st); try assumption; [lia|];
       repeat (split; [assumption|]); split; [lia|]; split; [lia|]; split; [exists (u + t); lia|apply FIT; [lia|lia|exists (u + t); lia]]
     |exists q; split; [exact E|replace b with (a + (w - u) * 4) by lia; exact D]]).
Qed.

Lemma neon_packs_columns : forall dbg k kl pt st a55 gs src p a b, neon_function k kl pt st -> neon_call kl pt st src p a b -> (kl_cols kl = 8 -> blocks_fit src b) ->
  exists q, pack_neon dbg k a55 gs st src p a b = Ok q /\ columns_filled st pt src a b p q.
Proof.
  intros dbg k kl pt st a55 gs src p a b Hk C Hf. destruct (loop_done dbg k kl pt st a55 gs src p a b Hk C Hf) as (q & E & [(S1 & S2 & S3) T V Rs Su]).
  destruct C as (HV & Ho & HP & _ & _ & _ & _ & Hab & Hb & _). destruct (function_kernel _ _ _ _ Hk) as (VK & _).
  pose proof (packed_for_ok src kl p VK HV HP) as [PL Pn _].
  exists q. split; [exact E|]. constructor.
  - split; [exact S1|]. split; assumption.
  - intros r c Hr Hc. unfold pelement. rewrite S1, poffset_ok by (try assumption; lia). cbn [bind].
    rewrite bread_ok; [rewrite V by assumption; reflexivity|]. rewrite S3. pose proof (poff_range (p_layout p) r c PL Hr ltac:(lia)). lia.
  - intros i Hi. apply Rs. intros r c Hr Hc Ei. apply (Hi r c Hr Hc). rewrite poffset_ok by (try assumption; lia). congruence.
  - destruct (p_sums p), (p_sums q); try exact Su. destruct Su as (U1 & _ & U2). split; assumption.
Qed.

(** ** Against the portable function *)
Lemma filled_is_entry : forall dbg s sts pts dt src zp r c, symmetric_zero_point (get s sts) = middle (get s sts) -> 0 < it_bits (get s pts) -> it_signed (get s pts) = true ->
  it_lo (get s pts) <= zp <= it_hi (get s pts) -> packed_entry (int_ops wrapping dbg sts pts dt) s src zp r c = filled_value (get s sts) (get s pts) src zp r c.
Proof.
  intros dbg s sts pts dt src zp r c Hm Hb Hs Hz. unfold packed_entry, filled_value. cbn [int_ops o_pack o_of_zp].
  destruct ((r <? ml_rows (m_layout src)) && (c <? ml_cols (m_layout src))).
  - unfold pack_int. rewrite Hm. unfold symmetric_zero_point. rewrite Hs. f_equal. lia.
  - apply it_conv_id; [exact Hb|exact Hz].
Qed.

Lemma neon_as_portable : forall dbg dbg' k kl s sts pts dt a55 gs src p a b, get s pts = s8 -> neon_function k kl (get s pts) (get s sts) ->
  neon_call kl (get s pts) (get s sts) src p a b -> (kl_cols kl = 8 -> blocks_fit src b) ->
  exists q q', pack_neon dbg k a55 gs (get s sts) src p a b = Ok q /\ run_pack dbg' (int_ops wrapping dbg' sts pts dt) s (kl_cols kl) src p a b = Ok q' /\
    p_layout q = p_layout q' /\ p_zp q = p_zp q' /\ same_buffers q q'.
Proof.
  intros dbg dbg' k kl s sts pts dt a55 gs src p a b Hs8 Hk C Hf. destruct (neon_packs_columns dbg k kl _ _ a55 gs src p a b Hk C Hf) as (q & E & [(S1 & S2 & S3) V Rs Su]).
  destruct C as (HV & Ho & HP & Hz & _ & _ & _ & Hab & Hb & Da & Db). destruct (function_kernel _ _ _ _ Hk) as (VK & _ & _ & Sg & Bi & Mi).
  pose proof (packed_for_ok src kl p VK HV HP) as [PL Pn _].
  set (o := int_ops wrapping dbg' sts pts dt).
  assert (Hzr : it_lo (get s pts) <= p_zp p <= it_hi (get s pts)) by (rewrite Hz, Hs8; apply conv8_typed).
  assert (SE : forall r c, packed_entry o s src (p_zp p) r c = filled_value (get s sts) (get s pts) src (p_zp p) r c) by (intros; apply filled_is_entry; assumption).
  assert (SS : forall c, packed_sum o s src (p_zp p) (pl_rows (p_layout p)) c = Ok (wrap_s 32 (zsum (map (fun r => filled_value (get s sts) (get s pts) src (p_zp p) r c) (zrange 0 (pl_rows (p_layout p))))))).
  { intros c. unfold packed_sum. cbn [o int_ops o_sum_add o_sum0]. rewrite accumulate_wrapping by reflexivity. rewrite Z.add_0_l. do 3 f_equal. apply map_ext. intros r. apply SE. }
  destruct (run_pack_ranges Z dbg' o s kl src VK HV p [(a, b)] HP) as (q' & E' & EL & EZ & ELen & V' & Rest & S).
  - intros a' b' [H|[]]. injection H as <- <-. repeat split; try assumption; apply Hab.
  - intros c _. eexists. apply SS.
  - cbn [pack_ranges] in E'. destruct (run_pack dbg' o s (kl_cols kl) src p a b) as [q1| |] eqn:E1; cbn [bind] in E'; try discriminate. injection E' as ->.
    assert (CC : forall c, covered [(a, b)] c <-> a <= c < b).
    { intros c. split; [intros (a' & b' & [H|[]] & Hab'); injection H as <- <-; exact Hab'|]. intros Hc. exists a, b. split; [left; reflexivity|exact Hc]. }
    exists q, q'. split; [exact E|]. split; [reflexivity|]. split; [congruence|]. split; [congruence|]. split; [congruence|]. split.
    + intros i. destruct (Z_le_gt_dec 0 i) as [L|L]; [destruct (Z_lt_le_dec i (pl_rows (p_layout p) * pl_cols (p_layout p))) as [L'|L']|].
      1:{ destruct (poff_surj (p_layout p) i PL ltac:(lia)) as (r & c & Hr & Hc & Ei).
          destruct (Z_le_gt_dec a c) as [Ha|Ha]; [destruct (Z_lt_le_dec c b) as [Hb'|Hb']|].
          - pose proof (V r c Hr (conj Ha Hb')) as X. specialize (V' r c Hr (proj2 (CC c) (conj Ha Hb'))). rewrite SE in V'.
            unfold pelement in X, V'. rewrite S1 in X. rewrite EL in V'. rewrite poffset_ok in X, V' by assumption. cbn [bind] in X, V'. rewrite bread_ok in X, V' by (rewrite ?S3, ?ELen; lia).
            rewrite Ei in X, V'. congruence.
          - rewrite Rs, Rest; [reflexivity| |]; intros r' c' Hr' Hc'; match type of Hc' with covered _ _ => apply CC in Hc' | _ => idtac end; rewrite poffset_ok by (try assumption; lia); intros X; injection X as X; rewrite <- Ei in X; apply poff_inj in X; try assumption; lia.
          - rewrite Rs, Rest; [reflexivity| |]; intros r' c' Hr' Hc'; match type of Hc' with covered _ _ => apply CC in Hc' | _ => idtac end; rewrite poffset_ok by (try assumption; lia); intros X; injection X as X; rewrite <- Ei in X; apply poff_inj in X; try assumption; lia. }
      all: rewrite Rs, Rest; [reflexivity| |]; intros r' c' Hr' Hc'; match type of Hc' with covered _ _ => apply CC in Hc' | _ => idtac end; rewrite poffset_ok by (try assumption; lia); intros X; injection X as X;
        pose proof (poff_range (p_layout p) r' c' PL Hr' ltac:(lia)); lia.
    + destruct (p_sums p) as [s0|], (p_sums q) as [s1|], (p_sums q') as [s2|]; try (destruct Su; fail); try (destruct S; fail); [|exact Logic.I].
      destruct Su as (CS0 & CS1 & CS2). destruct S as (ST0 & ST1 & ST2). split; [congruence|]. intros c.
      assert (DC : (a <= c < b) \/ ~ (a <= c < b)) by lia. destruct DC as [D|D].
      * rewrite CS1 by exact D. specialize (ST1 c (proj2 (CC c) D)). rewrite SS in ST1. injection ST1 as <-. reflexivity.
      * rewrite CS2, ST2; [reflexivity| |exact D]. rewrite CC. exact D.
Qed.

(** ** Wide strides *)
Definition wide_source : mat Z :=
  {| m_data := {| blen := 2 ^ 30; bdat := fun _ => 0 |}; m_layout := {| ml_rows := 1; ml_cols := 1; ml_stride := 2 ^ 30; ml_order := ColMajor |}; m_zp := 0 |}.
Definition wide_packed (kl : kernel_layout) : pmat Z :=
  {| p_data := {| blen := 8 * kl_rows kl; bdat := fun _ => 0 |}; p_sums := None;
     p_layout := {| pl_rows := kl_rows kl; pl_cols := 8; pl_stride := kl_rows kl; pl_order := ColMajor; pl_kernel := kl |}; p_zp := 0 |}.

Lemma neon_wide_stride_refuted : forall dbg k kl pt st a55 gs, neon_function k kl pt st -> kl_cols kl = 8 -> st <> u8 ->
  exists src p a b, neon_call kl pt st src p a b /\ pack_neon dbg k a55 gs st src p a b = UB.
Proof.
  intros dbg k kl pt st a55 gs Hk Hc Hu. exists wide_source, (wide_packed kl), 0, 8.
  assert (K : kl = bytes_4x8 /\ pt = s8 /\ st = s8 \/ kl = floats_1x8 /\ pt = s32 /\ st = s32).
  { destruct Hk as [(_ & -> & _)|[(_ & -> & -> & [-> | ->])|(_ & -> & -> & ->)]]; [discriminate|left; auto|congruence|right; auto]. }
  assert (C : neon_call kl pt st wide_source (wide_packed kl) 0 8).
  { destruct K as [(-> & -> & ->)|(-> & -> & ->)]; unfold neon_call, valid_matrix, valid_layout, packed_for, packed_layout_of, is_round_up, typed, Z.divide; cbn [wide_source wide_packed m_layout m_zp m_data
      ml_rows ml_cols ml_stride ml_order inner_size outer_size p_layout p_zp p_data p_sums pl_rows pl_cols pl_stride pl_order pl_kernel bytes_4x8 floats_1x8 kl_rows kl_cols blen bdat].
    - repeat split; try reflexivity; try discriminate; try (intros; discriminate); try lia; [exists 1; lia|exists 1; lia|exists 0; lia|exists 1; lia].
    - repeat split; try reflexivity; try discriminate; try (intros; discriminate); try lia; [exists 1; lia|exists 1; lia|exists 0; lia|exists 1; lia]. }
  split; [exact C|].
  destruct (function_kernel _ _ _ _ Hk) as (_ & Kc & _).
  assert (B0 : exists q, neon_block k a55 (gs 0) st wide_source 0 (wide_packed kl) = Ok q).
  { destruct C as (HV & Ho & HP & Hz & Hf & Ht & Hts & _). destruct (block_ok k kl pt st a55 (gs 0) wide_source (wide_packed kl) 0 Hk) as (q & E & _); [|exists q; exact E].
    repeat (split; [assumption|]). split; [lia|]. split; [cbn; lia|]. split; [exists 0; lia|cbn; discriminate]. }
  destruct B0 as (q & E0).
  assert (B1 : forall q, neon_block k a55 (gs 4) st wide_source 4 q = UB) by (intros q1; reflexivity).
  unfold pack_neon, forstep. rewrite Kc, Hc. change ((8 - 0 + 4 - 1) / 4) with 2.
  rewrite (forto_step 0 2) by lia. change (0 + 0 * 4) with 0. rewrite E0. cbn [bind]. rewrite (forto_step (0 + 1) 2) by lia. change (0 + (0 + 1) * 4) with 4. rewrite B1.
  destruct dbg; reflexivity.
Qed.
