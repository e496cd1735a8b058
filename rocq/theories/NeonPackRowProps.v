(** Packing columns of row-major matrices for the AArch64 dot-product kernels. *)
From Coq Require Import ZArith List Bool Lia.
From Verif Require Import Base SidePair Mat MatFacts Scalars IntOps Pack Kernel SpecArith SpecMatrix SpecPack PackFacts PackProps PackX86Portable SpecPackX86 SimdFacts IntEntryFacts Neon64
  NeonPackMath NeonPack NeonPackBytes SpecPackNeon NeonPackFacts NeonPackBlock NeonPackProps NeonPackRow SpecPackNeonRow NeonPackRowBlock.
Import ListNotations.
Open Scope Z_scope.

(** The first [n] rows have been packed. *)
Record rows_done (st : ity) (src : mat Z) (a b n : Z) (p : pmat Z) (s : buf Z) (q : pmat Z) : Prop := {
  rd_shape : p_layout q = p_layout p /\ p_zp q = p_zp p /\ blen (p_data q) = blen (p_data p);
  rd_typed : typed s8 (p_data q);
  rd_values : forall r c, 0 <= r < n -> a <= c < b -> bdat (p_data q) (poff (p_layout p) r c) = filled_value st s8 src (p_zp p) r c;
  rd_rest : forall i, (forall r c, 0 <= r < n -> a <= c < b -> i <> poff (p_layout p) r c) -> bdat (p_data q) i = bdat (p_data p) i;
  rd_sums : exists s', p_sums q = Some s' /\ blen s' = blen s /\ typed s32 s' /\
    (forall c, a <= c < b -> bdat s' c = wrap_s 32 (zsum (map (fun r => filled_value st s8 src (p_zp p) r c) (zrange 0 n)))) /\
    (forall c, ~ (a <= c < b) -> bdat s' c = bdat s c)
}.

Lemma sum_four : forall (f : Z -> Z) n, 0 <= n -> zsum (map f (zrange 0 (n + 4))) = zsum (map f (zrange 0 n)) + (f n + f (n + 1) + f (n + 2) + f (n + 3)).
Proof.
  intros f n Hn. replace (n + 4) with (n + 1 + 1 + 1 + 1) by ring. rewrite !zrange_snoc by lia. rewrite !map_app, !zsum_app. cbn [map zsum].
  replace (n + 1 + 1) with (n + 2) by ring. replace (n + 2 + 1) with (n + 3) by ring. ring.
Qed.

Lemma rows_next : forall g st src p s a b n q, (st = s8 \/ st = u8) -> neon_row_call st src p a b -> p_sums p = Some s -> 0 <= n -> n + 4 <= pl_rows (p_layout p) -> (4 | n) ->
  rows_done st src a b n p s q -> exists q', neon_row_block g st src a b n q = Ok q' /\ rows_done st src a b (n + 4) p s q'.
Proof.
  intros g st src p s a b n q Hst (HV & Ho & HP & Hz & Ht & _ & Hab & Hb & Da & Db) Hs Hn Hn4 Dn [(S1 & S2 & S3) T V Rs (s1 & Es1 & L1 & T1 & V1 & R1)].
  assert (VK : valid_kernel_layout bytes_4x8) by (unfold valid_kernel_layout; cbn; repeat split; try lia; [exists 2; lia|exists 3; lia]).
  assert (PL : playout_ok (p_layout p)) by (apply (packed_for_ok src bytes_4x8 p VK HV HP)).
  assert (HP' : packed_for src bytes_4x8 q) by (eapply packed_for_other; [exact HP|exact S1|exact S3|]; rewrite Hs, Es1; exact L1).
  destruct (row_block st src q a b n s1 g Hst HV Ho HP') as (d & s' & E & D1 & D2 & D3 & D4 & D5 & D6 & D7 & D8); try assumption; try (rewrite ?S1, ?S2; assumption).
  rewrite S1, S2 in *. eexists. split; [exact E|]. constructor; cbn [p_layout p_zp p_data p_sums].
  - split; [reflexivity|]. split; [reflexivity|congruence].
  - exact D2.
  - intros r c Hr Hc. destruct (Z_lt_le_dec r n) as [L|L].
    + rewrite D6; [apply V; [lia|exact Hc]|]. intros r' c' Hr' Hc' Eo. apply poff_inj in Eo; try assumption; lia.
    + apply D5; [lia|exact Hc].
  - intros i Hi. rewrite D6; [apply Rs|]; intros r c Hr Hc; apply Hi; try exact Hc; lia.
  - exists s'. split; [reflexivity|]. split; [congruence|]. split; [exact D4|]. split.
    + intros c Hc. rewrite D7, V1 by exact Hc. unfold four_rows. rewrite S2. rewrite sum_four by exact Hn. apply eq32_add; [apply eq32_wrap|apply eq32_refl].
    + intros c Hc. rewrite D8, R1 by exact Hc. reflexivity.
Qed.

Lemma neon_packs_rows : forall dbg gs st src p a b, st = s8 \/ st = u8 -> neon_row_call st src p a b ->
  exists q, pack_row_neon dbg gs st src p a b = Ok q /\ columns_filled st s8 src a b p q.
Proof.
  intros dbg gs st src p a b Hst C. pose proof C as (HV & Ho & HP & Hz & Ht & (s & Hs & Hts) & Hab & Hb & Da & Db).
  assert (VK : valid_kernel_layout bytes_4x8) by (unfold valid_kernel_layout; cbn; repeat split; try lia; [exists 2; lia|exists 3; lia]).
  destruct (packed_for_ok src bytes_4x8 p VK HV HP) as [PL Pn _]. pose proof HP as ((Kl & Or & St & Ru & Cu & RM & CM & RC) & Hlen & Hsl). cbn [bytes_4x8 kl_rows] in Ru.
  specialize (Hsl s Hs).
  unfold pack_row_neon. rewrite Ho, Or. cbn [order_eqb]. rewrite rem_0 by (try assumption; lia). rewrite Hs. unfold clear_sums.
  replace (0 <=? a) with true by lia. replace (a <=? b) with true by lia. replace (b <=? blen s) with true by lia. cbn [andb].
  set (s0 := {| blen := blen s; bdat := fun i => if (a <=? i) && (i <? b) then 0 else bdat s i |}).
  set (p0 := {| p_data := p_data p; p_sums := Some s0; p_layout := p_layout p; p_zp := p_zp p |}).
  assert (T0 : typed s32 s0).
  { intros i Hi. cbn [s0 bdat]. destruct ((a <=? i) && (i <? b)); [split; discriminate|apply Hts; exact Hi]. }
  assert (C0 : neon_row_call st src p0 a b).
  { split; [exact HV|]. split; [exact Ho|]. split; [eapply packed_for_other; [exact HP|reflexivity|reflexivity|rewrite Hs; reflexivity]|]. split; [exact Hz|]. split; [exact Ht|].
    split; [exists s0; split; [reflexivity|exact T0]|]. repeat (split; [assumption|]). exact Db. }
  assert (HRp : exists w, pl_rows (p_layout p) = 4 * w /\ 0 <= w) .
  { destruct Ru as ([w Hw] & _ & Ru1). exists w. destruct HV as ((H1 & _) & _). clear - H1 Hw Ru1. split; lia. }
  destruct HRp as (w & Ew & Hw).
  assert (LOOP : exists q, forstep 0 (pl_rows (p_layout p)) 4 (fun block_row p => neon_row_block (gs block_row) st src a b block_row p) p0 = Ok q /\ rows_done st src a b (4 * w) p0 s0 q).
  { unfold forstep. rewrite Ew. replace ((4 * w - 0 + 4 - 1) / 4) with w by (symmetry; apply (div_at _ 4 w 3); lia).
    destruct (forto_inv (fun t q => rows_done st src a b (t * 4) p0 s0 q) (fun t q => neon_row_block (gs (0 + t * 4)) st src a b (0 + t * 4) q) 0 w p0) as (q & E & D).
    - exact Hw.
    - constructor; [split; [reflexivity|split; reflexivity]|exact Ht|intros; lia|reflexivity|].
      exists s0. split; [reflexivity|]. split; [reflexivity|]. split; [exact T0|]. split; [|reflexivity]. intros c Hc. cbn [s0 bdat]. replace (a <=? c) with true by lia. replace (c <? b) with true by lia. reflexivity.
    - intros t q Hr D. replace ((t + 1) * 4) with (t * 4 + 4) by ring. rewrite Z.add_0_l. apply rows_next; try assumption; try reflexivity; try lia; [cbn [p0 p_layout]; lia|exists t; ring].
    - exists q. split; [exact E|]. replace (4 * w) with (w * 4) by ring. exact D. }
  destruct LOOP as (q & E & [(S1 & S2 & S3) T V Rs (s' & Es & L1 & T1 & V1 & R1)]). cbn [p0 p_layout p_zp p_data] in *. rewrite <- Ew in *.
  exists q. split; [destruct dbg; cbn [dcheck bind]; exact E|]. constructor.
  - split; [exact S1|]. split; assumption.
  - intros r c Hr Hc. unfold pelement. rewrite S1, poffset_ok by (try assumption; lia). cbn [bind].
    rewrite bread_ok; [rewrite V by assumption; reflexivity|]. rewrite S3. pose proof (poff_range (p_layout p) r c PL Hr ltac:(lia)). lia.
  - intros i Hi. apply Rs. intros r c Hr Hc Ei. apply (Hi r c Hr Hc). rewrite poffset_ok by (try assumption; lia). congruence.
  - rewrite Hs, Es. split; [exact L1|]. split; [exact V1|]. intros c Hc. rewrite R1 by exact Hc. cbn [s0 bdat]. destruct (Z.leb_spec a c); [|reflexivity]. destruct (Z.ltb_spec c b); [lia|reflexivity].
Qed.
