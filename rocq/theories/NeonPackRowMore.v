(** Packing columns of row-major matrices for the AArch64 dot-product kernels, and the portable packing function. *)
From Coq Require Import ZArith List Bool Lia.
From Verif Require Import Base SidePair Mat MatFacts Scalars IntOps Pack Kernel SpecArith SpecMatrix SpecPack PackFacts PackProps PackX86Portable SpecPackX86 SimdFacts IntEntryFacts Neon64
  NeonPackMath NeonPack NeonPackBytes SpecPackNeon NeonPackFacts NeonPackBlock NeonPackProps NeonPackRow SpecPackNeonRow NeonPackRowProps.
Import ListNotations.
Open Scope Z_scope.

Lemma neon_rows_as_portable : forall dbg dbg' s sts pts dt gs src p a b, get s pts = s8 -> get s sts = s8 \/ get s sts = u8 -> neon_row_call (get s sts) src p a b ->
  exists q q', pack_row_neon dbg gs (get s sts) src p a b = Ok q /\ run_pack dbg' (int_ops wrapping dbg' sts pts dt) s 8 src p a b = Ok q' /\
    p_layout q = p_layout q' /\ p_zp q = p_zp q' /\ same_buffers q q'.
Proof.
  intros dbg dbg' s sts pts dt gs src p a b Hs8 Hk C. destruct (neon_packs_rows dbg gs _ src p a b Hk C) as (q & E & F).
  rewrite <- Hs8 in F. destruct F as [(S1 & S2 & S3) V Rs Su].
  destruct C as (HV & Ho & HP & Hz & _ & _ & Hab & Hb & Da & Db).
  assert (FK : neon_function neon_4x8 bytes_4x8 (get s pts) (get s sts)) by (right; left; rewrite Hs8; auto).
  destruct (function_kernel _ _ _ _ FK) as (VK & _ & _ & Sg & Bi & Mi). clear FK.
  change 8 with (kl_cols bytes_4x8) in Da, Db |- *.
  pose proof (packed_for_ok src bytes_4x8 p VK HV HP) as [PL Pn _].
  set (o := int_ops wrapping dbg' sts pts dt).
  assert (Hzr : it_lo (get s pts) <= p_zp p <= it_hi (get s pts)) by (rewrite Hz, Hs8; apply conv8_typed).
  assert (SE : forall r c, packed_entry o s src (p_zp p) r c = filled_value (get s sts) (get s pts) src (p_zp p) r c) by (intros; apply filled_is_entry; assumption).
  assert (SS : forall c, packed_sum o s src (p_zp p) (pl_rows (p_layout p)) c = Ok (wrap_s 32 (zsum (map (fun r => filled_value (get s sts) (get s pts) src (p_zp p) r c) (zrange 0 (pl_rows (p_layout p))))))).
  { intros c. unfold packed_sum. cbn [o int_ops o_sum_add o_sum0]. rewrite accumulate_wrapping by reflexivity. rewrite Z.add_0_l. do 3 f_equal. apply map_ext. intros r. apply SE. }
  destruct (run_pack_ranges Z dbg' o s bytes_4x8 src VK HV p [(a, b)] HP) as (q' & E' & EL & EZ & ELen & V' & Rest & S).
  - intros a' b' [H|[]]. injection H as <- <-. repeat split; try assumption; lia.
  - intros c _. eexists. apply SS.
  - cbn [pack_ranges] in E'. destruct (run_pack dbg' o s (kl_cols bytes_4x8) src p a b) as [q1| |] eqn:E1; cbn [bind] in E'; try discriminate. injection E' as ->.
    assert (CC : forall c, covered [(a, b)] c <-> a <= c < b).
    { intros c. split; [intros (a' & b' & [H|[]] & Hab'); injection H as <- <-; exact Hab'|]. intros Hc. exists a, b. split; [left; reflexivity|exact Hc]. }
    exists q, q'. split; [exact E|]. split; [reflexivity|]. split; [congruence|]. split; [congruence|]. split; [congruence|]. split.
    + intros i. destruct (Z_le_gt_dec 0 i) as [L|L]; [destruct (Z_lt_le_dec i (pl_rows (p_layout p) * pl_cols (p_layout p))) as [L'|L']|].
      1:{ destruct (poff_surj (p_layout p) i PL ltac:(lia)) as (r & c & Hr & Hc & Ei).
          destruct (Z_le_gt_dec a c) as [Ha|Ha]; [destruct (Z_lt_le_dec c b) as [Hb'|Hb']|].
          - pose proof (V r c Hr (conj Ha Hb')) as X. specialize (V' r c Hr (proj2 (CC c) (conj Ha Hb'))). rewrite SE in V'.
            unfold pelement in X, V'. rewrite S1 in X. rewrite EL in V'. rewrite poffset_ok in X, V' by assumption. cbn [bind] in X, V'. rewrite bread_ok in X, V' by (rewrite ?S3, ?ELen; lia).
            rewrite Ei in X, V'. congruence.
          - rewrite Rs, Rest; [reflexivity| |]; intros r' c' Hr' Hc'; match type of Hc' with covered _ _ => apply CC in Hc' | _ => idtac end; rewrite poffset_ok by (try assumption; lia); intros X; injection X as X; rewrite <- Ei in X; apply poff_inj in X; try assumption; lia.
          - rewrite Rs, Rest; [reflexivity| |]; intros r' c' Hr' Hc'; match type of Hc' with covered _ _ => apply CC in Hc' | _ => idtac end; rewrite poffset_ok by (try assumption; lia); intros X; injection X as X; rewrite <- Ei in X; apply poff_inj in X; try assumption; lia. }
      all: rewrite Rs, Rest; [reflexivity| |]; intros r' c' Hr' Hc'; match type of Hc' with covered _ _ => apply CC in Hc' | _ => idtac end; rewrite poffset_ok by (try assumption; lia); intros X; injection X as X;
        pose proof (poff_range (p_layout p) r' c' PL Hr' ltac:(lia)); lia.
    + destruct (p_sums p) as [s0|], (p_sums q) as [s1|], (p_sums q') as [s2|]; try (destruct Su; fail); try (destruct S; fail); [|exact Logic.I].
      destruct Su as (CS0 & CS1 & CS2). destruct S as (ST0 & ST1 & ST2). split; [congruence|]. intros c.
      assert (DC : (a <= c < b) \/ ~ (a <= c < b)) by lia. destruct DC as [D|D].
      * rewrite CS1 by exact D. specialize (ST1 c (proj2 (CC c) D)). rewrite SS in ST1. injection ST1 as <-. reflexivity.
      * rewrite CS2, ST2; [reflexivity| |exact D]. rewrite CC. exact D.
Qed.
