(** A block of columns, and all of them: the x86 packing functions for column-major sources. *)
From Coq Require Import ZArith List Bool Lia.
From Verif Require Import Base SidePair SizeUtilFacts BlockMapFacts Mat MatFacts Scalars IntOps Pack SpecPack MulParams Kernel Simd MemcpyPackFacts Kernel8bit
  Kernel8bitIsa Kernel8bitFacts PackX86 PackX86Laws PackX86Facts.
Import ListNotations.
Open Scope Z_scope.

Section Block.
Variables (k : col_packer) (slots : list nat) (rep : list vec -> (nat -> Z) -> Prop).
Hypothesis K : col_laws k slots rep.
Let W := c_width k.
Let R := c_rows k.
Let w := c_size k.
Variables (dbg : bool) (src zerobuf data0 : buf Z) (z xor off stride remaining rows po soff : Z) (sums0 : option (buf Z)).
Let pv := P k xor.
Let nontr := R * (rows / R).
Let r4 := rows4 rows.
Let vl := val src z off stride remaining rows.

Hypothesis Hxor : good_xor w xor.
Hypothesis Hz : forall i, bdat zerobuf i = z.
Hypothesis Hzl : 32 <= blen zerobuf.
Hypothesis Hzr : in_bits (8 * Z.of_nat w) z.
Hypothesis Hrows : 0 <= rows.
Hypothesis Hsrc : forall c, 0 <= c < W -> c < remaining -> 0 <= off + c * stride /\ off + c * stride + rows <= blen src.
Hypothesis Hpo : 0 <= po.
Hypothesis Hdata : po + W * r4 <= blen data0.
Hypothesis Hsoff : 0 <= soff.
Hypothesis Hsums : forall b, sums0 = Some b -> soff + W <= blen b.
Hypothesis Hrem : 0 < remaining.
Hypothesis Hmax : rows + 3 <= int_max /\ W * nontr <= int_max.
Hypothesis Hstride : W = 16 -> 8 < remaining -> int_min <= stride * 8 <= int_max.
Hypothesis Hpad : W = 16 -> remaining <= 8 -> sums0 <> None -> int_min <= pv z * r4 <= int_max.

Notation cellk := (cell k).
Notation hitk := (hit k).

Lemma bW : W = 8 \/ W = 16.
Proof. exact (width_cases _ _ _ K). Qed.
Lemma bR : (w = 1%nat /\ R = 32) \/ (w = 2%nat /\ R = 16).
Proof. exact (rows_cases _ _ _ K). Qed.

Lemma nontr_facts : 0 <= nontr /\ nontr <= rows /\ nontr = rows - rows mod R /\ nontr mod 4 = 0 /\ nontr <= r4 /\ r4 <= nontr + R /\
  (rows mod R = 0 -> r4 = nontr) /\ rows <= r4.
Proof.
  unfold nontr, r4, rows4. pose proof bR as B.
  assert (0 < R) by lia. pose proof (Z.div_mod rows R ltac:(lia)) as DM. pose proof (Z.mod_pos_bound rows R ltac:(lia)) as MB.
  assert (0 <= rows / R) by (apply Z.div_pos; lia). pose proof (Z.div_mod (rows + 3) 4 ltac:(lia)) as D4. pose proof (Z.mod_pos_bound (rows + 3) 4 ltac:(lia)) as M4.
  assert (E : exists n, R * (rows / R) = 4 * n) by (destruct B as [[_ ->]|[_ ->]]; [exists (8 * (rows / 32))|exists (4 * (rows / 16))]; lia).
  destruct E as [n E]. rewrite E in *.
  replace (4 * n mod 4) with 0 by (symmetry; rewrite Z.mul_comm; apply Z.mod_mul; lia).
  assert (R = 4 * (R / 4)) by (destruct B as [[_ ->]|[_ ->]]; reflexivity).
  clear B E. set (m := rows mod R) in *. set (x := (rows + 3) / 4) in *. set (y := (rows + 3) mod 4) in *. set (h := R / 4) in *.
  assert (0 <= n) by lia. repeat split; try lia.
Qed.

Lemma land_mask : Z.land rows (R - 1) = rows mod R /\ Z.land rows (Z.lnot (R - 1)) = nontr.
Proof.
  unfold nontr. destruct bR as [[_ E]|[_ E]]; rewrite E.
  - change 32 with (2 ^ 5). rewrite land_pow2_pred, land_lnot_pow2 by lia. split; [reflexivity|lia].
  - change 16 with (2 ^ 4). rewrite land_pow2_pred, land_lnot_pow2 by lia. split; [reflexivity|lia].
Qed.
Lemma land_4 : Z.land (rows + 3) (Z.lnot 3) = r4.
Proof. unfold r4, rows4. change 3 with (2 ^ 2 - 1) at 2. rewrite land_lnot_pow2 by (clear; lia). change (2 ^ 2) with 4. clear. lia. Qed.

Record staged (data trailing : buf Z) : Prop := {
  st_dlen : blen data = blen data0;
  st_tlen : blen trailing = R * W;
  st_out : forall q, ~ (0 <= q - po < W * nontr) -> bdat data q = bdat data0 q;
  st_in : forall q, 0 <= q - po < W * nontr -> in_bits (8 * Z.of_nat w) (bdat data q) /\
    ((q - po) mod (4 * W) / 4 < remaining -> bdat data q = pv (cellk vl (q - po)));
  st_tr : 0 < rows mod R -> forall q, 0 <= q < W * R -> in_bits (8 * Z.of_nat w) (bdat trailing q) /\
    (q mod (4 * W) / 4 < remaining -> bdat trailing q = pv (cellk (fun c r => vl c (rows / R * R + r)) q))
}.

Definition copied (data' : buf Z) : Prop :=
  blen data' = blen data0 /\
  (forall q, ~ (0 <= q - po < W * r4) -> bdat data' q = bdat data0 q) /\
  (forall q, 0 <= q - po < W * r4 -> in_bits (8 * Z.of_nat w) (bdat data' q) /\
    ((q - po) mod (4 * W) / 4 < remaining -> bdat data' q = pv (cellk vl (q - po)))).

Lemma copy_ok : forall data trailing, staged data trailing ->
  exists data', copy_trailing k rows po trailing data = Ok data' /\ copied data'.
Proof.
  intros data trailing S. destruct nontr_facts as (N1 & N2 & N3 & N4 & N5 & N6 & N7 & N8). destruct land_mask as [L1 L2].
  assert (HW : W = 8 \/ W = 16) by exact bW. assert (HR : R = 32 \/ R = 16) by (destruct bR as [[_ ?]|[_ ?]]; auto).
  pose proof (Z.mod_pos_bound rows R ltac:(lia)) as MB.
  unfold copy_trailing. fold R W. cbv zeta. rewrite L1, L2. destruct (Z.ltb_spec 0 (rows mod R)) as [H|H].
  - rewrite i32_ok by (unfold int_min; lia). cbn [bind]. rewrite i32_ok by (unfold int_min in *; nia). cbn [bind]. rewrite land_4.
    destruct (bcopy_ok data (po + W * nontr) trailing 0 (W * (r4 - nontr))) as (d & E & L & D); try lia; try nia.
    + rewrite (st_dlen _ _ S). nia.
    + rewrite (st_tlen _ _ S). nia.
    + exists d. split; [exact E|]. split; [rewrite L; apply (st_dlen _ _ S)|]. split.
      * intros q Hq. rewrite D. replace ((po + W * nontr <=? q) && (q <? po + W * nontr + W * (r4 - nontr))) with false by nia.
        apply (st_out _ _ S). nia.
      * intros q Hq. rewrite D. destruct ((po + W * nontr <=? q) && (q <? po + W * nontr + W * (r4 - nontr))) eqn:B.
        -- replace (0 + (q - (po + W * nontr))) with (q - po - W * nontr) by lia.
           destruct (st_tr _ _ S H (q - po - W * nontr)) as [T1 T2]; [nia|]. split; [exact T1|]. intros Hc. rewrite T2.
           ++ unfold nontr. replace (q - po - W * (R * (rows / R))) with (q - po - rows / R * (W * R)) by lia.
              rewrite (cell_shift k slots rep K). reflexivity.
           ++ replace (q - po - W * nontr) with (q - po + - (nontr / 4) * (4 * W)).
              ** rewrite Z.mod_add by (clear - HW; lia). exact Hc.
              ** pose proof (Z.div_mod nontr 4 ltac:(discriminate)) as D4. rewrite N4 in D4. clear - D4. nia.
        -- apply (st_in _ _ S). nia.
  - assert (E : r4 = nontr) by lia. exists data. split; [reflexivity|]. split; [apply (st_dlen _ _ S)|]. rewrite E. split; [apply (st_out _ _ S)|apply (st_in _ _ S)].
Qed.

Definition sums_done (sums : option (buf Z)) : Prop :=
  match sums0, sums with
  | None, None => True
  | Some b, Some b' => blen b' = blen b /\
      (forall c, 0 <= c < W -> c < remaining -> bdat b' (soff + c) = wrap_s 32 (psum k src z xor off stride remaining rows r4 c)) /\
      forall q, ~ (soff <= q < soff + W) -> bdat b' q = bdat b q
  | _, _ => False
  end.

Lemma zero_half_ok : forall zp data p, W = 16 -> 0 <= p -> (p + W * nontr - 32 <= blen data \/ nontr = 0) -> W * nontr <= int_max ->
  exists data', zero_half k rows zp p data = Ok data' /\ blen data' = blen data /\
    forall q, bdat data' q = if hitk nontr (q - p) then zp else bdat data q.
Proof.
  intros zp data p HW Hp Hd Hm. destruct nontr_facts as (N1 & _ & _ & N4 & _). destruct land_mask as [_ L2].
  pose proof (Z.div_mod nontr 4 ltac:(discriminate)) as D4. rewrite N4, Z.add_0_r in D4.
  unfold zero_half. fold R. rewrite L2. cbv zeta. set (n := nontr / 4) in *. rewrite D4 in Hd, Hm, N1 |- *. rewrite HW in Hd, Hm.
  assert (HH : forall m d, hitk m d = (0 <=? d) && (d <? 16 * m) && (d mod 64 <? 32)) by (intros m d; unfold hit; fold W; rewrite HW; reflexivity).
  destruct (forto_inv (fun r (d : buf Z) => blen d = blen data /\ forall q, bdat d q = if hitk (4 * r) (q - p) then zp else bdat data q)
    (fun r data => forto 0 32 (fun j data => i <- i32 (16 * 4 * r + j) ;; bwrite data (p + i) zp) data) 0 n data) as (d & E & L & D).
  - lia.
  - split; [reflexivity|]. intros q. rewrite HH. replace ((0 <=? q - p) && (q - p <? 16 * (4 * 0))) with false by lia. reflexivity.
  - intros r d Hr [L D].
    destruct (forto_inv (fun j (e : buf Z) => blen e = blen data /\ forall q, bdat e q =
        if hitk (4 * r) (q - p) || ((64 * r <=? q - p) && (q - p <? 64 * r + j)) then zp else bdat data q)
      (fun j data => i <- i32 (16 * 4 * r + j) ;; bwrite data (p + i) zp) 0 32 d) as (e & E & Le & De).
    + lia.
    + split; [exact L|]. intros q. rewrite D. replace ((64 * r <=? q - p) && (q - p <? 64 * r + 0)) with false by lia. rewrite orb_false_r. reflexivity.
    + intros j e Hj [Le De]. rewrite i32_ok by (unfold int_min; lia). cbn [bind].
      destruct (bwrite_ok e (p + (16 * 4 * r + j)) zp) as (e' & E & Le' & De'); [lia|]. exists e'. split; [exact E|]. split; [congruence|].
      intros q. rewrite De', De. destruct (Z.eqb_spec q (p + (16 * 4 * r + j))) as [->|Hq].
      * replace ((64 * r <=? p + (16 * 4 * r + j) - p) && (p + (16 * 4 * r + j) - p <? 64 * r + (j + 1))) with true by lia.
        rewrite orb_true_r. reflexivity.
      * replace ((64 * r <=? q - p) && (q - p <? 64 * r + (j + 1))) with ((64 * r <=? q - p) && (q - p <? 64 * r + j)) by lia. reflexivity.
    + exists e. split; [exact E|]. split; [exact Le|]. intros q. rewrite De. rewrite !HH.
      match goal with |- (if ?a then _ else _) = (if ?b then _ else _) => replace a with b; [reflexivity|] end.
      pose proof (Z.div_mod (q - p) 64 ltac:(discriminate)). pose proof (Z.mod_pos_bound (q - p) 64 ltac:(lia)). lia.
  - exists d. split; [exact E|]. split; [exact L|]. exact D.
Qed.

(** The second half, offset by 32 cells. *)
Lemma hit_second : forall n d, W = 16 -> 0 <= d < W * n -> n mod 4 = 0 -> hitk n (d - 32) = negb (d mod 64 <? 32) /\ hitk n d = (d mod 64 <? 32).
Proof.
  intros n d HW Hd Hn. unfold hit. fold W. rewrite HW in *. change (4 * 16) with 64.
  pose proof (Z.div_mod d 64 ltac:(discriminate)) as D. pose proof (Z.mod_pos_bound d 64 ltac:(lia)) as M.
  pose proof (Z.div_mod n 4 ltac:(discriminate)). split; [|lia].
  destruct (Z.ltb_spec (d mod 64) 32) as [H1|H1]; cbn [negb].
  - replace ((d - 32) mod 64) with (d mod 64 + 32) by (apply (Z.mod_unique _ _ (d / 64 - 1)); lia). lia.
  - replace ((d - 32) mod 64) with (d mod 64 - 32) by (apply (Z.mod_unique _ _ (d / 64)); lia). lia.
Qed.
Lemma hit_out : forall n d, 0 <= n -> n mod 4 = 0 -> ~ (0 <= d < W * n) -> hitk n d = false /\ (W = 16 -> hitk n (d - 32) = false).
Proof.
  intros n d Hn H4 Hd. unfold hit. fold W. split; [lia|]. intros HW. rewrite HW in *. change (4 * 16) with 64.
  pose proof (Z.div_mod (d - 32) 64 ltac:(discriminate)) as D. pose proof (Z.mod_pos_bound (d - 32) 64 ltac:(lia)) as M.
  pose proof (Z.div_mod n 4 ltac:(discriminate)). lia.
Qed.
Lemma cell_second : forall v d, W = 16 -> 32 <= d mod 64 -> cellk (fun c r => v (c + 8) r) (d - 32) = cellk v d.
Proof.
  intros v d HW Hd. unfold cell. fold W. rewrite HW. change (4 * 16) with 64.
  pose proof (Z.div_mod d 64 ltac:(discriminate)) as D. pose proof (Z.mod_pos_bound d 64 ltac:(lia)) as M.
  replace ((d - 32) mod 64) with (d mod 64 - 32) by (apply (Z.mod_unique _ _ (d / 64)); lia).
  replace ((d - 32) / 64) with (d / 64) by (apply (Z.div_unique _ _ _ (d mod 64 - 32)); lia).
  f_equal.
  - replace (d mod 64 - 32) with (d mod 64 + (-8) * 4) by lia. rewrite Z.div_add by lia. lia.
  - f_equal. replace (d mod 64 - 32) with (d mod 64 + (-8) * 4) by lia. rewrite Z.mod_add by lia. reflexivity.
Qed.

Lemma val_second : forall c r, val src z (off + stride * 8) stride (remaining - 8) rows c r = vl (c + 8) r.
Proof.
  intros c r. unfold vl, val. replace (c <? remaining - 8) with (c + 8 <? remaining) by (clear; lia).
  destruct (_ && _); [|reflexivity]. f_equal. clear. lia.
Qed.
Lemma psum_second : forall n c, psum k src z xor (off + stride * 8) stride (remaining - 8) rows n c = psum k src z xor off stride remaining rows n (c + 8).
Proof. intros n c. unfold psum. f_equal. apply map_ext. intros r. rewrite val_second. reflexivity. Qed.

Lemma zero_bits : in_bits (8 * Z.of_nat w) 0.
Proof. unfold in_bits. destruct bR as [[-> _]|[-> _]]; [change (2 ^ (8 * Z.of_nat 1 - 1)) with 128|change (2 ^ (8 * Z.of_nat 2 - 1)) with 32768]; lia. Qed.
Lemma pv_bits : forall x, in_bits (8 * Z.of_nat w) (pv x).
Proof. intros x. apply wrap_s_in_bits. fold w. destruct bR as [[-> _]|[-> _]]; reflexivity. Qed.

Lemma col8 : forall d, W = 16 -> (d mod (4 * W) / 4 < 8 <-> d mod 64 < 32).
Proof.
  intros d HW. rewrite HW. change (4 * 16) with 64. pose proof (Z.mod_pos_bound d 64 ltac:(lia)).
  pose proof (Z.div_mod (d mod 64) 4 ltac:(discriminate)). pose proof (Z.mod_pos_bound (d mod 64) 4 ltac:(lia)). lia.
Qed.

Lemma pack_block_ok : exists data' sums',
  pack_block dbg k src zerobuf xor off stride remaining rows po soff data0 sums0 = Ok (data', sums') /\ copied data' /\ sums_done sums'.
Proof.
  destruct nontr_facts as (N1 & N2 & N3 & N4 & N5 & N6 & N7 & N8).
  assert (HW : W = 8 \/ W = 16) by exact bW. assert (HR : R = 32 \/ R = 16) by (destruct bR as [[_ ?]|[_ ?]]; auto).
  assert (R4 : R mod 4 = 0) by (destruct HR as [E | E]; rewrite E; reflexivity).
  assert (HRW : 0 < W * R) by (clear - HW HR; nia).
  assert (Hb : po + W * nontr <= blen data0) by (clear - Hdata N5 HW; nia).
  unfold pack_block. fold R W.
  destruct (half_pack_ok k slots rep K dbg src zerobuf data0 (const_buf (R * W) 0) z xor off stride remaining rows po 0) with (soff := soff) (sums := sums0)
    as (d1 & t1 & s1 & E1 & [L1 D1] & [T1 U1] & S1); try assumption.
  { intros c Hc1 Hc2. apply Hsrc; [|exact Hc2]. clear - Hc1 HW. lia. }
  { fold W R nontr. destruct (Z.eq_dec (rows / R) 0) as [E0|E0]; [right; exact E0|left]. clear - Hb HW. lia. }
  { clear. lia. }
  { fold W R. cbn [const_buf blen]. clear - HW HR. nia. }
  { intros b Eb. specialize (Hsums b Eb). clear - Hsums HW. lia. }
  fold W R nontr vl pv in D1, U1. cbn [const_buf blen bdat] in T1, U1. rewrite E1. cbn [bind]. clear E1.
  fold r4 in S1.
  (* the state before the copy *)
  match goal with |- exists _ _, bind ?X _ = _ /\ _ => enough (G : exists d2 t2 s2, X = Ok (d2, t2, s2) /\ staged d2 t2 /\ sums_done s2) end.
  { destruct G as (d2 & t2 & s2 & E2 & St & Sd). rewrite E2. cbn [bind]. destruct (copy_ok d2 t2 St) as (d3 & E3 & C). rewrite E3. cbn [bind].
    exists d3, s2. split; [reflexivity|]. split; assumption. }
  assert (H0 : forall q, hitk nontr q = true -> in_bits (8 * Z.of_nat w) (pv (cellk vl q))) by (intros; apply pv_bits).
  destruct (Z.eqb_spec W 8) as [E8|E8].
  - exists d1, t1, s1. split; [reflexivity|]. split.
    + assert (H8 : forall n d, hitk n d = (0 <=? d) && (d <? W * n)).
      { intros n d. unfold hit. fold W. rewrite E8. change (4 * 8) with 32. replace (d mod 32 <? 32) with true; [apply andb_true_r|].
        symmetry. apply Z.ltb_lt. apply Z.mod_pos_bound. reflexivity. }
      constructor.
      * exact L1.
      * exact T1.
      * intros q Hq. rewrite D1, H8. replace ((0 <=? q - po) && (q - po <? W * nontr)) with false by (clear - Hq; lia). reflexivity.
      * intros q Hq. rewrite D1, H8. replace ((0 <=? q - po) && (q - po <? W * nontr)) with true by (clear - Hq; lia).
        split; [apply pv_bits|]. intros _. reflexivity.
      * intros Hm q Hq. rewrite U1, H8, Z.sub_0_r. replace (0 <? rows mod R) with true by (clear - Hm; lia).
        replace ((0 <=? q) && (q <? W * R)) with true by (clear - Hq; lia). cbn [andb]. split; [apply pv_bits|]. intros _. reflexivity.
    + unfold sums_done. unfold summed in S1. destruct sums0 as [b|], s1 as [b'|]; try exact S1. destruct S1 as [S1 S2]. split; [exact S1|]. rewrite E8. split.
      * intros c Hc _. rewrite S2. replace ((soff <=? soff + c) && (soff + c <? soff + 8)) with true by (clear - Hc; lia).
        replace (soff + c - soff) with c by lia. reflexivity.
      * intros q Hq. rewrite S2. replace ((soff <=? q) && (q <? soff + 8)) with false by (clear - Hq; lia). reflexivity.
  - assert (E16 : W = 16) by (clear - HW E8; lia).
    (* shared between the two forms of the second half *)
    assert (Stage : forall d2 t2 v2 tv2,
      (blen d2 = blen d1 /\ forall q, bdat d2 q = if hitk nontr (q - (po + 32)) then v2 (q - (po + 32)) else bdat d1 q) ->
      (blen t2 = blen t1 /\ forall q, bdat t2 q = if (0 <? rows mod R) && hitk R (q - 32) then tv2 (q - 32) else bdat t1 q) ->
      (forall d, in_bits (8 * Z.of_nat w) (v2 d)) -> (forall d, in_bits (8 * Z.of_nat w) (tv2 d)) ->
      (8 < remaining -> forall d, 32 <= d mod 64 -> v2 (d - 32) = pv (cellk vl d) /\ tv2 (d - 32) = pv (cellk (fun c r => vl c (rows / R * R + r)) d)) ->
      staged d2 t2).
    { intros d2 t2 v2 tv2 [A1 A2] [B1 B2] V1 V2 V3. constructor.
      - rewrite A1. exact L1.
      - rewrite B1. exact T1.
      - intros q Hq. rewrite A2, D1. replace (q - (po + 32)) with (q - po - 32) by lia.
        destruct (hit_out nontr (q - po) N1 N4 Hq) as [F1 F2]. rewrite F1, F2 by exact E16. reflexivity.
      - intros q Hq. rewrite A2, D1. replace (q - (po + 32)) with (q - po - 32) by lia.
        destruct (hit_second nontr (q - po) E16 Hq N4) as [F1 F2]. rewrite F1, F2. pose proof (col8 (q - po) E16) as C8.
        destruct (Z.ltb_spec ((q - po) mod 64) 32) as [Hc|Hc]; cbn [negb].
        + split; [apply pv_bits|]. intros _. reflexivity.
        + split; [apply V1|]. intros Hr. apply V3; [|exact Hc]. destruct C8 as [C8 _]. clear - C8 Hr Hc. lia.
      - intros Hm q Hq. rewrite B2, U1. rewrite Z.sub_0_r. replace (0 <? rows mod R) with true by (clear - Hm; lia). cbn [andb].
        destruct (hit_second R q E16 Hq R4) as [F1 F2]. rewrite F1, F2. pose proof (col8 q E16) as C8.
        destruct (Z.ltb_spec (q mod 64) 32) as [Hc|Hc]; cbn [negb].
        + split; [apply pv_bits|]. intros _. reflexivity.
        + split; [apply V2|]. intros Hr. apply V3; [|exact Hc]. destruct C8 as [C8 _]. clear - C8 Hr Hc. lia. }
    destruct (Z.ltb_spec 8 remaining) as [H8|H8].
    + rewrite i32_ok by (apply Hstride; assumption). cbn [bind].
      destruct (half_pack_ok k slots rep K dbg src zerobuf d1 t1 z xor (off + stride * 8) stride (remaining - 8) rows (po + 32) 32) with (soff := soff + 8) (sums := s1)
        as (d2 & t2 & s2 & E2 & D2 & U2 & S2); try assumption.
      { intros c Hc1 Hc2. destruct (Hsrc (c + 8)) as [X1 X2]; [clear - Hc1 E16; lia|clear - Hc2; lia|].
        replace (off + stride * 8 + c * stride) with (off + (c + 8) * stride) by lia. split; assumption. }
      { clear - Hpo. lia. }
      { fold W R nontr. destruct (Z.eq_dec (rows / R) 0) as [E0|E0]; [right; exact E0|left]. rewrite L1. clear - Hb E16. lia. }
      { clear. lia. }
      { fold W R. rewrite T1. clear - E16. lia. }
      { clear - Hsoff. lia. }
      { intros b Eb. subst s1. unfold summed in S1. destruct sums0 as [b0|]; [|destruct S1]. destruct S1 as [S1 _]. rewrite S1. specialize (Hsums b0 eq_refl). clear - Hsums E16. lia. }
      fold W R nontr in D2, U2. fold r4 in S2. exists d2, t2, s2. split; [exact E2|]. split.
      * apply (Stage d2 t2 (fun d => pv (cellk (val src z (off + stride * 8) stride (remaining - 8) rows) d))
                 (fun d => pv (cellk (fun c r => val src z (off + stride * 8) stride (remaining - 8) rows c (rows / R * R + r)) d))).
        -- exact D2.
        -- exact U2.
        -- intros; apply pv_bits.
        -- intros; apply pv_bits.
        -- intros _ d Hd. split; f_equal.
           ++ rewrite <- (cell_second vl d E16 Hd). unfold cell. apply val_second.
           ++ rewrite <- (cell_second (fun c r => vl c (rows / R * R + r)) d E16 Hd). unfold cell. apply val_second.
      * unfold sums_done. unfold summed in S1, S2. destruct sums0 as [b|], s1 as [b1|]; try (destruct S1; fail).
        2: { destruct s2; [destruct S2|]. exact Logic.I. }
        destruct s2 as [b2|]; [|destruct S2]. destruct S1 as [S1 S1d]. destruct S2 as [S2 S2d]. split; [congruence|]. rewrite E16. split.
        -- intros c Hc Hcr. rewrite S2d. destruct (Z.ltb_spec c 8) as [Hc8|Hc8].
           ++ replace ((soff + 8 <=? soff + c) && (soff + c <? soff + 8 + 8)) with false by (clear - Hc8; lia).
              rewrite S1d. replace ((soff <=? soff + c) && (soff + c <? soff + 8)) with true by (clear - Hc8 Hc; lia).
              replace (soff + c - soff) with c by lia. reflexivity.
           ++ replace ((soff + 8 <=? soff + c) && (soff + c <? soff + 8 + 8)) with true by (clear - Hc8 Hc; lia).
              rewrite psum_second. do 2 f_equal. lia.
        -- intros q Hq. rewrite S2d. replace ((soff + 8 <=? q) && (q <? soff + 8 + 8)) with false by (clear - Hq; lia).
           rewrite S1d. replace ((soff <=? q) && (q <? soff + 8)) with false by (clear - Hq; lia). reflexivity.
    + assert (Hlx : Z.lxor z xor = pv z) by (apply (lxor_P k slots rep K); assumption).
      unfold bread. replace ((0 <=? 0) && (0 <? blen zerobuf)) with true by (clear - Hzl; lia). rewrite Hz. cbn [bind]. cbv zeta. rewrite Hlx.
      destruct (zero_half_ok (pv z) d1 (po + 32) E16) as (d2 & E2 & L2 & D2).
      { clear - Hpo. lia. }
      { left. rewrite L1. clear - Hb. lia. }
      { apply Hmax. }
      rewrite E2. cbn [bind].
      assert (St : staged d2 t1).
      { apply (Stage d2 t1 (fun _ => pv z) (fun q => if hitk R (q + 32) then pv (cellk (fun c r => vl c (rows / R * R + r)) (q + 32)) else 0)).
        - split; assumption.
        - split; [reflexivity|]. intros q. rewrite U1, Z.sub_0_r. replace (q - 32 + 32) with q by lia.
          destruct (0 <? rows mod R); cbn [andb]; [|reflexivity]. destruct (hitk R (q - 32)); reflexivity.
        - intros. apply pv_bits.
        - intros d. destruct (hitk R (d + 32)); [apply pv_bits|apply zero_bits].
        - intros H. clear - H H8. lia. }
      unfold sums_done. unfold summed in S1. destruct sums0 as [b|], s1 as [b1|]; try (destruct S1; fail).
      * destruct S1 as [S1 S1d]. rewrite i32_ok by (destruct Hmax as [M1 _]; clear - M1 Hrows; unfold int_min; lia). cbn [bind]. rewrite land_4.
        rewrite (i32_ok (pv z * r4)) by (apply Hpad; [exact E16|exact H8|discriminate]). cbn [bind].
        pose proof (bzero_ok (pv z * r4) b1 (soff + 8) 8) as Bz. unfold bzero in Bz.
        destruct Bz as (b2 & E3 & L3 & D3); [clear; lia|clear - Hsoff; lia| |].
        { rewrite S1. specialize (Hsums b eq_refl). clear - Hsums E16. lia. }
        rewrite E3. cbn [bind]. exists d2, t1, (Some b2). split; [reflexivity|]. split; [exact St|]. split; [congruence|]. rewrite E16. split.
        -- intros c Hc Hcr. rewrite D3. replace ((soff + 8 <=? soff + c) && (soff + c <? soff + 8 + 8)) with false by (clear - Hcr H8; lia).
           rewrite S1d. replace ((soff <=? soff + c) && (soff + c <? soff + 8)) with true by (clear - Hcr H8 Hc; lia).
           replace (soff + c - soff) with c by lia. reflexivity.
        -- intros q Hq. rewrite D3. replace ((soff + 8 <=? q) && (q <? soff + 8 + 8)) with false by (clear - Hq; lia).
           rewrite S1d. replace ((soff <=? q) && (q <? soff + 8)) with false by (clear - Hq; lia). reflexivity.
      * cbn [bind]. exists d2, t1, None. split; [reflexivity|]. split; [exact St|]. exact Logic.I.
Qed.

End Block.
