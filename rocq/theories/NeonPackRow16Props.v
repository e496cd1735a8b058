(** Packing row-major matrices of bytes for kNeon. *)
From Coq Require Import ZArith List Bool Lia.
From Verif Require Import Base SidePair SizeUtilFacts BlockMapFacts Mat MatFacts Scalars IntOps Pack SpecMatrix SpecPack PackFacts PackProps Kernel Simd SimdFacts Kernel8bitIsa
  MemcpyPackFacts Kernel8bit Kernel8bitFacts KernelFloatX86 KernelFloatFacts PackX86Laws PackX86Facts SpecPackX86 PackX86Portable NeonPackRow16 SpecPackNeonRow16.
Import ListNotations.
Open Scope Z_scope.

(** ** A block of sixteen rows and eight columns *)
Lemma transposed_is : forall f : nat -> nat -> Z, let v := fun k => nth k (map (fun r => map (f r) (seq 0 8)) (seq 0 16)) [] in
  forall i, (i < 8)%nat -> transposed v i ++ transposed v (8 + i)%nat = map (fun r => f r i) (seq 0 16).
Proof.
  intros f v i Hi. do 8 (destruct i as [|i]; [reflexivity|]). lia.
Qed.

Definition sum16 (g : nat -> Z) : Z := fold_right Z.add 0 (map g (seq 0 16)).

Lemma wrap16 : forall x, -32768 <= x <= 32767 -> wrap_s 16 x = x.
Proof. intros x H. apply SimdFacts.wrap_s_id; [lia|]. change (2 ^ (16 - 1)) with 32768. lia. Qed.

Lemma new_sums_are : forall (f : nat -> nat -> Z) (s : nat -> Z), (forall r i, -128 <= f r i <= 127) ->
  new_sums (fun r => map (f r) (seq 0 8)) (map s (seq 0 8)) = map (fun i => wrap_s 32 (s i + sum16 (fun r => f r i))) (seq 0 8).
Proof.
  intros f s H. unfold new_sums, vaddw_s16, vaddq_s16, vaddl_s8, lanes2. cbn [seq map combine].
  assert (L : forall i, wrap_s 16 (wrap_s 16 (wrap_s 16 (wrap_s 16 (f 0%nat i + f 1%nat i + (f 4%nat i + f 5%nat i)) + (f 8%nat i + f 9%nat i)) + (f 12%nat i + f 13%nat i)) +
      wrap_s 16 (wrap_s 16 (wrap_s 16 (f 2%nat i + f 3%nat i + (f 6%nat i + f 7%nat i)) + (f 10%nat i + f 11%nat i)) + (f 14%nat i + f 15%nat i))) = sum16 (fun r => f r i)).
  { intros i. unfold sum16. cbn [seq map fold_right].
    pose proof (H 0%nat i). pose proof (H 1%nat i). pose proof (H 2%nat i). pose proof (H 3%nat i). pose proof (H 4%nat i). pose proof (H 5%nat i). pose proof (H 6%nat i). pose proof (H 7%nat i).
    pose proof (H 8%nat i). pose proof (H 9%nat i). pose proof (H 10%nat i). pose proof (H 11%nat i). pose proof (H 12%nat i). pose proof (H 13%nat i). pose proof (H 14%nat i). pose proof (H 15%nat i).
    rewrite (wrap16 (f 0%nat i + f 1%nat i + (f 4%nat i + f 5%nat i))) by lia. rewrite (wrap16 (f 2%nat i + f 3%nat i + (f 6%nat i + f 7%nat i))) by lia.
    rewrite (wrap16 (_ + (f 8%nat i + f 9%nat i))) by lia. rewrite (wrap16 (_ + (f 10%nat i + f 11%nat i))) by lia.
    rewrite (wrap16 (_ + (f 12%nat i + f 13%nat i))) by lia. rewrite (wrap16 (_ + (f 14%nat i + f 15%nat i))) by lia.
    rewrite wrap16 by lia. lia. }
  rewrite !L. reflexivity.
Qed.

Lemma flip_is : forall st x, st = u8 \/ st = s8 -> flip (if it_signed st then 0 else 0x80) x = it_conv s8 (x - middle st).
Proof.
  intros st x H. unfold flip, it_conv, middle. destruct H as [-> | ->]; cbn [it_signed s8 u8 it_bits].
  - rewrite Z.lxor_comm. unfold wrap_u. change (2 ^ 8) with 256. rewrite lxor_128 by (apply Z.mod_pos_bound; lia).
    rewrite Z.add_mod_idemp_l by lia. change 256 with (2 ^ 8). rewrite SimdFacts.wrap_s_mod by lia. f_equal.
  - rewrite Z.lxor_0_l, Z.sub_0_r. apply wrap_s_u. lia.
Qed.

Lemma land_low : forall x n, n = 2 \/ n = 4 -> Z.land x (n - 1) = x mod n.
Proof. intros x n [-> | ->]; [change (2 - 1) with (Z.ones 1)|change (4 - 1) with (Z.ones 2)]; rewrite Z.land_ones by lia; reflexivity. Qed.

Section Rows.
Variables (n : Z) (dbg : bool) (st : ity) (src : mat Z) (p : pmat Z) (a b : Z).
Hypothesis Hn : n = 2 \/ n = 4.
Hypothesis Hst : st = u8 \/ st = s8.
Hypothesis Hcall : row16_call n src p a b.

Let rows := ml_rows (m_layout src).
Let cols := ml_cols (m_layout src).
Let stride := ml_stride (m_layout src).
Let rp := pl_rows (p_layout p).
Let zp := p_zp p.
Let xor := if it_signed st then 0 else 0x80.
Let pofs := poff (p_layout p).
Let pv := packed_value st s8 src zp.

Lemma pv_byte : forall r c, -128 <= pv r c <= 127.
Proof using Hcall Hn Hst.
  intros r c. unfold pv, packed_value. destruct Hcall as (_ & _ & _ & Hz & _). fold zp in Hz. destruct (_ <? _); [|exact Hz].
  unfold it_conv. cbn [it_signed s8 it_bits]. pose proof (SimdFacts.wrap_s_range 8 (entry src r c - middle st) ltac:(lia)) as R. change (2 ^ (8 - 1)) with 128 in R. lia.
Qed.

Lemma layout16 : 0 <= rows /\ 0 <= cols /\ cols <= stride /\ stride * rows <= int_max /\ stride * rows <= blen (m_data src) /\
  rp * pl_cols (p_layout p) <= int_max /\ rp * pl_cols (p_layout p) <= blen (p_data p) /\ pl_stride (p_layout p) = rp /\ rows <= rp < rows + 16 /\ (16 | rp) /\
  (n | pl_cols (p_layout p)) /\ cols <= pl_cols (p_layout p) < cols + n /\ pl_cols (p_layout p) <= int_max /\ 0 <= a <= b /\ b <= pl_cols (p_layout p) /\ (n | a) /\ (n | b) /\ rp <= 2 ^ 24.
Proof using Hcall Hn Hst.
  destruct Hcall as (((V1 & V2 & V3 & V4) & V5) & Hrow & ((_ & _ & L3 & L4 & L5 & L6 & L7 & L8) & L9 & _) & _ & _ & R24 & Hab & Hb & Da & Db).
  unfold inner_size, outer_size in *. rewrite Hrow in *. cbn [sixteens kl_rows kl_cols] in *. destruct L4 as [D4 R4]. destruct L5 as [D5 R5].
  unfold rows, cols, stride, rp in *. repeat split; try assumption; lia.
Qed.

Lemma valid16 : valid_kernel_layout (sixteens n).
Proof using Hcall Hn Hst.
  unfold valid_kernel_layout. cbn [sixteens kl_rows kl_cols]. split; [exists 4; lia|]. destruct Hn as [-> | ->]; (split; [|lia]); [exists 1|exists 2]; lia.
Qed.

Lemma ok16 : pmat_ok p.
Proof using Hcall Hn Hst. destruct Hcall as (HV & _ & HP & _). apply (packed_for_ok src (sixteens n)); [exact valid16|exact HV|exact HP]. Qed.

(** Where the sixteen cells of column [c] in the block of rows at [br] begin. *)
Definition at16 (br c : Z) : Z := rp * (c / n * n) + n * br + 16 * (c mod n).

Lemma pofs_at : forall br c i, (16 | br) -> 0 <= i < 16 -> pofs (br + i) c = at16 br c + i.
Proof using Hcall Hn Hst.
  intros br c i [m Em] Hi. unfold pofs, poff, at16. destruct Hcall as (_ & _ & ((E & _) & _) & _). rewrite E. cbn [sixteens kl_rows kl_cols kl_order]. fold rp.
  replace ((br + i) / 16) with m by (apply (Z.div_unique _ _ _ i); [left; exact Hi|clear - Em; lia]).
  replace ((br + i) mod 16) with i by (apply (Z.mod_unique _ _ m); [left; exact Hi|clear - Em; lia]).
  rewrite Em. ring.
Qed.

Lemma pofs_of : forall r c, 0 <= r -> pofs r c = at16 (r / 16 * 16) c + r mod 16.
Proof using Hcall Hn Hst.
  intros r c Hr. rewrite <- pofs_at; [|eexists; reflexivity|apply Z.mod_pos_bound; lia]. f_equal. pose proof (Z.div_mod r 16 ltac:(lia)). lia.
Qed.

Lemma at16_range : forall br c, 0 <= br -> br + 16 <= rp -> 0 <= c < pl_cols (p_layout p) -> (16 | br) -> 0 <= at16 br c /\ at16 br c + 16 <= blen (p_data p).
Proof using Hcall Hn Hst.
  intros br c Hbr Hbr' Hc D. pose proof ok16 as PO. pose proof (pmo_layout _ PO) as PL.
  pose proof (poff_range (p_layout p) br c PL ltac:(fold rp; lia) Hc) as R0. pose proof (poff_range (p_layout p) (br + 15) c PL ltac:(fold rp; lia) Hc) as R1.
  fold pofs rp in R0, R1. replace br with (br + 0) in R0 by lia. rewrite pofs_at in R0, R1 by (try exact D; lia).
  destruct layout16 as (_ & _ & _ & _ & _ & _ & F7 & _). lia.
Qed.

(** ** What the loops maintain *)
Definition cell (r c : Z) : Z := if c <? cols then pv r c else 0.
Definition done (br e r c : Z) : Prop := a <= c < b /\ 0 <= r /\ (r < br \/ (r < br + 16 /\ c < e)).
Definition total (k c : Z) : Z := if c <? cols then zsum (map (fun r => pv r c) (zrange 0 k)) else 0.

Variable sums0 : buf Z.
Hypothesis Hsums0 : p_sums p = Some sums0.

Record dinv (br e : Z) (data : buf Z) : Prop := {
  di_len : blen data = blen (p_data p);
  di_in : forall r c, done br e r c -> bdat data (pofs r c) = cell r c;
  di_out : forall q, (forall r c, 0 <= r < rp -> a <= c < b -> pofs r c <> q) -> bdat data q = bdat (p_data p) q
}.
Record sinv (br e : Z) (sums : buf Z) : Prop := {
  si_len : blen sums = blen sums0;
  si_in : forall c, a <= c < b -> bdat sums c = total (if c <? e then br + 16 else br) c;
  si_out : forall c, ~ (a <= c < b) -> bdat sums c = bdat sums0 c
}.

Lemma total_bound : forall k c, 0 <= k -> - 128 * k <= total k c <= 127 * k.
Proof using Hcall Hn Hst.
  intros k c Hk. unfold total. destruct (c <? cols); [|lia]. pose proof (zsum_bound (map (fun r => pv r c) (zrange 0 k))) as B. rewrite map_length in B.
  assert (L : length (zrange 0 k) = Z.to_nat k) by (unfold zrange; rewrite zseq_seq, map_length, seq_length; f_equal; lia). rewrite L, Z2Nat.id in B by exact Hk.
  apply B. apply Forall_forall. intros x Hx. apply in_map_iff in Hx. destruct Hx as (r & <- & _).
  pose proof (pv_byte r c) as P. unfold in_bits. change (2 ^ (8 - 1)) with 128. clear - P. lia.
Qed.

Lemma total_next : forall k c, 0 <= k -> c < cols -> total (k + 16) c = total k c + sum16 (fun r => pv (k + Z.of_nat r) c).
Proof using Hcall Hn Hst.
  intros k c Hk Hc. unfold total. replace (c <? cols) with true by lia. rewrite (zrange_split 0 k (k + 16)) by lia. rewrite map_app.
  assert (A : forall l l', zsum (l ++ l') = zsum l + zsum l') by (induction l as [|x l IH]; intros l'; cbn [app zsum]; [reflexivity|rewrite IH; lia]).
  rewrite A. f_equal. assert (Z16 : zrange k (k + 16) = map (fun i => k + Z.of_nat i) (seq 0 16)).
  { unfold zrange. replace (Z.to_nat (k + 16 - k)) with 16%nat by lia. cbn [zseq seq map]. repeat (f_equal; try lia). }
  rewrite Z16, map_map. unfold sum16. generalize (seq 0 16). intros l. induction l as [|x l IH]; cbn [map zsum fold_right]; [reflexivity|rewrite IH; reflexivity].
Qed.

(** Storing the sixteen cells of the next column. *)
Lemma dput : forall br e data vals poff, dinv br e data -> (16 | br) -> 0 <= br -> br + 16 <= rp -> a <= e < b ->
  poff = at16 br e -> vals = map (fun i => cell (br + Z.of_nat i) e) (seq 0 16) ->
  exists data', write_list vals poff data = Ok data' /\ dinv br (e + 1) data'.
Proof using Hcall Hn Hst.
  intros br e data vals po I D Hbr Hbr' He -> ->.
  destruct layout16 as (_ & _ & _ & _ & _ & _ & _ & _ & _ & _ & _ & _ & _ & Hab & Hb & _).
  pose proof ok16 as PO. pose proof (pmo_layout _ PO) as PL.
  pose proof (at16_range br e Hbr Hbr' ltac:(lia) D) as R. pose proof (di_len _ _ _ I) as Ld.
  destruct (write_list_ok (map (fun i => cell (br + Z.of_nat i) e) (seq 0 16)) (at16 br e) data) as (d' & E & L & Dd).
  { apply R. } { rewrite map_length, seq_length, Ld. change (Z.of_nat 16) with 16. apply R. }
  exists d'. split; [exact E|]. rewrite map_length, seq_length in Dd. change (Z.of_nat 16) with 16 in Dd.
  constructor.
  - congruence.
  - intros r c (Hc & Hr & Hd). rewrite Dd. destruct ((at16 br e <=? pofs r c) && (pofs r c <? at16 br e + 16)) eqn:T.
    + assert (T' : 0 <= pofs r c - at16 br e < 16) by lia. pose proof (pofs_at br e _ D T') as P. rewrite Zplus_minus in P.
      apply poff_inj in P; [|exact PL|fold rp; clear - T' Hbr Hbr'; lia|clear - He Hab; lia|fold rp; clear - Hd Hr Hbr'; lia|clear - Hc Hab; lia].
      destruct P as [P1 P2]. set (i := pofs r c - at16 br e) in *. subst e.
      rewrite (nth_indep _ 0 ((fun i => cell (br + Z.of_nat i) c) 0%nat)) by (rewrite map_length, seq_length; clear - T'; lia).
      rewrite (map_nth (fun i => cell (br + Z.of_nat i) c)), seq_nth by (clear - T'; lia). rewrite Nat.add_0_l, Z2Nat.id by (clear - T'; lia). f_equal. exact P1.
    + apply (di_in _ _ _ I). split; [exact Hc|]. split; [exact Hr|]. destruct Hd as [Hd|[Hd1 Hd2]]; [left; exact Hd|].
      destruct (Z_lt_le_dec r br) as [Lr|Lr]; [left; exact Lr|right]. split; [exact Hd1|]. destruct (Z.eq_dec c e) as [->|Nc]; [exfalso|clear - Nc Hd2; lia].
      pose proof (pofs_at br e (r - br) D ltac:(clear - Lr Hd1; lia)) as P. rewrite Zplus_minus in P. clear - P T Lr Hd1. lia.
  - intros q Hq. rewrite Dd. destruct ((at16 br e <=? q) && (q <? at16 br e + 16)) eqn:T; [exfalso|apply (di_out _ _ _ I), Hq].
    assert (T' : 0 <= q - at16 br e < 16) by lia. pose proof (pofs_at br e _ D T') as P. rewrite Zplus_minus in P. revert P. apply Hq; [clear - T' Hbr Hbr'; lia|exact He].
Qed.

Lemma sput : forall br e k sums l, sinv br e sums -> a <= e -> e + Z.of_nat k <= b -> l = map (fun i => total (br + 16) (e + Z.of_nat i)) (seq 0 k) ->
  exists sums', write_list l e sums = Ok sums' /\ sinv br (e + Z.of_nat k) sums'.
Proof using Hcall Hn Hst Hsums0.
  intros br e k sums l I He Hk ->. destruct layout16 as (_ & _ & _ & _ & _ & _ & _ & _ & _ & _ & _ & _ & _ & Hab & Hb & _).
  destruct Hcall as (_ & _ & (_ & _ & Ls) & _). specialize (Ls sums0 Hsums0). pose proof (si_len _ _ _ I) as L0.
  destruct (write_list_ok (map (fun i => total (br + 16) (e + Z.of_nat i)) (seq 0 k)) e sums) as (s' & E & L & D).
  { lia. } { rewrite map_length, seq_length. lia. }
  exists s'. split; [exact E|]. rewrite map_length, seq_length in D. constructor.
  - congruence.
  - intros c Hc. rewrite D. destruct ((e <=? c) && (c <? e + Z.of_nat k)) eqn:T.
    + rewrite (nth_indep _ 0 ((fun i => total (br + 16) (e + Z.of_nat i)) 0%nat)) by (rewrite map_length, seq_length; lia).
      rewrite (map_nth (fun i => total (br + 16) (e + Z.of_nat i))), seq_nth by lia. rewrite Nat.add_0_l, Z2Nat.id by lia. replace (c <? e + Z.of_nat k) with true by lia.
      f_equal. lia.
    + rewrite (si_in _ _ _ I c Hc). f_equal. destruct (Z.ltb_spec c e); destruct (Z.ltb_spec c (e + Z.of_nat k)); try reflexivity; lia.
  - intros c Hc. rewrite D. replace (_ && _) with false by lia. apply (si_out _ _ _ I), Hc.
Qed.
(** ** The loops *)
Lemma read_is : forall br r c x, 0 <= br -> 0 <= r -> br + r < rows -> 0 <= c < cols -> x = br * stride + c + r * stride ->
  0 <= r * stride <= int_max /\ bread (m_data src) x = Ok (bdat (m_data src) x) /\ flip xor (bdat (m_data src) x) = pv (br + r) c.
Proof using Hcall Hn Hst.
  intros br r c x Hbr Hr Hrows Hc Ex. destruct layout16 as (F1 & F2 & F3 & F4 & F5 & _).
  assert (Hm : (br + r) * stride + stride <= stride * rows) by (clear - Hrows F3 F2; nia).
  assert (Hr0 : 0 <= r * stride <= (br + r) * stride) by (clear - Hr Hbr F2 F3; nia). assert (0 <= br * stride) by (clear - Hbr F2 F3; nia).
  split; [clear - Hr0 Hm F4 F2 F3; lia|]. split.
  - apply bread_ok. clear - Ex Hm Hr0 Hc F3 F5 H. nia.
  - unfold xor. rewrite flip_is by exact Hst. unfold pv, packed_value. fold rows. replace (br + r <? rows) with true by (clear - Hrows; lia).
    unfold entry, position. destruct Hcall as (_ & Hrow & _). rewrite Hrow. fold stride. do 3 f_equal. rewrite Ex. ring.
Qed.

Lemma pad_is : forall r c, rows <= r -> wrap_s 8 zp = pv r c.
Proof using Hcall Hn Hst.
  intros r c Hr. unfold pv, packed_value. fold rows. replace (r <? rows) with false by (clear - Hr; lia). destruct Hcall as (_ & _ & _ & Hz & _). fold zp in Hz.
  apply SimdFacts.wrap_s_id; [lia|]. change (2 ^ (8 - 1)) with 128. clear - Hz. lia.
Qed.

Lemma row16_ok : forall br c0 r, 0 <= br -> 0 <= c0 -> c0 + 8 <= cols ->
  row16 (m_data src) xor (br * stride + c0) stride zp br rows r = Ok (map (fun i => pv (br + Z.of_nat r) (c0 + Z.of_nat i)) (seq 0 8)).
Proof using Hcall Hn Hst.
  intros br c0 r Hbr Hc0 Hc8. unfold row16. destruct (Z.ltb_spec (br + Z.of_nat r) rows) as [L|L].
  - destruct (read_is br (Z.of_nat r) c0 _ Hbr ltac:(lia) L ltac:(lia) eq_refl) as (I1 & _). rewrite i32_ok by (clear - I1; unfold int_min; lia). cbn [bind].
    apply rmap_ok. intros i Hi. apply in_seq in Hi.
    destruct (read_is br (Z.of_nat r) (c0 + Z.of_nat i) (br * stride + c0 + Z.of_nat r * stride + Z.of_nat i) Hbr ltac:(lia) L ltac:(lia) ltac:(ring)) as (_ & E & V).
    rewrite E. cbn [bind]. rewrite V. reflexivity.
  - f_equal. change (repeat (wrap_s 8 zp) 8) with (map (fun _ : nat => wrap_s 8 zp) (seq 0 8)). apply map_ext. intros i. apply pad_is. exact L.
Qed.

Lemma at16_rel : forall br e j x, (n | e) -> 0 <= j < n -> x = e + j -> at16 br x = rp * e + n * br + 16 * j.
Proof using Hcall Hn Hst.
  intros br e j x [m ->] Hj ->. unfold at16.
  replace ((m * n + j) / n) with m by (apply (Z.div_unique _ _ _ j); [left; exact Hj|ring]).
  replace ((m * n + j) mod n) with j by (apply (Z.mod_unique _ _ m); [left; exact Hj|ring]). ring.
Qed.

(** packed_ptr when the next column is [c]. *)
Definition ptr (br c : Z) : Z := rp * (c / n * n) + n * br.

Lemma ptr_of : forall br c, (n | c) -> ptr br c = rp * c + n * br.
Proof using Hcall Hn Hst. intros br c [m ->]. unfold ptr. rewrite Z.div_mul by (clear - Hn; lia). reflexivity. Qed.

Lemma cell_in : forall r c, c < cols -> cell r c = pv r c.
Proof using Hcall Hn Hst. intros r c Hc. unfold cell. replace (c <? cols) with true by (clear - Hc; lia). reflexivity. Qed.

Lemma sums_fit : forall k c, 0 <= k -> k <= rp -> int_min <= total k c <= int_max.
Proof using Hcall Hn Hst.
  intros k c Hk Hk'. pose proof (total_bound k c Hk) as B. destruct layout16 as (_ & _ & _ & _ & _ & _ & _ & _ & _ & _ & _ & _ & _ & _ & _ & _ & _ & R).
  change (2 ^ 24) with 16777216 in R. unfold int_min, int_max. clear - B Hk Hk' R. lia.
Qed.

Lemma group_ok : forall br c0 data sums, dinv br c0 data -> sinv br c0 sums -> (16 | br) -> 0 <= br -> br + 16 <= rp -> a <= c0 -> (n | c0) -> c0 + 8 <= b -> c0 + 8 <= cols ->
  exists data' sums', group16 (m_data src) xor stride zp rp n br rows c0 (data, sums, br * stride + c0, ptr br c0) = Ok (data', sums', br * stride + (c0 + 8), ptr br (c0 + 8)) /\
    dinv br (c0 + 8) data' /\ sinv br (c0 + 8) sums'.
Proof using Hcall Hn Hst Hsums0.
  intros br c0 data sums ID IS D Hbr Hbr' Ha Dn Hb8 Hc8.
  destruct layout16 as (F1 & F2 & F3 & F4 & F5 & F6 & F7 & F8 & F9 & F10 & F11 & F12 & F13 & Hab & Hb & Da & Db & R24).
  pose proof Hcall as (_ & _ & (_ & _ & Ls) & _). specialize (Ls sums0 Hsums0). pose proof (si_len _ _ _ IS) as L0.
  unfold group16.
  rewrite (rmap_ok _ (fun i => total br (c0 + Z.of_nat i))).
  2: { intros i Hi. apply in_seq in Hi. rewrite bread_ok by (clear - Hi L0 Ls Ha Hab Hb Hb8; lia). f_equal. rewrite (si_in _ _ _ IS) by (clear - Hi Ha Hb8; lia).
       replace (c0 + Z.of_nat i <? c0) with false by (clear; lia). reflexivity. }
  cbn [bind]. rewrite (rmap_ok _ (fun r => map (fun i => pv (br + Z.of_nat r) (c0 + Z.of_nat i)) (seq 0 8))) by (intros r Hr; apply row16_ok; clear - Hbr Ha Hab Hc8; lia).
  cbn [bind].
  set (f := fun r i : nat => pv (br + Z.of_nat r) (c0 + Z.of_nat i)).
  set (v := fun r : nat => map (f r) (seq 0 8)).
  assert (EN : new_sums (fun k => nth k (map (fun r => map (fun i => pv (br + Z.of_nat r) (c0 + Z.of_nat i)) (seq 0 8)) (seq 0 16)) []) (map (fun i => total br (c0 + Z.of_nat i)) (seq 0 8)) =
    map (fun i => total (br + 16) (c0 + Z.of_nat i)) (seq 0 8)).
  { change (new_sums (fun k => nth k (map v (seq 0 16)) []) (map (fun i => total br (c0 + Z.of_nat i)) (seq 0 8)) = map (fun i => total (br + 16) (c0 + Z.of_nat i)) (seq 0 8)).
    change (new_sums (fun r => map (f r) (seq 0 8)) (map (fun i => total br (c0 + Z.of_nat i)) (seq 0 8)) = map (fun i => total (br + 16) (c0 + Z.of_nat i)) (seq 0 8)).
    rewrite new_sums_are by (intros r i; apply pv_byte). apply map_ext_in. intros i Hi. apply in_seq in Hi.
    rewrite (total_next br) by (clear - Hbr Hi Hc8; lia). apply SimdFacts.wrap_s_id; [clear; lia|].
    pose proof (sums_fit (br + 16) (c0 + Z.of_nat i) ltac:(clear - Hbr; lia) Hbr') as B. rewrite (total_next br) in B by (clear - Hbr Hi Hc8; lia).
    unfold int_min, int_max in B. change (2 ^ (32 - 1)) with 2147483648. unfold f. clear - B. lia. }
  rewrite EN. destruct (sput br c0 8 sums _ IS Ha Hb8 eq_refl) as (s' & Es & IS'). rewrite Es. cbn [bind]. change (Z.of_nat 8) with 8 in IS'.
  assert (ET : forall i, (i < 8)%nat -> transposed (fun k => nth k (map (fun r => map (fun i => pv (br + Z.of_nat r) (c0 + Z.of_nat i)) (seq 0 8)) (seq 0 16)) []) i ++
      transposed (fun k => nth k (map (fun r => map (fun i => pv (br + Z.of_nat r) (c0 + Z.of_nat i)) (seq 0 8)) (seq 0 16)) []) (8 + i)%nat =
    map (fun r => cell (br + Z.of_nat r) (c0 + Z.of_nat i)) (seq 0 16)).
  { intros i Hi. transitivity (map (fun r => f r i) (seq 0 16)); [exact (transposed_is (fun r i => pv (br + Z.of_nat r) (c0 + Z.of_nat i)) i Hi)|]. apply map_ext. intros r. unfold f. symmetry. apply cell_in. clear - Hi Hc8. lia. }
  rewrite (ET 0%nat), (ET 1%nat), (ET 2%nat), (ET 3%nat), (ET 4%nat), (ET 5%nat), (ET 6%nat), (ET 7%nat) by (clear; lia).
  assert (H4 : 0 <= 4 * rp <= int_max).
  { assert (4 * rp <= pl_cols (p_layout p) * rp) by (apply Z.mul_le_mono_nonneg_r; clear - Hbr Hbr' Hb Hb8 Ha Hab; lia). clear - H F6 Hbr Hbr'. lia. }
  assert (ED : two_columns n rp = Ok (at16 br (c0 + 2) - at16 br c0) /\ at16 br (c0 + 6) - at16 br (c0 + 4) = at16 br (c0 + 2) - at16 br c0 /\
    at16 br c0 = ptr br c0 /\ at16 br (c0 + 1) = at16 br c0 + 16 /\ at16 br (c0 + 3) = at16 br (c0 + 2) + 16 /\ at16 br (c0 + 5) = at16 br (c0 + 4) + 16 /\ at16 br (c0 + 7) = at16 br (c0 + 6) + 16 /\
    at16 br (c0 + 4) = ptr br c0 + 4 * rp /\ ptr br (c0 + 8) = ptr br c0 + 4 * rp + 4 * rp).
  { rewrite (ptr_of br c0 Dn). rewrite (ptr_of br (c0 + 8)) by (apply Z.divide_add_r; [exact Dn|destruct Hn as [-> | ->]; [exists 4|exists 2]; reflexivity]).
    unfold two_columns. assert (D4 : (n | c0 + 4)) by (apply Z.divide_add_r; [exact Dn|destruct Hn as [-> | ->]; [exists 2|exists 1]; reflexivity]).
    rewrite (at16_rel br c0 0 c0 Dn), (at16_rel br c0 1 (c0 + 1) Dn), (at16_rel br (c0 + 4) 0 (c0 + 4) D4), (at16_rel br (c0 + 4) 1 (c0 + 5) D4) by (clear - Hn; lia).
    destruct (Z.eq_dec n 2) as [E2|E2].
    - assert (D2 : (n | c0 + 2)) by (apply Z.divide_add_r; [exact Dn|exists 1; clear - E2; lia]). assert (D6 : (n | c0 + 6)) by (apply Z.divide_add_r; [exact Dn|exists 3; clear - E2; lia]).
      rewrite (at16_rel br (c0 + 2) 0 (c0 + 2) D2), (at16_rel br (c0 + 2) 1 (c0 + 3) D2), (at16_rel br (c0 + 6) 0 (c0 + 6) D6), (at16_rel br (c0 + 6) 1 (c0 + 7) D6) by (clear - Hn; lia).
      rewrite E2, Z.eqb_refl. rewrite i32_ok by (clear - H4; unfold int_min; lia). repeat split; try (f_equal; ring); ring.
    - assert (E4 : n = 4) by (clear - E2 Hn; lia).
      rewrite (at16_rel br c0 2 (c0 + 2) Dn), (at16_rel br c0 3 (c0 + 3) Dn), (at16_rel br (c0 + 4) 2 (c0 + 6) D4), (at16_rel br (c0 + 4) 3 (c0 + 7) D4) by (clear - E4; lia).
      rewrite E4. cbn [Z.eqb Pos.eqb]. repeat split; try (f_equal; ring); ring. }
  destruct ED as (ED & P6 & P0 & P1 & P3 & P5 & P7 & P4 & P8). rewrite ED. rewrite (i32_ok (4 * rp)) by (clear - H4; unfold int_min; lia).
  destruct (dput br c0 data _ (ptr br c0) ID D Hbr Hbr' ltac:(clear - Ha Hb8; lia) (eq_sym P0) eq_refl) as (d1 & E1 & I1).
  change (Z.of_nat 0) with 0. rewrite Z.add_0_r. rewrite E1. cbn [bind].
  destruct (dput br (c0 + 1) d1 _ (ptr br c0 + 16) I1 D Hbr Hbr' ltac:(clear - Ha Hb8; lia) ltac:(clear - P0 P1; lia) eq_refl) as (d2 & E2 & I2).
  change (Z.of_nat 1) with 1. rewrite E2. cbn [bind]. replace (c0 + 1 + 1) with (c0 + 2) in I2 by ring.
  destruct (dput br (c0 + 2) d2 _ (ptr br c0 + (at16 br (c0 + 2) - at16 br c0)) I2 D Hbr Hbr' ltac:(clear - Ha Hb8; lia) ltac:(clear - P0; lia) eq_refl) as (d3 & E3 & I3).
  change (Z.of_nat 2) with 2. rewrite E3. cbn [bind]. replace (c0 + 2 + 1) with (c0 + 3) in I3 by ring.
  destruct (dput br (c0 + 3) d3 _ (ptr br c0 + (at16 br (c0 + 2) - at16 br c0) + 16) I3 D Hbr Hbr' ltac:(clear - Ha Hb8; lia) ltac:(clear - P0 P3; lia) eq_refl) as (d4 & E4 & I4).
  change (Z.of_nat 3) with 3. rewrite E4. cbn [bind]. replace (c0 + 3 + 1) with (c0 + 4) in I4 by ring.
  destruct (dput br (c0 + 4) d4 _ (ptr br c0 + 4 * rp) I4 D Hbr Hbr' ltac:(clear - Ha Hb8; lia) ltac:(clear - P4; lia) eq_refl) as (d5 & E5 & I5).
  change (Z.of_nat 4) with 4. rewrite E5. cbn [bind]. replace (c0 + 4 + 1) with (c0 + 5) in I5 by ring.
  destruct (dput br (c0 + 5) d5 _ (ptr br c0 + 4 * rp + 16) I5 D Hbr Hbr' ltac:(clear - Ha Hb8; lia) ltac:(clear - P4 P5; lia) eq_refl) as (d6 & E6 & I6).
  change (Z.of_nat 5) with 5. rewrite E6. cbn [bind]. replace (c0 + 5 + 1) with (c0 + 6) in I6 by ring.
  destruct (dput br (c0 + 6) d6 _ (ptr br c0 + 4 * rp + (at16 br (c0 + 2) - at16 br c0)) I6 D Hbr Hbr' ltac:(clear - Ha Hb8; lia) ltac:(clear - P4 P6; lia) eq_refl) as (d7 & E7 & I7).
  change (Z.of_nat 6) with 6. rewrite E7. cbn [bind]. replace (c0 + 6 + 1) with (c0 + 7) in I7 by ring.
  destruct (dput br (c0 + 7) d7 _ (ptr br c0 + 4 * rp + (at16 br (c0 + 2) - at16 br c0) + 16) I7 D Hbr Hbr' ltac:(clear - Ha Hb8; lia) ltac:(clear - P4 P6 P7; lia) eq_refl) as (d8 & E8 & I8).
  change (Z.of_nat 7) with 7. rewrite E8. cbn [bind]. replace (c0 + 7 + 1) with (c0 + 8) in I8 by ring.
  exists d8, s'. rewrite P8. split; [apply f_equal; rewrite Z.add_assoc; reflexivity|]. split; assumption.
Qed.

Lemma next_ok : forall br c, 0 <= c < pl_cols (p_layout p) -> 0 < rp -> next_packed rp n c (ptr br c) = Ok (ptr br (c + 1)).
Proof using Hcall Hn Hst.
  intros br c Hc Hrp. destruct layout16 as (F1 & F2 & F3 & F4 & F5 & F6 & F7 & F8 & F9 & F10 & F11 & F12 & F13 & Hab & Hb & Da & Db & R24).
  unfold next_packed. rewrite land_low by exact Hn. pose proof (Z.mod_pos_bound c n ltac:(clear - Hn; lia)) as M. pose proof (Z.div_mod c n ltac:(clear - Hn; lia)) as D.
  destruct (Z.eq_dec (c mod n) (n - 1)) as [E|E].
  - replace ((c + 1) / n) with (c / n + 1) in * by (apply (Z.div_unique _ _ _ 0); [left; clear - Hn; lia|clear - D E; lia]).
    replace ((c + 1) mod n) with 0 by (apply (Z.mod_unique _ _ (c / n + 1)); [left; clear - Hn; lia|clear - D E; lia]).
    rewrite Z.eqb_refl. assert (Hnp : n * rp <= pl_cols (p_layout p) * rp).
    { apply Z.mul_le_mono_nonneg_r; [clear - Hrp; lia|]. apply Z.divide_pos_le; [clear - Hc; lia|exact F11]. }
    rewrite i32_ok by (clear - Hnp F6 Hrp Hn; unfold int_min; lia). cbn [bind]. f_equal. unfold ptr.
    replace ((c + 1) / n) with (c / n + 1) by (apply (Z.div_unique _ _ _ 0); [left; clear - Hn; lia|clear - D E; lia]). ring.
  - replace ((c + 1) mod n) with (c mod n + 1) by (apply (Z.mod_unique _ _ (c / n)); [left; clear - M E; lia|clear - D; lia]).
    replace (c mod n + 1 =? 0) with false by (clear - M; lia). unfold ptr.
    replace ((c + 1) / n) with (c / n) by (apply (Z.div_unique _ _ _ (c mod n + 1)); [left; clear - M E; lia|clear - D; lia]). reflexivity.
Qed.

Lemma single_ok : forall br c data sums, dinv br c data -> sinv br c sums -> (16 | br) -> 0 <= br -> br + 16 <= rp -> a <= c < b -> c < cols ->
  exists data' sums', single16 (m_data src) xor stride zp rp n br rows c (data, sums, br * stride + c, ptr br c) = Ok (data', sums', br * stride + (c + 1), ptr br (c + 1)) /\
    dinv br (c + 1) data' /\ sinv br (c + 1) sums'.
Proof using Hcall Hn Hst Hsums0.
  intros br c data sums ID IS D Hbr Hbr' Hc Hcc.
  destruct layout16 as (F1 & F2 & F3 & F4 & F5 & F6 & F7 & F8 & F9 & F10 & F11 & F12 & F13 & Hab & Hb & Da & Db & R24).
  pose proof Hcall as (_ & _ & (_ & _ & Ls) & _). specialize (Ls sums0 Hsums0). pose proof (si_len _ _ _ IS) as L0.
  unfold single16. rewrite (rmap_ok _ (fun r => pv (br + Z.of_nat r) c)).
  2: { intros r Hr. destruct (Z.ltb_spec (br + Z.of_nat r) rows) as [L|L].
       - destruct (read_is br (Z.of_nat r) c _ Hbr ltac:(lia) L ltac:(clear - Hc Hcc Hab; lia) eq_refl) as (I1 & E & V). rewrite i32_ok by (clear - I1; unfold int_min; lia). cbn [bind].
         rewrite E. cbn [bind]. rewrite V. reflexivity.
       - f_equal. apply pad_is. exact L. }
  cbn [bind]. rewrite land_low by exact Hn.
  destruct (dput br c data (map (fun r => pv (br + Z.of_nat r) c) (seq 0 16)) (ptr br c + c mod n * 16) ID D Hbr Hbr' Hc) as (d' & E & I').
  { unfold at16, ptr. ring. } { apply map_ext. intros i. symmetry. apply cell_in. exact Hcc. }
  rewrite E. cbn [bind]. rewrite bread_ok by (clear - L0 Ls Hc Hab Hb; lia). cbn [bind].
  rewrite (si_in _ _ _ IS c Hc). replace (c <? c) with false by (clear; lia).
  assert (ET : total br c + fold_right Z.add 0 (map (fun r => pv (br + Z.of_nat r) c) (seq 0 16)) = total (br + 16) c) by (rewrite total_next by (try exact Hcc; exact Hbr); reflexivity).
  rewrite ET. pose proof (sums_fit (br + 16) c ltac:(clear - Hbr; lia) Hbr') as B. rewrite i32_ok by exact B. cbn [bind].
  destruct (sput br c 1 sums [total (br + 16) c] IS ltac:(apply Hc) ltac:(clear - Hc; lia)) as (s' & Es & IS').
  { cbn [seq map]. change (Z.of_nat 0) with 0. rewrite Z.add_0_r. reflexivity. }
  cbn [write_list] in Es. destruct (bwrite sums c (total (br + 16) c)) as [s2| |]; cbn [bind] in Es |- *; try discriminate. injection Es as ->.
  rewrite next_ok by (clear - Hc Hab Hb Hbr Hbr'; lia). cbn [bind]. exists d', s'. split; [apply f_equal; rewrite Z.add_assoc; reflexivity|]. split; [exact I'|exact IS'].
Qed.

Lemma final_ok : forall br c data, dinv br c data -> (16 | br) -> 0 <= br -> br + 16 <= rp -> a <= c < b -> cols <= c ->
  exists data', final16 rp n c (data, ptr br c) = Ok (data', ptr br (c + 1)) /\ dinv br (c + 1) data'.
Proof using Hcall Hn Hst.
  intros br c data ID D Hbr Hbr' Hc Hcc. destruct layout16 as (F1 & F2 & F3 & F4 & F5 & F6 & F7 & F8 & F9 & F10 & F11 & F12 & F13 & Hab & Hb & Da & Db & R24).
  unfold final16. rewrite land_low by exact Hn.
  destruct (dput br c data (repeat 0 16) (ptr br c + c mod n * 16) ID D Hbr Hbr' Hc) as (d' & E & I').
  { unfold at16, ptr. ring. }
  { change (repeat 0 16) with (map (fun _ : nat => 0) (seq 0 16)). apply map_ext. intros i. unfold cell. replace (c <? cols) with false by (clear - Hcc; lia). reflexivity. }
  rewrite E. cbn [bind]. rewrite next_ok by (clear - Hc Hab Hb Hbr Hbr'; lia). cbn [bind]. exists d'. split; [reflexivity|exact I'].
Qed.

Lemma next_rows : forall br data sums, dinv br b data -> sinv br (Z.min b cols) sums -> dinv (br + 16) a data /\ sinv (br + 16) a sums.
Proof using Hcall Hn Hst.
  intros br data sums ID IS. split; constructor; try apply ID; try apply IS.
  - intros r c (Hc & Hr & Hd). apply (di_in _ _ _ ID). split; [exact Hc|]. split; [exact Hr|]. clear - Hd Hc. lia.
  - intros c Hc. rewrite (si_in _ _ _ IS c Hc). replace (c <? a) with false by (clear - Hc; lia). unfold total. destruct (Z.ltb_spec c cols) as [L|L]; [|reflexivity].
    replace (c <? Z.min b cols) with true by (clear - Hc L; lia). reflexivity.
Qed.

Lemma block_ok : forall br data sums, dinv br a data -> sinv br a sums -> (16 | br) -> 0 <= br -> br + 16 <= rp ->
  exists data' sums', pack_row16_block (m_data src) xor (br * stride + a) stride zp (a * rp + br * n) rp n a b cols br rows (data, sums) = Ok (data', sums') /\
    dinv (br + 16) a data' /\ sinv (br + 16) a sums'.
Proof using Hcall Hn Hst Hsums0.
  intros br data sums ID IS D Hbr Hbr'.
  destruct layout16 as (F1 & F2 & F3 & F4 & F5 & F6 & F7 & F8 & F9 & F10 & F11 & F12 & F13 & Hab & Hb & Da & Db & R24).
  unfold pack_row16_block. set (e := Z.min b cols). set (G := (e - a) / 8). cbn [fst snd].
  destruct (Z_lt_le_dec e a) as [Hea|Hae].
  { (* The columns begin beyond the source; then there are none. *)
    assert (Hba : a = b). { unfold e in Hea. destruct Da as [ma Ea]. destruct Db as [mb Eb]. destruct F11 as [mp Ep]. rewrite Ea, Eb, Ep in *. clear - Hea Hab Hb F12 Hn. destruct Hn; subst n; lia. }
    assert (HG : G <= 0) by (unfold G; apply Z.div_le_upper_bound; clear - Hea; lia).
    rewrite forto_empty by exact HG. cbn [bind]. rewrite forto_empty by (clear - Hea HG; lia). cbn [bind]. rewrite forto_empty by (clear - Hba HG; lia). cbn [bind].
    exists data, sums. split; [reflexivity|].
    split; constructor; try apply ID; try apply IS.
    - intros r c (Hc & _). clear - Hc Hba. lia.
    - intros c Hc. clear - Hc Hba. lia. }
  assert (HG : 0 <= G /\ a + 8 * G <= e < a + 8 * G + 8).
  { pose proof (Z.div_mod (e - a) 8 ltac:(lia)) as Dv. pose proof (Z.mod_pos_bound (e - a) 8 ltac:(lia)) as M. fold G in Dv.
    split; [apply Z.div_pos; clear - Hae; lia|clear - Dv M; lia]. }
  assert (Hptr : a * rp + br * n = ptr br a) by (rewrite ptr_of by exact Da; ring). rewrite Hptr.
  destruct (forto_inv (fun g (s : buf Z * buf Z * Z * Z) => exists d s', s = (d, s', br * stride + (a + 8 * g), ptr br (a + 8 * g)) /\ dinv br (a + 8 * g) d /\ sinv br (a + 8 * g) s')
     (fun g s => group16 (m_data src) xor stride zp rp n br rows (a + 8 * g) s) 0 G (data, sums, br * stride + a, ptr br a))
    as (s1 & E1 & d1 & sm1 & -> & I1 & J1).
  - apply HG.
  - exists data, sums. rewrite Z.mul_0_r, Z.add_0_r. split; [reflexivity|]. split; assumption.
  - intros g s Hg (d & s' & -> & I' & J'). assert (Hgw : a + 8 * g + 8 <= e) by (clear - Hg HG; lia).
    destruct (group_ok br (a + 8 * g) d s' I' J' D Hbr Hbr') as (d'' & s'' & E & I'' & J'').
    + clear - Hg. lia.
    + apply Z.divide_add_r; [exact Da|]. destruct Hn as [-> | ->]; [exists (4 * g)|exists (2 * g)]; ring.
    + clear - Hgw. unfold e in Hgw. lia.
    + clear - Hgw. unfold e in Hgw. lia.
    + eexists. split; [exact E|]. exists d'', s''. replace (a + 8 * (g + 1)) with (a + 8 * g + 8) by ring. split; [reflexivity|]. split; assumption.
  - rewrite E1. cbn [bind]. rewrite Z.max_r by apply HG. set (c0 := a + 8 * G) in *.
    assert (Hac0 : a <= c0) by (unfold c0; clear - HG; lia).
    destruct (forto_inv (fun c (s : buf Z * buf Z * Z * Z) => exists d s', s = (d, s', br * stride + c, ptr br c) /\ dinv br c d /\ sinv br c s')
       (single16 (m_data src) xor stride zp rp n br rows) c0 e (d1, sm1, br * stride + c0, ptr br c0))
      as (s2 & E2 & d2 & sm2 & -> & I2 & J2).
    + apply HG.
    + exists d1, sm1. split; [reflexivity|]. split; assumption.
    + intros c s Hc (d & s' & -> & I' & J'). destruct (single_ok br c d s' I' J' D Hbr Hbr') as (d'' & s'' & E & I'' & J'').
      * clear - Hc Hac0. unfold e in Hc. lia.
      * clear - Hc. unfold e in Hc. lia.
      * eexists. split; [exact E|]. exists d'', s''. split; [reflexivity|]. split; assumption.
    + rewrite E2. cbn [bind]. rewrite (Z.max_r c0 e) by apply HG.
      destruct (forto_inv (fun c (s : buf Z * Z) => snd s = ptr br c /\ dinv br c (fst s)) (final16 rp n) e b (d2, ptr br e)) as ((d3 & q3) & E3 & _ & I3).
      * unfold e. clear. lia.
      * split; [reflexivity|exact I2].
      * intros c (d & q) Hc (Eq & I'). cbn [fst snd] in *. subst q. destruct (final_ok br c d I' D Hbr Hbr') as (d' & E & I'').
        -- clear - Hc Hae. lia.
        -- clear - Hc. unfold e in Hc. lia.
        -- eexists. split; [exact E|]. split; [reflexivity|exact I''].
      * rewrite E3. cbn [bind]. exists d3, sm2. split; [reflexivity|]. apply next_rows; assumption.
Qed.

Theorem row16_all : exists q, pack_row16_neon dbg n st src p a b = Ok q /\ columns_packed st s8 src a b p q /\ padding_zero src a b q.
Proof using Hcall Hn Hst Hsums0.
  pose proof Hcall as (_ & Hrow & (_ & _ & Ls) & _). specialize (Ls sums0 Hsums0).
  destruct layout16 as (F1 & F2 & F3 & F4 & F5 & F6 & F7 & F8 & F9 & F10 & F11 & F12 & F13 & Hab & Hb & Da & Db & R24).
  pose proof ok16 as PO. pose proof (pmo_layout _ PO) as PL.
  unfold pack_row16_neon. rewrite Hrow, dcheck_ok by reflexivity. cbn [bind]. cbv zeta.
  rewrite i32_ok by (clear - Hab Hb F13; unfold int_min; lia). cbn [bind].
  rewrite dcheck_ok by (apply Z.eqb_eq, Z.rem_divide; [clear - Hn; lia|apply Z.divide_sub_r; assumption]). cbn [bind].
  rewrite Hsums0. cbn [bind].
  destruct (bzero_ok 0 sums0 a (b - a)) as (s1 & E1 & L1 & D1); [clear - Hab; lia|apply Hab|clear - Hb Ls; lia|]. rewrite E1. cbn [bind].
  rewrite F8. fold rows cols stride zp xor rp.
  destruct F10 as [m Em].
  match goal with |- context [forstep 0 rp 16 ?f ?s] => set (body := f); set (s0 := s) end.
  assert (G : exists s, forstep 0 rp 16 body s0 = Ok s /\ dinv rp a (fst s) /\ sinv rp a (snd s)).
  { unfold forstep. replace ((rp - 0 + 16 - 1) / 16) with m by (apply (Z.div_unique _ _ _ 15); [left; clear; lia|rewrite Em; ring]).
    replace (dinv rp a) with (dinv (m * 16) a) by (rewrite Em; reflexivity). replace (sinv rp a) with (sinv (m * 16) a) by (rewrite Em; reflexivity).
    apply (forto_inv (fun t (s : buf Z * buf Z) => dinv (t * 16) a (fst s) /\ sinv (t * 16) a (snd s))).
    - clear - F1 F9 Em. lia.
    - unfold s0. cbn [fst snd]. split; constructor; try reflexivity.
      + intros r c (Hc & Hr & Hd). clear - Hc Hr Hd. lia.
      + exact L1.
      + intros c Hc. rewrite D1. replace (_ && _) with true by (clear - Hc; lia). replace (c <? a) with false by (clear - Hc; lia). unfold total. change (zrange 0 (0 * 16)) with (@nil Z). destruct (c <? cols); reflexivity.
      + intros c Hc. rewrite D1. replace (_ && _) with false by (clear - Hc; lia). reflexivity.
    - intros t [d sm] Ht [I J]. cbn [fst snd] in I, J. unfold body. set (br := 0 + t * 16).
      assert (Hbr : 0 <= br /\ br + 16 <= rp /\ br < rows) by (unfold br; clear - Ht F9 Em; lia).
      assert (Hm1 : 0 <= br * stride /\ br * stride <= stride * rows) by (clear - Hbr F2 F3; nia).
      rewrite i32_ok by (clear - Hm1 F4; unfold int_min; lia). cbn [bind].
      assert (Hm2 : 0 <= a * rp <= rp * pl_cols (p_layout p)) by (clear - Hab Hb Hbr; nia).
      rewrite i32_ok by (clear - Hm2 F6; unfold int_min; lia). cbn [bind].
      rewrite i32_ok by (change (2 ^ 24) with 16777216 in R24; clear - R24 Hbr Hn; unfold int_min, int_max; lia). cbn [bind].
      destruct (block_ok br d sm) as (d' & sm' & E & I' & J').
      + unfold br. rewrite Z.add_0_l. exact I.
      + unfold br. rewrite Z.add_0_l. exact J.
      + exists t. unfold br. ring.
      + apply Hbr.
      + apply Hbr.
      + exists (d', sm'). split; [exact E|]. cbn [fst snd]. replace ((t + 1) * 16) with (br + 16) by (unfold br; ring). split; assumption. }
  destruct G as ([data sums] & E & I & J). cbn [fst snd] in I, J. rewrite E. cbn [bind]. eexists. split; [reflexivity|]. clear E body s0 E1.
  assert (CV : forall r c, 0 <= r < rp -> a <= c < b -> bdat data (pofs r c) = cell r c) by (intros r c Hr Hc; apply (di_in _ _ _ I); split; [exact Hc|split; [apply Hr|left; apply Hr]]).
  assert (PV : forall r c, 0 <= r < rp -> a <= c < b -> pelement false {| p_data := data; p_sums := Some sums; p_layout := p_layout p; p_zp := zp |} r c = Ok (cell r c)).
  { intros r c Hr Hc. unfold pelement. cbn [p_layout p_data]. rewrite poffset_ok; [|exact PL|exact Hr|clear - Hc Hab Hb; lia]. cbn [bind].
    pose proof (poff_range (p_layout p) r c PL Hr ltac:(clear - Hc Hab Hb; lia)) as R. fold rp in R. rewrite bread_ok by (rewrite (di_len _ _ _ I); clear - R F7; lia). f_equal. apply CV; assumption. }
  split.
  - constructor; cbn [p_layout p_zp p_data p_sums].
    + split; [reflexivity|]. split; [reflexivity|]. apply (di_len _ _ _ I).
    + intros r c Hr Hc Hcc. rewrite PV by assumption. rewrite cell_in by exact Hcc. reflexivity.
    + rewrite Hsums0. split; [apply (si_len _ _ _ J)|]. split.
      * intros c Hc Hcc. rewrite (si_in _ _ _ J c Hc). replace (c <? a) with false by (clear - Hc; lia).
        pose proof (sums_fit rp c ltac:(clear - F1 F9; lia) ltac:(clear; lia)) as B. unfold total in *. replace (c <? cols) with true in * by (symmetry; apply Z.ltb_lt; exact Hcc).
        fold rp. fold zp. fold pv. symmetry. apply SimdFacts.wrap_s_id; [clear; lia|]. change (2 ^ (32 - 1)) with 2147483648. unfold int_min, int_max in B. clear - B. lia.
      * apply (si_out _ _ _ J).
    + intros T i Hi. rewrite (di_len _ _ _ I) in Hi.
      assert (Cb : forall r c, it_lo s8 <= cell r c <= it_hi s8).
      { intros r c. change (it_lo s8) with (-128). change (it_hi s8) with 127. unfold cell. pose proof (pv_byte r c) as B. destruct (c <? cols); [exact B|clear; lia]. }
      destruct (in_dec Z.eq_dec i (flat_map (fun c => map (fun r => pofs r c) (zrange 0 rp)) (zrange a b))) as [Hin|Hout].
      * apply in_flat_map in Hin. destruct Hin as (c & Hc & Hin). apply in_map_iff in Hin. destruct Hin as (r & <- & Hr). apply zrange_In in Hr. apply zrange_In in Hc.
        rewrite CV by assumption. apply Cb.
      * rewrite (di_out _ _ _ I); [apply T; exact Hi|]. intros r c Hr Hc Ei. apply Hout. apply in_flat_map. exists c. split; [apply zrange_In; exact Hc|]. apply in_map_iff. exists r. split; [exact Ei|apply zrange_In; exact Hr].
    + intros i Hi. apply (di_out _ _ _ I). intros r c Hr Hc Ei. apply (Hi r c Hr Hc). rewrite poffset_ok; [|exact PL|exact Hr|clear - Hc Hab Hb; lia]. fold pofs. rewrite Ei. reflexivity.
  - intros c Hc Hcc. cbn [p_layout p_sums]. split.
    + intros r Hr. rewrite PV by assumption. unfold cell. replace (c <? cols) with false by (symmetry; apply Z.ltb_ge; exact Hcc). reflexivity.
    + intros s Es. injection Es as <-. rewrite (si_in _ _ _ J c Hc). unfold total. replace (c <? cols) with false by (symmetry; apply Z.ltb_ge; exact Hcc). reflexivity.
Qed.
End Rows.

Lemma rows16_packed : forall dbg n st src p a b, n = 2 \/ n = 4 -> st = u8 \/ st = s8 -> row16_call n src p a b ->
  exists q, pack_row16_neon dbg n st src p a b = Ok q /\ columns_packed st s8 src a b p q /\ padding_zero src a b q.
Proof.
  intros dbg n st src p a b Hn Hst Hc. assert (Hs : exists s, p_sums p = Some s) by (destruct Hc as (_ & _ & _ & _ & Hs & _); destruct (p_sums p) as [s|]; [exists s; reflexivity|contradiction]).
  destruct Hs as [s Hs]. exact (row16_all n dbg st src p a b Hn Hst Hc s Hs).
Qed.

(** ** Against the portable function *)
Lemma packed_as_portable : forall dbg dbg' s sts pts dt kl src p a b q, valid_kernel_layout kl ->
  symmetric_zero_point (get s sts) = middle (get s sts) -> 0 < it_bits (get s pts) -> it_signed (get s pts) = true ->
  valid_matrix src -> packed_for src kl p -> it_lo (get s pts) <= p_zp p <= it_hi (get s pts) ->
  0 <= a <= b -> b <= pl_cols (p_layout p) -> (kl_cols kl | a) -> (kl_cols kl | b) -> columns_packed (get s sts) (get s pts) src a b p q ->
  exists q', run_pack dbg (int_ops wrapping dbg' sts pts dt) s (kl_cols kl) src p a b = Ok q' /\ same_columns src a b q q'.
Proof.
  intros dbg dbg' s sts pts dt kl src p a b q Hk Hmid Hbits Hsg HV HP Hz Hab Hb Da Db C.
  set (o := int_ops wrapping dbg' sts pts dt).
  assert (SE : forall r c, c < ml_cols (m_layout src) -> packed_entry o s src (p_zp p) r c = packed_value (get s sts) (get s pts) src (p_zp p) r c)
    by (intros; apply value_is_entry; assumption).
  assert (SS : forall c, packed_sum o s src (p_zp p) (pl_rows (p_layout p)) c = Ok (wrap_s 32 (zsum (map (fun r => packed_entry o s src (p_zp p) r c) (zrange 0 (pl_rows (p_layout p)))))))
    by (intros c; unfold packed_sum; cbn [o int_ops o_sum_add o_sum0]; rewrite accumulate_wrapping by reflexivity; rewrite Z.add_0_l; reflexivity).
  destruct (run_pack_ranges Z dbg o s kl src Hk HV p [(a, b)] HP) as (q' & E & EL & EZ & ELen & V & Rest & S).
  - intros a' b' [H|[]]. injection H as <- <-. repeat split; try assumption; apply Hab.
  - intros c _. eexists. apply SS.
  - cbn [pack_ranges] in E. destruct (run_pack dbg o s (kl_cols kl) src p a b) as [q1| |] eqn:E1; cbn [bind] in E; try discriminate. injection E as ->.
    exists q'. split; [reflexivity|]. split.
    + intros r c Hr Hc Hcc. destruct (cp_shape _ _ _ _ _ _ _ C) as (EL' & _ & _). rewrite EL' in Hr. rewrite (cp_values _ _ _ _ _ _ _ C r c Hr Hc Hcc).
      assert (CC : covered [(a, b)] c) by (exists a, b; split; [left; reflexivity|exact Hc]).
      specialize (V r c Hr CC). rewrite SE in V by exact Hcc. symmetry. unfold pelement in *. rewrite EL in *.
      assert (PL : playout_ok (p_layout p)) by (apply (packed_for_ok src kl p Hk HV HP)).
      rewrite poffset_ok in * by (try exact PL; try exact Hr; lia). exact V.
    + pose proof (cp_sums _ _ _ _ _ _ _ C) as CS. destruct (p_sums p) as [s0|]; destruct (p_sums q) as [s1|]; try (destruct CS; fail); destruct (p_sums q') as [s2|]; try (destruct S; fail); [|exact Logic.I].
      destruct CS as (_ & CS1 & CS2). destruct S as (_ & S1 & S2). intros c Hc. destruct (Z_lt_le_dec c a) as [L|L]; [|destruct (Z_lt_le_dec c b) as [L'|L']].
      * rewrite CS2, S2; [reflexivity| |lia]. intros (a' & b' & [H|[]] & Hab'). injection H as <- <-. lia.
      * rewrite CS1 by lia. assert (CC : covered [(a, b)] c) by (exists a, b; split; [left; reflexivity|lia]). specialize (S1 c CC). rewrite SS in S1. injection S1 as <-.
        do 2 f_equal. apply map_ext_in. intros r _. symmetry. apply SE. lia.
      * rewrite CS2, S2; [reflexivity| |lia]. intros (a' & b' & [H|[]] & Hab'). injection H as <- <-. lia.
Qed.

Lemma rows16_as_portable : forall dbg dbg' n s sts pts dt src p a b, n = 2 \/ n = 4 -> get s sts = u8 \/ get s sts = s8 -> get s pts = s8 -> row16_call n src p a b ->
  exists q q', pack_row16_neon dbg n (get s sts) src p a b = Ok q /\ run_pack dbg' (int_ops wrapping dbg' sts pts dt) s n src p a b = Ok q' /\ same_columns src a b q q'.
Proof.
  intros dbg dbg' n s sts pts dt src p a b Hn Hst Hpt Hc. destruct (rows16_packed dbg n _ src p a b Hn Hst Hc) as (q & E & C & _).
  pose proof (valid16 n _ src p a b Hn Hst Hc) as HV16. destruct Hc as (HV & _ & HP & Hz & _ & _ & Hab & Hb & Da & Db). rewrite <- Hpt in C.
  destruct (packed_as_portable dbg' dbg' s sts pts dt (sixteens n) src p a b q) as (q' & E' & S); try assumption; try (rewrite Hpt; reflexivity); try (destruct Hst as [-> | ->]; reflexivity).
  - rewrite Hpt. exact Hz.
  - exists q, q'. split; [exact E|]. split; assumption.
Qed.
