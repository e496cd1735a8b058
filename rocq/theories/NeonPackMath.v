(** What the results of NeonPack8.v and NeonPackDot.v are, byte by byte and sum by sum. *)
From Coq Require Import ZArith List Bool Lia.
From Verif Require Import Base Mat Simd SimdFacts SpecPack IntEntryFacts Neon64 NeonRun NeonTac NeonCols NeonPack8 NeonPackDot NeonPackF.
Import ListNotations.
Open Scope Z_scope.

(** ** Lists of sixteen bytes *)
Lemma nth_zmap : forall {A} (f : Z -> A) d n t, (t < n)%nat -> nth t (map f (zseq 0 n)) d = f (Z.of_nat t).
Proof.
  intros A f d n t H. assert (G : forall n a t, (t < n)%nat -> nth t (map f (zseq a n)) d = f (a + Z.of_nat t)).
  { clear. induction n as [|n IH]; intros a t H; [lia|]. destruct t as [|t]; cbn [zseq map nth]; [f_equal; lia|]. rewrite IH by lia. f_equal. lia. }
  rewrite G by exact H. f_equal.
Qed.

Lemma put_in : forall P o v i, 0 <= i - o < Z.of_nat (length v) -> bdat (put P o v) i = nth (Z.to_nat (i - o)) v 0.
Proof. intros P o v i H. cbn [put bdat]. replace (o <=? i) with true by lia. replace (i <? o + Z.of_nat (length v)) with true by lia. reflexivity. Qed.
Lemma put_out : forall P o v i, ~ (0 <= i - o < Z.of_nat (length v)) -> bdat (put P o v) i = bdat P i.
Proof. intros P o v i H. cbn [put bdat]. destruct (Z.leb_spec o i); [|reflexivity]. destruct (Z.ltb_spec i (o + Z.of_nat (length v))); [lia|reflexivity]. Qed.

(** ** Congruences modulo 2^32 *)
Definition eq32 (a b : Z) : Prop := wrap_s 32 a = wrap_s 32 b.
Lemma eq32_mod : forall a b, eq32 a b <-> a mod 2 ^ 32 = b mod 2 ^ 32.
Proof.
  intros a b. unfold eq32. split; intros H.
  - rewrite <- (Base.wrap_s_mod 32 a), <- (Base.wrap_s_mod 32 b) by lia. rewrite H. reflexivity.
  - rewrite <- (SimdFacts.wrap_s_mod 32 a), <- (SimdFacts.wrap_s_mod 32 b) by lia. rewrite H. reflexivity.
Qed.
Lemma eq32_wrap : forall a, eq32 (wrap_s 32 a) a.
Proof. intros. unfold eq32. apply wrap_s_s. lia. Qed.
Lemma eq32_add : forall a a' b b', eq32 a a' -> eq32 b b' -> eq32 (a + b) (a' + b').
Proof. intros a a' b b' Ha Hb. apply eq32_mod in Ha, Hb. apply eq32_mod. rewrite Z.add_mod, Ha, Hb, <- Z.add_mod by lia. reflexivity. Qed.
Lemma eq32_refl : forall a, eq32 a a. Proof. reflexivity. Qed.
Lemma eq32_trans : forall a b c, eq32 a b -> eq32 b c -> eq32 a c. Proof. unfold eq32. congruence. Qed.
Lemma eq32_sym : forall a b, eq32 a b -> eq32 b a. Proof. unfold eq32. congruence. Qed.
Lemma eq32_zsum_wrap : forall l, eq32 (zsum (map (wrap_s 32) l)) (zsum l).
Proof. induction l as [|a l IH]; [apply eq32_refl|]. cbn [map zsum]. apply eq32_add; [apply eq32_wrap|exact IH]. Qed.

Lemma full_slanes4 : forall v, full v -> exists a b c d, slanes 4 v = [a; b; c; d].
Proof. intros v H. expand_full. do 4 eexists. reflexivity. Qed.
Lemma slanes1_length : forall v, full v -> length (slanes 1 v) = 16%nat.
Proof. intros v H. expand_full. reflexivity. Qed.
Lemma slanes1 : forall v, full v -> slanes 1 v = map (wrap_s 8) v.
Proof. intros v H. expand_full. unfold slanes, ulanes, chunks. cbn [length chunks_aux firstn skipn map of_bytes]. change (8 * Z.of_nat 1) with 8. repeat (f_equal; try lia). Qed.
Lemma range8 : forall z, -128 <= wrap_s 8 z <= 127.
Proof. intros z. pose proof (wrap_s_range 8 z ltac:(lia)) as H. change (2 ^ (8 - 1)) with 128 in H. lia. Qed.

Lemma sixteen : forall (v : list Z), length v = 16%nat -> full v. Proof. intros v H. exact H. Qed.

(** ** The accumulators *)
Lemma sadalp_sum : forall d a, full d -> full a -> eq32 (zsum (slanes 4 (sadalp 2 d (saddlp 1 a)))) (zsum (slanes 4 d) + zsum (map (wrap_s 8) a)).
Proof.
  intros d a Hd Ha. unfold sadalp. change (2 * 2)%nat with 4%nat. rewrite slanes_of_lanes by lia. change (8 * Z.of_nat 4) with 32.
  eapply eq32_trans; [apply eq32_zsum_wrap|]. destruct (full_slanes4 d Hd) as (x & y & z & w & ->). unfold saddlp. change (2 * 1)%nat with 2%nat.
  rewrite slanes_of_lanes by lia. change (8 * Z.of_nat 2) with 16. rewrite slanes1 by exact Ha.
  destruct (list16 a Ha) as (a0 & a1 & a2 & a3 & a4 & a5 & a6 & a7 & a8 & a9 & a10 & a11 & a12 & a13 & a14 & a15 & ->).
  cbn [map pair_sums map2 zsum].
  repeat match goal with |- context [wrap_s 16 (wrap_s 8 ?p + wrap_s 8 ?q)] => rewrite (wrap_s_id 16 (wrap_s 8 p + wrap_s 8 q)) by (pose proof (range8 p); pose proof (range8 q); lia) end.
  match goal with |- eq32 ?p ?q => replace p with q by ring end. apply eq32_refl.
Qed.

Lemma addp_nth : forall a b c d e, full a -> full b -> full c -> full d -> (e < 4)%nat ->
  nth e (slanes 4 (vop_val (Addp 4) (vop_val (Addp 4) a b) (vop_val (Addp 4) c d))) 0 = wrap_s 32 (zsum (slanes 4 (nth e [a; b; c; d] []))).
Proof.
  intros a b c d e Ha Hb Hc Hd He. cbn [vop_val]. rewrite !slanes_of_lanes by lia. change (8 * Z.of_nat 4) with 32.
  destruct (full_slanes4 a Ha) as (x0 & x1 & x2 & x3 & Ea). destruct (full_slanes4 b Hb) as (y0 & y1 & y2 & y3 & Eb).
  destruct (full_slanes4 c Hc) as (z0 & z1 & z2 & z3 & Ec). destruct (full_slanes4 d Hd) as (w0 & w1 & w2 & w3 & Ed).
  rewrite Ea, Eb, Ec, Ed. cbn [pair_sums app map].
  assert (G : forall p q r s, wrap_s 32 (wrap_s 32 (p + q) + wrap_s 32 (r + s)) = wrap_s 32 (p + (q + (r + (s + 0))))).
  { intros p q r s. replace (p + (q + (r + (s + 0)))) with ((p + q) + (r + s)) by ring. apply eq32_add; apply eq32_wrap. }
  destruct e as [|[|[|[|]]]]; [| | | |lia]; cbn [nth]; [rewrite Ea|rewrite Eb|rewrite Ec|rewrite Ed]; cbn [zsum]; apply G.
Qed.

Lemma slanes_ones : slanes 1 ones = repeat 1 16. Proof. reflexivity. Qed.
Lemma sdot_nth : forall d v0 v1 v2 v3 j c, full d -> full v0 -> full v1 -> full v2 -> full v3 -> (j < 4)%nat -> (c < 4)%nat ->
  nth c (slanes 4 (sdot d (trans j v0 v1 v2 v3) ones)) 0 = wrap_s 32 (nth c (slanes 4 d) 0 + zsum (map (wrap_s 8) (group j (nth c [v0; v1; v2; v3] [])))).
Proof.
  intros d v0 v1 v2 v3 j c Hd H0 H1 H2 H3 Hj Hc. unfold sdot. rewrite slanes_of_lanes by lia. change (8 * Z.of_nat 4) with 32. rewrite slanes_ones.
  rewrite slanes1 by (apply full_trans; assumption). rewrite trans_groups by assumption.
  destruct (full_slanes4 d Hd) as (x & y & z & w & ->).
  assert (G : forall v, full v -> exists a b e f, group j v = [a; b; e; f]).
  { clear - Hj. intros v Hv. expand_full. destruct j as [|[|[|[|]]]]; [| | | |lia]; do 4 eexists; reflexivity. }
  destruct (G v0 H0) as (a0 & b0 & e0 & f0 & E0). destruct (G v1 H1) as (a1 & b1 & e1 & f1 & E1).
  destruct (G v2 H2) as (a2 & b2 & e2 & f2 & E2). destruct (G v3 H3) as (a3 & b3 & e3 & f3 & E3).
  rewrite E0, E1, E2, E3. cbn [app map map2 repeat pair_sums].
  destruct c as [|[|[|[|]]]]; [| | | |lia]; cbn [nth]; [rewrite E0|rewrite E1|rewrite E2|rewrite E3]; cbn [map zsum]; f_equal; ring.
Qed.

Lemma vadd_nth : forall a b c, full a -> full b -> (c < 4)%nat -> nth c (slanes 4 (vop_val (VAdd 4) a b)) 0 = wrap_s 32 (nth c (slanes 4 a) 0 + nth c (slanes 4 b) 0).
Proof.
  intros a b c Ha Hb Hc. cbn [vop_val]. rewrite slanes_of_lanes by lia. change (8 * Z.of_nat 4) with 32.
  destruct (full_slanes4 a Ha) as (x0 & x1 & x2 & x3 & ->). destruct (full_slanes4 b Hb) as (y0 & y1 & y2 & y3 & ->).
  destruct c as [|[|[|[|]]]]; [| | | |lia]; reflexivity.
Qed.

(** ** The stores *)
Lemma div_at : forall a b q r, a = b * q + r -> 0 <= r < b -> a / b = q.
Proof. intros. symmetry. apply (Z.div_unique_pos a b q r); [lia|]. lia. Qed.
Lemma mod_at : forall a b q r, a = b * q + r -> 0 <= r < b -> a mod b = r.
Proof. intros. symmetry. apply (Z.mod_unique_pos a b q r); [lia|]. lia. Qed.

Lemma store4_dat : forall P p v i, (forall c, full (v c)) ->
  bdat (store4 P p v) i = if (p <=? i) && (i <? p + 64) then nth (Z.to_nat ((i - p) mod 16)) (v (Z.to_nat ((i - p) / 16))) 0 else bdat P i.
Proof.
  intros P p v i Hv. assert (L : forall c, Z.of_nat (length (v c)) = 16) by (intros c; rewrite Hv; reflexivity). unfold store4.
  destruct (Z.leb_spec p i) as [H|H]; [|rewrite !put_out by (rewrite L; lia); reflexivity].
  destruct (Z.ltb_spec i (p + 64)) as [H'|H']; cbn [andb]; [|rewrite !put_out by (rewrite L; lia); reflexivity].
  assert (E : exists c, (c < 4)%nat /\ 0 <= i - p - 16 * Z.of_nat c < 16).
  { destruct (Z.ltb_spec i (p + 16)); [exists 0%nat; lia|]. destruct (Z.ltb_spec i (p + 32)); [exists 1%nat; lia|]. destruct (Z.ltb_spec i (p + 48)); [exists 2%nat; lia|]. exists 3%nat; lia. }
  destruct E as (c & Hc & He). rewrite (mod_at (i - p) 16 (Z.of_nat c) (i - p - 16 * Z.of_nat c)), (div_at (i - p) 16 (Z.of_nat c) (i - p - 16 * Z.of_nat c)) by lia.
  rewrite Nat2Z.id. destruct c as [|[|[|[|]]]]; [| | | |lia].
  - rewrite !(put_out _ _ (v _)) by (rewrite L; lia). rewrite put_in by (rewrite L; lia). do 2 f_equal. lia.
  - do 2 rewrite (put_out _ _ (v _)) by (rewrite L; lia). rewrite put_in by (rewrite L; lia). do 2 f_equal. lia.
  - rewrite (put_out _ _ (v _)) by (rewrite L; lia). rewrite put_in by (rewrite L; lia). do 2 f_equal. lia.
  - rewrite put_in by (rewrite L; lia). do 2 f_equal. lia.
Qed.

Lemma put_if : forall (b : bool) P o v i, full v -> bdat (if b then put P o v else P) i = if b && (o <=? i) && (i <? o + 16) then nth (Z.to_nat (i - o)) v 0 else bdat P i.
Proof. intros [|] P o v i H; [|reflexivity]. cbn [andb put bdat]. rewrite H. reflexivity. Qed.
Lemma store_first_dat : forall m P p v i, (m <= 4)%nat -> (forall j, full (v j)) ->
  bdat (store_first m P p v) i =
  if (p <=? i) && (i <? p + 32 * Z.of_nat m) && ((i - p) mod 32 <? 16) then nth (Z.to_nat ((i - p) mod 32)) (v (Z.to_nat ((i - p) / 32))) 0 else bdat P i.
Proof.
  intros m P p v i Hm Hv. unfold store_first. rewrite !put_if by apply Hv. set (d := i - p).
  destruct (Z.leb_spec p i) as [H|H].
  2:{ rewrite !(proj2 (Z.leb_gt _ i)) by lia. rewrite !andb_false_r. reflexivity. }
  assert (E : exists j r, 0 <= j /\ d = 32 * j + r /\ 0 <= r < 32).
  { exists (d / 32), (d mod 32). pose proof (Z.div_mod d 32 ltac:(lia)). pose proof (Z.mod_pos_bound d 32 ltac:(lia)). pose proof (Z.div_pos d 32 ltac:(lia) ltac:(lia)). lia. }
  destruct E as (j & r & Hj & Ed & Hr). rewrite (mod_at d 32 j r), (div_at d 32 j r) by lia. unfold d in *. clear d.
  cbn [andb]. destruct (Z.ltb_spec i (p + 32 * Z.of_nat m)) as [H'|H'].
  2:{ assert (G : forall k, (Z.of_nat k < 4) -> Nat.ltb k m && (p + 32 * Z.of_nat k <=? i) && (i <? p + 32 * Z.of_nat k + 16) = false).
      { intros k Hk. destruct (Nat.ltb_spec k m); [|reflexivity]. destruct (Z.leb_spec (p + 32 * Z.of_nat k) i); [|reflexivity]. destruct (Z.ltb_spec i (p + 32 * Z.of_nat k + 16)); [lia|reflexivity]. }
      pose proof (G 0%nat ltac:(lia)) as G0. pose proof (G 1%nat ltac:(lia)) as G1. pose proof (G 2%nat ltac:(lia)) as G2. pose proof (G 3%nat ltac:(lia)) as G3.
      change (32 * Z.of_nat 0) with 0 in G0. change (32 * Z.of_nat 1) with 32 in G1. change (32 * Z.of_nat 2) with 64 in G2. change (32 * Z.of_nat 3) with 96 in G3.
      rewrite G0, G1, G2, G3. reflexivity. }
  assert (Hjm : j < Z.of_nat m) by lia. cbn [andb].
  assert (G : forall k, Z.of_nat k < 4 -> Nat.ltb k m && (p + 32 * Z.of_nat k <=? i) && (i <? p + 32 * Z.of_nat k + 16) = (j =? Z.of_nat k) && (r <? 16)).
  { intros k Hk. destruct (Z.eqb_spec j (Z.of_nat k)) as [->|N].
    - replace (Nat.ltb k m) with true by (symmetry; apply Nat.ltb_lt; lia). replace (p + 32 * Z.of_nat k <=? i) with true by lia. cbn [andb].
      destruct (Z.ltb_spec r 16); [apply Z.ltb_lt|apply Z.ltb_ge]; lia.
    - cbn [andb]. destruct (Nat.ltb k m); [|reflexivity]. destruct (Z.leb_spec (p + 32 * Z.of_nat k) i); [|reflexivity]. destruct (Z.ltb_spec i (p + 32 * Z.of_nat k + 16)); [lia|reflexivity]. }
  pose proof (G 0%nat ltac:(lia)) as G0. pose proof (G 1%nat ltac:(lia)) as G1. pose proof (G 2%nat ltac:(lia)) as G2. pose proof (G 3%nat ltac:(lia)) as G3.
  change (32 * Z.of_nat 0) with 0 in G0. change (32 * Z.of_nat 1) with 32 in G1. change (32 * Z.of_nat 2) with 64 in G2. change (32 * Z.of_nat 3) with 96 in G3.
  rewrite G0, G1, G2, G3. change (Z.of_nat 0) with 0. change (Z.of_nat 1) with 1. change (Z.of_nat 2) with 2. change (Z.of_nat 3) with 3.
  assert (Hj4 : j = 0 \/ j = 1 \/ j = 2 \/ j = 3) by lia. destruct (r <? 16); [|rewrite !andb_false_r; reflexivity].
  destruct Hj4 as [-> | [-> | [-> | ->]]]; cbn [Z.eqb Pos.eqb andb]; f_equal; lia.
Qed.

Lemma trans_nth : forall j e v0 v1 v2 v3, (j < 4)%nat -> (e < 16)%nat -> full v0 -> full v1 -> full v2 -> full v3 ->
  nth e (trans j v0 v1 v2 v3) 0 = nth (4 * j + e mod 4)%nat (nth (e / 4)%nat [v0; v1; v2; v3] []) 0.
Proof.
  intros j e v0 v1 v2 v3 Hj He H0 H1 H2 H3. expand_full.
  destruct j as [|[|[|[|]]]]; [| | | |lia]; do 16 (destruct e as [|e]; [reflexivity|]); lia.
Qed.

(** ** The columns *)
Lemma skipn_zseq : forall n k a, (k <= n)%nat -> skipn k (zseq a n) = zseq (a + Z.of_nat k) (n - k).
Proof.
  induction n as [|n IH]; intros [|k] a H; try lia; cbn [skipn zseq Nat.sub]; [reflexivity|f_equal; [lia|]; f_equal; lia|].
  rewrite IH by lia. f_equal. lia.
Qed.

Section Values.
Variables (sb : nat -> buf Z) (so inc : nat -> Z) (N fill ix : Z).
Hypothesis HN : 0 <= N.

(** Byte [b] of column [c]. *)
Definition bval (c : nat) (b : Z) : Z :=
  Z.lxor (if b <? N then bdat (sb c) (before so inc (Z.to_nat (b / 16)) c + b mod 16) else fill mod 256) (ix mod 256).
Definition piece (c k : nat) : list Z := map (fun t => bval c (16 * Z.of_nat k + t)) (zseq 0 16).
Definition pieces : nat := Z.to_nat (N / 16).
Definition rest : nat := Z.to_nat (N mod 16).

Lemma full_piece : forall c k, full (piece c k).
Proof using Type. intros. reflexivity. Qed.

Lemma eor_map : forall f g n, map2 Z.lxor (map f (zseq 0 n)) (map g (zseq 0 n)) = map (fun t => Z.lxor (f t) (g t)) (zseq 0 n).
Proof using Type. intros f g n. generalize 0. induction n as [|n IH]; intros a; [reflexivity|]. cbn [zseq map map2]. rewrite IH. reflexivity. Qed.
Lemma constant : forall z, extend (of_lanes 1 (repeat z 16)) = map (fun _ => z mod 256) (zseq 0 16).
Proof using Type. reflexivity. Qed.

Lemma bound_pieces : 16 * Z.of_nat pieces + Z.of_nat rest = N /\ (rest < 16)%nat.
Proof using HN.
  unfold pieces, rest. pose proof (Z.mod_pos_bound N 16 ltac:(lia)). pose proof (Z.div_pos N 16 HN ltac:(lia)). pose proof (Z.div_mod N 16 ltac:(lia)). lia.
Qed.

Lemma piece_whole : forall c k, (k < pieces)%nat -> vop_val Eor (cvec sb so inc c k) (extend (of_lanes 1 (repeat ix 16))) = piece c k.
Proof using HN.
  intros c k Hk. destruct bound_pieces as [Hp _]. cbn [vop_val]. rewrite constant. unfold cvec, get_bytes. rewrite eor_map. apply map_ext_in. intros t Ht. apply zseq_In in Ht.
  unfold bval. replace (16 * Z.of_nat k + t <? N) with true by lia.
  rewrite (mod_at (16 * Z.of_nat k + t) 16 (Z.of_nat k) t), (div_at (16 * Z.of_nat k + t) 16 (Z.of_nat k) t) by lia. rewrite Nat2Z.id. reflexivity.
Qed.

Lemma piece_last : forall c, vop_val Eor (partly (sb c) (before so inc pieces c) rest (extend (of_lanes 1 (repeat fill 16)))) (extend (of_lanes 1 (repeat ix 16))) = piece c pieces.
Proof using HN.
  intros c. destruct bound_pieces as [Hp Hr]. cbn [vop_val]. rewrite !constant. unfold partly, get_bytes.
  assert (E : map (fun i => bdat (sb c) (before so inc pieces c + i)) (zseq 0 rest) ++ skipn rest (map (fun _ => fill mod 256) (zseq 0 16)) =
              map (fun t => if 16 * Z.of_nat pieces + t <? N then bdat (sb c) (before so inc pieces c + t) else fill mod 256) (zseq 0 16)).
  { replace 16%nat with (rest + (16 - rest))%nat at 2 by lia. rewrite zseq_app, map_app. f_equal.
    - apply map_ext_in. intros t Ht. apply zseq_In in Ht. replace (16 * Z.of_nat pieces + t <? N) with true by lia. reflexivity.
    - rewrite skipn_map. rewrite skipn_zseq by lia. apply map_ext_in. intros t Ht. apply zseq_In in Ht. replace (16 * Z.of_nat pieces + t <? N) with false by lia. reflexivity. }
  rewrite E, eor_map. apply map_ext_in. intros t Ht. apply zseq_In in Ht. unfold bval.
  destruct (16 * Z.of_nat pieces + t <? N); [|reflexivity].
  rewrite (mod_at (16 * Z.of_nat pieces + t) 16 (Z.of_nat pieces) t), (div_at (16 * Z.of_nat pieces + t) 16 (Z.of_nat pieces) t) by lia. rewrite Nat2Z.id. reflexivity.
Qed.

Lemma piece_nth : forall c k t, (t < 16)%nat -> nth t (piece c k) 0 = bval c (16 * Z.of_nat k + Z.of_nat t).
Proof using Type. intros c k t H. unfold piece. rewrite nth_zmap by exact H. reflexivity. Qed.

(** The sum of the first [n] bytes, as signed bytes. *)
Definition psum (c n : nat) : Z := zsum (map (fun b => wrap_s 8 (bval c b)) (zseq 0 n)).
Lemma psum_piece : forall c k, psum c (16 * S k) = psum c (16 * k) + zsum (map (wrap_s 8) (piece c k)).
Proof using Type.
  intros c k. unfold psum. replace (16 * S k)%nat with (16 * k + 16)%nat by lia. rewrite zseq_app, map_app, zsum_app. f_equal.
  unfold piece. rewrite map_map. f_equal. replace (0 + Z.of_nat (16 * k)) with (16 * Z.of_nat k) by lia.
  cbn [zseq map]. repeat (f_equal; try (f_equal; lia)).
Qed.
Lemma psum_group : forall c k j, (j < 4)%nat -> psum c (16 * k + 4 * S j) = psum c (16 * k + 4 * j) + zsum (map (wrap_s 8) (group j (piece c k))).
Proof using Type.
  intros c k j Hj. unfold psum. replace (16 * k + 4 * S j)%nat with ((16 * k + 4 * j) + 4)%nat by lia. rewrite zseq_app, map_app, zsum_app. f_equal.
  replace (0 + Z.of_nat (16 * k + 4 * j)) with (16 * Z.of_nat k + 4 * Z.of_nat j) by lia.
  destruct j as [|[|[|[|]]]]; [| | | |lia]; unfold piece, group; cbn [zseq map firstn skipn Nat.mul Nat.add]; repeat (f_equal; try (f_equal; lia)).
Qed.

(** *** One after the other (16x4) *)
Definition placed4 (P0 : buf Z) (po : Z) (k : nat) (i : Z) : Z :=
  if (po <=? i) && (i <? po + 64 * Z.of_nat k) then bval (Z.to_nat ((i - po) / 16 mod 4)) (16 * ((i - po) / 64) + (i - po) mod 16) else bdat P0 i.
Lemma placed4_next : forall P0 po k P v, (forall i, bdat P i = placed4 P0 po k i) -> (forall c, (c < 4)%nat -> v c = piece c k) -> (forall c, full (v c)) ->
  forall i, bdat (store4 P (po + 64 * Z.of_nat k) v) i = placed4 P0 po (S k) i.
Proof using Type.
  intros P0 po k P v HP Hv Hf i. rewrite store4_dat by exact Hf. unfold placed4. set (d := i - (po + 64 * Z.of_nat k)).
  destruct (Z.leb_spec (po + 64 * Z.of_nat k) i) as [H|H].
  - destruct (Z.ltb_spec i (po + 64 * Z.of_nat k + 64)) as [H'|H']; cbn [andb].
    + replace (po <=? i) with true by lia. replace (i <? po + 64 * Z.of_nat (S k)) with true by lia. cbn [andb].
      assert (E : exists c t, (c < 4)%nat /\ (t < 16)%nat /\ d = 16 * Z.of_nat c + Z.of_nat t).
      { exists (Z.to_nat (d / 16)), (Z.to_nat (d mod 16)). pose proof (Z.div_mod d 16 ltac:(lia)). pose proof (Z.mod_pos_bound d 16 ltac:(lia)).
        pose proof (Z.div_pos d 16 ltac:(lia) ltac:(lia)). assert (d / 16 < 4) by (apply Z.div_lt_upper_bound; lia). lia. }
      destruct E as (c & t & Hc & Ht & Ed).
      rewrite (mod_at d 16 (Z.of_nat c) (Z.of_nat t)), (div_at d 16 (Z.of_nat c) (Z.of_nat t)) by lia.
      rewrite !Nat2Z.id, Hv, piece_nth by assumption.
      assert (Ei : i - po = 16 * (4 * Z.of_nat k + Z.of_nat c) + Z.of_nat t) by lia.
      rewrite (div_at (i - po) 16 _ _ Ei) by lia. rewrite (mod_at (i - po) 16 _ _ Ei) by lia.
      rewrite (mod_at (4 * Z.of_nat k + Z.of_nat c) 4 (Z.of_nat k) (Z.of_nat c)) by lia. rewrite Nat2Z.id.
      rewrite (div_at (i - po) 64 (Z.of_nat k) (16 * Z.of_nat c + Z.of_nat t)) by lia. reflexivity.
    + rewrite HP. unfold placed4. replace (i <? po + 64 * Z.of_nat k) with false by lia. replace (i <? po + 64 * Z.of_nat (S k)) with false by lia. reflexivity.
  - cbn [andb]. rewrite HP. unfold placed4. replace (i <? po + 64 * Z.of_nat k) with true by lia. replace (i <? po + 64 * Z.of_nat (S k)) with true by lia. reflexivity.
Qed.

(** *** Groups of four bytes (4x8 bytes, 1x8 floats) *)
Definition placedt (P0 : buf Z) (po : Z) (g : nat) (i : Z) : Z :=
  if (po <=? i) && (i <? po + 32 * Z.of_nat g) && ((i - po) mod 32 <? 16)
  then bval (Z.to_nat ((i - po) / 4 mod 4)) (4 * ((i - po) / 32) + (i - po) mod 4) else bdat P0 i.
Lemma placedt_next : forall P0 po k m P v0 v1 v2 v3, (m <= 4)%nat -> (forall i, bdat P i = placedt P0 po (4 * k) i) ->
  v0 = piece 0 k -> v1 = piece 1 k -> v2 = piece 2 k -> v3 = piece 3 k ->
  forall i, bdat (store_first m P (po + 128 * Z.of_nat k) (fun j => trans j v0 v1 v2 v3)) i = placedt P0 po (4 * k + m) i.
Proof using Type.
  intros P0 po k m P v0 v1 v2 v3 Hm HP -> -> -> -> i. rewrite store_first_dat by (try exact Hm; intros; apply full_trans; apply full_piece).
  unfold placedt. set (d := i - (po + 128 * Z.of_nat k)). assert (Ei : i - po = 32 * (4 * Z.of_nat k) + d) by lia.
  assert (Em : (i - po) mod 32 = d mod 32) by (rewrite Ei, Z.add_comm, Z.mul_comm; apply Z_mod_plus_full).
  rewrite Em.
  destruct (Z.leb_spec (po + 128 * Z.of_nat k) i) as [H|H].
  - replace (po <=? i) with true by lia. cbn [andb]. replace (i <? po + 32 * Z.of_nat (4 * k + m)) with (i <? po + 128 * Z.of_nat k + 32 * Z.of_nat m) by (f_equal; lia).
    destruct (Z.ltb_spec i (po + 128 * Z.of_nat k + 32 * Z.of_nat m)) as [H'|H']; cbn [andb].
    + destruct (Z.ltb_spec (d mod 32) 16) as [Hs|Hs].
      * assert (E : exists j c t, (j < 4)%nat /\ (c < 4)%nat /\ (t < 4)%nat /\ d = 32 * Z.of_nat j + 4 * Z.of_nat c + Z.of_nat t).
        { exists (Z.to_nat (d / 32)), (Z.to_nat (d mod 32 / 4)), (Z.to_nat ((d mod 32) mod 4)). pose proof (Z.div_mod d 32 ltac:(lia)). pose proof (Z.mod_pos_bound d 32 ltac:(lia)).
          pose proof (Z.div_mod (d mod 32) 4 ltac:(lia)). pose proof (Z.mod_pos_bound (d mod 32) 4 ltac:(lia)).
          pose proof (Z.div_pos d 32 ltac:(lia) ltac:(lia)). pose proof (Z.div_pos (d mod 32) 4 ltac:(lia) ltac:(lia)). assert (d / 32 < 4) by (apply Z.div_lt_upper_bound; lia).
          assert (d mod 32 / 4 < 4) by (apply Z.div_lt_upper_bound; lia). lia. }
        destruct E as (j & c & t & Hj & Hc & Ht & Ed).
        rewrite (mod_at d 32 (Z.of_nat j) (Z.of_nat (4 * c + t))), (div_at d 32 (Z.of_nat j) (Z.of_nat (4 * c + t))) by lia. rewrite !Nat2Z.id.
        rewrite trans_nth by (try apply full_piece; lia).
        replace ((4 * c + t) mod 4)%nat with t by (apply (Nat.mod_unique _ 4 c t); lia). replace ((4 * c + t) / 4)%nat with c by (apply (Nat.div_unique _ 4 c t); lia).
        replace (nth c [piece 0 k; piece 1 k; piece 2 k; piece 3 k] []) with (piece c k) by (destruct c as [|[|[|[|]]]]; try reflexivity; lia).
        rewrite piece_nth by lia.
        rewrite (div_at (i - po) 4 (4 * (8 * Z.of_nat k + 2 * Z.of_nat j) + Z.of_nat c) (Z.of_nat t)) by lia.
        rewrite (mod_at (i - po) 4 (4 * (8 * Z.of_nat k + 2 * Z.of_nat j) + Z.of_nat c) (Z.of_nat t)) by lia.
        rewrite (mod_at (4 * (8 * Z.of_nat k + 2 * Z.of_nat j) + Z.of_nat c) 4 (8 * Z.of_nat k + 2 * Z.of_nat j) (Z.of_nat c)) by lia. rewrite Nat2Z.id.
        rewrite (div_at (i - po) 32 (4 * Z.of_nat k + Z.of_nat j) (Z.of_nat (4 * c + t))) by lia. f_equal. lia.
      * rewrite HP. unfold placedt. replace (i <? po + 32 * Z.of_nat (4 * k)) with false by lia. rewrite andb_false_r. reflexivity.
    + rewrite HP. unfold placedt. replace (i <? po + 32 * Z.of_nat (4 * k)) with false by lia. rewrite andb_false_r. reflexivity.
  - cbn [andb]. rewrite HP. unfold placedt. rewrite Em. replace (i <? po + 32 * Z.of_nat (4 * k)) with true by lia. replace (i <? po + 32 * Z.of_nat (4 * k + m)) with true by lia. reflexivity.
Qed.
End Values.

(** ** The results *)
Definition lane (c : nat) (v : list Z) : Z := nth c (slanes 4 v) 0.
Definition total (c : nat) (a : nat -> list Z) : Z := lane c (a 0%nat) + lane c (a 1%nat) + lane c (a 2%nat) + lane c (a 3%nat).
Lemma pick : forall (f : nat -> list Z) c, (c < 4)%nat -> nth c [f 0%nat; f 1%nat; f 2%nat; f 3%nat] [] = f c.
Proof. intros f [|[|[|[|]]]] H; try reflexivity. lia. Qed.

Lemma eor_zero : forall v, full v -> vop_val Eor v (extend (of_lanes 1 (repeat 0 16))) = v.
Proof. intros v H. expand_full. cbn. rewrite !Z.lxor_0_r. reflexivity. Qed.

Section Results.
Variables (sb : nat -> buf Z) (so inc : nat -> Z) (P0 : buf Z) (po R zz ix : Z).
Hypothesis HR : 0 <= R.
Notation bval8 := (bval sb so inc R zz ix).
Notation piece8 := (piece sb so inc R zz ix).
Notation psum8 := (psum sb so inc R zz ix).

Lemma xv_piece : forall c k, (k < pieces R)%nat -> xv sb so inc ix c k = piece8 c k.
Proof using HR. intros c k Hk. apply piece_whole; assumption. Qed.
Lemma last_piece : forall c, last8 sb so inc R zz ix c = piece8 c (pieces R).
Proof using HR. intros c. unfold last8, row_piece. rewrite Nat.mul_1_l. apply piece_last. exact HR. Qed.

(** Sixteen rows at a time. *)
Definition sixteens : nat := if Nat.eqb (rest R) 0 then pieces R else S (pieces R).
Lemma out8_dat : forall k, (k <= pieces R)%nat -> forall i, bdat (out8 sb so inc P0 po ix k) i = placed4 sb so inc R zz ix P0 po k i.
Proof using HR.
  induction k as [|k IH]; intros Hk i.
  - cbn [out8]. unfold placed4. destruct (Z.leb_spec po i); [|reflexivity]. destruct (Z.ltb_spec i (po + 64 * Z.of_nat 0)); [lia|reflexivity].
  - cbn [out8]. apply placed4_next; [intros; apply IH; lia|intros; apply xv_piece; lia|intros; apply full_xv].
Qed.
Lemma out8_end_dat : forall i, bdat (out8_end sb so inc P0 po R zz ix) i = placed4 sb so inc R zz ix P0 po sixteens i.
Proof using HR.
  intros i. unfold out8_end, sixteens. change (rest8 R) with (rest R). change (pieces8 R) with (pieces R). destruct (Nat.eqb (rest R) 0).
  - apply out8_dat. lia.
  - apply placed4_next; [intros; apply out8_dat; lia|intros; apply last_piece|intros; rewrite last_piece; apply full_piece].
Qed.
Lemma acc8_sum : forall c k, (k <= pieces R)%nat -> eq32 (zsum (slanes 4 (acc8 sb so inc ix c k))) (psum8 c (16 * k)).
Proof using HR.
  intros c. induction k as [|k IH]; intros Hk; [reflexivity|]. cbn [acc8]. rewrite psum_piece. rewrite <- xv_piece by lia.
  eapply eq32_trans; [apply sadalp_sum; [apply full_acc8|apply full_xv]|]. apply eq32_add; [apply IH; lia|apply eq32_refl].
Qed.
Lemma sum8_nth : forall c, (c < 4)%nat -> nth c (slanes 4 (sum8 sb so inc R zz ix)) 0 = wrap_s 32 (psum8 c (16 * sixteens)).
Proof using HR.
  assert (F : forall c, full (acc8_end sb so inc R zz ix c)).
  { intros c. unfold acc8_end. destruct (Nat.eqb (rest8 R) 0); [apply full_acc8|]. apply full_sadalp; [apply full_acc8|]. apply full_saddlp. rewrite last_piece. apply full_piece. }
  intros c Hc. unfold sum8. rewrite addp_nth by (try apply F; exact Hc).
  assert (E : nth c [acc8_end sb so inc R zz ix 0; acc8_end sb so inc R zz ix 1; acc8_end sb so inc R zz ix 2; acc8_end sb so inc R zz ix 3] [] = acc8_end sb so inc R zz ix c).
  { destruct c as [|[|[|[|]]]]; try reflexivity. lia. }
  rewrite E. unfold acc8_end, sixteens. change (rest8 R) with (rest R). change (pieces8 R) with (pieces R). destruct (Nat.eqb (rest R) 0).
  - apply acc8_sum. lia.
  - rewrite psum_piece, last_piece. eapply eq32_trans; [apply sadalp_sum; [apply full_acc8|apply full_piece]|]. apply eq32_add; [apply acc8_sum; lia|apply eq32_refl].
Qed.

(** Four rows at a time. *)
Definition fours : nat := (4 * pieces R + (rest R + 3) / 4)%nat.
Lemma groups_le : ((rest R + 3) / 4 <= 4)%nat.
Proof using HR. destruct (bound_pieces R HR) as [_ H]. assert ((rest R + 3) / 4 < 5)%nat by (apply Nat.div_lt_upper_bound; lia). lia. Qed.
Lemma dv_piece : forall c k, (k < pieces R)%nat -> dv sb so inc ix c k = piece8 c k.
Proof using HR. intros c k Hk. apply piece_whole; assumption. Qed.
Lemma lastd_piece : forall c, lastd sb so inc R zz ix c = piece8 c (pieces R).
Proof using HR. intros c. unfold lastd, row_piece. rewrite Nat.mul_1_l. apply piece_last. exact HR. Qed.
Lemma outd_dat : forall k, (k <= pieces R)%nat -> forall i, bdat (outd sb so inc P0 po ix k) i = placedt sb so inc R zz ix P0 po (4 * k) i.
Proof using HR.
  induction k as [|k IH]; intros Hk i.
  - cbn [outd]. unfold placedt. destruct (Z.leb_spec po i); [|reflexivity]. destruct (Z.ltb_spec i (po + 32 * Z.of_nat (4 * 0))); [lia|reflexivity].
  - cbn [outd]. replace (4 * S k)%nat with (4 * k + 4)%nat by lia. unfold td. change (store_t ?P ?p ?v) with (store_first 4 P p v).
    apply placedt_next; [lia|intros; apply IH; lia|..]; apply dv_piece; lia.
Qed.
Lemma outd_end_dat : forall i, bdat (outd_end sb so inc P0 po R zz ix) i = placedt sb so inc R zz ix P0 po fours i.
Proof using HR.
  intros i. unfold outd_end, fours, tl. change (groupsd R) with ((rest R + 3) / 4)%nat. change (piecesd R) with (pieces R).
  apply placedt_next; [apply groups_le|intros; apply outd_dat; lia|..]; apply lastd_piece.
Qed.

Lemma sdot_lane : forall d k j c, full d -> (j < 4)%nat -> (c < 4)%nat ->
  eq32 (lane c (sdot d (trans j (piece8 0 k) (piece8 1 k) (piece8 2 k) (piece8 3 k)) ones)) (lane c d + zsum (map (wrap_s 8) (group j (piece8 c k)))).
Proof using Type.
  intros d k j c Hd Hj Hc. unfold lane. rewrite sdot_nth by (try apply full_piece; assumption). rewrite (pick (fun c => piece8 c k)) by exact Hc. apply eq32_wrap.
Qed.

Lemma accd_sum : forall c k, (c < 4)%nat -> (k <= pieces R)%nat -> eq32 (total c (fun j => accd sb so inc ix j k)) (psum8 c (16 * k)).
Proof using HR.
  intros c k Hc. induction k as [|k IH]; intros Hk; [destruct c as [|[|[|[|]]]]; try reflexivity; lia|].
  assert (E : forall j, (j < 4)%nat -> eq32 (lane c (accd sb so inc ix j (S k))) (lane c (accd sb so inc ix j k) + zsum (map (wrap_s 8) (group j (piece8 c k))))).
  { intros j Hj. cbn [accd]. unfold td. rewrite !dv_piece by lia. apply sdot_lane; [apply full_accd|exact Hj|exact Hc]. }
  replace (16 * S k)%nat with (16 * k + 4 * 4)%nat by lia. rewrite (psum_group _ _ _ _ _ _ c k 3), (psum_group _ _ _ _ _ _ c k 2), (psum_group _ _ _ _ _ _ c k 1), (psum_group _ _ _ _ _ _ c k 0) by lia. replace (16 * k + 4 * 0)%nat with (16 * k)%nat by lia.
  specialize (IH ltac:(lia)). unfold total in IH |- *.
  eapply eq32_trans; [repeat apply eq32_add; apply E; lia|].
  match goal with |- eq32 ?p (?q + _ + _ + _ + _) => match type of IH with eq32 ?a q => match goal with |- eq32 p (q + ?x0 + ?x1 + ?x2 + ?x3) => replace p with (a + x0 + x1 + x2 + x3) by ring end end end.
  repeat apply eq32_add; try apply eq32_refl. exact IH.
Qed.

Lemma sumd_nth : forall c, (c < 4)%nat -> nth c (slanes 4 (sumd sb so inc R zz ix)) 0 = wrap_s 32 (psum8 c (4 * fours)).
Proof using HR.
  intros c Hc.
  assert (F : forall j, full (accd_end sb so inc R zz ix j)).
  { intros j. unfold accd_end. destruct (Nat.ltb j (groupsd R)); [|apply full_accd]. apply full_sdot; [apply full_accd|unfold tl; rewrite !lastd_piece; apply full_trans; apply full_piece|apply full_ones]. }
  assert (T : nth c (slanes 4 (sumd sb so inc R zz ix)) 0 = wrap_s 32 (total c (accd_end sb so inc R zz ix))).
  { unfold sumd. rewrite vadd_nth by (try exact Hc; repeat first [apply F | apply full_add_4]). rewrite !vadd_nth by (try exact Hc; apply F). unfold total, lane.
    match goal with |- wrap_s 32 (wrap_s 32 ?a + wrap_s 32 ?b) = wrap_s 32 ?q => change (eq32 (wrap_s 32 a + wrap_s 32 b) q); replace q with (a + b) by ring end.
    apply eq32_add; apply eq32_wrap. }
  rewrite T. change (eq32 (total c (accd_end sb so inc R zz ix)) (psum8 c (4 * fours))).
  pose proof (accd_sum c (pieces R) Hc ltac:(lia)) as A.
  assert (E : forall j, (j < 4)%nat -> eq32 (lane c (accd_end sb so inc R zz ix j)) (lane c (accd sb so inc ix j (pieces R)) + if Nat.ltb j (groupsd R) then zsum (map (wrap_s 8) (group j (piece8 c (pieces R)))) else 0)).
  { intros j Hj. unfold accd_end. destruct (Nat.ltb j (groupsd R)); [|rewrite Z.add_0_r; apply eq32_refl].
    unfold tl. rewrite !lastd_piece. apply sdot_lane; [apply full_accd|exact Hj|exact Hc]. }
  assert (G : exists m, groupsd R = m /\ (m <= 4)%nat) by (eexists; split; [reflexivity|apply groups_le]). destruct G as (m & Em & Hm).
  replace (4 * fours)%nat with (16 * pieces R + 4 * m)%nat by (unfold fours; change ((rest R + 3) / 4)%nat with (groupsd R); lia).
  rewrite Em in E. clear Em T F.
  assert (P : psum8 c (16 * pieces R + 4 * m) = psum8 c (16 * pieces R) +
    (if Nat.ltb 0 m then zsum (map (wrap_s 8) (group 0 (piece8 c (pieces R)))) else 0) + (if Nat.ltb 1 m then zsum (map (wrap_s 8) (group 1 (piece8 c (pieces R)))) else 0) +
    (if Nat.ltb 2 m then zsum (map (wrap_s 8) (group 2 (piece8 c (pieces R)))) else 0) + (if Nat.ltb 3 m then zsum (map (wrap_s 8) (group 3 (piece8 c (pieces R)))) else 0)).
  { assert (Z0 : psum8 c (16 * pieces R + 4 * 0) = psum8 c (16 * pieces R)) by (f_equal; lia).
    destruct m as [|[|[|[|[|]]]]]; try lia; cbn [Nat.ltb Nat.leb]; rewrite ?psum_group, ?Z0 by lia; ring. }
  rewrite P. unfold total in A |- *.
  eapply eq32_trans; [repeat apply eq32_add; apply E; lia|].
  match goal with |- eq32 ?p (?q + _ + _ + _ + _) => match type of A with eq32 ?a q => match goal with |- eq32 p (q + ?x0 + ?x1 + ?x2 + ?x3) => replace p with (a + x0 + x1 + x2 + x3) by ring end end end.
  repeat apply eq32_add; try apply eq32_refl. exact A.
Qed.

(** Floats: the same bytes. *)
Lemma piecesf_eq : piecesf R = pieces (4 * R) /\ (4 * restf R)%nat = rest (4 * R).
Proof using HR.
  unfold piecesf, pieces, restf, rest. change 16 with (4 * 4). rewrite Z.div_mul_cancel_l by lia. rewrite Z.mul_mod_distr_l by lia. split; [reflexivity|].
  pose proof (Z.mod_pos_bound R 4 ltac:(lia)). lia.
Qed.
Lemma cvecf_piece : forall c k, (k < pieces (4 * R))%nat -> cvec sb so inc c k = piece sb so inc (4 * R) 0 0 c k.
Proof using HR. intros c k Hk. rewrite <- piece_whole by (try exact Hk; lia). symmetry. apply eor_zero, full_cvec. Qed.
Lemma lastf_piece : forall c, lastf sb so inc R c = piece sb so inc (4 * R) 0 0 c (pieces (4 * R)).
Proof using HR.
  intros c. rewrite <- piece_last by lia. unfold lastf, row_piece. destruct piecesf_eq as [-> ->]. symmetry. apply eor_zero. apply partly_full; [reflexivity|].
  destruct (bound_pieces (4 * R) ltac:(lia)). lia.
Qed.
Lemma outf_dat : forall k, (k <= pieces (4 * R))%nat -> forall i, bdat (outf sb so inc P0 po k) i = placedt sb so inc (4 * R) 0 0 P0 po (4 * k) i.
Proof using HR.
  induction k as [|k IH]; intros Hk i.
  - cbn [outf]. unfold placedt. destruct (Z.leb_spec po i); [|reflexivity]. destruct (Z.ltb_spec i (po + 32 * Z.of_nat (4 * 0))); [lia|reflexivity].
  - cbn [outf]. replace (4 * S k)%nat with (4 * k + 4)%nat by lia. unfold tf. change (store_t ?P ?p ?v) with (store_first 4 P p v).
    apply placedt_next; [lia|intros; apply IH; lia|..]; apply cvecf_piece; lia.
Qed.
Lemma outf_end_dat : forall i, bdat (outf_end sb so inc P0 po R) i = placedt sb so inc (4 * R) 0 0 P0 po (Z.to_nat R) i.
Proof using HR.
  intros i. unfold outf_end, tlf. destruct piecesf_eq as [E1 E2]. pose proof (bound_pieces (4 * R) ltac:(lia)) as [B1 B2].
  replace (Z.to_nat R) with (4 * pieces (4 * R) + restf R)%nat by lia. rewrite E1.
  apply placedt_next; [lia|intros; apply outf_dat; lia|..]; apply lastf_piece.
Qed.
End Results.
