(** Laws of the instructions of SimdFloat.v on registers written as [map f (zrange 0 n)]. *)
From Coq Require Import ZArith List Bool Lia.
From Verif Require Import Base Mat MatFacts SimdFloat.
Import ListNotations.
Open Scope Z_scope.

Lemma zrange_shift : forall {A} (f : Z -> A) a n, map f (zrange a (a + n)) = map (fun i => f (a + i)) (zrange 0 n).
Proof.
  intros A f a n. unfold zrange. replace (a + n - a) with (n - 0) by lia. generalize (Z.to_nat (n - 0)). intros m. clear n.
  assert (G : forall b, map f (zseq (a + b) m) = map (fun i => f (a + i)) (zseq b m)).
  { induction m as [|m IH]; intros b; cbn [zseq map]; [reflexivity|]. f_equal. rewrite <- IH. do 2 f_equal. lia. }
  specialize (G 0). rewrite Z.add_0_r in G. exact G.
Qed.

Lemma zrange_length : forall a b, length (zrange a b) = Z.to_nat (b - a).
Proof. intros. apply zseq_length. Qed.

Lemma nth_map_zrange : forall {A} (f : Z -> A) d n i, 0 <= i < n -> nth (Z.to_nat i) (map f (zrange 0 n)) d = f i.
Proof.
  intros A f d n i Hi. rewrite (nth_indep _ d (f 0)) by (rewrite map_length, zrange_length; lia). rewrite (map_nth f). f_equal.
  unfold zrange. rewrite Z.sub_0_r.
  assert (G : forall m b j, (j < m)%nat -> nth j (zseq b m) 0 = b + Z.of_nat j).
  { induction m as [|m IH]; intros b j Hj; [lia|]. destruct j; cbn [zseq nth]; [lia|]. rewrite IH by lia. lia. }
  rewrite G by lia. lia.
Qed.

Lemma fload_ok : forall {V} n (b : buf V) off, 0 <= off -> off + n <= blen b -> fload n b off = Ok (map (fun i => bdat b (off + i)) (zrange 0 n)).
Proof. intros V n b off H1 H2. unfold fload. replace (_ && _) with true by lia. rewrite zrange_shift. reflexivity. Qed.

Lemma fstore_list : forall {V} (v : list V) off b, 0 <= off -> off + Z.of_nat (length v) <= blen b ->
  exists b', fstore v off b = Ok b' /\ blen b' = blen b /\
    forall q, bdat b' q = if (off <=? q) && (q <? off + Z.of_nat (length v)) then nth (Z.to_nat (q - off)) v (bdat b q) else bdat b q.
Proof.
  intros V v. induction v as [|x v IH]; intros off b H1 H2; cbn [length] in *.
  - exists b. split; [reflexivity|]. split; [reflexivity|]. intros q. replace (_ && _) with false by lia. reflexivity.
  - cbn [fstore]. destruct (bwrite_ok b off x) as (b1 & E1 & L1 & D1); [lia|]. rewrite E1. cbn [bind].
    destruct (IH (off + 1) b1) as (b2 & E2 & L2 & D2); [lia|rewrite L1; lia|]. exists b2. split; [exact E2|]. split; [congruence|].
    intros q. rewrite D2, D1. destruct (Z.eqb_spec q off) as [->|Hq].
    + replace ((off + 1 <=? off) && (off <? off + 1 + Z.of_nat (length v))) with false by lia.
      replace ((off <=? off) && (off <? off + Z.of_nat (S (length v)))) with true by lia. rewrite Z.sub_diag. reflexivity.
    + replace ((off + 1 <=? q) && (q <? off + 1 + Z.of_nat (length v))) with ((off <=? q) && (q <? off + Z.of_nat (S (length v)))) by lia.
      destruct (_ && _) eqn:B; [|reflexivity]. replace (Z.to_nat (q - off)) with (S (Z.to_nat (q - (off + 1)))) by lia. reflexivity.
Qed.

Lemma fstore_ok : forall {V} (f : Z -> V) n off b, 0 <= n -> 0 <= off -> off + n <= blen b ->
  exists b', fstore (map f (zrange 0 n)) off b = Ok b' /\ blen b' = blen b /\
    forall q, bdat b' q = if (off <=? q) && (q <? off + n) then f (q - off) else bdat b q.
Proof.
  intros V f n off b Hn H1 H2. assert (Ln : Z.of_nat (length (map f (zrange 0 n))) = n) by (rewrite map_length, zrange_length; lia).
  destruct (fstore_list (map f (zrange 0 n)) off b H1) as (b' & E & L & D); [lia|]. exists b'. split; [exact E|]. split; [exact L|].
  intros q. rewrite D, Ln. destruct (_ && _) eqn:B; [|reflexivity]. apply nth_map_zrange. lia.
Qed.

Lemma fmask_load_ok : forall {V} (zero : V) (m : Z -> bool) n b off, 0 <= off -> (forall i, 0 <= i < n -> m i = true -> off + i < blen b) ->
  fmask_load zero (map m (zrange 0 n)) b off = Ok (map (fun i => if m i then bdat b (off + i) else zero) (zrange 0 n)).
Proof.
  intros V zero m n b off Hoff. unfold zrange. rewrite Z.sub_0_r.
  assert (G : forall k a o, 0 <= o -> (forall i, a <= i < a + Z.of_nat k -> m i = true -> o + (i - a) < blen b) ->
    fmask_load zero (map m (zseq a k)) b o = Ok (map (fun i => if m i then bdat b (o + (i - a)) else zero) (zseq a k))).
  { induction k as [|k IH]; intros a o Ho H; cbn [zseq map fmask_load]; [reflexivity|].
    assert (E : (if m a then bread b o else Ok zero) = Ok (if m a then bdat b (o + (a - a)) else zero)).
    { destruct (m a) eqn:Em; [|reflexivity]. rewrite bread_ok; [do 2 f_equal; lia|]. specialize (H a ltac:(lia) Em). lia. }
    rewrite E. cbn [bind]. rewrite IH; [|lia|].
    - cbn [bind]. do 2 f_equal. apply map_ext. intros i. destruct (m i); [|reflexivity]. f_equal. lia.
    - intros i Hi Em. specialize (H i ltac:(lia) Em). lia. }
  intros H. rewrite (G (Z.to_nat n) 0 off Hoff).
  - f_equal. apply map_ext. intros i. rewrite Z.sub_0_r. reflexivity.
  - intros i Hi Em. rewrite Z.sub_0_r. apply H; [lia|exact Em].
Qed.

Lemma fmask_store_ok : forall {V} (m : Z -> bool) (f : Z -> V) n off b, 0 <= off -> (forall i, 0 <= i < n -> m i = true -> off + i < blen b) ->
  exists b', fmask_store (map m (zrange 0 n)) (map f (zrange 0 n)) off b = Ok b' /\ blen b' = blen b /\
    forall q, bdat b' q = if (off <=? q) && (q <? off + n) && m (q - off) then f (q - off) else bdat b q.
Proof.
  intros V m f n off b0 Hoff H. unfold zrange. rewrite Z.sub_0_r.
  assert (G : forall k a o b, 0 <= o -> (forall i, a <= i < a + Z.of_nat k -> m i = true -> o + (i - a) < blen b) ->
    exists b', fmask_store (map m (zseq a k)) (map f (zseq a k)) o b = Ok b' /\ blen b' = blen b /\
      forall q, bdat b' q = if (o <=? q) && (q <? o + Z.of_nat k) && m (a + (q - o)) then f (a + (q - o)) else bdat b q).
  { clear. induction k as [|k IH]; intros a o b Ho H; cbn [zseq map fmask_store].
    - exists b. split; [reflexivity|]. split; [reflexivity|]. intros q. replace ((o <=? q) && (q <? o + Z.of_nat 0)) with false by lia. reflexivity.
    - assert (E : exists b1, (if m a then bwrite b o (f a) else Ok b) = Ok b1 /\ blen b1 = blen b /\
        forall q, bdat b1 q = if (q =? o) && m a then f a else bdat b q).
      { destruct (m a) eqn:Em.
        - destruct (bwrite_ok b o (f a)) as (b1 & E & L & D); [specialize (H a ltac:(lia) Em); lia|]. exists b1. split; [exact E|]. split; [exact L|].
          intros q. rewrite D, andb_true_r. reflexivity.
        - exists b. split; [reflexivity|]. split; [reflexivity|]. intros q. rewrite andb_false_r. reflexivity. }
      destruct E as (b1 & E1 & L1 & D1). rewrite E1. cbn [bind].
      destruct (IH (a + 1) (o + 1) b1) as (b2 & E2 & L2 & D2); [lia| |].
      { intros i Hi Em. rewrite L1. specialize (H i ltac:(lia) Em). lia. }
      exists b2. split; [exact E2|]. split; [congruence|]. intros q. rewrite D2, D1.
      replace (a + 1 + (q - (o + 1))) with (a + (q - o)) by lia. destruct (Z.eqb_spec q o) as [->|Hq].
      + replace ((o + 1 <=? o) && (o <? o + 1 + Z.of_nat k)) with false by lia. replace ((o <=? o) && (o <? o + Z.of_nat (S k))) with true by lia.
        replace (a + (o - o)) with a by lia. reflexivity.
      + replace ((o + 1 <=? q) && (q <? o + 1 + Z.of_nat k)) with ((o <=? q) && (q <? o + Z.of_nat (S k))) by lia. reflexivity. }
  destruct (G (Z.to_nat n) 0 off b0 Hoff) as (b' & E & L & D).
  - intros i Hi Em. rewrite Z.sub_0_r. apply H; [lia|exact Em].
  - exists b'. split; [exact E|]. split; [exact L|]. intros q. rewrite D, !Z.add_0_l.
    replace ((off <=? q) && (q <? off + Z.of_nat (Z.to_nat n))) with ((off <=? q) && (q <? off + n)) by lia. reflexivity.
Qed.

Lemma lanes2_map : forall {A V} (g : V -> V -> V) (f1 f2 : A -> V) l, lanes2 g (map f1 l) (map f2 l) = map (fun i => g (f1 i) (f2 i)) l.
Proof. intros A V g f1 f2 l. induction l as [|x l IH]; cbn [map lanes2]; [reflexivity|]. rewrite IH. reflexivity. Qed.
Lemma lanes3_map : forall {A V} (g : V -> V -> V -> V) (f1 f2 f3 : A -> V) l,
  lanes3 g (map f1 l) (map f2 l) (map f3 l) = map (fun i => g (f1 i) (f2 i) (f3 i)) l.
Proof. intros A V g f1 f2 f3 l. induction l as [|x l IH]; cbn [map lanes3]; [reflexivity|]. rewrite IH. reflexivity. Qed.

(** The two broadcasts and the permutations of them repeat one lane in all. *)
Lemma broadcast_permute : forall {V} (zero : V) (f : Z -> V) (j : Z), 0 <= j < 4 ->
  permute_ps zero (broadcast_ps (map f (zrange 0 4))) (85 * j) = fset1 8 (f j).
Proof.
  intros V zero f j Hj. assert (E : j = 0 \/ j = 1 \/ j = 2 \/ j = 3) by lia. destruct E as [->|[->|[->| ->]]]; reflexivity.
Qed.

Lemma low_mask : forall n k, 0 <= k < 32 -> bit_mask n (wrap_u 32 (Z.shiftl 1 k) - 1) = map (fun i => i <? k) (zrange 0 n).
Proof.
  intros n k Hk. unfold bit_mask. apply map_ext_in. intros i Hi. apply zrange_In in Hi. unfold wrap_u. rewrite Z.shiftl_1_l.
  rewrite Z.mod_small by (split; [apply Z.pow_nonneg; lia|apply Z.pow_lt_mono_r; lia]).
  replace (2 ^ k - 1) with (Z.ones k) by (rewrite Z.ones_equiv; lia). destruct (Z.ltb_spec i k).
  - apply Z.ones_spec_low. lia.
  - apply Z.ones_spec_high. lia.
Qed.
