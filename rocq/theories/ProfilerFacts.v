From Coq Require Import ZArith List Bool Lia.
From Verif Require Import Base Simd SimdFacts RequantFacts Profiler SpecProfiler.
Import ListNotations.
Open Scope Z_scope.

(** ** Bytes *)
Lemma skipn_exact : forall {A} n (a b : list A), length a = n -> skipn n (a ++ b) = b.
Proof. intros A n a b <-. rewrite skipn_app, skipn_all, Nat.sub_diag. reflexivity. Qed.
Lemma firstn_exact : forall {A} n (a b : list A), length a = n -> firstn n (a ++ b) = a.
Proof. intros A n a b <-. rewrite firstn_app, firstn_all, Nat.sub_diag, firstn_O, app_nil_r. reflexivity. Qed.

Lemma skipn_skipn : forall {A} n m (l : list A), skipn n (skipn m l) = skipn (n + m) l.
Proof.
  intros A n m. revert n. induction m as [|m IH]; intros n l; [rewrite Nat.add_0_r; reflexivity|].
  destruct l as [|x l]; [rewrite !skipn_nil; reflexivity|]. rewrite Nat.add_succ_r. cbn [skipn]. apply IH.
Qed.

Lemma int_word : forall z, int_min <= z <= int_max -> wrap_s 32 (of_bytes (bytes_of 4 z)) = z.
Proof.
  intros z H. rewrite of_bytes_of. change (256 ^ Z.of_nat 4) with (2 ^ 32). rewrite SimdFacts.wrap_s_mod by lia. apply wrap_s32_id. exact H.
Qed.

Lemma label_bytes_length : forall l, length (lb_args l) = 4%nat -> length (label_bytes l) = 32%nat.
Proof.
  intros [f c a p] H. cbn [lb_args] in H. unfold label_bytes. cbn [lb_args lb_format lb_count lb_pad].
  destruct a as [|a0 [|a1 [|a2 [|a3 [|]]]]]; try discriminate.
  cbn [map concat]. rewrite !app_length, !bytes_of_length. reflexivity.
Qed.

Lemma label_round_trip : forall l, good_label l -> label_of (label_bytes l) = l.
Proof.
  intros [f c a p] (Hf & Hc & Ha & Hi & Hp). cbn [lb_args lb_format lb_count lb_pad] in *.
  destruct a as [|a0 [|a1 [|a2 [|a3 [|]]]]]; try discriminate.
  inversion_clear Hi as [|? ? I0 Hi']. inversion_clear Hi' as [|? ? I1 Hi]. inversion_clear Hi as [|? ? I2 Hi'].
  inversion_clear Hi' as [|? ? I3 _].
  unfold label_of, label_bytes. cbn [lb_args lb_format lb_count lb_pad map concat]. rewrite app_nil_r, <- !app_assoc.
  pose proof (bytes_of_length 8 f) as Lf. pose proof (bytes_of_length 4 c) as Lc. pose proof (bytes_of_length 4 p) as Lp.
  pose proof (bytes_of_length 4 a0) as L0. pose proof (bytes_of_length 4 a1) as L1. pose proof (bytes_of_length 4 a2) as L2.
  pose proof (bytes_of_length 4 a3) as L3.
  assert (forall n (x y : list Z), skipn (length x + n) (x ++ y) = skipn n y) as S.
  { intros n x y. rewrite skipn_app. replace (length x + n - length x)%nat with n by lia. rewrite skipn_all2 by lia. reflexivity. }
  assert (forall n (x y : list Z), length x = 8%nat -> skipn (8 + n) (x ++ y) = skipn n y) as S8 by (intros n x y E; rewrite <- E; apply S).
  assert (forall n (x y : list Z), length x = 4%nat -> skipn (4 + n) (x ++ y) = skipn n y) as S4 by (intros n x y E; rewrite <- E; apply S).
  clear S.
  f_equal.
  - rewrite firstn_exact by exact Lf. rewrite of_bytes_of. apply Z.mod_small. exact Hf.
  - rewrite (S8 0%nat) by exact Lf. cbn [skipn]. rewrite firstn_exact by exact Lc. apply int_word. unfold int_min, int_max. lia.
  - f_equal; [|f_equal; [|f_equal; [|f_equal; []]]].
    + rewrite (S8 4%nat), (S4 0%nat) by assumption. cbn [skipn]. rewrite firstn_exact by assumption. apply int_word. assumption.
    + rewrite (S8 8%nat), (S4 4%nat), (S4 0%nat) by assumption. cbn [skipn]. rewrite firstn_exact by assumption. apply int_word. assumption.
    + rewrite (S8 12%nat), (S4 8%nat), (S4 4%nat), (S4 0%nat) by assumption. cbn [skipn]. rewrite firstn_exact by assumption. apply int_word. assumption.
    + rewrite (S8 16%nat), (S4 12%nat), (S4 8%nat), (S4 4%nat), (S4 0%nat) by assumption. cbn [skipn]. rewrite firstn_exact by assumption. apply int_word. assumption.
  - rewrite (S8 20%nat), (S4 16%nat), (S4 12%nat), (S4 8%nat), (S4 4%nat), (S4 0%nat) by assumption. cbn [skipn]. rewrite <- (app_nil_r (bytes_of 4 p)), firstn_exact by assumption. apply int_word. assumption.
Qed.

Lemma labels_length : forall l, Forall good_label l -> length (concat (map label_bytes l)) = (32 * length l)%nat.
Proof.
  intros l H. induction H as [|x l Hx H IH]; [reflexivity|]. cbn [map concat length]. rewrite app_length, IH.
  rewrite label_bytes_length by apply Hx. lia.
Qed.

Lemma read_labels : forall l rest, Forall good_label l ->
  map (fun i => label_of (firstn 32 (skipn (32 * i) (concat (map label_bytes l) ++ rest)))) (seq 0 (length l)) = l.
Proof.
  intros l rest H. induction H as [|x l Hx H IH]; [reflexivity|].
  cbn [map concat length seq].
  assert (length (label_bytes x) = 32%nat) as L by (apply label_bytes_length; apply Hx).
  f_equal.
  - change (32 * 0)%nat with 0%nat. cbn [skipn]. rewrite <- app_assoc, firstn_exact by exact L. apply label_round_trip. exact Hx.
  - rewrite <- seq_shift, map_map. etransitivity; [|exact IH]. apply map_ext. intros i. f_equal. f_equal.
    rewrite <- app_assoc. replace (32 * S i)%nat with (32 * i + 32)%nat by lia.
    rewrite <- (skipn_exact 32 (label_bytes x) (concat (map label_bytes l) ++ rest) L) at 2.
    rewrite skipn_skipn. reflexivity.
Qed.

Lemma buffer_size_ok : forall s, 0 <= st_size s <= 64 -> buffer_size s = 8 + 32 * st_size s.
Proof.
  intros s H. unfold buffer_size. rewrite (wrap_u64_id (st_size s)) by lia. rewrite wrap_u64_id by lia. rewrite wrap_s32_id by (unfold int_min, int_max; lia). lia.
Qed.

Lemma Forall_firstn : forall {A} (P : A -> Prop) n l, Forall P l -> Forall P (firstn n l).
Proof. intros A P n l H. revert n. induction H; intros [|n]; cbn [firstn]; constructor; auto. Qed.
Lemma Forall_skipn : forall {A} (P : A -> Prop) n l, Forall P l -> Forall P (skipn n l).
Proof. intros A P n l H. revert n. induction H; intros [|n]; cbn [skipn]; auto. Qed.

Lemma stack_bytes_ok : forall s, good_stack s -> exists b, stack_bytes s = Ok b /\ Z.of_nat (length b) = buffer_size s.
Proof.
  intros s (Hid & Hs & Hl & Hg). unfold stack_bytes, max_size.
  rewrite (proj2 (Z.leb_le 0 _)) by lia. rewrite (proj2 (Z.leb_le _ 64)) by lia. cbn [andb]. eexists. split; [reflexivity|].
  rewrite buffer_size_ok by exact Hs. rewrite !app_length, !bytes_of_length, labels_length by (apply Forall_firstn; exact Hg).
  rewrite firstn_length, Hl. lia.
Qed.

Lemma read_back : forall fresh s rest b, good_stack s -> stack_bytes s = Ok b -> exists s', read_stack fresh (b ++ rest) = Ok s' /\
  st_id s' = st_id s /\ st_size s' = st_size s /\ st_labels s' = firstn (Z.to_nat (st_size s)) (st_labels s) ++ skipn (Z.to_nat (st_size s)) fresh.
Proof.
  intros fresh s rest b G E. destruct (stack_bytes_ok s G) as (b' & E' & L). rewrite E in E'. injection E' as <-.
  destruct G as (Hid & Hs & Hl & Hg). rewrite buffer_size_ok in L by exact Hs.
  unfold stack_bytes, max_size in E. rewrite (proj2 (Z.leb_le 0 _)) in E by lia. rewrite (proj2 (Z.leb_le _ 64)) in E by lia. cbn [andb] in E.
  assert (forall x y : list Z, Ok x = Ok y -> x = y) as Inj by congruence. apply Inj in E as Eb. clear Inj E. set (n := Z.to_nat (st_size s)) in *. set (ls := firstn n (st_labels s)) in *.
  assert (length ls = n) as Hn by (unfold ls; rewrite firstn_length, Hl; lia).
  pose proof (bytes_of_length 4 (st_id s)) as L1. pose proof (bytes_of_length 4 (st_size s)) as L2.
  assert (length (b ++ rest) = (length b + length rest)%nat) as La by apply app_length.
  unfold read_stack, max_size. destruct (Nat.ltb_spec (length (b ++ rest)) 8) as [B|_]; [lia|].
  assert (firstn 4 (b ++ rest) = bytes_of 4 (st_id s)) as W1 by (rewrite <- Eb, <- !app_assoc; apply firstn_exact; exact L1).
  assert (skipn 4 (b ++ rest) = bytes_of 4 (st_size s) ++ concat (map label_bytes ls) ++ rest) as W2 by (rewrite <- Eb, <- !app_assoc; apply skipn_exact; exact L1).
  assert (forall i, skipn (8 + i) (b ++ rest) = skipn i (concat (map label_bytes ls) ++ rest)) as W3.
  { intros i. replace (8 + i)%nat with (i + 4 + 4)%nat by lia. rewrite <- skipn_skipn, W2, <- skipn_skipn, (skipn_exact 4) by exact L2. reflexivity. }
  rewrite W1, W2, (firstn_exact 4) by exact L2. rewrite int_word by (unfold int_min, int_max; lia).
  rewrite (proj2 (Z.leb_le 0 _)) by lia. rewrite (proj2 (Z.leb_le _ 64)) by lia. rewrite (proj2 (Z.leb_le _ (Z.of_nat _))) by (rewrite La; lia). cbn [andb].
  eexists. split; [reflexivity|]. cbn [st_id st_size st_labels]. split; [|split; [reflexivity|]].
  - rewrite of_bytes_of. change (256 ^ Z.of_nat 4) with (2 ^ 32). apply Z.mod_small. exact Hid.
  - f_equal. fold n. rewrite <- Hn. rewrite <- (read_labels ls rest) at 2 by (unfold ls; apply Forall_firstn; exact Hg).
    apply map_ext. intros i. rewrite W3. reflexivity.
Qed.

Lemma notes_of_read : forall s s' fresh, good_stack s -> st_size s' = st_size s ->
  st_labels s' = firstn (Z.to_nat (st_size s)) (st_labels s) ++ skipn (Z.to_nat (st_size s)) fresh -> notes_of s' = notes_of s.
Proof.
  intros s s' fresh (_ & Hs & Hl & _) E1 E2. unfold notes_of. rewrite E1, E2, firstn_exact; [reflexivity|]. rewrite firstn_length, Hl. lia.
Qed.

(** ** Push and Pop *)
Lemma replace_length : forall {A} n (x : A) l, length (replace n x l) = length l.
Proof. intros A n x l. revert n. induction l as [|y l IH]; intros [|n]; cbn [replace length]; auto. Qed.
Lemma replace_firstn : forall {A} n (x : A) l, (n < length l)%nat -> firstn (S n) (replace n x l) = firstn n l ++ [x].
Proof.
  intros A n x l. revert n. induction l as [|y l IH]; intros [|n] H; cbn [length] in H; try lia; [reflexivity|].
  cbn [replace]. change (firstn (S (S n)) (y :: replace n x l)) with (y :: firstn (S n) (replace n x l)). rewrite IH by lia. reflexivity.
Qed.
Lemma replace_Forall : forall {A} (P : A -> Prop) n x l, P x -> Forall P l -> Forall P (replace n x l).
Proof. intros A P n x l Hx H. revert n. induction H; intros [|n]; cbn [replace]; constructor; auto. Qed.
Lemma Forall_nth : forall {A} (P : A -> Prop) n l x, Forall P l -> nth_error l n = Some x -> P x.
Proof. intros A P n l x H E. rewrite Forall_forall in H. apply H. eapply nth_error_In. exact E. Qed.

Lemma notes_length : forall s, good_stack s -> length (notes_of s) = Z.to_nat (st_size s).
Proof. intros s (_ & Hs & Hl & _). unfold notes_of. rewrite map_length, firstn_length, Hl. lia. Qed.

Lemma push_ok : forall n s, good_stack s -> good_note n -> st_size s < 64 -> exists s', push (fst n) (snd n) s = Ok s' /\ good_stack s' /\
  st_id s' = st_id s /\ notes_of s' = notes_of s ++ [n].
Proof.
  intros [f a] s G Hn Hs. cbn [fst snd]. pose proof G as (Hid & Hz & Hl & Hg). destruct Hn as (Hf & Ha & Hi). cbn [fst snd] in *.
  unfold push, max_size. destruct (Z.leb_spec 64 (st_size s)) as [B|_]; [lia|].
  destruct (nth_error (st_labels s) (Z.to_nat (st_size s))) as [l|] eqn:El; [|apply nth_error_None in El; lia].
  pose proof (Forall_nth _ _ _ _ Hg El) as (_ & _ & La & Lai & Lp).
  unfold set_label. destruct (Nat.ltb_spec 4 (length a)) as [B|_]; [lia|]. cbn [bind].
  eexists. split; [reflexivity|]. split; [|split; [reflexivity|]].
  - unfold good_stack. cbn [st_id st_size st_labels]. split; [exact Hid|]. split; [lia|]. split; [rewrite replace_length; exact Hl|].
    apply replace_Forall; [|exact Hg]. unfold good_label. cbn [lb_format lb_count lb_args lb_pad]. split; [exact Hf|]. split; [lia|].
    split; [rewrite app_length, skipn_length; lia|]. split; [|exact Lp]. apply Forall_app. split; [exact Hi|apply Forall_skipn; exact Lai].
  - unfold notes_of. cbn [st_size st_labels]. rewrite Z2Nat.inj_add by lia. change (Z.to_nat 1) with 1%nat. rewrite Nat.add_1_r, replace_firstn by lia.
    rewrite map_app. cbn [map]. unfold note_of at 2. cbn [lb_format lb_count lb_args]. rewrite Nat2Z.id, firstn_exact by reflexivity. reflexivity.
Qed.

Lemma push_full : forall f a s, 64 <= st_size s -> push f a s = Abort.
Proof. intros f a s H. unfold push, max_size. rewrite (proj2 (Z.leb_le 64 _)) by exact H. reflexivity. Qed.

Lemma firstn_pred : forall {A} n (l : list A), (n < length l)%nat -> firstn n l = removelast (firstn (S n) l).
Proof. intros A n l H. rewrite removelast_firstn by exact H. reflexivity. Qed.
Lemma map_removelast : forall {A B} (f : A -> B) l, map f (removelast l) = removelast (map f l).
Proof. intros A B f l. induction l as [|x [|y l] IH]; [reflexivity|reflexivity|]. cbn [map removelast] in *. f_equal. exact IH. Qed.

Lemma pop_ok : forall s, good_stack s -> 0 < st_size s -> exists s', pop s = Ok s' /\ good_stack s' /\
  st_id s' = st_id s /\ notes_of s' = removelast (notes_of s).
Proof.
  intros s (Hid & Hz & Hl & Hg) Hs. unfold pop. rewrite i32_ok by (unfold int_min, int_max; lia). cbn [bind]. eexists. split; [reflexivity|].
  split; [|split; [reflexivity|]].
  - unfold good_stack. cbn [st_id st_size st_labels]. auto with zarith.
  - unfold notes_of. cbn [st_size st_labels]. rewrite <- map_removelast. f_equal.
    replace (Z.to_nat (st_size s)) with (S (Z.to_nat (st_size s - 1))) by lia. apply firstn_pred. lia.
Qed.

Lemma calls_ok : forall l s open, good_stack s -> (forall n, In (Enter n) l -> good_note n) -> after l (notes_of s) = Some open ->
  if (deepest l (length (notes_of s)) <=? 64)%nat
  then exists s', calls l s = Ok s' /\ good_stack s' /\ st_id s' = st_id s /\ notes_of s' = open
  else calls l s = Abort.
Proof.
  induction l as [|o l IH]; intros s open G Hl E.
  - cbn [after deepest] in *. injection E as <-. pose proof (notes_length s G) as L. pose proof G as (_ & G2 & _).
    destruct (Nat.leb_spec (length (notes_of s)) 64) as [_|B]; [|lia]. exists s. auto.
  - pose proof (notes_length s G) as L. pose proof G as (_ & Hz & _ & _). cbn [after] in E. destruct (after1 o (notes_of s)) as [op|] eqn:E1; [|discriminate].
    cbn [calls]. destruct o as [n|]; cbn [after1] in E1.
    + injection E1 as <-. cbn [deepest call]. destruct (Z.lt_ge_cases (st_size s) 64) as [Hs|Hs].
      * destruct (push_ok n s G (Hl _ (or_introl eq_refl)) Hs) as (s1 & P1 & G1 & I1 & N1). rewrite P1. cbn [bind].
        rewrite <- N1 in E. specialize (IH s1 open G1 (fun x H => Hl x (or_intror H)) E).
        assert (length (notes_of s1) = S (length (notes_of s))) as L1 by (rewrite N1, app_length; cbn [length]; lia). rewrite L1 in IH.
        destruct (Nat.leb_spec (deepest l (S (length (notes_of s)))) 64) as [B|B].
        -- rewrite (proj2 (Nat.leb_le _ 64)) by lia. destruct IH as (s' & C & G' & I & N). exists s'. rewrite C, I, I1. auto.
        -- rewrite (proj2 (Nat.leb_gt _ 64)) by lia. exact IH.
      * rewrite push_full by lia. cbn [bind]. assert (forall k, (k <= deepest l k)%nat) as D by (intros k; destruct l as [|[?|] l]; cbn [deepest]; lia).
        specialize (D (S (length (notes_of s)))). rewrite (proj2 (Nat.leb_gt _ 64)) by lia. reflexivity.
    + cbn [deepest call]. destruct (notes_of s) as [|n0 ns] eqn:EN; [discriminate|]. injection E1 as <-. rewrite <- EN in *.
      assert (0 < st_size s) as Hs by (rewrite EN in L; cbn [length] in L; lia).
      destruct (pop_ok s G Hs) as (s1 & P1 & G1 & I1 & N1). rewrite P1. cbn [bind].
      change (after l (removelast (n0 :: ns)) = Some open) in E. rewrite <- EN, <- N1 in E.
      specialize (IH s1 open G1 (fun x H => Hl x (or_intror H)) E).
      assert (length (notes_of s1) = pred (length (notes_of s))) as L1.
      { rewrite notes_length by exact G1. rewrite L. clear - P1 Hs Hz. unfold pop in P1. rewrite i32_ok in P1 by (unfold int_min, int_max; lia). cbn [bind] in P1. injection P1 as <-. cbn [st_size]. lia. }
      rewrite L1 in IH. destruct (Nat.leb_spec (deepest l (pred (length (notes_of s)))) 64) as [B|B].
      * rewrite (proj2 (Nat.leb_le _ 64)) by lia. destruct IH as (s' & C & G' & I & N). exists s'. rewrite C, I, I1. auto.
      * rewrite (proj2 (Nat.leb_gt _ 64)) by lia. exact IH.
Qed.

(** ** Samples *)
Lemma sample_ok : forall s buf, good_stack s -> st_size s <> 0 -> Z.of_nat (length buf) + buffer_size s <= int_max ->
  exists b, stack_bytes s = Ok b /\ Z.of_nat (length b) = buffer_size s /\ sample s buf = Ok (buf ++ b).
Proof.
  intros s buf G Hs H. destruct (stack_bytes_ok s G) as (b & E & L). exists b. split; [exact E|]. split; [exact L|].
  unfold sample. rewrite (proj2 (Z.eqb_neq _ 0)) by exact Hs. pose proof (Nat2Z.is_nonneg (length b)).
  rewrite wrap_s32_id by (unfold int_min; lia). rewrite i32_ok by (unfold int_min; lia). cbn [bind].
  rewrite Z.eqb_refl. cbn [negb]. rewrite E. reflexivity.
Qed.
Lemma sample_too_long : forall s buf, good_stack s -> st_size s <> 0 -> Z.of_nat (length buf) <= int_max -> int_max < Z.of_nat (length buf) + buffer_size s ->
  sample s buf = UB.
Proof.
  intros s buf G Hs H H'. unfold sample. rewrite (proj2 (Z.eqb_neq _ 0)) by exact Hs.
  rewrite wrap_s32_id by (unfold int_min, int_max in *; lia). rewrite i32_ub by lia. reflexivity.
Qed.

Lemma busy_size : forall s, good_stack s -> busy (snapshot_of s) = negb (st_size s =? 0).
Proof.
  intros s G. pose proof (notes_length s G) as L. destruct G as (_ & G & _). unfold busy, snapshot_of. cbn [snd].
  destruct (notes_of s), (Z.eqb_spec (st_size s) 0); cbn [length negb] in *; try reflexivity; lia.
Qed.
Lemma size_of_snapshot : forall s, good_stack s -> 8 + 32 * Z.of_nat (length (snd (snapshot_of s))) = buffer_size s.
Proof. intros s G. cbn [snapshot_of snd]. rewrite notes_length, buffer_size_ok by (try exact G; apply G). destruct G as (_ & G & _). lia. Qed.

Lemma bytes_needed_nonneg : forall l, 0 <= bytes_needed l.
Proof. induction l; cbn [bytes_needed fold_right]; [lia|]. fold (bytes_needed l). lia. Qed.

Lemma samples_ok : forall l buf, Forall good_stack l -> Z.of_nat (length buf) <= int_max ->
  let taken := filter busy (map snapshot_of l) in
  if Z.of_nat (length buf) + bytes_needed taken <=? int_max
  then exists b, samples l buf = Ok (buf ++ b) /\ Z.of_nat (length b) = bytes_needed taken /\ (forall fresh, reads fresh b taken)
  else samples l buf = UB.
Proof.
  induction l as [|s l IH]; intros buf H Hb; cbn [map filter samples]; cbv zeta.
  - cbn [bytes_needed fold_right]. rewrite (proj2 (Z.leb_le _ _)) by lia. exists []. rewrite app_nil_r. repeat split. intros; constructor.
  - inversion_clear H as [|? ? Hs H']. rewrite busy_size by exact Hs. destruct (Z.eqb_spec (st_size s) 0) as [E|E]; cbn [negb].
    + unfold sample. rewrite E, Z.eqb_refl. cbn [bind]. apply IH; assumption.
    + cbn [bytes_needed fold_right]. fold (bytes_needed (filter busy (map snapshot_of l))). rewrite size_of_snapshot by exact Hs.
      set (taken := filter busy (map snapshot_of l)) in *. pose proof (bytes_needed_nonneg taken) as Hn.
      destruct (Z.le_gt_cases (Z.of_nat (length buf) + buffer_size s) int_max) as [F|F].
      * destruct (sample_ok s buf Hs E F) as (b & Eb & Lb & Es). rewrite Es. cbn [bind].
        assert (Z.of_nat (length (buf ++ b)) = Z.of_nat (length buf) + buffer_size s) as La by (rewrite app_length, Nat2Z.inj_add, Lb; reflexivity).
        specialize (IH (buf ++ b) H'). rewrite La in IH. specialize (IH F). cbv zeta in IH. fold taken in IH.
        destruct (Z.leb_spec (Z.of_nat (length buf) + buffer_size s + bytes_needed taken) int_max) as [B|B].
        -- rewrite (proj2 (Z.leb_le _ _)) by lia. destruct IH as (b' & S & L' & R). exists (b ++ b'). rewrite app_assoc. split; [exact S|].
           split; [rewrite app_length; lia|]. intros fresh.
           destruct (read_back fresh s b' b Hs Eb) as (s' & Rd & I & Sz & Lab).
           assert (snapshot_of s' = snapshot_of s) as Sn by (unfold snapshot_of; rewrite I, (notes_of_read s s' fresh Hs Sz Lab); reflexivity).
           assert (buffer_size s' = buffer_size s) as Bs by (unfold buffer_size; rewrite Sz; reflexivity).
           rewrite <- Sn. apply reads_cons; [exact Rd| |].
           ++ rewrite Bs, app_length, <- Lb. destruct Hs as (_ & Hs & _). rewrite buffer_size_ok in Lb by exact Hs. lia.
           ++ rewrite Bs, <- Lb, Nat2Z.id, (skipn_exact (length b)) by reflexivity. apply R.
        -- rewrite (proj2 (Z.leb_gt _ _)) by lia. exact IH.
      * rewrite sample_too_long by assumption. cbn [bind]. rewrite (proj2 (Z.leb_gt _ _)) by lia. reflexivity.
Qed.
