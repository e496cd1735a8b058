(** What the proofs about the loops of Kernel8bit.v need from the instruction sequences. *)
From Coq Require Import ZArith List Bool Lia.
From Verif Require Import Base SidePair Mat Scalars IntOps MulParams Simd SimdRequant SimdFacts RequantFacts Kernel8bit.
Import ListNotations.
Open Scope Z_scope.

Definition L4 (l : list Z) : vec := of_lanes 4 l.
Definition in_bits (w z : Z) : Prop := - 2 ^ (w - 1) <= z < 2 ^ (w - 1).
(** Four terms of the product of column i of [l] and column j of [r], depth 4. *)
Definition dot4 (l : list Z) (i : nat) (r : list Z) (j : nat) : Z :=
  nth (4 * i) l 0 * nth (4 * j) r 0 + nth (4 * i + 1) l 0 * nth (4 * j + 1) r 0 +
  (nth (4 * i + 2) l 0 * nth (4 * j + 2) r 0 + nth (4 * i + 3) l 0 * nth (4 * j + 3) r 0).
Definition step_lane (l r : list Z) (j i : nat) (a : Z) : Z := a + dot4 l i r j.
Definition dst_type (t : ity) : Prop := t = u8 \/ t = s8 \/ t = s16 \/ t = s32.
(** The sizes of RHS scalars a kernel knows. *)
Definition rhs_size_ok (wide : bool) (size : Z) : Prop := size = 1 \/ (wide = true /\ size = 2).

Record isa_ok (v : isa) (wide : bool) : Prop := {
  ok_n : v_n v = 8 \/ v_n v = 16;
  ok_align : v_align v = 1 \/ v_align v = 32;
  ok_add : forall a b, length a = v_nat v -> length b = v_nat v -> v_add v (L4 a) (L4 b) = L4 (map2 Z.add a b);
  ok_sub : forall a b, length a = v_nat v -> length b = v_nat v -> v_sub v (L4 a) (L4 b) = L4 (map2 Z.sub a b);
  ok_mullo : forall a b, length a = v_nat v -> length b = v_nat v -> v_mullo v (L4 a) (L4 b) = L4 (map2 Z.mul a b);
  ok_min : forall a b, length a = v_nat v -> length b = v_nat v ->
    v_min v (L4 a) (L4 b) = L4 (map2 (fun x y => Z.min (wrap_s 32 x) (wrap_s 32 y)) a b);
  ok_max : forall a b, length a = v_nat v -> length b = v_nat v ->
    v_max v (L4 a) (L4 b) = L4 (map2 (fun x y => Z.max (wrap_s 32 x) (wrap_s 32 y)) a b);
  ok_bias : forall bs j, length bs = v_nat v -> 0 <= j < v_n v ->
    v_bias_col v (L4 bs) j = L4 (repeat (nth (Z.to_nat j) bs 0) (v_nat v));
  ok_step : forall size l r accs, rhs_size_ok wide size ->
    length l = (4 * v_nat v)%nat -> length r = (4 * v_nat v)%nat ->
    Forall (in_bits 8) l -> Forall (in_bits (8 * size)) r ->
    length accs = v_nat v -> Forall (fun a => length a = v_nat v) accs ->
    v_step v size (of_lanes 1 l) (of_lanes (Z.to_nat size) r) (map L4 accs)
    = map L4 (map2 (fun j a => map2 (step_lane l r j) (seq 0 (v_nat v)) a) (seq 0 (v_nat v)) accs);
  ok_load1 : forall size, rhs_size_ok wide size -> 4 <= v_load1 v size <= 4 * v_n v;
  ok_step1 : forall size l r a, rhs_size_ok wide size ->
    length l = (4 * v_nat v)%nat -> length r = Z.to_nat (v_load1 v size) ->
    Forall (in_bits 8) l -> Forall (in_bits (8 * size)) r -> length a = v_nat v ->
    v_step1 v size (of_lanes 1 l) (of_lanes (Z.to_nat size) r) (L4 a)
    = L4 (map2 (step_lane l r 0) (seq 0 (v_nat v)) a);
  ok_requant : forall ms es zp accs, length ms = v_nat v -> length es = v_nat v ->
    Forall is_mult ms -> Forall is_exp es ->
    length accs = v_nat v -> Forall (fun a => length a = v_nat v) accs ->
    v_requant v false (L4 ms) (L4 es) zp (map L4 accs)
    = map L4 (map (fun a => map3 (fun x m e => x86_lane x m e + zp) a ms es) accs);
  ok_requant_col : forall ms es zp accs, length ms = v_nat v -> length es = v_nat v ->
    Forall is_mult ms -> Forall is_exp es ->
    length accs = v_nat v -> Forall (fun a => length a = v_nat v) accs ->
    v_requant v true (L4 ms) (L4 es) zp (map L4 accs)
    = map L4 (map3 (fun a m e => map (fun x => x86_lane x m e + zp) a) accs ms es);
  ok_requant1 : forall ms es zp a, length ms = v_nat v -> length es = v_nat v ->
    Forall is_mult ms -> Forall is_exp es -> length a = v_nat v ->
    v_requant1 v (L4 ms) (L4 es) zp (L4 a) = L4 (map3 (fun x m e => x86_lane x m e + zp) a ms es);
  ok_store_full : forall t xs p b, dst_type t -> length xs = v_nat v ->
    v_store_full v t (L4 xs) p b = write_list (map (it_conv t) xs) p b;
  ok_store : forall t k xs p b, dst_type t -> length xs = v_nat v -> 1 <= k <= v_n v ->
    v_store v t k (L4 xs) p b = write_list (map (it_conv t) (firstn (Z.to_nat k) xs)) p b
}.

(** ** Common lemmas *)

Lemma wrap_u_cong : forall w a b, 0 <= w -> a mod 2 ^ w = b mod 2 ^ w -> wrap_u w a = wrap_u w b.
Proof. intros. exact H0. Qed.

Lemma map2_ext : forall {A B C} (f g : A -> B -> C) a b, (forall x y, f x y = g x y) -> map2 f a b = map2 g a b.
Proof. intros A B C f g a. induction a; intros [|y b] E; cbn [map2]; try reflexivity. rewrite E, (IHa b E). reflexivity. Qed.

Lemma arith_lanes : forall f a b,
  (forall x y, wrap_u 32 (f (wrap_s 32 x) (wrap_s 32 y)) = wrap_u 32 (f x y)) ->
  binop 4 f (L4 a) (L4 b) = L4 (map2 f a b).
Proof.
  intros f a b E. unfold L4. rewrite binop_lanes by lia. rewrite width4. apply of_lanes_ext. rewrite width4, !map_map2.
  apply map2_ext. intros x y. apply E.
Qed.

Lemma wrap_s32_form : forall z, exists k, wrap_s 32 z = z + k * 2 ^ 32.
Proof.
  intros z. unfold wrap_s. exists (- ((z + 2 ^ (32 - 1)) / 2 ^ 32)).
  pose proof (Z.div_mod (z + 2 ^ (32 - 1)) (2 ^ 32) ltac:(discriminate)) as H. revert H.
  generalize ((z + 2 ^ (32 - 1)) mod 2 ^ 32). generalize ((z + 2 ^ (32 - 1)) / 2 ^ 32). intros. lia.
Qed.

Lemma add_cong32 : forall x y, wrap_u 32 (wrap_s 32 x + wrap_s 32 y) = wrap_u 32 (x + y).
Proof.
  intros x y. destruct (wrap_s32_form x) as [k ->], (wrap_s32_form y) as [k' ->]. unfold wrap_u.
  replace (x + k * 2 ^ 32 + (y + k' * 2 ^ 32)) with (x + y + (k + k') * 2 ^ 32) by ring. apply Z.mod_add. discriminate.
Qed.
Lemma sub_cong32 : forall x y, wrap_u 32 (wrap_s 32 x - wrap_s 32 y) = wrap_u 32 (x - y).
Proof.
  intros x y. destruct (wrap_s32_form x) as [k ->], (wrap_s32_form y) as [k' ->]. unfold wrap_u.
  replace (x + k * 2 ^ 32 - (y + k' * 2 ^ 32)) with (x - y + (k - k') * 2 ^ 32) by ring. apply Z.mod_add. discriminate.
Qed.
Lemma mul_cong32 : forall x y, wrap_u 32 (wrap_s 32 x * wrap_s 32 y) = wrap_u 32 (x * y).
Proof.
  intros x y. destruct (wrap_s32_form x) as [k ->], (wrap_s32_form y) as [k' ->]. unfold wrap_u.
  replace ((x + k * 2 ^ 32) * (y + k' * 2 ^ 32)) with (x * y + (x * k' + y * k + k * k' * 2 ^ 32) * 2 ^ 32) by ring.
  apply Z.mod_add. discriminate.
Qed.

Lemma add_L4 : forall a b, add_epi32 (L4 a) (L4 b) = L4 (map2 Z.add a b).
Proof. intros. apply arith_lanes. apply add_cong32. Qed.
Lemma sub_L4 : forall a b, sub_epi32 (L4 a) (L4 b) = L4 (map2 Z.sub a b).
Proof. intros. apply arith_lanes. apply sub_cong32. Qed.
Lemma mullo_L4 : forall a b, mullo_epi32 (L4 a) (L4 b) = L4 (map2 Z.mul a b).
Proof. intros. apply arith_lanes. apply mul_cong32. Qed.
Lemma min_L4 : forall a b, min_epi32 (L4 a) (L4 b) = L4 (map2 (fun x y => Z.min (wrap_s 32 x) (wrap_s 32 y)) a b).
Proof. intros. unfold L4. apply (binop_lanes 4). lia. Qed.
Lemma max_L4 : forall a b, max_epi32 (L4 a) (L4 b) = L4 (map2 (fun x y => Z.max (wrap_s 32 x) (wrap_s 32 y)) a b).
Proof. intros. unfold L4. apply (binop_lanes 4). lia. Qed.

Lemma Forall_in_wrap : forall w l, 0 < w -> Forall (in_bits w) l -> map (wrap_s w) l = l.
Proof.
  intros w l Hw. induction 1; [reflexivity|]. cbn [map]. rewrite IHForall, wrap_s_id by assumption. reflexivity.
Qed.

Lemma cvt8_16 : forall l, Forall (in_bits 8) l -> cvtepi8_epi16 (of_lanes 1 l) = of_lanes 2 l.
Proof.
  intros l H. unfold cvtepi8_epi16. rewrite slanes_of_lanes by lia. change (8 * Z.of_nat 1) with 8.
  rewrite Forall_in_wrap by (try assumption; lia). reflexivity.
Qed.

Lemma in8_in16 : forall l, Forall (in_bits 8) l -> Forall (in_bits 16) l.
Proof.
  intros l H. eapply Forall_impl; [|exact H]. unfold in_bits. intros z. cbn [Z.sub]. intros Hz.
  change (2 ^ (8 - 1)) with 128 in Hz. change (2 ^ (16 - 1)) with 32768. lia.
Qed.

Lemma madd_lanes : forall a b, Forall (in_bits 16) a -> Forall (in_bits 16) b ->
  madd_epi16 (of_lanes 2 a) (of_lanes 2 b) = L4 (pair_sums (map2 Z.mul a b)).
Proof.
  intros a b Ha Hb. unfold madd_epi16. rewrite !slanes_of_lanes by lia. change (8 * Z.of_nat 2) with 16.
  rewrite !Forall_in_wrap by (try assumption; lia). reflexivity.
Qed.

(** ** Stores *)
Lemma write_list_app : forall a b off m,
  write_list (a ++ b) off m = (m <- write_list a off m ;; write_list b (off + Z.of_nat (length a)) m).
Proof.
  induction a as [|x a IH]; intros b off m.
  - cbn [app write_list length bind]. f_equal. lia.
  - cbn [app write_list]. destruct (bwrite m off x); cbn [bind]; try reflexivity. rewrite IH.
    cbn [length]. replace (off + 1 + Z.of_nat (length a)) with (off + Z.of_nat (S (length a))) by lia. reflexivity.
Qed.

Definition narrow_bytes (t : ity) : nat := Z.to_nat (it_size t).
Lemma it_conv_bytes : forall t x, dst_type t -> it_conv t (of_bytes (bytes_of (narrow_bytes t) x)) = it_conv t x.
Proof.
  intros t x H. rewrite of_bytes_of, pow256.
  destruct H as [-> | [-> | [-> | ->]]]; unfold it_conv; cbn [it_signed it_bits u8 s8 s16 s32];
    cbv [narrow_bytes it_size it_bits u8 s8 s16 s32]; change (Z.to_nat (8 / 8)) with 1%nat; change (Z.to_nat (16 / 8)) with 2%nat; change (Z.to_nat (32 / 8)) with 4%nat;
    cbn [Z.of_nat Pos.of_succ_nat Pos.succ Z.mul Pos.mul].
  - unfold wrap_u. apply Z.mod_mod. discriminate.
  - apply wrap_s_mod. lia.
  - apply wrap_s_mod. lia.
  - apply wrap_s_mod. lia.
Qed.

Lemma store_lanes : forall t xs p b, dst_type t ->
  store_bytes t (of_lanes (narrow_bytes t) xs) p b = write_list (map (it_conv t) xs) p b.
Proof.
  intros t xs p b H. unfold store_bytes. change (Z.to_nat (it_size t)) with (narrow_bytes t).
  rewrite chunks_of_lanes by (destruct H as [-> | [-> | [-> | ->]]]; cbv; lia). rewrite map_map. f_equal. apply map_ext.
  intros x. apply it_conv_bytes. exact H.
Qed.
