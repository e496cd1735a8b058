(** Common vocabulary of the model: outcomes of C++ computations, machine
    integers, checked arithmetic.  Nothing here models a particular function of
    ruy; it is the semantics given to the C++ operators used by the code. *)
From Coq Require Export ZArith List Bool Lia.
From Coq Require Export ZifyBool ZifyNat ZifyN.
Export ListNotations.
#[export] Set Warnings "-notation-overridden".

(** Outcome of a C++ computation.  [UB] is undefined behaviour (signed overflow,
    out-of-range shift, clz(0), null access).  [Abort] is a failing RUY_CHECK or,
    in debug builds, RUY_DCHECK (check_macros.h:110-135). *)
Inductive res (A : Type) : Type :=
| Ok (a : A)
| UB
| Abort.
Arguments Ok {A} a.
Arguments UB {A}.
Arguments Abort {A}.

Definition bind {A B} (x : res A) (f : A -> res B) : res B :=
  match x with Ok a => f a | UB => UB | Abort => Abort end.

Declare Scope res_scope.
Delimit Scope res_scope with res.
Notation "x <- e ;; k" := (bind e (fun x => k))
  (at level 61, e at next level, right associativity) : res_scope.
Notation "' p <- e ;; k" := (bind e (fun p => k))
  (at level 61, p pattern, e at next level, right associativity) : res_scope.
Notation "e ;;; k" := (bind e (fun _ => k))
  (at level 61, right associativity) : res_scope.
Open Scope res_scope.
Open Scope Z_scope.

Definition is_ok {A} (x : res A) : bool :=
  match x with Ok _ => true | _ => false end.

(** RUY_CHECK (check_macros.h): aborts in every build. *)
Definition rcheck (b : bool) : res unit := if b then Ok tt else Abort.

(** RUY_DCHECK (check_macros.h): aborts in debug builds ([dbg = true]), is
    compiled out in release builds ([dbg = false]). *)
Definition dcheck (dbg b : bool) : res unit :=
  if dbg && negb b then Abort else Ok tt.

(** Signed machine integers of [w] bits, two's complement. *)
Definition smin (w : Z) : Z := - 2 ^ (w - 1).
Definition smax (w : Z) : Z := 2 ^ (w - 1) - 1.
Definition in_s (w z : Z) : bool := (smin w <=? z) && (z <=? smax w).

Definition int_min : Z := -2147483648.
Definition int_max : Z := 2147483647.
Definition in_i32 (z : Z) : bool := (int_min <=? z) && (z <=? int_max).

(** Result of a signed 32-bit C++ operation whose mathematical value is [z]:
    overflow is undefined behaviour. *)
Definition i32 (z : Z) : res Z := if in_i32 z then Ok z else UB.

Definition in_i64 (z : Z) : bool :=
  (-9223372036854775808 <=? z) && (z <=? 9223372036854775807).
Definition i64 (z : Z) : res Z := if in_i64 z then Ok z else UB.

(** Conversion to an unsigned type of [w] bits: modular, never undefined. *)
Definition wrap_u (w z : Z) : Z := z mod 2 ^ w.

(** Conversion to a signed type of [w] bits: modular (implementation-defined
    before C++20, modular on every compiler ruy supports). *)
Definition wrap_s (w z : Z) : Z := (z + 2 ^ (w - 1)) mod 2 ^ w - 2 ^ (w - 1).

(** Left shift of a signed 32-bit int: [v << s]. Undefined if the count is
    out of range, the value negative or the result not representable. *)
Definition shl32 (v s : Z) : res Z :=
  if (0 <=? s) && (s <? 32) && (0 <=? v) then i32 (v * 2 ^ s) else UB.

(** Right shift of a signed 32-bit int, arithmetic. *)
Definition shr32 (v s : Z) : res Z :=
  if (0 <=? s) && (s <? 32) then Ok (v / 2 ^ s) else UB.

(** [for (i = start; i < start + count; i++) body]: the loops of the code with
    structural recursion on the (already evaluated) trip count. *)
Fixpoint forz {S} (count : nat) (i : Z) (body : Z -> S -> S) (s : S) : S :=
  match count with
  | O => s
  | Datatypes.S n => forz n (i + 1) body (body i s)
  end.

(** The list of consecutive integers [start, start+1, ...], [n] of them. *)
Fixpoint zseq (start : Z) (n : nat) : list Z :=
  match n with O => [] | S k => start :: zseq (start + 1) k end.

(** [zrange a b]: the integers [i] with [a <= i < b], in increasing order. *)
Definition zrange (a b : Z) : list Z := zseq a (Z.to_nat (b - a)).

Lemma zseq_In : forall n a i, In i (zseq a n) <-> a <= i < a + Z.of_nat n.
Proof.
  induction n as [|n IH]; intros a i; cbn [zseq In].
  - lia.
  - rewrite IH. lia.
Qed.

Lemma zrange_In : forall a b i, In i (zrange a b) <-> a <= i < b.
Proof. intros. unfold zrange. rewrite zseq_In. lia. Qed.

Lemma zseq_length : forall n a, length (zseq a n) = n.
Proof. induction n; intros; cbn; auto. Qed.

Lemma zseq_NoDup : forall n a, NoDup (zseq a n).
Proof.
  induction n as [|n IH]; intros a; cbn; constructor; auto.
  rewrite zseq_In. lia.
Qed.

Lemma zrange_NoDup : forall a b, NoDup (zrange a b).
Proof. intros; apply zseq_NoDup. Qed.

Lemma zseq_app : forall n m a, zseq a (n + m) = zseq a n ++ zseq (a + Z.of_nat n) m.
Proof.
  induction n as [|n IH]; intros m a.
  - cbn [zseq plus app]. f_equal. lia.
  - cbn [zseq plus app]. rewrite IH. do 3 f_equal. lia.
Qed.

Lemma zrange_split : forall a b c, a <= b <= c -> zrange a c = zrange a b ++ zrange b c.
Proof.
  intros. unfold zrange.
  replace (Z.to_nat (c - a)) with (Z.to_nat (b - a) + Z.to_nat (c - b))%nat by lia.
  rewrite zseq_app. do 2 f_equal. lia.
Qed.

Lemma zrange_nil : forall a b, b <= a -> zrange a b = [].
Proof. intros. unfold zrange. replace (Z.to_nat (b - a)) with 0%nat by lia. reflexivity. Qed.

Lemma zrange_cons : forall a b, a < b -> zrange a b = a :: zrange (a + 1) b.
Proof.
  intros. unfold zrange.
  replace (Z.to_nat (b - a)) with (S (Z.to_nat (b - (a + 1)))) by lia. reflexivity.
Qed.

Lemma zrange_snoc : forall a b, a <= b -> zrange a (b + 1) = zrange a b ++ [b].
Proof.
  intros. rewrite (zrange_split a b (b + 1)) by lia. f_equal.
  rewrite zrange_cons by lia. rewrite zrange_nil by lia. reflexivity.
Qed.

(** Facts about outcomes. *)
Lemma bind_ok : forall {A B} (x : res A) (f : A -> res B) b,
  bind x f = Ok b -> exists a, x = Ok a /\ f a = Ok b.
Proof. intros A B [a| |] f b H; cbn in H; try discriminate. eauto. Qed.

Lemma i32_ok : forall z, int_min <= z <= int_max -> i32 z = Ok z.
Proof. intros. unfold i32, in_i32. replace (_ && _) with true by lia. reflexivity. Qed.

Lemma i32_inv : forall z y, i32 z = Ok y -> y = z /\ int_min <= z <= int_max.
Proof.
  intros z y. unfold i32, in_i32. destruct (_ && _) eqn:E; intros H; inversion H; subst. lia.
Qed.

Lemma i32_ub : forall z, ~ (int_min <= z <= int_max) -> i32 z = UB.
Proof. intros. unfold i32, in_i32. replace (_ && _) with false by lia. reflexivity. Qed.

Lemma i64_ok : forall z, -9223372036854775808 <= z <= 9223372036854775807 -> i64 z = Ok z.
Proof. intros. unfold i64, in_i64. replace (_ && _) with true by lia. reflexivity. Qed.

Lemma dcheck_ok : forall dbg b, b = true -> dcheck dbg b = Ok tt.
Proof. intros [] b ->; reflexivity. Qed.

Lemma shl32_ok : forall v s, 0 <= s < 32 -> 0 <= v -> v * 2 ^ s <= int_max ->
  shl32 v s = Ok (v * 2 ^ s).
Proof.
  intros. unfold shl32. replace (_ && _) with true by lia.
  apply i32_ok. assert (0 < 2 ^ s) by (apply Z.pow_pos_nonneg; lia).
  unfold int_min in *. nia.
Qed.

Lemma shr32_ok : forall v s, 0 <= s < 32 -> shr32 v s = Ok (v / 2 ^ s).
Proof. intros. unfold shr32. replace (_ && _) with true by lia. reflexivity. Qed.

Lemma wrap_s_id : forall w z, 0 < w -> smin w <= z <= smax w -> wrap_s w z = z.
Proof.
  intros w z Hw [H1 H2]. unfold wrap_s, smin, smax in *.
  assert (E : 2 ^ w = 2 * 2 ^ (w - 1)).
  { rewrite <- Z.pow_succ_r by lia. f_equal. lia. }
  assert (0 < 2 ^ (w - 1)) by (apply Z.pow_pos_nonneg; lia).
  rewrite Z.mod_small by lia. lia.
Qed.

Lemma wrap_s_range : forall w z, 0 < w -> smin w <= wrap_s w z <= smax w.
Proof.
  intros w z Hw. unfold wrap_s, smin, smax.
  assert (E : 2 ^ w = 2 * 2 ^ (w - 1)).
  { rewrite <- Z.pow_succ_r by lia. f_equal. lia. }
  assert (0 < 2 ^ (w - 1)) by (apply Z.pow_pos_nonneg; lia).
  pose proof (Z.mod_pos_bound (z + 2 ^ (w - 1)) (2 ^ w)). lia.
Qed.

Lemma wrap_s_mod : forall w z, 0 < w -> (wrap_s w z) mod 2 ^ w = z mod 2 ^ w.
Proof.
  intros w z Hw. unfold wrap_s.
  assert (0 < 2 ^ w) by (apply Z.pow_pos_nonneg; lia).
  rewrite Zminus_mod_idemp_l. f_equal. lia.
Qed.

Lemma wrap_s_congr : forall w a b, 0 < w -> a mod 2 ^ w = b mod 2 ^ w -> wrap_s w a = wrap_s w b.
Proof.
  intros w a b Hw E. unfold wrap_s. f_equal.
  rewrite <- (Zplus_mod_idemp_l a), <- (Zplus_mod_idemp_l b), E. reflexivity.
Qed.

Lemma wrap_s_eq_iff : forall w a b, 0 < w -> (wrap_s w a = wrap_s w b <-> a mod 2 ^ w = b mod 2 ^ w).
Proof.
  intros w a b Hw; split; intros E.
  - rewrite <- (wrap_s_mod w a), <- (wrap_s_mod w b) by lia. congruence.
  - apply wrap_s_congr; auto.
Qed.
