(** A concrete multiplication of floats that is not exact. *)
From Coq Require Import ZArith List Bool Lia SpecFloat.
From Verif Require Import Base SidePair SpecArith SpecMatrix Mat Scalars MulParams Kernel FloatOps TrMul TrMulRun SpecRound SpecMul ExampleMul X86Mul
  FloatX86Mul SpecFloatX86 FloatX86Examples SpecFloatExact FloatExact FloatExactExamples SpecFloatError FloatError.
Import ListNotations.
Open Scope Z_scope.

(** Operands of 24 bits. *)
Definition ix_a (i k : Z) : Z := 16777215 - 1000 * i - 777 * k.
Definition ix_b (k j : Z) : Z := if Z.even k then 16000001 + 30 * k - 41 * j else -15987654 + 17 * k.
Definition ix_c (i j : Z) : Z := 12345677 + j.
Definition ix_l (o : order) := fx_l o (fun i k => scaled_float (ix_a i k) (-12)).
Definition ix_r (o : order) := fx_r o (fun k j => scaled_float (ix_b k j) (-13)).
Definition ix_mp := fx_mp (Some (fun j => scaled_float (ix_c 0 j) (-3))).
(** In units of 2^-149. *)
Definition ix_au (i k : Z) : Z := ix_a i k * 2 ^ 137.
Definition ix_bu (k j : Z) : Z := ix_b k j * 2 ^ 136.
Definition ix_cu (i j : Z) : Z := ix_c i j * 2 ^ 146.

Lemma scaled_units : forall z e, Z.abs z <= 2 ^ 24 -> -149 <= e <= 103 -> is_number 24 128 (scaled_float z e) (z * 2 ^ (e - -149)) (-149).
Proof. intros z e Hz He. apply number_at; [apply scaled_number; assumption|lia]. Qed.

Lemma ix_finite : forall ol or od lo hi, finite_values (ix_l ol) (ix_r or) (fx_dst od) (ix_mp lo hi) ix_au ix_bu ix_cu.
Proof.
  intros ol or od lo hi. constructor.
  - intros i k (Hi & Hk). cbn in Hi, Hk. unfold ix_l, fx_l. rewrite fx_entry by lia. apply (scaled_units (ix_a i k) (-12)); unfold ix_a; lia.
  - intros k j (Hk & Hj). cbn in Hk, Hj. unfold ix_r, fx_r. rewrite fx_entry by lia. apply (scaled_units (ix_b k j) (-13)); unfold ix_b; destruct (Z.even k); lia.
  - intros i j (Hi & Hj). cbn in Hi, Hj. apply (scaled_units (ix_c 0 j) (-3)); unfold ix_c; lia.
Qed.

Lemma ix_range : forall p or od i j, in_matrix (m_layout (fx_dst od)) i j ->
  no_overflow (roundings p (ml_rows (m_layout (ix_r or)))) (magnitude (ix_r or) ix_au ix_bu ix_cu i j) /\
  no_overflow (ml_rows (m_layout (ix_r or)) + 2) (magnitude (ix_r or) ix_au ix_bu ix_cu i j) /\
  magnitude (ix_r or) ix_au ix_bu ix_cu i j < 2 ^ 425.
Proof.
  intros p or od i j (Hi & Hj). cbn in Hi, Hj.
  assert (A : forallb (fun i => forallb (fun j => 0 <=? 2 ^ 350 - magnitude (ix_r or) ix_au ix_bu ix_cu i j) (zrange 0 5)) (zrange 0 19) = true) by (destruct or; vm_compute; reflexivity).
  rewrite forallb_forall in A. specialize (A i ltac:(apply zrange_In; lia)). cbv beta in A. rewrite forallb_forall in A. specialize (A j ltac:(apply zrange_In; lia)). cbv beta in A.
  apply Z.leb_le in A. change (ml_rows (m_layout (ix_r or))) with 7. set (w := magnitude _ _ _ _ _ _) in *. clearbody w.
  assert (O : no_overflow 9 w) by (unfold no_overflow; apply Z.le_lt_trans with ((2 ^ 24 + 1) ^ 9 * 2 ^ 350); [apply Z.mul_le_mono_nonneg_l; lia|reflexivity]).
  destruct (Z_le_gt_dec 0 w) as [P|P].
  - split; [apply (no_overflow_mono _ 9 _ w); [unfold roundings; destruct p; lia|lia|exact O]|]. split; [exact O|lia].
  - assert (forall n, 0 <= n -> no_overflow n w).
    { intros n Hn. unfold no_overflow. assert (P1 : 0 < (2 ^ 24 + 1) ^ n) by (apply Z.pow_pos_nonneg; lia). assert (P2 : 0 < (2 ^ 24) ^ n) by (apply Z.pow_pos_nonneg; lia).
      set (u := (2 ^ 24 + 1) ^ n) in *. set (v := (2 ^ 24) ^ n) in *. clearbody u v. set (m := 2 ^ 426) in *. assert (0 < m) by (unfold m; lia). clearbody m. nia. }
    split; [apply H; unfold roundings; destruct p; lia|]. split; [apply H; lia|lia].
Qed.

(** Cancellation: 1 + 4096 * 4096 - 4096 * 4096. *)
Definition can_a (i k : Z) : Z := if k <? 2 then 4096 else 0.
Definition can_b (k j : Z) : Z := if k =? 0 then 4096 else if k =? 1 then -4096 else 0.
Definition can_l := fx_l RowMajor (fun i k => scaled_float (can_a i k) 0).
Definition can_r := fx_r ColMajor (fun k j => scaled_float (can_b k j) 0).
Definition can_mp := fx_mp (Some (fun j => scaled_float 1 0)) minus_inf inf.
Lemma cancellation : forall p, exists cf l r dst mp a b c, float_vector_mul cf p l r dst mp /\
  mp_min mp = S754_infinity true /\ mp_max mp = S754_infinity false /\ finite_values l r dst mp a b c /\
  exists g sched x, mul_float_x86 cf p g sched l r dst mp = Ok (Some x) /\ in_matrix (m_layout dst) 0 0 /\
  entry x 0 0 = S754_zero false /\ exact_entry r a b c 0 0 = 2 ^ 298.
Proof.
  intros p. exists (ex_config 1), can_l, can_r, (fx_dst ColMajor), can_mp, (fun i k => can_a i k * 2 ^ 149), (fun k j => can_b k j * 2 ^ 149), (fun _ _ => 1 * 2 ^ 149).
  split; [apply fx_vector; unfold good_threads; lia|]. split; [reflexivity|]. split; [reflexivity|]. split.
  { constructor.
    - intros i k (Hi & Hk). cbn in Hi, Hk. unfold can_l, fx_l. rewrite fx_entry by lia. apply (scaled_units (can_a i k) 0); [unfold can_a; destruct (k <? 2); lia|lia].
    - intros k j (Hk & Hj). cbn in Hk, Hj. unfold can_r, fx_r. rewrite fx_entry by lia. apply (scaled_units (can_b k j) 0); [unfold can_b; destruct (k =? 0), (k =? 1); lia|lia].
    - intros i j _. apply (scaled_units 1 0); lia. }
  exists (ex_garbage S754_nan), one_thread, (fx_run p RowMajor ColMajor ColMajor (fun i k => scaled_float (can_a i k) 0) (fun k j => scaled_float (can_b k j) 0) can_mp).
  split; [destruct p; vm_compute; reflexivity|]. split; [split; cbn; lia|]. split; [destruct p; vm_compute; reflexivity|reflexivity].
Qed.
