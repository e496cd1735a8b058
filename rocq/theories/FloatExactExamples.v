(** A concrete exact multiplication of floats, and one just beyond the bound. *)
From Coq Require Import ZArith List Bool Lia SpecFloat.
From Verif Require Import Base SidePair SpecArith SpecMatrix Mat Scalars MulParams Kernel FloatOps TrMul TrMulRun SpecRound SpecMul ExampleMul X86Mul
  FloatX86Mul SpecFloatX86 FloatX86Examples SpecFloatExact FloatExact.
Import ListNotations.
Open Scope Z_scope.

(** [z * 2^e] as a float. *)
Definition scaled_float (z e : Z) : spec_float := binary_normalize 24 128 z e false.
Lemma scaled_number : forall z e, Z.abs z <= 2 ^ 24 -> -149 <= e <= 103 -> is_number 24 128 (scaled_float z e) z e /\ scaled_float z e <> S754_zero true.
Proof.
  intros z e Hz He. destruct (Z.eq_dec z 0) as [->|N]; [split; [split; reflexivity|discriminate]|].
  assert (I : is_number 24 128 (scaled_float z e) z e) by (apply normalize_exact; [lia|apply same_number_refl|exact N|exact Hz|unfold emin; lia|lia]).
  split; [exact I|]. intros E. apply N. apply (number_nonzero _ _ _ _ _ _ I E).
Qed.

(** Quarters times eighths, biases in 1/32. *)
Definition qx_a (i k : Z) : Z := 1000 * i - 777 * k + 5.
Definition qx_b (k j : Z) : Z := 30 * k - 41 * j + 7.
Definition qx_c (i j : Z) : Z := 12345 * j - 999.
Definition qx_l (o : order) := fx_l o (fun i k => scaled_float (qx_a i k) (-2)).
Definition qx_r (o : order) := fx_r o (fun k j => scaled_float (qx_b k j) (-3)).
Definition qx_mp := fx_mp (Some (fun j => scaled_float (qx_c 0 j) (-5))).

Lemma qx_scaled : forall ol or od lo hi, scaled_integers (qx_l ol) (qx_r or) (fx_dst od) (qx_mp lo hi) qx_a qx_b qx_c (-2) (-3).
Proof.
  intros ol or od lo hi. constructor.
  - intros i k (Hi & Hk). cbn in Hi, Hk. unfold qx_l, fx_l. rewrite fx_entry by lia. apply scaled_number; unfold qx_a; lia.
  - intros k j (Hk & Hj). cbn in Hk, Hj. unfold qx_r, fx_r. rewrite fx_entry by lia. apply scaled_number; unfold qx_b; lia.
  - intros i j (Hi & Hj). cbn in Hi, Hj. apply (scaled_number (qx_c 0 j) (-5)); unfold qx_c; lia.
  - lia.
Qed.

Lemma qx_small : forall ol or od, small_sums (qx_l ol) (qx_r or) (fx_dst od) qx_a qx_b qx_c.
Proof.
  intros ol or od i j (Hi & Hj). cbn in Hi, Hj.
  assert (A : forallb (fun i => forallb (fun j => sum_of (fun k => Z.abs (qx_a i k * qx_b k j)) 7 + Z.abs (qx_c i j) <=? 2 ^ 24) (zrange 0 5)) (zrange 0 19) = true) by (vm_compute; reflexivity).
  rewrite forallb_forall in A. specialize (A i ltac:(apply zrange_In; lia)). cbv beta in A. rewrite forallb_forall in A. specialize (A j ltac:(apply zrange_In; lia)). cbv beta in A.
  change (ml_rows (m_layout (qx_r or))) with 7. lia.
Qed.

(** The bound cannot be larger: 4096 * 4096 + 1 * 1. *)
Definition over_a (i k : Z) : Z := if k =? 0 then 4096 else if k =? 1 then 1 else 0.
Definition over_l := fx_l RowMajor (fun i k => scaled_float (over_a i k) 0).
Definition over_r := fx_r ColMajor (fun k j => scaled_float (over_a j k) 0).
Lemma bound_is_tight : forall p, exists cf l r dst mp a b c, float_vector_mul cf p l r dst mp /\
  mp_min mp = S754_infinity true /\ mp_max mp = S754_infinity false /\ scaled_integers l r dst mp a b c 0 0 /\
  (forall i j, in_matrix (m_layout dst) i j -> sum_of (fun k => Z.abs (a i k * b k j)) (ml_rows (m_layout r)) + Z.abs (c i j) = 2 ^ 24 + 1) /\
  exists g sched x, mul_float_x86 cf p g sched l r dst mp = Ok (Some x) /\ in_matrix (m_layout dst) 0 0 /\
  is_number 24 128 (entry x 0 0) (2 ^ 24) 0 /\ integer_entry r a b c 0 0 = 2 ^ 24 + 1.
Proof.
  intros p. exists (ex_config 1), over_l, over_r, (fx_dst ColMajor), (fx_mp None minus_inf inf), over_a, (fun k j => over_a j k), (fun _ _ => 0).
  split; [apply fx_vector; unfold good_threads; lia|]. split; [reflexivity|]. split; [reflexivity|]. split.
  { constructor.
    - intros i k (Hi & Hk). cbn in Hi, Hk. unfold over_l, fx_l. rewrite fx_entry by lia. apply scaled_number; unfold over_a; destruct (k =? 0), (k =? 1); lia.
    - intros k j (Hk & Hj). cbn in Hk, Hj. unfold over_r, fx_r. rewrite fx_entry by lia. apply scaled_number; unfold over_a; destruct (k =? 0), (k =? 1); lia.
    - intros i j _. split; [split; reflexivity|discriminate].
    - lia. }
  split; [intros i j _; reflexivity|].
  exists (ex_garbage S754_nan), one_thread, (fx_run p RowMajor ColMajor ColMajor (fun i k => scaled_float (over_a i k) 0) (fun k j => scaled_float (over_a j k) 0) (fx_mp None minus_inf inf)).
  split; [destruct p; vm_compute; reflexivity|]. split; [split; cbn; lia|]. split; [|reflexivity].
  destruct p; (split; vm_compute; reflexivity).
Qed.
