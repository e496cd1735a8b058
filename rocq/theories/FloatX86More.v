(** Consequences of what float multiplications on the x86 paths compute. *)
From Coq Require Import ZArith List Bool Lia SpecFloat.
From Verif Require Import Base SidePair SizeUtil Mat MatFacts Scalars FloatOps FloatFacts Pack SpecArith SpecMatrix SpecMul PackFacts PackProps MulParams Kernel KernelFacts
  TrMul TrMulRun ChannelFacts FrontEndFacts MulFacts MulProps FloatMulProps X86Mul SimdFloat FloatX86Mul SpecFloatX86 FloatX86Props.
Import ListNotations.
Open Scope Z_scope.

Lemma fadd_comm : forall prec emax x y, fadd prec emax x y = fadd prec emax y x.
Proof.
  intros prec emax x y. unfold fadd, SFadd.
  destruct x as [[]|[]| |[] mx ex], y as [[]|[]| |[] my ey]; try reflexivity; rewrite (Z.min_comm ex ey), Z.add_comm; reflexivity.
Qed.

Lemma valid_acc_ok : forall x, valid_binary 24 128 x = true -> x <> S754_zero true -> acc_ok 24 128 x.
Proof.
  intros [[]|s| |s m e] V N; try exact I; try reflexivity; [congruence|]. cbn [acc_ok]. cbn [valid_binary] in V. unfold bounded, canonical_mantissa in V.
  apply andb_true_iff in V. destruct V as (V & _). apply Zeq_bool_eq in V. unfold fexp in V. lia.
Qed.

(** On kAvx the accumulator is never -0, so the sign of a zero product does not matter. *)
Lemma read_is_pack : forall o x, vector_read PathAvx o x = x \/ vector_read PathAvx o x = pack_float 24 128 x.
Proof. intros o x. destruct o; [left; reflexivity|]. right. unfold pack_float. rewrite sub_zero. destruct x as [[]|[]| |[] m e]; reflexivity. Qed.

Lemma read_product : forall o o' x y acc, acc_ok 24 128 acc ->
  fadd 24 128 acc (fmul 24 128 (vector_read PathAvx o x) (vector_read PathAvx o' y)) = fadd 24 128 acc (fmul 24 128 x y).
Proof.
  intros o o' x y acc A.
  assert (Z0 : forall s, fadd 24 128 acc (S754_zero s) = acc) by (intros s; apply add_zero_ok; exact A).
  destruct (read_is_pack o x) as [-> | ->], (read_is_pack o' y) as [-> | ->]; try reflexivity; try (apply pack_product; exact A);
    unfold pack_float; rewrite sub_zero; destruct x as [[]|[]| |[] mx ex]; destruct y as [[]|[]| |[] my ey]; try reflexivity;
    cbn [fadd SFadd fzero fmul SFmul Bool.eqb xorb]; rewrite !Z0; reflexivity.
Qed.

Lemma avx_dot_plain : forall l r s i j, acc_ok 24 128 s -> vector_dot PathAvx l r s i j = plain_dot PathAvx l r s i j /\ acc_ok 24 128 (plain_dot PathAvx l r s i j).
Proof.
  intros l r s i j. unfold vector_dot, plain_dot. revert s. induction (zrange 0 (ml_rows (m_layout r))) as [|k ks IH]; intros s A; cbn [fold_left]; [auto|].
  cbn [vector_step]. fold (fmul 24 128) (fadd 24 128). rewrite !(fadd_comm 24 128 _ s), read_product by exact A.
  apply IH. apply add_acc_ok; [lia|exact A|apply mul_exp_ok].
Qed.

Lemma fma_dot_plain : forall p l r s i j, p <> PathAvx -> vector_dot p l r s i j = plain_dot p l r s i j.
Proof. intros [] l r s i j N; [congruence| |]; unfold vector_dot, plain_dot; reflexivity. Qed.

Lemma plain_same : forall p p' l l' r r' s i j, (p = p' \/ (p <> PathAvx /\ p' <> PathAvx)) -> same_entries l l' -> same_entries r r' -> ml_cols (m_layout l) = ml_rows (m_layout r) ->
  0 <= i < ml_rows (m_layout l) -> 0 <= j < ml_cols (m_layout r) -> plain_dot p l r s i j = plain_dot p' l' r' s i j.
Proof.
  intros p p' l l' r r' s i j P (L1 & L2 & L3 & L4) (R1 & R2 & R3 & R4) Ed Hi Hj. unfold plain_dot. rewrite <- R1.
  assert (H : forall k, In k (zrange 0 (ml_rows (m_layout r))) -> 0 <= k < ml_rows (m_layout r)) by (intros k; apply zrange_In).
  revert s. induction (zrange 0 (ml_rows (m_layout r))) as [|k ks IH]; intros s; cbn [fold_left]; [reflexivity|].
  specialize (H k (or_introl eq_refl)) as Hk. rewrite (L4 i k), (R4 k j) by (split; lia).
  replace (vector_step p' (entry l' i k) (entry r' k j) s) with (vector_step p (entry l' i k) (entry r' k j) s); [apply IH; intros k' I; apply H; right; exact I|].
  destruct P as [-> | (N & N')]; [reflexivity|]. destruct p, p'; congruence || reflexivity.
Qed.

Lemma completed : forall c p l r dst mp, float_vector_mul c p l r dst mp -> forall g sched x, mul_float_x86 c p g sched l r dst mp = Ok (Some x) ->
  float_product p l r mp dst x.
Proof. intros c p l r dst mp C g sched x E. destruct (float_computes c p l r dst mp g C sched) as (out & E' & H). rewrite E in E'. injection E' as <-. apply H. reflexivity. Qed.

Lemma call_shapes : forall c p l r dst mp, float_vector_mul c p l r dst mp ->
  ml_cols (m_layout l) = ml_rows (m_layout r) /\ ml_rows (m_layout dst) = ml_rows (m_layout l) /\ ml_cols (m_layout dst) = ml_cols (m_layout r).
Proof. intros c p l r dst mp C. apply (wc_shapes _ _ _ _ _ _ _ (vc_well_formed _ _ _ _ _ _ _ (fv_call _ _ _ _ _ _ C))). Qed.

(** Paths, configurations and storage do not matter. *)
Lemma float_agree : forall c c' p p' l l' r r' dst dst' mp,
  float_vector_mul c p l r dst mp -> float_vector_mul c' p' l' r' dst' mp ->
  (p <> PathAvx /\ p' <> PathAvx) \/ (p = p' /\ no_negative_zero_bias dst mp) ->
  same_entries l l' -> same_entries r r' ->
  forall g g' sched sched' x y, mul_float_x86 c p g sched l r dst mp = Ok (Some x) -> mul_float_x86 c' p' g' sched' l' r' dst' mp = Ok (Some y) ->
  forall i j, in_matrix (m_layout dst) i j -> entry x i j = entry y i j.
Proof.
  intros c c' p p' l l' r r' dst dst' mp C C' P SL SR g g' sched sched' x y Ex Ey i j I.
  destruct (completed _ _ _ _ _ _ C _ _ _ Ex) as (_ & _ & _ & Hx & _). destruct (completed _ _ _ _ _ _ C' _ _ _ Ey) as (_ & _ & _ & Hy & _).
  destruct (call_shapes _ _ _ _ _ _ C) as (S1 & S2 & S3). destruct (call_shapes _ _ _ _ _ _ C') as (S1' & S2' & S3').
  pose proof SL as (L1 & L2 & _). pose proof SR as (R1 & R2 & _). pose proof I as (Ii & Ij).
  rewrite Hx by exact I. rewrite Hy by (unfold in_matrix; rewrite S2', S3', <- L1, <- R2, <- S2, <- S3; exact I). unfold float_entry. f_equal.
  assert (ED : forall q m n, q <> PathAvx \/ no_negative_zero_bias dst mp -> vector_dot q m n (float_bias mp i j) i j = plain_dot q m n (float_bias mp i j) i j).
  { intros q m n [N | N]; [apply fma_dot_plain; exact N|]. destruct q; [|apply fma_dot_plain; discriminate..].
    destruct (N i j I) as (N1 & N2). apply avx_dot_plain. apply valid_acc_ok; assumption. }
  rewrite !ED by (destruct P as [(N & N') | (N & N')]; auto). apply plain_same; try assumption; try lia.
  destruct P as [N | (N & _)]; auto.
Qed.

(** ** Bounds *)
Lemma compare_swap : forall x y, SFcompare y x = match SFcompare x y with Some q => Some (CompOpp q) | None => None end.
Proof.
  intros [[]|[]| |[] mx ex] [[]|[]| |[] my ey]; try reflexivity; cbn [SFcompare]; rewrite (Z.compare_antisym ex ey);
    (destruct (ex ?= ey); cbn [CompOpp]; try reflexivity); unfold Pos.compare; fold (Pos.compare my mx) (Pos.compare mx my); rewrite (Pos.compare_antisym mx my); reflexivity.
Qed.

Lemma compare_eq : forall x y, SFcompare x y = Some Eq -> x = y \/ exists s s', x = S754_zero s /\ y = S754_zero s'.
Proof.
  intros [s|s| |s mx ex] [s'|s'| |s' my ey]; try (destruct s; discriminate); try (destruct s'; discriminate); try discriminate; [right; eauto|destruct s, s'; discriminate || auto|].
  left. cbn [SFcompare] in H. destruct s, s'; try discriminate; destruct (Z.compare_spec ex ey) as [E | E | E]; try discriminate; subst ey; injection H as H;
    change (Pos.compare_cont Eq mx my) with (mx ?= my)%positive in H.
  - destruct (mx ?= my)%positive eqn:Q; try discriminate. apply Pos.compare_eq in Q. subst. reflexivity.
  - apply Pos.compare_eq in H. subst. reflexivity.
Qed.

Lemma compare_some : forall x y, x <> S754_nan -> y <> S754_nan -> SFcompare x y <> None.
Proof. intros [] [] Hx Hy; cbn [SFcompare]; congruence. Qed.

Lemma clamp_bounds : forall lo hi x, lo <> S754_nan -> hi <> S754_nan ->
  vector_clamp lo hi x <> S754_nan /\ SFleb lo (vector_clamp lo hi x) = true /\ (SFleb lo hi = true -> SFleb (vector_clamp lo hi x) hi = true).
Proof.
  intros lo hi x Hl Hh. assert (RF : forall z, z <> S754_nan -> SFleb z z = true).
  { intros z Hz. unfold SFleb. pose proof (compare_swap z z) as S. pose proof (compare_some z z Hz Hz) as N. destruct (SFcompare z z) as [[]|]; try reflexivity; try discriminate. congruence. }
  unfold vector_clamp. cbv zeta. set (y := if SFltb x hi then x else hi).
  assert (Y : y <> S754_nan /\ SFleb y hi = true).
  { unfold y. destruct (SFltb x hi) eqn:E; [|auto]. unfold SFltb in E. unfold SFleb. split; [intros ->; discriminate|]. destruct (SFcompare x hi) as [[]|]; try discriminate. reflexivity. }
  destruct Y as (Y1 & Y2). destruct (SFltb lo y) eqn:E.
  - split; [exact Y1|]. split; [|intros _; exact Y2]. unfold SFltb in E. unfold SFleb. destruct (SFcompare lo y) as [[]|]; try discriminate; reflexivity.
  - split; [exact Hl|]. split; [apply RF; exact Hl|auto].
Qed.

Lemma float_bounds : forall c p l r dst mp, float_vector_mul c p l r dst mp -> mp_min mp <> S754_nan -> mp_max mp <> S754_nan ->
  forall g sched x, mul_float_x86 c p g sched l r dst mp = Ok (Some x) ->
  forall i j, in_matrix (m_layout dst) i j -> entry x i j <> S754_nan /\ SFleb (mp_min mp) (entry x i j) = true /\
    (SFleb (mp_min mp) (mp_max mp) = true -> SFleb (entry x i j) (mp_max mp) = true).
Proof.
  intros c p l r dst mp C H1 H2 g sched x E i j I. destruct (completed _ _ _ _ _ _ C _ _ _ E) as (_ & _ & _ & Hx & _). rewrite Hx by exact I.
  apply clamp_bounds; assumption.
Qed.

(** ** kAvx without bias is the reference, but for NaN *)
Lemma clamp_ref : forall lo hi a, plain_bound lo -> plain_bound hi -> a <> S754_nan -> a <> S754_zero true -> vector_clamp lo hi a = fmax (fmin a hi) lo.
Proof.
  intros lo hi a (L1 & L2) (H1 & H2) A1 A2. unfold vector_clamp, fmax, fmin, SFltb. cbv zeta.
  assert (E1 : (if match SFcompare a hi with Some Lt => true | _ => false end then a else hi) = (if match SFcompare hi a with Some Lt => true | _ => false end then hi else a)).
  { rewrite (compare_swap a hi). pose proof (compare_some a hi A1 H1) as N. destruct (SFcompare a hi) as [[]|] eqn:E; cbn [CompOpp]; try reflexivity; [|congruence].
    apply compare_eq in E. destruct E as [E | (s & s' & -> & ->)]; [auto|]. destruct s, s'; congruence || reflexivity. }
  rewrite E1. set (y := if match SFcompare hi a with Some Lt => true | _ => false end then hi else a). assert (Y1 : y <> S754_nan /\ y <> S754_zero true) by (unfold y; destruct (SFcompare hi a) as [[]|]; auto). destruct Y1 as (Y1 & Y2).
  rewrite (compare_swap lo y). pose proof (compare_some lo y L1 Y1) as N. destruct (SFcompare lo y) as [[]|] eqn:E; cbn [CompOpp]; try reflexivity; [|congruence].
  apply compare_eq in E. destruct E as [E | (s & s' & -> & E)]; [auto|]. rewrite E in *. destruct s, s'; congruence || reflexivity.
Qed.

Lemma ref_nan : forall lo hi, lo <> S754_nan -> hi <> S754_nan -> fmax (fmin S754_nan hi) lo = S754_nan.
Proof. intros lo hi L H. unfold fmin, fmax, SFltb. rewrite (compare_swap S754_nan hi). reflexivity. Qed.

Lemma clamp_not_nan : forall lo hi a, lo <> S754_nan -> hi <> S754_nan -> a <> S754_nan -> fmax (fmin a hi) lo <> S754_nan.
Proof. intros lo hi a L H A. unfold fmax, fmin. destruct (SFltb hi a); destruct (SFltb _ lo); assumption. Qed.

Lemma ref_accum_plain : forall (l r : mat spec_float) i j, mat_ok l -> mat_ok r -> m_zp l = 0 -> m_zp r = 0 -> ml_cols (m_layout l) = ml_rows (m_layout r) ->
  0 <= i < ml_rows (m_layout l) -> 0 <= j < ml_cols (m_layout r) -> 0 <= ml_rows (m_layout r) ->
  ref_accum f32_ops l r i j = Ok (plain_dot PathAvx l r (S754_zero false) i j).
Proof.
  intros l r i j Ml Mr Zl Zr Ed Hi Hj Hd. unfold ref_accum, plain_dot. rewrite Ed.
  set (f := fun k acc => _). set (h := fun (acc : spec_float) (k : Z) => vector_step PathAvx (entry l i k) (entry r k j) acc).
  assert (F : forall k acc, 0 <= k < ml_rows (m_layout r) -> f k acc = Ok (h acc k)).
  { intros k acc Hk. unfold f, h. rewrite !element_ok by (auto; lia). cbn [bind o_ref_sub_zp o_to_acc o_mul o_add f32_ops float_ops].
    rewrite Zl, Zr. change (f_of_Z 24 128 0) with fzero. rewrite !sub_zero, <- !entry_ent. rewrite fadd_comm. reflexivity. }
  destruct (forto_inv (fun k acc => acc = fold_left h (zrange 0 k) (S754_zero false)) f 0 (ml_rows (m_layout r)) (o_acc0 f32_ops) Hd) as (v & E & H).
  - rewrite zrange_nil by lia. reflexivity.
  - intros k acc Hk ->. exists (h (fold_left h (zrange 0 k) (S754_zero false)) k). split; [apply F; lia|]. rewrite zrange_snoc by lia. rewrite fold_left_app. reflexivity.
  - rewrite E, H. reflexivity.
Qed.

Lemma avx_reference : forall c l r dst mp, float_vector_mul c PathAvx l r dst mp -> mp_bias mp = None ->
  m_zp l = 0 -> m_zp r = 0 -> m_zp dst = 0 -> plain_bound (mp_min mp) -> plain_bound (mp_max mp) ->
  exists ref, reference_mul f32_ops l r mp dst = Ok ref /\
  forall g sched x, mul_float_x86 c PathAvx g sched l r dst mp = Ok (Some x) -> forall i j, in_matrix (m_layout dst) i j ->
    (entry ref i j <> S754_nan -> entry x i j = entry ref i j) /\
    (entry ref i j = S754_nan -> entry x i j = if SFltb (mp_min mp) (mp_max mp) then mp_max mp else mp_min mp).
Proof.
  intros c l r dst mp C Nb Zl Zr Zd Bl Bh. pose proof (valid_call_ok _ _ _ _ _ _ _ _ (fv_call _ _ _ _ _ _ C)) as CO.
  destruct (call_shapes _ _ _ _ _ _ C) as (S1 & S2 & S3). pose proof (vc_nonempty _ _ _ _ _ _ _ (fv_call _ _ _ _ _ _ C)) as (_ & _ & Dp).
  set (a := fun i j => plain_dot PathAvx l r (S754_zero false) i j). set (e := fun i j => fmax (fmin (a i j) (mp_max mp)) (mp_min mp)).
  assert (AO : forall i j, acc_ok 24 128 (a i j) /\ vector_dot PathAvx l r (S754_zero false) i j = a i j).
  { intros i j. destruct (avx_dot_plain l r (S754_zero false) i j eq_refl) as (A & B). split; [exact B|exact A]. }
  assert (RE : forall i j, inside (m_layout dst) i j -> ref_entry f32_ops l r mp (m_zp dst) i j = Ok (e i j)).
  { intros i j (Ii & Ij). unfold ref_entry. rewrite ref_accum_plain; [|apply (ca_l _ _ _ _ _ _ _ CO)|apply (ca_r _ _ _ _ _ _ _ CO)|assumption..|lia|lia|lia].
    fold (a i j). cbn [bind]. unfold add_bias. rewrite Nb. cbn [bind]. unfold finish, apply_multiplier. cbn [o_quant f32_ops float_ops bind o_add_dst_zp o_min o_max o_store].
    rewrite Zd. change (f_of_Z 24 128 0) with fzero. unfold fzero. rewrite add_zero_ok by apply AO. reflexivity. }
  destruct (reference_ok f32_ops l r mp dst e (ca_d _ _ _ _ _ _ _ CO) S2 S3 RE) as (ref & Er & R1 & R2 & (W1 & W2 & W3)).
  exists ref. split; [exact Er|]. intros g sched x Ex i j I. destruct (completed _ _ _ _ _ _ C _ _ _ Ex) as (_ & _ & _ & Hx & _). rewrite Hx by exact I.
  assert (EE : entry ref i j = e i j) by (unfold entry; rewrite position_off, R1; apply W2; exact I). rewrite EE.
  unfold float_entry, float_bias. rewrite Nb. destruct (AO i j) as (A1 & A2). rewrite A2. unfold e in *. split.
  - intros N. apply clamp_ref; try assumption; [|intros E; rewrite E in A1; discriminate].
    intros E. rewrite E in N. apply N. apply ref_nan; [apply Bl|apply Bh].
  - intros E. assert (AN : a i j = S754_nan).
    { destruct (a i j) eqn:Ea; try reflexivity; exfalso; revert E; apply clamp_not_nan; (apply Bl) || (apply Bh) || discriminate. }
    rewrite AN. unfold vector_clamp. cbv zeta. change (SFltb S754_nan (mp_max mp)) with false. reflexivity.
Qed.
