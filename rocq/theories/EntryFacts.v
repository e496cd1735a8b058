(** Entries seen by the user: swapping the operands, comparison with the reference. *)
From Coq Require Import SpecFloat.
From Verif Require Import Base SidePair SizeUtil SizeUtilFacts Mat MatFacts Scalars Pack PackFacts
  MulParams Kernel KernelFacts Multiplier IntOps FloatOps SpecMatrix SpecPack SpecRound PackProps FrontEndFacts IntEntryFacts.

(** Two sets of operations that agree on everything an entry depends on. *)
Record ops_agree {V} (o o' : ops V) : Prop := {
  oa_pack : forall s x, o_pack o s x = o_pack o' s x;
  oa_of_zp : forall s z, o_of_zp o s z = o_of_zp o' s z;
  oa_sum0 : forall s, o_sum0 o s = o_sum0 o' s;
  oa_sum_add : forall s a v, o_sum_add o s a v = o_sum_add o' s a v;
  oa_to_acc : forall s v, o_to_acc o s v = o_to_acc o' s v;
  oa_acc0 : o_acc0 o = o_acc0 o';
  oa_mul : forall a b, o_mul o a b = o_mul o' a b;
  oa_add : forall a b, o_add o a b = o_add o' a b;
  oa_sub_zp_sum : forall s a z v, o_sub_zp_sum o s a z v = o_sub_zp_sum o' s a z v;
  oa_zzd : forall a x y d, o_add_zp_zp_depth o a x y d = o_add_zp_zp_depth o' a x y d;
  oa_quant : o_quant o = o_quant o';
  oa_dst_zp : forall a z, o_add_dst_zp o a z = o_add_dst_zp o' a z;
  oa_min : forall a b, o_min o a b = o_min o' a b;
  oa_max : forall a b, o_max o a b = o_max o' a b;
  oa_store : forall a, o_store o a = o_store o' a
}.

Lemma bind_agree : forall {A B} (x y : res A) (f g : A -> res B), x = y -> (forall a, f a = g a) -> bind x f = bind y g.
Proof. intros A B x y f g -> H. destruct y; cbn [bind]; auto. Qed.

Section Agree.
Context {V : Type} (o o' : ops V) (E : ops_agree o o').

Lemma pval_agree : forall s m zp k c, pval o s m zp k c = pval o' s m zp k c.
Proof. intros. unfold pval. rewrite (oa_pack _ _ E), (oa_of_zp _ _ E). reflexivity. Qed.

Lemma col_sum_agree : forall s m zp n c, col_sum o s m zp n c = col_sum o' s m zp n c.
Proof.
  intros. unfold col_sum. rewrite (oa_sum0 _ _ E). apply forto_ext. intros i a _.
  rewrite (oa_sum_add _ _ E), pval_agree. reflexivity.
Qed.

Lemma finish_agree : forall mp z c a, finish o mp z c a = finish o' mp z c a.
Proof.
  intros. unfold finish, apply_multiplier. rewrite (oa_quant _ _ E).
  destruct (match o_quant o' with None => _ | Some _ => _ end) as [x| |]; try reflexivity. cbn [bind].
  rewrite (oa_dst_zp _ _ E). destruct (o_add_dst_zp o' x z) as [y| |]; try reflexivity. cbn [bind].
  rewrite (oa_min _ _ E), (oa_max _ _ E), (oa_store _ _ E). reflexivity.
Qed.

Lemma add_bias_agree : forall mp c a, add_bias o mp c a = add_bias o' mp c a.
Proof.
  intros. unfold add_bias. destruct (mp_bias mp); [|reflexivity].
  destruct (bread _ _); try reflexivity. cbn [bind]. apply (oa_add _ _ E).
Qed.

Lemma spec_entry_agree : forall l r zl zr depth mp dzp i j,
  spec_entry o l r zl zr depth mp dzp i j = spec_entry o' l r zl zr depth mp dzp i j.
Proof.
  intros. unfold spec_entry.
  replace (spec_accum o l r zl zr depth i j) with (spec_accum o' l r zl zr depth i j).
  2: { unfold spec_accum. rewrite (oa_acc0 _ _ E). apply forto_ext. intros k a _.
       rewrite (oa_mul _ _ E), !(oa_to_acc _ _ E), !pval_agree. destruct (o_mul o' _ _); try reflexivity.
       cbn [bind]. rewrite (oa_add _ _ E). reflexivity. }
  destruct (spec_accum _ _ _ _ _ _ _ _) as [a| |]; try reflexivity. cbn [bind]. rewrite add_bias_agree.
  destruct (add_bias _ _ _ _) as [b| |]; try reflexivity. cbn [bind].
  replace (spec_zp_terms o l r zl zr depth i j b) with (spec_zp_terms o' l r zl zr depth i j b).
  2: { unfold spec_zp_terms. rewrite !col_sum_agree.
       apply bind_agree; [|intros c; apply bind_agree; [|intros d]].
       - destruct (zl =? 0); [reflexivity|]. apply bind_agree; [reflexivity|]. intros x. symmetry. apply (oa_sub_zp_sum _ _ E).
       - destruct (zr =? 0); [reflexivity|]. apply bind_agree; [reflexivity|]. intros x. symmetry. apply (oa_sub_zp_sum _ _ E).
       - rewrite (oa_zzd _ _ E). reflexivity. }
  destruct (spec_zp_terms _ _ _ _ _ _ _ _ _); try reflexivity. cbn [bind]. apply finish_agree.
Qed.
End Agree.

Definition swap {A} (x : sp A) : sp A := mk_sp (rhs x) (lhs x).

Lemma swap_int_agree : forall ar dbg st pt dt,
  ops_agree (swap_ops (int_ops ar dbg st pt dt)) (int_ops ar dbg (swap st) (swap pt) dt).
Proof. intros. constructor; try (intros []); reflexivity. Qed.

Lemma swap_float_agree : forall prec emax size,
  ops_agree (swap_ops (float_ops prec emax size)) (float_ops prec emax size).
Proof. intros. constructor; try (intros []); reflexivity. Qed.

(** * Integers *)

(** The user's exact accumulator for entry (i, j). *)
Definition dot (l r : mat Z) (i j : Z) : Z :=
  sum (ml_rows (m_layout r)) (fun k => (ent l i k - m_zp l) * (ent r k j - m_zp r)).

Lemma exact_acc_dot : forall l r i j, exact_acc (transpose_mat l) r i j = dot l r i j.
Proof.
  intros. unfold exact_acc, dot. apply sum_ext. intros k _. rewrite ent_transpose. reflexivity.
Qed.

Lemma exact_acc_dot_swapped : forall l r i j, ml_cols (m_layout l) = ml_rows (m_layout r) ->
  exact_acc r (transpose_mat l) j i = dot l r i j.
Proof.
  intros. unfold exact_acc, dot. cbn [transpose_mat m_layout transpose_layout ml_rows]. rewrite H.
  apply sum_ext. intros k _. rewrite ent_transpose. cbn [m_zp transpose_mat]. ring.
Qed.

Lemma entries_in_transpose : forall t m, entries_in t m -> entries_in t (transpose_mat m).
Proof.
  intros t m [E1 E2]. split; [|exact E2]. intros r c Hr Hc. rewrite ent_transpose.
  apply E1; [exact Hc|exact Hr].
Qed.

Section IntCall.
Variables (dbg : bool) (st pt : sp ity) (dt : ity) (l r : mat Z) (kr : Z).
Hypotheses (Hb : forall s, 0 < it_bits (get s st)) (Hc : forall s, conv_ok (get s st) (get s pt)).
Hypotheses (El : entries_in (lhs st) l) (Er : entries_in (rhs st) r).
Hypotheses (Ed : ml_cols (m_layout l) = ml_rows (m_layout r)) (H0 : 0 < ml_rows (m_layout r)) (Hk : 0 < kr).

Lemma channel_transposed : forall {V} (mp : mul_params V) i j,
  channel_of (set_channel_dimension mp (transpose_channel (mp_chan mp))) j i = channel_of mp i j.
Proof. intros. unfold channel_of. cbn [set_channel_dimension mp_chan]. destruct (mp_chan mp); reflexivity. Qed.

(** Wrapping arithmetic: both storage orders of the destination give the same entry. *)
Lemma wrap_mul_entry : forall mp d dzp i j b,
  0 <= i < ml_rows (m_layout l) -> 0 <= j < ml_cols (m_layout r) -> bias_of mp (channel_of mp i j) = Ok b ->
  mul_entry (int_ops wrapping dbg st pt dt) kr l r mp d dzp i j =
  finish (int_ops wrapping dbg st pt dt) mp dzp (channel_of mp i j) (wrap_s 32 (dot l r i j + b)).
Proof.
  intros mp d dzp i j b Hi Hj HB. unfold mul_entry.
  pose proof (round_up_spec (ml_rows (m_layout r)) kr Hk) as [R _].
  destruct d.
  - rewrite (wrap_entry dbg st pt dt (transpose_mat l) r mp dzp _ i j b); auto.
    + rewrite exact_acc_dot. reflexivity.
    + apply entries_in_transpose; auto.
    + cbn [transpose_mat m_layout transpose_layout ml_rows]. lia.
    + lia.
  - rewrite (spec_entry_agree _ _ (swap_int_agree wrapping dbg st pt dt)).
    pose proof (wrap_entry dbg (swap st) (swap pt) dt r (transpose_mat l)
      (set_channel_dimension mp (transpose_channel (mp_chan mp))) dzp
      (round_up (ml_rows (m_layout r)) kr) j i b) as W.
    rewrite channel_transposed in W.
    rewrite exact_acc_dot_swapped in W by auto.
    unfold swap in *.
    etransitivity; [apply W|]; auto.
    + intros []; cbn [get lhs rhs]; [apply (Hb Rhs)|apply (Hb Lhs)].
    + intros []; cbn [get lhs rhs]; [apply (Hc Rhs)|apply (Hc Lhs)].
    + apply entries_in_transpose; auto.
    + lia.
    + cbn [transpose_mat m_layout transpose_layout ml_rows]. lia.
Qed.

Lemma checked_mul_entry : forall mp d dzp i j b,
  0 <= i < ml_rows (m_layout l) -> 0 <= j < ml_cols (m_layout r) -> bias_of mp (channel_of mp i j) = Ok b ->
  4 * (round_up (ml_rows (m_layout r)) kr * (it_abs (lhs pt) * it_abs (rhs pt))) + Z.abs b <= int_max ->
  mul_entry (int_ops checked dbg st pt dt) kr l r mp d dzp i j =
  finish (int_ops checked dbg st pt dt) mp dzp (channel_of mp i j) (dot l r i j + b).
Proof.
  intros mp d dzp i j b Hi Hj HB HM. unfold mul_entry.
  pose proof (round_up_spec (ml_rows (m_layout r)) kr Hk) as [R _].
  assert (Hpb : forall s, 0 < it_bits (get s pt)) by (intros s; eapply conv_bits; eauto).
  destruct d.
  - rewrite (checked_entry dbg st pt dt Hpb (transpose_mat l) r mp dzp _ i j b); auto.
    + rewrite exact_acc_dot. reflexivity.
    + apply entries_in_transpose; auto.
    + cbn [transpose_mat m_layout transpose_layout ml_rows]. lia.
    + lia.
  - rewrite (spec_entry_agree _ _ (swap_int_agree checked dbg st pt dt)).
    assert (Hpb' : forall s, 0 < it_bits (get s (swap pt))).
    { intros []; cbn [swap get lhs rhs]; [apply (Hpb Rhs)|apply (Hpb Lhs)]. }
    pose proof (checked_entry dbg (swap st) (swap pt) dt Hpb' r (transpose_mat l)
      (set_channel_dimension mp (transpose_channel (mp_chan mp))) dzp
      (round_up (ml_rows (m_layout r)) kr) j i b) as W.
    rewrite channel_transposed in W.
    rewrite exact_acc_dot_swapped in W by auto.
    unfold swap in *.
    etransitivity; [apply W|]; auto.
    + intros []; cbn [get lhs rhs]; [apply (Hb Rhs)|apply (Hb Lhs)].
    + intros []; cbn [get lhs rhs]; [apply (Hc Rhs)|apply (Hc Lhs)].
    + apply entries_in_transpose; auto.
    + cbn [transpose_mat m_layout transpose_layout ml_rows]. lia.
    + cbn [lhs rhs]. rewrite (Z.mul_comm (it_abs (rhs pt))). exact HM.
Qed.

(** The reference, in checked arithmetic. *)
Lemma checked_ref_entry : forall mp dzp i j v, mat_ok l -> mat_ok r ->
  0 <= i < ml_rows (m_layout l) -> 0 <= j < ml_cols (m_layout r) ->
  ref_entry (int_ops checked dbg st pt dt) l r mp dzp i j = Ok v ->
  exists b, bias_of mp (channel_of mp i j) = Ok b /\ is_i32 (dot l r i j) /\ is_i32 (dot l r i j + b) /\
    finish (int_ops checked dbg st pt dt) mp dzp (channel_of mp i j) (dot l r i j + b) = Ok v.
Proof.
  intros mp dzp i j v Ml Mr Hi Hj E. unfold ref_entry in E.
  apply bind_ok in E. destruct E as (a & E1 & E). apply bind_ok in E. destruct E as (a' & E2 & E3).
  assert (HA : a = dot l r i j).
  { unfold ref_accum in E1. rewrite Ed in E1. eapply forto_sum_inv in E1; [exact E1|lia|].
    intros k x y Hkk Eb. cbv beta in Eb.
    rewrite !element_ok in Eb by (auto; lia). cbn [bind int_ops o_ref_sub_zp o_to_acc o_mul o_add] in Eb.
    apply bind_ok in Eb. destruct Eb as (p & P1 & Eb). apply bind_ok in Eb. destruct Eb as (q & P2 & Eb).
    apply bind_ok in Eb. destruct Eb as (w & P3 & Eb).
    apply i32_inv in P1. apply i32_inv in P2. apply i32_inv in P3. apply i32_inv in Eb.
    destruct P1 as [-> _]. destruct P2 as [-> _]. destruct P3 as [-> _]. destruct Eb as [-> _]. reflexivity. }
  assert (IA : is_i32 a).
  { unfold ref_accum in E1. rewrite Ed in E1.
    replace (ml_rows (m_layout r)) with ((ml_rows (m_layout r) - 1) + 1) in E1 by lia.
    rewrite forto_snoc in E1 by lia. apply bind_ok in E1. destruct E1 as (x & _ & E1).
    rewrite !element_ok in E1 by (auto; lia). cbn [bind] in E1.
    apply bind_ok in E1. destruct E1 as (p & P1 & Eb). apply bind_ok in Eb. destruct Eb as (q & P2 & Eb).
    apply bind_ok in Eb. destruct Eb as (w & P3 & Eb). apply i32_inv in Eb. destruct Eb as [-> X]. exact X. }
  unfold add_bias in E2. unfold bias_of. destruct (mp_bias mp) as [bb|].
  - apply bind_ok in E2. destruct E2 as (b & Eb & E2). apply i32_inv in E2. destruct E2 as [-> X].
    exists b. rewrite <- HA. repeat split; auto; try apply IA; apply X.
  - injection E2 as <-. exists 0. rewrite Z.add_0_r, <- HA. repeat split; auto; apply IA.
Qed.
End IntCall.

Lemma finish_checked_wrapping : forall dbg st pt dt mp dzp c a v,
  finish (int_ops checked dbg st pt dt) mp dzp c a = Ok v ->
  finish (int_ops wrapping dbg st pt dt) mp dzp c a = Ok v.
Proof.
  intros dbg st pt dt mp dzp c a v E. unfold finish in *.
  apply bind_ok in E. destruct E as (x & E1 & E). apply bind_ok in E. destruct E as (y & E2 & E).
  change (apply_multiplier (int_ops wrapping dbg st pt dt) mp c a) with (apply_multiplier (int_ops checked dbg st pt dt) mp c a).
  rewrite E1. cbn [bind]. apply i32_inv in E2. destruct E2 as [-> X].
  cbn [int_ops o_add_dst_zp]. unfold wrapping. rewrite wrap_s_id by (try lia; exact X). cbn [bind]. exact E.
Qed.
