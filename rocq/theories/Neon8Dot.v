(** Kernel8bitNeonDotprodX1 and Kernel8bitNeonDotprod (kernel_arm64.cc:4414-5667, 2987-4412): the sums of one block, and what is added to them. *)
From Coq Require Import ZArith List Bool Lia Permutation.
From Verif Require Import Base Mat Simd SimdFacts SpecSimd Kernel8bitFacts RequantProps Neon64 NeonRun NeonTac NeonCols NeonPack NeonKTac NeonKernelF NeonKernelT NeonKernel8Code Neon8Lanes Neon8Tac Neon8Col.
Import ListNotations.
Open Scope Z_scope.

(** ** Lanes *)
Lemma dup_lane4 : forall f i, (i < 4)%nat -> of_lanes 4 (repeat (nth i (ulanes 4 (w4 f)) 0) 4) = w4 (fun _ => f i).
Proof.
  intros f i Hi. rewrite ulanes_lv by lia. unfold vrow.
  replace (nth i (map (fun i => wrap_u (8 * Z.of_nat 4) (f i)) (seq 0 4)) 0) with (wrap_u 32 (f i)) by (destruct i as [|[|[|[|i]]]]; try lia; reflexivity).
  rewrite dup_w4. apply w4_ext. intros j _. unfold wrap_u. apply Z.mod_mod. lia.
Qed.
Lemma sqdmulh_lane4 : forall f e g j, (j < 4)%nat -> by_lane (doubling_high 4) (vop_val (Sshl 4) (w4 f) (w4 e)) (w4 g) j = vop_val (Sqdmulh 4) (vop_val (Sshl 4) (w4 f) (w4 e)) (w4 (fun _ => g j)).
Proof.
  intros f e g j Hj. cbn [vop_val]. rewrite v_binary by lia. unfold by_lane. rewrite !slanes_lv by lia.
  unfold vrow. cbn [seq map map2]. destruct j as [|[|[|[|j]]]]; try lia; reflexivity.
Qed.
Lemma v_sqdlane : forall n code pc s Q d a b j va vb, nth_error code pc = Some (SqdmulhLane d a b j) -> vs s a = va -> vs s b = vb ->
  reach n code (S pc) {| xs := xs s; vs := upd (vs s) d (by_lane (doubling_high 4) va vb j); fl := fl s; mem := mem s |} Q -> reach (S n) code pc s Q.
Proof. intros n code pc s Q d a b j va vb H <- <-. apply reach_next with (1 := H); [discriminate|]. reflexivity. Qed.
Ltac kstepd := first [kstep8 | eapply v_sqdlane; [reflexivity|reads|reads|]; cbn [xs vs fl mem]].

(** The right shift of an exponent, and the requantization of a column whose multiplier and exponent are copied to all lanes. *)
Definition right_of (e : Z) : Z := Z.min (-1) (wrap_s 32 e).
Lemma smin4 : forall e, vop_val (Smin 4) minus_one (w4 e) = w4 (fun i => right_of (e i)).
Proof. intros e. rewrite minus_one_w4. cbn [vop_val]. rewrite v_binary by lia. reflexivity. Qed.
Lemma requantized_one : forall f m e, vop_val (Srshl 4) (vop_val (Sqdmulh 4) (vop_val (Sshl 4) (w4 f) (w4 (fun _ => e - right_of e))) (w4 (fun _ => m))) (w4 (fun _ => right_of e)) =
  requantized (w4 f) (w4 (fun _ => m)) (w4 (fun _ => e)).
Proof. intros f m e. unfold requantized. cbv zeta. rewrite smin4, sub4. reflexivity. Qed.

Lemma quad_eq : forall a b a' b', (forall e, (e < 4)%nat -> a e = a' e) -> (forall e, (e < 4)%nat -> b e = b' e) -> quad a b = quad a' b'.
Proof. intros a b a' b' H1 H2. unfold quad. rewrite !H1, !H2 by lia. reflexivity. Qed.

(** The program from the loop over the depth on; both kernels contain it. *)
Definition tail8 : list instr := Eval vm_compute in firstn 821 (skipn 34 kernel8_dotprod_x1).
Lemma tail_x1 : part_at kernel8_dotprod_x1 tail8 34.
Proof. exists (firstn 34 kernel8_dotprod_x1), (skipn 855 kernel8_dotprod_x1). split; vm_compute; reflexivity. Qed.
Lemma tail_base : part_at kernel8_dotprod tail8 185.
Proof. exists (firstn 185 kernel8_dotprod), (skipn 1006 kernel8_dotprod). split; vm_compute; reflexivity. Qed.

(** The number in row 4h + i and column c of a block is in lane i of register 16 + 2c + h. *)
Definition grid (F : nat -> nat -> Z) (h c : nat) : list Z := w4 (fun i => F (4 * h + i)%nat c).
Definition allv : list nat := [16; 17; 18; 19; 20; 21; 22; 23; 24; 25; 26; 27; 28; 29; 30; 31]%nat.
Lemma outs_keep : forall f s s', outs f s -> keepv allv s s' -> outs f s'.
Proof. intros f s s' [] H. constructor; rewrite (keepv_read _ _ _ _ H) by (cbn; tauto); assumption. Qed.

Section Dot.
Variables (Lb Rb Bi SL SR Mu Ex : buf Z) (lo ro dof lzw rzw dzp pzw sr sc lr lc dr dc ls rs ds K cmin cmax : Z) (hb hls hrs hpc cc : bool) (drz dcz ty tyz : Z).
Notation kmem8 := (kmem8 Lb Rb Bi SL SR Mu Ex lo ro dof lzw rzw dzp pzw sr sc lr lc dr dc ls rs ds K cmin cmax hb hls hrs hpc cc).
Notation core8 := (core8 lc ls rs ds K drz dcz tyz).
Notation kflags8 := (kflags8 hb hls hrs hpc cc).
Notation lvec := (lvec Lb).
Notation four := (four Lb Rb).
Notation dotted := (dotted Lb Rb).
Hypothesis Hlr : 0 <= sr <= lr /\ lr < dr /\ dr < 2 ^ 31 /\ lr + 8 < 2 ^ 31.
Hypothesis Hlc : 0 <= sc <= lc /\ lc < dc /\ dc < 2 ^ 31 /\ lc + 8 < 2 ^ 31.
Hypothesis Hst : 0 <= ls < 2 ^ 31 /\ 0 <= rs < 2 ^ 31 /\ 0 <= ds < 2 ^ 31.
Hypothesis Hdr : drz mod 2 ^ 32 = dr.
Hypothesis Hdc : dcz mod 2 ^ 32 = dc.
Hypothesis Hty : tyz mod 2 ^ 32 = ty.
Hypothesis Hty4 : 1 <= ty <= 4.

(** ** Sums of products *)
(** Sixteen bytes of the right: columns 4g to 4g + 3. *)
Definition rvec4 (rp : Z) (g t : nat) : list Z := get_bytes (enc 1 Rb) (rp + 32 * Z.of_nat t + 16 * Z.of_nat g) 16.
(** The products of the blocks of levels in a list. *)
Fixpoint picked (lp rp : Z) (i c : nat) (l : list nat) : Z := match l with [] => 0 | t :: l => picked lp rp i c l + four lp rp i c t end.
Definition sumsl (lp rp : Z) (h c : nat) (l : list nat) : list Z := grid (fun i c => picked lp rp i c l) h c.
Lemma picked_perm : forall lp rp i c l l', Permutation l l' -> picked lp rp i c l = picked lp rp i c l'.
Proof. intros lp rp i c l l' H. induction H; cbn [picked]; lia. Qed.
Lemma picked_app : forall lp rp i c l l', picked lp rp i c (l ++ l') = picked lp rp i c l + picked lp rp i c l'.
Proof. intros lp rp i c l l'. induction l as [|t l IH]; cbn [picked app]; lia. Qed.
Lemma picked_all : forall lp rp i c n l, Permutation l (seq 0 n) -> picked lp rp i c l = dotted lp rp i c n.
Proof.
  intros lp rp i c n l H. rewrite (picked_perm lp rp i c _ _ H). clear H. induction n as [|n IH]; [reflexivity|]. rewrite seq_S, picked_app, IH. cbn [picked Nat.add Neon8Col.dotted]. lia.
Qed.
Lemma sdotl : forall lp rp h c g j l t, c = (4 * g + j)%nat -> (j < 4)%nat -> sdot_lane (sumsl lp rp h c l) (lvec lp h t) (rvec4 rp g t) j = sumsl lp rp h c (t :: l).
Proof.
  intros lp rp h c g j l t -> Hj. unfold sumsl, grid, Neon8Col.lvec, rvec4. rewrite !get_enc1, sdot_lane4 by lia. apply w4_eq. intros i Hi. cbn [picked]. f_equal. apply quad_eq; intros e He; unfold sbyte.
  - f_equal. f_equal. lia.
  - f_equal. f_equal. lia.
Qed.
Lemma no_sumsl : forall lp rp h c, repeat 0 16 = sumsl lp rp h c [].
Proof. reflexivity. Qed.

(** The blocks of levels in [l1] have been added to the first four columns of the first four rows, those in [l2] to the others. *)
Record accs8 (lp rp : Z) (l1 l2 : list nat) (s : state) : Prop := {
  a16 : vs s 16 = sumsl lp rp 0 0 l1; a17 : vs s 17 = sumsl lp rp 1 0 l2; a18 : vs s 18 = sumsl lp rp 0 1 l1; a19 : vs s 19 = sumsl lp rp 1 1 l2;
  a20 : vs s 20 = sumsl lp rp 0 2 l1; a21 : vs s 21 = sumsl lp rp 1 2 l2; a22 : vs s 22 = sumsl lp rp 0 3 l1; a23 : vs s 23 = sumsl lp rp 1 3 l2;
  a24 : vs s 24 = sumsl lp rp 0 4 l2; a25 : vs s 25 = sumsl lp rp 1 4 l2; a26 : vs s 26 = sumsl lp rp 0 5 l2; a27 : vs s 27 = sumsl lp rp 1 5 l2;
  a28 : vs s 28 = sumsl lp rp 0 6 l2; a29 : vs s 29 = sumsl lp rp 1 6 l2; a30 : vs s 30 = sumsl lp rp 0 7 l2; a31 : vs s 31 = sumsl lp rp 1 7 l2 }.
(** Block [k] of levels is in v0 to v3; [p] blocks have been loaded. *)
Record level8 (lp rp : Z) (k p : nat) (s : state) : Prop := {
  h_42 : xs s 42 = Ptr 1 (lp + 32 * Z.of_nat p); h_43 : xs s 43 = Ptr 2 (rp + 32 * Z.of_nat p);
  h_0 : vs s 0 = lvec lp 0 k; h_1 : vs s 1 = lvec lp 1 k; h_2 : vs s 2 = rvec4 rp 0 k; h_3 : vs s 3 = rvec4 rp 1 k }.
Definition given8 (s : state) : Prop := xs s 12 = Int K /\ mem s 1%nat = Bytes (enc 1 Lb) /\ mem s 2%nat = Bytes (enc 1 Rb).
(** [k] has been added to the first four columns of the first four rows. *)
Record deepd (lp rp : Z) (l1 l2 : list nat) (k p : nat) (s0 s : state) : Prop := {
  d_1 : xs s 1 = Int (4 * Z.of_nat p); d_level : level8 lp rp k p s; d_given : given8 s; d_accs : accs8 lp rp l1 l2 s;
  d_mem : mem s = mem s0; d_keep : keep otherregs s0 s; d_13 : full (vs s 13) }.

Ltac name8 lp rp k := repeat match goal with
  | |- context [get_bytes (enc 1 Lb) ?o 16] => first [replace (get_bytes (enc 1 Lb) o 16) with (lvec lp 0 k) by (unfold Neon8Col.lvec; f_equal; lia) | replace (get_bytes (enc 1 Lb) o 16) with (lvec lp 1 k) by (unfold Neon8Col.lvec; f_equal; lia)]
  | |- context [get_bytes (enc 1 Rb) ?o 16] => first [replace (get_bytes (enc 1 Rb) o 16) with (rvec4 rp 0 k) by (unfold rvec4; f_equal; lia) | replace (get_bytes (enc 1 Rb) o 16) with (rvec4 rp 1 k) by (unfold rvec4; f_equal; lia)] end.
Ltac sdots := rewrite ?sdotl by (reflexivity || lia).
Ltac numbers8 := look; facts; first [reflexivity | f_equal; lia].

Lemma bodyd : forall lp rp l1 l2 k p s0 s, 4 * Z.of_nat p < K -> K < 2 ^ 31 - 4 -> K mod 4 = 0 -> 0 <= lp /\ lp + 8 * K <= blen Lb -> 0 <= rp /\ rp + 8 * K <= blen Rb -> deepd lp rp l1 l2 k p s0 s ->
  reach 24 tail8 2 s (fun pc s' => pc = (if (4 * Z.of_nat (S p) <? K)%Z then 2 else 26)%nat /\ deepd lp rp (p :: l1) (k :: l2) p (S p) s0 s').
Proof.
  intros lp rp l1 l2 k p s0 s Hp HK H4 HL HR [X1 [X42 X43 V0 V1 V2 V3] (X12 & M1 & M2) [H16 H17 H18 H19 H20 H21 H22 H23 H24 H25 H26 H27 H28 H29 H30 H31] DM DK D13].
  assert (HpK4 : 4 * Z.of_nat p + 4 <= K) by (pose proof (Z.div_mod K 4); lia).
  assert (BL : blen (enc 1 Lb) = blen Lb) by apply Z.mul_1_l. assert (BR : blen (enc 1 Rb) = blen Rb) by apply Z.mul_1_l.
  begin. do 23 (kstep8; name8 lp rp p; sdots). eapply reach_b with (b := (4 * Z.of_nat p + 4 <? K)); [reflexivity|reflexivity|reflexivity|].
  finish. replace (4 * Z.of_nat (S p)) with (4 * Z.of_nat p + 4) by lia. split; [reflexivity|].
  constructor; [numbers8|constructor; numbers8|split; [numbers8|split; [exact M1|exact M2]]|constructor; numbers8|exact DM|eapply keep_trans; [exact DK|kept_here]|exact D13].
Qed.

Lemma loopd : forall lp rp n l1 l2 k p s0 s, 4 * Z.of_nat (p + S n) = K -> K < 2 ^ 31 - 4 -> 0 <= lp /\ lp + 8 * K <= blen Lb -> 0 <= rp /\ rp + 8 * K <= blen Rb -> deepd lp rp l1 l2 k p s0 s ->
  reach (24 * S n) tail8 2 s (fun pc s' => pc = 26%nat /\ deepd lp rp (upto p (S n) ++ l1) (tl (upto p (S n)) ++ k :: l2) (p + n) (p + S n) s0 s').
Proof.
  intros lp rp. induction n as [|n IH]; intros l1 l2 k p s0 s Hn HK HL HR HD.
  all: assert (H4 : K mod 4 = 0) by (rewrite <- Hn, Z.mul_comm; apply Z.mod_mul; lia).
  - eapply reach_weaken; [eapply (bodyd lp rp l1 l2 k p s0 s); try assumption; lia|lia|].
    intros pc s' [-> HD']. replace (4 * Z.of_nat (S p) <? K) with false by (symmetry; apply Z.ltb_ge; lia). split; [reflexivity|]. replace (p + 1)%nat with (S p) by lia. replace (p + 0)%nat with p by lia. exact HD'.
  - replace (24 * S (S n))%nat with (24 + 24 * S n)%nat by lia. eapply reach_trans; [eapply (bodyd lp rp l1 l2 k p s0 s); try assumption; lia|].
    intros pc s' [-> HD']. replace (4 * Z.of_nat (S p) <? K) with true by (symmetry; apply Z.ltb_lt; lia).
    eapply reach_weaken; [apply (IH (p :: l1) (k :: l2) p (S p) s0 s'); try assumption; lia|lia|].
    intros pc s2 [-> HD2]. split; [reflexivity|]. rewrite (upto_S p (S n)).
    assert (E : exists a b, upto (S p) (S n) = a :: b).
    { destruct (upto (S p) (S n)) as [|a b] eqn:E; [|eauto]. exfalso. apply (f_equal (@length nat)) in E. unfold upto in E. rewrite rev_length, seq_length in E. discriminate. }
    destruct E as (a & b & E). rewrite E in *. cbn [app tl] in *. replace (p + S (S n))%nat with (S p + S n)%nat by lia. replace (p + S n)%nat with (S p + n)%nat by lia.
    rewrite <- !app_assoc. exact HD2.
Qed.

(** All blocks of levels from [p] on. *)
Record summed (lp rp : Z) (l1 l2 : list nat) (s0 s : state) : Prop := {
  z_accs : accs8 lp rp l1 l2 s; z_mem : mem s = mem s0; z_keep : keep otherregs s0 s; z_13 : full (vs s 13) }.
Lemma depthd : forall lp rp n l1 l2 k p s0 s, 4 * Z.of_nat (p + n) = K -> K < 2 ^ 31 - 4 -> 0 <= lp /\ lp + 8 * K <= blen Lb -> 0 <= rp /\ rp + 8 * K <= blen Rb -> deepd lp rp l1 l2 k p s0 s ->
  reach (24 * n + 15) tail8 0 s (fun pc s' => pc = 39%nat /\ summed lp rp (upto p n ++ l1) (upto p n ++ k :: l2) s0 s').
Proof.
  intros lp rp n l1 l2 k p s0 s Hn HK HL HR HD.
  assert (Hend : forall l1 l2 k p s1, deepd lp rp l1 l2 k p s0 s1 -> reach 13 tail8 26 s1 (fun pc s' => pc = 39%nat /\ summed lp rp l1 (k :: l2) s0 s')).
  { intros l1' l2' k' p' s1 [X1 [X42 X43 V0 V1 V2 V3] (X12 & M1 & M2) [H16 H17 H18 H19 H20 H21 H22 H23 H24 H25 H26 H27 H28 H29 H30 H31] DM DK D13].
    begin. do 13 (kstep8; sdots). finish. split; [reflexivity|]. constructor; [constructor; numbers8|exact DM|eapply keep_trans; [exact DK|kept_here]|exact D13]. }
  assert (Hstart : reach 2 tail8 0 s (fun pc s' => pc = (if (Z.of_nat n =? 0)%Z then 26 else 2)%nat /\ deepd lp rp l1 l2 k p s0 s')).
  { destruct HD as [X1 [X42 X43 V0 V1 V2 V3] (X12 & M1 & M2) [H16 H17 H18 H19 H20 H21 H22 H23 H24 H25 H26 H27 H28 H29 H30 H31] DM DK D13].
    begin. kstep8. eapply reach_b with (b := (4 * Z.of_nat p =? K)); [reflexivity|reflexivity|reflexivity|]. finish.
    replace (4 * Z.of_nat p =? K) with (Z.of_nat n =? 0) by (destruct (Z.eqb_spec (Z.of_nat n) 0), (Z.eqb_spec (4 * Z.of_nat p) K); lia || reflexivity). split; [reflexivity|].
    constructor; [numbers8|constructor; numbers8|split; [numbers8|split; [exact M1|exact M2]]|constructor; numbers8|exact DM|eapply keep_trans; [exact DK|kept_here]|exact D13]. }
  destruct n as [|n].
  - replace (24 * 0 + 15)%nat with (2 + 13)%nat by lia. eapply reach_trans; [exact Hstart|]. intros pc s1 [-> H1]. exact (Hend _ _ _ _ _ H1).
  - replace (24 * S n + 15)%nat with (2 + (24 * S n + 13))%nat by lia. eapply reach_trans; [exact Hstart|]. intros pc s1 [-> H1]. replace (Z.of_nat (S n) =? 0) with false by (symmetry; apply Z.eqb_neq; lia).
    eapply reach_trans; [apply (loopd lp rp n l1 l2 k p s0 s1); assumption|]. intros pc s2 [-> H2].
    eapply reach_weaken; [exact (Hend _ _ _ _ _ H2)|lia|]. intros pc s3 [-> H3]. split; [reflexivity|].
    assert (E : forall q m, (q + m)%nat :: tl (upto q (S m)) = upto q (S m)) by (intros q m; unfold upto; rewrite seq_S, rev_app_distr; reflexivity).
    rewrite app_comm_cons, E in H3. exact H3.
Qed.

Lemma summed_outs : forall lp rp n l1 l2 s0 s, summed lp rp l1 l2 s0 s -> Permutation l1 (seq 0 n) -> Permutation l2 (seq 0 n) -> outs (grid (fun i c => dotted lp rp i c n)) s.
Proof.
  intros lp rp n l1 l2 s0 s [[H16 H17 H18 H19 H20 H21 H22 H23 H24 H25 H26 H27 H28 H29 H30 H31] _ _ _] P1 P2.
  assert (E : forall l h c, Permutation l (seq 0 n) -> sumsl lp rp h c l = grid (fun i c => dotted lp rp i c n) h c).
  { intros l h c HP. unfold sumsl, grid. apply w4_eq. intros i _. apply picked_all, HP. }
  constructor; first [rewrite <- (E _ _ _ P1); assumption | rewrite <- (E _ _ _ P2); assumption].
Qed.

(** ** The next block's pointers *)
Notation next_lhs8 := (next_lhs8 lo lr ls).
Notation next_rhs8 := (next_rhs8 lr lc rs).
Lemma pointersd : forall row col p q s, core8 s -> xs s 5 = Ptr 1 lo -> xs s 7 = Int lr -> xs s 40 = Ptr 1 p -> xs s 41 = Ptr 2 q -> xs s 46 = Int row -> xs s 47 = Int col ->
  0 <= row <= lr -> 0 <= col <= lc ->
  reach 12 tail8 39 s (fun pc s' => pc = 51%nat /\ xs s' 40 = Ptr 1 (next_lhs8 row p) /\ xs s' 41 = Ptr 2 (next_rhs8 row col q) /\ xs s' 42 = Ptr 1 (next_lhs8 row p) /\ xs s' 43 = Ptr 2 (next_rhs8 row col q) /\
    mem s' = mem s /\ keep [8; 9; 10; 11; 12; 44; 45; 46; 47; 48; 49; 50; 51; 52]%nat s s' /\ vs s' = vs s).
Proof.
  intros row col p q s [C8 C9 C10 C11 C12 C48 C49 C50 C51 C52] X5 X7 X40 X41 X46 X47 Hrow Hcol. unfold Neon8Col.next_lhs8, Neon8Col.next_rhs8.
  begin. kstep8. eapply reach_b with (b := negb (row <? lr)); [reflexivity|reflexivity|reflexivity|].
  destruct (Z.ltb_spec row lr) as [E|E]; cbn [negb].
  - kstep8. eapply reach_b with (b := true); [reflexivity|reflexivity|reflexivity|]. do 3 kstep8. finish. repeat (split; [first [reflexivity|reads|kept_here]|]). reflexivity.
  - do 3 kstep8. eapply reach_b with (b := negb (col <? lc)); [reflexivity|reflexivity|reflexivity|].
    destruct (Z.ltb_spec col lc) as [E2|E2]; cbn [negb]; [do 4 kstep8|do 3 kstep8]; finish; repeat (split; [first [reflexivity|reads|kept_here]|]); reflexivity.
Qed.

(** ** Biases, and the next block's first levels *)
Ltac flag8 := unfold Neon8Col.kflags8; destruct hb, hls, hrs, hpc, cc; reflexivity.
Definition chn (row col : Z) : Z := if cc then col else row.
Definition side (i c : nat) : nat := if cc then c else i.
Definition first_bias (row col : Z) : Z := if hb then chn row col else 0.
Definition biasd (row col : Z) (i c : nat) : Z := bdat Bi (first_bias row col + Z.of_nat (side i c)) + pzw.
Definition nextv : list nat := [0; 1; 2; 3; 8]%nat.
Record loadedd (row col p q : Z) (F : nat -> nat -> Z) (s0 s : state) : Prop := {
  w_6 : xs s 6 = Int kflags8; w_42 : xs s 42 = Ptr 1 (p + 32); w_43 : xs s 43 = Ptr 2 (q + 32);
  w_0 : vs s 0 = lvec p 0 0; w_1 : vs s 1 = lvec p 1 0; w_2 : vs s 2 = rvec4 q 0 0; w_3 : vs s 3 = rvec4 q 1 0; w_8 : vs s 8 = minus_one;
  w_13 : full (vs s 13); w_outs : outs (grid (fun i c => F i c + biasd row col i c)) s;
  w_keep : keep [8; 9; 10; 11; 12; 40; 41; 44; 45; 46; 47; 48; 49; 50; 51; 52]%nat s0 s; w_mem : mem s = mem s0 }.
Ltac adds := rewrite ?add4.
Ltac dups := rewrite ?dup_lane4 by lia.
Lemma loadd : forall D T row col p q F s, kmem8 D T (mem s) -> core8 s -> xs s 42 = Ptr 1 p -> xs s 43 = Ptr 2 q -> xs s 46 = Int row -> xs s 47 = Int col -> full (vs s 13) -> outs (grid F) s ->
  0 <= row <= lr -> 0 <= col <= lc -> 0 <= p /\ p + 32 <= blen Lb -> 0 <= q /\ q + 32 <= blen Rb -> first_bias row col + 8 <= blen Bi ->
  reach 50 tail8 51 s (fun pc s' => pc = 113%nat /\ loadedd row col p q F s s').
Proof.
  intros D T row col p q F s [M0 M1 M2 M3 M4 M5 M6 M7 M8 M9] [C8 C9 C10 C11 C12 C48 C49 C50 C51 C52] X42 X43 X46 X47 F13 [O16 O17 O18 O19 O20 O21 O22 O23 O24 O25 O26 O27 O28 O29 O30 O31] Hrow Hcol HL HR HB.
  assert (BL : blen (enc 1 Lb) = blen Lb) by apply Z.mul_1_l. assert (BR : blen (enc 1 Rb) = blen Rb) by apply Z.mul_1_l. assert (BB : blen (enc 4 Bi) = 4 * blen Bi) by reflexivity.
  assert (Hw : 0 <= chn row col < 2 ^ 31) by (unfold chn; destruct cc; lia). unfold grid in O16, O17, O18, O19, O20, O21, O22, O23, O24, O25, O26, O27, O28, O29, O30, O31.
  begin. do 6 kstepd. rewrite dup_w4. eapply k_cselw with (t := negb cc) (z := chn row col) (v := chn row col); [reflexivity|look; flag8|unfold chn; destruct cc; cbn [negb]; reads|apply Z.mod_small; lia|]. look.
  do 2 kstepd. eapply r_cselx with (t := negb hb) (v := Ptr 3 (4 * first_bias row col)); [reflexivity|look; flag8|look; unfold first_bias; destruct hb; cbn [negb]; look; f_equal; lia|]. look.
  assert (HB0 : 0 <= first_bias row col) by (unfold first_bias; destruct hb; lia).
  do 2 kstepd. rewrite (get_enc4 Bi (first_bias row col)) by reflexivity. rewrite (get_enc4 Bi (first_bias row col + 4)) by lia.
  do 4 kstepd. do 2 (kstepd; adds). kstepd. eapply reach_b with (b := cc); [reflexivity|reflexivity|look; cbn [holds f_eq]; f_equal; flag8|].
  assert (E : forall k x, k = Z.of_nat x -> bdat Bi (first_bias row col + k) = bdat Bi (first_bias row col + Z.of_nat x)) by (intros k x ->; reflexivity).
  destruct cc eqn:Ec.
  - do 25 (kstepd; adds; dups). finish. split; [reflexivity|]. constructor; look; try reads_lia;
      [unfold Neon8Col.lvec; f_equal; lia|unfold Neon8Col.lvec; f_equal; lia|unfold rvec4; f_equal; lia|unfold rvec4; f_equal; lia| |kept_here].
    constructor; look; unfold grid, biasd, side; rewrite Ec; apply w4_eq; intros i Hi; f_equal; f_equal; f_equal; lia.
  - do 16 (kstepd; adds). eapply reach_b with (b := true); [reflexivity|reflexivity|reflexivity|]. finish. split; [reflexivity|]. constructor; look; try reads_lia;
      [unfold Neon8Col.lvec; f_equal; lia|unfold Neon8Col.lvec; f_equal; lia|unfold rvec4; f_equal; lia|unfold rvec4; f_equal; lia|exact F13| |kept_here].
    constructor; look; unfold grid, biasd, side; rewrite Ec; apply w4_eq; intros i Hi; f_equal; f_equal; f_equal; lia.
Qed.

(** ** Zero points *)
Notation mainregs := Neon8Col.mainregs.
Definition rsubd (col : Z) (c : nat) : Z := if hrs then lzw * bdat SR (col + Z.of_nat c) else 0.
Notation lsub := (lsub SL rzw hls).
Lemma right_sumsd : forall D T col F s, kmem8 D T (mem s) -> core8 s -> xs s 6 = Int kflags8 -> xs s 47 = Int col -> outs (grid F) s -> 0 <= col <= lc -> (hrs = true -> col + 8 <= blen SR) ->
  reach 26 tail8 113 s (fun pc s' => pc = 138%nat /\ outs (grid (fun i c => F i c - rsubd col c)) s' /\ mem s' = mem s /\ keep (6 :: mainregs)%nat s s' /\ keepv (13 :: nextv)%nat s s').
Proof.
  intros D T col F s [M0 M1 M2 M3 M4 M5 M6 M7 M8 M9] [C8 C9 C10 C11 C12 C48 C49 C50 C51 C52] X6 X47 [O16 O17 O18 O19 O20 O21 O22 O23 O24 O25 O26 O27 O28 O29 O30 O31] Hcol HS.
  assert (BS : blen (enc 4 SR) = 4 * blen SR) by reflexivity. unfold grid in O16, O17, O18, O19, O20, O21, O22, O23, O24, O25, O26, O27, O28, O29, O30, O31.
  begin. do 2 kstepd. eapply reach_b with (b := negb hrs); [reflexivity|reflexivity|look; cbn [holds f_eq]; f_equal; flag8|]. destruct hrs eqn:Eh; cbn [negb].
  - specialize (HS eq_refl). do 6 kstepd. rewrite (get_enc4 SR col) by lia. rewrite (get_enc4 SR (col + 4)) by lia. rewrite dup_w4. do 16 (kstepd; rewrite mls_lane4 by lia). finish. split; [reflexivity|].
    split; [|split; [reflexivity|split; kept_here]].
    constructor; look; unfold grid, rsubd; rewrite Eh; apply w4_eq; intros i Hi; f_equal; f_equal; f_equal; lia.
  - finish. split; [reflexivity|]. split; [|split; [reflexivity|split; kept_here]].
    constructor; look; facts; unfold grid, rsubd; rewrite Eh; apply w4_eq; intros i Hi; lia.
Qed.

Notation raw := (raw hls ty).
Lemma left_sumsd : forall D T row F s, kmem8 D T (mem s) -> core8 s -> xs s 6 = Int kflags8 -> xs s 46 = Int row -> outs (grid F) s -> full (vs s 13) -> 0 <= row <= lr -> (hls = true -> row + 8 <= blen SL) ->
  reach 30 tail8 138 s (fun pc s' => pc = (if raw then 686 else 167)%nat /\ outs (grid (fun i c => F i c - lsub row i)) s' /\ full (vs s' 13) /\ mem s' = mem s /\ keep (6 :: mainregs)%nat s s' /\ keepv nextv s s').
Proof.
  intros D T row F s [M0 M1 M2 M3 M4 M5 M6 M7 M8 M9] [C8 C9 C10 C11 C12 C48 C49 C50 C51 C52] X6 X46 [O16 O17 O18 O19 O20 O21 O22 O23 O24 O25 O26 O27 O28 O29 O30 O31] F13 Hrow HS.
  assert (BS : blen (enc 4 SL) = 4 * blen SL) by reflexivity. unfold grid in O16, O17, O18, O19, O20, O21, O22, O23, O24, O25, O26, O27, O28, O29, O30, O31.
  begin. do 2 kstepd. eapply reach_b with (b := negb hls); [reflexivity|reflexivity|look; cbn [holds f_eq]; f_equal; flag8|]. destruct hls eqn:Eh; cbn [negb].
  - specialize (HS eq_refl). do 5 kstepd. rewrite (get_enc4 SL row) by lia. rewrite (get_enc4 SL (row + 4)) by lia. kstepd.
    do 2 (kstepd; rewrite (mul_lane4 _ (splice (vs s 13) (4 * 1) (bytes_of 4 rzw)) 1 rzw (lane_s1 _ rzw F13))). do 16 (kstepd; rewrite sub4).
    kstepd. eapply reach_b with (b := (ty =? 4)); [reflexivity|reflexivity|reflexivity|]. finish. unfold Neon8Col.raw. cbn [andb]. split; [reflexivity|].
    split; [|split; [look; apply full_splice; [exact F13|lia]|split; [reflexivity|split; kept_here]]].
    constructor; look; unfold grid, Neon8Col.lsub; apply w4_eq; intros i Hi; f_equal; f_equal; f_equal; lia.
  - finish. unfold Neon8Col.raw. cbn [andb]. split; [reflexivity|]. split; [|split; [exact F13|split; [reflexivity|split; kept_here]]].
    constructor; look; facts; unfold grid, Neon8Col.lsub; apply w4_eq; intros i Hi; lia.
Qed.

(** ** Requantization *)
Definition first_chan (row col : Z) : Z := if hpc then chn row col else 0.
Definition multd (row col : Z) (i c : nat) : Z := bdat Mu (first_chan row col + Z.of_nat (side i c)).
Definition expod (row col : Z) (i c : nat) : Z := bdat Ex (first_chan row col + Z.of_nat (side i c)).
Lemma requantized_row : forall F row col h c u v, (forall j, (j < 8)%nat -> fixed_point (bdat Mu (first_chan row col + Z.of_nat j)) /\ exponent (bdat Ex (first_chan row col + Z.of_nat j))) -> cc = false -> (h < 2)%nat ->
  u = first_chan row col + 4 * Z.of_nat h -> v = first_chan row col + 4 * Z.of_nat h ->
  requantized (w4 (fun i => F (4 * h + i)%nat c)) (w4 (fun i => bdat Mu (u + Z.of_nat i))) (w4 (fun i => bdat Ex (v + Z.of_nat i))) = grid (fun i c => neon_lane (F i c) (multd row col i c) (expod row col i c)) h c.
Proof.
  intros F row col h c u v HQ Ec Hh -> ->. assert (E : forall i, first_chan row col + 4 * Z.of_nat h + Z.of_nat i = first_chan row col + Z.of_nat (4 * h + i)) by lia.
  rewrite requantize4; [|intros i Hi; rewrite E; apply HQ; lia]. unfold grid. apply w4_eq. intros i Hi. unfold multd, expod, side. rewrite Ec, E. reflexivity.
Qed.
Lemma requantized_col : forall F row col h c u v, (forall j, (j < 8)%nat -> fixed_point (bdat Mu (first_chan row col + Z.of_nat j)) /\ exponent (bdat Ex (first_chan row col + Z.of_nat j))) -> cc = true -> (c < 8)%nat ->
  u = first_chan row col + Z.of_nat c -> v = first_chan row col + Z.of_nat c ->
  requantized (w4 (fun i => F (4 * h + i)%nat c)) (w4 (fun _ => bdat Mu u)) (w4 (fun _ => bdat Ex v)) = grid (fun i c => neon_lane (F i c) (multd row col i c) (expod row col i c)) h c.
Proof.
  intros F row col h c u v HQ Ec Hc -> ->. rewrite requantize4; [|intros i Hi; apply HQ; lia]. unfold grid. apply w4_eq. intros i Hi. unfold multd, expod, side. rewrite Ec. reflexivity.
Qed.

(** The multipliers, and the shifts to the left and right. *)
Record factors (row col : Z) (s0 s : state) : Prop := {
  f_9 : vs s 9 = w4 (fun i => bdat Ex (first_chan row col + Z.of_nat i) - right_of (bdat Ex (first_chan row col + Z.of_nat i))); f_10 : vs s 10 = w4 (fun i => bdat Ex (first_chan row col + 4 + Z.of_nat i) - right_of (bdat Ex (first_chan row col + 4 + Z.of_nat i)));
  f_11 : vs s 11 = w4 (fun i => right_of (bdat Ex (first_chan row col + Z.of_nat i))); f_12 : vs s 12 = w4 (fun i => right_of (bdat Ex (first_chan row col + 4 + Z.of_nat i)));
  f_14 : vs s 14 = w4 (fun i => bdat Mu (first_chan row col + Z.of_nat i)); f_15 : vs s 15 = w4 (fun i => bdat Mu (first_chan row col + 4 + Z.of_nat i));
  f_mem : mem s = mem s0; f_keep : keep mainregs s0 s; f_keepv : keepv ([0; 1; 2; 3; 13] ++ allv)%nat s0 s }.
Lemma factorsd : forall D T row col s, kmem8 D T (mem s) -> core8 s -> xs s 6 = Int kflags8 -> xs s 46 = Int row -> xs s 47 = Int col -> vs s 8 = minus_one ->
  0 <= row <= lr -> 0 <= col <= lc -> first_chan row col + 8 <= blen Mu -> first_chan row col + 8 <= blen Ex ->
  reach 20 tail8 167 s (fun pc s' => pc = (if cc then 237 else 187)%nat /\ factors row col s s').
Proof.
  intros D T row col s [M0 M1 M2 M3 M4 M5 M6 M7 M8 M9] [C8 C9 C10 C11 C12 C48 C49 C50 C51 C52] X6 X46 X47 V8 Hrow Hcol HM HE.
  assert (BM : blen (enc 4 Mu) = 4 * blen Mu) by reflexivity. assert (BE : blen (enc 4 Ex) = 4 * blen Ex) by reflexivity.
  assert (HC : 0 <= first_chan row col) by (unfold first_chan, chn; destruct hpc, cc; lia). assert (Hw : 0 <= chn row col < 2 ^ 31) by (unfold chn; destruct cc; lia).
  begin. do 3 kstepd. eapply k_cselw with (t := negb cc) (z := chn row col) (v := chn row col); [reflexivity|look; flag8|unfold chn; destruct cc; cbn [negb]; reads|apply Z.mod_small; lia|]. look.
  do 2 kstepd. eapply r_cselx with (t := negb hpc) (v := Ptr 9 (4 * first_chan row col)); [reflexivity|look; flag8|look; unfold first_chan; destruct hpc; cbn [negb]; look; f_equal; lia|]. look.
  do 2 kstepd. rewrite (get_enc4 Ex (first_chan row col)) by lia. rewrite (get_enc4 Ex (first_chan row col + 4)) by lia. do 2 (kstepd; rewrite ?smin4). do 2 (kstepd; rewrite sub4). do 2 kstepd.
  eapply r_cselx with (t := negb hpc) (v := Ptr 8 (4 * first_chan row col)); [reflexivity|look; flag8|look; unfold first_chan; destruct hpc; cbn [negb]; look; f_equal; lia|]. look.
  do 2 kstepd. rewrite (get_enc4 Mu (first_chan row col)) by lia. rewrite (get_enc4 Mu (first_chan row col + 4)) by lia. kstepd.
  eapply reach_b with (b := cc); [reflexivity|reflexivity|look; cbn [holds f_eq]; f_equal; flag8|]. finish. split; [reflexivity|]. constructor; look; try reflexivity; kept_here.
Qed.

Lemma requantize_row : forall row col F s0 s, factors row col s0 s -> outs (grid F) s -> cc = false ->
  (forall j, (j < 8)%nat -> fixed_point (bdat Mu (first_chan row col + Z.of_nat j)) /\ exponent (bdat Ex (first_chan row col + Z.of_nat j))) ->
  reach 50 tail8 187 s (fun pc s' => pc = 303%nat /\ outs (grid (fun i c => neon_lane (F i c) (multd row col i c) (expod row col i c))) s' /\ mem s' = mem s /\ keep mainregs s s' /\ keepv [0; 1; 2; 3; 13]%nat s s').
Proof.
  intros row col F s0 s [V9 V10 V11 V12 V14 V15 _ _ _] [O16 O17 O18 O19 O20 O21 O22 O23 O24 O25 O26 O27 O28 O29 O30 O31] Ec HQ.
  rewrite <- sub4, <- smin4 in V9, V10. rewrite <- smin4 in V11, V12. unfold grid in O16, O17, O18, O19, O20, O21, O22, O23, O24, O25, O26, O27, O28, O29, O30, O31.
  begin. do 17 kstepd. do 16 kstepd. do 16 kstepd. eapply reach_b with (b := true); [reflexivity|reflexivity|reflexivity|]. finish. split; [reflexivity|].
  split; [|split; [reflexivity|split; kept_here]]. rewrite !requantized_eq.
  constructor; look; apply (requantized_row F row col); try assumption; lia.
Qed.
Lemma requantize_col : forall row col F s0 s, factors row col s0 s -> outs (grid F) s -> cc = true ->
  (forall j, (j < 8)%nat -> fixed_point (bdat Mu (first_chan row col + Z.of_nat j)) /\ exponent (bdat Ex (first_chan row col + Z.of_nat j))) ->
  reach 66 tail8 237 s (fun pc s' => pc = 303%nat /\ outs (grid (fun i c => neon_lane (F i c) (multd row col i c) (expod row col i c))) s' /\ mem s' = mem s /\ keep mainregs s s' /\ keepv [0; 1; 2; 3; 13]%nat s s').
Proof.
  intros row col F s0 s [V9 V10 V11 V12 V14 V15 _ _ _] [O16 O17 O18 O19 O20 O21 O22 O23 O24 O25 O26 O27 O28 O29 O30 O31] Ec HQ.
  unfold grid in O16, O17, O18, O19, O20, O21, O22, O23, O24, O25, O26, O27, O28, O29, O30, O31.
  begin. do 26 (kstepd; dups). do 16 (kstepd; rewrite sqdmulh_lane4 by lia). do 24 (kstepd; dups). finish. split; [reflexivity|].
  split; [|split; [reflexivity|split; kept_here]].
  constructor; look; rewrite requantized_one; apply (requantized_col F row col); try assumption; lia.
Qed.
End Dot.
