(** Kernel8bitNeonDotprod1Col (kernel_arm64.cc:5669-6353), one block of rows. *)
From Coq Require Import ZArith List Bool Lia.
From Verif Require Import Base Mat Simd SimdFacts SpecSimd Kernel8bitFacts RequantProps Neon64 NeonRun NeonTac NeonCols NeonPack NeonKTac NeonKernelF NeonKernelT NeonKernel8Code Neon8Lanes Neon8Tac.
Import ListNotations.
Open Scope Z_scope.

Section Block.
Variables (Lb Rb Bi SL SR Mu Ex : buf Z) (lo ro dof lzw rzw dzp pzw sr sc lr lc dr dc ls rs ds K cmin cmax : Z) (hb hls hrs hpc cc : bool) (drz dcz ty tyz : Z).
(** The flags (kernel_common.h:58-63). *)
Definition kflags8 : Z := (if hb then 1 else 0) + (if hls then 2 else 0) + (if hrs then 4 else 0) + (if hpc then 8 else 0) + 16 + (if cc then 32 else 0).
(** The members of KernelParams8bit. *)
Definition kfields8 : list (Z * Z * val) :=
  [(0, 8, Ptr 3 0); (8, 8, Ptr 6 0); (16, 8, Ptr 7 0); (24, 8, Ptr 1 lo); (32, 8, Ptr 8 0); (40, 8, Ptr 9 0); (48, 8, Ptr 2 ro); (56, 8, Ptr 4 dof);
   (64, 4, Int lzw); (68, 4, Int rzw); (72, 4, Int (wrap_u 32 dzp)); (76, 4, Int pzw); (80, 4, Int sr); (84, 4, Int sc); (88, 4, Int lr); (92, 4, Int lc); (96, 4, Int dr); (100, 4, Int dc);
   (104, 4, Int ls); (108, 4, Int rs); (112, 4, Int ds); (116, 4, Int K);
   (120, 1, Int (wrap_u 8 cmin)); (120, 2, Int (wrap_u 16 cmin)); (120, 4, Int (wrap_u 32 cmin)); (124, 1, Int (wrap_u 8 cmax)); (124, 2, Int (wrap_u 16 cmax)); (124, 4, Int (wrap_u 32 cmax));
   (128, 1, Int kflags8)].
Record kmem8 (D T : buf Z) (m : memory) : Prop := {
  k8_0 : m 0%nat = Struct kfields8; k8_1 : m 1%nat = Bytes (enc 1 Lb); k8_2 : m 2%nat = Bytes (enc 1 Rb); k8_3 : m 3%nat = Bytes (enc 4 Bi); k8_4 : m 4%nat = Bytes D; k8_5 : m 5%nat = Bytes T;
  k8_6 : m 6%nat = Bytes (enc 4 SL); k8_7 : m 7%nat = Bytes (enc 4 SR); k8_8 : m 8%nat = Bytes (enc 4 Mu); k8_9 : m 9%nat = Bytes (enc 4 Ex) }.
Record core8 (s : state) : Prop := {
  e8 : xs s 8 = Int lc; e9 : xs s 9 = Int ls; e10 : xs s 10 = Int rs; e11 : xs s 11 = Int ds; e12 : xs s 12 = Int K;
  e48 : xs s 48 = Ptr 0 0; e49 : xs s 49 = Int drz; e50 : xs s 50 = Int dcz; e51 : xs s 51 = Ptr 5 0; e52 : xs s 52 = Int tyz }.
Definition coreregs : list nat := [8; 9; 10; 11; 12; 48; 49; 50; 51; 52]%nat.
Lemma core8_keep : forall s s', core8 s -> keep coreregs s s' -> core8 s'.
Proof. intros s s' [] H. constructor; rewrite (keep_read _ _ _ _ H) by (cbn; tauto); assumption. Qed.

Hypothesis Hlr : 0 <= sr <= lr /\ lr < dr /\ dr < 2 ^ 31 /\ lr + 8 < 2 ^ 31.
Hypothesis Hlc : 0 <= sc <= lc /\ lc < dc /\ dc < 2 ^ 31 /\ lc + 8 < 2 ^ 31.
Hypothesis Hst : 0 <= ls < 2 ^ 31 /\ 0 <= rs < 2 ^ 31 /\ 0 <= ds < 2 ^ 31.
Hypothesis Hdr : drz mod 2 ^ 32 = dr.
Hypothesis Hdc : dcz mod 2 ^ 32 = dc.
Hypothesis Hty : tyz mod 2 ^ 32 = ty.
Hypothesis Hty4 : 1 <= ty <= 4.

(** ** Sums of products *)
(** The sixteen bytes of rows 4h to 4h + 3 at levels 4t to 4t + 3; eight bytes of the right. *)
Definition lvec (lp : Z) (h t : nat) : list Z := get_bytes (enc 1 Lb) (lp + 32 * Z.of_nat t + 16 * Z.of_nat h) 16.
Definition rvec (rp : Z) (t : nat) : list Z := extend (get_bytes (enc 1 Rb) (rp + 32 * Z.of_nat t) 8).
(** Row [i] and column [c] of the block, levels 4t to 4t + 3. *)
Definition four (lp rp : Z) (i c t : nat) : Z :=
  quad (fun e => wrap_s 8 (bdat Lb (lp + 32 * Z.of_nat t + 4 * Z.of_nat i + Z.of_nat e))) (fun e => wrap_s 8 (bdat Rb (rp + 32 * Z.of_nat t + 4 * Z.of_nat c + Z.of_nat e))).
Fixpoint dotted (lp rp : Z) (i c p : nat) : Z := match p with O => 0 | S p => dotted lp rp i c p + four lp rp i c p end.
Definition sums8 (lp rp : Z) (h c p : nat) : list Z := w4 (fun i => dotted lp rp (4 * h + i) c p).

Lemma quad_ext : forall a b a' b', (forall e, (e < 4)%nat -> a e = a' e) -> (forall e, (e < 4)%nat -> b e = b' e) -> quad a b = quad a' b'.
Proof. intros a b a' b' H1 H2. unfold quad. rewrite !H1, !H2 by lia. reflexivity. Qed.
Lemma sdot_sums : forall lp rp h t, sdot_lane (sums8 lp rp h 0 t) (lvec lp h t) (rvec rp t) 0 = sums8 lp rp h 0 (S t).
Proof.
  intros lp rp h t. unfold sums8, lvec, rvec. rewrite !get_enc1, extend8, sdot_lane4 by lia. apply w4_eq. intros i Hi. cbn [dotted]. f_equal. apply quad_ext; intros e He; unfold sbyte.
  - f_equal. f_equal. lia.
  - replace (Nat.ltb (4 * 0 + e) 8) with true by (symmetry; apply Nat.ltb_lt; lia). f_equal. f_equal. lia.
Qed.
Lemma no_sums : forall lp rp h c, repeat 0 16 = sums8 lp rp h c 0.
Proof. reflexivity. Qed.

Notation code := kernel8_dotprod_1col.
Definition otherregs : list nat := [5; 6; 7; 8; 9; 10; 11; 12; 40; 41; 44; 45; 46; 47; 48; 49; 50; 51; 52]%nat.
(** [p] blocks of levels have been loaded; the products of the last one have not been added to v17. *)
Record deep8 (lp rp : Z) (p : nat) (s0 s : state) : Prop := {
  q_1 : xs s 1 = Int (4 * Z.of_nat p); q_42 : xs s 42 = Ptr 1 (lp + 32 * Z.of_nat p); q_43 : xs s 43 = Ptr 2 (rp + 32 * Z.of_nat p);
  q_0 : vs s 0 = lvec lp 0 (p - 1); q_v1 : vs s 1 = lvec lp 1 (p - 1); q_2 : vs s 2 = rvec rp (p - 1);
  q_16 : vs s 16 = sums8 lp rp 0 0 p; q_17 : vs s 17 = sums8 lp rp 1 0 (p - 1);
  q_mem : mem s = mem s0; q_keep : keep otherregs s0 s; q_keepv : keepv [13]%nat s0 s }.

Lemma deep_body : forall D T lp rp p s0 s, kmem8 D T (mem s0) -> xs s0 12 = Int K -> (1 <= p)%nat -> 4 * Z.of_nat p < K -> K < 2 ^ 31 - 4 -> deep8 lp rp p s0 s ->
  0 <= lp /\ lp + 8 * K <= blen Lb -> 0 <= rp /\ rp + 8 * K <= blen Rb -> K mod 4 = 0 ->
  reach 10 code 19 s (fun pc s' => pc = (if (4 * Z.of_nat (S p) <? K)%Z then 19 else 29)%nat /\ deep8 lp rp (S p) s0 s').
Proof.
  intros D T lp rp p s0 s [M0 M1 M2 M3 M4 M5 M6 M7 M8 M9] X12 Hp HpK HK [Q1 Q42 Q43 Q0 Qv1 Q2 Q16 Q17 QM QK QV] HL HR H4.
  assert (HpK4 : 4 * Z.of_nat p + 4 <= K) by (pose proof (Z.div_mod K 4); lia).
  rewrite <- QM in M1, M2. assert (Y12 : xs s 12 = Int K) by (rewrite (keep_read _ _ _ _ QK) by (cbn; tauto); exact X12).
  assert (BL : blen (enc 1 Lb) = blen Lb) by apply Z.mul_1_l. assert (BR : blen (enc 1 Rb) = blen Rb) by apply Z.mul_1_l.
  begin. do 9 kstep8. eapply reach_b with (b := (4 * Z.of_nat p + 4 <? K)); [reflexivity|reflexivity|reflexivity|].
  finish. replace (4 * Z.of_nat (S p)) with (4 * Z.of_nat p + 4) by lia. split; [reflexivity|].
  assert (E : S p = S (S (p - 1))) by lia.
  constructor; look.
  - f_equal. lia.
  - f_equal. lia.
  - f_equal. lia.
  - unfold lvec. f_equal. lia.
  - unfold lvec. f_equal. lia.
  - unfold rvec. f_equal. f_equal. lia.
  - replace (get_bytes (enc 1 Lb) (lp + 32 * Z.of_nat p) 16) with (lvec lp 0 p) by (unfold lvec; f_equal; lia). apply sdot_sums.
  - replace (S p - 1)%nat with (S (p - 1)) by lia. apply sdot_sums.
  - exact QM.
  - eapply keep_trans; [exact QK|kept_here].
  - eapply keepv_trans; [exact QV|kept_here].
Qed.

Lemma deep_loop : forall D T lp rp n p s0 s, kmem8 D T (mem s0) -> xs s0 12 = Int K -> (1 <= p)%nat -> 4 * Z.of_nat (p + S n) = K -> K < 2 ^ 31 - 4 -> deep8 lp rp p s0 s ->
  0 <= lp /\ lp + 8 * K <= blen Lb -> 0 <= rp /\ rp + 8 * K <= blen Rb ->
  reach (10 * S n) code 19 s (fun pc s' => pc = 29%nat /\ deep8 lp rp (p + S n) s0 s').
Proof.
  intros D T lp rp. induction n as [|n IH]; intros p s0 s HM X12 Hp HpK HK HD HL HR.
  - eapply reach_weaken; [eapply (deep_body D T lp rp p s0 s); try assumption; [lia|rewrite <- HpK, Z.mul_comm; apply Z.mod_mul; lia]|lia|].
    intros pc s' [-> HD']. replace (4 * Z.of_nat (S p) <? K) with false by (symmetry; apply Z.ltb_ge; lia). split; [reflexivity|]. replace (p + 1)%nat with (S p) by lia. exact HD'.
  - replace (10 * S (S n))%nat with (10 + 10 * S n)%nat by lia. eapply reach_trans; [eapply (deep_body D T lp rp p s0 s); try assumption; [lia|rewrite <- HpK, Z.mul_comm; apply Z.mod_mul; lia]|].
    intros pc s' [-> HD']. replace (4 * Z.of_nat (S p) <? K) with true by (symmetry; apply Z.ltb_lt; lia).
    replace (p + S (S n))%nat with (S p + S n)%nat by lia. apply (IH (S p) s0 s'); try assumption; lia.
Qed.

(** All products have been added. *)
Record dotted8 (lp rp : Z) (n : nat) (s0 s : state) : Prop := {
  z_16 : vs s 16 = sums8 lp rp 0 0 n; z_17 : vs s 17 = sums8 lp rp 1 0 n; z_mem : mem s = mem s0; z_keep : keep otherregs s0 s; z_keepv : keepv [13]%nat s0 s }.
Lemma depth8 : forall D T lp rp n s0 s, kmem8 D T (mem s0) -> xs s0 12 = Int K -> 4 * Z.of_nat (S n) = K -> K < 2 ^ 31 - 4 -> deep8 lp rp 1 s0 s ->
  0 <= lp /\ lp + 8 * K <= blen Lb -> 0 <= rp /\ rp + 8 * K <= blen Rb ->
  reach (10 * n + 5) code 16 s (fun pc s' => pc = 31%nat /\ dotted8 lp rp (S n) s0 s').
Proof.
  intros D T lp rp n s0 s HM X12 Hn HK HD HL HR.
  assert (Hend : forall s1, deep8 lp rp (S n) s0 s1 -> reach 2 code 29 s1 (fun pc s' => pc = 31%nat /\ dotted8 lp rp (S n) s0 s')).
  { intros s1 [Q1 Q42 Q43 Q0 Qv1 Q2 Q16 Q17 QM QK QV]. begin. do 2 kstep8. finish. split; [reflexivity|]. constructor; look; [exact Q16| |exact QM|eapply keep_trans; [exact QK|kept_here]|eapply keepv_trans; [exact QV|kept_here]].
    replace (S n - 1)%nat with n by lia. apply sdot_sums. }
  assert (Hstart : reach 3 code 16 s (fun pc s' => pc = (if (4 =? K)%Z then 29 else 19)%nat /\ deep8 lp rp 1 s0 s')).
  { pose proof HD as [Q1 Q42 Q43 Q0 Qv1 Q2 Q16 Q17 QM QK QV]. assert (Y12 : xs s 12 = Int K) by (rewrite (keep_read _ _ _ _ QK) by (cbn; tauto); exact X12).
    change (4 * Z.of_nat 1) with 4 in Q1. begin. do 2 kstep8. eapply reach_b with (b := (4 =? K)); [reflexivity|reflexivity|reflexivity|]. finish. split; [reflexivity|].
    constructor; look; assumption. }
  destruct n as [|n].
  - replace (10 * 0 + 5)%nat with (3 + 2)%nat by lia. eapply reach_trans; [exact Hstart|]. intros pc s1 [-> H1]. replace (4 =? K) with true by (symmetry; apply Z.eqb_eq; lia). apply Hend, H1.
  - replace (10 * S n + 5)%nat with (3 + (10 * S n + 2))%nat by lia. eapply reach_trans; [exact Hstart|]. intros pc s1 [-> H1]. replace (4 =? K) with false by (symmetry; apply Z.eqb_neq; lia).
    eapply reach_trans; [apply (deep_loop D T lp rp n 1 s0 s1); try assumption; lia|]. intros pc s2 [-> H2]. apply Hend, H2.
Qed.

(** ** The next block's pointers *)
Definition next_lhs8 (row p : Z) : Z := if row <? lr then p + ls * 8 else lo.
Definition next_rhs8 (row col p : Z) : Z := if row <? lr then p else if col <? lc then p + rs * 8 else p.
Lemma pointers8 : forall row col p q s, core8 s -> xs s 5 = Ptr 1 lo -> xs s 7 = Int lr -> xs s 40 = Ptr 1 p -> xs s 41 = Ptr 2 q -> xs s 46 = Int row -> xs s 47 = Int col ->
  0 <= row <= lr -> 0 <= col <= lc ->
  reach 12 code 31 s (fun pc s' => pc = 43%nat /\ xs s' 40 = Ptr 1 (next_lhs8 row p) /\ xs s' 41 = Ptr 2 (next_rhs8 row col q) /\ xs s' 42 = Ptr 1 (next_lhs8 row p) /\ xs s' 43 = Ptr 2 (next_rhs8 row col q) /\
    mem s' = mem s /\ keep [8; 9; 10; 11; 12; 44; 45; 46; 47; 48; 49; 50; 51; 52]%nat s s' /\ vs s' = vs s).
Proof.
  intros row col p q s [C8 C9 C10 C11 C12 C48 C49 C50 C51 C52] X5 X7 X40 X41 X46 X47 Hrow Hcol. unfold next_lhs8, next_rhs8.
  begin. kstep8. eapply reach_b with (b := negb (row <? lr)); [reflexivity|reflexivity|reflexivity|].
  destruct (Z.ltb_spec row lr) as [E|E]; cbn [negb].
  - kstep8. eapply reach_b with (b := true); [reflexivity|reflexivity|reflexivity|]. do 3 kstep8. finish. repeat (split; [first [reflexivity|reads|kept_here]|]). reflexivity.
  - do 3 kstep8. eapply reach_b with (b := negb (col <? lc)); [reflexivity|reflexivity|reflexivity|].
    destruct (Z.ltb_spec col lc) as [E2|E2]; cbn [negb]; [do 4 kstep8|do 3 kstep8]; finish; repeat (split; [first [reflexivity|reads|kept_here]|]); reflexivity.
Qed.

(** ** Biases, and the next block's first levels *)
Ltac flag8 := unfold kflags8; destruct hb, hls, hrs, hpc, cc; reflexivity.
Definition bias8 (row : Z) (i : nat) : Z := bdat Bi ((if hb then row else 0) + Z.of_nat i).
Definition chan8 (row : Z) : Z := if hpc then row else 0.
Record loaded8 (row col p q : Z) (s0 s : state) : Prop := {
  w_4 : xs s 4 = Ptr 8 (4 * chan8 row); w_6 : xs s 6 = Int kflags8; w_42 : xs s 42 = Ptr 1 (p + 32); w_43 : xs s 43 = Ptr 2 (q + 32);
  w_0 : vs s 0 = lvec p 0 0; w_1 : vs s 1 = lvec p 1 0; w_2 : vs s 2 = rvec q 0; w_8 : vs s 8 = minus_one; w_9 : vs s 9 = w4 (fun _ => pzw);
  w_13 : full (vs s 13); w_zp : nth 4 (ulanes 2 (vs s 13)) 0 = wrap_u 16 dzp;
  w_14 : vs s 14 = w4 (bias8 row); w_15 : vs s 15 = w4 (fun i => bias8 row (4 + i)%nat);
  w_keep : keep [8; 9; 10; 11; 12; 40; 41; 44; 45; 46; 47; 48; 49; 50; 51; 52]%nat s0 s; w_keepv : keepv [16; 17]%nat s0 s; w_mem : mem s = mem s0 }.
Lemma wrap16 : forall z, wrap_u 16 (wrap_u 32 z) = wrap_u 16 z.
Proof. intros z. unfold wrap_u. symmetry. apply (Znumtheory.Zmod_div_mod (2 ^ 16) (2 ^ 32)); [lia|lia|]. exists (2 ^ 16). reflexivity. Qed.
Lemma load8 : forall D T row col p q s, kmem8 D T (mem s) -> core8 s -> xs s 42 = Ptr 1 p -> xs s 43 = Ptr 2 q -> xs s 46 = Int row -> full (vs s 13) ->
  0 <= row <= lr -> 0 <= p /\ p + 32 <= blen Lb -> 0 <= q /\ q + 32 <= blen Rb -> (if hb then row else 0) + 8 <= blen Bi ->
  reach 20 code 43 s (fun pc s' => pc = 63%nat /\ loaded8 row col p q s s').
Proof.
  intros D T row col p q s [M0 M1 M2 M3 M4 M5 M6 M7 M8 M9] [C8 C9 C10 C11 C12 C48 C49 C50 C51 C52] X42 X43 X46 F13 Hrow HL HR HB.
  assert (BL : blen (enc 1 Lb) = blen Lb) by apply Z.mul_1_l. assert (BR : blen (enc 1 Rb) = blen Rb) by apply Z.mul_1_l. assert (BB : blen (enc 4 Bi) = 4 * blen Bi) by reflexivity.
  begin. do 9 kstep8. eapply r_cselx with (t := negb hpc) (v := Ptr 8 (4 * chan8 row)); [reflexivity|look; flag8|look; unfold chan8; destruct hpc; cbn [negb]; look; f_equal; lia|]. look.
  do 3 kstep8. eapply r_cselx with (t := negb hb) (v := Ptr 3 (4 * if hb then row else 0)); [reflexivity|look; flag8|look; destruct hb; cbn [negb]; look; f_equal; lia|]. look.
  assert (HB0 : 0 <= 4 * (if hb then row else 0)) by (destruct hb; lia). assert (HB1 : 4 * (if hb then row else 0) + 32 <= 4 * blen Bi) by (destruct hb; lia).
  do 6 kstep8. finish. split; [reflexivity|]. constructor; look; try reads_lia; try kept_here.
  - unfold lvec. f_equal. lia.
  - unfold lvec. f_equal. lia.
  - unfold rvec. f_equal. f_equal. lia.
  - apply full_splice; [exact F13|lia].
  - rewrite (lane_h4 (vs s 13) (wrap_u 32 dzp) F13). apply wrap16.
  - rewrite (get_enc4 Bi (if hb then row else 0)) by reflexivity. reflexivity.
  - rewrite (get_enc4 Bi ((if hb then row else 0) + 4)) by lia. apply w4_eq. intros i Hi. unfold bias8. f_equal. lia.
Qed.

(** ** Zero points *)
Definition mainregs : list nat := [8; 9; 10; 11; 12; 40; 41; 42; 43; 44; 45; 46; 47; 48; 49; 50; 51; 52]%nat.
Definition rsub (col : Z) : Z := if hrs then lzw * bdat SR col else 0.
Definition lsub (row : Z) (i : nat) : Z := if hls then bdat SL (row + Z.of_nat i) * rzw else 0.
Lemma right_sums : forall D T col f g b b' s, kmem8 D T (mem s) -> core8 s -> xs s 6 = Int kflags8 -> xs s 47 = Int col -> vs s 16 = w4 f -> vs s 17 = w4 g -> vs s 9 = w4 (fun _ => pzw) ->
  vs s 14 = w4 b -> vs s 15 = w4 b' -> 0 <= col <= lc -> (hrs = true -> col + 8 <= blen SR) ->
  reach 15 code 63 s (fun pc s' => pc = 77%nat /\ vs s' 16 = w4 (fun i => f i + (b i + pzw) - rsub col) /\ vs s' 17 = w4 (fun i => g i + (b' i + pzw) - rsub col) /\
    mem s' = mem s /\ keep (4 :: 6 :: mainregs)%nat s s' /\ keepv [0; 1; 2; 8; 13]%nat s s').
Proof.
  intros D T col f g b b' s [M0 M1 M2 M3 M4 M5 M6 M7 M8 M9] [C8 C9 C10 C11 C12 C48 C49 C50 C51 C52] X6 X47 V16 V17 V9 V14 V15 Hcol HS.
  assert (BS : blen (enc 4 SR) = 4 * blen SR) by reflexivity.
  begin. do 2 (kstep8; rewrite add4). do 2 (kstep8; rewrite add4). kstep8. eapply reach_b with (b := negb hrs); [reflexivity|reflexivity|look; cbn [holds f_eq]; f_equal; flag8|]. destruct hrs eqn:Eh; cbn [negb].
  - specialize (HS eq_refl). do 6 kstep8. rewrite (get_enc4 SR col) by lia. rewrite dup_w4. do 2 (kstep8; rewrite mls_lane4 by lia). finish. unfold rsub. rewrite Eh. split; [reflexivity|].
    assert (E : forall h, w4 (fun i => h i - lzw * bdat SR (col + Z.of_nat 0)) = w4 (fun i => h i - lzw * bdat SR col)).
    { intros h. apply w4_eq. intros i _. rewrite Z.add_0_r. reflexivity. }
    split; [look; apply (E (fun i => f i + (b i + pzw)))|]. split; [look; apply (E (fun i => g i + (b' i + pzw)))|]. split; [reflexivity|]. split; kept_here.
  - finish. unfold rsub. rewrite Eh. split; [reflexivity|]. split; [look; apply w4_eq; intros; lia|]. split; [look; apply w4_eq; intros; lia|]. split; [reflexivity|]. split; kept_here.
Qed.

Definition raw : bool := hls && (ty =? 4).
Lemma left_sums : forall D T row f g s, kmem8 D T (mem s) -> core8 s -> xs s 6 = Int kflags8 -> xs s 46 = Int row -> vs s 16 = w4 f -> vs s 17 = w4 g ->
  full (vs s 13) -> nth 4 (ulanes 2 (vs s 13)) 0 = wrap_u 16 dzp -> 0 <= row <= lr -> (hls = true -> row + 8 <= blen SL) ->
  reach 16 code 77 s (fun pc s' => pc = (if raw then 262 else 92)%nat /\ vs s' 16 = w4 (fun i => f i - lsub row i) /\ vs s' 17 = w4 (fun i => g i - lsub row (4 + i)) /\
    full (vs s' 13) /\ nth 4 (ulanes 2 (vs s' 13)) 0 = wrap_u 16 dzp /\ mem s' = mem s /\ keep (4 :: 6 :: mainregs)%nat s s' /\ keepv [0; 1; 2; 8]%nat s s').
Proof.
  intros D T row f g s [M0 M1 M2 M3 M4 M5 M6 M7 M8 M9] [C8 C9 C10 C11 C12 C48 C49 C50 C51 C52] X6 X46 V16 V17 F13 Z13 Hrow HS.
  assert (BS : blen (enc 4 SL) = 4 * blen SL) by reflexivity.
  begin. do 2 kstep8. eapply reach_b with (b := negb hls); [reflexivity|reflexivity|look; cbn [holds f_eq]; f_equal; flag8|]. destruct hls eqn:Eh; cbn [negb].
  - specialize (HS eq_refl). do 5 kstep8. rewrite (get_enc4 SL row) by lia. rewrite (get_enc4 SL (row + 4)) by lia. kstep8.
    do 2 (kstep8; rewrite (mul_lane4 _ (splice (vs s 13) (4 * 1) (bytes_of 4 rzw)) 1 rzw (lane_s1 _ rzw F13))). do 2 (kstep8; rewrite sub4).
    kstep8. eapply reach_b with (b := (ty =? 4)); [reflexivity|reflexivity|reflexivity|]. finish. unfold lsub, raw. rewrite Eh. cbn [andb]. split; [reflexivity|].
    split; [look; reflexivity|]. split; [look; apply w4_eq; intros i Hi; f_equal; f_equal; f_equal; lia|].
    split; [look; apply full_splice; [exact F13|lia]|].
    split; [look; rewrite <- Z13; clear -F13; expand_full; reflexivity|]. split; [reflexivity|]. split; kept_here.
  - finish. unfold lsub, raw. rewrite Eh. cbn [andb]. split; [reflexivity|]. split; [look; rewrite V16; apply w4_eq; intros; lia|]. split; [look; rewrite V17; apply w4_eq; intros; lia|].
    split; [exact F13|]. split; [exact Z13|]. split; [reflexivity|]. split; kept_here.
Qed.

(** ** Requantization *)
Lemma requantized_eq : forall x m e, vop_val (Srshl 4) (vop_val (Sqdmulh 4) (vop_val (Sshl 4) x (vop_val (VSub 4) e (vop_val (Smin 4) minus_one e))) m) (vop_val (Smin 4) minus_one e) = requantized x m e.
Proof. reflexivity. Qed.
Definition mult8 (row : Z) (i : nat) : Z := bdat Mu (chan8 row + Z.of_nat i).
Definition expo8 (row : Z) (i : nat) : Z := bdat Ex (chan8 row + Z.of_nat i).
Lemma requantize8 : forall D T row f g s, kmem8 D T (mem s) -> core8 s -> xs s 6 = Int kflags8 -> xs s 4 = Ptr 8 (4 * chan8 row) -> xs s 46 = Int row -> vs s 16 = w4 f -> vs s 17 = w4 g ->
  vs s 8 = minus_one -> 0 <= row <= lr -> chan8 row + 8 <= blen Mu -> chan8 row + 8 <= blen Ex -> (forall i, (i < 8)%nat -> fixed_point (mult8 row i) /\ exponent (expo8 row i)) ->
  reach 20 code 92 s (fun pc s' => pc = 112%nat /\ vs s' 16 = w4 (fun i => neon_lane (f i) (mult8 row i) (expo8 row i)) /\
    vs s' 17 = w4 (fun i => neon_lane (g i) (mult8 row (4 + i)) (expo8 row (4 + i))) /\ mem s' = mem s /\ keep mainregs s s' /\ keepv [0; 1; 2; 13]%nat s s').
Proof.
  intros D T row f g s [M0 M1 M2 M3 M4 M5 M6 M7 M8 M9] [C8 C9 C10 C11 C12 C48 C49 C50 C51 C52] X6 X4 X46 V16 V17 V8 Hrow HM HE HQ.
  assert (BM : blen (enc 4 Mu) = 4 * blen Mu) by reflexivity. assert (BE : blen (enc 4 Ex) = 4 * blen Ex) by reflexivity.
  assert (HC : 0 <= chan8 row) by (unfold chan8; destruct hpc; lia).
  begin. do 4 kstep8. eapply r_cselx with (t := negb hpc) (v := Ptr 9 (4 * chan8 row)); [reflexivity|look; flag8|look; unfold chan8; destruct hpc; cbn [negb]; look; f_equal; lia|]. look.
  do 15 kstep8. finish. split; [reflexivity|].
  assert (E : forall b o, 4 * chan8 row + o = 4 * (chan8 row + o / 4) -> get_bytes (enc 4 b) (4 * chan8 row + o) 16 = w4 (fun i => bdat b (chan8 row + o / 4 + Z.of_nat i))).
  { intros b o Ho. apply get_enc4, Ho. }
  rewrite !(E Mu 0), !(E Mu 16), !(E Ex 0), !(E Ex 16) by reflexivity || lia.
  change (0 / 4) with 0. change (16 / 4) with 4. rewrite !requantized_eq. look.
  split; [|split; [|split; [reflexivity|split; kept_here]]].
  - rewrite requantize4; [apply w4_eq; intros i Hi; unfold mult8, expo8; rewrite !Z.add_0_r; reflexivity|].
    intros i Hi. rewrite !Z.add_0_r. apply (HQ i). lia.
  - rewrite requantize4.
    + apply w4_eq. intros i Hi. unfold mult8, expo8. replace (chan8 row + 4 + Z.of_nat i) with (chan8 row + Z.of_nat (4 + i)) by lia. reflexivity.
    + intros i Hi. replace (chan8 row + 4 + Z.of_nat i) with (chan8 row + Z.of_nat (4 + i)) by lia. apply (HQ (4 + i)%nat). lia.
Qed.

(** ** Copying from the temporary buffer *)
Lemma copy_u8 : forall D T q nr n r s, (r + S n = nr)%nat -> (nr <= 8)%nat -> xs s 1 = Int (Z.of_nat nr) -> xs s 3 = Ptr 5 0 -> xs s 4 = Ptr 4 q -> xs s 5 = Int (Z.of_nat r) ->
  kmem8 (copied 1 D T q r) T (mem s) -> (forall x, 0 <= x < 8 -> 0 <= bdat T x < 256) -> 256 <= blen T -> 0 <= q -> q + 1 * Z.of_nat nr <= blen D ->
  reach (6 * S n) code 156 s (fun pc s' => pc = 162%nat /\ kmem8 (copied 1 D T q nr) T (mem s') /\ keep (1 :: 3 :: 4 :: 6 :: mainregs)%nat s s' /\ vs s' = vs s).
Proof.
  intros D T q nr. induction n as [|n IH]; intros r s Hn Hnr X1 X3 X4 X5 [M0 M1 M2 M3 M4 M5 M6 M7 M8 M9] HT HbT Hq HbD.
  all: assert (HS : reach 6 code 156 s (fun pc s' => pc = (if (Z.of_nat r + 1 <? Z.of_nat nr)%Z then 156 else 162)%nat /\ kmem8 (copied 1 D T q (S r)) T (mem s') /\ xs s' 5 = Int (Z.of_nat (S r)) /\ keep (1 :: 3 :: 4 :: 6 :: mainregs)%nat s s' /\ vs s' = vs s)) by
   (begin; kstep8; (eapply m_ldr; [reflexivity|reads|eapply uxtw; [reads|lia]|lia|mem_fact|lia|lia|lia|]); cbn [xs vs fl mem];
    (eapply m_strk with (l := get_bytes T (Z.of_nat r) 1); [reflexivity|reads|eapply uxtw; [reads|lia]|lia|reads|mem_fact|lia|rewrite copied_blen; lia|apply same_bytes; intros; apply HT; lia|]); cbn [xs vs fl mem];
    kstep8; kstep8; (eapply reach_b with (b := (Z.of_nat r + 1 <? Z.of_nat nr)); [reflexivity|reflexivity|reflexivity|]); finish;
    (split; [reflexivity|]); (split; [|split; [reads_lia|split; [kept_here|reflexivity]]]);
    constructor; look; try assumption; f_equal; cbn [copied]; apply put_eq; [reflexivity|lia|f_equal; lia]).
  - eapply reach_weaken; [exact HS|lia|]. intros pc s' (-> & HM' & H5 & HK & HV).
    replace (Z.of_nat r + 1 <? Z.of_nat nr) with false by (symmetry; apply Z.ltb_ge; lia). replace (S r) with nr in HM' by lia. auto.
  - replace (6 * S (S n))%nat with (6 + 6 * S n)%nat by lia. eapply reach_trans; [exact HS|]. intros pc s' (-> & HM' & H5 & HK & HV).
    replace (Z.of_nat r + 1 <? Z.of_nat nr) with true by (symmetry; apply Z.ltb_lt; lia).
    eapply reach_weaken; [apply (IH (S r) s'); try assumption; try lia; (rewrite (keep_read _ _ _ _ HK) by (cbn; tauto); assumption)|lia|].
    intros pc s2 (-> & HM2 & HK2 & HV2). split; [reflexivity|]. split; [exact HM2|]. split; [eapply keep_trans; eassumption|congruence].
Qed.

Lemma copy_s8 : forall D T q nr n r s, (r + S n = nr)%nat -> (nr <= 8)%nat -> xs s 1 = Int (Z.of_nat nr) -> xs s 3 = Ptr 5 0 -> xs s 4 = Ptr 4 q -> xs s 5 = Int (Z.of_nat r) ->
  kmem8 (copied 1 D T q r) T (mem s) -> (forall x, 0 <= x < 8 -> 0 <= bdat T x < 256) -> 256 <= blen T -> 0 <= q -> q + 1 * Z.of_nat nr <= blen D ->
  reach (6 * S n) code 205 s (fun pc s' => pc = 211%nat /\ kmem8 (copied 1 D T q nr) T (mem s') /\ keep (1 :: 3 :: 4 :: 6 :: mainregs)%nat s s' /\ vs s' = vs s).
Proof.
  intros D T q nr. induction n as [|n IH]; intros r s Hn Hnr X1 X3 X4 X5 [M0 M1 M2 M3 M4 M5 M6 M7 M8 M9] HT HbT Hq HbD.
  all: assert (HS : reach 6 code 205 s (fun pc s' => pc = (if (Z.of_nat r + 1 <? Z.of_nat nr)%Z then 205 else 211)%nat /\ kmem8 (copied 1 D T q (S r)) T (mem s') /\ xs s' 5 = Int (Z.of_nat (S r)) /\ keep (1 :: 3 :: 4 :: 6 :: mainregs)%nat s s' /\ vs s' = vs s)) by
   (begin; kstep8; (eapply m_ldr; [reflexivity|reads|eapply uxtw; [reads|lia]|lia|mem_fact|lia|lia|lia|]); cbn [xs vs fl mem];
    (eapply m_strk with (l := get_bytes T (Z.of_nat r) 1); [reflexivity|reads|eapply uxtw; [reads|lia]|lia|reads|mem_fact|lia|rewrite copied_blen; lia|apply same_bytes; intros; apply HT; lia|]); cbn [xs vs fl mem];
    kstep8; kstep8; (eapply reach_b with (b := (Z.of_nat r + 1 <? Z.of_nat nr)); [reflexivity|reflexivity|reflexivity|]); finish;
    (split; [reflexivity|]); (split; [|split; [reads_lia|split; [kept_here|reflexivity]]]);
    constructor; look; try assumption; f_equal; cbn [copied]; apply put_eq; [reflexivity|lia|f_equal; lia]).
  - eapply reach_weaken; [exact HS|lia|]. intros pc s' (-> & HM' & H5 & HK & HV).
    replace (Z.of_nat r + 1 <? Z.of_nat nr) with false by (symmetry; apply Z.ltb_ge; lia). replace (S r) with nr in HM' by lia. auto.
  - replace (6 * S (S n))%nat with (6 + 6 * S n)%nat by lia. eapply reach_trans; [exact HS|]. intros pc s' (-> & HM' & H5 & HK & HV).
    replace (Z.of_nat r + 1 <? Z.of_nat nr) with true by (symmetry; apply Z.ltb_lt; lia).
    eapply reach_weaken; [apply (IH (S r) s'); try assumption; try lia; (rewrite (keep_read _ _ _ _ HK) by (cbn; tauto); assumption)|lia|].
    intros pc s2 (-> & HM2 & HK2 & HV2). split; [reflexivity|]. split; [exact HM2|]. split; [eapply keep_trans; eassumption|congruence].
Qed.

Lemma copy_s16 : forall D T q nr n r s, (r + S n = nr)%nat -> (nr <= 8)%nat -> xs s 1 = Int (Z.of_nat nr) -> xs s 3 = Ptr 5 0 -> xs s 4 = Ptr 4 q -> xs s 5 = Int (Z.of_nat r) ->
  kmem8 (copied 2 D T q r) T (mem s) -> (forall x, 0 <= x < 16 -> 0 <= bdat T x < 256) -> 256 <= blen T -> 0 <= q -> q + 2 * Z.of_nat nr <= blen D ->
  reach (6 * S n) code 253 s (fun pc s' => pc = 259%nat /\ kmem8 (copied 2 D T q nr) T (mem s') /\ keep (1 :: 3 :: 4 :: 6 :: mainregs)%nat s s' /\ vs s' = vs s).
Proof.
  intros D T q nr. induction n as [|n IH]; intros r s Hn Hnr X1 X3 X4 X5 [M0 M1 M2 M3 M4 M5 M6 M7 M8 M9] HT HbT Hq HbD.
  all: assert (HS : reach 6 code 253 s (fun pc s' => pc = (if (Z.of_nat r + 1 <? Z.of_nat nr)%Z then 253 else 259)%nat /\ kmem8 (copied 2 D T q (S r)) T (mem s') /\ xs s' 5 = Int (Z.of_nat (S r)) /\ keep (1 :: 3 :: 4 :: 6 :: mainregs)%nat s s' /\ vs s' = vs s)) by
   (begin; kstep8; (eapply m_ldrs; [reflexivity|reads|eapply lsl1; [reads|lia]|lia|mem_fact|lia|lia|lia|]); cbn [xs vs fl mem];
    (eapply m_strk with (l := get_bytes T (0 + Z.of_nat r * 2) 2); [reflexivity|reads|eapply lsl1; [reads|lia]|lia|reads|mem_fact|lia|rewrite copied_blen; lia|apply same_bytes2; intros; apply HT; lia|]); cbn [xs vs fl mem];
    kstep8; kstep8; (eapply reach_b with (b := (Z.of_nat r + 1 <? Z.of_nat nr)); [reflexivity|reflexivity|reflexivity|]); finish;
    (split; [reflexivity|]); (split; [|split; [reads_lia|split; [kept_here|reflexivity]]]);
    constructor; look; try assumption; f_equal; cbn [copied]; apply put_eq; [reflexivity|lia|f_equal; lia]).
  - eapply reach_weaken; [exact HS|lia|]. intros pc s' (-> & HM' & H5 & HK & HV).
    replace (Z.of_nat r + 1 <? Z.of_nat nr) with false by (symmetry; apply Z.ltb_ge; lia). replace (S r) with nr in HM' by lia. auto.
  - replace (6 * S (S n))%nat with (6 + 6 * S n)%nat by lia. eapply reach_trans; [exact HS|]. intros pc s' (-> & HM' & H5 & HK & HV).
    replace (Z.of_nat r + 1 <? Z.of_nat nr) with true by (symmetry; apply Z.ltb_lt; lia).
    eapply reach_weaken; [apply (IH (S r) s'); try assumption; try lia; (rewrite (keep_read _ _ _ _ HK) by (cbn; tauto); assumption)|lia|].
    intros pc s2 (-> & HM2 & HK2 & HV2). split; [reflexivity|]. split; [exact HM2|]. split; [eapply keep_trans; eassumption|congruence].
Qed.

Lemma copy_s32 : forall D T q nr n r s, (r + S n = nr)%nat -> (nr <= 8)%nat -> xs s 1 = Int (Z.of_nat nr) -> xs s 3 = Ptr 5 0 -> xs s 4 = Ptr 4 q -> xs s 5 = Int (Z.of_nat r) ->
  kmem8 (copied 4 D T q r) T (mem s) -> (forall x, 0 <= x < 32 -> 0 <= bdat T x < 256) -> 256 <= blen T -> 0 <= q -> q + 4 * Z.of_nat nr <= blen D ->
  reach (6 * S n) code 297 s (fun pc s' => pc = 303%nat /\ kmem8 (copied 4 D T q nr) T (mem s') /\ keep (1 :: 3 :: 4 :: 6 :: mainregs)%nat s s' /\ vs s' = vs s).
Proof.
  intros D T q nr. induction n as [|n IH]; intros r s Hn Hnr X1 X3 X4 X5 [M0 M1 M2 M3 M4 M5 M6 M7 M8 M9] HT HbT Hq HbD.
  all: assert (HS : reach 6 code 297 s (fun pc s' => pc = (if (Z.of_nat r + 1 <? Z.of_nat nr)%Z then 297 else 303)%nat /\ kmem8 (copied 4 D T q (S r)) T (mem s') /\ xs s' 5 = Int (Z.of_nat (S r)) /\ keep (1 :: 3 :: 4 :: 6 :: mainregs)%nat s s' /\ vs s' = vs s)) by
   (begin; kstep8; (eapply m_ldr; [reflexivity|reads|eapply lsl2; [reads|lia]|lia|mem_fact|lia|lia|lia|]); cbn [xs vs fl mem];
    (eapply m_strk with (l := get_bytes T (0 + Z.of_nat r * 4) 4); [reflexivity|reads|eapply lsl2; [reads|lia]|lia|reads|mem_fact|lia|rewrite copied_blen; lia|apply same_bytes; intros; apply HT; lia|]); cbn [xs vs fl mem];
    kstep8; kstep8; (eapply reach_b with (b := (Z.of_nat r + 1 <? Z.of_nat nr)); [reflexivity|reflexivity|reflexivity|]); finish;
    (split; [reflexivity|]); (split; [|split; [reads_lia|split; [kept_here|reflexivity]]]);
    constructor; look; try assumption; f_equal; cbn [copied]; apply put_eq; [reflexivity|lia|f_equal; lia]).
  - eapply reach_weaken; [exact HS|lia|]. intros pc s' (-> & HM' & H5 & HK & HV).
    replace (Z.of_nat r + 1 <? Z.of_nat nr) with false by (symmetry; apply Z.ltb_ge; lia). replace (S r) with nr in HM' by lia. auto.
  - replace (6 * S (S n))%nat with (6 + 6 * S n)%nat by lia. eapply reach_trans; [exact HS|]. intros pc s' (-> & HM' & H5 & HK & HV).
    replace (Z.of_nat r + 1 <? Z.of_nat nr) with true by (symmetry; apply Z.ltb_lt; lia).
    eapply reach_weaken; [apply (IH (S r) s'); try assumption; try lia; (rewrite (keep_read _ _ _ _ HK) by (cbn; tauto); assumption)|lia|].
    intros pc s2 (-> & HM2 & HK2 & HV2). split; [reflexivity|]. split; [exact HM2|]. split; [eapply keep_trans; eassumption|congruence].
Qed.

(** ** Storing *)
Definition keptregs : list nat := [8; 9; 10; 11; 12; 40; 41; 42; 43; 44; 46; 47; 48; 49; 50; 51; 52]%nat.
(** [nr] elements of [sz] bytes of [out] have been stored at [ip]; the first products of the next block are in v16. *)
Definition done8 (sz ip nr : Z) (out : list Z) (np nq : Z) (D T : buf Z) (s s' : state) : Prop :=
  exists D' T', kmem8 D' T' (mem s') /\ stored ip (sz * nr) out D D' /\ blen T' = blen T /\ xs s' 45 = Ptr 4 (ip + 8 * sz) /\
    vs s' 16 = sums8 np nq 0 0 1 /\ vs s' 17 = sums8 np nq 1 0 0 /\ keep keptregs s s' /\ keepv [0; 1; 2; 13]%nat s s'.
Lemma fit_range : forall row, row <= lr -> 1 <= fit dr row <= 8.
Proof. intros row H. unfold fit. destruct (Z.leb_spec (dr - row) 8); lia. Qed.

Lemma place_u8 : forall D T row col ip np nq out s, kmem8 D T (mem s) -> core8 s -> xs s 45 = Ptr 4 ip -> xs s 46 = Int row -> xs s 47 = Int col ->
  vs s 0 = lvec np 0 0 -> vs s 2 = rvec nq 0 -> firstn 8 (vs s 16) = out -> length out = 8%nat -> Forall (fun z => 0 <= z < 256) out ->
  0 <= row <= lr -> 0 <= col <= lc -> 0 <= ip -> ip + 1 * fit dr row <= blen D -> 256 <= blen T ->
  reach 80 code 129 s (fun pc s' => pc = 305%nat /\ done8 1 ip (fit dr row) out np nq D T s s').
Proof.
  intros D T row col ip np nq out s HM [C8 C9 C10 C11 C12 C48 C49 C50 C51 C52] X45 X46 X47 V0 V2 V16 Hlen Hout Hrow Hcol Hip HD HT.
  pose proof HM as [M0 M1 M2 M3 M4 M5 M6 M7 M8 M9].
  pose proof (fit_range row ltac:(lia)) as Hnr. unfold fit in HD, Hnr |- *.
  assert (L16 : length (firstn 8 (vs s 16)) = 8%nat) by (rewrite V16; exact Hlen).
  begin. do 4 kstep8.
  eapply k_cselw with (t := (dr - row <=? 8)) (z := if dr - row <=? 8 then dr - row else 8) (v := if dr - row <=? 8 then dr - row else 8);
    [reflexivity|look; cbn [holds f_lt f_eq]; f_equal; destruct (Z.leb_spec (dr - row) 8), (Z.ltb_spec (dr - row) 8), (Z.eqb_spec (dr - row) 8); try reflexivity; lia
    |destruct (dr - row <=? 8); reads|apply small_low; lia|]. look.
  set (nr := if dr - row <=? 8 then dr - row else 8) in *. clearbody nr. do 2 kstep8.
  eapply reach_b with (b := (nr =? 8)); [reflexivity|reflexivity|reflexivity|].
  destruct (Z.eqb_spec nr 8) as [E8|E8].
  - do 5 kstep8. eapply m_st1; [reflexivity|reads|imm|lia|reads|exact L16|mem_fact|lia|lia|]. look. do 3 kstep8.
    eapply reach_b with (b := true); [reflexivity|reflexivity|reflexivity|]. do 2 kstep8. eapply reach_b with (b := true); [reflexivity|reflexivity|reflexivity|]. 
    finish. split; [reflexivity|]. exists (put D ip out), T. split; [constructor; look; try assumption; rewrite V16; reflexivity|].
    split; [apply stored_put; lia|]. split; [reflexivity|]. split; [reads_lia|]. split; [look; rewrite (no_sums np nq 0 0); apply sdot_sums|]. split; [reads|]. split; kept_here.
  - do 2 kstep8. eapply reach_b with (b := true); [reflexivity|reflexivity|reflexivity|]. do 2 kstep8. eapply m_st1; [reflexivity|reads|imm|lia|reads|exact L16|mem_fact|lia|lia|]. look. do 3 kstep8.
    eapply reach_b with (b := false); [reflexivity|reflexivity|reflexivity|]. do 6 kstep8.
    eapply reach_weaken with (n := (6 * S (Z.to_nat nr - 1) + 3)%nat); [|lia|intros ? ? HQ; exact HQ].
    eapply reach_trans; [apply (copy_u8 D (put T 0 out) ip (Z.to_nat nr) (Z.to_nat nr - 1) 0)|].
    { lia. } { lia. } { reads_lia. } { reads. } { reads. } { reads. }
    { constructor; look; try assumption. rewrite V16. reflexivity. }
    { intros x Hx. apply put_byte; [exact Hout|lia]. } { exact HT. } { exact Hip. } { lia. }
    intros pc s2 (-> & HM2 & HK2 & HV2). pose proof (keep_read _ _ _ 45%nat HK2 ltac:(cbn; tauto)) as Y45. cbn [xs upd Nat.eqb] in Y45. rewrite X45 in Y45.
    do 2 kstep8. eapply reach_b with (b := true); [reflexivity|reflexivity|reflexivity|]. 
    finish. split; [reflexivity|]. exists (copied 1 D (put T 0 out) ip (Z.to_nat nr)), (put T 0 out). split; [exact HM2|].
    split; [replace nr with (Z.of_nat (Z.to_nat nr)) at 1 by lia; apply stored_copied; [lia|exact Hlen]|]. split; [reflexivity|]. split; [reads_lia|].
    split; [look; rewrite HV2; look; rewrite (no_sums np nq 0 0); apply sdot_sums|]. split; [look; rewrite HV2; reads|].
    split; repeat constructor; look; [rewrite (keep_read _ _ _ _ HK2) by (cbn; tauto); reflexivity ..|rewrite HV2; reflexivity|rewrite HV2; reflexivity|rewrite HV2; reflexivity|rewrite HV2; reflexivity].
Qed.

Lemma place_s8 : forall D T row col ip np nq out s, kmem8 D T (mem s) -> core8 s -> xs s 45 = Ptr 4 ip -> xs s 46 = Int row -> xs s 47 = Int col ->
  vs s 0 = lvec np 0 0 -> vs s 2 = rvec nq 0 -> firstn 8 (vs s 16) = out -> length out = 8%nat -> Forall (fun z => 0 <= z < 256) out ->
  0 <= row <= lr -> 0 <= col <= lc -> 0 <= ip -> ip + 1 * fit dr row <= blen D -> 256 <= blen T ->
  reach 80 code 178 s (fun pc s' => pc = 305%nat /\ done8 1 ip (fit dr row) out np nq D T s s').
Proof.
  intros D T row col ip np nq out s HM [C8 C9 C10 C11 C12 C48 C49 C50 C51 C52] X45 X46 X47 V0 V2 V16 Hlen Hout Hrow Hcol Hip HD HT.
  pose proof HM as [M0 M1 M2 M3 M4 M5 M6 M7 M8 M9].
  pose proof (fit_range row ltac:(lia)) as Hnr. unfold fit in HD, Hnr |- *.
  assert (L16 : length (firstn 8 (vs s 16)) = 8%nat) by (rewrite V16; exact Hlen).
  begin. do 4 kstep8.
  eapply k_cselw with (t := (dr - row <=? 8)) (z := if dr - row <=? 8 then dr - row else 8) (v := if dr - row <=? 8 then dr - row else 8);
    [reflexivity|look; cbn [holds f_lt f_eq]; f_equal; destruct (Z.leb_spec (dr - row) 8), (Z.ltb_spec (dr - row) 8), (Z.eqb_spec (dr - row) 8); try reflexivity; lia
    |destruct (dr - row <=? 8); reads|apply small_low; lia|]. look.
  set (nr := if dr - row <=? 8 then dr - row else 8) in *. clearbody nr. do 2 kstep8.
  eapply reach_b with (b := (nr =? 8)); [reflexivity|reflexivity|reflexivity|].
  destruct (Z.eqb_spec nr 8) as [E8|E8].
  - do 5 kstep8. eapply m_st1; [reflexivity|reads|imm|lia|reads|exact L16|mem_fact|lia|lia|]. look. do 3 kstep8.
    eapply reach_b with (b := true); [reflexivity|reflexivity|reflexivity|]. do 2 kstep8. eapply reach_b with (b := true); [reflexivity|reflexivity|reflexivity|]. 
    finish. split; [reflexivity|]. exists (put D ip out), T. split; [constructor; look; try assumption; rewrite V16; reflexivity|].
    split; [apply stored_put; lia|]. split; [reflexivity|]. split; [reads_lia|]. split; [look; rewrite (no_sums np nq 0 0); apply sdot_sums|]. split; [reads|]. split; kept_here.
  - do 2 kstep8. eapply reach_b with (b := true); [reflexivity|reflexivity|reflexivity|]. do 2 kstep8. eapply m_st1; [reflexivity|reads|imm|lia|reads|exact L16|mem_fact|lia|lia|]. look. do 3 kstep8.
    eapply reach_b with (b := false); [reflexivity|reflexivity|reflexivity|]. do 6 kstep8.
    eapply reach_weaken with (n := (6 * S (Z.to_nat nr - 1) + 3)%nat); [|lia|intros ? ? HQ; exact HQ].
    eapply reach_trans; [apply (copy_s8 D (put T 0 out) ip (Z.to_nat nr) (Z.to_nat nr - 1) 0)|].
    { lia. } { lia. } { reads_lia. } { reads. } { reads. } { reads. }
    { constructor; look; try assumption. rewrite V16. reflexivity. }
    { intros x Hx. apply put_byte; [exact Hout|lia]. } { exact HT. } { exact Hip. } { lia. }
    intros pc s2 (-> & HM2 & HK2 & HV2). pose proof (keep_read _ _ _ 45%nat HK2 ltac:(cbn; tauto)) as Y45. cbn [xs upd Nat.eqb] in Y45. rewrite X45 in Y45.
    do 2 kstep8. eapply reach_b with (b := true); [reflexivity|reflexivity|reflexivity|]. 
    finish. split; [reflexivity|]. exists (copied 1 D (put T 0 out) ip (Z.to_nat nr)), (put T 0 out). split; [exact HM2|].
    split; [replace nr with (Z.of_nat (Z.to_nat nr)) at 1 by lia; apply stored_copied; [lia|exact Hlen]|]. split; [reflexivity|]. split; [reads_lia|].
    split; [look; rewrite HV2; look; rewrite (no_sums np nq 0 0); apply sdot_sums|]. split; [look; rewrite HV2; reads|].
    split; repeat constructor; look; [rewrite (keep_read _ _ _ _ HK2) by (cbn; tauto); reflexivity ..|rewrite HV2; reflexivity|rewrite HV2; reflexivity|rewrite HV2; reflexivity|rewrite HV2; reflexivity].
Qed.

Lemma place_s16 : forall D T row col ip np nq out s, kmem8 D T (mem s) -> core8 s -> xs s 45 = Ptr 4 ip -> xs s 46 = Int row -> xs s 47 = Int col ->
  vs s 0 = lvec np 0 0 -> vs s 2 = rvec nq 0 -> firstn 16 (vs s 16) = out -> length out = 16%nat -> Forall (fun z => 0 <= z < 256) out ->
  0 <= row <= lr -> 0 <= col <= lc -> 0 <= ip -> ip + 2 * fit dr row <= blen D -> 256 <= blen T ->
  reach 80 code 226 s (fun pc s' => pc = 305%nat /\ done8 2 ip (fit dr row) out np nq D T s s').
Proof.
  intros D T row col ip np nq out s HM [C8 C9 C10 C11 C12 C48 C49 C50 C51 C52] X45 X46 X47 V0 V2 V16 Hlen Hout Hrow Hcol Hip HD HT.
  pose proof HM as [M0 M1 M2 M3 M4 M5 M6 M7 M8 M9].
  pose proof (fit_range row ltac:(lia)) as Hnr. unfold fit in HD, Hnr |- *.
  assert (L16 : length (firstn 16 (vs s 16)) = 16%nat) by (rewrite V16; exact Hlen).
  begin. do 4 kstep8.
  eapply k_cselw with (t := (dr - row <=? 8)) (z := if dr - row <=? 8 then dr - row else 8) (v := if dr - row <=? 8 then dr - row else 8);
    [reflexivity|look; cbn [holds f_lt f_eq]; f_equal; destruct (Z.leb_spec (dr - row) 8), (Z.ltb_spec (dr - row) 8), (Z.eqb_spec (dr - row) 8); try reflexivity; lia
    |destruct (dr - row <=? 8); reads|apply small_low; lia|]. look.
  set (nr := if dr - row <=? 8 then dr - row else 8) in *. clearbody nr. do 2 kstep8.
  eapply reach_b with (b := (nr =? 8)); [reflexivity|reflexivity|reflexivity|].
  destruct (Z.eqb_spec nr 8) as [E8|E8].
  - do 5 kstep8. eapply m_st1; [reflexivity|reads|imm|lia|reads|exact L16|mem_fact|lia|lia|]. look. do 3 kstep8.
    eapply reach_b with (b := true); [reflexivity|reflexivity|reflexivity|]. do 2 kstep8. eapply reach_b with (b := true); [reflexivity|reflexivity|reflexivity|]. 
    finish. split; [reflexivity|]. exists (put D ip out), T. split; [constructor; look; try assumption; rewrite V16; reflexivity|].
    split; [apply stored_put; lia|]. split; [reflexivity|]. split; [reads_lia|]. split; [look; rewrite (no_sums np nq 0 0); apply sdot_sums|]. split; [reads|]. split; kept_here.
  - do 2 kstep8. eapply reach_b with (b := true); [reflexivity|reflexivity|reflexivity|]. do 2 kstep8. eapply m_st1; [reflexivity|reads|imm|lia|reads|exact L16|mem_fact|lia|lia|]. look. do 3 kstep8.
    eapply reach_b with (b := false); [reflexivity|reflexivity|reflexivity|]. do 6 kstep8.
    eapply reach_weaken with (n := (6 * S (Z.to_nat nr - 1) + 3)%nat); [|lia|intros ? ? HQ; exact HQ].
    eapply reach_trans; [apply (copy_s16 D (put T 0 out) ip (Z.to_nat nr) (Z.to_nat nr - 1) 0)|].
    { lia. } { lia. } { reads_lia. } { reads. } { reads. } { reads. }
    { constructor; look; try assumption. rewrite V16. reflexivity. }
    { intros x Hx. apply put_byte; [exact Hout|lia]. } { exact HT. } { exact Hip. } { lia. }
    intros pc s2 (-> & HM2 & HK2 & HV2). pose proof (keep_read _ _ _ 45%nat HK2 ltac:(cbn; tauto)) as Y45. cbn [xs upd Nat.eqb] in Y45. rewrite X45 in Y45.
    do 2 kstep8. eapply reach_b with (b := true); [reflexivity|reflexivity|reflexivity|]. 
    finish. split; [reflexivity|]. exists (copied 2 D (put T 0 out) ip (Z.to_nat nr)), (put T 0 out). split; [exact HM2|].
    split; [replace nr with (Z.of_nat (Z.to_nat nr)) at 1 by lia; apply stored_copied; [lia|exact Hlen]|]. split; [reflexivity|]. split; [reads_lia|].
    split; [look; rewrite HV2; look; rewrite (no_sums np nq 0 0); apply sdot_sums|]. split; [look; rewrite HV2; reads|].
    split; repeat constructor; look; [rewrite (keep_read _ _ _ _ HK2) by (cbn; tauto); reflexivity ..|rewrite HV2; reflexivity|rewrite HV2; reflexivity|rewrite HV2; reflexivity|rewrite HV2; reflexivity].
Qed.

Lemma narrow_u8 : forall D T f g s, kmem8 D T (mem s) -> core8 s -> vs s 16 = w4 f -> vs s 17 = w4 g -> nth 4 (ulanes 2 (vs s 13)) 0 = wrap_u 16 dzp ->
  0 <= dzp <= 255 -> 0 <= cmin <= 255 /\ 0 <= cmax <= 255 ->
  reach 13 code 116 s (fun pc s' => pc = 129%nat /\ firstn 8 (vs s' 16) = lv 1 8 (fun i => between cmin cmax (wrap_s 32 (joined f g i) + dzp)) /\ mem s' = mem s /\ keep mainregs s s' /\ keepv [0; 1; 2; 13]%nat s s').
Proof.
  intros D T f g s [M0 M1 M2 M3 M4 M5 M6 M7 M8 M9] [C8 C9 C10 C11 C12 C48 C49 C50 C51 C52] V16 V17 Z13 Hz Hc.
  begin. do 13 kstep8. finish. split; [reflexivity|]. split; [|split; [reflexivity|split; kept_here]].
  look. rewrite Z13, !dup_lv by reflexivity. rewrite <- (stored8 true f g dzp cmin cmax) by assumption. reflexivity.
Qed.

Lemma narrow_s8 : forall D T f g s, kmem8 D T (mem s) -> core8 s -> vs s 16 = w4 f -> vs s 17 = w4 g -> nth 4 (ulanes 2 (vs s 13)) 0 = wrap_u 16 dzp ->
  -128 <= dzp <= 127 -> -128 <= cmin <= 127 /\ -128 <= cmax <= 127 ->
  reach 13 code 165 s (fun pc s' => pc = 178%nat /\ firstn 8 (vs s' 16) = lv 1 8 (fun i => between cmin cmax (wrap_s 32 (joined f g i) + dzp)) /\ mem s' = mem s /\ keep mainregs s s' /\ keepv [0; 1; 2; 13]%nat s s').
Proof.
  intros D T f g s [M0 M1 M2 M3 M4 M5 M6 M7 M8 M9] [C8 C9 C10 C11 C12 C48 C49 C50 C51 C52] V16 V17 Z13 Hz Hc.
  begin. do 13 kstep8. finish. split; [reflexivity|]. split; [|split; [reflexivity|split; kept_here]].
  look. rewrite Z13, !dup_lv by reflexivity. rewrite <- (stored8 false f g dzp cmin cmax) by assumption. reflexivity.
Qed.

Lemma narrow_s16 : forall D T f g s, kmem8 D T (mem s) -> core8 s -> vs s 16 = w4 f -> vs s 17 = w4 g -> nth 4 (ulanes 2 (vs s 13)) 0 = wrap_u 16 dzp ->
  -32768 <= dzp <= 32767 -> -32768 <= cmin <= 32767 /\ -32768 <= cmax <= 32767 ->
  reach 12 code 214 s (fun pc s' => pc = 226%nat /\ vs s' 16 = lv 2 8 (fun i => between cmin cmax (wrap_s 32 (joined f g i + dzp))) /\ mem s' = mem s /\ keep mainregs s s' /\ keepv [0; 1; 2; 13]%nat s s').
Proof.
  intros D T f g s [M0 M1 M2 M3 M4 M5 M6 M7 M8 M9] [C8 C9 C10 C11 C12 C48 C49 C50 C51 C52] V16 V17 Z13 Hz Hc.
  begin. do 12 kstep8. finish. split; [reflexivity|]. split; [|split; [reflexivity|split; kept_here]].
  look. rewrite Z13, !dup_lv by reflexivity. rewrite <- (stored16 f g dzp cmin cmax) by tauto. reflexivity.
Qed.

Lemma place_s32 : forall D T row col ip np nq f g s, kmem8 D T (mem s) -> core8 s -> xs s 45 = Ptr 4 ip -> xs s 46 = Int row -> xs s 47 = Int col ->
  vs s 0 = lvec np 0 0 -> vs s 2 = rvec nq 0 -> vs s 16 = w4 f -> vs s 17 = w4 g ->
  0 <= row <= lr -> 0 <= col <= lc -> 0 <= ip -> ip + 4 * fit dr row <= blen D -> 256 <= blen T ->
  reach 90 code 262 s (fun pc s' => pc = 305%nat /\ done8 4 ip (fit dr row) (w4 f ++ w4 g) np nq D T s s').
Proof.
  intros D T row col ip np nq f g s HM [C8 C9 C10 C11 C12 C48 C49 C50 C51 C52] X45 X46 X47 V0 V2 V16 V17 Hrow Hcol Hip HD HT.
  pose proof HM as [M0 M1 M2 M3 M4 M5 M6 M7 M8 M9].
  pose proof (fit_range row ltac:(lia)) as Hnr. unfold fit in HD, Hnr |- *.
  assert (Hlen : length (w4 f ++ w4 g) = 32%nat) by reflexivity. assert (Hout : Forall (fun z => 0 <= z < 256) (w4 f ++ w4 g)) by (apply Forall_app; split; apply lv_range).
  begin. do 5 kstep8.
  eapply k_cselw with (t := (dr - row <=? 8)) (z := if dr - row <=? 8 then dr - row else 8) (v := if dr - row <=? 8 then dr - row else 8);
    [reflexivity|look; cbn [holds f_lt f_eq]; f_equal; destruct (Z.leb_spec (dr - row) 8), (Z.ltb_spec (dr - row) 8), (Z.eqb_spec (dr - row) 8); try reflexivity; lia
    |destruct (dr - row <=? 8); reads|apply small_low; lia|]. look.
  set (nr := if dr - row <=? 8 then dr - row else 8) in *. clearbody nr. kstep8.
  eapply k_cselw with (t := (dc - col <=? 8)) (z := if dc - col <=? 8 then dc - col else 8) (v := if dc - col <=? 8 then dc - col else 8);
    [reflexivity|look; cbn [holds f_lt f_eq]; f_equal; destruct (Z.leb_spec (dc - col) 8), (Z.ltb_spec (dc - col) 8), (Z.eqb_spec (dc - col) 8); try reflexivity; lia
    |destruct (dc - col <=? 8); reads|apply small_low; destruct (Z.leb_spec (dc - col) 8); lia|]. look.
  kstep8. eapply reach_b with (b := (nr =? 8)); [reflexivity|reflexivity|reflexivity|].
  destruct (Z.eqb_spec nr 8) as [E8|E8].
  - do 4 kstep8. eapply m_st1two; [reflexivity|reads|imm|lia|reads|reads|apply full_w4|apply full_w4|mem_fact|lia|lia|]. look. do 4 kstep8.
    eapply reach_b with (b := true); [reflexivity|reflexivity|reflexivity|]. do 2 kstep8.
    finish. split; [reflexivity|]. exists (put D ip (w4 f ++ w4 g)), T. split; [constructor; look; try assumption; reflexivity|].
    split; [apply stored_put; lia|]. split; [reflexivity|]. split; [reads_lia|]. split; [look; rewrite (no_sums np nq 0 0); apply sdot_sums|]. split; [reads|]. split; kept_here.
  - do 3 kstep8. eapply m_st1; [reflexivity|reads|reads|lia|reads|reflexivity|mem_fact|lia|lia|]. look. do 2 kstep8.
    eapply m_st1; [reflexivity|reads|reads|lia|reads|reflexivity|look; reflexivity|lia|cbn [put blen]; lia|]. look. kstep8.
    eapply reach_b with (b := true); [reflexivity|reflexivity|reflexivity|]. do 2 kstep8.
    eapply reach_b with (b := false); [reflexivity|reflexivity|reflexivity|]. do 6 kstep8.
    set (T2 := put (put T 0 (firstn 16 (w4 f))) (0 + 16) (firstn 16 (w4 g))).
    assert (HT2 : forall x, bdat T2 x = bdat (put T 0 (w4 f ++ w4 g)) x) by (intros x; apply put_put; reflexivity). assert (BT2 : blen T2 = blen T) by reflexivity. clearbody T2.
    eapply reach_weaken with (n := (6 * S (Z.to_nat nr - 1) + 3)%nat); [|lia|intros ? ? HQ; exact HQ].
    eapply reach_trans; [apply (copy_s32 D T2 ip (Z.to_nat nr) (Z.to_nat nr - 1) 0)|].
    { lia. } { lia. } { reads_lia. } { reads. } { reads. } { reads. }
    { constructor; look; try assumption. reflexivity. }
    { intros x Hx. rewrite HT2. apply put_byte; [exact Hout|lia]. } { rewrite BT2. exact HT. } { exact Hip. } { lia. }
    intros pc s2 (-> & HM2 & HK2 & HV2). pose proof (keep_read _ _ _ 45%nat HK2 ltac:(cbn; tauto)) as Y45. cbn [xs upd Nat.eqb] in Y45. rewrite X45 in Y45.
    do 2 kstep8.
    finish. split; [reflexivity|]. exists (copied 4 D T2 ip (Z.to_nat nr)), T2. split; [exact HM2|].
    split. { destruct (stored_copied 4 ip (Z.to_nat nr) (w4 f ++ w4 g) D T ltac:(lia) Hlen) as [S1 S2]. replace (Z.of_nat 4 * Z.of_nat (Z.to_nat nr)) with (4 * nr) in S2 by lia.
      split; [apply copied_blen|]. intros x. rewrite <- S2, !copied_at, HT2. reflexivity. }
    split; [exact BT2|]. split; [reads_lia|].
    split; [look; rewrite HV2; look; rewrite (no_sums np nq 0 0); apply sdot_sums|]. split; [look; rewrite HV2; reads|].
    split; repeat constructor; look; [rewrite (keep_read _ _ _ _ HK2) by (cbn; tauto); reflexivity ..|rewrite HV2; reflexivity|rewrite HV2; reflexivity|rewrite HV2; reflexivity|rewrite HV2; reflexivity].
Qed.

(** ** To the next block *)
Record stepped8 (row col ip dp : Z) (s s' : state) : Prop := {
  t8_1 : xs s' 1 = Int 4; t8_5 : xs s' 5 = Ptr 1 lo; t8_7 : xs s' 7 = Int lr;
  t8_44 : xs s' 44 = Ptr 4 (if row =? lr then dp + ds * 8 else dp); t8_45 : xs s' 45 = Ptr 4 (if row =? lr then dp + ds * 8 else ip);
  t8_46 : xs s' 46 = Int (if row =? lr then sr else row + 8); t8_47 : xs s' 47 = Int (if row =? lr then col + 8 else col);
  t8_mem : mem s' = mem s; t8_vs : vs s' = vs s; t8_keep : keep [8; 9; 10; 11; 12; 40; 41; 42; 43; 48; 49; 50; 51; 52]%nat s s' }.
Lemma next8 : forall D T row col dp ip s, kmem8 D T (mem s) -> core8 s -> xs s 44 = Ptr 4 dp -> xs s 45 = Ptr 4 ip -> xs s 46 = Int row -> xs s 47 = Int col ->
  0 <= row <= lr -> 0 <= col <= lc ->
  reach 17 code 305 s (fun pc s' => pc = (if ((if row =? lr then col + 8 else col) <=? lc)%Z then 16 else 322)%nat /\ stepped8 row col ip dp s s').
Proof.
  intros D T row col dp ip s [M0 M1 M2 M3 M4 M5 M6 M7 M8 M9] [C8 C9 C10 C11 C12 C48 C49 C50 C51 C52] X44 X45 X46 X47 Hrow Hcol.
  begin. do 5 kstep8. eapply reach_b with (b := (row =? lr)); [reflexivity|reflexivity|reflexivity|]. destruct (row =? lr) eqn:Er.
  - do 8 kstep8. eapply reach_b with (b := (col + 8 <=? lc)); [reflexivity|reflexivity|cbn [holds fl f_lt f_eq]; rewrite le_flag; reflexivity|].
    finish. split; [reflexivity|]. constructor; rewrite ?Er; try reads; try reflexivity; kept_here.
  - kstep8. eapply reach_b with (b := true); [reflexivity|reflexivity|reflexivity|]. do 3 kstep8.
    eapply reach_b with (b := (col <=? lc)); [reflexivity|reflexivity|cbn [holds fl f_lt f_eq]; rewrite le_flag; reflexivity|].
    finish. split; [reflexivity|]. constructor; rewrite ?Er; try reads; try reflexivity; kept_here.
Qed.

(** ** One block *)
Lemma keep_incl : forall l l' a b, forallb (fun r => existsb (Nat.eqb r) l) l' = true -> keep l a b -> keep l' a b.
Proof.
  intros l l' a b H HK. unfold keep in *. rewrite Forall_forall in *. rewrite forallb_forall in H. intros r Hr. apply HK.
  specialize (H r Hr). apply existsb_exists in H. destruct H as (x & Hx & E). apply Nat.eqb_eq in E. subst. exact Hx.
Qed.
Lemma keepv_incl : forall l l' a b, forallb (fun r => existsb (Nat.eqb r) l) l' = true -> keepv l a b -> keepv l' a b.
Proof.
  intros l l' a b H HK. unfold keepv in *. rewrite Forall_forall in *. rewrite forallb_forall in H. intros r Hr. apply HK.
  specialize (H r Hr). apply existsb_exists in H. destruct H as (x & Hx & E). apply Nat.eqb_eq in E. subst. exact Hx.
Qed.
Lemma neon_small : forall x m e, fixed_point m -> - 2 ^ 30 <= neon_lane x m e <= 2 ^ 30.
Proof.
  intros x m e Hm. unfold fixed_point, int_max in Hm. unfold neon_lane. cbv zeta. set (k := Z.max (- e) 1). assert (Hk : 1 <= k) by lia.
  assert (Hy : int_min <= neon_shifted x e <= int_max) by apply RequantFacts.wrap_s32_range. unfold int_min, int_max in Hy.
  assert (Hp : - 2 ^ 31 <= neon_shifted x e * m / 2 ^ 31 <= 2 ^ 31 - 1).
  { change (2 ^ 31) with 2147483648. split; [apply Z.div_le_lower_bound; [lia|]; nia|]. cut (neon_shifted x e * m / 2147483648 < 2147483648); [lia|]. apply Z.div_lt_upper_bound; [lia|]. nia. }
  set (p := neon_shifted x e * m / 2 ^ 31) in *. clearbody p. replace (2 ^ k) with (2 * 2 ^ (k - 1)) by (rewrite <- Z.pow_succ_r by lia; f_equal; lia).
  assert (H1 : 1 <= 2 ^ (k - 1)) by (change 1 with (2 ^ 0) at 1; apply Z.pow_le_mono_r; lia). set (h := 2 ^ (k - 1)) in *. clearbody h.
  change (2 ^ 31) with 2147483648 in Hp. change (2 ^ 30) with 1073741824. split; [apply Z.div_le_lower_bound; nia|].
  cut ((p + h) / (2 * h) < 1073741825); [lia|]. apply Z.div_lt_upper_bound; nia.
Qed.
Lemma keepv_read : forall l a b r, keepv l a b -> In r l -> vs b r = vs a r.
Proof. intros l a b r H Hr. unfold keepv in H. rewrite Forall_forall in H. apply H, Hr. Qed.
Lemma joined_map : forall (h : nat -> Z) i, (i < 8)%nat -> joined h (fun j => h (4 + j)%nat) i = h i.
Proof. intros h i Hi. unfold joined. destruct (Nat.ltb_spec i 4); [reflexivity|]. f_equal. lia. Qed.
Definition acc8 (n : nat) (row col lp rp : Z) (i : nat) : Z := dotted lp rp i 0 n + (bias8 row i + pzw) - rsub col - lsub row i.
Definition value8 (n : nat) (row col lp rp : Z) (i : nat) : Z :=
  let x := acc8 n row col lp rp i in
  let q := neon_lane x (mult8 row i) (expo8 row i) in
  if raw then x else between cmin cmax (q + dzp).
Definition size8 : nat := if raw then 4%nat else if ty =? 3 then 2%nat else 1%nat.
Definition out8 (n : nat) (row col lp rp : Z) : list Z := lv size8 8 (value8 n row col lp rp).
(** The zero point of the destination and the bounds are those of its type; 32-bit results come with sums of the left matrix. *)
Definition typed8 : Prop :=
  (ty = 1 -> 0 <= dzp <= 255 /\ 0 <= cmin <= 255 /\ 0 <= cmax <= 255) /\ (ty = 2 -> -128 <= dzp <= 127 /\ -128 <= cmin <= 127 /\ -128 <= cmax <= 127) /\
  (ty = 3 -> -32768 <= dzp <= 32767 /\ -32768 <= cmin <= 32767 /\ -32768 <= cmax <= 32767) /\ (ty = 4 -> hls = true).
Lemma size_len : forall n row col lp rp, length (out8 n row col lp rp) = (8 * size8)%nat.
Proof. intros. unfold out8. rewrite lv_length. lia. Qed.

(** From the sums to the stored results, 5887-6303. *)
Lemma finish8 : typed8 -> forall D T n row col lp rp ip np nq s, kmem8 D T (mem s) -> core8 s -> xs s 6 = Int kflags8 -> xs s 4 = Ptr 8 (4 * chan8 row) -> xs s 45 = Ptr 4 ip -> xs s 46 = Int row -> xs s 47 = Int col ->
  vs s 16 = w4 (acc8 n row col lp rp) -> vs s 17 = w4 (fun i => acc8 n row col lp rp (4 + i)) -> vs s 8 = minus_one -> vs s 0 = lvec np 0 0 -> vs s 2 = rvec nq 0 -> nth 4 (ulanes 2 (vs s 13)) 0 = wrap_u 16 dzp ->
  0 <= row <= lr -> 0 <= col <= lc -> chan8 row + 8 <= blen Mu -> chan8 row + 8 <= blen Ex -> (raw = false -> forall i, (i < 8)%nat -> fixed_point (mult8 row i) /\ exponent (expo8 row i)) ->
  0 <= ip -> ip + Z.of_nat size8 * fit dr row <= blen D -> 256 <= blen T ->
  reach 130 code (if raw then 262 else 92) s (fun pc s' => pc = 305%nat /\ done8 (Z.of_nat size8) ip (fit dr row) (out8 n row col lp rp) np nq D T s s').
Proof.
  intros (T1 & T2 & T3 & T4) D T n row col lp rp ip np nq s HM HC X6 X4 X45 X46 X47 V16 V17 V8 V0 V2 Z13 Hrow Hcol HMu HEx HQ Hip HD HT.
  unfold out8, size8, value8 in *. destruct raw eqn:Er.
  - eapply reach_weaken; [apply (place_s32 D T row col ip np nq (acc8 n row col lp rp) (fun i => acc8 n row col lp rp (4 + i)) s); assumption|lia|].
    intros pc s' [-> H]. split; [reflexivity|]. exact H.
  - specialize (HQ eq_refl). assert (Hty3 : ty = 1 \/ ty = 2 \/ ty = 3). { unfold raw in Er. destruct (Z.eqb_spec ty 4) as [E|E]; [rewrite (T4 E) in Er; discriminate|lia]. }
    change 130%nat with (20 + 110)%nat. eapply reach_trans; [apply (requantize8 D T row _ _ s HM HC X6 X4 X46 V16 V17 V8 Hrow HMu HEx HQ)|].
    intros pc s1 (-> & W16 & W17 & WM & WK & WV).
    assert (HC1 : core8 s1) by (eapply core8_keep; [exact HC|eapply keep_incl; [|exact WK]; reflexivity]).
    set (q := fun i => neon_lane (acc8 n row col lp rp i) (mult8 row i) (expo8 row i)) in *.
    assert (Hq : forall i, (i < 8)%nat -> - 2 ^ 30 <= q i <= 2 ^ 30) by (intros i Hi; apply neon_small, (HQ i Hi)).
    rewrite <- WM in HM.
    assert (Y45 : xs s1 45 = Ptr 4 ip) by (rewrite (keep_read _ _ _ _ WK) by (cbn; tauto); exact X45).
    assert (Y46 : xs s1 46 = Int row) by (rewrite (keep_read _ _ _ _ WK) by (cbn; tauto); exact X46).
    assert (Y47 : xs s1 47 = Int col) by (rewrite (keep_read _ _ _ _ WK) by (cbn; tauto); exact X47).
    rewrite <- (keepv_read _ _ _ 0 WV) in V0 by (cbn; tauto). rewrite <- (keepv_read _ _ _ 2 WV) in V2 by (cbn; tauto). rewrite <- (keepv_read _ _ _ 13 WV) in Z13 by (cbn; tauto).
    change (w4 (fun i => neon_lane (acc8 n row col lp rp i) (mult8 row i) (expo8 row i))) with (w4 q) in W16.
    change (w4 (fun i => neon_lane (acc8 n row col lp rp (4 + i)) (mult8 row (4 + i)) (expo8 row (4 + i)))) with (w4 (fun i => q (4 + i)%nat)) in W17.
    (* To the part of the type. *)
    assert (HB : reach 4 code 112 s1 (fun pc s' => pc = (if (ty =? 3)%Z then 214 else if (ty =? 2)%Z then 165 else 116)%nat /\ xs s' = xs s1 /\ vs s' = vs s1 /\ mem s' = mem s1)).
    { destruct HC1. begin. kstep8. eapply reach_b with (b := (ty =? 3)); [reflexivity|reflexivity|reflexivity|]. destruct (ty =? 3) eqn:E3; [finish; repeat split; rewrite ?E3; reflexivity|].
      kstep8. eapply reach_b with (b := (ty =? 2)); [reflexivity|reflexivity|reflexivity|]. destruct (ty =? 2) eqn:E2; finish; repeat split; rewrite ?E3, ?E2; reflexivity. }
    change 110%nat with (4 + 106)%nat. eapply reach_trans; [exact HB|]. clear HB. intros pc s2 (-> & EX & EV & EM).
    assert (HC2 : core8 s2) by (destruct HC1; constructor; rewrite EX; assumption). rewrite <- EM in HM. rewrite <- EX in Y45, Y46, Y47. rewrite <- EV in V0, V2, Z13, W16, W17.
    assert (K2 : keep mainregs s s2) by (unfold keep in *; rewrite EX; exact WK). assert (KV2 : keepv [0; 1; 2; 13]%nat s s2) by (unfold keepv in *; rewrite EV; exact WV).
    assert (FIN : forall k sz out s3, (k <= 13)%nat -> mem s3 = mem s2 -> keep mainregs s2 s3 -> keepv [0; 1; 2; 13]%nat s2 s3 -> forall pc3,
      (kmem8 D T (mem s3) -> core8 s3 -> xs s3 45 = Ptr 4 ip -> xs s3 46 = Int row -> xs s3 47 = Int col -> vs s3 0 = lvec np 0 0 -> vs s3 2 = rvec nq 0 ->
       reach 80 code pc3 s3 (fun pc s' => pc = 305%nat /\ done8 sz ip (fit dr row) out np nq D T s3 s')) ->
      reach 93 code pc3 s3 (fun pc s' => pc = 305%nat /\ done8 sz ip (fit dr row) out np nq D T s s')).
    { intros k sz out s3 _ M3 K3 KV3 pc3 HR. eapply reach_weaken; [apply HR|lia|].
      - rewrite M3. exact HM.
      - eapply core8_keep; [exact HC2|eapply keep_incl; [|exact K3]; reflexivity].
      - rewrite (keep_read _ _ _ _ K3) by (cbn; tauto). exact Y45.
      - rewrite (keep_read _ _ _ _ K3) by (cbn; tauto). exact Y46.
      - rewrite (keep_read _ _ _ _ K3) by (cbn; tauto). exact Y47.
      - rewrite (keepv_read _ _ _ _ KV3) by (cbn; tauto). exact V0.
      - rewrite (keepv_read _ _ _ _ KV3) by (cbn; tauto). exact V2.
      - intros pc s' [-> (D' & T' & A1 & A2 & A3 & A4 & A5 & A6 & A7 & A8)]. split; [reflexivity|]. exists D', T'. repeat (split; [assumption|]).
        split; [apply (keep_trans _ _ s3); [|exact A7]; apply (keep_trans _ _ s2); eapply keep_incl; [|exact K2| |exact K3]; reflexivity|].
        apply (keepv_trans _ _ s3); [apply (keepv_trans _ _ s2); assumption|exact A8]. }
    destruct Hty3 as [E|[E|E]]; rewrite E in HD |- *; cbn [Z.eqb Pos.eqb] in HD |- *.
    + specialize (T1 E). change 106%nat with (13 + 93)%nat. eapply reach_trans; [apply (narrow_u8 D T q (fun i => q (4 + i)%nat) s2); tauto|].
      intros pc s3 (-> & R16 & M3 & K3 & KV3). apply (FIN 13%nat); try assumption; [lia|]. intros.
      apply (place_u8 D T row col ip np nq _ s3); try assumption; [|reflexivity|apply lv_range].
      rewrite R16. apply lv_ext. intros i Hi. rewrite joined_map by exact Hi. rewrite wrap_s_small by (specialize (Hq i Hi); lia). reflexivity.
    + specialize (T2 E). change 106%nat with (13 + 93)%nat. eapply reach_trans; [apply (narrow_s8 D T q (fun i => q (4 + i)%nat) s2); tauto|].
      intros pc s3 (-> & R16 & M3 & K3 & KV3). apply (FIN 13%nat); try assumption; [lia|]. intros.
      apply (place_s8 D T row col ip np nq _ s3); try assumption; [|reflexivity|apply lv_range].
      rewrite R16. apply lv_ext. intros i Hi. rewrite joined_map by exact Hi. rewrite wrap_s_small by (specialize (Hq i Hi); lia). reflexivity.
    + specialize (T3 E). change 106%nat with (13 + 93)%nat. eapply reach_trans; [eapply reach_weaken with (n := 12%nat); [apply (narrow_s16 D T q (fun i => q (4 + i)%nat) s2); tauto|lia|intros ? ? HQ'; exact HQ']|].
      intros pc s3 (-> & R16 & M3 & K3 & KV3). apply (FIN 13%nat); try assumption; [lia|]. intros.
      apply (place_s16 D T row col ip np nq _ s3); try assumption; [|reflexivity|apply lv_range].
      rewrite R16. apply (lv_ext 2 8). intros i Hi. rewrite joined_map by exact Hi. rewrite wrap_s_small by (specialize (Hq i Hi); lia). reflexivity.
Qed.

(** At the start of a block, 5753. *)
Record at8 (D : buf Z) (row col lp rp ip dp : Z) (s : state) : Prop := {
  a8_mem : exists T, 256 <= blen T /\ kmem8 D T (mem s); a8_core : core8 s; a8_1 : xs s 1 = Int 4; a8_5 : xs s 5 = Ptr 1 lo; a8_7 : xs s 7 = Int lr;
  a8_40 : xs s 40 = Ptr 1 lp; a8_41 : xs s 41 = Ptr 2 rp; a8_42 : xs s 42 = Ptr 1 (lp + 32); a8_43 : xs s 43 = Ptr 2 (rp + 32); a8_44 : xs s 44 = Ptr 4 dp; a8_45 : xs s 45 = Ptr 4 ip; a8_46 : xs s 46 = Int row; a8_47 : xs s 47 = Int col;
  a8_v0 : vs s 0 = lvec lp 0 0; a8_v1 : vs s 1 = lvec lp 1 0; a8_v2 : vs s 2 = rvec rp 0; a8_v16 : vs s 16 = sums8 lp rp 0 0 1; a8_v17 : vs s 17 = sums8 lp rp 1 0 0; a8_v13 : full (vs s 13) }.
Definition next_col8 (row col : Z) : Z := if row =? lr then col + 8 else col.

Lemma block8 : typed8 -> forall D n row col lp rp ip dp s, at8 D row col lp rp ip dp s -> 4 * Z.of_nat (S n) = K -> K < 2 ^ 31 - 4 -> 0 <= row <= lr -> 0 <= col <= lc ->
  0 <= lp /\ lp + 8 * K <= blen Lb -> 0 <= rp /\ rp + 8 * K <= blen Rb -> 0 <= next_lhs8 row lp /\ next_lhs8 row lp + 32 <= blen Lb -> 0 <= next_rhs8 row col rp /\ next_rhs8 row col rp + 32 <= blen Rb ->
  (if hb then row else 0) + 8 <= blen Bi -> (hrs = true -> col + 8 <= blen SR) -> (hls = true -> row + 8 <= blen SL) ->
  chan8 row + 8 <= blen Mu -> chan8 row + 8 <= blen Ex -> (raw = false -> forall i, (i < 8)%nat -> fixed_point (mult8 row i) /\ exponent (expo8 row i)) ->
  0 <= ip -> ip + Z.of_nat size8 * fit dr row <= blen D ->
  reach (10 * n + 220) code 16 s (fun pc s' => pc = (if (next_col8 row col <=? lc)%Z then 16 else 322)%nat /\ exists D', stored ip (Z.of_nat size8 * fit dr row) (out8 (S n) row col lp rp) D D' /\
    at8 D' (if row =? lr then sr else row + 8) (next_col8 row col) (next_lhs8 row lp) (next_rhs8 row col rp) (if row =? lr then dp + ds * 8 else ip + 8 * Z.of_nat size8) (if row =? lr then dp + ds * 8 else dp) s').
Proof.
  intros Ht D n row col lp rp ip dp s [(T & HT & HM) HC X1 X5 X7 X40 X41 X42 X43 X44 X45 X46 X47 V0 V1 V2 V16 V17 V13] HK HK2 Hrow Hcol HL HR HNL HNR HB HSR HSL HMu HEx HQ Hip HD.
  replace (10 * n + 220)%nat with (10 * n + 5 + (12 + (20 + (15 + (16 + (130 + (17 + 5)))))))%nat by lia.
  (* Products *)
  eapply reach_trans; [apply (depth8 D T lp rp n s s HM (e12 s HC) HK HK2); [|exact HL|exact HR]|].
  { constructor; try assumption; try reflexivity; apply Forall_forall; intros; reflexivity. }
  intros pc s1 (-> & [Z16 Z17 ZM ZK ZV]).
  assert (R1 : forall r, In r otherregs -> xs s1 r = xs s r) by (intros r; apply (keep_read _ _ _ _ ZK)).
  assert (C1 : core8 s1) by (eapply core8_keep; [exact HC|eapply keep_incl; [|exact ZK]; reflexivity]).
  (* Pointers *)
  eapply reach_trans; [apply (pointers8 row col lp rp s1 C1); try assumption; (rewrite R1 by (cbn; tauto); assumption)|].
  intros pc s2 (-> & Y40 & Y41 & Y42 & Y43 & YM & YK & YV). set (np := next_lhs8 row lp) in *. set (nq := next_rhs8 row col rp) in *.
  assert (K2 : keep [8; 9; 10; 11; 12; 44; 45; 46; 47; 48; 49; 50; 51; 52]%nat s s2) by (apply (keep_trans _ _ s1); [eapply keep_incl; [|exact ZK]; reflexivity|exact YK]).
  assert (C2 : core8 s2) by (eapply core8_keep; [exact HC|eapply keep_incl; [|exact K2]; reflexivity]).
  assert (M2 : mem s2 = mem s) by congruence. rewrite <- M2 in HM.
  assert (Y46 : xs s2 46 = Int row) by (rewrite (keep_read _ _ _ _ K2) by (cbn; tauto); exact X46). assert (Y47 : xs s2 47 = Int col) by (rewrite (keep_read _ _ _ _ K2) by (cbn; tauto); exact X47).
  assert (F13 : full (vs s2 13)) by (rewrite YV, (keepv_read _ _ _ _ ZV) by (cbn; tauto); exact V13).
  rewrite <- YV in Z16, Z17.
  (* Loads *)
  eapply reach_trans; [apply (load8 D T row col np nq s2 HM C2); assumption|].
  intros pc s3 (-> & [W4 W6 W42 W43 W0 W1 W2 W8 W9 W13 WZ W14 W15 WK WV WM]).
  assert (C3 : core8 s3) by (eapply core8_keep; [exact C2|eapply keep_incl; [|exact WK]; reflexivity]). rewrite <- WM in HM.
  assert (W46 : xs s3 46 = Int row) by (rewrite (keep_read _ _ _ _ WK) by (cbn; tauto); exact Y46). assert (W47 : xs s3 47 = Int col) by (rewrite (keep_read _ _ _ _ WK) by (cbn; tauto); exact Y47).
  rewrite <- (keepv_read _ _ _ 16 WV) in Z16 by (cbn; tauto). rewrite <- (keepv_read _ _ _ 17 WV) in Z17 by (cbn; tauto).
  (* Sums of the right matrix *)
  eapply reach_trans; [apply (right_sums D T col _ _ _ _ s3 HM C3 W6 W47 Z16 Z17 W9 W14 W15 Hcol HSR)|].
  intros pc s4 (-> & U16 & U17 & UM & UK & UV).
  assert (C4 : core8 s4) by (eapply core8_keep; [exact C3|eapply keep_incl; [|exact UK]; reflexivity]). rewrite <- UM in HM.
  assert (U46 : xs s4 46 = Int row) by (rewrite (keep_read _ _ _ _ UK) by (cbn; tauto); exact W46). assert (U47 : xs s4 47 = Int col) by (rewrite (keep_read _ _ _ _ UK) by (cbn; tauto); exact W47).
  rewrite <- (keep_read _ _ _ 6 UK) in W6 by (cbn; tauto). rewrite <- (keep_read _ _ _ 4 UK) in W4 by (cbn; tauto).
  rewrite <- (keepv_read _ _ _ 13 UV) in W13, WZ by (cbn; tauto). rewrite <- (keepv_read _ _ _ 0 UV) in W0 by (cbn; tauto). rewrite <- (keepv_read _ _ _ 1 UV) in W1 by (cbn; tauto). rewrite <- (keepv_read _ _ _ 2 UV) in W2 by (cbn; tauto). rewrite <- (keepv_read _ _ _ 8 UV) in W8 by (cbn; tauto).
  (* Sums of the left matrix *)
  eapply reach_trans; [apply (left_sums D T row _ _ s4 HM C4 W6 U46 U16 U17 W13 WZ Hrow HSL)|].
  intros pc s5 (-> & S16 & S17 & S13 & SZ & SM & SK & SV).
  assert (C5 : core8 s5) by (eapply core8_keep; [exact C4|eapply keep_incl; [|exact SK]; reflexivity]). rewrite <- SM in HM.
  rewrite <- (keep_read _ _ _ 46 SK) in U46 by (cbn; tauto). rewrite <- (keep_read _ _ _ 47 SK) in U47 by (cbn; tauto). rewrite <- (keep_read _ _ _ 6 SK) in W6 by (cbn; tauto). rewrite <- (keep_read _ _ _ 4 SK) in W4 by (cbn; tauto).
  rewrite <- (keepv_read _ _ _ 0 SV) in W0 by (cbn; tauto). rewrite <- (keepv_read _ _ _ 1 SV) in W1 by (cbn; tauto). rewrite <- (keepv_read _ _ _ 2 SV) in W2 by (cbn; tauto). rewrite <- (keepv_read _ _ _ 8 SV) in W8 by (cbn; tauto).
  assert (K5 : keep [8; 9; 10; 11; 12; 44; 45; 46; 47; 48; 49; 50; 51; 52]%nat s s5).
  { apply (keep_trans _ _ s2); [exact K2|]. apply (keep_trans _ _ s3); [eapply keep_incl; [|exact WK]; reflexivity|]. apply (keep_trans _ _ s4); eapply keep_incl; [|exact UK| |exact SK]; reflexivity. }
  assert (K5b : keep [42; 43]%nat s3 s5) by (apply (keep_trans _ _ s4); eapply keep_incl; [|exact UK| |exact SK]; reflexivity).
  assert (K5c : keep [40; 41]%nat s2 s5) by (apply (keep_trans _ _ s3); [eapply keep_incl; [|exact WK]; reflexivity|]; apply (keep_trans _ _ s4); eapply keep_incl; [|exact UK| |exact SK]; reflexivity).
  assert (S45 : xs s5 45 = Ptr 4 ip) by (rewrite (keep_read _ _ _ _ K5) by (cbn; tauto); exact X45). assert (S44 : xs s5 44 = Ptr 4 dp) by (rewrite (keep_read _ _ _ _ K5) by (cbn; tauto); exact X44).
  (* Results *)
  eapply reach_trans; [apply (finish8 Ht D T (S n) row col lp rp ip np nq s5 HM C5 W6 W4 S45 U46 U47); try assumption|].
  intros pc s6 (-> & D' & T' & G1 & G2 & G3 & G4 & G5 & G6 & G7 & G8).
  assert (C6 : core8 s6) by (eapply core8_keep; [exact C5|eapply keep_incl; [|exact G7]; reflexivity]).
  assert (R6 : forall r, In r keptregs -> xs s6 r = xs s5 r) by (intros r; apply (keep_read _ _ _ _ G7)).
  eapply reach_weaken; [apply (next8 D' T' row col dp (ip + 8 * Z.of_nat size8) s6 G1 C6); try assumption; (rewrite R6 by (cbn; tauto); assumption)|lia|].
  intros pc s7 (-> & [T1 T5 T7 T44 T45 T46 T47 TM TV TK]). split; [reflexivity|]. exists D'. split; [exact G2|].
  assert (R7 : forall r, In r [8; 9; 10; 11; 12; 40; 41; 42; 43; 48; 49; 50; 51; 52]%nat -> xs s7 r = xs s6 r) by (intros r; apply (keep_read _ _ _ _ TK)).
  constructor; try assumption.
  - exists T'. rewrite G3, TM. split; [exact HT|exact G1].
  - eapply core8_keep; [exact C6|eapply keep_incl; [|exact TK]; reflexivity].
  - rewrite R7, R6, (keep_read _ _ _ _ K5c) by (cbn; tauto). exact Y40.
  - rewrite R7, R6, (keep_read _ _ _ _ K5c) by (cbn; tauto). exact Y41.
  - rewrite R7, R6, (keep_read _ _ _ _ K5b) by (cbn; tauto). exact W42.
  - rewrite R7, R6, (keep_read _ _ _ _ K5b) by (cbn; tauto). exact W43.
  - rewrite TV, (keepv_read _ _ _ _ G8) by (cbn; tauto). exact W0.
  - rewrite TV, (keepv_read _ _ _ _ G8) by (cbn; tauto). exact W1.
  - rewrite TV, (keepv_read _ _ _ _ G8) by (cbn; tauto). exact W2.
  - rewrite TV. exact G5.
  - rewrite TV. exact G6.
  - rewrite TV, (keepv_read _ _ _ _ G8) by (cbn; tauto). exact S13.
Qed.

(** ** All blocks *)
Lemma room : forall s i, 0 <= s -> 0 <= i -> 0 <= 8 * s * i.
Proof. intros. nia. Qed.
Lemma room2 : forall s i n, 0 <= s -> 0 <= i < n -> 8 * s * i + 8 * s <= 8 * s * n.
Proof. intros. nia. Qed.
Lemma dst_room : forall z i nb d f p len, 0 <= z -> 0 <= i < nb -> f = (if i =? nb - 1 then Z.min 8 (d - 8 * i) else 8) -> 8 * (nb - 1) < d -> p + z * Z.min (8 * nb) d <= len -> p + 8 * z * i + z * f <= len.
Proof.
  intros z i nb d f p len Hz Hi -> Hd H. assert (8 * i + (if i =? nb - 1 then Z.min 8 (d - 8 * i) else 8) <= Z.min (8 * nb) d) by (destruct (Z.eqb_spec i (nb - 1)); lia).
  set (f := if i =? nb - 1 then _ else _) in *. clearbody f. assert (z * (8 * i + f) <= z * Z.min (8 * nb) d) by (apply Z.mul_le_mono_nonneg_l; assumption). lia.
Qed.
Lemma prologue8 : forall D T s, kmem8 D T (mem s) -> 256 <= blen T -> xs s 40 = Ptr 1 lo -> xs s 41 = Ptr 2 ro -> xs s 42 = Ptr 1 lo -> xs s 43 = Ptr 2 ro -> xs s 44 = Ptr 4 dof -> xs s 45 = Ptr 4 dof ->
  xs s 46 = Int sr -> xs s 47 = Int sc -> xs s 48 = Ptr 0 0 -> xs s 49 = Int drz -> xs s 50 = Int dcz -> xs s 51 = Ptr 5 0 -> xs s 52 = Int tyz -> full (vs s 13) ->
  0 <= lo /\ lo + 32 <= blen Lb -> 0 <= ro /\ ro + 32 <= blen Rb ->
  reach 16 code 0 s (fun pc s' => pc = 16%nat /\ at8 D sr sc lo ro dof dof s').
Proof.
  intros D T s HM HT X40 X41 X42 X43 X44 X45 X46 X47 X48 X49 X50 X51 X52 F13 HL HR. pose proof HM as [M0 M1 M2 M3 M4 M5 M6 M7 M8 M9].
  assert (BL : blen (enc 1 Lb) = blen Lb) by apply Z.mul_1_l. assert (BR : blen (enc 1 Rb) = blen Rb) by apply Z.mul_1_l.
  begin. do 16 kstep8. finish. split; [reflexivity|].
  assert (EL : get_bytes (enc 1 Lb) lo 16 = lvec lo 0 0) by (unfold lvec; f_equal; lia).
  assert (EL2 : get_bytes (enc 1 Lb) (lo + 16) 16 = lvec lo 1 0) by (unfold lvec; f_equal; lia).
  assert (ER : extend (get_bytes (enc 1 Rb) ro 8) = rvec ro 0) by (unfold rvec; f_equal; f_equal; lia).
  constructor; try (constructor; reads_lia); look; try assumption; try reads_lia; try (f_equal; lia).
  - exists T. split; assumption.
  - rewrite ER, EL. rewrite (no_sums lo ro 0 0). apply sdot_sums.
Qed.

Hypothesis Hcol1 : sc = lc.
Variable nb : Z.
Hypothesis Hnb : 1 <= nb /\ lr = sr + 8 * (nb - 1).
(** [cnt] elements have been stored. *)
Definition written8 (n : nat) (cnt : Z) (D0 D : buf Z) : Prop :=
  blen D = blen D0 /\ forall x, bdat D x =
    if (dof <=? x) && (x <? dof + Z.of_nat size8 * cnt)
    then let b := (x - dof) / (8 * Z.of_nat size8) in nth (Z.to_nat ((x - dof) mod (8 * Z.of_nat size8))) (out8 n (sr + 8 * b) sc (lo + 8 * ls * b) ro) 0
    else bdat D0 x.
Lemma size8_pos : 1 <= Z.of_nat size8 <= 4.
Proof. unfold size8. destruct raw; [lia|]. destruct (ty =? 3); lia. Qed.
Lemma written_next : forall n i m D0 D D', 0 <= i -> 0 <= m <= 8 -> written8 n (8 * i) D0 D ->
  stored (dof + 8 * Z.of_nat size8 * i) (Z.of_nat size8 * m) (out8 n (sr + 8 * i) sc (lo + 8 * ls * i) ro) D D' -> written8 n (8 * i + m) D0 D'.
Proof.
  intros n i m D0 D D' Hi Hm [W1 W2] [S1 S2]. pose proof size8_pos as Hs. split; [congruence|]. intros x. rewrite S2, W2. cbv zeta. set (z := Z.of_nat size8) in *. clearbody z.
  destruct (Z.leb_spec (dof + 8 * z * i) x) as [H1|H1]; destruct (Z.ltb_spec x (dof + 8 * z * i + z * m)) as [H2|H2]; cbn [andb].
  - assert (Eq : (x - dof) / (8 * z) = i) by (symmetry; apply (Z.div_unique _ _ i (x - dof - 8 * z * i)); nia).
    assert (Er : (x - dof) mod (8 * z) = x - (dof + 8 * z * i)) by (symmetry; apply (Z.mod_unique _ _ i); nia).
    replace (dof <=? x) with true by (symmetry; apply Z.leb_le; nia). replace (x <? dof + z * (8 * i + m)) with true by (symmetry; apply Z.ltb_lt; nia). cbn [andb]. rewrite Eq, Er. reflexivity.
  - replace (x <? dof + z * (8 * i)) with false by (symmetry; apply Z.ltb_ge; nia). replace (x <? dof + z * (8 * i + m)) with false by (symmetry; apply Z.ltb_ge; nia). reflexivity.
  - replace (x <? dof + z * (8 * i)) with true by (symmetry; apply Z.ltb_lt; nia). replace (x <? dof + z * (8 * i + m)) with true by (symmetry; apply Z.ltb_lt; nia). reflexivity.
  - replace (x <? dof + z * (8 * i)) with true by (symmetry; apply Z.ltb_lt; nia). replace (x <? dof + z * (8 * i + m)) with true by (symmetry; apply Z.ltb_lt; nia). reflexivity.
Qed.

Lemma blocks8 : typed8 -> forall n D0, 4 * Z.of_nat (S n) = K -> K < 2 ^ 31 - 4 -> 0 <= lo /\ K <= ls /\ lo + 8 * ls * nb <= blen Lb -> 0 <= ro /\ ro + 8 * K <= blen Rb ->
  (if hb then sr + 8 * nb else 8) <= blen Bi -> (hrs = true -> sc + 8 <= blen SR) -> (hls = true -> sr + 8 * nb <= blen SL) ->
  (if hpc then sr + 8 * nb else 8) <= blen Mu -> (if hpc then sr + 8 * nb else 8) <= blen Ex -> (raw = false -> forall r, 0 <= r < (if hpc then sr + 8 * nb else 8) -> fixed_point (bdat Mu r) /\ exponent (bdat Ex r)) ->
  0 <= dof -> dof + Z.of_nat size8 * Z.min (8 * nb) (dr - sr) <= blen D0 ->
  forall m i D s, 0 <= i -> nb - i = Z.of_nat (S m) -> written8 (S n) (8 * i) D0 D -> at8 D (sr + 8 * i) sc (lo + 8 * ls * i) ro (dof + 8 * Z.of_nat size8 * i) dof s ->
  reach ((10 * n + 220) * S m) code 16 s (fun pc s' => pc = 322%nat /\ exists D' T, kmem8 D' T (mem s') /\ written8 (S n) (Z.min (8 * nb) (dr - sr)) D0 D').
Proof.
  intros Ht n D0 HK HK2 HL HR HB HSR HSL HMu HEx HQ Hdof HD.
  assert (HP : forall i, 0 <= i < nb -> 8 * ls * i + 8 * ls <= 8 * ls * nb) by (intros; apply room2; lia).
  induction m as [|m IH]; intros i D s Hi Hm HW HA.
  all: assert (PB : (if hb then sr + 8 * i else 0) + 8 <= blen Bi) by (destruct hb; lia);
    assert (PM : chan8 (sr + 8 * i) + 8 <= blen Mu) by (unfold chan8; destruct hpc; lia); assert (PE : chan8 (sr + 8 * i) + 8 <= blen Ex) by (unfold chan8; destruct hpc; lia);
    assert (PQ : raw = false -> forall r, (r < 8)%nat -> fixed_point (mult8 (sr + 8 * i) r) /\ exponent (expo8 (sr + 8 * i) r)) by (intros Er r Hr; unfold mult8, expo8, chan8; apply (HQ Er); destruct hpc; lia);
    assert (PS : hls = true -> sr + 8 * i + 8 <= blen SL) by (intros E; specialize (HSL E); lia);
    pose proof size8_pos as Hs; pose proof (HP i ltac:(lia)) as Pi;
    assert (Hin : 0 <= i < nb) by lia; assert (Pi0 : 0 <= 8 * ls * i) by (apply room; lia); assert (Pz0 : 0 <= 8 * Z.of_nat size8 * i) by (apply room; lia);
    assert (HF : fit dr (sr + 8 * i) = if i =? nb - 1 then Z.min 8 (dr - sr - 8 * i) else 8) by (unfold fit; destruct (Z.leb_spec (dr - (sr + 8 * i)) 8), (Z.eqb_spec i (nb - 1)); lia);
    assert (HDi : dof + 8 * Z.of_nat size8 * i + Z.of_nat size8 * fit dr (sr + 8 * i) <= blen D)
      by (rewrite (proj1 HW); apply (dst_room _ _ nb (dr - sr)); [lia|lia|exact HF|lia|exact HD]);
    assert (BK := block8 Ht D n (sr + 8 * i) sc (lo + 8 * ls * i) ro (dof + 8 * Z.of_nat size8 * i) dof s HA HK HK2 ltac:(lia) ltac:(lia) ltac:(lia) HR);
    assert (BK2 := BK ltac:(unfold next_lhs8; destruct (Z.ltb_spec (sr + 8 * i) lr); [pose proof (HP (i + 1) ltac:(lia)); lia|pose proof (HP 0 ltac:(lia)); lia])); clear BK;
    assert (PR : 0 <= next_rhs8 (sr + 8 * i) sc ro /\ next_rhs8 (sr + 8 * i) sc ro + 32 <= blen Rb) by (unfold next_rhs8; replace (sc <? lc) with false by (symmetry; apply Z.ltb_ge; lia); destruct (sr + 8 * i <? lr); lia);
    assert (BK3 := BK2 PR PB HSR PS); clear BK2;
    assert (BK4 := BK3 PM PE PQ ltac:(lia) HDi); clear BK3.
  - replace ((10 * n + 220) * 1)%nat with (10 * n + 220)%nat by lia. eapply reach_weaken; [exact BK4|lia|]. intros pc s' (-> & D' & S & A).
    unfold next_col8. replace (sr + 8 * i =? lr) with true by (symmetry; apply Z.eqb_eq; lia). replace (sc + 8 <=? lc) with false by (symmetry; apply Z.leb_gt; lia).
    split; [reflexivity|]. destruct (a8_mem _ _ _ _ _ _ _ _ A) as (T & _ & KM). exists D', T. split; [exact KM|].
    replace (Z.min (8 * nb) (dr - sr)) with (8 * i + fit dr (sr + 8 * i)) by (rewrite HF; replace (i =? nb - 1) with true by (symmetry; apply Z.eqb_eq; lia); lia).
    eapply written_next; [lia| |exact HW|exact S]. pose proof (fit_range (sr + 8 * i) ltac:(lia)). lia.
  - replace ((10 * n + 220) * S (S m))%nat with (10 * n + 220 + (10 * n + 220) * S m)%nat by lia. eapply reach_trans; [exact BK4|]. intros pc s' (-> & D' & S & A).
    unfold next_col8, next_lhs8, next_rhs8 in *. replace (sr + 8 * i =? lr) with false in * by (symmetry; apply Z.eqb_neq; lia). replace (sc <=? lc) with true by (symmetry; apply Z.leb_le; lia).
    replace (sr + 8 * i <? lr) with true in A by (symmetry; apply Z.ltb_lt; lia).
    apply (IH (i + 1) D' s'); [lia|lia| |].
    + replace (8 * (i + 1)) with (8 * i + 8) by lia. eapply written_next; [lia| |exact HW|]; [lia|].
      replace (fit dr (sr + 8 * i)) with 8 in S by (rewrite HF; replace (i =? nb - 1) with false by (symmetry; apply Z.eqb_neq; lia); reflexivity). exact S.
    + replace (sr + 8 * (i + 1)) with (sr + 8 * i + 8) by lia. replace (lo + 8 * ls * (i + 1)) with (lo + 8 * ls * i + ls * 8) by lia.
      replace (dof + 8 * Z.of_nat size8 * (i + 1)) with (dof + 8 * Z.of_nat size8 * i + 8 * Z.of_nat size8) by lia. exact A.
Qed.

(** The whole program. *)
Lemma program8 : typed8 -> forall n D0 T s, 4 * Z.of_nat (S n) = K -> K < 2 ^ 31 - 4 -> 0 <= lo /\ K <= ls /\ lo + 8 * ls * nb <= blen Lb -> 0 <= ro /\ ro + 8 * K <= blen Rb ->
  (if hb then sr + 8 * nb else 8) <= blen Bi -> (hrs = true -> sc + 8 <= blen SR) -> (hls = true -> sr + 8 * nb <= blen SL) ->
  (if hpc then sr + 8 * nb else 8) <= blen Mu -> (if hpc then sr + 8 * nb else 8) <= blen Ex -> (raw = false -> forall r, 0 <= r < (if hpc then sr + 8 * nb else 8) -> fixed_point (bdat Mu r) /\ exponent (bdat Ex r)) ->
  0 <= dof -> dof + Z.of_nat size8 * Z.min (8 * nb) (dr - sr) <= blen D0 ->
  kmem8 D0 T (mem s) -> 256 <= blen T -> xs s 40 = Ptr 1 lo -> xs s 41 = Ptr 2 ro -> xs s 42 = Ptr 1 lo -> xs s 43 = Ptr 2 ro -> xs s 44 = Ptr 4 dof -> xs s 45 = Ptr 4 dof ->
  xs s 46 = Int sr -> xs s 47 = Int sc -> xs s 48 = Ptr 0 0 -> xs s 49 = Int drz -> xs s 50 = Int dcz -> xs s 51 = Ptr 5 0 -> xs s 52 = Int tyz -> full (vs s 13) ->
  reach (16 + (10 * n + 220) * Z.to_nat nb) code 0 s (fun pc s' => pc = 322%nat /\ exists D' T, kmem8 D' T (mem s') /\ written8 (S n) (Z.min (8 * nb) (dr - sr)) D0 D').
Proof.
  intros Ht n D0 T s HK HK2 HL HR HB HSR HSL HMu HEx HQ Hdof HD HM HT. intros.
  eapply reach_trans; [apply (prologue8 D0 T s HM HT); try assumption; [|lia]|].
  - assert (8 * ls * 1 <= 8 * ls * nb) by nia. lia.
  - intros pc s1 [-> HA]. replace (Z.to_nat nb) with (S (Z.to_nat nb - 1)) by lia.
    apply (blocks8 Ht n D0 HK HK2 HL HR HB HSR HSL HMu HEx HQ Hdof HD (Z.to_nat nb - 1) 0 D0 s1); [lia|lia| |].
    + split; [reflexivity|]. intros x. replace ((dof <=? x) && (x <? dof + Z.of_nat size8 * (8 * 0))) with false; [reflexivity|].
      symmetry. destruct (Z.leb_spec dof x); [|reflexivity]. apply Z.ltb_ge. lia.
    + replace (sr + 8 * 0) with sr by lia. replace (lo + 8 * ls * 0) with lo by lia. replace (dof + 8 * Z.of_nat size8 * 0) with dof by lia. exact HA.
Qed.

End Block.
