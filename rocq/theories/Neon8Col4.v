(** Kernel8bitNeon1Col (kernel_arm64.cc:1196-1820): from the products of a block of rows to the values that are stored. *)
From Coq Require Import ZArith List Bool Lia.
From Verif Require Import Base Mat Simd SimdFacts SpecSimd Kernel8bitFacts RequantProps Neon64 NeonRun NeonTac NeonCols NeonPack NeonKTac NeonKernelF NeonKernelT NeonKernel8Code Neon8Lanes Neon8Tac Neon8Col Neon8Pairs.
Import ListNotations.
Open Scope Z_scope.

Section Block.
Variables (Lb Rb Bi SL SR Mu Ex : buf Z) (lo ro dof lzw rzw dzp pzw sr sc lr lc dr dc ls rs ds K cmin cmax : Z) (hb hls hrs hpc cc : bool) (drz dcz ty tyz : Z).
Notation km := (kmem8 Lb Rb Bi SL SR Mu Ex lo ro dof lzw rzw dzp pzw sr sc lr lc dr dc ls rs ds K cmin cmax hb hls hrs hpc cc).
Notation co := (core8 lc ls rs ds K drz dcz tyz).
Notation flags := (kflags8 hb hls hrs hpc cc).
Notation pair lp rp i t := (pairs Lb Rb lp rp i 0 t).
Notation summed lp rp i t := (sums Lb Rb lp rp i 0 t).
Hypothesis Hlr : 0 <= sr <= lr /\ lr < dr /\ dr < 2 ^ 31 /\ lr + 4 < 2 ^ 31.
Hypothesis Hlc : 0 <= sc <= lc /\ lc < dc /\ dc < 2 ^ 31 /\ lc + 4 < 2 ^ 31.
Hypothesis Hst : 0 <= ls < 2 ^ 31 /\ 0 <= rs < 2 ^ 31 /\ 0 <= ds < 2 ^ 31.
Hypothesis Hdr : drz mod 2 ^ 32 = dr.
Hypothesis Hdc : dcz mod 2 ^ 32 = dc.
Hypothesis Hty : tyz mod 2 ^ 32 = ty.
Hypothesis Hty4 : 1 <= ty <= 4.
Notation code := kernel8_1col.

Lemma keep_incl4 : forall l l' (a b : state), forallb (fun r => existsb (Nat.eqb r) l) l' = true -> keep l a b -> keep l' a b.
Proof.
  clear. intros l l' a b H HK. unfold keep in *. rewrite Forall_forall in *. intros r Hr. rewrite forallb_forall in H. specialize (H r Hr). apply existsb_exists in H. destruct H as (x & Hx & E). apply Nat.eqb_eq in E. subst x. apply HK, Hx.
Qed.
Lemma core4_keep : forall s s', co s -> keep coreregs s s' -> co s'.
Proof. clear. intros s s'. apply core8_keep. Qed.

(** ** Sums of products *)
Record deep4 (lp rp : Z) (p : nat) (s0 s : state) : Prop := {
  g_1 : xs s 1 = Int (16 * Z.of_nat p); g_42 : xs s 42 = Ptr 1 (lp + 64 * Z.of_nat p); g_43 : xs s 43 = Ptr 2 (rp + 64 * Z.of_nat p);
  g_8 : vs s 8 = pair lp rp 0 (p - 1); g_9 : vs s 9 = pair lp rp 1 (p - 1); g_10 : vs s 10 = pair lp rp 2 (p - 1); g_11 : vs s 11 = pair lp rp 3 (p - 1);
  g_16 : vs s 16 = summed lp rp 0 (p - 1); g_17 : vs s 17 = summed lp rp 1 (p - 1); g_18 : vs s 18 = summed lp rp 2 (p - 1); g_19 : vs s 19 = summed lp rp 3 (p - 1);
  g_mem : mem s = mem s0; g_keep : keep otherregs s0 s; g_keepv : keepv [13]%nat s0 s }.

Lemma body4 : forall D T lp rp p s0 s, km D T (mem s0) -> xs s0 12 = Int K -> (1 <= p)%nat -> 16 * Z.of_nat p + 16 <= K -> K < 2 ^ 31 - 16 -> deep4 lp rp p s0 s ->
  0 <= lp /\ lp + 4 * K <= blen Lb -> 0 <= rp /\ rp + 4 * K <= blen Rb ->
  reach 22 code 30 s (fun pc s' => pc = (if (16 * Z.of_nat (S p) <? K)%Z then 30 else 52)%nat /\ deep4 lp rp (S p) s0 s').
Proof.
  clear. intros D T lp rp p s0 s [M0 M1 M2 M3 M4 M5 M6 M7 M8 M9] X12 Hp HpK HK [Q1 Q42 Q43 Q8 Q9 Q10 Q11 Q16 Q17 Q18 Q19 QM QK QV] HL HR.
  rewrite <- QM in M1, M2. assert (Q12 : xs s 12 = Int K) by (rewrite (keep_read _ _ _ _ QK) by (cbn; tauto); exact X12).
  assert (BL : blen (enc 1 Lb) = blen Lb) by apply Z.mul_1_l. assert (BR : blen (enc 1 Rb) = blen Rb) by apply Z.mul_1_l.
  begin. do 21 pstep. eapply reach_b with (b := (16 * Z.of_nat p + 16 <? K)); [reflexivity|reflexivity|reflexivity|].
  finish. replace (16 * Z.of_nat (S p)) with (16 * Z.of_nat p + 16) by lia. split; [reflexivity|].
  assert (E : (S p - 1 = p)%nat) by lia. assert (E2 : p = S (p - 1)) by lia.
  constructor; look; rewrite ?E.
  - f_equal. lia.
  - f_equal. lia.
  - f_equal. lia.
  - apply (pairs_at Lb Rb lp rp 0 0); lia.
  - apply (pairs_at Lb Rb lp rp 1 0); lia.
  - apply (pairs_at Lb Rb lp rp 2 0); lia.
  - apply (pairs_at Lb Rb lp rp 3 0); lia.
  - rewrite add_pairs, <- E2. reflexivity.
  - rewrite add_pairs, <- E2. reflexivity.
  - rewrite add_pairs, <- E2. reflexivity.
  - rewrite add_pairs, <- E2. reflexivity.
  - exact QM.
  - eapply keep_trans; [exact QK|kept_here].
  - eapply keepv_trans; [exact QV|kept_here].
Qed.

Lemma loop4 : forall D T lp rp n p s0 s, km D T (mem s0) -> xs s0 12 = Int K -> (1 <= p)%nat -> 16 * Z.of_nat (p + S n) = K -> K < 2 ^ 31 - 16 -> deep4 lp rp p s0 s ->
  0 <= lp /\ lp + 4 * K <= blen Lb -> 0 <= rp /\ rp + 4 * K <= blen Rb ->
  reach (22 * S n) code 30 s (fun pc s' => pc = 52%nat /\ deep4 lp rp (p + S n) s0 s').
Proof.
  clear. intros D T lp rp. induction n as [|n IH]; intros p s0 s HM X12 Hp HpK HK HD HL HR.
  - eapply reach_weaken; [apply (body4 D T lp rp p s0 s); try assumption; lia|lia|].
    intros pc s' [-> HD']. replace (16 * Z.of_nat (S p) <? K) with false by (symmetry; apply Z.ltb_ge; lia). split; [reflexivity|]. replace (p + 1)%nat with (S p) by lia. exact HD'.
  - replace (22 * S (S n))%nat with (22 + 22 * S n)%nat by lia. eapply reach_trans; [apply (body4 D T lp rp p s0 s); try assumption; lia|].
    intros pc s' [-> HD']. replace (16 * Z.of_nat (S p) <? K) with true by (symmetry; apply Z.ltb_lt; lia).
    replace (p + S (S n))%nat with (S p + S n)%nat by lia. apply (IH (S p) s0 s'); try assumption; lia.
Qed.

Record summed4 (lp rp : Z) (n : nat) (s0 s : state) : Prop := {
  z4_16 : vs s 16 = w4 (row_sum Lb Rb lp rp 0 n); z4_mem : mem s = mem s0; z4_keep : keep otherregs s0 s; z4_keepv : keepv [13]%nat s0 s }.
Lemma depth4 : forall D T lp rp n s0 s, km D T (mem s0) -> xs s0 12 = Int K -> 16 * Z.of_nat (S n) = K -> K < 2 ^ 31 - 16 -> deep4 lp rp 1 s0 s ->
  0 <= lp /\ lp + 4 * K <= blen Lb -> 0 <= rp /\ rp + 4 * K <= blen Rb ->
  reach (22 * n + 11) code 27 s (fun pc s' => pc = 60%nat /\ summed4 lp rp (S n) s0 s').
Proof.
  clear. intros D T lp rp n s0 s HM X12 Hn HK HD HL HR.
  assert (Hend : forall s1, deep4 lp rp (S n) s0 s1 -> reach 8 code 52 s1 (fun pc s' => pc = 60%nat /\ summed4 lp rp (S n) s0 s')).
  { intros s1 [Q1 Q42 Q43 Q8 Q9 Q10 Q11 Q16 Q17 Q18 Q19 QM QK QV]. replace (S n - 1)%nat with n in * by lia.
    begin. do 8 pstep. finish. split; [reflexivity|]. constructor; look; [|exact QM|eapply keep_trans; [exact QK|kept_here]|eapply keepv_trans; [exact QV|kept_here]].
    rewrite !add_pairs. unfold sums. rewrite !addp_lanes. apply w4_eq. intros i Hi. unfold row_sum. do 4 (destruct i as [|i]; [reflexivity|]). lia. }
  assert (Hstart : reach 3 code 27 s (fun pc s' => pc = (if (16 =? K)%Z then 52 else 30)%nat /\ deep4 lp rp 1 s0 s')).
  { pose proof HD as [Q1 Q42 Q43 Q8 Q9 Q10 Q11 Q16 Q17 Q18 Q19 QM QK QV]. assert (Y12 : xs s 12 = Int K) by (rewrite (keep_read _ _ _ _ QK) by (cbn; tauto); exact X12). change (16 * Z.of_nat 1) with 16 in Q1.
    begin. do 2 pstep. eapply reach_b with (b := (16 =? K)); [reflexivity|reflexivity|reflexivity|]. finish. split; [reflexivity|]. constructor; look; assumption. }
  replace (22 * n + 11)%nat with (3 + (22 * n + 8))%nat by lia. eapply reach_trans; [exact Hstart|]. intros pc s1 [-> H1]. destruct n as [|n].
  - replace (16 =? K) with true by (symmetry; apply Z.eqb_eq; lia). apply Hend, H1.
  - replace (16 =? K) with false by (symmetry; apply Z.eqb_neq; lia).
    eapply reach_trans; [apply (loop4 D T lp rp n 1 s0 s1); try assumption; lia|]. intros pc s2 [-> H2]. apply Hend, H2.
Qed.

(** ** The next block's pointers *)
Definition next_lhs4 (row p : Z) : Z := if row <? lr then p + ls * 4 else lo.
Definition next_rhs4 (row col p : Z) : Z := if row <? lr then p else if col <? lc then p + rs * 4 else p.
Lemma pointers4 : forall row col p q s, co s -> xs s 5 = Ptr 1 lo -> xs s 7 = Int lr -> xs s 40 = Ptr 1 p -> xs s 41 = Ptr 2 q -> xs s 46 = Int row -> xs s 47 = Int col ->
  0 <= row <= lr -> 0 <= col <= lc ->
  reach 12 code 60 s (fun pc s' => pc = 72%nat /\ xs s' 40 = Ptr 1 (next_lhs4 row p) /\ xs s' 41 = Ptr 2 (next_rhs4 row col q) /\ xs s' 42 = Ptr 1 (next_lhs4 row p) /\ xs s' 43 = Ptr 2 (next_rhs4 row col q) /\
    mem s' = mem s /\ keep [8; 9; 10; 11; 12; 44; 45; 46; 47; 48; 49; 50; 51; 52]%nat s s' /\ vs s' = vs s).
Proof.
  intros row col p q s [C8 C9 C10 C11 C12 C48 C49 C50 C51 C52] X5 X7 X40 X41 X46 X47 Hrow Hcol. unfold next_lhs4, next_rhs4.
  begin. kstep8. eapply reach_b with (b := negb (row <? lr)); [reflexivity|reflexivity|reflexivity|].
  destruct (Z.ltb_spec row lr) as [E|E]; cbn [negb].
  - kstep8. eapply reach_b with (b := true); [reflexivity|reflexivity|reflexivity|]. do 3 kstep8. finish. repeat (split; [first [reflexivity|reads|kept_here]|]). reflexivity.
  - do 3 kstep8. eapply reach_b with (b := negb (col <? lc)); [reflexivity|reflexivity|reflexivity|].
    destruct (Z.ltb_spec col lc) as [E2|E2]; cbn [negb]; [do 4 kstep8|do 3 kstep8]; finish; repeat (split; [first [reflexivity|reads|kept_here]|]); reflexivity.
Qed.

(** ** Multipliers, biases and the next block's first levels *)
Ltac flag8 := unfold kflags8; destruct hb, hls, hrs, hpc, cc; reflexivity.
Notation bias := (bias8 Bi hb).
Notation chan := (chan8 hpc).
Notation mult := (mult8 Mu hpc).
Notation expo := (expo8 Ex hpc).
Record loaded4 (row p q : Z) (s0 s : state) : Prop := {
  w4_6 : xs s 6 = Int flags; w4_42 : xs s 42 = Ptr 1 (p + 64); w4_43 : xs s 43 = Ptr 2 (q + 64);
  w4_v0 : vs s 0 = get_bytes (enc 1 Lb) p 16; w4_v1 : vs s 1 = get_bytes (enc 1 Lb) (p + 16) 16; w4_v2 : vs s 2 = get_bytes (enc 1 Lb) (p + 32) 16; w4_v3 : vs s 3 = get_bytes (enc 1 Lb) (p + 48) 16; w4_v4 : vs s 4 = get_bytes (enc 1 Rb) q 16;
  w4_8 : vs s 8 = minus_one; w4_9 : vs s 9 = w4 (fun _ => pzw);
  w4_13 : full (vs s 13); w4_zp : nth 4 (ulanes 2 (vs s 13)) 0 = wrap_u 16 dzp;
  w4_14 : vs s 14 = w4 (bias row); w4_15 : vs s 15 = w4 (mult row);
  w4_keep : keep [8; 9; 10; 11; 12; 40; 41; 44; 45; 46; 47; 48; 49; 50; 51; 52]%nat s0 s; w4_keepv : keepv [16]%nat s0 s; w4_mem : mem s = mem s0 }.
Lemma load4 : forall D T row p q s, km D T (mem s) -> co s -> xs s 42 = Ptr 1 p -> xs s 43 = Ptr 2 q -> xs s 46 = Int row -> full (vs s 13) ->
  0 <= row <= lr -> 0 <= p /\ p + 64 <= blen Lb -> 0 <= q /\ q + 64 <= blen Rb -> (if hb then row else 0) + 4 <= blen Bi -> chan row + 4 <= blen Mu ->
  reach 22 code 72 s (fun pc s' => pc = 94%nat /\ loaded4 row p q s s').
Proof.
  intros D T row p q s [M0 M1 M2 M3 M4 M5 M6 M7 M8 M9] [C8 C9 C10 C11 C12 C48 C49 C50 C51 C52] X42 X43 X46 F13 Hrow HL HR HB HMu.
  assert (BL : blen (enc 1 Lb) = blen Lb) by apply Z.mul_1_l. assert (BR : blen (enc 1 Rb) = blen Rb) by apply Z.mul_1_l. assert (BB : blen (enc 4 Bi) = 4 * blen Bi) by reflexivity. assert (BM : blen (enc 4 Mu) = 4 * blen Mu) by reflexivity.
  assert (HC0 : 0 <= chan row) by (unfold chan8; destruct hpc; lia).
  begin. do 9 kstep8. eapply r_cselx with (t := negb hpc) (v := Ptr 8 (4 * chan row)); [reflexivity|look; flag8|look; unfold chan8; destruct hpc; cbn [negb]; look; f_equal; lia|]. look.
  do 4 kstep8. eapply r_cselx with (t := negb hb) (v := Ptr 3 (4 * if hb then row else 0)); [reflexivity|look; flag8|look; destruct hb; cbn [negb]; look; f_equal; lia|]. look.
  assert (HB0 : 0 <= 4 * (if hb then row else 0)) by (destruct hb; lia). assert (HB1 : 4 * (if hb then row else 0) + 16 <= 4 * blen Bi) by (destruct hb; lia).
  do 7 kstep8. finish. split; [reflexivity|]. constructor; look; try reads_lia; try kept_here.
  - apply full_splice; [exact F13|lia].
  - rewrite (lane_h4 (vs s 13) (wrap_u 32 dzp) F13). apply (wrap16 0 0 0).
  - rewrite (get_enc4 Bi (if hb then row else 0)) by lia. reflexivity.
  - rewrite (get_enc4 Mu (chan row)) by lia. reflexivity.
Qed.

(** ** Zero points *)
Notation rsubt := (rsub SR lzw hrs).
Notation lsubt := (lsub SL rzw hls).
Notation rawt := (raw hls ty).
Lemma right_sums4 : forall D T col f b s, km D T (mem s) -> co s -> xs s 6 = Int flags -> xs s 47 = Int col -> vs s 16 = w4 f -> vs s 9 = w4 (fun _ => pzw) ->
  vs s 14 = w4 b -> 0 <= col <= lc -> (hrs = true -> col + 4 <= blen SR) ->
  reach 11 code 94 s (fun pc s' => pc = 104%nat /\ vs s' 16 = w4 (fun i => f i + (b i + pzw) - rsubt col) /\
    mem s' = mem s /\ keep (6 :: mainregs)%nat s s' /\ keepv [0; 1; 2; 3; 4; 8; 13; 15]%nat s s').
Proof.
  intros D T col f b s [M0 M1 M2 M3 M4 M5 M6 M7 M8 M9] [C8 C9 C10 C11 C12 C48 C49 C50 C51 C52] X6 X47 V16 V9 V14 Hcol HS.
  assert (BS : blen (enc 4 SR) = 4 * blen SR) by reflexivity.
  begin. kstep8; rewrite add4. kstep8; rewrite add4. kstep8. eapply reach_b with (b := negb hrs); [reflexivity|reflexivity|look; cbn [holds f_eq]; f_equal; flag8|]. destruct hrs eqn:Eh; cbn [negb].
  - specialize (HS eq_refl). do 5 kstep8. rewrite (get_enc4 SR col) by lia. rewrite dup_w4. kstep8; rewrite mls_lane4 by lia. finish. unfold rsub. split; [reflexivity|].
    split; [look; apply w4_eq; intros i _; rewrite Z.add_0_r; reflexivity|]. split; [reflexivity|]. split; kept_here.
  - finish. unfold rsub. split; [reflexivity|]. split; [look; apply w4_eq; intros; lia|]. split; [reflexivity|]. split; kept_here.
Qed.

Lemma left_sums4 : forall D T row f s, km D T (mem s) -> co s -> xs s 6 = Int flags -> xs s 46 = Int row -> vs s 16 = w4 f ->
  full (vs s 13) -> nth 4 (ulanes 2 (vs s 13)) 0 = wrap_u 16 dzp -> 0 <= row <= lr -> (hls = true -> row + 4 <= blen SL) ->
  reach 13 code 104 s (fun pc s' => pc = (if rawt then 271 else 116)%nat /\ vs s' 16 = w4 (fun i => f i - lsubt row i) /\
    full (vs s' 13) /\ nth 4 (ulanes 2 (vs s' 13)) 0 = wrap_u 16 dzp /\ mem s' = mem s /\ keep (6 :: mainregs)%nat s s' /\ keepv [0; 1; 2; 3; 4; 8; 15]%nat s s').
Proof.
  intros D T row f s [M0 M1 M2 M3 M4 M5 M6 M7 M8 M9] [C8 C9 C10 C11 C12 C48 C49 C50 C51 C52] X6 X46 V16 F13 Z13 Hrow HS.
  assert (BS : blen (enc 4 SL) = 4 * blen SL) by reflexivity.
  begin. do 2 kstep8. eapply reach_b with (b := negb hls); [reflexivity|reflexivity|look; cbn [holds f_eq]; f_equal; flag8|]. destruct hls eqn:Eh; cbn [negb].
  - specialize (HS eq_refl). do 4 kstep8. rewrite (get_enc4 SL row) by lia. kstep8.
    kstep8; rewrite (mul_lane4 _ (splice (vs s 13) (4 * 1) (bytes_of 4 rzw)) 1 rzw (lane_s1 _ rzw F13)). kstep8; rewrite sub4.
    kstep8. eapply reach_b with (b := (ty =? 4)); [reflexivity|reflexivity|reflexivity|]. finish. unfold lsub, raw. cbn [andb]. split; [reflexivity|].
    split; [look; reflexivity|]. split; [look; apply full_splice; [exact F13|lia]|].
    split; [look; rewrite <- Z13; clear -F13; expand_full; reflexivity|]. split; [reflexivity|]. split; kept_here.
  - finish. unfold lsub, raw. cbn [andb]. split; [reflexivity|]. split; [look; rewrite V16; apply w4_eq; intros; lia|].
    split; [exact F13|]. split; [exact Z13|]. split; [reflexivity|]. split; kept_here.
Qed.

(** ** Requantization *)
Lemma quantize4 : forall D T row f s, km D T (mem s) -> co s -> xs s 6 = Int flags -> xs s 46 = Int row -> vs s 16 = w4 f ->
  vs s 8 = minus_one -> vs s 15 = w4 (mult row) -> 0 <= row <= lr -> chan row + 4 <= blen Ex -> (forall i, (i < 4)%nat -> fixed_point (mult row i) /\ exponent (expo row i)) ->
  reach 11 code 116 s (fun pc s' => pc = 127%nat /\ vs s' 16 = w4 (fun i => neon_lane (f i) (mult row i) (expo row i)) /\ mem s' = mem s /\ keep mainregs s s' /\ keepv [0; 1; 2; 3; 4; 13]%nat s s').
Proof.
  intros D T row f s [M0 M1 M2 M3 M4 M5 M6 M7 M8 M9] [C8 C9 C10 C11 C12 C48 C49 C50 C51 C52] X6 X46 V16 V8 V15 Hrow HE HQ.
  assert (BE : blen (enc 4 Ex) = 4 * blen Ex) by reflexivity.
  assert (HC : 0 <= chan row) by (unfold chan8; destruct hpc; lia).
  begin. do 4 kstep8. eapply r_cselx with (t := negb hpc) (v := Ptr 9 (4 * chan row)); [reflexivity|look; flag8|look; unfold chan8; destruct hpc; cbn [negb]; look; f_equal; lia|]. look.
  kstep8. rewrite (get_enc4 Ex (chan row)) by lia. do 5 kstep8. finish. split; [reflexivity|]. rewrite !requantized_eq. look.
  split; [|split; [reflexivity|split; kept_here]].
  rewrite requantize4; [reflexivity|exact HQ].
Qed.
End Block.
