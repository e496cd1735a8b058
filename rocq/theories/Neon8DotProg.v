(** Kernel8bitNeonDotprodX1 and Kernel8bitNeonDotprod (kernel_arm64.cc:4414-5667, 2987-4412): the products, and the whole programs. *)
From Coq Require Import ZArith List Bool Lia Permutation.
From Verif Require Import Base Mat Simd SimdFacts SpecSimd Kernel8bitFacts RequantProps Neon64 NeonRun NeonTac NeonCols NeonPack NeonKTac NeonKernelF NeonKernelT NeonKernel8Code Neon8Lanes Neon8Tac NeonKernelB NeonKernelL Neon8Col Neon8Blk Neon8Dot Neon8DotStore Neon8DotBlock Neon8DotLoop.
Import ListNotations.
Open Scope Z_scope.

Lemma upto_perm : forall p n, Permutation (upto p n) (seq p n).
Proof. intros. unfold upto. symmetry. apply Permutation_rev. Qed.
Lemma full_lvec : forall Lb lp h k, full (lvec Lb lp h k).
Proof. reflexivity. Qed.

Section Products.
Variables (Lb Rb : buf Z) (K lp rp : Z) (n : nat).
Hypothesis HK : 4 * Z.of_nat n = K /\ 4 <= K.
Hypothesis HK2 : K < 2 ^ 31 - 16.
Hypothesis HL : 0 <= lp /\ lp + 8 * K <= blen Lb.
Hypothesis HR : 0 <= rp /\ rp + 8 * K <= blen Rb.
Notation lvec := (lvec Lb).
Notation rvec4 := (rvec4 Rb).
Notation accs8 := (accs8 Lb Rb).
Notation summed := (summed Lb Rb).
Notation deepd := (deepd Lb Rb K).

Lemma products_x1 : products Lb Rb K kernel8_dotprod_x1 33 34 n (24 * n + 16) lp rp.
Proof.
  intros s X1 HLv HG HA F13. replace (24 * n + 16)%nat with (1 + (24 * n + 15))%nat by lia.
  eapply reach_trans with (P := fun pc s' => pc = 34%nat /\ s' = s); [begin; kstepd; finish; split; reflexivity|].
  intros pc s1 (-> & ->). pose proof (depthd Lb Rb K 0 0 0 lp rp (n - 1) [0%nat] [] 0 1 s s) as RD.
  specialize (RD ltac:(lia) ltac:(lia) HL HR ltac:(constructor; try assumption; try reflexivity; apply Forall_forall; intros; reflexivity)).
  eapply reach_weaken; [eapply (reach_part _ _ _ 34 0); [exact tail_x1|exact RD]|lia|]. intros pc s2 (q & -> & -> & HS). split; [reflexivity|].
  exists (upto 1 (n - 1) ++ [0%nat]), (upto 1 (n - 1) ++ [0%nat]). assert (P : Permutation (upto 1 (n - 1) ++ [0%nat]) (seq 0 n)).
  { replace n with (S (n - 1)) at 2 by lia. cbn [seq]. rewrite Permutation_app_comm. cbn [app]. apply perm_skip, upto_perm. }
  split; [exact P|]. split; [exact P|exact HS].
Qed.

(** Four blocks of levels at a time: blocks [k] to [k + 3] are loaded. *)
Record streamd (l1 l2 : list nat) (k : nat) (s0 s : state) : Prop := {
  sd_1 : xs s 1 = Int (4 * Z.of_nat (4 + k)); sd_3 : xs s 3 = Int (16 * (K / 16)); sd_level : level8 Lb Rb lp rp k (4 + k) s; sd_given : given8 Lb Rb K s;
  sd_accs : accs8 lp rp l1 l2 s; sd_mem : mem s = mem s0; sd_keep : keep otherregs s0 s;
  sd_v4 : vs s 4 = lvec lp 0 (1 + k); sd_v5 : vs s 5 = lvec lp 1 (1 + k); sd_v6 : vs s 6 = rvec4 rp 0 (1 + k); sd_v7 : vs s 7 = rvec4 rp 1 (1 + k);
  sd_v8 : vs s 8 = lvec lp 0 (2 + k); sd_v9 : vs s 9 = lvec lp 1 (2 + k); sd_v10 : vs s 10 = rvec4 rp 0 (2 + k); sd_v11 : vs s 11 = rvec4 rp 1 (2 + k);
  sd_v12 : vs s 12 = lvec lp 0 (3 + k); sd_v13 : vs s 13 = lvec lp 1 (3 + k); sd_v14 : vs s 14 = rvec4 rp 0 (3 + k); sd_v15 : vs s 15 = rvec4 rp 1 (3 + k) }.
Ltac name_l h k := match goal with |- context [get_bytes (enc 1 Lb) ?o 16] => replace (get_bytes (enc 1 Lb) o 16) with (lvec lp h k) by (unfold Neon8Col.lvec; f_equal; lia) end.
Ltac name_r g k := match goal with |- context [get_bytes (enc 1 Rb) ?o 16] => replace (get_bytes (enc 1 Rb) o 16) with (rvec4 rp g k) by (unfold Neon8Dot.rvec4; f_equal; lia) end.
Ltac names84 k := repeat first [name_l 0%nat k | name_l 1%nat k | name_r 0%nat k | name_r 1%nat k | name_l 0%nat (S k) | name_l 1%nat (S k) | name_r 0%nat (S k) | name_r 1%nat (S k)
  | name_l 0%nat (S (S k)) | name_l 1%nat (S (S k)) | name_r 0%nat (S (S k)) | name_r 1%nat (S (S k))
  | name_l 0%nat (S (S (S k))) | name_l 1%nat (S (S (S k))) | name_r 0%nat (S (S (S k))) | name_r 1%nat (S (S (S k)))].
Ltac sdots := rewrite ?(sdotl Lb Rb 0 0 0) by (reflexivity || lia).
Ltac numbers8 := look; facts; first [reflexivity | f_equal; lia].

Lemma sixteen : 16 * (K / 16) <= K < 16 * (K / 16) + 16.
Proof. pose proof (Z.div_mod K 16). pose proof (Z.mod_pos_bound K 16). lia. Qed.

Lemma stream_bodyd : forall l1 l2 k s0 s, 4 * Z.of_nat (8 + k) <= 16 * (K / 16) -> streamd l1 l2 k s0 s ->
  reach 86 kernel8_dotprod 50 s (fun pc s' => pc = (if (4 * Z.of_nat (8 + k) <? 16 * (K / 16))%Z then 50 else 136)%nat /\
    streamd (4 + k :: 3 + k :: 2 + k :: 1 + k :: l1)%nat (3 + k :: 2 + k :: 1 + k :: k :: l2)%nat (4 + k) s0 s').
Proof.
  intros l1 l2 k s0 s Hk [X1 X3 [X42 X43 V0 V1 V2 V3] (X12 & M1 & M2) [H16 H17 H18 H19 H20 H21 H22 H23 H24 H25 H26 H27 H28 H29 H30 H31] DM DK
    V4 V5 V6 V7 V8 V9 V10 V11 V12 V13 V14 V15]. pose proof sixteen.
  assert (BL : blen (enc 1 Lb) = blen Lb) by apply Z.mul_1_l. assert (BR : blen (enc 1 Rb) = blen Rb) by apply Z.mul_1_l.
  begin. do 85 (kstepd; names84 (4 + k)%nat; sdots).
  eapply reach_b with (b := (4 * Z.of_nat (4 + k) + 16 <? 16 * (K / 16))); [reflexivity|reflexivity|reflexivity|].
  finish. replace (4 * Z.of_nat (4 + k) + 16) with (4 * Z.of_nat (8 + k)) by lia. split; [reflexivity|].
  constructor; try numbers8; [constructor; numbers8|split; [numbers8|split; [exact M1|exact M2]]|constructor; numbers8|exact DM|eapply keep_trans; [exact DK|kept_here]].
Qed.

Lemma stream_loopd : forall m l1 l2 k s0 s, 4 * Z.of_nat (8 + k) + 16 * Z.of_nat m = 16 * (K / 16) -> Permutation l1 (seq 0 (S k)) -> Permutation l2 (seq 0 k) -> streamd l1 l2 k s0 s ->
  reach (86 * S m) kernel8_dotprod 50 s (fun pc s' => pc = 136%nat /\ exists l1 l2, Permutation l1 (seq 0 (S (4 * S m + k))) /\ Permutation l2 (seq 0 (4 * S m + k)) /\ streamd l1 l2 (4 * S m + k) s0 s').
Proof.
  assert (PS : forall l i, Permutation l (seq 0 i) -> Permutation (i :: l) (seq 0 (S i))) by (intros l i H; rewrite seq_S; cbn [Nat.add]; rewrite <- Permutation_cons_append; apply perm_skip, H).
  induction m as [|m IH]; intros l1 l2 k s0 s Hn P1 P2 HS.
  all: assert (Q1 : Permutation (4 + k :: 3 + k :: 2 + k :: 1 + k :: l1)%nat (seq 0 (S (4 + k)))) by (do 4 apply PS; exact P1);
    assert (Q2 : Permutation (3 + k :: 2 + k :: 1 + k :: k :: l2)%nat (seq 0 (4 + k))) by (do 4 apply PS; exact P2).
  - eapply reach_weaken; [apply (stream_bodyd l1 l2 k s0 s); [lia|exact HS]|lia|]. intros pc s' [-> HS'].
    replace (4 * Z.of_nat (8 + k) <? 16 * (K / 16)) with false by (symmetry; apply Z.ltb_ge; lia). split; [reflexivity|]. eauto.
  - replace (86 * S (S m))%nat with (86 + 86 * S m)%nat by lia. eapply reach_trans; [apply (stream_bodyd l1 l2 k s0 s); [lia|exact HS]|]. intros pc s' [-> HS'].
    replace (4 * Z.of_nat (8 + k) <? 16 * (K / 16)) with true by (symmetry; apply Z.ltb_lt; lia).
    eapply reach_weaken; [refine (IH _ _ (4 + k)%nat s0 s' _ Q1 Q2 HS'); lia|lia|]. intros pc s2 [-> HS2]. split; [reflexivity|].
    replace (4 * S (S m) + k)%nat with (4 * S m + (4 + k))%nat by lia. exact HS2.
Qed.

(** The blocks after the first of the four; its rest comes later. *)
Lemma stream_endd : forall l1 l2 k s0 s, streamd l1 l2 k s0 s ->
  reach 49 kernel8_dotprod 136 s (fun pc s' => pc = 185%nat /\ deepd lp rp (3 + k :: 2 + k :: 1 + k :: l1)%nat (3 + k :: 2 + k :: 1 + k :: l2)%nat k (4 + k) s0 s').
Proof.
  intros l1 l2 k s0 s [X1 X3 [X42 X43 V0 V1 V2 V3] (X12 & M1 & M2) [H16 H17 H18 H19 H20 H21 H22 H23 H24 H25 H26 H27 H28 H29 H30 H31] DM DK
    V4 V5 V6 V7 V8 V9 V10 V11 V12 V13 V14 V15].
  begin. do 49 (kstepd; sdots). finish. split; [reflexivity|].
  constructor; [numbers8|constructor; numbers8|split; [numbers8|split; [exact M1|exact M2]]|constructor; numbers8|exact DM|eapply keep_trans; [exact DK|kept_here]|look; rewrite V13; apply full_lvec].
Qed.

Lemma products_base : products Lb Rb K kernel8_dotprod 33 185 n (46 * n + 90) lp rp.
Proof.
  intros s X1 HLv HG HA F13. pose proof sixteen as HS16. destruct (Z.ltb_spec K 32) as [H32|H32].
  - eapply reach_weaken with (n := (4 + (24 * n + 15))%nat); [|lia|intros ? ? H; exact H].
    eapply reach_trans with (P := fun pc s' => pc = 185%nat /\ deepd lp rp [0%nat] [] 0 1 s s').
    { destruct HLv as [X42 X43 V0 V1 V2 V3], HG as (X12 & M1 & M2), HA as [H16 H17 H18 H19 H20 H21 H22 H23 H24 H25 H26 H27 H28 H29 H30 H31].
      begin. do 2 kstepd. eapply reach_b with (b := (K <? 32)); [reflexivity|reflexivity|reflexivity|]. replace (K <? 32) with true by (symmetry; apply Z.ltb_lt; lia). kstepd. finish. split; [reflexivity|].
      constructor; [numbers8|constructor; numbers8|split; [numbers8|split; [exact M1|exact M2]]|constructor; numbers8|reflexivity|kept_here|exact F13]. }
    intros pc s1 (-> & HD). pose proof (depthd Lb Rb K 0 0 0 lp rp (n - 1) [0%nat] [] 0 1 s s1 ltac:(lia) ltac:(lia) HL HR HD) as RD.
    eapply reach_weaken; [eapply (reach_part _ _ _ 185 0); [exact tail_base|exact RD]|lia|]. intros pc s2 (q & -> & -> & HS). split; [reflexivity|].
    exists (upto 1 (n - 1) ++ [0%nat]), (upto 1 (n - 1) ++ [0%nat]). assert (P : Permutation (upto 1 (n - 1) ++ [0%nat]) (seq 0 n)).
    { replace n with (S (n - 1)) at 2 by lia. cbn [seq]. rewrite Permutation_app_comm. cbn [app]. apply perm_skip, upto_perm. }
    split; [exact P|]. split; [exact P|exact HS].
  - set (m := (Z.to_nat (K / 16) - 2)%nat). set (b := (4 * S m)%nat). assert (Hb : Z.of_nat b = 4 * (K / 16) - 4) by lia.
    set (goal := fun pc s' => pc = (185 + 39)%nat /\ exists l1 l2, Permutation l1 (seq 0 n) /\ Permutation l2 (seq 0 n) /\ summed lp rp l1 l2 s s').
    apply (reach_weaken (17 + (86 * S m + (49 + (24 * (n - (4 + b)) + 15)))) _ _ _ _ goal); [|lia|auto].
    eapply reach_trans with (P := fun pc s' => pc = 50%nat /\ streamd [0%nat] [] 0 s s').
    + destruct HLv as [X42 X43 V0 V1 V2 V3], HG as (X12 & M1 & M2), HA as [H16 H17 H18 H19 H20 H21 H22 H23 H24 H25 H26 H27 H28 H29 H30 H31].
      assert (BL : blen (enc 1 Lb) = blen Lb) by apply Z.mul_1_l. assert (BR : blen (enc 1 Rb) = blen Rb) by apply Z.mul_1_l.
      begin. do 2 kstepd. eapply reach_b with (b := (K <? 32)); [reflexivity|reflexivity|reflexivity|]. replace (K <? 32) with false by (symmetry; apply Z.ltb_ge; lia).
      do 12 (kstepd; names84 1%nat). kstepd.
      eapply s_and_high with (k := 4); [reflexivity|reflexivity|lia|reads|apply small_low; lia|lia|]. look. change (2 ^ 4) with 16. finish. split; [reflexivity|].
      constructor; try numbers8; [constructor; numbers8|split; [numbers8|split; [exact M1|exact M2]]|constructor; numbers8|kept_here].
    + intros pc s1 [-> HS]. eapply reach_trans; [apply (stream_loopd m [0%nat] [] 0 s s1); [lia|reflexivity|reflexivity|exact HS]|].
      intros pc s2 (-> & l1 & l2 & P1 & P2 & HS2). replace (4 * S m + 0)%nat with b in * by lia. clearbody b. eapply reach_trans; [apply (stream_endd l1 l2 b s s2 HS2)|].
      intros pc s3 [-> HD]. pose proof (depthd Lb Rb K 0 0 0 lp rp (n - (4 + b)) _ _ b (4 + b) s s3 ltac:(lia) ltac:(lia) HL HR HD) as RD.
      eapply reach_weaken; [eapply (reach_part _ _ _ 185 0); [exact tail_base|exact RD]|lia|].
      intros pc s4 (q & -> & -> & HS4). subst goal. cbv beta. split; [reflexivity|]. eexists. eexists. split; [|split; [|exact HS4]].
      all: assert (E : seq 0 n = seq 0 (4 + b) ++ seq (4 + b) (n - (4 + b))) by (pose proof (seq_app (4 + b) (n - (4 + b)) 0) as E; cbn [Nat.add] in E; replace (S (S (S (S (b + (n - S (S (S (S b))))))))) with n in E by lia; exact E); rewrite E, Permutation_app_comm; apply Permutation_app; [|apply upto_perm];
        replace (4 + b)%nat with (S (S (S (S b)))) by lia; rewrite !seq_S, <- !Permutation_cons_append; cbn [Nat.add].
      * do 3 apply perm_skip. rewrite seq_S in P1. rewrite P1, <- Permutation_cons_append. reflexivity.
      * transitivity (3 + b :: 2 + b :: 1 + b :: b :: l2)%nat; [|do 4 apply perm_skip; exact P2].
        exact (Permutation_middle [3 + b; 2 + b; 1 + b]%nat l2 b).
Qed.
End Products.

Section Program.
Variables (Lb Rb Bi SL SR Mu Ex : buf Z) (lo ro dof lzw rzw dzp pzw sr sc lr lc dr dc ls rs ds K cmin cmax : Z) (hb hls hrs hpc cc : bool) (drz dcz ty tyz : Z).
Notation kmem8 := (kmem8 Lb Rb Bi SL SR Mu Ex lo ro dof lzw rzw dzp pzw sr sc lr lc dr dc ls rs ds K cmin cmax hb hls hrs hpc cc).
Notation atd := (atd Lb Rb Bi SL SR Mu Ex lo ro dof lzw rzw dzp pzw sr sc lr lc dr dc ls rs ds K cmin cmax hb hls hrs hpc cc drz dcz tyz).

(** The end of the asm statements: back to the first block of levels. *)
Definition prologue_part : list instr := firstn 33 kernel8_dotprod_x1.
Lemma prologue_x1 : part_at kernel8_dotprod_x1 prologue_part 0.
Proof. exists [], (skipn 33 kernel8_dotprod_x1). split; reflexivity. Qed.
Lemma prologue_base : part_at kernel8_dotprod prologue_part 0.
Proof. exists [], (skipn 33 kernel8_dotprod). split; reflexivity. Qed.
Lemma prologued : forall D T s, kmem8 D T (mem s) -> 256 <= blen T -> xs s 40 = Ptr 1 lo -> xs s 41 = Ptr 2 ro -> xs s 42 = Ptr 1 lo -> xs s 43 = Ptr 2 ro -> xs s 44 = Ptr 4 dof -> xs s 45 = Ptr 4 dof ->
  xs s 46 = Int sr -> xs s 47 = Int sc -> xs s 48 = Ptr 0 0 -> xs s 49 = Int drz -> xs s 50 = Int dcz -> xs s 51 = Ptr 5 0 -> xs s 52 = Int tyz -> full (vs s 13) ->
  0 <= lo /\ lo + 32 <= blen Lb -> 0 <= ro /\ ro + 32 <= blen Rb ->
  reach 33 prologue_part 0 s (fun pc s' => pc = 33%nat /\ atd D sr sc lo ro dof dof s').
Proof.
  intros D T s HM HT X40 X41 X42 X43 X44 X45 X46 X47 X48 X49 X50 X51 X52 F13 HL HR. pose proof HM as [M0 M1 M2 M3 M4 M5 M6 M7 M8 M9].
  assert (BL : blen (enc 1 Lb) = blen Lb) by apply Z.mul_1_l. assert (BR : blen (enc 1 Rb) = blen Rb) by apply Z.mul_1_l.
  begin. do 33 kstepd. finish. split; [reflexivity|].
  assert (EL : get_bytes (enc 1 Lb) lo 16 = lvec Lb lo 0 0) by (unfold lvec; f_equal; lia).
  assert (EL2 : get_bytes (enc 1 Lb) (lo + 16) 16 = lvec Lb lo 1 0) by (unfold lvec; f_equal; lia).
  assert (ER : get_bytes (enc 1 Rb) ro 16 = rvec4 Rb ro 0 0) by (unfold rvec4; f_equal; lia).
  assert (ER2 : get_bytes (enc 1 Rb) (ro + 16) 16 = rvec4 Rb ro 1 0) by (unfold rvec4; f_equal; lia).
  constructor; try (constructor; reads_lia); look; try assumption; try reads_lia; try (f_equal; lia).
  - exists T. split; assumption.
  - constructor; look; rewrite ?ER, ?EL; lazymatch goal with
    | |- sdot_lane _ _ _ _ = sumsl _ _ ?np ?nq ?h ?c _ => rewrite (no_sumsl Lb Rb np nq h c); apply (sdotl Lb Rb 0 0 0); [reflexivity|lia]
    | |- _ = sumsl _ _ ?np ?nq ?h ?c [] => rewrite <- (no_sumsl Lb Rb np nq h c); first [reflexivity | assumption] end.
Qed.

Hypothesis Hlr : 0 <= sr <= lr /\ lr < dr /\ dr < 2 ^ 31 /\ lr + 8 < 2 ^ 31.
Hypothesis Hlc : 0 <= sc <= lc /\ lc < dc /\ dc < 2 ^ 31 /\ lc + 8 < 2 ^ 31.
Hypothesis Hst : 0 <= ls < 2 ^ 31 /\ 0 <= rs < 2 ^ 31 /\ 0 <= ds < 2 ^ 31.
Hypothesis Hdr : drz mod 2 ^ 32 = dr.
Hypothesis Hdc : dcz mod 2 ^ 32 = dc.
Hypothesis Hty : tyz mod 2 ^ 32 = ty.
Hypothesis Hty4 : 1 <= ty <= 4.
Notation raw := (raw hls ty).
Notation size8 := (size8 hls ty).
Hypothesis Ht : typed8 dzp cmin cmax hls ty.
Variables (n : nat) (nbr nbc : Z).
Hypothesis HK : 4 * Z.of_nat n = K /\ 4 <= K.
Hypothesis HK2 : K < 2 ^ 31 - 16.
Hypothesis Hnr : 1 <= nbr /\ lr = sr + 8 * (nbr - 1).
Hypothesis Hnc : 1 <= nbc /\ lc = sc + 8 * (nbc - 1).
Hypothesis HL : 0 <= lo /\ K <= ls /\ lo + 8 * ls * nbr <= blen Lb.
Hypothesis HR : 0 <= ro /\ K <= rs /\ ro + 8 * rs * nbc <= blen Rb.
Hypothesis HBi : (if hb then (if cc then sc + 8 * nbc else sr + 8 * nbr) else 8) <= blen Bi.
Hypothesis HSR : hrs = true -> sc + 8 * nbc <= blen SR.
Hypothesis HSL : hls = true -> sr + 8 * nbr <= blen SL.
Hypothesis HMu : channels sr sc hpc cc nbr nbc <= blen Mu.
Hypothesis HEx : channels sr sc hpc cc nbr nbc <= blen Ex.
Hypothesis HQ : raw = false -> forall r, 0 <= r < channels sr sc hpc cc nbr nbc -> fixed_point (bdat Mu r) /\ exponent (bdat Ex r).
Hypothesis Hds : Z.of_nat size8 * Z.min (8 * nbr) (dr - sr) <= ds.
Variable D0 : buf Z.
Hypothesis HD : 0 <= dof /\ dof + ds * (Z.min (8 * nbc) (dc - sc) - 1) + Z.of_nat size8 * Z.min (8 * nbr) (dr - sr) <= blen D0.

Definition all_drawn (D : buf Z) : Prop :=
  drawn8 size8 (out_off8 dof ds hls ty) (out_value8 Lb Rb Bi SL SR Mu Ex lo ro lzw rzw dzp pzw sr sc ls rs cmin cmax hb hls hrs hpc cc ty n) (region8 sr sc dr dc nbr nbc) D0 D.

Lemma programd : forall (x1 : bool) T s, kmem8 D0 T (mem s) -> 256 <= blen T -> xs s 40 = Ptr 1 lo -> xs s 41 = Ptr 2 ro -> xs s 42 = Ptr 1 lo -> xs s 43 = Ptr 2 ro -> xs s 44 = Ptr 4 dof -> xs s 45 = Ptr 4 dof ->
  xs s 46 = Int sr -> xs s 47 = Int sc -> xs s 48 = Ptr 0 0 -> xs s 49 = Int drz -> xs s 50 = Int dcz -> xs s 51 = Ptr 5 0 -> xs s 52 = Int tyz -> full (vs s 13) ->
  reach (33 + (46 * n + 991) * Z.to_nat (nbr * nbc)) (if x1 then kernel8_dotprod_x1 else kernel8_dotprod) 0 s
    (fun pc s' => pc = (if x1 then 856 else 1007)%nat /\ exists D T, kmem8 D T (mem s') /\ all_drawn D).
Proof.
  intros x1 T s HM HT X40 X41 X42 X43 X44 X45 X46 X47 X48 X49 X50 X51 X52 F13.
  assert (PL := mul_next ls 0 nbr ltac:(lia) ltac:(lia)). assert (PR := mul_next rs 0 nbc ltac:(lia) ltac:(lia)).
  pose proof (prologued D0 T s HM HT X40 X41 X42 X43 X44 X45 X46 X47 X48 X49 X50 X51 X52 F13 ltac:(lia) ltac:(lia)) as HP.
  assert (HPos : 0 < nbr * nbc) by (apply Z.mul_pos_pos; clear - Hnr Hnc; lia). assert (HN : (nbc - 0) * nbr - 0 = Z.of_nat (S (Z.to_nat (nbr * nbc) - 1))) by (clear - HPos; lia).
  assert (HF : S (Z.to_nat (nbr * nbc) - 1) = Z.to_nat (nbr * nbc)) by (clear - HPos; lia).
  assert (HI : drawn8 size8 (out_off8 dof ds hls ty) (out_value8 Lb Rb Bi SL SR Mu Ex lo ro lzw rzw dzp pzw sr sc ls rs cmin cmax hb hls hrs hpc cc ty n) (done8s sr sc dr dc nbr nbc 0 0) D0 D0)
    by (apply drawn8_none; intros r c; unfold done8s, region8; lia).
  eapply reach_trans with (P := fun pc s' => pc = 33%nat /\ atd D0 sr sc lo ro dof dof s').
  { destruct x1; (eapply reach_weaken; [eapply (reach_part _ _ _ 0 0); [first [exact prologue_x1|exact prologue_base]|exact HP]|lia|]); intros pc s' (q & -> & -> & HA); (split; [reflexivity|exact HA]). }
  intros pc s1 (-> & HA). assert (HA' : at_ij8 Lb Rb Bi SL SR Mu Ex lo ro dof lzw rzw dzp pzw sr sc lr lc dr dc ls rs ds K cmin cmax hb hls hrs hpc cc drz dcz ty tyz n nbr nbc D0 0 0 s1).
  { exists D0. split; [exact HI|]. replace (sr + 8 * 0) with sr by lia. replace (lo + 8 * ls * 0) with lo by lia. replace (sc + 8 * 0) with sc by lia.
    replace (ro + 8 * rs * 0) with ro by lia. replace (dof + 8 * ds * 0 + 8 * Z.of_nat size8 * 0) with dof by lia. replace (dof + 8 * ds * 0) with dof by lia. exact HA. }
  destruct x1.
  - pose proof (loop8 Lb Rb Bi SL SR Mu Ex lo ro dof lzw rzw dzp pzw sr sc lr lc dr dc ls rs ds K cmin cmax hb hls hrs hpc cc drz dcz ty tyz Hlr Hlc Hst Hdr Hdc Hty Hty4 Ht kernel8_dotprod_x1 33 34 n (24 * n + 16) HK tail_x1
      ltac:(intros lp rp H1 H2; apply (products_x1 Lb Rb K lp rp n HK HK2 H1 H2))
      ltac:(intros s2 t E; eapply reach_b with (b := t); [reflexivity|reflexivity|exact E|apply reach_done; destruct t; split; reflexivity])
      nbr nbc Hnr Hnc HL HR HBi HSR HSL HMu HEx HQ Hds D0 HD (Z.to_nat (nbr * nbc) - 1)%nat 0 0 s1 ltac:(lia) ltac:(lia) HN HA') as HLp.
    eapply reach_weaken; [exact HLp|rewrite HF; apply Nat.mul_le_mono_r; clear; lia|]. intros pc s' (-> & D' & T' & HK' & HW). split; [reflexivity|]. exists D', T'. split; [exact HK'|exact HW].
  - pose proof (loop8 Lb Rb Bi SL SR Mu Ex lo ro dof lzw rzw dzp pzw sr sc lr lc dr dc ls rs ds K cmin cmax hb hls hrs hpc cc drz dcz ty tyz Hlr Hlc Hst Hdr Hdc Hty Hty4 Ht kernel8_dotprod 33 185 n (46 * n + 90) HK tail_base
      ltac:(intros lp rp H1 H2; apply (products_base Lb Rb K lp rp n HK HK2 H1 H2))
      ltac:(intros s2 t E; eapply reach_b with (b := t); [reflexivity|reflexivity|exact E|apply reach_done; destruct t; split; reflexivity])
      nbr nbc Hnr Hnc HL HR HBi HSR HSL HMu HEx HQ Hds D0 HD (Z.to_nat (nbr * nbc) - 1)%nat 0 0 s1 ltac:(lia) ltac:(lia) HN HA') as HLp.
    eapply reach_weaken; [exact HLp|rewrite HF; apply Nat.mul_le_mono_r; clear; lia|]. intros pc s' (-> & D' & T' & HK' & HW). split; [reflexivity|]. exists D', T'. split; [exact HK'|exact HW].
Qed.
End Program.
