(** Kernel8bitNeonDotprodX1 and Kernel8bitNeonDotprod (kernel_arm64.cc:4414-5667, 2987-4412): one block, from the products to the next block. *)
From Coq Require Import ZArith List Bool Lia Permutation.
From Verif Require Import Base Mat Simd SimdFacts SpecSimd Kernel8bitFacts RequantProps Neon64 NeonRun NeonTac NeonCols NeonPack NeonKTac NeonKernelF NeonKernelT NeonKernel8Code Neon8Lanes Neon8Tac NeonKernelB Neon8Col Neon8Blk Neon8Dot Neon8DotHeld Neon8DotStore Neon8DotPlace Neon8DotNarrow.
Import ListNotations.
Open Scope Z_scope.

Lemma keepv_sub : forall l l' a b, forallb (fun r => existsb (Nat.eqb r) l) l' = true -> keepv l a b -> keepv l' a b.
Proof.
  intros l l' a b H HK. unfold keepv in *. rewrite Forall_forall in *. rewrite forallb_forall in H. intros r Hr. apply HK.
  specialize (H r Hr). apply existsb_exists in H. destruct H as (x & Hx & E). apply Nat.eqb_eq in E. subst. exact Hx.
Qed.
Lemma keepv_comp : forall l a b c, keepv l a b -> keepv l b c -> keepv l a c.
Proof. intros l a b c H1 H2. unfold keepv in *. rewrite Forall_forall in *. intros r Hr. rewrite H2, H1 by exact Hr. reflexivity. Qed.
Lemma cols_ext : forall p st m n out out' D D', (forall c, (c < n)%nat -> out c = out' c) -> cols p st m n out D D' -> cols p st m n out' D D'.
Proof. intros p st m n out out' D D' E [H1 H2 H3]. constructor; [exact H1|intros; rewrite <- E by lia; auto|exact H3]. Qed.

Section Block.
Variables (Lb Rb Bi SL SR Mu Ex : buf Z) (lo ro dof lzw rzw dzp pzw sr sc lr lc dr dc ls rs ds K cmin cmax : Z) (hb hls hrs hpc cc : bool) (drz dcz ty tyz : Z).
Notation kmem8 := (kmem8 Lb Rb Bi SL SR Mu Ex lo ro dof lzw rzw dzp pzw sr sc lr lc dr dc ls rs ds K cmin cmax hb hls hrs hpc cc).
Notation core8 := (core8 lc ls rs ds K drz dcz tyz).
Notation lvec := (lvec Lb).
Notation rvec4 := (rvec4 Rb).
Notation accs8 := (accs8 Lb Rb).
Notation dotted := (dotted Lb Rb).
Notation biasd := (biasd Bi pzw hb cc).
Notation rsubd := (rsubd SR lzw hrs).
Notation lsub := (lsub SL rzw hls).
Notation raw := (raw hls ty).
Notation size8 := (size8 hls ty).
Notation typed8 := (typed8 dzp cmin cmax hls ty).
Notation first_chan := (first_chan hpc cc).
Notation first_bias := (first_bias hb cc).
Notation multd := (multd Mu hpc cc).
Notation expod := (expod Ex hpc cc).
Notation next_lhs8 := (next_lhs8 lo lr ls).
Notation next_rhs8 := (next_rhs8 lr lc rs).
Notation kflags8 := (kflags8 hb hls hrs hpc cc).
Notation doned := (doned Lb Rb Bi SL SR Mu Ex lo ro dof lzw rzw dzp pzw sr sc lr lc dr dc ls rs ds K cmin cmax hb hls hrs hpc cc).
Notation summed := (summed Lb Rb).
Notation stepped8 := (stepped8 lo sr lr ds).
Hypothesis Hlr : 0 <= sr <= lr /\ lr < dr /\ dr < 2 ^ 31 /\ lr + 8 < 2 ^ 31.
Hypothesis Hlc : 0 <= sc <= lc /\ lc < dc /\ dc < 2 ^ 31 /\ lc + 8 < 2 ^ 31.
Hypothesis Hst : 0 <= ls < 2 ^ 31 /\ 0 <= rs < 2 ^ 31 /\ 0 <= ds < 2 ^ 31.
Hypothesis Hdr : drz mod 2 ^ 32 = dr.
Hypothesis Hdc : dcz mod 2 ^ 32 = dc.
Hypothesis Hty : tyz mod 2 ^ 32 = ty.
Hypothesis Hty4 : 1 <= ty <= 4.

Definition accd (n : nat) (row col lp rp : Z) (i c : nat) : Z := dotted lp rp i c n + biasd row col i c - rsubd col c - lsub row i.
Definition valued (n : nat) (row col lp rp : Z) (i c : nat) : Z :=
  let x := accd n row col lp rp i c in
  let q := neon_lane x (multd row col i c) (expod row col i c) in
  if raw then x else between cmin cmax (q + dzp).
Definition outd (n : nat) (row col lp rp : Z) (c : nat) : list Z := lv size8 8 (fun i => valued n row col lp rp i c).
Lemma doned_ext : forall sz row col ip out out' np nq D T s s', (forall c, (c < 8)%nat -> out c = out' c) -> doned sz row col ip out np nq D T s s' -> doned sz row col ip out' np nq D T s s'.
Proof. intros sz row col ip out out' np nq D T s s' E (D' & T' & A1 & A2 & A3). exists D', T'. split; [exact A1|]. split; [eapply cols_ext; [|exact A2]; intros c Hc; apply E; unfold fit in Hc; destruct (Z.leb_spec (dc - col) 8); lia|exact A3]. Qed.

Lemma finishd : typed8 -> forall D T n row col lp rp ip np nq s, kmem8 D T (mem s) -> core8 s -> xs s 6 = Int kflags8 -> xs s 45 = Ptr 4 ip -> xs s 46 = Int row -> xs s 47 = Int col ->
  outs (grid (accd n row col lp rp)) s -> vs s 8 = minus_one -> vs s 0 = lvec np 0 0 -> vs s 2 = rvec4 nq 0 0 -> full (vs s 13) ->
  0 <= row <= lr -> 0 <= col <= lc -> first_chan row col + 8 <= blen Mu -> first_chan row col + 8 <= blen Ex ->
  (raw = false -> forall j, (j < 8)%nat -> fixed_point (bdat Mu (first_chan row col + Z.of_nat j)) /\ exponent (bdat Ex (first_chan row col + Z.of_nat j))) ->
  0 <= ip -> ip + ds * (fit dc col - 1) + Z.of_nat size8 * fit dr row <= blen D -> Z.of_nat size8 * fit dr row <= ds -> 256 <= blen T ->
  reach 760 tail8 (if raw then 686 else 167) s (fun pc s' => pc = 805%nat /\ doned (Z.of_nat size8) row col ip (outd n row col lp rp) np nq D T s s').
Proof.
  intros (T1 & T2 & T3 & T4) D T n row col lp rp ip np nq s HM HC X6 X45 X46 X47 HO V8 V0 V2 F13 Hrow Hcol HMu HEx HQ Hip HD Hds HT.
  unfold outd, valued, Neon8Col.size8 in *. destruct raw eqn:Er.
  - begin. kstepd. eapply reach_weaken; [apply (place_s32 Lb Rb Bi SL SR Mu Ex lo ro dof lzw rzw dzp pzw sr sc lr lc dr dc ls rs ds K cmin cmax hb hls hrs hpc cc drz dcz tyz Hlr Hlc Hst Hdr Hdc D T row col ip np nq (fun c => lv 4 8 (fun i => accd n row col lp rp i c))); try assumption|lia|intros pc s' H; exact H].
    + exists (grid (accd n row col lp rp)). split; [exact HO|]. split; [reflexivity|reflexivity].
    + intros c. split; [apply lv_length|apply lv_range].
  - specialize (HQ eq_refl). assert (Hty3 : ty = 1 \/ ty = 2 \/ ty = 3). { unfold Neon8Col.raw in Er. destruct (Z.eqb_spec ty 4) as [E|E]; [rewrite (T4 E) in Er; discriminate|lia]. }
    eapply reach_weaken with (n := (20 + (66 + (7 + (62 + 600))))%nat); [|lia|intros ? ? H; exact H].
    eapply reach_trans; [apply (factorsd Lb Rb Bi SL SR Mu Ex lo ro dof lzw rzw dzp pzw sr sc lr lc dr dc ls rs ds K cmin cmax hb hls hrs hpc cc drz dcz tyz Hlr Hlc D T row col s HM HC X6 X46 X47 V8 Hrow Hcol HMu HEx)|].
    intros pc s1 (-> & HFa). pose proof HFa as [_ _ _ _ _ _ FM FK FV].
    assert (HO1 : outs (grid (accd n row col lp rp)) s1) by (eapply outs_keep; [exact HO|eapply keepv_sub; [|exact FV]; reflexivity]).
    assert (HR : reach 66 tail8 (if cc then 237 else 187) s1 (fun pc s' => pc = 303%nat /\ outs (grid (fun i c => neon_lane (accd n row col lp rp i c) (multd row col i c) (expod row col i c))) s' /\ mem s' = mem s1 /\ keep mainregs s1 s' /\ keepv [0; 1; 2; 3; 13]%nat s1 s')).
    { destruct cc eqn:Ecc; [eapply reach_weaken; [eapply (requantize_col Mu Ex hpc true drz dcz tyz row col _ s s1 HFa HO1 eq_refl HQ)|lia|]|eapply reach_weaken; [eapply (requantize_row Mu Ex hpc false drz dcz tyz row col _ s s1 HFa HO1 eq_refl HQ)|lia|]]; intros pc s' H; exact H. }
    eapply reach_trans; [exact HR|]. clear HR. intros pc s2 (-> & HO2 & M2 & K2 & KV2). set (q := fun i c => neon_lane (accd n row col lp rp i c) (multd row col i c) (expod row col i c)) in *.
    assert (Hq : forall i c, (i < 8)%nat -> (c < 8)%nat -> - 2 ^ 30 <= q i c <= 2 ^ 30).
    { intros i c Hi Hc. apply (neon_small drz dcz tyz). assert (Hs : (side cc i c < 8)%nat) by (unfold side; destruct cc; assumption). apply (HQ _ Hs). }
    assert (KK : keep mainregs s s2) by (eapply keep_trans; eassumption). assert (KVV : keepv [0; 1; 2; 3; 13]%nat s s2) by (eapply keepv_comp; [eapply keepv_sub; [|exact FV]; reflexivity|exact KV2]).
    assert (HC2 : core8 s2) by (eapply core8_keep; [exact HC|eapply NeonKernelB.keep_incl; [|exact KK]; reflexivity]). assert (MM : mem s2 = mem s) by congruence. rewrite <- MM in HM.
    assert (F2 : full (vs s2 13)) by (rewrite (keepv_read _ _ _ _ KVV) by (cbn; tauto); exact F13).
    eapply reach_trans; [apply (selectd Lb Rb Bi SL SR Mu Ex lo ro dof lzw rzw dzp pzw sr sc lr lc dr dc ls rs ds K cmin cmax hb hls hrs hpc cc drz dcz ty tyz Hty Hty4 D T s2 HM HC2 F2)|]. intros pc s3 (-> & Z13 & F3 & M3 & K3 & KV3).
    assert (K03 : keep mainregs s s3) by (eapply keep_trans; eassumption). assert (KV03 : keepv [0; 1; 2; 3]%nat s s3) by (eapply keepv_comp; [eapply keepv_sub; [|exact KVV]; reflexivity|eapply keepv_sub; [|exact KV3]; reflexivity]).
    assert (HC3 : core8 s3) by (eapply core8_keep; [exact HC|eapply NeonKernelB.keep_incl; [|exact K03]; reflexivity]). rewrite <- M3 in HM.
    assert (HO3 : outs (grid q) s3) by (eapply outs_keep; [exact HO2|eapply keepv_sub; [|exact KV3]; reflexivity]). clear HO2.
    assert (FIN : forall sz out out' s4, mem s4 = mem s3 -> keep mainregs s3 s4 -> keepv [0; 1; 2; 3; 13]%nat s3 s4 -> forall pc4, (forall c, (c < 8)%nat -> out c = out' c) ->
      (kmem8 D T (mem s4) -> core8 s4 -> xs s4 45 = Ptr 4 ip -> xs s4 46 = Int row -> xs s4 47 = Int col -> vs s4 0 = lvec np 0 0 -> vs s4 2 = rvec4 nq 0 0 -> full (vs s4 13) ->
       reach 600 tail8 pc4 s4 (fun pc s' => pc = 805%nat /\ doned sz row col ip out np nq D T s4 s')) ->
      reach 600 tail8 pc4 s4 (fun pc s' => pc = 805%nat /\ doned sz row col ip out' np nq D T s s')).
    { intros sz out out' s4 M4 K4 KV4 pc4 EO HR. assert (K04 : keep mainregs s s4) by (eapply keep_trans; eassumption). assert (KV04 : keepv [0; 1; 2; 3]%nat s s4) by (eapply keepv_comp; [exact KV03|eapply keepv_sub; [|exact KV4]; reflexivity]).
      eapply reach_weaken; [apply HR|lia|].
      - rewrite M4. exact HM.
      - eapply core8_keep; [exact HC|eapply NeonKernelB.keep_incl; [|exact K04]; reflexivity].
      - rewrite (keep_read _ _ _ _ K04) by (cbn; tauto). exact X45.
      - rewrite (keep_read _ _ _ _ K04) by (cbn; tauto). exact X46.
      - rewrite (keep_read _ _ _ _ K04) by (cbn; tauto). exact X47.
      - rewrite (keepv_read _ _ _ _ KV04) by (cbn; tauto). exact V0.
      - rewrite (keepv_read _ _ _ _ KV04) by (cbn; tauto). exact V2.
      - rewrite (keepv_read _ _ _ _ KV4) by (cbn; tauto). exact F3.
      - intros pc s' [-> HDn]. split; [reflexivity|]. apply (doned_ext _ _ _ _ _ _ _ _ _ _ _ _ EO) in HDn. destruct HDn as (D' & T' & A1 & A2 & A3 & A4 & A5 & A6 & A7 & A8). exists D', T'. repeat (split; [assumption|]).
        split; [eapply keep_trans; [eapply NeonKernelB.keep_incl; [|exact K04]; reflexivity|exact A7]|]. eapply keepv_comp; [exact KV04|exact A8]. }
    destruct Hty3 as [E|[E|E]]; rewrite E in HD, Hds |- *; cbn [Z.eqb Pos.eqb] in HD, Hds |- *.
    + specialize (T1 E). eapply reach_weaken with (n := (58 + 600)%nat); [|lia|intros ? ? H; exact H]. eapply reach_trans; [apply (narrow_u8 Lb Rb Bi SL SR Mu Ex lo ro dof lzw rzw dzp pzw sr sc lr lc dr dc ls rs ds K cmin cmax hb hls hrs hpc cc drz dcz tyz D T q s3 HM HC3 HO3 Z13 T1)|].
      intros pc s4 (-> & R & RZ & M4 & K4 & KV4). eapply (FIN 1); [exact M4|exact K4|exact KV4| |intros; apply (place_u8 Lb Rb Bi SL SR Mu Ex lo ro dof lzw rzw dzp pzw sr sc lr lc dr dc ls rs ds K cmin cmax hb hls hrs hpc cc drz dcz tyz Hlr Hlc Hst Hdr Hdc D T row col ip np nq _ s4); try eassumption].
      * intros c Hc. apply lv_ext. intros i Hi. cbv beta. rewrite wrap_s_small by (specialize (Hq i c Hi Hc); lia). reflexivity.
      * intros c. split; [apply lv_length|apply lv_range].
    + specialize (T2 E). eapply reach_weaken with (n := (58 + 600)%nat); [|lia|intros ? ? H; exact H]. eapply reach_trans; [apply (narrow_s8 Lb Rb Bi SL SR Mu Ex lo ro dof lzw rzw dzp pzw sr sc lr lc dr dc ls rs ds K cmin cmax hb hls hrs hpc cc drz dcz tyz D T q s3 HM HC3 HO3 Z13 T2)|].
      intros pc s4 (-> & R & RZ & M4 & K4 & KV4). eapply (FIN 1); [exact M4|exact K4|exact KV4| |intros; apply (place_s8 Lb Rb Bi SL SR Mu Ex lo ro dof lzw rzw dzp pzw sr sc lr lc dr dc ls rs ds K cmin cmax hb hls hrs hpc cc drz dcz tyz Hlr Hlc Hst Hdr Hdc D T row col ip np nq _ s4); try eassumption].
      * intros c Hc. apply lv_ext. intros i Hi. cbv beta. rewrite wrap_s_small by (specialize (Hq i c Hi Hc); lia). reflexivity.
      * intros c. split; [apply lv_length|apply lv_range].
    + specialize (T3 E). eapply reach_trans; [apply (narrow_s16 Lb Rb Bi SL SR Mu Ex lo ro dof lzw rzw dzp pzw sr sc lr lc dr dc ls rs ds K cmin cmax hb hls hrs hpc cc drz dcz ty tyz Hty4 D T q s3 HM HC3 HO3 Z13 T3)|].
      intros pc s4 (-> & R & RZ & M4 & K4 & KV4). eapply (FIN 2); [exact M4|exact K4|exact KV4| |intros; apply (place_s16 Lb Rb Bi SL SR Mu Ex lo ro dof lzw rzw dzp pzw sr sc lr lc dr dc ls rs ds K cmin cmax hb hls hrs hpc cc drz dcz tyz Hlr Hlc Hst Hdr Hdc D T row col ip np nq _ s4); try eassumption].
      * intros c Hc. apply lv_ext. intros i Hi. cbv beta. rewrite wrap_s_small by (specialize (Hq i c Hi Hc); lia). reflexivity.
      * intros c. split; [apply lv_length|apply lv_range].
Qed.

(** To the next block; the last comparison is of the column with the last one. *)
Definition next_cold (row col : Z) : Z := if row =? lr then col + 8 else col.
Lemma nextd : forall D T row col dp ip s, kmem8 D T (mem s) -> core8 s -> xs s 44 = Ptr 4 dp -> xs s 45 = Ptr 4 ip -> xs s 46 = Int row -> xs s 47 = Int col ->
  0 <= row <= lr -> 0 <= col <= lc ->
  reach 16 tail8 805 s (fun pc s' => pc = 821%nat /\ holds LE (fl s') = Ok (next_cold row col <=? lc) /\ stepped8 row col ip dp s s').
Proof.
  intros D T row col dp ip s [M0 M1 M2 M3 M4 M5 M6 M7 M8 M9] [C8 C9 C10 C11 C12 C48 C49 C50 C51 C52] X44 X45 X46 X47 Hrow Hcol. unfold next_cold.
  begin. do 5 kstepd. eapply reach_b with (b := (row =? lr)); [reflexivity|reflexivity|reflexivity|]. destruct (row =? lr) eqn:Er.
  - do 8 kstepd. finish. split; [reflexivity|]. split; [cbn [holds fl f_lt f_eq]; rewrite le_flag; reflexivity|]. constructor; rewrite ?Er; try reads; try reflexivity; kept_here.
  - kstepd. eapply reach_b with (b := true); [reflexivity|reflexivity|reflexivity|]. do 3 kstepd.
    finish. split; [reflexivity|]. split; [cbn [holds fl f_lt f_eq]; rewrite le_flag; reflexivity|]. constructor; rewrite ?Er; try reads; try reflexivity; kept_here.
Qed.

(** At the start of a block. *)
Record atd (D : buf Z) (row col lp rp ip dp : Z) (s : state) : Prop := {
  ad_mem : exists T, 256 <= blen T /\ kmem8 D T (mem s); ad_core : core8 s; ad_1 : xs s 1 = Int 4; ad_5 : xs s 5 = Ptr 1 lo; ad_7 : xs s 7 = Int lr;
  ad_40 : xs s 40 = Ptr 1 lp; ad_41 : xs s 41 = Ptr 2 rp; ad_42 : xs s 42 = Ptr 1 (lp + 32); ad_43 : xs s 43 = Ptr 2 (rp + 32); ad_44 : xs s 44 = Ptr 4 dp; ad_45 : xs s 45 = Ptr 4 ip; ad_46 : xs s 46 = Int row; ad_47 : xs s 47 = Int col;
  ad_v0 : vs s 0 = lvec lp 0 0; ad_v1 : vs s 1 = lvec lp 1 0; ad_v2 : vs s 2 = rvec4 rp 0 0; ad_v3 : vs s 3 = rvec4 rp 1 0; ad_accs : accs8 lp rp [0]%nat [] s; ad_v13 : full (vs s 13) }.

Lemma restd : typed8 -> forall D T n l1 l2 row col lp rp ip dp s s1, atd D row col lp rp ip dp s -> kmem8 D T (mem s) -> 256 <= blen T -> summed lp rp l1 l2 s s1 -> Permutation l1 (seq 0 n) -> Permutation l2 (seq 0 n) -> 0 <= row <= lr -> 0 <= col <= lc ->
  0 <= next_lhs8 row lp /\ next_lhs8 row lp + 32 <= blen Lb -> 0 <= next_rhs8 row col rp /\ next_rhs8 row col rp + 32 <= blen Rb ->
  first_bias row col + 8 <= blen Bi -> (hrs = true -> col + 8 <= blen SR) -> (hls = true -> row + 8 <= blen SL) ->
  first_chan row col + 8 <= blen Mu -> first_chan row col + 8 <= blen Ex ->
  (raw = false -> forall j, (j < 8)%nat -> fixed_point (bdat Mu (first_chan row col + Z.of_nat j)) /\ exponent (bdat Ex (first_chan row col + Z.of_nat j))) ->
  0 <= ip -> ip + ds * (fit dc col - 1) + Z.of_nat size8 * fit dr row <= blen D -> Z.of_nat size8 * fit dr row <= ds ->
  reach 900 tail8 39 s1 (fun pc s' => pc = 821%nat /\ holds LE (fl s') = Ok (next_cold row col <=? lc) /\ exists D', cols ip ds (Z.of_nat size8 * fit dr row) (Z.to_nat (fit dc col)) (outd n row col lp rp) D D' /\
    atd D' (if row =? lr then sr else row + 8) (next_cold row col) (next_lhs8 row lp) (next_rhs8 row col rp) (if row =? lr then dp + ds * 8 else ip + 8 * Z.of_nat size8) (if row =? lr then dp + ds * 8 else dp) s').
Proof.
  intros Ht D T n l1 l2 row col lp rp ip dp s s1 [_ HC X1 X5 X7 X40 X41 X42 X43 X44 X45 X46 X47 V0 V1 V2 V3 _ _] HM HT HS P1 P2 Hrow Hcol HNL HNR HB HSR HSL HMu HEx HQ Hip HD Hds.
  pose proof (summed_outs Lb Rb 0 0 0 lp rp n l1 l2 s s1 HS P1 P2) as HO. destruct HS as [_ ZM ZK Z13].
  eapply reach_weaken with (n := (12 + (50 + (26 + (30 + (760 + 16)))))%nat); [|lia|intros ? ? H; exact H].
  assert (R1 : forall r, In r otherregs -> xs s1 r = xs s r) by (intros r; apply (keep_read _ _ _ _ ZK)).
  assert (C1 : core8 s1) by (eapply core8_keep; [exact HC|eapply NeonKernelB.keep_incl; [|exact ZK]; reflexivity]).
  (* Pointers *)
  eapply reach_trans; [apply (pointersd lo sr sc lr lc dr dc ls rs ds K drz dcz tyz Hlr Hlc Hst row col lp rp s1 C1); try assumption; (rewrite R1 by (cbn; tauto); assumption)|].
  intros pc s2 (-> & Y40 & Y41 & Y42 & Y43 & YM & YK & YV). set (np := next_lhs8 row lp) in *. set (nq := next_rhs8 row col rp) in *.
  assert (K2 : keep [8; 9; 10; 11; 12; 44; 45; 46; 47; 48; 49; 50; 51; 52]%nat s s2) by (apply (keep_trans _ _ s1); [eapply NeonKernelB.keep_incl; [|exact ZK]; reflexivity|exact YK]).
  assert (C2 : core8 s2) by (eapply core8_keep; [exact HC|eapply NeonKernelB.keep_incl; [|exact K2]; reflexivity]).
  assert (M2 : mem s2 = mem s) by congruence. rewrite <- M2 in HM.
  assert (Y46 : xs s2 46 = Int row) by (rewrite (keep_read _ _ _ _ K2) by (cbn; tauto); exact X46). assert (Y47 : xs s2 47 = Int col) by (rewrite (keep_read _ _ _ _ K2) by (cbn; tauto); exact X47).
  assert (F13 : full (vs s2 13)) by (rewrite YV; exact Z13).
  assert (HO2 : outs (grid (fun i c => dotted lp rp i c n)) s2) by (destruct HO; constructor; rewrite YV; assumption). clear HO.
  (* Loads *)
  eapply reach_trans; [apply (loadd Lb Rb Bi SL SR Mu Ex lo ro dof lzw rzw dzp pzw sr sc lr lc dr dc ls rs ds K cmin cmax hb hls hrs hpc cc drz dcz tyz Hlr Hlc D T row col np nq _ s2 HM C2 Y42 Y43 Y46 Y47 F13 HO2); assumption|].
  intros pc s3 (-> & [W6 W42 W43 W0 W1 W2 W3 W8 W13 WO WK WM]).
  assert (C3 : core8 s3) by (eapply core8_keep; [exact C2|eapply NeonKernelB.keep_incl; [|exact WK]; reflexivity]). rewrite <- WM in HM.
  assert (W46 : xs s3 46 = Int row) by (rewrite (keep_read _ _ _ _ WK) by (cbn; tauto); exact Y46). assert (W47 : xs s3 47 = Int col) by (rewrite (keep_read _ _ _ _ WK) by (cbn; tauto); exact Y47).
  (* Sums of the right matrix *)
  eapply reach_trans; [apply (right_sumsd Lb Rb Bi SL SR Mu Ex lo ro dof lzw rzw dzp pzw sr sc lr lc dr dc ls rs ds K cmin cmax hb hls hrs hpc cc drz dcz tyz Hlc D T col _ s3 HM C3 W6 W47 WO Hcol HSR)|].
  intros pc s4 (-> & UO & UM & UK & UV).
  assert (C4 : core8 s4) by (eapply core8_keep; [exact C3|eapply NeonKernelB.keep_incl; [|exact UK]; reflexivity]). rewrite <- UM in HM.
  rewrite <- (keep_read _ _ _ 46 UK) in W46 by (cbn; tauto). rewrite <- (keep_read _ _ _ 47 UK) in W47 by (cbn; tauto). rewrite <- (keep_read _ _ _ 6 UK) in W6 by (cbn; tauto).
  rewrite <- (keepv_read _ _ _ 13 UV) in W13 by (cbn; tauto).
  (* Sums of the left matrix *)
  eapply reach_trans; [apply (left_sumsd Lb Rb Bi SL SR Mu Ex lo ro dof lzw rzw dzp pzw sr sc lr lc dr dc ls rs ds K cmin cmax hb hls hrs hpc cc drz dcz ty tyz Hlr Hty Hty4 D T row _ s4 HM C4 W6 W46 UO W13 Hrow HSL)|].
  intros pc s5 (-> & SO & S13 & SM & SK & SV). cbv beta in SO. change (outs (grid (accd n row col lp rp)) s5) in SO.
  assert (K35 : keep (6 :: mainregs)%nat s3 s5) by (eapply keep_trans; eassumption).
  assert (KV35 : keepv nextv s3 s5) by (eapply keepv_comp; [eapply keepv_sub; [|exact UV]; reflexivity|exact SV]).
  assert (C5 : core8 s5) by (eapply core8_keep; [exact C4|eapply NeonKernelB.keep_incl; [|exact SK]; reflexivity]). rewrite <- SM in HM.
  rewrite <- (keep_read _ _ _ 46 SK) in W46 by (cbn; tauto). rewrite <- (keep_read _ _ _ 47 SK) in W47 by (cbn; tauto). rewrite <- (keep_read _ _ _ 6 SK) in W6 by (cbn; tauto).
  rewrite <- (keepv_read _ _ _ 0 KV35) in W0 by (cbn; tauto). rewrite <- (keepv_read _ _ _ 1 KV35) in W1 by (cbn; tauto). rewrite <- (keepv_read _ _ _ 2 KV35) in W2 by (cbn; tauto). rewrite <- (keepv_read _ _ _ 3 KV35) in W3 by (cbn; tauto). rewrite <- (keepv_read _ _ _ 8 KV35) in W8 by (cbn; tauto).
  rewrite <- (keep_read _ _ _ 42 K35) in W42 by (cbn; tauto). rewrite <- (keep_read _ _ _ 43 K35) in W43 by (cbn; tauto).
  rewrite <- (keep_read _ _ _ 40 WK), <- (keep_read _ _ _ 40 K35) in Y40 by (cbn; tauto). rewrite <- (keep_read _ _ _ 41 WK), <- (keep_read _ _ _ 41 K35) in Y41 by (cbn; tauto).
  assert (S45 : xs s5 45 = Ptr 4 ip) by (rewrite (keep_read _ _ _ 45 K35), (keep_read _ _ _ 45 WK), (keep_read _ _ _ 45 K2) by (cbn; tauto); exact X45).
  assert (S44 : xs s5 44 = Ptr 4 dp) by (rewrite (keep_read _ _ _ 44 K35), (keep_read _ _ _ 44 WK), (keep_read _ _ _ 44 K2) by (cbn; tauto); exact X44).
  (* Results *)
  eapply reach_trans; [apply (finishd Ht D T n row col lp rp ip np nq s5 HM C5 W6 S45 W46 W47 SO W8 W0 W2 S13 Hrow Hcol HMu HEx HQ Hip HD Hds HT)|].
  intros pc s6 (-> & D' & T' & G1 & G2 & G3 & G4 & G5 & G6 & G7 & G8).
  assert (C6 : core8 s6) by (eapply core8_keep; [exact C5|eapply NeonKernelB.keep_incl; [|exact G7]; reflexivity]).
  assert (R6 : forall r, In r keptregs -> xs s6 r = xs s5 r) by (intros r; apply (keep_read _ _ _ _ G7)).
  eapply reach_weaken; [apply (nextd D' T' row col dp (ip + 8 * Z.of_nat size8) s6 G1 C6); try assumption; (rewrite R6 by (cbn; tauto); assumption)|lia|].
  intros pc s7 (-> & HLE & [T1 T5 T7 T44 T45 T46 T47 TM TV TK]). split; [reflexivity|]. split; [exact HLE|]. exists D'. split; [exact G2|].
  assert (R7 : forall r, In r [8; 9; 10; 11; 12; 40; 41; 42; 43; 48; 49; 50; 51; 52]%nat -> xs s7 r = xs s6 r) by (intros r; apply (keep_read _ _ _ _ TK)).
  constructor; try assumption.
  - exists T'. rewrite G3, TM. split; [exact HT|exact G1].
  - eapply core8_keep; [exact C6|eapply NeonKernelB.keep_incl; [|exact TK]; reflexivity].
  - rewrite R7, R6 by (cbn; tauto). exact Y40.
  - rewrite R7, R6 by (cbn; tauto). exact Y41.
  - rewrite R7, R6 by (cbn; tauto). exact W42.
  - rewrite R7, R6 by (cbn; tauto). exact W43.
  - rewrite TV, (keepv_read _ _ _ _ G8) by (cbn; tauto). exact W0.
  - rewrite TV, (keepv_read _ _ _ _ G8) by (cbn; tauto). exact W1.
  - rewrite TV, (keepv_read _ _ _ _ G8) by (cbn; tauto). exact W2.
  - rewrite TV, (keepv_read _ _ _ _ G8) by (cbn; tauto). exact W3.
  - destruct G5; constructor; rewrite TV; assumption.
  - rewrite TV. exact G6.
Qed.

(** A program with this end: its products, from [a], end at [b + 39]. *)
Variables (code : list instr) (a b n nf : nat).
Hypothesis HK : 4 * Z.of_nat n = K /\ 4 <= K.
Hypothesis Htail : part_at code tail8 b.
Definition products (lp rp : Z) : Prop := forall s, xs s 1 = Int 4 -> level8 Lb Rb lp rp 0 1 s -> given8 Lb Rb K s -> accs8 lp rp [0]%nat [] s -> full (vs s 13) ->
  reach nf code a s (fun pc s' => pc = (b + 39)%nat /\ exists l1 l2, Permutation l1 (seq 0 n) /\ Permutation l2 (seq 0 n) /\ summed lp rp l1 l2 s s').
Hypothesis Hsums : forall lp rp, 0 <= lp /\ lp + 8 * K <= blen Lb -> 0 <= rp /\ rp + 8 * K <= blen Rb -> products lp rp.
Hypothesis Hloop : forall s t, holds LE (fl s) = Ok t -> reach 1 code (b + 821) s (fun pc s' => pc = (if t then a else b + 822)%nat /\ s' = s).

Lemma blockd : typed8 -> forall D row col lp rp ip dp s, atd D row col lp rp ip dp s -> 0 <= row <= lr -> 0 <= col <= lc ->
  0 <= lp /\ lp + 8 * K <= blen Lb -> 0 <= rp /\ rp + 8 * K <= blen Rb ->
  0 <= next_lhs8 row lp /\ next_lhs8 row lp + 32 <= blen Lb -> 0 <= next_rhs8 row col rp /\ next_rhs8 row col rp + 32 <= blen Rb ->
  first_bias row col + 8 <= blen Bi -> (hrs = true -> col + 8 <= blen SR) -> (hls = true -> row + 8 <= blen SL) ->
  first_chan row col + 8 <= blen Mu -> first_chan row col + 8 <= blen Ex ->
  (raw = false -> forall j, (j < 8)%nat -> fixed_point (bdat Mu (first_chan row col + Z.of_nat j)) /\ exponent (bdat Ex (first_chan row col + Z.of_nat j))) ->
  0 <= ip -> ip + ds * (fit dc col - 1) + Z.of_nat size8 * fit dr row <= blen D -> Z.of_nat size8 * fit dr row <= ds ->
  reach (nf + 901) code a s (fun pc s' => pc = (if (next_cold row col <=? lc)%Z then a else b + 822)%nat /\ exists D', cols ip ds (Z.of_nat size8 * fit dr row) (Z.to_nat (fit dc col)) (outd n row col lp rp) D D' /\
    atd D' (if row =? lr then sr else row + 8) (next_cold row col) (next_lhs8 row lp) (next_rhs8 row col rp) (if row =? lr then dp + ds * 8 else ip + 8 * Z.of_nat size8) (if row =? lr then dp + ds * 8 else dp) s').
Proof.
  intros Ht D row col lp rp ip dp s HA Hrow Hcol HL HR HNL HNR HB HSR HSL HMu HEx HQ Hip HD Hds. pose proof HA as [(T & HT & HM) HC X1 X5 X7 X40 X41 X42 X43 X44 X45 X46 X47 V0 V1 V2 V3 AC V13].
  replace (nf + 901)%nat with (nf + (900 + 1))%nat by lia. eapply reach_trans.
  - apply (Hsums lp rp HL HR s X1); [constructor; rewrite ?Z.mul_1_r; assumption| |exact AC|exact V13]. split; [apply (e12 lc ls rs ds K drz dcz tyz s HC)|]. destruct HM; split; assumption.
  - intros pc s1 (-> & l1 & l2 & P1 & P2 & HS).
    eapply reach_trans; [eapply reach_part; [exact Htail|]; apply (restd Ht D T n l1 l2 row col lp rp ip dp s s1 HA HM HT HS P1 P2 Hrow Hcol HNL HNR HB HSR HSL HMu HEx HQ Hip HD Hds)|].
    intros pc s2 (q & -> & -> & HLE & HD'). eapply reach_weaken; [apply (Hloop s2 _ HLE)|lia|]. intros pc s3 (-> & ->). split; [reflexivity|exact HD'].
Qed.
End Block.
