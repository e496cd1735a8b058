(** Kernel8bitNeonDotprodX1 and Kernel8bitNeonDotprod (kernel_arm64.cc:4414-5667, 2987-4412): the columns of a block are stored, in the destination or first in the temporary buffer. *)
From Coq Require Import ZArith List Bool Lia.
From Verif Require Import Base Mat Simd SimdFacts SpecSimd Kernel8bitFacts RequantProps Neon64 NeonRun NeonTac NeonCols NeonPack NeonKTac NeonKernelF NeonKernelT NeonKernel8Code Neon8Lanes Neon8Tac NeonKernelB Neon8Col Neon8Blk Neon8Dot Neon8DotHeld Neon8DotStore.
Import ListNotations.
Open Scope Z_scope.

Lemma upd_at : forall (A : Type) (f : nat -> A) j v, upd f j v j = v.
Proof. intros A f j v. unfold upd. rewrite Nat.eqb_refl. reflexivity. Qed.
Lemma upd_else : forall (A : Type) (f : nat -> A) j v i, i <> j -> upd f j v i = f i.
Proof. intros A f j v i H. unfold upd. apply Nat.eqb_neq in H. rewrite H. reflexivity. Qed.

Section Place.
Variables (Lb Rb Bi SL SR Mu Ex : buf Z) (lo ro dof lzw rzw dzp pzw sr sc lr lc dr dc ls rs ds K cmin cmax : Z) (hb hls hrs hpc cc : bool) (drz dcz ty tyz : Z).
Notation kmem8 := (kmem8 Lb Rb Bi SL SR Mu Ex lo ro dof lzw rzw dzp pzw sr sc lr lc dr dc ls rs ds K cmin cmax hb hls hrs hpc cc).
Notation core8 := (core8 lc ls rs ds K drz dcz tyz).
Notation lvec := (lvec Lb).
Notation rvec4 := (rvec4 Rb).
Notation accs8 := (accs8 Lb Rb).
Notation doned := (doned Lb Rb Bi SL SR Mu Ex lo ro dof lzw rzw dzp pzw sr sc lr lc dr dc ls rs ds K cmin cmax hb hls hrs hpc cc).
Hypothesis Hlr : 0 <= sr <= lr /\ lr < dr /\ dr < 2 ^ 31 /\ lr + 8 < 2 ^ 31.
Hypothesis Hlc : 0 <= sc <= lc /\ lc < dc /\ dc < 2 ^ 31 /\ lc + 8 < 2 ^ 31.
Hypothesis Hst : 0 <= ls < 2 ^ 31 /\ 0 <= rs < 2 ^ 31 /\ 0 <= ds < 2 ^ 31.
Hypothesis Hdr : drz mod 2 ^ 32 = dr.
Hypothesis Hdc : dcz mod 2 ^ 32 = dc.

(** The registers after the stores: cleared, with the first products of the next block. *)
Record cleared (j : nat) (np nq : Z) (B' : buf Z) (s s' : state) : Prop := {
  q_at : mem s' j = Bytes B'; q_else : forall i, i <> j -> mem s' i = mem s i; q_accs : accs8 np nq [0%nat] [] s'; q_fl : fl s' = fl s;
  q_keep : keep (1 :: 2 :: mainregs)%nat s s'; q_keepv : keepv [0; 1; 2; 3; 13]%nat s s' }.
Ltac accs_proof := constructor; look;
  match goal with
  | |- sdot_lane _ _ _ _ = sumsl _ _ ?np ?nq ?h ?c _ => rewrite (no_sumsl Lb Rb np nq h c); apply (sdotl Lb Rb 0 0 0); [reflexivity|lia]
  | |- _ = sumsl _ _ ?np ?nq ?h ?c [] => rewrite <- (no_sumsl Lb Rb np nq h c); first [reflexivity | assumption]
  end.
Lemma cleared_kmem4 : forall D D' T np nq s s', kmem8 D T (mem s) -> cleared 4 np nq D' s s' -> kmem8 D' T (mem s').
Proof. intros D D' T np nq s s' [M0 M1 M2 M3 M4 M5 M6 M7 M8 M9] [A E _ _ _ _]. constructor; first [exact A | rewrite E by discriminate; assumption]. Qed.
Lemma cleared_kmem5 : forall D T' T np nq s s', kmem8 D T (mem s) -> cleared 5 np nq T' s s' -> kmem8 D T' (mem s').
Proof. intros D T' T np nq s s' [M0 M1 M2 M3 M4 M5 M6 M7 M8 M9] [A E _ _ _ _]. constructor; first [exact A | rewrite E by discriminate; assumption]. Qed.

Lemma puts_u8 : forall j B p st np nq out s, xs s 3 = Ptr j p -> xs s 4 = Int st -> mem s j = Bytes B -> vs s 0 = lvec np 0 0 -> vs s 2 = rvec4 nq 0 0 ->
  held_u8 out s -> (forall c, length (out c) = 8%nat) -> Forall (fun r => vs s r = repeat 0 16) [24; 25; 26; 27; 28; 29; 30; 31]%nat -> 0 <= p -> 0 <= st < 2 ^ 31 -> p + st * 7 + 8 <= blen B ->
  reach 29 tail8 384 s (fun pc s' => pc = 413%nat /\ cleared j np nq (putc B p st out 8) s s').
Proof.
  intros j B p st np nq out s X3 X4 MJ V0 V2 (O0 & O1 & O2 & O3 & O4 & O5 & O6 & O7) HL HZ Hp Hst' HB.
  pose proof (Forall_inv HZ) as Z24; apply Forall_inv_tail in HZ; pose proof (Forall_inv HZ) as Z25; apply Forall_inv_tail in HZ; pose proof (Forall_inv HZ) as Z26; apply Forall_inv_tail in HZ; pose proof (Forall_inv HZ) as Z27; apply Forall_inv_tail in HZ.
  pose proof (Forall_inv HZ) as Z28; apply Forall_inv_tail in HZ; pose proof (Forall_inv HZ) as Z29; apply Forall_inv_tail in HZ; pose proof (Forall_inv HZ) as Z30; apply Forall_inv_tail in HZ; pose proof (Forall_inv HZ) as Z31; clear HZ. cbn beta in *.
  begin. kstepd.
  do 1 kstepd. (eapply m_st1; [reflexivity|reads|reads|lia|reflexivity|look; rewrite O0; apply HL|cbn [mem]; first [exact MJ|apply upd_at]|lia|cbn [put blen]; lia|]). look. kstepd.
  do 1 kstepd. (eapply m_st1; [reflexivity|reads|reads|lia|reflexivity|look; rewrite O1; apply HL|cbn [mem]; first [exact MJ|apply upd_at]|lia|cbn [put blen]; lia|]). look. kstepd.
  do 1 kstepd. (eapply m_st1; [reflexivity|reads|reads|lia|reflexivity|look; rewrite O2; apply HL|cbn [mem]; first [exact MJ|apply upd_at]|lia|cbn [put blen]; lia|]). look. kstepd.
  do 1 kstepd. (eapply m_st1; [reflexivity|reads|reads|lia|reflexivity|look; rewrite O3; apply HL|cbn [mem]; first [exact MJ|apply upd_at]|lia|cbn [put blen]; lia|]). look. kstepd.
  do 1 kstepd. (eapply m_st1; [reflexivity|reads|reads|lia|reflexivity|look; rewrite O4; apply HL|cbn [mem]; first [exact MJ|apply upd_at]|lia|cbn [put blen]; lia|]). look. kstepd.
  do 1 kstepd. (eapply m_st1; [reflexivity|reads|reads|lia|reflexivity|look; rewrite O5; apply HL|cbn [mem]; first [exact MJ|apply upd_at]|lia|cbn [put blen]; lia|]). look. kstepd.
  do 1 kstepd. (eapply m_st1; [reflexivity|reads|reads|lia|reflexivity|look; rewrite O6; apply HL|cbn [mem]; first [exact MJ|apply upd_at]|lia|cbn [put blen]; lia|]). look. kstepd.
  do 1 kstepd. (eapply m_st1; [reflexivity|reads|reads|lia|reflexivity|look; rewrite O7; apply HL|cbn [mem]; first [exact MJ|apply upd_at]|lia|cbn [put blen]; lia|]). look. kstepd.
  do 4 kstepd. finish. split; [reflexivity|]. constructor.
  - cbn [mem]. rewrite upd_at. cbn [putc]. rewrite <- ?O0, <- ?O1, <- ?O2, <- ?O3, <- ?O4, <- ?O5, <- ?O6, <- ?O7. f_equal. repeat (apply put_eq; [|lia|reflexivity]). reflexivity.
  - intros i Hi. cbn [mem]. rewrite !upd_else by exact Hi. reflexivity.
  - accs_proof.
  - reflexivity.
  - kept_here.
  - kept_here.
Qed.

Lemma place_u8 : forall D T row col ip np nq out s, kmem8 D T (mem s) -> core8 s -> xs s 45 = Ptr 4 ip -> xs s 46 = Int row -> xs s 47 = Int col ->
  vs s 0 = lvec np 0 0 -> vs s 2 = rvec4 nq 0 0 -> full (vs s 13) -> held_u8 out s -> (forall c, length (out c) = 8%nat /\ Forall (fun z => 0 <= z < 256) (out c)) -> Forall (fun r => vs s r = repeat 0 16) [24; 25; 26; 27; 28; 29; 30; 31]%nat ->
  0 <= row <= lr -> 0 <= col <= lc -> 0 <= ip -> ip + ds * (fit dc col - 1) + 1 * fit dr row <= blen D -> 1 * fit dr row <= ds -> 256 <= blen T ->
  reach 600 tail8 368 s (fun pc s' => pc = 805%nat /\ doned 1 row col ip out np nq D T s s').
Proof.
  intros D T row col ip np nq out s HM HC X45 X46 X47 V0 V2 V13 HH HO HZ Hrow Hcol Hip HD Hds HT.
  assert (Hnr : 1 <= fit dr row <= 8) by (unfold fit; destruct (Z.leb_spec (dr - row) 8); lia). assert (Hnc : 1 <= fit dc col <= 8) by (unfold fit; destruct (Z.leb_spec (dc - col) 8); lia).
  eapply reach_weaken with (n := (10 + 580)%nat); [|lia|intros ? ? HQ0; exact HQ0]. eapply reach_trans; [apply (sizes_u8 sr sc lr lc dr dc ls rs ds K drz dcz tyz Hlr Hlc Hdr Hdc row col s HC X46 X47 Hrow Hcol)|].
  intros pc s1 (-> & [G1 G2 GF GM GV GK]).
  assert (HC1 : core8 s1) by (eapply core8_keep; [exact HC|eapply NeonKernelB.keep_incl; [|exact GK]; reflexivity]).
  assert (Y45 : xs s1 45 = Ptr 4 ip) by (rewrite (keep_read _ _ _ _ GK) by (cbn; tauto); exact X45).
  assert (Hlen : forall c, length (out c) = 8%nat) by (intros c; apply HO).
  rewrite <- GM in HM. rewrite <- GV in V0, V2, V13, HZ. assert (HH1 : held_u8 out s1) by (unfold held_u8 in *; rewrite GV; exact HH). clear HH. pose proof HC1 as [C8 C9 C10 C11 C12 C48 C49 C50 C51 C52].
  pose proof HM as [M0 M1 M2 M3 M4 M5 M6 M7 M8 M9].
  destruct (whole dr dc row col) eqn:EW.
  - apply andb_true_iff in EW. destruct EW as [E1 E2]. apply Z.eqb_eq in E1, E2. rewrite E1, E2 in *. eapply reach_weaken with (n := (3 + (29 + 500))%nat); [|lia|intros ? ? HQ0; exact HQ0]. 
    begin. do 3 kstepd. eapply reach_trans; [apply (puts_u8 4 D ip ds np nq out); try reads; try assumption; try lia|].
    intros pc s2 (-> & HQ). pose proof HQ as [QA QE QC QF QK QV]. pose proof (keep_read _ _ _ 45%nat QK ltac:(cbn; tauto)) as Y45'. cbn [xs upd Nat.eqb] in Y45'. rewrite Y45 in Y45'. cbn [fl] in QF.
    begin. eapply reach_b with (b := true); [reflexivity|reflexivity|rewrite QF; cbn [holds]; rewrite GF; reflexivity|]. do 2 kstepd. eapply reach_b with (b := true); [reflexivity|reflexivity|reflexivity|].
    finish. split; [reflexivity|]. exists (putc D ip ds out 8), T. rewrite ?E1, ?E2. split; [cbn [mem]; eapply cleared_kmem4; [|exact HQ]; cbn [mem]; exact HM|].
    split; [apply putc_cols; [intros c; rewrite Hlen; reflexivity|lia]|]. split; [reflexivity|]. split; [reads_lia|]. split; [destruct QC; constructor; look; assumption|].
    split; [look; rewrite (keepv_read _ _ _ _ QV) by (cbn; tauto); exact V13|]. 
    split; [eapply keep_trans; [eapply NeonKernelB.keep_incl; [|exact GK]; reflexivity|]; eapply keep_trans; [|eapply keep_trans; [eapply NeonKernelB.keep_incl; [|exact QK]; reflexivity|]]; kept_here|].
    unfold keepv. repeat constructor; look; (rewrite (keepv_read _ _ _ _ QV) by (cbn; tauto)); look; rewrite GV; reflexivity.
  - eapply reach_weaken with (n := (3 + (29 + 500))%nat); [|lia|intros ? ? HQ0; exact HQ0].
    begin. do 2 kstepd. eapply reach_b with (b := true); [reflexivity|reflexivity|reflexivity|]. eapply reach_trans; [apply (puts_u8 5 T 0 8 np nq out); try reads; try assumption; try lia|].
    intros pc s2 (-> & HQ). pose proof HQ as [QA QE QC QF QK QV]. assert (Y := fun r H => keep_read _ _ _ r QK H). cbn [xs] in Y. cbn [fl] in QF.
    assert (Z1 := Y 1%nat ltac:(cbn; tauto)). assert (Z2 := Y 2%nat ltac:(cbn; tauto)). assert (Z11 := Y 11%nat ltac:(cbn; tauto)). assert (Z45 := Y 45%nat ltac:(cbn; tauto)). assert (Z51 := Y 51%nat ltac:(cbn; tauto)). clear Y.
    cbn [xs upd Nat.eqb] in Z1, Z2, Z11, Z45, Z51. rewrite G1 in Z1. rewrite G2 in Z2. rewrite C11 in Z11. rewrite Y45 in Z45. rewrite C51 in Z51.
    assert (CT : cols 0 8 8 8 out T (putc T 0 8 out 8)) by (apply putc_cols; [intros c; rewrite Hlen; reflexivity|lia]). set (T2 := putc T 0 8 out 8) in *. clearbody T2.
    assert (HM2 : kmem8 D T2 (mem s2)) by (eapply cleared_kmem5; [|exact HQ]; cbn [mem]; exact HM). clear HQ.
    begin. eapply reach_b with (b := false); [reflexivity|reflexivity|rewrite QF; cbn [holds]; rewrite GF; reflexivity|]. do 3 kstepd.
    assert (HNR : (1 <= Z.to_nat (fit dr row) <= 8)%nat) by lia. assert (HNC : (1 <= Z.to_nat (fit dc col) <= 8)%nat) by lia.
    assert (ENR : fit dr row = Z.of_nat (Z.to_nat (fit dr row))) by lia. assert (ENC : fit dc col = Z.of_nat (Z.to_nat (fit dc col))) by lia.
    set (nr := Z.to_nat (fit dr row)) in *. set (nc := Z.to_nat (fit dc col)) in *. rewrite ENR in *. rewrite ENC in *. clearbody nr nc.
    eapply reach_weaken with (n := ((6 * nr + 8) * S (nc - 1) + 3)%nat); [|assert ((6 * nr + 8) * S (nc - 1) <= 448)%nat by nia; lia|intros ? ? HQ'; exact HQ'].
    eapply reach_trans; [apply (outer_u8 Lb Rb Bi SL SR Mu Ex lo ro dof lzw rzw dzp pzw sr sc lr lc dr dc ls rs ds K cmin cmax hb hls hrs hpc cc drz dcz Hlr Hlc Hst D T2 ip nr nc (nc - 1) 0)|].
    { lia. } { lia. } { lia. } { look. exact Z1. } { look. exact Z2. } { reads_lia. } { reads_lia. } { reads. } { look. exact Z11. } { exact HM2. } { intros x Hx. apply (cols_bytes 1 out T T2 x CT); [lia|exact HO|lia]. }
    { rewrite (cl_len _ _ _ _ _ _ _ CT). exact HT. } { exact Hip. } { lia. }
    intros pc s3 (-> & HM3 & HK3 & HV3). pose proof (keep_read _ _ _ 45%nat HK3 ltac:(cbn; tauto)) as W45. cbn [xs upd Nat.eqb] in W45. rewrite Z45 in W45.
    do 2 kstepd. eapply reach_b with (b := true); [reflexivity|reflexivity|reflexivity|].
    finish. split; [reflexivity|]. exists (copyb 1 D T2 ip ds nr nc), T2. split; [exact HM3|]. rewrite ?ENR, ?ENC, ?Nat2Z.id.
    split; [apply (copyb_cols 1 D T T2 out ip ds nr nc CT); lia|]. split; [apply (cl_len _ _ _ _ _ _ _ CT)|]. split; [reads_lia|].
    split; [destruct QC; constructor; look; rewrite HV3; assumption|]. split; [look; rewrite HV3; look; rewrite (keepv_read _ _ _ _ QV) by (cbn; tauto); exact V13|].
    split; [eapply keep_trans; [eapply NeonKernelB.keep_incl; [|exact GK]; reflexivity|]; eapply keep_trans; [|eapply keep_trans; [eapply NeonKernelB.keep_incl; [|exact QK]; reflexivity|eapply keep_trans; [|eapply keep_trans; [eapply NeonKernelB.keep_incl; [|exact HK3]; reflexivity|]]]]; kept_here|].
    unfold keepv. repeat constructor; look; rewrite HV3; look; (rewrite (keepv_read _ _ _ _ QV) by (cbn; tauto)); look; rewrite GV; reflexivity.
Qed.

Lemma puts_s8 : forall j B p st np nq out s, xs s 3 = Ptr j p -> xs s 4 = Int st -> mem s j = Bytes B -> vs s 0 = lvec np 0 0 -> vs s 2 = rvec4 nq 0 0 ->
  held_s8 out s -> (forall c, length (out c) = 8%nat) -> Forall (fun r => vs s r = repeat 0 16) [24; 25; 26; 27; 28; 29; 30; 31]%nat -> 0 <= p -> 0 <= st < 2 ^ 31 -> p + st * 7 + 8 <= blen B ->
  reach 29 tail8 508 s (fun pc s' => pc = 537%nat /\ cleared j np nq (putc B p st out 8) s s').
Proof.
  intros j B p st np nq out s X3 X4 MJ V0 V2 (O0 & O1 & O2 & O3 & O4 & O5 & O6 & O7) HL HZ Hp Hst' HB.
  pose proof (Forall_inv HZ) as Z24; apply Forall_inv_tail in HZ; pose proof (Forall_inv HZ) as Z25; apply Forall_inv_tail in HZ; pose proof (Forall_inv HZ) as Z26; apply Forall_inv_tail in HZ; pose proof (Forall_inv HZ) as Z27; apply Forall_inv_tail in HZ.
  pose proof (Forall_inv HZ) as Z28; apply Forall_inv_tail in HZ; pose proof (Forall_inv HZ) as Z29; apply Forall_inv_tail in HZ; pose proof (Forall_inv HZ) as Z30; apply Forall_inv_tail in HZ; pose proof (Forall_inv HZ) as Z31; clear HZ. cbn beta in *.
  begin. kstepd.
  do 1 kstepd. (eapply m_st1; [reflexivity|reads|reads|lia|reflexivity|look; rewrite O0; apply HL|cbn [mem]; first [exact MJ|apply upd_at]|lia|cbn [put blen]; lia|]). look. kstepd.
  do 1 kstepd. (eapply m_st1; [reflexivity|reads|reads|lia|reflexivity|look; rewrite O1; apply HL|cbn [mem]; first [exact MJ|apply upd_at]|lia|cbn [put blen]; lia|]). look. kstepd.
  do 1 kstepd. (eapply m_st1; [reflexivity|reads|reads|lia|reflexivity|look; rewrite O2; apply HL|cbn [mem]; first [exact MJ|apply upd_at]|lia|cbn [put blen]; lia|]). look. kstepd.
  do 1 kstepd. (eapply m_st1; [reflexivity|reads|reads|lia|reflexivity|look; rewrite O3; apply HL|cbn [mem]; first [exact MJ|apply upd_at]|lia|cbn [put blen]; lia|]). look. kstepd.
  do 1 kstepd. (eapply m_st1; [reflexivity|reads|reads|lia|reflexivity|look; rewrite O4; apply HL|cbn [mem]; first [exact MJ|apply upd_at]|lia|cbn [put blen]; lia|]). look. kstepd.
  do 1 kstepd. (eapply m_st1; [reflexivity|reads|reads|lia|reflexivity|look; rewrite O5; apply HL|cbn [mem]; first [exact MJ|apply upd_at]|lia|cbn [put blen]; lia|]). look. kstepd.
  do 1 kstepd. (eapply m_st1; [reflexivity|reads|reads|lia|reflexivity|look; rewrite O6; apply HL|cbn [mem]; first [exact MJ|apply upd_at]|lia|cbn [put blen]; lia|]). look. kstepd.
  do 1 kstepd. (eapply m_st1; [reflexivity|reads|reads|lia|reflexivity|look; rewrite O7; apply HL|cbn [mem]; first [exact MJ|apply upd_at]|lia|cbn [put blen]; lia|]). look. kstepd.
  do 4 kstepd. finish. split; [reflexivity|]. constructor.
  - cbn [mem]. rewrite upd_at. cbn [putc]. rewrite <- ?O0, <- ?O1, <- ?O2, <- ?O3, <- ?O4, <- ?O5, <- ?O6, <- ?O7. f_equal. repeat (apply put_eq; [|lia|reflexivity]). reflexivity.
  - intros i Hi. cbn [mem]. rewrite !upd_else by exact Hi. reflexivity.
  - accs_proof.
  - reflexivity.
  - kept_here.
  - kept_here.
Qed.

Lemma place_s8 : forall D T row col ip np nq out s, kmem8 D T (mem s) -> core8 s -> xs s 45 = Ptr 4 ip -> xs s 46 = Int row -> xs s 47 = Int col ->
  vs s 0 = lvec np 0 0 -> vs s 2 = rvec4 nq 0 0 -> full (vs s 13) -> held_s8 out s -> (forall c, length (out c) = 8%nat /\ Forall (fun z => 0 <= z < 256) (out c)) -> Forall (fun r => vs s r = repeat 0 16) [24; 25; 26; 27; 28; 29; 30; 31]%nat ->
  0 <= row <= lr -> 0 <= col <= lc -> 0 <= ip -> ip + ds * (fit dc col - 1) + 1 * fit dr row <= blen D -> 1 * fit dr row <= ds -> 256 <= blen T ->
  reach 600 tail8 492 s (fun pc s' => pc = 805%nat /\ doned 1 row col ip out np nq D T s s').
Proof.
  intros D T row col ip np nq out s HM HC X45 X46 X47 V0 V2 V13 HH HO HZ Hrow Hcol Hip HD Hds HT.
  assert (Hnr : 1 <= fit dr row <= 8) by (unfold fit; destruct (Z.leb_spec (dr - row) 8); lia). assert (Hnc : 1 <= fit dc col <= 8) by (unfold fit; destruct (Z.leb_spec (dc - col) 8); lia).
  eapply reach_weaken with (n := (10 + 580)%nat); [|lia|intros ? ? HQ0; exact HQ0]. eapply reach_trans; [apply (sizes_s8 sr sc lr lc dr dc ls rs ds K drz dcz tyz Hlr Hlc Hdr Hdc row col s HC X46 X47 Hrow Hcol)|].
  intros pc s1 (-> & [G1 G2 GF GM GV GK]).
  assert (HC1 : core8 s1) by (eapply core8_keep; [exact HC|eapply NeonKernelB.keep_incl; [|exact GK]; reflexivity]).
  assert (Y45 : xs s1 45 = Ptr 4 ip) by (rewrite (keep_read _ _ _ _ GK) by (cbn; tauto); exact X45).
  assert (Hlen : forall c, length (out c) = 8%nat) by (intros c; apply HO).
  rewrite <- GM in HM. rewrite <- GV in V0, V2, V13, HZ. assert (HH1 : held_s8 out s1) by (unfold held_s8 in *; rewrite GV; exact HH). clear HH. pose proof HC1 as [C8 C9 C10 C11 C12 C48 C49 C50 C51 C52].
  pose proof HM as [M0 M1 M2 M3 M4 M5 M6 M7 M8 M9].
  destruct (whole dr dc row col) eqn:EW.
  - apply andb_true_iff in EW. destruct EW as [E1 E2]. apply Z.eqb_eq in E1, E2. rewrite E1, E2 in *. eapply reach_weaken with (n := (3 + (29 + 500))%nat); [|lia|intros ? ? HQ0; exact HQ0]. 
    begin. do 3 kstepd. eapply reach_trans; [apply (puts_s8 4 D ip ds np nq out); try reads; try assumption; try lia|].
    intros pc s2 (-> & HQ). pose proof HQ as [QA QE QC QF QK QV]. pose proof (keep_read _ _ _ 45%nat QK ltac:(cbn; tauto)) as Y45'. cbn [xs upd Nat.eqb] in Y45'. rewrite Y45 in Y45'. cbn [fl] in QF.
    begin. eapply reach_b with (b := true); [reflexivity|reflexivity|rewrite QF; cbn [holds]; rewrite GF; reflexivity|]. do 2 kstepd. eapply reach_b with (b := true); [reflexivity|reflexivity|reflexivity|].
    finish. split; [reflexivity|]. exists (putc D ip ds out 8), T. rewrite ?E1, ?E2. split; [cbn [mem]; eapply cleared_kmem4; [|exact HQ]; cbn [mem]; exact HM|].
    split; [apply putc_cols; [intros c; rewrite Hlen; reflexivity|lia]|]. split; [reflexivity|]. split; [reads_lia|]. split; [destruct QC; constructor; look; assumption|].
    split; [look; rewrite (keepv_read _ _ _ _ QV) by (cbn; tauto); exact V13|]. 
    split; [eapply keep_trans; [eapply NeonKernelB.keep_incl; [|exact GK]; reflexivity|]; eapply keep_trans; [|eapply keep_trans; [eapply NeonKernelB.keep_incl; [|exact QK]; reflexivity|]]; kept_here|].
    unfold keepv. repeat constructor; look; (rewrite (keepv_read _ _ _ _ QV) by (cbn; tauto)); look; rewrite GV; reflexivity.
  - eapply reach_weaken with (n := (3 + (29 + 500))%nat); [|lia|intros ? ? HQ0; exact HQ0].
    begin. do 2 kstepd. eapply reach_b with (b := true); [reflexivity|reflexivity|reflexivity|]. eapply reach_trans; [apply (puts_s8 5 T 0 8 np nq out); try reads; try assumption; try lia|].
    intros pc s2 (-> & HQ). pose proof HQ as [QA QE QC QF QK QV]. assert (Y := fun r H => keep_read _ _ _ r QK H). cbn [xs] in Y. cbn [fl] in QF.
    assert (Z1 := Y 1%nat ltac:(cbn; tauto)). assert (Z2 := Y 2%nat ltac:(cbn; tauto)). assert (Z11 := Y 11%nat ltac:(cbn; tauto)). assert (Z45 := Y 45%nat ltac:(cbn; tauto)). assert (Z51 := Y 51%nat ltac:(cbn; tauto)). clear Y.
    cbn [xs upd Nat.eqb] in Z1, Z2, Z11, Z45, Z51. rewrite G1 in Z1. rewrite G2 in Z2. rewrite C11 in Z11. rewrite Y45 in Z45. rewrite C51 in Z51.
    assert (CT : cols 0 8 8 8 out T (putc T 0 8 out 8)) by (apply putc_cols; [intros c; rewrite Hlen; reflexivity|lia]). set (T2 := putc T 0 8 out 8) in *. clearbody T2.
    assert (HM2 : kmem8 D T2 (mem s2)) by (eapply cleared_kmem5; [|exact HQ]; cbn [mem]; exact HM). clear HQ.
    begin. eapply reach_b with (b := false); [reflexivity|reflexivity|rewrite QF; cbn [holds]; rewrite GF; reflexivity|]. do 3 kstepd.
    assert (HNR : (1 <= Z.to_nat (fit dr row) <= 8)%nat) by lia. assert (HNC : (1 <= Z.to_nat (fit dc col) <= 8)%nat) by lia.
    assert (ENR : fit dr row = Z.of_nat (Z.to_nat (fit dr row))) by lia. assert (ENC : fit dc col = Z.of_nat (Z.to_nat (fit dc col))) by lia.
    set (nr := Z.to_nat (fit dr row)) in *. set (nc := Z.to_nat (fit dc col)) in *. rewrite ENR in *. rewrite ENC in *. clearbody nr nc.
    eapply reach_weaken with (n := ((6 * nr + 8) * S (nc - 1) + 3)%nat); [|assert ((6 * nr + 8) * S (nc - 1) <= 448)%nat by nia; lia|intros ? ? HQ'; exact HQ'].
    eapply reach_trans; [apply (outer_s8 Lb Rb Bi SL SR Mu Ex lo ro dof lzw rzw dzp pzw sr sc lr lc dr dc ls rs ds K cmin cmax hb hls hrs hpc cc drz dcz Hlr Hlc Hst D T2 ip nr nc (nc - 1) 0)|].
    { lia. } { lia. } { lia. } { look. exact Z1. } { look. exact Z2. } { reads_lia. } { reads_lia. } { reads. } { look. exact Z11. } { exact HM2. } { intros x Hx. apply (cols_bytes 1 out T T2 x CT); [lia|exact HO|lia]. }
    { rewrite (cl_len _ _ _ _ _ _ _ CT). exact HT. } { exact Hip. } { lia. }
    intros pc s3 (-> & HM3 & HK3 & HV3). pose proof (keep_read _ _ _ 45%nat HK3 ltac:(cbn; tauto)) as W45. cbn [xs upd Nat.eqb] in W45. rewrite Z45 in W45.
    do 2 kstepd. eapply reach_b with (b := true); [reflexivity|reflexivity|reflexivity|].
    finish. split; [reflexivity|]. exists (copyb 1 D T2 ip ds nr nc), T2. split; [exact HM3|]. rewrite ?ENR, ?ENC, ?Nat2Z.id.
    split; [apply (copyb_cols 1 D T T2 out ip ds nr nc CT); lia|]. split; [apply (cl_len _ _ _ _ _ _ _ CT)|]. split; [reads_lia|].
    split; [destruct QC; constructor; look; rewrite HV3; assumption|]. split; [look; rewrite HV3; look; rewrite (keepv_read _ _ _ _ QV) by (cbn; tauto); exact V13|].
    split; [eapply keep_trans; [eapply NeonKernelB.keep_incl; [|exact GK]; reflexivity|]; eapply keep_trans; [|eapply keep_trans; [eapply NeonKernelB.keep_incl; [|exact QK]; reflexivity|eapply keep_trans; [|eapply keep_trans; [eapply NeonKernelB.keep_incl; [|exact HK3]; reflexivity|]]]]; kept_here|].
    unfold keepv. repeat constructor; look; rewrite HV3; look; (rewrite (keepv_read _ _ _ _ QV) by (cbn; tauto)); look; rewrite GV; reflexivity.
Qed.

Lemma puts_s16 : forall j B p st np nq out s, xs s 3 = Ptr j p -> xs s 4 = Int st -> mem s j = Bytes B -> vs s 0 = lvec np 0 0 -> vs s 2 = rvec4 nq 0 0 ->
  held_s16 out s -> (forall c, length (out c) = 16%nat) -> Forall (fun r => vs s r = repeat 0 16) [24; 25; 26; 27; 28; 29; 30; 31]%nat -> 0 <= p -> 0 <= st < 2 ^ 31 -> p + st * 7 + 16 <= blen B ->
  reach 29 tail8 636 s (fun pc s' => pc = 665%nat /\ cleared j np nq (putc B p st out 8) s s').
Proof.
  intros j B p st np nq out s X3 X4 MJ V0 V2 (O0 & O1 & O2 & O3 & O4 & O5 & O6 & O7) HL HZ Hp Hst' HB.
  pose proof (Forall_inv HZ) as Z24; apply Forall_inv_tail in HZ; pose proof (Forall_inv HZ) as Z25; apply Forall_inv_tail in HZ; pose proof (Forall_inv HZ) as Z26; apply Forall_inv_tail in HZ; pose proof (Forall_inv HZ) as Z27; apply Forall_inv_tail in HZ.
  pose proof (Forall_inv HZ) as Z28; apply Forall_inv_tail in HZ; pose proof (Forall_inv HZ) as Z29; apply Forall_inv_tail in HZ; pose proof (Forall_inv HZ) as Z30; apply Forall_inv_tail in HZ; pose proof (Forall_inv HZ) as Z31; clear HZ. cbn beta in *.
  begin. kstepd.
  do 1 kstepd. (eapply m_st1; [reflexivity|reads|reads|lia|reflexivity|look; rewrite O0; apply HL|cbn [mem]; first [exact MJ|apply upd_at]|lia|cbn [put blen]; lia|]). look. kstepd.
  do 1 kstepd. (eapply m_st1; [reflexivity|reads|reads|lia|reflexivity|look; rewrite O1; apply HL|cbn [mem]; first [exact MJ|apply upd_at]|lia|cbn [put blen]; lia|]). look. kstepd.
  do 1 kstepd. (eapply m_st1; [reflexivity|reads|reads|lia|reflexivity|look; rewrite O2; apply HL|cbn [mem]; first [exact MJ|apply upd_at]|lia|cbn [put blen]; lia|]). look. kstepd.
  do 1 kstepd. (eapply m_st1; [reflexivity|reads|reads|lia|reflexivity|look; rewrite O3; apply HL|cbn [mem]; first [exact MJ|apply upd_at]|lia|cbn [put blen]; lia|]). look. kstepd.
  do 1 kstepd. (eapply m_st1; [reflexivity|reads|reads|lia|reflexivity|look; rewrite O4; apply HL|cbn [mem]; first [exact MJ|apply upd_at]|lia|cbn [put blen]; lia|]). look. kstepd.
  do 1 kstepd. (eapply m_st1; [reflexivity|reads|reads|lia|reflexivity|look; rewrite O5; apply HL|cbn [mem]; first [exact MJ|apply upd_at]|lia|cbn [put blen]; lia|]). look. kstepd.
  do 1 kstepd. (eapply m_st1; [reflexivity|reads|reads|lia|reflexivity|look; rewrite O6; apply HL|cbn [mem]; first [exact MJ|apply upd_at]|lia|cbn [put blen]; lia|]). look. kstepd.
  do 1 kstepd. (eapply m_st1; [reflexivity|reads|reads|lia|reflexivity|look; rewrite O7; apply HL|cbn [mem]; first [exact MJ|apply upd_at]|lia|cbn [put blen]; lia|]). look. kstepd.
  do 4 kstepd. finish. split; [reflexivity|]. constructor.
  - cbn [mem]. rewrite upd_at. cbn [putc]. rewrite <- ?O0, <- ?O1, <- ?O2, <- ?O3, <- ?O4, <- ?O5, <- ?O6, <- ?O7. f_equal. repeat (apply put_eq; [|lia|reflexivity]). reflexivity.
  - intros i Hi. cbn [mem]. rewrite !upd_else by exact Hi. reflexivity.
  - accs_proof.
  - reflexivity.
  - kept_here.
  - kept_here.
Qed.

Lemma place_s16 : forall D T row col ip np nq out s, kmem8 D T (mem s) -> core8 s -> xs s 45 = Ptr 4 ip -> xs s 46 = Int row -> xs s 47 = Int col ->
  vs s 0 = lvec np 0 0 -> vs s 2 = rvec4 nq 0 0 -> full (vs s 13) -> held_s16 out s -> (forall c, length (out c) = 16%nat /\ Forall (fun z => 0 <= z < 256) (out c)) -> Forall (fun r => vs s r = repeat 0 16) [24; 25; 26; 27; 28; 29; 30; 31]%nat ->
  0 <= row <= lr -> 0 <= col <= lc -> 0 <= ip -> ip + ds * (fit dc col - 1) + 2 * fit dr row <= blen D -> 2 * fit dr row <= ds -> 256 <= blen T ->
  reach 600 tail8 620 s (fun pc s' => pc = 805%nat /\ doned 2 row col ip out np nq D T s s').
Proof.
  intros D T row col ip np nq out s HM HC X45 X46 X47 V0 V2 V13 HH HO HZ Hrow Hcol Hip HD Hds HT.
  assert (Hnr : 1 <= fit dr row <= 8) by (unfold fit; destruct (Z.leb_spec (dr - row) 8); lia). assert (Hnc : 1 <= fit dc col <= 8) by (unfold fit; destruct (Z.leb_spec (dc - col) 8); lia).
  eapply reach_weaken with (n := (10 + 580)%nat); [|lia|intros ? ? HQ0; exact HQ0]. eapply reach_trans; [apply (sizes_s16 sr sc lr lc dr dc ls rs ds K drz dcz tyz Hlr Hlc Hdr Hdc row col s HC X46 X47 Hrow Hcol)|].
  intros pc s1 (-> & [G1 G2 GF GM GV GK]).
  assert (HC1 : core8 s1) by (eapply core8_keep; [exact HC|eapply NeonKernelB.keep_incl; [|exact GK]; reflexivity]).
  assert (Y45 : xs s1 45 = Ptr 4 ip) by (rewrite (keep_read _ _ _ _ GK) by (cbn; tauto); exact X45).
  assert (Hlen : forall c, length (out c) = 16%nat) by (intros c; apply HO).
  rewrite <- GM in HM. rewrite <- GV in V0, V2, V13, HZ. assert (HH1 : held_s16 out s1) by (unfold held_s16 in *; rewrite GV; exact HH). clear HH. pose proof HC1 as [C8 C9 C10 C11 C12 C48 C49 C50 C51 C52].
  pose proof HM as [M0 M1 M2 M3 M4 M5 M6 M7 M8 M9].
  destruct (whole dr dc row col) eqn:EW.
  - apply andb_true_iff in EW. destruct EW as [E1 E2]. apply Z.eqb_eq in E1, E2. rewrite E1, E2 in *. eapply reach_weaken with (n := (3 + (29 + 500))%nat); [|lia|intros ? ? HQ0; exact HQ0]. 
    begin. do 3 kstepd. eapply reach_trans; [apply (puts_s16 4 D ip ds np nq out); try reads; try assumption; try lia|].
    intros pc s2 (-> & HQ). pose proof HQ as [QA QE QC QF QK QV]. pose proof (keep_read _ _ _ 45%nat QK ltac:(cbn; tauto)) as Y45'. cbn [xs upd Nat.eqb] in Y45'. rewrite Y45 in Y45'. cbn [fl] in QF.
    begin. eapply reach_b with (b := true); [reflexivity|reflexivity|rewrite QF; cbn [holds]; rewrite GF; reflexivity|]. do 2 kstepd. eapply reach_b with (b := true); [reflexivity|reflexivity|reflexivity|].
    finish. split; [reflexivity|]. exists (putc D ip ds out 8), T. rewrite ?E1, ?E2. split; [cbn [mem]; eapply cleared_kmem4; [|exact HQ]; cbn [mem]; exact HM|].
    split; [apply putc_cols; [intros c; rewrite Hlen; reflexivity|lia]|]. split; [reflexivity|]. split; [reads_lia|]. split; [destruct QC; constructor; look; assumption|].
    split; [look; rewrite (keepv_read _ _ _ _ QV) by (cbn; tauto); exact V13|]. 
    split; [eapply keep_trans; [eapply NeonKernelB.keep_incl; [|exact GK]; reflexivity|]; eapply keep_trans; [|eapply keep_trans; [eapply NeonKernelB.keep_incl; [|exact QK]; reflexivity|]]; kept_here|].
    unfold keepv. repeat constructor; look; (rewrite (keepv_read _ _ _ _ QV) by (cbn; tauto)); look; rewrite GV; reflexivity.
  - eapply reach_weaken with (n := (3 + (29 + 500))%nat); [|lia|intros ? ? HQ0; exact HQ0].
    begin. do 2 kstepd. eapply reach_b with (b := true); [reflexivity|reflexivity|reflexivity|]. eapply reach_trans; [apply (puts_s16 5 T 0 16 np nq out); try reads; try assumption; try lia|].
    intros pc s2 (-> & HQ). pose proof HQ as [QA QE QC QF QK QV]. assert (Y := fun r H => keep_read _ _ _ r QK H). cbn [xs] in Y. cbn [fl] in QF.
    assert (Z1 := Y 1%nat ltac:(cbn; tauto)). assert (Z2 := Y 2%nat ltac:(cbn; tauto)). assert (Z11 := Y 11%nat ltac:(cbn; tauto)). assert (Z45 := Y 45%nat ltac:(cbn; tauto)). assert (Z51 := Y 51%nat ltac:(cbn; tauto)). clear Y.
    cbn [xs upd Nat.eqb] in Z1, Z2, Z11, Z45, Z51. rewrite G1 in Z1. rewrite G2 in Z2. rewrite C11 in Z11. rewrite Y45 in Z45. rewrite C51 in Z51.
    assert (CT : cols 0 16 16 8 out T (putc T 0 16 out 8)) by (apply putc_cols; [intros c; rewrite Hlen; reflexivity|lia]). set (T2 := putc T 0 16 out 8) in *. clearbody T2.
    assert (HM2 : kmem8 D T2 (mem s2)) by (eapply cleared_kmem5; [|exact HQ]; cbn [mem]; exact HM). clear HQ.
    begin. eapply reach_b with (b := false); [reflexivity|reflexivity|rewrite QF; cbn [holds]; rewrite GF; reflexivity|]. do 3 kstepd.
    assert (HNR : (1 <= Z.to_nat (fit dr row) <= 8)%nat) by lia. assert (HNC : (1 <= Z.to_nat (fit dc col) <= 8)%nat) by lia.
    assert (ENR : fit dr row = Z.of_nat (Z.to_nat (fit dr row))) by lia. assert (ENC : fit dc col = Z.of_nat (Z.to_nat (fit dc col))) by lia.
    set (nr := Z.to_nat (fit dr row)) in *. set (nc := Z.to_nat (fit dc col)) in *. rewrite ENR in *. rewrite ENC in *. clearbody nr nc.
    eapply reach_weaken with (n := ((6 * nr + 8) * S (nc - 1) + 3)%nat); [|assert ((6 * nr + 8) * S (nc - 1) <= 448)%nat by nia; lia|intros ? ? HQ'; exact HQ'].
    eapply reach_trans; [apply (outer_s16 Lb Rb Bi SL SR Mu Ex lo ro dof lzw rzw dzp pzw sr sc lr lc dr dc ls rs ds K cmin cmax hb hls hrs hpc cc drz dcz Hlr Hlc Hst D T2 ip nr nc (nc - 1) 0)|].
    { lia. } { lia. } { lia. } { look. exact Z1. } { look. exact Z2. } { reads_lia. } { reads_lia. } { reads. } { look. exact Z11. } { exact HM2. } { intros x Hx. apply (cols_bytes 2 out T T2 x CT); [lia|exact HO|lia]. }
    { rewrite (cl_len _ _ _ _ _ _ _ CT). exact HT. } { exact Hip. } { lia. }
    intros pc s3 (-> & HM3 & HK3 & HV3). pose proof (keep_read _ _ _ 45%nat HK3 ltac:(cbn; tauto)) as W45. cbn [xs upd Nat.eqb] in W45. rewrite Z45 in W45.
    do 2 kstepd. eapply reach_b with (b := true); [reflexivity|reflexivity|reflexivity|].
    finish. split; [reflexivity|]. exists (copyb 2 D T2 ip ds nr nc), T2. split; [exact HM3|]. rewrite ?ENR, ?ENC, ?Nat2Z.id.
    split; [apply (copyb_cols 2 D T T2 out ip ds nr nc CT); lia|]. split; [apply (cl_len _ _ _ _ _ _ _ CT)|]. split; [reads_lia|].
    split; [destruct QC; constructor; look; rewrite HV3; assumption|]. split; [look; rewrite HV3; look; rewrite (keepv_read _ _ _ _ QV) by (cbn; tauto); exact V13|].
    split; [eapply keep_trans; [eapply NeonKernelB.keep_incl; [|exact GK]; reflexivity|]; eapply keep_trans; [|eapply keep_trans; [eapply NeonKernelB.keep_incl; [|exact QK]; reflexivity|eapply keep_trans; [|eapply keep_trans; [eapply NeonKernelB.keep_incl; [|exact HK3]; reflexivity|]]]]; kept_here|].
    unfold keepv. repeat constructor; look; rewrite HV3; look; (rewrite (keepv_read _ _ _ _ QV) by (cbn; tauto)); look; rewrite GV; reflexivity.
Qed.

(** 32-bit results: two registers for each column. *)
Lemma puts_s32_dst : forall D ip np nq g s, xs s 45 = Ptr 4 ip -> xs s 11 = Int ds -> mem s 4%nat = Bytes D -> vs s 0 = lvec np 0 0 -> vs s 2 = rvec4 nq 0 0 ->
  outs g s -> (forall h c, length (g h c) = 16%nat) -> 0 <= ip -> ip + ds * 7 + 32 <= blen D ->
  reach 54 tail8 731 s (fun pc s' => pc = 785%nat /\ cleared 4 np nq (putc D ip ds (fun c => g 0%nat c ++ g 1%nat c) 8) s s').
Proof.
  intros D ip np nq g s X45 X11 M4 V0 V2 [O16 O17 O18 O19 O20 O21 O22 O23 O24 O25 O26 O27 O28 O29 O30 O31] HL Hp HB. assert (HF : forall h c, full (g h c)) by exact HL.
  begin. do 2 kstepd.
  do 2 kstepd. (eapply m_st1two; [reflexivity|reads|imm|lia|reads|reads|apply HF|apply HF|cbn [mem]; first [exact M4|apply upd_at]|lia|cbn [put blen]; lia|]). look. do 3 kstepd.
  do 2 kstepd. (eapply m_st1two; [reflexivity|reads|imm|lia|reads|reads|apply HF|apply HF|cbn [mem]; first [exact M4|apply upd_at]|lia|cbn [put blen]; lia|]). look. do 3 kstepd.
  do 2 kstepd. (eapply m_st1two; [reflexivity|reads|imm|lia|reads|reads|apply HF|apply HF|cbn [mem]; first [exact M4|apply upd_at]|lia|cbn [put blen]; lia|]). look. do 3 kstepd.
  do 2 kstepd. (eapply m_st1two; [reflexivity|reads|imm|lia|reads|reads|apply HF|apply HF|cbn [mem]; first [exact M4|apply upd_at]|lia|cbn [put blen]; lia|]). look. do 3 kstepd.
  do 2 kstepd. (eapply m_st1two; [reflexivity|reads|imm|lia|reads|reads|apply HF|apply HF|cbn [mem]; first [exact M4|apply upd_at]|lia|cbn [put blen]; lia|]). look. do 3 kstepd.
  do 2 kstepd. (eapply m_st1two; [reflexivity|reads|imm|lia|reads|reads|apply HF|apply HF|cbn [mem]; first [exact M4|apply upd_at]|lia|cbn [put blen]; lia|]). look. do 3 kstepd.
  do 2 kstepd. (eapply m_st1two; [reflexivity|reads|imm|lia|reads|reads|apply HF|apply HF|cbn [mem]; first [exact M4|apply upd_at]|lia|cbn [put blen]; lia|]). look. do 3 kstepd.
  do 2 kstepd. (eapply m_st1two; [reflexivity|reads|imm|lia|reads|reads|apply HF|apply HF|cbn [mem]; first [exact M4|apply upd_at]|lia|cbn [put blen]; lia|]). look. do 2 kstepd.
  do 5 kstepd. finish. split; [reflexivity|]. constructor.
  - cbn [mem]. rewrite upd_at. cbn [putc]. f_equal. repeat (apply put_eq; [|lia|reflexivity]). reflexivity.
  - intros i Hi. cbn [mem]. rewrite !upd_else by exact Hi. reflexivity.
  - accs_proof.
  - reflexivity.
  - kept_here.
  - kept_here.
Qed.
Lemma puts_s32_tmp : forall T np nq g s, xs s 51 = Ptr 5 0 -> mem s 5%nat = Bytes T -> vs s 0 = lvec np 0 0 -> vs s 2 = rvec4 nq 0 0 ->
  outs g s -> (forall h c, length (g h c) = 16%nat) -> 256 <= blen T ->
  reach 40 tail8 697 s (fun pc s' => pc = 785%nat /\ cleared 5 np nq (put_cols T 0 32 g 8) s s').
Proof.
  intros T np nq g s X51 M5 V0 V2 [O16 O17 O18 O19 O20 O21 O22 O23 O24 O25 O26 O27 O28 O29 O30 O31] HL HB. assert (HF : forall h c, firstn 16 (g h c) = g h c) by (intros; rewrite <- (HL h c); apply firstn_all).
  begin. kstepd.
  (eapply m_st1; [reflexivity|reads|imm|lia|reads|rewrite HF; apply HL|cbn [mem]; first [exact M5|apply upd_at]|lia|cbn [put blen]; lia|]). look. kstepd.
  (eapply m_st1; [reflexivity|reads|imm|lia|reads|rewrite HF; apply HL|cbn [mem]; first [exact M5|apply upd_at]|lia|cbn [put blen]; lia|]). look. kstepd.
  (eapply m_st1; [reflexivity|reads|imm|lia|reads|rewrite HF; apply HL|cbn [mem]; first [exact M5|apply upd_at]|lia|cbn [put blen]; lia|]). look. kstepd.
  (eapply m_st1; [reflexivity|reads|imm|lia|reads|rewrite HF; apply HL|cbn [mem]; first [exact M5|apply upd_at]|lia|cbn [put blen]; lia|]). look. kstepd.
  (eapply m_st1; [reflexivity|reads|imm|lia|reads|rewrite HF; apply HL|cbn [mem]; first [exact M5|apply upd_at]|lia|cbn [put blen]; lia|]). look. kstepd.
  (eapply m_st1; [reflexivity|reads|imm|lia|reads|rewrite HF; apply HL|cbn [mem]; first [exact M5|apply upd_at]|lia|cbn [put blen]; lia|]). look. kstepd.
  (eapply m_st1; [reflexivity|reads|imm|lia|reads|rewrite HF; apply HL|cbn [mem]; first [exact M5|apply upd_at]|lia|cbn [put blen]; lia|]). look. kstepd.
  (eapply m_st1; [reflexivity|reads|imm|lia|reads|rewrite HF; apply HL|cbn [mem]; first [exact M5|apply upd_at]|lia|cbn [put blen]; lia|]). look. kstepd.
  (eapply m_st1; [reflexivity|reads|imm|lia|reads|rewrite HF; apply HL|cbn [mem]; first [exact M5|apply upd_at]|lia|cbn [put blen]; lia|]). look. kstepd.
  (eapply m_st1; [reflexivity|reads|imm|lia|reads|rewrite HF; apply HL|cbn [mem]; first [exact M5|apply upd_at]|lia|cbn [put blen]; lia|]). look. kstepd.
  (eapply m_st1; [reflexivity|reads|imm|lia|reads|rewrite HF; apply HL|cbn [mem]; first [exact M5|apply upd_at]|lia|cbn [put blen]; lia|]). look. kstepd.
  (eapply m_st1; [reflexivity|reads|imm|lia|reads|rewrite HF; apply HL|cbn [mem]; first [exact M5|apply upd_at]|lia|cbn [put blen]; lia|]). look. kstepd.
  (eapply m_st1; [reflexivity|reads|imm|lia|reads|rewrite HF; apply HL|cbn [mem]; first [exact M5|apply upd_at]|lia|cbn [put blen]; lia|]). look. kstepd.
  (eapply m_st1; [reflexivity|reads|imm|lia|reads|rewrite HF; apply HL|cbn [mem]; first [exact M5|apply upd_at]|lia|cbn [put blen]; lia|]). look. kstepd.
  (eapply m_st1; [reflexivity|reads|imm|lia|reads|rewrite HF; apply HL|cbn [mem]; first [exact M5|apply upd_at]|lia|cbn [put blen]; lia|]). look. kstepd.
  (eapply m_st1; [reflexivity|reads|imm|lia|reads|rewrite HF; apply HL|cbn [mem]; first [exact M5|apply upd_at]|lia|cbn [put blen]; lia|]). look. kstepd.
  eapply reach_b with (b := true); [reflexivity|reflexivity|reflexivity|].
  do 5 kstepd. finish. split; [reflexivity|]. constructor.
  - cbn [mem]. rewrite upd_at. cbn [put_cols]. rewrite !HF. f_equal; repeat (apply put_eq; [|lia|reflexivity]); reflexivity.
  - intros i Hi. cbn [mem]. rewrite !upd_else by exact Hi. reflexivity.
  - accs_proof.
  - reflexivity.
  - kept_here.
  - kept_here.
Qed.

Lemma place_s32 : forall D T row col ip np nq out s, kmem8 D T (mem s) -> core8 s -> xs s 45 = Ptr 4 ip -> xs s 46 = Int row -> xs s 47 = Int col ->
  vs s 0 = lvec np 0 0 -> vs s 2 = rvec4 nq 0 0 -> full (vs s 13) -> held_s32 out s -> (forall c, length (out c) = 32%nat /\ Forall (fun z => 0 <= z < 256) (out c)) -> 
  0 <= row <= lr -> 0 <= col <= lc -> 0 <= ip -> ip + ds * (fit dc col - 1) + 4 * fit dr row <= blen D -> 4 * fit dr row <= ds -> 256 <= blen T ->
  reach 600 tail8 687 s (fun pc s' => pc = 805%nat /\ doned 4 row col ip out np nq D T s s').
Proof.
  intros D T row col ip np nq out s HM HC X45 X46 X47 V0 V2 V13 HH HO Hrow Hcol Hip HD Hds HT.
  assert (Hnr : 1 <= fit dr row <= 8) by (unfold fit; destruct (Z.leb_spec (dr - row) 8); lia). assert (Hnc : 1 <= fit dc col <= 8) by (unfold fit; destruct (Z.leb_spec (dc - col) 8); lia).
  eapply reach_weaken with (n := (10 + 580)%nat); [|lia|intros ? ? HQ0; exact HQ0]. eapply reach_trans; [apply (sizes_s32 sr sc lr lc dr dc ls rs ds K drz dcz tyz Hlr Hlc Hdr Hdc row col s HC X46 X47 Hrow Hcol)|].
  intros pc s1 (-> & [G1 G2 GF GM GV GK]).
  assert (HC1 : core8 s1) by (eapply core8_keep; [exact HC|eapply NeonKernelB.keep_incl; [|exact GK]; reflexivity]).
  assert (Y45 : xs s1 45 = Ptr 4 ip) by (rewrite (keep_read _ _ _ _ GK) by (cbn; tauto); exact X45).
  assert (Hlen : forall c, length (out c) = 32%nat) by (intros c; apply HO).
  rewrite <- GM in HM. rewrite <- GV in V0, V2, V13. assert (HH1 : held_s32 out s1) by (destruct HH as (g & [] & HLg & EG); exists g; split; [constructor; rewrite GV; assumption|split; assumption]). clear HH. pose proof HC1 as [C8 C9 C10 C11 C12 C48 C49 C50 C51 C52].
  pose proof HM as [M0 M1 M2 M3 M4 M5 M6 M7 M8 M9].
  destruct (whole dr dc row col) eqn:EW.
  - apply andb_true_iff in EW. destruct EW as [E1 E2]. apply Z.eqb_eq in E1, E2. rewrite E1, E2 in *. eapply reach_weaken with (n := (54 + 500)%nat); [|lia|intros ? ? HQ0; exact HQ0]. 
    destruct HH1 as (g & HG & HLg & EG). eapply reach_trans; [apply (puts_s32_dst D ip np nq g s1); try assumption; try lia|].
    intros pc s2 (-> & HQ). rewrite <- EG in HQ. pose proof HQ as [QA QE QC QF QK QV]. pose proof (keep_read _ _ _ 45%nat QK ltac:(cbn; tauto)) as Y45'. cbn [xs upd Nat.eqb] in Y45'. rewrite Y45 in Y45'. cbn [fl] in QF.
    begin. eapply reach_b with (b := true); [reflexivity|reflexivity|rewrite QF; cbn [holds]; rewrite GF; reflexivity|]. do 2 kstepd. 
    finish. split; [reflexivity|]. exists (putc D ip ds out 8), T. rewrite ?E1, ?E2. split; [cbn [mem]; eapply cleared_kmem4; [|exact HQ]; cbn [mem]; exact HM|].
    split; [apply putc_cols; [intros c; rewrite Hlen; reflexivity|lia]|]. split; [reflexivity|]. split; [reads_lia|]. split; [destruct QC; constructor; look; assumption|].
    split; [look; rewrite (keepv_read _ _ _ _ QV) by (cbn; tauto); exact V13|]. 
    split; [eapply keep_trans; [eapply NeonKernelB.keep_incl; [|exact GK]; reflexivity|]; eapply keep_trans; [|eapply keep_trans; [eapply NeonKernelB.keep_incl; [|exact QK]; reflexivity|]]; kept_here|].
    unfold keepv. repeat constructor; look; (rewrite (keepv_read _ _ _ _ QV) by (cbn; tauto)); look; rewrite GV; reflexivity.
  - eapply reach_weaken with (n := (40 + 500)%nat); [|lia|intros ? ? HQ0; exact HQ0].
    destruct HH1 as (g & HG & HLg & EG). eapply reach_trans; [apply (puts_s32_tmp T np nq g s1); try assumption; try lia|].
    intros pc s2 (-> & HQ). pose proof HQ as [QA QE QC QF QK QV]. assert (Y := fun r H => keep_read _ _ _ r QK H). cbn [xs] in Y. cbn [fl] in QF.
    assert (Z1 := Y 1%nat ltac:(cbn; tauto)). assert (Z2 := Y 2%nat ltac:(cbn; tauto)). assert (Z11 := Y 11%nat ltac:(cbn; tauto)). assert (Z45 := Y 45%nat ltac:(cbn; tauto)). assert (Z51 := Y 51%nat ltac:(cbn; tauto)). clear Y.
    cbn [xs upd Nat.eqb] in Z1, Z2, Z11, Z45, Z51. rewrite G1 in Z1. rewrite G2 in Z2. rewrite C11 in Z11. rewrite Y45 in Z45. rewrite C51 in Z51.
    assert (CT : cols 0 32 32 8 out T (put_cols T 0 32 g 8)) by (rewrite EG; eapply cols_same; [apply putc_cols with (m := 32) (st := 32); [intros c; rewrite app_length, !HLg; reflexivity|lia]|rewrite put_cols_blen, putc_blen; reflexivity|intros x; apply put_cols_putc, HLg]). set (T2 := put_cols T 0 32 g 8) in *. clearbody T2.
    assert (HM2 : kmem8 D T2 (mem s2)) by (eapply cleared_kmem5; [|exact HQ]; cbn [mem]; exact HM). clear HQ.
    begin. eapply reach_b with (b := false); [reflexivity|reflexivity|rewrite QF; cbn [holds]; rewrite GF; reflexivity|]. do 3 kstepd.
    assert (HNR : (1 <= Z.to_nat (fit dr row) <= 8)%nat) by lia. assert (HNC : (1 <= Z.to_nat (fit dc col) <= 8)%nat) by lia.
    assert (ENR : fit dr row = Z.of_nat (Z.to_nat (fit dr row))) by lia. assert (ENC : fit dc col = Z.of_nat (Z.to_nat (fit dc col))) by lia.
    set (nr := Z.to_nat (fit dr row)) in *. set (nc := Z.to_nat (fit dc col)) in *. rewrite ENR in *. rewrite ENC in *. clearbody nr nc.
    eapply reach_weaken with (n := ((6 * nr + 8) * S (nc - 1) + 3)%nat); [|assert ((6 * nr + 8) * S (nc - 1) <= 448)%nat by nia; lia|intros ? ? HQ'; exact HQ'].
    eapply reach_trans; [apply (outer_s32 Lb Rb Bi SL SR Mu Ex lo ro dof lzw rzw dzp pzw sr sc lr lc dr dc ls rs ds K cmin cmax hb hls hrs hpc cc drz dcz Hlr Hlc Hst D T2 ip nr nc (nc - 1) 0)|].
    { lia. } { lia. } { lia. } { look. exact Z1. } { look. exact Z2. } { reads_lia. } { reads_lia. } { reads. } { look. exact Z11. } { exact HM2. } { intros x Hx. apply (cols_bytes 4 out T T2 x CT); [lia|exact HO|lia]. }
    { rewrite (cl_len _ _ _ _ _ _ _ CT). exact HT. } { exact Hip. } { lia. }
    intros pc s3 (-> & HM3 & HK3 & HV3). pose proof (keep_read _ _ _ 45%nat HK3 ltac:(cbn; tauto)) as W45. cbn [xs upd Nat.eqb] in W45. rewrite Z45 in W45.
    do 2 kstepd. 
    finish. split; [reflexivity|]. exists (copyb 4 D T2 ip ds nr nc), T2. split; [exact HM3|]. rewrite ?ENR, ?ENC, ?Nat2Z.id.
    split; [apply (copyb_cols 4 D T T2 out ip ds nr nc CT); lia|]. split; [apply (cl_len _ _ _ _ _ _ _ CT)|]. split; [reads_lia|].
    split; [destruct QC; constructor; look; rewrite HV3; assumption|]. split; [look; rewrite HV3; look; rewrite (keepv_read _ _ _ _ QV) by (cbn; tauto); exact V13|].
    split; [eapply keep_trans; [eapply NeonKernelB.keep_incl; [|exact GK]; reflexivity|]; eapply keep_trans; [|eapply keep_trans; [eapply NeonKernelB.keep_incl; [|exact QK]; reflexivity|eapply keep_trans; [|eapply keep_trans; [eapply NeonKernelB.keep_incl; [|exact HK3]; reflexivity|]]]]; kept_here|].
    unfold keepv. repeat constructor; look; rewrite HV3; look; (rewrite (keepv_read _ _ _ _ QV) by (cbn; tauto)); look; rewrite GV; reflexivity.
Qed.
End Place.
