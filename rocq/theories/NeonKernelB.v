(** The float kernels for AArch64: one block, and the loop over blocks. *)
From Coq Require Import ZArith List Bool Lia.
From Verif Require Import Base Mat Simd SimdFacts Neon64 NeonRun NeonTac NeonCols NeonPackMath NeonKTac NeonKernelCode NeonKernelF NeonKernelT NeonKernelM.
Import ListNotations.
Open Scope Z_scope.

Lemma keep_incl : forall l l' a b, forallb (fun r => existsb (Nat.eqb r) l) l' = true -> keep l a b -> keep l' a b.
Proof.
  intros l l' a b H HK. unfold keep in *. rewrite Forall_forall in *. rewrite forallb_forall in H. intros r Hr. apply HK.
  specialize (H r Hr). apply existsb_exists in H. destruct H as (x & Hx & E). apply Nat.eqb_eq in E. subst x. exact Hx.
Qed.
Ltac here := repeat first [left; reflexivity | right].

Lemma fit_range : forall last pos, pos < last -> 0 < fit last pos <= 8.
Proof. intros last pos H. unfold fit. destruct (Z.leb_spec (last - pos) 8); lia. Qed.

Section Blocks.
Variables (L R Bi : buf Z) (lo ro dof bo sr sc lr lc dr dc ls rs ds K cmin cmax : Z) (hb cc : bool) (drz dcz : Z).
Hypothesis Hlr : 0 <= sr <= lr /\ lr < dr /\ dr < 2 ^ 31 /\ lr + 8 < 2 ^ 31.
Hypothesis Hlc : 0 <= sc <= lc /\ lc < dc /\ dc < 2 ^ 31 /\ lc + 8 < 2 ^ 31.
Hypothesis Hst : 0 <= ls < 2 ^ 31 /\ 0 <= rs < 2 ^ 31 /\ 0 <= ds < 2 ^ 31.
Hypothesis Hdr : drz mod 2 ^ 32 = dr.
Hypothesis Hdc : dcz mod 2 ^ 32 = dc.
Notation kmem := (kmem L R Bi lo ro dof bo sr sc lr lc dr dc ls rs ds K cmin cmax hb cc).
Notation core := (core lc ls rs ds K drz dcz).

Lemma kmem_dst : forall D T D' m m', kmem D T m -> changed m 4 D' m' -> kmem D' T m'.
Proof. intros D T D' m m' [M0 M1 M2 M3 M4 M5] [Hk Hr]. constructor; [rewrite Hr by discriminate; assumption..|exact Hk|rewrite Hr by discriminate; assumption]. Qed.
Lemma kmem_tmp : forall D T T' m m', kmem D T m -> changed m 5 T' m' -> kmem D T' m'.
Proof. intros D T D' m m' [M0 M1 M2 M3 M4 M5] [Hk Hr]. constructor; [rewrite Hr by discriminate; assumption..|exact Hk]. Qed.

(** *** Clamping, storing, and on to the next block *)
Definition rest : list nat := [8; 9; 10; 11; 12; 40; 41; 42; 43; 44; 45; 46; 47; 48; 49; 50; 51]%nat.
Record stored (D T : buf Z) (ip : Z) (g : nat -> nat -> list Z) (nr nc : Z) (s s' : state) : Prop := {
  w_mem : exists T', blen T' = blen T /\ kmem (block_out D T ip ds g nr nc) T' (mem s'); w_zero : outs zeros s';
  w_keep : keep rest s s'; w_keepv : keepv [0; 1; 2; 3]%nat s s' }.

Lemma full_clamped : forall f, (forall h c, full (f h c)) -> forall h c, full (clamped cmin cmax f h c).
Proof. intros f H h c. apply full_fmin; [apply full_fmax; [apply H|apply full_dup]|apply full_dup]. Qed.

Ltac get_core H := destruct H as [C8 C9 C10 C11 C12 C48 C49 C50 C51].
Lemma store_block : forall D T row col rz cz ip f s, kmem D T (mem s) -> core s -> xs s 45 = Ptr 4 ip -> xs s 46 = Int rz -> xs s 47 = Int cz ->
  rz mod 2 ^ 32 = row -> cz mod 2 ^ 32 = col -> row <= lr -> col <= lc -> outs f s -> (forall h c, full (f h c)) -> 256 <= blen T -> 0 <= ip ->
  ip + ds * (fit dc col - 1) + 4 * fit dr row <= blen D ->
  reach 552 finish_part 0 s (fun pc s' => pc = 118%nat /\ stored D T ip (clamped cmin cmax f) (fit dr row) (fit dc col) s s').
Proof.
  intros D T row col rz cz ip f s HM HC X45 X46 X47 Erow Ecol Hrow Hcol HO HF HT Hip Hb.
  apply (reach_weaken (45 + 507) _ _ _ _ (fun pc s' => pc = 118%nat /\ stored D T ip (clamped cmin cmax f) (fit dr row) (fit dc col) s s')); [|lia|auto].
  eapply reach_trans.
  { exact (clamp L R Bi lo ro dof bo sr sc lr lc dr dc ls rs ds K cmin cmax hb cc drz dcz Hlr Hlc Hdr Hdc D T row col rz cz f s HM HC X46 X47 Erow Ecol Hrow Hcol HO). }
  intros pc s1 (-> & O1 & X1 & X2 & F1 & M1 & K1 & V1).
  pose proof (fit_range dr row ltac:(lia)) as Hnr. pose proof (fit_range dc col ltac:(lia)) as Hnc. set (nr := fit dr row) in *. set (nc := fit dc col) in *.
  pose proof (full_clamped f HF) as HG. set (g := clamped cmin cmax f) in *. clearbody nr nc g.
  assert (Y45 : xs s1 45 = Ptr 4 ip) by (rewrite (keep_read _ _ _ _ K1) by (cbn; tauto); exact X45).
  assert (Y51 : xs s1 51 = Ptr 5 0) by (rewrite (keep_read _ _ _ _ K1) by (cbn; tauto); apply (c51 _ _ _ _ _ _ _ _ HC)).
  assert (Y11 : xs s1 11 = Int ds) by (rewrite (keep_read _ _ _ _ K1) by (cbn; tauto); apply (c11 _ _ _ _ _ _ _ _ HC)).
  rewrite <- M1 in HM. assert (SK : keep rest s s1) by (eapply keep_incl; [|exact K1]; reflexivity).
  destruct ((nr =? 8) && (nc =? 8)) eqn:E8.
  - pose proof E8 as E8'. apply andb_prop in E8'. destruct E8' as [Ea Eb]. apply Z.eqb_eq in Ea, Eb.
    eapply reach_weaken with (n := (6 + 47)%nat); [|lia|intros pc s' H; exact H].
    eapply reach_trans with (P := fun pc s' => pc = 54%nat /\ outs g s' /\ xs s' 3 = Ptr 4 ip /\ xs s' 4 = Int ds /\ fl s' = fl s1 /\ mem s' = mem s1 /\ keep rest s1 s' /\ vs s' = vs s1).
    { begin. eapply reach_b with (b := true); [reflexivity|reflexivity|cbn [holds]; rewrite F1; reflexivity|]. do 5 kstep. finish. split; [reflexivity|].
      split; [destruct O1; constructor; assumption|]. split; [reads|]. split; [reads|]. split; [reflexivity|]. split; [reflexivity|]. split; [kept_here|reflexivity]. }
    intros pc s2 (-> & O2 & X3 & X4 & F2 & M2 & K2 & V2).
    eapply reach_weaken with (n := (46 + 1)%nat); [|lia|intros pc s' H; exact H].
    assert (HC2 : changed (mem s1) 4 D (mem s2)) by (rewrite M2; split; [destruct HM; assumption|reflexivity]).
    eapply reach_trans; [eapply (store_all 0 0 (mem s1) 4 D ip ds g s2 HC2 X3 X4 O2 HG); lia|].
    intros pc s3 (-> & HC3 & Z3 & F3 & K3 & V3). eapply reach_b with (b := true); [reflexivity|reflexivity|cbn [holds]; rewrite F3, F2, F1; reflexivity|].
    apply reach_done. split; [reflexivity|]. constructor.
    + exists T. split; [reflexivity|]. unfold block_out. rewrite E8. apply (kmem_dst D T _ (mem s1)); assumption.
    + exact Z3.
    + eapply keep_trans; [exact SK|]. eapply keep_trans; [exact K2|]. eapply keep_incl; [|exact K3]; reflexivity.
    + eapply keepv_trans; [exact V1|]. unfold keepv in *. rewrite Forall_forall in *. intros r Hr. rewrite (V3 r Hr), V2. reflexivity.
  - eapply reach_weaken with (n := (6 + 501)%nat); [|lia|intros pc s' H; exact H].
    eapply reach_trans with (P := fun pc s' => pc = 54%nat /\ outs g s' /\ xs s' 3 = Ptr 5 0 /\ xs s' 4 = Int 32 /\ fl s' = fl s1 /\ mem s' = mem s1 /\ keep (1 :: 2 :: rest)%nat s1 s' /\ vs s' = vs s1).
    { begin. eapply reach_b with (b := false); [reflexivity|reflexivity|cbn [holds]; rewrite F1; reflexivity|]. kstep. kstep.
      eapply reach_b with (b := true); [reflexivity|reflexivity|reflexivity|]. kstep. kstep. finish. split; [reflexivity|].
      split; [destruct O1; constructor; assumption|]. split; [reads|]. split; [reads|]. split; [reflexivity|]. split; [reflexivity|]. split; [kept_here|reflexivity]. }
    intros pc s2 (-> & O2 & X3 & X4 & F2 & M2 & K2 & V2).
    eapply reach_weaken with (n := (46 + 455)%nat); [|lia|intros pc s' H; exact H].
    assert (HC2 : changed (mem s1) 5 T (mem s2)) by (rewrite M2; split; [destruct HM; assumption|reflexivity]).
    eapply reach_trans; [eapply (store_all 0 0 (mem s1) 5 T 0 32 g s2 HC2 X3 X4 O2 HG); lia|].
    intros pc s3 (-> & HC3 & Z3 & F3 & K3 & V3). pose proof (kmem_tmp D T _ (mem s1) _ HM HC3) as HM3. set (T' := put_cols T 0 32 g 8) in *.
    assert (SK3 : keep (1 :: 2 :: rest)%nat s1 s3). { eapply keep_trans; [exact K2|]. eapply keep_incl; [|exact K3]; reflexivity. }
    assert (Q1 : xs s3 1 = Int nr) by (rewrite (keep_read _ _ _ _ SK3) by (cbn; tauto); exact X1).
    assert (Q2 : xs s3 2 = Int nc) by (rewrite (keep_read _ _ _ _ SK3) by (cbn; tauto); exact X2).
    assert (Q45 : xs s3 45 = Ptr 4 ip) by (rewrite (keep_read _ _ _ _ SK3) by (cbn; tauto); exact Y45).
    assert (Q51 : xs s3 51 = Ptr 5 0) by (rewrite (keep_read _ _ _ _ SK3) by (cbn; tauto); exact Y51).
    assert (Q11 : xs s3 11 = Int ds) by (rewrite (keep_read _ _ _ _ SK3) by (cbn; tauto); exact Y11).
    eapply reach_weaken with (n := (4 + 451)%nat); [|lia|intros pc s' H; exact H].
    eapply reach_trans with (P := fun pc s' => pc = 104%nat /\ xs s' 3 = Ptr 5 (32 * Z.of_nat 0) /\ xs s' 4 = Ptr 4 (ip + ds * Z.of_nat 0) /\ xs s' 6 = Int (Z.of_nat 0) /\ mem s' = mem s3 /\ keep (1 :: 2 :: rest)%nat s3 s' /\ vs s' = vs s3).
    { begin. eapply reach_b with (b := false); [reflexivity|reflexivity|cbn [holds]; rewrite F3, F2, F1; reflexivity|]. kstep. kstep. kstep. finish. split; [reflexivity|].
      split; [reads|]. split; [look; f_equal; lia|]. split; [reads|]. split; [reflexivity|]. split; [kept_here|reflexivity]. }
    intros pc s4 (-> & R3 & R4 & R6 & M4 & K4 & V4).
    assert (A1 : xs s4 1 = Int (Z.of_nat (Z.to_nat nr))) by (rewrite (keep_read _ _ _ _ K4) by (cbn; tauto); rewrite Q1; f_equal; lia).
    assert (A2 : xs s4 2 = Int (Z.of_nat (Z.to_nat nc))) by (rewrite (keep_read _ _ _ _ K4) by (cbn; tauto); rewrite Q2; f_equal; lia).
    assert (A11 : xs s4 11 = Int ds) by (rewrite (keep_read _ _ _ _ K4) by (cbn; tauto); exact Q11).
    rewrite <- M4 in HM3.
    eapply reach_weaken; [eapply copy_outer with (1 := 0) (2 := 0) (3 := Hlr) (4 := Hlc) (5 := Hst) (11 := A11) (n := (Z.to_nat nc - 1)%nat) (c := 0%nat) (9 := A1) (10 := A2) (15 := HM3); try eassumption; try lia|lia|].
    + replace (Z.of_nat (Z.to_nat nc - 1)) with (nc - 1) by lia. lia.
    + intros pc s5 (-> & HM5 & K5 & V5). split; [reflexivity|]. constructor.
      * exists T'. split; [apply put_cols_blen|]. unfold block_out. rewrite E8. exact HM5.
      * destruct Z3; constructor; rewrite V5, V4; assumption.
      * eapply keep_trans; [exact SK|]. eapply keep_trans with (b := s4); [|eapply keep_incl; [|exact K5]; reflexivity].
        apply (keep_trans _ _ s3); [eapply keep_incl; [|exact SK3]|eapply keep_incl; [|exact K4]]; reflexivity.
      * eapply keepv_trans; [exact V1|]. unfold keepv in *. rewrite Forall_forall in *. intros r Hr. rewrite V5, V4, (V3 r Hr), V2. reflexivity.
Qed.

(** *** One block *)
Variables (code : list instr) (a b n : nat) (c1 : Z) (l1 l2 : list nat) (bpart : list instr).
Hypothesis HK : 1 <= K < 2 ^ 31.
Hypothesis Hsums : forall lp rp, 0 <= lp /\ lp + 32 * K <= blen L -> 0 <= rp /\ rp + 32 * K <= blen R -> sums L R lp rp K code a b n c1 l1 l2.
Hypothesis Hadvance : part_at code advance_part b.
Hypothesis Hbias : part_at code bpart (b + 26).
Hypothesis Hfinish : part_at code finish_part (b + 70).
Hypothesis Hbpart : forall u v f s, outs f s -> vs s 14 = u -> vs s 15 = v -> f_eq (fl s) = negb cc ->
  reach 44 bpart 0 s (fun pc s' => pc = 44%nat /\ outs (biased cc u v f) s' /\ xs s' = xs s /\ mem s' = mem s /\ keepv [0; 1; 2; 3]%nat s s').
Hypothesis Hloop : forall s t, core s -> holds LE (fl s) = Ok t ->
  reach 2 code (b + 204) s (fun pc s' => pc = (if t then a else b + 206)%nat /\ xs s' 1 = Int c1 /\ mem s' = mem s /\ vs s' = vs s /\ keep (5 :: 6 :: 7 :: rest)%nat s s').

Record at_block (D : buf Z) (row col p q ip dp : Z) (s : state) : Prop := {
  b_mem : exists T, 256 <= blen T /\ kmem D T (mem s); b_core : core s; b_1 : xs s 1 = Int c1; b_5 : xs s 5 = Ptr 1 lo; b_7 : xs s 7 = Int lr;
  b_40 : xs s 40 = Ptr 1 p; b_41 : xs s 41 = Ptr 2 q; b_44 : xs s 44 = Ptr 4 dp; b_45 : xs s 45 = Ptr 4 ip;
  b_46 : exists z, xs s 46 = Int z /\ z mod 2 ^ 32 = row; b_47 : exists z, xs s 47 = Int z /\ z mod 2 ^ 32 = col;
  b_level : level L R p q 0 1 s; b_zero : outs zeros s }.

Definition next_col (row col : Z) : Z := if row =? lr then col + 8 else col.
Definition sums_of (p q : Z) (h c : nat) : list Z := acc L R p q h c (if Nat.eqb h 0 && Nat.ltb c 4 then l1 else l2).
Definition bias_of (row col : Z) : Z := bias_at bo hb cc row col.
Definition result (row col p q : Z) : nat -> nat -> list Z :=
  clamped cmin cmax (biased cc (get_bytes Bi (bias_of row col) 16) (get_bytes Bi (bias_of row col + 16) 16) (sums_of p q)).

Lemma full_biased : forall u v f, full u -> full v -> (forall h c, full (f h c)) -> forall h c, full (biased cc u v f h c).
Proof.
  intros u v f Hu Hv Hf h c. apply full_fadd; [apply Hf|]. unfold bias_vec. destruct cc; [apply full_dup|]. destruct (Nat.eqb h 0); assumption.
Qed.

Lemma one_block : forall D row col p q ip dp s, at_block D row col p q ip dp s -> row <= lr -> col <= lc -> 0 <= p /\ p + 32 * K <= blen L -> 0 <= q /\ q + 32 * K <= blen R ->
  0 <= next_lhs lo lr ls row p /\ next_lhs lo lr ls row p + 32 <= blen L -> 0 <= next_rhs lr lc rs row col q /\ next_rhs lr lc rs row col q + 32 <= blen R ->
  0 <= bias_of row col /\ bias_of row col + 32 <= blen Bi -> 0 <= ip -> ip + ds * (fit dc col - 1) + 4 * fit dr row <= blen D ->
  reach (n + 640) code a s (fun pc s' => pc = (if next_col row col <=? lc then a else (b + 206)%nat) /\ exists T,
    at_block (block_out D T ip ds (result row col p q) (fit dr row) (fit dc col)) (if row =? lr then sr else row + 8) (if row =? lr then col + 8 else col)
      (next_lhs lo lr ls row p) (next_rhs lr lc rs row col q) (if row =? lr then dp + ds * 8 else ip + 32) (if row =? lr then dp + ds * 8 else dp) s').
Proof.
  intros D row col p q ip dp s [(T & HT & HM) HC X1 X5 X7 X40 X41 X44 X45 (rz & X46 & Erow) (cz & X47 & Ecol) HV HZ] Hrow Hcol HpL HqR HnL HnR HbB Hip HbD.
  assert (Hr0 : 0 <= row) by (subst row; apply Z.mod_pos_bound; lia). assert (Hc0 : 0 <= col) by (subst col; apply Z.mod_pos_bound; lia).
  (* sums *)
  eapply reach_trans.
  { apply (Hsums p q HpL HqR). constructor.
    - exact X1.
    - exact HV.
    - destruct HM, HC. constructor; assumption.
    - destruct HZ. constructor; assumption.
    - destruct HC; assumption.
    - exists (kfields lo ro dof bo sr sc lr lc dr dc ls rs ds K cmin cmax hb cc). split; [destruct HM; assumption|]. rewrite X5. reflexivity. }
  intros pc s1 (-> & HA & FR & Y5). assert (MF : mem s1 = mem s) by apply FR. assert (KF : keep kept s s1) by apply FR.
  assert (HO : outs (sums_of p q) s1) by (destruct HA; constructor; assumption).
  assert (KR : forall r, In r kept -> xs s1 r = xs s r) by (intros r Hr; apply (keep_read _ _ _ _ KF Hr)).
  assert (HC1 : core s1) by (destruct HC; constructor; (rewrite KR by here); assumption).
  assert (B7 : xs s1 7 = Int lr) by (rewrite KR by here; exact X7). assert (B5 : xs s1 5 = Ptr 1 lo) by congruence.
  assert (B40 : xs s1 40 = Ptr 1 p) by (rewrite KR by here; exact X40). assert (B41 : xs s1 41 = Ptr 2 q) by (rewrite KR by here; exact X41).
  assert (B44 : xs s1 44 = Ptr 4 dp) by (rewrite KR by here; exact X44). assert (B45 : xs s1 45 = Ptr 4 ip) by (rewrite KR by here; exact X45).
  assert (B46 : xs s1 46 = Int rz) by (rewrite KR by here; exact X46). assert (B47 : xs s1 47 = Int cz) by (rewrite KR by here; exact X47).
  rewrite <- MF in HM. clear HC X1 X5 X7 X40 X41 X44 X45 X46 X47 HV HZ KR FR KF MF HA Y5 s. rename s1 into s.
  (* the next block's first level and the biases *)
  eapply reach_weaken with (n := (26 + (44 + (552 + (16 + 2))))%nat); [|lia|intros pc s' H; exact H].
  eapply reach_trans.
  { pose proof (advance L R Bi lo ro dof bo sr sc lr lc dr dc ls rs ds K cmin cmax hb cc drz dcz Hlr Hlc Hst D T row col rz cz p q s HM HC1 B5 B7 B40 B41 B46 B47 Erow Ecol Hrow Hcol HnL HnR HbB) as RD.
    pose proof (reach_part _ _ _ b 0 s _ Hadvance RD) as RP. rewrite Nat.add_0_r in RP. exact RP. }
  intros pc s1 (pc1 & -> & -> & [V40 V41 VL V14 V15 VF VM VK VV]).
  assert (HO1 : outs (sums_of p q) s1) by (destruct HO; constructor; (rewrite (keepv_read _ _ _ _ VV) by here); assumption).
  eapply reach_trans.
  { pose proof (Hbpart _ _ _ s1 HO1 V14 V15 VF) as RD. pose proof (reach_part _ _ _ (b + 26) 0 s1 _ Hbias RD) as RP. rewrite Nat.add_0_r in RP. exact RP. }
  intros pc s2 (pc2 & -> & -> & HO2 & XS2 & MM2 & KV2).
  assert (VR : forall r, In r [7; 8; 9; 10; 11; 12; 44; 45; 46; 47; 48; 49; 50; 51]%nat -> xs s2 r = xs s r) by (intros r; rewrite XS2; apply (keep_read _ s s1 r); eapply keep_incl; [|exact VK]; reflexivity).
  assert (HC2 : core s2) by (destruct HC1; constructor; (rewrite VR by here); assumption).
  rewrite <- VM, <- MM2 in HM.
  eapply reach_trans.
  { assert (RD : reach 552 finish_part 0 s2 (fun pc s' => pc = 118%nat /\ stored D T ip (result row col p q) (fit dr row) (fit dc col) s2 s')).
    { apply (store_block D T row col rz cz ip _ s2 HM HC2); try assumption; try (rewrite VR by here; assumption).
      apply full_biased; [apply full_get|apply full_get|]. intros h c. unfold sums_of. exact (full_acc L R p q h c _). }
    pose proof (reach_part _ _ _ (b + 70) 0 s2 _ Hfinish RD) as RP. rewrite Nat.add_0_r in RP. replace (b + 26 + 44)%nat with (b + 70)%nat by lia. exact RP. }
  intros pc s3 (pc3 & -> & -> & [(T' & HT' & HM3) HZ3 SK SV]).
  assert (HC3 : core s3) by (destruct HC2; constructor; (rewrite (keep_read _ _ _ _ SK) by here); assumption).
  assert (SR : forall r, In r [44; 45; 46; 47]%nat -> xs s3 r = xs s r) by (intros r; apply (keep_read _ s s3 r); apply (keep_trans _ s s2); [|eapply keep_incl; [|exact SK]; reflexivity]; unfold keep; rewrite XS2; eapply keep_incl; [|exact VK]; reflexivity).
  eapply reach_trans.
  { assert (RD : reach 16 finish_part 118 s3 (fun pc s' => pc = 134%nat /\ stepped lo sr lr lc ds row col ip dp cz s3 s')).
    { eapply to_next with (4 := HM3) (5 := HC3); try eassumption; rewrite SR by here; assumption. }
    exact (reach_part _ _ _ (b + 70) 118 s3 _ Hfinish RD). }
  intros pc s4 (pc4 & -> & -> & [T5 T6 T7 T44 T45 T46 T47 TF TM TV TK]).
  assert (HC4 : core s4) by (destruct HC3; constructor; (rewrite (keep_read _ _ _ _ TK) by here); assumption).
  replace (b + 70 + 134)%nat with (b + 204)%nat by lia. eapply reach_weaken; [exact (Hloop s4 _ HC4 TF)|lia|].
  intros pc s5 (-> & U1 & UM & UV & UK). split; [reflexivity|]. exists T.
  assert (UR : forall r, In r [5; 7; 44; 45; 46; 47]%nat -> xs s5 r = xs s4 r) by (intros r; apply (keep_read _ s4 s5 r); eapply keep_incl; [|exact UK]; reflexivity).
  assert (WR : forall r, In r [40; 41; 42; 43]%nat -> xs s5 r = xs s1 r).
  { intros r. apply (keep_read _ s1 s5 r). apply (keep_trans _ s1 s4); [|eapply keep_incl; [|exact UK]; reflexivity]. apply (keep_trans _ s1 s3); [|eapply keep_incl; [|exact TK]; reflexivity].
    unfold keep. rewrite <- XS2. eapply keep_incl; [|exact SK]; reflexivity. }
  assert (WV : forall r, In r [0; 1; 2; 3]%nat -> vs s5 r = vs s1 r).
  { intros r Hr. rewrite UV, TV. rewrite (keepv_read _ _ _ _ SV Hr). apply (keepv_read _ _ _ _ KV2 Hr). }
  constructor.
  - exists T'. split; [lia|]. rewrite UM, TM. exact HM3.
  - destruct HC4; constructor; (rewrite (keep_read _ _ _ _ UK) by here); assumption.
  - exact U1.
  - rewrite UR by here. exact T5.
  - rewrite UR by here. exact T7.
  - rewrite WR by here. exact V40.
  - rewrite WR by here. exact V41.
  - rewrite UR by here. exact T44.
  - rewrite UR by here. exact T45.
  - eexists. split; [rewrite UR by here; exact T46|]. destruct (row =? lr); apply Z.mod_small; lia.
  - eexists. split; [rewrite UR by here; exact T47|]. destruct (row =? lr); [apply Z.mod_small; lia|exact Ecol].
  - destruct VL; constructor; [rewrite WR by here; assumption..|rewrite WV by here; assumption|rewrite WV by here; assumption|rewrite WV by here; assumption|rewrite WV by here; assumption].
  - destruct HZ3; constructor; rewrite UV, TV; assumption.
Qed.
End Blocks.
