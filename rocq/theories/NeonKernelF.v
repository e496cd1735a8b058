(** The float kernels for AArch64 (ruy/kernel_arm64.cc): sums of products over the depth. *)
From Coq Require Import ZArith List Bool Lia.
From Verif Require Import Base Mat Simd SimdFacts Neon64 NeonRun NeonTac NeonCols NeonKTac NeonKernelCode.
Import ListNotations.
Open Scope Z_scope.

(** ** Tactics *)
Ltac low := first [eassumption | apply small_low; lia].
Ltac mem_fact := look; eassumption.
Ltac imm_neg := look; reflexivity.
(** One instruction which does not store and is not a branch. *)
Ltac kstep :=
  match goal with |- reach _ ?code ?pc ?s _ =>
    let i := eval vm_compute in (nth_error code pc) in
    match i with
    | Some (Label _) => eapply r_label; [reflexivity|]
    | Some Nop => eapply r_nop; [reflexivity|]
    | Some (Mov W _ (Imm _)) => eapply r_movw; [reflexivity|imm|match goal with |- context [wrap_u 32 ?z] => let r := eval vm_compute in (wrap_u 32 z) in change (wrap_u 32 z) with r end]
    | Some (Mov W _ (Reg _)) => eapply k_movw; [reflexivity|reads|low|]
    | Some (Mov X _ _) => eapply r_movx; [reflexivity|imm|]
    | Some (Alu AAdd false W _ _ (Imm _)) => eapply k_addw; [reflexivity|reads|low|lia|lia|]
    | Some (Alu AAdd false X _ _ (Imm _)) => eapply s_addx; [reflexivity|reads|lia|]
    | Some (Alu AAdd false X _ _ (Lsl _ _)) => eapply k_addx_lsl; [reflexivity|reads|reads|lia|lia|]
    | Some (Alu AAdd false X _ _ (Reg _)) => eapply k_addx_reg; [reflexivity|reads|reads|lia|]
    | Some (Alu ASub false W _ _ (Reg _)) => eapply k_subw; [reflexivity|reads|reads|low|low|lia|]
    | Some (Alu ASub false W _ _ (Imm _)) => eapply k_subw_imm; [reflexivity|reads|lia|lia|]
    | Some (Alu ASub true W _ _ (Imm _)) => eapply k_subsw_imm; [reflexivity|reads|lia|lia|]
    | Some (Cmp W _ (Reg _)) => eapply k_cmpr; [reflexivity|reads|reads|low|low|lia|lia|]
    | Some (Cmp W _ (Imm _)) => eapply s_cmpi; [reflexivity|reads|lia|lia|]
    | Some (Tst W _ _) => eapply k_tst; [reflexivity|reads|lia|]
    | Some (Ld1 16 _ _ _) => eapply m_ld1; [reflexivity|reads|imm|mem_fact|lia|lia|lia|]
    | Some (Ld1 8 _ _ _) => eapply m_ld1_8; [reflexivity|reads|imm|mem_fact|lia|lia|lia|]
    | Some (LdrQ _ _ _) => eapply m_ldrq; [reflexivity|reads|imm_neg|lia|mem_fact|lia|lia|]
    | Some (LdrD _ _ _) => eapply m_ldrd; [reflexivity|reads|imm_neg|lia|mem_fact|lia|lia|]
    | Some (Ldr _ _ 48%nat _) => eapply m_field; [reflexivity|reads|imm|lia|mem_fact|reflexivity|]
    | Some (Ldr _ _ _ _) => eapply m_ldr; [reflexivity|reads|imm|lia|mem_fact|lia|lia|lia|]
    | Some (Dup 4 4 _ _) => eapply v_dup4; [reflexivity|reads|]
    | Some (DupLane 4 4 _ _ _) => eapply v_duplane; [reflexivity|reads|]
    | Some (Ins _ _ _ _) => eapply v_ins; [reflexivity|reads|reads|]
    | Some (Movi _ _) => eapply r_movi; [reflexivity|]
    | Some (V2 _ _ _ _) => eapply v_v2; [reflexivity|reads|reads|]
    | Some (VMov _ _) => eapply v_vmov; [reflexivity|reads|]
    | Some (Fmla _ _ _ _) => eapply v_fmla; [reflexivity|reads|reads|reads|]
    end; cbn [xs vs fl mem]
  end.

(** ** What the accumulation keeps *)
Definition kept : list nat := [6; 7; 8; 9; 10; 11; 12; 40; 41; 44; 45; 46; 47; 48; 49; 50; 51]%nat.
Definition frame (s s' : state) : Prop := mem s' = mem s /\ Forall (fun r => xs s' r = xs s r) kept.
Lemma frame_trans : forall a b c, frame a b -> frame b c -> frame a c.
Proof.
  intros a b c [M1 F1] [M2 F2]. split; [congruence|]. rewrite Forall_forall in *. intros r Hr. rewrite (F2 r Hr). apply F1, Hr.
Qed.
Lemma frame_refl : forall a, frame a a.
Proof. intros a. split; [reflexivity|]. apply Forall_forall. reflexivity. Qed.
Ltac framed := split; [reflexivity|repeat constructor].

(** A register loaded in two halves. *)
Lemma join8 : forall b o o', (forall i, 0 <= bdat b i < 256) -> o' = o + 8 ->
  splice (extend (get_bytes b o 8)) (8 * 1) (bytes_of 8 (of_bytes (get_bytes b o' (Z.to_nat 8)))) = get_bytes b o 16.
Proof.
  intros b o o' Hbyte ->. replace o with (o + Z.of_nat 0 * 0) by lia. exact (join (fun _ => b) (fun _ => o) (fun _ => 0) (fun _ => Hbyte) 0 0%nat).
Qed.

(** Only the low half of the multiplier is used. *)
Lemma fmla_low : forall d a b o, fmla_lane d a (extend (get_bytes b o 8)) 0 = fmla_lane d a (get_bytes b o 16) 0.
Proof.
  intros d a b o. unfold fmla_lane. replace (nth 0 (ulanes 4 (extend (get_bytes b o 8))) 0) with (nth 0 (ulanes 4 (get_bytes b o 16)) 0); [reflexivity|].
  change 16%nat with (8 + 8)%nat. rewrite get_bytes_app.
  assert (L : length (get_bytes b o 8) = 8%nat) by apply get_bytes_length.
  assert (L2 : length (get_bytes b (o + Z.of_nat 8) 8) = 8%nat) by apply get_bytes_length.
  set (x := get_bytes b o 8) in *. set (y := get_bytes b (o + Z.of_nat 8) 8) in *. clearbody x y.
  do 8 (destruct x as [|? x]; [discriminate|]). destruct x; [|discriminate]. do 8 (destruct y as [|? y]; [discriminate|]). destruct y; [|discriminate]. reflexivity.
Qed.

Section Sums.
Variables (L R : buf Z) (lp rp K : Z).
Hypothesis HK : 1 <= K < 2 ^ 31.
Hypothesis HL : 0 <= lp /\ lp + 32 * K <= blen L.
Hypothesis HR : 0 <= rp /\ rp + 32 * K <= blen R.

(** Level [k] of the depth: four rows of the left, four columns of the right. *)
Definition lv (h k : nat) : list Z := get_bytes L (lp + 32 * Z.of_nat k + 16 * Z.of_nat h) 16.
Definition rv (h k : nat) : list Z := get_bytes R (rp + 32 * Z.of_nat k + 16 * Z.of_nat h) 16.
(** Rows 4h to 4h + 3 of column c, with the levels in [l], the last one first. *)
Fixpoint acc (h c : nat) (l : list nat) : list Z :=
  match l with [] => repeat 0 16 | k :: l => fmla_lane (acc h c l) (lv h k) (rv (c / 4) k) (c mod 4) end.

Lemma full_lv : forall h k, full (lv h k).
Proof using. intros. apply full_get. Qed.
Lemma full_acc : forall h c l, full (acc h c l).
Proof using. intros h c. induction l as [|k l IH]; [reflexivity|]. cbn [acc]. apply full_fmla; [exact IH|apply full_lv]. Qed.

(** Levels [l1] for the first four columns of the first four rows, [l2] for all others. *)
Record accs (l1 l2 : list nat) (s : state) : Prop := {
  a16 : vs s 16 = acc 0 0 l1; a17 : vs s 17 = acc 1 0 l2; a18 : vs s 18 = acc 0 1 l1; a19 : vs s 19 = acc 1 1 l2;
  a20 : vs s 20 = acc 0 2 l1; a21 : vs s 21 = acc 1 2 l2; a22 : vs s 22 = acc 0 3 l1; a23 : vs s 23 = acc 1 3 l2;
  a24 : vs s 24 = acc 0 4 l2; a25 : vs s 25 = acc 1 4 l2; a26 : vs s 26 = acc 0 5 l2; a27 : vs s 27 = acc 1 5 l2;
  a28 : vs s 28 = acc 0 6 l2; a29 : vs s 29 = acc 1 6 l2; a30 : vs s 30 = acc 0 7 l2; a31 : vs s 31 = acc 1 7 l2 }.
(** Level [k] is loaded; the pointers are at level [p]. *)
Record level (k p : nat) (s : state) : Prop := {
  l42 : xs s 42 = Ptr 1 (lp + 32 * Z.of_nat p); l43 : xs s 43 = Ptr 2 (rp + 32 * Z.of_nat p);
  lv0 : vs s 0 = lv 0 k; lv1 : vs s 1 = lv 1 k; lv2 : vs s 2 = rv 0 k; lv3 : vs s 3 = rv 1 k }.
Record given (s : state) : Prop := { g12 : xs s 12 = Int K; g1 : mem s 1%nat = Bytes L; g2 : mem s 2%nat = Bytes R }.

Ltac name_lv h k := match goal with |- context [get_bytes L ?o 16] => replace (get_bytes L o 16) with (lv h k) by (unfold lv; f_equal; lia) end.
Ltac name_rv h k := match goal with |- context [get_bytes R ?o 16] => replace (get_bytes R o 16) with (rv h k) by (unfold rv; f_equal; lia) end.
Ltac names k := repeat first [name_lv 0%nat k | name_lv 1%nat k | name_rv 0%nat k | name_rv 1%nat k].
Ltac numbers := look; facts; first [reflexivity | f_equal; lia].

(** *** One level at a time *)
Definition depth_part : list instr := firstn 40 (skipn 34 kernelf_x1).
(** Level [k] is also added to the first four columns of the first four rows. *)
Record deep (s0 : state) (l1 l2 : list nat) (k p : nat) (s : state) : Prop := {
  d_1 : xs s 1 = Int (Z.of_nat p); d_level : level k p s; d_given : given s; d_accs : accs l1 l2 s; d_frame : frame s0 s; d_5 : xs s 5 = xs s0 5 }.

Lemma depth_body : forall s0 l1 l2 k p s, Z.of_nat p < K -> deep s0 l1 l2 k p s ->
  reach 25 depth_part 2 s (fun pc s' => pc = (if (Z.of_nat (S p) <? K)%Z then 2 else 27)%nat /\ deep s0 (p :: l1) (k :: l2) p (S p) s').
Proof.
  intros s0 l1 l2 k p s Hk [X1 [X42 X43 V0 V1 V2 V3] [X12 M1 M2] [H16 H17 H18 H19 H20 H21 H22 H23 H24 H25 H26 H27 H28 H29 H30 H31] FR X5].
  begin. do 24 (kstep; names p).
  eapply reach_b with (b := (Z.of_nat p + 1 <? K)); [reflexivity|reflexivity|reflexivity|].
  finish. replace (Z.of_nat p + 1) with (Z.of_nat (S p)) by lia. split; [reflexivity|].
  constructor; [numbers|constructor; numbers|constructor; numbers || exact M1 || exact M2|constructor; numbers| |exact X5].
  eapply frame_trans; [exact FR|framed].
Qed.

(** The levels from [p] on are added, the last one first. *)
Definition upto (p n : nat) : list nat := rev (seq p n).
Lemma upto_S : forall p n, upto p (S n) = upto (S p) n ++ [p].
Proof using. intros. reflexivity. Qed.

Lemma depth_loop : forall n s0 l1 l2 k p s, Z.of_nat p + Z.of_nat (S n) = K -> deep s0 l1 l2 k p s ->
  reach (25 * S n) depth_part 2 s (fun pc s' => pc = 27%nat /\ exists k', deep s0 (upto p (S n) ++ l1) (tl (upto p (S n)) ++ k :: l2) k' (p + S n)%nat s' /\ k' = hd k (upto p (S n))).
Proof.
  induction n as [|n IH]; intros s0 l1 l2 k p s Hn HD.
  - eapply reach_weaken; [apply (depth_body s0 l1 l2 k p s); [lia|exact HD]|lia|].
    intros pc s' [-> HD']. replace (Z.of_nat (S p) <? K) with false by (symmetry; apply Z.ltb_ge; lia). split; [reflexivity|].
    exists p. split; [|reflexivity]. replace (p + 1)%nat with (S p) by lia. exact HD'.
  - replace (25 * S (S n))%nat with (25 + 25 * S n)%nat by lia. eapply reach_trans; [apply (depth_body s0 l1 l2 k p s); [lia|exact HD]|].
    intros pc s' [-> HD']. replace (Z.of_nat (S p) <? K) with true by (symmetry; apply Z.ltb_lt; lia).
    eapply reach_weaken; [apply (IH s0 (p :: l1) (k :: l2) p (S p) s'); [lia|exact HD']|lia|].
    intros pc2 s2 [-> (k' & HD2 & Hk')]. split; [reflexivity|]. exists k'. rewrite (upto_S p (S n)).
    assert (E : exists a b, upto (S p) (S n) = a :: b).
    { destruct (upto (S p) (S n)) as [|a b] eqn:E; [|eauto]. exfalso. apply (f_equal (@length nat)) in E. unfold upto in E. rewrite rev_length, seq_length in E. discriminate. }
    destruct E as (a & b & E). rewrite E in *. cbn [app tl hd] in *. split; [|exact Hk']. replace (p + S (S n))%nat with (S p + S n)%nat by lia.
    rewrite <- !app_assoc. cbn [app] in *. exact HD2.
Qed.

(** The rest of the last level. *)
Lemma depth_end : forall s0 l1 l2 k p s, deep s0 l1 l2 k p s ->
  reach 13 depth_part 27 s (fun pc s' => pc = 40%nat /\ accs l1 (k :: l2) s' /\ frame s0 s' /\ xs s' 5 = xs s0 5).
Proof.
  intros s0 l1 l2 k p s [X1 [X42 X43 V0 V1 V2 V3] [X12 M1 M2] [H16 H17 H18 H19 H20 H21 H22 H23 H24 H25 H26 H27 H28 H29 H30 H31] FR X5].
  begin. do 13 kstep. finish. split; [reflexivity|]. split; [constructor; numbers|]. split; [|exact X5]. eapply frame_trans; [exact FR|framed].
Qed.

(** All levels from [p] on. *)
Lemma depth_all : forall s0 l1 l2 k p s, Z.of_nat p <= K -> deep s0 l1 l2 k p s ->
  let u := upto p (Z.to_nat K - p) in
  reach (25 * Z.to_nat K + 15) depth_part 0 s (fun pc s' => pc = 40%nat /\ accs (u ++ l1) (u ++ k :: l2) s' /\ frame s0 s' /\ xs s' 5 = xs s0 5).
Proof.
  intros s0 l1 l2 k p s Hp HD u. apply (reach_weaken (2 + (25 * Z.to_nat K + 13)) _ _ _ _ (fun pc s' => pc = 40%nat /\ accs (u ++ l1) (u ++ k :: l2) s' /\ frame s0 s' /\ xs s' 5 = xs s0 5)); [|lia|auto].
  eapply reach_trans with (P := fun pc s' => pc = (if (Z.of_nat p =? K)%Z then 27 else 2)%nat /\ deep s0 l1 l2 k p s').
  - destruct HD as [X1 [X42 X43 V0 V1 V2 V3] [X12 M1 M2] [H16 H17 H18 H19 H20 H21 H22 H23 H24 H25 H26 H27 H28 H29 H30 H31] FR X5].
    begin. kstep. eapply reach_b with (b := (Z.of_nat p =? K)); [reflexivity|reflexivity|reflexivity|]. finish.
    split; [reflexivity|]. constructor; [numbers|constructor; numbers|constructor; numbers || exact M1 || exact M2|constructor; numbers| |exact X5].
    eapply frame_trans; [exact FR|framed].
  - intros pc s1 [-> HD1]. destruct (Z.eqb_spec (Z.of_nat p) K) as [E|E].
    + subst u. replace (Z.to_nat K - p)%nat with 0%nat by lia. eapply reach_weaken; [apply (depth_end s0 l1 l2 k p s1 HD1)|lia|]. intros pc s' H. exact H.
    + destruct (Z.to_nat K - p)%nat as [|n] eqn:En; [lia|].
      apply (reach_weaken (25 * S n + 13) _ _ _ _ (fun pc s' => pc = 40%nat /\ accs (u ++ l1) (u ++ k :: l2) s' /\ frame s0 s' /\ xs s' 5 = xs s0 5)); [|nia|auto].
      eapply reach_trans; [apply (depth_loop n s0 l1 l2 k p s1); [lia|exact HD1]|].
      intros pc s2 [-> (k' & HD2 & Hk')]. eapply reach_weaken; [apply (depth_end _ _ _ _ _ _ HD2)|lia|].
      intros pc s' [-> [HA HF]]. split; [reflexivity|]. split; [|exact HF].
      replace (u ++ k :: l2) with (k' :: tl (upto p (S n)) ++ k :: l2); [exact HA|].
      subst k' u. assert (G : upto p (S n) <> []).
      { intros G. apply (f_equal (@length nat)) in G. unfold upto in G. rewrite rev_length, seq_length in G. discriminate. }
      destruct (upto p (S n)); [contradiction|]. reflexivity.
Qed.

(** *** The kernels *)

(** The first level is loaded. [c] is the counter with which the kernel starts. *)
Record ready (c : Z) (s : state) : Prop := {
  r_1 : xs s 1 = Int c; r_level : level 0 1 s; r_given : given s; r_accs : accs [] [] s;
  r_48 : xs s 48 = Ptr 0 0; r_5 : exists f, mem s 0%nat = Struct f /\ find_field f 0 8 = Ok (xs s 5) }.
(** From [a] to [b] the sums are computed. *)
Definition sums (code : list instr) (a b n : nat) (c : Z) (l1 l2 : list nat) : Prop :=
  forall s, ready c s -> reach n code a s (fun pc s' => pc = b /\ accs l1 l2 s' /\ frame s s' /\ xs s' 5 = xs s 5).

Lemma part_x1 : part_at kernelf_x1 depth_part 34.
Proof using. exists (firstn 34 kernelf_x1), (skipn 74 kernelf_x1). split; vm_compute; reflexivity. Qed.
Lemma part_neon : part_at kernelf_neon depth_part 185.
Proof using. exists (firstn 185 kernelf_neon), (skipn 225 kernelf_neon). split; vm_compute; reflexivity. Qed.

Lemma whole_order : forall n, upto 1 n ++ [0%nat] = upto 0 (S n).
Proof using. intros. reflexivity. Qed.

Lemma sums_x1 : sums kernelf_x1 29 74 (25 * Z.to_nat K + 20) 1 (upto 0 (Z.to_nat K)) (upto 0 (Z.to_nat K)).
Proof.
  intros s [X1 [X42 X43 V0 V1 V2 V3] [X12 M1 M2] [H16 H17 H18 H19 H20 H21 H22 H23 H24 H25 H26 H27 H28 H29 H30 H31] _ _].
  replace (25 * Z.to_nat K + 20)%nat with (5 + (25 * Z.to_nat K + 15))%nat by lia.
  eapply reach_trans with (P := fun pc s' => pc = 34%nat /\ deep s [0%nat] [] 0 1 s').
  - begin. do 5 kstep. finish. split; [reflexivity|].
    constructor; [numbers|constructor; numbers|constructor; numbers || exact M1 || exact M2|constructor; numbers|framed|reflexivity].
  - intros pc s' [-> HD]. pose proof (depth_all s _ _ 0 1 s' ltac:(lia) HD) as RD. pose proof (reach_part _ _ _ 34 0 s' _ part_x1 RD) as RP.
    eapply reach_weaken; [exact RP|lia|].
    intros pc s2 (q & -> & -> & HA & HF & H5). split; [reflexivity|]. rewrite whole_order in HA. replace (S (Z.to_nat K - 1)) with (Z.to_nat K) in HA by lia. auto.
Qed.

(** *** Four levels at a time (KernelFloatNeon) *)
Fixpoint down (k : nat) : list nat := match k with O => [] | S k => k :: down k end.
Lemma down_upto : forall k, down k = upto 0 k.
Proof using. induction k as [|k IH]; [reflexivity|]. cbn [down]. rewrite IH. unfold upto. rewrite seq_S, rev_app_distr. reflexivity. Qed.

(** Levels [k] to [k + 3] are loaded. *)
Record stream (s0 : state) (k : nat) (s : state) : Prop := {
  s_1 : xs s 1 = Int (Z.of_nat (4 + k)); s_2 : xs s 2 = Int (4 * (K / 4)); s_level : level k (4 + k) s; s_given : given s;
  s_accs : accs (down (S k)) (down k) s; s_frame : frame s0 s; s_5 : xs s 5 = xs s0 5;
  s_v4 : vs s 4 = lv 0 (1 + k); s_v5 : vs s 5 = lv 1 (1 + k); s_v6 : vs s 6 = rv 0 (1 + k); s_v7 : vs s 7 = rv 1 (1 + k);
  s_v8 : vs s 8 = lv 0 (2 + k); s_v9 : vs s 9 = lv 1 (2 + k); s_v10 : vs s 10 = rv 0 (2 + k); s_v11 : vs s 11 = rv 1 (2 + k);
  s_v12 : vs s 12 = lv 0 (3 + k); s_v13 : vs s 13 = lv 1 (3 + k); s_v14 : vs s 14 = rv 0 (3 + k); s_v15 : vs s 15 = rv 1 (3 + k) }.

Ltac names4 k := repeat first [name_lv 0%nat k | name_lv 1%nat k | name_rv 0%nat k | name_rv 1%nat k | name_lv 0%nat (S k) | name_lv 1%nat (S k) | name_rv 0%nat (S k) | name_rv 1%nat (S k)
  | name_lv 0%nat (S (S k)) | name_lv 1%nat (S (S k)) | name_rv 0%nat (S (S k)) | name_rv 1%nat (S (S k))
  | name_lv 0%nat (S (S (S k))) | name_lv 1%nat (S (S (S k))) | name_rv 0%nat (S (S (S k))) | name_rv 1%nat (S (S (S k)))].
Ltac deeper M1 M2 := constructor; numbers || exact M1 || exact M2.

Lemma quarter : 4 * (K / 4) <= K < 4 * (K / 4) + 4.
Proof. pose proof (Z.div_mod K 4). pose proof (Z.mod_pos_bound K 4). lia. Qed.

Lemma stream_body : forall s0 k s, Z.of_nat (8 + k) <= 4 * (K / 4) -> stream s0 k s ->
  reach 86 kernelf_neon 50 s (fun pc s' => pc = (if (Z.of_nat (8 + k) <? 4 * (K / 4))%Z then 50 else 136)%nat /\ stream s0 (4 + k) s').
Proof.
  intros s0 k s Hk [X1 X2 [X42 X43 V0 V1 V2 V3] [X12 M1 M2] [H16 H17 H18 H19 H20 H21 H22 H23 H24 H25 H26 H27 H28 H29 H30 H31] FR X5
    V4 V5 V6 V7 V8 V9 V10 V11 V12 V13 V14 V15]. pose proof quarter.
  begin. do 85 (kstep; names4 (4 + k)%nat).
  eapply reach_b with (b := (Z.of_nat (4 + k) + 4 <? 4 * (K / 4))); [reflexivity|reflexivity|reflexivity|].
  finish. replace (Z.of_nat (4 + k) + 4) with (Z.of_nat (8 + k)) by lia. split; [reflexivity|].
  constructor; try numbers; [deeper M1 M2|deeper M1 M2|constructor; numbers|].
  eapply frame_trans; [exact FR|framed].
Qed.

Lemma stream_loop : forall n s0 k s, Z.of_nat (8 + k) + 4 * Z.of_nat n = 4 * (K / 4) -> stream s0 k s ->
  reach (86 * S n) kernelf_neon 50 s (fun pc s' => pc = 136%nat /\ stream s0 (4 * S n + k) s').
Proof.
  induction n as [|n IH]; intros s0 k s Hn HS.
  - eapply reach_weaken; [apply (stream_body s0 k s); [lia|exact HS]|lia|]. intros pc s' [-> HS'].
    replace (Z.of_nat (8 + k) <? 4 * (K / 4)) with false by (symmetry; apply Z.ltb_ge; lia). split; [reflexivity|exact HS'].
  - replace (86 * S (S n))%nat with (86 + 86 * S n)%nat by lia. eapply reach_trans; [apply (stream_body s0 k s); [lia|exact HS]|]. intros pc s' [-> HS'].
    replace (Z.of_nat (8 + k) <? 4 * (K / 4)) with true by (symmetry; apply Z.ltb_lt; lia).
    eapply reach_weaken; [apply (IH s0 (4 + k)%nat s'); [lia|exact HS']|lia|]. intros pc s2 [-> HS2]. split; [reflexivity|].
    replace (4 * S (S n) + k)%nat with (4 * S n + (4 + k))%nat by lia. exact HS2.
Qed.

(** The levels after the first of the four; its rest comes later. *)
Lemma stream_end : forall s0 k s, stream s0 k s ->
  reach 49 kernelf_neon 136 s (fun pc s' => pc = 185%nat /\ deep s0 (down (4 + k)) (3 + k :: 2 + k :: 1 + k :: down k)%nat k (4 + k) s').
Proof.
  intros s0 k s [X1 X2 [X42 X43 V0 V1 V2 V3] [X12 M1 M2] [H16 H17 H18 H19 H20 H21 H22 H23 H24 H25 H26 H27 H28 H29 H30 H31] FR X5
    V4 V5 V6 V7 V8 V9 V10 V11 V12 V13 V14 V15].
  begin. do 49 kstep. finish. split; [reflexivity|].
  constructor; [numbers|constructor; numbers|deeper M1 M2|constructor; numbers| |exact X5].
  eapply frame_trans; [exact FR|framed].
Qed.

(** The levels in the order in which KernelFloatNeon adds them to the entries that are not in the first four rows and columns. *)
Definition late : list nat :=
  if K <? 8 then upto 0 (Z.to_nat K)
  else let b := Z.to_nat (4 * (K / 4) - 4) in upto (4 + b) (Z.to_nat K - (4 + b)) ++ (b :: 3 + b :: 2 + b :: 1 + b :: upto 0 b)%nat.

Lemma sums_neon : sums kernelf_neon 29 225 (47 * Z.to_nat K + 200) 1 (upto 0 (Z.to_nat K)) late.
Proof.
  intros s [X1 [X42 X43 V0 V1 V2 V3] [X12 M1 M2] [H16 H17 H18 H19 H20 H21 H22 H23 H24 H25 H26 H27 H28 H29 H30 H31] _ _].
  pose proof quarter as HQ. unfold late. destruct (Z.ltb_spec K 8) as [H8|H8].
  - apply (reach_weaken (8 + (25 * Z.to_nat K + 15)) _ _ _ _ (fun pc s' => pc = 225%nat /\ accs (upto 0 (Z.to_nat K)) (upto 0 (Z.to_nat K)) s' /\ frame s s' /\ xs s' 5 = xs s 5)); [|lia|auto].
    eapply reach_trans with (P := fun pc s' => pc = 185%nat /\ deep s [0%nat] [] 0 1 s').
    + begin. do 6 kstep. eapply reach_b with (b := (K <? 8)); [reflexivity|reflexivity|reflexivity|].
      replace (K <? 8) with true by (symmetry; apply Z.ltb_lt; lia). kstep. finish. split; [reflexivity|].
      constructor; [numbers|constructor; numbers|deeper M1 M2|constructor; numbers|framed|reflexivity].
    + intros pc s' [-> HD]. pose proof (depth_all s _ _ 0 1 s' ltac:(lia) HD) as RD. pose proof (reach_part _ _ _ 185 0 s' _ part_neon RD) as RP.
      eapply reach_weaken; [exact RP|lia|].
      intros pc s2 (q & -> & -> & HA & HF & H5). split; [reflexivity|]. rewrite whole_order in HA. replace (S (Z.to_nat K - 1)) with (Z.to_nat K) in HA by lia. auto.
  - set (b := Z.to_nat (4 * (K / 4) - 4)). set (n := (Z.to_nat (K / 4) - 2)%nat).
    assert (Hb : Z.of_nat b = 4 * (K / 4) - 4) by lia. assert (Hn : b = (4 * S n)%nat) by lia.
    set (goal := fun pc s' => pc = 225%nat /\ accs (upto 0 (Z.to_nat K)) (upto (4 + b) (Z.to_nat K - (4 + b)) ++ (b :: 3 + b :: 2 + b :: 1 + b :: upto 0 b)%nat) s' /\ frame s s' /\ xs s' 5 = xs s 5).
    apply (reach_weaken (21 + (86 * S n + (49 + (25 * Z.to_nat K + 15)))) _ _ _ _ goal); [|lia|auto].
    eapply reach_trans with (P := fun pc s' => pc = 50%nat /\ stream s 0 s').
    + begin. do 6 kstep. eapply reach_b with (b := (K <? 8)); [reflexivity|reflexivity|reflexivity|].
      replace (K <? 8) with false by (symmetry; apply Z.ltb_ge; lia).
      eapply s_and_high with (k := 2); [reflexivity|reflexivity|lia|reads|apply small_low; lia|lia|]. look. change (2 ^ 2) with 4.
      do 12 (kstep; names4 1%nat). kstep. finish. split; [reflexivity|].
      constructor; try numbers; [deeper M1 M2|deeper M1 M2|constructor; numbers|framed].
    + intros pc s1 [-> HS]. eapply reach_trans; [apply (stream_loop n s 0 s1); [lia|exact HS]|].
      intros pc s2 [-> HS2]. replace (4 * S n + 0)%nat with b in HS2 by lia. eapply reach_trans; [apply (stream_end s b s2 HS2)|].
      intros pc s3 [-> HD]. pose proof (depth_all s _ _ b (4 + b) s3 ltac:(lia) HD) as RD. pose proof (reach_part _ _ _ 185 0 s3 _ part_neon RD) as RP.
      eapply reach_weaken; [exact RP|lia|].
      intros pc s4 (q & -> & -> & HA & HF & H5). subst goal. cbv beta. split; [reflexivity|]. rewrite !down_upto in HA.
      replace (upto (4 + b) (Z.to_nat K - (4 + b)) ++ upto 0 (4 + b)) with (upto 0 (Z.to_nat K)) in HA; [auto|].
      unfold upto. rewrite <- rev_app_distr. f_equal. transitivity (seq 0 ((4 + b) + (Z.to_nat K - (4 + b)))); [f_equal; lia|rewrite seq_app; reflexivity].
Qed.

(** *** KernelFloatNeonA55ish and KernelFloatNeonDotprodA55ish *)
Hypothesis HLb : forall i, 0 <= bdat L i < 256.
Hypothesis HRb : forall i, 0 <= bdat R i < 256.

Record deep5 (s0 : state) (k : nat) (s : state) : Prop := {
  e_1 : xs s 1 = Int (K - Z.of_nat (S k)); e_level : level k (S k) s; e_given : given s; e_accs : accs (down (S k)) (down k) s; e_frame : frame s0 s }.
Ltac joins := rewrite ?fmla_low; repeat match goal with |- context [splice (extend (get_bytes ?b ?o 8)) (8 * 1) (bytes_of 8 (of_bytes (get_bytes ?b ?o' (Z.to_nat 8))))] =>
  rewrite (join8 b o o') by first [exact HLb | exact HRb | lia] end.

Ltac body5 :=
  match goal with |- forall s0 k s, _ =>
  intros s0 k s Hk [X1 [X42 X43 V0 V1 V2 V3] [X12 M1 M2] [H16 H17 H18 H19 H20 H21 H22 H23 H24 H25 H26 H27 H28 H29 H30 H31] FR];
  begin; do 33 (kstep; joins; names (S k));
  eapply reach_b with (b := negb (K - Z.of_nat (S k) =? 1)); [reflexivity|reflexivity|reflexivity|];
  finish; replace (K - Z.of_nat (S k) =? 1) with (negb (Z.of_nat (S (S k)) <? K)) by (destruct (Z.ltb_spec (Z.of_nat (S (S k))) K); symmetry; [apply Z.eqb_neq|apply Z.eqb_eq]; lia);
  rewrite negb_involutive; split; [reflexivity|];
  constructor; [numbers|constructor; numbers|deeper M1 M2|constructor; numbers|];
  eapply frame_trans; [exact FR|framed] end.

Lemma body_a55 : forall s0 k s, Z.of_nat (S k) < K -> deep5 s0 k s ->
  reach 34 kernelf_a55 44 s (fun pc s' => pc = (if (Z.of_nat (S (S k)) <? K)%Z then 44 else 78)%nat /\ deep5 s0 (S k) s').
Proof. body5. Qed.
Lemma body_dotprod_a55 : forall s0 k s, Z.of_nat (S k) < K -> deep5 s0 k s ->
  reach 34 kernelf_dotprod_a55 44 s (fun pc s' => pc = (if (Z.of_nat (S (S k)) <? K)%Z then 44 else 78)%nat /\ deep5 s0 (S k) s').
Proof. body5. Qed.

Lemma loop5 : forall code, (forall s0 k s, Z.of_nat (S k) < K -> deep5 s0 k s ->
    reach 34 code 44 s (fun pc s' => pc = (if (Z.of_nat (S (S k)) <? K)%Z then 44 else 78)%nat /\ deep5 s0 (S k) s')) ->
  forall n s0 k s, Z.of_nat (S k) + Z.of_nat (S n) = K -> deep5 s0 k s -> reach (34 * S n) code 44 s (fun pc s' => pc = 78%nat /\ deep5 s0 (S n + k) s').
Proof.
  intros code Hbody. induction n as [|n IH]; intros s0 k s Hn HD.
  - eapply reach_weaken; [apply (Hbody s0 k s); [lia|exact HD]|lia|]. intros pc s' [-> HD'].
    replace (Z.of_nat (S (S k)) <? K) with false by (symmetry; apply Z.ltb_ge; lia). split; [reflexivity|exact HD'].
  - replace (34 * S (S n))%nat with (34 + 34 * S n)%nat by lia. eapply reach_trans; [apply (Hbody s0 k s); [lia|exact HD]|]. intros pc s' [-> HD'].
    replace (Z.of_nat (S (S k)) <? K) with true by (symmetry; apply Z.ltb_lt; lia).
    eapply reach_weaken; [apply (IH s0 (S k) s'); [lia|exact HD']|lia|]. intros pc s2 [-> HD2]. split; [reflexivity|].
    replace (S (S n) + k)%nat with (S n + S k)%nat by lia. exact HD2.
Qed.

Ltac end5 :=
  intros s0 k s f F0 F5 F48 [X1 [X42 X43 V0 V1 V2 V3] [X12 M1 M2] [H16 H17 H18 H19 H20 H21 H22 H23 H24 H25 H26 H27 H28 H29 H30 H31] FR];
  begin; do 9 kstep;
  (eapply m_field; [reflexivity|reads|imm|lia|mem_fact|exact F5|]; cbn [xs vs fl mem]); do 4 kstep; finish; split; [reflexivity|]; split; [constructor; numbers|]; split; [|numbers];
  eapply frame_trans; [exact FR|framed].
Lemma end_a55 : forall s0 k s f, mem s 0%nat = Struct f -> find_field f 0 8 = Ok (xs s0 5) -> xs s 48 = Ptr 0 0 -> deep5 s0 k s ->
  reach 14 kernelf_a55 78 s (fun pc s' => pc = 92%nat /\ accs (down (S k)) (down (S k)) s' /\ frame s0 s' /\ xs s' 5 = xs s0 5).
Proof. end5. Qed.
Lemma end_dotprod_a55 : forall s0 k s f, mem s 0%nat = Struct f -> find_field f 0 8 = Ok (xs s0 5) -> xs s 48 = Ptr 0 0 -> deep5 s0 k s ->
  reach 14 kernelf_dotprod_a55 78 s (fun pc s' => pc = 92%nat /\ accs (down (S k)) (down (S k)) s' /\ frame s0 s' /\ xs s' 5 = xs s0 5).
Proof. end5. Qed.

Ltac start5 := intros s [X1 [X42 X43 V0 V1 V2 V3] [X12 M1 M2] [H16 H17 H18 H19 H20 H21 H22 H23 H24 H25 H26 H27 H28 H29 H30 H31] _ _];
  begin; do 6 kstep; (eapply reach_b with (b := (K - 1 =? 0)); [reflexivity|reflexivity|reflexivity|]); finish; split; [reflexivity|];
  constructor; [numbers|constructor; numbers|deeper M1 M2|constructor; numbers|framed].
Lemma start_a55 : forall s, ready (K - 1) s -> reach 7 kernelf_a55 37 s (fun pc s' => pc = (if (K - 1 =? 0)%Z then 78 else 44)%nat /\ deep5 s 0 s').
Proof. start5. Qed.
Lemma start_dotprod_a55 : forall s, ready (K - 1) s -> reach 7 kernelf_dotprod_a55 37 s (fun pc s' => pc = (if (K - 1 =? 0)%Z then 78 else 44)%nat /\ deep5 s 0 s').
Proof. start5. Qed.

Lemma frame_read : forall s s' r, frame s s' -> In r kept -> xs s' r = xs s r.
Proof using. intros s s' r [_ F] Hr. rewrite Forall_forall in F. apply F, Hr. Qed.

Ltac sums5 start body ending :=
  intros s HS; pose proof (start s HS) as R1; destruct HS as [_ _ _ _ F48 (f & F0 & F5)];
  apply (reach_weaken (7 + (34 * (Z.to_nat K - 1) + 14)) _ _ _ _ (fun pc s' => pc = 92%nat /\ accs (upto 0 (Z.to_nat K)) (upto 0 (Z.to_nat K)) s' /\ frame s s' /\ xs s' 5 = xs s 5)); [|lia|auto];
  eapply reach_trans; [exact R1|]; intros pc s1 [-> HD];
  apply reach_trans with (P := fun pc s' => pc = 78%nat /\ deep5 s (Z.to_nat K - 1) s');
  [ destruct (Z.eqb_spec (K - 1) 0) as [E|E];
    [ apply reach_done; replace (Z.to_nat K - 1)%nat with 0%nat by lia; split; [reflexivity|exact HD]
    | destruct (Z.to_nat K - 1)%nat as [|n] eqn:En; [lia|]; pose proof (loop5 _ body n s 0 s1 ltac:(lia) HD) as RL;
      rewrite Nat.add_0_r in RL; exact RL ]
  | intros pc s2 [-> HD2];
    assert (Q48 : xs s2 48 = Ptr 0 0) by (rewrite <- F48; apply (frame_read s); [apply (e_frame _ _ _ HD2)|cbn; tauto]);
    assert (Q0 : mem s2 0%nat = Struct f) by (rewrite (proj1 (e_frame _ _ _ HD2)); exact F0);
    eapply reach_weaken; [apply (ending s _ s2 f Q0 F5 Q48 HD2)|lia|];
    intros pc s3 H; rewrite down_upto in H; replace (S (Z.to_nat K - 1)) with (Z.to_nat K) in H by lia; exact H ].

Lemma sums_a55 : sums kernelf_a55 37 92 (34 * Z.to_nat K + 21) (K - 1) (upto 0 (Z.to_nat K)) (upto 0 (Z.to_nat K)).
Proof. sums5 start_a55 body_a55 end_a55. Qed.
Lemma sums_dotprod_a55 : sums kernelf_dotprod_a55 37 92 (34 * Z.to_nat K + 21) (K - 1) (upto 0 (Z.to_nat K)) (upto 0 (Z.to_nat K)).
Proof. sums5 start_dotprod_a55 body_dotprod_a55 end_dotprod_a55. Qed.
End Sums.
