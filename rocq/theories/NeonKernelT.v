(** The float kernels for AArch64 (ruy/kernel_arm64.cc): what follows the sums, for one block. *)
From Coq Require Import ZArith List Bool Lia.
From Verif Require Import Base Mat Simd SimdFacts Neon64 NeonRun NeonTac NeonCols NeonKTac NeonKernelCode NeonKernelF.
Import ListNotations.
Open Scope Z_scope.

Definition keep (l : list nat) (s s' : state) : Prop := Forall (fun r => xs s' r = xs s r) l.
Definition keepv (l : list nat) (s s' : state) : Prop := Forall (fun r => vs s' r = vs s r) l.
Ltac kept_here := once (repeat constructor).
Lemma keep_trans : forall l a b c, keep l a b -> keep l b c -> keep l a c.
Proof. intros l a b c H1 H2. unfold keep in *. rewrite Forall_forall in *. intros r Hr. rewrite (H2 r Hr). apply H1, Hr. Qed.
Lemma keepv_trans : forall l a b c, keepv l a b -> keepv l b c -> keepv l a c.
Proof. intros l a b c H1 H2. unfold keepv in *. rewrite Forall_forall in *. intros r Hr. rewrite (H2 r Hr). apply H1, Hr. Qed.
Lemma keep_read : forall l a b r, keep l a b -> In r l -> xs b r = xs a r.
Proof. intros l a b r H Hr. unfold keep in H. rewrite Forall_forall in H. apply H, Hr. Qed.
Lemma keepv_read : forall l a b r, keepv l a b -> In r l -> vs b r = vs a r.
Proof. intros l a b r H Hr. unfold keepv in H. rewrite Forall_forall in H. apply H, Hr. Qed.

(** Register 16 + 2c + h has rows 4h to 4h + 3 of column c. *)
Record outs (f : nat -> nat -> list Z) (s : state) : Prop := {
  o16 : vs s 16 = f 0%nat 0%nat; o17 : vs s 17 = f 1%nat 0%nat; o18 : vs s 18 = f 0%nat 1%nat; o19 : vs s 19 = f 1%nat 1%nat;
  o20 : vs s 20 = f 0%nat 2%nat; o21 : vs s 21 = f 1%nat 2%nat; o22 : vs s 22 = f 0%nat 3%nat; o23 : vs s 23 = f 1%nat 3%nat;
  o24 : vs s 24 = f 0%nat 4%nat; o25 : vs s 25 = f 1%nat 4%nat; o26 : vs s 26 = f 0%nat 5%nat; o27 : vs s 27 = f 1%nat 5%nat;
  o28 : vs s 28 = f 0%nat 6%nat; o29 : vs s 29 = f 1%nat 6%nat; o30 : vs s 30 = f 0%nat 7%nat; o31 : vs s 31 = f 1%nat 7%nat }.

Lemma put_eq : forall b b' o o' v v', b = b' -> o = o' -> v = v' -> put b o v = put b' o' v'.
Proof. intros; subst; reflexivity. Qed.

(** Columns of two registers, [st] bytes apart. *)
Fixpoint put_cols (P : buf Z) (p st : Z) (g : nat -> nat -> list Z) (n : nat) : buf Z :=
  match n with
  | O => P
  | S n => put (put (put_cols P p st g n) (p + st * Z.of_nat n) (g 0%nat n)) (p + st * Z.of_nat n + 16) (g 1%nat n)
  end.
Lemma put_cols_blen : forall P p st g n, blen (put_cols P p st g n) = blen P.
Proof. induction n as [|n IH]; [reflexivity|]. exact IH. Qed.

(** Words copied from [T] to [D]. *)
Definition word_at (T : buf Z) (o : Z) : list Z := bytes_of 4 (of_bytes (get_bytes T o 4)).
Fixpoint copy_col (D T : buf Z) (dp tp : Z) (n : nat) : buf Z :=
  match n with O => D | S n => put (copy_col D T dp tp n) (dp + 4 * Z.of_nat n) (word_at T (tp + 4 * Z.of_nat n)) end.
Fixpoint copy_cols (D T : buf Z) (dp ds : Z) (nr n : nat) : buf Z :=
  match n with O => D | S n => copy_col (copy_cols D T dp ds nr n) T (dp + ds * Z.of_nat n) (32 * Z.of_nat n) nr end.
Lemma copy_col_blen : forall D T dp tp n, blen (copy_col D T dp tp n) = blen D.
Proof. induction n as [|n IH]; [reflexivity|]. exact IH. Qed.
Lemma copy_cols_blen : forall D T dp ds nr n, blen (copy_cols D T dp ds nr n) = blen D.
Proof. induction n as [|n IH]; [reflexivity|]. cbn [copy_cols]. rewrite copy_col_blen. exact IH. Qed.

Lemma m_str : forall n code pc s Q a base o j p b z y, nth_error code pc = Some (Str 4 a base o) -> xs s base = Ptr j p -> operand_val X s o = Ok (Int z) -> - 2 ^ 63 <= z < 2 ^ 63 ->
  xs s a = Int y -> mem s j = Bytes b -> 0 <= p + z -> p + z + 4 <= blen b ->
  reach n code (S pc) {| xs := xs s; vs := vs s; fl := fl s; mem := upd (mem s) j (Bytes (put b (p + z) (bytes_of 4 y))) |} Q -> reach (S n) code pc s Q.
Proof.
  intros n code pc s Q a base o j p b z y Hi Hb Ho Hz Ha Hj H1 H2 H. eapply r_str with (1 := Hi) (2 := Ho); [rewrite Hb; apply addp, Hz|exact Ha| |exact H].
  unfold store_vec. rewrite Hj. replace (0 <=? p + z) with true by (symmetry; apply Z.leb_le; lia).
  replace (p + z + Z.of_nat (length (bytes_of 4 y)) <=? blen b) with true; [reflexivity|]. symmetry. apply Z.leb_le. cbn [bytes_of length]. lia.
Qed.

Lemma lsl2 : forall s r z, xs s r = Int z -> 0 <= z < 2 ^ 32 -> operand_val X s (Lsl r 2) = Ok (Int (z * 4)).
Proof. intros s r z Hr Hz. cbn [operand_val]. rewrite Hr. cbn [as_int bind bits_of]. rewrite wrap_u_small by lia. reflexivity. Qed.

Lemma le_flag : forall a b, (a <? b) || (a =? b) = (a <=? b).
Proof. intros a b. destruct (Z.ltb_spec a b), (Z.eqb_spec a b), (Z.leb_spec a b); reflexivity || lia. Qed.

Section Tail.
Variables (L R Bi : buf Z) (lo ro dof bo sr sc lr lc dr dc ls rs ds K cmin cmax : Z) (hb cc : bool) (drz dcz : Z).
(** The bits of RUY_ASM_FLAG_HAS_BIAS and RUY_ASM_FLAG_CHANNEL_DIMENSION_IS_COL. *)
Definition kflags : Z := (if hb then 1 else 0) + (if cc then 32 else 0).
(** KernelParamsFloat (kernel_common.h): offset, size and value of each member the assembly reads. *)
Definition kfields : list (Z * Z * val) :=
  [(0, 8, Ptr 1 lo); (8, 8, Ptr 2 ro); (16, 8, Ptr 4 dof); (24, 8, Ptr 3 bo); (32, 4, Int sr); (36, 4, Int sc); (40, 4, Int lr); (44, 4, Int lc);
   (48, 4, Int dr); (52, 4, Int dc); (56, 4, Int ls); (60, 4, Int rs); (64, 4, Int ds); (68, 4, Int K); (72, 4, Int cmin); (76, 4, Int cmax); (80, 1, Int kflags)].

Record kmem (D T : buf Z) (m : memory) : Prop := {
  km0 : m 0%nat = Struct kfields; km1 : m 1%nat = Bytes L; km2 : m 2%nat = Bytes R; km3 : m 3%nat = Bytes Bi; km4 : m 4%nat = Bytes D; km5 : m 5%nat = Bytes T }.
Record core (s : state) : Prop := {
  c8 : xs s 8 = Int lc; c9 : xs s 9 = Int ls; c10 : xs s 10 = Int rs; c11 : xs s 11 = Int ds; c12 : xs s 12 = Int K;
  c48 : xs s 48 = Ptr 0 0; c49 : xs s 49 = Int drz; c50 : xs s 50 = Int dcz; c51 : xs s 51 = Ptr 5 0 }.

Hypothesis Hlr : 0 <= sr <= lr /\ lr < dr /\ dr < 2 ^ 31 /\ lr + 8 < 2 ^ 31.
Hypothesis Hlc : 0 <= sc <= lc /\ lc < dc /\ dc < 2 ^ 31 /\ lc + 8 < 2 ^ 31.
Hypothesis Hst : 0 <= ls < 2 ^ 31 /\ 0 <= rs < 2 ^ 31 /\ 0 <= ds < 2 ^ 31.
Hypothesis Hdr : drz mod 2 ^ 32 = dr.
Hypothesis Hdc : dcz mod 2 ^ 32 = dc.

(** *** The next block's first level, and the biases *)
Definition advance_part : list instr := firstn 26 (skipn 74 kernelf_x1).
Definition next_lhs (row p : Z) : Z := if row <? lr then p + ls * 8 else lo.
Definition next_rhs (row col p : Z) : Z := if row <? lr then p else if col <? lc then p + rs * 8 else p.
Definition bias_at (row col : Z) : Z := bo + (if hb then 4 * (if cc then col else row) else 0).

Record advanced (row col p q : Z) (s s' : state) : Prop := {
  v_40 : xs s' 40 = Ptr 1 (next_lhs row p); v_41 : xs s' 41 = Ptr 2 (next_rhs row col q);
  v_level : level L R (next_lhs row p) (next_rhs row col q) 0 1 s';
  v_14 : vs s' 14 = get_bytes Bi (bias_at row col) 16; v_15 : vs s' 15 = get_bytes Bi (bias_at row col + 16) 16;
  v_flag : f_eq (fl s') = negb cc; v_mem : mem s' = mem s; v_keep : keep [6; 7; 8; 9; 10; 11; 12; 44; 45; 46; 47; 48; 49; 50; 51]%nat s s';
  v_keepv : keepv [16; 17; 18; 19; 20; 21; 22; 23; 24; 25; 26; 27; 28; 29; 30; 31]%nat s s' }.

Ltac flag_value := unfold kflags; destruct hb, cc; reflexivity.
Lemma advance : forall D T row col rz cz p q s, kmem D T (mem s) -> core s -> xs s 5 = Ptr 1 lo -> xs s 7 = Int lr ->
  xs s 40 = Ptr 1 p -> xs s 41 = Ptr 2 q -> xs s 46 = Int rz -> xs s 47 = Int cz -> rz mod 2 ^ 32 = row -> cz mod 2 ^ 32 = col -> row <= lr -> col <= lc ->
  0 <= next_lhs row p /\ next_lhs row p + 32 <= blen L -> 0 <= next_rhs row col q /\ next_rhs row col q + 32 <= blen R ->
  0 <= bias_at row col /\ bias_at row col + 32 <= blen Bi ->
  reach 26 advance_part 0 s (fun pc s' => pc = 26%nat /\ advanced row col p q s s').
Proof.
  intros D T row col rz cz p q s [M0 M1 M2 M3 M4 M5] [C8 C9 C10 C11 C12 C48 C49 C50 C51] X5 X7 X40 X41 X46 X47 Erow Ecol Hrow Hcol HL HR HB.
  assert (Hr0 : 0 <= row) by (subst row; apply Z.mod_pos_bound; lia). assert (Hc0 : 0 <= col) by (subst col; apply Z.mod_pos_bound; lia).
  apply (reach_weaken (9 + 17) _ _ _ _ (fun pc s' => pc = 26%nat /\ advanced row col p q s s')); [|lia|auto].
  eapply reach_trans with (P := fun pc s' => pc = 9%nat /\ xs s' 40 = Ptr 1 (next_lhs row p) /\ xs s' 41 = Ptr 2 (next_rhs row col q) /\
    mem s' = mem s /\ keep [6; 7; 8; 9; 10; 11; 12; 44; 45; 46; 47; 48; 49; 50; 51]%nat s s' /\ vs s' = vs s).
  - begin. kstep. eapply reach_b with (b := negb (row <? lr)); [reflexivity|reflexivity|reflexivity|]. unfold next_lhs, next_rhs in *.
    destruct (Z.ltb_spec row lr) as [E|E]; cbn [negb].
    + kstep. eapply reach_b with (b := true); [reflexivity|reflexivity|reflexivity|]. finish.
      split; [reflexivity|]. split; [reads|]. split; [reads|]. split; [reflexivity|]. split; [kept_here|reflexivity].
    + kstep. kstep. kstep. eapply reach_b with (b := negb (col <? lc)); [reflexivity|reflexivity|reflexivity|].
      destruct (Z.ltb_spec col lc) as [E2|E2]; cbn [negb].
      * kstep. finish. split; [reflexivity|]. split; [reads|]. split; [reads|]. split; [reflexivity|]. split; [kept_here|reflexivity].
      * finish. split; [reflexivity|]. split; [reads|]. split; [reads|]. split; [reflexivity|]. split; [kept_here|reflexivity].
  - intros pc s1 (-> & Y40 & Y41 & YM & YK & YV).
    assert (Y : core s1 /\ xs s1 46 = Int rz /\ xs s1 47 = Int cz).
    { split; [constructor|split]; (rewrite (keep_read _ _ _ _ YK) by (cbn; tauto); assumption). }
    destruct Y as ([D8 D9 D10 D11 D12 D48 D49 D50 D51] & Y46 & Y47). rewrite <- YM in M0, M1, M2, M3, M4, M5.
    set (n1 := next_lhs row p) in *. set (n2 := next_rhs row col q) in *. unfold bias_at in HB.
    set (w3 := if cc then col else row) in *. assert (Hw3 : 0 <= w3 < 2 ^ 31) by (subst w3; destruct cc; lia).
    begin. do 5 kstep. kstep. eapply k_cselw with (t := negb cc) (z := if cc then cz else rz) (v := w3); [reflexivity|look; flag_value|destruct cc; cbn [negb]; reads|subst w3; destruct cc; assumption|]. look.
    kstep. kstep. eapply r_cselx with (t := negb hb) (v := Ptr 3 (bo + (if hb then 4 * w3 else 0))); [reflexivity|look; flag_value|look; destruct hb; cbn [negb]; look; f_equal; lia|]. look.
    do 7 kstep. finish. split; [reflexivity|].
    constructor; try reads; try reflexivity.
    + constructor; [reads_lia|reads_lia|..]; look; unfold lv, rv; f_equal; lia.
    + look. flag_value.
    + exact YM.
    + eapply keep_trans; [exact YK|kept_here].
    + unfold keepv. rewrite <- YV. kept_here.
Qed.

(** *** Adding the biases *)
Definition bias_part : list instr := firstn 44 (skipn 100 kernelf_x1).
Definition bias_part5 : list instr := firstn 44 (skipn 118 kernelf_a55).
(** The biases of rows 4h to 4h + 3 of column c: [u] has the first four, [v] the others. *)
Definition bias_vec (u v : list Z) (h c : nat) : list Z :=
  if cc then of_lanes 4 (repeat (nth (c mod 4) (ulanes 4 (if Nat.ltb c 4 then u else v)) 0) 4) else if Nat.eqb h 0 then u else v.
Definition biased (u v : list Z) (f : nat -> nat -> list Z) (h c : nat) : list Z := vop_val Fadd (f h c) (bias_vec u v h c).

Ltac bias_proof :=
  intros u v f s [O16 O17 O18 O19 O20 O21 O22 O23 O24 O25 O26 O27 O28 O29 O30 O31] V14 V15 HF;
  begin; (eapply reach_b with (b := cc); [reflexivity|reflexivity|cbn [holds]; rewrite HF, negb_involutive; reflexivity|]); destruct cc eqn:Ecc;
  [ do 26 kstep; finish
  | do 16 kstep; (eapply reach_b with (b := true); [reflexivity|reflexivity|reflexivity|]); kstep; finish ];
  (split; [reflexivity|]); (split; [constructor; unfold biased, bias_vec; rewrite Ecc; reads|]); (split; [reflexivity|]); (split; [reflexivity|kept_here]).
Lemma add_bias : forall u v f s, outs f s -> vs s 14 = u -> vs s 15 = v -> f_eq (fl s) = negb cc ->
  reach 44 bias_part 0 s (fun pc s' => pc = 44%nat /\ outs (biased u v f) s' /\ xs s' = xs s /\ mem s' = mem s /\ keepv [0; 1; 2; 3]%nat s s').
Proof. bias_proof. Qed.
Lemma add_bias5 : forall u v f s, outs f s -> vs s 14 = u -> vs s 15 = v -> f_eq (fl s) = negb cc ->
  reach 44 bias_part5 0 s (fun pc s' => pc = 44%nat /\ outs (biased u v f) s' /\ xs s' = xs s /\ mem s' = mem s /\ keepv [0; 1; 2; 3]%nat s s').
Proof. bias_proof. Qed.

(** *** Clamping *)
Definition finish_part : list instr := firstn 134 (skipn 144 kernelf_x1).
Definition clamped (f : nat -> nat -> list Z) (h c : nat) : list Z :=
  vop_val Fmin (vop_val Fmax (f h c) (of_lanes 4 (repeat cmin 4))) (of_lanes 4 (repeat cmax 4)).
Definition fit (last pos : Z) : Z := if last - pos <=? 8 then last - pos else 8.
Definition others : list nat := [6; 7; 8; 9; 10; 11; 12; 40; 41; 42; 43; 44; 45; 46; 47; 48; 49; 50; 51]%nat.

Lemma clamp : forall D T row col rz cz f s, kmem D T (mem s) -> core s -> xs s 46 = Int rz -> xs s 47 = Int cz -> rz mod 2 ^ 32 = row -> cz mod 2 ^ 32 = col ->
  row <= lr -> col <= lc -> outs f s ->
  reach 45 finish_part 0 s (fun pc s' => pc = 45%nat /\ outs (clamped f) s' /\ xs s' 1 = Int (fit dr row) /\ xs s' 2 = Int (fit dc col) /\
    f_eq (fl s') = (fit dr row =? 8) && (fit dc col =? 8) /\ mem s' = mem s /\ keep others s s' /\ keepv [0; 1; 2; 3]%nat s s').
Proof.
  intros D T row col rz cz f s [M0 M1 M2 M3 M4 M5] [C8 C9 C10 C11 C12 C48 C49 C50 C51] X46 X47 Erow Ecol Hrow Hcol [O16 O17 O18 O19 O20 O21 O22 O23 O24 O25 O26 O27 O28 O29 O30 O31].
  assert (Hr0 : 0 <= row) by (subst row; apply Z.mod_pos_bound; lia). assert (Hc0 : 0 <= col) by (subst col; apply Z.mod_pos_bound; lia).
  begin. do 40 kstep.
  eapply k_cselw with (t := (dr - row <=? 8)) (z := if dr - row <=? 8 then dr - row else 8) (v := if dr - row <=? 8 then dr - row else 8);
    [reflexivity|look; cbn [holds f_lt f_eq]; f_equal; destruct (Z.leb_spec (dr - row) 8), (Z.ltb_spec (dr - row) 8), (Z.eqb_spec (dr - row) 8); try reflexivity; lia
    |destruct (dr - row <=? 8); reads|apply small_low; destruct (Z.leb_spec (dr - row) 8); lia|]. look.
  kstep.
  eapply k_cselw with (t := (dc - col <=? 8)) (z := if dc - col <=? 8 then dc - col else 8) (v := if dc - col <=? 8 then dc - col else 8);
    [reflexivity|look; cbn [holds f_lt f_eq]; f_equal; destruct (Z.leb_spec (dc - col) 8), (Z.ltb_spec (dc - col) 8), (Z.eqb_spec (dc - col) 8); try reflexivity; lia
    |destruct (dc - col <=? 8); reads|apply small_low; destruct (Z.leb_spec (dc - col) 8); lia|]. look.
  set (nr := if dr - row <=? 8 then dr - row else 8). set (nc := if dc - col <=? 8 then dc - col else 8).
  assert (Hnr : 0 < nr <= 8) by (subst nr; destruct (Z.leb_spec (dr - row) 8); lia). assert (Hnc : 0 < nc <= 8) by (subst nc; destruct (Z.leb_spec (dc - col) 8); lia).
  assert (Enr : fit dr row = nr) by reflexivity. assert (Enc : fit dc col = nc) by reflexivity. clearbody nr nc.
  kstep. destruct (nr =? 8) eqn:E8.
  - eapply k_ccmp; [reflexivity|look; reflexivity|reads|reads|low|low|lia|lia|]. look. finish. rewrite Enr, Enc. split; [reflexivity|].
    split; [constructor; reads|]. split; [reads|]. split; [reads|]. split; [rewrite E8; reflexivity|]. split; [reflexivity|]. split; kept_here.
  - eapply r_ccmp_not; [reflexivity|look; reflexivity|]. look. finish. rewrite Enr, Enc. split; [reflexivity|].
    split; [constructor; reads|]. split; [reads|]. split; [reads|]. split; [rewrite E8; reflexivity|]. split; [reflexivity|]. split; kept_here.
Qed.

(** *** Storing the registers *)
Definition zeros (h c : nat) : list Z := repeat 0 16.
Ltac sstep := first [kstep | step_with ltac:(first [match goal with F : forall h c, full _ |- _ => apply F end | rewrite ?put_blen; lia])].
Lemma store_all : forall m1 pb P p st g s, changed m1 pb P (mem s) -> xs s 3 = Ptr pb p -> xs s 4 = Int st -> outs g s -> (forall h c, full (g h c)) ->
  0 <= p -> 0 <= st < 2 ^ 31 -> p + st * 7 + 32 <= blen P ->
  reach 46 finish_part 54 s (fun pc s' => pc = 100%nat /\ changed m1 pb (put_cols P p st g 8) (mem s') /\ outs zeros s' /\ fl s' = fl s /\ keep (1 :: 2 :: others)%nat s s' /\ keepv [0; 1; 2; 3]%nat s s').
Proof.
  intros m1 pb P p st g s HM X3 X4 [O16 O17 O18 O19 O20 O21 O22 O23 O24 O25 O26 O27 O28 O29 O30 O31] HF Hp Hst' Hb.
  begin. do 46 sstep. finish. split; [reflexivity|].
  split; [look; match goal with H : changed m1 pb ?A ?m |- changed m1 pb ?B ?m => replace B with A; [exact H|]; cbn [put_cols]; repeat (apply put_eq; [|lia|reflexivity]); reflexivity end|].
  split; [constructor; reads|]. split; [reflexivity|]. split; kept_here.
Qed.

(** *** Copying from the temporary buffer *)

Definition loopregs : list nat := [1; 2; 8; 9; 10; 11; 12; 40; 41; 42; 43; 44; 45; 46; 47; 48; 49; 50; 51]%nat.
Lemma copy_inner : forall D T q tp nr n r s, (r + S n = nr)%nat -> (nr <= 8)%nat -> xs s 1 = Int (Z.of_nat nr) -> xs s 3 = Ptr 5 tp -> xs s 4 = Ptr 4 q -> xs s 5 = Int (Z.of_nat r) ->
  kmem (copy_col D T q tp r) T (mem s) -> 0 <= tp -> tp + 4 * Z.of_nat nr <= blen T -> 0 <= q -> q + 4 * Z.of_nat nr <= blen D ->
  reach (6 * S n) finish_part 107 s (fun pc s' => pc = 113%nat /\ kmem (copy_col D T q tp nr) T (mem s') /\ keep (3 :: 4 :: 6 :: loopregs)%nat s s' /\ vs s' = vs s).
Proof.
  intros D T q tp nr. induction n as [|n IH]; intros r s Hn Hnr X1 X3 X4 X5 [M0 M1 M2 M3 M4 M5] Htp HbT Hq HbD.
  all: assert (HS : reach 6 finish_part 107 s (fun pc s' => pc = (if (Z.of_nat r + 1 <? Z.of_nat nr)%Z then 107 else 113)%nat /\ kmem (copy_col D T q tp (S r)) T (mem s') /\ xs s' 5 = Int (Z.of_nat (S r)) /\ keep (3 :: 4 :: 6 :: loopregs)%nat s s' /\ vs s' = vs s)).
  1, 3: begin; kstep;
    (eapply m_ldr; [reflexivity|reads|eapply lsl2; [reads|lia]|lia|mem_fact|lia|lia|lia|]); cbn [xs vs fl mem];
    (eapply m_str; [reflexivity|reads|eapply lsl2; [reads|lia]|lia|reads|mem_fact|lia|rewrite copy_col_blen; lia|]); cbn [xs vs fl mem];
    kstep; kstep; (eapply reach_b with (b := (Z.of_nat r + 1 <? Z.of_nat nr)); [reflexivity|reflexivity|reflexivity|]); finish;
    (split; [reflexivity|]); (split; [|split; [reads_lia|split; [kept_here|reflexivity]]]);
    constructor; look; try assumption; f_equal; cbn [copy_col]; apply put_eq; [reflexivity|lia|]; unfold word_at; do 3 f_equal; lia.
  - eapply reach_weaken; [exact HS|lia|]. intros pc s' (-> & HM' & H5 & HK & HV).
    replace (Z.of_nat r + 1 <? Z.of_nat nr) with false by (symmetry; apply Z.ltb_ge; lia). replace (S r) with nr in HM' by lia. auto.
  - replace (6 * S (S n))%nat with (6 + 6 * S n)%nat by lia. eapply reach_trans; [exact HS|]. intros pc s' (-> & HM' & H5 & HK & HV).
    replace (Z.of_nat r + 1 <? Z.of_nat nr) with true by (symmetry; apply Z.ltb_lt; lia).
    eapply reach_weaken; [apply (IH (S r) s'); try assumption; try lia; (rewrite (keep_read _ _ _ _ HK) by (cbn; tauto); assumption)|lia|].
    intros pc s2 (-> & HM2 & HK2 & HV2). split; [reflexivity|]. split; [exact HM2|]. split; [eapply keep_trans; eassumption|congruence].
Qed.

Lemma copy_outer : forall D T dp nr nc n c s, (c + S n = nc)%nat -> (0 < nr <= 8)%nat -> (nc <= 8)%nat -> xs s 1 = Int (Z.of_nat nr) -> xs s 2 = Int (Z.of_nat nc) -> xs s 11 = Int ds ->
  xs s 3 = Ptr 5 (32 * Z.of_nat c) -> xs s 4 = Ptr 4 (dp + ds * Z.of_nat c) -> xs s 6 = Int (Z.of_nat c) ->
  kmem (copy_cols D T dp ds nr c) T (mem s) -> 256 <= blen T -> 0 <= dp -> dp + ds * Z.of_nat (nc - 1) + 4 * Z.of_nat nr <= blen D ->
  reach (56 * S n) finish_part 104 s (fun pc s' => pc = 118%nat /\ kmem (copy_cols D T dp ds nr nc) T (mem s') /\ keep loopregs s s' /\ vs s' = vs s).
Proof.
  intros D T dp nr nc. induction n as [|n IH]; intros c s Hn Hnr Hnc X1 X2 X11 X3 X4 X6 HM HbT Hq HbD.
  all: assert (HS : reach (3 + (48 + 5)) finish_part 104 s (fun pc s' => pc = (if (Z.of_nat c + 1 <? Z.of_nat nc)%Z then 104 else 118)%nat /\ kmem (copy_cols D T dp ds nr (S c)) T (mem s') /\
    xs s' 3 = Ptr 5 (32 * Z.of_nat (S c)) /\ xs s' 4 = Ptr 4 (dp + ds * Z.of_nat (S c)) /\ xs s' 6 = Int (Z.of_nat (S c)) /\ keep loopregs s s' /\ vs s' = vs s)).
  1, 3: eapply reach_trans with (P := fun pc s' => pc = 107%nat /\ xs s' 5 = Int (Z.of_nat 0) /\ mem s' = mem s /\ keep (3 :: 4 :: 6 :: loopregs)%nat s s' /\ vs s' = vs s);
    [begin; do 3 kstep; finish; (split; [reflexivity|]); (split; [reads|]); (split; [reflexivity|]); (split; [unfold keep, loopregs; kept_here|reflexivity])|];
    intros pc s1 (-> & Y5 & YM & YK & YV);
    assert (Hdsc : ds * Z.of_nat c <= ds * Z.of_nat (nc - 1)) by (apply Z.mul_le_mono_nonneg_l; lia);
    (eapply reach_trans; [eapply reach_weaken with (n := (6 * S (nr - 1))%nat);
       [apply (copy_inner (copy_cols D T dp ds nr c) T (dp + ds * Z.of_nat c) (32 * Z.of_nat c) nr (nr - 1) 0 s1); try lia;
         [rewrite (keep_read _ _ _ _ YK) by (cbn; tauto); assumption..|exact Y5|rewrite YM; exact HM|rewrite copy_cols_blen; lia]|lia|intros pc s' H; exact H]|]);
    intros pc s2 (-> & [M0 M1 M2 M3 M4 M5] & ZK & ZV);
    assert (A : keep (3 :: 4 :: 6 :: loopregs)%nat s s2) by (eapply keep_trans; eassumption);
    assert (A1 : xs s2 2 = Int (Z.of_nat nc)) by (rewrite (keep_read _ _ _ _ A) by (cbn; tauto); exact X2);
    assert (A11 : xs s2 11 = Int ds) by (rewrite (keep_read _ _ _ _ A) by (cbn; tauto); exact X11);
    assert (A3 : xs s2 3 = Ptr 5 (32 * Z.of_nat c)) by (rewrite (keep_read _ _ _ _ A) by (cbn; tauto); exact X3);
    assert (A4 : xs s2 4 = Ptr 4 (dp + ds * Z.of_nat c)) by (rewrite (keep_read _ _ _ _ A) by (cbn; tauto); exact X4);
    assert (A6 : xs s2 6 = Int (Z.of_nat c)) by (rewrite (keep_read _ _ _ _ A) by (cbn; tauto); exact X6);
    begin; do 4 kstep; (eapply reach_b with (b := (Z.of_nat c + 1 <? Z.of_nat nc)); [reflexivity|reflexivity|reflexivity|]); finish;
    (split; [reflexivity|]); (split; [constructor; look; assumption|]); (split; [reads_lia|]); (split; [look; f_equal; lia|]); (split; [reads_lia|]);
    (split; [apply (keep_trans _ _ s2); [unfold keep in *; do 3 apply Forall_inv_tail in A; exact A|kept_here]|cbn [vs]; congruence]).
  - eapply reach_weaken; [exact HS|lia|]. intros pc s' (-> & HM' & H3 & H4 & H6 & HK & HV).
    replace (Z.of_nat c + 1 <? Z.of_nat nc) with false by (symmetry; apply Z.ltb_ge; lia). replace (S c) with nc in HM' by lia. auto.
  - replace (56 * S (S n))%nat with (56 + 56 * S n)%nat by lia. eapply reach_trans; [exact HS|]. intros pc s' (-> & HM' & H3 & H4 & H6 & HK & HV).
    replace (Z.of_nat c + 1 <? Z.of_nat nc) with true by (symmetry; apply Z.ltb_lt; lia).
    eapply reach_weaken; [apply (IH (S c) s'); try assumption; try lia; (rewrite (keep_read _ _ _ _ HK) by (cbn; tauto); assumption)|lia|].
    intros pc s2 (-> & HM2 & HK2 & HV2). split; [reflexivity|]. split; [exact HM2|]. split; [eapply keep_trans; eassumption|congruence].
Qed.

(** *** To the next block *)
Record stepped (row col ip dp : Z) (cz : Z) (s s' : state) : Prop := {
  t_5 : xs s' 5 = Ptr 1 lo; t_6 : xs s' 6 = Int sr; t_7 : xs s' 7 = Int lr;
  t_44 : xs s' 44 = Ptr 4 (if row =? lr then dp + ds * 8 else dp); t_45 : xs s' 45 = Ptr 4 (if row =? lr then dp + ds * 8 else ip + 32);
  t_46 : xs s' 46 = Int (if row =? lr then sr else row + 8); t_47 : xs s' 47 = Int (if row =? lr then col + 8 else cz);
  t_flag : holds LE (fl s') = Ok ((if row =? lr then col + 8 else col) <=? lc); t_mem : mem s' = mem s; t_vs : vs s' = vs s;
  t_keep : keep [8; 9; 10; 11; 12; 40; 41; 42; 43; 48; 49; 50; 51]%nat s s' }.
Lemma to_next : forall D T row col rz cz dp ip s, kmem D T (mem s) -> core s -> xs s 44 = Ptr 4 dp -> xs s 45 = Ptr 4 ip -> xs s 46 = Int rz -> xs s 47 = Int cz ->
  rz mod 2 ^ 32 = row -> cz mod 2 ^ 32 = col -> row <= lr -> col <= lc ->
  reach 16 finish_part 118 s (fun pc s' => pc = 134%nat /\ stepped row col ip dp cz s s').
Proof.
  intros D T row col rz cz dp ip s [M0 M1 M2 M3 M4 M5] [C8 C9 C10 C11 C12 C48 C49 C50 C51] X44 X45 X46 X47 Erow Ecol Hrow Hcol.
  assert (Hr0 : 0 <= row) by (subst row; apply Z.mod_pos_bound; lia). assert (Hc0 : 0 <= col) by (subst col; apply Z.mod_pos_bound; lia).
  begin. do 6 kstep. eapply reach_b with (b := (row =? lr)); [reflexivity|reflexivity|reflexivity|]. destruct (row =? lr) eqn:Er.
  - do 7 kstep. finish. split; [reflexivity|]. constructor; rewrite ?Er; try reads; try reflexivity; [cbn [holds fl f_lt f_eq]; rewrite le_flag; reflexivity|kept_here].
  - kstep. eapply reach_b with (b := true); [reflexivity|reflexivity|reflexivity|]. kstep. kstep. finish.
    split; [reflexivity|]. constructor; rewrite ?Er; try reads; try reflexivity; [cbn [holds fl f_lt f_eq]; rewrite le_flag; reflexivity|kept_here].
Qed.
End Tail.
