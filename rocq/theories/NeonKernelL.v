(** The float kernels for AArch64: all blocks. *)
From Coq Require Import ZArith List Bool Lia SpecFloat.
From Verif Require Import Base Mat Simd SimdFacts FloatWords FloatWordsFacts Neon64 NeonRun NeonTac NeonCols NeonPackMath NeonKTac NeonKernelCode NeonKernelF NeonKernelT NeonKernelM NeonKernelB NeonKernelW.
Import ListNotations.
Open Scope Z_scope.

Lemma drawn_shift : forall o w o' w' (P P' : Z -> Z -> Prop) a b D D', (forall r c, P r c -> o r c = o' (a + r) (b + c) /\ w r c = w' (a + r) (b + c)) ->
  (forall r c, P' r c <-> P (r - a) (c - b)) -> drawn o w P D D' -> drawn o' w' P' D D'.
Proof.
  intros o w o' w' P P' a b D D' H HP [H1 H2 H3]. constructor; [exact H1| |].
  - intros r c e HP' He. apply HP in HP'. destruct (H _ _ HP') as [E1 E2]. replace (a + (r - a)) with r in * by lia. replace (b + (c - b)) with c in * by lia.
    rewrite <- E1, <- E2. apply H2; assumption.
  - intros x Hx. apply H3. intros r c Hrc. destruct (H _ _ Hrc) as [E1 _]. rewrite E1. apply Hx. apply HP. replace (a + r - a) with r by lia. replace (b + c - b) with c by lia. exact Hrc.
Qed.

Lemma abs_mul_ge : forall d x, 0 <= d -> x <> 0 -> d <= Z.abs (d * x).
Proof. intros d x Hd Hx. rewrite Z.abs_mul. nia. Qed.
Lemma mul_next : forall s i n, 0 <= s -> 0 <= i < n -> 0 <= 8 * s * i /\ 8 * s * i + 8 * s <= 8 * s * n.
Proof. intros. nia. Qed.
Lemma mul_next2 : forall s i n, 0 <= s -> 0 <= i -> i + 1 < n -> 8 * s * i + 8 * s + 8 * s <= 8 * s * n.
Proof. intros. nia. Qed.
Lemma last_block : forall i j r c m, 0 <= i < r -> 0 <= j < c -> (c - j) * r - i = Z.of_nat (S m) -> (m = 0%nat -> i = r - 1 /\ j = c - 1) /\ (i = r - 1 -> m <> 0%nat -> j < c - 1 /\ (c - (j + 1)) * r - 0 = Z.of_nat m).
Proof. intros i j r c m Hi Hj H. split; intros; [subst m; cbn in H; nia|]. split; nia. Qed.

Section Loop.
Variables (L R Bi : buf Z) (lo ro dof bo sr sc lr lc dr dc ls rs ds K cmin cmax : Z) (hb cc : bool) (drz dcz : Z).
Hypothesis Hlr : 0 <= sr <= lr /\ lr < dr /\ dr < 2 ^ 31 /\ lr + 8 < 2 ^ 31.
Hypothesis Hlc : 0 <= sc <= lc /\ lc < dc /\ dc < 2 ^ 31 /\ lc + 8 < 2 ^ 31.
Hypothesis Hst : 0 <= ls < 2 ^ 31 /\ 0 <= rs < 2 ^ 31 /\ 0 <= ds < 2 ^ 31.
Hypothesis Hdr : drz mod 2 ^ 32 = dr.
Hypothesis Hdc : dcz mod 2 ^ 32 = dc.
Variables (code : list instr) (a b n : nat) (c1 : Z) (l1 l2 : list nat) (bpart : list instr).
Hypothesis HK : 1 <= K < 2 ^ 31.
Notation kmem := (kmem L R Bi lo ro dof bo sr sc lr lc dr dc ls rs ds K cmin cmax hb cc).
Notation core := (core lc ls rs ds K drz dcz).
Hypothesis Hsums : forall lp rp, 0 <= lp /\ lp + 32 * K <= blen L -> 0 <= rp /\ rp + 32 * K <= blen R -> sums L R lp rp K code a b n c1 l1 l2.
Hypothesis Hadvance : part_at code advance_part b.
Hypothesis Hbias : part_at code bpart (b + 26).
Hypothesis Hfinish : part_at code finish_part (b + 70).
Hypothesis Hbpart : forall u v f s, outs f s -> vs s 14 = u -> vs s 15 = v -> f_eq (fl s) = negb cc ->
  reach 44 bpart 0 s (fun pc s' => pc = 44%nat /\ outs (biased cc u v f) s' /\ xs s' = xs s /\ mem s' = mem s /\ keepv [0; 1; 2; 3]%nat s s').
Hypothesis Hloop : forall s t, core s -> holds LE (fl s) = Ok t ->
  reach 2 code (b + 204) s (fun pc s' => pc = (if t then a else b + 206)%nat /\ xs s' 1 = Int c1 /\ mem s' = mem s /\ vs s' = vs s /\ keep (5 :: 6 :: 7 :: rest)%nat s s').

(** Blocks of rows and of columns. *)
Variables (nbr nbc : Z).
Hypothesis Hnr : 1 <= nbr /\ lr = sr + 8 * (nbr - 1).
Hypothesis Hnc : 1 <= nbc /\ lc = sc + 8 * (nbc - 1).
Hypothesis HL : 0 <= lo /\ 4 * K <= ls /\ lo + 8 * ls * nbr <= blen L.
Hypothesis HR : 0 <= ro /\ 4 * K <= rs /\ ro + 8 * rs * nbc <= blen R.
Hypothesis HBi : 0 <= bo /\ bo + (if hb then 4 * (if cc then sc + 8 * nbc else sr + 8 * nbr) else 32) <= blen Bi.
Hypothesis HByte : forall i, 0 <= bdat Bi i < 256.
Hypothesis Hcl : 0 <= cmin < 2 ^ 32 /\ 0 <= cmax < 2 ^ 32.
Let NR := Z.min (8 * nbr) (dr - sr).
Let NC := Z.min (8 * nbc) (dc - sc).
Hypothesis Hds : 4 * NR <= ds.
Variable D0 : buf Z.
Hypothesis HD : 0 <= dof /\ dof + ds * (NC - 1) + 4 * NR <= blen D0.

(** Entries are numbered from the first of the kernel's. *)
Definition out_off (r c : Z) : Z := dof + ds * c + 4 * r.
Definition out_value (r c : Z) : spec_float :=
  lane_out L R Bi bo cmin cmax hb cc (sr + 8 * (r / 8)) (sc + 8 * (c / 8)) (lo + 8 * ls * (r / 8)) (ro + 8 * rs * (c / 8)) (r mod 8) (c mod 8) (levels_at l1 l2 (r mod 8) (c mod 8)).
Definition out_word (r c : Z) : Z := word_of_float (out_value r c).
Definition region (r c : Z) : Prop := 0 <= r < NR /\ 0 <= c < NC.
Definition done (i j r c : Z) : Prop := region r c /\ (c < 8 * j \/ (c < 8 * j + 8 /\ r < 8 * i)).

Definition at_ij (i j : Z) (s : state) : Prop := exists D, drawn out_off out_word (done i j) D0 D /\
  at_block L R Bi lo ro dof bo sr sc lr lc dr dc ls rs ds K cmin cmax hb cc drz dcz c1 D (sr + 8 * i) (sc + 8 * j) (lo + 8 * ls * i) (ro + 8 * rs * j) (dof + 8 * ds * j + 32 * i) (dof + 8 * ds * j) s.

Lemma apart : forall r c r' c', region r c -> region r' c' -> (r, c) <> (r', c') -> 4 <= Z.abs (out_off r c - out_off r' c').
Proof.
  intros r c r' c' [H1 H2] [H3 H4] Hne. unfold out_off. destruct (Z.eq_dec c c') as [->|Hc].
  - assert (r <> r') by congruence. lia.
  - replace (dof + ds * c + 4 * r - (dof + ds * c' + 4 * r')) with (ds * (c - c') + 4 * (r - r')) by ring.
    assert (ds <= Z.abs (ds * (c - c'))) by (apply abs_mul_ge; lia). lia.
Qed.
Lemma done_dec : forall i j r c, done i j r c \/ ~ done i j r c.
Proof. intros i j r c. unfold done, region. lia. Qed.

Lemma block_draws : forall i j D T, 0 <= i < nbr -> 0 <= j < nbc -> drawn out_off out_word (done i j) D0 D ->
  drawn out_off out_word (done (i + 1) j) D0
    (block_out D T (dof + 8 * ds * j + 32 * i) ds (result L R Bi bo cmin cmax hb cc l1 l2 (sr + 8 * i) (sc + 8 * j) (lo + 8 * ls * i) (ro + 8 * rs * j)) (fit dr (sr + 8 * i)) (fit dc (sc + 8 * j))).
Proof.
  intros i j D T Hi Hj HW. pose proof (fit_range dr (sr + 8 * i) ltac:(lia)) as Fr. pose proof (fit_range dc (sc + 8 * j) ltac:(lia)) as Fc.
  assert (ER : 8 * i + fit dr (sr + 8 * i) <= NR /\ (fit dr (sr + 8 * i) = 8 \/ 8 * i + fit dr (sr + 8 * i) = dr - sr)) by (unfold NR, fit; destruct (Z.leb_spec (dr - (sr + 8 * i)) 8); lia).
  assert (EC : 8 * j + fit dc (sc + 8 * j) <= NC /\ (fit dc (sc + 8 * j) = 8 \/ 8 * j + fit dc (sc + 8 * j) = dc - sc)) by (unfold NC, fit; destruct (Z.leb_spec (dc - (sc + 8 * j)) 8); lia).
  set (nr := fit dr (sr + 8 * i)) in *. set (nc := fit dc (sc + 8 * j)) in *. clearbody nr nc.
  rewrite (block_out_ext _ _ _ _ _ _ _ _ (fun h c Hh Hc => result_words L R Bi bo cmin cmax hb cc l1 l2 HByte (sr + 8 * i) (sc + 8 * j) (lo + 8 * ls * i) (ro + 8 * rs * j) h c (proj1 Hcl) (proj2 Hcl) Hh Hc)).
  pose proof (block_drawn D T (dof + 8 * ds * j + 32 * i) ds (fun r c => word_of_float (lane_out L R Bi bo cmin cmax hb cc (sr + 8 * i) (sc + 8 * j) (lo + 8 * ls * i) (ro + 8 * rs * j) r c (levels_at l1 l2 r c))) nr nc Fr Fc ltac:(lia)) as BD.
  apply (drawn_shift _ _ out_off out_word _ (fun r c => 8 * i <= r < 8 * i + nr /\ 8 * j <= c < 8 * j + nc) (8 * i) (8 * j)) in BD.
  - eapply drawn_iff; [|eapply drawn_app; [| |exact HW|exact BD]].
    + intros r c. unfold done, region. split; [intros [H|H]; lia|]. intros (H1 & H2).
      destruct (Z_lt_dec c (8 * j)); [left; lia|]. destruct (Z_lt_dec r (8 * i)); [left; lia|]. right. unfold NR, NC in *. lia.
    + intros r c r' c' [H1 _] H2 Hne. apply apart; [exact H1|unfold region; lia|exact Hne].
    + intros r c. cbv beta; lia.
  - intros r c [Hr Hc]. split; [unfold out_off; ring|]. unfold out_word, out_value.
    assert (Er : (8 * i + r) / 8 = i) by (symmetry; apply (Z.div_unique _ 8 i r); lia). assert (Er' : (8 * i + r) mod 8 = r) by (symmetry; apply (Z.mod_unique _ 8 i r); lia).
    assert (Ec : (8 * j + c) / 8 = j) by (symmetry; apply (Z.div_unique _ 8 j c); lia). assert (Ec' : (8 * j + c) mod 8 = c) by (symmetry; apply (Z.mod_unique _ 8 j c); lia).
    rewrite Er, Er', Ec, Ec'. reflexivity.
  - intros r c. cbv beta. lia.
Qed.

Lemma loop : forall m i j s, 0 <= i < nbr -> 0 <= j < nbc -> (nbc - j) * nbr - i = Z.of_nat (S m) -> at_ij i j s ->
  reach ((n + 640) * S m) code a s (fun pc s' => pc = (b + 206)%nat /\ exists D T, kmem D T (mem s') /\ drawn out_off out_word region D0 D).
Proof.
  induction m as [|m IH]; intros i j s Hi Hj Hm (D & HW & HB).
  all: pose proof (fit_range dr (sr + 8 * i) ltac:(lia)) as Fr; pose proof (fit_range dc (sc + 8 * j) ltac:(lia)) as Fc;
    assert (ER : 8 * i + fit dr (sr + 8 * i) <= NR) by (unfold NR, fit; destruct (Z.leb_spec (dr - (sr + 8 * i)) 8); lia);
    assert (EC : 8 * j + fit dc (sc + 8 * j) <= NC) by (unfold NC, fit; destruct (Z.leb_spec (dc - (sc + 8 * j)) 8); lia);
    pose proof (mul_next ls i nbr ltac:(lia) Hi) as PL; pose proof (mul_next rs j nbc ltac:(lia) Hj) as PR; pose proof (mul_next ds j nbc ltac:(lia) Hj) as P1; destruct (last_block _ _ _ _ _ Hi Hj Hm) as [LB1 LB2];
    assert (PD : ds * (8 * j + fit dc (sc + 8 * j) - 1) <= ds * (NC - 1)) by (apply Z.mul_le_mono_nonneg_l; lia);
    assert (BO := one_block L R Bi lo ro dof bo sr sc lr lc dr dc ls rs ds K cmin cmax hb cc drz dcz Hlr Hlc Hst Hdr Hdc code a b n c1 l1 l2 bpart Hsums Hadvance Hbias Hfinish Hbpart Hloop
      D _ _ _ _ _ _ s HB ltac:(lia) ltac:(lia) ltac:(lia) ltac:(lia)).
  all: assert (BO2 := BO ltac:(unfold next_lhs; destruct (Z.ltb_spec (sr + 8 * i) lr); [pose proof (mul_next2 ls i nbr); lia|lia]) ltac:(unfold next_rhs; destruct (Z.ltb_spec (sr + 8 * i) lr); [lia|]; destruct (Z.ltb_spec (sc + 8 * j) lc); [pose proof (mul_next2 rs j nbc); lia|lia])); clear BO;
    assert (BO3 := BO2 ltac:(unfold bias_of, bias_at; destruct hb, cc; lia) ltac:(lia) ltac:(rewrite (dn_len _ _ _ _ _ HW); lia)); clear BO2.
  - replace ((n + 640) * 1)%nat with (n + 640)%nat by lia. destruct (LB1 eq_refl) as [Ei Ej].
    eapply reach_weaken; [exact BO3|lia|]. intros pc s' (-> & T & HB'). unfold next_col in *.
    replace (sr + 8 * i =? lr) with true in * by (symmetry; apply Z.eqb_eq; lia).
    replace (sc + 8 * j + 8 <=? lc) with false by (symmetry; apply Z.leb_gt; lia). split; [reflexivity|].
    destruct (b_mem _ _ _ _ _ _ _ _ _ _ _ _ _ _ _ _ _ _ _ _ _ _ _ _ _ _ _ _ _ _ _ _ HB') as (T' & _ & KM). eexists. exists T'. split; [exact KM|].
    eapply drawn_iff; [|apply (block_draws i j D T Hi Hj HW)]. intros r c. unfold done, region, NR, NC. lia.
  - replace ((n + 640) * S (S m))%nat with (n + 640 + (n + 640) * S m)%nat by lia. eapply reach_trans; [exact BO3|].
    intros pc s' (-> & T & HB'). unfold next_col, next_lhs, next_rhs in *. pose proof (block_draws i j D T Hi Hj HW) as BD.
    destruct (Z.eqb_spec (sr + 8 * i) lr) as [E|E].
    + assert (Ei : i = nbr - 1) by lia. destruct (LB2 Ei ltac:(lia)) as [Hj1 Hm1].
      replace (sc + 8 * j + 8 <=? lc) with true by (symmetry; apply Z.leb_le; lia). apply (IH 0 (j + 1) s'); [lia|lia|exact Hm1|].
      eexists. split; [eapply drawn_iff; [|exact BD]; intros r c; unfold done, region, NR, NC; lia|].
      replace (sr + 8 * i <? lr) with false in HB' by (symmetry; apply Z.ltb_ge; lia). replace (sc + 8 * j <? lc) with true in HB' by (symmetry; apply Z.ltb_lt; lia).
      replace (sr + 8 * 0) with sr by lia. replace (lo + 8 * ls * 0) with lo by lia. replace (sc + 8 * (j + 1)) with (sc + 8 * j + 8) by lia.
      replace (ro + 8 * rs * (j + 1)) with (ro + 8 * rs * j + rs * 8) by lia. replace (dof + 8 * ds * (j + 1) + 32 * 0) with (dof + 8 * ds * j + ds * 8) by lia.
      replace (dof + 8 * ds * (j + 1)) with (dof + 8 * ds * j + ds * 8) by lia. exact HB'.
    + replace (sc + 8 * j <=? lc) with true by (symmetry; apply Z.leb_le; lia). apply (IH (i + 1) j s'); [lia|lia|lia|].
      eexists. split; [exact BD|]. replace (sr + 8 * i <? lr) with true in HB' by (symmetry; apply Z.ltb_lt; lia).
      replace (sr + 8 * (i + 1)) with (sr + 8 * i + 8) by lia. replace (lo + 8 * ls * (i + 1)) with (lo + 8 * ls * i + ls * 8) by lia.
      replace (dof + 8 * ds * j + 32 * (i + 1)) with (dof + 8 * ds * j + 32 * i + 32) by lia. exact HB'.
Qed.
End Loop.
