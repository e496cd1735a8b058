(** Kernel8bitNeonDotprodX1 and Kernel8bitNeonDotprod (kernel_arm64.cc:4414-5667, 2987-4412): all blocks. *)
From Coq Require Import ZArith List Bool Lia Permutation.
From Verif Require Import Base Mat Simd SimdFacts SpecSimd Kernel8bitFacts RequantProps Neon64 NeonRun NeonTac NeonCols NeonPack NeonKTac NeonKernelF NeonKernelT NeonKernel8Code Neon8Lanes Neon8Tac NeonKernelB NeonKernelL Neon8Col Neon8Blk Neon8Dot Neon8DotStore Neon8DotBlock.
Import ListNotations.
Open Scope Z_scope.

(** The bytes of the elements [w r c] for [P r c], element (r, c) of [sz] bytes at [o r c], replace those of [D0]. *)
Record drawn8 (sz : nat) (o w : Z -> Z -> Z) (P : Z -> Z -> Prop) (D0 D : buf Z) : Prop := {
  dz_len : blen D = blen D0;
  dz_in : forall r c b, P r c -> (b < sz)%nat -> bdat D (o r c + Z.of_nat b) = nth b (bytes_of sz (w r c)) 0;
  dz_out : forall x, (forall r c, P r c -> ~ 0 <= x - o r c < Z.of_nat sz) -> bdat D x = bdat D0 x }.
Lemma drawn8_none : forall sz o w P D, (forall r c, ~ P r c) -> drawn8 sz o w P D D.
Proof. intros sz o w P D H. constructor; [reflexivity|intros r c b HP; destruct (H r c HP)|reflexivity]. Qed.
Lemma drawn8_iff : forall sz o w (P P' : Z -> Z -> Prop) D0 D, (forall r c, P r c <-> P' r c) -> drawn8 sz o w P D0 D -> drawn8 sz o w P' D0 D.
Proof.
  intros sz o w P P' D0 D H [H1 H2 H3]. constructor; [exact H1|intros r c b HP; apply H2, H, HP|].
  intros x Hx. apply H3. intros r c HP. apply Hx, H, HP.
Qed.
Lemma drawn8_app : forall sz o w (P B : Z -> Z -> Prop) D0 D1 D2, (forall r c r' c', P r c -> B r' c' -> (r, c) <> (r', c') -> Z.of_nat sz <= Z.abs (o r c - o r' c')) ->
  (forall r c, B r c \/ ~ B r c) -> drawn8 sz o w P D0 D1 -> drawn8 sz o w B D1 D2 -> drawn8 sz o w (fun r c => P r c \/ B r c) D0 D2.
Proof.
  intros sz o w P B D0 D1 D2 Hn Hd [A1 A2 A3] [B1 B2 B3]. constructor; [congruence| |].
  - intros r c b HP Hb. destruct (Hd r c) as [HB|HB]; [apply B2; assumption|]. destruct HP as [HP|HP]; [|contradiction].
    rewrite B3; [apply A2; assumption|]. intros r' c' HB'. assert (Hne : (r, c) <> (r', c')) by congruence. pose proof (Hn r c r' c' HP HB' Hne). lia.
  - intros x Hx. rewrite B3 by (intros; apply Hx; tauto). apply A3. intros; apply Hx; tauto.
Qed.
Lemma drawn8_shift : forall sz o w o' w' (P P' : Z -> Z -> Prop) a b D D', (forall r c, P r c -> o r c = o' (a + r) (b + c) /\ w r c = w' (a + r) (b + c)) ->
  (forall r c, P' r c <-> P (r - a) (c - b)) -> drawn8 sz o w P D D' -> drawn8 sz o' w' P' D D'.
Proof.
  intros sz o w o' w' P P' a b D D' H HP [H1 H2 H3]. constructor; [exact H1| |].
  - intros r c e HP' He. apply HP in HP'. destruct (H _ _ HP') as [E1 E2]. replace (a + (r - a)) with r in * by lia. replace (b + (c - b)) with c in * by lia.
    rewrite <- E1, <- E2. apply H2; assumption.
  - intros x Hx. apply H3. intros r c Hrc. destruct (H _ _ Hrc) as [E1 _]. rewrite E1. apply Hx. apply HP. replace (a + r - a) with r by lia. replace (b + c - b) with c by lia. exact Hrc.
Qed.
Lemma lane_byte8 : forall n f r e, (n = 1 \/ n = 2 \/ n = 4)%nat -> (r < 8)%nat -> (e < n)%nat -> nth (n * r + e) (lv n 8 f) 0 = nth e (bytes_of n (f r)) 0.
Proof.
  intros n f r e W Hr He. unfold lv, of_lanes.
  do 8 (destruct r as [|r]; [destruct W as [-> | [-> | ->]]; (do 4 (destruct e as [|e]; [try reflexivity; lia|]); lia)|]). lia.
Qed.
Lemma cols_drawn8 : forall sz f ip ds nr nc D D', (sz = 1 \/ sz = 2 \/ sz = 4)%nat -> 0 < nr <= 8 -> 0 < nc <= 8 -> cols ip ds (Z.of_nat sz * nr) (Z.to_nat nc) (fun c => lv sz 8 (fun i => f i c)) D D' ->
  drawn8 sz (fun r c => ip + ds * c + Z.of_nat sz * r) (fun r c => f (Z.to_nat r) (Z.to_nat c)) (fun r c => 0 <= r < nr /\ 0 <= c < nc) D D'.
Proof.
  intros sz f ip ds nr nc D D' W Hr Hc [C1 C2 C3]. assert (Hs : 1 <= Z.of_nat sz <= 4) by lia. constructor; [exact C1| |].
  - intros r c b [HR HC] Hb. pose proof (C2 (Z.to_nat c) (Z.of_nat sz * r + Z.of_nat b) ltac:(lia) ltac:(nia)) as E. rewrite Z2Nat.id in E by lia.
    replace (ip + ds * c + Z.of_nat sz * r + Z.of_nat b) with (ip + ds * c + (Z.of_nat sz * r + Z.of_nat b)) by lia. rewrite E.
    replace (Z.to_nat (Z.of_nat sz * r + Z.of_nat b)) with (sz * Z.to_nat r + b)%nat by nia. apply (lane_byte8 sz (fun i => f i (Z.to_nat c))); [exact W|lia|exact Hb].
  - intros x Hx. apply C3. intros c HC Hbad. set (y := x - (ip + ds * Z.of_nat c)) in *.
    apply (Hx (y / Z.of_nat sz) (Z.of_nat c)).
    + split; [|lia]. split; [apply Z.div_pos; lia|apply Z.div_lt_upper_bound; lia].
    + pose proof (Z.div_mod y (Z.of_nat sz) ltac:(lia)). pose proof (Z.mod_pos_bound y (Z.of_nat sz) ltac:(lia)). unfold y in *. lia.
Qed.

Section Loop.
Variables (Lb Rb Bi SL SR Mu Ex : buf Z) (lo ro dof lzw rzw dzp pzw sr sc lr lc dr dc ls rs ds K cmin cmax : Z) (hb hls hrs hpc cc : bool) (drz dcz ty tyz : Z).
Hypothesis Hlr : 0 <= sr <= lr /\ lr < dr /\ dr < 2 ^ 31 /\ lr + 8 < 2 ^ 31.
Hypothesis Hlc : 0 <= sc <= lc /\ lc < dc /\ dc < 2 ^ 31 /\ lc + 8 < 2 ^ 31.
Hypothesis Hst : 0 <= ls < 2 ^ 31 /\ 0 <= rs < 2 ^ 31 /\ 0 <= ds < 2 ^ 31.
Hypothesis Hdr : drz mod 2 ^ 32 = dr.
Hypothesis Hdc : dcz mod 2 ^ 32 = dc.
Hypothesis Hty : tyz mod 2 ^ 32 = ty.
Hypothesis Hty4 : 1 <= ty <= 4.
Notation kmem8 := (kmem8 Lb Rb Bi SL SR Mu Ex lo ro dof lzw rzw dzp pzw sr sc lr lc dr dc ls rs ds K cmin cmax hb hls hrs hpc cc).
Notation raw := (raw hls ty).
Notation size8 := (size8 hls ty).
Hypothesis Ht : typed8 dzp cmin cmax hls ty.
Notation atd := (atd Lb Rb Bi SL SR Mu Ex lo ro dof lzw rzw dzp pzw sr sc lr lc dr dc ls rs ds K cmin cmax hb hls hrs hpc cc drz dcz tyz).
Variables (code : list instr) (a b n nf : nat).
Hypothesis HK : 4 * Z.of_nat n = K /\ 4 <= K.
Hypothesis Htail : part_at code tail8 b.
Hypothesis Hsums : forall lp rp, 0 <= lp /\ lp + 8 * K <= blen Lb -> 0 <= rp /\ rp + 8 * K <= blen Rb -> products Lb Rb K code a b n nf lp rp.
Hypothesis Hloop : forall s t, holds LE (fl s) = Ok t -> reach 1 code (b + 821) s (fun pc s' => pc = (if t then a else b + 822)%nat /\ s' = s).

(** Blocks of rows and of columns. *)
Variables (nbr nbc : Z).
Hypothesis Hnr : 1 <= nbr /\ lr = sr + 8 * (nbr - 1).
Hypothesis Hnc : 1 <= nbc /\ lc = sc + 8 * (nbc - 1).
Hypothesis HL : 0 <= lo /\ K <= ls /\ lo + 8 * ls * nbr <= blen Lb.
Hypothesis HR : 0 <= ro /\ K <= rs /\ ro + 8 * rs * nbc <= blen Rb.
Hypothesis HBi : (if hb then (if cc then sc + 8 * nbc else sr + 8 * nbr) else 8) <= blen Bi.
Hypothesis HSR : hrs = true -> sc + 8 * nbc <= blen SR.
Hypothesis HSL : hls = true -> sr + 8 * nbr <= blen SL.
Definition channels : Z := if hpc then (if cc then sc + 8 * nbc else sr + 8 * nbr) else 8.
Hypothesis HMu : channels <= blen Mu.
Hypothesis HEx : channels <= blen Ex.
Hypothesis HQ : raw = false -> forall r, 0 <= r < channels -> fixed_point (bdat Mu r) /\ exponent (bdat Ex r).
Let NR := Z.min (8 * nbr) (dr - sr).
Let NC := Z.min (8 * nbc) (dc - sc).
Hypothesis Hds : Z.of_nat size8 * NR <= ds.
Variable D0 : buf Z.
Hypothesis HD : 0 <= dof /\ dof + ds * (NC - 1) + Z.of_nat size8 * NR <= blen D0.

(** Entries are numbered from the first of the kernel's. *)
Definition out_off8 (r c : Z) : Z := dof + ds * c + Z.of_nat size8 * r.
Definition out_value8 (r c : Z) : Z :=
  valued Lb Rb Bi SL SR Mu Ex lzw rzw dzp pzw cmin cmax hb hls hrs hpc cc ty n (sr + 8 * (r / 8)) (sc + 8 * (c / 8)) (lo + 8 * ls * (r / 8)) (ro + 8 * rs * (c / 8)) (Z.to_nat (r mod 8)) (Z.to_nat (c mod 8)).
Definition region8 (r c : Z) : Prop := 0 <= r < NR /\ 0 <= c < NC.
Definition done8s (i j r c : Z) : Prop := region8 r c /\ (c < 8 * j \/ (c < 8 * j + 8 /\ r < 8 * i)).
Definition at_ij8 (i j : Z) (s : state) : Prop := exists D, drawn8 size8 out_off8 out_value8 (done8s i j) D0 D /\
  atd D (sr + 8 * i) (sc + 8 * j) (lo + 8 * ls * i) (ro + 8 * rs * j) (dof + 8 * ds * j + 8 * Z.of_nat size8 * i) (dof + 8 * ds * j) s.

Lemma size8_ok : (size8 = 1 \/ size8 = 2 \/ size8 = 4)%nat.
Proof. unfold Neon8Col.size8. destruct raw; [auto|]. destruct (ty =? 3); auto. Qed.
Lemma apart8 : forall r c r' c', region8 r c -> region8 r' c' -> (r, c) <> (r', c') -> Z.of_nat size8 <= Z.abs (out_off8 r c - out_off8 r' c').
Proof.
  intros r c r' c' [H1 H2] [H3 H4] Hne. unfold out_off8. pose proof size8_ok as Hs. set (z := Z.of_nat size8) in *. assert (Hz : 1 <= z <= 4) by lia. clearbody z. clear Hs. destruct (Z.eq_dec c c') as [->|Hc].
  - assert (r <> r') by congruence. replace (dof + ds * c' + z * r - (dof + ds * c' + z * r')) with (z * (r - r')) by ring. apply abs_mul_ge; lia.
  - replace (dof + ds * c + z * r - (dof + ds * c' + z * r')) with (ds * (c - c') + z * (r - r')) by ring.
    assert (ds <= Z.abs (ds * (c - c'))) by (apply abs_mul_ge; lia). assert (Z.abs (z * (r - r')) <= z * (NR - 1)) by (rewrite Z.abs_mul; apply (Z.mul_le_mono_nonneg (Z.abs z) z); lia). rewrite Z.mul_sub_distr_l in *. lia.
Qed.

Lemma block_draws8 : forall i j D D', 0 <= i < nbr -> 0 <= j < nbc -> drawn8 size8 out_off8 out_value8 (done8s i j) D0 D ->
  cols (dof + 8 * ds * j + 8 * Z.of_nat size8 * i) ds (Z.of_nat size8 * fit dr (sr + 8 * i)) (Z.to_nat (fit dc (sc + 8 * j)))
    (outd Lb Rb Bi SL SR Mu Ex lzw rzw dzp pzw cmin cmax hb hls hrs hpc cc ty n (sr + 8 * i) (sc + 8 * j) (lo + 8 * ls * i) (ro + 8 * rs * j)) D D' ->
  drawn8 size8 out_off8 out_value8 (done8s (i + 1) j) D0 D'.
Proof.
  intros i j D D' Hi Hj HW HCo. pose proof (NeonKernelB.fit_range dr (sr + 8 * i) ltac:(lia)) as Fr. pose proof (NeonKernelB.fit_range dc (sc + 8 * j) ltac:(lia)) as Fc.
  assert (ER : 8 * i + fit dr (sr + 8 * i) <= NR /\ (fit dr (sr + 8 * i) = 8 \/ 8 * i + fit dr (sr + 8 * i) = dr - sr)) by (unfold NR, fit; destruct (Z.leb_spec (dr - (sr + 8 * i)) 8); lia).
  assert (EC : 8 * j + fit dc (sc + 8 * j) <= NC /\ (fit dc (sc + 8 * j) = 8 \/ 8 * j + fit dc (sc + 8 * j) = dc - sc)) by (unfold NC, fit; destruct (Z.leb_spec (dc - (sc + 8 * j)) 8); lia).
  set (nr := fit dr (sr + 8 * i)) in *. set (nc := fit dc (sc + 8 * j)) in *. clearbody nr nc.
  pose proof (cols_drawn8 size8 (valued Lb Rb Bi SL SR Mu Ex lzw rzw dzp pzw cmin cmax hb hls hrs hpc cc ty n (sr + 8 * i) (sc + 8 * j) (lo + 8 * ls * i) (ro + 8 * rs * j)) _ ds nr nc D D' size8_ok Fr Fc HCo) as BD.
  apply (drawn8_shift _ _ _ out_off8 out_value8 _ (fun r c => 8 * i <= r < 8 * i + nr /\ 8 * j <= c < 8 * j + nc) (8 * i) (8 * j)) in BD.
  - eapply drawn8_iff; [|eapply drawn8_app; [| |exact HW|exact BD]].
    + intros r c. unfold done8s, region8. split; [intros [H|H]; lia|]. intros (H1 & H2).
      destruct (Z_lt_dec c (8 * j)); [left; lia|]. destruct (Z_lt_dec r (8 * i)); [left; lia|]. right. unfold NR, NC in *. lia.
    + intros r c r' c' [H1 _] H2 Hne. apply apart8; [exact H1|unfold region8; lia|exact Hne].
    + intros r c. cbv beta; lia.
  - intros r c [Hr Hc]. split; [unfold out_off8; ring|]. unfold out_value8.
    assert (Er : (8 * i + r) / 8 = i) by (symmetry; apply (Z.div_unique _ 8 i r); lia). assert (Er' : (8 * i + r) mod 8 = r) by (symmetry; apply (Z.mod_unique _ 8 i r); lia).
    assert (Ec : (8 * j + c) / 8 = j) by (symmetry; apply (Z.div_unique _ 8 j c); lia). assert (Ec' : (8 * j + c) mod 8 = c) by (symmetry; apply (Z.mod_unique _ 8 j c); lia).
    rewrite Er, Er', Ec, Ec'. reflexivity.
  - intros r c. cbv beta. lia.
Qed.

(** Bounds of a block, out of the way of the others. *)
Lemma bounds_row : forall i, 0 <= i < nbr -> 0 < fit dr (sr + 8 * i) <= 8 /\ 8 * i + fit dr (sr + 8 * i) <= NR.
Proof. clear - Hlr Hnr. intros i Hi. split; [apply NeonKernelB.fit_range; lia|]. unfold NR, fit. destruct (Z.leb_spec (dr - (sr + 8 * i)) 8); lia. Qed.
Lemma bounds_col : forall j, 0 <= j < nbc -> 0 < fit dc (sc + 8 * j) <= 8 /\ 8 * j + fit dc (sc + 8 * j) <= NC.
Proof. clear - Hlc Hnc. intros i Hi. split; [apply NeonKernelB.fit_range; lia|]. unfold NC, fit. destruct (Z.leb_spec (dc - (sc + 8 * i)) 8); lia. Qed.
Lemma bounds_dst : forall i j, 0 <= i < nbr -> 0 <= j < nbc -> 0 <= dof + 8 * ds * j + 8 * Z.of_nat size8 * i /\
  dof + 8 * ds * j + 8 * Z.of_nat size8 * i + ds * (fit dc (sc + 8 * j) - 1) + Z.of_nat size8 * fit dr (sr + 8 * i) <= blen D0 /\ Z.of_nat size8 * fit dr (sr + 8 * i) <= ds.
Proof.
  intros i j Hi Hj. destruct (bounds_row i Hi) as [Fr ER]. destruct (bounds_col j Hj) as [Fc EC]. clear - Hds HD Hst Fr ER Fc EC Hi Hj. set (z := Z.of_nat size8) in *. assert (Hz : 0 <= z) by (subst z; lia). clearbody z.
  assert (PD : ds * (8 * j + fit dc (sc + 8 * j) - 1) <= ds * (NC - 1)) by (apply Z.mul_le_mono_nonneg_l; lia).
  assert (PZ : z * (8 * i + fit dr (sr + 8 * i)) <= z * NR) by (apply Z.mul_le_mono_nonneg_l; lia).
  assert (PJ : 0 <= ds * j) by (apply Z.mul_nonneg_nonneg; lia). assert (PI : 0 <= z * i) by (apply Z.mul_nonneg_nonneg; lia). lia.
Qed.
Lemma bounds_lhs : forall i, 0 <= i < nbr -> (0 <= lo + 8 * ls * i /\ lo + 8 * ls * i + 8 * K <= blen Lb) /\ 0 <= next_lhs8 lo lr ls (sr + 8 * i) (lo + 8 * ls * i) /\ next_lhs8 lo lr ls (sr + 8 * i) (lo + 8 * ls * i) + 32 <= blen Lb.
Proof.
  clear - HL HK Hnr Hst. intros i Hi. pose proof (mul_next ls i nbr ltac:(lia) Hi) as PL. split; [lia|]. unfold next_lhs8. destruct (Z.ltb_spec (sr + 8 * i) lr); [pose proof (mul_next2 ls i nbr); lia|].
  pose proof (mul_next ls 0 nbr ltac:(lia) ltac:(lia)). lia.
Qed.
Lemma bounds_rhs : forall i j, 0 <= i < nbr -> 0 <= j < nbc -> (0 <= ro + 8 * rs * j /\ ro + 8 * rs * j + 8 * K <= blen Rb) /\
  0 <= next_rhs8 lr lc rs (sr + 8 * i) (sc + 8 * j) (ro + 8 * rs * j) /\ next_rhs8 lr lc rs (sr + 8 * i) (sc + 8 * j) (ro + 8 * rs * j) + 32 <= blen Rb.
Proof.
  clear - HR HK Hnr Hnc Hst. intros i j Hi Hj. pose proof (mul_next rs j nbc ltac:(lia) Hj) as PR. split; [lia|]. unfold next_rhs8. destruct (Z.ltb_spec (sr + 8 * i) lr); [lia|].
  destruct (Z.ltb_spec (sc + 8 * j) lc); [pose proof (mul_next2 rs j nbc); lia|lia].
Qed.
Lemma bounds_bias : forall i j, 0 <= i < nbr -> 0 <= j < nbc -> first_bias hb cc (sr + 8 * i) (sc + 8 * j) + 8 <= blen Bi.
Proof. clear - HBi Hnr Hnc. intros i j Hi Hj. unfold first_bias, chn. destruct hb, cc; lia. Qed.
Lemma bounds_chan : forall i j, 0 <= i < nbr -> 0 <= j < nbc -> 0 <= first_chan hpc cc (sr + 8 * i) (sc + 8 * j) /\ first_chan hpc cc (sr + 8 * i) (sc + 8 * j) + 8 <= channels.
Proof. clear - Hlr Hlc Hnr Hnc. intros i j Hi Hj. unfold first_chan, chn, channels. destruct hpc, cc; lia. Qed.

Lemma one_ij : forall i j D s, 0 <= i < nbr -> 0 <= j < nbc -> drawn8 size8 out_off8 out_value8 (done8s i j) D0 D ->
  atd D (sr + 8 * i) (sc + 8 * j) (lo + 8 * ls * i) (ro + 8 * rs * j) (dof + 8 * ds * j + 8 * Z.of_nat size8 * i) (dof + 8 * ds * j) s ->
  reach (nf + 901) code a s (fun pc s' => pc = (if ((i =? nbr - 1) && (j =? nbc - 1))%Z then b + 822 else a)%nat /\
    if (i =? nbr - 1) then (exists D' T, kmem8 D' T (mem s') /\ drawn8 size8 out_off8 out_value8 (done8s 0 (j + 1)) D0 D') /\ (j < nbc - 1 -> at_ij8 0 (j + 1) s') else at_ij8 (i + 1) j s').
Proof.
  intros i j D s Hi Hj HW HB. destruct (bounds_row i Hi) as [Fr ER]. destruct (bounds_col j Hj) as [Fc EC]. destruct (bounds_dst i j Hi Hj) as (B1 & B2 & B3).
  destruct (bounds_lhs i Hi) as (L1 & L2). destruct (bounds_rhs i j Hi Hj) as (R1 & R2). pose proof (bounds_bias i j Hi Hj) as PB. destruct (bounds_chan i j Hi Hj) as (PF1 & PF2).
  assert (PQ : raw = false -> forall q, (q < 8)%nat -> fixed_point (bdat Mu (first_chan hpc cc (sr + 8 * i) (sc + 8 * j) + Z.of_nat q)) /\ exponent (bdat Ex (first_chan hpc cc (sr + 8 * i) (sc + 8 * j) + Z.of_nat q))) by (intros Er q Hq; apply (HQ Er); clear - PF1 PF2 Hq; lia).
  assert (HRow : 0 <= sr + 8 * i <= lr) by (clear - Hlr Hnr Hi; lia). assert (HCol : 0 <= sc + 8 * j <= lc) by (clear - Hlc Hnc Hj; lia).
  rewrite <- (dz_len _ _ _ _ _ _ HW) in B2.
  assert (P1 : hrs = true -> sc + 8 * j + 8 <= blen SR) by (clear - HSR Hj; intros E; specialize (HSR E); lia). assert (P2 : hls = true -> sr + 8 * i + 8 <= blen SL) by (clear - HSL Hi; intros E; specialize (HSL E); lia).
  assert (P3 : first_chan hpc cc (sr + 8 * i) (sc + 8 * j) + 8 <= blen Mu) by (clear - PF2 HMu; lia). assert (P4 : first_chan hpc cc (sr + 8 * i) (sc + 8 * j) + 8 <= blen Ex) by (clear - PF2 HEx; lia).
  eapply reach_weaken; [apply (blockd Lb Rb Bi SL SR Mu Ex lo ro dof lzw rzw dzp pzw sr sc lr lc dr dc ls rs ds K cmin cmax hb hls hrs hpc cc drz dcz ty tyz Hlr Hlc Hst Hdr Hdc Hty Hty4 code a b n nf Htail Hsums Hloop Ht D _ _ _ _ _ _ s HB HRow HCol L1 R1 L2 R2 PB P1 P2 P3 P4 PQ B1 B2 B3)|lia|].
  intros pc s' (-> & D' & HCo & HB'). pose proof (block_draws8 i j D D' Hi Hj HW HCo) as BD. unfold next_cold, next_lhs8, next_rhs8 in *.
  assert (Ei : (sr + 8 * i =? lr) = (i =? nbr - 1)) by (clear - Hnr; destruct (Z.eqb_spec (sr + 8 * i) lr), (Z.eqb_spec i (nbr - 1)); lia || reflexivity).
  assert (El : (sr + 8 * i <? lr) = negb (i =? nbr - 1)) by (clear - Hnr Hi; destruct (Z.ltb_spec (sr + 8 * i) lr), (Z.eqb_spec i (nbr - 1)); lia || reflexivity).
  assert (Ec : (sc + 8 * j + 8 <=? lc) = negb (j =? nbc - 1)) by (clear - Hnc Hj; destruct (Z.leb_spec (sc + 8 * j + 8) lc), (Z.eqb_spec j (nbc - 1)); lia || reflexivity).
  assert (Ed : (sc + 8 * j <=? lc) = true) by (clear - Hnc Hj; apply Z.leb_le; lia).
  rewrite Ei, El in *. destruct (Z.eqb_spec i (nbr - 1)) as [E|E]; cbn [negb andb] in *.
  - rewrite Ec. split; [destruct (j =? nbc - 1); reflexivity|].
    assert (BD' : drawn8 size8 out_off8 out_value8 (done8s 0 (j + 1)) D0 D') by (eapply drawn8_iff; [|exact BD]; clear - E Hnr; intros r c; unfold done8s, region8, NR, NC; lia).
    split; [destruct HB' as [(T' & _ & KM) _ _ _ _ _ _ _ _ _ _ _ _ _ _ _ _ _ _]; exists D', T'; split; assumption|].
    intros Hj1. exists D'. split; [exact BD'|]. replace (sc + 8 * j <? lc) with true in HB' by (symmetry; apply Z.ltb_lt; clear - Hnc Hj1; lia).
    replace (sr + 8 * 0) with sr by ring. replace (lo + 8 * ls * 0) with lo by ring. replace (sc + 8 * (j + 1)) with (sc + 8 * j + 8) by ring.
    replace (ro + 8 * rs * (j + 1)) with (ro + 8 * rs * j + rs * 8) by ring. replace (dof + 8 * ds * (j + 1) + 8 * Z.of_nat size8 * 0) with (dof + 8 * ds * j + ds * 8) by ring.
    replace (dof + 8 * ds * (j + 1)) with (dof + 8 * ds * j + ds * 8) by ring. exact HB'.
  - rewrite Ed. split; [reflexivity|]. exists D'. split; [exact BD|].
    replace (sr + 8 * (i + 1)) with (sr + 8 * i + 8) by ring. replace (lo + 8 * ls * (i + 1)) with (lo + 8 * ls * i + ls * 8) by ring.
    replace (dof + 8 * ds * j + 8 * Z.of_nat size8 * (i + 1)) with (dof + 8 * ds * j + 8 * Z.of_nat size8 * i + 8 * Z.of_nat size8) by ring. exact HB'.
Qed.

Lemma loop8 : forall m i j s, 0 <= i < nbr -> 0 <= j < nbc -> (nbc - j) * nbr - i = Z.of_nat (S m) -> at_ij8 i j s ->
  reach ((nf + 901) * S m) code a s (fun pc s' => pc = (b + 822)%nat /\ exists D T, kmem8 D T (mem s') /\ drawn8 size8 out_off8 out_value8 region8 D0 D).
Proof.
  induction m as [|m IH]; intros i j s Hi Hj Hm (D & HW & HB); destruct (last_block _ _ _ _ _ Hi Hj Hm) as [LB1 LB2].
  - replace ((nf + 901) * 1)%nat with (nf + 901)%nat by lia. destruct (LB1 eq_refl) as [Ei Ej].
    eapply reach_weaken; [exact (one_ij i j D s Hi Hj HW HB)|lia|]. intros pc s' (-> & H). subst i j. rewrite !Z.eqb_refl in *. cbn [andb] in *. split; [reflexivity|]. destruct H as ((D' & T' & KM & BD) & _). exists D', T'. split; [exact KM|].
    eapply drawn8_iff; [|exact BD]. clear - Hnr Hnc. intros r c. unfold done8s, region8, NR, NC. lia.
  - replace ((nf + 901) * S (S m))%nat with (nf + 901 + (nf + 901) * S m)%nat by lia. eapply reach_trans; [exact (one_ij i j D s Hi Hj HW HB)|].
    intros pc s' (-> & H). destruct (Z.eqb_spec i (nbr - 1)) as [Ei|Ei]; cbn [andb].
    + destruct (LB2 Ei ltac:(discriminate)) as [Hj1 Hm1]. replace (j =? nbc - 1) with false by (symmetry; apply Z.eqb_neq; lia). apply (IH 0 (j + 1) s'); [lia|lia|exact Hm1|]. apply (proj2 H). exact Hj1.
    + apply (IH (i + 1) j s'); [lia|lia|clear - Hm; lia|exact H].
Qed.
End Loop.
