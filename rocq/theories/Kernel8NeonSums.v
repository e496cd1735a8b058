(** The products that the kNeon kernels sum, in terms of the packed entries and of the sources. *)
From Coq Require Import ZArith List Bool Lia.
From Verif Require Import Base SidePair Mat MatFacts Scalars Pack IntOps MulParams Kernel SpecMatrix SpecPack PackFacts PackProps KernelFacts SpecPackX86 SpecKernel Simd Kernel8bit
  Neon64 NeonPack SpecPackNeon NeonPackBlock NeonPackProps PackX86Examples NeonPackExamples NeonPackRow16 SpecPackNeonRow16 NeonPackRow16Props NeonPackRow16Examples NeonDeclBad Kernel8NeonPairs NeonKernel8Code Kernel8Neon SpecNeonPairs Kernel8NeonPairsMore SpecNeonSums.
Import ListNotations.
Open Scope Z_scope.

Lemma cells_ok : forall p, packed_cells p -> playout_ok (p_layout p).
Proof.
  intros p (K & O & S & R & R4 & C & Cn & F & _). constructor; rewrite ?K; cbn [bytes_16x4 kl_rows kl_cols]; try assumption; try lia.
  - exists 4. split; [lia|reflexivity].
  - exists 2. split; [lia|reflexivity].
  - apply Z.mod_divide; [lia|assumption].
  - apply Z.mod_divide; [lia|assumption].
Qed.

Lemma cell_entry : forall p f c0 n i k, packed_cells p -> four_columns p c0 -> SpecKernel.holds p f c0 (c0 + n) -> n <= 4 -> 0 <= i < n -> 0 <= k < pl_rows (p_layout p) ->
  packed_16x4 (p_data p) (c0 * pl_stride (p_layout p)) i k = f k (c0 + i).
Proof.
  intros p f c0 n i k P (H0 & H1 & H2) H Hn Hi Hk. specialize (H k (c0 + i) Hk ltac:(lia)). pose proof (cells_ok p P) as L.
  unfold pelement in H. rewrite poffset_ok in H by (try assumption; lia). cbn [bind] in H.
  assert (E : bdat (p_data p) (poff (p_layout p) k (c0 + i)) = f k (c0 + i)).
  { pose proof (poff_range (p_layout p) k (c0 + i) L Hk ltac:(lia)). destruct P as (_ & _ & _ & _ & _ & _ & _ & _ & B & _). rewrite bread_ok in H by lia. congruence. }
  rewrite <- E. destruct P as (K & _ & S & _). replace i with (Z.of_nat (Z.to_nat i)) at 2 by lia. rewrite poff_16x4 by (try assumption; lia).
  unfold packed_16x4. f_equal. rewrite S, Z2Nat.id by lia. ring.
Qed.

Lemma cell_room : forall p c, packed_cells p -> four_columns p c -> 0 <= c * pl_stride (p_layout p) /\ c * pl_stride (p_layout p) + 4 * pl_rows (p_layout p) <= blen (p_data p).
Proof. intros p c (_ & _ & S & R & _ & _ & _ & _ & B & _) (H0 & H1 & _). rewrite S. split; nia. Qed.

(** What the parameters of a call are. *)
Lemma made : forall dbg n rt dt lp rp mp sr sc er ec dl zp p, make_kernel_params8bit dbg n rt dt lp rp mp sr sc er ec dl zp = Ok p ->
  k_lhs p = p_data lp /\ k_lhs_base p = sr * pl_stride (p_layout lp) /\ k_rhs p = p_data rp /\ k_rhs_base p = it_size rt * (sc * pl_stride (p_layout rp)) /\ k_depth p = pl_rows (p_layout lp).
Proof.
  intros dbg n rt dt lp rp mp sr sc er ec dl zp p H. unfold make_kernel_params8bit in H.
  repeat match type of H with
  | bind ?x _ = _ => let a := fresh "a" in let E := fresh "E" in destruct x as [a| |] eqn:E; cbn [bind] in H; [|discriminate H|discriminate H]
  end.
  injection H as <-. cbn [k_lhs k_lhs_base k_rhs k_rhs_base k_depth].
  repeat match goal with E : i32 ?z = Ok ?a |- _ => unfold i32 in E; match type of E with (if ?b then _ else _) = _ => destruct b; [|discriminate E]; injection E as <- end end.
  repeat split.
Qed.

Lemma operand_sums : forall dbg g tmp dst fuel dt l r L R mp sr sc er ec dl zp p code len cols nr nc, product_program code len cols ->
  packed_cells l -> packed_cells r -> pl_rows (p_layout r) = pl_rows (p_layout l) -> four_columns l sr -> four_columns r sc ->
  nr <= 4 -> SpecKernel.holds l L sr (sr + nr) -> nc <= cols -> SpecKernel.holds r R sc (sc + nc) ->
  make_kernel_params8bit dbg 4 s8 dt l r mp sr sc er ec dl zp = Ok p -> (Z.to_nat (5 * pl_rows (p_layout l) + 110) <= fuel)%nat ->
  exists s, run fuel (firstn len code) 0 (kernel8_start 4 g tmp p dst) = Ok s /\ mem s = kernel8_memory 4 p dst tmp /\
    forall i c, 0 <= i < nr -> 0 <= c < nc -> nth (Z.to_nat i) (slanes 4 (vs s (16 + Z.to_nat c))) 0 =
      wrap_s 32 (zsum (map (fun k => L k (sr + i) * R k (sc + c)) (zrange 0 (pl_rows (p_layout l)))) -
                 65536 * overflows (fun k => L k (sr + i)) (fun k => R k (sc + c)) (pl_rows (p_layout l))).
Proof.
  intros dbg g tmp dst fuel dt l r L R mp sr sc er ec dl zp p code len cols nr nc HC PL PR HD FL FR Hnr HL Hnc HR HM Hf.
  destruct (made _ _ _ _ _ _ _ _ _ _ _ _ _ _ HM) as (M1 & M2 & M3 & M4 & M5). change (it_size s8) with 1 in M4. rewrite Z.mul_1_l in M4. clear HM.
  destruct (cell_room l sr PL FL) as [A1 A2]. destruct (cell_room r sc PR FR) as [B1 B2].
  pose proof PL as (_ & _ & _ & Q1 & Q2 & _ & _ & Q3 & _ & TL). pose proof PR as (_ & _ & _ & _ & _ & _ & _ & _ & _ & TR).
  assert (D16 : pl_rows (p_layout l) mod 16 = 0) by (apply Z.mod_divide; [lia|exact Q2]).
  assert (DB : pl_rows (p_layout l) < 2 ^ 31 - 16).
  { destruct FL as (F0 & F1 & _). unfold int_max in Q3. change (2 ^ 31) with 2147483648. nia. }
  set (K := pl_rows (p_layout l)) in *.
  assert (G : forall i c, 0 <= i < nr -> 0 <= c < nc ->
    packed_dot (k_lhs p) (k_lhs_base p) i (k_rhs p) (k_rhs_base p) c (k_depth p) = zsum (map (fun k => L k (sr + i) * R k (sc + c)) (zrange 0 K)) /\
    lowest_pairs (k_lhs p) (k_lhs_base p) i (k_rhs p) (k_rhs_base p) c (k_depth p) = overflows (fun k => L k (sr + i)) (fun k => R k (sc + c)) K).
  { assert (c4 : cols <= 4) by (destruct HC as [(_ & _ & ->)|[(_ & _ & ->)|(_ & _ & ->)]]; lia).
    intros i c Hi Hc. rewrite M1, M2, M3, M4, M5.
    assert (EL : forall k, 0 <= k < K -> packed_16x4 (p_data l) (sr * pl_stride (p_layout l)) i k = L k (sr + i)) by (intros k Hk; apply (cell_entry l L sr nr); assumption).
    assert (ER : forall k, 0 <= k < K -> packed_16x4 (p_data r) (sc * pl_stride (p_layout r)) c k = R k (sc + c)) by (intros k Hk; apply (cell_entry r R sc nc); try assumption; lia).
    split.
    - unfold packed_dot. f_equal. apply map_ext_in. intros k Hk. apply zrange_In in Hk. rewrite EL, ER by assumption. reflexivity.
    - unfold lowest_pairs, overflows. f_equal. apply map_ext_in. intros k Hk. apply zrange_In in Hk. unfold lowest_pair, lowest_at.
      destruct (Z.ltb_spec (k mod 16) 8) as [H8|H8]; cbn [andb]; [|reflexivity].
      assert (Hk8 : 0 <= k + 8 < K).
      { destruct Q2 as [w Hw]. pose proof (Z.div_mod k 16 ltac:(lia)). pose proof (Z.mod_pos_bound k 16 ltac:(lia)). lia. }
      rewrite !EL, !ER by assumption. reflexivity. }
  assert (Hpre : typed s8 (k_lhs p) /\ typed s8 (k_rhs p) /\ 0 < k_depth p < 2 ^ 31 - 16 /\ k_depth p mod 16 = 0 /\ 0 <= k_lhs_base p /\
    k_lhs_base p + 4 * k_depth p <= blen (k_lhs p) /\ 0 <= k_rhs_base p /\ k_rhs_base p + 4 * k_depth p <= blen (k_rhs p)).
  { rewrite M1, M2, M3, M4, M5. rewrite HD in B2. repeat (split; [first [assumption | lia]|]). assumption. }
  destruct Hpre as (T1 & T2 & T3 & T4 & T5 & T6 & T7 & T8).
  assert (F' : (Z.to_nat (5 * k_depth p + 110) <= fuel)%nat) by (rewrite M5; exact Hf).
  destruct HC as [(-> & -> & ->)|HC].
  - destruct (column_products g tmp p dst fuel T1 T2 T3 T4 T5 T6 T7 T8 ltac:(lia)) as (s & E & M & V). exists s. split; [exact E|]. split; [exact M|].
    intros i c Hi Hc. destruct (G i c Hi Hc) as [<- <-]. replace c with 0 by lia. apply V. lia.
  - assert (HC' : code = kernel8_neon /\ len = 157%nat \/ code = kernel8_a55 /\ len = 181%nat) by tauto. assert (C4 : cols = 4) by tauto.
    destruct (block_products g tmp p dst code len fuel HC' T1 T2 T3 T4 T5 T6 T7 T8 F') as (s & E & M & V). exists s. split; [exact E|]. split; [exact M|].
    intros i c Hi Hc. destruct (G i c Hi Hc) as [<- <-]. apply V; lia.
Qed.

(** Where the factors are not all -128, nothing overflows. *)
Lemma no_overflow : forall u v depth, (forall k, 0 <= k < depth -> u k <> -128 \/ v k <> -128) -> overflows u v depth = 0.
Proof.
  intros u v depth H. unfold overflows. replace (map _ _) with (map (fun _ : Z => 0) (zrange 0 depth)).
  - induction (zrange 0 depth) as [|x l IH]; [reflexivity|]. cbn [map zsum]. unfold zsum in *. cbn [fold_right]. rewrite IH. reflexivity.
  - apply map_ext_in. intros k Hk. apply zrange_In in Hk. unfold lowest_at. destruct (Z.eqb_spec (u k) (-128)) as [E1|]; [|rewrite andb_false_r; reflexivity].
    destruct (Z.eqb_spec (v k) (-128)) as [E2|]; [|rewrite !andb_false_r; reflexivity]. destruct (H k Hk); contradiction.
Qed.

Lemma same_cells : forall (p q : pmat Z), playout_ok (p_layout p) -> pl_kernel (p_layout p) = bytes_16x4 -> 0 < pl_rows (p_layout p) -> pl_rows (p_layout p) * pl_cols (p_layout p) <= blen (p_data p) ->
  p_layout q = p_layout p -> blen (p_data q) = blen (p_data p) -> typed s8 (p_data q) -> packed_cells q.
Proof.
  intros p q PL K Hr Pn S1 S3 T. unfold packed_cells. rewrite S1, S3. pose proof (po_rows_al _ PL) as R16. pose proof (po_cols_al _ PL) as C4. rewrite K in R16, C4. cbn [bytes_16x4 kl_rows kl_cols] in R16, C4.
  apply Z.mod_divide in R16; [|lia]. apply Z.mod_divide in C4; [|lia].
  split; [exact K|]. split; [apply po_order; exact PL|]. split; [apply po_stride; exact PL|]. split; [exact Hr|]. split; [exact R16|]. split; [apply po_cols; exact PL|].
  split; [exact C4|]. split; [apply po_flat; exact PL|]. split; [exact Pn|exact T].
Qed.

Lemma packs_cells : forall dbg a55 gs st src p a b, (st = s8 \/ st = u8) -> SpecPackNeon.neon_call bytes_16x4 s8 st src p a b -> 0 < pl_rows (p_layout p) ->
  exists q, pack_neon dbg neon_16x4 a55 gs st src p a b = Ok q /\ packed_cells q /\ p_layout q = p_layout p /\
    forall c0 c1, a <= c0 -> c1 <= b -> SpecKernel.holds q (filled_value st s8 src (p_zp p)) c0 c1.
Proof.
  intros dbg a55 gs st src p a b Hst C Hr.
  assert (Hk : neon_function neon_16x4 bytes_16x4 s8 st) by (left; repeat split; assumption).
  assert (Hf : kl_cols bytes_16x4 = 8 -> blocks_fit src b) by (intros E; discriminate E).
  destruct (loop_done dbg neon_16x4 bytes_16x4 s8 st a55 gs src p a b Hk C Hf) as (q & E & [(S1 & S2 & S3) T V _ _]).
  destruct (neon_packs_columns dbg neon_16x4 bytes_16x4 s8 st a55 gs src p a b Hk C Hf) as (q' & E' & [_ V' _ _]). assert (q' = q) by congruence. subst q'.
  destruct C as (HV & Ho & HP & _). destruct (function_kernel _ _ _ _ Hk) as (VK & _). pose proof (packed_for_ok src bytes_16x4 p VK HV HP) as [PL Pn _].
  destruct HP as ((K & _) & _).
  exists q. split; [exact E|]. split.
  { apply (same_cells p); assumption. }
  split; [exact S1|]. intros c0 c1 H0 H1 k c Hk' Hc. rewrite S1 in Hk'. apply V'; [exact Hk'|lia].
Qed.

Lemma operand_cells : forall st src p a b q, neon_operand st src p a b q ->
  packed_cells q /\ p_layout q = p_layout p /\ 0 <= a /\ b <= pl_cols (p_layout p) /\
  forall c0 c1, a <= c0 -> c1 <= b -> c1 <= ml_cols (m_layout src) -> SpecKernel.holds q (packed_value st s8 src (p_zp p)) c0 c1.
Proof.
  intros st src p a b q (Hst & Hr & [(dbg & a55 & gs & C & E) | (dbg & C & T & E)]).
  - destruct (packs_cells dbg a55 gs st src p a b Hst C Hr) as (q' & E' & P & S & V). assert (q' = q) by congruence. subst q'.
    destruct C as (_ & _ & _ & _ & _ & _ & _ & Hab & Hb & _). split; [exact P|]. split; [exact S|]. split; [lia|]. split; [exact Hb|]. intros c0 c1 H0 H1 H2 k c Hk Hc.
    rewrite (V c0 c1 H0 H1 k c Hk Hc). unfold filled_value, packed_value. replace (c <? ml_cols (m_layout src)) with true by (symmetry; apply Z.ltb_lt; lia). rewrite andb_true_r. reflexivity.
  - destruct (rows16_packed dbg 4 st src p a b (or_intror eq_refl) ltac:(tauto) C) as (q' & E' & [(S1 & S2 & S3) V _ T' _] & _). assert (q' = q) by congruence. subst q'.
    destruct C as (HV & _ & HP & _ & _ & _ & Hab & Hb & _).
    assert (VK : valid_kernel_layout bytes_16x4) by (unfold valid_kernel_layout; cbn; repeat split; try lia; [exists 4|exists 2]; lia).
    pose proof (packed_for_ok src bytes_16x4 p VK HV HP) as [PL Pn _]. destruct HP as ((K & _) & _).
    split; [apply (same_cells p); try assumption; apply T'; exact T|]. split; [exact S1|]. split; [lia|]. split; [exact Hb|].
    intros c0 c1 H0 H1 H2 k c Hk Hc. rewrite S1 in Hk. apply V; [exact Hk|lia|lia].
Qed.

Lemma source_sums : forall lst rst lsrc rsrc lp rp la lb ra rb l r dbg g tmp dst fuel dt mp sr sc er ec dl zp p code len cols, product_program code len cols ->
  neon_operand lst lsrc lp la lb l -> neon_operand rst rsrc rp ra rb r -> pl_rows (p_layout rp) = pl_rows (p_layout lp) ->
  (4 | sr) -> (4 | sc) -> la <= sr -> sr + 4 <= lb -> ra <= sc -> sc + 4 <= rb ->
  make_kernel_params8bit dbg 4 s8 dt l r mp sr sc er ec dl zp = Ok p -> (Z.to_nat (5 * pl_rows (p_layout lp) + 110) <= fuel)%nat ->
  exists s, run fuel (firstn len code) 0 (kernel8_start 4 g tmp p dst) = Ok s /\ mem s = kernel8_memory 4 p dst tmp /\
    forall i c, sr <= i < sr + 4 -> i < ml_cols (m_layout lsrc) -> sc <= c < sc + cols -> c < ml_cols (m_layout rsrc) ->
      let u k := packed_value lst s8 lsrc (p_zp lp) k i in let v k := packed_value rst s8 rsrc (p_zp rp) k c in
      nth (Z.to_nat (i - sr)) (slanes 4 (vs s (16 + Z.to_nat (c - sc)))) 0 =
      wrap_s 32 (zsum (map (fun k => u k * v k) (zrange 0 (pl_rows (p_layout lp)))) - 65536 * overflows u v (pl_rows (p_layout lp))).
Proof.
  intros lst rst lsrc rsrc lp rp la lb ra rb l r dbg g tmp dst fuel dt mp sr sc er ec dl zp p code len cols HC OL OR HD D1 D2 L1 L2 R1 R2 HM Hf.
  destruct (operand_cells _ _ _ _ _ _ OL) as (Pl & Sl & La & Lb & Vl). destruct (operand_cells _ _ _ _ _ _ OR) as (Pr & Sr & Ra & Rb & Vr).
  assert (c4 : cols <= 4) by (destruct HC as [(_ & _ & ->)|[(_ & _ & ->)|(_ & _ & ->)]]; lia).
  set (nr := Z.min 4 (ml_cols (m_layout lsrc) - sr)). set (nc := Z.min cols (ml_cols (m_layout rsrc) - sc)).
  destruct (operand_sums dbg g tmp dst fuel dt l r (packed_value lst s8 lsrc (p_zp lp)) (packed_value rst s8 rsrc (p_zp rp)) mp sr sc er ec dl zp p code len cols nr nc HC Pl Pr)
    as (s & E & M & V).
  - rewrite Sl, Sr. exact HD.
  - unfold four_columns. rewrite Sl. split; [lia|]. split; [lia|exact D1].
  - unfold four_columns. rewrite Sr. split; [lia|]. split; [lia|exact D2].
  - lia.
  - apply Vl; lia.
  - lia.
  - apply Vr; lia.
  - exact HM.
  - rewrite Sl. exact Hf.
  - exists s. split; [exact E|]. split; [exact M|]. intros i c Hi Hi' Hc Hc'. cbv zeta. specialize (V (i - sr) (c - sc) ltac:(lia) ltac:(lia)). rewrite Sl in V.
    replace (sr + (i - sr)) with i in V by lia. replace (sc + (c - sc)) with c in V by lia. exact V.
Qed.

Lemma exact_sums : forall dbg g tmp dst fuel dt l r L R mp sr sc er ec dl zp p code len cols nr nc, product_program code len cols ->
  packed_cells l -> packed_cells r -> pl_rows (p_layout r) = pl_rows (p_layout l) -> four_columns l sr -> four_columns r sc ->
  nr <= 4 -> SpecKernel.holds l L sr (sr + nr) -> nc <= cols -> SpecKernel.holds r R sc (sc + nc) ->
  make_kernel_params8bit dbg 4 s8 dt l r mp sr sc er ec dl zp = Ok p -> (Z.to_nat (5 * pl_rows (p_layout l) + 110) <= fuel)%nat ->
  exists s, run fuel (firstn len code) 0 (kernel8_start 4 g tmp p dst) = Ok s /\ mem s = kernel8_memory 4 p dst tmp /\
    forall i c, 0 <= i < nr -> 0 <= c < nc -> (forall k, 0 <= k < pl_rows (p_layout l) -> L k (sr + i) <> -128 \/ R k (sc + c) <> -128) ->
      nth (Z.to_nat i) (slanes 4 (vs s (16 + Z.to_nat c))) 0 =
      wrap_s 32 (zsum (map (fun k => L k (sr + i) * R k (sc + c)) (zrange 0 (pl_rows (p_layout l))))).
Proof.
  intros dbg g tmp dst fuel dt l r L R mp sr sc er ec dl zp p code len cols nr nc HC PL PR HD FL FR Hnr HL Hnc HR HM Hf.
  destruct (operand_sums dbg g tmp dst fuel dt l r L R mp sr sc er ec dl zp p code len cols nr nc HC PL PR HD FL FR Hnr HL Hnc HR HM Hf) as (s & E & M & V).
  exists s. split; [exact E|]. split; [exact M|]. intros i c Hi Hc H. rewrite (V i c Hi Hc), no_overflow by exact H. f_equal. lia.
Qed.

(** ** Twenty-one levels of a column-major matrix of int8 and of a row-major one of uint8, padded to 32; one pair of levels of column 5 of
    the former and of column 2 of the latter has only factors of -128. *)
Definition sm_lsrc : mat Z :=
  {| m_data := {| blen := 168; bdat := fun i => if (i =? 24 * 5 + 2) || (i =? 24 * 5 + 10) then -128 else (i * 37) mod 251 - 125 |};
     m_layout := {| ml_rows := 21; ml_cols := 7; ml_stride := 24; ml_order := ColMajor |}; m_zp := 3 |}.
Definition sm_rsrc : mat Z :=
  {| m_data := {| blen := 84; bdat := fun i => if (i =? 4 * 2 + 2) || (i =? 4 * 10 + 2) then 0 else (i * 59) mod 249 + 5 |};
     m_layout := {| ml_rows := 21; ml_cols := 3; ml_stride := 4; ml_order := RowMajor |}; m_zp := 200 |}.
Definition sm_lp : pmat Z := ex_neon_dst bytes_16x4 true 32 8 3.
Definition sm_rp : pmat Z := ex_neon_dst bytes_16x4 true 32 4 72.
Lemma sm_calls : SpecPackNeon.neon_call bytes_16x4 s8 s8 sm_lsrc sm_lp 4 8 /\ row16_call 4 sm_rsrc sm_rp 0 4 /\ typed s8 (p_data sm_rp).
Proof.
  unfold sm_lsrc, sm_lp, sm_rsrc, sm_rp. split; [|split].
  - ex_neon; [exists 2|exists 2|exists 1|exists 2]; reflexivity.
  - ex_row16; [exists 2|exists 1|exists 0|exists 1]; reflexivity.
  - intros i _. cbn. lia.
Qed.
Definition sm_lanes (code : list instr) (len : nat) (cols : Z) : list Z :=
  match l <- pack_neon true neon_16x4 false ex_left s8 sm_lsrc sm_lp 4 8 ;; r <- pack_row16_neon true 4 u8 sm_rsrc sm_rp 0 4 ;;
    p <- make_kernel_params8bit true 4 s8 s32 l r px_params 4 0 8 4 {| ml_rows := 7; ml_cols := cols; ml_stride := 7; ml_order := ColMajor |} 0 ;;
    run 300 (firstn len code) 0 (kernel8_start 4 ex_leftover (fun _ => 5) p (const_buf 28 9)) with
  | Ok s => flat_map (fun c => firstn 3 (slanes 4 (vs s (16 + Z.to_nat c)))) (zrange 0 cols)
  | _ => []
  end.
Definition sm_exact (cols : Z) : list Z :=
  flat_map (fun c => map (fun i => zsum (map (fun k => packed_value s8 s8 sm_lsrc 3 k i * packed_value u8 s8 sm_rsrc 72 k c) (zrange 0 32))) (zrange 4 7)) (zrange 0 cols).
Lemma sm_values : map2 Z.sub (sm_exact 3) (sm_lanes kernel8_neon 157 3) = [0; 0; 0; 0; 0; 0; 0; 65536; 0] /\
  map2 Z.sub (sm_exact 3) (sm_lanes kernel8_a55 181 3) = [0; 0; 0; 0; 0; 0; 0; 65536; 0] /\ map2 Z.sub (sm_exact 1) (sm_lanes kernel8_1col 60 1) = [0; 0; 0].
Proof. repeat split; vm_compute; reflexivity. Qed.
