(** One block of four columns is packed by the functions of pack_arm.cc. *)
From Coq Require Import ZArith List Bool Lia.
From Verif Require Import Base SidePair Mat MatFacts Scalars IntOps Pack Kernel SpecArith SpecMatrix SpecPack PackFacts Simd SimdFacts SpecPackX86 Neon64 NeonRun NeonTac NeonCols
  NeonPackCode NeonPack8 NeonPackDot NeonPackF NeonPackMath NeonPack NeonPackBytes SpecPackNeon.
Import ListNotations.
Open Scope Z_scope.

(** ** The four columns *)
Section Columns.
Variables (es zb : Z) (data : buf Z) (off stride cols bc : Z).
Definition gone (c : nat) : bool := cols - Z.of_nat c <=? bc.
Definition zbuf : buf Z := {| blen := 16; bdat := fun _ => zb |}.
Definition csbk (c : nat) : nat := if gone c then zero_block else src_block.
Definition csb (c : nat) : buf Z := if gone c then zbuf else enc es data.
Definition cso (c : nat) : Z := if gone c then 0 else es * (off + Z.of_nat c * stride).
Definition cinc (c : nat) : Z := if gone c then 0 else 16.

Lemma csb_block : forall packed sums c, pack_memory (enc es data) zbuf packed sums (csbk c) = Bytes (csb c).
Proof using Type. intros packed sums c. unfold csbk, csb. destruct (gone c); reflexivity. Qed.
Lemma csbk_other : forall c, csbk c <> packed_block.
Proof using Type. intros c. unfold csbk. destruct (gone c); discriminate. Qed.
Lemma cinc_range : forall c, 0 <= cinc c < 2 ^ 31.
Proof using Type. intros c. unfold cinc. destruct (gone c); split; try discriminate; reflexivity. Qed.

Lemma csb_byte : 0 <= zb < 256 -> forall c i, 0 <= bdat (csb c) i < 256.
Proof using Type. intros H c i. unfold csb. destruct (gone c); [exact H|apply enc_byte]. Qed.

Lemma before_at : forall k c, before cso cinc k c = if gone c then 0 else es * (off + Z.of_nat c * stride) + 16 * Z.of_nat k.
Proof using Type. intros k c. unfold before, cso, cinc. destruct (gone c); ring. Qed.

(** The [N] bytes of each column are in its block. *)
Lemma in_block : forall N k n c, 0 < es -> off = stride * bc -> 0 <= bc -> 0 <= stride -> N <= es * stride -> stride * cols <= blen data ->
  16 * Z.of_nat k + Z.of_nat n <= N -> (n <= 16)%nat -> 0 <= before cso cinc k c /\ before cso cinc k c + Z.of_nat n <= blen (csb c).
Proof using Type.
  intros N k n c Hes Hoff Hbc Hst HN Hlen Hk Hn. rewrite before_at. unfold csb, gone. destruct (Z.leb_spec (cols - Z.of_nat c) bc) as [G|G]; cbn [zbuf blen enc]; [lia|].
  subst off. assert (A : stride * (bc + Z.of_nat c + 1) <= stride * cols) by (apply Z.mul_le_mono_nonneg_l; lia).
  assert (B : 0 <= stride * (bc + Z.of_nat c)) by (apply Z.mul_nonneg_nonneg; lia).
  assert (C : es * (stride * (bc + Z.of_nat c + 1)) <= es * blen data) by (apply Z.mul_le_mono_nonneg_l; lia).
  assert (D : 0 <= es * (stride * (bc + Z.of_nat c))) by (apply Z.mul_nonneg_nonneg; lia).
  replace (es * (stride * (bc + Z.of_nat c + 1))) with (es * (stride * (bc + Z.of_nat c)) + es * stride) in C by ring.
  replace (stride * bc + Z.of_nat c * stride) with (stride * (bc + Z.of_nat c)) by ring. lia.
Qed.

(** Byte [b] of column [c]. *)
Lemma bval_at : forall N fill ix c b, 0 <= b -> bval csb cso cinc N fill ix c b =
  Z.lxor (if b <? N then (if gone c then zb else bdat (enc es data) (es * (off + Z.of_nat c * stride) + b)) else fill mod 256) (ix mod 256).
Proof using Type.
  intros N fill ix c b Hb. unfold bval. rewrite before_at. unfold csb. f_equal. destruct (b <? N); [|reflexivity]. destruct (gone c); [reflexivity|].
  f_equal. pose proof (Z.div_mod b 16 ltac:(lia)). pose proof (Z.div_pos b 16 Hb ltac:(lia)). lia.
Qed.

Lemma columns_start : forall k s g zp rows ix packed sums, n_size k = es ->
  xs s = start_regs g (fun j => fst (neon_column k off stride cols bc j)) (fun j => snd (neon_column k off stride cols bc j)) packed sums rows zp ix ->
  cols_at csbk cinc s (before cso cinc 0).
Proof using Type.
  intros k s g zp rows ix packed sums Hes X.
  assert (A : forall c, fst (neon_column k off stride cols bc c) = Ptr (csbk c) (before cso cinc 0 c)).
  { intros c. rewrite before_at. unfold neon_column, csbk, gone. rewrite Hes. destruct (cols - Z.of_nat c <=? bc); [reflexivity|]. cbn [fst]. f_equal. lia. }
  assert (B : forall c, snd (neon_column k off stride cols bc c) = Int (cinc c)).
  { intros c. unfold neon_column, cinc, gone. destruct (cols - Z.of_nat c <=? bc); reflexivity. }
  constructor; rewrite X; cbn [start_regs]; first [apply A | apply B].
Qed.
End Columns.

Lemma int_reg_mod : forall g k z, exists w, int_reg g k z = Int w /\ w mod 2 ^ 32 = z mod 2 ^ 32.
Proof.
  intros g k z. eexists. split; [reflexivity|]. rewrite Z.mul_comm, Z_mod_plus_full. unfold wrap_u. apply Z.mod_mod. lia.
Qed.
Lemma mod_256 : forall a b, a mod 2 ^ 32 = b mod 2 ^ 32 -> a mod 256 = b mod 256.
Proof.
  intros a b H. assert (G : forall z, (z mod 2 ^ 32) mod 256 = z mod 256).
  { intros z. change (2 ^ 32) with (256 * 16777216). rewrite Z.rem_mul_r by lia. rewrite Z.mul_comm, Z_mod_plus_full. apply Z.mod_mod. lia. }
  rewrite <- (G a), <- (G b), H. reflexivity.
Qed.

(** ** The packed byte *)
Lemma xor_value : forall st x v, st = s8 \/ st = u8 -> x mod 256 = neon_xor st -> wrap_s 8 (Z.lxor (v mod 256) (x mod 256)) = it_conv s8 (v - middle st).
Proof.
  intros st x v Hst ->. rewrite <- (conv8_mod (v - middle st)). replace ((v - middle st) mod 256) with ((v mod 256 - middle st) mod 256) by apply Zminus_mod_idemp_l.
  rewrite conv8_mod. pose proof (Z.mod_pos_bound v 256 ltac:(lia)) as H. set (m := v mod 256) in *. clearbody m.
  assert (T : forallb (fun m => wrap_s 8 (Z.lxor m (neon_xor st)) =? it_conv s8 (m - middle st)) (zrange 0 256) = true) by (destruct Hst as [-> | ->]; vm_compute; reflexivity).
  rewrite forallb_forall in T. apply Z.eqb_eq. apply T. apply zrange_In. lia.
Qed.

Lemma full_sum8 : forall sb so inc R zz ix, 0 <= R -> full (sum8 sb so inc R zz ix).
Proof.
  intros sb so inc R zz ix HR. assert (F : forall c, full (acc8_end sb so inc R zz ix c)).
  { intros c. unfold acc8_end. destruct (Nat.eqb (rest8 R) 0); [apply full_acc8|]. apply full_sadalp; [apply full_acc8|]. apply full_saddlp. rewrite last_piece by exact HR. apply full_piece. }
  unfold sum8. repeat apply full_addp_4; apply F.
Qed.

Lemma full_sumd : forall sb so inc R zz ix, 0 <= R -> full (sumd sb so inc R zz ix).
Proof.
  intros sb so inc R zz ix HR. assert (F : forall j, full (accd_end sb so inc R zz ix j)).
  { intros j. unfold accd_end. destruct (Nat.ltb j (groupsd R)); [|apply full_accd]. apply full_sdot; [apply full_accd|unfold tl; rewrite !lastd_piece by exact HR; apply full_trans; apply full_piece|apply full_ones]. }
  unfold sumd. repeat apply full_add_4; apply F.
Qed.

(** ** One call *)
Definition zero_byte (k : neon_packer) (src : mat Z) : Z := if n_sums k then wrap_u 8 (m_zp src) else 0.
Section Call.
Variables (src : mat Z) (bc : Z).
Notation data := (m_data src).
Notation R := (ml_rows (m_layout src)).
Notation stride := (ml_stride (m_layout src)).
Notation cols := (ml_cols (m_layout src)).
Notation colb es zb := (csb es zb data cols bc) (only parsing).
Notation colo es := (cso es (stride * bc) stride cols bc) (only parsing).
Notation coli := (cinc cols bc) (only parsing).

(** The block can be read. *)
Record readable : Prop := {
  rd_rows : 0 <= R < 2 ^ 31; rd_bc : 0 <= bc; rd_stride : R <= stride; rd_len : stride * cols <= blen data; rd_fit : stride * bc <= int_max }.

(** Where the sums are. *)
Lemma sums_place : forall packed (ps : option (buf Z)) zerobuf m1, (forall s, ps = Some s -> bc + 4 <= blen s) -> 0 <= bc ->
  let m0 := pack_memory (enc m1 data) zerobuf packed (option_map (enc 4) ps) in
  sums_ok m0 packed_block (match ps with Some _ => Ptr sums_block (4 * bc) | None => Int 0 end).
Proof using Type.
  intros packed ps zerobuf m1 Hs Hbc m0. destruct ps as [s|]; [|reflexivity]. split; [discriminate|]. exists (enc 4 s). split; [reflexivity|].
  specialize (Hs s eq_refl). cbn [enc blen]. lia.
Qed.
Definition sums_out_of (ps qs : option (buf Z)) (v : list Z) : Prop :=
  match ps with None => qs = None | Some s => qs = Some (dec s32 s (put (enc 4 s) (4 * bc) v)) end.

Lemma finished_result : forall packed ps zerobuf es P v m, 
  finished (pack_memory (enc es data) zerobuf packed (option_map (enc 4) ps)) packed_block P (match ps with Some _ => Ptr sums_block (4 * bc) | None => Int 0 end) v m ->
  m packed_block = Bytes P /\ exists s', m sums_block = Bytes s' /\ sums_out_of ps (option_map (fun old => dec s32 old s') ps) v.
Proof using Type.
  intros packed ps zerobuf es P v m [Hp Hs]. split; [exact Hp|]. destruct ps as [s|]; cbn [option_map sums_out_of] in *.
  - destruct Hs as (S0 & E0 & E1 & _). cbn [option_map pack_memory sums_block] in E0. injection E0 as <-. exists (put (enc 4 s) (4 * bc) v). split; [exact E1|reflexivity].
  - eexists. split; [rewrite Hs by discriminate; reflexivity|reflexivity].
Qed.

Lemma run_16x4 : forall a55 g st p, readable -> 0 <= pl_stride (p_layout p) * bc <= int_max ->
  pl_stride (p_layout p) * bc + 64 * Z.of_nat (sixteens R) <= blen (p_data p) -> (forall s, p_sums p = Some s -> bc + 4 <= blen s) ->
  exists q zz ix v d, neon_block neon_16x4 a55 g st src bc p = Ok q /\ zz mod 256 = m_zp src mod 256 /\ ix mod 256 = neon_xor st /\
    p_layout q = p_layout p /\ p_zp q = p_zp p /\ p_data q = dec s8 (p_data p) d /\
    (forall i, bdat d i = placed4 (colb 1 (wrap_u 8 (m_zp src))) (colo 1) coli R zz ix (enc 1 (p_data p)) (pl_stride (p_layout p) * bc) (sixteens R) i) /\
    full v /\ (forall c, (c < 4)%nat -> nth c (slanes 4 v) 0 = wrap_s 32 (psum (colb 1 (wrap_u 8 (m_zp src))) (colo 1) coli R zz ix c (16 * sixteens R))) /\
    sums_out_of (p_sums p) (p_sums q) v.
Proof using Type.
  intros a55 g st p [HR Hbc Hst Hlen Hfit] Hpo Hroom Hsum.
  destruct (int_reg_mod g 50 R) as (Rz & ER & MR). destruct (int_reg_mod g 51 (m_zp src)) as (zz & Ez & Mz). destruct (int_reg_mod g 52 (neon_xor st)) as (ix & Ex & Mx).
  assert (MR' : Rz mod 2 ^ 32 = R) by (rewrite MR; apply Z.mod_small; lia).
  assert (Hi : i32 (stride * bc) = Ok (stride * bc)) by (apply i32_ok; split; [unfold int_min; pose proof (Z.mul_nonneg_nonneg stride bc ltac:(lia) Hbc); lia|exact Hfit]).
  assert (Hi' : i32 (pl_stride (p_layout p) * bc) = Ok (pl_stride (p_layout p) * bc)) by (apply i32_ok; unfold int_min; lia).
  unfold neon_block. rewrite Hi. cbn [bind n_packed_ptr neon_16x4 n_size n_sums n_code n_type]. rewrite Hi'. cbn [bind]. cbv zeta.
  set (zb := wrap_u 8 (m_zp src)).
  match goal with |- context [run _ _ 0 ?s] => set (s0 := s) end.
  destruct (bound_pieces R ltac:(lia)) as [B1 B2].
  pose (sums := match p_sums p with Some _ => Ptr sums_block (4 * bc) | None => Int 0 end).
  assert (C0 : cols_at (csbk cols bc) coli s0 (before (colo 1) coli 0)) by (eapply (columns_start 1 (stride * bc) stride cols bc neon_16x4); reflexivity).
  assert (M0 : changed (mem s0) packed_block (enc 1 (p_data p)) (mem s0)) by (split; reflexivity).
  assert (S0 : sums_ok (mem s0) packed_block sums) by (apply sums_place; [exact Hsum|exact Hbc]).
  assert (Hin : forall k n c, 16 * Z.of_nat k + Z.of_nat n <= R -> (n <= 16)%nat -> 0 <= before (colo 1) coli k c /\ before (colo 1) coli k c + Z.of_nat n <= blen (colb 1 zb c)).
  { intros k n c H1 H2. apply in_block with (N := R); lia. }
  assert (Hcols : forall c k, (c < 4)%nat -> (k < pieces8 R)%nat -> 0 <= before (colo 1) coli k c /\ before (colo 1) coli k c + 16 <= blen (colb 1 zb c)).
  { intros c k _ Hk. change (pieces8 R) with (pieces R) in Hk. apply (Hin k 16%nat c); lia. }
  assert (Htail : forall c, (c < 4)%nat -> 0 <= before (colo 1) coli (pieces8 R) c /\ before (colo 1) coli (pieces8 R) c + Z.of_nat (rest8 R) <= blen (colb 1 zb c)).
  { intros c _. change (pieces8 R) with (pieces R). change (rest8 R) with (rest R). apply Hin; lia. }
  assert (Hp : 0 <= pl_stride (p_layout p) * bc /\ pl_stride (p_layout p) * bc + 64 * Z.of_nat (pieces8 R) + (if Nat.eqb (rest8 R) 0 then 0 else 64) <= blen (enc 1 (p_data p))).
  { split; [lia|]. cbn [enc blen]. unfold sixteens in Hroom. change (pieces8 R) with (pieces R). change (rest8 R) with (rest R). destruct (Nat.eqb (rest R) 0); lia. }
  assert (P0 : xs s0 48 = Ptr packed_block (pl_stride (p_layout p) * bc)) by (cbn [s0 xs start_regs]; f_equal; ring).
  assert (A0 : args8 sums Rz zz s0) by (constructor; [reflexivity|exact ER|exact Ez]).
  assert (RUN : exists s', run (pack_fuel R) (if a55 then pack8_neon_a55 else pack8_neon) 0 s0 = Ok s' /\
    finished (mem s0) packed_block (out8_end (colb 1 zb) (colo 1) coli (enc 1 (p_data p)) (pl_stride (p_layout p) * bc) R zz ix) sums (sum8 (colb 1 zb) (colo 1) coli R zz ix) (mem s')).
  { assert (PF : (4 * pieces8 R <= Z.to_nat (R / 4))%nat).
    { change (pieces8 R) with (pieces R). pose proof (Z.div_le_lower_bound R 4 (4 * Z.of_nat (pieces R)) ltac:(lia) ltac:(lia)). lia. }
    assert (Hsb : forall c, mem s0 (csbk cols bc c) = Bytes (colb 1 zb c)) by (intros c; apply csb_block).
    assert (Hby : forall c i, 0 <= bdat (colb 1 zb c) i < 256) by (apply csb_byte; unfold zb, wrap_u; apply Z.mod_pos_bound; lia).
    destruct a55.
    - pose proof (pack8_neon_a55_reach (mem s0) packed_block (csbk cols bc) (colb 1 zb) (colo 1) coli (enc 1 (p_data p)) (pl_stride (p_layout p) * bc) sums Rz R zz ix
        Hsb (csbk_other cols bc) (cinc_range cols bc) MR' HR Hcols Htail Hp Hby s0 C0 P0 A0 Ex M0 S0) as RC.
      destruct (reach_run _ _ _ _ _ (pack_fuel R) RC) as (s' & E & pc' & _ & F); [unfold pack_fuel; lia|intros pc' s' [X _]; exact X|]. exists s'. split; [exact E|exact F].
    - pose proof (pack8_neon_reach (mem s0) packed_block (csbk cols bc) (colb 1 zb) (colo 1) coli (enc 1 (p_data p)) (pl_stride (p_layout p) * bc) sums Rz R zz ix
        Hsb (csbk_other cols bc) (cinc_range cols bc) MR' HR Hcols Htail Hp s0 C0 P0 A0 Ex M0 S0) as RC.
      destruct (reach_run _ _ _ _ _ (pack_fuel R) RC) as (s' & E & pc' & _ & F); [unfold pack_fuel; lia|intros pc' s' [X _]; exact X|]. exists s'. split; [exact E|exact F]. }
  destruct RUN as (s' & E & F). rewrite E. cbn [bind].
  apply finished_result in F. destruct F as (F1 & s'' & F2 & F3). rewrite F1, F2.
  eexists _, zz, ix, _, _. split; [reflexivity|]. split; [apply mod_256; exact Mz|]. split.
  { rewrite (mod_256 _ _ Mx). apply Z.mod_small. unfold neon_xor. destruct (it_signed st); lia. }
  cbn [p_layout p_zp p_data p_sums]. split; [reflexivity|]. split; [reflexivity|]. split; [reflexivity|].
  split; [intros i; apply out8_end_dat; lia|]. split; [|split; [intros c Hc; apply sum8_nth; [lia|exact Hc]|exact F3]].
  apply full_sum8. lia.
Qed.

Lemma run_4x8 : forall a55 g st p po, readable -> n_packed_ptr neon_4x8 (pl_stride (p_layout p)) bc = Ok po -> 0 <= po ->
  po + 32 * Z.of_nat (fours R) <= blen (p_data p) + 16 -> (forall s, p_sums p = Some s -> bc + 4 <= blen s) ->
  exists q zz ix v d, neon_block neon_4x8 a55 g st src bc p = Ok q /\ zz mod 256 = m_zp src mod 256 /\ ix mod 256 = neon_xor st /\
    p_layout q = p_layout p /\ p_zp q = p_zp p /\ p_data q = dec s8 (p_data p) d /\
    (forall i, bdat d i = placedt (colb 1 (wrap_u 8 (m_zp src))) (colo 1) coli R zz ix (enc 1 (p_data p)) po (fours R) i) /\
    full v /\ (forall c, (c < 4)%nat -> nth c (slanes 4 v) 0 = wrap_s 32 (psum (colb 1 (wrap_u 8 (m_zp src))) (colo 1) coli R zz ix c (4 * fours R))) /\
    sums_out_of (p_sums p) (p_sums q) v.
Proof using Type.
  intros a55 g st p po [HR Hbc Hst Hlen Hfit] Hi' Hpo Hroom Hsum.
  destruct (int_reg_mod g 50 R) as (Rz & ER & MR). destruct (int_reg_mod g 51 (m_zp src)) as (zz & Ez & Mz). destruct (int_reg_mod g 52 (neon_xor st)) as (ix & Ex & Mx).
  assert (MR' : Rz mod 2 ^ 32 = R) by (rewrite MR; apply Z.mod_small; lia).
  assert (Hi : i32 (stride * bc) = Ok (stride * bc)) by (apply i32_ok; split; [unfold int_min; pose proof (Z.mul_nonneg_nonneg stride bc ltac:(lia) Hbc); lia|exact Hfit]).
  unfold neon_block. rewrite Hi. cbn [bind]. rewrite Hi'. cbn [bind neon_4x8 n_size n_sums n_code n_type]. cbv zeta.
  set (zb := wrap_u 8 (m_zp src)).
  match goal with |- context [run _ _ 0 ?s] => set (s0 := s) end.
  destruct (bound_pieces R ltac:(lia)) as [B1 B2].
  pose (sums := match p_sums p with Some _ => Ptr sums_block (4 * bc) | None => Int 0 end).
  assert (C0 : cols_at (csbk cols bc) coli s0 (before (colo 1) coli 0)) by (eapply (columns_start 1 (stride * bc) stride cols bc neon_4x8); reflexivity).
  assert (M0 : changed (mem s0) packed_block (enc 1 (p_data p)) (mem s0)) by (split; reflexivity).
  assert (S0 : sums_ok (mem s0) packed_block sums) by (apply sums_place; [exact Hsum|exact Hbc]).
  assert (Hin : forall k n c, 16 * Z.of_nat k + Z.of_nat n <= R -> (n <= 16)%nat -> 0 <= before (colo 1) coli k c /\ before (colo 1) coli k c + Z.of_nat n <= blen (colb 1 zb c)).
  { intros k n c H1 H2. apply in_block with (N := R); lia. }
  assert (Hcols : forall c k, (c < 4)%nat -> (k < piecesd R)%nat -> 0 <= before (colo 1) coli k c /\ before (colo 1) coli k c + 16 <= blen (colb 1 zb c)).
  { intros c k _ Hk. change (piecesd R) with (pieces R) in Hk. apply (Hin k 16%nat c); lia. }
  assert (Htail : forall c, (c < 4)%nat -> 0 <= before (colo 1) coli (piecesd R) c /\ before (colo 1) coli (piecesd R) c + Z.of_nat (restd R) <= blen (colb 1 zb c)).
  { intros c _. change (piecesd R) with (pieces R). change (restd R) with (rest R). apply Hin; lia. }
  assert (Hp : 0 <= po /\ (forall k, (k < piecesd R)%nat -> po + 128 * Z.of_nat k + 112 <= blen (enc 1 (p_data p))) /\
    (forall j, (4 * j < restd R)%nat -> po + 128 * Z.of_nat (piecesd R) + 32 * Z.of_nat j + 16 <= blen (enc 1 (p_data p)))).
  { split; [exact Hpo|]. cbn [enc blen]. unfold fours in Hroom. change (piecesd R) with (pieces R). change (restd R) with (rest R). split.
    - intros k Hk. lia.
    - intros j Hj. assert (S j <= (rest R + 3) / 4)%nat by (apply Nat.div_le_lower_bound; lia). lia. }
  assert (P0 : xs s0 48 = Ptr packed_block po) by (cbn [s0 xs start_regs]; f_equal; ring).
  assert (A0 : argsd sums Rz zz s0) by (constructor; [reflexivity|exact ER|exact Ez]).
  assert (RUN : exists s', run (pack_fuel R) (if a55 then pack8_dotprod_a55 else pack8_dotprod) 0 s0 = Ok s' /\
    finished (mem s0) packed_block (outd_end (colb 1 zb) (colo 1) coli (enc 1 (p_data p)) po R zz ix) sums (sumd (colb 1 zb) (colo 1) coli R zz ix) (mem s')).
  { assert (PF : (4 * piecesd R <= Z.to_nat (R / 4))%nat).
    { change (piecesd R) with (pieces R). pose proof (Z.div_le_lower_bound R 4 (4 * Z.of_nat (pieces R)) ltac:(lia) ltac:(lia)). lia. }
    assert (Hsb : forall c, mem s0 (csbk cols bc c) = Bytes (colb 1 zb c)) by (intros c; apply csb_block).
    assert (Hby : forall c i, 0 <= bdat (colb 1 zb c) i < 256) by (apply csb_byte; unfold zb, wrap_u; apply Z.mod_pos_bound; lia).
    destruct a55.
    - pose proof (pack8_dotprod_a55_reach (mem s0) packed_block (csbk cols bc) (colb 1 zb) (colo 1) coli (enc 1 (p_data p)) po sums Rz R zz ix
        Hsb (csbk_other cols bc) (cinc_range cols bc) MR' HR Hcols Htail Hp Hby s0 C0 P0 A0 Ex M0 S0) as RC.
      destruct (reach_run _ _ _ _ _ (pack_fuel R) RC) as (s' & E & pc' & _ & F); [unfold pack_fuel; lia|intros pc' s' [X _]; exact X|]. exists s'. split; [exact E|exact F].
    - pose proof (pack8_dotprod_reach (mem s0) packed_block (csbk cols bc) (colb 1 zb) (colo 1) coli (enc 1 (p_data p)) po sums Rz R zz ix
        Hsb (csbk_other cols bc) (cinc_range cols bc) MR' HR Hcols Htail Hp s0 C0 P0 A0 Ex M0 S0) as RC.
      destruct (reach_run _ _ _ _ _ (pack_fuel R) RC) as (s' & E & pc' & _ & F); [unfold pack_fuel; lia|intros pc' s' [X _]; exact X|]. exists s'. split; [exact E|exact F]. }
  destruct RUN as (s' & E & F). rewrite E. cbn [bind].
  apply finished_result in F. destruct F as (F1 & s'' & F2 & F3). rewrite F1, F2.
  eexists _, zz, ix, _, _. split; [reflexivity|]. split; [apply mod_256; exact Mz|]. split.
  { rewrite (mod_256 _ _ Mx). apply Z.mod_small. unfold neon_xor. destruct (it_signed st); lia. }
  cbn [p_layout p_zp p_data p_sums]. split; [reflexivity|]. split; [reflexivity|]. split; [reflexivity|].
  split; [intros i; apply outd_end_dat; lia|]. split; [|split; [intros c Hc; apply sumd_nth; [lia|exact Hc]|exact F3]].
  apply full_sumd. lia.
Qed.

Lemma run_float : forall a55 g st p po, readable -> n_packed_ptr neon_float (pl_stride (p_layout p)) bc = Ok po -> 0 <= po ->
  4 * po + 32 * R <= 4 * blen (p_data p) + 16 -> p_sums p = None ->
  exists q d, neon_block neon_float a55 g st src bc p = Ok q /\
    p_layout q = p_layout p /\ p_zp q = p_zp p /\ p_data q = dec s32 (p_data p) d /\
    (forall i, bdat d i = placedt (colb 4 0) (colo 4) coli (4 * R) 0 0 (enc 4 (p_data p)) (4 * po) (Z.to_nat R) i) /\ p_sums q = None.
Proof using Type.
  intros a55 g st p po [HR Hbc Hst Hlen Hfit] Hi' Hpo Hroom Hsum.
  destruct (int_reg_mod g 50 R) as (Rz & ER & MR).
  assert (MR' : Rz mod 2 ^ 32 = R) by (rewrite MR; apply Z.mod_small; lia).
  assert (Hi : i32 (stride * bc) = Ok (stride * bc)) by (apply i32_ok; split; [unfold int_min; pose proof (Z.mul_nonneg_nonneg stride bc ltac:(lia) Hbc); lia|exact Hfit]).
  unfold neon_block. rewrite Hi. cbn [bind]. rewrite Hi'. cbn [bind neon_float n_size n_sums n_code n_type]. cbv zeta. rewrite Hsum.
  match goal with |- context [run _ _ 0 ?s] => set (s0 := s) end.
  destruct (piecesf_eq R ltac:(lia)) as [Q1 Q2]. destruct (bound_pieces (4 * R) ltac:(lia)) as [B1 B2].
  assert (C0 : cols_at (csbk cols bc) coli s0 (before (colo 4) coli 0)) by (eapply (columns_start 4 (stride * bc) stride cols bc neon_float); reflexivity).
  assert (M0 : changed (mem s0) packed_block (enc 4 (p_data p)) (mem s0)) by (split; reflexivity).
  assert (Hin : forall k n c, 16 * Z.of_nat k + Z.of_nat n <= 4 * R -> (n <= 16)%nat -> 0 <= before (colo 4) coli k c /\ before (colo 4) coli k c + Z.of_nat n <= blen (colb 4 0 c)).
  { intros k n c H1 H2. apply in_block with (N := 4 * R); lia. }
  assert (Hcols : forall c k, (c < 4)%nat -> (k < piecesf R)%nat -> 0 <= before (colo 4) coli k c /\ before (colo 4) coli k c + 16 <= blen (colb 4 0 c)).
  { intros c k _ Hk. apply (Hin k 16%nat c); lia. }
  assert (Htail : forall c, (c < 4)%nat -> 0 <= before (colo 4) coli (piecesf R) c /\ before (colo 4) coli (piecesf R) c + Z.of_nat (4 * restf R) <= blen (colb 4 0 c)).
  { intros c _. apply Hin; lia. }
  assert (Hp : 0 <= 4 * po /\ (forall k, (k < piecesf R)%nat -> 4 * po + 128 * Z.of_nat k + 112 <= blen (enc 4 (p_data p))) /\
    (forall j, (j < restf R)%nat -> 4 * po + 128 * Z.of_nat (piecesf R) + 32 * Z.of_nat j + 16 <= blen (enc 4 (p_data p)))).
  { split; [lia|]. cbn [enc blen]. split; intros k Hk; lia. }
  assert (P0 : xs s0 48 = Ptr packed_block (4 * po)) by (cbn [s0 xs start_regs]; f_equal; ring).
  assert (RUN : exists s', run (pack_fuel R) (if a55 then packf_neon_a55 else packf_neon) 0 s0 = Ok s' /\
    changed (mem s0) packed_block (outf_end (colb 4 0) (colo 4) coli (enc 4 (p_data p)) (4 * po) R) (mem s')).
  { assert (PF : (piecesf R <= Z.to_nat (R / 4))%nat) by (unfold piecesf; lia).
    assert (Hsb : forall c, mem s0 (csbk cols bc c) = Bytes (colb 4 0 c)) by (intros c; apply csb_block).
    assert (Hby : forall c i, 0 <= bdat (colb 4 0 c) i < 256) by (apply csb_byte; lia).
    destruct a55.
    - pose proof (packf_neon_a55_reach (mem s0) packed_block (csbk cols bc) (colb 4 0) (colo 4) coli (enc 4 (p_data p)) (4 * po) Rz R
        Hsb (csbk_other cols bc) (cinc_range cols bc) MR' HR Hcols Htail Hp Hby s0 C0 P0 ER M0) as RC.
      destruct (reach_run _ _ _ _ _ (pack_fuel R) RC) as (s' & E & pc' & _ & F); [unfold pack_fuel; lia|intros pc' s' [X _]; exact X|]. exists s'. split; [exact E|exact F].
    - pose proof (packf_neon_reach (mem s0) packed_block (csbk cols bc) (colb 4 0) (colo 4) coli (enc 4 (p_data p)) (4 * po) Rz R
        Hsb (csbk_other cols bc) (cinc_range cols bc) MR' HR Hcols Htail Hp s0 C0 P0 ER M0) as RC.
      destruct (reach_run _ _ _ _ _ (pack_fuel R) RC) as (s' & E & pc' & _ & F); [unfold pack_fuel; lia|intros pc' s' [X _]; exact X|]. exists s'. split; [exact E|exact F]. }
  destruct RUN as (s' & E & F1 & F2). rewrite E. cbn [bind]. rewrite F1, F2 by discriminate. cbn [s0 mem pack_memory sums_block option_map].
  unfold empty_block. eexists _, _. split; [reflexivity|]. cbn [p_layout p_zp p_data p_sums]. split; [reflexivity|]. split; [reflexivity|]. split; [reflexivity|].
  split; [intros i; apply outf_end_dat; lia|reflexivity].
Qed.
End Call.
