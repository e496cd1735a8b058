(** The x86 packing functions pack. *)
From Coq Require Import ZArith List Bool Lia.
From Verif Require Import Base SidePair SizeUtilFacts BlockMapFacts Mat MatFacts Scalars IntOps Pack SpecMatrix SpecPack PackFacts PackProps MulParams Kernel Simd
  MemcpyPackFacts Kernel8bit Kernel8bitIsa Kernel8bitFacts PackX86 PackX86Laws PackX86Facts PackX86Block SpecPackX86.
Import ListNotations.
Open Scope Z_scope.

Section Cols.
Variables (k : col_packer) (slots : list nat) (rep : list vec -> (nat -> Z) -> Prop).
Hypothesis K : col_laws k slots rep.
Let W := c_width k.
Let w := c_size k.
Let pt := packed_type k.
Variables (dbg : bool) (st : ity) (src : mat Z) (p : pmat Z) (a b : Z).
Hypothesis Hst : st = u8 /\ w = 1%nat \/ it_signed st = true.
Hypothesis Hcol : ml_order (m_layout src) = ColMajor.
Hypothesis Hcall : pack_call W pt src p a b.

Let rows := ml_rows (m_layout src).
Let cols := ml_cols (m_layout src).
Let stride := ml_stride (m_layout src).
Let r4 := rows4 rows.
Let xor := input_xor_of st.
Let zp := p_zp p.
Let z := it_conv pt (Z.lxor zp xor).
Let pv := P k xor.

Lemma pW : W = 8 \/ W = 16.
Proof. exact (width_cases _ _ _ K). Qed.

Lemma xor_good : good_xor w xor.
Proof. unfold good_xor, xor, input_xor_of. destruct Hst as [[-> Hw]| ->]; [right; split; [exact Hw|reflexivity]|left; reflexivity]. Qed.

Lemma bits_range : forall x, in_bits (8 * Z.of_nat w) x <-> it_lo pt <= x <= it_hi pt.
Proof.
  intros x. unfold pt, packed_type, in_bits. fold w. destruct (rows_cases _ _ _ K) as [[E _]|[E _]]; fold w in E; rewrite E; cbn [Nat.eqb].
  - change (2 ^ (8 * Z.of_nat 1 - 1)) with 128. change (it_lo s8) with (-128). change (it_hi s8) with 127. lia.
  - change (2 ^ (8 * Z.of_nat 2 - 1)) with 32768. change (it_lo s16) with (-32768). change (it_hi s16) with 32767. lia.
Qed.

Lemma ptype_conv : forall x, it_conv pt x = wrap_s (8 * Z.of_nat w) x.
Proof.
  intros x. unfold pt, packed_type. fold w. destruct (rows_cases _ _ _ K) as [[E _]|[E _]]; fold w in E; rewrite E; reflexivity.
Qed.

Lemma z_bits : in_bits (8 * Z.of_nat w) z.
Proof. apply bits_range. apply it_conv_range. unfold pt, packed_type. destruct (Nat.eqb _ _); reflexivity. Qed.

(** The zero point, packed back. *)
Lemma pv_z : pv z = zp.
Proof.
  destruct Hcall as (_ & _ & Hzp & _). fold zp in Hzp. unfold pv, P, pconv, z. fold w.
  rewrite ptype_conv.
  pose proof (proj2 (bits_range zp) Hzp) as B. destruct xor_good as [E | [Hw E]]; rewrite E.
  - rewrite Z.lxor_0_r, Z.add_0_r. assert (Hpos : 0 < 8 * Z.of_nat w) by (destruct (rows_cases _ _ _ K) as [[E1 _]|[E1 _]]; fold w in E1; rewrite E1; reflexivity).
    rewrite !(Base.wrap_s_id _ zp); try assumption; try (unfold in_bits, smin, smax in *; lia).
  - rewrite Hw in *. change (8 * Z.of_nat 1) with 8 in *. unfold in_bits in B. change (2 ^ (8 - 1)) with 128 in B.
    assert (T : forallb (fun x => wrap_s 8 (wrap_s 8 (Z.lxor x (-128)) + -128) =? x) (zrange (-128) 128) = true) by (vm_compute; reflexivity).
    rewrite forallb_forall in T. apply Z.eqb_eq. apply T. apply zrange_In. lia.
Qed.

Lemma pv_value : forall x, pv x = it_conv pt (x - middle st).
Proof.
  intros x. rewrite ptype_conv. unfold pv, P, pconv. fold w. f_equal.
  unfold xor, input_xor_of, middle. destruct Hst as [[-> _]| ->]; [change (2 ^ (it_bits u8 - 1)) with 128; cbn [it_signed u8]; lia|lia].
Qed.

(** ** Layout *)
Lemma r4_rows : pl_rows (p_layout p) = r4.
Proof.
  destruct Hcall as (_ & ((_ & _ & _ & RU & _) & _) & _). cbn [blocks_of kl_rows] in RU. unfold r4, rows4. destruct RU as [[n E] [R1 R2]]. fold rows in R1, R2.
  rewrite E in *. clear - R1 R2. pose proof (Z.div_mod (rows + 3) 4 ltac:(lia)). pose proof (Z.mod_pos_bound (rows + 3) 4 ltac:(lia)). lia.
Qed.

Lemma layout_facts : 0 <= rows /\ 0 <= cols /\ rows <= stride /\ stride * cols <= int_max /\ stride * cols <= blen (m_data src) /\
  r4 * pl_cols (p_layout p) <= int_max /\ r4 * pl_cols (p_layout p) <= blen (p_data p) /\ pl_stride (p_layout p) = r4 /\ rows <= r4 <= int_max /\ (4 | r4) /\
  (W | pl_cols (p_layout p)) /\ cols <= pl_cols (p_layout p) < cols + W.
Proof.
  destruct Hcall as (((V1 & V2 & V3 & V4) & V5) & ((_ & _ & L3 & L4 & L5 & L6 & L7 & L8) & L9 & _) & _).
  unfold inner_size, outer_size in *. rewrite Hcol in *. rewrite r4_rows in *. cbn [blocks_of kl_rows kl_cols] in *. destruct L4 as [D4 R4]. destruct L5 as [D5 R5].
  unfold rows, cols, stride in *. repeat split; try assumption; lia.
Qed.

Lemma poff_block : forall r c, poff (p_layout p) r c = r4 * (c / W * W) + (4 * W * (r / 4) + 4 * (c mod W) + r mod 4).
Proof.
  intros r c. unfold poff. destruct Hcall as (_ & ((E & _) & _) & _). rewrite E, r4_rows. cbn [blocks_of kl_rows kl_cols kl_order]. ring.
Qed.

Lemma cell_at : forall v r c, 0 <= r -> cell k v (4 * W * (r / 4) + 4 * (c mod W) + r mod 4) = v (c mod W) r /\
  (4 * W * (r / 4) + 4 * (c mod W) + r mod 4) mod (4 * W) / 4 = c mod W.
Proof.
  intros v r c Hr. unfold cell. fold W. pose proof pW as HW. pose proof (Z.mod_pos_bound c W ltac:(lia)). pose proof (Z.mod_pos_bound r 4 ltac:(lia)) as M.
  pose proof (Z.div_mod r 4 ltac:(lia)) as D.
  set (e := 4 * (c mod W) + r mod 4). assert (0 <= e < 4 * W) by (unfold e; lia).
  replace (4 * W * (r / 4) + 4 * (c mod W) + r mod 4) with (e + r / 4 * (4 * W)) by (unfold e; lia).
  rewrite Z.mod_add by lia. rewrite Z.div_add by lia. rewrite (Z.mod_small e (4 * W)), (Z.div_small e (4 * W)) by lia.
  replace (e / 4) with (c mod W) by (symmetry; unfold e; symmetry; apply (Z.div_unique _ _ _ (r mod 4)); lia).
  replace (e mod 4) with (r mod 4) by (unfold e; apply (Z.mod_unique _ _ (c mod W)); lia). split; [f_equal; lia|reflexivity].
Qed.

(** ** The loop *)
Definition block_val (bc : Z) := val (m_data src) z (stride * bc) stride (cols - bc) rows.

Record upto (e : Z) (data : buf Z) (sums : option (buf Z)) : Prop := {
  u_len : blen data = blen (p_data p);
  u_out : forall q, ~ (r4 * a <= q < r4 * e) -> bdat data q = bdat (p_data p) q;
  u_in : forall bc q, (W | bc) -> a <= bc < e -> 0 <= q - r4 * bc < W * r4 -> in_bits (8 * Z.of_nat w) (bdat data q) /\
    ((q - r4 * bc) mod (4 * W) / 4 < cols - bc -> bdat data q = pv (cell k (block_val bc) (q - r4 * bc)));
  u_sums : match p_sums p, sums with
    | None, None => True
    | Some s, Some s' => blen s' = blen s /\
        (forall bc c, (W | bc) -> a <= bc < e -> 0 <= c < W -> c < cols - bc ->
           bdat s' (bc + c) = wrap_s 32 (psum k (m_data src) z xor (stride * bc) stride (cols - bc) rows r4 c)) /\
        forall q, ~ (a <= q < e) -> bdat s' q = bdat s q
    | _, _ => False
    end
}.

Lemma blocks_valid : valid_kernel_layout (blocks_of W).
Proof.
  unfold valid_kernel_layout. cbn [blocks_of kl_rows kl_cols]. split; [exists 2; lia|]. destruct pW as [-> | ->]; (split; [|lia]); [exists 3|exists 4]; lia.
Qed.

Lemma block_value : forall r c, 0 <= r -> 0 <= c < cols -> pv (block_val (c / W * W) (c mod W) r) = packed_value st pt src zp r c.
Proof.
  intros r c Hr Hc. unfold block_val, val, packed_value. fold rows. pose proof pW as HW. pose proof (Z.div_mod c W ltac:(clear - HW; lia)) as D.
  replace (c mod W <? cols - c / W * W) with true by (symmetry; apply Z.ltb_lt; clear - D Hc; lia). cbn [andb].
  destruct (r <? rows) eqn:E; [|apply pv_z]. rewrite pv_value. f_equal. f_equal. unfold entry, position. rewrite Hcol. fold stride. f_equal. clear - D. nia.
Qed.

Lemma block_of : forall c e, (W | a) -> (W | e) -> a <= c < e -> (W | c / W * W) /\ a <= c / W * W < e.
Proof.
  intros c e [na ->] [ne ->] Hc. pose proof pW as HW. pose proof (Z.div_mod c W ltac:(clear - HW; lia)) as D. pose proof (Z.mod_pos_bound c W ltac:(clear - HW; lia)) as M.
  split; [exists (c / W); reflexivity|]. clear - D M Hc HW. set (q := c / W) in *. assert (na <= q) by nia. nia.
Qed.

Lemma offset_in : forall r c, 0 <= r < r4 -> 0 <= 4 * W * (r / 4) + 4 * (c mod W) + r mod 4 < W * r4.
Proof.
  intros r c Hr. pose proof pW as HW. pose proof (Z.mod_pos_bound c W ltac:(clear - HW; lia)) as M. pose proof (Z.mod_pos_bound r 4 ltac:(lia)) as M4.
  pose proof (Z.div_mod r 4 ltac:(lia)) as D. assert (r / 4 < r4 / 4) by (unfold r4, rows4 in *; rewrite Z.mul_comm, Z.div_mul by lia; rewrite Z.mul_comm in Hr; apply Z.div_lt_upper_bound; lia).
  assert (r4 = 4 * (r4 / 4)) by (unfold r4, rows4; rewrite (Z.mul_comm 4), Z.div_mul by lia; ring). assert (0 <= r / 4) by (apply Z.div_pos; lia). clear - M M4 H H0 H1 HW. nia.
Qed.

Lemma covered_cell : forall q, (W | a) -> (W | b) -> r4 * a <= q < r4 * b -> 0 <= a -> exists r c, 0 <= r < r4 /\ a <= c < b /\ poff (p_layout p) r c = q.
Proof.
  intros q [na Ea] [nb Eb] Hq Ha. pose proof pW as HW.
  assert (Hr4 : 0 < r4) by (destruct (layout_facts) as (F1 & _ & _ & _ & _ & _ & _ & _ & F9 & _); destruct (Z.eq_dec r4 0) as [Z0|Z0]; [rewrite Z0 in Hq; clear - Hq; lia|clear - F1 F9 Z0; lia]).
  set (n := q / (W * r4)). set (d := q mod (W * r4)).
  assert (D : q = W * r4 * n + d) by (apply Z.div_mod; clear - HW Hr4; nia). assert (Hd : 0 <= d < W * r4) by (apply Z.mod_pos_bound; clear - HW Hr4; nia).
  assert (Hn : na <= n < nb) by (subst a b; clear - D Hd Hq HW Hr4; nia).
  set (m := d / (4 * W)). set (e := d mod (4 * W)).
  assert (D2 : d = 4 * W * m + e) by (apply Z.div_mod; clear - HW; lia). assert (He : 0 <= e < 4 * W) by (apply Z.mod_pos_bound; clear - HW; lia).
  pose proof (Z.div_mod e 4 ltac:(lia)) as D3. pose proof (Z.mod_pos_bound e 4 ltac:(lia)) as M3.
  assert (R4 : r4 = 4 * ((rows + 3) / 4)) by reflexivity.
  assert (Hm : 0 <= m < (rows + 3) / 4) by (clear - D2 He Hd R4 HW; nia).
  exists (4 * m + e mod 4), (n * W + e / 4).
  assert (Ec : 0 <= e / 4 < W) by (clear - D3 M3 He; lia).
  split; [clear - Hm R4 M3; lia|]. split; [subst a b; clear - Hn Ec; nia|].
  rewrite poff_block.
  replace ((n * W + e / 4) / W) with n by (apply (Z.div_unique _ _ _ (e / 4)); [left; exact Ec|ring]).
  replace ((n * W + e / 4) mod W) with (e / 4) by (apply (Z.mod_unique _ _ n); [left; exact Ec|ring]).
  replace ((4 * m + e mod 4) / 4) with m by (apply (Z.div_unique _ _ _ (e mod 4)); [left; exact M3|ring]).
  replace ((4 * m + e mod 4) mod 4) with (e mod 4) by (apply (Z.mod_unique _ _ m); [left; exact M3|ring]).
  rewrite D, D2. clear - D3. nia.
Qed.

Hypothesis Hover : W = 16 -> p_sums p <> None -> int_min <= p_zp p * pl_rows (p_layout p) <= int_max.

Lemma pack_col_loop : exists q, pack_col_x86 dbg k st src p a b = Ok q /\ p_layout q = p_layout p /\ p_zp q = zp /\ upto b (p_data q) (p_sums q).
Proof.
  destruct layout_facts as (F1 & F2 & F3 & F4 & F5 & F6 & F7 & F8 & F9 & F10 & F11 & F12).
  pose proof Hcall as (_ & ((_ & Ho & _) & _ & Ls) & Hzp & Hab & Hb & [na Ea] & [nb Eb]).
  assert (HW : W = 8 \/ W = 16) by exact pW. assert (Hpm : pl_cols (p_layout p) <= int_max) by (destruct Hcall as (_ & ((_ & _ & _ & _ & _ & _ & L7 & _) & _) & _); exact L7). assert (Hbm : b <= int_max) by lia.
  unfold pack_col_x86. rewrite Hcol, Ho. rewrite !dcheck_ok by reflexivity. cbn [bind].
  rewrite i32_ok by (unfold int_min; lia). cbn [bind]. fold W.
  rewrite dcheck_ok by (rewrite Z.rem_mod_nonneg by lia; rewrite Ea, Eb; replace (nb * W - na * W) with ((nb - na) * W) by lia; rewrite Z.mod_mul by lia; reflexivity).
  cbn [bind]. rewrite dcheck_ok by (rewrite Z.rem_mod_nonneg by lia; rewrite Ea, Z.mod_mul by lia; reflexivity). cbn [bind]. cbv zeta.
  fold rows cols stride xor zp pt z.
  match goal with |- context [forstep a b W ?f ?s] => set (body := f); set (s0 := s) end.
  assert (G : exists s, forstep a b W body s0 = Ok s /\ upto b (fst s) (snd s)).
  { unfold forstep. assert (EN : (b - a + W - 1) / W = nb - na).
    { symmetry. apply (Z.div_unique _ _ _ (W - 1)); [lia|]. rewrite Ea, Eb. lia. }
    rewrite EN. replace (upto b) with (upto (a + (nb - na) * W)) by (f_equal; rewrite Ea, Eb; lia).
    apply (forto_inv (fun t s => upto (a + t * W) (fst s) (snd s))).
    - clear - Ea Eb Hab HW. nia.
    - unfold s0. cbn [fst snd]. rewrite Z.mul_0_l, Z.add_0_r. constructor.
      + reflexivity.
      + intros q _. reflexivity.
      + intros bc q _ H. clear - H. lia.
      + destruct (p_sums p); [|exact Logic.I]. split; [reflexivity|]. split; [intros bc c _ H; clear - H; lia|reflexivity].
    - intros t [data sums] Ht U. cbn [fst snd] in U. unfold body. set (bc := a + t * W).
      assert (Hbc : 0 <= bc /\ bc + W <= b /\ a <= bc) by (unfold bc; clear - Hab Ht Ea Eb HW; nia).
      assert (Hdiv : (W | bc)) by (exists (na + t); unfold bc; rewrite Ea; ring).
      assert (Hbcols : bc < cols) by (clear - F12 Hbc Hb; lia).
      assert (Hmul : stride * bc + stride <= stride * cols) by (clear - F1 F3 Hbcols; nia).
      assert (Hr4 : r4 * bc + W * r4 <= r4 * pl_cols (p_layout p)) by (clear - F1 F9 Hb Hbc; nia).
      assert (Hr40 : 0 <= r4 * bc /\ 0 <= stride * bc) by (clear - F1 F3 F9 Hbc; nia).
      rewrite i32_ok by (clear - Hr40 Hmul F1 F3 F4; unfold int_min; lia). cbn [bind].
      rewrite i32_ok by (clear - Hbcols Hbc F12 Hpm; unfold int_min; lia). cbn [bind].
      rewrite F8. replace (Z.land bc (Z.lnot (W - 1))) with bc.
      2: { destruct Hdiv as [m ->]. destruct HW as [E|E]; rewrite E; [change 8 with (2 ^ 3) | change 16 with (2 ^ 4)];
             rewrite land_lnot_pow2 by lia; rewrite Z.div_mul by (intro; discriminate); ring. }
      rewrite i32_ok by (clear - Hr40 Hr4 F6 HW F1 F9; unfold int_min; nia). cbn [bind].
      destruct (pack_block_ok k slots rep K dbg (m_data src) (const_buf 32 z) data z xor (stride * bc) stride (cols - bc) rows (r4 * bc) bc sums)
        as (data' & sums' & E & C & S).
      + exact xor_good.
      + reflexivity.
      + cbn [const_buf blen]. lia.
      + exact z_bits.
      + exact F1.
      + intros c Hc1 Hc2. clear - Hc1 Hc2 F1 F3 F5 Hr40 Hbc. assert (stride * (bc + c) + stride <= stride * cols) by nia. nia.
      + apply Hr40.
      + fold W r4. rewrite (u_len _ _ _ U). clear - Hr4 F7. lia.
      + apply Hbc.
      + fold W. intros s Es. subst sums. pose proof (u_sums _ _ _ U) as US. destruct (p_sums p) as [s0'|] eqn:Es0; [|destruct US]. destruct US as [US _].
        specialize (Ls s0' eq_refl). rewrite US. clear - Ls Hbc Hb. lia.
      + clear - Hbcols. lia.
      + split.
        * destruct F10 as [m Em]. clear - F9 Em. unfold int_max in *. lia.
        * fold W. pose proof (Z.mul_div_le rows (c_rows k)) as N5. assert (0 < c_rows k) by (destruct (rows_cases _ _ _ K) as [[_ ->]|[_ ->]]; reflexivity).
          specialize (N5 H). clear - N5 Hr4 Hr40 F6 F9 HW. nia.
      + intros _ H8. clear - H8 Hbcols F1 F3 F4 Hbc. unfold int_min. nia.
      + fold W pv r4. intros H16 _ Hs. rewrite pv_z. fold zp. rewrite <- r4_rows. apply Hover; [exact H16|].
        pose proof (u_sums _ _ _ U) as US. destruct (p_sums p); [discriminate|]. destruct sums; [destruct US|]. contradiction.
      + rewrite E. exists (data', sums'). split; [reflexivity|]. cbn [fst snd].
        unfold copied in C. fold W w r4 pv in C. destruct C as (C1 & C2 & C3). unfold sums_done in S. fold W r4 in S.
        replace (a + (t + 1) * W) with (bc + W) by (unfold bc; lia). replace (a + t * W) with bc in U by reflexivity. constructor.
        * rewrite C1. apply (u_len _ _ _ U).
        * intros q Hq. rewrite C2 by (clear - Hq Hbc F1 F9; nia). apply (u_out _ _ _ U). clear - Hq HW F1 F9. nia.
        * intros bc' q Hd' Hbc' Hq. destruct (Z.eq_dec bc' bc) as [->|Hne].
          -- apply (C3 q Hq).
          -- assert (Hlt : bc' + W <= bc) by (destruct Hd' as [m' ->]; destruct Hdiv as [m Em]; clear - Em Hbc' Hne HW; nia).
             rewrite C2 by (clear - Hq Hlt F1 F9; nia). apply (u_in _ _ _ U); [exact Hd'|clear - Hbc' Hlt HW; lia|exact Hq].
        * pose proof (u_sums _ _ _ U) as US. destruct (p_sums p) as [s0'|]; destruct sums as [s1|]; try (destruct US; fail).
          2: { destruct sums' as [s2|]; [destruct S|exact Logic.I]. }
          destruct sums' as [s2|]; [|destruct S]. destruct US as (US1 & US2 & US3). destruct S as (S1 & S2 & S3). split; [congruence|]. split.
          -- intros bc' c Hd' Hbc' Hc Hcr. destruct (Z.eq_dec bc' bc) as [->|Hne].
             ++ apply S2; assumption.
             ++ assert (Hlt : bc' + W <= bc) by (destruct Hd' as [m' ->]; destruct Hdiv as [m Em]; clear - Em Hbc' Hne HW; nia).
                rewrite S3 by (clear - Hc Hlt; lia). apply US2; try assumption. clear - Hbc' Hlt HW. lia.
          -- intros q Hq. rewrite S3 by (clear - Hq Hbc; lia). apply US3. clear - Hq HW. lia. }
  destruct G as ([data sums] & E & U). rewrite E. cbn [bind]. eexists. split; [reflexivity|]. cbn [p_layout p_zp p_data p_sums]. split; [reflexivity|]. split; [reflexivity|]. exact U.
Qed.

Theorem pack_col_packed : exists q, pack_col_x86 dbg k st src p a b = Ok q /\ columns_packed st pt src a b p q.
Proof.
  destruct pack_col_loop as (q & E & EL & EZ & U). exists q. split; [exact E|]. clear E.
  pose proof Hcall as (HV & HP & Hzp & Hab & Hb & Da & Db). pose proof pW as HW. destruct layout_facts as (F1 & F2 & F3 & F4 & F5 & F6 & F7 & F8 & F9 & F10 & F11 & F12).
  assert (PO : pmat_ok p) by (apply (packed_for_ok src (blocks_of W)); [exact blocks_valid|exact HV|exact HP]).
  pose proof (pmo_layout _ PO) as PL.
  assert (Hin : forall bc q', (W | bc) -> a <= bc < b -> 0 <= q' - r4 * bc < W * r4 -> in_bits (8 * Z.of_nat w) (bdat (p_data q) q')) by (intros bc q' H1 H2 H3; apply (u_in _ _ _ U bc q' H1 H2 H3)).
  constructor.
  - split; [exact EL|]. split; [exact EZ|]. apply (u_len _ _ _ U).
  - intros r c Hr Hc Hcc. unfold pelement. rewrite EL. rewrite poffset_ok; [|exact PL|exact Hr|clear - Hc Hab Hb; lia]. cbn [bind].
    pose proof (poff_range (p_layout p) r c PL Hr ltac:(clear - Hc Hab Hb; lia)) as R. rewrite bread_ok by (rewrite (u_len _ _ _ U); rewrite r4_rows in R; clear - R F7; lia).
    f_equal. destruct (block_of c b Da Db Hc) as [B1 B2]. rewrite r4_rows in Hr. rewrite poff_block.
    destruct (u_in _ _ _ U (c / W * W) (r4 * (c / W * W) + (4 * W * (r / 4) + 4 * (c mod W) + r mod 4)) B1 B2) as [_ V].
    + rewrite Z.add_simpl_l. apply offset_in. exact Hr.
    + rewrite Z.add_simpl_l in V. destruct (cell_at (block_val (c / W * W)) r c (proj1 Hr)) as [C1 C2]. rewrite C1, C2 in V. rewrite V.
      * apply block_value; [apply Hr|clear - Hc Hab Hcc; unfold cols; lia].
      * pose proof (Z.div_mod c W ltac:(clear - HW; lia)) as D. fold cols in Hcc. clear - D Hcc. lia.
  - pose proof (u_sums _ _ _ U) as US. destruct (p_sums p) as [s|]; destruct (p_sums q) as [s'|]; try exact US. destruct US as (U1 & U2 & U3).
    split; [exact U1|]. split.
    + intros c Hc Hcc. fold cols in Hcc. destruct (block_of c b Da Db Hc) as [B1 B2]. pose proof (Z.div_mod c W ltac:(clear - HW; lia)) as D. pose proof (Z.mod_pos_bound c W ltac:(clear - HW; lia)) as M.
      replace c with (c / W * W + c mod W) at 1 by (clear - D; lia). rewrite (U2 _ _ B1 B2 M) by (clear - D Hcc; lia).
      f_equal. unfold psum. f_equal. rewrite r4_rows. apply map_ext_in. intros r Hr. apply zrange_In in Hr.
      change (pv (block_val (c / W * W) (c mod W) r) = packed_value st pt src zp r c). apply block_value; [apply Hr|clear - Hc Hab Hcc; lia].
    + exact U3.
  - intros T i Hi. rewrite (u_len _ _ _ U) in Hi. destruct (Z_lt_le_dec i (r4 * a)) as [L|L]; [rewrite (u_out _ _ _ U) by (clear - L; lia); apply T; exact Hi|].
    destruct (Z_lt_le_dec i (r4 * b)) as [L'|L']; [|rewrite (u_out _ _ _ U) by (clear - L'; lia); apply T; exact Hi].
    destruct (covered_cell i Da Db (conj L L') (proj1 Hab)) as (r & c & Hr & Hc & Eo). apply bits_range. destruct (block_of c b Da Db Hc) as [B1 B2].
    rewrite poff_block in Eo. apply (Hin (c / W * W)); [exact B1|exact B2|]. rewrite <- Eo, Z.add_simpl_l. apply offset_in. exact Hr.
  - intros i Hi. apply (u_out _ _ _ U). intros L. destruct (covered_cell i Da Db L (proj1 Hab)) as (r & c & Hr & Hc & Eo). apply (Hi r c).
    + rewrite r4_rows. exact Hr.
    + exact Hc.
    + rewrite poffset_ok; [rewrite Eo; reflexivity|exact PL|rewrite r4_rows; exact Hr|clear - Hc Hab Hb; lia].
Qed.
End Cols.
