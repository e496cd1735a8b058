(** The instruction sequences of the 8-bit kernels for AVX-512. *)
From Coq Require Import ZArith List Bool Lia.
From Verif Require Import Base SidePair Mat Scalars IntOps MulParams Simd SimdRequant SimdFacts RequantFacts Avx512Facts
  Kernel8bit Kernel8bitAvx Kernel8bitIsa Kernel8bitAvx2Facts.
Import ListNotations.
Open Scope Z_scope.

(** Truncation keeps the low bytes of each lane. *)
Lemma cvt_words : forall l, cvtepi32_epi16 (of_lanes 4 l) = of_lanes 2 l.
Proof.
  intros l. unfold cvtepi32_epi16. rewrite slanes_of_lanes by lia. apply of_lanes_ext. rewrite map_map. apply map_ext. intros x.
  change (8 * Z.of_nat 4) with 32. change (8 * Z.of_nat 2) with 16. destruct (wrap_s32_form x) as [k ->]. unfold wrap_u.
  replace (x + k * 2 ^ 32) with (x + k * 2 ^ 16 * 2 ^ 16) by lia. apply Z.mod_add. discriminate.
Qed.
Lemma cvt_bytes : forall l, cvtepi32_epi8 (of_lanes 4 l) = of_lanes 1 l.
Proof.
  intros l. unfold cvtepi32_epi8. rewrite slanes_of_lanes by lia. apply of_lanes_ext. rewrite map_map. apply map_ext. intros x.
  change (8 * Z.of_nat 4) with 32. change (8 * Z.of_nat 1) with 8. destruct (wrap_s32_form x) as [k ->]. unfold wrap_u.
  replace (x + k * 2 ^ 32) with (x + k * 2 ^ 24 * 2 ^ 8) by lia. apply Z.mod_add. discriminate.
Qed.

(** The lanes of 32 bits of a list of bytes. *)
Fixpoint quads (l : list Z) : list Z :=
  match l with a :: b :: c :: d :: l => of_bytes [a mod 256; b mod 256; c mod 256; d mod 256] :: quads l | _ => [] end.
Fixpoint low_pairs (l : list Z) : list Z := match l with a :: b :: _ :: _ :: l => a :: b :: low_pairs l | _ => [] end.
Fixpoint high_pairs (l : list Z) : list Z := match l with _ :: _ :: c :: d :: l => c :: d :: high_pairs l | _ => [] end.

Lemma mod_bound256 : forall x, 0 <= x mod 256 < 256.
Proof. intros. apply Z.mod_pos_bound. lia. Qed.
Lemma byte_divs : forall a b c d, 0 <= a < 256 -> 0 <= b < 256 -> 0 <= c < 256 -> 0 <= d < 256 ->
  let q := of_bytes [a; b; c; d] in
  q mod 256 = a /\ q / 256 mod 256 = b /\ q / 256 / 256 mod 256 = c /\ q / 256 / 256 / 256 mod 256 = d /\ q / 2 ^ 16 = c + 256 * d /\ 0 <= q < 2 ^ 32.
Proof.
  intros a b c d Ha Hb Hc Hd q.
  assert (E1 : q / 256 = b + 256 * (c + 256 * d)) by (symmetry; apply Z.div_unique with a; [lia | unfold q; cbn [of_bytes]; lia]).
  assert (E2 : q / 256 / 256 = c + 256 * d) by (rewrite E1; symmetry; apply Z.div_unique with b; lia).
  assert (E3 : q / 256 / 256 / 256 = d) by (rewrite E2; symmetry; apply Z.div_unique with c; lia).
  assert (E4 : q / 2 ^ 16 = c + 256 * d) by (change (2 ^ 16) with (256 * 256); rewrite <- Z.div_div by lia; exact E2).
  rewrite E3, E2, E1, E4. repeat split.
  - symmetry. apply Z.mod_unique with (b + 256 * (c + 256 * d)); [lia | unfold q; cbn [of_bytes]; lia].
  - symmetry. apply Z.mod_unique with (c + 256 * d); lia.
  - symmetry. apply Z.mod_unique with d; lia.
  - apply Z.mod_small. lia.
  - unfold q. cbn [of_bytes]. lia.
  - unfold q. cbn [of_bytes]. lia.
Qed.

Lemma quads_bytes : forall n l, length l = (4 * n)%nat -> of_lanes 1 l = of_lanes 4 (quads l).
Proof.
  induction n; intros l H.
  - destruct l; [reflexivity|discriminate].
  - destruct l as [|a [|b [|c [|d l]]]]; cbn [length] in H; try lia. cbn [quads]. rewrite !of_lanes_cons. cbn [bytes_of app].
    destruct (byte_divs _ _ _ _ (mod_bound256 a) (mod_bound256 b) (mod_bound256 c) (mod_bound256 d)) as (-> & -> & -> & -> & _).
    rewrite (IHn l) by lia. reflexivity.
Qed.

Lemma quads_low : forall n l, length l = (4 * n)%nat -> of_lanes 2 (quads l) = of_lanes 1 (low_pairs l).
Proof.
  induction n; intros l H.
  - destruct l; [reflexivity|discriminate].
  - destruct l as [|a [|b [|c [|d l]]]]; cbn [length] in H; try lia. cbn [quads low_pairs]. rewrite !of_lanes_cons. cbn [bytes_of app].
    destruct (byte_divs _ _ _ _ (mod_bound256 a) (mod_bound256 b) (mod_bound256 c) (mod_bound256 d)) as (-> & -> & _).
    rewrite (IHn l) by lia. reflexivity.
Qed.

Lemma quads_high : forall n l, length l = (4 * n)%nat ->
  of_lanes 2 (map (fun x => wrap_u 32 x / 2 ^ 16) (quads l)) = of_lanes 1 (high_pairs l).
Proof.
  induction n; intros l H.
  - destruct l; [reflexivity|discriminate].
  - destruct l as [|a [|b [|c [|d l]]]]; cbn [length] in H; try lia. cbn [quads high_pairs map]. rewrite !of_lanes_cons.
    destruct (byte_divs _ _ _ _ (mod_bound256 a) (mod_bound256 b) (mod_bound256 c) (mod_bound256 d)) as (_ & _ & _ & _ & E & R).
    unfold wrap_u at 1. rewrite Z.mod_small by exact R. rewrite E. rewrite (IHn l) by lia. cbn [bytes_of app].
    pose proof (mod_bound256 c). pose proof (mod_bound256 d).
    replace ((c mod 256 + 256 * (d mod 256)) mod 256) with (c mod 256) by (apply Z.mod_unique with (d mod 256); lia).
    replace ((c mod 256 + 256 * (d mod 256)) / 256) with (d mod 256) by (apply Z.div_unique with (c mod 256); lia).
    rewrite (Z.mod_small (d mod 256)) by lia. reflexivity.
Qed.

Lemma Forall_low : forall (P : Z -> Prop) n l, length l = (4 * n)%nat -> Forall P l -> Forall P (low_pairs l) /\ Forall P (high_pairs l).
Proof.
  intros P. induction n; intros l H F.
  - destruct l; [split; constructor|discriminate].
  - destruct l as [|a [|b [|c [|d l]]]]; cbn [length] in H; try lia.
    inversion_clear F as [|? ? Pa F']. inversion_clear F' as [|? ? Pb F]. inversion_clear F as [|? ? Pc F']. inversion_clear F' as [|? ? Pd F].
    destruct (IHn l) as [G G']; [lia | exact F|]. cbn [low_pairs high_pairs]. split; repeat (apply Forall_cons; [assumption|]); assumption.
Qed.

Lemma avx512_split : forall l, length l = 64%nat -> Forall (in_bits 8) l ->
  avx512_split_lhs (of_lanes 1 l) = (of_lanes 2 (low_pairs l), of_lanes 2 (high_pairs l)).
Proof.
  intros l H F. unfold avx512_split_lhs. rewrite (quads_bytes 16) by exact H. rewrite srli_lanes by lia.
  change (8 * Z.of_nat 4) with 32. cbn [Z.ltb Z.compare Pos.compare Pos.compare_cont]. rewrite !cvt_words.
  rewrite (quads_low 16), (quads_high 16) by exact H.
  destruct (Forall_low _ 16 l H F). rewrite !cvt8_16 by assumption. reflexivity.
Qed.

Lemma extract256_bytes : forall l i, length l = 64%nat -> (i < 2)%nat ->
  extracti256 (of_lanes 1 l) i = of_lanes 1 (nth i [firstn 32 l; skipn 32 l] []).
Proof.
  intros l i H Hi. unfold extracti256. change 32%nat with (32 * 1)%nat at 1.
  assert (E : chunks 32 l = [firstn 32 l; skipn 32 l]).
  { rewrite <- (firstn_skipn 32 l) at 1. rewrite chunks_app by (try lia; rewrite firstn_length; lia). f_equal.
    rewrite <- (app_nil_r (skipn 32 l)) at 1. rewrite chunks_app by (try lia; rewrite skipn_length; lia). reflexivity. }
  rewrite pick_group by (try lia; rewrite E; cbn [length]; lia). rewrite E. reflexivity.
Qed.

Lemma avx512_rhs_ok : forall size r, rhs_size_ok true size -> length r = 64%nat -> Forall (in_bits (8 * size)) r ->
  avx512_rhs_data size (of_lanes (Z.to_nat size) r) = of_lanes 2 r.
Proof.
  intros size r [-> | [_ ->]] H F; unfold avx512_rhs_data; cbn [Z.eqb Pos.eqb]; [|reflexivity].
  change (Z.to_nat 1) with 1%nat. change (8 * 1) with 8 in F. rewrite !extract256_bytes by (try assumption; lia). cbn [nth].
  rewrite <- (firstn_skipn 32 r) in F. apply Forall_app in F. destruct F as [F1 F2].
  rewrite !cvt8_16 by assumption. rewrite <- of_lanes_app, firstn_skipn. reflexivity.
Qed.

(** The lanes of the products. *)
Lemma low_products : forall n l x y, length l = (4 * n)%nat ->
  pair_sums (map2 Z.mul (low_pairs l) (concat (repeat [x; y] n))) =
  map (fun i => nth (4 * i) l 0 * x + nth (4 * i + 1) l 0 * y) (seq 0 n).
Proof.
  induction n; intros l x y H.
  - destruct l; [reflexivity|discriminate].
  - destruct l as [|a [|b [|c [|d l]]]]; cbn [length] in H; try lia. cbn [repeat concat app low_pairs map2 pair_sums].
    rewrite IHn by lia. cbn [seq map]. f_equal. rewrite <- seq_shift, map_map. apply map_ext. intros i.
    replace (4 * S i)%nat with (S (S (S (S (4 * i))))) by lia. reflexivity.
Qed.
Lemma high_products : forall n l x y, length l = (4 * n)%nat ->
  pair_sums (map2 Z.mul (high_pairs l) (concat (repeat [x; y] n))) =
  map (fun i => nth (4 * i + 2) l 0 * x + nth (4 * i + 3) l 0 * y) (seq 0 n).
Proof.
  induction n; intros l x y H.
  - destruct l; [reflexivity|discriminate].
  - destruct l as [|a [|b [|c [|d l]]]]; cbn [length] in H; try lia. cbn [repeat concat app high_pairs map2 pair_sums].
    rewrite IHn by lia. cbn [seq map]. f_equal. rewrite <- seq_shift, map_map. apply map_ext. intros i.
    replace (4 * S i)%nat with (S (S (S (S (4 * i))))) by lia. reflexivity.
Qed.

Lemma map2_seq_add : forall (f g : nat -> Z) s n a, length a = n ->
  map2 Z.add (map2 Z.add a (map f (seq s n))) (map g (seq s n)) = map2 (fun i x => x + (f i + g i)) (seq s n) a.
Proof.
  intros f g s n. revert s. induction n; intros s a H; destruct a as [|x a]; try discriminate; [reflexivity|].
  cbn [seq map map2]. rewrite IHn by (injection H as H; exact H). f_equal. lia.
Qed.

Lemma avx512_column : forall l r j a, length a = 16%nat -> length l = 64%nat -> Forall (in_bits 8) l -> Forall (in_bits 16) r ->
  mul_add_column (of_lanes 2 (low_pairs l), of_lanes 2 (high_pairs l)) (dup_words 16 r (4 * j), dup_words 16 r (4 * j + 2)) (L4 a) =
  L4 (map2 (step_lane l r j) (seq 0 16) a).
Proof.
  intros l r j a Ha Hl Fl Fr. unfold mul_add_column. cbn [fst snd].
  destruct (Forall_low _ 16 l Hl (in8_in16 l Fl)). rewrite !madd_dup by assumption. rewrite !add_L4.
  rewrite low_products, high_products by exact Hl. rewrite map2_seq_add by exact Ha. f_equal. apply map2_ext. intros i x.
  unfold step_lane, dot4. replace (4 * j + 2 + 1)%nat with (4 * j + 3)%nat by lia. reflexivity.
Qed.

Lemma avx512_step_ok : forall size l r accs, rhs_size_ok true size -> length l = 64%nat -> length r = 64%nat ->
  Forall (in_bits 8) l -> Forall (in_bits (8 * size)) r -> length accs = 16%nat -> Forall (fun a => length a = 16%nat) accs ->
  avx512_step size (of_lanes 1 l) (of_lanes (Z.to_nat size) r) (map L4 accs) =
  map L4 (map2 (fun j a => map2 (step_lane l r j) (seq 0 16) a) (seq 0 16) accs).
Proof.
  intros size l r accs Hs Hl Hr Fl Fr Ha Fa. pose proof (in_size16 _ _ Hs Fr) as F16.
  unfold avx512_step. rewrite avx512_split, avx512_rhs_ok by assumption.
  replace (map (dup_pair 16 (of_lanes 2 r)) (seq 0 16)) with (map (fun j => (dup_words 16 r (4 * j), dup_words 16 r (4 * j + 2))) (seq 0 16)).
  - rewrite map2_map_l, map2_map_r, map_map2. eapply map2_ext_Forall; [exact Fa|]. intros j a La. apply avx512_column; assumption.
  - apply map_ext_in. intros j Hj. apply in_seq in Hj. unfold dup_pair.
    rewrite !pair_lane by (try assumption; rewrite Hr; try reflexivity; lia).
    replace (2 * (2 * j))%nat with (4 * j)%nat by lia. replace (2 * (2 * j + 1))%nat with (4 * j + 2)%nat by lia. reflexivity.
Qed.

Lemma avx512_step1_ok : forall size l r a, rhs_size_ok true size -> length l = 64%nat ->
  length r = Z.to_nat (if size =? 1 then 16 else 4) ->
  Forall (in_bits 8) l -> Forall (in_bits (8 * size)) r -> length a = 16%nat ->
  avx512_step1 size (of_lanes 1 l) (of_lanes (Z.to_nat size) r) (L4 a) = L4 (map2 (step_lane l r 0) (seq 0 16) a).
Proof.
  intros size l r a Hs Hl Hr Fl Fr Ha. pose proof (in_size16 _ _ Hs Fr) as F16. unfold avx512_step1. rewrite avx512_split by assumption.
  assert (E : avx512_rhs_data1 size (of_lanes (Z.to_nat size) r) = of_lanes 2 (firstn 4 r)).
  { destruct Hs as [-> | [_ ->]]; unfold avx512_rhs_data1; cbn [Z.eqb Pos.eqb] in Hr |- *.
    - change (Z.to_nat 16) with 16%nat in Hr. change (Z.to_nat 1) with 1%nat. change (8 * 1) with 8 in Fr.
      replace (low_bytes 8 (of_lanes 1 r)) with (of_lanes 1 (firstn 8 r)) by (dlist r; reflexivity).
      assert (F8 : Forall (in_bits 8) (firstn 8 r)) by (rewrite <- (firstn_skipn 8 r) in Fr; apply Forall_app in Fr; apply Fr).
      rewrite cvt8_16 by exact F8. dlist r. reflexivity.
    - change (Z.to_nat 4) with 4%nat in Hr. dlist r. reflexivity. }
  rewrite E. clear E.
  assert (F4 : Forall (in_bits 16) (firstn 4 r)) by (rewrite <- (firstn_skipn 4 r) in F16; apply Forall_app in F16; apply F16).
  assert (L : (4 <= length r)%nat) by (rewrite Hr; destruct (size =? 1); cbv; lia).
  assert (L' : length (firstn 4 r) = 4%nat) by (rewrite firstn_length; lia).
  unfold dup_pair. rewrite !pair_lane by (try assumption; rewrite L'; try reflexivity; lia).
  change (2 * (2 * 0))%nat with (4 * 0)%nat. change (2 * (2 * 0 + 1))%nat with (4 * 0 + 2)%nat.
  rewrite avx512_column by assumption. do 4 (destruct r as [|? r]; [cbn [length] in L; lia|]). reflexivity.
Qed.

(** Stores. *)
Lemma narrow_ok : forall t xs, dst_type t -> avx512_narrow t (L4 xs) = of_lanes (narrow_bytes t) xs.
Proof.
  intros t xs Ht. unfold avx512_narrow. destruct (bits_cases t Ht) as [[Hb Hw] | [[Hb Hw] | [Hb Hw]]]; rewrite Hb, Hw; cbn [Z.eqb Pos.eqb].
  - apply cvt_bytes.
  - apply cvt_words.
  - reflexivity.
Qed.

Lemma mask_write_low : forall k l i off b mask, (forall j, i <= j < i + Z.of_nat (length l) -> Z.testbit mask j = (j <? i + Z.of_nat k)) ->
  mask_write mask i l off b = write_list (firstn k l) (off + i) b.
Proof.
  intros k l. revert k. induction l as [|x l IH]; intros k i off b mask T; [rewrite firstn_nil; reflexivity|].
  cbn [mask_write]. cbn [length] in T. rewrite T by lia. destruct k as [|k].
  - rewrite (proj2 (Z.ltb_ge i (i + Z.of_nat 0))) by lia. cbn [bind firstn write_list]. rewrite (IH 0%nat).
    + rewrite firstn_O. reflexivity.
    + intros j Hj. rewrite T by lia. rewrite !(proj2 (Z.ltb_ge _ _)) by lia. reflexivity.
  - rewrite (proj2 (Z.ltb_lt i (i + Z.of_nat (S k)))) by lia. cbn [firstn write_list].
    destruct (bwrite b (off + i) x); cbn [bind]; try reflexivity. rewrite (IH k), Z.add_assoc; [reflexivity|].
    intros j Hj. rewrite T by lia. f_equal. lia.
Qed.

Lemma row_mask_bits : forall k j, 0 <= k <= 16 -> 0 <= j < 16 -> Z.testbit (wrap_u 16 (2 ^ k - 1)) j = (j <? k).
Proof.
  intros k j Hk Hj. unfold wrap_u. assert (0 < 2 ^ k <= 2 ^ 16) by (split; [apply Z.pow_pos_nonneg; lia | apply Z.pow_le_mono_r; lia]).
  rewrite Z.mod_small by lia. rewrite Z.sub_1_r. rewrite <- (Z.ones_equiv k).
  destruct (Z.ltb_spec j k); [apply Z.ones_spec_low; lia | apply Z.ones_spec_high; lia].
Qed.

Lemma avx512_store_ok : forall t k xs p b, dst_type t -> length xs = 16%nat -> 1 <= k <= 16 ->
  avx512_store t k (L4 xs) p b = write_list (map (it_conv t) (firstn (Z.to_nat k) xs)) p b.
Proof.
  intros t k xs p b Ht Hx Hk. unfold avx512_store.
  rewrite (proj2 (Z.leb_le 0 k)), (proj2 (Z.ltb_lt k 32)) by lia. cbn [andb]. unfold mask_storeu. rewrite narrow_ok by exact Ht.
  change (Z.to_nat (it_size t)) with (narrow_bytes t).
  rewrite chunks_of_lanes by (destruct Ht as [-> | [-> | [-> | ->]]]; cbv; lia). rewrite map_map.
  rewrite (map_ext _ (it_conv t)) by (intros; apply it_conv_bytes; exact Ht).
  rewrite (mask_write_low (Z.to_nat k)).
  - rewrite Z.add_0_r, firstn_map. reflexivity.
  - intros j Hj. rewrite map_length, Hx in Hj. rewrite row_mask_bits by lia. f_equal. lia.
Qed.

Lemma avx512_store_full_ok : forall t xs p b, dst_type t -> length xs = 16%nat ->
  avx512_store_full t (L4 xs) p b = write_list (map (it_conv t) xs) p b.
Proof. intros t xs p b Ht Hx. unfold avx512_store_full. rewrite narrow_ok by exact Ht. apply store_lanes. exact Ht. Qed.

Lemma avx512_requant_col_ok : forall ms es zp accs, length ms = 16%nat -> length es = 16%nat ->
  Forall is_mult ms -> Forall is_exp es -> length accs = 16%nat -> Forall (fun a => length a = 16%nat) accs ->
  avx512_requantize true (L4 ms) (L4 es) zp (map L4 accs)
  = map L4 (map3 (fun a m e => map (fun x => x86_lane x m e + zp) a) accs ms es).
Proof.
  intros ms es zp accs Hm He Fm Fe La Fa. unfold avx512_requantize. rewrite map2_map_r.
  assert (G : forall n s accs, (length accs = n)%nat -> (s + n = 16)%nat -> Forall (fun a => length a = 16%nat) accs ->
    map2 (fun c a => avx512_apply_multiplier_col (L4 ms) (L4 es) zp c (L4 a)) (zseq (Z.of_nat s) n) accs =
    map L4 (map3 (fun a m e => map (fun x => x86_lane x m e + zp) a) accs (skipn s ms) (skipn s es))).
  { clear accs La Fa. induction n; intros s accs La Hs Fa; destruct accs as [|a accs]; try discriminate; [reflexivity|].
    inversion_clear Fa as [|? ? Ha Fa']. cbn [zseq map2].
    assert (Em : skipn s ms = nth s ms 0 :: skipn (S s) ms).
    { clear - Hm Hs. assert (Hl : (s < length ms)%nat) by lia. clear Hm Hs. revert ms Hl. induction s; intros [|m ms] Hl; cbn [length] in Hl; try lia; [reflexivity|].
      cbn [skipn nth]. apply IHs. lia. }
    assert (Ee : skipn s es = nth s es 0 :: skipn (S s) es).
    { clear - He Hs. assert (Hl : (s < length es)%nat) by lia. clear He Hs. revert es Hl. induction s; intros [|m es] Hl; cbn [length] in Hl; try lia; [reflexivity|].
      cbn [skipn nth]. apply IHs. lia. }
    rewrite Em, Ee. cbn [map3 map]. f_equal.
    - unfold L4. rewrite avx512_lanes_col by (try assumption; lia). rewrite Nat2Z.id. reflexivity.
    - replace (Z.of_nat s + 1) with (Z.of_nat (S s)) by lia. apply IHn; [injection La as La; exact La | lia | exact Fa']. }
  apply (G 16%nat 0%nat accs La eq_refl Fa).
Qed.

Lemma avx512_ok : isa_ok avx512 true.
Proof.
  constructor; cbn [avx512 v_n v_align v_add v_sub v_mullo v_min v_max v_bias_col v_step v_load1 v_step1 v_requant v_requant1 v_store_full v_store].
  - right. reflexivity.
  - left. reflexivity.
  - intros. apply add_L4.
  - intros. apply sub_L4.
  - intros. apply mullo_L4.
  - intros. apply min_L4.
  - intros. apply max_L4.
  - intros bs j _ Hj. apply perm32. exact Hj.
  - exact avx512_step_ok.
  - intros size [-> | [_ ->]]; cbn [Z.eqb Pos.eqb]; lia.
  - exact avx512_step1_ok.
  - intros ms es zp accs Hm He Fm Fe La Fa. unfold avx512_requantize. rewrite !map_map. apply map_ext_Forall.
    eapply Forall_impl; [|exact Fa]. intros a Ha. apply avx512_lanes; assumption.
  - exact avx512_requant_col_ok.
  - intros ms es zp a H1 H2 H3 H4 H5. apply avx512_lanes; assumption.
  - exact avx512_store_full_ok.
  - exact avx512_store_ok.
Qed.
