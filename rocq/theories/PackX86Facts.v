(** The loops of the x86 packing functions for column-major sources. *)
From Coq Require Import ZArith List Bool Lia.
From Verif Require Import Base SidePair Mat MatFacts Scalars IntOps Pack SpecPack MulParams Kernel Simd SimdFacts MemcpyPackFacts Kernel8bit
  Kernel8bitIsa Kernel8bitAvx2Facts Kernel8bitFacts PackX86 PackX86Laws.
Import ListNotations.
Open Scope Z_scope.

Lemma wrap_s_in_bits : forall n z, 0 < n -> in_bits n (wrap_s n z).
Proof. intros n z H. unfold in_bits. pose proof (Base.wrap_s_range n z H). unfold smin, smax in *. lia. Qed.

Section Half.
Variables (k : col_packer) (slots : list nat) (rep : list vec -> (nat -> Z) -> Prop).
Hypothesis K : col_laws k slots rep.
Let W := c_width k.
Let R := c_rows k.
Let w := c_size k.

Lemma width_cases : W = 8 \/ W = 16.
Proof. destruct (cl_width _ _ _ K) as [[H _]|[H _]]; [left|right]; exact H. Qed.
Lemma rows_cases : (w = 1%nat /\ R = 32) \/ (w = 2%nat /\ R = 16).
Proof. unfold w, R, c_rows. destruct (cl_size _ _ _ K) as [->| ->]; [left|right]; split; reflexivity. Qed.
Lemma nrows : (32 / w)%nat = Z.to_nat R.
Proof. destruct rows_cases as [[-> ->]|[-> ->]]; reflexivity. Qed.
Lemma ptype : dst_type (packed_type k) /\ narrow_bytes (packed_type k) = w /\ forall z, it_conv (packed_type k) z = wrap_s (8 * Z.of_nat w) z.
Proof.
  unfold packed_type. fold w. destruct rows_cases as [[-> _]|[-> _]]; (split; [|split]); try reflexivity; unfold dst_type; auto.
Qed.
Lemma R4 : R mod 4 = 0 /\ 4 <= R <= 32.
Proof. destruct rows_cases as [[_ ->]|[_ ->]]; split; try reflexivity; lia. Qed.

(** The cell at offset [d] of a block: row [4 * (d / 4W) + e mod 4] of column [e / 4]. *)
Definition cell (v : Z -> Z -> Z) (d : Z) : Z := v (d mod (4 * W) / 4) (4 * (d / (4 * W)) + d mod (4 * W) mod 4).
Definition hit (n d : Z) : bool := (0 <=? d) && (d <? W * n) && (d mod (4 * W) <? 32).

Lemma store_reg : forall g slot p b, (forall c r, in_bits (8 * Z.of_nat w) (g c r)) -> 0 <= p -> p + 32 <= blen b ->
  exists b', store_bytes (packed_type k) (reg w g slot) p b = Ok b' /\ blen b' = blen b /\
    forall q, bdat b' q = if (p <=? q) && (q <? p + 32) then g (Z.to_nat ((q - p) / 4)) (4 * slot + Z.to_nat ((q - p) mod 4))%nat else bdat b q.
Proof.
  intros g slot p b Hg Hp Hb. destruct ptype as (Ht & Hw & Hc). unfold reg. rewrite (store_lanes_w _ _ _ _ _ Ht Hw).
  destruct (write_list_ok (map (it_conv (packed_type k)) (vrow 32 (fun e => g (e / 4) (4 * slot + e mod 4))%nat)) p b) as (b' & E & L & D).
  - exact Hp.
  - rewrite map_length, vrow_length. exact Hb.
  - exists b'. split; [exact E|]. split; [exact L|]. intros q. rewrite D, map_length, vrow_length. change (Z.of_nat 32) with 32.
    destruct ((p <=? q) && (q <? p + 32)) eqn:B; [|reflexivity]. assert (0 <= q - p < 32) by lia.
    unfold vrow. rewrite map_map. rewrite (nth_indep _ 0 (it_conv (packed_type k) (g (0 / 4) (4 * slot + 0 mod 4))%nat)) by (rewrite map_length, seq_length; lia).
    rewrite (map_nth (fun e => it_conv (packed_type k) (g (e / 4) (4 * slot + e mod 4))%nat)). rewrite seq_nth by lia. cbn [Nat.add].
    rewrite Hc. rewrite Base.wrap_s_id by (destruct rows_cases as [[Ew _]|[Ew _]]; rewrite Ew in *; try lia; specialize (Hg (Z.to_nat (q - p) / 4) (4 * slot + Z.to_nat (q - p) mod 4))%nat; unfold in_bits, smin, smax in *; lia).
    replace (Z.to_nat (q - p) / 4)%nat with (Z.to_nat ((q - p) / 4)) by (rewrite Z2Nat.inj_div by lia; reflexivity).
    replace (Z.to_nat (q - p) mod 4)%nat with (Z.to_nat ((q - p) mod 4)) by (rewrite Z2Nat.inj_mod by lia; reflexivity). reflexivity.
Qed.

Definition in_slots (order : list (nat * Z)) (d : Z) : bool :=
  existsb (fun e => (snd e * (4 * W) <=? d) && (d <? snd e * (4 * W) + 32)) order.

Lemma slot_cell : forall slot d, slot * (4 * W) <= d < slot * (4 * W) + 32 ->
  d / (4 * W) = slot /\ d mod (4 * W) = d - slot * (4 * W).
Proof.
  intros slot d H. assert (W = 8 \/ W = 16) by exact width_cases.
  split; [symmetry; apply (Z.div_unique d (4 * W) slot (d - slot * (4 * W)))|symmetry; apply (Z.mod_unique d (4 * W) slot)]; lia.
Qed.

Lemma store_all_ok : forall v order (rs : list vec) p b,
  (forall i slot, In (i, slot) order -> 0 <= slot < R / 4 /\ nth i rs [] = reg w (fun c r => v (Z.of_nat c) (Z.of_nat r)) (Z.to_nat slot)) ->
  (forall c r, in_bits (8 * Z.of_nat w) (v c r)) -> 0 <= p -> p + W * R - W * 4 + 32 <= blen b ->
  exists b', store_all (packed_type k) W rs order p b = Ok b' /\ blen b' = blen b /\
    forall q, bdat b' q = if in_slots order (q - p) then cell v (q - p) else bdat b q.
Proof.
  intros v order rs p. assert (HW : W = 8 \/ W = 16) by exact width_cases. destruct R4 as [R4m R4r].
  induction order as [|[i slot] order IH]; intros b Ho Hv Hp Hb.
  - exists b. split; [reflexivity|]. split; [reflexivity|]. intros q. reflexivity.
  - destruct (Ho i slot) as [Hs Hn]; [left; reflexivity|]. cbn [store_all]. rewrite Hn.
    assert (HR : R = 4 * (R / 4)) by (apply Z.div_exact; lia).
    destruct (store_reg (fun c r => v (Z.of_nat c) (Z.of_nat r)) (Z.to_nat slot) (p + slot * (W * 4)) b) as (b1 & E1 & L1 & D1).
    + intros. apply Hv.
    + nia.
    + nia.
    + rewrite E1. cbn [bind]. destruct (IH b1) as (b2 & E2 & L2 & D2).
      * intros i' s' H'. apply Ho. right. exact H'.
      * exact Hv.
      * exact Hp.
      * rewrite L1. exact Hb.
      * exists b2. split; [exact E2|]. split; [congruence|]. intros q. rewrite D2. unfold in_slots. cbn [existsb snd].
        fold (in_slots order (q - p)). destruct (in_slots order (q - p)); [rewrite orb_true_r; reflexivity|]. rewrite orb_false_r, D1.
        replace (slot * (W * 4)) with (slot * (4 * W)) by lia.
        destruct ((p + slot * (4 * W) <=? q) && (q <? p + slot * (4 * W) + 32)) eqn:B.
        -- replace ((slot * (4 * W) <=? q - p) && (q - p <? slot * (4 * W) + 32)) with true by lia.
           destruct (slot_cell slot (q - p)) as [C1 C2]; [lia|]. unfold cell. rewrite C1, C2.
           assert (0 <= q - p - slot * (4 * W) < 32) by lia. rewrite !Z2Nat.id by (try apply Z.div_pos; lia).
           replace (q - (p + slot * (4 * W))) with (q - p - slot * (4 * W)) by lia.
           f_equal. rewrite Nat2Z.inj_add, Nat2Z.inj_mul, !Z2Nat.id by (try apply Z.mod_pos_bound; lia). reflexivity.
        -- replace ((slot * (4 * W) <=? q - p) && (q - p <? slot * (4 * W) + 32)) with false by lia. reflexivity.
Qed.

Lemma in_slots_hit : forall d, in_slots (c_order k) d = hit R d.
Proof.
  intros d. assert (HW : W = 8 \/ W = 16) by exact width_cases. destruct R4 as [R4m R4r].
  assert (HR : R = 4 * (R / 4)) by (apply Z.div_exact; lia). apply eq_true_iff_eq. unfold in_slots. rewrite existsb_exists. split.
  - intros ([i slot] & Hin & H). cbn [snd] in H. destruct (cl_order _ _ _ K i slot Hin) as [Hs _]. fold R in Hs.
    destruct (slot_cell slot d) as [C1 C2]; [lia|]. unfold hit. rewrite C2. nia.
  - intros H. unfold hit in H. assert (0 <= d < W * R /\ d mod (4 * W) < 32) as [H1 H2] by lia. clear H.
    pose proof (Z.div_mod d (4 * W) ltac:(lia)) as DM. pose proof (Z.mod_pos_bound d (4 * W) ltac:(lia)).
    destruct (cl_all _ _ _ K (d / (4 * W))) as [i Hi].
    + fold R. split; [apply Z.div_pos; lia|]. apply Z.div_lt_upper_bound; nia.
    + exists (i, d / (4 * W)). split; [exact Hi|]. cbn [snd]. lia.
Qed.

Lemma store_chunk : forall v p b, (forall c r, in_bits (8 * Z.of_nat w) (v c r)) -> 0 <= p -> p + W * R - W * 4 + 32 <= blen b ->
  exists b', store_all (packed_type k) W (map (reg w (fun c r => v (Z.of_nat c) (Z.of_nat r))) slots) (c_order k) p b = Ok b' /\ blen b' = blen b /\
    forall q, bdat b' q = if hit R (q - p) then cell v (q - p) else bdat b q.
Proof.
  intros v p b Hv Hp Hb.
  destruct (store_all_ok v (c_order k) (map (reg w (fun c r => v (Z.of_nat c) (Z.of_nat r))) slots) p b) as (b' & E & L & D); [|assumption|assumption|assumption|].
  - intros i slot Hi. destruct (cl_order _ _ _ K i slot Hi) as [H1 H2]. split; [exact H1|].
    apply nth_error_nth. rewrite nth_error_map, H2. reflexivity.
  - exists b'. split; [exact E|]. split; [exact L|]. intros q. rewrite D, in_slots_hit. reflexivity.
Qed.

Lemma hit_shift : forall t d, 0 <= t -> hit (R * (t + 1)) d = hit R (d - t * (W * R)) || hit (R * t) d.
Proof.
  intros t d Ht. assert (HW : W = 8 \/ W = 16) by exact width_cases. destruct R4 as [R4m R4r].
  assert (HR : R = 4 * (R / 4)) by (apply Z.div_exact; lia). unfold hit.
  replace ((d - t * (W * R)) mod (4 * W)) with (d mod (4 * W)).
  2: { replace (d - t * (W * R)) with (d + - (t * (R / 4)) * (4 * W)) by (rewrite HR at 2; lia). rewrite Z.mod_add by lia. reflexivity. }
  destruct (d mod (4 * W) <? 32); [|rewrite !andb_false_r; reflexivity]. rewrite !andb_true_r.
  assert (0 <= t * (W * R)) by nia. replace (W * (R * (t + 1))) with (t * (W * R) + W * R) by lia. replace (W * (R * t)) with (t * (W * R)) by lia.
  generalize dependent (t * (W * R)). intros. assert (0 < W * R) by nia. lia.
Qed.
Lemma cell_shift : forall v t d, cell (fun c r => v c (t * R + r)) (d - t * (W * R)) = cell v d.
Proof.
  intros v t d. assert (HW : W = 8 \/ W = 16) by exact width_cases. destruct R4 as [R4m R4r].
  assert (HR : R = 4 * (R / 4)) by (apply Z.div_exact; lia). unfold cell.
  replace (d - t * (W * R)) with (d + - (t * (R / 4)) * (4 * W)) by (rewrite HR at 2; lia).
  rewrite Z.mod_add, Z.div_add by lia. f_equal. rewrite HR at 1. lia.
Qed.

(** ** The loop over chunks *)
Variables (dbg : bool) (src zerobuf data0 trailing0 : buf Z) (z xor off stride remaining rows po toff : Z).
Hypothesis Hxor : good_xor w xor.
Hypothesis Hz : forall i, bdat zerobuf i = z.
Hypothesis Hzl : 32 <= blen zerobuf.
Hypothesis Hrows : 0 <= rows.
Hypothesis Hsrc : forall c, 0 <= c < 8 -> c < remaining -> 0 <= off + c * stride /\ off + c * stride + rows <= blen src.
Hypothesis Hpo : 0 <= po.
Hypothesis Hdata : po + W * (R * (rows / R)) - W * 4 + 32 <= blen data0 \/ rows / R = 0.
Hypothesis Htoff : 0 <= toff.
Hypothesis Htrail : toff + W * R - W * 4 + 32 <= blen trailing0.

Definition val (c r : Z) : Z := if (c <? remaining) && (r <? rows) then bdat src (off + c * stride + r) else z.
Definition P (x : Z) : Z := pconv w xor x.

Lemma P_bits : forall x, in_bits (8 * Z.of_nat w) (P x).
Proof. intros x. apply wrap_s_in_bits. destruct rows_cases as [[-> _]|[-> _]]; reflexivity. Qed.

Definition col_at (t j : Z) : column :=
  if remaining <=? j then {| q_buf := zerobuf; q_off := 0; q_inc := 0 |}
  else {| q_buf := src; q_off := off + j * stride + t * R; q_inc := R |}.
Definition psum (n c : Z) : Z := zsum (map (fun r => P (val c r)) (zrange 0 n)).
Definition adjustment : Z := - Z.lxor z xor * 4 * (R / 4 - (rows mod R + 3) / 4).

Record inv (t : Z) (s : cstate) : Prop := {
  i_packed : s_packed s = po + t * (W * R);
  i_cols : s_cols s = map (col_at t) (zrange 0 8);
  i_data : blen (s_data s) = blen data0 /\ forall q, bdat (s_data s) q =
    if hit (R * Z.min t (rows / R)) (q - po) then P (cell val (q - po)) else bdat data0 q;
  i_trailing : blen (s_trailing s) = blen trailing0 /\ forall q, bdat (s_trailing s) q =
    if (rows / R <? t) && (0 <? rows mod R) && hit R (q - toff)
    then P (cell (fun c r => val c (rows / R * R + r)) (q - toff)) else bdat trailing0 q;
  i_acc : rep (s_acc s) (fun c => psum (R * Z.min t ((rows + R - 1) / R)) (Z.of_nat c));
  i_adj : s_adj s = if (rows / R <? t) && (0 <? rows mod R) then adjustment else 0
}.

Lemma load_all_ok : forall (f : column -> res vec) (g : nat -> vec) (c : Z -> column),
  (forall j, (j < 8)%nat -> f (c (Z.of_nat j)) = Ok (g j)) -> load_all f (map c (zrange 0 8)) = Ok (map g (seq 0 8)).
Proof.
  intros f g c H. change (zrange 0 8) with (map Z.of_nat (seq 0 8)). rewrite map_map.
  assert (G : forall j, In j (seq 0 8) -> f (c (Z.of_nat j)) = Ok (g j)) by (intros j Hj; apply H; apply in_seq in Hj; lia).
  clear H. revert G. induction (seq 0 8) as [|j l IH]; intros G; cbn [map load_all]; [reflexivity|].
  rewrite G by (left; reflexivity). cbn [bind]. rewrite IH by (intros; apply G; right; assumption). reflexivity.
Qed.

Lemma advance_at : forall t, map advance (map (col_at t) (zrange 0 8)) = map (col_at (t + 1)) (zrange 0 8).
Proof.
  intros t. rewrite map_map. apply map_ext. intros j. unfold advance, col_at. destruct (remaining <=? j); cbn [q_buf q_off q_inc]; f_equal; lia.
Qed.

Lemma psum_add : forall a n c, 0 <= a -> psum (a + Z.of_nat n) c = psum a c + zsum (vrow n (fun r => P (val c (a + Z.of_nat r)))).
Proof.
  intros a n c Ha. unfold psum. assert (E : zrange 0 (a + Z.of_nat n) = zrange 0 a ++ map (fun i => a + Z.of_nat i) (seq 0 n)).
  { unfold zrange. rewrite !Z.sub_0_r, !zseq_seq. replace (Z.to_nat (a + Z.of_nat n)) with (Z.to_nat a + n)%nat by lia. rewrite seq_app, map_app. f_equal.
    cbn [Nat.add]. clear - Ha. transitivity (map (fun i => 0 + Z.of_nat i) (map (fun i => (Z.to_nat a + i)%nat) (seq 0 n))).
    - f_equal. generalize (Z.to_nat a). intros m. rewrite <- (Nat.add_0_r m) at 1. generalize 0%nat. induction n; intros b; cbn [seq map]; [reflexivity|].
      f_equal. rewrite <- Nat.add_succ_r. apply IHn.
    - rewrite map_map. apply map_ext. intros i. lia. }
  rewrite E, map_app, map_map. unfold vrow. generalize (map (fun r => P (val c r)) (zrange 0 a)). intros l.
  induction l as [|x l IH]; cbn [app zsum]; [lia|]. rewrite IH. lia.
Qed.

Lemma load_tile : forall t, 0 <= t -> (t + 1) * R <= rows ->
  load_all (fun q => load w R (q_buf q) (q_off q)) (map (col_at t) (zrange 0 8)) =
  Ok (tile w (fun j r => val (Z.of_nat j) (t * R + Z.of_nat r))).
Proof.
  intros t Ht Hr. destruct R4 as [_ R4r]. apply load_all_ok. intros j Hj. unfold col_at. rewrite nrows. destruct (Z.leb_spec remaining (Z.of_nat j)) as [H|H]; cbn [q_buf q_off].
  - rewrite load_ok by lia. do 2 f_equal. apply vrow_ext. intros i Hi. unfold span, val. rewrite Hz.
    replace (Z.of_nat j <? remaining) with false by lia. reflexivity.
  - destruct (Hsrc (Z.of_nat j)) as [S1 S2]; [lia|lia|]. rewrite load_ok by nia. do 2 f_equal. apply vrow_ext. intros i Hi. unfold span, val.
    replace (Z.of_nat j <? remaining) with true by lia. replace (t * R + Z.of_nat i <? rows) with true by (symmetry; apply Z.ltb_lt; lia). cbn [andb]. f_equal. lia.
Qed.

Lemma mask_tile : forall t, 0 <= t -> t * R < rows < (t + 1) * R ->
  load_all (fun q => c_mask_load k dbg (rows - t * R) z (q_buf q) (q_off q)) (map (col_at t) (zrange 0 8)) =
  Ok (tile w (fun j r => val (Z.of_nat j) (t * R + Z.of_nat r))).
Proof.
  intros t Ht Hr. destruct R4 as [_ R4r]. apply load_all_ok. intros j Hj. unfold col_at. destruct (Z.leb_spec remaining (Z.of_nat j)) as [H|H]; cbn [q_buf q_off].
  - rewrite (cl_mask _ _ _ K) by (fold R; lia). fold w. do 2 f_equal. apply vrow_ext. intros i Hi. unfold val. rewrite Hz.
    replace (Z.of_nat j <? remaining) with false by lia. cbn [andb]. destruct (_ <? _); reflexivity.
  - destruct (Hsrc (Z.of_nat j)) as [S1 S2]; [lia|lia|]. rewrite (cl_mask _ _ _ K) by (fold R; nia). fold w. do 2 f_equal. apply vrow_ext.
    intros i Hi. unfold val. replace (Z.of_nat j <? remaining) with true by lia. cbn [andb].
    destruct (Z.ltb_spec (Z.of_nat i) (rows - t * R)); destruct (Z.ltb_spec (t * R + Z.of_nat i) rows); try lia; try reflexivity. f_equal. lia.
Qed.

Lemma regs_tile : forall t, map (fun v => c_xor k v (set1 1 32 xor)) (c_transpose k (tile w (fun j r => val (Z.of_nat j) (t * R + Z.of_nat r)))) =
  map (reg w (fun c r => P (val (Z.of_nat c) (t * R + Z.of_nat r)))) slots.
Proof. intros t. apply (cl_regs _ _ _ K). exact Hxor. Qed.

Lemma acc_step : forall t acc, 0 <= t -> rep acc (fun c => psum (R * t) (Z.of_nat c)) ->
  rep (c_sum k (map (reg w (fun c r => P (val (Z.of_nat c) (t * R + Z.of_nat r)))) slots) acc) (fun c => psum (R * (t + 1)) (Z.of_nat c)).
Proof.
  intros t acc Ht H. destruct R4 as [_ R4r]. eapply (cl_ext _ _ _ K).
  2: { apply (cl_sum _ _ _ K); [|exact H]. intros. apply P_bits. }
  intros c Hc. cbv beta. fold w. rewrite nrows. replace (R * (t + 1)) with (R * t + Z.of_nat (Z.to_nat R)) by lia. rewrite psum_add by nia.
  do 2 f_equal. apply vrow_ext. intros r Hr. do 3 f_equal. lia.
Qed.

Hypothesis Hzr : in_bits (8 * Z.of_nat w) z.

Lemma lxor_P : Z.lxor z xor = P z.
Proof.
  unfold P, pconv. destruct Hxor as [-> | [Hw ->]].
  - rewrite Z.lxor_0_r, Z.add_0_r. rewrite Base.wrap_s_id; [reflexivity| |].
    + destruct rows_cases as [[-> _]|[-> _]]; reflexivity.
    + unfold in_bits, smin, smax in *. clear - Hzr. lia.
  - rewrite Hw in *. change (8 * Z.of_nat 1) with 8 in *. unfold in_bits in Hzr. change (2 ^ (8 - 1)) with 128 in Hzr.
    assert (T : forallb (fun x => Z.lxor x (-128) =? wrap_s 8 (x + -128)) (zrange (-128) 128) = true) by (vm_compute; reflexivity).
    rewrite forallb_forall in T. apply Z.eqb_eq. apply T. apply zrange_In. clear - Hzr. lia.
Qed.

Lemma Hadj : int_min <= adjustment <= int_max.
Proof.
  unfold adjustment. rewrite lxor_P. pose proof (P_bits z) as B. destruct R4 as [_ R4r].
  pose proof (Z.mod_pos_bound rows R ltac:(lia)). assert (0 <= (rows mod R + 3) / 4) by (apply Z.div_pos; lia).
  assert ((rows mod R + 3) / 4 <= R / 4) by (destruct rows_cases as [[_ Er]|[_ Er]]; rewrite Er in *; [change (32 / 4) with 8|change (16 / 4) with 4]; apply Z.lt_succ_r; apply Z.div_lt_upper_bound; lia).
  assert (R / 4 <= 8) by (apply Z.div_le_upper_bound; lia).
  assert (- 32768 <= P z <= 32767) by (unfold in_bits in B; destruct rows_cases as [[Ew _]|[Ew _]]; rewrite Ew in B;
    [change (2 ^ (8 * Z.of_nat 1 - 1)) with 128 in B | change (2 ^ (8 * Z.of_nat 2 - 1)) with 32768 in B]; lia).
  unfold int_min, int_max. nia.
Qed.

Lemma chunk_ok : forall t s, 0 <= t -> inv t s -> exists s', chunk dbg k xor z toff (rows - t * R) s = Ok s' /\ inv (t + 1) s'.
Proof.
  intros t s Ht I. destruct R4 as [_ R4r]. assert (HW : W = 8 \/ W = 16) by exact width_cases.
  pose proof (Z.div_mod rows R ltac:(lia)) as DM. pose proof (Z.mod_pos_bound rows R ltac:(lia)) as MB.
  unfold chunk. cbv zeta. fold R W w. rewrite (i_cols _ _ I), advance_at.
  destruct (Z.leb_spec R (rows - t * R)) as [Hfull|Hpart].
  - assert (Hq : t < rows / R) by (apply Z.lt_le_trans with (t + 1); [lia|]; apply Z.div_le_lower_bound; nia).
    rewrite load_tile by (try exact Ht; lia). cbn [bind]. rewrite regs_tile.
    destruct (store_chunk (fun c r => P (val c (t * R + r))) (s_packed s) (s_data s)) as (b & E & L & D).
    + intros. apply P_bits.
    + rewrite (i_packed _ _ I). nia.
    + rewrite (i_packed _ _ I), (proj1 (i_data _ _ I)). destruct Hdata as [H|H]; [|lia]. nia.
    + rewrite E. cbn [bind]. eexists. split; [reflexivity|].
      constructor; cbn [s_packed s_cols s_data s_trailing s_acc s_adj].
      * rewrite (i_packed _ _ I). lia.
      * reflexivity.
      * split; [rewrite L; apply (i_data _ _ I)|]. intros q. rewrite D, (proj2 (i_data _ _ I)), (i_packed _ _ I).
        replace (Z.min (t + 1) (rows / R)) with (t + 1) by lia. replace (Z.min t (rows / R)) with t by lia.
        rewrite hit_shift by exact Ht. replace (q - (po + t * (W * R))) with (q - po - t * (W * R)) by lia.
        rewrite (cell_shift (fun c r => P (val c r)) t (q - po)).
        destruct (hit R (q - po - t * (W * R))); cbn [orb]; reflexivity.
      * split; [apply (i_trailing _ _ I)|]. intros q. rewrite (proj2 (i_trailing _ _ I)).
        replace (rows / R <? t + 1) with false by lia. replace (rows / R <? t) with false by lia. reflexivity.
      * pose proof (i_acc _ _ I) as A. assert (t + 1 <= (rows + R - 1) / R) by (apply Z.div_le_lower_bound; lia).
        replace (Z.min t ((rows + R - 1) / R)) with t in A by lia. replace (Z.min (t + 1) ((rows + R - 1) / R)) with (t + 1) by lia.
        apply acc_step; assumption.
      * rewrite (i_adj _ _ I). replace (rows / R <? t + 1) with false by lia. replace (rows / R <? t) with false by lia. reflexivity.
  - destruct (Z.ltb_spec 0 (rows - t * R)) as [Hsome|Hnone].
    + assert (Hq : t = rows / R) by (apply (Z.div_unique rows R t (rows - t * R)); lia).
      assert (Hm : rows mod R = rows - t * R) by (rewrite Hq; lia).
      assert (HT : (rows + R - 1) / R = t + 1) by (symmetry; apply (Z.div_unique (rows + R - 1) R (t + 1) (rows - t * R - 1)); lia).
      rewrite (i_adj _ _ I). replace (rows / R <? t) with false by lia. cbn [andb]. rewrite Z.add_0_l.
      replace (- Z.lxor z xor * 4 * (R / 4 - (rows - t * R + 3) / 4)) with adjustment by (unfold adjustment; rewrite Hm; reflexivity).
      rewrite i32_ok by exact Hadj.
      cbn [bind]. rewrite mask_tile by (try exact Ht; lia). cbn [bind]. rewrite regs_tile.
      destruct (store_chunk (fun c r => P (val c (t * R + r))) toff (s_trailing s)) as (b & E & L & D).
      * intros. apply P_bits.
      * exact Htoff.
      * rewrite (proj1 (i_trailing _ _ I)). exact Htrail.
      * rewrite E. cbn [bind]. eexists. split; [reflexivity|].
        constructor; cbn [s_packed s_cols s_data s_trailing s_acc s_adj].
        -- rewrite (i_packed _ _ I). lia.
        -- reflexivity.
        -- split; [apply (i_data _ _ I)|]. intros q. rewrite (proj2 (i_data _ _ I)).
           replace (Z.min (t + 1) (rows / R)) with (Z.min t (rows / R)) by lia. reflexivity.
        -- split; [rewrite L; apply (i_trailing _ _ I)|]. intros q. rewrite D, (proj2 (i_trailing _ _ I)).
           replace (rows / R <? t + 1) with true by lia. replace (rows / R <? t) with false by lia. replace (0 <? rows mod R) with true by lia.
           cbn [andb]. rewrite <- Hq. reflexivity.
        -- pose proof (i_acc _ _ I) as A. rewrite HT in *.
           replace (Z.min t (t + 1)) with t in A by lia. rewrite Z.min_id. apply acc_step; assumption.
        -- replace (rows / R <? t + 1) with true by lia. replace (0 <? rows mod R) with true by lia. reflexivity.
    + assert (Hq : rows / R <= t) by (apply Z.lt_succ_r; apply Z.div_lt_upper_bound; nia).
      assert (HT : (rows + R - 1) / R <= t) by (apply Z.lt_succ_r; apply Z.div_lt_upper_bound; nia).
      assert (Hs : rows / R < t \/ rows mod R = 0) by (destruct (Z.eq_dec (rows / R) t) as [Et|Et]; [right; nia|left; lia]).
      assert (C : (rows / R <? t + 1) && (0 <? rows mod R) = (rows / R <? t) && (0 <? rows mod R)) by (destruct Hs; lia).
      eexists. split; [reflexivity|]. constructor; cbn [s_packed s_cols s_data s_trailing s_acc s_adj].
      * rewrite (i_packed _ _ I). lia.
      * reflexivity.
      * split; [apply (i_data _ _ I)|]. intros q. rewrite (proj2 (i_data _ _ I)).
        replace (Z.min (t + 1) (rows / R)) with (Z.min t (rows / R)) by lia. reflexivity.
      * split; [apply (i_trailing _ _ I)|]. intros q. rewrite (proj2 (i_trailing _ _ I)), C. reflexivity.
      * replace (Z.min (t + 1) ((rows + R - 1) / R)) with (Z.min t ((rows + R - 1) / R)) by lia. apply (i_acc _ _ I).
      * rewrite C. apply (i_adj _ _ I).
Qed.

(** ** The function *)

Definition rows4 : Z := 4 * ((rows + 3) / 4).

Lemma psum_tail : forall a n c, rows <= a -> psum (a + Z.of_nat n) c = psum a c + Z.of_nat n * P z.
Proof.
  intros a n c Ha. rewrite psum_add by lia. f_equal. unfold vrow.
  assert (G : forall r, In r (seq 0 n) -> P (val c (a + Z.of_nat r)) = P z).
  { intros r _. unfold val. replace (a + Z.of_nat r <? rows) with false by lia. rewrite andb_false_r. reflexivity. }
  rewrite (map_ext_in _ (fun _ => P z)) by exact G. clear G. generalize 0%nat. induction n as [|n IH]; intros b; cbn [seq map zsum]; [lia|].
  rewrite IH. lia.
Qed.

Lemma total_rows : forall c,
  (if 0 <? rows mod R then adjustment else 0) + psum (R * ((rows + R - 1) / R)) c = psum rows4 c.
Proof.
  intros c. destruct R4 as [R4m R4r]. pose proof (Z.div_mod rows R ltac:(lia)) as DM. pose proof (Z.mod_pos_bound rows R ltac:(lia)) as MB.
  assert (HR : R = 4 * (R / 4)) by (apply Z.div_exact; lia). unfold rows4.
  destruct (Z.ltb_spec 0 (rows mod R)) as [H|H].
  - replace ((rows + R - 1) / R) with (rows / R + 1) by (apply (Z.div_unique (rows + R - 1) R (rows / R + 1) (rows mod R - 1)); lia).
    unfold adjustment. rewrite lxor_P. set (m := (rows mod R + 3) / 4).
    assert (Hm : (rows + 3) / 4 = rows / R * (R / 4) + m).
    { unfold m. replace (rows + 3) with (rows mod R + 3 + rows / R * (R / 4) * 4) by (clear - DM HR; nia).
      rewrite Z.div_add by lia. lia. }
    assert (0 <= m) by (apply Z.div_pos; lia). assert (m <= R / 4) by (unfold m; apply Z.lt_succ_r; apply Z.div_lt_upper_bound; lia).
    rewrite Hm. replace (R * (rows / R + 1)) with (4 * (rows / R * (R / 4) + m) + Z.of_nat (Z.to_nat (R - 4 * m))) by (rewrite Z2Nat.id by lia; nia).
    rewrite psum_tail.
    + rewrite Z2Nat.id by lia. nia.
    + pose proof (Z.div_mod (rows mod R + 3) 4 ltac:(lia)). pose proof (Z.mod_pos_bound (rows mod R + 3) 4 ltac:(lia)). fold m in H2. nia.
  - replace (R * ((rows + R - 1) / R)) with rows.
    + replace (4 * ((rows + 3) / 4)) with rows; [lia|]. assert (E : rows = 4 * (rows / R * (R / 4))) by nia.
      rewrite E at 2. replace (4 * (rows / R * (R / 4)) + 3) with (3 + rows / R * (R / 4) * 4) by lia. rewrite Z.div_add by lia.
      change (3 / 4) with 0. lia.
    + replace ((rows + R - 1) / R) with (rows / R) by (apply (Z.div_unique (rows + R - 1) R (rows / R) (R - 1)); lia). lia.
Qed.

Definition summed (soff : Z) (f : Z -> Z) (sums sums' : option (buf Z)) : Prop :=
  match sums, sums' with
  | None, None => True
  | Some b, Some b' => blen b' = blen b /\ forall q, bdat b' q = if (soff <=? q) && (q <? soff + 8) then wrap_s 32 (f (q - soff)) else bdat b q
  | _, _ => False
  end.

Lemma half_pack_ok : forall soff sums, 0 <= soff -> (forall b, sums = Some b -> soff + 8 <= blen b) ->
  exists data' trailing' sums',
    half_pack dbg k src zerobuf xor off stride remaining rows po toff soff data0 trailing0 sums = Ok (data', trailing', sums') /\
    (blen data' = blen data0 /\ forall q, bdat data' q = if hit (R * (rows / R)) (q - po) then P (cell val (q - po)) else bdat data0 q) /\
    (blen trailing' = blen trailing0 /\ forall q, bdat trailing' q = if (0 <? rows mod R) && hit R (q - toff)
       then P (cell (fun c r => val c (rows / R * R + r)) (q - toff)) else bdat trailing0 q) /\
    summed soff (psum rows4) sums sums'.
Proof.
  intros soff sums Hso Hsu. destruct R4 as [R4m R4r]. pose proof (Z.div_mod rows R ltac:(lia)) as DM. pose proof (Z.mod_pos_bound rows R ltac:(lia)) as MB.
  unfold half_pack. unfold bread. replace ((0 <=? 0) && (0 <? blen zerobuf)) with true by lia. rewrite Hz. cbn [bind].
  assert (Hu : 0 < c_unroll k) by (destruct (cl_width _ _ _ K) as [[_ ->]|[_ ->]]; lia). set (U := c_unroll k) in *. fold R.
  set (N := (rows - 0 + U * R - 1) / (U * R)).
  assert (HN : 0 <= N /\ rows <= U * N * R).
  { unfold N. assert (0 < U * R) by (clear - Hu R4r; nia). pose proof (Z.div_mod (rows - 0 + U * R - 1) (U * R) ltac:(lia)). pose proof (Z.mod_pos_bound (rows - 0 + U * R - 1) (U * R) ltac:(lia)).
    split; [apply Z.div_pos; lia|nia]. }
  set (s0 := {| s_data := data0; s_trailing := trailing0; s_cols := map (column_ptr k src zerobuf off stride remaining) (zrange 0 8);
                s_packed := po; s_acc := c_sums0 k; s_adj := 0 |}).
  assert (I0 : inv (U * 0) s0).
  { rewrite Z.mul_0_r. assert (0 <= rows / R) by (apply Z.div_pos; lia). assert (0 <= (rows + R - 1) / R) by (apply Z.div_pos; lia).
    constructor; cbn [s0 s_packed s_cols s_data s_trailing s_acc s_adj].
    - lia.
    - apply map_ext. intros j. unfold column_ptr, col_at. destruct (remaining <=? j); [reflexivity|]. f_equal. lia.
    - split; [reflexivity|]. intros q. rewrite Z.min_l by assumption.
      replace (hit (R * 0) (q - po)) with false; [reflexivity|]. unfold hit. symmetry. rewrite Z.mul_0_r, Z.mul_0_r.
      destruct (Z.leb_spec 0 (q - po)); destruct (Z.ltb_spec (q - po) 0); try lia; reflexivity.
    - split; [reflexivity|]. intros q. replace (rows / R <? 0) with false by lia. reflexivity.
    - rewrite Z.min_l by assumption. rewrite Z.mul_0_r. apply (cl_rep0 _ _ _ K).
    - replace (rows / R <? 0) with false by lia. reflexivity. }
  assert (L : exists s', forstep 0 rows (U * R) (fun r s => forto 0 U (fun m s => chunk dbg k xor z toff (rows - r - m * R) s) s) s0 = Ok s' /\ inv (U * N) s').
  { unfold forstep. fold N. apply (forto_inv (fun i s => inv (U * i) s)); [lia|exact I0|]. intros i s Hi I.
    destruct (forto_inv (fun m s => inv (U * i + m) s) (fun m s => chunk dbg k xor z toff (rows - (0 + i * (U * R)) - m * R) s) 0 U s) as (s' & E & I').
    - lia.
    - rewrite Z.add_0_r. exact I.
    - intros m s1 Hm I1. replace (rows - (0 + i * (U * R)) - m * R) with (rows - (U * i + m) * R) by lia.
      replace (U * i + (m + 1)) with (U * i + m + 1) by lia. apply chunk_ok; [clear - Hi Hm Hu; nia|exact I1].
    - exists s'. split; [exact E|]. replace (U * (i + 1)) with (U * i + U) by lia. exact I'. }
  destruct L as (s & E & I).
  assert (HU : rows / R <= U * N) by (apply Z.div_le_upper_bound; nia).
  assert (HT : (rows + R - 1) / R <= U * N) by (apply Z.lt_succ_r; apply Z.div_lt_upper_bound; nia).
  assert (Hc : (rows / R <? U * N) && (0 <? rows mod R) = (0 <? rows mod R)).
  { destruct (Z.ltb_spec 0 (rows mod R)); [|apply andb_false_r]. replace (rows / R <? U * N) with true; [reflexivity|]. symmetry. apply Z.ltb_lt. clear - DM MB HN H R4r. nia. }
  assert (D : blen (s_data s) = blen data0 /\ forall q, bdat (s_data s) q = if hit (R * (rows / R)) (q - po) then P (cell val (q - po)) else bdat data0 q).
  { destruct (i_data _ _ I) as [D1 D2]. split; [exact D1|]. intros q. rewrite D2. rewrite Z.min_r by exact HU. reflexivity. }
  assert (T : blen (s_trailing s) = blen trailing0 /\ forall q, bdat (s_trailing s) q = if (0 <? rows mod R) && hit R (q - toff)
       then P (cell (fun c r => val c (rows / R * R + r)) (q - toff)) else bdat trailing0 q).
  { destruct (i_trailing _ _ I) as [T1 T2]. split; [exact T1|]. intros q. rewrite T2, Hc. reflexivity. }
  destruct sums as [b|].
  - specialize (Hsu b eq_refl). destruct (bzero_ok 0 b soff 8) as (b1 & E1 & L1 & D1); [lia|lia|lia|]. rewrite E1. cbn [bind].
    rewrite E. cbn [bind]. rewrite load_ok by (rewrite ?L1; lia). cbn [bind]. change (Z.to_nat 8) with 8%nat.
    fold (L4 (vrow 8 (span b1 soff))). pose proof (i_acc _ _ I) as A. rewrite (cl_total _ _ _ K _ _ _ _ A).
    unfold L4. rewrite (store_lanes_w s32 4 _ _ _ ltac:(unfold dst_type; auto) eq_refl).
    destruct (write_list_ok (map (it_conv s32) (vrow 8 (fun c => span b1 soff c + s_adj s + psum (R * Z.min (U * N) ((rows + R - 1) / R)) (Z.of_nat c)))) soff b1) as (b2 & E2 & L2 & D2).
    + exact Hso.
    + rewrite map_length, vrow_length, L1. exact Hsu.
    + rewrite E2. cbn [bind]. exists (s_data s), (s_trailing s), (Some b2). split; [reflexivity|]. split; [exact D|]. split; [exact T|].
      split; [congruence|]. intros q. rewrite D2, map_length, vrow_length. change (Z.of_nat 8) with 8.
      destruct ((soff <=? q) && (q <? soff + 8)) eqn:B; [|rewrite D1; rewrite B; reflexivity].
      rewrite (nth_indep _ 0 (it_conv s32 0)) by (rewrite map_length, vrow_length; clear - B; lia). rewrite map_nth, vrow_nth by lia.
      unfold it_conv, s32, it_signed, it_bits. f_equal. unfold span. rewrite D1.
      replace ((soff <=? soff + Z.of_nat (Z.to_nat (q - soff))) && (soff + Z.of_nat (Z.to_nat (q - soff)) <? soff + 8)) with true by (clear - B; lia).
      rewrite Z.min_r by exact HT. rewrite (i_adj _ _ I), Hc.
      rewrite Z2Nat.id by lia. rewrite Z.add_0_l. apply total_rows.
  - cbn [bind]. rewrite E. cbn [bind]. exists (s_data s), (s_trailing s), None. split; [reflexivity|]. split; [exact D|]. split; [exact T|]. exact Logic.I.
Qed.

End Half.
