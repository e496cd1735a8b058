(** What the instruction sequences of the x86 packing functions do. *)
From Coq Require Import ZArith List Bool Lia.
From Verif Require Import Base SidePair Mat Scalars IntOps Pack SpecPack MulParams Kernel Simd SimdFacts SimdRequant AvxFacts Kernel8bit Kernel8bitAvx
  Kernel8bitIsa Kernel8bitAvx2Facts Kernel8bitAvxFacts Kernel8bitFacts PackX86.
Import ListNotations.
Open Scope Z_scope.

(** The loads of a chunk: column j is [f j]. *)
Definition tile (w : nat) (f : nat -> nat -> Z) : list vec := map (fun j => of_lanes w (vrow (32 / w) (f j))) (seq 0 8).
(** The register stored for four rows. *)
Definition reg (w : nat) (g : nat -> nat -> Z) (slot : nat) : vec :=
  of_lanes w (vrow 32 (fun e => g (e / 4) (4 * slot + e mod 4))%nat).

Definition good_xor (w : nat) (x : Z) : Prop := x = 0 \/ (w = 1%nat /\ x = -128).

(** The packed value of [x]. *)
Definition pconv (w : nat) (xor x : Z) : Z := wrap_s (8 * Z.of_nat w) (x + xor).

Record col_laws (k : col_packer) (slots : list nat) (rep : list vec -> (nat -> Z) -> Prop) : Prop := {
  cl_width : (c_width k = 8 /\ c_unroll k = 1) \/ (c_width k = 16 /\ c_unroll k = 2);
  cl_size : c_size k = 1%nat \/ c_size k = 2%nat;
  cl_mask : forall dbg avail zp b off, 0 < avail < c_rows k -> 0 <= off -> off + avail <= blen b ->
    c_mask_load k dbg avail zp b off =
    Ok (of_lanes (c_size k) (vrow (32 / c_size k) (fun r => if Z.of_nat r <? avail then bdat b (off + Z.of_nat r) else zp)));
  cl_regs : forall f xor, good_xor (c_size k) xor ->
    map (fun v => c_xor k v (set1 1 32 xor)) (c_transpose k (tile (c_size k) f)) =
    map (reg (c_size k) (fun c r => pconv (c_size k) xor (f c r))) slots;
  cl_order : forall i slot, In (i, slot) (c_order k) -> 0 <= slot < c_rows k / 4 /\ nth_error slots i = Some (Z.to_nat slot);
  cl_all : forall slot, 0 <= slot < c_rows k / 4 -> exists i, In (i, slot) (c_order k);
  cl_rep0 : rep (c_sums0 k) (fun _ => 0);
  cl_ext : forall acc S S', (forall c, (c < 8)%nat -> S c = S' c) -> rep acc S -> rep acc S';
  cl_sum : forall g acc S, (forall c r, in_bits (8 * Z.of_nat (c_size k)) (g c r)) -> rep acc S ->
    rep (c_sum k (map (reg (c_size k) g) slots) acc) (fun c => S c + zsum (vrow (32 / c_size k) (g c)));
  cl_total : forall acc S s adj, rep acc S ->
    c_total k acc (L4 (vrow 8 s)) (set1 4 8 adj) = L4 (vrow 8 (fun c => s c + adj + S c))
}.

(** ** Bytes *)

Lemma lanes1 : forall m f, of_lanes 1 (vrow m f) = vrow m (fun i => f i mod 256).
Proof.
  intros m f. unfold of_lanes, vrow. rewrite map_map. induction (seq 0 m) as [|x l IH]; cbn [map concat]; [reflexivity|].
  rewrite IH. reflexivity.
Qed.

Lemma lanes2_16 : forall f, of_lanes 2 (vrow 16 f) =
  vrow 32 (fun b => nth (b mod 2) [f (b / 2)%nat mod 256; f (b / 2)%nat / 256 mod 256] 0).
Proof. intros f. reflexivity. Qed.
Lemma lanes2_32 : forall f, of_lanes 2 (vrow 32 f) =
  vrow 64 (fun b => nth (b mod 2) [f (b / 2)%nat mod 256; f (b / 2)%nat / 256 mod 256] 0).
Proof. intros f. reflexivity. Qed.

Definition slots_256 : list nat := [0; 4; 1; 5; 2; 6; 3; 7]%nat.

Lemma transpose_256_bytes : forall h : nat -> nat -> Z,
  transpose_256 unpacklo_epi32 unpackhi_epi32 unpacklo_epi64 unpackhi_epi64 permute2x128
    (map (fun j => vrow 32 (h j)) (seq 0 8)) =
  map (fun slot => vrow 32 (fun e => h (e / 4) (4 * slot + e mod 4))%nat) slots_256.
Proof. intros h. vm_compute. reflexivity. Qed.

Lemma avx_transpose_bytes : forall h : nat -> nat -> Z,
  c_transpose avx_col (map (fun j => vrow 32 (h j)) (seq 0 8)) =
  map (fun slot => vrow 32 (fun e => h (e / 4) (4 * slot + e mod 4))%nat) slots_256.
Proof. intros h. vm_compute. reflexivity. Qed.

Definition slots_512 : list nat := [0; 2; 4; 6; 1; 3; 5; 7]%nat.
Lemma transpose_512_bytes : forall h : nat -> nat -> Z,
  c_transpose avx512_col (map (fun j => vrow 32 (h j)) (seq 0 8)) =
  map (fun slot => vrow 32 (fun e => h (e / 4) (4 * slot + e mod 4))%nat) slots_512.
Proof. intros h. vm_compute. reflexivity. Qed.

Definition slots16_512 : list nat := [0; 2; 1; 3]%nat.
Lemma transpose16_bytes : forall h : nat -> nat -> Z,
  transpose16_512 (map (fun j => vrow 32 (h j)) (seq 0 8)) =
  map (fun slot => vrow 64 (fun b => h (b / 2 / 4) (2 * (4 * slot + (b / 2) mod 4) + b mod 2))%nat) slots16_512.
Proof. intros h. vm_compute. reflexivity. Qed.

(** ** The exclusive or *)

Lemma lxor_128 : forall b, 0 <= b < 256 -> Z.lxor b 128 = (b + -128) mod 256.
Proof.
  intros b H.
  assert (T : forallb (fun b => Z.lxor b 128 =? (b + -128) mod 256) (zrange 0 256) = true) by (vm_compute; reflexivity).
  rewrite forallb_forall in T. apply Z.eqb_eq. apply T. apply zrange_In. exact H.
Qed.

Lemma xor_byte : forall x xor, good_xor 1 xor -> Z.lxor (x mod 256) (xor mod 256) = pconv 1 xor x mod 256.
Proof.
  intros x xor H. unfold pconv. change (8 * Z.of_nat 1) with 8. change 256 with (2 ^ 8) at 3.
  rewrite Base.wrap_s_mod by lia. change (2 ^ 8) with 256. destruct H as [-> | [_ ->]].
  - change (0 mod 256) with 0. rewrite Z.lxor_0_r, Z.add_0_r. reflexivity.
  - change (-128 mod 256) with 128. rewrite lxor_128 by (apply Z.mod_pos_bound; lia). rewrite Z.add_mod_idemp_l by lia. reflexivity.
Qed.

Lemma xor_row : forall x xor, good_xor 1 xor ->
  xor_si (vrow 32 (fun e => x e mod 256)) (set1 1 32 xor) = of_lanes 1 (vrow 32 (fun e => pconv 1 xor (x e))).
Proof.
  intros x xor H. rewrite lanes1. change (set1 1 32 xor) with (repeat (xor mod 256) 32).
  unfold xor_si, vrow. cbn [seq map map2 repeat]. rewrite !xor_byte by exact H. reflexivity.
Qed.

Lemma avx_xor_row : forall x xor, good_xor 1 xor ->
  avx_halves2 xor_si (vrow 32 (fun e => x e mod 256)) (set1 1 32 xor) = of_lanes 1 (vrow 32 (fun e => pconv 1 xor (x e))).
Proof. intros x xor H. rewrite <- xor_row by exact H. reflexivity. Qed.

Lemma tile1 : forall f, tile 1 f = map (fun j => vrow 32 (fun r => f j r mod 256)) (seq 0 8).
Proof. intros f. unfold tile. apply map_ext. intros j. change (32 / 1)%nat with 32%nat. apply lanes1. Qed.

(** ** Sums *)

Lemma add16_lanes : forall a b, add_epi16 (of_lanes 2 a) (of_lanes 2 b) = of_lanes 2 (map2 Z.add a b).
Proof.
  intros a b. unfold add_epi16. rewrite binop_lanes by lia. apply of_lanes_ext. change (8 * Z.of_nat 2) with 16.
  rewrite !map_map2. apply map2_ext. intros x y. unfold wrap_u.
  rewrite Z.add_mod, !Base.wrap_s_mod, <- Z.add_mod by lia. reflexivity.
Qed.

Lemma avx_add16_lanes : forall a b, length a = 16%nat -> length b = 16%nat ->
  avx_halves2 add_epi16 (of_lanes 2 a) (of_lanes 2 b) = of_lanes 2 (map2 Z.add a b).
Proof.
  intros a b Ha Hb. unfold avx_halves2, set_m128i. cbv zeta. rewrite !extract128_words by (try assumption; lia).
  rewrite !add16_lanes, <- of_lanes_app. f_equal. dlist a. dlist b. reflexivity.
Qed.

Lemma map2_vrow : forall F m f g, map2 F (vrow m f) (vrow m g) = vrow m (fun i => F (f i) (g i)).
Proof. intros F m f g. unfold vrow. rewrite map2_map. induction (seq 0 m) as [|x l IH]; cbn [map map2]; [reflexivity|]. rewrite IH. reflexivity. Qed.

Lemma vrow_ext : forall m f g, (forall i, (i < m)%nat -> f i = g i) -> vrow m f = vrow m g.
Proof. intros m f g H. unfold vrow. apply map_ext_in. intros i Hi. apply H. apply in_seq in Hi. lia. Qed.

Section Sum16.
Variables (cvt part : vec -> vec) (add16 : vec -> vec -> vec) (g : nat -> nat -> Z) (m base : nat).
Definition half_at (slot e : nat) : Z := g ((base + e) / 4)%nat (4 * slot + (base + e) mod 4)%nat.
Hypothesis Hcvt : forall slot, cvt (part (reg 1 g slot)) = of_lanes 2 (vrow m (half_at slot)).
Hypothesis Hadd : forall a b, length a = m -> length b = m -> add16 (of_lanes 2 a) (of_lanes 2 b) = of_lanes 2 (map2 Z.add a b).

Lemma sum16_fold : forall slots f,
  fold_left (fun a v => add16 a (cvt (part v))) (map (reg 1 g) slots) (of_lanes 2 (vrow m f)) =
  of_lanes 2 (vrow m (fun e => f e + zsum (map (fun s => half_at s e) slots))).
Proof.
  induction slots as [|s slots IH]; intros f; cbn [map fold_left zsum].
  - f_equal. apply vrow_ext. intros. lia.
  - rewrite Hcvt, Hadd by (unfold vrow; rewrite map_length, seq_length; reflexivity). rewrite map2_vrow, IH. f_equal. apply vrow_ext. intros. lia.
Qed.

Lemma sum16_ok : forall s slots, sum16 cvt add16 part (map (reg 1 g) (s :: slots)) =
  of_lanes 2 (vrow m (fun e => zsum (map (fun s => half_at s e) (s :: slots)))).
Proof. intros s slots. cbn [map sum16]. rewrite Hcvt. apply sum16_fold. Qed.
End Sum16.

Lemma zsum_bound : forall l, Forall (in_bits 8) l -> - 128 * Z.of_nat (length l) <= zsum l <= 127 * Z.of_nat (length l).
Proof.
  induction 1 as [|x l Hx Hl IH]; cbn [zsum length]; [lia|]. unfold in_bits in Hx.
  change (2 ^ (8 - 1)) with 128 in Hx. lia.
Qed.

Lemma sums_in16 : forall g m base slots, (forall c r, in_bits 8 (g c r)) -> length slots = 8%nat ->
  Forall (in_bits 16) (vrow m (fun e => zsum (map (fun s => half_at g base s e) slots))).
Proof.
  intros g m base slots H L. apply Forall_vrow. intros i _.
  assert (F : Forall (in_bits 8) (map (fun s => half_at g base s i) slots)).
  { apply Forall_forall. intros x Hx. apply in_map_iff in Hx. destruct Hx as (s & <- & _). apply H. }
  apply zsum_bound in F. rewrite map_length, L in F. unfold in_bits. change (2 ^ (16 - 1)) with 32768. lia.
Qed.

Lemma ones_in16 : forall m, Forall (in_bits 16) (repeat 1 m).
Proof. intros m. apply Forall_forall. intros x Hx. apply repeat_spec in Hx. subst x. unfold in_bits. change (2 ^ (16 - 1)) with 32768. lia. Qed.

Lemma mul_ones : forall l, map2 Z.mul l (repeat 1 (length l)) = l.
Proof. induction l as [|x l IH]; cbn [length repeat map2]; [reflexivity|]. rewrite IH, Z.mul_1_r. reflexivity. Qed.

Lemma pairs16 : forall h, pair_sums (vrow 16 h) = vrow 8 (fun i => h (2 * i)%nat + h (2 * i + 1)%nat).
Proof. intros h. reflexivity. Qed.
Lemma pairs32 : forall h, pair_sums (vrow 32 h) = vrow 16 (fun i => h (2 * i)%nat + h (2 * i + 1)%nat).
Proof. intros h. reflexivity. Qed.

Lemma madd_ones16 : forall h, Forall (in_bits 16) (vrow 16 h) ->
  madd_epi16 (of_lanes 2 (vrow 16 h)) (set1 2 16 1) = L4 (vrow 8 (fun i => h (2 * i)%nat + h (2 * i + 1)%nat)).
Proof.
  intros h H. unfold set1. rewrite madd_lanes by (try exact H; apply ones_in16).
  change 16%nat with (length (vrow 16 h)) at 2. rewrite mul_ones, pairs16. reflexivity.
Qed.
Lemma madd_ones32 : forall h, Forall (in_bits 16) (vrow 32 h) ->
  madd_epi16 (of_lanes 2 (vrow 32 h)) (set1 2 32 1) = L4 (vrow 16 (fun i => h (2 * i)%nat + h (2 * i + 1)%nat)).
Proof.
  intros h H. unfold set1. rewrite madd_lanes by (try exact H; apply ones_in16).
  change 32%nat with (length (vrow 32 h)) at 2. rewrite mul_ones, pairs32. reflexivity.
Qed.
Lemma avx_madd_ones16 : forall h, Forall (in_bits 16) (vrow 16 h) ->
  avx_halves2 madd_epi16 (of_lanes 2 (vrow 16 h)) (set1 2 16 1) = L4 (vrow 8 (fun i => h (2 * i)%nat + h (2 * i + 1)%nat)).
Proof.
  intros h H. unfold set1. change (avx_halves2 madd_epi16) with avx_mm256_madd_epi16.
  rewrite avx_madd by (try exact H; try apply ones_in16; try apply repeat_length; reflexivity).
  change 16%nat with (length (vrow 16 h)) at 2. rewrite mul_ones, pairs16. reflexivity.
Qed.

Definition same32 (a b : Z) : Prop := a mod 2 ^ 32 = b mod 2 ^ 32.

Definition rep_256 (acc : list vec) (S : nat -> Z) : Prop :=
  exists p, acc = [L4 (vrow 8 p); L4 (vrow 8 (fun i => p (8 + i)%nat))] /\
    forall c, (c < 8)%nat -> same32 (p (2 * c)%nat + p (2 * c + 1)%nat) (S c).

Definition rep_512 (acc : list vec) (S : nat -> Z) : Prop :=
  exists p, acc = [L4 (vrow 16 p)] /\
    forall c, (c < 8)%nat -> same32 (p (2 * c)%nat + p (2 * c + 1)%nat) (S c).

Lemma same32_add : forall a b c d, same32 a b -> same32 c d -> same32 (a + c) (b + d).
Proof. unfold same32. intros a b c d H1 H2. rewrite (Z.add_mod a), (Z.add_mod b), H1, H2 by lia. reflexivity. Qed.
Lemma same32_refl : forall a, same32 a a.
Proof. reflexivity. Qed.

(** ** The sums of the 256-bit functions *)

Lemma reg_part : forall g slot i, (i < 2)%nat ->
  extracti128 (reg 1 g slot) i = of_lanes 1 (vrow 16 (half_at g (16 * i) slot)).
Proof.
  intros g slot i Hi. unfold reg. rewrite extract128_bytes by (try exact Hi; reflexivity). destruct i as [|[|i]]; [| |lia]; reflexivity.
Qed.

Lemma half_in8 : forall g m base slot, (forall c r, in_bits 8 (g c r)) -> Forall (in_bits 8) (vrow m (half_at g base slot)).
Proof. intros g m base slot H. apply Forall_vrow. intros i _. apply H. Qed.

Definition hsum (g : nat -> nat -> Z) (base : nat) (slots : list nat) (e : nat) : Z := zsum (map (fun s => half_at g base s e) slots).

Lemma avx2_sum16 : forall g s slots i, (i < 2)%nat -> (forall c r, in_bits 8 (g c r)) ->
  sum16 cvtepi8_epi16 add_epi16 (fun v => extracti128 v i) (map (reg 1 g) (s :: slots)) =
  of_lanes 2 (vrow 16 (hsum g (16 * i) (s :: slots))).
Proof.
  intros g s slots i Hi H. apply (sum16_ok cvtepi8_epi16 (fun v => extracti128 v i) add_epi16 g 16 (16 * i)).
  - intros slot. rewrite reg_part by exact Hi. apply cvt8_16. apply half_in8. exact H.
  - intros. apply add16_lanes.
Qed.

Lemma avx_sum16 : forall g s slots i, (i < 2)%nat -> (forall c r, in_bits 8 (g c r)) ->
  sum16 avx_mm256_cvtepi8_epi16 (avx_halves2 add_epi16) (fun v => avx_extracti128 v i) (map (reg 1 g) (s :: slots)) =
  of_lanes 2 (vrow 16 (hsum g (16 * i) (s :: slots))).
Proof.
  intros g s slots i Hi H.
  apply (sum16_ok avx_mm256_cvtepi8_epi16 (fun v => avx_extracti128 v i) (avx_halves2 add_epi16) g 16 (16 * i)).
  - intros slot. replace (avx_extracti128 (reg 1 g slot) i) with (extracti128 (reg 1 g slot) i)
      by (destruct i as [|[|i]]; [reflexivity|reflexivity|lia]).
    rewrite reg_part by exact Hi. apply avx_cvt8_16; [reflexivity|]. apply half_in8. exact H.
  - intros. apply avx_add16_lanes; assumption.
Qed.

Lemma avx512_sum16 : forall g s slots, (forall c r, in_bits 8 (g c r)) ->
  sum16 cvtepi8_epi16 add_epi16 (fun v => v) (map (reg 1 g) (s :: slots)) = of_lanes 2 (vrow 32 (hsum g 0 (s :: slots))).
Proof.
  intros g s slots H. apply (sum16_ok cvtepi8_epi16 (fun v => v) add_epi16 g 32 0).
  - intros slot. unfold reg. rewrite cvt8_16; [reflexivity|]. apply (half_in8 g 32 0 slot). exact H.
  - intros. apply add16_lanes.
Qed.

(** The sums of the pairs of lanes of a register are the sums of a column. *)
Lemma column_256 : forall g c, (c < 8)%nat ->
  hsum g (16 * (c / 4)) slots_256 (2 * ((2 * c) mod 8)) + hsum g (16 * (c / 4)) slots_256 (2 * ((2 * c) mod 8) + 1) +
  (hsum g (16 * (c / 4)) slots_256 (2 * ((2 * c + 1) mod 8)) + hsum g (16 * (c / 4)) slots_256 (2 * ((2 * c + 1) mod 8) + 1)) =
  zsum (vrow 32 (g c)).
Proof.
  intros g c Hc. do 8 (destruct c as [|c]; [unfold hsum, half_at, slots_256, vrow; cbn -[Z.add]; lia|]). lia.
Qed.
Lemma column_512 : forall g c, (c < 8)%nat ->
  hsum g 0 slots_512 (2 * (2 * c)) + hsum g 0 slots_512 (2 * (2 * c) + 1) +
  (hsum g 0 slots_512 (2 * (2 * c + 1)) + hsum g 0 slots_512 (2 * (2 * c + 1) + 1)) = zsum (vrow 32 (g c)).
Proof.
  intros g c Hc. do 8 (destruct c as [|c]; [unfold hsum, half_at, slots_512, vrow; cbn -[Z.add]; lia|]). lia.
Qed.

Section Sum256.
Variables (cvt : vec -> vec) (add16 madd add32 : vec -> vec -> vec) (extract : vec -> nat -> vec).
Hypothesis H16 : forall g s slots i, (i < 2)%nat -> (forall c r, in_bits 8 (g c r)) ->
  sum16 cvt add16 (fun v => extract v i) (map (reg 1 g) (s :: slots)) = of_lanes 2 (vrow 16 (hsum g (16 * i) (s :: slots))).
Hypothesis Hmadd : forall h, Forall (in_bits 16) (vrow 16 h) ->
  madd (of_lanes 2 (vrow 16 h)) (set1 2 16 1) = L4 (vrow 8 (fun i => h (2 * i)%nat + h (2 * i + 1)%nat)).
Hypothesis Hadd : forall a b, length a = 8%nat -> length b = 8%nat -> add32 (L4 a) (L4 b) = L4 (map2 Z.add a b).

Lemma sum_256_ok : forall g acc S, (forall c r, in_bits 8 (g c r)) -> rep_256 acc S ->
  rep_256 (sum_256 cvt add16 madd add32 extract (map (reg 1 g) slots_256) acc) (fun c => S c + zsum (vrow 32 (g c))).
Proof using H16 Hmadd Hadd.
  intros g acc S Hg (p & -> & Hp). unfold sum_256, slots_256. cbv zeta. rewrite !H16 by (try exact Hg; lia). fold slots_256.
  rewrite !Hmadd by (apply sums_in16; [exact Hg|reflexivity]). rewrite !Hadd by reflexivity. rewrite !map2_vrow.
  exists (fun i => p i + (hsum g (16 * (i / 8)) slots_256 (2 * (i mod 8)) + hsum g (16 * (i / 8)) slots_256 (2 * (i mod 8) + 1))).
  split; [reflexivity|]. intros c Hc. rewrite <- (column_256 g c Hc).
  replace (2 * c / 8)%nat with (c / 4)%nat by (do 8 (destruct c as [|c]; [reflexivity|]); lia).
  replace ((2 * c + 1) / 8)%nat with (c / 4)%nat by (do 8 (destruct c as [|c]; [reflexivity|]); lia).
  match goal with |- same32 (?a + (?x + ?y) + (?b + (?z + ?w))) (?s + _) =>
    replace (a + (x + y) + (b + (z + w))) with (a + b + (x + y + (z + w))) by lia end.
  apply same32_add; [apply Hp; exact Hc|apply same32_refl].
Qed.

Variables (evenodds : vec -> vec) (permute : vec -> vec -> Z -> vec).
Hypothesis Heo : forall p, evenodds (L4 (vrow 8 p)) = L4 (vrow 8 (fun i => p (nth i [0; 2; 4; 6; 1; 3; 5; 7] 0)%nat)).
Hypothesis Hperm : forall a b, permute (L4 (vrow 8 a)) (L4 (vrow 8 b)) 0x20 = L4 (vrow 8 (fun i => if (i <? 4)%nat then a i else b (i - 4)%nat)) /\
  permute (L4 (vrow 8 a)) (L4 (vrow 8 b)) 0x31 = L4 (vrow 8 (fun i => if (i <? 4)%nat then a (i + 4)%nat else b i)).

Lemma total_256_ok : forall acc S s adj, rep_256 acc S ->
  total_256 evenodds permute add32 acc (L4 (vrow 8 s)) (set1 4 8 adj) = L4 (vrow 8 (fun c => s c + adj + S c)).
Proof using Hadd Heo Hperm.
  clear H16 Hmadd extract cvt add16 madd.
  intros acc S s adj (p & -> & Hp). unfold total_256. cbv zeta. rewrite !Heo.
  rewrite (proj1 (Hperm _ _)), (proj2 (Hperm _ _)).
  change (set1 4 8 adj) with (L4 (vrow 8 (fun _ => adj))). rewrite Hadd by reflexivity. rewrite map2_vrow.
  rewrite Hadd by reflexivity. rewrite map2_vrow. rewrite Hadd by reflexivity. rewrite map2_vrow.
  apply L4_ext. intros i Hi. specialize (Hp i Hi). unfold same32 in Hp. unfold wrap_u. rewrite (Z.add_mod _ (S i)), <- Hp, <- Z.add_mod by lia.
  do 8 (destruct i as [|i]; [cbn -[Z.add Z.modulo Z.pow]; f_equal; lia|]). lia.
Qed.
End Sum256.

Lemma rep_256_0 : rep_256 [set1 4 8 0; set1 4 8 0] (fun _ => 0).
Proof. exists (fun _ => 0). split; [reflexivity|]. intros; reflexivity. Qed.
Lemma rep_512_0 : rep_512 [set1 4 16 0] (fun _ => 0).
Proof. exists (fun _ => 0). split; [reflexivity|]. intros; reflexivity. Qed.

Lemma rep_256_ext : forall acc S S', (forall c, (c < 8)%nat -> S c = S' c) -> rep_256 acc S -> rep_256 acc S'.
Proof. intros acc S S' E (p & H1 & H2). exists p. split; [exact H1|]. intros c Hc. rewrite <- E by exact Hc. apply H2. exact Hc. Qed.
Lemma rep_512_ext : forall acc S S', (forall c, (c < 8)%nat -> S c = S' c) -> rep_512 acc S -> rep_512 acc S'.
Proof. intros acc S S' E (p & H1 & H2). exists p. split; [exact H1|]. intros c Hc. rewrite <- E by exact Hc. apply H2. exact Hc. Qed.

Lemma avx2_evenodds : forall p, permutevar8x32 (L4 (vrow 8 p)) (of_lanes 4 [0; 2; 4; 6; 1; 3; 5; 7]) =
  L4 (vrow 8 (fun i => p (nth i [0; 2; 4; 6; 1; 3; 5; 7] 0)%nat)).
Proof.
  intros p. unfold permutevar8x32.
  replace (map _ (ulanes 4 _)) with [0; 2; 4; 6; 1; 3; 5; 7]%nat by (vm_compute; reflexivity).
  unfold L4. rewrite pick_lanes by lia. reflexivity.
Qed.
Lemma avx_evenodds : forall p, avx_permute_epi32_even_odds (L4 (vrow 8 p)) =
  L4 (vrow 8 (fun i => p (nth i [0; 2; 4; 6; 1; 3; 5; 7] 0)%nat)).
Proof. intros p. unfold L4, vrow. cbn [seq map nth]. move_bytes. Qed.
Lemma permute_L4 : forall a b, permute2x128 (L4 (vrow 8 a)) (L4 (vrow 8 b)) 0x20 = L4 (vrow 8 (fun i => if (i <? 4)%nat then a i else b (i - 4)%nat)) /\
  permute2x128 (L4 (vrow 8 a)) (L4 (vrow 8 b)) 0x31 = L4 (vrow 8 (fun i => if (i <? 4)%nat then a (i + 4)%nat else b i)).
Proof. intros a b. unfold L4, vrow. cbn [seq map Nat.ltb Nat.leb Nat.add Nat.sub]. split; move_bytes. Qed.
Lemma avx_permute_L4 : forall a b, avx_mm256_permute2x128 (L4 (vrow 8 a)) (L4 (vrow 8 b)) 0x20 = L4 (vrow 8 (fun i => if (i <? 4)%nat then a i else b (i - 4)%nat)) /\
  avx_mm256_permute2x128 (L4 (vrow 8 a)) (L4 (vrow 8 b)) 0x31 = L4 (vrow 8 (fun i => if (i <? 4)%nat then a (i + 4)%nat else b i)).
Proof. intros a b. split; [rewrite (proj1 (avx_permute _ _)); apply permute_L4|rewrite (proj2 (avx_permute _ _)); apply permute_L4]. Qed.

(** ** The sums of the 512-bit functions *)

Lemma sum_512_ok : forall g acc S, (forall c r, in_bits 8 (g c r)) -> rep_512 acc S ->
  rep_512 (sum_512 (map (reg 1 g) slots_512) acc) (fun c => S c + zsum (vrow 32 (g c))).
Proof.
  intros g acc S Hg (p & -> & Hp). unfold sum_512, slots_512. cbv zeta. rewrite !avx512_sum16 by exact Hg. fold slots_512.
  rewrite !madd_ones32 by (apply sums_in16; [exact Hg|reflexivity]). rewrite !add_L4. rewrite !map2_vrow.
  eexists. split; [reflexivity|]. intros c Hc. cbv beta. rewrite <- (column_512 g c Hc).
  match goal with |- same32 (?a + (?x + ?y) + (?b + (?z + ?w))) (?s + _) =>
    replace (a + (x + y) + (b + (z + w))) with (a + b + (x + y + (z + w))) by lia end.
  apply same32_add; [apply Hp; exact Hc|apply same32_refl].
Qed.

Lemma total_512_ok : forall acc S s adj, rep_512 acc S ->
  total_512 acc (L4 (vrow 8 s)) (set1 4 8 adj) = L4 (vrow 8 (fun c => s c + adj + S c)).
Proof.
  intros acc S s adj (p & -> & Hp). unfold total_512. cbv zeta.
  replace (permutexvar_epi32 _ _) with (L4 (vrow 16 (fun i => p (nth i [0; 2; 4; 6; 8; 10; 12; 14; 1; 3; 5; 7; 9; 11; 13; 15] 0)%nat))).
  2: { unfold permutexvar_epi32.
       replace (map _ (ulanes 4 _)) with [0; 2; 4; 6; 8; 10; 12; 14; 1; 3; 5; 7; 9; 11; 13; 15]%nat by (vm_compute; reflexivity).
       unfold L4. rewrite pick_lanes by lia. reflexivity. }
  replace (extracti256 _ 0) with (L4 (vrow 8 (fun i => p (2 * i)%nat)))
    by (unfold L4, vrow; cbn [seq map nth Nat.mul Nat.add]; move_bytes).
  replace (extracti256 _ 1) with (L4 (vrow 8 (fun i => p (2 * i + 1)%nat)))
    by (unfold L4, vrow; cbn [seq map nth Nat.mul Nat.add]; move_bytes).
  change (set1 4 8 adj) with (L4 (vrow 8 (fun _ => adj))). rewrite !add_L4, !map2_vrow.
  apply L4_ext. intros i Hi. specialize (Hp i Hi). unfold same32 in Hp. unfold wrap_u. rewrite (Z.add_mod _ (S i)), <- Hp, <- Z.add_mod by lia.
  f_equal. lia.
Qed.

Lemma sum16_512_ok : forall g acc S, (forall c r, in_bits 16 (g c r)) -> rep_512 acc S ->
  rep_512 (sum16_512 (map (reg 2 g) slots16_512) acc) (fun c => S c + zsum (vrow 16 (g c))).
Proof.
  intros g acc S Hg (p & -> & Hp). unfold sum16_512, slots16_512. cbn [map fold_left].
  assert (F : forall slot, madd_epi16 (reg 2 g slot) (set1 2 32 1) =
    L4 (vrow 16 (fun i => half_at g 0 slot (2 * i) + half_at g 0 slot (2 * i + 1)))).
  { intros slot. unfold reg. rewrite madd_ones32 by (apply Forall_vrow; intros; apply Hg). reflexivity. }
  rewrite !F, !add_L4, !map2_vrow. eexists. split; [reflexivity|]. intros c Hc. cbv beta.
  match goal with |- same32 ?a (?s + ?b) => replace a with (p (2 * c)%nat + p (2 * c + 1)%nat + b) end.
  { apply same32_add; [apply Hp; exact Hc|apply same32_refl]. }
  do 8 (destruct c as [|c]; [unfold half_at, vrow; cbn -[Z.add]; lia|]). lia.
Qed.

(** ** Masked loads *)

Lemma overlay_ok : forall m f n z, (m <= n)%nat ->
  overlay (of_lanes 1 (vrow m f)) (set1 1 n z) = of_lanes 1 (vrow n (fun r => if (r <? m)%nat then f r else z)).
Proof.
  intros m f n z H. unfold overlay. rewrite !lanes1.
  replace (length (vrow m _)) with m by (unfold vrow; rewrite map_length, seq_length; reflexivity).
  replace (set1 1 n z) with (vrow n (fun _ => z mod 256)).
  2: { unfold set1. replace (repeat z n) with (vrow n (fun _ => z)); [rewrite lanes1; reflexivity|].
       unfold vrow. clear. generalize 0%nat. induction n; intros; cbn [seq map repeat]; [reflexivity|]. rewrite IHn. reflexivity. }
  unfold vrow. replace n with (m + (n - m))%nat at 1 2 by lia. rewrite seq_app, !map_app, skipn_app.
  rewrite skipn_all2 by (rewrite map_length, seq_length; lia). rewrite map_length, seq_length, Nat.sub_diag. cbn [skipn app].
  f_equal; apply map_ext_in; intros i Hi; apply in_seq in Hi; destruct (Nat.ltb_spec i m); (reflexivity || lia).
Qed.

Lemma vrow_app : forall m n f, vrow (m + n) f = vrow m f ++ vrow n (fun i => f (m + i)%nat).
Proof.
  intros m n f. unfold vrow. rewrite seq_app, map_app. f_equal. cbn [Nat.add]. revert n. induction m as [|m IH]; intros n.
  - reflexivity.
  - clear IH. rewrite <- (map_map (fun i => (S m + i)%nat) f). f_equal.
    rewrite <- (Nat.add_0_r (S m)) at 1. generalize 0%nat. induction n as [|n IHn]; intros a; cbn [seq map]; [reflexivity|].
    rewrite <- Nat.add_succ_r, IHn. reflexivity.
Qed.

Lemma mask_load_256_ok : forall dbg avail zp b off, 0 < avail < 32 -> 0 <= off -> off + avail <= blen b ->
  mask_load_256 dbg avail zp b off =
  Ok (of_lanes 1 (vrow 32 (fun r => if Z.of_nat r <? avail then bdat b (off + Z.of_nat r) else zp))).
Proof.
  intros dbg avail zp b off Ha Ho Hb. unfold mask_load_256, dcheck. replace (avail <? 32) with true by lia. cbn [negb andb orb].
  rewrite andb_false_r. cbn [bind]. unfold set_m128i. destruct (Z.leb_spec 16 avail) as [H|H].
  - rewrite !load_ok by lia. cbn [bind]. rewrite overlay_ok by lia. change (Z.to_nat 16) with 16%nat.
    change 32%nat with (16 + 16)%nat. rewrite (vrow_app 16 16), of_lanes_app. do 2 f_equal.
    + f_equal. apply vrow_ext. intros i Hi. replace (Z.of_nat i <? avail) with true by lia. reflexivity.
    + f_equal. apply vrow_ext. intros i Hi. unfold span.
      destruct (Nat.ltb_spec i (Z.to_nat (avail - 16))); destruct (Z.ltb_spec (Z.of_nat (16 + i)) avail); try lia; try reflexivity.
      f_equal. lia.
  - rewrite load_ok by lia. cbn [bind]. rewrite overlay_ok by lia.
    change 32%nat with (16 + 16)%nat. rewrite (vrow_app 16 16), of_lanes_app. do 2 f_equal.
    + f_equal. apply vrow_ext. intros i Hi. unfold span.
      destruct (Nat.ltb_spec i (Z.to_nat avail)); destruct (Z.ltb_spec (Z.of_nat i) avail); try lia; reflexivity.
    + change (set1 1 16 zp) with (of_lanes 1 (vrow 16 (fun _ => zp))). f_equal. apply vrow_ext. intros i Hi.
      replace (Z.of_nat (16 + i) <? avail) with false by lia. reflexivity.
Qed.

Lemma mask_loadu_ok : forall w mask b off zp n i avail, (0 < w)%nat -> 0 <= i -> 0 <= off -> off + avail <= blen b ->
  (forall j, i <= j < i + Z.of_nat n -> Z.testbit mask j = (j <? avail)) ->
  mask_loadu w mask i (repeat (bytes_of w zp) n) b off =
  Ok (of_lanes w (vrow n (fun r => if i + Z.of_nat r <? avail then bdat b (off + (i + Z.of_nat r)) else zp))).
Proof.
  intros w mask b off zp n. induction n as [|n IH]; intros i avail Hw Hi Ho Hb Hm; cbn [repeat mask_loadu]; [reflexivity|].
  rewrite Hm by lia. replace (S n) with (1 + n)%nat by lia. rewrite (vrow_app 1 n), of_lanes_app.
  rewrite (IH (i + 1) avail) by (try assumption; try lia; intros j Hj; apply Hm; lia).
  unfold vrow at 2. cbn [seq map]. change (Z.of_nat 0) with 0. rewrite Z.add_0_r.
  replace (vrow n (fun r => if i + 1 + Z.of_nat r <? avail then bdat b (off + (i + 1 + Z.of_nat r)) else zp)) with
    (vrow n (fun r => if i + Z.of_nat (1 + r) <? avail then bdat b (off + (i + Z.of_nat (1 + r))) else zp))
    by (apply vrow_ext; intros r Hr; replace (i + Z.of_nat (1 + r)) with (i + 1 + Z.of_nat r) by lia; reflexivity).
  destruct (Z.ltb_spec i avail) as [H|H].
  - rewrite load_ok by lia. change (Z.to_nat 1) with 1%nat. unfold vrow at 1. unfold span. cbn [seq map bind].
    change (Z.of_nat 0) with 0. rewrite Z.add_0_r. reflexivity.
  - cbn [bind]. unfold of_lanes at 2. cbn [map concat]. rewrite app_nil_r. reflexivity.
Qed.

Lemma mask_bits : forall avail j, 0 < avail < 32 -> 0 <= j -> Z.testbit ((2 ^ avail - 1) mod 2 ^ 32) j = (j <? avail).
Proof.
  intros avail j Ha Hj. rewrite Z.mod_small.
  2: { assert (0 < 2 ^ avail) by (apply Z.pow_pos_nonneg; lia). assert (2 ^ avail < 2 ^ 32) by (apply Z.pow_lt_mono_r; lia). lia. }
  replace (2 ^ avail - 1) with (Z.ones avail) by (rewrite Z.ones_equiv; lia). destruct (Z.ltb_spec j avail).
  - apply Z.ones_spec_low. lia.
  - apply Z.ones_spec_high. lia.
Qed.

Lemma map_repeat' : forall (A B : Type) (f : A -> B) x n, map f (repeat x n) = repeat (f x) n.
Proof. intros A B f x n. induction n; cbn [repeat map]; [reflexivity|]. rewrite IHn. reflexivity. Qed.

Lemma mask_load_512_ok : forall w n dbg avail zp b off, (0 < w)%nat -> (n <= 32)%nat -> 0 < avail < Z.of_nat n -> 0 <= off -> off + avail <= blen b ->
  mask_load_512 w n (Z.of_nat n) dbg avail zp b off =
  Ok (of_lanes w (vrow n (fun r => if Z.of_nat r <? avail then bdat b (off + Z.of_nat r) else zp))).
Proof.
  intros w n dbg avail zp b off Hw Hn Ha Ho Hb. unfold mask_load_512, dcheck.
  assert (avail / 4 < Z.of_nat n) by (apply Z.div_lt_upper_bound; lia).
  replace (avail / 4 <? Z.of_nat n) with true by lia. rewrite andb_false_r. cbn [bind].
  unfold set1. rewrite chunks_of_lanes by exact Hw. rewrite map_repeat'.
  rewrite mask_loadu_ok with (avail := avail); try assumption; try lia; [reflexivity|].
  intros j Hj. apply mask_bits; lia.
Qed.

(** ** The four packers *)

Lemma regs_of : forall (k : col_packer) slots xor f, c_size k = 1%nat -> good_xor 1 xor ->
  (forall h, c_transpose k (map (fun j => vrow 32 (h j)) (seq 0 8)) =
             map (fun slot => vrow 32 (fun e => h (e / 4) (4 * slot + e mod 4))%nat) slots) ->
  (forall x, c_xor k (vrow 32 (fun e => x e mod 256)) (set1 1 32 xor) = of_lanes 1 (vrow 32 (fun e => pconv 1 xor (x e)))) ->
  map (fun v => c_xor k v (set1 1 32 xor)) (c_transpose k (tile 1 f)) = map (reg 1 (fun c r => pconv 1 xor (f c r))) slots.
Proof.
  intros k slots xor f Hk Hx Ht Hr. rewrite tile1. rewrite (Ht (fun j r => f j r mod 256)). rewrite map_map. apply map_ext.
  intros slot. rewrite (Hr (fun e => f (e / 4) (4 * slot + e mod 4))%nat). reflexivity.
Qed.

Lemma slots8 : forall (order : list (nat * Z)) n, (forall s, In s (zrange 0 n) -> In s (map snd order)) ->
  forall slot, 0 <= slot < n -> exists i, In (i, slot) order.
Proof.
  intros order n H slot Hs. specialize (H slot (proj2 (zrange_In _ _ _) Hs)). apply in_map_iff in H. destruct H as ([i s] & E & H).
  cbn [snd] in E. subst s. exists i. exact H.
Qed.

Lemma avx2_col_laws : col_laws avx2_col slots_256 rep_256.
Proof.
  constructor.
  - left. split; reflexivity.
  - left. reflexivity.
  - intros. change (c_rows avx2_col) with 32 in *. apply mask_load_256_ok; assumption.
  - intros f xor Hx. apply regs_of; [reflexivity|exact Hx|exact transpose_256_bytes|]. intros x. apply xor_row. exact Hx.
  - change (c_rows avx2_col / 4) with 8. intros i s H. cbn [avx2_col c_order order_256] in H.
    repeat (destruct H as [H|H]; [injection H as <- <-; split; [lia|reflexivity]|]). destruct H.
  - change (c_rows avx2_col / 4) with 8. apply slots8. intros s Hs. vm_compute in Hs. vm_compute. intuition.
  - exact rep_256_0.
  - exact rep_256_ext.
  - intros g acc S Hg Hr. change (32 / c_size avx2_col)%nat with 32%nat.
    apply (sum_256_ok cvtepi8_epi16 add_epi16 madd_epi16 add_epi32 extracti128); [|exact madd_ones16|intros; apply add_L4|exact Hg|exact Hr].
    intros. apply avx2_sum16; assumption.
  - intros acc S s adj Hr. apply total_256_ok with (1 := fun a b _ _ => add_L4 a b); [exact avx2_evenodds|exact permute_L4|exact Hr].
Qed.

Lemma avx_col_laws : col_laws avx_col slots_256 rep_256.
Proof.
  constructor.
  - left. split; reflexivity.
  - left. reflexivity.
  - intros. change (c_rows avx_col) with 32 in *. apply mask_load_256_ok; assumption.
  - intros f xor Hx. apply regs_of; [reflexivity|exact Hx|exact avx_transpose_bytes|]. intros x. apply avx_xor_row. exact Hx.
  - change (c_rows avx_col / 4) with 8. intros i s H. cbn [avx_col c_order order_256] in H.
    repeat (destruct H as [H|H]; [injection H as <- <-; split; [lia|reflexivity]|]). destruct H.
  - change (c_rows avx_col / 4) with 8. apply slots8. intros s Hs. vm_compute in Hs. vm_compute. intuition.
  - exact rep_256_0.
  - exact rep_256_ext.
  - intros g acc S Hg Hr. change (32 / c_size avx_col)%nat with 32%nat.
    apply (sum_256_ok avx_mm256_cvtepi8_epi16 (avx_halves2 add_epi16) (avx_halves2 madd_epi16) (avx_halves2 add_epi32) avx_extracti128);
      [|exact avx_madd_ones16|exact avx_add_L4|exact Hg|exact Hr].
    intros. apply avx_sum16; assumption.
  - intros acc S s adj Hr. apply total_256_ok with (1 := avx_add_L4); [exact avx_evenodds|exact avx_permute_L4|exact Hr].
Qed.

Lemma avx512_col_laws : col_laws avx512_col slots_512 rep_512.
Proof.
  constructor.
  - right. split; reflexivity.
  - left. reflexivity.
  - intros. change (c_rows avx512_col) with 32 in *. apply (mask_load_512_ok 1 32); try assumption; lia.
  - intros f xor Hx. apply regs_of; [reflexivity|exact Hx|exact transpose_512_bytes|]. intros x. apply xor_row. exact Hx.
  - change (c_rows avx512_col / 4) with 8. intros i s H. cbn [avx512_col c_order] in H.
    repeat (destruct H as [H|H]; [injection H as <- <-; split; [lia|reflexivity]|]). destruct H.
  - change (c_rows avx512_col / 4) with 8. apply slots8. intros s Hs. vm_compute in Hs. vm_compute. intuition.
  - exact rep_512_0.
  - exact rep_512_ext.
  - intros g acc S Hg Hr. apply sum_512_ok; assumption.
  - intros acc S s adj Hr. apply total_512_ok. exact Hr.
Qed.

Lemma pconv2_0 : forall x, pconv 2 0 x mod 2 ^ 16 = x mod 2 ^ 16.
Proof. intros x. unfold pconv. change (8 * Z.of_nat 2) with 16. rewrite Base.wrap_s_mod by lia. rewrite Z.add_0_r. reflexivity. Qed.

Lemma avx512_col16_laws : col_laws avx512_col16 slots16_512 rep_512.
Proof.
  constructor.
  - right. split; reflexivity.
  - right. reflexivity.
  - intros. change (c_rows avx512_col16) with 16 in *. apply (mask_load_512_ok 2 16); try assumption; lia.
  - intros f xor Hx. change (c_size avx512_col16) with 2%nat in *. destruct Hx as [-> | [Hx _]]; [|discriminate].
    cbn [avx512_col16 c_xor c_transpose]. rewrite map_id. unfold tile. change (32 / 2)%nat with 16%nat.
    rewrite (map_ext _ (fun j => vrow 32 (fun b => nth (b mod 2) [f j (b / 2)%nat mod 256; f j (b / 2)%nat / 256 mod 256] 0)))
      by (intros j; apply lanes2_16).
    rewrite (transpose16_bytes (fun j b => nth (b mod 2) [f j (b / 2)%nat mod 256; f j (b / 2)%nat / 256 mod 256] 0)).
    apply map_ext. intros slot. unfold reg.
    rewrite (of_lanes_ext 2 (vrow 32 (fun e => pconv 2 0 (f (e / 4) (4 * slot + e mod 4)))%nat)
                            (vrow 32 (fun e => f (e / 4) (4 * slot + e mod 4))%nat)).
    2: { unfold vrow. rewrite !map_map. apply map_ext. intros e. apply pconv2_0. }
    rewrite lanes2_32. apply vrow_ext. intros b Hb.
    replace (2 * (4 * slot + (b / 2) mod 4) + b mod 2)%nat with (b mod 2 + (4 * slot + (b / 2) mod 4) * 2)%nat by lia.
    rewrite Nat.mod_add, Nat.mod_mod, Nat.div_add by lia.
    replace (b mod 2 / 2)%nat with 0%nat by (symmetry; apply Nat.div_small; apply Nat.mod_upper_bound; lia). reflexivity.
  - change (c_rows avx512_col16 / 4) with 4. intros i s H. cbn [avx512_col16 c_order] in H.
    repeat (destruct H as [H|H]; [injection H as <- <-; split; [lia|reflexivity]|]). destruct H.
  - change (c_rows avx512_col16 / 4) with 4. apply slots8. intros s Hs. vm_compute in Hs. vm_compute. intuition.
  - exact rep_512_0.
  - exact rep_512_ext.
  - intros g acc S Hg Hr. apply sum16_512_ok; assumption.
  - intros acc S s adj Hr. apply total_512_ok. exact Hr.
Qed.
