(** From the bytes stored by the 8-bit kernels for AArch64 to entries; the sums of products. *)
From Coq Require Import ZArith List Bool Lia.
From Verif Require Import Base SidePair Mat Scalars Pack IntOps MulParams Kernel MatFacts PackFacts IntEntryFacts.
From Verif Require Import SpecRound SpecMatrix SpecPack SpecMul SpecSimd SpecPackX86 SpecKernel SpecKernelNeon.
From Verif Require Import Simd SimdFacts RequantFacts RequantProps Kernel8bit Kernel8bitAvx Kernel8bitIsa Kernel8bitAvx2Facts Kernel8bitFacts Kernel8bitProps.
From Verif Require Import Neon64 NeonRun NeonPack NeonPackMath NeonPackBytes NeonKernel8Code Neon8Lanes Neon8Tac Neon8Col CpuInfo Tune Kernel8Neon.
Import ListNotations.
Open Scope Z_scope.

(** ** Bytes *)
Definition width (n : nat) : Prop := n = 1%nat \/ n = 2%nat \/ n = 4%nat.

Lemma type_width : forall t, dst_type t -> width (Z.to_nat (it_size t)) /\ it_size t = Z.of_nat (Z.to_nat (it_size t)) /\ 1 <= it_size t <= 4.
Proof. intros t [-> | [-> | [-> | ->]]]; vm_compute; intuition discriminate. Qed.

Lemma enc_at : forall n b i e, 0 < n -> 0 <= e < n -> bdat (enc n b) (n * i + e) = bdat b i / 256 ^ e mod 256.
Proof. intros n b i e Hn He. cbn [enc bdat]. rewrite (div_at _ n i e), (mod_at _ n i e) by lia. reflexivity. Qed.

Lemma enc_element : forall n b i, width n -> get_bytes (enc (Z.of_nat n) b) (Z.of_nat n * i) n = bytes_of n (bdat b i).
Proof.
  intros n b i [-> | [-> | ->]]; unfold get_bytes; cbn [zseq map]; rewrite !enc_at by lia.
  - cbn [bytes_of]. rewrite Z.pow_0_r, Z.div_1_r. reflexivity.
  - cbn [bytes_of]. change (0 + 1) with 1. rewrite Z.pow_0_r, Z.div_1_r, Z.pow_1_r. reflexivity.
  - apply word_bytes.
Qed.

Lemma lane_byte : forall n f r e, width n -> (r < 8)%nat -> (e < n)%nat -> nth (n * r + e) (lv n 8 f) 0 = nth e (bytes_of n (f r)) 0.
Proof.
  intros n f r e W Hr He. unfold lv, of_lanes.
  do 8 (destruct r as [|r]; [destruct W as [-> | [-> | ->]]; (do 4 (destruct e as [|e]; [try reflexivity; lia|]); lia)|]). lia.
Qed.

Lemma get_ext : forall b b' o o' n, (forall e, 0 <= e < Z.of_nat n -> bdat b (o + e) = bdat b' (o' + e)) -> get_bytes b o n = get_bytes b' o' n.
Proof.
  intros b b' o o' n H. unfold get_bytes. apply map_ext_in. intros e He. apply H. apply zseq_In in He. lia.
Qed.

Lemma get_nth : forall b o n l, length l = n -> (forall e, (e < n)%nat -> bdat b (o + Z.of_nat e) = nth e l 0) -> get_bytes b o n = l.
Proof.
  intros b o n l Hl H. unfold get_bytes. rewrite zseq_seq, map_map. transitivity (map (fun e => nth e l 0) (seq 0 n)).
  - apply map_ext_in. intros e He. apply in_seq in He. replace (0 + Z.of_nat e) with (Z.of_nat e) by lia. apply H. lia.
  - subst n. clear. induction l as [|a l IH]; [reflexivity|]. cbn [length seq map nth]. f_equal. rewrite <- seq_shift, map_map. exact IH.
Qed.

(** Entries written in blocks of 8. *)
Lemma elements : forall sz (f : Z -> nat -> Z) E cnt D0 D, width sz ->
  (forall x, bdat D x =
    if (Z.of_nat sz * E <=? x) && (x <? Z.of_nat sz * E + Z.of_nat sz * cnt)
    then nth (Z.to_nat ((x - Z.of_nat sz * E) mod (8 * Z.of_nat sz))) (lv sz 8 (f ((x - Z.of_nat sz * E) / (8 * Z.of_nat sz)))) 0
    else bdat D0 x) ->
  forall i, get_bytes D (Z.of_nat sz * i) sz =
    if (E <=? i) && (i <? E + cnt) then bytes_of sz (f ((i - E) / 8) (Z.to_nat ((i - E) mod 8))) else get_bytes D0 (Z.of_nat sz * i) sz.
Proof.
  intros sz f E cnt D0 D W H i. assert (Hs : 1 <= Z.of_nat sz <= 4) by (destruct W as [-> | [-> | ->]]; lia).
  destruct (Z.leb_spec E i) as [H1|H1]; [destruct (Z.ltb_spec i (E + cnt)) as [H2|H2]|]; cbn [andb].
  - apply get_nth; [apply bytes_of_length|]. intros e He. rewrite H.
    replace (_ && _) with true by (symmetry; apply andb_true_intro; split; [apply Z.leb_le|apply Z.ltb_lt]; nia).
    pose proof (Z.div_mod (i - E) 8 ltac:(lia)) as DM. pose proof (Z.mod_pos_bound (i - E) 8 ltac:(lia)) as MB.
    set (b := (i - E) / 8) in *. set (r := (i - E) mod 8) in *. clearbody b r.
    assert (X : Z.of_nat sz * i + Z.of_nat e - Z.of_nat sz * E = 8 * Z.of_nat sz * b + (Z.of_nat sz * r + Z.of_nat e)) by (replace i with (E + (8 * b + r)) by lia; ring).
    assert (B : 0 <= Z.of_nat sz * r + Z.of_nat e < 8 * Z.of_nat sz) by nia. rewrite X, (div_at _ (8 * Z.of_nat sz) b _), (mod_at _ (8 * Z.of_nat sz) b _) by (reflexivity || lia).
    replace (Z.to_nat (Z.of_nat sz * r + Z.of_nat e)) with (sz * Z.to_nat r + e)%nat by nia. apply lane_byte; [exact W|lia|exact He].
  - apply get_ext. intros e He. rewrite H. replace (_ <? _) with false by (symmetry; apply Z.ltb_ge; nia). rewrite andb_false_r. reflexivity.
  - apply get_ext. intros e He. rewrite H. replace (_ <=? _) with false by (symmetry; apply Z.leb_gt; nia). reflexivity.
Qed.

Lemma conv_bytes : forall t z, dst_type t -> it_conv t (of_bytes (bytes_of (Z.to_nat (it_size t)) z)) = it_conv t z.
Proof.
  intros t z T. rewrite of_bytes_of. destruct T as [-> | [-> | [-> | ->]]].
  - unfold it_conv. cbn [it_signed u8 it_bits]. unfold wrap_u. change (256 ^ Z.of_nat (Z.to_nat (it_size u8))) with (2 ^ 8). apply Z.mod_mod. discriminate.
  - apply (SimdFacts.wrap_s_mod 8). lia.
  - apply (SimdFacts.wrap_s_mod 16). lia.
  - apply (SimdFacts.wrap_s_mod 32). lia.
Qed.
Lemma conv_id : forall t z, dst_type t -> it_lo t <= z <= it_hi t -> it_conv t z = z.
Proof.
  intros t z T Hz. destruct T as [-> | [-> | [-> | ->]]]; revert Hz; cbv [it_lo it_hi it_conv it_signed u8 s8 s16 s32 it_bits smin smax];
    change (2 ^ (8 - 1)) with 128; change (2 ^ (16 - 1)) with 32768; change (2 ^ (32 - 1)) with 2147483648; change (2 ^ 8) with 256; intros Hz.
  - apply wrap_u_id. change (2 ^ 8) with 256. lia.
  - apply SimdFacts.wrap_s_id; [lia|]. change (2 ^ (8 - 1)) with 128. lia.
  - apply SimdFacts.wrap_s_id; [lia|]. change (2 ^ (16 - 1)) with 32768. lia.
  - apply SimdFacts.wrap_s_id; [lia|]. change (2 ^ (32 - 1)) with 2147483648. lia.
Qed.

(** An entry decoded. *)
Lemma dec_value : forall t old d i z, dst_type t -> 0 <= i < blen old -> get_bytes d (it_size t * i) (Z.to_nat (it_size t)) = bytes_of (Z.to_nat (it_size t)) z ->
  bdat (dec t old d) i = it_conv t z.
Proof.
  intros t old d i z T Hi G. cbn [dec bdat]. fold (it_size t). replace (0 <=? i) with true by lia. replace (i <? blen old) with true by lia. cbn [andb]. rewrite G. apply conv_bytes, T.
Qed.
Lemma dec_same : forall t old d i, dst_type t -> typed t old -> get_bytes d (it_size t * i) (Z.to_nat (it_size t)) = get_bytes (enc (it_size t) old) (it_size t * i) (Z.to_nat (it_size t)) ->
  bdat (dec t old d) i = bdat old i.
Proof.
  intros t old d i T O G. destruct (Z_le_gt_dec 0 i) as [H|H]; [destruct (Z_lt_le_dec i (blen old)) as [H'|H']|apply dec_out; lia]; [|apply dec_out; lia].
  destruct (type_width t T) as (W & E & _). rewrite E in G at 3 4. rewrite enc_element in G by exact W. rewrite (dec_value t old d i (bdat old i) T ltac:(lia) G). apply conv_id; [exact T|apply O; lia].
Qed.

(** ** Products *)
Lemma dotted_upto : forall p rs row col i c, 
  row mod 8 = 0 -> col mod 8 = 0 -> (i < 8)%nat -> (c < 8)%nat -> 0 <= row -> 0 <= col -> 0 <= k_lhs_stride p -> 0 <= rs ->
  (forall q, 0 <= q < blen (k_lhs p) -> in_bits 8 (bdat (k_lhs p) q)) -> (forall q, 0 <= q < blen (k_rhs p) -> in_bits 8 (bdat (k_rhs p) q)) ->
  forall m, row * k_lhs_stride p + 32 * Z.of_nat m <= blen (k_lhs p) -> col * rs + 32 * Z.of_nat m <= blen (k_rhs p) ->
  dotted (k_lhs p) (k_rhs p) (row * k_lhs_stride p) (col * rs) i c m = dot_upto 8 p rs (4 * Z.of_nat m) (row + Z.of_nat i) (col + Z.of_nat c).
Proof.
  intros p rs row col i c Hr Hc Hi Hc8 R0 C0 L0 RS0 BL BR. induction m as [|m IH]; intros H1 H2; [reflexivity|].
  cbn [dotted]. rewrite IH by lia. replace (4 * Z.of_nat (S m)) with (4 * (Z.of_nat m + 1)) by lia. rewrite (dot_snoc avx2) by lia. f_equal. change (v_n avx2) with 8.
  assert (V : forall b o, (forall q, 0 <= q < blen b -> in_bits 8 (bdat b q)) -> 0 <= o < blen b -> wrap_s 8 (bdat b o) = bdat b o).
  { intros b o B Ho. specialize (B o Ho). unfold in_bits in B. apply SimdFacts.wrap_s_id; [lia|]. revert B. change (2 ^ (8 - 1)) with 128. lia. }
  assert (N : forall x s, 0 <= x -> 0 <= s -> 0 <= x * s) by (intros; apply Z.mul_nonneg_nonneg; assumption). pose proof (N row _ R0 L0) as N1. pose proof (N col _ C0 RS0) as N2.
  assert (PS : forall b stride cc k u, cc mod 8 = 0 -> (k < 8)%nat -> 0 <= u < 4 ->
    packed_at 8 b stride (4 * Z.of_nat m + u) (cc + Z.of_nat k) = bdat b (cc * stride + 32 * Z.of_nat m + 4 * Z.of_nat k + u)).
  { intros b stride cc k u Hcc Hk Hu. pose proof (packed_span avx2 true avx2_ok b stride cc (Z.of_nat m) k u ltac:(lia) Hcc Hk Hu) as P. change (v_n avx2) with 8 in P. rewrite P. unfold span. f_equal. lia. }
  rewrite <- (Z.add_0_r (4 * Z.of_nat m)) at 1 2. rewrite !PS by (assumption || lia). unfold four, quad. cbn [Z.of_nat Pos.of_succ_nat Pos.succ].
  rewrite !V by (assumption || lia). reflexivity.
Qed.
