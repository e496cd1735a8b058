(** What the results of NeonPackRowRun.v are, byte by byte and sum by sum. *)
From Coq Require Import ZArith List Bool Lia.
From Verif Require Import Base Mat Simd SimdFacts SpecPack Neon64 NeonRun NeonTac NeonCols NeonPackDot NeonPackMath NeonPackRowRun.
Import ListNotations.
Open Scope Z_scope.

Definition sword (U : buf Z) (o : Z) : Z := wrap_s 32 (of_bytes (get_bytes U o 4)).
Lemma sword_bytes : forall U V o, (forall e, 0 <= e < 4 -> bdat U (o + e) = bdat V (o + e)) -> sword U o = sword V o.
Proof. intros U V o H. unfold sword, get_bytes. cbn [zseq map]. rewrite !H by lia. reflexivity. Qed.
Lemma sword_get : forall U o c, (c < 4)%nat -> nth c (slanes 4 (get_bytes U o 16)) 0 = sword U (o + 4 * Z.of_nat c).
Proof.
  intros U o c Hc. unfold sword, get_bytes. cbn [zseq map]. destruct c as [|[|[|[|]]]]; [| | | |lia];
  unfold slanes, ulanes, chunks; cbn [length chunks_aux firstn skipn map nth]; change (8 * Z.of_nat 4) with 32; do 2 f_equal; repeat (f_equal; try lia).
Qed.
Lemma sword_put : forall U o v c, full v -> (c < 4)%nat -> sword (put U o v) (o + 4 * Z.of_nat c) = nth c (slanes 4 v) 0.
Proof.
  intros U o v c Hv Hc. unfold sword, get_bytes. cbn [zseq map]. assert (L : Z.of_nat (length v) = 16) by (rewrite Hv; reflexivity).
  rewrite !put_in by (rewrite L; lia). replace (Z.to_nat (o + 4 * Z.of_nat c + 0 - o)) with (4 * c)%nat by lia. replace (Z.to_nat (o + 4 * Z.of_nat c + (0 + 1) - o)) with (4 * c + 1)%nat by lia.
  replace (Z.to_nat (o + 4 * Z.of_nat c + (0 + 1 + 1) - o)) with (4 * c + 2)%nat by lia. replace (Z.to_nat (o + 4 * Z.of_nat c + (0 + 1 + 1 + 1) - o)) with (4 * c + 3)%nat by lia.
  clear - Hv Hc. expand_full. destruct c as [|[|[|[|]]]]; [| | | |lia]; reflexivity.
Qed.
Lemma sdot_ones : forall d v c, full d -> full v -> (c < 4)%nat -> nth c (slanes 4 (sdot d v ones)) 0 =
  wrap_s 32 (nth c (slanes 4 d) 0 + (wrap_s 8 (nth (4 * c) v 0) + wrap_s 8 (nth (4 * c + 1) v 0) + wrap_s 8 (nth (4 * c + 2) v 0) + wrap_s 8 (nth (4 * c + 3) v 0))).
Proof.
  intros d v c Hd Hv Hc. unfold sdot. rewrite slanes_of_lanes by lia. change (8 * Z.of_nat 4) with 32. rewrite slanes_ones. rewrite slanes1 by exact Hv.
  destruct (full_slanes4 d Hd) as (x & y & z & w & ->). clear Hd. expand_full. cbn [map map2 repeat pair_sums].
  destruct c as [|[|[|[|]]]]; [| | | |lia]; cbn [nth Nat.mul Nat.add]; f_equal; ring.
Qed.

Lemma nth_skipn : forall (l : list Z) n i, nth i (skipn n l) 0 = nth (n + i) l 0.
Proof. intros l n. revert l. induction n as [|n IH]; intros l i; [reflexivity|]. destruct l; [destruct i; reflexivity|]. cbn [skipn Nat.add nth]. apply IH. Qed.

Section Math.
Variables (ix : Z).
Notation lo4 := (lo4 ix).
Notation hi4 := (hi4 ix).
Lemma lo4_nth : forall r t j, (forall j, full (r j)) -> (t < 4)%nat -> (j < 4)%nat -> nth (4 * t + j) (lo4 r) 0 = Z.lxor (nth t (r j) 0) (ix mod 256).
Proof.
  intros r t j Hr Ht Hj. unfold NeonPackRowRun.lo4, Xr. pose proof (Hr 0%nat) as F0. pose proof (Hr 1%nat) as F1. pose proof (Hr 2%nat) as F2. pose proof (Hr 3%nat) as F3.
  assert (G : forall k, (k < 4)%nat -> r k = nth k [r 0%nat; r 1%nat; r 2%nat; r 3%nat] []) by (intros k Hk; do 4 (destruct k as [|k]; [reflexivity|]); lia).
  rewrite (G j Hj). clear - F0 F1 F2 F3 Ht Hj. generalize dependent (r 0%nat). generalize dependent (r 1%nat). generalize dependent (r 2%nat). generalize dependent (r 3%nat). intros r3 F3 r2 F2 r1 F1 r0 F0.
  expand_full. do 4 (destruct t as [|t]; [do 4 (destruct j as [|j]; [reflexivity|]); lia|]). lia.
Qed.
Lemma hi4_nth : forall r t j, (forall j, full (r j)) -> (t < 4)%nat -> (j < 4)%nat -> nth (4 * t + j) (hi4 r) 0 = Z.lxor (nth (4 + t) (r j) 0) (ix mod 256).
Proof.
  intros r t j Hr Ht Hj. unfold NeonPackRowRun.hi4, Xr. pose proof (Hr 0%nat) as F0. pose proof (Hr 1%nat) as F1. pose proof (Hr 2%nat) as F2. pose proof (Hr 3%nat) as F3.
  assert (G : forall k, (k < 4)%nat -> r k = nth k [r 0%nat; r 1%nat; r 2%nat; r 3%nat] []) by (intros k Hk; do 4 (destruct k as [|k]; [reflexivity|]); lia).
  rewrite (G j Hj). clear - F0 F1 F2 F3 Ht Hj. generalize dependent (r 0%nat). generalize dependent (r 1%nat). generalize dependent (r 2%nat). generalize dependent (r 3%nat). intros r3 F3 r2 F2 r1 F1 r0 F0.
  expand_full. do 4 (destruct t as [|t]; [do 4 (destruct j as [|j]; [reflexivity|]); lia|]). lia.
Qed.

Lemma put_data_in : forall P o r t j, (forall j, full (r j)) -> (t < 8)%nat -> (j < 4)%nat ->
  bdat (put_data ix P o r) (o + 4 * Z.of_nat t + Z.of_nat j) = Z.lxor (nth t (r j) 0) (ix mod 256).
Proof.
  intros P o r t j Hr Ht Hj. unfold put_data. assert (L1 : Z.of_nat (length (lo4 r)) = 16) by (rewrite full_lo4 by exact Hr; reflexivity).
  assert (L2 : Z.of_nat (length (hi4 r)) = 16) by (rewrite full_hi4 by exact Hr; reflexivity). destruct (le_lt_dec 4 t) as [H|H].
  - rewrite put_in by (rewrite L2; lia). replace (Z.to_nat (o + 4 * Z.of_nat t + Z.of_nat j - (o + 16))) with (4 * (t - 4) + j)%nat by lia.
    rewrite hi4_nth by (try exact Hr; lia). replace (4 + (t - 4))%nat with t by lia. reflexivity.
  - rewrite put_out by (rewrite L2; lia). rewrite put_in by (rewrite L1; lia). replace (Z.to_nat (o + 4 * Z.of_nat t + Z.of_nat j - o)) with (4 * t + j)%nat by lia.
    apply lo4_nth; assumption.
Qed.
Lemma put_data_out : forall P o r i, (forall j, full (r j)) -> ~ (0 <= i - o < 32) -> bdat (put_data ix P o r) i = bdat P i.
Proof.
  intros P o r i Hr Hi. unfold put_data. assert (L1 : Z.of_nat (length (lo4 r)) = 16) by (rewrite full_lo4 by exact Hr; reflexivity).
  assert (L2 : Z.of_nat (length (hi4 r)) = 16) by (rewrite full_hi4 by exact Hr; reflexivity). rewrite !put_out by (rewrite ?L1, ?L2; lia). reflexivity.
Qed.
Definition four_sum (r : nat -> list Z) (t : nat) : Z :=
  wrap_s 8 (Z.lxor (nth t (r 0%nat) 0) (ix mod 256)) + wrap_s 8 (Z.lxor (nth t (r 1%nat) 0) (ix mod 256)) + wrap_s 8 (Z.lxor (nth t (r 2%nat) 0) (ix mod 256)) + wrap_s 8 (Z.lxor (nth t (r 3%nat) 0) (ix mod 256)).
Lemma put_sums_in : forall U o r t, (forall j, full (r j)) -> (t < 8)%nat -> sword (put_sums ix U o r) (o + 4 * Z.of_nat t) = wrap_s 32 (sword U (o + 4 * Z.of_nat t) + four_sum r t).
Proof.
  intros U o r t Hr Ht. unfold put_sums. pose proof (full_lo4 ix r Hr) as F1. pose proof (full_hi4 ix r Hr) as F2.
  assert (F3 : forall p v, full v -> full (sdot (get_bytes U p 16) v ones)) by (intros; apply full_sdot; [apply full_get|assumption|apply full_ones]).
  assert (L : forall p v, full v -> Z.of_nat (length (sdot (get_bytes U p 16) v ones)) = 16) by (intros p v Fv; rewrite F3 by exact Fv; reflexivity).
  destruct (le_lt_dec 4 t) as [H|H].
  - replace (o + 4 * Z.of_nat t) with (o + 16 + 4 * Z.of_nat (t - 4)) by lia. rewrite sword_put by (try apply F3; try assumption; lia).
    rewrite sdot_ones by (try apply full_get; try assumption; lia). rewrite sword_get by lia. unfold four_sum. rewrite <- (Nat.add_0_r (4 * (t - 4))) at 1. rewrite !hi4_nth by (try exact Hr; lia).
    replace (4 + (t - 4))%nat with t by lia. reflexivity.
  - rewrite (sword_bytes _ (put U o (sdot (get_bytes U o 16) (lo4 r) ones))) by (intros e He; apply put_out; rewrite L by exact F2; lia).
    rewrite sword_put by (try apply F3; try assumption; lia). rewrite sdot_ones by (try apply full_get; try assumption; lia). rewrite sword_get by lia. unfold four_sum.
    rewrite <- (Nat.add_0_r (4 * t)) at 1. rewrite !lo4_nth by (try exact Hr; lia). reflexivity.
Qed.
Lemma put_sums_out : forall U o r i, (forall j, full (r j)) -> ~ (0 <= i - o < 32) -> bdat (put_sums ix U o r) i = bdat U i.
Proof.
  intros U o r i Hr Hi. unfold put_sums. pose proof (full_lo4 ix r Hr) as F1. pose proof (full_hi4 ix r Hr) as F2.
  assert (L : forall p v, full v -> Z.of_nat (length (sdot (get_bytes U p 16) v ones)) = 16) by (intros p v Fv; rewrite full_sdot; [reflexivity|apply full_get|exact Fv|apply full_ones]).
  rewrite !put_out by (rewrite L by assumption; lia). reflexivity.
Qed.

Variables (sb : nat -> buf Z) (so inc : nat -> Z) (P0 U0 : buf Z) (po uo stride N zz : Z).
Hypothesis HN : 0 < N.
Hypothesis Hstride : 4 <= stride.
Notation rv := (rv sb so inc N zz).
Notation outp := (outp sb so inc P0 po stride N zz ix).
Notation outu := (outu sb so inc U0 uo N zz ix).
Lemma Frv : forall k j, full (rv j k). Proof. intros. apply full_rv. exact HN. Qed.

Lemma outp_in : forall k g t j, (g < k)%nat -> (t < 8)%nat -> (j < 4)%nat ->
  bdat (outp k) (po + 8 * stride * Z.of_nat g + 4 * Z.of_nat t + Z.of_nat j) = Z.lxor (nth t (rv j g) 0) (ix mod 256).
Proof.
  induction k as [|k IH]; intros g t j Hg Ht Hj; [lia|]. cbn [NeonPackRowRun.outp]. destruct (Nat.eq_dec g k) as [->|E].
  - rewrite put_data_in by (try assumption; intros; apply Frv). reflexivity.
  - rewrite put_data_out; [apply IH; lia|intros; apply Frv|]. assert (8 * stride * (Z.of_nat g + 1) <= 8 * stride * Z.of_nat k) by (apply Z.mul_le_mono_nonneg_l; lia). lia.
Qed.
Lemma outp_out : forall k i, (forall g, (g < k)%nat -> ~ (0 <= i - (po + 8 * stride * Z.of_nat g) < 32)) -> bdat (outp k) i = bdat P0 i.
Proof.
  induction k as [|k IH]; intros i H; [reflexivity|]. cbn [NeonPackRowRun.outp]. rewrite put_data_out; [apply IH; intros g Hg; apply H; lia|intros; apply Frv|apply H; lia].
Qed.
Lemma outu_out : forall k i, ~ (0 <= i - uo < 32 * Z.of_nat k) -> bdat (outu k) i = bdat U0 i.
Proof.
  induction k as [|k IH]; intros i H; [reflexivity|]. cbn [NeonPackRowRun.outu]. rewrite put_sums_out; [apply IH; lia|intros; apply Frv|lia].
Qed.
Lemma outu_in : forall k g t, (g < k)%nat -> (t < 8)%nat ->
  sword (outu k) (uo + 32 * Z.of_nat g + 4 * Z.of_nat t) = wrap_s 32 (sword U0 (uo + 32 * Z.of_nat g + 4 * Z.of_nat t) + four_sum (fun j => rv j g) t).
Proof.
  induction k as [|k IH]; intros g t Hg Ht; [lia|]. cbn [NeonPackRowRun.outu]. destruct (Nat.eq_dec g k) as [->|E].
  - rewrite put_sums_in by (try assumption; intros; apply Frv). do 2 f_equal. apply sword_bytes. intros e He. apply outu_out. lia.
  - rewrite (sword_bytes _ (outu k)); [apply IH; lia|]. intros e He. apply put_sums_out; [intros; apply Frv|lia].
Qed.

(** Column [c] of row [j]. *)
Lemma rv_nth : forall j g t, (g < groups N)%nat -> (t < 8)%nat ->
  nth t (rv j g) 0 = if 8 * Z.of_nat g + Z.of_nat t <? N then bdat (sb j) (so j + inc j * Z.of_nat g + Z.of_nat t) else zz mod 256.
Proof.
  intros j g t Hg Ht. destruct (rest_bound N HN) as (_ & Lr & EN). unfold NeonPackRowRun.rv, at_. destruct (Nat.ltb_spec g (pieces N)) as [H|H].
  - replace (8 * Z.of_nat g + Z.of_nat t <? N) with true by lia. unfold extend. rewrite app_nth1 by (rewrite get_bytes_length; lia). unfold get_bytes. rewrite nth_zmap by lia. reflexivity.
  - assert (Eg : g = pieces N) by (unfold groups in Hg; destruct (Nat.eqb (rest N) 0); lia). subst g. unfold partly. destruct (le_lt_dec (rest N) t) as [G|G].
    + replace (8 * Z.of_nat (pieces N) + Z.of_nat t <? N) with false by lia. rewrite app_nth2 by (rewrite get_bytes_length; lia). rewrite get_bytes_length.
      rewrite nth_skipn. replace (rest N + (t - rest N))%nat with t by lia. clear - Ht. unfold fillr. do 8 (destruct t as [|t]; [reflexivity|]). lia.
    + replace (8 * Z.of_nat (pieces N) + Z.of_nat t <? N) with true by lia. rewrite app_nth1 by (rewrite get_bytes_length; lia). unfold get_bytes. rewrite nth_zmap by lia. reflexivity.
Qed.
End Math.
