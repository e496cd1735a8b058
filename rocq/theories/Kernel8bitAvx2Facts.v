(** The instruction sequences of the 8-bit kernels for AVX2. *)
From Coq Require Import ZArith List Bool Lia.
From Verif Require Import Base SidePair Mat Scalars IntOps MulParams Simd SimdRequant SimdFacts RequantFacts
  Kernel8bit Kernel8bitAvx Kernel8bitIsa.
Import ListNotations.
Open Scope Z_scope.

(** Moves of bytes do not look at them: name all bytes and compute. *)
Ltac name_bytes :=
  cbn [of_lanes map concat bytes_of app];
  repeat match goal with |- context [?y mod 256] => generalize (y mod 256); intros ? end.
Ltac move_bytes := name_bytes; vm_compute; reflexivity.
Ltac dlist l := repeat (destruct l as [|? l]; [discriminate|]); destruct l; [|discriminate].

Lemma split_move : forall l, length l = 32%nat ->
  shuffle_epi8 (of_lanes 1 l) splitter_idx =
  of_lanes 1 (map (fun i => nth i l 0) [0;1;4;5;8;9;12;13; 2;3;6;7;10;11;14;15; 16;17;20;21;24;25;28;29; 18;19;22;23;26;27;30;31]%nat).
Proof. intros l H. dlist l. cbn [map nth]. move_bytes. Qed.

Lemma Forall_nth0 : forall (P : Z -> Prop) l (f : nat -> nat) idx, P 0 -> Forall P l -> Forall P (map (fun i => nth (f i) l 0) idx).
Proof.
  intros P l f idx P0 H. apply Forall_forall. intros x Hx. apply in_map_iff in Hx. destruct Hx as [i [<- _]].
  destruct (Nat.lt_ge_cases (f i) (length l)) as [Hi|Hi].
  - rewrite Forall_forall in H. apply H. apply nth_In. exact Hi.
  - rewrite nth_overflow by exact Hi. exact P0.
Qed.
Lemma in_bits_0 : forall w, 0 < w -> in_bits w 0.
Proof. intros w Hw. unfold in_bits. assert (0 < 2 ^ (w - 1)) by (apply Z.pow_pos_nonneg; lia). lia. Qed.

Definition low_idx : list nat := [0;1;4;5;8;9;12;13;16;17;20;21;24;25;28;29]%nat.
Definition high_idx : list nat := [2;3;6;7;10;11;14;15;18;19;22;23;26;27;30;31]%nat.
Definition sel (idx : list nat) (l : list Z) : list Z := map (fun i => nth i l 0) idx.

Lemma extract128_bytes : forall l i, length l = 32%nat -> (i < 2)%nat ->
  extracti128 (of_lanes 1 l) i = of_lanes 1 (map (fun k => nth (16 * i + k) l 0) (seq 0 16)).
Proof.
  intros l i H Hi. dlist l. destruct i as [|[|i]]; [| |lia]; cbn [seq map nth Nat.mul Nat.add]; move_bytes.
Qed.
Lemma extract128_words : forall l i, length l = 16%nat -> (i < 2)%nat ->
  extracti128 (of_lanes 2 l) i = of_lanes 2 (map (fun k => nth (8 * i + k) l 0) (seq 0 8)).
Proof.
  intros l i H Hi. dlist l. destruct i as [|[|i]]; [| |lia]; cbn [seq map nth Nat.mul Nat.add]; move_bytes.
Qed.
Lemma permute_words : forall a b, length a = 16%nat -> length b = 16%nat ->
  permute2x128 (of_lanes 2 a) (of_lanes 2 b) 0x20 = of_lanes 2 (firstn 8 a ++ firstn 8 b) /\
  permute2x128 (of_lanes 2 a) (of_lanes 2 b) 0x31 = of_lanes 2 (skipn 8 a ++ skipn 8 b) /\
  permute2x128 (of_lanes 2 a) (of_lanes 2 a) 0 = of_lanes 2 (firstn 8 a ++ firstn 8 a) /\
  permute2x128 (of_lanes 2 a) (of_lanes 2 a) 0x11 = of_lanes 2 (skipn 8 a ++ skipn 8 a).
Proof.
  intros a b Ha Hb. dlist a. dlist b. cbn [firstn skipn app]. repeat split; move_bytes.
Qed.

Lemma permute20 : forall a b, length a = 16%nat -> length b = 16%nat ->
  permute2x128 (of_lanes 2 a) (of_lanes 2 b) 0x20 = of_lanes 2 (firstn 8 a ++ firstn 8 b).
Proof. intros. apply permute_words; assumption. Qed.
Lemma permute31 : forall a b, length a = 16%nat -> length b = 16%nat ->
  permute2x128 (of_lanes 2 a) (of_lanes 2 b) 0x31 = of_lanes 2 (skipn 8 a ++ skipn 8 b).
Proof. intros. apply permute_words; assumption. Qed.
Lemma permute00 : forall a, length a = 16%nat -> permute2x128 (of_lanes 2 a) (of_lanes 2 a) 0 = of_lanes 2 (firstn 8 a ++ firstn 8 a).
Proof. intros a H. apply (permute_words a a H H). Qed.
Lemma permute11 : forall a, length a = 16%nat -> permute2x128 (of_lanes 2 a) (of_lanes 2 a) 0x11 = of_lanes 2 (skipn 8 a ++ skipn 8 a).
Proof. intros a H. apply (permute_words a a H H). Qed.

Lemma avx2_split : forall l, length l = 32%nat -> Forall (in_bits 8) l ->
  avx2_split_lhs (of_lanes 1 l) = (of_lanes 2 (sel low_idx l), of_lanes 2 (sel high_idx l)).
Proof.
  intros l H F. unfold avx2_split_lhs. cbv zeta. rewrite split_move by exact H.
  rewrite !extract128_bytes by (try reflexivity; lia).
  rewrite !cvt8_16 by (apply (Forall_nth0 _ _ (fun k => _ + k)%nat); [apply in_bits_0; lia|]; apply (Forall_nth0 _ _ (fun k => k)); [apply in_bits_0; lia|exact F]).
  rewrite permute20, permute31 by reflexivity. reflexivity.
Qed.

(** The pairs multiplied for column j. *)
Definition dup_words (n : nat) (r : list Z) (k : nat) : vec := of_lanes 2 (concat (repeat [nth k r 0; nth (k + 1) r 0] n)).

Lemma avx2_rhs_ok : forall size r, rhs_size_ok true size -> length r = 32%nat -> Forall (in_bits (8 * size)) r ->
  avx2_rhs_data size (of_lanes (Z.to_nat size) r) = of_lanes 2 r.
Proof.
  intros size r [-> | [_ ->]] H F; unfold avx2_rhs_data; cbn [Z.eqb Pos.eqb]; [|reflexivity].
  change (Z.to_nat 1) with 1%nat. rewrite !extract128_bytes by (try assumption; lia).
  rewrite !cvt8_16 by (apply (Forall_nth0 _ _ (fun k => _ + k)%nat); [apply in_bits_0; lia|exact F]). rewrite <- of_lanes_app. f_equal. dlist r. reflexivity.
Qed.

Lemma extract256_words : forall l i, length l = 32%nat -> (i < 2)%nat ->
  extracti256 (of_lanes 2 l) i = of_lanes 2 (map (fun k => nth (16 * i + k) l 0) (seq 0 16)).
Proof.
  intros l i H Hi. dlist l. destruct i as [|[|i]]; [| |lia]; cbn [seq map nth Nat.mul Nat.add]; move_bytes.
Qed.
Lemma shuffle_words : forall l, length l = 8%nat ->
  shuffle_epi32 (of_lanes 2 (l ++ l)) 0 = dup_words 8 l 0 /\
  shuffle_epi32 (of_lanes 2 (l ++ l)) 0x55 = dup_words 8 l 2 /\
  shuffle_epi32 (of_lanes 2 (l ++ l)) 0xaa = dup_words 8 l 4 /\
  shuffle_epi32 (of_lanes 2 (l ++ l)) 0xff = dup_words 8 l 6.
Proof.
  intros l H. dlist l. unfold dup_words. cbn [app nth Nat.add repeat concat]. repeat split; move_bytes.
Qed.

Lemma shuf00 : forall l, length l = 8%nat -> shuffle_epi32 (of_lanes 2 (l ++ l)) 0x00 = dup_words 8 l 0.
Proof. intros. apply shuffle_words. assumption. Qed.
Lemma shuf55 : forall l, length l = 8%nat -> shuffle_epi32 (of_lanes 2 (l ++ l)) 0x55 = dup_words 8 l 2.
Proof. intros. apply shuffle_words. assumption. Qed.
Lemma shufaa : forall l, length l = 8%nat -> shuffle_epi32 (of_lanes 2 (l ++ l)) 0xaa = dup_words 8 l 4.
Proof. intros. apply shuffle_words. assumption. Qed.
Lemma shufff : forall l, length l = 8%nat -> shuffle_epi32 (of_lanes 2 (l ++ l)) 0xff = dup_words 8 l 6.
Proof. intros. apply shuffle_words. assumption. Qed.

Lemma avx2_columns_ok : forall r, length r = 32%nat ->
  avx2_columns (of_lanes 2 r) = map (fun j => (dup_words 8 r (4 * j), dup_words 8 r (4 * j + 2))) (seq 0 8).
Proof.
  intros r H. unfold avx2_columns. cbv zeta. rewrite !extract256_words by (try assumption; lia).
  rewrite !permute00, !permute11 by reflexivity. rewrite !shuf00, !shuf55, !shufaa, !shufff by reflexivity.
  unfold dup_words. cbn [seq map firstn skipn nth Nat.add Nat.mul]. reflexivity.
Qed.

Lemma Forall_dup : forall (P : Z -> Prop) n a b, P a -> P b -> Forall P (concat (repeat [a; b] n)).
Proof. intros P n a b Ha Hb. induction n; cbn [repeat concat app]; repeat constructor; assumption. Qed.
Lemma Forall_nth1 : forall (P : Z -> Prop) l k, P 0 -> Forall P l -> P (nth k l 0).
Proof.
  intros P l k P0 H. destruct (Nat.lt_ge_cases k (length l)) as [Hi|Hi].
  - rewrite Forall_forall in H. apply H. apply nth_In. exact Hi.
  - rewrite nth_overflow by exact Hi. exact P0.
Qed.
Lemma madd_dup : forall n a r k, Forall (in_bits 16) a -> Forall (in_bits 16) r ->
  madd_epi16 (of_lanes 2 a) (dup_words n r k) = L4 (pair_sums (map2 Z.mul a (concat (repeat [nth k r 0; nth (k + 1) r 0] n)))).
Proof.
  intros n a r k Ha Hr. unfold dup_words. apply madd_lanes; [exact Ha|].
  apply Forall_dup; apply Forall_nth1; try apply in_bits_0; try lia; exact Hr.
Qed.

Lemma avx2_column : forall l r j a, length a = 8%nat -> Forall (in_bits 8) l -> Forall (in_bits 16) r ->
  mul_add_column (of_lanes 2 (sel low_idx l), of_lanes 2 (sel high_idx l)) (dup_words 8 r (4 * j), dup_words 8 r (4 * j + 2)) (L4 a) =
  L4 (map2 (step_lane l r j) (seq 0 8) a).
Proof.
  intros l r j a Ha Hl Hr. unfold mul_add_column. cbn [fst snd].
  rewrite !madd_dup by (first [assumption | apply (Forall_nth0 _ _ (fun k => k)); [apply in_bits_0; lia | apply in8_in16; exact Hl]]).
  rewrite !add_L4. f_equal. dlist a. cbn [sel low_idx high_idx map repeat concat app pair_sums map2 seq].
  unfold step_lane, dot4. cbn [Nat.mul Nat.add]. rewrite <- !Nat.add_assoc. cbn [Nat.add].
  repeat (apply f_equal2; [rewrite <- !Z.add_assoc; reflexivity|]). reflexivity.
Qed.

Lemma in_size16 : forall size r, rhs_size_ok true size -> Forall (in_bits (8 * size)) r -> Forall (in_bits 16) r.
Proof. intros size r [-> | [_ ->]] F; [apply in8_in16|]; exact F. Qed.

Lemma map2_map_l : forall {A A' B C} (f : A' -> B -> C) (g : A -> A') a b, map2 f (map g a) b = map2 (fun x y => f (g x) y) a b.
Proof. intros A A' B C f g a. induction a; intros [|y b]; cbn [map map2]; try reflexivity. rewrite IHa. reflexivity. Qed.
Lemma map2_map_r : forall {A B B' C} (f : A -> B' -> C) (g : B -> B') a b, map2 f a (map g b) = map2 (fun x y => f x (g y)) a b.
Proof. intros A B B' C f g a. induction a; intros [|y b]; cbn [map map2]; try reflexivity. rewrite IHa. reflexivity. Qed.
Lemma map2_ext_Forall : forall {A B C} (f g : A -> B -> C) (P : B -> Prop) a b, Forall P b ->
  (forall x y, P y -> f x y = g x y) -> map2 f a b = map2 g a b.
Proof.
  intros A B C f g P a. induction a; intros [|y b] F E; cbn [map2]; try reflexivity. inversion F; subst.
  rewrite E, (IHa b) by assumption. reflexivity.
Qed.

Lemma avx2_step_ok : forall size l r accs, rhs_size_ok true size -> length l = 32%nat -> length r = 32%nat ->
  Forall (in_bits 8) l -> Forall (in_bits (8 * size)) r -> length accs = 8%nat -> Forall (fun a => length a = 8%nat) accs ->
  avx2_step size (of_lanes 1 l) (of_lanes (Z.to_nat size) r) (map L4 accs) =
  map L4 (map2 (fun j a => map2 (step_lane l r j) (seq 0 8) a) (seq 0 8) accs).
Proof.
  intros size l r accs Hs Hl Hr Fl Fr Ha Fa. unfold avx2_step. rewrite avx2_split, avx2_rhs_ok, avx2_columns_ok by assumption.
  rewrite map2_map_l, map2_map_r, map_map2. eapply map2_ext_Forall; [exact Fa|]. intros j a La.
  apply avx2_column; try assumption. eapply in_size16; eassumption.
Qed.

(** One column. *)
Lemma pair_lane : forall r k, Forall (in_bits 16) r -> (2 * k + 1 < length r)%nat -> Nat.even (length r) = true ->
  forall n, set1 4 n (nth k (slanes 4 (of_lanes 2 r)) 0) = dup_words n r (2 * k).
Proof.
  intros r k F Hk Ev n.
  assert (G : forall k r, (2 * k + 1 < length r)%nat -> Nat.even (length r) = true ->
    nth k (slanes 4 (of_lanes 2 r)) 0 = wrap_s 32 (of_bytes (bytes_of 2 (nth (2 * k) r 0) ++ bytes_of 2 (nth (2 * k + 1) r 0)))).
  { clear. intros k. induction k as [|k IH]; intros [|x [|y r]] Hk Ev; cbn [length] in *; try lia; try discriminate.
    - unfold slanes, ulanes. rewrite !of_lanes_cons, app_assoc, chunks_app by (try lia; rewrite app_length, !bytes_of_length; reflexivity).
      reflexivity.
    - unfold slanes, ulanes. rewrite !of_lanes_cons, app_assoc, chunks_app by (try lia; rewrite app_length, !bytes_of_length; reflexivity).
      cbn [map]. replace (2 * S k)%nat with (S (S (2 * k))) by lia. cbn [nth Nat.add].
      change (nth k (slanes 4 (of_lanes 2 r)) 0 = wrap_s 32 (of_bytes (bytes_of 2 (nth (2 * k) r 0) ++ bytes_of 2 (nth (2 * k + 1) r 0)))).
      apply IH; [lia | exact Ev]. }
  rewrite G by assumption. unfold set1, dup_words. clear. induction n; [reflexivity|].
  cbn [repeat concat app]. rewrite !of_lanes_cons, IHn, app_assoc. f_equal.
  generalize (nth (2 * k) r 0) (nth (2 * k + 1) r 0). intros x y. clear.
  change 4%nat with (2 + 2)%nat. rewrite bytes_of_app.
  set (bs := bytes_of 2 x ++ bytes_of 2 y).
  assert (E : of_bytes bs = x mod 65536 + 65536 * (y mod 65536)).
  { unfold bs. cbn [bytes_of app of_bytes]. rewrite !(Zmod_eq_full x 65536), !(Zmod_eq_full y 65536) by discriminate.
    rewrite (Zmod_eq_full x 256), (Zmod_eq_full y 256), (Zmod_eq_full (x / 256) 256), (Zmod_eq_full (y / 256) 256) by discriminate.
    rewrite !Z.div_div by lia. change (256 * 256) with 65536. lia. }
  destruct (wrap_s32_form (of_bytes bs)) as [k ->]. rewrite E. unfold bs. apply f_equal2.
  - apply bytes_of_mod. change (256 ^ Z.of_nat 2) with 65536.
    replace (x mod 65536 + 65536 * (y mod 65536) + k * 2 ^ 32) with (x mod 65536 + (y mod 65536 + k * 65536) * 65536) by lia.
    rewrite Z.mod_add, Z.mod_mod by discriminate. reflexivity.
  - apply bytes_of_mod. change (256 ^ Z.of_nat 2) with 65536.
    replace (x mod 65536 + 65536 * (y mod 65536) + k * 2 ^ 32) with (x mod 65536 + (y mod 65536 + k * 65536) * 65536) by lia.
    rewrite Z.div_add, (Z.div_small (x mod 65536)), Z.add_0_l by (try discriminate; apply Z.mod_pos_bound; lia).
    rewrite Z.mod_add, Z.mod_mod by discriminate. reflexivity.
Qed.

Lemma avx2_rhs1_ok : forall size r, rhs_size_ok true size -> length r = 4%nat -> Forall (in_bits (8 * size)) r ->
  avx2_rhs_data1 size (of_lanes (Z.to_nat size) r) = of_lanes 2 r.
Proof.
  intros size r [-> | [_ ->]] H F; unfold avx2_rhs_data1; cbn [Z.eqb Pos.eqb]; [|reflexivity].
  change (Z.to_nat 1) with 1%nat.
  replace (low_bytes 8 (of_lanes 1 r ++ setzero 12)) with (of_lanes 1 (r ++ [0; 0; 0; 0])) by (dlist r; reflexivity).
  rewrite cvt8_16 by (apply Forall_app; split; [exact F | repeat (apply Forall_cons; [apply in_bits_0; lia|]); apply Forall_nil]).
  dlist r. reflexivity.
Qed.

Lemma avx2_step1_ok : forall size l r a, rhs_size_ok true size -> length l = 32%nat -> length r = 4%nat ->
  Forall (in_bits 8) l -> Forall (in_bits (8 * size)) r -> length a = 8%nat ->
  avx2_step1 size (of_lanes 1 l) (of_lanes (Z.to_nat size) r) (L4 a) = L4 (map2 (step_lane l r 0) (seq 0 8) a).
Proof.
  intros size l r a Hs Hl Hr Fl Fr Ha. unfold avx2_step1. rewrite avx2_split, avx2_rhs1_ok by assumption.
  pose proof (in_size16 _ _ Hs Fr) as F16. unfold dup_pair.
  rewrite !pair_lane by (try assumption; rewrite Hr; try reflexivity; lia).
  change (2 * (2 * 0))%nat with (4 * 0)%nat. change (2 * (2 * 0 + 1))%nat with (4 * 0 + 2)%nat.
  apply avx2_column; assumption.
Qed.

Lemma avx2_bias_ok : forall bs j, length bs = 8%nat -> 0 <= j < 8 -> avx2_bias_col (L4 bs) j = L4 (repeat (nth (Z.to_nat j) bs 0) 8).
Proof.
  intros bs j Hb Hj. unfold avx2_bias_col, permutevar8x32, L4. rewrite set1_lanes, ulanes_of_lanes, pick_lanes by lia. f_equal.
  cbn [repeat map]. change (8 * Z.of_nat 4) with 32. unfold wrap_u. rewrite (Z.mod_small j (2 ^ 32)) by lia. rewrite Z.mod_small by lia. reflexivity.
Qed.

(** Transposition. *)
Definition transposed (m : list (list Z)) : list (list Z) := map (fun i => map (fun r => nth i r 0) m) (seq 0 8).
Lemma transpose_ok : forall m, length m = 8%nat -> Forall (fun a => length a = 8%nat) m ->
  transpose8x8 (map L4 m) = map L4 (transposed m).
Proof.
  intros m H F. dlist m. repeat match goal with F : Forall _ (_ :: _) |- _ => inversion_clear F end.
  repeat match goal with H : length ?l = 8%nat |- _ => is_var l; destruct (eight l H) as (? & ? & ? & ? & ? & ? & ? & ? & ->); clear H end.
  unfold transposed, L4. cbn [map seq nth]. move_bytes.
Qed.

(** Requantization of a block, given that of a register. *)
Section Requant.
Variable apply : vec -> vec -> Z -> vec -> vec.
Hypothesis apply_lanes : forall xs ms es zp, length xs = 8%nat -> length ms = 8%nat -> length es = 8%nat ->
  Forall is_mult ms -> Forall is_exp es ->
  apply (of_lanes 4 ms) (of_lanes 4 es) zp (of_lanes 4 xs) = of_lanes 4 (map3 (fun x m e => x86_lane x m e + zp) xs ms es).

Lemma requant_map : forall ms es zp accs, length ms = 8%nat -> length es = 8%nat -> Forall is_mult ms -> Forall is_exp es ->
  Forall (fun a => length a = 8%nat) accs ->
  map (apply (L4 ms) (L4 es) zp) (map L4 accs) = map L4 (map (fun a => map3 (fun x m e => x86_lane x m e + zp) a ms es) accs).
Proof.
  intros ms es zp accs Hm He Fm Fe Fa. rewrite !map_map. apply map_ext_Forall. eapply Forall_impl; [|exact Fa].
  intros a Ha. apply apply_lanes; assumption.
Qed.

Lemma requant_row_ok : forall ms es zp accs, length ms = 8%nat -> length es = 8%nat -> Forall is_mult ms -> Forall is_exp es ->
  length accs = 8%nat -> Forall (fun a => length a = 8%nat) accs ->
  avx_requantize apply false (L4 ms) (L4 es) zp (map L4 accs)
  = map L4 (map (fun a => map3 (fun x m e => x86_lane x m e + zp) a ms es) accs).
Proof. intros. apply requant_map; assumption. Qed.

Lemma requant_col_ok : forall ms es zp accs, length ms = 8%nat -> length es = 8%nat -> Forall is_mult ms -> Forall is_exp es ->
  length accs = 8%nat -> Forall (fun a => length a = 8%nat) accs ->
  avx_requantize apply true (L4 ms) (L4 es) zp (map L4 accs)
  = map L4 (map3 (fun a m e => map (fun x => x86_lane x m e + zp) a) accs ms es).
Proof.
  intros ms es zp accs Hm He Fm Fe La Fa. unfold avx_requantize. rewrite transpose_ok by assumption.
  assert (T : Forall (fun a => length a = 8%nat) (transposed accs)).
  { unfold transposed. apply Forall_forall. intros a Ha. apply in_map_iff in Ha. destruct Ha as [i [<- _]]. rewrite map_length. exact La. }
  rewrite requant_map by assumption. rewrite transpose_ok.
  - f_equal. clear T Fm Fe. destruct (eight ms Hm) as (? & ? & ? & ? & ? & ? & ? & ? & ->).
    destruct (eight es He) as (? & ? & ? & ? & ? & ? & ? & ? & ->).
    dlist accs. repeat match goal with F : Forall _ (_ :: _) |- _ => inversion_clear F end.
    repeat match goal with H : length ?l = 8%nat |- _ => is_var l; destruct (eight l H) as (? & ? & ? & ? & ? & ? & ? & ? & ->); clear H end.
    reflexivity.
  - rewrite map_length. reflexivity.
  - apply Forall_forall. intros a Ha. apply in_map_iff in Ha. destruct Ha as [t [<- Ht]].
    rewrite Forall_forall in T. specialize (T t Ht). clear - T Hm He.
    destruct (eight ms Hm) as (? & ? & ? & ? & ? & ? & ? & ? & ->). destruct (eight es He) as (? & ? & ? & ? & ? & ? & ? & ? & ->).
    destruct (eight t T) as (? & ? & ? & ? & ? & ? & ? & ? & ->). reflexivity.
Qed.
End Requant.

(** Stores. *)
Section Stores.
Variable shuf : vec -> vec -> vec.
Hypothesis shuf_eq : forall a b, length a = 32%nat -> length b = 32%nat -> shuf a b = shuffle_epi8 a b.

Lemma pieces8 : forall x0 x1 x2 x3 x4 x5 x6 x7, let v := L4 [x0; x1; x2; x3; x4; x5; x6; x7] in
  let sh := shuffle_epi8 v (set1 4 8 0x0c080400) in
  pick 1 v [0%nat] = of_lanes 1 [x0] /\
  low_bytes 2 (extracti128 sh 0) = of_lanes 1 [x0; x1] /\
  pick 1 (extracti128 sh 0) [2%nat] = of_lanes 1 [x2] /\
  low_bytes 4 (extracti128 sh 0) = of_lanes 1 [x0; x1; x2; x3] /\
  pick 1 sh [16%nat] = of_lanes 1 [x4] /\
  low_bytes 2 (extracti128 sh 1) = of_lanes 1 [x4; x5] /\
  pick 1 (extracti128 sh 1) [2%nat] = of_lanes 1 [x6] /\
  low_bytes 4 (extracti128 sh 1) = of_lanes 1 [x4; x5; x6; x7].
Proof. intros. unfold v, sh, L4. repeat split; move_bytes. Qed.

Lemma pieces16 : forall x0 x1 x2 x3 x4 x5 x6 x7, let v := L4 [x0; x1; x2; x3; x4; x5; x6; x7] in
  let sh := shuffle_epi8 v (set1 8 4 0x0d0c090805040100) in
  low_bytes 2 (extracti128 v 0) = of_lanes 2 [x0] /\
  low_bytes 4 (extracti128 sh 0) = of_lanes 2 [x0; x1] /\
  pick 2 (extracti128 sh 0) [2%nat] = of_lanes 2 [x2] /\
  low_bytes 8 (extracti128 sh 0) = of_lanes 2 [x0; x1; x2; x3] /\
  pick 2 sh [8%nat] = of_lanes 2 [x4] /\
  low_bytes 4 (extracti128 sh 1) = of_lanes 2 [x4; x5] /\
  pick 2 (extracti128 sh 1) [2%nat] = of_lanes 2 [x6] /\
  low_bytes 8 (extracti128 sh 1) = of_lanes 2 [x4; x5; x6; x7].
Proof. intros. unfold v, sh, L4. repeat split; move_bytes. Qed.

Lemma pieces32 : forall x0 x1 x2 x3 x4 x5 x6 x7, let v := L4 [x0; x1; x2; x3; x4; x5; x6; x7] in
  low_bytes 4 (extracti128 v 0) = of_lanes 4 [x0] /\
  low_bytes 8 (extracti128 v 0) = of_lanes 4 [x0; x1] /\
  pick 4 (extracti128 v 0) [2%nat] = of_lanes 4 [x2] /\
  extracti128 v 0 = of_lanes 4 [x0; x1; x2; x3] /\
  pick 4 v [4%nat] = of_lanes 4 [x4] /\
  low_bytes 8 (extracti128 v 1) = of_lanes 4 [x4; x5] /\
  pick 4 (extracti128 v 1) [2%nat] = of_lanes 4 [x6].
Proof. intros. unfold v, L4. repeat split; move_bytes. Qed.

Lemma bits_cases : forall t, dst_type t ->
  (it_bits t = 8 /\ narrow_bytes t = 1%nat) \/ (it_bits t = 16 /\ narrow_bytes t = 2%nat) \/ (it_bits t = 32 /\ narrow_bytes t = 4%nat).
Proof. intros t [-> | [-> | [-> | ->]]]; cbv; auto. Qed.

Lemma store_lanes_w : forall t w xs p b, dst_type t -> narrow_bytes t = w ->
  store_bytes t (of_lanes w xs) p b = write_list (map (it_conv t) xs) p b.
Proof. intros t w xs p b Ht <-. apply store_lanes. exact Ht. Qed.

Lemma store2 : forall t w a c p q b, dst_type t -> narrow_bytes t = w -> q = p + Z.of_nat (length a) ->
  (b <- store_bytes t (of_lanes w a) p b ;; store_bytes t (of_lanes w c) q b) = write_list (map (it_conv t) (a ++ c)) p b.
Proof.
  intros t w a c p q b Ht Hw ->. rewrite map_app, write_list_app, map_length, (store_lanes_w _ _ _ _ _ Ht Hw).
  destruct (write_list (map (it_conv t) a) p b); cbn [bind]; try reflexivity. apply store_lanes_w; assumption.
Qed.
Lemma store3 : forall t w a c e p q r b, dst_type t -> narrow_bytes t = w -> q = p + Z.of_nat (length a) -> r = q + Z.of_nat (length c) ->
  (b <- store_bytes t (of_lanes w a) p b ;; b <- store_bytes t (of_lanes w c) q b ;; store_bytes t (of_lanes w e) r b)
  = write_list (map (it_conv t) (a ++ c ++ e)) p b.
Proof.
  intros t w a c e p q r b Ht Hw Hq Hr. rewrite (map_app _ a), write_list_app, map_length, (store_lanes_w _ _ _ _ _ Ht Hw).
  destruct (write_list (map (it_conv t) a) p b); cbn [bind]; try reflexivity. subst q. apply store2; assumption.
Qed.

Ltac stores Ht Hw :=
  cbv beta iota;
  first [ rewrite (store3 _ _ _ _ _ _ _ _ _ Ht Hw) by (cbn [length]; lia); reflexivity
        | rewrite (store2 _ _ _ _ _ _ _ Ht Hw) by (cbn [length]; lia); reflexivity
        | rewrite (store_lanes_w _ _ _ _ _ Ht Hw); reflexivity ].

Lemma avx_store_ok : forall t k xs p b, dst_type t -> length xs = 8%nat -> 1 <= k <= 8 ->
  avx_store shuf t k (L4 xs) p b = write_list (map (it_conv t) (firstn (Z.to_nat k) xs)) p b.
Proof.
  intros t k xs p b Ht Hx Hk. destruct (eight xs Hx) as (x0 & x1 & x2 & x3 & x4 & x5 & x6 & x7 & ->).
  assert (C : k = 1 \/ k = 2 \/ k = 3 \/ k = 4 \/ k = 5 \/ k = 6 \/ k = 7 \/ k = 8) by lia. clear Hk Hx.
  unfold avx_store. destruct (bits_cases t Ht) as [[Hb Hw] | [[Hb Hw] | [Hb Hw]]]; rewrite Hb; cbn [Z.eqb Pos.eqb].
  - unfold n_storeu_cvtepi32_epi8. cbv zeta. rewrite shuf_eq by reflexivity.
    destruct (pieces8 x0 x1 x2 x3 x4 x5 x6 x7) as (-> & -> & -> & -> & -> & -> & -> & ->).
    destruct C as [-> | [-> | [-> | [-> | [-> | [-> | [-> | ->]]]]]]]; stores Ht Hw.
  - unfold n_storeu_cvtepi32_epi16. cbv zeta. rewrite shuf_eq by reflexivity.
    destruct (pieces16 x0 x1 x2 x3 x4 x5 x6 x7) as (E1 & E2 & E3 & E4 & E5 & E6 & E7 & E8).
    destruct C as [-> | [-> | [-> | [-> | [-> | [-> | [-> | ->]]]]]]]; cbn [Z.ltb Z.compare Pos.compare Pos.compare_cont];
      rewrite ?E1, ?E2, ?E3, ?E4, ?E5, ?E6, ?E7, ?E8; stores Ht Hw.
  - unfold n_storeu_epi32. cbv zeta.
    destruct (pieces32 x0 x1 x2 x3 x4 x5 x6 x7) as (E1 & E2 & E3 & E4 & E5 & E6 & E7).
    destruct C as [-> | [-> | [-> | [-> | [-> | [-> | [-> | ->]]]]]]];
      rewrite ?E1, ?E2, ?E3, ?E5, ?E6, ?E7; rewrite ?E4; unfold L4; stores Ht Hw.
Qed.

Lemma avx_store_full_ok : forall t xs p b, dst_type t -> length xs = 8%nat ->
  avx_store_full shuf t (L4 xs) p b = write_list (map (it_conv t) xs) p b.
Proof.
  intros t xs p b Ht Hx. destruct (eight xs Hx) as (x0 & x1 & x2 & x3 & x4 & x5 & x6 & x7 & ->).
  unfold avx_store_full. destruct (bits_cases t Ht) as [[Hb Hw] | [[Hb Hw] | [Hb Hw]]]; rewrite Hb; cbn [Z.eqb Pos.eqb].
  - unfold storeu_cvtepi32_epi8. cbv zeta. rewrite shuf_eq by reflexivity.
    destruct (pieces8 x0 x1 x2 x3 x4 x5 x6 x7) as (_ & _ & _ & -> & _ & _ & _ & ->). stores Ht Hw.
  - unfold storeu_cvtepi32_epi16. cbv zeta. rewrite shuf_eq by reflexivity.
    destruct (pieces16 x0 x1 x2 x3 x4 x5 x6 x7) as (_ & _ & _ & -> & _ & _ & _ & ->). stores Ht Hw.
  - unfold L4. stores Ht Hw.
Qed.
End Stores.

Lemma avx2_ok : isa_ok avx2 true.
Proof.
  constructor; cbn [avx2 v_n v_align v_add v_sub v_mullo v_min v_max v_bias_col v_step v_load1 v_step1 v_requant v_requant1 v_store_full v_store].
  - left. reflexivity.
  - right. reflexivity.
  - intros. apply add_L4.
  - intros. apply sub_L4.
  - intros. apply mullo_L4.
  - intros. apply min_L4.
  - intros. apply max_L4.
  - exact avx2_bias_ok.
  - exact avx2_step_ok.
  - intros. lia.
  - exact avx2_step1_ok.
  - apply requant_row_ok. exact avx2_lanes.
  - apply requant_col_ok. exact avx2_lanes.
  - intros ms es zp a H1 H2 H3 H4 H5. apply avx2_lanes; assumption.
  - apply avx_store_full_ok. reflexivity.
  - apply avx_store_ok. reflexivity.
Qed.
