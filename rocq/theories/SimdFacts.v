(** Facts about the views of vector registers. *)
From Coq Require Import ZArith List Bool Lia.
From Verif Require Import Base Simd.
Import ListNotations.
Open Scope Z_scope.

Lemma bytes_of_length : forall n z, length (bytes_of n z) = n.
Proof. induction n; intros z; [reflexivity|]. cbn [bytes_of length]. rewrite IHn. reflexivity. Qed.

Lemma of_bytes_of : forall n z, of_bytes (bytes_of n z) = z mod 256 ^ Z.of_nat n.
Proof.
  induction n; intros z.
  - cbn [bytes_of of_bytes Z.of_nat]. rewrite Z.pow_0_r, Z.mod_1_r. reflexivity.
  - cbn [bytes_of of_bytes]. rewrite IHn, Nat2Z.inj_succ, Z.pow_succ_r by lia.
    rewrite (Z.rem_mul_r z 256 (256 ^ Z.of_nat n)) by (try lia; apply Z.pow_nonzero; lia). reflexivity.
Qed.

Lemma pow256 : forall n, 256 ^ Z.of_nat n = 2 ^ (8 * Z.of_nat n).
Proof. intros n. rewrite Z.pow_mul_r by lia. reflexivity. Qed.

Lemma bytes_of_app : forall n m z, bytes_of (n + m) z = bytes_of n z ++ bytes_of m (z / 256 ^ Z.of_nat n).
Proof.
  induction n; intros m z.
  - cbn [bytes_of Nat.add app Z.of_nat]. rewrite Z.pow_0_r, Z.div_1_r. reflexivity.
  - cbn [bytes_of Nat.add app]. rewrite IHn, Nat2Z.inj_succ, Z.pow_succ_r by lia.
    rewrite Z.div_div by (try lia; apply Z.pow_pos_nonneg; lia). reflexivity.
Qed.

Lemma bytes_of_mod : forall n z z', z mod 256 ^ Z.of_nat n = z' mod 256 ^ Z.of_nat n -> bytes_of n z = bytes_of n z'.
Proof.
  induction n; intros z z' H; [reflexivity|].
  rewrite Nat2Z.inj_succ, Z.pow_succ_r in H by lia.
  rewrite (Z.rem_mul_r z), (Z.rem_mul_r z') in H by (try lia; apply Z.pow_nonzero; lia).
  assert (0 <= z mod 256 < 256 /\ 0 <= z' mod 256 < 256) by (split; apply Z.mod_pos_bound; lia).
  cbn [bytes_of]. assert (E : z mod 256 = z' mod 256) by lia. rewrite E. f_equal. apply IHn. lia.
Qed.

Lemma bytes_of_0 : forall n, bytes_of n 0 = repeat 0 n.
Proof. induction n; [reflexivity|]. cbn [bytes_of repeat]. rewrite Z.mod_0_l, Z.div_0_l by lia. rewrite IHn. reflexivity. Qed.

(** ** Chunks *)

Lemma chunks_aux_fuel : forall f n v, (0 < n)%nat -> (length v <= f)%nat -> chunks_aux f n v = chunks n v.
Proof.
  unfold chunks. intros f n v Hn. revert v.
  assert (G : forall k v, (length v <= k)%nat -> forall f, (length v <= f)%nat -> chunks_aux f n v = chunks_aux k n v).
  { induction k; intros v Hv g Hg.
    - destruct v; [|cbn [length] in Hv; lia]. destruct g; reflexivity.
    - destruct v as [|a v]; [destruct g; reflexivity|]. cbn [length] in *. destruct g; [lia|].
      cbn [chunks_aux]. f_equal. apply IHk; rewrite skipn_length; cbn [length]; lia. }
  intros v Hf. apply G; [lia | exact Hf].
Qed.

Lemma chunks_cons : forall n v, (0 < n)%nat -> v <> [] -> chunks n v = firstn n v :: chunks n (skipn n v).
Proof.
  intros n v Hn Hv. unfold chunks at 1. destruct v as [|a v]; [contradiction|]. cbn [length chunks_aux]. f_equal.
  apply chunks_aux_fuel; [exact Hn|]. rewrite skipn_length. cbn [length]. lia.
Qed.

Lemma chunks_app : forall n a b, (0 < n)%nat -> length a = n -> chunks n (a ++ b) = a :: chunks n b.
Proof.
  intros n a b Hn Ha. rewrite chunks_cons; [|exact Hn | destruct a; [cbn [length] in Ha; lia | discriminate]].
  rewrite <- Ha, firstn_app, firstn_all, Nat.sub_diag, firstn_O, app_nil_r.
  rewrite skipn_app, skipn_all, Nat.sub_diag, skipn_O. reflexivity.
Qed.

Lemma chunks_concat : forall n cs, (0 < n)%nat -> Forall (fun c => length c = n) cs -> chunks n (concat cs) = cs.
Proof.
  intros n cs Hn. induction cs as [|c cs IH]; intros H; [reflexivity|]. inversion H; subst. cbn [concat].
  rewrite chunks_app, IH by auto. reflexivity.
Qed.

Lemma chunks_of_lanes : forall n l, (0 < n)%nat -> chunks n (of_lanes n l) = map (bytes_of n) l.
Proof.
  intros n l Hn. unfold of_lanes. apply chunks_concat; [exact Hn|]. apply Forall_forall. intros c Hc.
  apply in_map_iff in Hc. destruct Hc as [z [<- _]]. apply bytes_of_length.
Qed.

Lemma of_lanes_app : forall n a b, of_lanes n (a ++ b) = of_lanes n a ++ of_lanes n b.
Proof. intros n a b. unfold of_lanes. rewrite map_app, concat_app. reflexivity. Qed.

Lemma of_lanes_cons : forall n a b, of_lanes n (a :: b) = bytes_of n a ++ of_lanes n b.
Proof. reflexivity. Qed.

Lemma of_lanes_length : forall n l, length (of_lanes n l) = (n * length l)%nat.
Proof.
  intros n l. induction l; [cbn; lia|]. rewrite of_lanes_cons, app_length, bytes_of_length, IHl. cbn [length]. lia.
Qed.

(** Chunks of several lanes. *)
Lemma chunks_lanes : forall k n l, (0 < n)%nat -> (0 < k)%nat ->
  chunks (k * n) (of_lanes n l) = map (of_lanes n) (chunks k l).
Proof.
  intros k n l Hn Hk. remember (length l) as m eqn:Em. revert l Em.
  induction m as [m IH] using (well_founded_induction lt_wf). intros l Em.
  destruct l as [|x l]; [reflexivity|].
  rewrite (chunks_cons k) by (auto; discriminate). cbn [map].
  rewrite chunks_cons.
  - assert (F : of_lanes n (x :: l) = of_lanes n (firstn k (x :: l)) ++ of_lanes n (skipn k (x :: l)))
      by (rewrite <- of_lanes_app, firstn_skipn; reflexivity).
    destruct (Nat.le_gt_cases (length (x :: l)) k) as [L | L].
    + rewrite (firstn_all2 (n := k)) by exact L. rewrite (skipn_all2 (n := k)) by exact L.
      rewrite firstn_all2 by (rewrite of_lanes_length; nia).
      rewrite skipn_all2 by (rewrite of_lanes_length; nia). reflexivity.
    + assert (Ek : length (of_lanes n (firstn k (x :: l))) = (k * n)%nat)
        by (rewrite of_lanes_length, firstn_length; nia).
      rewrite F at 1. rewrite <- Ek at 1. rewrite firstn_app, firstn_all, Nat.sub_diag, firstn_O, app_nil_r. f_equal.
      rewrite F. rewrite <- Ek at 2. rewrite skipn_app, skipn_all, Nat.sub_diag, skipn_O. cbn [app].
      apply (IH (length (skipn k (x :: l)))); [|reflexivity]. rewrite skipn_length. cbn [length] in *. lia.
  - nia.
  - intros E. apply (f_equal (@length Z)) in E. rewrite of_lanes_length in E. cbn [length] in E. nia.
Qed.

(** ** Views *)

Lemma ulanes_of_lanes : forall n l, (0 < n)%nat -> ulanes n (of_lanes n l) = map (wrap_u (8 * Z.of_nat n)) l.
Proof.
  intros n l Hn. unfold ulanes. rewrite chunks_of_lanes by exact Hn. rewrite map_map. apply map_ext. intros z.
  rewrite of_bytes_of, pow256. reflexivity.
Qed.

Lemma wrap_s_mod : forall w z, 0 < w -> wrap_s w (z mod 2 ^ w) = wrap_s w z.
Proof. intros w z Hw. unfold wrap_s. rewrite Zplus_mod_idemp_l. reflexivity. Qed.

Lemma slanes_of_lanes : forall n l, (0 < n)%nat -> slanes n (of_lanes n l) = map (wrap_s (8 * Z.of_nat n)) l.
Proof.
  intros n l Hn. unfold slanes. rewrite ulanes_of_lanes by exact Hn. rewrite map_map. apply map_ext. intros z.
  apply wrap_s_mod. lia.
Qed.

Lemma of_lanes_ext : forall n l l', map (wrap_u (8 * Z.of_nat n)) l = map (wrap_u (8 * Z.of_nat n)) l' ->
  of_lanes n l = of_lanes n l'.
Proof.
  intros n l. induction l as [|x l IH]; intros [|y l'] H; try discriminate; [reflexivity|].
  cbn [map] in H. injection H as H1 H2. rewrite !of_lanes_cons, (IH _ H2). f_equal.
  apply bytes_of_mod. rewrite pow256. exact H1.
Qed.

(** The lanes of twice the width. *)
Fixpoint halve (w : Z) (l : list Z) : list Z :=
  match l with [] => [] | x :: l => x :: x / 2 ^ w :: halve w l end.
Lemma of_lanes_halve : forall n l, of_lanes (n + n) l = of_lanes n (halve (8 * Z.of_nat n) l).
Proof.
  intros n l. induction l as [|x l IH]; [reflexivity|]. cbn [halve]. rewrite !of_lanes_cons, IH, bytes_of_app, pow256.
  rewrite <- app_assoc. reflexivity.
Qed.
Lemma of_lanes_8_4 : forall l, of_lanes 8 l = of_lanes 4 (halve 32 l).
Proof. intros l. apply (of_lanes_halve 4 l). Qed.

(** ** Instructions on lanes *)

Lemma binop_lanes : forall n f a b, (0 < n)%nat -> binop n f (of_lanes n a) (of_lanes n b) =
  of_lanes n (map2 (fun x y => f (wrap_s (8 * Z.of_nat n) x) (wrap_s (8 * Z.of_nat n) y)) a b).
Proof.
  intros n f a b Hn. unfold binop. rewrite !slanes_of_lanes by exact Hn. f_equal. revert b.
  induction a as [|x a IH]; intros [|y b]; try reflexivity. cbn [map map2]. rewrite IH. reflexivity.
Qed.

Lemma map2_map : forall {A A' B B' C} (f : A' -> B' -> C) (g : A -> A') (h : B -> B') a b,
  map2 f (map g a) (map h b) = map2 (fun x y => f (g x) (h y)) a b.
Proof. intros A A' B B' C f g h a. induction a; intros [|y b]; try reflexivity. cbn [map map2]. rewrite IHa. reflexivity. Qed.

Lemma map_map2 : forall {A B C D} (g : C -> D) (f : A -> B -> C) a b,
  map g (map2 f a b) = map2 (fun x y => g (f x y)) a b.
Proof. intros A B C D g f a. induction a; intros [|y b]; try reflexivity. cbn [map map2]. rewrite IHa. reflexivity. Qed.

Lemma pick_lanes : forall n l idx, (0 < n)%nat -> pick n (of_lanes n l) idx = of_lanes n (map (fun i => nth i l 0) idx).
Proof.
  intros n l idx Hn. unfold pick, of_lanes at 2. rewrite chunks_of_lanes by exact Hn. rewrite map_map. f_equal.
  apply map_ext. intros i. rewrite <- bytes_of_0. apply map_nth.
Qed.

Lemma pick_group : forall k n l i, (0 < n)%nat -> (0 < k)%nat -> (i < length (chunks k l))%nat ->
  pick (k * n) (of_lanes n l) [i] = of_lanes n (nth i (chunks k l) []).
Proof.
  intros k n l i Hn Hk Hi. unfold pick. rewrite chunks_lanes by assumption. cbn [map concat]. rewrite app_nil_r.
  rewrite (nth_indep _ _ (of_lanes n [])) by (rewrite map_length; exact Hi). apply map_nth.
Qed.

Lemma extract128_lanes4 : forall l i, (i < length (chunks 4 l))%nat -> extracti128 (of_lanes 4 l) i = of_lanes 4 (nth i (chunks 4 l) []).
Proof. intros l i H. unfold extracti128. apply (pick_group 4 4 l i); [lia | lia | exact H]. Qed.
Lemma extract128_lanes8 : forall l i, (i < length (chunks 2 l))%nat -> extracti128 (of_lanes 8 l) i = of_lanes 8 (nth i (chunks 2 l) []).
Proof. intros l i H. unfold extracti128. apply (pick_group 2 8 l i); [lia | lia | exact H]. Qed.
Lemma extract256_lanes4 : forall l i, (i < length (chunks 8 l))%nat -> extracti256 (of_lanes 4 l) i = of_lanes 4 (nth i (chunks 8 l) []).
Proof. intros l i H. unfold extracti256. apply (pick_group 8 4 l i); [lia | lia | exact H]. Qed.

Lemma map2_concat_lanes : forall {A} n (sel : A -> bool) (m : list A) a b, (0 < n)%nat ->
  concat (map2 (fun i p => if sel i then snd p else fst p) m (map2 pair (map (bytes_of n) a) (map (bytes_of n) b)))
  = of_lanes n (map2 (fun i p => if sel i then snd p else fst p) m (map2 pair a b)).
Proof.
  intros A n sel m a b Hn. revert a b. induction m as [|i m IH]; intros [|x a] [|y b]; try reflexivity.
  cbn [map map2 concat]. rewrite of_lanes_cons, IH. f_equal. destruct (sel i); reflexivity.
Qed.

Lemma blend_lanes : forall n a b imm, (0 < n)%nat -> blend n (of_lanes n a) (of_lanes n b) imm =
  of_lanes n (map2 (fun i p => if Z.testbit imm i then snd p else fst p) (zseq 0 (length a)) (map2 pair a b)).
Proof.
  intros n a b imm Hn. unfold blend. rewrite !chunks_of_lanes by exact Hn. rewrite map_length.
  apply map2_concat_lanes. exact Hn.
Qed.

Lemma blendv_lanes : forall a b m, blendv_epi32 (of_lanes 4 a) (of_lanes 4 b) (of_lanes 4 m) =
  of_lanes 4 (map2 (fun m p => if m <? 0 then snd p else fst p) (map (wrap_s 32) m) (map2 pair a b)).
Proof.
  intros a b m. unfold blendv_epi32. rewrite !chunks_of_lanes, slanes_of_lanes by lia.
  apply (map2_concat_lanes 4 (fun m => m <? 0)). lia.
Qed.

Lemma mask_mov_lanes : forall a b m, mask_mov_epi64 (of_lanes 8 a) m (of_lanes 8 b) =
  of_lanes 8 (map2 (fun (m : bool) p => if m then snd p else fst p) m (map2 pair a b)).
Proof.
  intros a b m. unfold mask_mov_epi64. rewrite !chunks_of_lanes by lia.
  apply (map2_concat_lanes 8 (fun m => m)). lia.
Qed.

Lemma cmpgt_mask_lanes : forall a b, cmpgt_epi64_mask (of_lanes 8 a) (of_lanes 8 b) =
  map2 (fun x y => wrap_s 64 y <? wrap_s 64 x) a b.
Proof. intros a b. unfold cmpgt_epi64_mask. rewrite !slanes_of_lanes by lia. apply map2_map. Qed.

Lemma sllv_lanes : forall n a b, (0 < n)%nat -> sllv n (of_lanes n a) (of_lanes n b) =
  of_lanes n (map2 (fun x c => if wrap_u (8 * Z.of_nat n) c <? 8 * Z.of_nat n then x * 2 ^ wrap_u (8 * Z.of_nat n) c else 0) a b).
Proof.
  intros n a b Hn. unfold sllv. rewrite !ulanes_of_lanes by exact Hn. rewrite map2_map. apply of_lanes_ext.
  rewrite !map_map2. revert b. induction a as [|x a IH]; intros [|y b]; try reflexivity. cbn [map2]. rewrite IH. f_equal.
  set (w := 8 * Z.of_nat n). destruct (wrap_u w y <? w); [|reflexivity]. unfold wrap_u. apply Z.mul_mod_idemp_l.
  apply Z.pow_nonzero; lia.
Qed.

Lemma srlv_lanes : forall n a b, (0 < n)%nat -> srlv n (of_lanes n a) (of_lanes n b) =
  of_lanes n (map2 (fun x c => if wrap_u (8 * Z.of_nat n) c <? 8 * Z.of_nat n
                               then wrap_u (8 * Z.of_nat n) x / 2 ^ wrap_u (8 * Z.of_nat n) c else 0) a b).
Proof. intros n a b Hn. unfold srlv. rewrite !ulanes_of_lanes by exact Hn. rewrite map2_map. reflexivity. Qed.

Lemma srav_lanes : forall n a b, (0 < n)%nat -> srav n (of_lanes n a) (of_lanes n b) =
  of_lanes n (map2 (fun x c => wrap_s (8 * Z.of_nat n) x / 2 ^ Z.min (wrap_u (8 * Z.of_nat n) c) (8 * Z.of_nat n - 1)) a b).
Proof.
  intros n a b Hn. unfold srav. rewrite ulanes_of_lanes, slanes_of_lanes by exact Hn. rewrite map2_map. reflexivity.
Qed.

Lemma slli_lanes : forall n a c, (0 < n)%nat -> slli n (of_lanes n a) c =
  of_lanes n (map (fun x => if c <? 8 * Z.of_nat n then x * 2 ^ c else 0) a).
Proof.
  intros n a c Hn. unfold slli. rewrite ulanes_of_lanes by exact Hn. apply of_lanes_ext. rewrite !map_map.
  apply map_ext. intros x. destruct (c <? 8 * Z.of_nat n); [|reflexivity]. unfold wrap_u. apply Z.mul_mod_idemp_l.
  apply Z.pow_nonzero; lia.
Qed.

Lemma srli_lanes : forall n a c, (0 < n)%nat -> srli n (of_lanes n a) c =
  of_lanes n (map (fun x => if c <? 8 * Z.of_nat n then wrap_u (8 * Z.of_nat n) x / 2 ^ c else 0) a).
Proof. intros n a c Hn. unfold srli. rewrite ulanes_of_lanes by exact Hn. rewrite map_map. reflexivity. Qed.

Lemma srai_lanes : forall n a c, (0 < n)%nat -> srai n (of_lanes n a) c =
  of_lanes n (map (fun x => wrap_s (8 * Z.of_nat n) x / 2 ^ Z.min c (8 * Z.of_nat n - 1)) a).
Proof. intros n a c Hn. unfold srai. rewrite slanes_of_lanes by exact Hn. rewrite map_map. reflexivity. Qed.

Lemma cvtepi32_epi64_lanes : forall l, cvtepi32_epi64 (of_lanes 4 l) = of_lanes 8 (map (wrap_s 32) l).
Proof. intros l. unfold cvtepi32_epi64. rewrite slanes_of_lanes by lia. reflexivity. Qed.

Lemma wrap_u_s : forall w z, 0 < w -> wrap_u w (wrap_s w z) = wrap_u w z.
Proof.
  intros w z Hw. unfold wrap_u, wrap_s. rewrite Zminus_mod_idemp_l. f_equal. lia.
Qed.
Lemma wrap_s_u : forall w z, 0 < w -> wrap_s w (wrap_u w z) = wrap_s w z.
Proof. intros. apply wrap_s_mod. assumption. Qed.
Lemma wrap_s_s : forall w z, 0 < w -> wrap_s w (wrap_s w z) = wrap_s w z.
Proof. intros w z Hw. rewrite <- (wrap_s_u w (wrap_s w z)), wrap_u_s, wrap_s_u by exact Hw. reflexivity. Qed.

Lemma cvtepi64_epi32_lanes : forall l, cvtepi64_epi32 (of_lanes 8 l) = of_lanes 4 l.
Proof.
  intros l. unfold cvtepi64_epi32. rewrite slanes_of_lanes by lia. apply of_lanes_ext. rewrite map_map. apply map_ext.
  intros z. change (8 * Z.of_nat 8) with 64. change (8 * Z.of_nat 4) with 32. unfold wrap_u, wrap_s.
  rewrite Zminus_mod. change (2 ^ 64) with (2 ^ 32 * 2 ^ 32). rewrite Z.rem_mul_r by lia.
  rewrite (Z.mul_comm (2 ^ 32)), Z_mod_plus_full, Z.mod_mod by lia. change (2 ^ (64 - 1) mod 2 ^ 32) with 0.
  rewrite Z.sub_0_r, Z.mod_mod by lia. change (2 ^ (64 - 1)) with (2 ^ 31 * 2 ^ 32). apply Z_mod_plus_full.
Qed.

Lemma set1_lanes : forall n c z, set1 n c z = of_lanes n (repeat z c).
Proof. reflexivity. Qed.
Lemma setzero_lanes4 : forall c, setzero (4 * c) = of_lanes 4 (repeat 0 c).
Proof. induction c; [reflexivity|]. replace (4 * S c)%nat with (4 + 4 * c)%nat by lia. cbn [setzero repeat Nat.add] in *. unfold setzero in *. cbn [repeat]. rewrite IHc. reflexivity. Qed.
Lemma setzero_lanes8 : forall c, setzero (8 * c) = of_lanes 8 (repeat 0 c).
Proof. induction c; [reflexivity|]. replace (8 * S c)%nat with (8 + 8 * c)%nat by lia. unfold setzero in *. cbn [repeat Nat.add]. rewrite IHc. reflexivity. Qed.

(** The width of lanes, for rewriting. *)
Lemma width4 : 8 * Z.of_nat 4 = 32. Proof. reflexivity. Qed.
Lemma width8 : 8 * Z.of_nat 8 = 64. Proof. reflexivity. Qed.

Lemma wrap_s_id : forall w z, 0 < w -> - 2 ^ (w - 1) <= z < 2 ^ (w - 1) -> wrap_s w z = z.
Proof.
  intros w z Hw H. unfold wrap_s. assert (2 ^ w = 2 * 2 ^ (w - 1)) by (rewrite <- Z.pow_succ_r by lia; f_equal; lia).
  rewrite Z.mod_small; lia.
Qed.
Lemma wrap_s_range : forall w z, 0 < w -> - 2 ^ (w - 1) <= wrap_s w z < 2 ^ (w - 1).
Proof.
  intros w z Hw. unfold wrap_s. assert (2 ^ w = 2 * 2 ^ (w - 1)) by (rewrite <- Z.pow_succ_r by lia; f_equal; lia).
  assert (0 < 2 ^ (w - 1)) by (apply Z.pow_pos_nonneg; lia).
  pose proof (Z.mod_pos_bound (z + 2 ^ (w - 1)) (2 ^ w)). lia.
Qed.
Lemma wrap_u_id : forall w z, 0 <= z < 2 ^ w -> wrap_u w z = z.
Proof. intros w z H. apply Z.mod_small. exact H. Qed.
