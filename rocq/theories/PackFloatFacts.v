(** The x86 packing functions for column-major float matrices copy every entry to its packed position. *)
From Coq Require Import ZArith List Bool Lia.
From Verif Require Import Base SidePair SizeUtilFacts BlockMapFacts Mat MatFacts Scalars Pack PackFacts Kernel MemcpyPackFacts SimdFloat SimdFloatFacts PackFloatX86.
Import ListNotations.
Open Scope Z_scope.

(** ** The instruction sequences *)
Record packer_laws {V} (k : float_packer V) : Prop := {
  fl_width : fp_width k = 8 /\ fp_unroll k = 1 \/ fp_width k = 16 /\ fp_unroll k = 2;
  fl_mask : forall avail, 0 < avail < 8 -> fp_mask k avail = map (fun i => i <? avail) (zrange 0 8);
  fl_transpose : forall (f : Z -> Z -> V) i row, In (i, row) (fp_order k) ->
    nth i (fp_transpose k (map (fun j => map (f j) (zrange 0 8)) (zrange 0 8))) [] = map (fun j => f j row) (zrange 0 8);
  fl_order : forall row, (exists i, In (i, row) (fp_order k)) <-> 0 <= row < 8;
  fl_last : forall row, (exists i, In (i, row) (removelast (fp_order k))) <-> 0 <= row < 7
}.

Lemma sign_mask_ok : forall greater avail, (forall a b, greater a b <? 0 = (b <? a)) ->
  sign_mask greater avail = map (fun i => i <? avail) (zrange 0 8).
Proof. intros greater avail H. unfold sign_mask. apply map_ext. intros i. apply H. Qed.

Lemma order_rows : forall (ord : list (nat * Z)) n, (forall row, existsb (fun x => snd x =? row) ord = (0 <=? row) && (row <? n)) ->
  forall row, (exists i, In (i, row) ord) <-> 0 <= row < n.
Proof.
  intros ord n H row. specialize (H row). split.
  - intros [i Hi]. assert (E : existsb (fun x => snd x =? row) ord = true) by (apply existsb_exists; exists (i, row); split; [exact Hi|apply Z.eqb_refl]).
    rewrite E in H. lia.
  - intros Hr. replace ((0 <=? row) && (row <? n)) with true in H by lia. apply existsb_exists in H. destruct H as ([i r] & Hi & Er). cbn [snd] in Er.
    apply Z.eqb_eq in Er. subst r. exists i. exact Hi.
Qed.

Ltac transposed := intros f i row Hi; cbn in Hi; repeat (destruct Hi as [Hi|Hi]; [injection Hi as <- <-; reflexivity|]); destruct Hi.
Ltac listed := apply order_rows; intros row; cbn [fp_order float_avx float_avx2 float_avx512 forder_256 forder_512 removelast existsb snd]; lia.

Lemma float_avx_laws : forall V, packer_laws (@float_avx V).
Proof.
  intros V. constructor.
  - left. split; reflexivity.
  - intros avail _. apply sign_mask_ok. intros a b. unfold greater_avx. destruct (b <? a); reflexivity.
  - transposed.
  - listed.
  - listed.
Qed.
Lemma float_avx2_laws : forall V, packer_laws (@float_avx2 V).
Proof.
  intros V. constructor.
  - left. split; reflexivity.
  - intros avail _. apply sign_mask_ok. intros a b. unfold greater_avx2. destruct (b <? a); reflexivity.
  - transposed.
  - listed.
  - listed.
Qed.
Lemma float_avx512_laws : forall V, packer_laws (@float_avx512 V).
Proof.
  intros V. constructor.
  - right. split; reflexivity.
  - intros avail H. assert (C : avail = 1 \/ avail = 2 \/ avail = 3 \/ avail = 4 \/ avail = 5 \/ avail = 6 \/ avail = 7) by lia.
    repeat (destruct C as [C|C]; [subst avail; reflexivity|]); subst avail; reflexivity.
  - transposed.
  - listed.
  - listed.
Qed.

(** ** Eight columns *)
Section Half.
Context {V : Type}.
Variables (zero : V) (k : float_packer V).
Hypothesis K : packer_laws k.
Let W := fp_width k.

Lemma fwidth : W = 8 \/ W = 16.
Proof. destruct (fl_width _ K) as [[E _]|[E _]]; [left|right]; exact E. Qed.

(** The cell at offset [d] of a block: row [d / W] of column [d mod W]. *)
Definition fcell {A} (v : Z -> Z -> A) (d : Z) : A := v (d mod W) (d / W).
Definition fhit (n d : Z) : bool := (0 <=? d) && (d <? W * n) && (d mod W <? 8).

Lemma fstore_all_ok : forall {A} (put : list V -> list A) (g : V -> A) (f : Z -> Z -> V) rs ord p b n,
  (forall v, put v = map g v) ->
  (forall i row, In (i, row) ord -> 0 <= row < n /\ nth i rs [] = map (fun j => f j row) (zrange 0 8)) ->
  0 <= p -> p + W * n - W + 8 <= blen b ->
  exists b', fstore_all put W rs ord p b = Ok b' /\ blen b' = blen b /\
    forall q, bdat b' q = if existsb (fun x => snd x =? (q - p) / W) ord && ((q - p) mod W <? 8) then g (fcell f (q - p)) else bdat b q.
Proof.
  intros A put g f rs ord p b n Hput. pose proof fwidth as HW. revert b. induction ord as [|[i row] ord IH]; intros b H Hp Hb; cbn [fstore_all existsb].
  - exists b. split; [reflexivity|]. split; reflexivity.
  - destruct (H i row (or_introl eq_refl)) as [Hr E]. rewrite E, Hput, map_map.
    destruct (fstore_ok (fun j => g (f j row)) 8 (p + row * W) b) as (b1 & E1 & L1 & D1); [lia|nia|nia|].
    rewrite E1. cbn [bind]. destruct (IH b1) as (b2 & E2 & L2 & D2); [intros; apply H; right; assumption|exact Hp|rewrite L1; exact Hb|].
    exists b2. split; [exact E2|]. split; [congruence|]. intros q. rewrite D2, D1. cbn [snd].
    pose proof (Z.div_mod (q - p) W ltac:(lia)) as DM. pose proof (Z.mod_pos_bound (q - p) W ltac:(lia)) as MB.
    destruct (existsb _ ord && _) eqn:B.
    + apply andb_true_iff in B. destruct B as [B1 B2]. rewrite B1, B2, orb_true_r. reflexivity.
    + destruct ((p + row * W <=? q) && (q <? p + row * W + 8)) eqn:B'.
      * assert (Eq : (q - p) / W = row) by (symmetry; apply (Z.div_unique _ _ _ (q - p - row * W)); lia).
        assert (Em : (q - p) mod W = q - p - row * W) by (rewrite <- Eq; lia).
        rewrite Eq, Z.eqb_refl. cbn [orb]. replace ((q - p) mod W <? 8) with true by lia. cbn [andb]. unfold fcell. rewrite Eq, Em. do 2 f_equal. lia.
      * destruct (Z.eqb_spec row ((q - p) / W)) as [Er|Er]; cbn [orb]; [|rewrite B; reflexivity].
        destruct (Z.ltb_spec ((q - p) mod W) 8); cbn [andb]; [|reflexivity]. nia.
Qed.

Lemma in_order_hit : forall (ord : list (nat * Z)) n d, (forall row, (exists i, In (i, row) ord) <-> 0 <= row < n) ->
  existsb (fun x => snd x =? d / W) ord && (d mod W <? 8) = fhit n d.
Proof.
  intros ord n d H. unfold fhit. pose proof fwidth as HW. f_equal. specialize (H (d / W)).
  pose proof (Z.div_mod d W ltac:(lia)) as DM. pose proof (Z.mod_pos_bound d W ltac:(lia)) as MB.
  destruct (existsb (fun x => snd x =? d / W) ord) eqn:E.
  - apply existsb_exists in E. destruct E as ([i r] & Hi & Er). cbn [snd] in Er. apply Z.eqb_eq in Er. subst r.
    destruct H as [H _]. specialize (H (ex_intro _ i Hi)). nia.
  - destruct ((0 <=? d) && (d <? W * n)) eqn:B; [|reflexivity]. exfalso. destruct H as [_ H]. destruct H as [i Hi].
    + split; [apply Z.div_pos; lia|]. apply Z.div_lt_upper_bound; lia.
    + assert (X : existsb (fun x => snd x =? d / W) ord = true) by (apply existsb_exists; exists (i, d / W); split; [exact Hi|apply Z.eqb_refl]). congruence.
Qed.

Lemma store_chunk : forall {A} (put : list V -> list A) (g : V -> A) (f : Z -> Z -> V) ord n p b,
  (forall v, put v = map g v) -> ord = fp_order k /\ n = 8 \/ ord = removelast (fp_order k) /\ n = 7 ->
  0 <= p -> p + W * n - W + 8 <= blen b ->
  exists b', fstore_all put W (fp_transpose k (map (fun j => map (f j) (zrange 0 8)) (zrange 0 8))) ord p b = Ok b' /\ blen b' = blen b /\
    forall q, bdat b' q = if fhit n (q - p) then g (fcell f (q - p)) else bdat b q.
Proof.
  intros A put g f ord n p b Hput Hord Hp Hb.
  assert (Ho : forall row, (exists i, In (i, row) ord) <-> 0 <= row < n) by (destruct Hord as [[-> ->]|[-> ->]]; [apply (fl_order _ K)|apply (fl_last _ K)]).
  assert (Hin : forall x, In x ord -> In x (fp_order k)).
  { destruct Hord as [[-> _]|[-> _]]; [auto|]. intros x Hx. destruct (fp_order k) as [|y l] eqn:E; [destruct Hx|].
    rewrite (app_removelast_last y (l := y :: l)) by discriminate. apply in_or_app. left. exact Hx. }
  destruct (fstore_all_ok put g f (fp_transpose k (map (fun j => map (f j) (zrange 0 8)) (zrange 0 8))) ord p b n Hput) as (b' & E & L & D); [|assumption|assumption|].
  - intros i row Hi. split; [apply Ho; exists i; exact Hi|]. apply (fl_transpose _ K). apply Hin, Hi.
  - exists b'. split; [exact E|]. split; [exact L|]. intros q. rewrite D, (in_order_hit ord n) by exact Ho. reflexivity.
Qed.

Lemma fhit_shift : forall t d, 0 <= t -> fhit (8 * (t + 1)) d = fhit 8 (d - t * (W * 8)) || fhit (8 * t) d.
Proof.
  intros t d Ht. pose proof fwidth as HW. unfold fhit.
  replace ((d - t * (W * 8)) mod W) with (d mod W) by (replace (d - t * (W * 8)) with (d + - (t * 8) * W) by lia; rewrite Z.mod_add by lia; reflexivity).
  destruct (d mod W <? 8); [|rewrite !andb_false_r; reflexivity]. rewrite !andb_true_r. destruct HW as [-> | ->]; lia.
Qed.
Lemma fcell_shift : forall {A} (v : Z -> Z -> A) t d, fcell (fun c r => v c (t * 8 + r)) (d - t * (W * 8)) = fcell v d.
Proof.
  intros A v t d. pose proof fwidth as HW. unfold fcell. replace (d - t * (W * 8)) with (d + - (t * 8) * W) by lia.
  rewrite Z.mod_add, Z.div_add by lia. f_equal. lia.
Qed.

Variables (src zerobuf data0 : buf V) (trailing0 : buf (option V)) (off stride remaining rows po toff : Z).
Hypothesis Hz : forall i, bdat zerobuf i = zero.
Hypothesis Hzl : 8 <= blen zerobuf.
Hypothesis Hrows : 0 <= rows.
Hypothesis Hsrc : forall c, 0 <= c < 8 -> c < remaining -> 0 <= off + c * stride /\ off + c * stride + rows <= blen src.
Hypothesis Hpo : 0 <= po.
Hypothesis Hdata : po + W * (8 * (rows / 8)) - W + 8 <= blen data0 \/ rows / 8 = 0.
Hypothesis Htoff : 0 <= toff.
Hypothesis Htrail : toff + W * 7 - W + 8 <= blen trailing0.

Definition fvalue (c r : Z) : V := if (c <? remaining) && (r <? rows) then bdat src (off + c * stride + r) else zero.
Definition fcol_at (t j : Z) : fcolumn V :=
  if remaining <=? j then {| fq_buf := zerobuf; fq_off := 0; fq_inc := 0 |}
  else {| fq_buf := src; fq_off := off + j * stride + t * 8; fq_inc := 8 |}.

Record finv (t : Z) (s : fstate V) : Prop := {
  f_packed : fs_packed s = po + t * (W * 8);
  f_cols : fs_cols s = map (fcol_at t) (zrange 0 8);
  f_data : blen (fs_data s) = blen data0 /\ forall q, bdat (fs_data s) q =
    if fhit (8 * Z.min t (rows / 8)) (q - po) then fcell fvalue (q - po) else bdat data0 q;
  f_trailing : blen (fs_trailing s) = blen trailing0 /\ forall q, bdat (fs_trailing s) q =
    if (rows / 8 <? t) && (0 <? rows mod 8) && fhit 7 (q - toff)
    then Some (fcell (fun c r => fvalue c (rows / 8 * 8 + r)) (q - toff)) else bdat trailing0 q
}.

Lemma fload_all_ok : forall (f : fcolumn V -> res (list V)) (g : Z -> list V) c,
  (forall j, 0 <= j < 8 -> f (c j) = Ok (g j)) -> fload_all f (map c (zrange 0 8)) = Ok (map g (zrange 0 8)).
Proof.
  intros f g c H. assert (G : forall j, In j (zrange 0 8) -> f (c j) = Ok (g j)) by (intros j Hj; apply H; apply zrange_In in Hj; exact Hj).
  clear H. revert G. induction (zrange 0 8) as [|j l IH]; intros G; cbn [map fload_all]; [reflexivity|].
  rewrite G by (left; reflexivity). cbn [bind]. rewrite IH by (intros; apply G; right; assumption). reflexivity.
Qed.

Lemma fadvance_at : forall t, map fadvance (map (fcol_at t) (zrange 0 8)) = map (fcol_at (t + 1)) (zrange 0 8).
Proof.
  intros t. rewrite map_map. apply map_ext. intros j. unfold fadvance, fcol_at. destruct (remaining <=? j); cbn [fq_buf fq_off fq_inc]; f_equal; lia.
Qed.

Lemma load_tile : forall t, 0 <= t -> t * 8 + 8 <= rows ->
  fload_all (fun q => fload 8 (fq_buf q) (fq_off q)) (map (fcol_at t) (zrange 0 8)) =
  Ok (map (fun j => map (fun r => fvalue j (t * 8 + r)) (zrange 0 8)) (zrange 0 8)).
Proof.
  intros t Ht Hr. apply fload_all_ok. intros j Hj. unfold fcol_at. destruct (Z.leb_spec remaining j) as [H|H]; cbn [fq_buf fq_off].
  - rewrite fload_ok by lia. f_equal. apply map_ext. intros i. unfold fvalue. rewrite Hz. replace (j <? remaining) with false by lia. reflexivity.
  - destruct (Hsrc j) as [S1 S2]; [lia|lia|]. rewrite fload_ok by lia. f_equal. apply map_ext_in. intros i Hi. apply zrange_In in Hi. unfold fvalue.
    replace (j <? remaining) with true by lia. replace (t * 8 + i <? rows) with true by lia. cbn [andb]. f_equal. lia.
Qed.

Lemma mask_tile : forall t, 0 <= t -> t * 8 < rows < t * 8 + 8 ->
  fload_all (fun q => fmask_load zero (fp_mask k (rows - t * 8)) (fq_buf q) (fq_off q)) (map (fcol_at t) (zrange 0 8)) =
  Ok (map (fun j => map (fun r => fvalue j (t * 8 + r)) (zrange 0 8)) (zrange 0 8)).
Proof.
  intros t Ht Hr. rewrite (fl_mask _ K) by lia. apply fload_all_ok. intros j Hj. unfold fcol_at. destruct (Z.leb_spec remaining j) as [H|H]; cbn [fq_buf fq_off].
  - rewrite fmask_load_ok by lia. f_equal. apply map_ext. intros i. unfold fvalue. rewrite Hz. replace (j <? remaining) with false by lia.
    cbn [andb]. destruct (_ <? _); reflexivity.
  - destruct (Hsrc j) as [S1 S2]; [lia|lia|]. rewrite fmask_load_ok by lia. f_equal. apply map_ext. intros i. unfold fvalue.
    replace (j <? remaining) with true by lia. cbn [andb]. destruct (Z.ltb_spec i (rows - t * 8)); destruct (Z.ltb_spec (t * 8 + i) rows); try lia; try reflexivity.
    f_equal. lia.
Qed.

Lemma fchunk_ok : forall t s, 0 <= t -> finv t s -> exists s', fchunk zero k toff (rows - t * 8) s = Ok s' /\ finv (t + 1) s'.
Proof.
  intros t s Ht I. pose proof fwidth as HW. pose proof (Z.div_mod rows 8 ltac:(lia)) as DM. pose proof (Z.mod_pos_bound rows 8 ltac:(lia)) as MB.
  unfold fchunk. cbv zeta. fold W. rewrite (f_cols _ _ I), fadvance_at.
  destruct (Z.leb_spec 8 (rows - t * 8)) as [Hfull|Hpart].
  - assert (Hq : t < rows / 8) by lia. rewrite load_tile by (try exact Ht; lia). cbn [bind].
    destruct (store_chunk (fun v => v) (fun v => v) (fun c r => fvalue c (t * 8 + r)) (fp_order k) 8 (fs_packed s) (fs_data s)) as (b & E & L & D).
    + intros v. symmetry. apply map_id.
    + left. split; reflexivity.
    + rewrite (f_packed _ _ I). nia.
    + rewrite (f_packed _ _ I), (proj1 (f_data _ _ I)). destruct Hdata as [H|H]; [|lia]. nia.
    + rewrite E. cbn [bind]. eexists. split; [reflexivity|]. constructor; cbn [fs_packed fs_cols fs_data fs_trailing].
      * rewrite (f_packed _ _ I). lia.
      * reflexivity.
      * split; [rewrite L; apply (f_data _ _ I)|]. intros q. rewrite D, (proj2 (f_data _ _ I)), (f_packed _ _ I).
        replace (Z.min (t + 1) (rows / 8)) with (t + 1) by lia. replace (Z.min t (rows / 8)) with t by lia.
        rewrite fhit_shift by exact Ht. replace (q - (po + t * (W * 8))) with (q - po - t * (W * 8)) by lia.
        rewrite fcell_shift. destruct (fhit 8 (q - po - t * (W * 8))); cbn [orb]; reflexivity.
      * split; [apply (f_trailing _ _ I)|]. intros q. rewrite (proj2 (f_trailing _ _ I)).
        replace (rows / 8 <? t + 1) with false by lia. replace (rows / 8 <? t) with false by lia. reflexivity.
  - destruct (Z.ltb_spec 0 (rows - t * 8)) as [Hsome|Hnone].
    + assert (Hq : t = rows / 8) by lia. assert (Hm : rows mod 8 = rows - t * 8) by lia.
      rewrite mask_tile by (try exact Ht; lia). cbn [bind].
      destruct (store_chunk (map Some) Some (fun c r => fvalue c (t * 8 + r)) (removelast (fp_order k)) 7 toff (fs_trailing s)) as (b & E & L & D).
      * reflexivity.
      * right. split; reflexivity.
      * exact Htoff.
      * rewrite (proj1 (f_trailing _ _ I)). exact Htrail.
      * rewrite E. cbn [bind]. eexists. split; [reflexivity|]. constructor; cbn [fs_packed fs_cols fs_data fs_trailing].
        -- rewrite (f_packed _ _ I). lia.
        -- reflexivity.
        -- split; [apply (f_data _ _ I)|]. intros q. rewrite (proj2 (f_data _ _ I)).
           replace (Z.min (t + 1) (rows / 8)) with (Z.min t (rows / 8)) by lia. reflexivity.
        -- split; [rewrite L; apply (f_trailing _ _ I)|]. intros q. rewrite D, (proj2 (f_trailing _ _ I)).
           replace (rows / 8 <? t + 1) with true by lia. replace (rows / 8 <? t) with false by lia. replace (0 <? rows mod 8) with true by lia.
           cbn [andb]. rewrite <- Hq. reflexivity.
    + assert (Hs : rows / 8 < t \/ rows mod 8 = 0) by lia.
      assert (C : (rows / 8 <? t + 1) && (0 <? rows mod 8) = (rows / 8 <? t) && (0 <? rows mod 8)) by (clear - Hs Hnone DM MB; lia).
      eexists. split; [reflexivity|]. constructor; cbn [fs_packed fs_cols fs_data fs_trailing].
      * rewrite (f_packed _ _ I). lia.
      * reflexivity.
      * split; [apply (f_data _ _ I)|]. intros q. rewrite (proj2 (f_data _ _ I)).
        replace (Z.min (t + 1) (rows / 8)) with (Z.min t (rows / 8)) by lia. reflexivity.
      * split; [apply (f_trailing _ _ I)|]. intros q. rewrite (proj2 (f_trailing _ _ I)), C. reflexivity.
Qed.

Lemma fhalf_pack_ok : exists data' trailing',
  fhalf_pack zero k src zerobuf off stride remaining rows po toff data0 trailing0 = Ok (data', trailing') /\
  (blen data' = blen data0 /\ forall q, bdat data' q = if fhit (8 * (rows / 8)) (q - po) then fcell fvalue (q - po) else bdat data0 q) /\
  (blen trailing' = blen trailing0 /\ forall q, bdat trailing' q = if (0 <? rows mod 8) && fhit 7 (q - toff)
     then Some (fcell (fun c r => fvalue c (rows / 8 * 8 + r)) (q - toff)) else bdat trailing0 q).
Proof.
  pose proof (Z.div_mod rows 8 ltac:(lia)) as DM. pose proof (Z.mod_pos_bound rows 8 ltac:(lia)) as MB.
  unfold fhalf_pack. assert (Hu : fp_unroll k = 1 \/ fp_unroll k = 2) by (destruct (fl_width _ K) as [[_ ->]|[_ ->]]; lia). set (U := fp_unroll k) in *.
  set (N := (rows - 0 + U * 8 - 1) / (U * 8)).
  assert (HN : 0 <= N /\ rows <= U * N * 8).
  { unfold N. pose proof (Z.div_mod (rows - 0 + U * 8 - 1) (U * 8) ltac:(lia)). pose proof (Z.mod_pos_bound (rows - 0 + U * 8 - 1) (U * 8) ltac:(lia)).
    split; [apply Z.div_pos; lia|nia]. }
  set (s0 := {| fs_data := data0; fs_trailing := trailing0; fs_cols := map (fcolumn_ptr src zerobuf off stride remaining) (zrange 0 8); fs_packed := po |}).
  assert (I0 : finv (U * 0) s0).
  { rewrite Z.mul_0_r. assert (0 <= rows / 8) by (apply Z.div_pos; lia). constructor; cbn [s0 fs_packed fs_cols fs_data fs_trailing].
    - lia.
    - apply map_ext. intros j. unfold fcolumn_ptr, fcol_at. destruct (remaining <=? j); [reflexivity|]. f_equal. lia.
    - split; [reflexivity|]. intros q. rewrite Z.min_l by assumption. unfold fhit. rewrite !Z.mul_0_r.
      replace ((0 <=? q - po) && (q - po <? 0)) with false by lia. reflexivity.
    - split; [reflexivity|]. intros q. replace (rows / 8 <? 0) with false by lia. reflexivity. }
  assert (L : exists s', forstep 0 rows (U * 8) (fun r s => forto 0 U (fun m s => fchunk zero k toff (rows - r - 8 * m) s) s) s0 = Ok s' /\ finv (U * N) s').
  { unfold forstep. fold N. apply (forto_inv (fun i s => finv (U * i) s)); [lia|exact I0|]. intros i s Hi I.
    destruct (forto_inv (fun m s => finv (U * i + m) s) (fun m s => fchunk zero k toff (rows - (0 + i * (U * 8)) - 8 * m) s) 0 U s) as (s' & E & I').
    - lia.
    - rewrite Z.add_0_r. exact I.
    - intros m s1 Hm I1. replace (rows - (0 + i * (U * 8)) - 8 * m) with (rows - (U * i + m) * 8) by lia.
      replace (U * i + (m + 1)) with (U * i + m + 1) by lia. apply fchunk_ok; [clear - Hi Hm Hu; nia|exact I1].
    - exists s'. split; [exact E|]. replace (U * (i + 1)) with (U * i + U) by lia. exact I'. }
  destruct L as (s & E & I). assert (HU : rows / 8 <= U * N) by lia.
  rewrite E. cbn [bind]. exists (fs_data s), (fs_trailing s). split; [reflexivity|]. split.
  - destruct (f_data _ _ I) as [D1 D2]. split; [exact D1|]. intros q. rewrite D2. rewrite Z.min_r by exact HU. reflexivity.
  - destruct (f_trailing _ _ I) as [T1 T2]. split; [exact T1|]. intros q. rewrite T2.
    assert (Hc : (rows / 8 <? U * N) && (0 <? rows mod 8) = (0 <? rows mod 8)) by (clear - DM MB HN HU; lia). rewrite Hc. reflexivity.
Qed.
End Half.

(** ** A block of columns *)
Section Block.
Context {V : Type}.
Variables (zero : V) (k : float_packer V).
Hypothesis K : packer_laws k.
Let W := fp_width k.
Variables (src zerobuf data0 : buf V) (off stride remaining rows po : Z).
Let nontr := 8 * (rows / 8).
Let vl := fvalue zero src off stride remaining rows.

Hypothesis Hz : forall i, bdat zerobuf i = zero.
Hypothesis Hzl : 8 <= blen zerobuf.
Hypothesis Hrows : 0 <= rows.
Hypothesis Hsrc : forall c, 0 <= c < W -> c < remaining -> 0 <= off + c * stride /\ off + c * stride + rows <= blen src.
Hypothesis Hpo : 0 <= po.
Hypothesis Hdata : po + W * rows <= blen data0.
Hypothesis Hmax : W * rows <= int_max.
Hypothesis Hstride : W = 16 -> 8 < remaining -> int_min <= stride * 8 <= int_max.

Notation cellk := (fcell k).
Notation hitk := (fhit k).

Lemma bW : W = 8 \/ W = 16.
Proof. exact (fwidth _ K). Qed.
Lemma nontr_facts : 0 <= nontr <= rows /\ rows = nontr + rows mod 8 /\ 0 <= rows mod 8 < 8.
Proof. unfold nontr. pose proof (Z.div_mod rows 8 ltac:(lia)). pose proof (Z.mod_pos_bound rows 8 ltac:(lia)). lia. Qed.
Lemma land_masks : Z.land rows 7 = rows mod 8 /\ Z.land rows (Z.lnot 7) = nontr.
Proof.
  unfold nontr. change 7 with (2 ^ 3 - 1). rewrite land_pow2_pred, land_lnot_pow2 by lia. change (2 ^ 3) with 8. split; [reflexivity|lia].
Qed.

Record fstaged (data : buf V) (trailing : buf (option V)) : Prop := {
  fst_dlen : blen data = blen data0;
  fst_tlen : blen trailing = 7 * W;
  fst_data : forall q, bdat data q = if (0 <=? q - po) && (q - po <? W * nontr) then cellk vl (q - po) else bdat data0 q;
  fst_tr : forall q, 0 <= q < W * (rows mod 8) -> bdat trailing q = Some (cellk (fun c r => vl c (nontr + r)) q)
}.

Definition fcopied (data' : buf V) : Prop :=
  blen data' = blen data0 /\
  forall q, bdat data' q = if (0 <=? q - po) && (q - po <? W * rows) then cellk vl (q - po) else bdat data0 q.

Lemma fcopy_ok : forall data trailing, fstaged data trailing ->
  exists data', fcopy_trailing k rows po trailing data = Ok data' /\ fcopied data'.
Proof.
  intros data trailing S. destruct nontr_facts as (N1 & N2 & N3). destruct land_masks as [L1 L2]. pose proof bW as HW.
  unfold fcopy_trailing. cbv zeta. rewrite L1, L2. fold W. destruct (Z.ltb_spec 0 (rows mod 8)) as [H|H].
  - rewrite i32_ok by (unfold int_min; nia). cbn [bind].
    destruct (forto_inv (fun i (d : buf V) => blen d = blen data0 /\ forall q, bdat d q =
        if (0 <=? q - po) && (q - po <? W * nontr + i) then cellk vl (q - po) else bdat data0 q)
      (fun i data => x <- bread trailing i ;; match x with Some v => bwrite data (po + W * nontr + i) v | None => UB end)
      0 (W * (rows mod 8)) data) as (d & E & L & D).
    + nia.
    + split; [apply (fst_dlen _ _ S)|]. rewrite Z.add_0_r. apply (fst_data _ _ S).
    + intros i d Hi [L D]. rewrite bread_ok by (rewrite (fst_tlen _ _ S); nia). rewrite (fst_tr _ _ S) by exact Hi. cbn [bind].
      destruct (bwrite_ok d (po + W * nontr + i) (cellk (fun c r => vl c (nontr + r)) i)) as (d' & E' & L' & D'); [rewrite L; nia|].
      exists d'. split; [exact E'|]. split; [congruence|]. intros q. rewrite D', D.
      destruct (Z.eqb_spec q (po + W * nontr + i)) as [->|Hq].
      * replace ((0 <=? po + W * nontr + i - po) && (po + W * nontr + i - po <? W * nontr + (i + 1))) with true by nia.
        unfold fcell. fold W. replace (po + W * nontr + i - po) with (i + nontr * W) by lia. rewrite Z.mod_add, Z.div_add by lia. f_equal. lia.
      * replace ((0 <=? q - po) && (q - po <? W * nontr + (i + 1))) with ((0 <=? q - po) && (q - po <? W * nontr + i)) by lia. reflexivity.
    + exists d. split; [exact E|]. split; [exact L|]. intros q. rewrite D. replace (W * nontr + W * (rows mod 8)) with (W * rows) by nia. reflexivity.
  - exists data. split; [reflexivity|]. split; [apply (fst_dlen _ _ S)|]. replace rows with nontr by lia. apply (fst_data _ _ S).
Qed.

Lemma fzero_half_ok : forall data p, W = 16 -> 0 <= p -> (p + W * nontr - 8 <= blen data \/ nontr = 0) ->
  exists data', fzero_half zero rows p data = Ok data' /\ blen data' = blen data /\
    forall q, bdat data' q = if hitk nontr (q - p) then zero else bdat data q.
Proof.
  intros data p HW Hp Hd. destruct nontr_facts as (N1 & _). destruct land_masks as [_ L2].
  unfold fzero_half. rewrite L2. rewrite HW in Hd.
  assert (HH : forall m d, hitk m d = (0 <=? d) && (d <? 16 * m) && (d mod 16 <? 8)) by (intros m d; unfold fhit; fold W; rewrite HW; reflexivity).
  destruct (forto_inv (fun r (d : buf V) => blen d = blen data /\ forall q, bdat d q = if hitk r (q - p) then zero else bdat data q)
    (fun r data => bzero zero data (p + 16 * r) 8) 0 nontr data) as (d & E & L & D).
  - lia.
  - split; [reflexivity|]. intros q. rewrite HH. replace ((0 <=? q - p) && (q - p <? 16 * 0)) with false by lia. reflexivity.
  - intros r d Hr [L D]. destruct (bzero_ok zero d (p + 16 * r) 8) as (e & E & Le & De); [lia|lia|rewrite L; lia|].
    exists e. split; [exact E|]. split; [congruence|]. intros q. rewrite De, D, !HH.
    pose proof (Z.div_mod (q - p) 16 ltac:(discriminate)). pose proof (Z.mod_pos_bound (q - p) 16 ltac:(lia)).
    destruct ((p + 16 * r <=? q) && (q <? p + 16 * r + 8)) eqn:B.
    + replace ((0 <=? q - p) && (q - p <? 16 * (r + 1)) && ((q - p) mod 16 <? 8)) with true by lia. reflexivity.
    + replace ((0 <=? q - p) && (q - p <? 16 * (r + 1)) && ((q - p) mod 16 <? 8)) with ((0 <=? q - p) && (q - p <? 16 * r) && ((q - p) mod 16 <? 8)) by lia. reflexivity.
  - exists d. split; [exact E|]. split; [exact L|]. exact D.
Qed.

(** The second half, offset by 8 cells. *)
Lemma fhit_second : forall n d, W = 16 -> hitk n (d - 8) = (0 <=? d) && (d <? W * n) && negb (d mod 16 <? 8).
Proof.
  intros n d HW. unfold fhit. fold W. rewrite HW.
  pose proof (Z.div_mod d 16 ltac:(discriminate)) as D. pose proof (Z.mod_pos_bound d 16 ltac:(lia)) as M.
  destruct (Z.ltb_spec (d mod 16) 8) as [H1|H1]; cbn [negb].
  - replace ((d - 8) mod 16) with (d mod 16 + 8) by (apply (Z.mod_unique _ _ (d / 16 - 1)); lia). lia.
  - replace ((d - 8) mod 16) with (d mod 16 - 8) by (apply (Z.mod_unique _ _ (d / 16)); lia). lia.
Qed.
Lemma fcell_second : forall {A} (v : Z -> Z -> A) d, W = 16 -> 8 <= d mod 16 -> cellk (fun c r => v (c + 8) r) (d - 8) = cellk v d.
Proof.
  intros A v d HW Hd. unfold fcell. fold W. rewrite HW.
  pose proof (Z.div_mod d 16 ltac:(discriminate)) as D. pose proof (Z.mod_pos_bound d 16 ltac:(lia)) as M.
  replace ((d - 8) mod 16) with (d mod 16 - 8) by (apply (Z.mod_unique _ _ (d / 16)); lia).
  replace ((d - 8) / 16) with (d / 16) by (apply (Z.div_unique _ _ _ (d mod 16 - 8)); lia). f_equal. lia.
Qed.
Lemma fvalue_second : forall c r, fvalue zero src (off + stride * 8) stride (remaining - 8) rows c r = vl (c + 8) r.
Proof.
  intros c r. unfold vl, fvalue. replace (c <? remaining - 8) with (c + 8 <? remaining) by (clear; lia).
  destruct (_ && _); [|reflexivity]. f_equal. clear. lia.
Qed.

Lemma fpack_block_ok : exists data', fpack_block zero k src zerobuf off stride remaining rows po data0 = Ok data' /\ fcopied data'.
Proof.
  destruct nontr_facts as (N1 & N2 & N3). pose proof bW as HW. unfold fpack_block. fold W.
  match goal with |- exists _, bind ?X _ = _ /\ _ => enough (G : exists d2 t2, X = Ok (d2, t2) /\ fstaged d2 t2) end.
  { destruct G as (d2 & t2 & E2 & St). rewrite E2. cbn [bind]. apply fcopy_ok, St. }
  assert (Hb : po + W * nontr <= blen data0) by (clear - Hdata N1 HW; nia).
  assert (H1 : forall trailing, blen trailing = 7 * W -> exists d1 t1,
    fhalf_pack zero k src zerobuf off stride remaining rows po 0 data0 trailing = Ok (d1, t1) /\
    (blen d1 = blen data0 /\ forall q, bdat d1 q = if hitk nontr (q - po) then cellk vl (q - po) else bdat data0 q) /\
    (blen t1 = 7 * W /\ forall q, bdat t1 q = if (0 <? rows mod 8) && hitk 7 q then Some (cellk (fun c r => vl c (nontr + r)) q) else bdat trailing q)).
  { intros trailing Ht. destruct (fhalf_pack_ok zero k K src zerobuf data0 trailing off stride remaining rows po 0) as (d1 & t1 & E & [L1 D1] & [L2 D2]);
      try assumption.
    - intros c Hc1 Hc2. apply Hsrc; [|exact Hc2]. clear - Hc1 HW. lia.
    - fold W nontr. destruct (Z.eq_dec (rows / 8) 0) as [E0|E0]; [right; exact E0|left]. clear - Hb HW. lia.
    - clear. lia.
    - fold W. rewrite Ht. clear - HW. lia.
    - exists d1, t1. split; [exact E|]. split; [split; assumption|]. split; [congruence|]. intros q. rewrite D2, Z.sub_0_r.
      unfold nontr. rewrite (Z.mul_comm 8). reflexivity. }
  destruct (Z.eqb_spec W 8) as [E8|E8].
  - destruct (H1 (stack_array zero (7 * 8) (remaining <? 8))) as (d1 & t1 & E & [L1 D1] & [L2 D2]); [rewrite E8; reflexivity|].
    exists d1, t1. split; [exact E|].
    assert (H8 : forall n d, hitk n d = (0 <=? d) && (d <? W * n)).
    { intros n d. unfold fhit. fold W. rewrite E8. pose proof (Z.mod_pos_bound d 8 ltac:(lia)). replace (d mod 8 <? 8) with true by lia. apply andb_true_r. }
    constructor.
    + exact L1.
    + exact L2.
    + intros q. rewrite D1, H8. reflexivity.
    + intros q Hq. rewrite D2, H8. replace ((0 <? rows mod 8) && ((0 <=? q) && (q <? W * 7))) with true by (clear - Hq N3 E8; nia). reflexivity.
  - assert (E16 : W = 16) by (clear - HW E8; lia).
    assert (HK : forall n d, hitk n d = (0 <=? d) && (d <? W * n) && (d mod 16 <? 8)) by (intros; unfold fhit; fold W; rewrite E16; reflexivity).
    destruct (Z.ltb_spec 8 remaining) as [H8|H8].
    + destruct (H1 (stack_array zero (7 * 16) false)) as (d1 & t1 & E & [L1 D1] & [L2 D2]); [rewrite E16; reflexivity|]. rewrite E. cbn [bind].
      rewrite i32_ok by (apply Hstride; assumption). cbn [bind].
      destruct (fhalf_pack_ok zero k K src zerobuf d1 t1 (off + stride * 8) stride (remaining - 8) rows (po + 8) 8) as (d2 & t2 & E2 & [M1 M2] & [U1 U2]); try assumption.
      { intros c Hc1 Hc2. destruct (Hsrc (c + 8)) as [X1 X2]; [clear - Hc1 E16; lia|clear - Hc2; lia|].
        replace (off + stride * 8 + c * stride) with (off + (c + 8) * stride) by lia. split; assumption. }
      { clear - Hpo. lia. }
      { fold W nontr. destruct (Z.eq_dec (rows / 8) 0) as [E0|E0]; [right; exact E0|left]. rewrite L1. clear - Hb E16. lia. }
      { clear. lia. }
      { fold W. rewrite L2. clear - E16. lia. }
      fold nontr in M2. exists d2, t2. split; [exact E2|]. constructor.
      * congruence.
      * congruence.
      * intros q. rewrite M2, D1. replace (q - (po + 8)) with (q - po - 8) by lia. rewrite fhit_second by exact E16. rewrite HK.
        destruct ((0 <=? q - po) && (q - po <? W * nontr)); cbn [andb]; [|reflexivity].
        destruct (Z.ltb_spec ((q - po) mod 16) 8) as [Hc|Hc]; cbn [negb]; [reflexivity|].
        rewrite <- (fcell_second vl) by assumption. unfold fcell. apply fvalue_second.
      * intros q Hq. rewrite U2, D2. rewrite fhit_second by exact E16. rewrite HK.
        replace (0 <? rows mod 8) with true by (clear - Hq N3 E16; nia). replace ((0 <=? q) && (q <? W * 7)) with true by (clear - Hq N3 E16; nia). cbn [andb].
        destruct (Z.ltb_spec (q mod 16) 8) as [Hc|Hc]; cbn [negb]; [reflexivity|]. f_equal.
        rewrite <- (fcell_second (fun c r => vl c (nontr + r))) by assumption. unfold fcell, nontr. rewrite (Z.mul_comm 8). apply fvalue_second.
    + destruct (H1 (stack_array zero (7 * 16) true)) as (d1 & t1 & E & [L1 D1] & [L2 D2]); [rewrite E16; reflexivity|]. rewrite E. cbn [bind].
      destruct (fzero_half_ok d1 (po + 8) E16) as (d2 & E2 & M1 & M2).
      { clear - Hpo. lia. }
      { left. rewrite L1. clear - Hb. lia. }
      rewrite E2. cbn [bind]. exists d2, t1. split; [reflexivity|].
      assert (Pad : forall r d, 8 <= d mod 16 -> vl (d mod 16) r = zero).
      { intros r d Hd. unfold vl, fvalue. replace (d mod 16 <? remaining) with false by (clear - Hd H8; lia). reflexivity. }
      constructor.
      * congruence.
      * exact L2.
      * intros q. rewrite M2, D1. replace (q - (po + 8)) with (q - po - 8) by lia. rewrite fhit_second by exact E16. rewrite HK.
        destruct ((0 <=? q - po) && (q - po <? W * nontr)); cbn [andb]; [|reflexivity].
        destruct (Z.ltb_spec ((q - po) mod 16) 8) as [Hc|Hc]; cbn [negb]; [reflexivity|].
        unfold fcell. fold W. rewrite E16. symmetry. apply Pad. exact Hc.
      * intros q Hq. rewrite D2, HK. replace (0 <? rows mod 8) with true by (clear - Hq N3 E16; nia).
        replace ((0 <=? q) && (q <? W * 7)) with true by (clear - Hq N3 E16; nia). cbn [andb].
        destruct (Z.ltb_spec (q mod 16) 8) as [Hc|Hc]; [reflexivity|]. cbn [stack_array bdat]. f_equal.
        unfold fcell. fold W. rewrite E16. symmetry. apply Pad. exact Hc.
Qed.
End Block.

(** ** All columns *)
Lemma pack_float_col_ok : forall {V} dbg (zero : V) k (src : mat V) (p : pmat V) qa qb, packer_laws k ->
  let l := p_layout p in let kc := kl_cols (pl_kernel l) in
  kc = fp_width k -> mat_ok src -> ml_order (m_layout src) = ColMajor -> pmat_ok p -> one_row_layout l ->
  pl_rows l = ml_rows (m_layout src) -> pl_cols l < ml_cols (m_layout src) + kc -> pl_cols l <= int_max ->
  ml_cols (m_layout src) <= int_max ->
  0 <= qa < qb -> qb * kc <= pl_cols l ->
  exists q, pack_float_col zero dbg k src p (qa * kc) (qb * kc) = Ok q /\
    p_layout q = p_layout p /\ p_zp q = p_zp p /\ p_sums q = p_sums p /\ blen (p_data q) = blen (p_data p) /\
    (forall row c, 0 <= row < pl_rows l -> qa * kc <= c < qb * kc -> bdat (p_data q) (poff l row c) = fval zero src row c) /\
    (forall i, (forall row c, 0 <= row < pl_rows l -> qa * kc <= c < qb * kc -> i <> poff l row c) -> bdat (p_data q) i = bdat (p_data p) i).
Proof.
  intros V dbg zero k src p qa qb K l kc EW M Hord PM O Hrows Hcols Hpm Hcm Hq Hqb.
  pose proof (pmo_layout _ PM) as L. fold l in L. assert (HW : kc = 8 \/ kc = 16) by (rewrite EW; exact (fwidth _ K)).
  assert (Pk : 0 < kc) by (clear - HW; lia).
  pose proof (mo_layout _ M) as ML. pose proof (lo_rows _ ML) as M1. pose proof (lo_cols _ ML) as M2. pose proof (lo_stride _ ML) as M3.
  pose proof (lo_flat _ ML) as M4. pose proof (mo_len _ M) as M5. unfold flat in M5. rewrite Hord in M3, M4, M5.
  pose proof (po_flat _ L) as L1. pose proof (po_stride _ L) as L2. pose proof (pmo_len _ PM) as L3. fold l in L3.
  rewrite Hrows in L1, L2, L3. set (rows := ml_rows (m_layout src)) in *. set (cols := ml_cols (m_layout src)) in *. set (stride := ml_stride (m_layout src)) in *.
  unfold pack_float_col. fold l rows cols stride. rewrite Hord, (po_order _ L). cbn [order_eqb]. rewrite !dcheck_ok by reflexivity. cbn [bind].
  rewrite <- EW. rewrite i32_ok by (clear - Hq Hqb Hpm Pk; unfold int_min; nia). cbn [bind].
  rewrite dcheck_ok by (replace (qb * kc - qa * kc) with ((qb - qa) * kc) by ring; rewrite Z.rem_mul by (clear - Pk; lia); reflexivity). cbn [bind].
  rewrite dcheck_ok by (rewrite Z.rem_mul by (clear - Pk; lia); reflexivity). cbn [bind]. cbv zeta.
  match goal with |- context [forstep _ _ _ ?f ?s] => set (body := f) end.
  assert (G : exists d, forstep (qa * kc) (qb * kc) kc body (p_data p) = Ok d /\ blen d = blen (p_data p) /\
    (forall row c, 0 <= row < rows -> qa * kc <= c < (qa + (qb - qa)) * kc -> bdat d (poff l row c) = fval zero src row c) /\
    (forall i, (forall row c, 0 <= row < rows -> qa * kc <= c < (qa + (qb - qa)) * kc -> i <> poff l row c) -> bdat d i = bdat (p_data p) i)).
  { unfold forstep. replace ((qb * kc - qa * kc + kc - 1) / kc) with (qb - qa) by (apply (Z.div_unique _ _ _ (kc - 1)); [clear - Pk; lia|ring]).
    apply (forto_inv (fun t d => blen d = blen (p_data p) /\
      (forall row c, 0 <= row < rows -> qa * kc <= c < (qa + t) * kc -> bdat d (poff l row c) = fval zero src row c) /\
      (forall i, (forall row c, 0 <= row < rows -> qa * kc <= c < (qa + t) * kc -> i <> poff l row c) -> bdat d i = bdat (p_data p) i))).
    - clear - Hq. lia.
    - split; [reflexivity|]. split; [intros row c _ H; clear - H; nia|reflexivity].
    - intros t d Ht (I1 & I2 & I3). unfold body. set (n := qa + t).
      replace (qa * kc + t * kc) with (n * kc) by (unfold n; ring). set (bc := n * kc).
      assert (Hbc : 0 <= bc /\ bc + kc <= pl_cols l) by (unfold bc, n; clear - Hq Ht Hqb Pk; nia).
      assert (Hbcols : bc < cols) by (clear - Hcols Hbc; lia).
      assert (Hmul : 0 <= stride * bc /\ stride * bc + stride <= stride * cols) by (clear - M1 M3 Hbcols Hbc; nia).
      assert (Hp : 0 <= rows * bc /\ rows * bc + kc * rows <= rows * pl_cols l) by (clear - M1 Hbc Pk; nia).
      rewrite i32_ok by (clear - Hmul M4 M1 M3; unfold int_min; lia). cbn [bind].
      rewrite i32_ok by (clear - Hbcols Hbc Hcm; unfold int_min; lia). cbn [bind].
      rewrite L2. replace (Z.land bc (Z.lnot (kc - 1))) with bc.
      2: { unfold bc. destruct HW as [E|E]; rewrite E; [change 8 with (2 ^ 3) | change 16 with (2 ^ 4)];
             rewrite land_lnot_pow2 by lia; rewrite Z.div_mul by (intro; discriminate); ring. }
      rewrite i32_ok by (clear - Hp L1 Pk M1; unfold int_min; nia). cbn [bind].
      destruct (fpack_block_ok zero k K (m_data src) {| blen := kc; bdat := fun _ => zero |} d (stride * bc) stride (cols - bc) rows (rows * bc)) as (d' & E & C1 & C2).
      + reflexivity.
      + cbn [blen]. clear - HW. lia.
      + exact M1.
      + rewrite <- EW. intros c Hc1 Hc2. assert (stride * (bc + c) + stride <= stride * cols) by (clear - Hc1 Hc2 M1 M3 Hbc; nia).
        assert (0 <= c * stride) by (clear - Hc1 M1 M3; nia). split; [clear - H0 Hmul; lia|]. clear - H M3 M5 Hc1. lia.
      + apply Hp.
      + rewrite <- EW, I1. clear - Hp L3. lia.
      + rewrite <- EW. clear - Hp L1. lia.
      + intros _ H8. assert (8 * stride <= stride * cols) by (clear - H8 M1 M3 Hbc; nia). clear - H M4 M1 M3. unfold int_min. lia.
      + rewrite <- EW in C2. exists d'. split; [exact E|]. split; [congruence|].
        assert (PB : forall row j, 0 <= j < kc -> poff l row (bc + j) = rows * bc + (row * kc + j)).
        { intros row j Hj. unfold bc, kc. rewrite poff_block by assumption. rewrite Hrows. fold kc rows. unfold bc. ring. }
        split.
        * intros row c Hrow Hc. rewrite C2. destruct (Z_lt_le_dec c bc) as [Hlt|Hge].
          -- assert (Hlow : c < (qa + t) * kc) by exact Hlt. rewrite I2 by (try exact Hrow; clear - Hc Hlow; lia).
             replace ((0 <=? poff l row c - rows * bc) && (poff l row c - rows * bc <? kc * rows)) with false; [reflexivity|].
             rewrite poff_one_row by exact O. rewrite Hrows. fold kc rows.
             pose proof (Z.div_mod c kc ltac:(clear - Pk; lia)) as D. pose proof (Z.mod_pos_bound c kc Pk) as MB.
             assert (c / kc < n) by (apply Z.div_lt_upper_bound; [exact Pk|clear - Hlt; unfold bc in Hlt; lia]).
             assert (0 <= c / kc) by (apply Z.div_pos; [clear - Hc Hq Pk; nia|exact Pk]).
             symmetry. apply andb_false_iff. left. apply Z.leb_gt. unfold bc. clear - H H0 MB Hrow Pk.
             assert (0 <= kc * rows) by (apply Z.mul_nonneg_nonneg; lia).
             assert ((c / kc + 1) * (kc * rows) <= n * (kc * rows)) by (apply Z.mul_le_mono_nonneg_r; lia). assert (kc * (row + 1) <= kc * rows) by (apply Z.mul_le_mono_nonneg_l; lia).
             set (a := c / kc) in *. clearbody a. nia.
          -- assert (Hj : 0 <= c - bc < kc) by (clear - Hge Hc; unfold bc, n in *; nia).
             assert (Ec : poff l row c = rows * bc + (row * kc + (c - bc))) by (rewrite <- (PB row (c - bc) Hj); f_equal; clear; ring).
             rewrite Ec, Z.add_simpl_l.
             replace ((0 <=? row * kc + (c - bc)) && (row * kc + (c - bc) <? kc * rows)) with true by (clear - Hj Hrow Pk; nia).
             unfold fcell. rewrite <- EW. replace (row * kc + (c - bc)) with (c - bc + row * kc) by ring.
             rewrite Z.mod_add, Z.div_add by (clear - Pk; lia). rewrite (Z.mod_small (c - bc) kc) by exact Hj. rewrite (Z.div_small (c - bc) kc) by exact Hj.
             rewrite Z.add_0_l. unfold fvalue, fval. fold cols. replace (row <? rows) with true by (clear - Hrow; lia). rewrite andb_true_r.
             replace (c - bc <? cols - bc) with (c <? cols) by (clear; lia). destruct (c <? cols); [|reflexivity].
             unfold ent, MatFacts.off. rewrite Hord. fold stride. f_equal. clear. ring.
        * intros i Hi. rewrite C2. destruct ((0 <=? i - rows * bc) && (i - rows * bc <? kc * rows)) eqn:B.
          -- exfalso. pose proof (Z.div_mod (i - rows * bc) kc ltac:(clear - Pk; lia)) as D. pose proof (Z.mod_pos_bound (i - rows * bc) kc Pk) as MB.
             apply (Hi ((i - rows * bc) / kc) (bc + (i - rows * bc) mod kc)).
             ++ split; [apply Z.div_pos; [clear - B; lia|exact Pk]|]. apply Z.div_lt_upper_bound; [exact Pk|clear - B; lia].
             ++ clear - MB Ht Pk. unfold bc, n. nia.
             ++ rewrite PB by exact MB. clear - D. lia.
          -- apply I3. intros row c Hrow Hc. apply Hi; [exact Hrow|]. clear - Hc Pk. nia. }
  destruct G as (d & E & G1 & G2 & G3). rewrite E. cbn [bind]. replace (qa + (qb - qa)) with qb in * by ring.
  eexists. split; [reflexivity|]. cbn [p_layout p_zp p_sums p_data]. rewrite Hrows. repeat split; assumption.
Qed.
