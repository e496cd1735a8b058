(** Lemmas about the portable kernel. *)
From Verif Require Import Base SidePair SizeUtil SizeUtilFacts Mat MatFacts Scalars Pack PackFacts MulParams Kernel.

(** * The value of one entry, as a function of the source matrices *)

Section Entry.
Variables (V : Type) (o : ops V) (ls rs : mat V) (lzp rzp depth : Z) (mp : mul_params V) (dst_zp : Z).

Definition spec_accum (i j : Z) : res V :=
  forto 0 depth
    (fun k accum =>
       p <- o_mul o (o_to_acc o Lhs (pval o Lhs ls lzp k i)) (o_to_acc o Rhs (pval o Rhs rs rzp k j)) ;;
       o_add o accum p) (o_acc0 o).

Definition spec_zp_terms (i j : Z) (accum : V) : res V :=
  a <- (if lzp =? 0 then Ok accum
        else sum <- col_sum o Rhs rs rzp depth j ;; o_sub_zp_sum o Rhs accum lzp sum) ;;
  a <- (if rzp =? 0 then Ok a
        else sum <- col_sum o Lhs ls lzp depth i ;; o_sub_zp_sum o Lhs a rzp sum) ;;
  if (lzp =? 0) || (rzp =? 0) then Ok a
  else o_add_zp_zp_depth o a lzp rzp depth.

Definition spec_entry (i j : Z) : res V :=
  a <- spec_accum i j ;;
  a <- add_bias o mp (channel_of mp i j) a ;;
  a <- spec_zp_terms i j a ;;
  finish o mp dst_zp (channel_of mp i j) a.
End Entry.
Arguments spec_accum {V}. Arguments spec_zp_terms {V}. Arguments spec_entry {V}.

Lemma pelement_ok : forall {V} dbg (p : pmat V) row col, pmat_ok p ->
  0 <= row < pl_rows (p_layout p) -> 0 <= col < pl_cols (p_layout p) ->
  pelement dbg p row col = Ok (bdat (p_data p) (poff (p_layout p) row col)).
Proof.
  intros V dbg p row col [L B _] Hr Hc. unfold pelement. rewrite poffset_ok by auto. cbn [bind].
  pose proof (poff_range _ _ _ L Hr Hc). apply bread_ok. lia.
Qed.

Section KernelEntry.
Variables (V : Type) (dbg : bool) (o : ops V) (ls rs : mat V) (lp rp : pmat V) (mp : mul_params V) (dst_zp : Z).
Hypotheses (PL : pmat_ok lp) (PR : pmat_ok rp).
Hypothesis Hdepth : pl_rows (p_layout rp) = pl_rows (p_layout lp).
(** Sums are present whenever they are needed. *)
Hypotheses (SL : p_zp rp <> 0 -> p_sums lp <> None) (SR : p_zp lp <> 0 -> p_sums rp <> None).

Lemma kernel_accum_ok : forall i j, 0 <= i < pl_cols (p_layout lp) -> 0 <= j < pl_cols (p_layout rp) ->
  col_done o Lhs ls lp i -> col_done o Rhs rs rp j ->
  kernel_accum dbg o lp rp (pl_rows (p_layout lp)) i j =
  spec_accum o ls rs (p_zp lp) (p_zp rp) (pl_rows (p_layout lp)) i j.
Proof.
  intros i j Hi Hj [Dl _] [Dr _]. unfold kernel_accum, spec_accum. apply forto_ext. intros k acc Hk.
  rewrite !pelement_ok by (auto; lia). cbn [bind]. rewrite Dl, Dr by lia. reflexivity.
Qed.

Lemma read_sum_ok : forall (s : side) (src : mat V) (p : pmat V) c, pmat_ok p -> p_sums p <> None ->
  0 <= c < pl_cols (p_layout p) -> col_done o s src p c ->
  read_sum p c = col_sum o s src (p_zp p) (pl_rows (p_layout p)) c.
Proof.
  intros s src p c P N Hc [_ D]. unfold read_sum. destruct (p_sums p) as [b|] eqn:E; [|congruence].
  pose proof (pmo_sums _ P b E). rewrite bread_ok by lia. symmetry. auto.
Qed.

Lemma kernel_entry_ok : forall i j, 0 <= i < pl_cols (p_layout lp) -> 0 <= j < pl_cols (p_layout rp) ->
  col_done o Lhs ls lp i -> col_done o Rhs rs rp j ->
  kernel_entry dbg o lp rp mp dst_zp i j =
  spec_entry o ls rs (p_zp lp) (p_zp rp) (pl_rows (p_layout lp)) mp dst_zp i j.
Proof.
  intros i j Hi Hj Dl Dr. unfold kernel_entry, spec_entry. rewrite kernel_accum_ok by auto.
  destruct (spec_accum _ _ _ _ _ _ _ _) as [a| |]; try reflexivity. cbn [bind].
  destruct (add_bias _ _ _ a) as [a1| |]; try reflexivity. cbn [bind].
  f_equal. unfold zero_point_terms, spec_zp_terms.
  destruct (p_zp lp =? 0) eqn:El; destruct (p_zp rp =? 0) eqn:Er.
  - reflexivity.
  - cbn [bind]. rewrite (read_sum_ok Lhs ls) by (auto; apply SL; lia). reflexivity.
  - rewrite (read_sum_ok Rhs rs) by (auto; apply SR; lia). rewrite Hdepth. reflexivity.
  - rewrite (read_sum_ok Rhs rs) by (auto; apply SR; lia). rewrite Hdepth.
    rewrite (read_sum_ok Lhs ls) by (auto; apply SL; lia). reflexivity.
Qed.
End KernelEntry.

(** * Writing a set of destination entries *)

Definition written {V} (dl : mat_layout) (e : Z -> Z -> V) (D : Z -> Z -> Prop) (d0 d : buf V) : Prop :=
  blen d = blen d0 /\
  (forall i j, D i j -> bdat d (off dl i j) = e i j) /\
  (forall x, (forall i j, D i j -> x <> off dl i j) -> bdat d x = bdat d0 x).

Definition inside (dl : mat_layout) (i j : Z) : Prop := 0 <= i < ml_rows dl /\ 0 <= j < ml_cols dl.

Lemma written_none : forall {V} dl (e : Z -> Z -> V) (D : Z -> Z -> Prop) d,
  (forall i j, ~ D i j) -> written dl e D d d.
Proof. intros V dl e D d H. repeat split; auto. intros i j X. destruct (H i j X). Qed.

Lemma written_iff : forall {V} dl (e : Z -> Z -> V) (D D' : Z -> Z -> Prop) d0 d,
  (forall i j, D i j <-> D' i j) -> written dl e D d0 d -> written dl e D' d0 d.
Proof.
  intros V dl e D D' d0 d H (A & B & C). repeat split; auto.
  - intros i j X. apply B, H, X.
  - intros x X. apply C. intros i j Y. apply X, H, Y.
Qed.

(** Sequencing: writing D1 then D2 is writing their union. *)
Lemma written_trans : forall {V} dl (e : Z -> Z -> V) (D1 D2 D : Z -> Z -> Prop) d0 d1 d2, layout_ok dl ->
  written dl e D1 d0 d1 -> written dl e D2 d1 d2 ->
  (forall i j, D i j <-> D1 i j \/ D2 i j) ->
  (forall i j, D1 i j -> inside dl i j) -> (forall i j, D2 i j -> inside dl i j) ->
  (forall i j, {D2 i j} + {~ D2 i j}) -> written dl e D d0 d2.
Proof.
  intros V dl e D1 D2 D d0 d1 d2 L (A1 & B1 & C1) (A2 & B2 & C2) U I1 I2 Dec. split; [congruence|]. split.
  - intros i j X. destruct (Dec i j) as [Y|N]; [auto|]. apply U in X. destruct X as [X|X]; [|contradiction].
    rewrite C2; [auto|]. intros i' j' Y E. destruct (I1 i j X). destruct (I2 i' j' Y).
    apply off_inj in E; auto. destruct E as [-> ->]. contradiction.
  - intros x X. rewrite C2, C1; auto.
    + intros i j Y. apply X, U. auto.
    + intros i j Y. apply X, U. auto.
Qed.

Definition rect_dec : forall a b c d i j, {a <= i < b /\ c <= j < d} + {~ (a <= i < b /\ c <= j < d)}.
Proof.
  intros. destruct (Z_le_dec a i); [|right; lia]. destruct (Z_lt_dec i b); [|right; lia].
  destruct (Z_le_dec c j); [|right; lia]. destruct (Z_lt_dec j d); [left; lia|right; lia].
Defined.

(** The two inner loops over i and j, abstracting the value computed. *)
Lemma loop2d_ok : forall {V} (f : Z -> Z -> res V) dl (e : Z -> Z -> V) d0 r0 r1 c0 c1,
  layout_ok dl -> flat dl <= blen d0 ->
  0 <= r0 <= r1 -> r1 <= ml_rows dl -> 0 <= c0 <= c1 -> c1 <= ml_cols dl ->
  (forall i j, r0 <= i < r1 -> c0 <= j < c1 -> f i j = Ok (e i j)) ->
  exists d, forto r0 r1
    (fun i dst => forto c0 c1 (fun j dst => v <- f i j ;; off <- offset dl i j ;; bwrite dst off v) dst) d0 = Ok d /\
    written dl e (fun i j => r0 <= i < r1 /\ c0 <= j < c1) d0 d.
Proof.
  intros V f dl e d0 r0 r1 c0 c1 L B Hr Hr1 Hc Hc1 Hf.
  destruct (forto_inv (fun i d => written dl e (fun i' j => r0 <= i' < i /\ c0 <= j < c1) d0 d)
    (fun i dst => forto c0 c1 (fun j dst => v <- f i j ;; off <- offset dl i j ;; bwrite dst off v) dst)
    r0 r1 d0 ltac:(lia)) as (d & E & W).
  - apply written_none. lia.
  - intros i d Hi W.
    destruct (forto_inv (fun j d' => written dl e (fun i' j' => i' = i /\ c0 <= j' < j) d d')
      (fun j dst => v <- f i j ;; off <- offset dl i j ;; bwrite dst off v) c0 c1 d ltac:(lia)) as (d' & E' & W').
    + apply written_none. lia.
    + intros j x Hj Wx. rewrite Hf by lia. cbn [bind]. rewrite offset_ok by (auto; lia). cbn [bind].
      pose proof (off_range dl i j L ltac:(lia) ltac:(lia)) as R.
      destruct W as (Wl & _). pose proof Wx as (Wxl & _).
      destruct (bwrite_ok x (off dl i j) (e i j)) as (y & Ey & Ly & Hy); [lia|].
      exists y. split; [exact Ey|].
      apply (written_trans dl e (fun i' j' => i' = i /\ c0 <= j' < j) (fun i' j' => i' = i /\ j' = j) _ d x y L).
      * exact Wx.
      * split; [auto|]. split.
        -- intros i' j' [-> ->]. rewrite Hy, Z.eqb_refl. reflexivity.
        -- intros z Hz. rewrite Hy. destruct (Z.eqb_spec z (off dl i j)) as [->|]; auto.
           destruct (Hz i j); auto.
      * intros. lia.
      * intros i' j' [-> X]. split; lia.
      * intros i' j' [-> ->]. split; lia.
      * intros i' j'. destruct (Z.eq_dec i' i); [destruct (Z.eq_dec j' j)|]; [left; auto|right; lia|right; lia].
    + exists d'. split; [exact E'|].
      apply (written_trans dl e _ _ _ _ _ _ L W W').
      * intros. lia.
      * intros i' j' [X Y]. split; lia.
      * intros i' j' [-> X]. split; lia.
      * intros i' j'. destruct (Z.eq_dec i' i); [|right; lia].
        destruct (rect_dec 0 1 c0 c1 0 j'); [left|right]; lia.
  - eauto.
Qed.

(** * Kernel::Run and RunKernel *)

Section RunKernel.
Variables (V : Type) (dbg : bool) (o : ops V) (ls rs : mat V) (lp rp : pmat V) (mp : mul_params V) (dst_zp : Z).
Variables (dl : mat_layout) (e : Z -> Z -> V) (lk rk : Z).
Hypotheses (PL : pmat_ok lp) (PR : pmat_ok rp).
Hypothesis Hdepth : pl_rows (p_layout rp) = pl_rows (p_layout lp).
Hypotheses (SL : p_zp rp <> 0 -> p_sums lp <> None) (SR : p_zp lp <> 0 -> p_sums rp <> None).
Hypotheses (DL : layout_ok dl) (Hlk : 0 < lk) (Hrk : 0 < rk).
Hypotheses (Hrows : ml_rows dl <= pl_cols (p_layout lp)) (Hcols : ml_cols dl <= pl_cols (p_layout rp)).
Hypotheses (Hrmax : ml_rows dl + lk <= int_max) (Hcmax : ml_cols dl + rk <= int_max).

Lemma kernel_run_ok : forall d0 sr sc er ec, flat dl <= blen d0 ->
  0 <= sr <= er -> sr <= ml_rows dl -> er <= ml_rows dl + lk ->
  0 <= sc <= ec -> sc <= ml_cols dl -> ec <= ml_cols dl + rk ->
  (forall i, sr <= i < er -> i < ml_rows dl -> col_done o Lhs ls lp i) ->
  (forall j, sc <= j < ec -> j < ml_cols dl -> col_done o Rhs rs rp j) ->
  (forall i j, sr <= i < er -> sc <= j < ec -> inside dl i j ->
     spec_entry o ls rs (p_zp lp) (p_zp rp) (pl_rows (p_layout lp)) mp dst_zp i j = Ok (e i j)) ->
  exists d, kernel_run dbg o lk rk lp rp mp sr sc er ec dl dst_zp d0 = Ok d /\
    written dl e (fun i j => sr <= i < er /\ sc <= j < ec /\ inside dl i j) d0 d.
Proof.
  intros d0 sr sc er ec B H1 H2 H3 H4 H5 H6 Dl Dr He.
  unfold kernel_run. rewrite !dcheck_ok by lia. cbn [bind].
  destruct (loop2d_ok (fun i j => kernel_entry dbg o lp rp mp dst_zp i j) dl e d0
      sr (Z.min er (ml_rows dl)) sc (Z.min ec (ml_cols dl)) DL B) as (d & E & W); try lia.
  - intros i j Hi Hj. rewrite (kernel_entry_ok V dbg o ls rs lp rp mp dst_zp PL PR Hdepth SL SR i j);
      [apply He; unfold inside; lia|lia|lia|apply Dl; lia|apply Dr; lia].
  - exists d. split; [exact E|]. eapply written_iff; [|exact W]. unfold inside. intros; lia.
Qed.

Lemma step_count : forall a b k, 0 < k -> a <= b -> (b - a) mod k = 0 ->
  (b - a + k - 1) / k = (b - a) / k /\ a + ((b - a) / k) * k = b.
Proof.
  intros a b k Hk Hab Hm. pose proof (Z.div_mod (b - a) k ltac:(lia)) as D. rewrite Hm in D.
  split; [|lia]. set (q := (b - a) / k) in *. replace (b - a + k - 1) with (q * k + (k - 1)) by lia.
  rewrite Z.div_add_l, Z.div_small by lia. lia.
Qed.

Lemma run_kernel_ok : forall fat d0 sr sc er ec, flat dl <= blen d0 ->
  0 <= sr <= er -> sr <= ml_rows dl -> er < ml_rows dl + lk -> (er - sr) mod lk = 0 ->
  0 <= sc <= ec -> sc <= ml_cols dl -> ec < ml_cols dl + rk -> (ec - sc) mod rk = 0 ->
  (forall i, sr <= i < er -> i < ml_rows dl -> col_done o Lhs ls lp i) ->
  (forall j, sc <= j < ec -> j < ml_cols dl -> col_done o Rhs rs rp j) ->
  (forall i j, sr <= i < er -> sc <= j < ec -> inside dl i j ->
     spec_entry o ls rs (p_zp lp) (p_zp rp) (pl_rows (p_layout lp)) mp dst_zp i j = Ok (e i j)) ->
  exists d, run_kernel dbg fat o lk rk lp rp mp sr sc er ec dl dst_zp d0 = Ok d /\
    written dl e (fun i j => sr <= i < er /\ sc <= j < ec /\ inside dl i j) d0 d.
Proof.
  intros fat d0 sr sc er ec B H1 H2 H3 Hmr H4 H5 H6 Hmc Dl Dr He.
  unfold run_kernel, run_kernel_by. cbv beta.
  rewrite (dcheck_ok dbg (Z.rem (er - sr) lk =? 0)) by (rewrite Z.rem_mod_nonneg by lia; lia).
  rewrite (dcheck_ok dbg (Z.rem (ec - sc) rk =? 0)) by (rewrite Z.rem_mod_nonneg by lia; lia).
  rewrite !dcheck_ok by lia. cbn [bind].
  destruct fat; [apply kernel_run_ok; auto; lia|].
  unfold forstep.
  destruct (step_count sr er lk Hlk ltac:(lia) Hmr) as [Nr Er]. destruct (step_count sc ec rk Hrk ltac:(lia) Hmc) as [Nc Ec].
  rewrite Nr, Nc. set (nr := (er - sr) / lk) in *. set (nc := (ec - sc) / rk) in *.
  assert (Hnr : 0 <= nr) by (apply Z.div_pos; lia). assert (Hnc : 0 <= nc) by (apply Z.div_pos; lia).
  clearbody nr nc. clear Nr Nc.
  match goal with |- exists y9, forto 0 nc ?f d0 = _ /\ _ =>
    destruct (forto_inv (fun t d => written dl e (fun i j => sr <= i < er /\ sc <= j < sc + t * rk /\ inside dl i j) d0 d)
      f 0 nc d0 Hnc) as (d & E & W) end.
  - apply written_none. lia.
  - intros t d Ht W. cbv beta.
    assert (Hcb : sc + t * rk + rk <= ec) by nia.
    assert (Hcb0 : 0 <= t * rk) by nia.
    rewrite i32_ok by (unfold int_min, int_max in *; lia). cbn [bind].
    replace (Z.min (sc + t * rk + rk) ec) with (sc + t * rk + rk) by lia.
    match goal with |- exists y9, forto 0 nr ?f d = _ /\ _ =>
      destruct (forto_inv (fun u d' => written dl e
          (fun i j => sr <= i < sr + u * lk /\ sc + t * rk <= j < sc + t * rk + rk /\ inside dl i j) d d')
        f 0 nr d Hnr) as (d' & E' & W') end.
    + apply written_none. lia.
    + intros u x Hu Wx. cbv beta.
      assert (Hrb : sr + u * lk + lk <= er) by nia.
      assert (Hrb0 : 0 <= u * lk) by nia.
      rewrite i32_ok by (unfold int_min, int_max in *; lia). cbn [bind].
      replace (Z.min (sr + u * lk + lk) er) with (sr + u * lk + lk) by lia.
      destruct W as (Wl & _). pose proof Wx as (Wxl & _).
      destruct (kernel_run_ok x (sr + u * lk) (sc + t * rk) (sr + u * lk + lk) (sc + t * rk + rk)) as (y & Ey & Wy);
        try lia.
      { intros i Hi. apply Dl. lia. } { intros j Hj. apply Dr. lia. }
      { intros i j Hi Hj. apply He; lia. }
      exists y. split; [exact Ey|].
      apply (written_trans dl e _ _ _ _ _ _ DL Wx Wy); unfold inside in *; try (intros; lia).
      intros i j. destruct (rect_dec (Z.max 0 (sr + u * lk)) (Z.min (ml_rows dl) (sr + u * lk + lk))
         (Z.max 0 (sc + t * rk)) (Z.min (ml_cols dl) (sc + t * rk + rk)) i j); [left; lia|right; lia].
    + exists d'. split; [exact E'|]. rewrite Er in W'.
      apply (written_trans dl e _ _ _ _ _ _ DL W W'); unfold inside in *; try (intros; lia).
      intros i j. destruct (rect_dec (Z.max 0 sr) (Z.min (ml_rows dl) er)
         (Z.max 0 (sc + t * rk)) (Z.min (ml_cols dl) (sc + t * rk + rk)) i j); [left; lia|right; lia].
  - rewrite Ec in W. eauto.
Qed.

(** Inversion: a kernel succeeds only if the entries it computes are defined. *)
Lemma kernel_run_inv : forall d0 d sr sc er ec, 0 <= sr -> 0 <= sc ->
  (forall i, sr <= i < er -> i < ml_rows dl -> col_done o Lhs ls lp i) ->
  (forall j, sc <= j < ec -> j < ml_cols dl -> col_done o Rhs rs rp j) ->
  kernel_run dbg o lk rk lp rp mp sr sc er ec dl dst_zp d0 = Ok d ->
  forall i j, sr <= i < er -> sc <= j < ec -> inside dl i j ->
    exists v, spec_entry o ls rs (p_zp lp) (p_zp rp) (pl_rows (p_layout lp)) mp dst_zp i j = Ok v.
Proof.
  intros d0 d sr sc er ec H1 H2 Dl Dr E i j Hi Hj [Ii Ij]. unfold kernel_run in E.
  repeat (match type of E with bind (dcheck ?a ?b) _ = _ => destruct (dcheck a b) end;
          [cbn [bind] in E|discriminate|discriminate]).
  destruct (forto_ok_body _ _ _ _ _ E i ltac:(lia)) as (x & y & Ei).
  destruct (forto_ok_body _ _ _ _ _ Ei j ltac:(lia)) as (x' & y' & Ej).
  apply bind_ok_pre in Ej. destruct Ej as [v Ev]. exists v.
  rewrite <- (kernel_entry_ok V dbg o ls rs lp rp mp dst_zp PL PR Hdepth SL SR i j);
    [exact Ev|lia|lia|apply Dl; lia|apply Dr; lia].
Qed.

Lemma run_kernel_inv : forall fat d0 d sr sc er ec,
  0 <= sr <= er -> er < ml_rows dl + lk -> (er - sr) mod lk = 0 ->
  0 <= sc <= ec -> ec < ml_cols dl + rk -> (ec - sc) mod rk = 0 ->
  (forall i, sr <= i < er -> i < ml_rows dl -> col_done o Lhs ls lp i) ->
  (forall j, sc <= j < ec -> j < ml_cols dl -> col_done o Rhs rs rp j) ->
  run_kernel dbg fat o lk rk lp rp mp sr sc er ec dl dst_zp d0 = Ok d ->
  forall i j, sr <= i < er -> sc <= j < ec -> inside dl i j ->
    exists v, spec_entry o ls rs (p_zp lp) (p_zp rp) (pl_rows (p_layout lp)) mp dst_zp i j = Ok v.
Proof.
  intros fat d0 d sr sc er ec H1 H3 Hmr H4 H6 Hmc Dl Dr E i j Hi Hj Hin. unfold run_kernel, run_kernel_by in E. cbv beta in E.
  repeat (match type of E with bind (dcheck ?a ?b) _ = _ => destruct (dcheck a b) end;
          [cbn [bind] in E|discriminate|discriminate]).
  destruct fat; [eapply kernel_run_inv; eauto; lia|].
  unfold forstep in E.
  destruct (step_count sr er lk Hlk ltac:(lia) Hmr) as [Nr Er]. destruct (step_count sc ec rk Hrk ltac:(lia) Hmc) as [Nc Ec].
  rewrite Nc in E. rewrite Nr in E.
  set (nr := (er - sr) / lk) in *. set (nc := (ec - sc) / rk) in *. clearbody nr nc.
  set (t := (j - sc) / rk). set (u := (i - sr) / lk).
  assert (Ht : t * rk <= j - sc < t * rk + rk).
  { unfold t. pose proof (Z.div_mod (j - sc) rk ltac:(lia)). pose proof (Z.mod_pos_bound (j - sc) rk ltac:(lia)). lia. }
  assert (Hu : u * lk <= i - sr < u * lk + lk).
  { unfold u. pose proof (Z.div_mod (i - sr) lk ltac:(lia)). pose proof (Z.mod_pos_bound (i - sr) lk ltac:(lia)). lia. }
  assert (Ht0 : 0 <= t < nc) by (split; [apply Z.div_pos; lia|clear - Ht Ec Hrk Hj; nia]).
  assert (Hu0 : 0 <= u < nr) by (split; [apply Z.div_pos; lia|clear - Hu Er Hlk Hi; nia]).
  clearbody t u.
  destruct (forto_ok_body _ _ _ _ _ E t Ht0) as (x & y & Et).
  assert (Hcb : sc + t * rk + rk <= ec) by nia.
  assert (Hrb : sr + u * lk + lk <= er) by nia.
  assert (0 <= t * rk) by nia. assert (0 <= u * lk) by nia.
  rewrite i32_ok in Et by (unfold int_min, int_max in *; lia). cbn [bind] in Et.
  replace (Z.min (sc + t * rk + rk) ec) with (sc + t * rk + rk) in Et by lia.
  destruct (forto_ok_body _ _ _ _ _ Et u Hu0) as (x' & y' & Eu).
  rewrite i32_ok in Eu by (unfold int_min, int_max in *; lia). cbn [bind] in Eu.
  replace (Z.min (sr + u * lk + lk) er) with (sr + u * lk + lk) in Eu by lia.
  eapply kernel_run_inv; [| | | |exact Eu| | |exact Hin]; try lia.
  - intros i' Hi'. apply Dl. lia.
  - intros j' Hj'. apply Dr. lia.
Qed.
End RunKernel.
