(** TrMul with any packing and kernel functions that do their part: whatever the schedule, every entry
    of the destination ends up as the kernel leaves it. Where RunFacts.v knows the value of each entry,
    here only a relation is known. *)
From Verif Require Import Base SidePair SizeUtil SizeUtilFacts BlockMap BlockMapFacts SpecBlockMap MakeBlockMapFacts
  ThreadCount BlockMapProps Mat MatFacts Scalars Pack PackFacts MulParams Kernel KernelFacts TrMul TrMulFacts
  TrMulMachine MachineIdsFacts MachinePackFacts MachineFacts MachineProgressFacts TrMulRun RunFacts.
From Coq Require Import Permutation.

(** The entries in [D] satisfy [P], the rest of the buffer is unchanged. *)
Definition computed {V} (dl : mat_layout) (P : Z -> Z -> V -> Prop) (D : Z -> Z -> Prop) (d0 d : buf V) : Prop :=
  blen d = blen d0 /\
  (forall i j, D i j -> P i j (bdat d (off dl i j))) /\
  (forall x, (forall i j, D i j -> x <> off dl i j) -> bdat d x = bdat d0 x).

Lemma computed_none : forall {V} dl (P : Z -> Z -> V -> Prop) (D : Z -> Z -> Prop) d,
  (forall i j, ~ D i j) -> computed dl P D d d.
Proof. intros V dl P D d H. repeat split; auto. intros i j X. destruct (H i j X). Qed.

Lemma computed_iff : forall {V} dl (P : Z -> Z -> V -> Prop) (D D' : Z -> Z -> Prop) d0 d,
  (forall i j, D i j <-> D' i j) -> computed dl P D d0 d -> computed dl P D' d0 d.
Proof.
  intros V dl P D D' d0 d H (A & B & C). repeat split; auto.
  - intros i j X. apply B, H, X.
  - intros x X. apply C. intros i j Y. apply X, H, Y.
Qed.

Lemma computed_trans : forall {V} dl (P : Z -> Z -> V -> Prop) (D1 D2 D : Z -> Z -> Prop) d0 d1 d2, layout_ok dl ->
  computed dl P D1 d0 d1 -> computed dl P D2 d1 d2 ->
  (forall i j, D i j <-> D1 i j \/ D2 i j) ->
  (forall i j, D1 i j -> inside dl i j) -> (forall i j, D2 i j -> inside dl i j) ->
  (forall i j, {D2 i j} + {~ D2 i j}) -> computed dl P D d0 d2.
Proof.
  intros V dl P D1 D2 D d0 d1 d2 L (A1 & B1 & C1) (A2 & B2 & C2) U I1 I2 Dec. split; [congruence|]. split.
  - intros i j X. destruct (Dec i j) as [Y|N]; [auto|]. apply U in X. destruct X as [X|X]; [|contradiction].
    rewrite C2; [auto|]. intros i' j' Y E. destruct (I1 i j X). destruct (I2 i' j' Y).
    apply off_inj in E; auto. destruct E as [-> ->]. contradiction.
  - intros x X. rewrite C2, C1; auto.
    + intros i j Y. apply X, U. auto.
    + intros i j Y. apply X, U. auto.
Qed.

Lemma part_dec : forall dl a b c d i j,
  {a <= i < b /\ c <= j < d /\ inside dl i j} + {~ (a <= i < b /\ c <= j < d /\ inside dl i j)}.
Proof.
  intros dl a b c d i j. unfold inside.
  destruct (rect_dec (Z.max 0 a) (Z.min (ml_rows dl) b) (Z.max 0 c) (Z.min (ml_cols dl) d) i j); [left; lia|right; lia].
Defined.

(** * RunKernel *)

Section RunKernelBy.
Variables (V : Type) (dbg : bool) (kernel : Z -> Z -> Z -> Z -> buf V -> res (buf V)) (lk rk : Z) (dl : mat_layout).
Variables (J : buf V -> Prop) (P : Z -> Z -> V -> Prop) (sr sc er ec : Z).
Hypotheses (DL : layout_ok dl) (Hlk : 0 < lk) (Hrk : 0 < rk).
Hypotheses (Hrmax : ml_rows dl + lk <= int_max) (Hcmax : ml_cols dl + rk <= int_max).
Hypotheses (Hr : 0 <= sr < er) (Hr' : er < ml_rows dl + lk) (Ar : sr mod lk = 0) (Ar' : er mod lk = 0).
Hypotheses (Hc : 0 <= sc < ec) (Hc' : ec < ml_cols dl + rk) (Ac : sc mod rk = 0) (Ac' : ec mod rk = 0).
(** The kernel works on whole blocks, and keeps the invariant [J] of the destination. *)
Hypothesis K : forall r0 c0 r1 c1 d, flat dl <= blen d -> J d -> sr <= r0 < r1 -> r1 <= er -> sc <= c0 < c1 -> c1 <= ec ->
  r0 mod lk = 0 -> r1 mod lk = 0 -> c0 mod rk = 0 -> c1 mod rk = 0 ->
  exists d', kernel r0 c0 r1 c1 d = Ok d' /\ J d' /\
    computed dl P (fun i j => r0 <= i < r1 /\ c0 <= j < c1 /\ inside dl i j) d d'.

Lemma aligned_step : forall a b k t, 0 < k -> a mod k = 0 -> b mod k = 0 -> (a + t * k) mod k = 0 /\ (a + t * k + k) mod k = 0.
Proof.
  intros a b k t Hk Ha Hb. split.
  - rewrite Z.mod_add by lia. exact Ha.
  - replace (a + t * k + k) with (a + (t + 1) * k) by ring. rewrite Z.mod_add by lia. exact Ha.
Qed.

Lemma run_kernel_by_keeps : forall fat d0, flat dl <= blen d0 -> J d0 ->
  exists d, run_kernel_by dbg fat kernel lk rk sr sc er ec dl d0 = Ok d /\ J d /\
    computed dl P (fun i j => sr <= i < er /\ sc <= j < ec /\ inside dl i j) d0 d.
Proof.
  intros fat d0 B J0. unfold run_kernel_by.
  assert (Mr : (er - sr) mod lk = 0) by (rewrite Zminus_mod, Ar, Ar'; apply Z.mod_0_l; lia).
  assert (Mc : (ec - sc) mod rk = 0) by (rewrite Zminus_mod, Ac, Ac'; apply Z.mod_0_l; lia).
  rewrite (dcheck_ok dbg (Z.rem (er - sr) lk =? 0)) by (rewrite Z.rem_mod_nonneg by lia; lia).
  rewrite (dcheck_ok dbg (Z.rem (ec - sc) rk =? 0)) by (rewrite Z.rem_mod_nonneg by lia; lia).
  rewrite !dcheck_ok by lia. cbn [bind].
  destruct fat; [apply K; auto; lia|].
  unfold forstep.
  destruct (step_count Z (fun _ _ => 0) sr er lk Hlk ltac:(lia) Mr) as [Nr Er]. destruct (step_count Z (fun _ _ => 0) sc ec rk Hrk ltac:(lia) Mc) as [Nc Ec].
  rewrite Nr, Nc. set (nr := (er - sr) / lk) in *. set (nc := (ec - sc) / rk) in *.
  assert (Hnr : 0 <= nr) by (apply Z.div_pos; lia). assert (Hnc : 0 <= nc) by (apply Z.div_pos; lia).
  clearbody nr nc. clear Nr Nc.
  match goal with |- exists y9, forto 0 nc ?f d0 = _ /\ _ =>
    destruct (forto_inv (fun t d => J d /\ computed dl P (fun i j => sr <= i < er /\ sc <= j < sc + t * rk /\ inside dl i j) d0 d)
      f 0 nc d0 Hnc) as (d & E & Jn & W) end.
  - split; [exact J0|]. apply computed_none. lia.
  - intros t d Ht (Jd & W). cbv beta.
    assert (Hcb : sc + t * rk + rk <= ec) by (clear - Ht Ec Hrk; nia).
    assert (Hcb0 : 0 <= t * rk) by (clear - Ht Hrk; nia).
    destruct (aligned_step sc ec rk t Hrk Ac Ac') as [At0 At1].
    rewrite i32_ok by (unfold int_min, int_max in *; lia). cbn [bind].
    replace (Z.min (sc + t * rk + rk) ec) with (sc + t * rk + rk) by lia.
    match goal with |- exists y9, forto 0 nr ?f d = _ /\ _ =>
      destruct (forto_inv (fun u d' => J d' /\ computed dl P
          (fun i j => sr <= i < sr + u * lk /\ sc + t * rk <= j < sc + t * rk + rk /\ inside dl i j) d d')
        f 0 nr d Hnr) as (d' & E' & Jd' & W') end.
    + split; [exact Jd|]. apply computed_none. lia.
    + intros u x Hu (Jx & Wx). cbv beta.
      assert (Hrb : sr + u * lk + lk <= er) by (clear - Hu Er Hlk; nia).
      assert (Hrb0 : 0 <= u * lk) by (clear - Hu Hlk; nia).
      destruct (aligned_step sr er lk u Hlk Ar Ar') as [Au0 Au1].
      rewrite i32_ok by (unfold int_min, int_max in *; lia). cbn [bind].
      replace (Z.min (sr + u * lk + lk) er) with (sr + u * lk + lk) by lia.
      destruct W as (Wl & _). pose proof Wx as (Wxl & _).
      destruct (K (sr + u * lk) (sc + t * rk) (sr + u * lk + lk) (sc + t * rk + rk) x) as (y & Ey & Jy & Wy); try assumption.
      { rewrite Wxl, Wl. exact B. } { clear - Hrb0 Hlk. lia. } { clear - Hcb0 Hrk. lia. }
      exists y. split; [exact Ey|]. split; [exact Jy|].
      apply (computed_trans dl P _ _ _ _ _ _ DL Wx Wy).
      * clear - Hrb0 Hlk. intros i j. unfold inside. lia.
      * intros i j (_ & _ & I). exact I.
      * intros i j (_ & _ & I). exact I.
      * intros i j. apply part_dec.
    + exists d'. split; [exact E'|]. split; [exact Jd'|]. rewrite Er in W'.
      apply (computed_trans dl P _ _ _ _ _ _ DL W W').
      * clear - Hcb0 Hrk. intros i j. unfold inside. lia.
      * intros i j (_ & _ & I). exact I.
      * intros i j (_ & _ & I). exact I.
      * intros i j. apply part_dec.
  - rewrite Ec in W. eauto.
Qed.
End RunKernelBy.

Lemma run_kernel_by_ok : forall (V : Type) (dbg : bool) (kernel : Z -> Z -> Z -> Z -> buf V -> res (buf V)) (lk rk : Z) (dl : mat_layout)
    (P : Z -> Z -> V -> Prop) (sr sc er ec : Z), layout_ok dl -> 0 < lk -> 0 < rk ->
  ml_rows dl + lk <= int_max -> ml_cols dl + rk <= int_max ->
  0 <= sr < er -> er < ml_rows dl + lk -> sr mod lk = 0 -> er mod lk = 0 ->
  0 <= sc < ec -> ec < ml_cols dl + rk -> sc mod rk = 0 -> ec mod rk = 0 ->
  (forall r0 c0 r1 c1 d, flat dl <= blen d -> sr <= r0 < r1 -> r1 <= er -> sc <= c0 < c1 -> c1 <= ec ->
    r0 mod lk = 0 -> r1 mod lk = 0 -> c0 mod rk = 0 -> c1 mod rk = 0 ->
    exists d', kernel r0 c0 r1 c1 d = Ok d' /\
      computed dl P (fun i j => r0 <= i < r1 /\ c0 <= j < c1 /\ inside dl i j) d d') ->
  forall fat d0, flat dl <= blen d0 ->
  exists d, run_kernel_by dbg fat kernel lk rk sr sc er ec dl d0 = Ok d /\
    computed dl P (fun i j => sr <= i < er /\ sc <= j < ec /\ inside dl i j) d0 d.
Proof.
  intros V dbg kernel lk rk dl P sr sc er ec H1 H2 H3 H4 H5 H6 H7 H8 H9 H10 H11 H12 H13 K fat d0 B.
  destruct (run_kernel_by_keeps V dbg kernel lk rk dl (fun _ => True) P sr sc er ec H1 H2 H3 H4 H5 H6 H7 H8 H9 H10 H11 H12 H13) with (fat := fat) (d0 := d0)
    as (d & E & _ & W); [|exact B|exact I|exists d; auto].
  intros r0 c0 r1 c1 d Hd _ A1 A2 A3 A4 A5 A6 A7 A8. destruct (K r0 c0 r1 c1 d) as (d' & E & W); auto. exists d'. auto.
Qed.

(** * TrMul *)

Section RunBy.
Variables (V : Type) (t : tparams V).
Variables (pk : side -> Z -> Z -> tmem V -> res (tmem V)) (kr : sp Z -> sp Z -> tmem V -> res (tmem V)).
(** Invariant of the memory; column [c] of side [s] is packed; what is stored in entry (i, j). *)
Variables (MO : tmem V -> Prop) (PC : tmem V -> side -> Z -> Prop) (P : Z -> Z -> V -> Prop).
Let dl := tp_dst_layout t.
Let src s := get s (tp_src t).
Let plt s := get s (tp_packed_layout t).
Let kl s := get s (tp_kl t).

Hypothesis T : tparams_ok t.
Hypothesis Hpk : forall s a b m, MO m -> 0 <= a < b -> b <= pl_cols (plt s) ->
  a mod kl_cols (kl s) = 0 -> b mod kl_cols (kl s) = 0 ->
  exists m', pk s a b m = Ok m' /\ MO m' /\ (forall c, a <= c < b -> PC m' s c) /\
    (forall s' c, 0 <= c < pl_cols (plt s') -> (s' <> s \/ ~ (a <= c < b)) -> PC m s' c -> PC m' s' c) /\
    tm_dst m' = tm_dst m.
Hypothesis Hkr : forall st en m, MO m ->
  (forall s, 0 <= get s st < get s en) -> (forall s, get s en <= pl_cols (plt s)) ->
  (forall s, get s st mod kl_cols (kl s) = 0) -> (forall s, get s en mod kl_cols (kl s) = 0) ->
  (forall s c, get s st <= c < get s en -> PC m s c) ->
  exists m', kr st en m = Ok m' /\ MO m' /\ (forall s c, PC m s c -> PC m' s c) /\
    computed dl P (fun i j => lhs st <= i < lhs en /\ rhs st <= j < rhs en /\ inside dl i j) (tm_dst m) (tm_dst m').

Lemma dims_cover : ml_rows dl <= pl_cols (plt Lhs) /\ ml_cols dl <= pl_cols (plt Rhs).
Proof.
  pose proof (to_cols V t T Lhs) as Cl. pose proof (to_cols V t T Rhs) as Cr.
  pose proof (to_drows V t T) as Dr. pose proof (to_dcols V t T) as Dc. cbv beta in *. unfold dl, plt. rewrite Dr, Dc. lia.
Qed.

Lemma simple_by_ok : forall prepacked m, (forall s, 0 < pl_cols (plt s)) -> MO m ->
  (forall s c, get s prepacked = true -> 0 <= c < pl_cols (plt s) -> PC m s c) ->
  exists m', simple_loop_by pk kr prepacked t m = Ok m' /\ MO m' /\
    (forall s c, 0 <= c < pl_cols (plt s) -> PC m' s c) /\
    computed dl P (inside dl) (tm_dst m) (tm_dst m').
Proof.
  intros prepacked m Pos MM PP. unfold simple_loop_by.
  assert (Al : forall s, pl_cols (plt s) mod kl_cols (kl s) = 0).
  { intros s. unfold kl. rewrite <- (to_kernel V t T). apply (po_cols_al _ (to_pl V t T s)). }
  assert (Step : forall s m0, MO m0 -> (get s prepacked = true -> forall c, 0 <= c < pl_cols (plt s) -> PC m0 s c) ->
     exists m', (if get s prepacked then Ok m0 else pk s 0 (pl_cols (plt s)) m0) = Ok m' /\ MO m' /\
        (forall c, 0 <= c < pl_cols (plt s) -> PC m' s c) /\
        (forall s' c, 0 <= c < pl_cols (plt s') -> s' <> s -> PC m0 s' c -> PC m' s' c) /\ tm_dst m' = tm_dst m0).
  { intros s m0 M0 P0. destruct (get s prepacked) eqn:Ep.
    - exists m0. split; [reflexivity|]. split; [exact M0|]. split; [auto|]. split; auto.
    - destruct (Hpk s 0 (pl_cols (plt s)) m0 M0) as (m' & E & M' & P' & K' & D'); auto.
      + pose proof (Pos s). lia.
      + lia.
      + exists m'. split; [exact E|]. split; [exact M'|]. split; [exact P'|]. split; auto. }
  change (lhs prepacked) with (get Lhs prepacked). change (rhs prepacked) with (get Rhs prepacked).
  cbn [lhs rhs]. change (lhs (tp_packed_layout t)) with (plt Lhs). change (rhs (tp_packed_layout t)) with (plt Rhs).
  destruct (Step Lhs m MM) as (m1 & E1 & M1 & P1 & K1 & D1).
  { intros H c Hc. apply PP; auto. }
  rewrite E1. cbn [bind].
  destruct (Step Rhs m1 M1) as (m2 & E2 & M2 & P2 & K2 & D2).
  { intros H c Hc. apply K1; [exact Hc|discriminate|]. apply PP; auto. }
  rewrite E2. cbn [bind].
  assert (PK : forall s c, 0 <= c < pl_cols (plt s) -> PC m2 s c).
  { intros [] c Hc; [|auto]. apply K2; [exact Hc|discriminate|]. apply P1. auto. }
  destruct (Hkr (mk_sp 0 0) (mk_sp (pl_cols (plt Lhs)) (pl_cols (plt Rhs))) m2 M2) as (m3 & E3 & M3 & K3 & W).
  - intros []; cbn [get lhs rhs]; split; auto; lia.
  - intros []; cbn [get lhs rhs]; lia.
  - intros []; cbn [get lhs rhs]; apply Zmod_0_l.
  - intros []; cbn [get lhs rhs]; auto.
  - intros [] c Hc; cbn [get lhs rhs] in Hc; apply PK; auto.
  - exists m3. split; [exact E3|]. split; [exact M3|]. split; [intros s c Hc; apply K3; auto|].
    rewrite <- D1, <- D2. cbn [lhs rhs] in W. eapply computed_iff; [|exact W]. unfold inside. intros i j.
    destruct dims_cover as [Cl Cr]. lia.
Qed.

Section Machine.
Variables (dbg ahead : bool) (bm : block_map) (prepacked : sp bool).
Hypothesis W : bm_wf bm.
Hypothesis Hdims : forall s, get s (bm_dims bm) = pl_cols (plt s).
Hypothesis Hker : forall s, get s (bm_kernel bm) = kl_cols (kl s).
Variable d0 : buf V.

Definition cols_packed (m : tmem V) (sd : side) (b : Z) : Prop :=
  forall c, block_start sd bm b <= c < block_start sd bm (b + 1) -> PC m sd c.
Let in_blk := in_blk bm.

Record blocks_run (ids : list Z) (m : tmem V) : Prop := {
  rb_computed : computed dl P (fun i j => inside dl i j /\ exists id, In id ids /\ in_blk id i j) d0 (tm_dst m);
  rb_packed : forall id sd, In id ids -> cols_packed m sd (get sd (block_of_index bm id))
}.

Lemma start_strict : forall sd b, 0 <= b < nb bm sd -> block_start sd bm b < block_start sd bm (b + 1).
Proof.
  intros sd b Hb. unfold nb in Hb. pose proof (block_start_mono bm sd b (b + 1) W ltac:(lia)) as M1.
  pose proof (wf_small_pos _ W sd). lia.
Qed.

Lemma Hpack_by : forall sd b m, get sd prepacked = false -> 0 <= b < nb bm sd -> MO m ->
  (exists m', pk sd (block_start sd bm b) (block_start sd bm (b + 1)) m = Ok m' /\ MO m' /\
    cols_packed m' sd b /\
    (forall sd' b', (sd', b') <> (sd, b) -> 0 <= b' < nb bm sd' -> cols_packed m sd' b' -> cols_packed m' sd' b') /\
    (forall ids, (forall x, In x ids -> 0 <= x < NB bm) -> blocks_run ids m -> blocks_run ids m')) \/
  (~ True /\ forall m', pk sd (block_start sd bm b) (block_start sd bm (b + 1)) m <> Ok m').
Proof.
  intros sd b m Hp Hb MM. left. destruct (start_bounds V t bm T W Hdims Hker sd b Hb) as (B1 & B2 & B3).
  destruct (Hpk sd _ _ m MM (conj (proj1 B1) (start_strict sd b Hb)) B2 (start_aligned V t bm W Hker sd b) (start_aligned V t bm W Hker sd (b + 1)))
    as (m' & E & M' & P' & K' & D').
  exists m'. split; [exact E|]. split; [exact M'|].
  assert (PB : cols_packed m' sd b) by (intros c Hc; apply P'; exact Hc).
  assert (PO : forall sd' b', (sd', b') <> (sd, b) -> 0 <= b' < nb bm sd' -> cols_packed m sd' b' -> cols_packed m' sd' b').
  { intros sd' b' N Hb' Q c Hc. pose proof (Q c Hc) as Q1.
    destruct (start_bounds V t bm T W Hdims Hker sd' b' Hb') as (B1' & B2' & _). apply K'; [fold (plt sd') in B2'; lia| |exact Q1].
    destruct (side_eq_dec sd' sd) as [->|N']; [|auto]. right. intros Hc'.
    apply N. f_equal. eapply block_start_disjoint; [exact W| | |exact Hc|exact Hc']; unfold nb in *; lia. }
  split; [exact PB|]. split; [exact PO|].
  intros ids Hids [R1 R3]. constructor.
  - rewrite D'. exact R1.
  - intros id sd' Hin. specialize (R3 id sd' Hin).
    assert (R : 0 <= get sd' (block_of_index bm id) < nb bm sd') by (apply block_range; auto).
    destruct (side_eq_dec sd' sd) as [->|N'].
    + destruct (Z.eq_dec (get sd (block_of_index bm id)) b) as [->|N2]; [exact PB|].
      apply PO; auto. congruence.
    + apply PO; auto. congruence.
Qed.

Lemma Hkernel_by : forall id m, 0 <= id < NB bm -> MO m ->
  (forall sd, cols_packed m sd (get sd (block_of_index bm id))) ->
  (exists m', kr (starts bm id) (ends bm id) m = Ok m' /\ MO m' /\
    (forall sd b, cols_packed m sd b -> cols_packed m' sd b) /\
    (forall ids, (forall x, In x ids -> 0 <= x < NB bm) -> blocks_run ids m -> blocks_run (id :: ids) m')) \/
  (~ True /\ forall m', kr (starts bm id) (ends bm id) m <> Ok m').
Proof.
  intros id m Hid MM PK. left.
  assert (BB : forall s, 0 <= get s (block_of_index bm id) < nb bm s) by (intros s; apply block_range; auto).
  destruct (Hkr (starts bm id) (ends bm id) m MM) as (m' & E & M' & EP & WR).
  - intros s. rewrite get_starts, get_ends. pose proof (start_bounds V t bm T W Hdims Hker s _ (BB s)).
    pose proof (start_strict s _ (BB s)). lia.
  - intros s. rewrite get_ends. apply (start_bounds V t bm T W Hdims Hker s _ (BB s)).
  - intros s. rewrite get_starts. apply (start_aligned V t bm W Hker).
  - intros s. rewrite get_ends. apply (start_aligned V t bm W Hker).
  - intros s c. rewrite get_starts, get_ends. intros Hc. apply (PK s c Hc).
  - exists m'. split; [exact E|]. split; [exact M'|].
    assert (KP : forall sd b, cols_packed m sd b -> cols_packed m' sd b).
    { intros sd b Q c Hc. apply EP, Q, Hc. }
    split; [exact KP|]. intros ids Hids [R1 R3]. constructor.
    + eapply computed_trans; [apply (to_dst V t T)|exact R1|exact WR| | | |].
      * intros i j. cbn [In]. unfold in_blk, RunFacts.in_blk. split.
        -- intros (I & x & [<-|Hx] & B); [right; tauto|left; split; eauto].
        -- intros [(I & x & Hx & B)|(B1 & B2 & I)]; (split; [exact I|]); [exists x; auto|exists id; auto].
      * intros i j (I & _). exact I.
      * intros i j (_ & _ & I). exact I.
      * intros i j. destruct (in_blk_dec V t bm id i j) as [[[A1 A2] B]|N]; [left; fold dl in B; tauto|right].
        intros (A1 & A2 & B). apply N. split; [split; auto|exact B].
    + intros x sd [<-|Hx]; apply KP; auto.
Qed.

Hypothesis HT : 1 <= threads bm <= NB bm.

Definition binv := inv (tmem V) bm prepacked MO cols_packed blocks_run.
Definition bexec := exec pk kr dbg ahead bm prepacked.

Lemma binv_init : forall m, MO m -> (forall s c, get s prepacked = true -> 0 <= c < pl_cols (plt s) -> PC m s c) ->
  tm_dst m = d0 -> binv (init bm m).
Proof.
  intros m MM PP E. apply inv_init; auto.
  - constructor; try (intros; contradiction). rewrite E. apply computed_none. intros i j (_ & x & [] & _).
  - intros sd b Hp Hb c Hc. destruct (start_bounds V t bm T W Hdims Hker sd b Hb) as (B1 & B2 & _).
    apply PP; auto. fold (plt sd) in B2. lia.
Qed.

Lemma bexec_ok : forall sched s, binv s -> exists s', bexec sched s = Ok s' /\ binv s'.
Proof. apply exec_ok with (TOT := True); auto using Hpack_by, Hkernel_by. Qed.

Lemma bstep_ok : forall i stale s, binv s -> exists s', step pk kr dbg ahead bm prepacked i stale s = Ok s' /\ binv s'.
Proof. apply step_total with (TOT := True); auto using Hpack_by, Hkernel_by. Qed.

Lemma fair_finishes_by : forall m sg N0, MO m -> (forall s c, get s prepacked = true -> 0 <= c < pl_cols (plt s) -> PC m s c) -> tm_dst m = d0 ->
  (forall i n, 0 <= i < threads bm -> exists k, (n <= k)%nat /\ fst (sg k) = i) ->
  (forall n, (N0 <= n)%nat -> snd (sg n) = false) ->
  exists n s, bexec (map sg (seq 0 n)) (init bm m) = Ok s /\ all_done bm s = true.
Proof.
  intros m sg N0 MM PP E FA VI. pose proof (binv_init m MM PP E) as I0.
  destruct (fair_terminates (tmem V) pk kr dbg ahead bm prepacked MO cols_packed blocks_run bstep_ok sg (init bm m) I0 FA N0 VI) as (n & Hn).
  eexists n, _. split; [|exact Hn].
  apply (st_exec (tmem V) pk kr dbg ahead bm prepacked MO cols_packed blocks_run bstep_ok sg (init bm m) I0).
Qed.
Hypothesis Pos : forall sd, 0 < pl_cols (plt sd).

Lemma binv_final : forall s, binv s -> all_done bm s = true ->
  MO (s_mem s) /\ (forall sd c, 0 <= c < pl_cols (plt sd) -> PC (s_mem s) sd c) /\ computed dl P (inside dl) d0 (tm_dst (s_mem s)).
Proof.
  intros s I D.
  pose proof (final_ok _ bm prepacked _ _ _ HT s I D) as PM.
  destruct (iv_kr _ _ _ _ _ _ _ I) as [R1 R3].
  assert (IN : forall id, 0 <= id < NB bm -> In id (map snd (s_ran s))).
  { intros id Hid. apply Permutation_in with (l := zrange 0 (NB bm)); [symmetry; exact PM|]. apply zrange_In. auto. }
  destruct dims_cover as [Cl Cr].
  split; [apply (iv_mem _ _ _ _ _ _ _ I)|]. split.
  - intros sd c Hc.
    assert (X : exists id, 0 <= id < NB bm /\ block_start sd bm (get sd (block_of_index bm id)) <= c <
                block_start sd bm (get sd (block_of_index bm id) + 1)).
    { destruct sd.
      - destruct (in_some_block V t bm W Hdims c 0 Hc (conj (Z.le_refl 0) (Pos Rhs))) as (id & Hid & [B _]). exists id. split; auto.
      - destruct (in_some_block V t bm W Hdims 0 c (conj (Z.le_refl 0) (Pos Lhs)) Hc) as (id & Hid & [_ B]). exists id. split; auto. }
    destruct X as (id & Hid & B). apply (R3 id sd (IN id Hid) c B).
  - eapply computed_iff; [|exact R1]. intros i j. split; [tauto|]. intros [Hi Hj]. split; [split; auto|].
    destruct (in_some_block V t bm W Hdims i j) as (id & Hid & B).
    + split; [apply Hi|apply Z.lt_le_trans with (1 := proj2 Hi); exact Cl].
    + split; [apply Hj|apply Z.lt_le_trans with (1 := proj2 Hj); exact Cr].
    + exists id. split; auto.
Qed.
End Machine.

Variables (c : config) (prepacked : sp bool).
Hypothesis D : trmul_domain c t.

Lemma trmul_by_ok : forall sched m, MO m -> (forall s x, get s prepacked = true -> 0 <= x < pl_cols (plt s) -> PC m s x) ->
  exists out, trmul_by pk kr c t prepacked sched m = Ok out /\
    forall m', out = Some m' -> MO m' /\ (forall s x, 0 <= x < pl_cols (plt s) -> PC m' s x) /\ computed dl P (inside dl) (tm_dst m) (tm_dst m').
Proof.
  intros sched m MM PP. unfold trmul_by.
  destruct (decision_ok V c t T D) as (n & En & Hn & b & Eb). rewrite En. cbn [bind]. rewrite Eb. cbn [bind].
  pose proof (packed_pos V c t D) as Pos.
  destruct b.
  - destruct (simple_by_ok prepacked m Pos MM PP) as (m1 & E1 & M1 & P1 & W1).
    rewrite E1. cbn [bind]. eexists. split; [reflexivity|]. intros m' Em. injection Em as <-. auto.
  - destruct (block_map_ok V c t D n Hn) as (bm & Ebm & W & Hd & Hk & HT & _). rewrite Ebm. cbn [bind].
    pose proof (binv_init bm prepacked W Hd Hk (tm_dst m) HT m MM PP eq_refl) as I0.
    destruct (bexec_ok (c_dbg c) (c_ahead c) bm prepacked W Hd Hk (tm_dst m) HT sched _ I0) as (s & Es & I).
    unfold bexec in Es. rewrite Es. cbn [bind]. eexists. split; [reflexivity|]. intros m' Em.
    destruct (all_done bm s) eqn:Ed; [|discriminate]. injection Em as <-.
    apply (binv_final bm prepacked W Hd (tm_dst m) HT Pos s I Ed).
Qed.

Lemma trmul_by_fair : forall sg N0 m, MO m -> (forall s x, get s prepacked = true -> 0 <= x < pl_cols (plt s) -> PC m s x) ->
  (forall i n, 0 <= i < c_max_threads c -> exists k, (n <= k)%nat /\ fst (sg k) = i) ->
  (forall n, (N0 <= n)%nat -> snd (sg n) = false) ->
  exists n m', trmul_by pk kr c t prepacked (map sg (seq 0 n)) m = Ok (Some m').
Proof.
  intros sg N0 m MM PP FA VI. unfold trmul_by.
  destruct (decision_ok V c t T D) as (n & En & Hn & b & Eb). rewrite En. cbn [bind]. rewrite Eb. cbn [bind].
  destruct b.
  - destruct (simple_by_ok prepacked m (packed_pos V c t D) MM PP) as (m1 & E1 & _).
    exists O. rewrite E1. cbn [bind]. eauto.
  - destruct (block_map_ok V c t D n Hn) as (bm & Ebm & W & Hd & Hk & HT & HTn). rewrite Ebm. cbn [bind].
    destruct (fair_finishes_by (c_dbg c) (c_ahead c) bm prepacked W Hd Hk (tm_dst m) HT m sg N0 MM PP eq_refl) as (k & s & Es & Ed); auto.
    { intros i j Hi. apply FA. lia. }
    exists k. unfold bexec in Es. rewrite Es. cbn [bind]. rewrite Ed. eauto.
Qed.
End RunBy.
