(** Cache sizes: proofs. *)
From Verif Require Import Base BlockMap CpuInfo SpecCpu.

Lemma get_processor_nth : forall ps i, 0 <= i -> get_processor ps i = nth_error ps (Z.to_nat i).
Proof.
  intros ps i Hi. unfold get_processor. destruct (0 <=? i) eqn:E; [|lia]. cbn [andb].
  destruct (i <? Z.of_nat (length ps)) eqn:F; [reflexivity|]. symmetry. apply nth_error_None. lia.
Qed.

Lemma outermost_cons : forall c l, outermost (c :: l) = match outermost l with Some n => Some n | None => Some (cd_size c) end.
Proof. intros c l. unfold outermost. cbn [rev]. destruct (rev l); reflexivity. Qed.

Definition present (cs : list (option cache_desc)) : list cache_desc :=
  flat_map (fun c => match c with Some c => [c] | None => [] end) cs.
Definition or_else (o : option Z) (n : Z) : Z := match o with Some m => m | None => n end.

Lemma scan_caches_ok : forall ps cs a b, (forall c, In c (present cs) -> valid_cache c) ->
  scan_caches ps cs (a, b) = (or_else (outermost (filter (private ps) (present cs))) a, or_else (outermost (filter (known ps) (present cs))) b).
Proof.
  intros ps cs. induction cs as [|[c|] cs IH]; intros a b V; [reflexivity| |].
  2:{ cbn [scan_caches]. apply IH. exact V. }
  cbn [scan_caches]. cbn [present flat_map app] in *. fold (present cs) in *.
  destruct (V c (or_introl eq_refl)) as (S & B & N & E).
  assert (V' : forall d, In d (present cs) -> valid_cache d) by (intros d Hd; apply V; right; exact Hd).
  cbn [filter]. unfold known at 1, private at 1, processors_of.
  destruct (cd_count c =? 0) eqn:Z0.
  - destruct (0 <? cd_count c) eqn:Z1; [lia|]. rewrite IH by exact V'.
    destruct (nth_error ps (Z.to_nat (cd_start c))); [destruct (nth_error ps (Z.to_nat (cd_start c + cd_count c - 1)))|]; reflexivity.
  - destruct (0 <? cd_count c) eqn:Z1; [|lia].
    assert (W : wrap_u 32 (cd_start c + cd_count c - 1) = cd_start c + cd_count c - 1) by (unfold wrap_u; apply Z.mod_small; lia).
    rewrite W, !get_processor_nth by lia.
    destruct (nth_error ps (Z.to_nat (cd_start c))) as [p|]; [|apply IH; exact V'].
    destruct (nth_error ps (Z.to_nat (cd_start c + cd_count c - 1))) as [q|]; [|apply IH; exact V'].
    assert (WS : wrap_s 32 (cd_size c) = cd_size c).
    { unfold wrap_s. change (2 ^ (32 - 1)) with 2147483648. change (2 ^ 32) with 4294967296. unfold int_max in S. rewrite Z.mod_small; lia. }
    cbn zeta. rewrite WS, IH by exact V'. cbn [fst]. rewrite outermost_cons.
    destruct (pr_core p =? pr_core q) eqn:C; [rewrite outermost_cons|]; unfold or_else; f_equal;
      try (destruct (outermost (filter (private ps) (present cs))); reflexivity);
      destruct (outermost (filter (known ps) (present cs))); reflexivity.
Qed.

Lemma outermost_in : forall l n, outermost l = Some n -> exists c, In c l /\ cd_size c = n.
Proof.
  intros l n H. unfold outermost in H. destruct (rev l) as [|c r] eqn:E; [discriminate|]. injection H as <-.
  exists c. split; [|reflexivity]. apply in_rev. rewrite E. left. reflexivity.
Qed.

Lemma private_known : forall ps c, private ps c = true -> known ps c = true.
Proof. intros ps c H. unfold private, known in *. destruct (processors_of ps c); [reflexivity|discriminate]. Qed.

Lemma growing_outermost : forall l n c, growing l -> outermost l = Some n -> In c l -> cd_size c <= n.
Proof.
  induction l as [|d l IH]; intros n c G O I; [destruct I|].
  rewrite outermost_cons in O. destruct l as [|e l].
  - cbn in O. injection O as <-. destruct I as [<-|[]]. lia.
  - destruct G as [G1 G2]. destruct (outermost (e :: l)) as [m|] eqn:E.
    + injection O as <-. destruct I as [<-|I].
      * specialize (IH m e G2 eq_refl (or_introl eq_refl)). lia.
      * apply IH; auto.
    + exfalso. rewrite outermost_cons in E. destruct (outermost l); discriminate.
Qed.

Lemma outermost_none : forall l, outermost l = None -> l = [].
Proof. intros [|c l] H; [reflexivity|]. rewrite outermost_cons in H. destruct (outermost l); discriminate. Qed.

Section Machine.
Variable dbg : bool.
Variable all : list processor.
Hypothesis V : valid_processors all.

Lemma size_bounds : forall p n, In p all -> last_level all p = Some n \/ local_cache all p = Some n -> 0 < n <= int_max.
Proof.
  intros p n Hp H.
  assert (B : forall f, outermost (filter f (caches p)) = Some n -> 0 < n <= int_max).
  { intros f E. destruct (outermost_in _ _ E) as (c & I & <-). apply filter_In in I. apply (vp_caches all V p c Hp (proj1 I)). }
  unfold local_cache, last_level in H. destruct H as [H|H]; [apply (B _ H)|].
  destruct (outermost (filter (private all) (caches p))) eqn:E; [apply (B (private all)); congruence|apply (B _ H)].
Qed.

Lemma local_last : forall p n m, In p all -> last_level all p = Some n -> local_cache all p = Some m -> m <= n.
Proof.
  intros p n m Hp L C. unfold local_cache in C. destruct (outermost (filter (private all) (caches p))) as [k|] eqn:E.
  - injection C as <-. destruct (outermost_in _ _ E) as (c & I & <-). apply filter_In in I.
    apply (growing_outermost _ n c (vp_growing all V p Hp) L). apply filter_In. split; [tauto|apply private_known; tauto].
  - assert (n = m) by congruence. lia.
Qed.

Lemma local_some : forall p n, last_level all p = Some n -> exists m, local_cache all p = Some m.
Proof. intros p n H. unfold local_cache. destruct (outermost _); [eauto|]. rewrite H. eauto. Qed.

Lemma local_none : forall p, last_level all p = None -> local_cache all p = None.
Proof.
  intros p H. unfold local_cache. destruct (outermost (filter (private all) (caches p))) as [n|] eqn:E; [|exact H].
  destruct (outermost_in _ _ E) as (c & I & _). apply filter_In in I. unfold last_level in H. apply outermost_none in H.
  exfalso. assert (J : In c (filter (known all) (caches p))) by (apply filter_In; split; [tauto|apply private_known; tauto]).
  rewrite H in J. destruct J.
Qed.

Lemma processor_sizes_ok : forall p, In p all ->
  processor_sizes dbg all p = Ok (match local_cache all p, last_level all p with Some m, Some n => Some (m, n) | _, _ => None end).
Proof.
  intros p Hp. unfold processor_sizes. rewrite scan_caches_ok.
  2:{ intros c Hc. apply (vp_caches all V p c Hp Hc). }
  change (present [pr_l1d p; pr_l2 p; pr_l3 p]) with (caches p).
  fold (last_level all p).
  destruct (last_level all p) as [n|] eqn:L.
  - destruct (local_some p n L) as [m C]. rewrite C.
    pose proof (size_bounds p n Hp (or_introl L)). pose proof (size_bounds p m Hp (or_intror C)). pose proof (local_last p n m Hp L C).
    assert (E : (if or_else (outermost (filter (private all) (caches p))) 0 =? 0 then n else or_else (outermost (filter (private all) (caches p))) 0) = m).
    { unfold local_cache in C. destruct (outermost (filter (private all) (caches p))) as [k|] eqn:O; cbn [or_else].
      - injection C as ->. destruct (m =? 0) eqn:Z0; lia.
      - change (0 =? 0) with true. cbn beta iota; congruence. }
    cbn [or_else]. rewrite E. destruct (m =? 0) eqn:Z1; [lia|]. destruct (n =? 0) eqn:Z2; [lia|]. cbn [orb].
    destruct (m <=? n) eqn:Z3; [|lia]. unfold dcheck. rewrite Bool.andb_false_r. reflexivity.
  - pose proof (local_none p L) as C. unfold local_cache in C. destruct (outermost (filter (private all) (caches p))) eqn:O; [discriminate|].
    unfold local_cache. rewrite O, L. cbn [or_else]. reflexivity.
Qed.

Lemma scan_all : forall ps a b, incl ps all -> (forall p, In p ps -> last_level all p <> None) ->
  exists a' b', scan_processors dbg all ps (a, b) = Ok (Some (a', b')) /\
    (forall p, In p ps -> exists m, local_cache all p = Some m /\ a' <= m) /\ a' <= a /\ (a' = a \/ exists p, In p ps /\ local_cache all p = Some a') /\
    (forall p, In p ps -> exists m, last_level all p = Some m /\ b' <= m) /\ b' <= b /\ (b' = b \/ exists p, In p ps /\ last_level all p = Some b').
Proof.
  induction ps as [|p ps IH]; intros a b I L; cbn [scan_processors].
  - exists a, b. split; [reflexivity|]. repeat split; try (intros ? []); try lia; auto.
  - rewrite processor_sizes_ok by (apply I; left; reflexivity). cbn [bind].
    destruct (last_level all p) as [n|] eqn:E; [|exfalso; apply (L p (or_introl eq_refl)); exact E].
    destruct (local_some p n E) as [m C]. rewrite C. cbn [fst snd].
    destruct (IH (Z.min a m) (Z.min b n)) as (a' & b' & R & A1 & A2 & A3 & B1 & B2 & B3).
    { intros q Hq. apply I. right. exact Hq. }
    { intros q Hq. apply L. right. exact Hq. }
    exists a', b'. split; [exact R|]. repeat split.
    + intros q [<-|Hq]; [exists m; split; [exact C|lia]|apply A1; exact Hq].
    + lia.
    + destruct A3 as [A3|(q & Hq & Eq)]; [|right; exists q; split; [right|]; assumption].
      destruct (Z.min_spec a m) as [[_ M]|[_ M]]; [left; lia|right; exists p; split; [left; reflexivity|congruence]].
    + intros q [<-|Hq]; [exists n; split; [exact E|lia]|apply B1; exact Hq].
    + lia.
    + destruct B3 as [B3|(q & Hq & Eq)]; [|right; exists q; split; [right|]; assumption].
      destruct (Z.min_spec b n) as [[_ M]|[_ M]]; [left; lia|right; exists p; split; [left; reflexivity|congruence]].
Qed.

Lemma scan_none : forall ps a b, incl ps all -> ~ (forall p, In p ps -> last_level all p <> None) -> scan_processors dbg all ps (a, b) = Ok None.
Proof.
  induction ps as [|p ps IH]; intros a b I L.
  - exfalso. apply L. intros p [].
  - cbn [scan_processors]. rewrite processor_sizes_ok by (apply I; left; reflexivity). cbn [bind].
    destruct (last_level all p) as [n|] eqn:E.
    + destruct (local_some p n E) as [m C]. rewrite C. cbn [fst snd]. apply IH; [intros q Hq; apply I; right; exact Hq|].
      intros H. apply L. intros q [<-|Hq]; [congruence|apply H; exact Hq].
    + rewrite (local_none p E). reflexivity.
Qed.

Lemma minimum_of : forall ps (f : processor -> option Z) a', ps <> [] -> incl ps all ->
  (forall p m, In p ps -> f p = Some m -> m <= int_max) ->
  (forall p, In p ps -> exists m, f p = Some m /\ a' <= m) -> (a' = int_max \/ exists p, In p ps /\ f p = Some a') -> is_minimum f ps a'.
Proof.
  intros ps f a' N I B A1 A3. split; [exact A1|]. destruct A3 as [->|A3]; [|exact A3].
  destruct ps as [|p ps]; [congruence|]. destruct (A1 p (or_introl eq_refl)) as (m & E & M).
  exists p. split; [left; reflexivity|]. rewrite E. f_equal. specialize (B p m (or_introl eq_refl) E). lia.
Qed.

Lemma query_ok : (forall p, In p all -> last_level all p <> None) -> exists q, query_cache_params dbg all = Ok (Some q) /\
  is_minimum (local_cache all) all (local_cache_size q) /\ is_minimum (last_level all) all (last_level_cache_size q).
Proof.
  intros L. unfold query_cache_params. pose proof (vp_some all V) as N.
  destruct (0 <? Z.of_nat (length all)) eqn:E; [|destruct all; [congruence|cbn [length] in E; lia]].
  unfold dcheck. rewrite Bool.andb_false_r. cbn [bind].
  destruct (scan_all all int_max int_max (incl_refl _) L) as (a' & b' & R & A1 & A2 & A3 & B1 & B2 & B3).
  rewrite R. cbn [bind]. eexists. split; [reflexivity|]. cbn [local_cache_size last_level_cache_size].
  split; apply minimum_of; auto using incl_refl; intros p m Hp H; apply (size_bounds p m Hp); auto.
Qed.

Lemma query_none : ~ (forall p, In p all -> last_level all p <> None) -> query_cache_params dbg all = Ok None.
Proof.
  intros L. unfold query_cache_params. pose proof (vp_some all V) as N.
  destruct (0 <? Z.of_nat (length all)) eqn:E; [|destruct all; [congruence|cbn [length] in E; lia]].
  unfold dcheck. rewrite Bool.andb_false_r. cbn [bind]. rewrite (scan_none all int_max int_max (incl_refl _) L). reflexivity.
Qed.

Lemma levels_dec : (forall p, In p all -> last_level all p <> None) \/ ~ (forall p, In p all -> last_level all p <> None).
Proof.
  destruct (forallb (fun p => match last_level all p with Some _ => true | None => false end) all) eqn:E.
  - left. intros p Hp H. rewrite forallb_forall in E. specialize (E p Hp). rewrite H in E. discriminate.
  - right. intros H. assert (F : forallb (fun p => match last_level all p with Some _ => true | None => false end) all = true); [|congruence].
    apply forallb_forall. intros p Hp. specialize (H p Hp). destruct (last_level all p); congruence.
Qed.

Lemma minimum_le : forall a b, is_minimum (local_cache all) all a -> is_minimum (last_level all) all b -> 1 <= a <= b /\ b <= int_max.
Proof.
  intros a b [A1 (p & Hp & Ep)] [B1 (q & Hq & Eq)].
  destruct (A1 q Hq) as (m & Em & Lm). pose proof (local_last q b m Hq Eq Em).
  pose proof (size_bounds p a Hp (or_intror Ep)). pose proof (size_bounds q b Hq (or_introl Eq)). lia.
Qed.
End Machine.

(** What the object holds once it has been used. *)
Definition settled (m : machine) (i : cpu_info) : Prop :=
  let detected := m_library m = true /\ m_initialize m = true /\ forall p, In p (m_processors m) -> last_level (m_processors m) p <> None in
  right_sizes m (ci_params i) /\ 1 <= local_cache_size (ci_params i) <= last_level_cache_size (ci_params i) /\ last_level_cache_size (ci_params i) <= int_max /\
  (m_library m = true -> (ci_status i = Initialized /\ detected \/ ci_status i = Failed /\ ~ detected)) /\
  ci_status i <> NotYetAttempted.

Lemma ensure_ok : forall dbg m i, valid_processors (m_processors m) -> i = cpu_init \/ settled m i ->
  exists b i', ensure_initialized dbg m i = Ok (b, i') /\ settled m i' /\
    (m_library m = true -> (b = true <-> ci_status i' = Initialized)) /\ (settled m i -> i' = i).
Proof.
  intros dbg m i V [->|S].
  - unfold ensure_initialized. cbn [cpu_init ci_status].
    assert (NS : settled m cpu_init -> False) by (intros (_ & _ & _ & _ & N); apply N; reflexivity).
    assert (D : forall s, s = Failed \/ m_library m = false /\ s = Initialized ->
      ~ (m_library m = true /\ m_initialize m = true /\ forall p, In p (m_processors m) -> last_level (m_processors m) p <> None) ->
      settled m {| ci_status := s; ci_params := dummy_cache_params |}).
    { intros s Hs H. unfold settled, right_sizes. cbn [ci_params ci_status].
      split; [split; [intros C; exfalso; apply H; exact C|intros _; split; reflexivity]|].
      split; [vm_compute; split; discriminate|]. split; [vm_compute; discriminate|].
      split; [intros L; right; destruct Hs as [->|[L' _]]; [auto|congruence]|destruct Hs as [->|[_ ->]]; discriminate]. }
    destruct (m_library m) eqn:L.
    + unfold initialize. destruct (m_initialize m) eqn:I.
      * destruct (levels_dec (m_processors m)) as [P|P].
        -- destruct (query_ok dbg _ V P) as (q & E & M1 & M2). rewrite E. cbn [bind].
           destruct (minimum_le _ V _ _ M1 M2) as [B1 B2].
           eexists _, _. split; [reflexivity|]. split; [|split; [tauto|intros C; exfalso; exact (NS C)]].
           unfold settled, right_sizes. cbn [ci_params ci_status]. rewrite L, I.
           split; [split; [auto|intros C; exfalso; apply C; auto]|]. split; [lia|]. split; [lia|]. split; [auto|discriminate].
        -- rewrite (query_none dbg _ V P). cbn [bind]. eexists _, _. split; [reflexivity|].
           split; [apply D; [auto|tauto]|]. split; [cbn [ci_status]; split; discriminate|intros C; exfalso; exact (NS C)].
      * cbn [bind]. eexists _, _. split; [reflexivity|]. split; [apply D; [auto|intros (_ & C & _); discriminate]|].
        split; [cbn [ci_status]; split; discriminate|intros C; exfalso; exact (NS C)].
    + eexists _, _. split; [reflexivity|]. split; [apply D; [auto|intros (C & _); discriminate]|]. split; [discriminate|intros C; exfalso; exact (NS C)].
  - unfold ensure_initialized. pose proof S as (_ & _ & _ & _ & N). destruct (ci_status i) eqn:E; [congruence| |];
      eexists _, _; (split; [reflexivity|]; split; [exact S|]; split; [rewrite E|auto]); intros _; split; congruence.
Qed.

Lemma ask_ok : forall dbg m q i, valid_processors (m_processors m) -> i = cpu_init \/ settled m i ->
  exists a i', ask dbg m q i = Ok (a, i') /\ right_answer m q a /\ (i' = cpu_init \/ settled m i').
Proof.
  intros dbg m q i V S. destruct (ensure_ok dbg m i V S) as (b & i' & E & S' & B & _).
  destruct q as [f|]; cbn [ask].
  - unfold has_feature. destruct (m_library m) eqn:L.
    + rewrite E. cbn [bind]. eexists _, _. split; [reflexivity|]. split; [|auto].
      cbn [right_answer]. specialize (B eq_refl). rewrite Bool.andb_true_iff, B. rewrite L.
      destruct S' as (_ & _ & _ & D & _). specialize (D L). destruct D as [[D1 D2]|[D1 D2]]; [tauto|].
      split; [intros [C _]; congruence|]. intros (_ & H2 & H3 & _). exfalso. apply D2. auto.
    + cbn [bind]. eexists _, _. split; [reflexivity|]. split; [|exact S]. cbn [right_answer]. split; [discriminate|]. intros (C & _). congruence.
  - unfold cache_params_of. rewrite E. cbn [bind]. eexists _, _. split; [reflexivity|]. split; [|auto].
    destruct S' as (S1 & S2 & S3 & _). cbn [right_answer]. auto.
Qed.

Lemma ask_all_ok : forall dbg m, valid_processors (m_processors m) -> forall qs i, i = cpu_init \/ settled m i ->
  exists l i', ask_all dbg m qs i = Ok (l, i') /\ Forall2 (right_answer m) qs l.
Proof.
  intros dbg m V. induction qs as [|q qs IH]; intros i S; cbn [ask_all].
  - eexists _, _. split; [reflexivity|constructor].
  - destruct (ask_ok dbg m q i V S) as (a & i1 & E & R & S1). rewrite E. cbn [bind].
    destruct (IH i1 S1) as (l & i2 & E2 & R2). rewrite E2. cbn [bind]. eexists _, _. split; [reflexivity|]. constructor; assumption.
Qed.

Lemma cpu_queries : forall dbg m qs, valid_processors (m_processors m) ->
  exists l i, ask_all dbg m qs cpu_init = Ok (l, i) /\ Forall2 (right_answer m) qs l.
Proof. intros dbg m qs V. apply ask_all_ok; auto. Qed.

(** Without the assumption on sizes. *)
Definition odd_processors : list processor := [{| pr_core := 0; pr_l1d := Some {| cd_size := 65536; cd_start := 0; cd_count := 1 |}; pr_l2 := None;
  pr_l3 := Some {| cd_size := 32768; cd_start := 0; cd_count := 2 |} |};
  {| pr_core := 1; pr_l1d := Some {| cd_size := 65536; cd_start := 1; cd_count := 1 |}; pr_l2 := None;
  pr_l3 := Some {| cd_size := 32768; cd_start := 0; cd_count := 2 |} |}].
Definition some_features : features := {| f_neon_dot := false; f_avx := true; f_avx2 := true; f_fma3 := true; f_avx512f := true; f_avx512dq := false;
  f_avx512cd := true; f_avx512bw := true; f_avx512vl := true |}.

Lemma local_not_below_last : exists ps q, ps <> [] /\ (forall p c, In p ps -> In c (caches p) -> valid_cache c) /\
  query_cache_params false ps = Ok (Some q) /\ last_level_cache_size q < local_cache_size q /\ query_cache_params true ps = Abort.
Proof.
  exists odd_processors, {| local_cache_size := 65536; last_level_cache_size := 32768 |}. split; [discriminate|].
  split; [|repeat split; vm_compute; reflexivity].
  intros p c [<-|[<-|[]]] [<-|[<-|[]]]; unfold valid_cache, int_max; cbn [cd_size cd_start cd_count]; lia.
Qed.

(** A cache of 2 GiB: sizes of [uint32_t] are converted to [int]. *)
Lemma huge_cache_negative : exists ps q, ps <> [] /\
  (forall p c, In p ps -> In c (caches p) -> 0 < cd_size c < 2 ^ 32 /\ 0 <= cd_start c /\ 0 <= cd_count c /\ cd_start c + cd_count c <= 2 ^ 32) /\
  (forall p, In p ps -> growing (filter (known ps) (caches p))) /\ query_cache_params false ps = Ok (Some q) /\ local_cache_size q < 0.
Proof.
  exists [{| pr_core := 0; pr_l1d := Some {| cd_size := 2 ^ 31; cd_start := 0; cd_count := 1 |}; pr_l2 := None; pr_l3 := None |}],
    {| local_cache_size := - 2 ^ 31; last_level_cache_size := - 2 ^ 31 |}.
  split; [discriminate|]. split; [|split; [|split; vm_compute; reflexivity]].
  - intros p c [<-|[]] [<-|[]]. cbn [cd_size cd_start cd_count]. lia.
  - intros p [<-|[]]. exact Logic.I.
Qed.
