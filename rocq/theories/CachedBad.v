(** Where caching changes results, or frees what is used; and a history where it does not. *)
From Coq Require Import Permutation.
From Verif Require Import Allocator SpecAlloc AllocFacts AllocProps PrepackedCache SpecCache CacheFacts CacheProps CacheBad.
From Verif Require Import Base SidePair SpecArith SizeUtil SizeUtilFacts SpecMatrix SpecPack BlockMap SpecBlockMap
  Mat MatFacts Scalars Pack PackFacts PackProps MulParams Kernel KernelFacts Multiplier IntOps TrMul TrMulFacts ChannelFacts FrontEndFacts
  TrMulMachine SpecMachine TrMulRun RunFacts MulFacts SpecMul MulProps ExampleMul
  CachedMul SpecCached CachedFacts CachedProps.

(** Products of int8 matrices with int32 results, packed in blocks of 4 by 4. *)
Definition wit_ops := int_ops wrapping true (mk_sp s8 s8) (mk_sp s8 s8) s32.
Definition wit_mp : mul_params Z := {|
  mp_bias := None; mp_mult_pc := None; mp_mult := 0; mp_exp_pc := None; mp_exp := 0;
  mp_min := int_min; mp_max := int_max; mp_chan := ChRow; mp_perchannel := false; mp_rounding_log2 := 0 |}.
(** A matrix in the first cells of [f], without or with gaps. *)
Definition wit_strided (rows cols stride : Z) (o : order) (f : Z -> Z) : mat Z :=
  {| m_data := {| blen := 16; bdat := f |};
     m_layout := {| ml_rows := rows; ml_cols := cols; ml_stride := stride; ml_order := o |}; m_zp := 0 |}.
Definition wit_operand (rows cols : Z) (o : order) (f : Z -> Z) : mat Z :=
  wit_strided rows cols (match o with ColMajor => rows | RowMajor => cols end) o f.
Definition wit_call (l r : mat Z) (la ra : Z) (lp rp : cache_policy) : call Z := {|
  cl_config := ex_config 1; cl_ops := wit_ops; cl_kl := ex_kl; cl_float := false; cl_garbage := ex_garbage 99; cl_sched := repeat (0, false) 100;
  cl_lhs := l; cl_rhs := r;
  cl_dst := {| m_data := {| blen := 16; bdat := fun _ => 7 |};
    m_layout := {| ml_rows := ml_rows (m_layout l); ml_cols := ml_cols (m_layout r); ml_stride := ml_rows (m_layout l); ml_order := ColMajor |}; m_zp := 0 |};
  cl_mp := wit_mp; cl_addr := mk_sp la ra; cl_policy := mk_sp lp rp |}.

Definition small (n : Z) : Prop := 0 < n <= 4.

Lemma strided_cacheable : forall n k m ol orr sl sr f g la ra lp rp, small n -> small k -> small m -> small sl -> small sr ->
  (match ol with ColMajor => n | RowMajor => k end) <= sl -> (match orr with ColMajor => k | RowMajor => m end) <= sr ->
  cacheable_call (wit_call (wit_strided n k sl ol f) (wit_strided k m sr orr g) la ra lp rp).
Proof.
  intros n k m ol orr sl sr f g la ra lp rp Hn Hk Hm Hsl Hsr Il Ir. unfold small in *.
  assert (P : forall a b, 0 < a <= 4 -> 0 < b <= 4 -> 0 < a * b <= 16) by (intros; nia).
  pose proof (P n m Hn Hm). pose proof (P sl n Hsl Hn). pose proof (P sl k Hsl Hk). pose proof (P sr k Hsr Hk). pose proof (P sr m Hsr Hm).
  pose proof (P n n Hn Hn).
  constructor.
  - constructor.
    + constructor.
      * split; [|split]; [..|reflexivity]; (split; [apply pow2_of; reflexivity|]; split; [apply pow2_of; reflexivity|zdec]).
      * split; [|split]; unfold valid_matrix, valid_layout, inner_size, outer_size; cbn [wit_call wit_strided cl_lhs cl_rhs cl_dst m_layout m_data ml_rows ml_cols ml_stride ml_order blen];
          try destruct ol; try destruct orr; unfold int_max; lia.
      * zdec.
      * intros kk x s Hkk Hx. assert (kk = lhs ex_kl) as -> by (destruct Hkk; assumption).
        assert (0 <= x <= 4) by (destruct Hx as [-> | ->]; zdec). cbn -[Z.mul Z.add int_max]. unfold int_max. nia.
      * intros []; vm_compute; repeat split; discriminate.
      * split; [zdec|]. split; [zdec|]. intros cap Hc. split; [|split]; intros x E; discriminate.
      * reflexivity.
    + zdec.
    + zdec.
    + intros R C t HR HC Ht. apply is_round_up_eq in HR; [|zdec]. apply is_round_up_eq in HC; [|zdec].
      change (ml_rows (m_layout (cl_dst (wit_call (wit_strided n k sl ol f) (wit_strided k m sr orr g) la ra lp rp)))) with n in HR.
      change (ml_cols (m_layout (cl_dst (wit_call (wit_strided n k sl ol f) (wit_strided k m sr orr g) la ra lp rp)))) with m in HC.
      change (kl_cols (row_kernel ex_kl (m_layout (cl_dst (wit_call (wit_strided n k sl ol f) (wit_strided k m sr orr g) la ra lp rp))))) with 4 in HR.
      change (kl_cols (col_kernel ex_kl (m_layout (cl_dst (wit_call (wit_strided n k sl ol f) (wit_strided k m sr orr g) la ra lp rp))))) with 4 in HC.
      assert (R = 4 /\ C = 4) as [-> ->].
      { assert (A : n = 1 \/ n = 2 \/ n = 3 \/ n = 4) by lia. assert (B : m = 1 \/ m = 2 \/ m = 3 \/ m = 4) by lia.
        subst R C. split; [destruct A as [->|[->|[->| ->]]]; reflexivity|destruct B as [->|[->|[->| ->]]]; reflexivity]. }
      change (1 <= t <= 1) in Ht. assert (t = 1) as -> by lia.
      change (bm_domain 4 4 k 4 4 1 1 1 (c_cache (ex_config 1))).
      constructor; try (exists 2; split; [lia|reflexivity]); cbn [c_cache ex_config local_cache_size]; unfold int_max; try lia; try reflexivity; vm_compute; discriminate.
  - discriminate.
  - intros s _. unfold hashable, request, next_multiple.
    assert (B : 0 <= (k + 4 - 1) / 4 * 4 <= 8 /\ 0 <= (n + 4 - 1) / 4 * 4 <= 8 /\ 0 <= (m + 4 - 1) / 4 * 4 <= 8).
    { pose proof (Z.div_mod (k + 4 - 1) 4). pose proof (Z.mod_pos_bound (k + 4 - 1) 4). pose proof (Z.div_mod (n + 4 - 1) 4). pose proof (Z.mod_pos_bound (n + 4 - 1) 4).
      pose proof (Z.div_mod (m + 4 - 1) 4). pose proof (Z.mod_pos_bound (m + 4 - 1) 4). lia. }
    destruct s; cbn -[Z.mul Z.add Z.div Z.sub int_max]; unfold int_max; lia.
Qed.

Lemma wit_cacheable : forall n k m ol orr f g la ra lp rp, small n -> small k -> small m ->
  cacheable_call (wit_call (wit_operand n k ol f) (wit_operand k m orr g) la ra lp rp).
Proof. intros. apply strided_cacheable; try assumption; try (destruct ol); try (destruct orr); try assumption; lia. Qed.

(** The entries of a result, row by row. *)
Definition entries_of (m : mat Z) : list Z :=
  flat_map (fun i => map (fun j => SpecMatrix.entry m i j) (zrange 0 (ml_cols (m_layout m)))) (zrange 0 (ml_rows (m_layout m))).
Definition results_of (r : res (list (option (mat Z)) * context Z)) : res (list (option (list Z))) :=
  '(outs, _) <- r ;; Ok (map (option_map entries_of) outs).
Definition result_of (r : res (option (mat Z))) : res (option (list Z)) := out <- r ;; Ok (option_map entries_of out).

Definition wit_mem (_ : Z) : pmat Z := {| p_data := {| blen := 0; bdat := fun _ => 0 |}; p_sums := None; p_layout := wit_layout 8; p_zp := 0 |}.
Definition count (x : Z) : Z := x + 1.
Definition A22 := wit_operand 2 2 RowMajor count.

Lemma not_as_uncached : forall (cl : call Z) m es es' g sched, entries_of m = es -> result_of (uncached cl g sched) = Ok (Some es') -> es <> es' -> ~ as_uncached cl (Some m).
Proof.
  intros cl m es es' g sched Em Eu Ne A. destruct (A m eq_refl g sched) as (out' & E & H). rewrite E in Eu. unfold result_of in Eu. cbn [bind] in Eu.
  destruct out' as [m'|]; [|discriminate]. injection Eu as Eu. destruct (H m' eq_refl) as (SL & _ & _ & SB).
  apply Ne. rewrite <- Em, <- Eu. unfold entries_of, SpecMatrix.entry. rewrite SL.
  apply flat_map_ext. intros i. apply map_ext. intros j. apply SB.
Qed.

Lemma cached_sides_wrong : exists sys iter max m (cl : call Z) out x, good_system sys /\ good_iteration iter /\ cacheable_call cl /\ same_memory [cl] /\ cl_lhs cl = cl_rhs cl /\
  cached_mul sys iter max cl (x_init m) = Ok (Some out, x) /\ ~ some_call_failed (cs_trace (x_cache x)) /\ ~ as_uncached cl (Some out).
Proof.
  pose (cl := wit_call A22 A22 1000 1000 AlwaysCache AlwaysCache).
  assert (E : exists out x, cached_mul wit_system wit_iter 1000 cl (x_init wit_mem) = Ok (Some out, x) /\ cs_trace (x_cache x) = [SAlloc false 16 64; SAlloc false 16 128] /\ entries_of out = [5; 11; 11; 25]).
  { destruct (cached_mul wit_system wit_iter 1000 cl (x_init wit_mem)) as [[[out|] x]| |] eqn:E; [|exfalso; revert E; vm_compute; discriminate..].
    exists out, x. split; [reflexivity|].
    assert (F : option_map (fun r => (cs_trace (x_cache (snd r)), option_map entries_of (fst r))) (match cached_mul wit_system wit_iter 1000 cl (x_init wit_mem) with Ok r => Some r | _ => None end) =
      Some ([SAlloc false 16 64; SAlloc false 16 128], Some [5; 11; 11; 25])) by (vm_compute; reflexivity).
    rewrite E in F. cbn [option_map fst snd] in F. injection F as F1 F2. auto. }
  destruct E as (out & x & E & T & O). exists wit_system, wit_iter, 1000, wit_mem, cl, out, x.
  split; [apply wit_good|]. split; [apply wit_iter_good|]. split; [apply wit_cacheable; unfold small; lia|].
  split; [intros c c' s s' [<-|[]] [<-|[]] _; destruct s, s'; reflexivity|]. split; [reflexivity|]. split; [exact E|].
  split; [|eapply (not_as_uncached cl out _ [7; 10; 15; 22] (ex_garbage 99) (repeat (0, false) 100)); [exact O|vm_compute; reflexivity|discriminate]].
  rewrite T. intros (g & n & H). cbn [In] in H. destruct H as [H|[H|[]]]; discriminate.
Qed.

(** What is observed of a history. *)
Definition observe (r : res (list (option (mat Z)) * context Z)) : res (list (option (list Z)) * list sys_event) :=
  '(outs, x) <- r ;; Ok (map (option_map entries_of) outs, cs_trace (x_cache x)).

Lemma two_calls : forall sys iter max m (a b : call Z) ea eb tr,
  observe (run_calls sys iter max [a; b] (x_init m)) = Ok ([Some ea; Some eb], tr) ->
  exists oa ob x, run_calls sys iter max [a; b] (x_init m) = Ok ([Some oa; Some ob], x) /\ cs_trace (x_cache x) = tr /\ entries_of ob = eb.
Proof.
  intros sys iter max m a b ea eb tr H. unfold observe in H. destruct (run_calls sys iter max [a; b] (x_init m)) as [[outs x]| |]; cbn [bind] in H; try discriminate.
  injection H as H T. destruct outs as [|[oa|] [|[ob|] [|? ?]]]; cbn [map option_map] in H; try discriminate. injection H as _ H.
  exists oa, ob, x. auto.
Qed.

Lemma none_failed : forall tr, forallb (fun e => match e with SAlloc _ _ p => negb (p =? 0) | _ => true end) tr = true -> ~ some_call_failed tr.
Proof. intros tr H (g & n & I). rewrite forallb_forall in H. specialize (H _ I). discriminate. Qed.

Lemma cached_order_wrong : exists sys iter max m (a b : call Z) oa ob x, good_system sys /\ good_iteration iter /\ cacheable_call a /\ cacheable_call b /\ same_memory [a; b] /\
  lhs (cl_addr a) = lhs (cl_addr b) /\ width a Lhs = width b Lhs /\ depth a = depth b /\ caches a Rhs = false /\ caches b Rhs = false /\
  ml_order (m_layout (cl_lhs a)) <> ml_order (m_layout (cl_lhs b)) /\
  run_calls sys iter max [a; b] (x_init m) = Ok ([Some oa; Some ob], x) /\ ~ some_call_failed (cs_trace (x_cache x)) /\ ~ as_uncached b (Some ob).
Proof.
  pose (a := wit_call A22 A22 1000 2000 AlwaysCache NeverCache). pose (b := wit_call (wit_operand 2 2 ColMajor count) A22 1000 2000 AlwaysCache NeverCache).
  destruct (two_calls wit_system wit_iter 1000 wit_mem a b [7; 10; 15; 22] [7; 10; 15; 22] [SAlloc false 16 64; SAlloc false 16 128]) as (oa & ob & x & E & T & O); [vm_compute; reflexivity|].
  exists wit_system, wit_iter, 1000, wit_mem, a, b, oa, ob, x.
  split; [apply wit_good|]. split; [apply wit_iter_good|]. split; [apply wit_cacheable; unfold small; lia|]. split; [apply wit_cacheable; unfold small; lia|].
  split; [intros c c' s s' [<-|[<-|[]]] [<-|[<-|[]]] _; destruct s, s'; reflexivity|].
  do 5 (split; [reflexivity|]). split; [discriminate|]. split; [exact E|]. split; [rewrite T; apply none_failed; reflexivity|].
  eapply (not_as_uncached b ob _ [10; 14; 14; 20] (ex_garbage 99) (repeat (0, false) 100)); [exact O|vm_compute; reflexivity|discriminate].
Qed.

Lemma cached_shape_wrong : exists sys iter max m (a b : call Z) oa ob x, good_system sys /\ good_iteration iter /\ cacheable_call a /\ cacheable_call b /\ same_memory [a; b] /\
  rhs (cl_addr a) = rhs (cl_addr b) /\ width a Rhs <> width b Rhs /\ depth a = depth b /\ caches a Lhs = false /\ caches b Lhs = false /\
  ml_order (m_layout (cl_rhs a)) = ml_order (m_layout (cl_rhs b)) /\
  run_calls sys iter max [a; b] (x_init m) = Ok ([Some oa; Some ob], x) /\ ~ some_call_failed (cs_trace (x_cache x)) /\ ~ as_uncached b (Some ob).
Proof.
  pose (a := wit_call A22 (wit_operand 2 3 RowMajor count) 1000 2000 NeverCache AlwaysCache).
  pose (b := wit_call A22 (wit_operand 2 4 RowMajor count) 1000 2000 NeverCache AlwaysCache).
  destruct (two_calls wit_system wit_iter 1000 wit_mem a b [9; 12; 15; 19; 26; 33] [9; 12; 15; 0; 19; 26; 33; 0] [SAlloc false 16 64; SAlloc false 16 128]) as (oa & ob & x & E & T & O); [vm_compute; reflexivity|].
  exists wit_system, wit_iter, 1000, wit_mem, a, b, oa, ob, x.
  split; [apply wit_good|]. split; [apply wit_iter_good|]. split; [apply wit_cacheable; unfold small; lia|]. split; [apply wit_cacheable; unfold small; lia|].
  split; [intros c c' s s' [<-|[<-|[]]] [<-|[<-|[]]] _; destruct s, s'; reflexivity|].
  split; [reflexivity|]. split; [discriminate|]. do 4 (split; [reflexivity|]). split; [exact E|]. split; [rewrite T; apply none_failed; reflexivity|].
  eapply (not_as_uncached b ob _ [11; 14; 17; 20; 23; 30; 37; 44] (ex_garbage 99) (repeat (0, false) 100)); [exact O|vm_compute; reflexivity|discriminate].
Qed.

Lemma cached_stride_wrong : exists sys iter max m (a b : call Z) oa ob x, good_system sys /\ good_iteration iter /\ cacheable_call a /\ cacheable_call b /\ same_memory [a; b] /\
  lhs (cl_addr a) = lhs (cl_addr b) /\ width a Lhs = width b Lhs /\ depth a = depth b /\ caches a Rhs = false /\ caches b Rhs = false /\
  ml_order (m_layout (cl_lhs a)) = ml_order (m_layout (cl_lhs b)) /\ ml_stride (m_layout (cl_lhs a)) <> ml_stride (m_layout (cl_lhs b)) /\
  run_calls sys iter max [a; b] (x_init m) = Ok ([Some oa; Some ob], x) /\ ~ some_call_failed (cs_trace (x_cache x)) /\ ~ as_uncached b (Some ob).
Proof.
  pose (a := wit_call A22 A22 1000 2000 AlwaysCache NeverCache). pose (b := wit_call (wit_strided 2 2 3 RowMajor count) A22 1000 2000 AlwaysCache NeverCache).
  destruct (two_calls wit_system wit_iter 1000 wit_mem a b [7; 10; 15; 22] [7; 10; 15; 22] [SAlloc false 16 64; SAlloc false 16 128]) as (oa & ob & x & E & T & O); [vm_compute; reflexivity|].
  exists wit_system, wit_iter, 1000, wit_mem, a, b, oa, ob, x.
  split; [apply wit_good|]. split; [apply wit_iter_good|]. split; [apply wit_cacheable; unfold small; lia|]. split; [apply strided_cacheable; unfold small; lia|].
  split; [intros c c' s s' [<-|[<-|[]]] [<-|[<-|[]]] _; destruct s, s'; reflexivity|].
  do 6 (split; [reflexivity|]). split; [discriminate|]. split; [exact E|]. split; [rewrite T; apply none_failed; reflexivity|].
  eapply (not_as_uncached b ob _ [7; 10; 19; 28] (ex_garbage 99) (repeat (0, false) 100)); [exact O|vm_compute; reflexivity|discriminate].
Qed.

(** Operands at different addresses: no two lookups have the same key. *)
Definition wit_pair := wit_call A22 (wit_operand 2 3 ColMajor count) 1000 2000 AlwaysCache AlwaysCache.

Lemma wit_computable : computable wit_pair.
Proof.
  assert (E : result_of (uncached wit_pair (ex_garbage 99) (repeat (0, false) 100)) = Ok (Some [5; 11; 17; 11; 25; 39])) by (vm_compute; reflexivity).
  destruct (uncached wit_pair (ex_garbage 99) (repeat (0, false) 100)) as [[out|]| |] eqn:U; try discriminate E.
  exists (ex_garbage 99), (repeat (0, false) 100), out. exact U.
Qed.

Lemma wit_pair_identify : keys_identify [wit_pair].
Proof.
  intros c c' s s' [<-|[]] [<-|[]] _ _ H. destruct s, s'; try (exfalso; revert H; vm_compute; discriminate); constructor; try reflexivity; intros; try reflexivity; repeat split.
Qed.

Lemma cached_mul_ejects : exists sys iter max m (cl : call Z) evs s, good_system sys /\ good_iteration iter /\ cacheable_call cl /\ computable cl /\ keys_identify [cl] /\
  (forall s, size_in_cache (snd (request cl s)) <= max) /\
  run sys iter max (lookups cl) cs_init = Ok (evs, s) /\ ~ some_call_failed (cs_trace s) /\
  cached_mul sys iter max cl (x_init m) = UB.
Proof.
  assert (E : exists evs s, run wit_system wit_iter 40 (lookups wit_pair) cs_init = Ok (evs, s) /\ forallb (fun e => match e with SAlloc _ _ p => negb (p =? 0) | _ => true end) (cs_trace s) = true).
  { eexists _, _. split; vm_compute; reflexivity. }
  destruct E as (evs & s & E & T).
  exists wit_system, wit_iter, 40, wit_mem, wit_pair, evs, s. split; [apply wit_good|]. split; [apply wit_iter_good|].
  split; [apply wit_cacheable; unfold small; lia|]. split; [apply wit_computable|]. split; [apply wit_pair_identify|].
  split; [intros []; vm_compute; discriminate|]. split; [exact E|]. split; [apply none_failed; exact T|]. vm_compute. reflexivity.
Qed.

(** A history with hits: the left operand is cached by all calls, the right operand by
    the first and the last. *)
Definition wit_history : list (call Z) :=
  [wit_pair; wit_call A22 (wit_operand 2 4 RowMajor (fun x => 2 * x)) 1000 3000 AlwaysCache NeverCache;
   wit_call A22 (wit_operand 2 3 ColMajor count) 1000 2000 CacheIfLargeSpeedup CacheIfSignificantSpeedup].

Lemma wit_history_identify : keys_identify wit_history.
Proof.
  assert (W : forall c s, In c wit_history -> caches c s = true -> get s (cl_addr c) = match s with Lhs => 1000 | Rhs => 2000 end /\
    depth c = 2 /\ width c s = match s with Lhs => 2 | Rhs => 3 end /\ (forall k i, source_entry c s k i = source_entry wit_pair s k i) /\ cl_ops c = wit_ops /\ cl_float c = false).
  { intros c s [<-|[<-|[<-|[]]]] C; destruct s; try (exfalso; revert C; vm_compute; discriminate); repeat split; reflexivity. }
  intros c c' s s' I I' C C' H. destruct (W c s I C) as (A & D & Wd & E & O & F). destruct (W c' s' I' C') as (A' & D' & Wd' & E' & O' & F').
  apply (f_equal k_src) in H. change (get s (cl_addr c) = get s' (cl_addr c')) in H. rewrite A, A' in H.
  assert (s' = s) as -> by (destruct s, s'; congruence || lia).
  constructor; try (intros; rewrite ?O, ?O', ?E, ?E', ?D, ?D', ?Wd, ?Wd'; congruence || reflexivity).
  rewrite O, O', F, F'. auto.
Qed.

Lemma wit_history_fine : Forall cacheable_call wit_history /\ keys_identify wit_history /\ bytes_requested (all_lookups wit_history) < 2 ^ 62 /\
  Forall computable wit_history /\ Forall (room_for_both 100) wit_history.
Proof.
  split; [repeat (apply Forall_cons || apply Forall_nil); apply wit_cacheable; unfold small; lia|]. split; [apply wit_history_identify|]. split; [vm_compute; reflexivity|].
  assert (CP : forall cl, (exists es, result_of (uncached cl (ex_garbage 99) (repeat (0, false) 100)) = Ok (Some es)) -> computable cl).
  { intros cl [es E]. destruct (uncached cl (ex_garbage 99) (repeat (0, false) 100)) as [[out|]| |] eqn:U; try discriminate E. exists (ex_garbage 99), (repeat (0, false) 100), out. exact U. }
  split; repeat (apply Forall_cons || apply Forall_nil); try (apply CP; eexists; vm_compute; reflexivity); intros L R; vm_compute; discriminate.
Qed.
