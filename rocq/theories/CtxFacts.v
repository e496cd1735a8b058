(** Contexts: proofs. *)
From Verif Require Import Allocator PrepackedCache.
From Verif Require Import Base SidePair SizeUtil SpecArith SizeUtilFacts SpecMatrix SpecPack BlockMap ThreadCount Mat MatFacts Scalars Pack PackFacts PackProps Kernel TrMul TrMulFacts MulParams TrMulRun SpecMul MulProps CachedMul
  CpuInfo SpecCpu CpuFacts Tune Ctx SpecCtx TuneFacts PathFacts ResourceFacts.

Section Machine.
Variable b : build.
Hypothesis Vm : valid_processors (m_processors (b_machine b)).
Local Notation m := (b_machine b).
Context {V : Type}.

(** A context after the multiplications [ps], when the options are [s]. *)
Record ctx_fine (s : settings) (ps : list (product V)) (cx : ctx V) : Prop := {
  cf_cpu : cpu_fine m (cx_cpu cx);
  cf_paths : paths_fine b (s_paths s) (cx_paths cx);
  cf_tuning : cx_tuning cx = s_tuning s;
  cf_threads : cx_max_threads cx = s_threads s;
  cf_strategy : cx_strategy cx = s_strategy s;
  cf_last : cx_last_path cx = match last_product ps with Some x => p_path x | None => 0 end;
  cf_advisory : performance_advisory cx kReallocatedPerChannelBuffer = true <-> exists x, last_product ps = Some x /\ copies x;
  cf_resources : rs_ok b (fun i => thread_log i ps) (cx_resources cx) (cx_next cx);
  cf_used : forall p, In p ps -> map rn_addr (p_used p) = map Z.of_nat (seq 0 (length (p_used p))) /\ Forall (fun r => rn_addr r = Z.of_nat O) (p_packs p)
}.

Lemma fine_init : forall mem, ctx_fine initial [] (ctx_init mem).
Proof.
  intros mem. constructor; try reflexivity.
  - left. reflexivity.
  - split; [cbn; lia|]. left. split; reflexivity.
  - split; [discriminate|]. intros (x & H & _). discriminate.
  - split; [reflexivity|]. split; [intros [|i]; discriminate|]. reflexivity.
  - intros p [].
Qed.

Lemma last_snoc : forall ps (p : product V), last_product (ps ++ [p]) = Some p.
Proof. intros ps p. unfold last_product. rewrite rev_app_distr. reflexivity. Qed.
Lemma thread_log_snoc : forall i ps (p : product V), thread_log i (ps ++ [p]) = thread_log i ps ++ thread_part i p.
Proof. intros i ps p. unfold thread_log. rewrite flat_map_app. cbn [flat_map]. rewrite app_nil_r. reflexivity. Qed.

Lemma copies_iff : forall s q path packs used out k, path = 2 ^ k -> 0 <= k < 8 -> Z.testbit (q_compiled q) k = true ->
  valid_operation b (Multiply q) -> forall t copied,
  mul_front_end (b_dbg b) (fst (q_variant q path)) (snd (q_variant q path)) (g_chan (q_garbage q)) (g_exp (q_garbage q)) (q_lhs q) (q_rhs q) (q_dst q) (q_mp q) = Ok (t, copied) ->
  (copied = true <-> copies {| p_settings := s; p_request := q; p_path := path; p_packs := packs; p_used := used; p_out := out |} (V := V)).
Proof.
  intros s q path packs used out k -> K B (_ & _ & _ & W) t copied H. specialize (W k K B).
  unfold copies. cbn [p_request p_path]. set (n := channel_count (q_mp q) (m_layout (q_dst q))).
  assert (P1 : 0 < 2 ^ mp_rounding_log2 (q_mp q)).
  { destruct (wc_params _ _ _ _ _ _ _ W) as (P1 & _). apply pow2_pos. lia. }
  assert (P2 : 0 < kl_cols (channel_kernel (snd (q_variant q (2 ^ k))) (q_mp q) (m_layout (q_dst q)))).
  { destruct (wc_kernels _ _ _ _ _ _ _ W) as (K1 & K2 & _). unfold channel_kernel, row_kernel, col_kernel.
    destruct (mp_chan (q_mp q)); destruct (ml_order (m_layout (q_dst q))); apply power_of_two_pos; first [apply K1|apply K2]. }
  assert (A : forall cap req, is_round_up n (2 ^ mp_rounding_log2 (q_mp q)) cap ->
    is_round_up n (kl_cols (channel_kernel (snd (q_variant q (2 ^ k))) (q_mp q) (m_layout (q_dst q)))) req -> copied = (cap <? req)).
  { intros cap req Hc Hr. destruct (call_channel_arrays _ _ _ _ _ _ _ _ W (g_chan (q_garbage q)) (g_exp (q_garbage q)) cap req Hc Hr) as (t' & E & _). congruence. }
  split.
  - intros ->. do 2 eexists. split; [apply round_up_is; exact P1|]. split; [apply round_up_is; exact P2|].
    specialize (A _ _ (round_up_is n _ P1) (round_up_is n _ P2)). symmetry in A. apply Z.ltb_lt in A. exact A.
  - intros (cap & req & Hc & Hr & L). rewrite (A cap req Hc Hr). apply Z.ltb_lt. exact L.
Qed.

Variable sys : nat -> list sys_event -> list (Z * Z) -> Z -> Z.
Variable iter : list sys_event -> list (key * PrepackedCache.entry) -> list (key * PrepackedCache.entry).
Variable max : Z.

Lemma cache_params_settled : forall dbg i cp i', cpu_fine m i -> cache_params_of dbg m i = Ok (cp, i') -> settled m i' /\ cp = ci_params i'.
Proof.
  intros dbg i cp i' F H. unfold cache_params_of in H. destruct (ensure_fine dbg m Vm i F) as (x & i2 & E & S & _). rewrite E in H. cbn [bind] in H.
  injection H as <- <-. auto.
Qed.

Lemma mul_fine : forall s ps cx q a cx', ctx_fine s ps cx -> valid_operation b (Multiply q) -> ctx_mul sys iter max b q cx = Ok (a, cx') ->
  exists path packs used out, a = Product path packs used out /\ chosen b (s_paths s) (q_compiled q) path /\
    ctx_fine s (ps ++ [{| p_settings := s; p_request := q; p_path := path; p_packs := packs; p_used := used; p_out := out |}]) cx'.
Proof.
  intros s ps cx q a cx' F Vq H. unfold ctx_mul in H. apply bind_ok in H. destruct H as ([path0 cx1] & E & H).
  pose proof Vq as (Cq & Tq & Tp & Wq).
  destruct (select_ok b Vm _ (clear_performance_advisories cx) (s_paths s) _ _ _ (cf_cpu _ _ _ F) (cf_paths _ _ _ F) Cq E) as (p & i & -> & Fi & Pi & Ch).
  rewrite (populate_chosen b (b_dbg b) (s_paths s) _ _ Ch) in H. cbn [bind] in H.
  destruct (q_variant q path0) as [o kl] eqn:EV. apply bind_ok in H. destruct H as ([t copied] & FE & H).
  apply bind_ok in H. destruct H as ([cp i2] & CP & H).
  assert (CI : cx_cpu (if copied then set_performance_advisory (with_last_path (with_paths (clear_performance_advisories cx) p i) path0) kReallocatedPerChannelBuffer
                       else with_last_path (with_paths (clear_performance_advisories cx) p i) path0) = i) by (destruct copied; reflexivity).
  rewrite CI in CP. destruct (cache_params_settled _ _ _ _ Fi CP) as (S2 & _). clear CI CP.
  set (cx1 := with_last_path (with_paths (clear_performance_advisories cx) p i) path0) in *.
  set (cx2 := if copied then set_performance_advisory cx1 kReallocatedPerChannelBuffer else cx1) in *.
  set (cx3 := with_paths cx2 (cx_paths cx2) i2) in *.
  apply bind_ok in H. destruct H as ([out x] & CM & H). clear CM.
  apply bind_ok in H. destruct H as ([packs cx4] & PT & H). apply bind_ok in H. destruct H as (n & _ & H).
  assert (H' : exists count, ('(used, cx5) <- threads_tuning b (q_now q) (q_uarch q) count cx4;; Ok (Product path0 packs used out, cx5)) = Ok (a, cx')).
  { destruct n as [n|]; [exists n; exact H|]. exists 1. rewrite main_is_threads in H. exact H. }
  clear H. destruct H' as (count & H). apply bind_ok in H. destruct H as ([used cx5] & TT & H). injection H as <- <-.
  assert (R3 : rs_ok b (fun i => thread_log i ps) (cx_resources (with_cached cx3 (cx_epoch cx3) x)) (cx_next (with_cached cx3 (cx_epoch cx3) x))).
  { unfold cx3, cx2. destruct copied; exact (cf_resources _ _ _ F). }
  apply (pack_tunings_fine b Vm _ _ _ _ _ _ _ R3) in PT; [|right; exact S2|exact Tp].
  destruct PT as (rs4 & n4 & c4 & -> & F4 & _ & _ & Ad4 & _ & R4).
  eapply threads_tuning_fine in TT; [|exact Vm|exact R4|exact F4|exact Tq].
  destruct TT as (rs5 & n5 & c5 & -> & F5 & _ & _ & Ad5 & _ & R5).
  exists path0, packs, used, out. split; [reflexivity|]. split; [exact Ch|].
  assert (K : exists k, path0 = 2 ^ k /\ 0 <= k < 8 /\ Z.testbit (q_compiled q) k = true) by (destruct Ch as (k & K1 & K2 & K3 & _); exists k; auto).
  destruct K as (k & K1 & K2 & K3).
  set (pr := {| p_settings := s; p_request := q; p_path := path0; p_packs := packs; p_used := used; p_out := out |}).
  assert (CO : copied = true <-> copies pr).
  { apply (copies_iff s q path0 packs used out k K1 K2 K3 Vq t copied). rewrite EV. exact FE. }
  constructor.
  - exact F5.
  - unfold cx3, cx2, cx1. destruct copied; exact Pi.
  - unfold cx3, cx2, cx1. destruct copied; exact (cf_tuning _ _ _ F).
  - unfold cx3, cx2, cx1. destruct copied; exact (cf_threads _ _ _ F).
  - unfold cx3, cx2, cx1. destruct copied; exact (cf_strategy _ _ _ F).
  - rewrite last_snoc. unfold cx3, cx2, cx1. destruct copied; reflexivity.
  - rewrite last_snoc.
    assert (A : performance_advisory (with_resources (with_resources (with_cached cx3 (cx_epoch cx3) x) rs4 n4 c4) rs5 n5 c5) kReallocatedPerChannelBuffer = copied).
    { unfold cx3, cx2, cx1. destruct copied; reflexivity. }
    rewrite A, CO. split; [intros Q; exists pr; auto|]. intros (y & Y & Q). injection Y as <-. exact Q.
  - cbn [cx_resources cx_next with_resources]. eapply rs_ext; [|exact R5]. intros j. cbv beta. rewrite thread_log_snoc, <- app_assoc. f_equal.
    unfold thread_part, added0, added. cbn [p_settings p_packs p_used pr Nat.leb cx_tuning with_resources with_cached]. rewrite Nat.sub_0_r.
    assert (TU : cx_tuning cx3 = s_tuning s) by (unfold cx3, cx2, cx1; destruct copied; exact (cf_tuning _ _ _ F)). rewrite TU.
    destruct j as [|j]; cbn [Nat.eqb]; rewrite ?map_app; [f_equal|]; destruct (nth_error used _); reflexivity.
  - intros y Y. apply in_app_or in Y. destruct Y as [Y|[<-|[]]]; [exact (cf_used _ _ _ F y Y)|]. split; [exact Ad5|exact Ad4].
Qed.

Definition product_of (s : settings) (op : operation V) (a : observation V) : list (product V) := products s [op] [a].

Lemma perform_fine : forall s ps cx op a cx', ctx_fine s ps cx -> valid_operation b op -> perform sys iter max b op cx = Ok (a, cx') ->
  right_reply b s ps op a /\ ctx_fine (change op s) (ps ++ products s [op] [a]) cx'.
Proof.
  intros s ps cx op a cx' F Vo H. destruct op as [p| |t|n|st| | | |q]; cbn [perform] in H.
  - injection H as <- <-. split; [exact Logic.I|]. cbn [products change]. rewrite app_nil_r. destruct F; constructor; auto. cbn. apply paths_set; exact Vo.
  - apply bind_ok in H. destruct H as ([p cx1] & E & H). injection H as <- <-.
    destruct (get_paths_ok b Vm _ _ (s_paths s) _ _ (cf_cpu _ _ _ F) (cf_paths _ _ _ F) E) as (i & -> & Fi & P & B).
    cbn [right_reply products change]. rewrite app_nil_r. split.
    + intros k. rewrite Z.land_spec, Bool.andb_true_iff, B, public_bits. tauto.
    + destruct F as [F1 F2 F3 F4 F5 F6 F7 F8 F9]. constructor; auto. split; [apply F2|]. right. auto.
  - injection H as <- <-. split; [exact Logic.I|]. cbn [products change]. rewrite app_nil_r. destruct F; constructor; auto.
  - injection H as <- <-. split; [exact Logic.I|]. cbn [products change]. rewrite app_nil_r. destruct F; constructor; auto.
  - injection H as <- <-. split; [exact Logic.I|]. cbn [products change]. rewrite app_nil_r. destruct F; constructor; auto.
  - apply bind_ok in H. destruct H as (cx1 & E & H). injection H as <- <-. unfold clear_prepacked_cache in E. apply bind_ok in E. destruct E as (cs & _ & E).
    injection E as <-. split; [exact Logic.I|]. cbn [products change]. rewrite app_nil_r. destruct F; constructor; auto.
  - injection H as <- <-. cbn [right_reply products change]. rewrite app_nil_r. split; [exact (cf_advisory _ _ _ F)|exact F].
  - injection H as <- <-. cbn [right_reply products change]. rewrite app_nil_r. split; [exact (cf_last _ _ _ F)|exact F].
  - destruct (mul_fine s ps cx q a cx' F Vo H) as (path & packs & used & out & -> & Ch & F'). cbn [right_reply products change]. auto.
Qed.

Lemma products_cons : forall s op a ops obs, right_reply b s [] op a \/ (exists ps : list (product V), right_reply b s ps op a) ->
  products s (op :: ops) (a :: obs) = products s [op] [a] ++ products (change op s) ops obs.
Proof.
  intros s op a ops obs R. assert (R' : exists ps : list (product V), right_reply b s ps op a) by (destruct R as [R|R]; [exists []; exact R|exact R]).
  clear R. destruct R' as (ps & R). destruct op; destruct a; cbn [products change app] in *; try reflexivity; destruct R.
Qed.

Lemma perform_all_fine : forall ops s ps cx obs cx', ctx_fine s ps cx -> Forall (valid_operation b) ops -> perform_all sys iter max b ops cx = Ok (obs, cx') ->
  right_replies b s ps ops obs /\ ctx_fine (after (firstn (length obs) ops) s) (ps ++ products s ops obs) cx'.
Proof.
  induction ops as [|op ops IH]; intros s ps cx obs cx' F Vo H; cbn [perform_all] in H.
  - injection H as <- <-. split; [exact Logic.I|]. cbn [products firstn length after fold_left]. rewrite app_nil_r. exact F.
  - inversion Vo as [|? ? V1 V2]; subst. apply bind_ok in H. destruct H as ([a cx1] & E & H).
    destruct (perform_fine s ps cx op a cx1 F V1 E) as (R & F1).
    assert (Rest : forall l, ('(l, cx) <- perform_all sys iter max b ops cx1;; Ok (a :: l, cx)) = Ok (l, cx') ->
      exists obs', l = a :: obs' /\ right_replies b (change op s) (ps ++ products s [op] [a]) ops obs' /\ ctx_fine (after (firstn (length l) (op :: ops)) s) (ps ++ products s (op :: ops) l) cx').
    { intros l Q. apply bind_ok in Q. destruct Q as ([l' cx2] & E' & Q). injection Q as <- <-.
      destruct (IH _ _ _ _ _ F1 V2 E') as (RR & F'). exists l'. split; [reflexivity|]. split; [exact RR|].
      rewrite (products_cons s op a ops l') by (right; exists ps; exact R). rewrite app_assoc. exact F'. }
    destruct a as [|p|c|path packs used [out|]]; try (destruct (Rest _ H) as (obs' & -> & RR & F'); split; [split; [exact R|exact RR]|exact F']).
    injection H as <- <-. split; [split; [exact R|reflexivity]|]. change (after (firstn (length [Product path packs used None]) (op :: ops)) s) with (change op s).
    rewrite (products_cons s op _ ops []) by (right; exists ps; exact R).
    assert (N : forall s, products s ops [] = @nil (product V)) by (intros; destruct ops as [|[]]; reflexivity). rewrite N, app_nil_r. exact F1.
Qed.
End Machine.
