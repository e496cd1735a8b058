(** C40: cache sizes used for blocking. *)
From Verif Require Import Base BlockMap CpuInfo SpecCpu CpuFacts.

(** C40: however often and in whatever order features and sizes are asked for, the sizes
    are the least over all processors of the outermost cache and of the outermost
    unshared one, or the fixed ones if any processor's caches are unknown. *)
Theorem C40_sizes : forall dbg m qs, valid_processors (m_processors m) ->
  exists l i, ask_all dbg m qs cpu_init = Ok (l, i) /\ Forall2 (right_answer m) qs l.
Proof. exact cpu_queries. Qed.
Print Assumptions C40_sizes.

Example C40_example : exists m, valid_processors (m_processors m) /\
  ask_all true m [QFeature avx2_fma; QCaches; QFeature avx512; QCaches] cpu_init =
  Ok ([AFeature true; ACaches {| local_cache_size := 131072; last_level_cache_size := 2097152 |}; AFeature false;
       ACaches {| local_cache_size := 131072; last_level_cache_size := 2097152 |}],
      {| ci_status := Initialized; ci_params := {| local_cache_size := 131072; last_level_cache_size := 2097152 |} |}).
Proof.
  set (core n size := {| pr_core := n; pr_l1d := Some {| cd_size := 32768; cd_start := n; cd_count := 1 |};
    pr_l2 := Some {| cd_size := size; cd_start := n; cd_count := 1 |}; pr_l3 := Some {| cd_size := 2097152; cd_start := 0; cd_count := 2 |} |}).
  exists {| m_library := true; m_initialize := true; m_processors := [core 0 262144; core 1 131072]; m_features := some_features |}.
  split; [|vm_compute; reflexivity]. constructor; cbn [m_processors].
  - discriminate.
  - cbn [length]. unfold int_max. lia.
  - intros p c [<-|[<-|[]]] [<-|[<-|[<-|[]]]]; unfold valid_cache, int_max; cbn [cd_size cd_start cd_count]; lia.
  - intros p [<-|[<-|[]]]; vm_compute; repeat split; discriminate.
Qed.

(** If an outer cache is smaller than an inner one, a release build takes a local size
    above the last-level one; a debug build stops. *)
Theorem C40_order_refuted : exists ps q, ps <> [] /\ (forall p c, In p ps -> In c (caches p) -> valid_cache c) /\
  query_cache_params false ps = Ok (Some q) /\ last_level_cache_size q < local_cache_size q /\ query_cache_params true ps = Abort.
Proof. exact local_not_below_last. Qed.
Print Assumptions C40_order_refuted.

(** Sizes of 2 GiB and more become negative. *)
Theorem C40_large_refuted : exists ps q, ps <> [] /\
  (forall p c, In p ps -> In c (caches p) -> 0 < cd_size c < 2 ^ 32 /\ 0 <= cd_start c /\ 0 <= cd_count c /\ cd_start c + cd_count c <= 2 ^ 32) /\
  (forall p, In p ps -> growing (filter (known ps) (caches p))) /\ query_cache_params false ps = Ok (Some q) /\ local_cache_size q < 0.
Proof. exact huge_cache_negative. Qed.
Print Assumptions C40_large_refuted.
