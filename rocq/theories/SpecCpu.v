(** What is asked of the cache sizes used for blocking. *)
From Verif Require Import Base BlockMap CpuInfo.

(** The first and the last processor that share a cache exist. *)
Definition processors_of (ps : list processor) (c : cache_desc) : option (processor * processor) :=
  match nth_error ps (Z.to_nat (cd_start c)), nth_error ps (Z.to_nat (cd_start c + cd_count c - 1)) with
  | Some a, Some b => if 0 <? cd_count c then Some (a, b) else None
  | _, _ => None
  end.
Definition known (ps : list processor) (c : cache_desc) : bool :=
  match processors_of ps c with Some _ => true | None => false end.
(** Caches of one core. *)
Definition private (ps : list processor) (c : cache_desc) : bool :=
  match processors_of ps c with Some (a, b) => pr_core a =? pr_core b | None => false end.

Definition caches (p : processor) : list cache_desc :=
  flat_map (fun c => match c with Some c => [c] | None => [] end) [pr_l1d p; pr_l2 p; pr_l3 p].

Definition outermost (l : list cache_desc) : option Z :=
  match rev l with c :: _ => Some (cd_size c) | [] => None end.
(** The size of the outermost cache of a processor, and of the outermost one it does not
    share with other cores (or else again of the outermost). *)
Definition last_level (ps : list processor) (p : processor) : option Z := outermost (filter (known ps) (caches p)).
Definition local_cache (ps : list processor) (p : processor) : option Z :=
  match outermost (filter (private ps) (caches p)) with Some n => Some n | None => last_level ps p end.

(** Sizes and ranges are those of [uint32_t], and sizes fit in [int]. *)
Definition valid_cache (c : cache_desc) : Prop :=
  0 < cd_size c <= int_max /\ 0 <= cd_start c /\ 0 <= cd_count c /\ cd_start c + cd_count c <= 2 ^ 32.
(** Outer caches are not smaller than inner ones. *)
Fixpoint growing (l : list cache_desc) : Prop :=
  match l with c :: (d :: _) as l' => cd_size c <= cd_size d /\ growing l' | _ => True end.
Record valid_processors (ps : list processor) : Prop := {
  vp_some : ps <> [];
  vp_few : Z.of_nat (length ps) <= int_max;
  vp_caches : forall p c, In p ps -> In c (caches p) -> valid_cache c;
  vp_growing : forall p, In p ps -> growing (filter (known ps) (caches p))
}.

Definition is_minimum {A} (f : A -> option Z) (l : list A) (n : Z) : Prop :=
  (forall x, In x l -> exists m, f x = Some m /\ n <= m) /\ exists x, In x l /\ f x = Some n.

(** What the sizes should be. *)
Definition right_sizes (m : machine) (q : cache_params) : Prop :=
  let detected := m_library m = true /\ m_initialize m = true /\ forall p, In p (m_processors m) -> last_level (m_processors m) p <> None in
  (detected -> is_minimum (local_cache (m_processors m)) (m_processors m) (local_cache_size q) /\
               is_minimum (last_level (m_processors m)) (m_processors m) (last_level_cache_size q)) /\
  (~ detected -> local_cache_size q = 32768 /\ last_level_cache_size q = 524288).

(** Uses of the object: any number of queries for features and sizes. *)
Inductive cpu_query := QFeature (f : features -> bool) | QCaches.
Inductive cpu_answer := AFeature (b : bool) | ACaches (q : cache_params).
Definition ask (dbg : bool) (m : machine) (q : cpu_query) (i : cpu_info) : res (cpu_answer * cpu_info) :=
  match q with
  | QFeature f => '(b, i) <- has_feature dbg m f i ;; Ok (AFeature b, i)
  | QCaches => '(p, i) <- cache_params_of dbg m i ;; Ok (ACaches p, i)
  end.
Fixpoint ask_all (dbg : bool) (m : machine) (qs : list cpu_query) (i : cpu_info) : res (list cpu_answer * cpu_info) :=
  match qs with
  | [] => Ok ([], i)
  | q :: qs => '(a, i) <- ask dbg m q i ;; '(l, i) <- ask_all dbg m qs i ;; Ok (a :: l, i)
  end.
Definition right_answer (m : machine) (q : cpu_query) (a : cpu_answer) : Prop :=
  match q, a with
  | QFeature f, AFeature b =>
    b = true <-> m_library m = true /\ m_initialize m = true /\ (forall p, In p (m_processors m) -> last_level (m_processors m) p <> None) /\ f (m_features m) = true
  | QCaches, ACaches q => right_sizes m q /\ 1 <= local_cache_size q <= last_level_cache_size q /\ last_level_cache_size q <= int_max
  | _, _ => False
  end.
