(** C01-C04, C36, C43, C45: whole multiplications, for every configuration, every content
    of fresh memory and every schedule of the worker threads. *)
From Coq Require Import SpecFloat.
From Verif Require Import Base SidePair SpecArith SpecMatrix SpecPack SpecRound SpecBlockMap BlockMap Mat Scalars Pack MulParams Kernel
  Multiplier IntOps FloatOps TrMul TrMulMachine SpecMachine TrMulRun SpecMul MulProps FloatMulProps ExampleMul.

(** C01. What ReferenceMul stores is what Mul stores, in all of the buffer: here with
    wrapping 32-bit arithmetic in both. *)
Theorem C01_mul_is_reference : forall c dbg st pt dt kl l r dst mp,
  let o := int_ops wrapping dbg st pt dt in
  integer_operands st pt l r -> valid_call c o kl l r dst mp ->
  forall ref, reference_mul o l r mp dst = Ok ref ->
  (forall g sched, exists out, mul c o kl g sched l r dst mp = Ok out /\ forall x, out = Some x -> same_matrix x ref) /\
  (forall g sched, fair (c_max_threads c) sched ->
     exists n x, mul c o kl g (prefix sched n) l r dst mp = Ok (Some x) /\ same_matrix x ref).
Proof. exact wrapping_mul_is_reference. Qed.
Print Assumptions C01_mul_is_reference.
Example C01_nonvacuous : forall o n, good_threads n ->
  integer_operands (mk_sp u8 u8) (mk_sp s8 s8) ex_l ex_r /\ valid_call (ex_config n) (ex_ops wrapping) ex_kl ex_l ex_r (ex_dst o) ex_mp.
Proof. intros o n H. split; [exact ex_operands|apply ex_valid; exact H]. Qed.
(** Three threads, four blocks, row-major destination with stride padding. *)
Example C01_run :
  (x <- mul (ex_config 3) (ex_ops wrapping) ex_kl (ex_garbage 99) ex_sched ex_l ex_r (ex_dst RowMajor) ex_mp ;;
   y <- reference_mul (ex_ops wrapping) ex_l ex_r ex_mp (ex_dst RowMajor) ;;
   Ok (match x with Some x => Some (forallb (fun p => fst p =? snd p) (combine (content x) (content y)), nth 2 (content x) 0)
       | None => None end))
  = Ok (Some (true, 101)).
Proof. vm_compute. reflexivity. Qed.

(** And conversely: when Mul completes, the reference is defined and equal. *)
Theorem C01_reference_is_mul : forall c dbg st pt dt kl l r dst mp,
  let o := int_ops wrapping dbg st pt dt in
  integer_operands st pt l r -> valid_call c o kl l r dst mp ->
  forall g sched x, mul c o kl g sched l r dst mp = Ok (Some x) ->
  exists ref, reference_mul o l r mp dst = Ok ref /\ same_matrix x ref.
Proof. exact wrapping_reference_is_mul. Qed.
Print Assumptions C01_reference_is_mul.

(** If the reference runs without signed overflow, Mul with wrapping arithmetic stores the same. *)
Theorem C01_checked_reference : forall c dbg st pt dt kl l r dst mp,
  integer_operands st pt l r -> valid_call c (int_ops wrapping dbg st pt dt) kl l r dst mp ->
  forall ref, reference_mul (int_ops checked dbg st pt dt) l r mp dst = Ok ref ->
  (forall g sched, exists out, mul c (int_ops wrapping dbg st pt dt) kl g sched l r dst mp = Ok out /\ forall x, out = Some x -> same_matrix x ref) /\
  (forall g sched, fair (c_max_threads c) sched ->
     exists n x, mul c (int_ops wrapping dbg st pt dt) kl g (prefix sched n) l r dst mp = Ok (Some x) /\ same_matrix x ref).
Proof. exact checked_reference_is_wrapping_mul. Qed.
Print Assumptions C01_checked_reference.
Example C01_checked_reference_nonvacuous : exists ref, reference_mul (ex_ops checked) ex_l ex_r ex_mp (ex_dst ColMajor) = Ok ref.
Proof. eexists. vm_compute. reflexivity. Qed.

(** If no overflow occurs in exact arithmetic the stored values are the exact ones. *)
Theorem C01_exact : forall c dbg st pt dt kl l r dst mp,
  let o := int_ops wrapping dbg st pt dt in
  integer_operands st pt l r -> valid_call c o kl l r dst mp -> valid_bounds dt mp ->
  (forall i j, in_matrix (m_layout dst) i j -> representable dt mp (m_zp dst) i j (exact_acc l r mp i j)) ->
  (forall g sched, exists out, mul c o kl g sched l r dst mp = Ok out /\
     forall x, out = Some x -> forall i j, in_matrix (m_layout dst) i j ->
       exact_result dt mp (m_zp dst) i j (exact_acc l r mp i j) (entry x i j)) /\
  (forall g sched, fair (c_max_threads c) sched -> exists n x, mul c o kl g (prefix sched n) l r dst mp = Ok (Some x)).
Proof. exact wrapping_mul_exact. Qed.
Print Assumptions C01_exact.
Example C01_exact_nonvacuous : valid_bounds u8 ex_mp /\ forall o i j, in_matrix (m_layout (ex_dst o)) i j ->
  representable u8 ex_mp (m_zp (ex_dst o)) i j (exact_acc ex_l ex_r ex_mp i j).
Proof. split; [exact ex_bounds|exact ex_representable]. Qed.

(** With undefined signed overflow: under a bound on depth and bias, Mul is defined
    whenever the reference is, and equal. *)
Theorem C01_checked_mul : forall c dbg st pt dt kl l r dst mp,
  let o := int_ops checked dbg st pt dt in
  integer_operands st pt l r -> valid_call c o kl l r dst mp ->
  (forall D i j, is_round_up (ml_rows (m_layout r)) (kl_rows (lhs kl)) D -> in_matrix (m_layout dst) i j ->
     4 * D * max_abs (lhs pt) * max_abs (rhs pt) + Z.abs (bias_at mp i j) <= int_max) ->
  forall ref, reference_mul o l r mp dst = Ok ref ->
  (forall g sched, exists out, mul c o kl g sched l r dst mp = Ok out /\ forall x, out = Some x -> same_matrix x ref) /\
  (forall g sched, fair (c_max_threads c) sched ->
     exists n x, mul c o kl g (prefix sched n) l r dst mp = Ok (Some x) /\ same_matrix x ref).
Proof. exact checked_mul_is_reference. Qed.
Print Assumptions C01_checked_mul.
Theorem C01_checked_exact : forall c dbg st pt dt kl l r dst mp,
  let o := int_ops checked dbg st pt dt in
  valid_call c o kl l r dst mp -> integer_operands st pt l r -> valid_bounds dt mp ->
  (forall D i j, is_round_up (ml_rows (m_layout r)) (kl_rows (lhs kl)) D -> in_matrix (m_layout dst) i j ->
     4 * D * max_abs (lhs pt) * max_abs (rhs pt) + Z.abs (bias_at mp i j) <= int_max) ->
  (forall i j, in_matrix (m_layout dst) i j -> representable dt mp (m_zp dst) i j (exact_acc l r mp i j)) ->
  (forall g sched, exists out, mul c o kl g sched l r dst mp = Ok out /\
     forall x, out = Some x -> forall i j, in_matrix (m_layout dst) i j ->
       exact_result dt mp (m_zp dst) i j (exact_acc l r mp i j) (entry x i j)) /\
  (forall g sched, fair (c_max_threads c) sched -> exists n x, mul c o kl g (prefix sched n) l r dst mp = Ok (Some x)).
Proof. exact checked_mul_exact. Qed.
Print Assumptions C01_checked_exact.
Example C01_checked_nonvacuous : forall o n, good_threads n ->
  valid_call (ex_config n) (ex_ops checked) ex_kl ex_l ex_r (ex_dst o) ex_mp /\
  forall D i j, is_round_up (ml_rows (m_layout ex_r)) (kl_rows (lhs ex_kl)) D -> in_matrix (m_layout (ex_dst o)) i j ->
    4 * D * max_abs (lhs (mk_sp s8 s8)) * max_abs (rhs (mk_sp s8 s8)) + Z.abs (bias_at ex_mp i j) <= int_max.
Proof. intros o n H. split; [apply ex_valid; exact H|apply ex_no_overflow]. Qed.

(** Without a bound the claim is false of the C++ code: although the exact result is
    representable and ReferenceMul computes it without overflow, the sum of products of the
    raw entries overflows, which is undefined behaviour. *)
Theorem C01_without_bound_refuted : exists c dbg st pt dt kl l r dst mp,
  let o := int_ops checked dbg st pt dt in
  valid_call c o kl l r dst mp /\ integer_operands st pt l r /\ valid_bounds dt mp /\
  (forall i j, in_matrix (m_layout dst) i j -> representable dt mp (m_zp dst) i j (exact_acc l r mp i j)) /\
  (exists ref, reference_mul o l r mp dst = Ok ref) /\
  forall g sched x, mul c o kl g sched l r dst mp <> Ok (Some x).
Proof. exact accumulation_overflow. Qed.
Print Assumptions C01_without_bound_refuted.

(** C02. Any two configurations (build options, strategy, thread limit, caches), fresh
    memories and schedules: if one completes, the other is defined, and where it completes
    gives the same bits. For any scalar operations. *)
Theorem C02_configurations_agree : forall V (o : ops V) kl l r dst mp c1 c2 g1 g2 s1 s2 d1,
  valid_call c1 o kl l r dst mp -> valid_call c2 o kl l r dst mp ->
  mul c1 o kl g1 s1 l r dst mp = Ok (Some d1) ->
  exists out, mul c2 o kl g2 s2 l r dst mp = Ok out /\ forall d2, out = Some d2 -> same_matrix d1 d2.
Proof. exact configurations_agree. Qed.
Print Assumptions C02_configurations_agree.
Theorem C02_fair_schedules_complete : forall V (o : ops V) kl l r dst mp c1 c2 g1 g2 s1 d1 sched,
  valid_call c1 o kl l r dst mp -> valid_call c2 o kl l r dst mp ->
  mul c1 o kl g1 s1 l r dst mp = Ok (Some d1) -> fair (c_max_threads c2) sched ->
  exists n d2, mul c2 o kl g2 (prefix sched n) l r dst mp = Ok (Some d2) /\ same_matrix d1 d2.
Proof. exact fair_schedules_complete. Qed.
Print Assumptions C02_fair_schedules_complete.
(** One thread on the block route and three threads, in floating point. *)
Example C02_nonvacuous :
  valid_call (ex_config 1) f32_ops ex_kl ex_fl ex_fr (ex_fdst ColMajor) ex_fmp /\
  valid_call (ex_config 3) f32_ops ex_kl ex_fl ex_fr (ex_fdst ColMajor) ex_fmp /\
  (x <- mul (ex_config 1) f32_ops ex_kl (ex_garbage S754_nan) ex_sched ex_fl ex_fr (ex_fdst ColMajor) ex_fmp ;; Ok (option_map content x)) =
  Ok (Some [S754_finite true 9375020 3; S754_finite true 15000036 1; S754_finite true 15000032 1; S754_finite true 15000033 3]).
Proof. split; [apply ex_fvalid; unfold good_threads; lia|]. split; [apply ex_fvalid; unfold good_threads; lia|]. vm_compute. reflexivity. Qed.

(** C03. Only the entries of the destination are written ... *)
Theorem C03_writes_only_entries : forall V (o : ops V) kl l r dst mp c g sched out, valid_call c o kl l r dst mp ->
  mul c o kl g sched l r dst mp = Ok (Some out) ->
  m_layout out = m_layout dst /\ m_zp out = m_zp dst /\ blen (m_data out) = blen (m_data dst) /\
  forall x, (forall i j, in_matrix (m_layout dst) i j -> position (m_layout dst) i j <> x) ->
    bdat (m_data out) x = bdat (m_data dst) x.
Proof. exact writes_only_entries. Qed.
Print Assumptions C03_writes_only_entries.
(** ... and every one is: its previous value is irrelevant. *)
Theorem C03_every_entry_written : forall V (o : ops V) kl l r dst mp c g1 g2 s1 s2 dst' out1 out2,
  valid_call c o kl l r dst mp -> valid_call c o kl l r dst' mp ->
  m_layout dst' = m_layout dst -> m_zp dst' = m_zp dst ->
  mul c o kl g1 s1 l r dst mp = Ok (Some out1) -> mul c o kl g2 s2 l r dst' mp = Ok (Some out2) ->
  forall i j, in_matrix (m_layout dst) i j -> entry out1 i j = entry out2 i j.
Proof. exact previous_content_irrelevant. Qed.
Print Assumptions C03_every_entry_written.
(** The stride of the example is 11 for columns of 9 entries. *)
Example C03_nonvacuous :
  (x <- mul (ex_config 3) (ex_ops checked) ex_kl (ex_garbage 99) ex_sched ex_l ex_r (ex_dst ColMajor) ex_mp ;;
   Ok (option_map (fun x => firstn 14 (content x)) x), firstn 14 (content (ex_dst ColMajor))) =
  (Ok (Some [2; 20; 2; 35; 2; 2; 2; 55; 2; 2; 3; 25; 91; 2]), [0; 1; 2; 3; 4; 5; 6; 0; 1; 2; 3; 4; 5; 6]).
Proof. vm_compute. reflexivity. Qed.

(** C04. Entries do not depend on how operands and destination are stored: integers. *)
Theorem C04_integers : forall c1 c2 dbg st pt dt kl1 kl2 l1 l2 r1 r2 dst1 dst2 mp g1 g2 s1 s2 x,
  let o := int_ops wrapping dbg st pt dt in
  valid_call c1 o kl1 l1 r1 dst1 mp -> valid_call c2 o kl2 l2 r2 dst2 mp ->
  integer_operands st pt l1 r1 -> integer_operands st pt l2 r2 ->
  same_entries l1 l2 -> same_entries r1 r2 -> m_zp dst1 = m_zp dst2 ->
  mul c1 o kl1 g1 s1 l1 r1 dst1 mp = Ok (Some x) ->
  exists out, mul c2 o kl2 g2 s2 l2 r2 dst2 mp = Ok out /\
    forall y, out = Some y -> forall i j, in_matrix (m_layout dst1) i j -> entry y i j = entry x i j.
Proof. exact integer_storage_irrelevant. Qed.
Print Assumptions C04_integers.
Example C04_nonvacuous : same_entries ex_l ex_l' /\ same_entries ex_r ex_r'.
Proof. exact ex_same. Qed.

(** Floating point of any precision. *)
Theorem C04_floats : forall prec emax size c1 c2 kl1 kl2 l1 l2 r1 r2 dst1 dst2 mp g1 g2 s1 s2 x,
  1 <= prec -> let o := float_ops prec emax size in
  valid_call c1 o kl1 l1 r1 dst1 mp -> valid_call c2 o kl2 l2 r2 dst2 mp ->
  m_zp l1 = 0 -> m_zp r1 = 0 -> same_entries l1 l2 -> same_entries r1 r2 -> m_zp dst1 = m_zp dst2 ->
  mul c1 o kl1 g1 s1 l1 r1 dst1 mp = Ok (Some x) ->
  exists out, mul c2 o kl2 g2 s2 l2 r2 dst2 mp = Ok out /\
    forall y, out = Some y -> forall i j, in_matrix (m_layout dst1) i j -> entry y i j = entry x i j.
Proof. exact float_storage_irrelevant. Qed.
Print Assumptions C04_floats.

(** Any scalar operations, if the order of the destination and the kernel are kept. *)
Theorem C04_any_scalars : forall V c1 c2 (o : ops V) kl l1 l2 r1 r2 dst1 dst2 mp g1 g2 s1 s2 x,
  valid_call c1 o kl l1 r1 dst1 mp -> valid_call c2 o kl l2 r2 dst2 mp ->
  same_entries l1 l2 -> same_entries r1 r2 ->
  ml_order (m_layout dst1) = ml_order (m_layout dst2) -> m_zp dst1 = m_zp dst2 ->
  mul c1 o kl g1 s1 l1 r1 dst1 mp = Ok (Some x) ->
  exists out, mul c2 o kl g2 s2 l2 r2 dst2 mp = Ok out /\
    forall y, out = Some y -> forall i j, in_matrix (m_layout dst1) i j -> entry y i j = entry x i j.
Proof. exact @storage_irrelevant. Qed.
Print Assumptions C04_any_scalars.

(** C36. EnsurePerChannelBuffersLargeEnough ... *)
Theorem C36_channel_arrays : forall V dbg (o : ops V) required n cap fresh freshz mp,
  valid_params o mp n -> 0 <= n <= required -> is_round_up n (2 ^ mp_rounding_log2 mp) cap ->
  exists mp', ensure_per_channel_buffers dbg o required n fresh freshz mp = Ok (mp', cap <? required) /\
    params_stand_for o (cap <? required) mp mp' n required /\ mp_chan mp' = mp_chan mp.
Proof. exact @channel_arrays_safe. Qed.
Print Assumptions C36_channel_arrays.
(** ... and whole calls: kernels see arrays as long as the number of channels rounded up to
    the kernel block; they are copies, and the advisory is raised, exactly if the user's
    capacity is smaller. *)
Theorem C36_calls : forall V dbg (o : ops V) kl l r dst mp, well_formed_call dbg o kl l r dst mp ->
  forall fresh freshz cap req,
  let n := channel_count mp (m_layout dst) in
  is_round_up n (2 ^ mp_rounding_log2 mp) cap -> is_round_up n (kl_cols (channel_kernel kl mp (m_layout dst))) req ->
  exists t, mul_front_end dbg o kl fresh freshz l r dst mp = Ok (t, cap <? req) /\
    params_stand_for o (cap <? req) mp (tp_mp t) n req.
Proof. exact call_channel_arrays. Qed.
Print Assumptions C36_calls.
(** Nine channels for kernel blocks of four: twelve values are read. *)
Example C36_nonvacuous :
  ('(t, adv) <- mul_front_end true (ex_ops checked) ex_kl (fun _ => 99) (fun _ => 55) ex_l ex_r (ex_dst ColMajor) ex_mp ;;
   Ok (adv, option_map (fun b => (blen b, map (bdat b) [7; 8; 9; 10; 11])) (mp_bias (tp_mp t)),
       option_map (fun b => (blen b, map (bdat b) [7; 8; 9; 10; 11])) (mp_exp_pc (tp_mp t)))) =
  Ok (true, Some (12, [5000; 6000; 0; 0; 0]), Some (12, [-9; -8; 0; 0; 0])).
Proof. vm_compute. reflexivity. Qed.

(** C43 is false: every product with a zero dimension aborts ... *)
Theorem C43_aborts : forall V c (o : ops V) kl g sched l r dst mp,
  well_formed_call (c_dbg c) o kl l r dst mp ->
  ml_rows (m_layout dst) = 0 \/ ml_cols (m_layout dst) = 0 \/ ml_rows (m_layout r) = 0 ->
  mul c o kl g sched l r dst mp = Abort.
Proof. exact @empty_product_aborts. Qed.
Print Assumptions C43_aborts.
Example C43_nonvacuous : well_formed_call true (of_ops checked) ex_kl em_l em_r em_dst em_mp.
Proof. exact em_well_formed. Qed.
(** ... even where ReferenceMul stores values. *)
Theorem C43_refuted : exists c o kl (l r dst ref : mat Z) mp,
  well_formed_call (c_dbg c) o kl l r dst mp /\ 1 <= c_max_threads c /\
  reference_mul o l r mp dst = Ok ref /\ (exists i j, in_matrix (m_layout dst) i j /\ entry ref i j <> entry dst i j) /\
  forall g sched, mul c o kl g sched l r dst mp = Abort.
Proof. exact empty_product_differs. Qed.
Print Assumptions C43_refuted.

(** C45. In floating point of any precision Mul on the portable paths is ReferenceMul, bit
    for bit, signed zeros and infinities included. *)
Theorem C45_float_reference : forall prec emax size, 1 <= prec -> forall c kl l r dst mp,
  let o := float_ops prec emax size in
  valid_call c o kl l r dst mp -> m_zp l = 0 -> m_zp r = 0 ->
  exists ref, reference_mul o l r mp dst = Ok ref /\
  (forall g sched, exists out, mul c o kl g sched l r dst mp = Ok out /\ forall x, out = Some x -> same_matrix x ref) /\
  (forall g sched, fair (c_max_threads c) sched ->
     exists n x, mul c o kl g (prefix sched n) l r dst mp = Ok (Some x) /\ same_matrix x ref).
Proof. exact float_mul_is_reference. Qed.
Print Assumptions C45_float_reference.
Example C45_nonvacuous : forall o n, good_threads n -> valid_call (ex_config n) f32_ops ex_kl ex_fl ex_fr (ex_fdst o) ex_fmp.
Proof. exact ex_fvalid. Qed.
Example C45_run :
  (x <- reference_mul f32_ops ex_fl ex_fr ex_fmp (ex_fdst RowMajor) ;; Ok (content x),
   x <- mul (ex_config 3) f32_ops ex_kl (ex_garbage S754_nan) ex_sched ex_fl ex_fr (ex_fdst RowMajor) ex_fmp ;; Ok (option_map content x)) =
  (let v := [S754_finite true 9375020 3; S754_finite true 15000032 1; S754_finite true 15000036 1; S754_finite true 15000033 3] in
   (Ok v, Ok (Some v))).
Proof. vm_compute. reflexivity. Qed.
