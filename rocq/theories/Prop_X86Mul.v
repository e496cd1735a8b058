(** C52: whole multiplications on the x86 paths: front end, threads, vector packing, vector kernels. *)
From Coq Require Import ZArith List.
From Verif Require Import Base SidePair Mat Scalars IntOps MulParams Kernel TrMul TrMulRun SpecMachine SpecMatrix SpecRound SpecPack SpecMul SpecSimd SpecKernel SpecPackX86
  X86Mul SpecX86Mul X86MulProps X86MulExact ExampleMul X86MulExamples.
Import ListNotations.
Open Scope Z_scope.

(** For every path, configuration, fresh memory and schedule the multiplication is defined, and if it completes every
    entry of the destination is what the kernels make of the exact accumulator; nothing else changes. *)
Theorem C52_computes : forall c p st dt l r dst mp g, vector_mul c p st dt l r dst mp -> vector_garbage (ml_order (m_layout dst)) st g ->
  forall sched, exists out, mul_x86 c p st dt g sched l r dst mp = Ok out /\ forall x, out = Some x -> vector_product dt l r mp dst x.
Proof. exact x86_computes. Qed.
Print Assumptions C52_computes.
Example C52_nonvacuous : forall p o n, good_threads n ->
  vector_mul (ex_config n) p (mk_sp u8 u8) u8 ex_l ex_r (ex_dst o) ex_mp /\ vector_garbage (ml_order (m_layout (ex_dst o))) (mk_sp u8 u8) (ex_garbage 99).
Proof. intros p o n H. split; [apply ex_vector; exact H | apply ex_vector_garbage; split; discriminate]. Qed.

(** It completes under every fair schedule whose compare-exchanges fail spuriously only finitely often. *)
Theorem C52_terminates : forall c p st dt l r dst mp g, vector_mul c p st dt l r dst mp -> vector_garbage (ml_order (m_layout dst)) st g ->
  forall sg N0, (forall i k, 0 <= i < c_max_threads c -> exists k', (k <= k')%nat /\ fst (sg k') = i) ->
  (forall k, (N0 <= k)%nat -> snd (sg k) = false) ->
  exists k out, mul_x86 c p st dt g (map sg (seq 0 k)) l r dst mp = Ok (Some out).
Proof. exact x86_fair. Qed.
Print Assumptions C52_terminates.
(** uint8 on AVX-512 and AVX with three threads. *)
Example C52_run : map (fun '(p, o) =>
  match mul_x86 (ex_config 3) p (mk_sp u8 u8) u8 (ex_garbage 99) ex_sched ex_l ex_r (ex_dst o) ex_mp with
  | Ok (Some x) => firstn 10 (content x)
  | _ => []
  end) [(PathAvx512, RowMajor); (PathAvx, ColMajor)] = [[2; 25; 101; 38; 31; 56; 2; 69; 62; 2]; [2; 20; 2; 35; 2; 2; 2; 55; 2; 2]].
Proof. vm_compute. reflexivity. Qed.

(** int32 destinations hold the exact accumulators. *)
Theorem C52_exact_int32 : forall c p st dt l r dst mp, vector_mul c p st dt l r dst mp -> dt = s32 ->
  (forall i j, in_matrix (m_layout dst) i j -> is_i32 (exact_acc l r mp i j)) ->
  forall g, vector_garbage (ml_order (m_layout dst)) st g ->
  forall sched, exists out, mul_x86 c p st dt g sched l r dst mp = Ok out /\
  forall x, out = Some x -> forall i j, in_matrix (m_layout dst) i j -> entry x i j = exact_acc l r mp i j.
Proof. exact x86_exact_int32. Qed.
Print Assumptions C52_exact_int32.
Example C52_exact_int32_nonvacuous : forall p o n, p <> PathAvx -> good_threads n ->
  vector_mul (ex_config n) p (ex16_st o) s32 (ex16_l o) (ex16_r o) (ex16_dst o) ex16_mp /\ vector_garbage o (ex16_st o) (ex_garbage 99) /\
  forall i j, in_matrix (m_layout (ex16_dst o)) i j -> is_i32 (exact_acc (ex16_l o) (ex16_r o) ex16_mp i j).
Proof. intros p o n Hp H. split; [apply ex16_vector; assumption|]. split; [apply ex16_garbage; split; discriminate | apply ex16_i32]. Qed.

(** Quantized destinations hold the exactly rounded and clamped value, or one more; exactly it where the exponent is not
    negative. *)
Theorem C52_near_exact : forall c p st dt l r dst mp, vector_mul c p st dt l r dst mp -> dt <> s32 -> it_lo dt <= m_zp dst <= it_hi dt ->
  (forall i j, in_matrix (m_layout dst) i j -> entry_fits (exact_acc l r mp i j) (exponent_at mp i j) /\
     representable dt mp (m_zp dst) i j (exact_acc l r mp i j)) ->
  forall g, vector_garbage (ml_order (m_layout dst)) st g ->
  forall sched, exists out, mul_x86 c p st dt g sched l r dst mp = Ok out /\
  forall x, out = Some x -> forall i j, in_matrix (m_layout dst) i j ->
    exists v, exact_result dt mp (m_zp dst) i j (exact_acc l r mp i j) v /\
      v <= entry x i j <= v + 1 /\ (0 <= exponent_at mp i j -> entry x i j = v).
Proof. exact x86_near_exact. Qed.
Print Assumptions C52_near_exact.
Example C52_near_exact_nonvacuous : forall o i j, in_matrix (m_layout (ex_dst o)) i j ->
  entry_fits (exact_acc ex_l ex_r ex_mp i j) (exponent_at ex_mp i j) /\ representable u8 ex_mp (m_zp (ex_dst o)) i j (exact_acc ex_l ex_r ex_mp i j).
Proof. exact ex_entry_fits. Qed.

(** The same call on the portable path, with any blocks, other memory, other threads: the same int32s, and quantized
    values that differ by at most one. *)
Theorem C52_near_portable : forall c p st dt l r dst mp, vector_mul c p st dt l r dst mp ->
  forall c' dbg kl, valid_call c' (int_ops wrapping dbg st (vector_types st) dt) kl l r dst mp ->
  it_lo dt <= m_zp dst <= it_hi dt -> (dt = s32 -> m_zp dst = 0 /\ mp_min mp = int_min /\ mp_max mp = int_max) ->
  (forall i j, in_matrix (m_layout dst) i j -> (dt <> s32 -> entry_fits (exact_acc l r mp i j) (exponent_at mp i j)) /\
     representable dt mp (m_zp dst) i j (exact_acc l r mp i j)) ->
  forall g g' sched sched' x y, vector_garbage (ml_order (m_layout dst)) st g ->
  mul_x86 c p st dt g sched l r dst mp = Ok (Some x) ->
  mul c' (int_ops wrapping dbg st (vector_types st) dt) kl g' sched' l r dst mp = Ok (Some y) ->
  forall i j, in_matrix (m_layout dst) i j -> entry y i j <= entry x i j <= entry y i j + 1 /\
    (dt = s32 \/ 0 <= exponent_at mp i j -> entry x i j = entry y i j).
Proof. exact x86_near_portable. Qed.
Print Assumptions C52_near_portable.
Example C52_near_portable_nonvacuous : forall p o n n', good_threads n -> good_threads n' ->
  vector_mul (ex_config n) p (mk_sp u8 u8) u8 ex_l ex_r (ex_dst o) ex_mp /\
  valid_call (ex_config n') (int_ops wrapping true (mk_sp u8 u8) (vector_types (mk_sp u8 u8)) u8) ex_kl ex_l ex_r (ex_dst o) ex_mp.
Proof. intros p o n n' H H'. split; [apply ex_vector; exact H | apply ex_valid; exact H']. Qed.
