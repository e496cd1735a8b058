(** C68: whole multiplications of bytes on Path::kNeonDotprod: front end, threads, packing and kernels in assembly. *)
From Coq Require Import ZArith List.
From Verif Require Import Base SidePair Mat Scalars IntOps MulParams Kernel TrMul TrMulRun SpecMachine SpecMatrix SpecRound SpecPack SpecMul SpecSimd SpecKernel
  FloatNeonMul Neon8Mul SpecNeonMul Neon8MulProps Neon8MulExact ExampleMul Neon8MulExamples.
Import ListNotations.
Open Scope Z_scope.

(** For every configuration, fresh memory, content of registers and schedule the multiplication is defined, and if it completes every
    entry of the destination is what one rounding makes of the exact accumulator; nothing else changes. *)
Theorem C68_computes : forall c ci st dt l r dst mp g, dot_mul c st dt l r dst mp -> dot_garbage g -> dot_circumstances ci ->
  forall sched, exists out, mul_dotprod c ci st dt g sched l r dst mp = Ok out /\ forall x, out = Some x -> dot_product dt l r mp dst x.
Proof. exact dot_computes. Qed.
Print Assumptions C68_computes.
Example C68_nonvacuous : forall o n, good_threads n ->
  dot_mul (ex_config n) (mk_sp u8 u8) u8 ex_l ex_r (ex_dst o) ex_mp /\ dot_garbage (ex_garbage 99) /\ dot_circumstances ex_dot_ci.
Proof. intros o n H. split; [apply ex_dot; exact H|]. split; [apply ex_dot_garbage; split; discriminate|exact ex_dot_circumstances]. Qed.

(** It completes under every fair schedule whose compare-exchanges fail spuriously only finitely often. *)
Theorem C68_terminates : forall c ci st dt l r dst mp g, dot_mul c st dt l r dst mp -> dot_garbage g -> dot_circumstances ci ->
  forall sg N0, (forall i k, 0 <= i < c_max_threads c -> exists k', (k <= k')%nat /\ fst (sg k') = i) ->
  (forall k, (N0 <= k)%nat -> snd (sg k) = false) ->
  exists k out, mul_dotprod c ci st dt g (map sg (seq 0 k)) l r dst mp = Ok (Some out).
Proof. exact dot_fair. Qed.
Print Assumptions C68_terminates.
(** uint8 in and out with three threads. *)
Example C68_run : map (fun o =>
  match mul_dotprod (ex_config 3) ex_dot_ci (mk_sp u8 u8) u8 (ex_garbage 99) ex_sched ex_l ex_r (ex_dst o) ex_mp with
  | Ok (Some x) => firstn 10 (content x)
  | _ => []
  end) [RowMajor; ColMajor] = [[2; 25; 101; 38; 31; 56; 2; 69; 62; 2]; [2; 20; 2; 35; 2; 2; 2; 55; 2; 2]].
Proof. vm_compute. reflexivity. Qed.

(** int32 destinations hold the exact accumulators. *)
Theorem C68_exact_int32 : forall c ci st dt l r dst mp g, dot_mul c st dt l r dst mp -> dot_garbage g -> dot_circumstances ci -> dt = s32 ->
  (forall i j, in_matrix (m_layout dst) i j -> is_i32 (exact_acc l r mp i j)) ->
  forall sched, exists out, mul_dotprod c ci st dt g sched l r dst mp = Ok out /\
  forall x, out = Some x -> forall i j, in_matrix (m_layout dst) i j -> entry x i j = exact_acc l r mp i j.
Proof. exact dot_exact_int32. Qed.
Print Assumptions C68_exact_int32.
(** int8 by uint8; the left operand is column-major, the right one row-major. *)
Example C68_exact_int32_nonvacuous : forall o n, good_threads n -> dot_mul (ex_config n) (mk_sp s8 u8) s32 exd_l exd_r (exd_dst o) exd_mp /\
  forall i j, in_matrix (m_layout (exd_dst o)) i j -> is_i32 (exact_acc exd_l exd_r exd_mp i j).
Proof. intros o n H. split; [apply exd_dot; exact H|apply exd_i32]. Qed.
Example C68_exact_int32_run : match mul_dotprod (ex_config 3) ex_dot_ci (mk_sp s8 u8) s32 (ex_garbage 99) ex_sched exd_l exd_r (exd_dst ColMajor) exd_mp with
  | Ok (Some x) => content x = map (fun k => exact_acc exd_l exd_r exd_mp (k mod 19) (k / 19)) (zrange 0 95)
  | _ => False
  end.
Proof. vm_compute. reflexivity. Qed.

(** Quantized destinations hold the exactly rounded and clamped value. *)
Theorem C68_exact : forall c ci st dt l r dst mp g, dot_mul c st dt l r dst mp -> dot_garbage g -> dot_circumstances ci -> dt <> s32 ->
  (forall i j, in_matrix (m_layout dst) i j -> dot_fits (exact_acc l r mp i j) (exponent_at mp i j)) ->
  forall sched, exists out, mul_dotprod c ci st dt g sched l r dst mp = Ok out /\
  forall x, out = Some x -> forall i j, in_matrix (m_layout dst) i j -> exact_result dt mp (m_zp dst) i j (exact_acc l r mp i j) (entry x i j).
Proof. exact dot_exact. Qed.
Print Assumptions C68_exact.
Example C68_exact_nonvacuous : forall o i j, in_matrix (m_layout (ex_dst o)) i j ->
  dot_fits (exact_acc ex_l ex_r ex_mp i j) (exponent_at ex_mp i j) /\ representable u8 ex_mp (m_zp (ex_dst o)) i j (exact_acc ex_l ex_r ex_mp i j).
Proof. exact ex_dot_fits. Qed.

(** The same call on the portable path, with any blocks, other memory, other threads, stores the same entries. *)
Theorem C68_as_portable : forall c ci st dt l r dst mp g, dot_mul c st dt l r dst mp -> dot_garbage g -> dot_circumstances ci ->
  forall c' dbg kl, valid_call c' (int_ops wrapping dbg st (mk_sp s8 s8) dt) kl l r dst mp ->
  (dt = s32 -> m_zp dst = 0 /\ mp_min mp = int_min /\ mp_max mp = int_max) ->
  (forall i j, in_matrix (m_layout dst) i j -> (dt <> s32 -> dot_fits (exact_acc l r mp i j) (exponent_at mp i j)) /\
     representable dt mp (m_zp dst) i j (exact_acc l r mp i j)) ->
  forall g' sched sched' x y, mul_dotprod c ci st dt g sched l r dst mp = Ok (Some x) ->
  mul c' (int_ops wrapping dbg st (mk_sp s8 s8) dt) kl g' sched' l r dst mp = Ok (Some y) ->
  forall i j, in_matrix (m_layout dst) i j -> entry x i j = entry y i j.
Proof. exact dot_as_portable. Qed.
Print Assumptions C68_as_portable.
Example C68_as_portable_nonvacuous : forall o n n', good_threads n -> good_threads n' ->
  dot_mul (ex_config n) (mk_sp u8 u8) u8 ex_l ex_r (ex_dst o) ex_mp /\
  valid_call (ex_config n') (int_ops wrapping true (mk_sp u8 u8) (mk_sp s8 s8) u8) ex_kl ex_l ex_r (ex_dst o) ex_mp.
Proof. intros o n n' H H'. split; [apply ex_dot; exact H | apply ex_valid; exact H']. Qed.
