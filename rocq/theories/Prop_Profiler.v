(** C55: the profiler's samples are the annotated scopes that were open. *)
From Coq Require Import ZArith List.
From Verif Require Import Base Profiler SpecProfiler ProfilerFacts ProfilerProps ProfilerExamples.
Import ListNotations.
Open Scope Z_scope.

(** A stack holds the scopes entered and not left, whatever was in its memory; the program is stopped if more than 64 are open. *)
Theorem C55_scopes : forall l s open, good_stack s -> (forall n, In (Enter n) l -> good_note n) -> after l (notes_of s) = Some open ->
  if (deepest l (length (notes_of s)) <=? 64)%nat
  then exists s', calls l s = Ok s' /\ good_stack s' /\ st_id s' = st_id s /\ notes_of s' = open
  else calls l s = Abort.
Proof. exact calls_ok. Qed.
Print Assumptions C55_scopes.
(** Arguments of labels that are gone stay in memory. *)
Example C55_scopes_run : snapshot_of xp_stack1 = (7, [(1, []); (3, [4]); (2, [])]) /\
  map lb_args (firstn 2 (st_labels xp_stack1)) = [[-7; 8; -9; 1]; [4; 6; -9; 1]].
Proof. exact xp_stack1_notes. Qed.

(** A stack is read back from its bytes, whatever follows. *)
Theorem C55_round_trip : forall s, good_stack s -> exists b, stack_bytes s = Ok b /\ Z.of_nat (length b) = 8 + 32 * st_size s /\ buffer_size s = 8 + 32 * st_size s /\
  forall fresh rest, exists s', read_stack fresh (b ++ rest) = Ok s' /\ snapshot_of s' = snapshot_of s.
Proof. exact round_trip. Qed.
Print Assumptions C55_round_trip.
Example C55_nonvacuous : good_stack xp_stack1 /\ Forall good_stack xp_list.
Proof. split; [exact xp_stack1_good | exact xp_list_good]. Qed.

(** The buffer holds the stacks that were not empty when visited, in order, as long as it is not longer than an int can say. *)
Theorem C55_profile : forall l buf, Forall good_stack l -> Z.of_nat (length buf) <= int_max ->
  let taken := filter busy (map snapshot_of l) in
  if Z.of_nat (length buf) + bytes_needed taken <=? int_max
  then exists b, samples l buf = Ok (buf ++ b) /\ Z.of_nat (length b) = bytes_needed taken /\ (forall fresh, reads fresh b taken)
  else samples l buf = UB.
Proof. exact samples_ok. Qed.
Print Assumptions C55_profile.
Example C55_profile_run : samples xp_list [] = Ok xp_buf /\ length xp_buf = 360%nat.
Proof. exact xp_buf_ok. Qed.

(** Long profiles do happen: 15 hours of one thread with one scope, a sample every millisecond. *)
Theorem C55_long_profile_refuted : exists l, Forall good_stack l /\ Forall (fun s => st_size s = 1) l /\ samples l [] = UB.
Proof. exact long_profile_refuted. Qed.
Print Assumptions C55_long_profile_refuted.
