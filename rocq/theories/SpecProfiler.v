(** What the profiler records: the nesting of annotated scopes. *)
From Coq Require Import ZArith List.
From Verif Require Import Base Profiler.
Import ListNotations.
Open Scope Z_scope.

(** An annotation: a literal, by its address, and at most four ints. *)
Definition note : Type := Z * list Z.
Definition good_note (n : note) : Prop :=
  0 <= fst n < 2 ^ 64 /\ (length (snd n) <= 4)%nat /\ Forall (fun a => int_min <= a <= int_max) (snd n).

(** Scopes entered and left by a thread. *)
Inductive scope := Enter (n : note) | Leave.
(** The open scopes, outermost first; [None] if one is left that was not entered. *)
Definition after1 (o : scope) (open : list note) : option (list note) :=
  match o with Enter n => Some (open ++ [n]) | Leave => match open with [] => None | _ => Some (removelast open) end end.
Fixpoint after (l : list scope) (open : list note) : option (list note) :=
  match l with [] => Some open | o :: l => match after1 o open with Some open => after l open | None => None end end.
(** The largest number of scopes open at once. *)
Fixpoint deepest (l : list scope) (open : nat) : nat :=
  match l with [] => open | Enter _ :: l => Nat.max open (deepest l (S open)) | Leave :: l => Nat.max open (deepest l (pred open)) end.

(** The state of a Stack object. Labels beyond its size, and arguments beyond their number, have any values. *)
Definition note_of (l : label) : note := (lb_format l, firstn (Z.to_nat (lb_count l)) (lb_args l)).
Definition notes_of (s : stack) : list note := map note_of (firstn (Z.to_nat (st_size s)) (st_labels s)).
Definition good_label (l : label) : Prop :=
  0 <= lb_format l < 2 ^ 64 /\ 0 <= lb_count l <= 4 /\ length (lb_args l) = 4%nat /\
  Forall (fun a => int_min <= a <= int_max) (lb_args l) /\ int_min <= lb_pad l <= int_max.
Definition good_stack (s : stack) : Prop :=
  0 <= st_id s < 2 ^ 32 /\ 0 <= st_size s <= 64 /\ length (st_labels s) = 64%nat /\ Forall good_label (st_labels s).

(** The sequence of Push and Pop calls. *)
Definition call (o : scope) (s : stack) : res stack := match o with Enter n => push (fst n) (snd n) s | Leave => pop s end.
Fixpoint calls (l : list scope) (s : stack) : res stack := match l with [] => Ok s | o :: l => s <- call o s ;; calls l s end.

(** The buffer after visiting stacks. *)
Fixpoint samples (l : list stack) (buf : list Z) : res (list Z) :=
  match l with [] => Ok buf | s :: l => buf <- sample s buf ;; samples l buf end.

(** A thread's identifier and its open scopes. *)
Definition snapshot : Type := Z * list note.
Definition snapshot_of (s : stack) : snapshot := (st_id s, notes_of s).

(** Reading samples one after the other gives these snapshots. *)
Inductive reads (fresh : list label) : list Z -> list snapshot -> Prop :=
| reads_nil : reads fresh [] []
| reads_cons : forall buf s l, read_stack fresh buf = Ok s -> 0 < buffer_size s <= Z.of_nat (length buf) ->
    reads fresh (skipn (Z.to_nat (buffer_size s)) buf) l -> reads fresh buf (snapshot_of s :: l).

Definition bytes_needed (l : list snapshot) : Z := fold_right (fun x n => 8 + 32 * Z.of_nat (length (snd x)) + n) 0 l.
Definition busy (x : snapshot) : bool := match snd x with [] => false | _ => true end.
