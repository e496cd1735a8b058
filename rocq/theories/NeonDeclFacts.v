(** The registers that a program may write. *)
From Coq Require Import ZArith List Bool Lia.
From Verif Require Import Base Mat Simd Neon64 NeonKernel8Code NeonDecl SpecNeonDecl.
Import ListNotations.

(** The general-purpose and the vector registers that an instruction writes. *)
Definition writes_plain (i : instr) : list nat * list nat :=
  match i with
  | Label _ | Nop | B _ _ | Inst _ | Cmp _ _ _ | Tst _ _ _ | Ccmp _ _ _ _ | StrQ _ _ _ | Str _ _ _ _ => ([], [])
  | Mov _ d _ | Alu _ _ _ d _ _ | Ldr _ d _ _ | Csel _ d _ _ _ | Ldrs _ d _ _ => ([d], [])
  | Ld1 _ d base _ | Ld1Lane _ d _ base _ => ([base], [d])
  | St1 _ _ base (Imm 0) => ([], [])
  | St1 _ _ base _ | St1Lane _ _ _ base _ | St1Two _ base _ => ([base], [])
  | LdrPost _ d base _ => ([d; base], [])
  | LdrQ d _ _ | Dup _ _ d _ | Movi d _ | Ins _ d _ _ | V2 _ d _ _ | Saddlp _ d _ | Sadalp _ d _ | Sdot d _ _ | SdotLane d _ _ _
  | Smull d _ _ | Smlal2 d _ _ | MulLane d _ _ _ | MlsLane d _ _ _ | SqdmulhLane d _ _ _ | Saddw d _ _ | Narrow _ _ _ d _
  | VMov d _ | DupLane _ _ d _ _ | Fmla d _ _ _ | LdrD d _ _ => ([], [d])
  end.
Definition writes (i : instr) : list nat * list nat :=
  match i with
  | Inst w => match decode w with Some i => writes_plain i | None => ([], []) end
  | _ => writes_plain i
  end.
Definition within (x v : list nat) (i : instr) : bool :=
  forallb (fun r => existsb (Nat.eqb r) x) (fst (writes i)) && forallb (fun r => existsb (Nat.eqb r) v) (snd (writes i)).

Lemma upd_other : forall A (f : nat -> A) i a j, j <> i -> upd f i a j = f j.
Proof. intros A f i a j H. unfold upd. destruct (Nat.eqb_spec j i); [congruence|reflexivity]. Qed.

Lemma bind_ok : forall A B (r : res A) (f : A -> res B) b, bind r f = Ok b -> exists a, r = Ok a /\ f a = Ok b.
Proof. intros A B [a| |] f b H; try discriminate. exists a. split; [reflexivity|exact H]. Qed.

Lemma advance_x : forall s base o s', advance_base s base o = Ok s' ->
  (forall r, r <> base -> xs s' r = xs s r) /\ (forall r, vs s' r = vs s r).
Proof.
  intros s base o s' H. unfold advance_base in H. apply bind_ok in H. destruct H as (y & _ & H). apply bind_ok in H. destruct H as (p & _ & H).
  injection H as <-. split; [intros r Hr; cbn [set_x xs]; apply upd_other, Hr|reflexivity].
Qed.

Ltac unbind := repeat match goal with
  | H : bind _ _ = Ok _ |- _ => apply bind_ok in H; let a := fresh "a" in let E := fresh "E" in destruct H as (a & E & H)
  | H : advance_base _ _ _ = Ok _ |- _ => apply advance_x in H; destruct H as [? ?]
  | H : (if ?b then _ else _) = Ok _ |- _ => destruct b
  | H : match ?b with _ => _ end = Ok _ |- _ => destruct b; try discriminate
  | H : Ok _ = Ok _ |- _ => injection H as <-
  | H : UB = Ok _ |- _ => discriminate
  end.
Lemma exec_plain_keeps : forall i s s', exec_plain i s = Ok s' ->
  (forall q, ~ In q (fst (writes_plain i)) -> xs s' q = xs s q) /\ (forall q, ~ In q (snd (writes_plain i)) -> vs s' q = vs s q).
Proof.
  intros i s s' H.
  assert (Hz : (exists n a base, i = St1 n a base (Imm 0)) \/ ~ (exists n a base, i = St1 n a base (Imm 0))).
  { destruct i; try (right; intros (? & ? & ? & ?); discriminate). destruct post as [[]| | | |]; try (right; intros (? & ? & ? & ?); discriminate). left. eauto. }
  destruct Hz as [(n & a & base & ->)|Hz].
  { cbn [exec_plain] in H. apply bind_ok in H. destruct H as (m & Hm & H). destruct (xs s base) as [z|k o] eqn:Eb; [discriminate|].
    unfold advance_base in H. cbn [operand_val set_mem xs] in H. rewrite Eb in H. cbn [bind sum_val] in H. injection H as <-. split; intros q _; [|reflexivity].
    cbn [set_x xs set_mem]. unfold upd. destruct (Nat.eqb_spec q base) as [->|]; [|reflexivity]. rewrite Eb. f_equal. change (wrap_s 64 (wrap_u 64 0)) with 0%Z. lia. }
  assert (Hw : writes_plain i = match i with St1 _ _ base _ => ([base], []) | i => writes_plain i end).
  { destruct i; try reflexivity. destruct post as [[]| | | |]; try reflexivity. exfalso. apply Hz. eauto. }
  rewrite Hw. clear Hw Hz. destruct i; cbn [exec_plain writes_plain fst snd In] in *; unbind; cbn [set_x set_v set_mem set_fl xs vs fl mem] in *;
    split; intros q Hq; try reflexivity;
    repeat (first [rewrite upd_other by (intro; subst; apply Hq; auto) | match goal with H : forall r : nat, _ |- _ => rewrite H by (intro; subst; apply Hq; auto) end]);
    reflexivity.
Qed.
Lemma exec_keeps : forall i s s', exec i s = Ok s' ->
  (forall q, ~ In q (fst (writes i)) -> xs s' q = xs s q) /\ (forall q, ~ In q (snd (writes i)) -> vs s' q = vs s q).
Proof.
  intros i s s' H. destruct i; try (apply exec_plain_keeps, H). cbn [exec writes] in *. destruct (decode word); [|discriminate]. apply exec_plain_keeps, H.
Qed.

Lemma within_keeps : forall x v i s s', within x v i = true -> exec i s = Ok s' ->
  (forall q, ~ In q x -> xs s' q = xs s q) /\ (forall q, ~ In q v -> vs s' q = vs s q).
Proof.
  intros x v i s s' Hw H. apply exec_keeps in H. destruct H as [Hx Hv]. apply andb_prop in Hw. destruct Hw as [Wx Wv].
  assert (Hin : forall l q m, forallb (fun r => existsb (Nat.eqb r) m) l = true -> ~ In q m -> ~ In q l).
  { intros l q m Hl Hq Hi. rewrite forallb_forall in Hl. specialize (Hl q Hi). apply existsb_exists in Hl. destruct Hl as (y & Hy & E).
    apply Nat.eqb_eq in E. subst y. exact (Hq Hy). }
  split; intros q Hq; [apply Hx|apply Hv]; eapply Hin; eassumption.
Qed.

Lemma run_keeps : forall x v code, forallb (within x v) code = true -> forall fuel pc s s', run fuel code pc s = Ok s' ->
  (forall q, ~ In q x -> xs s' q = xs s q) /\ (forall q, ~ In q v -> vs s' q = vs s q).
Proof.
  intros x v code Hc. induction fuel as [|fuel IH]; intros pc s s' H; [discriminate|]. cbn [run] in H.
  destruct (nth_error code pc) as [i|] eqn:Ei; [|injection H as <-; split; reflexivity].
  assert (Hi : within x v i = true) by (rewrite forallb_forall in Hc; apply Hc; eapply nth_error_In, Ei).
  assert (Hb : (exists c t, i = B c t) \/ forall c t, i <> B c t) by (destruct i; try (right; discriminate); left; eauto).
  destruct Hb as [(c & t & ->)|Hb].
  - apply bind_ok in H. destruct H as (b & _ & H). destruct b; [|exact (IH _ _ _ H)].
    destruct (target_of code pc t); [exact (IH _ _ _ H)|discriminate].
  - assert (H' : exists s1, exec i s = Ok s1 /\ run fuel code (S pc) s1 = Ok s').
    { destruct i; try (apply bind_ok in H; exact H). exfalso. eapply Hb. reflexivity. }
    destruct H' as (s1 & H1 & H2). destruct (within_keeps _ _ _ _ _ Hi H1) as [X1 V1]. destruct (IH _ _ _ H2) as [X2 V2].
    split; intros q Hq; [rewrite X2, X1|rewrite V2, V1]; try assumption; reflexivity.
Qed.

Lemma decl_respects : forall d, forallb (within (ad_inout d ++ ad_x d) (ad_v d)) (ad_code d) = true -> ad_cc d = true -> ad_memory d = true -> respects d.
Proof.
  intros d Hc Hcc Hm fuel s s' H. destruct (run_keeps _ _ _ Hc _ _ _ _ H) as [Hx Hv]. split.
  - intros r Hr Hr'. apply Hx. rewrite in_app_iff. tauto.
  - split; [exact Hv|]. split; congruence.
Qed.

Lemma asm_respects : forall d, In d asm_decls -> respects d.
Proof.
  intros d H. assert (Hd : (forallb (within (ad_inout d ++ ad_x d) (ad_v d)) (ad_code d) && ad_cc d && ad_memory d)%bool = true).
  { revert d H. apply forallb_forall with (f := fun d => (forallb (within (ad_inout d ++ ad_x d) (ad_v d)) (ad_code d) && ad_cc d && ad_memory d)%bool).
    vm_compute. reflexivity. }
  apply andb_prop in Hd. destruct Hd as [Hd Hm]. apply andb_prop in Hd. destruct Hd as [Hc Hcc]. apply decl_respects; assumption.
Qed.

(** Kernel8bitNeonDotprod1Col with v20 added to its clobbers. *)
Lemma dotprod_1col_but_v20 : forall fuel s s', run fuel kernel8_dotprod_1col 0 s = Ok s' ->
  (forall r, ~ In r (ad_inout kernel8_dotprod_1col_decl) -> ~ In r (ad_x kernel8_dotprod_1col_decl) -> xs s' r = xs s r) /\
  (forall r, ~ In r (ad_v kernel8_dotprod_1col_decl) -> r <> 20%nat -> vs s' r = vs s r).
Proof.
  intros fuel s s' H.
  destruct (run_keeps (ad_inout kernel8_dotprod_1col_decl ++ ad_x kernel8_dotprod_1col_decl) (ad_v kernel8_dotprod_1col_decl ++ [20%nat])
              kernel8_dotprod_1col ltac:(vm_compute; reflexivity) _ _ _ _ H) as [Hx Hv]. split.
  - intros r Hr Hr'. apply Hx. rewrite in_app_iff. tauto.
  - intros r Hr Hr'. apply Hv. rewrite in_app_iff. intros [Hi|[Hi|[]]]; [exact (Hr Hi)|congruence].
Qed.
