(** Rules for running programs of the machine of Neon64.v. *)
From Coq Require Import ZArith List Bool Lia.
From Verif Require Import Base Mat Simd Neon64.
Import ListNotations.
Open Scope Z_scope.

(** One step. *)
Definition step1 (code : list instr) (pc : nat) (s : state) : option (nat * state) :=
  match nth_error code pc with
  | None => None
  | Some (B c t) =>
    match holds c (fl s) with
    | Ok true => match target_of code pc t with Some p => Some (p, s) | None => None end
    | Ok false => Some (S pc, s)
    | _ => None
    end
  | Some i => match exec i s with Ok s' => Some (S pc, s') | _ => None end
  end.
Fixpoint steps (k : nat) (code : list instr) (pc : nat) (s : state) (pc' : nat) (s' : state) : Prop :=
  match k with
  | O => pc = pc' /\ s = s'
  | S k => exists pc1 s1, step1 code pc s = Some (pc1, s1) /\ steps k code pc1 s1 pc' s'
  end.

(** From [pc] and [s] the program gets to a place and a state with [Q] in at most [n] steps. *)
Definition reach (n : nat) (code : list instr) (pc : nat) (s : state) (Q : nat -> state -> Prop) : Prop :=
  exists k pc' s', (k <= n)%nat /\ Q pc' s' /\ steps k code pc s pc' s'.

Lemma run_step : forall code pc s pc1 s1 fuel, step1 code pc s = Some (pc1, s1) -> run (S fuel) code pc s = run fuel code pc1 s1.
Proof.
  intros code pc s pc1 s1 fuel H. unfold step1 in H. cbn [run]. destruct (nth_error code pc) as [i|]; [|discriminate]. destruct i;
    try (match type of H with context [exec ?i s] => destruct (exec i s); [|discriminate|discriminate] end; cbn [bind]; congruence).
  destruct (holds c (fl s)) as [[]| |]; try discriminate; cbn [bind]; [|congruence]. destruct (target_of code pc t); congruence.
Qed.
Lemma run_steps : forall k code pc s pc' s' fuel, steps k code pc s pc' s' -> run (k + fuel) code pc s = run fuel code pc' s'.
Proof.
  induction k as [|k IH]; intros code pc s pc' s' fuel H; [destruct H as [-> ->]; reflexivity|]. destruct H as (pc1 & s1 & H1 & H2).
  cbn [Nat.add]. rewrite (run_step _ _ _ _ _ _ H1). apply IH, H2.
Qed.
Lemma steps_app : forall k m code pc s pc1 s1 pc2 s2, steps k code pc s pc1 s1 -> steps m code pc1 s1 pc2 s2 -> steps (k + m) code pc s pc2 s2.
Proof.
  induction k as [|k IH]; intros m code pc s pc1 s1 pc2 s2 H H2; [destruct H as [-> ->]; exact H2|].
  destruct H as (q & t & H1 & H). exists q, t. split; [exact H1|]. eapply IH; [exact H|exact H2].
Qed.

Lemma reach_done : forall n code pc s (Q : nat -> state -> Prop), Q pc s -> reach n code pc s Q.
Proof. intros n code pc s Q H. exists 0%nat, pc, s. split; [lia|]. split; [exact H|]. split; reflexivity. Qed.

Lemma reach_trans : forall n m code pc s (P Q : nat -> state -> Prop), reach n code pc s P ->
  (forall pc' s', P pc' s' -> reach m code pc' s' Q) -> reach (n + m) code pc s Q.
Proof.
  intros n m code pc s P Q (k & pc' & s' & Hk & HP & Hrun) H. destruct (H pc' s' HP) as (k2 & pc2 & s2 & Hk2 & HQ & Hrun2).
  exists (k + k2)%nat, pc2, s2. split; [lia|]. split; [exact HQ|]. eapply steps_app; [exact Hrun|exact Hrun2].
Qed.

Lemma reach_weaken : forall n m code pc s (P Q : nat -> state -> Prop), reach n code pc s P -> (n <= m)%nat ->
  (forall pc' s', P pc' s' -> Q pc' s') -> reach m code pc s Q.
Proof.
  intros n m code pc s P Q (k & pc' & s' & Hk & HP & Hrun) Hn H. exists k, pc', s'. split; [lia|]. split; [apply H, HP|exact Hrun].
Qed.

Lemma reach_step : forall n code pc s pc1 s1 Q, step1 code pc s = Some (pc1, s1) -> reach n code pc1 s1 Q -> reach (S n) code pc s Q.
Proof.
  intros n code pc s pc1 s1 Q H (k & pc' & t & Hk & HQ & Hrun). exists (S k), pc', t. split; [lia|]. split; [exact HQ|]. exists pc1, s1. split; assumption.
Qed.
Lemma reach_next : forall n code pc s s' i Q, nth_error code pc = Some i -> (forall c t, i <> B c t) -> exec i s = Ok s' ->
  reach n code (S pc) s' Q -> reach (S n) code pc s Q.
Proof.
  intros n code pc s s' i Q Hi Hb He. apply reach_step. unfold step1. rewrite Hi.
  destruct i; try (rewrite He; reflexivity). exfalso. eapply Hb. reflexivity.
Qed.

Lemma reach_b : forall n code pc s c t b p Q, nth_error code pc = Some (B c t) -> target_of code pc t = Some p -> holds c (fl s) = Ok b ->
  reach n code (if b then p else S pc) s Q -> reach (S n) code pc s Q.
Proof.
  intros n code pc s c t b p Q Hi Ht Hh. apply reach_step. unfold step1. rewrite Hi, Hh. destruct b; [|reflexivity].
  rewrite Ht. reflexivity.
Qed.

Lemma run_end : forall code pc s fuel, nth_error code pc = None -> (0 < fuel)%nat -> run fuel code pc s = Ok s.
Proof. intros code pc s [|fuel] H Hf; [lia|]. cbn [run]. rewrite H. reflexivity. Qed.

Lemma reach_run : forall n code pc s (Q : nat -> state -> Prop) fuel, reach n code pc s Q -> (n < fuel)%nat ->
  (forall pc' s', Q pc' s' -> nth_error code pc' = None) -> exists s', run fuel code pc s = Ok s' /\ exists pc', Q pc' s'.
Proof.
  intros n code pc s Q fuel (k & pc' & s' & Hk & HQ & Hrun) Hf He. exists s'. split; [|exists pc'; exact HQ].
  replace fuel with (k + (fuel - k))%nat by lia. rewrite (run_steps _ _ _ _ _ _ _ Hrun). apply run_end; [apply (He _ _ HQ)|lia].
Qed.

(** ** Running a part of a program *)
Lemma find_label_at : forall code l a b, find_label code l (a + b) = option_map (Nat.add a) (find_label code l b).
Proof.
  induction code as [|i code IH]; intros l a b; [reflexivity|]. cbn [find_label].
  destruct i; try (rewrite <- Nat.add_succ_r; apply IH). destruct (Nat.eqb l l0); [reflexivity|]. rewrite <- Nat.add_succ_r. apply IH.
Qed.
Lemma find_label_app : forall code rest l a p, find_label code l a = Some p -> find_label (code ++ rest) l a = Some p.
Proof.
  induction code as [|i code IH]; intros rest l a p H; [discriminate|]. cbn [find_label app] in *.
  destruct i; try (apply IH, H). destruct (Nat.eqb l l0); [exact H|apply IH, H].
Qed.
Lemma find_last_at : forall code l a b, find_last code l (a + b) = option_map (Nat.add a) (find_last code l b).
Proof.
  induction code as [|i code IH]; intros l a b; [reflexivity|]. cbn [find_last]. rewrite <- Nat.add_succ_r, IH.
  destruct (find_last code l (S b)); [reflexivity|]. cbn [option_map]. destruct i; try reflexivity. destruct (Nat.eqb l l0); reflexivity.
Qed.
Lemma find_last_app : forall pre code l a p, find_last code l (a + length pre) = Some p -> find_last (pre ++ code) l a = Some p.
Proof.
  induction pre as [|i pre IH]; intros code l a p H; [cbn [length app] in *; rewrite Nat.add_0_r in H; exact H|].
  cbn [find_last app length] in *. rewrite (IH code l (S a) p); [reflexivity|]. replace (S a + length pre)%nat with (a + S (length pre))%nat by lia. exact H.
Qed.

(** [part] is at [base] in [code]. *)
Definition part_at (code part : list instr) (base : nat) : Prop := exists pre rest, code = pre ++ part ++ rest /\ length pre = base.

Lemma part_nth : forall code part base pc i, part_at code part base -> nth_error part pc = Some i -> nth_error code (base + pc) = Some i.
Proof.
  intros code part base pc i (pre & rest & -> & <-) H. rewrite nth_error_app2 by lia. replace (length pre + pc - length pre)%nat with pc by lia.
  rewrite nth_error_app1; [exact H|]. apply nth_error_Some. congruence.
Qed.
Lemma part_target : forall code part base pc t p, part_at code part base -> (pc < length part)%nat -> target_of part pc t = Some p -> target_of code (base + pc) t = Some (base + p)%nat.
Proof.
  intros code part base pc t p (pre & rest & -> & <-) Hpc H. destruct t as [l|l]; cbn [target_of] in *.
  - replace (S (length pre + pc)) with (length pre + S pc)%nat by lia.
    rewrite skipn_app. rewrite (skipn_all2 pre) by lia. cbn [app]. replace (length pre + S pc - length pre)%nat with (S pc) by lia.
    rewrite find_label_at. rewrite skipn_app. rewrite (find_label_app _ _ _ _ _ H). reflexivity.
  - rewrite firstn_app. rewrite (firstn_all2 pre) by lia. replace (length pre + pc - length pre)%nat with pc by lia.
    rewrite firstn_app. replace (pc - length part)%nat with 0%nat by lia. cbn [firstn]. rewrite app_nil_r.
    apply find_last_app. replace (0 + length pre)%nat with (length pre + 0)%nat by lia. rewrite find_last_at, H. reflexivity.
Qed.
Lemma part_step : forall code part base pc s pc1 s1, part_at code part base -> step1 part pc s = Some (pc1, s1) -> step1 code (base + pc) s = Some (base + pc1, s1)%nat.
Proof.
  intros code part base pc s pc1 s1 HP H. unfold step1 in *. destruct (nth_error part pc) as [i|] eqn:Ei; [|discriminate]. rewrite (part_nth _ _ _ _ _ HP Ei).
  assert (Hpc : (pc < length part)%nat) by (apply nth_error_Some; congruence).
  destruct i; try (match type of H with context [exec ?i s] => destruct (exec i s); [|discriminate|discriminate] end; injection H as <- <-; rewrite Nat.add_succ_r; reflexivity).
  destruct (holds c (fl s)) as [[]| |]; try discriminate.
  - destruct (target_of part pc t) eqn:Et; [|discriminate]. injection H as <- <-. rewrite (part_target _ _ _ _ _ _ HP Hpc Et). reflexivity.
  - injection H as <- <-. rewrite Nat.add_succ_r. reflexivity.
Qed.
Lemma reach_part : forall n code part base pc s Q, part_at code part base -> reach n part pc s Q ->
  reach n code (base + pc) s (fun pc' s' => exists p, pc' = (base + p)%nat /\ Q p s').
Proof.
  intros n code part base pc s Q HP (k & pc' & s' & Hk & HQ & H). exists k, (base + pc')%nat, s'. split; [exact Hk|]. split; [exists pc'; split; [reflexivity|exact HQ]|].
  clear Hk HQ. revert pc s H. induction k as [|k IH]; intros pc s H; [destruct H as [-> ->]; split; reflexivity|].
  destruct H as (p1 & s1 & H1 & H2). exists (base + p1)%nat, s1. split; [apply (part_step _ _ _ _ _ _ _ HP H1)|apply IH, H2].
Qed.

(** ** One rule for each kind of instruction *)
Section Rules.
Variables (n : nat) (code : list instr) (pc : nat) (s : state) (Q : nat -> state -> Prop).

Lemma r_label : forall l, nth_error code pc = Some (Label l) -> reach n code (S pc) s Q -> reach (S n) code pc s Q.
Proof. intros l H. apply reach_next with (1 := H); [discriminate|reflexivity]. Qed.
Lemma r_nop : nth_error code pc = Some Nop -> reach n code (S pc) s Q -> reach (S n) code pc s Q.
Proof. intros H. apply reach_next with (1 := H); [discriminate|reflexivity]. Qed.

Lemma r_movw : forall d o z, nth_error code pc = Some (Mov W d o) -> operand_val W s o = Ok (Int z) ->
  reach n code (S pc) {| xs := upd (xs s) d (Int (wrap_u 32 z)); vs := vs s; fl := fl s; mem := mem s |} Q -> reach (S n) code pc s Q.
Proof. intros d o z H Ho. apply reach_next with (1 := H); [discriminate|]. cbn [exec exec_plain]. rewrite Ho. reflexivity. Qed.
Lemma r_movx : forall d o v, nth_error code pc = Some (Mov X d o) -> operand_val X s o = Ok v ->
  reach n code (S pc) {| xs := upd (xs s) d v; vs := vs s; fl := fl s; mem := mem s |} Q -> reach (S n) code pc s Q.
Proof. intros d o v H Ho. apply reach_next with (1 := H); [discriminate|]. cbn [exec exec_plain]. rewrite Ho. reflexivity. Qed.

Lemma r_alu : forall a w d m o y v, nth_error code pc = Some (Alu a false w d m o) -> operand_val w s o = Ok y -> alu_val a w (xs s m) y = Ok v ->
  reach n code (S pc) {| xs := upd (xs s) d v; vs := vs s; fl := fl s; mem := mem s |} Q -> reach (S n) code pc s Q.
Proof. intros a w d m o y v H Ho Hv. apply reach_next with (1 := H); [discriminate|]. cbn [exec exec_plain]. rewrite Ho. cbn [bind]. rewrite Hv. reflexivity. Qed.
Lemma r_alus : forall a w d m o y v g, nth_error code pc = Some (Alu a true w d m o) -> operand_val w s o = Ok y -> alu_val a w (xs s m) y = Ok v ->
  alu_flags a w (xs s m) y = Ok g ->
  reach n code (S pc) {| xs := upd (xs s) d v; vs := vs s; fl := g; mem := mem s |} Q -> reach (S n) code pc s Q.
Proof.
  intros a w d m o y v g H Ho Hv Hg. apply reach_next with (1 := H); [discriminate|]. cbn [exec exec_plain]. rewrite Ho. cbn [bind]. rewrite Hv. cbn [bind]. rewrite Hg. reflexivity.
Qed.
Lemma r_cmp : forall w m o y g, nth_error code pc = Some (Cmp w m o) -> operand_val w s o = Ok y -> compare_flags w (xs s m) y = Ok g ->
  reach n code (S pc) {| xs := xs s; vs := vs s; fl := g; mem := mem s |} Q -> reach (S n) code pc s Q.
Proof. intros w m o y g H Ho Hg. apply reach_next with (1 := H); [discriminate|]. cbn [exec exec_plain]. rewrite Ho. cbn [bind]. rewrite Hg. reflexivity. Qed.

Lemma r_ld1 : forall k d base post v y p, nth_error code pc = Some (Ld1 k d base post) -> load_bytes (mem s) (xs s base) k = Ok v ->
  operand_val X s post = Ok y -> sum_val X (xs s base) y = Ok p ->
  reach n code (S pc) {| xs := upd (xs s) base p; vs := upd (vs s) d (extend v); fl := fl s; mem := mem s |} Q -> reach (S n) code pc s Q.
Proof.
  intros k d base post v y p H Hl Ho Hp. apply reach_next with (1 := H); [discriminate|]. cbn [exec exec_plain]. rewrite Hl. cbn [bind]. unfold advance_base.
  assert (E : operand_val X (set_v s d (extend v)) post = operand_val X s post) by (destruct post; reflexivity). rewrite E, Ho. cbn [bind set_v xs]. rewrite Hp. reflexivity.
Qed.
Lemma r_st1 : forall k a base post m y p, nth_error code pc = Some (St1 k a base post) -> store_vec (mem s) (xs s base) (firstn k (vs s a)) = Ok m ->
  operand_val X s post = Ok y -> sum_val X (xs s base) y = Ok p ->
  reach n code (S pc) {| xs := upd (xs s) base p; vs := vs s; fl := fl s; mem := m |} Q -> reach (S n) code pc s Q.
Proof.
  intros k a base post m y p H Hl Ho Hp. apply reach_next with (1 := H); [discriminate|]. cbn [exec exec_plain]. rewrite Hl. cbn [bind]. unfold advance_base.
  assert (E : operand_val X (set_mem s m) post = operand_val X s post) by (destruct post; reflexivity). rewrite E, Ho. cbn [bind set_mem xs]. rewrite Hp. reflexivity.
Qed.
Lemma r_ld1lane : forall k d i base post v y p, nth_error code pc = Some (Ld1Lane k d i base post) -> load_bytes (mem s) (xs s base) k = Ok v ->
  operand_val X s post = Ok y -> sum_val X (xs s base) y = Ok p ->
  reach n code (S pc) {| xs := upd (xs s) base p; vs := upd (vs s) d (splice (vs s d) (k * i) v); fl := fl s; mem := mem s |} Q -> reach (S n) code pc s Q.
Proof.
  intros k d i base post v y p H Hl Ho Hp. apply reach_next with (1 := H); [discriminate|]. cbn [exec exec_plain]. rewrite Hl. cbn [bind]. unfold advance_base.
  assert (E : operand_val X (set_v s d (splice (vs s d) (k * i) v)) post = operand_val X s post) by (destruct post; reflexivity). rewrite E, Ho. cbn [bind set_v xs]. rewrite Hp. reflexivity.
Qed.
Lemma r_ldrq : forall d base o v y p, nth_error code pc = Some (LdrQ d base o) -> operand_val X s o = Ok y -> sum_val X (xs s base) y = Ok p ->
  load_bytes (mem s) p 16 = Ok v ->
  reach n code (S pc) {| xs := xs s; vs := upd (vs s) d v; fl := fl s; mem := mem s |} Q -> reach (S n) code pc s Q.
Proof. intros d base o v y p H Ho Hp Hl. apply reach_next with (1 := H); [discriminate|]. cbn [exec exec_plain]. rewrite Ho. cbn [bind]. rewrite Hp. cbn [bind]. rewrite Hl. reflexivity. Qed.
Lemma r_strq : forall a base o m y p, nth_error code pc = Some (StrQ a base o) -> operand_val X s o = Ok y -> sum_val X (xs s base) y = Ok p ->
  store_vec (mem s) p (vs s a) = Ok m ->
  reach n code (S pc) {| xs := xs s; vs := vs s; fl := fl s; mem := m |} Q -> reach (S n) code pc s Q.
Proof. intros a base o m y p H Ho Hp Hl. apply reach_next with (1 := H); [discriminate|]. cbn [exec exec_plain]. rewrite Ho. cbn [bind]. rewrite Hp. cbn [bind]. rewrite Hl. reflexivity. Qed.
Lemma r_ldr : forall k d base o v y p, nth_error code pc = Some (Ldr k d base o) -> operand_val X s o = Ok y -> sum_val X (xs s base) y = Ok p ->
  load_val (mem s) p k = Ok v ->
  reach n code (S pc) {| xs := upd (xs s) d v; vs := vs s; fl := fl s; mem := mem s |} Q -> reach (S n) code pc s Q.
Proof. intros k d base o v y p H Ho Hp Hl. apply reach_next with (1 := H); [discriminate|]. cbn [exec exec_plain]. rewrite Ho. cbn [bind]. rewrite Hp. cbn [bind]. rewrite Hl. reflexivity. Qed.

Lemma r_dup : forall k c d r z, nth_error code pc = Some (Dup k c d r) -> as_int (xs s r) = Ok z ->
  reach n code (S pc) {| xs := xs s; vs := upd (vs s) d (extend (of_lanes k (repeat z c))); fl := fl s; mem := mem s |} Q -> reach (S n) code pc s Q.
Proof. intros k c d r z H Hz. apply reach_next with (1 := H); [discriminate|]. cbn [exec exec_plain]. rewrite Hz. reflexivity. Qed.
Lemma r_ins : forall k d i r z, nth_error code pc = Some (Ins k d i r) -> as_int (xs s r) = Ok z ->
  reach n code (S pc) {| xs := xs s; vs := upd (vs s) d (splice (vs s d) (k * i) (bytes_of k z)); fl := fl s; mem := mem s |} Q -> reach (S n) code pc s Q.
Proof. intros k d i r z H Hz. apply reach_next with (1 := H); [discriminate|]. cbn [exec exec_plain]. rewrite Hz. reflexivity. Qed.
Lemma r_movi : forall d z, nth_error code pc = Some (Movi d z) ->
  reach n code (S pc) {| xs := xs s; vs := upd (vs s) d (repeat z 16); fl := fl s; mem := mem s |} Q -> reach (S n) code pc s Q.
Proof. intros d z H. apply reach_next with (1 := H); [discriminate|]. reflexivity. Qed.
Lemma r_v2 : forall o d a b, nth_error code pc = Some (V2 o d a b) ->
  reach n code (S pc) {| xs := xs s; vs := upd (vs s) d (vop_val o (vs s a) (vs s b)); fl := fl s; mem := mem s |} Q -> reach (S n) code pc s Q.
Proof. intros o d a b H. apply reach_next with (1 := H); [discriminate|]. reflexivity. Qed.
Lemma r_saddlp : forall k d a, nth_error code pc = Some (Saddlp k d a) ->
  reach n code (S pc) {| xs := xs s; vs := upd (vs s) d (saddlp k (vs s a)); fl := fl s; mem := mem s |} Q -> reach (S n) code pc s Q.
Proof. intros k d a H. apply reach_next with (1 := H); [discriminate|]. reflexivity. Qed.
Lemma r_sadalp : forall k d a, nth_error code pc = Some (Sadalp k d a) ->
  reach n code (S pc) {| xs := xs s; vs := upd (vs s) d (sadalp k (vs s d) (vs s a)); fl := fl s; mem := mem s |} Q -> reach (S n) code pc s Q.
Proof. intros k d a H. apply reach_next with (1 := H); [discriminate|]. reflexivity. Qed.
Lemma r_inst : forall w d a b, nth_error code pc = Some (Inst w) -> decode w = Some (Sdot d a b) ->
  reach n code (S pc) {| xs := xs s; vs := upd (vs s) d (sdot (vs s d) (vs s a) (vs s b)); fl := fl s; mem := mem s |} Q -> reach (S n) code pc s Q.
Proof. intros w d a b H Hd. apply reach_next with (1 := H); [discriminate|]. unfold exec. rewrite Hd. reflexivity. Qed.
Lemma r_tst : forall w m o y g, nth_error code pc = Some (Tst w m o) -> operand_val w s o = Ok y -> alu_flags AAnd w (xs s m) y = Ok g ->
  reach n code (S pc) {| xs := xs s; vs := vs s; fl := g; mem := mem s |} Q -> reach (S n) code pc s Q.
Proof. intros w m o y g H Ho Hg. apply reach_next with (1 := H); [discriminate|]. cbn [exec exec_plain]. rewrite Ho. cbn [bind]. rewrite Hg. reflexivity. Qed.
Lemma r_cselw : forall d a b c t z, nth_error code pc = Some (Csel W d a b c) -> holds c (fl s) = Ok t -> xs s (if t then a else b) = Int z ->
  reach n code (S pc) {| xs := upd (xs s) d (Int (wrap_u 32 z)); vs := vs s; fl := fl s; mem := mem s |} Q -> reach (S n) code pc s Q.
Proof. intros d a b c t z H Ht Hz. apply reach_next with (1 := H); [discriminate|]. cbn [exec exec_plain]. rewrite Ht. cbn [bind]. rewrite Hz. reflexivity. Qed.
Lemma r_cselx : forall d a b c t v, nth_error code pc = Some (Csel X d a b c) -> holds c (fl s) = Ok t -> xs s (if t then a else b) = v ->
  reach n code (S pc) {| xs := upd (xs s) d v; vs := vs s; fl := fl s; mem := mem s |} Q -> reach (S n) code pc s Q.
Proof. intros d a b c t v H Ht Hz. apply reach_next with (1 := H); [discriminate|]. cbn [exec exec_plain]. rewrite Ht. cbn [bind]. rewrite Hz. reflexivity. Qed.
Lemma r_ccmp : forall w m o c y g, nth_error code pc = Some (Ccmp w m o c) -> holds c (fl s) = Ok true -> operand_val w s o = Ok y -> compare_flags w (xs s m) y = Ok g ->
  reach n code (S pc) {| xs := xs s; vs := vs s; fl := g; mem := mem s |} Q -> reach (S n) code pc s Q.
Proof. intros w m o c y g H Ht Ho Hg. apply reach_next with (1 := H); [discriminate|]. cbn [exec exec_plain]. rewrite Ht. cbn [bind]. rewrite Ho. cbn [bind]. rewrite Hg. reflexivity. Qed.
Lemma r_ccmp_not : forall w m o c, nth_error code pc = Some (Ccmp w m o c) -> holds c (fl s) = Ok false ->
  reach n code (S pc) {| xs := xs s; vs := vs s; fl := {| f_eq := false; f_lt := Some false |}; mem := mem s |} Q -> reach (S n) code pc s Q.
Proof. intros w m o c H Ht. apply reach_next with (1 := H); [discriminate|]. cbn [exec exec_plain]. rewrite Ht. reflexivity. Qed.
Lemma r_vmov : forall d a, nth_error code pc = Some (VMov d a) ->
  reach n code (S pc) {| xs := xs s; vs := upd (vs s) d (vs s a); fl := fl s; mem := mem s |} Q -> reach (S n) code pc s Q.
Proof. intros d a H. apply reach_next with (1 := H); [discriminate|]. reflexivity. Qed.
Lemma r_duplane : forall k c d a i, nth_error code pc = Some (DupLane k c d a i) ->
  reach n code (S pc) {| xs := xs s; vs := upd (vs s) d (extend (of_lanes k (repeat (nth i (ulanes k (vs s a)) 0) c))); fl := fl s; mem := mem s |} Q -> reach (S n) code pc s Q.
Proof. intros k c d a i H. apply reach_next with (1 := H); [discriminate|]. reflexivity. Qed.
Lemma r_fmla : forall d a b i, nth_error code pc = Some (Fmla d a b i) ->
  reach n code (S pc) {| xs := xs s; vs := upd (vs s) d (fmla_lane (vs s d) (vs s a) (vs s b) i); fl := fl s; mem := mem s |} Q -> reach (S n) code pc s Q.
Proof. intros d a b i H. apply reach_next with (1 := H); [discriminate|]. reflexivity. Qed.
Lemma r_ldrd : forall d base o v y p, nth_error code pc = Some (LdrD d base o) -> operand_val X s o = Ok y -> sum_val X (xs s base) y = Ok p ->
  load_bytes (mem s) p 8 = Ok v ->
  reach n code (S pc) {| xs := xs s; vs := upd (vs s) d (extend v); fl := fl s; mem := mem s |} Q -> reach (S n) code pc s Q.
Proof. intros d base o v y p H Ho Hp Hl. apply reach_next with (1 := H); [discriminate|]. cbn [exec exec_plain]. rewrite Ho. cbn [bind]. rewrite Hp. cbn [bind]. rewrite Hl. reflexivity. Qed.
Lemma r_str : forall k a base o m y p z, nth_error code pc = Some (Str k a base o) -> operand_val X s o = Ok y -> sum_val X (xs s base) y = Ok p ->
  xs s a = Int z -> store_vec (mem s) p (bytes_of k z) = Ok m ->
  reach n code (S pc) {| xs := xs s; vs := vs s; fl := fl s; mem := m |} Q -> reach (S n) code pc s Q.
Proof.
  intros k a base o m y p z H Ho Hp Hz Hl. apply reach_next with (1 := H); [discriminate|]. cbn [exec exec_plain]. rewrite Ho. cbn [bind]. rewrite Hp. cbn [bind].
  rewrite Hz. cbn [as_int bind]. rewrite Hl. reflexivity.
Qed.
End Rules.

(** ** Memory while one block of bytes changes *)
Definition changed (m0 : memory) (k : nat) (b : buf Z) (m : memory) : Prop := m k = Bytes b /\ forall j, j <> k -> m j = m0 j.

Lemma store_changed : forall m0 k b m o v, changed m0 k b m -> 0 <= o -> o + Z.of_nat (length v) <= blen b ->
  exists m', store_vec m (Ptr k o) v = Ok m' /\ changed m0 k (put b o v) m'.
Proof.
  intros m0 k b m o v [Hk Hr] H1 H2. unfold store_vec. rewrite Hk.
  destruct (Z.leb_spec 0 o); [|lia]. destruct (Z.leb_spec (o + Z.of_nat (length v)) (blen b)); [|lia]. cbn [andb].
  eexists. split; [reflexivity|]. split; [unfold upd; rewrite Nat.eqb_refl; reflexivity|].
  intros j Hj. unfold upd. destruct (Nat.eqb_spec j k); [contradiction|]. apply Hr, Hj.
Qed.

Lemma load_unchanged : forall m0 k b m j sb o n, changed m0 k b m -> m0 j = Bytes sb -> j <> k -> 0 <= o -> o + Z.of_nat n <= blen sb ->
  load_bytes m (Ptr j o) n = Ok (get_bytes sb o n).
Proof.
  intros m0 k b m j sb o n [Hk Hr] Hj Hn H1 H2. unfold load_bytes. rewrite (Hr j Hn), Hj.
  destruct (Z.leb_spec 0 o); [|lia]. destruct (Z.leb_spec (o + Z.of_nat n) (blen sb)); [reflexivity|lia].
Qed.

Lemma load_val_unchanged : forall m0 k b m j sb o n, changed m0 k b m -> m0 j = Bytes sb -> j <> k -> 0 <= n -> 0 <= o -> o + n <= blen sb ->
  load_val m (Ptr j o) n = Ok (Int (of_bytes (get_bytes sb o (Z.to_nat n)))).
Proof.
  intros m0 k b m j sb o n H Hj Hn H0 H1 H2. unfold load_val. destruct H as [Hk Hr]. rewrite (Hr j Hn), Hj.
  rewrite (load_unchanged m0 k b m j sb o (Z.to_nat n)); [reflexivity|split; assumption|assumption|assumption|assumption|lia].
Qed.

Lemma put_blen : forall b o v, blen (put b o v) = blen b.
Proof. reflexivity. Qed.
Lemma get_bytes_length : forall b o n, length (get_bytes b o n) = n.
Proof. intros. unfold get_bytes. rewrite map_length. apply zseq_length. Qed.
