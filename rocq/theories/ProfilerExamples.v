From Coq Require Import ZArith List Bool Sorted Permutation Lia.
From Verif Require Import Base RequantFacts Profiler SpecProfiler ProfilerFacts ProfilerProps TreeView SpecTreeView TreeViewFacts TreeViewTree TreeViewProps ProfilerMachine SpecProfilerMachine.
Import ListNotations.
Open Scope Z_scope.

(** ** An order by decreasing weights *)
Fixpoint insert_by (ws : list Z) (i : nat) (l : list nat) : list nat :=
  match l with [] => [i] | j :: r => if nth j ws 0 <=? nth i ws 0 then i :: l else j :: insert_by ws i r end.
Definition xp_order (ws : list Z) : list nat := fold_right (insert_by ws) [] (seq 0 (length ws)).
Lemma insert_perm : forall ws i l, Permutation (insert_by ws i l) (i :: l).
Proof. intros ws i l. induction l as [|j l IH]; cbn [insert_by]; [reflexivity|]. destruct (nth j ws 0 <=? nth i ws 0); [reflexivity|]. rewrite IH. apply perm_swap. Qed.
Lemma insert_sorted : forall ws i l, StronglySorted Z.ge (map (fun j => nth j ws 0) l) -> StronglySorted Z.ge (map (fun j => nth j ws 0) (insert_by ws i l)).
Proof.
  intros ws i l. induction l as [|j l IH]; intros S; cbn [insert_by map] in *; [repeat constructor|]. pose proof S as S0. inversion_clear S as [|? ? S' F]. destruct (Z.leb_spec (nth j ws 0) (nth i ws 0)) as [L|L]; cbn [map].
  - constructor; [exact S0|]. constructor; [lia|]. eapply Forall_impl; [|exact F]. intros a Ha. cbn beta in Ha. lia.
  - constructor; [apply IH; exact S'|]. apply Forall_forall. intros w Hw. apply in_map_iff in Hw as (k & <- & Hk). apply (Permutation_in _ (insert_perm ws i l)) in Hk. destruct Hk as [<-|Hk]; [lia|].
    rewrite Forall_forall in F. apply F. apply (in_map (fun j => nth j ws 0)). exact Hk.
Qed.
Lemma xp_order_sorts : sorts xp_order.
Proof.
  intros ws. unfold xp_order. induction (seq 0 (length ws)) as [|i l [IH1 IH2]]; cbn [fold_right]; [split; constructor|]. split; [rewrite insert_perm; constructor; exact IH1|apply insert_sorted; exact IH2].
Qed.

(** ** A program: literals "a", "b", "c %d", "[other]", "Thread" at these addresses; "b" also at 5 *)
Definition xp_text (p : Z) : list Z :=
  if p =? 1 then [97] else if p =? 2 then [98] else if p =? 5 then [98] else if p =? 3 then [99; 37; 100] else if p =? 8 then [91; 111; 93] else if p =? 9 then [84] else [].
Definition xp_fresh : list label := repeat {| lb_format := 0; lb_count := 0; lb_args := [-7; 8; -9; 1]; lb_pad := 3 |} 64.
Definition xp_stack (id : Z) : stack := {| st_id := id; st_size := 0; st_labels := xp_fresh |}.
Lemma xp_fresh_good : length xp_fresh = 64%nat /\ Forall good_label xp_fresh.
Proof.
  split; [reflexivity|]. apply Forall_forall. intros x Hx. apply repeat_spec in Hx. subst x. unfold good_label. cbn [lb_format lb_count lb_args lb_pad]. unfold int_min, int_max.
  split; [lia|]. split; [lia|]. split; [reflexivity|]. split; [repeat constructor; lia|lia].
Qed.

(** Notes of the stack after entering and leaving scopes; arguments of earlier labels stay behind. *)
Definition xp_scopes : list scope := [Enter (1, []); Enter (3, [5; 6]); Leave; Enter (3, [4]); Enter (2, [])].
Definition xp_stack1 : stack := match calls xp_scopes (xp_stack 7) with Ok s => s | _ => xp_stack 0 end.
Lemma xp_stack1_notes : snapshot_of xp_stack1 = (7, [(1, []); (3, [4]); (2, [])]) /\ map lb_args (firstn 2 (st_labels xp_stack1)) = [[-7; 8; -9; 1]; [4; 6; -9; 1]].
Proof. split; vm_compute; reflexivity. Qed.

Lemma xp_good_note : forall n, In (Enter n) xp_scopes -> good_note n.
Proof.
  intros n H. unfold xp_scopes in H. cbn [In] in H. unfold good_note, int_min, int_max.
  repeat match goal with H : _ \/ _ |- _ => destruct H as [H|H] | H : Enter _ = Enter _ |- _ => injection H as <- | H : Leave = _ |- _ => discriminate | H : False |- _ => destruct H end; cbn [fst snd length]; (split; [lia|split; [lia|repeat constructor; lia]]).
Qed.
Lemma xp_stack1_good : good_stack xp_stack1.
Proof.
  assert (good_stack (xp_stack 7)) as G by (unfold good_stack, xp_stack; cbn [st_id st_size st_labels]; split; [lia|split; [lia|apply xp_fresh_good]]).
  pose proof (calls_ok xp_scopes (xp_stack 7) [(1, []); (3, [4]); (2, [])] G xp_good_note eq_refl) as K. change (deepest xp_scopes (length (notes_of (xp_stack 7))) <=? 64)%nat with true in K. cbv iota in K.
  destruct K as (s' & E & Gs & _). unfold xp_stack1. rewrite E. exact Gs.
Qed.

(** A profile: recursion "a" / "a" / "b", and an annotation that reads like the extra leaves. *)
Definition xp_at (id : Z) (l : list note) : stack := match calls (map Enter l) (xp_stack id) with Ok s => s | _ => xp_stack 0 end.
Definition xp_list : list stack := [xp_at 7 [(1, []); (1, []); (2, [])]; xp_at 3 [(3, [4])]; xp_at 7 []; xp_at 7 [(1, []); (1, []); (5, [])]; xp_at 7 [(1, [])]; xp_at 3 [(3, [5]); (2, [])]].
Definition xp_notes : list note := [(1, []); (2, []); (5, []); (3, [4]); (3, [5]); (8, [])].
Lemma xp_at_good : forall id l, 0 <= id < 2 ^ 32 -> (length l <= 64)%nat -> incl l xp_notes -> good_stack (xp_at id l) /\ snapshot_of (xp_at id l) = (id, l).
Proof.
  intros id l Hid Hl Hi. unfold xp_at. assert (good_stack (xp_stack id)) as G by (unfold good_stack, xp_stack; cbn [st_id st_size st_labels]; split; [lia|split; [lia|apply xp_fresh_good]]).
  assert (forall n, In (Enter n) (map Enter l) -> good_note n) as N.
  { intros n H. apply in_map_iff in H as (n' & E & H). injection E as ->. apply Hi in H. unfold xp_notes in H. cbn [In] in H. unfold good_note, int_min, int_max.
    repeat match goal with H : _ \/ _ |- _ => destruct H as [H|H] | H : (_, _) = n |- _ => subst n | H : False |- _ => destruct H end; cbn [fst snd length]; (split; [lia|split; [lia|repeat constructor; lia]]). }
  assert (forall l pre, after (map Enter l) pre = Some (pre ++ l)) as A by (clear; induction l as [|n l IH]; intros pre; cbn [map after after1]; [rewrite app_nil_r; reflexivity|]; rewrite IH, <- app_assoc; reflexivity).
  assert (forall l k, deepest (map Enter l) k = (k + length l)%nat) as D by (clear; induction l as [|n l IH]; intros k; cbn [map deepest length]; [lia|]; rewrite IH; lia).
  pose proof (calls_ok (map Enter l) (xp_stack id) l G N (A l [])) as K. rewrite D in K. change (length (notes_of (xp_stack id))) with 0%nat in K. rewrite (proj2 (Nat.leb_le _ 64)) in K by lia.
  destruct K as (s & E & Gs & I & Nt). rewrite E. split; [exact Gs|]. unfold snapshot_of. rewrite I, Nt. reflexivity.
Qed.
Ltac xp_incl := intros ? ?; cbn [In xp_notes] in *; intuition auto.
Lemma xp_list_good : Forall good_stack xp_list.
Proof. unfold xp_list. repeat (apply Forall_cons; [apply xp_at_good; [lia|cbn [length]; lia|xp_incl]|]); apply Forall_nil. Qed.
Definition xp_buf : list Z := match samples xp_list [] with Ok b => b | _ => [] end.
Lemma xp_buf_ok : samples xp_list [] = Ok xp_buf /\ length xp_buf = 360%nat.
Proof. split; vm_compute; reflexivity. Qed.
Definition xp_view : roots := match populate xp_text idle_label 8 9 xp_order true xp_fresh xp_buf with Ok m => m | _ => [] end.
Lemma xp_view_ok : populate xp_text idle_label 8 9 xp_order true xp_fresh xp_buf = Ok xp_view /\
  map (fun x => (fst x, listing xp_text (snd x))) xp_view =
  [(3, [([], 2); ([([99; 37; 100], [4])], 1); ([([99; 37; 100], [5])], 1); ([([99; 37; 100], [5]); ([98], [])], 1)]);
   (7, [([], 3); ([([97], [])], 3); ([([97], []); ([97], [])], 2); ([([97], []); ([97], []); ([98], [])], 2); ([([97], []); ([91; 111; 93], [])], 1)])].
Proof. split; vm_compute; reflexivity. Qed.

Lemma find_in : forall {A} t (x : A) l, find t l = Some x -> In (t, x) l.
Proof. intros A t x l. induction l as [|[k y] l IH]; cbn [find]; [discriminate|]. destruct (Z.eqb_spec t k) as [->|]; intros E; [injection E as ->; left; reflexivity|right; apply IH; exact E]. Qed.

(** Matching "a", which is open twice in two samples of thread 7: 5 of 3. *)
Definition xp_match (l : label) : bool := list_eqb (xp_text (lb_format l)) [97].
Lemma nested_refuted : exists l buf m id root,
  Forall good_stack l /\ samples l [] = Ok buf /\ populate xp_text idle_label 8 9 xp_order true xp_fresh buf = Ok m /\ In (id, root) m /\
  n_weight root < weight_matching (fun lab => list_eqb (xp_text (lb_format lab)) [97]) root.
Proof.
  exists xp_list, xp_buf, xp_view, 7, (match find 7 xp_view with Some n => n | None => Node [] idle_label 0 end).
  split; [apply xp_list_good|]. split; [apply xp_buf_ok|]. split; [apply xp_view_ok|]. split; [|vm_compute; reflexivity].
  apply find_in. vm_compute. reflexivity.
Qed.

(** An annotation "[other]": two nodes with the same path. *)
Definition xp_list2 : list stack := [xp_at 7 [(1, []); (8, [])]; xp_at 7 [(1, [])]; xp_at 7 [(1, []); (8, [])]].
Lemma once_refuted : exists l buf m id root,
  Forall good_stack l /\ samples l [] = Ok buf /\ populate xp_text idle_label 8 9 xp_order true xp_fresh buf = Ok m /\ In (id, root) m /\
  ~ NoDup (map fst (listing xp_text root)).
Proof.
  set (b := match samples xp_list2 [] with Ok b => b | _ => [] end). set (v := match populate xp_text idle_label 8 9 xp_order true xp_fresh b with Ok m => m | _ => [] end).
  exists xp_list2, b, v, 7, (match find 7 v with Some n => n | None => Node [] idle_label 0 end).
  split; [unfold xp_list2; repeat (apply Forall_cons; [apply xp_at_good; [lia|cbn [length]; lia|xp_incl]|]); apply Forall_nil|]. split; [vm_compute; reflexivity|]. split; [vm_compute; reflexivity|]. split; [apply find_in; vm_compute; reflexivity|].
  set (n := map fst _). vm_compute in n. unfold n. intros N. inversion_clear N as [|? ? _ N1]. inversion_clear N1 as [|? ? _ N2]. inversion_clear N2 as [|? ? B _]. apply B. left. reflexivity.
Qed.

(** Collapsing at "a": its inner nodes go. *)
Lemma xp_collapse : map (fun x => (fst x, listing xp_text (snd x))) (collapse_roots idle_label 1 xp_match xp_view) =
  [(3, [([], 2); ([([99; 37; 100], [4])], 1); ([([99; 37; 100], [5])], 1); ([([99; 37; 100], [5]); ([98], [])], 1)]);
   (7, [([], 3); ([([97], [])], 3); ([([97], []); ([97], [])], 2); ([([97], []); ([91; 111; 93], [])], 1)])].
Proof. vm_compute. reflexivity. Qed.

(** ** An execution: two threads, one ending, another with the same address, a profile of two rounds *)
Definition xp_events : list event :=
  [ENew 100; EEnter 100 (1, []); EStart; ENew 200; ECheck; EEnter 200 (3, [4]); ELock; ESample 100; EEnter 200 (2, []); ESample 200; ELeave 100; EUnlock;
   EExit 100; ENew 100; EEnter 100 (2, []); ECheck; ELock; EFinishing; ESample 200; ELeave 200; ESample 100; EUnlock; ECheck; EFinish; EExit 200].
Definition xp_run := prun xp_text idle_label 8 9 xp_order xp_fresh true xp_events ps_init.
Lemma xp_history : h_profiles (observed xp_events) = [[(0, [(1, [])]); (1, [(3, [4]); (2, [])]); (1, [(3, [4]); (2, [])]); (2, [(2, [])])]].
Proof. vm_compute. reflexivity. Qed.
Lemma xp_run_ok : match xp_run with Some (Ok st) => map (map (fun x => (fst x, listing xp_text (snd x)))) (ps_views st) | _ => [] end =
  [[(0, [([], 1); ([([97], [])], 1)]);
    (1, [([], 2); ([([99; 37; 100], [4])], 2); ([([99; 37; 100], [4]); ([98], [])], 2)]);
    (2, [([], 1); ([([98], [])], 1)])]].
Proof. vm_compute. reflexivity. Qed.

Lemma good_note_ok : forall f a, 0 <= f < 2 ^ 64 -> (length a <= 4)%nat -> Forall (fun a => int_min <= a <= int_max) a -> good_note (f, a).
Proof. intros. split; [assumption|split; assumption]. Qed.
Lemma xp_well_behaved : well_behaved xp_events.
Proof.
  assert (forall es pre, (fix ok (es : list event) (h : history) : Prop := match es with [] => True | e :: es => proper e h /\ ok es (observe e h) end) es (observed pre) ->
    forall a e b, es = a ++ e :: b -> proper e (observed (pre ++ a))) as K.
  { induction es as [|e0 es IH]; intros pre H a e b E; [destruct a; discriminate|]. destruct H as [H1 H2]. destruct a as [|a0 a]; injection E as <- ->; [rewrite app_nil_r; exact H1|].
    replace (observe e0 (observed pre)) with (observed (pre ++ [e0])) in H2 by (unfold observed; rewrite fold_left_app; reflexivity). specialize (IH (pre ++ [e0]) H2 a e b eq_refl). rewrite <- app_assoc in IH. exact IH. }
  intros a e b E. apply (K xp_events [] ltac:(unfold xp_events; repeat split; cbn [proper]; try exact I; try (apply good_note_ok; [lia|cbn [length]; lia|repeat constructor; unfold int_min, int_max; lia]); try (vm_compute; discriminate)) a e b E).
Qed.
