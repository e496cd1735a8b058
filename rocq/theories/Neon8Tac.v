(** Rules for the instructions of the 8-bit kernels, and their tactics. *)
From Coq Require Import ZArith List Bool Lia.
From Verif Require Import Base Mat Simd SimdFacts Kernel8bitFacts Neon64 NeonRun NeonTac NeonCols NeonKTac NeonKernelF NeonKernelT Neon8Lanes.
Import ListNotations.
Open Scope Z_scope.

Section Rules.
Variables (n : nat) (code : list instr) (pc : nat) (s : state) (Q : nat -> state -> Prop).

Lemma v_sdotlane : forall w d a b j vd va vb, nth_error code pc = Some (Inst w) -> decode w = Some (SdotLane d a b j) -> vs s d = vd -> vs s a = va -> vs s b = vb ->
  reach n code (S pc) {| xs := xs s; vs := upd (vs s) d (sdot_lane vd va vb j); fl := fl s; mem := mem s |} Q -> reach (S n) code pc s Q.
Proof. intros w d a b j vd va vb H Hd <- <- <-. apply reach_next with (1 := H); [discriminate|]. unfold exec. rewrite Hd. reflexivity. Qed.
Lemma v_mls : forall d a b j vd va vb, nth_error code pc = Some (MlsLane d a b j) -> vs s d = vd -> vs s a = va -> vs s b = vb ->
  reach n code (S pc) {| xs := xs s; vs := upd (vs s) d (mls_lane vd va vb j); fl := fl s; mem := mem s |} Q -> reach (S n) code pc s Q.
Proof. intros d a b j vd va vb H <- <- <-. apply reach_next with (1 := H); [discriminate|]. reflexivity. Qed.
Lemma v_mul : forall d a b j va vb, nth_error code pc = Some (MulLane d a b j) -> vs s a = va -> vs s b = vb ->
  reach n code (S pc) {| xs := xs s; vs := upd (vs s) d (by_lane Z.mul va vb j); fl := fl s; mem := mem s |} Q -> reach (S n) code pc s Q.
Proof. intros d a b j va vb H <- <-. apply reach_next with (1 := H); [discriminate|]. reflexivity. Qed.
Lemma v_saddw : forall d a b va vb, nth_error code pc = Some (Saddw d a b) -> vs s a = va -> vs s b = vb ->
  reach n code (S pc) {| xs := xs s; vs := upd (vs s) d (saddw va vb); fl := fl s; mem := mem s |} Q -> reach (S n) code pc s Q.
Proof. intros d a b va vb H <- <-. apply reach_next with (1 := H); [discriminate|]. reflexivity. Qed.
Lemma v_narrow : forall u k d a va, nth_error code pc = Some (Narrow u false k d a) -> vs s a = va ->
  reach n code (S pc) {| xs := xs s; vs := upd (vs s) d (extend (narrow u k va)); fl := fl s; mem := mem s |} Q -> reach (S n) code pc s Q.
Proof. intros u k d a va H <-. apply reach_next with (1 := H); [discriminate|]. reflexivity. Qed.
Lemma v_narrow2 : forall u k d a va vd, nth_error code pc = Some (Narrow u true k d a) -> vs s a = va -> vs s d = vd ->
  reach n code (S pc) {| xs := xs s; vs := upd (vs s) d (firstn 8 vd ++ narrow u k va); fl := fl s; mem := mem s |} Q -> reach (S n) code pc s Q.
Proof. intros u k d a va vd H <- <-. apply reach_next with (1 := H); [discriminate|]. reflexivity. Qed.
Lemma v_duplanes : forall k c d a i v, nth_error code pc = Some (DupLane k c d a i) -> vs s a = v ->
  reach n code (S pc) {| xs := xs s; vs := upd (vs s) d (extend (of_lanes k (repeat (nth i (ulanes k v) 0) c))); fl := fl s; mem := mem s |} Q -> reach (S n) code pc s Q.
Proof. intros k c d a i v H <-. apply r_duplane, H. Qed.

Lemma m_fields : forall k d base o j oo f z y, nth_error code pc = Some (Ldrs k d base o) -> xs s base = Ptr j oo -> operand_val X s o = Ok (Int z) -> - 2 ^ 63 <= z < 2 ^ 63 ->
  mem s j = Struct f -> find_field f (oo + z) k = Ok (Int y) ->
  reach n code (S pc) {| xs := upd (xs s) d (Int (wrap_u 32 (wrap_s (8 * k) y))); vs := vs s; fl := fl s; mem := mem s |} Q -> reach (S n) code pc s Q.
Proof.
  intros k d base o j oo f z y Hi Hb Hp Hz Hj Hf. apply reach_next with (1 := Hi); [discriminate|]. cbn [exec exec_plain]. rewrite Hp. cbn [bind].
  rewrite Hb, addp by exact Hz. cbn [bind]. unfold load_val. rewrite Hj, Hf. reflexivity.
Qed.
Lemma m_ldrs : forall k d base o j oo sb z, nth_error code pc = Some (Ldrs k d base o) -> xs s base = Ptr j oo -> operand_val X s o = Ok (Int z) -> - 2 ^ 63 <= z < 2 ^ 63 ->
  mem s j = Bytes sb -> 0 <= k -> 0 <= oo + z -> oo + z + k <= blen sb ->
  reach n code (S pc) {| xs := upd (xs s) d (Int (wrap_u 32 (wrap_s (8 * k) (of_bytes (get_bytes sb (oo + z) (Z.to_nat k)))))); vs := vs s; fl := fl s; mem := mem s |} Q -> reach (S n) code pc s Q.
Proof.
  intros k d base o j oo sb z Hi Hb Hp Hz Hj Hk H1 H2. apply reach_next with (1 := Hi); [discriminate|]. cbn [exec exec_plain]. rewrite Hp. cbn [bind].
  rewrite Hb, addp by exact Hz. cbn [bind]. unfold load_val. rewrite Hj. rewrite (loaded s Q j sb (oo + z) (Z.to_nat k) Hj H1) by lia. reflexivity.
Qed.
Lemma m_strk : forall k a base o j p b z y l, nth_error code pc = Some (Str k a base o) -> xs s base = Ptr j p -> operand_val X s o = Ok (Int z) -> - 2 ^ 63 <= z < 2 ^ 63 ->
  xs s a = Int y -> mem s j = Bytes b -> 0 <= p + z -> p + z + Z.of_nat k <= blen b -> bytes_of k y = l ->
  reach n code (S pc) {| xs := xs s; vs := vs s; fl := fl s; mem := upd (mem s) j (Bytes (put b (p + z) l)) |} Q -> reach (S n) code pc s Q.
Proof.
  intros k a base o j p b z y l Hi Hb Ho Hz Ha Hj H1 H2 <- H. eapply r_str with (1 := Hi) (2 := Ho); [rewrite Hb; apply addp, Hz|exact Ha| |exact H].
  unfold store_vec. rewrite Hj. replace (0 <=? p + z) with true by (symmetry; apply Z.leb_le; lia).
  replace (p + z + Z.of_nat (length (bytes_of k y)) <=? blen b) with true; [reflexivity|]. symmetry. apply Z.leb_le. rewrite bytes_of_length. lia.
Qed.
Lemma m_st1 : forall k a base post j p b z v, nth_error code pc = Some (St1 k a base post) -> xs s base = Ptr j p -> operand_val X s post = Ok (Int z) -> - 2 ^ 63 <= z < 2 ^ 63 ->
  vs s a = v -> length (firstn k v) = k -> mem s j = Bytes b -> 0 <= p -> p + Z.of_nat k <= blen b ->
  reach n code (S pc) {| xs := upd (xs s) base (Ptr j (p + z)); vs := vs s; fl := fl s; mem := upd (mem s) j (Bytes (put b p (firstn k v))) |} Q -> reach (S n) code pc s Q.
Proof.
  intros k a base post j p b z v Hi Hb Ho Hz <- Hf Hj H1 H2 H. eapply r_st1 with (1 := Hi) (3 := Ho); [|rewrite Hb; apply addp, Hz|exact H].
  unfold store_vec. rewrite Hb, Hj. replace (0 <=? p) with true by (symmetry; apply Z.leb_le; lia).
  replace (p + Z.of_nat (length (firstn k (vs s a))) <=? blen b) with true; [reflexivity|]. symmetry. apply Z.leb_le. rewrite Hf. lia.
Qed.
Lemma m_st1two : forall a base post j p b z v w, nth_error code pc = Some (St1Two a base post) -> xs s base = Ptr j p -> operand_val X s post = Ok (Int z) -> - 2 ^ 63 <= z < 2 ^ 63 ->
  vs s a = v -> vs s (S a) = w -> full v -> full w -> mem s j = Bytes b -> 0 <= p -> p + 32 <= blen b ->
  reach n code (S pc) {| xs := upd (xs s) base (Ptr j (p + z)); vs := vs s; fl := fl s; mem := upd (mem s) j (Bytes (put b p (v ++ w))) |} Q -> reach (S n) code pc s Q.
Proof.
  intros a base post j p b z v w Hi Hb Ho Hz <- <- Hf Hw Hj H1 H2. apply reach_next with (1 := Hi); [discriminate|]. cbn [exec exec_plain].
  unfold store_vec. rewrite Hb, Hj. replace (0 <=? p) with true by (symmetry; apply Z.leb_le; lia).
  replace (p + Z.of_nat (length (vs s a ++ vs s (S a))) <=? blen b) with true; [|symmetry; apply Z.leb_le; rewrite app_length, Hf, Hw; lia].
  cbn [andb bind]. unfold advance_base.
  assert (E : operand_val X (set_mem s (upd (mem s) j (Bytes (put b p (vs s a ++ vs s (S a)))))) post = operand_val X s post) by (destruct post; reflexivity).
  rewrite E, Ho. cbn [bind set_mem xs]. rewrite Hb, addp by exact Hz. reflexivity.
Qed.
Lemma k_cmpi : forall m z za a, nth_error code pc = Some (Cmp W m (Imm z)) -> xs s m = Int za -> za mod 2 ^ 32 = a -> a < 2 ^ 31 -> 0 <= z < 2 ^ 31 ->
  reach n code (S pc) {| xs := xs s; vs := vs s; fl := {| f_eq := a =? z; f_lt := Some (a <? z) |}; mem := mem s |} Q -> reach (S n) code pc s Q.
Proof.
  intros m z za a Hi Ha El H1 H2 H. eapply r_cmp with (1 := Hi); [cbn [operand_val bits_of]; rewrite wrap_u_small by lia; reflexivity| |exact H].
  rewrite Ha. cbn [compare_flags bits_of]. rewrite (low_s za a El H1), (wrap_s_small 32 z) by (change (2 ^ (32 - 1)) with (2 ^ 31); lia). reflexivity.
Qed.
End Rules.

Lemma lsl1 : forall s r z, xs s r = Int z -> 0 <= z < 2 ^ 32 -> operand_val X s (Lsl r 1) = Ok (Int (z * 2)).
Proof. intros s r z Hr Hz. cbn [operand_val]. rewrite Hr. cbn [as_int bind bits_of]. rewrite wrap_u_small by lia. reflexivity. Qed.
Lemma uxtw : forall s r z, xs s r = Int z -> 0 <= z < 2 ^ 32 -> operand_val X s (Uxtw r) = Ok (Int z).
Proof. intros s r z Hr Hz. cbn [operand_val]. rewrite Hr. cbn [as_int bind bits_of]. rewrite wrap_u_small by lia. reflexivity. Qed.

Ltac kstep8 :=
  first [kstep |
  match goal with |- reach _ ?code ?pc ?s _ =>
    let i := eval vm_compute in (nth_error code pc) in
    match i with
    | Some (Inst ?w) => let r := eval vm_compute in (decode w) in
      match r with Some (SdotLane ?d ?a ?b ?j) => eapply (v_sdotlane _ _ _ _ _ w d a b j); [reflexivity|vm_compute; reflexivity|reads|reads|reads|] end
    | Some (MlsLane _ _ _ _) => eapply v_mls; [reflexivity|reads|reads|reads|]
    | Some (MulLane _ _ _ _) => eapply v_mul; [reflexivity|reads|reads|]
    | Some (Saddw _ _ _) => eapply v_saddw; [reflexivity|reads|reads|]
    | Some (Narrow _ false _ _ _) => eapply v_narrow; [reflexivity|reads|]
    | Some (Narrow _ true _ _ _) => eapply v_narrow2; [reflexivity|reads|reads|]
    | Some (DupLane _ _ _ _ _) => eapply v_duplanes; [reflexivity|reads|]
    | Some (Dup _ _ _ _) => eapply v_dup; [reflexivity|reads|]
    | Some (Ldrs _ _ 48%nat _) => eapply m_fields; [reflexivity|reads|imm|lia|mem_fact|reflexivity|]
    | Some (Cmp W _ (Imm _)) => eapply k_cmpi; [reflexivity|reads|low|lia|lia|]
    end; cbn [xs vs fl mem]
  end].

(** ** Elements copied from [T] to [D], one by one *)
Fixpoint copied (sz : nat) (D T : buf Z) (q : Z) (n : nat) : buf Z :=
  match n with O => D | S n => put (copied sz D T q n) (q + Z.of_nat sz * Z.of_nat n) (get_bytes T (Z.of_nat sz * Z.of_nat n) sz) end.
Lemma copied_blen : forall sz D T q n, blen (copied sz D T q n) = blen D.
Proof. induction n as [|n IH]; [reflexivity|]. exact IH. Qed.
Lemma get_bytes_nth : forall b o n i, (i < n)%nat -> nth i (get_bytes b o n) 0 = bdat b (o + Z.of_nat i).
Proof.
  intros b o n i H. unfold get_bytes. rewrite zseq_seq, map_map. rewrite (nth_indep _ 0 (bdat b (o + (0 + Z.of_nat 0)))) by (rewrite map_length, seq_length; exact H).
  rewrite (map_nth (fun x => bdat b (o + (0 + Z.of_nat x)))). rewrite seq_nth by exact H. reflexivity.
Qed.
Lemma copied_at : forall sz D T q n x, bdat (copied sz D T q n) x = if (q <=? x) && (x <? q + Z.of_nat sz * Z.of_nat n) then bdat T (x - q) else bdat D x.
Proof.
  intros sz D T q n x. induction n as [|n IH].
  - cbn [copied]. destruct (Z.leb_spec q x); cbn [andb]; [|reflexivity]. destruct (Z.ltb_spec x (q + Z.of_nat sz * Z.of_nat 0)); [lia|reflexivity].
  - cbn [copied put bdat]. rewrite get_bytes_length, IH. set (m := Z.of_nat sz * Z.of_nat n) in *. assert (E : Z.of_nat sz * Z.of_nat (S n) = m + Z.of_nat sz) by (subst m; lia). rewrite E.
    assert (0 <= m) by (subst m; lia).
    destruct (Z.leb_spec (q + m) x), (Z.ltb_spec x (q + m + Z.of_nat sz)), (Z.leb_spec q x), (Z.ltb_spec x (q + m)), (Z.ltb_spec x (q + (m + Z.of_nat sz))); cbn [andb]; try lia; try reflexivity.
    rewrite get_bytes_nth by lia. f_equal. lia.
Qed.
Lemma same_bytes : forall T o k, (forall i, (i < k)%nat -> 0 <= bdat T (o + Z.of_nat i) < 256) -> bytes_of k (of_bytes (get_bytes T o k)) = get_bytes T o k.
Proof.
  intros T o k H.
  assert (G : forall l, Forall (fun z => 0 <= z < 256) l -> bytes_of (length l) (of_bytes l) = l).
  { induction l as [|a l IH]; intros Hl; [reflexivity|]. apply Forall_cons_iff in Hl. destruct Hl as [Ha Hl]. cbn [length of_bytes bytes_of].
    rewrite (Z.add_comm a). rewrite (Z.mul_comm 256), Z.div_add_l, (Z.div_small a), Z.add_0_r by lia.
    rewrite Z.add_comm, Z.mod_add, Z.mod_small, IH by (assumption || lia). reflexivity. }
  rewrite <- (get_bytes_length T o k) at 1. apply G. apply Forall_forall. intros x Hx. apply (In_nth _ _ 0) in Hx. destruct Hx as (i & Hi & <-).
  rewrite get_bytes_length in Hi. rewrite get_bytes_nth by exact Hi. apply H, Hi.
Qed.
Lemma same_bytes2 : forall T o, (forall i, (i < 2)%nat -> 0 <= bdat T (o + Z.of_nat i) < 256) -> bytes_of 2 (wrap_u 32 (wrap_s 16 (of_bytes (get_bytes T o 2)))) = get_bytes T o 2.
Proof.
  intros T o H. rewrite <- (same_bytes T o 2 H) at 2. apply bytes_of_mod. change (256 ^ Z.of_nat 2) with (2 ^ 16). unfold wrap_u.
  rewrite <- (Znumtheory.Zmod_div_mod (2 ^ 16) (2 ^ 32)); [|lia|lia|exists (2 ^ 16); reflexivity]. apply (wrap_u_s 16). lia.
Qed.

(** The first [m] bytes of [out] are at [ip]; the others are those of [D]. *)
Definition stored (ip m : Z) (out : list Z) (D D' : buf Z) : Prop :=
  blen D' = blen D /\ forall x, bdat D' x = if (ip <=? x) && (x <? ip + m) then nth (Z.to_nat (x - ip)) out 0 else bdat D x.
Lemma stored_put : forall ip m out D, Z.of_nat (length out) = m -> stored ip m out D (put D ip out).
Proof. intros ip m out D <-. split; [reflexivity|]. intros x. reflexivity. Qed.
Lemma stored_copied : forall sz ip nr out D T0, (nr <= 8)%nat -> length out = (8 * sz)%nat -> stored ip (Z.of_nat sz * Z.of_nat nr) out D (copied sz D (put T0 0 out) ip nr).
Proof.
  intros sz ip nr out D T0 Hn Hl. split; [apply copied_blen|]. intros x. rewrite copied_at. destruct (Z.leb_spec ip x) as [H1|H1]; cbn [andb]; [|reflexivity].
  destruct (Z.ltb_spec x (ip + Z.of_nat sz * Z.of_nat nr)) as [H2|H2]; [|reflexivity]. cbn [put bdat]. rewrite Hl.
  assert (Z.of_nat sz * Z.of_nat nr <= Z.of_nat (8 * sz)) by nia.
  replace (0 <=? x - ip) with true by (symmetry; apply Z.leb_le; lia). replace (x - ip <? 0 + Z.of_nat (8 * sz)) with true by (symmetry; apply Z.ltb_lt; lia).
  cbn [andb]. f_equal. lia.
Qed.
Lemma put_byte : forall T0 out x, Forall (fun z => 0 <= z < 256) out -> 0 <= x < Z.of_nat (length out) -> 0 <= bdat (put T0 0 out) x < 256.
Proof.
  intros T0 out x Hf Hx. cbn [put bdat]. replace (0 <=? x) with true by (symmetry; apply Z.leb_le; lia). replace (x <? 0 + Z.of_nat (length out)) with true by (symmetry; apply Z.ltb_lt; lia).
  cbn [andb]. rewrite Forall_forall in Hf. apply Hf, nth_In. lia.
Qed.
Lemma bytes_of_range : forall n z, Forall (fun x => 0 <= x < 256) (bytes_of n z).
Proof. induction n as [|n IH]; intros z; [constructor|]. cbn [bytes_of]. constructor; [apply Z.mod_pos_bound; lia|apply IH]. Qed.
Lemma lv_range : forall n m f, Forall (fun x => 0 <= x < 256) (lv n m f).
Proof.
  intros n m f. unfold lv, of_lanes. generalize (vrow m f). induction l as [|a l IH]; [constructor|]. cbn [map concat]. apply Forall_app. split; [apply bytes_of_range|exact IH].
Qed.
Lemma put_put : forall b o o' u v x, o' = o + Z.of_nat (length u) -> bdat (put (put b o u) o' v) x = bdat (put b o (u ++ v)) x.
Proof.
  intros b o o' u v x ->. cbn [put bdat]. rewrite app_length, Nat2Z.inj_add.
  destruct (Z.leb_spec (o + Z.of_nat (length u)) x), (Z.ltb_spec x (o + Z.of_nat (length u) + Z.of_nat (length v))), (Z.leb_spec o x), (Z.ltb_spec x (o + Z.of_nat (length u))), (Z.ltb_spec x (o + (Z.of_nat (length u) + Z.of_nat (length v))));
    cbn [andb]; try lia; try reflexivity.
  - rewrite app_nth2 by lia. f_equal. lia.
  - rewrite app_nth1 by lia. reflexivity.
Qed.
