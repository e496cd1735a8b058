(** What the packing functions for column-major sources have in common: four columns are read in pieces of 16 bytes,
    and the last rows one by one. *)
From Coq Require Import ZArith List Bool Lia.
From Verif Require Import Base Mat Simd SimdFacts Neon64 NeonRun NeonTac.
Import ListNotations.
Open Scope Z_scope.

Lemma get_bytes_app : forall b o n m, get_bytes b o (n + m) = get_bytes b o n ++ get_bytes b (o + Z.of_nat n) m.
Proof.
  intros b o n m. revert o. induction n as [|n IH]; intros o.
  - cbn [Nat.add get_bytes zseq map app]. replace (o + Z.of_nat 0) with o by lia. reflexivity.
  - unfold get_bytes in *. cbn [Nat.add zseq map app]. f_equal.
    assert (E : forall k z, map (fun i => bdat b (o + i)) (zseq (z + 1) k) = map (fun i => bdat b (o + 1 + i)) (zseq z k)).
    { induction k as [|k IHk]; intros z; [reflexivity|]. cbn [zseq map]. rewrite IHk. f_equal. f_equal. lia. }
    rewrite !(E _ 0). rewrite IH. f_equal. replace (o + 1 + Z.of_nat n) with (o + Z.of_nat (S n)) by lia. reflexivity.
Qed.

Lemma bytes_of_of_bytes8 : forall l, length l = 8%nat -> Forall (fun z => 0 <= z < 256) l -> bytes_of 8 (of_bytes l) = l.
Proof.
  assert (G : forall l, Forall (fun z => 0 <= z < 256) l -> bytes_of (length l) (of_bytes l) = l).
  { induction l as [|a l IH]; intros H; [reflexivity|]. apply Forall_cons_iff in H. destruct H as [Ha Hl]. cbn [length of_bytes bytes_of].
    rewrite (Z.add_comm a). rewrite (Z.mul_comm 256), Z.div_add_l, (Z.div_small a), Z.add_0_r by lia.
    rewrite Z.add_comm, Z.mod_add, Z.mod_small, IH by (assumption || lia). reflexivity. }
  intros l Hl H. rewrite <- Hl. apply G, H.
Qed.

(** The first [k] bytes are those at [o], the others those of [f]. *)
Definition partly (b : buf Z) (o : Z) (k : nat) (f : list Z) : list Z := get_bytes b o k ++ skipn k f.
Lemma partly_full : forall b o k f, full f -> (k <= 16)%nat -> full (partly b o k f).
Proof. intros b o k f Hf Hk. unfold full, partly in *. rewrite app_length, get_bytes_length, skipn_length. lia. Qed.
Lemma skipn_add : forall {A} n m (l : list A), skipn n (skipn m l) = skipn (m + n) l.
Proof. intros A n m. induction m as [|m IH]; intros l; [reflexivity|]. destruct l; [rewrite !skipn_nil; reflexivity|apply IH]. Qed.
Lemma partly_splice : forall b o k es f, full f -> (k + es <= 16)%nat ->
  splice (partly b o k f) k (get_bytes b (o + Z.of_nat k) es) = partly b o (k + es) f.
Proof.
  intros b o k es f Hf Hk. unfold splice, partly. rewrite firstn_app, get_bytes_length, Nat.sub_diag. cbn [firstn]. rewrite app_nil_r.
  rewrite firstn_all2 by (rewrite get_bytes_length; lia). rewrite get_bytes_app, <- app_assoc. f_equal. f_equal.
  rewrite get_bytes_length. rewrite skipn_app, get_bytes_length, skipn_all2 by (rewrite get_bytes_length; lia). cbn [app].
  replace (k + es - k)%nat with es by lia. apply skipn_add.
Qed.
Lemma partly_0 : forall b o f, partly b o 0 f = f.
Proof. reflexivity. Qed.

Section Columns.
(** Memory at the start, the block of the packed matrix, and for each of the four columns the block, its bytes, the offset of
    the first one and the distance between pieces. *)
Variables (m0 : memory) (pb : nat) (sbk : nat -> nat) (sb : nat -> buf Z) (so inc : nat -> Z).
Hypothesis Hsb : forall c, m0 (sbk c) = Bytes (sb c).
Hypothesis Hne : forall c, sbk c <> pb.

Record cols_at (s : state) (q : nat -> Z) : Prop := {
  p0 : xs s 40 = Ptr (sbk 0) (q 0%nat); p1 : xs s 41 = Ptr (sbk 1) (q 1%nat);
  p2 : xs s 42 = Ptr (sbk 2) (q 2%nat); p3 : xs s 43 = Ptr (sbk 3) (q 3%nat);
  i0 : xs s 44 = Int (inc 0); i1 : xs s 45 = Int (inc 1);
  i2 : xs s 46 = Int (inc 2); i3 : xs s 47 = Int (inc 3) }.

(** The pointers before piece [k], and the piece. *)
Definition before (k : nat) (c : nat) : Z := so c + inc c * Z.of_nat k.
Definition cvec (c k : nat) : list Z := get_bytes (sb c) (before k c) 16.
Lemma full_cvec : forall c k, full (cvec c k).
Proof using. intros. apply full_get. Qed.
Lemma before_S : forall k c, before k c + inc c = before (S k) c.
Proof using. intros. unfold before. rewrite Nat2Z.inj_succ. ring. Qed.

(** The two halves of a piece. *)
Definition lo (c k : nat) : list Z := extend (get_bytes (sb c) (before k c) 8).
Definition hi (c k : nat) : Z := of_bytes (get_bytes (sb c) (before k c + 8) (Z.to_nat 8)).
Lemma join : (forall c i, 0 <= bdat (sb c) i < 256) -> forall c k, splice (lo c k) (8 * 1) (bytes_of 8 (hi c k)) = cvec c k.
Proof using.
  intros Hbyte c k. unfold lo, hi, cvec. change (Z.to_nat 8) with 8%nat.
  rewrite bytes_of_of_bytes8 by (apply get_bytes_length || (unfold get_bytes; apply Forall_forall; intros x Hx; apply in_map_iff in Hx; destruct Hx as (i & <- & _); apply Hbyte)).
  change 16%nat with (8 + 8)%nat. rewrite get_bytes_app. change (Z.of_nat 8) with 8.
  assert (L : length (get_bytes (sb c) (before k c) 8) = 8%nat) by apply get_bytes_length.
  assert (L2 : length (get_bytes (sb c) (before k c + 8) 8) = 8%nat) by apply get_bytes_length.
  set (a := get_bytes (sb c) (before k c) 8) in *. set (b := get_bytes (sb c) (before k c + 8) 8) in *. clearbody a b.
  do 8 (destruct a as [|? a]; [discriminate|]). destruct a; [|discriminate]. do 8 (destruct b as [|? b]; [discriminate|]). destruct b; [|discriminate]. reflexivity.
Qed.

(** ** The last rows *)
Section Tail.
Variables (es : nat) (code : list instr) (b rows : nat) (P : buf Z) (q : nat -> Z) (fill : list Z).
Hypothesis Hes : (0 < es)%nat /\ (es * rows <= 16)%nat.
Hypothesis Hfill : full fill.

(** The code that reads row [r], for each of the [rows] rows; then comes label 5. *)
Definition tail_code : Prop := forall r, (r < rows)%nat ->
  nth_error code (b + 6 * r) = Some (Cmp W 2 (Imm (Z.of_nat r))) /\
  nth_error code (S (b + 6 * r)) = Some (B EQ (Fwd 5)) /\
  target_of code (S (b + 6 * r)) (Fwd 5) = Some (b + 6 * rows)%nat /\
  nth_error code (S (S (b + 6 * r))) = Some (Ld1Lane es 0 r 40 (Imm (Z.of_nat es))) /\
  nth_error code (S (S (S (b + 6 * r)))) = Some (Ld1Lane es 1 r 41 (Imm (Z.of_nat es))) /\
  nth_error code (S (S (S (S (b + 6 * r))))) = Some (Ld1Lane es 2 r 42 (Imm (Z.of_nat es))) /\
  nth_error code (S (S (S (S (S (b + 6 * r)))))) = Some (Ld1Lane es 3 r 43 (Imm (Z.of_nat es))).

Hypothesis Hcode : tail_code.

(** [R] rows are read. *)
Variables (R : nat).
Hypothesis HR : (R <= rows)%nat.
Hypothesis Hin : forall c, (c < 4)%nat -> 0 <= q c /\ q c + Z.of_nat (es * R) <= blen (sb c).

Definition row_piece (c r : nat) : list Z := partly (sb c) (q c) (es * r) fill.

Record after_rows (r : nat) (s s' : state) : Prop := {
  ar_p0 : xs s' 40 = Ptr (sbk 0) (q 0%nat + Z.of_nat (es * r)); ar_p1 : xs s' 41 = Ptr (sbk 1) (q 1%nat + Z.of_nat (es * r));
  ar_p2 : xs s' 42 = Ptr (sbk 2) (q 2%nat + Z.of_nat (es * r)); ar_p3 : xs s' 43 = Ptr (sbk 3) (q 3%nat + Z.of_nat (es * r));
  ar_v0 : vs s' 0 = row_piece 0 r; ar_v1 : vs s' 1 = row_piece 1 r; ar_v2 : vs s' 2 = row_piece 2 r; ar_v3 : vs s' 3 = row_piece 3 r;
  ar_xs : forall i, (i < 40 \/ 43 < i)%nat -> xs s' i = xs s i;
  ar_vs : forall i, (3 < i)%nat -> vs s' i = vs s i;
  ar_mem : mem s' = mem s }.

Lemma tail_row : forall r s s', (r < R)%nat -> xs s 2 = Int (Z.of_nat R) -> changed m0 pb P (mem s) -> after_rows r s s' ->
  reach 6 code (b + 6 * r) s' (fun pc s2 => pc = (b + 6 * S r)%nat /\ after_rows (S r) s s2).
Proof.
  intros r s s' Hr H2 Hm [P0 P1 P2 P3 V0 V1 V2 V3 HX HV HM].
  destruct (Hcode r) as (C0 & C1 & CT & C2 & C3 & C4 & C5); [lia|].
  assert (Hle : (es * R <= 16)%nat) by (etransitivity; [apply Nat.mul_le_mono_l, HR|apply Hes]).
  assert (Hle' : (es * r + es <= es * R)%nat) by (rewrite <- Nat.mul_succ_r; apply Nat.mul_le_mono_l; lia).
  assert (X2 : xs s' 2 = Int (Z.of_nat R)) by (rewrite HX by lia; exact H2).
  assert (HR16 : (R <= 16)%nat) by (destruct Hes as [? ?]; nia).
  eapply s_cmpi; [exact C0|exact X2|lia|lia|].
  eapply reach_b with (b := false); [exact C1|exact CT|cbn [holds fl f_eq]; replace (Z.of_nat R =? Z.of_nat r) with false by (symmetry; apply Z.eqb_neq; lia); reflexivity|].
  assert (HM' : changed m0 pb P (mem s')) by (rewrite HM; exact Hm).
  assert (Ei : Z.of_nat es = wrap_u 64 (Z.of_nat es)) by (symmetry; apply wrap_u_small; lia).
  assert (Hb0 := Hin 0 ltac:(lia)). assert (Hb1 := Hin 1 ltac:(lia)). assert (Hb2 := Hin 2 ltac:(lia)). assert (Hb3 := Hin 3 ltac:(lia)).
  assert (Hsp : forall c, splice (row_piece c r) (es * r) (get_bytes (sb c) (q c + Z.of_nat (es * r)) es) = row_piece c (S r)).
  { intros c. unfold row_piece. rewrite Nat.mul_succ_r. apply partly_splice; [exact Hfill|lia]. }
  eapply c_ld1lane with (m0 := m0) (pb := pb) (P := P); [exact HM'|exact C2|exact P0|cbn [operand_val bits_of]; rewrite <- Ei; reflexivity|apply Hsb|apply Hne|lia|lia|lia|].
  look. rewrite V0, Hsp.
  eapply c_ld1lane with (m0 := m0) (pb := pb) (P := P); [exact HM'|exact C3|look; exact P1|cbn [operand_val bits_of]; rewrite <- Ei; reflexivity|apply Hsb|apply Hne|lia|lia|lia|].
  look. rewrite V1, Hsp.
  eapply c_ld1lane with (m0 := m0) (pb := pb) (P := P); [exact HM'|exact C4|look; exact P2|cbn [operand_val bits_of]; rewrite <- Ei; reflexivity|apply Hsb|apply Hne|lia|lia|lia|].
  look. rewrite V2, Hsp.
  eapply c_ld1lane with (m0 := m0) (pb := pb) (P := P); [exact HM'|exact C5|look; exact P3|cbn [operand_val bits_of]; rewrite <- Ei; reflexivity|apply Hsb|apply Hne|lia|lia|lia|].
  look. rewrite V3, Hsp. apply reach_done. split; [lia|].
  constructor; look; try reflexivity; try (f_equal; lia).
  - intros i Hi. destruct (Nat.eqb_spec i 43); [lia|]. destruct (Nat.eqb_spec i 42); [lia|]. destruct (Nat.eqb_spec i 41); [lia|]. destruct (Nat.eqb_spec i 40); [lia|]. apply HX, Hi.
  - intros i Hi. destruct (Nat.eqb_spec i 3); [lia|]. destruct (Nat.eqb_spec i 2); [lia|]. destruct (Nat.eqb_spec i 1); [lia|]. destruct (Nat.eqb_spec i 0); [lia|]. apply HV, Hi.
  - exact HM.
Qed.

Lemma tail_rows : forall m r s s', (r + m = R)%nat -> xs s 2 = Int (Z.of_nat R) -> changed m0 pb P (mem s) -> after_rows r s s' ->
  reach (6 * m + 2) code (b + 6 * r) s' (fun pc s2 => pc = (b + 6 * rows)%nat /\ after_rows R s s2).
Proof.
  induction m as [|m IH]; intros r s s' Hr H2 Hm Ha.
  - replace r with R in * by lia. destruct (Nat.eq_dec R rows) as [E|Hlt].
    + apply reach_done. split; [rewrite <- E; reflexivity|exact Ha].
    + destruct (Hcode R) as (C0 & C1 & CT & _); [lia|].
      assert (HR16 : (R <= 16)%nat) by (destruct Hes as [? ?]; nia).
      assert (X2 : xs s' 2 = Int (Z.of_nat R)) by (rewrite (ar_xs _ _ _ Ha) by lia; exact H2).
      eapply s_cmpi; [exact C0|exact X2|lia|lia|].
      eapply reach_b with (b := true); [exact C1|exact CT|cbn [holds fl f_eq]; rewrite Z.eqb_refl; reflexivity|].
      apply reach_done. split; [reflexivity|]. destruct Ha. constructor; assumption.
  - replace (6 * S m + 2)%nat with (6 + (6 * m + 2))%nat by lia. eapply reach_trans.
    + apply (tail_row r s s'); [lia|assumption|assumption|exact Ha].
    + intros pc2 s2 [-> Ha2]. apply (IH (S r) s s2); [lia|assumption|assumption|exact Ha2].
Qed.

Lemma tail_all : forall s, xs s 2 = Int (Z.of_nat R) -> changed m0 pb P (mem s) -> cols_at s q ->
  vs s 0 = fill -> vs s 1 = fill -> vs s 2 = fill -> vs s 3 = fill ->
  reach (6 * R + 2) code b s (fun pc s2 => pc = (b + 6 * rows)%nat /\ after_rows R s s2).
Proof.
  intros s H2 Hm [P0 P1 P2 P3 _ _ _ _] V0 V1 V2 V3. replace b with (b + 6 * 0)%nat at 1 by lia. apply (tail_rows R 0 s s); [lia|assumption|assumption|].
  assert (E : forall c, row_piece c 0 = fill) by (intros c; unfold row_piece; rewrite Nat.mul_0_r; apply partly_0).
  constructor; rewrite ?E, ?Nat.mul_0_r, ?Z.add_0_r; try assumption; reflexivity.
Qed.
End Tail.
End Columns.

(** ** Storing the sums *)

(** The packed matrix is [P]; if there are sums, [v] has been written to them. *)
Definition finished (m0 : memory) (pb : nat) (P : buf Z) (sums : val) (v : list Z) (m : memory) : Prop :=
  m pb = Bytes P /\
  match sums with
  | Int _ => forall j, j <> pb -> m j = m0 j
  | Ptr k o => exists S0, m0 k = Bytes S0 /\ m k = Bytes (put S0 o v) /\ forall j, j <> pb -> j <> k -> m j = m0 j
  end.
(** A pointer to the sums of four columns, or null. *)
Definition sums_ok (m0 : memory) (pb : nat) (sums : val) : Prop :=
  match sums with
  | Int z => z = 0
  | Ptr k o => k <> pb /\ exists S0, m0 k = Bytes S0 /\ 0 <= o /\ o + 16 <= blen S0
  end.

Lemma sums_end : forall m0 pb P sums code pc s, changed m0 pb P (mem s) -> xs s 49 = sums -> sums_ok m0 pb sums -> full (vs s 28) ->
  nth_error code pc = Some (Cmp X 49 (Imm 0)) -> nth_error code (S pc) = Some (B EQ (Fwd 6)) -> target_of code (S pc) (Fwd 6) = Some (S (S (S pc))) ->
  nth_error code (S (S pc)) = Some (St1 16 28 49 (Imm 16)) ->
  reach 3 code pc s (fun pc' s' => pc' = S (S (S pc)) /\ finished m0 pb P sums (vs s 28) (mem s')).
Proof.
  intros m0 pb P sums code pc s HM Hs Hok Hf C0 C1 CT C2. destruct sums as [z|k o]; cbn [sums_ok] in Hok.
  - subst z. eapply r_cmp with (1 := C0); [reflexivity|rewrite Hs; reflexivity|].
    eapply reach_b with (b := true); [exact C1|exact CT|reflexivity|]. apply reach_done. split; [reflexivity|]. exact HM.
  - destruct Hok as (Hk & S0 & HS & H1 & H2). destruct HM as [HP HO].
    eapply r_cmp with (1 := C0); [reflexivity|rewrite Hs; reflexivity|].
    eapply reach_b with (b := false); [exact C1|exact CT|reflexivity|].
    eapply r_st1 with (1 := C2); look.
    + rewrite Hs. rewrite firstn_full by exact Hf. unfold store_vec. rewrite (HO k Hk), HS.
      destruct (Z.leb_spec 0 o); [|lia]. rewrite Hf. destruct (Z.leb_spec (o + Z.of_nat 16) (blen S0)); [reflexivity|lia].
    + reflexivity.
    + rewrite Hs. apply addp. cbn. lia.
    + apply reach_done. split; [reflexivity|]. cbn [mem finished]. unfold finished.
      split; [cbn [upd]; destruct (Nat.eqb_spec pb k); [congruence|exact HP]|]. exists S0. split; [exact HS|].
      split; [cbn [upd]; rewrite Nat.eqb_refl; reflexivity|]. intros j Hj1 Hj2. cbn [upd]. destruct (Nat.eqb_spec j k); [contradiction|]. apply HO, Hj1.
Qed.

(** ** The four columns transposed in groups of four bytes *)
Definition trans (j : nat) (v0 v1 v2 v3 : list Z) : list Z :=
  match j with
  | O => vop_val (Trn1 8) (vop_val (Trn1 4) v0 v1) (vop_val (Trn1 4) v2 v3)
  | 1%nat => vop_val (Trn1 8) (vop_val (Trn2 4) v0 v1) (vop_val (Trn2 4) v2 v3)
  | 2%nat => vop_val (Trn2 8) (vop_val (Trn1 4) v0 v1) (vop_val (Trn1 4) v2 v3)
  | _ => vop_val (Trn2 8) (vop_val (Trn2 4) v0 v1) (vop_val (Trn2 4) v2 v3)
  end.
Definition group (j : nat) (v : list Z) : list Z := firstn 4 (skipn (4 * j) v).
Lemma trans_groups : forall j v0 v1 v2 v3, (j < 4)%nat -> full v0 -> full v1 -> full v2 -> full v3 ->
  trans j v0 v1 v2 v3 = group j v0 ++ group j v1 ++ group j v2 ++ group j v3.
Proof. intros j v0 v1 v2 v3 Hj H0 H1 H2 H3. expand_full. destruct j as [|[|[|[|]]]]; try reflexivity. lia. Qed.
Lemma full_trans : forall j v0 v1 v2 v3, full v0 -> full v1 -> full v2 -> full v3 -> full (trans j v0 v1 v2 v3).
Proof. intros j v0 v1 v2 v3 H0 H1 H2 H3. destruct j as [|[|[|]]]; unfold trans; fulls. Qed.

(** Storing the transposed vectors, every other 16 bytes of 128. *)
Definition store_t (P : buf Z) (p : Z) (v : nat -> list Z) : buf Z :=
  put (put (put (put P (p + 0) (v 0%nat)) (p + 32) (v 1%nat)) (p + 64) (v 2%nat)) (p + 96) (v 3%nat).
Lemma store_t_blen : forall P p v, blen (store_t P p v) = blen P.
Proof. reflexivity. Qed.
(** Only those of the first [m]. *)
Definition store_first (m : nat) (P : buf Z) (p : Z) (v : nat -> list Z) : buf Z :=
  let P := if Nat.ltb 0 m then put P (p + 0) (v 0%nat) else P in
  let P := if Nat.ltb 1 m then put P (p + 32) (v 1%nat) else P in
  let P := if Nat.ltb 2 m then put P (p + 64) (v 2%nat) else P in
  if Nat.ltb 3 m then put P (p + 96) (v 3%nat) else P.
