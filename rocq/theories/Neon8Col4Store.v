(** Kernel8bitNeon1Col (kernel_arm64.cc:1441-1790): four results are narrowed and stored, directly or through the temporary buffer. *)
From Coq Require Import ZArith List Bool Lia.
From Verif Require Import Base Mat Simd SimdFacts SpecSimd Kernel8bitFacts RequantProps Neon64 NeonRun NeonTac NeonCols NeonPack NeonKTac NeonKernelF NeonKernelT NeonKernel8Code Neon8Lanes Neon8Tac Neon8Col Neon8Pairs Neon8Col4.
Import ListNotations.
Open Scope Z_scope.

Section Rules.
Variables (n : nat) (code : list instr) (pc : nat) (s : state) (Q : nat -> state -> Prop).
Lemma m_st1lane : forall k a i base post j p b z v, nth_error code pc = Some (St1Lane k a i base post) -> xs s base = Ptr j p -> operand_val X s post = Ok (Int z) -> - 2 ^ 63 <= z < 2 ^ 63 ->
  vs s a = v -> length (firstn k (skipn (k * i) v)) = k -> mem s j = Bytes b -> 0 <= p -> p + Z.of_nat k <= blen b ->
  reach n code (S pc) {| xs := upd (xs s) base (Ptr j (p + z)); vs := vs s; fl := fl s; mem := upd (mem s) j (Bytes (put b p (firstn k (skipn (k * i) v)))) |} Q -> reach (S n) code pc s Q.
Proof.
  intros k a i base post j p b z v Hi Hb Ho Hz <- Hf Hj H1 H2. apply reach_next with (1 := Hi); [discriminate|]. cbn [exec exec_plain]. unfold store_vec. rewrite Hb, Hj.
  replace (0 <=? p) with true by (symmetry; apply Z.leb_le; lia).
  replace (p + Z.of_nat (length (firstn k (skipn (k * i) (vs s a)))) <=? blen b) with true by (symmetry; apply Z.leb_le; rewrite Hf; lia). cbn [andb bind]. unfold advance_base.
  match goal with |- context [operand_val X ?s' post] => assert (E : operand_val X s' post = operand_val X s post) by (destruct post; reflexivity) end.
  rewrite E, Ho. cbn [bind set_mem xs]. rewrite Hb, addp by exact Hz. reflexivity.
Qed.
Lemma m_strq : forall a base o j p b z v, nth_error code pc = Some (StrQ a base o) -> xs s base = Ptr j p -> operand_val X s o = Ok (Int z) -> - 2 ^ 63 <= z < 2 ^ 63 ->
  vs s a = v -> full v -> mem s j = Bytes b -> 0 <= p + z -> p + z + 16 <= blen b ->
  reach n code (S pc) {| xs := xs s; vs := vs s; fl := fl s; mem := upd (mem s) j (Bytes (put b (p + z) v)) |} Q -> reach (S n) code pc s Q.
Proof.
  intros a base o j p b z v Hi Hb Ho Hz <- Hf Hj H1 H2 H. eapply r_strq with (1 := Hi) (2 := Ho); [rewrite Hb; apply addp, Hz| |exact H].
  unfold store_vec. rewrite Hj. replace (0 <=? p + z) with true by (symmetry; apply Z.leb_le; lia).
  replace (p + z + Z.of_nat (length (vs s a)) <=? blen b) with true; [reflexivity|]. symmetry. apply Z.leb_le. unfold full in Hf. rewrite Hf. lia.
Qed.
End Rules.

(** ** Bytes that have been stored *)
Lemma piece_nth : forall k o j (v : list Z), (j < k)%nat -> nth j (firstn k (skipn o v)) 0 = nth (o + j) v 0.
Proof.
  intros k o j v H. revert k o j H. induction v as [|a v IH]; intros k o j H; [rewrite skipn_nil, firstn_nil; destruct j, o; reflexivity|].
  destruct o as [|o]; [|apply (IH k o j H)]. cbn [skipn]. destruct k as [|k]; [lia|]. destruct j as [|j]; [reflexivity|]. cbn [firstn nth plus]. apply (IH k 0%nat j). lia.
Qed.
Lemma stored_ext : forall ip m v w D D', (forall k, (Z.of_nat k < m) -> nth k v 0 = nth k w 0) -> stored ip m v D D' -> stored ip m w D D'.
Proof.
  intros ip m v w D D' H [S1 S2]. split; [exact S1|]. intros x. rewrite S2. destruct (Z.leb_spec ip x); cbn [andb]; [|reflexivity]. destruct (Z.ltb_spec x (ip + m)); [|reflexivity]. apply H. lia.
Qed.
Lemma first_nth : forall k n (v : list Z), (k < n)%nat -> nth k (firstn n v) 0 = nth k v 0.
Proof. intros k n v H. apply (piece_nth n 0 k v H). Qed.
Lemma stored_lanes : forall sz ip p1 p2 p3 v out D, (sz = 1 \/ sz = 2 \/ sz = 4)%nat -> full v -> firstn (4 * sz) v = out -> p1 = ip + Z.of_nat sz -> p2 = ip + 2 * Z.of_nat sz -> p3 = ip + 3 * Z.of_nat sz ->
  stored ip (Z.of_nat sz * 4) out D (put (put (put (put D ip (firstn sz (skipn (sz * 0) v))) p1 (firstn sz (skipn (sz * 1) v))) p2 (firstn sz (skipn (sz * 2) v))) p3 (firstn sz (skipn (sz * 3) v))).
Proof.
  intros sz ip p1 p2 p3 v out D Hs Hv <- -> -> ->. apply (stored_ext _ _ v); [intros k Hk; rewrite first_nth by lia; reflexivity|]. split; [reflexivity|]. intros x. cbn [put bdat]. unfold full in Hv.
  assert (L : forall i, (i < 4)%nat -> length (firstn sz (skipn (sz * i) v)) = sz) by (intros i Hi; rewrite firstn_length, skipn_length, Hv; destruct Hs as [-> | [-> | ->]]; lia).
  rewrite !L by lia. assert (Hz : 1 <= Z.of_nat sz) by lia. assert (E : Z.of_nat sz * 4 = 4 * Z.of_nat sz) by lia. rewrite E. set (z := Z.of_nat sz) in *.
  destruct (Z_lt_le_dec x ip); [|destruct (Z_lt_le_dec x (ip + z)); [|destruct (Z_lt_le_dec x (ip + 2 * z)); [|destruct (Z_lt_le_dec x (ip + 3 * z)); [|destruct (Z_lt_le_dec x (ip + 4 * z))]]]].
  all: repeat (match goal with |- context [?a <=? ?b] => first [replace (a <=? b) with true by (symmetry; apply Z.leb_le; lia) | replace (a <=? b) with false by (symmetry; apply Z.leb_gt; lia)]
    | |- context [?a <? ?b] => first [replace (a <? b) with true by (symmetry; apply Z.ltb_lt; lia) | replace (a <? b) with false by (symmetry; apply Z.ltb_ge; lia)] end; cbn [andb]); try reflexivity.
  all: rewrite piece_nth by lia; f_equal; lia.
Qed.
Lemma stored_through : forall sz ip nr v out D T0, (nr <= 4)%nat -> (1 <= sz)%nat -> full v -> firstn (4 * sz) v = out -> length out = (4 * sz)%nat -> stored ip (Z.of_nat sz * Z.of_nat nr) out D (copied sz D (put T0 0 v) ip nr).
Proof.
  intros sz ip nr v out D T0 Hn Hs Hv <- Hl. apply (stored_ext _ _ v); [intros k Hk; rewrite first_nth by nia; reflexivity|]. split; [apply copied_blen|]. intros x. rewrite copied_at. destruct (Z.leb_spec ip x) as [H1|H1]; cbn [andb]; [|reflexivity].
  destruct (Z.ltb_spec x (ip + Z.of_nat sz * Z.of_nat nr)) as [H2|H2]; [|reflexivity]. cbn [put bdat].
  rewrite firstn_length in Hl. assert (Z.of_nat sz * Z.of_nat nr <= Z.of_nat (length v)) by nia.
  replace (0 <=? x - ip) with true by (symmetry; apply Z.leb_le; lia). replace (x - ip <? 0 + Z.of_nat (length v)) with true by (symmetry; apply Z.ltb_lt; lia).
  cbn [andb]. f_equal. lia.
Qed.
Lemma put_front : forall T v out n x, firstn n v = out -> length out = n -> Forall (fun z => 0 <= z < 256) out -> 0 <= x < Z.of_nat n -> 0 <= bdat (put T 0 v) x < 256.
Proof.
  intros T v out n x <- Hl Hf Hx. cbn [put bdat]. assert (n <= length v)%nat by (rewrite firstn_length in Hl; lia).
  replace (0 <=? x) with true by (symmetry; apply Z.leb_le; lia). replace (x <? 0 + Z.of_nat (length v)) with true by (symmetry; apply Z.ltb_lt; lia). cbn [andb].
  rewrite <- (first_nth _ n) by lia. rewrite Forall_forall in Hf. apply Hf, nth_In. rewrite Hl. lia.
Qed.
Definition fit4 (last pos : Z) : Z := if last - pos <=? 4 then last - pos else 4.
Definition zeros : list Z := repeat 0 16.

Section Block.
Variables (Lb Rb Bi SL SR Mu Ex : buf Z) (lo ro dof lzw rzw dzp pzw sr sc lr lc dr dc ls rs ds K cmin cmax : Z) (hb hls hrs hpc cc : bool) (drz dcz ty tyz : Z).
Notation km := (kmem8 Lb Rb Bi SL SR Mu Ex lo ro dof lzw rzw dzp pzw sr sc lr lc dr dc ls rs ds K cmin cmax hb hls hrs hpc cc).
Notation co := (core8 lc ls rs ds K drz dcz tyz).
Hypothesis Hlr : 0 <= sr <= lr /\ lr < dr /\ dr < 2 ^ 31 /\ lr + 4 < 2 ^ 31.
Hypothesis Hlc : 0 <= sc <= lc /\ lc < dc /\ dc < 2 ^ 31 /\ lc + 4 < 2 ^ 31.
Hypothesis Hst : 0 <= ls < 2 ^ 31 /\ 0 <= rs < 2 ^ 31 /\ 0 <= ds < 2 ^ 31.
Hypothesis Hdr : drz mod 2 ^ 32 = dr.
Hypothesis Hdc : dcz mod 2 ^ 32 = dc.
Hypothesis Hty : tyz mod 2 ^ 32 = ty.
Hypothesis Hty4 : 1 <= ty <= 4.
Notation code := kernel8_1col.

(** ** Copying from the temporary buffer *)
Lemma copy4_u8 : forall D T q nr n r s, (r + S n = nr)%nat -> (nr <= 4)%nat -> xs s 1 = Int (Z.of_nat nr) -> xs s 3 = Ptr 5 0 -> xs s 4 = Ptr 4 q -> xs s 5 = Int (Z.of_nat r) ->
  km (copied 1 D T q r) T (mem s) -> (forall x, 0 <= x < 4 -> 0 <= bdat T x < 256) -> 64 <= blen T -> 0 <= q -> q + 1 * Z.of_nat nr <= blen D ->
  reach (6 * S n) code 157 s (fun pc s' => pc = 163%nat /\ km (copied 1 D T q nr) T (mem s') /\ keep (1 :: 3 :: 4 :: mainregs)%nat s s' /\ vs s' = vs s /\ holds LT (fl s') = Ok false).
Proof.
  clear - Hlr. intros D T q nr. induction n as [|n IH]; intros r s Hn Hnr X1 X3 X4 X5 [M0 M1 M2 M3 M4 M5 M6 M7 M8 M9] HT HbT Hq HbD.
  all: assert (HS : reach 6 code 157 s (fun pc s' => pc = (if (Z.of_nat r + 1 <? Z.of_nat nr)%Z then 157 else 163)%nat /\ km (copied 1 D T q (S r)) T (mem s') /\ xs s' 5 = Int (Z.of_nat (S r)) /\ keep (1 :: 3 :: 4 :: mainregs)%nat s s' /\ vs s' = vs s /\
      holds LT (fl s') = Ok (Z.of_nat r + 1 <? Z.of_nat nr))) by
   (begin; kstep8; (eapply m_ldr; [reflexivity|reads|eapply uxtw; [reads|lia]|lia|mem_fact|lia|lia|lia|]); cbn [xs vs fl mem];
    (eapply m_strk with (l := get_bytes T (Z.of_nat r) 1); [reflexivity|reads|eapply uxtw; [reads|lia]|lia|reads|mem_fact|lia|rewrite copied_blen; lia|apply same_bytes; intros; apply HT; lia|]); cbn [xs vs fl mem];
    kstep8; kstep8; (eapply reach_b with (b := (Z.of_nat r + 1 <? Z.of_nat nr)); [reflexivity|reflexivity|reflexivity|]); finish;
    (split; [reflexivity|]); (split; [|split; [reads_lia|split; [kept_here|split; reflexivity]]]);
    constructor; look; try assumption; f_equal; cbn [copied]; apply put_eq; [reflexivity|lia|f_equal; lia]).
  - eapply reach_weaken; [exact HS|lia|]. intros pc s' (-> & HM' & H5 & HK & HV & HF).
    replace (Z.of_nat r + 1 <? Z.of_nat nr) with false in * by (symmetry; apply Z.ltb_ge; lia). replace (S r) with nr in HM' by lia. auto.
  - replace (6 * S (S n))%nat with (6 + 6 * S n)%nat by lia. eapply reach_trans; [exact HS|]. intros pc s' (-> & HM' & H5 & HK & HV & HF).
    replace (Z.of_nat r + 1 <? Z.of_nat nr) with true by (symmetry; apply Z.ltb_lt; lia).
    eapply reach_weaken; [apply (IH (S r) s'); try assumption; try lia; (rewrite (keep_read _ _ _ _ HK) by (cbn; tauto); assumption)|lia|].
    intros pc s2 (-> & HM2 & HK2 & HV2 & HF2). split; [reflexivity|]. split; [exact HM2|]. split; [eapply keep_trans; eassumption|]. split; [congruence|exact HF2].
Qed.

Lemma copy4_s8 : forall D T q nr n r s, (r + S n = nr)%nat -> (nr <= 4)%nat -> xs s 1 = Int (Z.of_nat nr) -> xs s 3 = Ptr 5 0 -> xs s 4 = Ptr 4 q -> xs s 5 = Int (Z.of_nat r) ->
  km (copied 1 D T q r) T (mem s) -> (forall x, 0 <= x < 4 -> 0 <= bdat T x < 256) -> 64 <= blen T -> 0 <= q -> q + 1 * Z.of_nat nr <= blen D ->
  reach (6 * S n) code 205 s (fun pc s' => pc = 211%nat /\ km (copied 1 D T q nr) T (mem s') /\ keep (1 :: 3 :: 4 :: mainregs)%nat s s' /\ vs s' = vs s /\ holds LT (fl s') = Ok false).
Proof.
  clear - Hlr. intros D T q nr. induction n as [|n IH]; intros r s Hn Hnr X1 X3 X4 X5 [M0 M1 M2 M3 M4 M5 M6 M7 M8 M9] HT HbT Hq HbD.
  all: assert (HS : reach 6 code 205 s (fun pc s' => pc = (if (Z.of_nat r + 1 <? Z.of_nat nr)%Z then 205 else 211)%nat /\ km (copied 1 D T q (S r)) T (mem s') /\ xs s' 5 = Int (Z.of_nat (S r)) /\ keep (1 :: 3 :: 4 :: mainregs)%nat s s' /\ vs s' = vs s /\
      holds LT (fl s') = Ok (Z.of_nat r + 1 <? Z.of_nat nr))) by
   (begin; kstep8; (eapply m_ldr; [reflexivity|reads|eapply uxtw; [reads|lia]|lia|mem_fact|lia|lia|lia|]); cbn [xs vs fl mem];
    (eapply m_strk with (l := get_bytes T (Z.of_nat r) 1); [reflexivity|reads|eapply uxtw; [reads|lia]|lia|reads|mem_fact|lia|rewrite copied_blen; lia|apply same_bytes; intros; apply HT; lia|]); cbn [xs vs fl mem];
    kstep8; kstep8; (eapply reach_b with (b := (Z.of_nat r + 1 <? Z.of_nat nr)); [reflexivity|reflexivity|reflexivity|]); finish;
    (split; [reflexivity|]); (split; [|split; [reads_lia|split; [kept_here|split; reflexivity]]]);
    constructor; look; try assumption; f_equal; cbn [copied]; apply put_eq; [reflexivity|lia|f_equal; lia]).
  - eapply reach_weaken; [exact HS|lia|]. intros pc s' (-> & HM' & H5 & HK & HV & HF).
    replace (Z.of_nat r + 1 <? Z.of_nat nr) with false in * by (symmetry; apply Z.ltb_ge; lia). replace (S r) with nr in HM' by lia. auto.
  - replace (6 * S (S n))%nat with (6 + 6 * S n)%nat by lia. eapply reach_trans; [exact HS|]. intros pc s' (-> & HM' & H5 & HK & HV & HF).
    replace (Z.of_nat r + 1 <? Z.of_nat nr) with true by (symmetry; apply Z.ltb_lt; lia).
    eapply reach_weaken; [apply (IH (S r) s'); try assumption; try lia; (rewrite (keep_read _ _ _ _ HK) by (cbn; tauto); assumption)|lia|].
    intros pc s2 (-> & HM2 & HK2 & HV2 & HF2). split; [reflexivity|]. split; [exact HM2|]. split; [eapply keep_trans; eassumption|]. split; [congruence|exact HF2].
Qed.

Lemma copy4_s16 : forall D T q nr n r s, (r + S n = nr)%nat -> (nr <= 4)%nat -> xs s 1 = Int (Z.of_nat nr) -> xs s 3 = Ptr 5 0 -> xs s 4 = Ptr 4 q -> xs s 5 = Int (Z.of_nat r) ->
  km (copied 2 D T q r) T (mem s) -> (forall x, 0 <= x < 8 -> 0 <= bdat T x < 256) -> 64 <= blen T -> 0 <= q -> q + 2 * Z.of_nat nr <= blen D ->
  reach (6 * S n) code 251 s (fun pc s' => pc = 257%nat /\ km (copied 2 D T q nr) T (mem s') /\ keep (1 :: 3 :: 4 :: mainregs)%nat s s' /\ vs s' = vs s /\ holds LT (fl s') = Ok false).
Proof.
  clear - Hlr. intros D T q nr. induction n as [|n IH]; intros r s Hn Hnr X1 X3 X4 X5 [M0 M1 M2 M3 M4 M5 M6 M7 M8 M9] HT HbT Hq HbD.
  all: assert (HS : reach 6 code 251 s (fun pc s' => pc = (if (Z.of_nat r + 1 <? Z.of_nat nr)%Z then 251 else 257)%nat /\ km (copied 2 D T q (S r)) T (mem s') /\ xs s' 5 = Int (Z.of_nat (S r)) /\ keep (1 :: 3 :: 4 :: mainregs)%nat s s' /\ vs s' = vs s /\
      holds LT (fl s') = Ok (Z.of_nat r + 1 <? Z.of_nat nr))) by
   (begin; kstep8; (eapply m_ldr; [reflexivity|reads|eapply lsl1; [reads|lia]|lia|mem_fact|lia|lia|lia|]); cbn [xs vs fl mem];
    (eapply m_strk with (l := get_bytes T (0 + Z.of_nat r * 2) 2); [reflexivity|reads|eapply lsl1; [reads|lia]|lia|reads|mem_fact|lia|rewrite copied_blen; lia|apply same_bytes; intros; apply HT; lia|]); cbn [xs vs fl mem];
    kstep8; kstep8; (eapply reach_b with (b := (Z.of_nat r + 1 <? Z.of_nat nr)); [reflexivity|reflexivity|reflexivity|]); finish;
    (split; [reflexivity|]); (split; [|split; [reads_lia|split; [kept_here|split; reflexivity]]]);
    constructor; look; try assumption; f_equal; cbn [copied]; apply put_eq; [reflexivity|lia|f_equal; lia]).
  - eapply reach_weaken; [exact HS|lia|]. intros pc s' (-> & HM' & H5 & HK & HV & HF).
    replace (Z.of_nat r + 1 <? Z.of_nat nr) with false in * by (symmetry; apply Z.ltb_ge; lia). replace (S r) with nr in HM' by lia. auto.
  - replace (6 * S (S n))%nat with (6 + 6 * S n)%nat by lia. eapply reach_trans; [exact HS|]. intros pc s' (-> & HM' & H5 & HK & HV & HF).
    replace (Z.of_nat r + 1 <? Z.of_nat nr) with true by (symmetry; apply Z.ltb_lt; lia).
    eapply reach_weaken; [apply (IH (S r) s'); try assumption; try lia; (rewrite (keep_read _ _ _ _ HK) by (cbn; tauto); assumption)|lia|].
    intros pc s2 (-> & HM2 & HK2 & HV2 & HF2). split; [reflexivity|]. split; [exact HM2|]. split; [eapply keep_trans; eassumption|]. split; [congruence|exact HF2].
Qed.

Lemma copy4_s32 : forall D T q nr n r s, (r + S n = nr)%nat -> (nr <= 4)%nat -> xs s 1 = Int (Z.of_nat nr) -> xs s 3 = Ptr 5 0 -> xs s 4 = Ptr 4 q -> xs s 5 = Int (Z.of_nat r) ->
  km (copied 4 D T q r) T (mem s) -> (forall x, 0 <= x < 16 -> 0 <= bdat T x < 256) -> 64 <= blen T -> 0 <= q -> q + 4 * Z.of_nat nr <= blen D ->
  reach (6 * S n) code 288 s (fun pc s' => pc = 294%nat /\ km (copied 4 D T q nr) T (mem s') /\ keep (1 :: 3 :: 4 :: mainregs)%nat s s' /\ vs s' = vs s /\ holds LT (fl s') = Ok false).
Proof.
  clear - Hlr. intros D T q nr. induction n as [|n IH]; intros r s Hn Hnr X1 X3 X4 X5 [M0 M1 M2 M3 M4 M5 M6 M7 M8 M9] HT HbT Hq HbD.
  all: assert (HS : reach 6 code 288 s (fun pc s' => pc = (if (Z.of_nat r + 1 <? Z.of_nat nr)%Z then 288 else 294)%nat /\ km (copied 4 D T q (S r)) T (mem s') /\ xs s' 5 = Int (Z.of_nat (S r)) /\ keep (1 :: 3 :: 4 :: mainregs)%nat s s' /\ vs s' = vs s /\
      holds LT (fl s') = Ok (Z.of_nat r + 1 <? Z.of_nat nr))) by
   (begin; kstep8; (eapply m_ldr; [reflexivity|reads|eapply lsl2; [reads|lia]|lia|mem_fact|lia|lia|lia|]); cbn [xs vs fl mem];
    (eapply m_strk with (l := get_bytes T (0 + Z.of_nat r * 4) 4); [reflexivity|reads|eapply lsl2; [reads|lia]|lia|reads|mem_fact|lia|rewrite copied_blen; lia|apply same_bytes; intros; apply HT; lia|]); cbn [xs vs fl mem];
    kstep8; kstep8; (eapply reach_b with (b := (Z.of_nat r + 1 <? Z.of_nat nr)); [reflexivity|reflexivity|reflexivity|]); finish;
    (split; [reflexivity|]); (split; [|split; [reads_lia|split; [kept_here|split; reflexivity]]]);
    constructor; look; try assumption; f_equal; cbn [copied]; apply put_eq; [reflexivity|lia|f_equal; lia]).
  - eapply reach_weaken; [exact HS|lia|]. intros pc s' (-> & HM' & H5 & HK & HV & HF).
    replace (Z.of_nat r + 1 <? Z.of_nat nr) with false in * by (symmetry; apply Z.ltb_ge; lia). replace (S r) with nr in HM' by lia. auto.
  - replace (6 * S (S n))%nat with (6 + 6 * S n)%nat by lia. eapply reach_trans; [exact HS|]. intros pc s' (-> & HM' & H5 & HK & HV & HF).
    replace (Z.of_nat r + 1 <? Z.of_nat nr) with true by (symmetry; apply Z.ltb_lt; lia).
    eapply reach_weaken; [apply (IH (S r) s'); try assumption; try lia; (rewrite (keep_read _ _ _ _ HK) by (cbn; tauto); assumption)|lia|].
    intros pc s2 (-> & HM2 & HK2 & HV2 & HF2). split; [reflexivity|]. split; [exact HM2|]. split; [eapply keep_trans; eassumption|]. split; [congruence|exact HF2].
Qed.

(** ** Storing *)
(** [nr] elements of [sz] bytes of the vector [v] have been stored at [ip]. *)
Definition done4 (sz ip nr : Z) (v : list Z) (D T : buf Z) (s s' : state) : Prop :=
  exists D' T', km D' T' (mem s') /\ stored ip (sz * nr) v D D' /\ blen T' = blen T /\ xs s' 45 = Ptr 4 (ip + 4 * sz) /\
    (vs s' 16 = zeros /\ vs s' 17 = zeros /\ vs s' 18 = zeros /\ vs s' 19 = zeros) /\ keep keptregs s s' /\ keepv [0; 1; 2; 3; 4; 13]%nat s s'.
Lemma fit4_range : forall row, row <= lr -> 1 <= fit4 dr row <= 4.
Proof. clear - Hlr. intros row H. unfold fit4. destruct (Z.leb_spec (dr - row) 4); lia. Qed.

Lemma choose4_u8 : forall D T row col ip s, km D T (mem s) -> co s -> xs s 45 = Ptr 4 ip -> xs s 46 = Int row -> xs s 47 = Int col -> 0 <= row <= lr -> 0 <= col <= lc ->
  reach 11 code 144 s (fun pc s' => (pc = 151%nat \/ pc = 164%nat /\ fit4 dr row = 4) /\ xs s' 1 = Int (fit4 dr row) /\ xs s' 4 = Ptr 4 ip /\ mem s' = mem s /\ vs s' = vs s /\ keep mainregs s s').
Proof.
  clear Hty4. intros D T row col ip s HM [C8 C9 C10 C11 C12 C48 C49 C50 C51 C52] X45 X46 X47 Hrow Hcol.
  pose proof HM as [M0 M1 M2 M3 M4 M5 M6 M7 M8 M9].
  pose proof (fit4_range row ltac:(lia)) as Hnr. unfold fit4 in Hnr |- *.
  begin. do 3 kstep8.
  eapply k_cselw with (t := (dr - row <=? 4)) (z := if dr - row <=? 4 then dr - row else 4) (v := if dr - row <=? 4 then dr - row else 4);
    [reflexivity|look; cbn [holds f_lt f_eq]; f_equal; destruct (Z.leb_spec (dr - row) 4), (Z.ltb_spec (dr - row) 4), (Z.eqb_spec (dr - row) 4); try reflexivity; lia
    |destruct (dr - row <=? 4); reads|apply small_low; lia|]. look.
  set (nr := if dr - row <=? 4 then dr - row else 4) in *. clearbody nr. do 2 kstep8.
  eapply reach_b with (b := (nr =? 4)); [reflexivity|reflexivity|reflexivity|]. finish. split; [|split; [reads|split; [reads|split; [reflexivity|split; [reflexivity|kept_here]]]]].
  destruct (Z.eqb_spec nr 4); [right; split; [reflexivity|assumption]|left; reflexivity].
Qed.

Lemma slow4_u8 : forall D T nr ip out s, km D T (mem s) -> co s -> xs s 1 = Int nr -> xs s 4 = Ptr 4 ip -> xs s 45 = Ptr 4 ip -> full (vs s 16) -> firstn (4 * 1) (vs s 16) = out -> length out = (4 * 1)%nat ->
  Forall (fun z => 0 <= z < 256) out -> vs s 18 = zeros -> vs s 19 = zeros -> 1 <= nr <= 4 -> 0 <= ip -> ip + 1 * nr <= blen D -> 64 <= blen T ->
  reach 60 code 151 s (fun pc s' => pc = 308%nat /\ done4 1 ip nr out D T s s').
Proof.
  clear Hty4. intros D T nr ip out s [M0 M1 M2 M3 M4 M5 M6 M7 M8 M9] [C8 C9 C10 C11 C12 C48 C49 C50 C51 C52] X1 X4 X45 Fv V16 Hlen Hout Z8 Z9 Hnr Hip HD HT.
  begin. eapply m_st1; [reflexivity|reads|imm|lia|reads|unfold full in Fv; rewrite firstn_length, Fv; reflexivity|mem_fact|lia|lia|]. look. do 5 kstep8. rewrite (firstn_all2 (n := 16)) by (unfold full in Fv; rewrite Fv; lia).
  eapply reach_weaken with (n := (6 * S (Z.to_nat nr - 1) + 9)%nat); [|lia|intros ? ? HQ; exact HQ].
  eapply reach_trans; [apply (copy4_u8 D (put T 0 (vs s 16)) ip (Z.to_nat nr) (Z.to_nat nr - 1) 0)|].
  { lia. } { lia. } { reads_lia. } { reads. } { reads. } { reads. }
  { constructor; look; try assumption; reflexivity. }
  { intros x Hx. eapply put_front; [exact V16|exact Hlen|exact Hout|]. lia. } { exact HT. } { exact Hip. } { lia. }
  intros pc s2 (-> & HM2 & HK2 & HV2 & HF2). pose proof (keep_read _ _ _ 45%nat HK2 ltac:(cbn; tauto)) as Y45. cbn [xs upd Nat.eqb] in Y45. rewrite X45 in Y45.
  begin. eapply reach_b with (b := true); [reflexivity|reflexivity|reflexivity|]. do 4 kstep8. eapply reach_b with (b := true); [reflexivity|reflexivity|reflexivity|].
  finish. split; [reflexivity|]. exists (copied 1 D (put T 0 (vs s 16)) ip (Z.to_nat nr)), (put T 0 (vs s 16)). split; [exact HM2|].
  split; [replace (1 * nr) with (Z.of_nat 1 * Z.of_nat (Z.to_nat nr)) by lia; apply stored_through; [lia|lia|exact Fv|exact V16|exact Hlen]|]. split; [reflexivity|]. split; [reads_lia|].
  split; [look; rewrite ?HV2; look; repeat split; assumption || reflexivity|].
  split; (repeat apply Forall_cons; try apply Forall_nil); look; (rewrite HV2; reflexivity) || (rewrite (keep_read _ _ _ _ HK2) by (cbn; tauto); look; reflexivity || (symmetry; exact C51)).
Qed.

Lemma fast4_u8 : forall D T ip out s, km D T (mem s) -> co s -> xs s 4 = Ptr 4 ip -> xs s 45 = Ptr 4 ip -> full (vs s 16) -> firstn (4 * 1) (vs s 16) = out -> vs s 18 = zeros -> vs s 19 = zeros -> 
  0 <= ip -> ip + 1 * 4 <= blen D ->
  reach 60 code 164 s (fun pc s' => pc = 308%nat /\ done4 1 ip 4 out D T s s').
Proof.
  clear Hty4. intros D T ip out s [M0 M1 M2 M3 M4 M5 M6 M7 M8 M9] [C8 C9 C10 C11 C12 C48 C49 C50 C51 C52] X4 X45 Fv V16 Z8 Z9 Hip HD.
  assert (Lv : forall i, (i < 4)%nat -> length (firstn 1 (skipn (1 * i) (vs s 16))) = 1%nat) by (intros i Hi; unfold full in Fv; rewrite firstn_length, skipn_length, Fv; lia).
  begin. do 3 kstep8.
  do 4 (eapply m_st1lane; [reflexivity|reads|imm|lia|reads|apply Lv; lia|first [mem_fact | look; reflexivity]|lia|cbn [put blen]; lia|]; look).
  do 4 kstep8. eapply reach_b with (b := true); [reflexivity|reflexivity|reflexivity|].
  finish. split; [reflexivity|]. eexists _, T. split; [constructor; look; try assumption; reflexivity|].
  split; [apply (stored_lanes 1); [lia|exact Fv|exact V16|lia|lia|lia]|]. split; [reflexivity|]. split; [reads_lia|].
  split; [look; repeat split; assumption || reflexivity|]. split; kept_here.
Qed.

Lemma place4_u8 : forall D T row col ip out s, km D T (mem s) -> co s -> xs s 45 = Ptr 4 ip -> xs s 46 = Int row -> xs s 47 = Int col -> full (vs s 16) -> firstn (4 * 1) (vs s 16) = out -> length out = (4 * 1)%nat ->
  Forall (fun z => 0 <= z < 256) out -> vs s 18 = zeros -> vs s 19 = zeros -> 0 <= row <= lr -> 0 <= col <= lc -> 0 <= ip -> ip + 1 * fit4 dr row <= blen D -> 64 <= blen T ->
  reach 71 code 144 s (fun pc s' => pc = 308%nat /\ done4 1 ip (fit4 dr row) out D T s s').
Proof.
  intros D T row col ip out s HM HC X45 X46 X47 Fv V16 Hlen Hout Z8 Z9 Hrow Hcol Hip HD HT. pose proof (fit4_range row ltac:(lia)) as Hnr.
  replace 71%nat with (11 + 60)%nat by reflexivity. eapply reach_trans; [eapply choose4_u8; eassumption|]. intros pc s1 (HP & Y1 & Y4 & YM & YV & YK).
  assert (HM1 : km D T (mem s1)) by (rewrite YM; exact HM). assert (HC1 : co s1) by (eapply core4_keep; [exact HC|eapply keep_incl4; [|exact YK]; reflexivity]).
  assert (Y45 : xs s1 45 = Ptr 4 ip) by (rewrite (keep_read _ _ _ _ YK) by (cbn; tauto); exact X45). rewrite <- YV in *.
  assert (W : forall pc s', pc = 308%nat /\ done4 1 ip (fit4 dr row) out D T s1 s' -> pc = 308%nat /\ done4 1 ip (fit4 dr row) out D T s s').
  { intros pc' s' (-> & D' & T' & A1 & A2 & A3 & A4 & A5 & A6 & A7). split; [reflexivity|]. exists D', T'. repeat (split; [assumption|]). split; [eapply keep_trans; [eapply keep_incl4; [|exact YK]; reflexivity|exact A6]|].
    unfold keepv in *. rewrite <- YV. exact A7. }
  destruct HP as [-> | [-> E4]].
  - eapply reach_weaken; [apply (slow4_u8 D T (fit4 dr row) ip out s1); assumption|lia|exact W].
  - rewrite E4 in *. eapply reach_weaken; [apply (fast4_u8 D T ip out s1); assumption|lia|exact W].
Qed.

Lemma choose4_s8 : forall D T row col ip s, km D T (mem s) -> co s -> xs s 45 = Ptr 4 ip -> xs s 46 = Int row -> xs s 47 = Int col -> 0 <= row <= lr -> 0 <= col <= lc ->
  reach 11 code 189 s (fun pc s' => (pc = 199%nat \/ pc = 212%nat /\ fit4 dr row = 4) /\ xs s' 1 = Int (fit4 dr row) /\ xs s' 4 = Ptr 4 ip /\ mem s' = mem s /\ vs s' = vs s /\ keep mainregs s s').
Proof.
  clear Hty4. intros D T row col ip s HM [C8 C9 C10 C11 C12 C48 C49 C50 C51 C52] X45 X46 X47 Hrow Hcol.
  pose proof HM as [M0 M1 M2 M3 M4 M5 M6 M7 M8 M9].
  pose proof (fit4_range row ltac:(lia)) as Hnr. unfold fit4 in Hnr |- *.
  begin. do 4 kstep8.
  eapply k_cselw with (t := (dr - row <=? 4)) (z := if dr - row <=? 4 then dr - row else 4) (v := if dr - row <=? 4 then dr - row else 4);
    [reflexivity|look; cbn [holds f_lt f_eq]; f_equal; destruct (Z.leb_spec (dr - row) 4), (Z.ltb_spec (dr - row) 4), (Z.eqb_spec (dr - row) 4); try reflexivity; lia
    |destruct (dr - row <=? 4); reads|apply small_low; lia|]. look.
  set (nr := if dr - row <=? 4 then dr - row else 4) in *. clearbody nr. do 2 kstep8. destruct (Z.eqb_spec nr 4) as [E4|E4].
  - eapply k_ccmp; [reflexivity|reflexivity|reads|reads|apply small_low; lia|reflexivity|lia|lia|]. look. kstep8. eapply reach_b with (b := (dc - col =? 4)); [reflexivity|reflexivity|reflexivity|]. finish.
    split; [|split; [reads|split; [reads|split; [reflexivity|split; [reflexivity|kept_here]]]]]. destruct (dc - col =? 4); [right; split; [reflexivity|assumption]|left; reflexivity].
  - eapply r_ccmp_not; [reflexivity|reflexivity|]. look. kstep8. eapply reach_b with (b := false); [reflexivity|reflexivity|reflexivity|]. finish.
    split; [|split; [reads|split; [reads|split; [reflexivity|split; [reflexivity|kept_here]]]]]. left. reflexivity.
Qed.

Lemma slow4_s8 : forall D T nr ip out s, km D T (mem s) -> co s -> xs s 1 = Int nr -> xs s 4 = Ptr 4 ip -> xs s 45 = Ptr 4 ip -> full (vs s 16) -> firstn (4 * 1) (vs s 16) = out -> length out = (4 * 1)%nat ->
  Forall (fun z => 0 <= z < 256) out -> vs s 18 = zeros -> vs s 19 = zeros -> 1 <= nr <= 4 -> 0 <= ip -> ip + 1 * nr <= blen D -> 64 <= blen T ->
  reach 60 code 199 s (fun pc s' => pc = 308%nat /\ done4 1 ip nr out D T s s').
Proof.
  clear Hty4. intros D T nr ip out s [M0 M1 M2 M3 M4 M5 M6 M7 M8 M9] [C8 C9 C10 C11 C12 C48 C49 C50 C51 C52] X1 X4 X45 Fv V16 Hlen Hout Z8 Z9 Hnr Hip HD HT.
  begin. eapply m_st1; [reflexivity|reads|imm|lia|reads|unfold full in Fv; rewrite firstn_length, Fv; reflexivity|mem_fact|lia|lia|]. look. do 5 kstep8. rewrite (firstn_all2 (n := 16)) by (unfold full in Fv; rewrite Fv; lia).
  eapply reach_weaken with (n := (6 * S (Z.to_nat nr - 1) + 9)%nat); [|lia|intros ? ? HQ; exact HQ].
  eapply reach_trans; [apply (copy4_s8 D (put T 0 (vs s 16)) ip (Z.to_nat nr) (Z.to_nat nr - 1) 0)|].
  { lia. } { lia. } { reads_lia. } { reads. } { reads. } { reads. }
  { constructor; look; try assumption; reflexivity. }
  { intros x Hx. eapply put_front; [exact V16|exact Hlen|exact Hout|]. lia. } { exact HT. } { exact Hip. } { lia. }
  intros pc s2 (-> & HM2 & HK2 & HV2 & HF2). pose proof (keep_read _ _ _ 45%nat HK2 ltac:(cbn; tauto)) as Y45. cbn [xs upd Nat.eqb] in Y45. rewrite X45 in Y45.
  begin. eapply reach_b with (b := true); [reflexivity|reflexivity|reflexivity|]. do 4 kstep8. eapply reach_b with (b := true); [reflexivity|reflexivity|reflexivity|].
  finish. split; [reflexivity|]. exists (copied 1 D (put T 0 (vs s 16)) ip (Z.to_nat nr)), (put T 0 (vs s 16)). split; [exact HM2|].
  split; [replace (1 * nr) with (Z.of_nat 1 * Z.of_nat (Z.to_nat nr)) by lia; apply stored_through; [lia|lia|exact Fv|exact V16|exact Hlen]|]. split; [reflexivity|]. split; [reads_lia|].
  split; [look; rewrite ?HV2; look; repeat split; assumption || reflexivity|].
  split; (repeat apply Forall_cons; try apply Forall_nil); look; (rewrite HV2; reflexivity) || (rewrite (keep_read _ _ _ _ HK2) by (cbn; tauto); look; reflexivity || (symmetry; exact C51)).
Qed.

Lemma fast4_s8 : forall D T ip out s, km D T (mem s) -> co s -> xs s 4 = Ptr 4 ip -> xs s 45 = Ptr 4 ip -> full (vs s 16) -> firstn (4 * 1) (vs s 16) = out -> vs s 18 = zeros -> vs s 19 = zeros -> 
  0 <= ip -> ip + 1 * 4 <= blen D ->
  reach 60 code 212 s (fun pc s' => pc = 308%nat /\ done4 1 ip 4 out D T s s').
Proof.
  clear Hty4. intros D T ip out s [M0 M1 M2 M3 M4 M5 M6 M7 M8 M9] [C8 C9 C10 C11 C12 C48 C49 C50 C51 C52] X4 X45 Fv V16 Z8 Z9 Hip HD.
  assert (Lv : forall i, (i < 4)%nat -> length (firstn 1 (skipn (1 * i) (vs s 16))) = 1%nat) by (intros i Hi; unfold full in Fv; rewrite firstn_length, skipn_length, Fv; lia).
  begin. do 3 kstep8.
  do 4 (eapply m_st1lane; [reflexivity|reads|imm|lia|reads|apply Lv; lia|first [mem_fact | look; reflexivity]|lia|cbn [put blen]; lia|]; look).
  do 4 kstep8. eapply reach_b with (b := true); [reflexivity|reflexivity|reflexivity|].
  finish. split; [reflexivity|]. eexists _, T. split; [constructor; look; try assumption; reflexivity|].
  split; [apply (stored_lanes 1); [lia|exact Fv|exact V16|lia|lia|lia]|]. split; [reflexivity|]. split; [reads_lia|].
  split; [look; repeat split; assumption || reflexivity|]. split; kept_here.
Qed.

Lemma place4_s8 : forall D T row col ip out s, km D T (mem s) -> co s -> xs s 45 = Ptr 4 ip -> xs s 46 = Int row -> xs s 47 = Int col -> full (vs s 16) -> firstn (4 * 1) (vs s 16) = out -> length out = (4 * 1)%nat ->
  Forall (fun z => 0 <= z < 256) out -> vs s 18 = zeros -> vs s 19 = zeros -> 0 <= row <= lr -> 0 <= col <= lc -> 0 <= ip -> ip + 1 * fit4 dr row <= blen D -> 64 <= blen T ->
  reach 71 code 189 s (fun pc s' => pc = 308%nat /\ done4 1 ip (fit4 dr row) out D T s s').
Proof.
  intros D T row col ip out s HM HC X45 X46 X47 Fv V16 Hlen Hout Z8 Z9 Hrow Hcol Hip HD HT. pose proof (fit4_range row ltac:(lia)) as Hnr.
  replace 71%nat with (11 + 60)%nat by reflexivity. eapply reach_trans; [eapply choose4_s8; eassumption|]. intros pc s1 (HP & Y1 & Y4 & YM & YV & YK).
  assert (HM1 : km D T (mem s1)) by (rewrite YM; exact HM). assert (HC1 : co s1) by (eapply core4_keep; [exact HC|eapply keep_incl4; [|exact YK]; reflexivity]).
  assert (Y45 : xs s1 45 = Ptr 4 ip) by (rewrite (keep_read _ _ _ _ YK) by (cbn; tauto); exact X45). rewrite <- YV in *.
  assert (W : forall pc s', pc = 308%nat /\ done4 1 ip (fit4 dr row) out D T s1 s' -> pc = 308%nat /\ done4 1 ip (fit4 dr row) out D T s s').
  { intros pc' s' (-> & D' & T' & A1 & A2 & A3 & A4 & A5 & A6 & A7). split; [reflexivity|]. exists D', T'. repeat (split; [assumption|]). split; [eapply keep_trans; [eapply keep_incl4; [|exact YK]; reflexivity|exact A6]|].
    unfold keepv in *. rewrite <- YV. exact A7. }
  destruct HP as [-> | [-> E4]].
  - eapply reach_weaken; [apply (slow4_s8 D T (fit4 dr row) ip out s1); assumption|lia|exact W].
  - rewrite E4 in *. eapply reach_weaken; [apply (fast4_s8 D T ip out s1); assumption|lia|exact W].
Qed.

Lemma choose4_s16 : forall D T row col ip s, km D T (mem s) -> co s -> xs s 45 = Ptr 4 ip -> xs s 46 = Int row -> xs s 47 = Int col -> 0 <= row <= lr -> 0 <= col <= lc ->
  reach 11 code 236 s (fun pc s' => (pc = 245%nat \/ pc = 259%nat /\ fit4 dr row = 4) /\ xs s' 1 = Int (fit4 dr row) /\ xs s' 4 = Ptr 4 ip /\ mem s' = mem s /\ vs s' = vs s /\ keep mainregs s s').
Proof.
  clear Hty4. intros D T row col ip s HM [C8 C9 C10 C11 C12 C48 C49 C50 C51 C52] X45 X46 X47 Hrow Hcol.
  pose proof HM as [M0 M1 M2 M3 M4 M5 M6 M7 M8 M9].
  pose proof (fit4_range row ltac:(lia)) as Hnr. unfold fit4 in Hnr |- *.
  begin. do 4 kstep8.
  eapply k_cselw with (t := (dr - row <=? 4)) (z := if dr - row <=? 4 then dr - row else 4) (v := if dr - row <=? 4 then dr - row else 4);
    [reflexivity|look; cbn [holds f_lt f_eq]; f_equal; destruct (Z.leb_spec (dr - row) 4), (Z.ltb_spec (dr - row) 4), (Z.eqb_spec (dr - row) 4); try reflexivity; lia
    |destruct (dr - row <=? 4); reads|apply small_low; lia|]. look.
  set (nr := if dr - row <=? 4 then dr - row else 4) in *. clearbody nr. do 3 kstep8.
  eapply reach_b with (b := (nr =? 4)); [reflexivity|reflexivity|reflexivity|]. finish. split; [|split; [reads|split; [reads|split; [reflexivity|split; [reflexivity|kept_here]]]]].
  destruct (Z.eqb_spec nr 4); [right; split; [reflexivity|assumption]|left; reflexivity].
Qed.

Lemma slow4_s16 : forall D T nr ip out s, km D T (mem s) -> co s -> xs s 1 = Int nr -> xs s 4 = Ptr 4 ip -> xs s 45 = Ptr 4 ip -> full (vs s 16) -> firstn (4 * 2) (vs s 16) = out -> length out = (4 * 2)%nat ->
  Forall (fun z => 0 <= z < 256) out -> vs s 18 = zeros -> vs s 19 = zeros -> 1 <= nr <= 4 -> 0 <= ip -> ip + 2 * nr <= blen D -> 64 <= blen T ->
  reach 60 code 245 s (fun pc s' => pc = 308%nat /\ done4 2 ip nr out D T s s').
Proof.
  clear Hty4. intros D T nr ip out s [M0 M1 M2 M3 M4 M5 M6 M7 M8 M9] [C8 C9 C10 C11 C12 C48 C49 C50 C51 C52] X1 X4 X45 Fv V16 Hlen Hout Z8 Z9 Hnr Hip HD HT.
  begin. eapply m_strq; [reflexivity|reads|imm|lia|reads|exact Fv|mem_fact|lia|lia|]. look. do 5 kstep8. 
  eapply reach_weaken with (n := (6 * S (Z.to_nat nr - 1) + 9)%nat); [|lia|intros ? ? HQ; exact HQ].
  eapply reach_trans; [apply (copy4_s16 D (put T 0 (vs s 16)) ip (Z.to_nat nr) (Z.to_nat nr - 1) 0)|].
  { lia. } { lia. } { reads_lia. } { reads. } { reads. } { reads. }
  { constructor; look; try assumption; reflexivity. }
  { intros x Hx. eapply put_front; [exact V16|exact Hlen|exact Hout|]. lia. } { exact HT. } { exact Hip. } { lia. }
  intros pc s2 (-> & HM2 & HK2 & HV2 & HF2). pose proof (keep_read _ _ _ 45%nat HK2 ltac:(cbn; tauto)) as Y45. cbn [xs upd Nat.eqb] in Y45. rewrite X45 in Y45.
  begin. eapply reach_b with (b := false); [reflexivity|reflexivity|exact HF2|]. eapply reach_b with (b := true); [reflexivity|reflexivity|reflexivity|]. do 4 kstep8. eapply reach_b with (b := true); [reflexivity|reflexivity|reflexivity|].
  finish. split; [reflexivity|]. exists (copied 2 D (put T 0 (vs s 16)) ip (Z.to_nat nr)), (put T 0 (vs s 16)). split; [exact HM2|].
  split; [replace (2 * nr) with (Z.of_nat 2 * Z.of_nat (Z.to_nat nr)) by lia; apply stored_through; [lia|lia|exact Fv|exact V16|exact Hlen]|]. split; [reflexivity|]. split; [reads_lia|].
  split; [look; rewrite ?HV2; look; repeat split; assumption || reflexivity|].
  split; (repeat apply Forall_cons; try apply Forall_nil); look; (rewrite HV2; reflexivity) || (rewrite (keep_read _ _ _ _ HK2) by (cbn; tauto); look; reflexivity || (symmetry; exact C51)).
Qed.

Lemma fast4_s16 : forall D T ip out s, km D T (mem s) -> co s -> xs s 4 = Ptr 4 ip -> xs s 45 = Ptr 4 ip -> full (vs s 16) -> firstn (4 * 2) (vs s 16) = out -> vs s 18 = zeros -> vs s 19 = zeros -> 
  0 <= ip -> ip + 2 * 4 <= blen D ->
  reach 60 code 259 s (fun pc s' => pc = 308%nat /\ done4 2 ip 4 out D T s s').
Proof.
  clear Hty4. intros D T ip out s [M0 M1 M2 M3 M4 M5 M6 M7 M8 M9] [C8 C9 C10 C11 C12 C48 C49 C50 C51 C52] X4 X45 Fv V16 Z8 Z9 Hip HD.
  assert (Lv : forall i, (i < 4)%nat -> length (firstn 2 (skipn (2 * i) (vs s 16))) = 2%nat) by (intros i Hi; unfold full in Fv; rewrite firstn_length, skipn_length, Fv; lia).
  begin. do 3 kstep8.
  do 4 (eapply m_st1lane; [reflexivity|reads|imm|lia|reads|apply Lv; lia|first [mem_fact | look; reflexivity]|lia|cbn [put blen]; lia|]; look).
  do 4 kstep8. eapply reach_b with (b := true); [reflexivity|reflexivity|reflexivity|].
  finish. split; [reflexivity|]. eexists _, T. split; [constructor; look; try assumption; reflexivity|].
  split; [apply (stored_lanes 2); [lia|exact Fv|exact V16|lia|lia|lia]|]. split; [reflexivity|]. split; [reads_lia|].
  split; [look; repeat split; assumption || reflexivity|]. split; kept_here.
Qed.

Lemma place4_s16 : forall D T row col ip out s, km D T (mem s) -> co s -> xs s 45 = Ptr 4 ip -> xs s 46 = Int row -> xs s 47 = Int col -> full (vs s 16) -> firstn (4 * 2) (vs s 16) = out -> length out = (4 * 2)%nat ->
  Forall (fun z => 0 <= z < 256) out -> vs s 18 = zeros -> vs s 19 = zeros -> 0 <= row <= lr -> 0 <= col <= lc -> 0 <= ip -> ip + 2 * fit4 dr row <= blen D -> 64 <= blen T ->
  reach 71 code 236 s (fun pc s' => pc = 308%nat /\ done4 2 ip (fit4 dr row) out D T s s').
Proof.
  intros D T row col ip out s HM HC X45 X46 X47 Fv V16 Hlen Hout Z8 Z9 Hrow Hcol Hip HD HT. pose proof (fit4_range row ltac:(lia)) as Hnr.
  replace 71%nat with (11 + 60)%nat by reflexivity. eapply reach_trans; [eapply choose4_s16; eassumption|]. intros pc s1 (HP & Y1 & Y4 & YM & YV & YK).
  assert (HM1 : km D T (mem s1)) by (rewrite YM; exact HM). assert (HC1 : co s1) by (eapply core4_keep; [exact HC|eapply keep_incl4; [|exact YK]; reflexivity]).
  assert (Y45 : xs s1 45 = Ptr 4 ip) by (rewrite (keep_read _ _ _ _ YK) by (cbn; tauto); exact X45). rewrite <- YV in *.
  assert (W : forall pc s', pc = 308%nat /\ done4 2 ip (fit4 dr row) out D T s1 s' -> pc = 308%nat /\ done4 2 ip (fit4 dr row) out D T s s').
  { intros pc' s' (-> & D' & T' & A1 & A2 & A3 & A4 & A5 & A6 & A7). split; [reflexivity|]. exists D', T'. repeat (split; [assumption|]). split; [eapply keep_trans; [eapply keep_incl4; [|exact YK]; reflexivity|exact A6]|].
    unfold keepv in *. rewrite <- YV. exact A7. }
  destruct HP as [-> | [-> E4]].
  - eapply reach_weaken; [apply (slow4_s16 D T (fit4 dr row) ip out s1); assumption|lia|exact W].
  - rewrite E4 in *. eapply reach_weaken; [apply (fast4_s16 D T ip out s1); assumption|lia|exact W].
Qed.

Lemma choose4_s32 : forall D T row col ip s, km D T (mem s) -> co s -> xs s 45 = Ptr 4 ip -> xs s 46 = Int row -> xs s 47 = Int col -> 0 <= row <= lr -> 0 <= col <= lc ->
  reach 11 code 271 s (fun pc s' => (pc = 282%nat \/ pc = 295%nat /\ fit4 dr row = 4) /\ xs s' 1 = Int (fit4 dr row) /\ xs s' 4 = Ptr 4 ip /\ mem s' = mem s /\ vs s' = vs s /\ keep mainregs s s').
Proof.
  clear Hty4. intros D T row col ip s HM [C8 C9 C10 C11 C12 C48 C49 C50 C51 C52] X45 X46 X47 Hrow Hcol.
  pose proof HM as [M0 M1 M2 M3 M4 M5 M6 M7 M8 M9].
  pose proof (fit4_range row ltac:(lia)) as Hnr. unfold fit4 in Hnr |- *.
  begin. do 5 kstep8.
  eapply k_cselw with (t := (dr - row <=? 4)) (z := if dr - row <=? 4 then dr - row else 4) (v := if dr - row <=? 4 then dr - row else 4);
    [reflexivity|look; cbn [holds f_lt f_eq]; f_equal; destruct (Z.leb_spec (dr - row) 4), (Z.ltb_spec (dr - row) 4), (Z.eqb_spec (dr - row) 4); try reflexivity; lia
    |destruct (dr - row <=? 4); reads|apply small_low; lia|]. look.
  set (nr := if dr - row <=? 4 then dr - row else 4) in *. clearbody nr. do 2 kstep8. destruct (Z.eqb_spec nr 4) as [E4|E4].
  - eapply k_ccmp; [reflexivity|reflexivity|reads|reads|apply small_low; lia|reflexivity|lia|lia|]. look. kstep8. eapply reach_b with (b := (dc - col =? 4)); [reflexivity|reflexivity|reflexivity|]. finish.
    split; [|split; [reads|split; [reads|split; [reflexivity|split; [reflexivity|kept_here]]]]]. destruct (dc - col =? 4); [right; split; [reflexivity|assumption]|left; reflexivity].
  - eapply r_ccmp_not; [reflexivity|reflexivity|]. look. kstep8. eapply reach_b with (b := false); [reflexivity|reflexivity|reflexivity|]. finish.
    split; [|split; [reads|split; [reads|split; [reflexivity|split; [reflexivity|kept_here]]]]]. left. reflexivity.
Qed.

Lemma slow4_s32 : forall D T nr ip out s, km D T (mem s) -> co s -> xs s 1 = Int nr -> xs s 4 = Ptr 4 ip -> xs s 45 = Ptr 4 ip -> full (vs s 16) -> firstn (4 * 4) (vs s 16) = out -> length out = (4 * 4)%nat ->
  Forall (fun z => 0 <= z < 256) out -> 1 <= nr <= 4 -> 0 <= ip -> ip + 4 * nr <= blen D -> 64 <= blen T ->
  reach 60 code 282 s (fun pc s' => pc = 308%nat /\ done4 4 ip nr out D T s s').
Proof.
  clear Hty4. intros D T nr ip out s [M0 M1 M2 M3 M4 M5 M6 M7 M8 M9] [C8 C9 C10 C11 C12 C48 C49 C50 C51 C52] X1 X4 X45 Fv V16 Hlen Hout Hnr Hip HD HT.
  begin. eapply m_strq; [reflexivity|reads|imm|lia|reads|exact Fv|mem_fact|lia|lia|]. look. do 5 kstep8. 
  eapply reach_weaken with (n := (6 * S (Z.to_nat nr - 1) + 9)%nat); [|lia|intros ? ? HQ; exact HQ].
  eapply reach_trans; [apply (copy4_s32 D (put T 0 (vs s 16)) ip (Z.to_nat nr) (Z.to_nat nr - 1) 0)|].
  { lia. } { lia. } { reads_lia. } { reads. } { reads. } { reads. }
  { constructor; look; try assumption; reflexivity. }
  { intros x Hx. eapply put_front; [exact V16|exact Hlen|exact Hout|]. lia. } { exact HT. } { exact Hip. } { lia. }
  intros pc s2 (-> & HM2 & HK2 & HV2 & HF2). pose proof (keep_read _ _ _ 45%nat HK2 ltac:(cbn; tauto)) as Y45. cbn [xs upd Nat.eqb] in Y45. rewrite X45 in Y45.
  begin. eapply reach_b with (b := true); [reflexivity|reflexivity|reflexivity|]. do 6 kstep8. 
  finish. split; [reflexivity|]. exists (copied 4 D (put T 0 (vs s 16)) ip (Z.to_nat nr)), (put T 0 (vs s 16)). split; [exact HM2|].
  split; [replace (4 * nr) with (Z.of_nat 4 * Z.of_nat (Z.to_nat nr)) by lia; apply stored_through; [lia|lia|exact Fv|exact V16|exact Hlen]|]. split; [reflexivity|]. split; [reads_lia|].
  split; [look; rewrite ?HV2; look; repeat split; assumption || reflexivity|].
  split; (repeat apply Forall_cons; try apply Forall_nil); look; (rewrite HV2; reflexivity) || (rewrite (keep_read _ _ _ _ HK2) by (cbn; tauto); look; reflexivity || (symmetry; exact C51)).
Qed.

Lemma fast4_s32 : forall D T ip out s, km D T (mem s) -> co s -> xs s 4 = Ptr 4 ip -> xs s 45 = Ptr 4 ip -> full (vs s 16) -> firstn (4 * 4) (vs s 16) = out -> 
  0 <= ip -> ip + 4 * 4 <= blen D ->
  reach 60 code 295 s (fun pc s' => pc = 308%nat /\ done4 4 ip 4 out D T s s').
Proof.
  clear Hty4. intros D T ip out s [M0 M1 M2 M3 M4 M5 M6 M7 M8 M9] [C8 C9 C10 C11 C12 C48 C49 C50 C51 C52] X4 X45 Fv V16 Hip HD.
  assert (Lv : forall i, (i < 4)%nat -> length (firstn 4 (skipn (4 * i) (vs s 16))) = 4%nat) by (intros i Hi; unfold full in Fv; rewrite firstn_length, skipn_length, Fv; lia).
  begin. do 3 kstep8.
  do 4 (eapply m_st1lane; [reflexivity|reads|imm|lia|reads|apply Lv; lia|first [mem_fact | look; reflexivity]|lia|cbn [put blen]; lia|]; look).
  do 6 kstep8. 
  finish. split; [reflexivity|]. eexists _, T. split; [constructor; look; try assumption; reflexivity|].
  split; [apply (stored_lanes 4); [lia|exact Fv|exact V16|lia|lia|lia]|]. split; [reflexivity|]. split; [reads_lia|].
  split; [look; repeat split; assumption || reflexivity|]. split; kept_here.
Qed.

Lemma place4_s32 : forall D T row col ip out s, km D T (mem s) -> co s -> xs s 45 = Ptr 4 ip -> xs s 46 = Int row -> xs s 47 = Int col -> full (vs s 16) -> firstn (4 * 4) (vs s 16) = out -> length out = (4 * 4)%nat ->
  Forall (fun z => 0 <= z < 256) out -> 0 <= row <= lr -> 0 <= col <= lc -> 0 <= ip -> ip + 4 * fit4 dr row <= blen D -> 64 <= blen T ->
  reach 71 code 271 s (fun pc s' => pc = 308%nat /\ done4 4 ip (fit4 dr row) out D T s s').
Proof.
  intros D T row col ip out s HM HC X45 X46 X47 Fv V16 Hlen Hout Hrow Hcol Hip HD HT. pose proof (fit4_range row ltac:(lia)) as Hnr.
  replace 71%nat with (11 + 60)%nat by reflexivity. eapply reach_trans; [eapply choose4_s32; eassumption|]. intros pc s1 (HP & Y1 & Y4 & YM & YV & YK).
  assert (HM1 : km D T (mem s1)) by (rewrite YM; exact HM). assert (HC1 : co s1) by (eapply core4_keep; [exact HC|eapply keep_incl4; [|exact YK]; reflexivity]).
  assert (Y45 : xs s1 45 = Ptr 4 ip) by (rewrite (keep_read _ _ _ _ YK) by (cbn; tauto); exact X45). rewrite <- YV in *.
  assert (W : forall pc s', pc = 308%nat /\ done4 4 ip (fit4 dr row) out D T s1 s' -> pc = 308%nat /\ done4 4 ip (fit4 dr row) out D T s s').
  { intros pc' s' (-> & D' & T' & A1 & A2 & A3 & A4 & A5 & A6 & A7). split; [reflexivity|]. exists D', T'. repeat (split; [assumption|]). split; [eapply keep_trans; [eapply keep_incl4; [|exact YK]; reflexivity|exact A6]|].
    unfold keepv in *. rewrite <- YV. exact A7. }
  destruct HP as [-> | [-> E4]].
  - eapply reach_weaken; [apply (slow4_s32 D T (fit4 dr row) ip out s1); assumption|lia|exact W].
  - rewrite E4 in *. eapply reach_weaken; [apply (fast4_s32 D T ip out s1); assumption|lia|exact W].
Qed.

End Block.
