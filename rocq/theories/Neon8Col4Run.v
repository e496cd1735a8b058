(** Kernel8bitNeon1Col (kernel_arm64.cc:1196-1820): the whole program, for one column of blocks. *)
From Coq Require Import ZArith List Bool Lia.
From Verif Require Import Base Mat Simd SimdFacts SpecSimd Kernel8bitFacts RequantProps Neon64 NeonRun NeonTac NeonCols NeonPack NeonKTac NeonKernelF NeonKernelT NeonKernel8Code Neon8Lanes Neon8Tac Neon8Col Neon8Pairs Neon8Col4 Neon8Col4Store.
Import ListNotations.
Open Scope Z_scope.

(** ** Four lanes narrowed *)
Lemma half_zero : forall f, extend (narrow false 2 (w4 f)) = firstn 8 (extend (narrow false 2 (w4 f))) ++ narrow false 2 (w4 (fun _ => 0)).
Proof. intros f. rewrite !narrow4, join24. reflexivity. Qed.
Lemma stored8h : forall (u : bool) f (z lo hi : Z), (if u then 0 <= z <= 255 else -128 <= z <= 127) -> (if u then 0 <= lo <= 255 /\ 0 <= hi <= 255 else -128 <= lo <= 127 /\ -128 <= hi <= 127) ->
  let v := bounded8 u (extend (narrow u 1 (vop_val (Sqadd 2) (extend (narrow false 2 (w4 f))) (lv 2 8 (fun _ => wrap_u 16 z))))) (lv 1 16 (fun _ => wrap_u 8 lo)) (lv 1 16 (fun _ => wrap_u 8 hi)) in
  full v /\ firstn 4 v = lv 1 4 (fun i => between lo hi (wrap_s 32 (f i) + z)).
Proof.
  intros u f z lo hi Hz Hb v. unfold v. clear v. rewrite half_zero.
  change (extend (narrow u 1 (vop_val (Sqadd 2) (firstn 8 (extend (narrow false 2 (w4 f))) ++ narrow false 2 (w4 (fun _ => 0))) (lv 2 8 (fun _ => wrap_u 16 z))))) with (narrowed8 u (w4 f) (w4 (fun _ => 0)) (lv 2 8 (fun _ => wrap_u 16 z))).
  split.
  - rewrite narrowed8_lanes by (destruct u; lia). unfold bounded8. cbn [vop_val]. destruct u; [rewrite !u_binary by lia|rewrite !v_binary by lia]; apply lv_length.
  - pose proof (stored8 u f (fun _ => 0) z lo hi Hz Hb) as H. change 4%nat with (Nat.min 4 8) at 1. rewrite <- firstn_firstn, H. 
    change (firstn 4 (lv 1 8 (fun i => between lo hi (wrap_s 32 (joined f (fun _ => 0) i) + z)))) with (lv 1 4 (fun i => between lo hi (wrap_s 32 (joined f (fun _ => 0) i) + z))).
    apply lv_ext. intros i Hi. unfold joined. destruct (Nat.ltb_spec i 4); [reflexivity|lia].
Qed.
Lemma saddw_half : forall f z, -32768 <= z <= 32767 -> saddw (w4 f) (extend (of_lanes 2 (repeat (wrap_u 16 z) 4))) = w4 (fun i => f i + z).
Proof. intros f z Hz. rewrite <- (saddw_lanes f z Hz). reflexivity. Qed.
Lemma stored16h : forall f (z lo hi : Z), -32768 <= lo <= 32767 -> -32768 <= hi <= 32767 ->
  let v := bounded16 (extend (narrow false 2 (w4 (fun i => f i + z)))) (lv 2 8 (fun _ => wrap_u 16 lo)) (lv 2 8 (fun _ => wrap_u 16 hi)) in
  full v /\ firstn 8 v = lv 2 4 (fun i => between lo hi (wrap_s 32 (f i + z))).
Proof.
  intros f z lo hi Hl Hh v. unfold v. clear v. rewrite half_zero, !narrow4, join24. unfold bounded16. cbn [vop_val]. rewrite !v_binary by lia. change (8 * Z.of_nat 2) with 16.
  split; [apply lv_length|]. match goal with |- firstn 8 (lv 2 8 ?h) = _ => change (firstn 8 (lv 2 8 h)) with (lv 2 4 h) end.
  assert (S2 : forall x, sat_s 2 x = Z.max (-32768) (Z.min 32767 x)) by reflexivity.
  assert (WS : forall x, -32768 <= x <= 32767 -> wrap_s 16 x = x) by (intros x Hx; apply wrap_s_small; change (2 ^ (16 - 1)) with 32768; lia).
  apply lv_ext. intros i Hi. f_equal. rewrite !(wrap_s_u 16) by lia. rewrite !(WS lo), !(WS hi) by lia. unfold joined. destruct (Nat.ltb_spec i 4); [|lia].
  rewrite (WS (sat_s 2 _)) by (rewrite S2; lia). rewrite S2. rewrite WS by lia. unfold between. lia.
Qed.

Section Block.
Variables (Lb Rb Bi SL SR Mu Ex : buf Z) (lo ro dof lzw rzw dzp pzw sr sc lr lc dr dc ls rs ds K cmin cmax : Z) (hb hls hrs hpc cc : bool) (drz dcz ty tyz : Z).
Notation km := (kmem8 Lb Rb Bi SL SR Mu Ex lo ro dof lzw rzw dzp pzw sr sc lr lc dr dc ls rs ds K cmin cmax hb hls hrs hpc cc).
Notation co := (core8 lc ls rs ds K drz dcz tyz).
Hypothesis Hlr : 0 <= sr <= lr /\ lr < dr /\ dr < 2 ^ 31 /\ lr + 4 < 2 ^ 31.
Hypothesis Hlc : 0 <= sc <= lc /\ lc < dc /\ dc < 2 ^ 31 /\ lc + 4 < 2 ^ 31.
Hypothesis Hst : 0 <= ls < 2 ^ 31 /\ 0 <= rs < 2 ^ 31 /\ 0 <= ds < 2 ^ 31.
Hypothesis Hdr : drz mod 2 ^ 32 = dr.
Hypothesis Hdc : dcz mod 2 ^ 32 = dc.
Hypothesis Hty : tyz mod 2 ^ 32 = ty.
Hypothesis Hty4 : 1 <= ty <= 4.
Notation flags := (kflags8 hb hls hrs hpc cc).
Notation pair lp rp i t := (pairs Lb Rb lp rp i 0 t).
Notation summed lp rp i t := (sums Lb Rb lp rp i 0 t).
Notation bias := (bias8 Bi hb).
Notation chan := (chan8 hpc).
Notation mult := (mult8 Mu hpc).
Notation expo := (expo8 Ex hpc).
Notation rsubt := (rsub SR lzw hrs).
Notation lsubt := (lsub SL rzw hls).
Notation rawt := (raw hls ty).
Notation size4 := (size8 hls ty).
Notation typed := (typed8 dzp cmin cmax hls ty).
Notation nlhs := (next_lhs4 lo lr ls).
Notation nrhs := (next_rhs4 lr lc rs).
Notation done := (done4 Lb Rb Bi SL SR Mu Ex lo ro dof lzw rzw dzp pzw sr sc lr lc dr dc ls rs ds K cmin cmax hb hls hrs hpc cc).
Notation code := kernel8_1col.

Lemma narrow4_u8 : forall D T f s, km D T (mem s) -> co s -> vs s 16 = w4 f -> nth 4 (ulanes 2 (vs s 13)) 0 = wrap_u 16 dzp -> 0 <= dzp <= 255 -> 0 <= cmin <= 255 /\ 0 <= cmax <= 255 ->
  reach 13 code 131 s (fun pc s' => pc = 144%nat /\ full (vs s' 16) /\ firstn 4 (vs s' 16) = lv 1 4 (fun i => between cmin cmax (wrap_s 32 (f i) + dzp)) /\ vs s' 18 = zeros /\ vs s' 19 = zeros /\
    mem s' = mem s /\ keep mainregs s s' /\ keepv [0; 1; 2; 3; 4; 13]%nat s s').
Proof.
  clear. intros D T f s [M0 M1 M2 M3 M4 M5 M6 M7 M8 M9] [C8 C9 C10 C11 C12 C48 C49 C50 C51 C52] V16 Z13 Hz Hc.
  begin. do 13 kstep8. finish. split; [reflexivity|]. rewrite <- !and_assoc, !and_assoc. look. rewrite Z13, !dup_lv by reflexivity.
  destruct (stored8h true f dzp cmin cmax Hz Hc) as [A1 A2]. split; [exact A1|]. split; [exact A2|]. split; [reflexivity|]. split; [reflexivity|]. split; [reflexivity|split; kept_here].
Qed.

Lemma narrow4_s8 : forall D T f s, km D T (mem s) -> co s -> vs s 16 = w4 f -> nth 4 (ulanes 2 (vs s 13)) 0 = wrap_u 16 dzp -> -128 <= dzp <= 127 -> -128 <= cmin <= 127 /\ -128 <= cmax <= 127 ->
  reach 13 code 176 s (fun pc s' => pc = 189%nat /\ full (vs s' 16) /\ firstn 4 (vs s' 16) = lv 1 4 (fun i => between cmin cmax (wrap_s 32 (f i) + dzp)) /\ vs s' 18 = zeros /\ vs s' 19 = zeros /\
    mem s' = mem s /\ keep mainregs s s' /\ keepv [0; 1; 2; 3; 4; 13]%nat s s').
Proof.
  clear. intros D T f s [M0 M1 M2 M3 M4 M5 M6 M7 M8 M9] [C8 C9 C10 C11 C12 C48 C49 C50 C51 C52] V16 Z13 Hz Hc.
  begin. do 13 kstep8. finish. split; [reflexivity|]. rewrite <- !and_assoc, !and_assoc. look. rewrite Z13, !dup_lv by reflexivity.
  destruct (stored8h false f dzp cmin cmax Hz Hc) as [A1 A2]. split; [exact A1|]. split; [exact A2|]. split; [reflexivity|]. split; [reflexivity|]. split; [reflexivity|split; kept_here].
Qed.

Lemma narrow4_s16 : forall D T f s, km D T (mem s) -> co s -> vs s 16 = w4 f -> nth 4 (ulanes 2 (vs s 13)) 0 = wrap_u 16 dzp -> -32768 <= dzp <= 32767 -> -32768 <= cmin <= 32767 /\ -32768 <= cmax <= 32767 ->
  reach 12 code 224 s (fun pc s' => pc = 236%nat /\ full (vs s' 16) /\ firstn 8 (vs s' 16) = lv 2 4 (fun i => between cmin cmax (wrap_s 32 (f i + dzp))) /\ vs s' 18 = zeros /\ vs s' 19 = zeros /\
    mem s' = mem s /\ keep mainregs s s' /\ keepv [0; 1; 2; 3; 4; 13]%nat s s').
Proof.
  clear. intros D T f s [M0 M1 M2 M3 M4 M5 M6 M7 M8 M9] [C8 C9 C10 C11 C12 C48 C49 C50 C51 C52] V16 Z13 Hz Hc.
  begin. do 12 kstep8. finish. split; [reflexivity|]. look. rewrite Z13, saddw_half, !dup_lv by (reflexivity || exact Hz).
  destruct (stored16h f dzp cmin cmax (proj1 Hc) (proj2 Hc)) as [A1 A2]. split; [exact A1|]. split; [exact A2|]. split; [reflexivity|]. split; [reflexivity|]. split; [reflexivity|split; kept_here].
Qed.

(** ** To the next block *)
Record stepped4 (row col ip dp np nq : Z) (s s' : state) : Prop := {
  t4_1 : xs s' 1 = Int 16; t4_5 : xs s' 5 = Ptr 1 lo; t4_7 : xs s' 7 = Int lr;
  t4_44 : xs s' 44 = Ptr 4 (if row =? lr then dp + ds * 4 else dp); t4_45 : xs s' 45 = Ptr 4 (if row =? lr then dp + ds * 4 else ip);
  t4_46 : xs s' 46 = Int (if row =? lr then sr else row + 4); t4_47 : xs s' 47 = Int (if row =? lr then col + 4 else col);
  t4_v8 : vs s' 8 = pair np nq 0 0; t4_v9 : vs s' 9 = pair np nq 1 0; t4_v10 : vs s' 10 = pair np nq 2 0; t4_v11 : vs s' 11 = pair np nq 3 0;
  t4_mem : mem s' = mem s; t4_keepv : keepv [13; 16; 17; 18; 19]%nat s s'; t4_keep : keep [8; 9; 10; 11; 12; 40; 41; 42; 43; 48; 49; 50; 51; 52]%nat s s' }.
Lemma next4 : forall D T row col dp ip np nq s, km D T (mem s) -> co s -> xs s 44 = Ptr 4 dp -> xs s 45 = Ptr 4 ip -> xs s 46 = Int row -> xs s 47 = Int col ->
  vs s 0 = get_bytes (enc 1 Lb) np 16 -> vs s 1 = get_bytes (enc 1 Lb) (np + 16) 16 -> vs s 2 = get_bytes (enc 1 Lb) (np + 32) 16 -> vs s 3 = get_bytes (enc 1 Lb) (np + 48) 16 -> vs s 4 = get_bytes (enc 1 Rb) nq 16 ->
  0 <= row <= lr -> 0 <= col <= lc ->
  reach 25 code 308 s (fun pc s' => pc = (if ((if row =? lr then col + 4 else col) <=? lc)%Z then 27 else 333)%nat /\ stepped4 row col ip dp np nq s s').
Proof.
  intros D T row col dp ip np nq s [M0 M1 M2 M3 M4 M5 M6 M7 M8 M9] [C8 C9 C10 C11 C12 C48 C49 C50 C51 C52] X44 X45 X46 X47 V0 V1 V2 V3 V4 Hrow Hcol.
  begin. do 13 pstep. eapply reach_b with (b := (row =? lr)); [reflexivity|reflexivity|reflexivity|]. destruct (row =? lr) eqn:Er.
  - do 8 pstep. eapply reach_b with (b := (col + 4 <=? lc)); [reflexivity|reflexivity|cbn [holds fl f_lt f_eq]; rewrite le_flag; reflexivity|].
    finish. split; [reflexivity|]. constructor; rewrite ?Er; [reads|reads|reads|reads_lia|reads_lia|reads|reads|look; apply pairs_at; lia|look; apply pairs_at; lia|look; apply pairs_at; lia|look; apply pairs_at; lia|reflexivity|kept_here|kept_here].
  - pstep. eapply reach_b with (b := true); [reflexivity|reflexivity|reflexivity|]. do 3 pstep.
    eapply reach_b with (b := (col <=? lc)); [reflexivity|reflexivity|cbn [holds fl f_lt f_eq]; rewrite le_flag; reflexivity|].
    finish. split; [reflexivity|]. constructor; rewrite ?Er; [reads|reads|reads|reads_lia|reads_lia|reads|reads|look; apply pairs_at; lia|look; apply pairs_at; lia|look; apply pairs_at; lia|look; apply pairs_at; lia|reflexivity|kept_here|kept_here].
Qed.

(** ** One block *)
Definition acc4 (n : nat) (row col lp rp : Z) (i : nat) : Z := row_sum Lb Rb lp rp 0 n i + (bias row i + pzw) - rsubt col - lsubt row i.
Definition value4 (n : nat) (row col lp rp : Z) (i : nat) : Z :=
  let x := acc4 n row col lp rp i in
  if rawt then x else between cmin cmax (neon_lane x (mult row i) (expo row i) + dzp).
Definition out4 (n : nat) (row col lp rp : Z) : list Z := lv size4 4 (value4 n row col lp rp).

Lemma keepv_incl4 : forall l l' (a b : state), forallb (fun r => existsb (Nat.eqb r) l) l' = true -> keepv l a b -> keepv l' a b.
Proof.
  clear. intros l l' a b H HK. unfold keepv in *. rewrite Forall_forall in *. rewrite forallb_forall in H. intros r Hr. apply HK.
  specialize (H r Hr). apply existsb_exists in H. destruct H as (x & Hx & E). apply Nat.eqb_eq in E. subst. exact Hx.
Qed.

Lemma finish4 : typed -> forall D T n row col lp rp ip s, km D T (mem s) -> co s -> xs s 6 = Int flags -> xs s 45 = Ptr 4 ip -> xs s 46 = Int row -> xs s 47 = Int col ->
  vs s 16 = w4 (acc4 n row col lp rp) -> vs s 8 = minus_one -> vs s 15 = w4 (mult row) -> nth 4 (ulanes 2 (vs s 13)) 0 = wrap_u 16 dzp ->
  0 <= row <= lr -> 0 <= col <= lc -> chan row + 4 <= blen Ex -> (rawt = false -> forall i, (i < 4)%nat -> fixed_point (mult row i) /\ exponent (expo row i)) ->
  0 <= ip -> ip + Z.of_nat size4 * fit4 dr row <= blen D -> 64 <= blen T ->
  reach 100 code (if rawt then 271 else 116) s (fun pc s' => pc = 308%nat /\ done (Z.of_nat size4) ip (fit4 dr row) (out4 n row col lp rp) D T s s').
Proof.
  intros (T1 & T2 & T3 & T4) D T n row col lp rp ip s HM HC X6 X45 X46 X47 V16 V8 V15 Z13 Hrow Hcol HEx HQ Hip HD HT.
  unfold out4, size8, value4 in *. destruct rawt eqn:Er.
  - eapply reach_weaken; [apply (place4_s32 Lb Rb Bi SL SR Mu Ex lo ro dof lzw rzw dzp pzw sr sc lr lc dr dc ls rs ds K cmin cmax hb hls hrs hpc cc drz dcz ty tyz Hlr Hlc Hst Hdr Hdc Hty4 D T row col ip (w4 (acc4 n row col lp rp)) s); try assumption|lia|].
    + rewrite V16. apply full_w4.
    + rewrite V16. reflexivity.
    + reflexivity.
    + apply lv_range.
    + intros pc s' H. exact H.
  - specialize (HQ eq_refl). assert (Hty3 : ty = 1 \/ ty = 2 \/ ty = 3). { unfold raw in Er. destruct (Z.eqb_spec ty 4) as [E|E]; [rewrite (T4 E) in Er; discriminate|lia]. }
    change 100%nat with (11 + 89)%nat. eapply reach_trans; [apply (quantize4 Lb Rb Bi SL SR Mu Ex lo ro dof lzw rzw dzp pzw sr sc lr lc dr dc ls rs ds K cmin cmax hb hls hrs hpc cc drz dcz tyz Hlr D T row _ s HM HC X6 X46 V16); assumption|].
    intros pc s1 (-> & W16 & WM & WK & WV).
    assert (HC1 : co s1) by (eapply core4_keep; [exact HC|eapply keep_incl4; [|exact WK]; reflexivity]).
    set (q := fun i => neon_lane (acc4 n row col lp rp i) (mult row i) (expo row i)) in *.
    assert (Hq : forall i, (i < 4)%nat -> - 2 ^ 30 <= q i <= 2 ^ 30) by (intros i Hi; apply (neon_small 0 0 0), (HQ i Hi)).
    rewrite <- WM in HM.
    assert (Y45 : xs s1 45 = Ptr 4 ip) by (rewrite (keep_read _ _ _ _ WK) by (cbn; tauto); exact X45).
    assert (Y46 : xs s1 46 = Int row) by (rewrite (keep_read _ _ _ _ WK) by (cbn; tauto); exact X46).
    assert (Y47 : xs s1 47 = Int col) by (rewrite (keep_read _ _ _ _ WK) by (cbn; tauto); exact X47).
    rewrite <- (keepv_read _ _ _ 13 WV) in Z13 by (cbn; tauto).
    (* To the part of the type. *)
    assert (HB : reach 4 code 127 s1 (fun pc s' => pc = (if (ty =? 3)%Z then 224 else if (ty =? 2)%Z then 176 else 131)%nat /\ xs s' = xs s1 /\ vs s' = vs s1 /\ mem s' = mem s1)).
    { destruct HC1. begin. kstep8. eapply reach_b with (b := (ty =? 3)); [reflexivity|reflexivity|reflexivity|]. destruct (ty =? 3) eqn:E3; [finish; repeat split; rewrite ?E3; reflexivity|].
      kstep8. eapply reach_b with (b := (ty =? 2)); [reflexivity|reflexivity|reflexivity|]. destruct (ty =? 2) eqn:E2; finish; repeat split; rewrite ?E3, ?E2; reflexivity. }
    change 89%nat with (4 + 85)%nat. eapply reach_trans; [exact HB|]. clear HB. intros pc s2 (-> & EX & EV & EM).
    assert (HC2 : co s2) by (destruct HC1; constructor; rewrite EX; assumption). rewrite <- EM in HM. rewrite <- EX in Y45, Y46, Y47. rewrite <- EV in Z13, W16.
    assert (K2 : keep mainregs s s2) by (unfold keep in *; rewrite EX; exact WK). assert (KV2 : keepv [0; 1; 2; 3; 4; 13]%nat s s2) by (unfold keepv in *; rewrite EV; exact WV).
    assert (FIN : forall sz out s3, mem s3 = mem s2 -> keep mainregs s2 s3 -> keepv [0; 1; 2; 3; 4; 13]%nat s2 s3 -> forall pc3,
      (km D T (mem s3) -> co s3 -> xs s3 45 = Ptr 4 ip -> xs s3 46 = Int row -> xs s3 47 = Int col ->
       reach 71 code pc3 s3 (fun pc s' => pc = 308%nat /\ done sz ip (fit4 dr row) out D T s3 s')) ->
      reach 72 code pc3 s3 (fun pc s' => pc = 308%nat /\ done sz ip (fit4 dr row) out D T s s')).
    { intros sz out s3 M3 K3 KV3 pc3 HR. eapply reach_weaken; [apply HR|lia|].
      - rewrite M3. exact HM.
      - eapply core4_keep; [exact HC2|eapply keep_incl4; [|exact K3]; reflexivity].
      - rewrite (keep_read _ _ _ _ K3) by (cbn; tauto). exact Y45.
      - rewrite (keep_read _ _ _ _ K3) by (cbn; tauto). exact Y46.
      - rewrite (keep_read _ _ _ _ K3) by (cbn; tauto). exact Y47.
      - intros pc s' [-> (D' & T' & A1 & A2 & A3 & A4 & A5 & A7 & A8)]. split; [reflexivity|]. exists D', T'. repeat (split; [assumption|]).
        split; [apply (keep_trans _ _ s3); [|exact A7]; apply (keep_trans _ _ s2); eapply keep_incl4; [|exact K2| |exact K3]; reflexivity|].
        apply (keepv_trans _ _ s3); [apply (keepv_trans _ _ s2); assumption|exact A8]. }
    destruct Hty3 as [E|[E|E]]; rewrite E in HD |- *; cbn [Z.eqb Pos.eqb] in HD |- *.
    + specialize (T1 E). change 85%nat with (13 + 72)%nat. eapply reach_trans; [eapply (narrow4_u8 D T q s2); tauto|].
      intros pc s3 (-> & F3 & R16 & R18 & R19 & M3 & K3 & KV3). apply FIN; try assumption. intros.
      apply (place4_u8 Lb Rb Bi SL SR Mu Ex lo ro dof lzw rzw dzp pzw sr sc lr lc dr dc ls rs ds K cmin cmax hb hls hrs hpc cc drz dcz ty tyz Hlr Hlc Hst Hdr Hty4 D T row col ip _ s3); try assumption; [|reflexivity|apply lv_range].
      change (4 * 1)%nat with 4%nat. rewrite R16. apply (lv_ext 1 4). intros i Hi. rewrite wrap_s_small by (specialize (Hq i Hi); lia). reflexivity.
    + specialize (T2 E). change 85%nat with (13 + 72)%nat. eapply reach_trans; [eapply (narrow4_s8 D T q s2); tauto|].
      intros pc s3 (-> & F3 & R16 & R18 & R19 & M3 & K3 & KV3). apply FIN; try assumption. intros.
      apply (place4_s8 Lb Rb Bi SL SR Mu Ex lo ro dof lzw rzw dzp pzw sr sc lr lc dr dc ls rs ds K cmin cmax hb hls hrs hpc cc drz dcz ty tyz Hlr Hlc Hst Hdr Hdc Hty4 D T row col ip _ s3); try assumption; [|reflexivity|apply lv_range].
      change (4 * 1)%nat with 4%nat. rewrite R16. apply (lv_ext 1 4). intros i Hi. rewrite wrap_s_small by (specialize (Hq i Hi); lia). reflexivity.
    + specialize (T3 E). change 85%nat with (13 + 72)%nat. eapply reach_trans; [eapply reach_weaken with (n := 12%nat); [eapply (narrow4_s16 D T q s2); tauto|lia|intros ? ? HQ'; exact HQ']|].
      intros pc s3 (-> & F3 & R16 & R18 & R19 & M3 & K3 & KV3). apply FIN; try assumption. intros.
      apply (place4_s16 Lb Rb Bi SL SR Mu Ex lo ro dof lzw rzw dzp pzw sr sc lr lc dr dc ls rs ds K cmin cmax hb hls hrs hpc cc drz dcz ty tyz Hlr Hlc Hst Hdr Hdc Hty4 D T row col ip _ s3); try assumption; [|reflexivity|apply lv_range].
      change (4 * 2)%nat with 8%nat. rewrite R16. apply (lv_ext 2 4). intros i Hi. rewrite wrap_s_small by (specialize (Hq i Hi); lia). reflexivity.
Qed.

(** At the start of a block, 1269. *)
Record at4 (D : buf Z) (row col lp rp ip dp : Z) (s : state) : Prop := {
  a4_mem : exists T, 64 <= blen T /\ km D T (mem s); a4_core : co s; a4_1 : xs s 1 = Int 16; a4_5 : xs s 5 = Ptr 1 lo; a4_7 : xs s 7 = Int lr;
  a4_40 : xs s 40 = Ptr 1 lp; a4_41 : xs s 41 = Ptr 2 rp; a4_42 : xs s 42 = Ptr 1 (lp + 64); a4_43 : xs s 43 = Ptr 2 (rp + 64); a4_44 : xs s 44 = Ptr 4 dp; a4_45 : xs s 45 = Ptr 4 ip; a4_46 : xs s 46 = Int row; a4_47 : xs s 47 = Int col;
  a4_v8 : vs s 8 = pair lp rp 0 0; a4_v9 : vs s 9 = pair lp rp 1 0; a4_v10 : vs s 10 = pair lp rp 2 0; a4_v11 : vs s 11 = pair lp rp 3 0;
  a4_v16 : vs s 16 = zeros; a4_v17 : vs s 17 = zeros; a4_v18 : vs s 18 = zeros; a4_v19 : vs s 19 = zeros; a4_v13 : full (vs s 13) }.
Definition next_col4 (row col : Z) : Z := if row =? lr then col + 4 else col.

Lemma block4 : typed -> forall D n row col lp rp ip dp s, at4 D row col lp rp ip dp s -> 16 * Z.of_nat (S n) = K -> K < 2 ^ 31 - 16 -> 0 <= row <= lr -> 0 <= col <= lc ->
  0 <= lp /\ lp + 4 * K <= blen Lb -> 0 <= rp /\ rp + 4 * K <= blen Rb -> 0 <= nlhs row lp /\ nlhs row lp + 64 <= blen Lb -> 0 <= nrhs row col rp /\ nrhs row col rp + 64 <= blen Rb ->
  (if hb then row else 0) + 4 <= blen Bi -> (hrs = true -> col + 4 <= blen SR) -> (hls = true -> row + 4 <= blen SL) ->
  chan row + 4 <= blen Mu -> chan row + 4 <= blen Ex -> (rawt = false -> forall i, (i < 4)%nat -> fixed_point (mult row i) /\ exponent (expo row i)) ->
  0 <= ip -> ip + Z.of_nat size4 * fit4 dr row <= blen D ->
  reach (22 * n + 200) code 27 s (fun pc s' => pc = (if (next_col4 row col <=? lc)%Z then 27 else 333)%nat /\ exists D', stored ip (Z.of_nat size4 * fit4 dr row) (out4 (S n) row col lp rp) D D' /\
    at4 D' (if row =? lr then sr else row + 4) (next_col4 row col) (nlhs row lp) (nrhs row col rp) (if row =? lr then dp + ds * 4 else ip + 4 * Z.of_nat size4) (if row =? lr then dp + ds * 4 else dp) s').
Proof.
  intros Ht D n row col lp rp ip dp s [(T & HT & HM) HC X1 X5 X7 X40 X41 X42 X43 X44 X45 X46 X47 V8 V9 V10 V11 V16 V17 V18 V19 V13] HK HK2 Hrow Hcol HL HR HNL HNR HB HSR HSL HMu HEx HQ Hip HD.
  replace (22 * n + 200)%nat with (22 * n + 11 + (12 + (22 + (11 + (13 + (100 + (25 + 6)))))))%nat by lia.
  (* Products *)
  eapply reach_trans; [apply (depth4 Lb Rb Bi SL SR Mu Ex lo ro dof lzw rzw dzp pzw sr sc lr lc dr dc ls rs ds K cmin cmax hb hls hrs hpc cc D T lp rp n s s HM (e12 _ _ _ _ _ _ _ _ s HC) HK HK2); [|exact HL|exact HR]|].
  { constructor; try assumption; try reflexivity; apply Forall_forall; intros; reflexivity. }
  intros pc s1 (-> & [Z16 ZM ZK ZV]).
  assert (R1 : forall r, In r otherregs -> xs s1 r = xs s r) by (intros r; apply (keep_read _ _ _ _ ZK)).
  assert (C1 : co s1) by (eapply core4_keep; [exact HC|eapply keep_incl4; [|exact ZK]; reflexivity]).
  (* Pointers *)
  eapply reach_trans; [apply (pointers4 lo sr sc lr lc dr dc ls rs ds K drz dcz tyz Hlr Hlc Hst row col lp rp s1 C1); try assumption; (rewrite R1 by (cbn; tauto); assumption)|].
  intros pc s2 (-> & Y40 & Y41 & Y42 & Y43 & YM & YK & YV). set (np := nlhs row lp) in *. set (nq := nrhs row col rp) in *.
  assert (K2 : keep [8; 9; 10; 11; 12; 44; 45; 46; 47; 48; 49; 50; 51; 52]%nat s s2) by (apply (keep_trans _ _ s1); [eapply keep_incl4; [|exact ZK]; reflexivity|exact YK]).
  assert (C2 : co s2) by (eapply core4_keep; [exact HC|eapply keep_incl4; [|exact K2]; reflexivity]).
  assert (M2 : mem s2 = mem s) by congruence. rewrite <- M2 in HM.
  assert (Y46 : xs s2 46 = Int row) by (rewrite (keep_read _ _ _ _ K2) by (cbn; tauto); exact X46). assert (Y47 : xs s2 47 = Int col) by (rewrite (keep_read _ _ _ _ K2) by (cbn; tauto); exact X47).
  assert (F13 : full (vs s2 13)) by (rewrite YV, (keepv_read _ _ _ _ ZV) by (cbn; tauto); exact V13).
  rewrite <- YV in Z16.
  (* Loads *)
  eapply reach_trans; [apply (load4 Lb Rb Bi SL SR Mu Ex lo ro dof lzw rzw dzp pzw sr sc lr lc dr dc ls rs ds K cmin cmax hb hls hrs hpc cc drz dcz tyz Hlr D T row np nq s2 HM C2); assumption|].
  intros pc s3 (-> & [W6 W42 W43 W0 W1 W2 W3 W4 W8 W9 W13 WZ W14 W15 WK WV WM]).
  assert (C3 : co s3) by (eapply core4_keep; [exact C2|eapply keep_incl4; [|exact WK]; reflexivity]). rewrite <- WM in HM.
  assert (W46 : xs s3 46 = Int row) by (rewrite (keep_read _ _ _ _ WK) by (cbn; tauto); exact Y46). assert (W47 : xs s3 47 = Int col) by (rewrite (keep_read _ _ _ _ WK) by (cbn; tauto); exact Y47).
  rewrite <- (keepv_read _ _ _ 16 WV) in Z16 by (cbn; tauto).
  (* Sums of the right matrix *)
  eapply reach_trans; [apply (right_sums4 Lb Rb Bi SL SR Mu Ex lo ro dof lzw rzw dzp pzw sr sc lr lc dr dc ls rs ds K cmin cmax hb hls hrs hpc cc drz dcz tyz Hlc D T col _ _ s3 HM C3 W6 W47 Z16 W9 W14 Hcol HSR)|].
  intros pc s4 (-> & U16 & UM & UK & UV).
  assert (C4 : co s4) by (eapply core4_keep; [exact C3|eapply keep_incl4; [|exact UK]; reflexivity]). rewrite <- UM in HM.
  assert (U46 : xs s4 46 = Int row) by (rewrite (keep_read _ _ _ _ UK) by (cbn; tauto); exact W46). assert (U47 : xs s4 47 = Int col) by (rewrite (keep_read _ _ _ _ UK) by (cbn; tauto); exact W47).
  rewrite <- (keep_read _ _ _ 6 UK) in W6 by (cbn; tauto).
  rewrite <- (keepv_read _ _ _ 13 UV) in W13, WZ by (cbn; tauto). rewrite <- (keepv_read _ _ _ 0 UV) in W0 by (cbn; tauto). rewrite <- (keepv_read _ _ _ 1 UV) in W1 by (cbn; tauto). rewrite <- (keepv_read _ _ _ 2 UV) in W2 by (cbn; tauto).
  rewrite <- (keepv_read _ _ _ 3 UV) in W3 by (cbn; tauto). rewrite <- (keepv_read _ _ _ 4 UV) in W4 by (cbn; tauto). rewrite <- (keepv_read _ _ _ 8 UV) in W8 by (cbn; tauto). rewrite <- (keepv_read _ _ _ 15 UV) in W15 by (cbn; tauto).
  (* Sums of the left matrix *)
  eapply reach_trans; [apply (left_sums4 Lb Rb Bi SL SR Mu Ex lo ro dof lzw rzw dzp pzw sr sc lr lc dr dc ls rs ds K cmin cmax hb hls hrs hpc cc drz dcz ty tyz Hlr Hty Hty4 D T row _ s4 HM C4 W6 U46 U16 W13 WZ Hrow HSL)|].
  intros pc s5 (-> & S16 & S13 & SZ & SM & SK & SV).
  assert (C5 : co s5) by (eapply core4_keep; [exact C4|eapply keep_incl4; [|exact SK]; reflexivity]). rewrite <- SM in HM.
  rewrite <- (keep_read _ _ _ 46 SK) in U46 by (cbn; tauto). rewrite <- (keep_read _ _ _ 47 SK) in U47 by (cbn; tauto). rewrite <- (keep_read _ _ _ 6 SK) in W6 by (cbn; tauto).
  rewrite <- (keepv_read _ _ _ 0 SV) in W0 by (cbn; tauto). rewrite <- (keepv_read _ _ _ 1 SV) in W1 by (cbn; tauto). rewrite <- (keepv_read _ _ _ 2 SV) in W2 by (cbn; tauto).
  rewrite <- (keepv_read _ _ _ 3 SV) in W3 by (cbn; tauto). rewrite <- (keepv_read _ _ _ 4 SV) in W4 by (cbn; tauto). rewrite <- (keepv_read _ _ _ 8 SV) in W8 by (cbn; tauto). rewrite <- (keepv_read _ _ _ 15 SV) in W15 by (cbn; tauto).
  assert (K5 : keep [8; 9; 10; 11; 12; 44; 45; 46; 47; 48; 49; 50; 51; 52]%nat s s5).
  { apply (keep_trans _ _ s2); [exact K2|]. apply (keep_trans _ _ s3); [eapply keep_incl4; [|exact WK]; reflexivity|]. apply (keep_trans _ _ s4); eapply keep_incl4; [|exact UK| |exact SK]; reflexivity. }
  assert (K5b : keep [42; 43]%nat s3 s5) by (apply (keep_trans _ _ s4); eapply keep_incl4; [|exact UK| |exact SK]; reflexivity).
  assert (K5c : keep [40; 41]%nat s2 s5) by (apply (keep_trans _ _ s3); [eapply keep_incl4; [|exact WK]; reflexivity|]; apply (keep_trans _ _ s4); eapply keep_incl4; [|exact UK| |exact SK]; reflexivity).
  assert (S45 : xs s5 45 = Ptr 4 ip) by (rewrite (keep_read _ _ _ _ K5) by (cbn; tauto); exact X45). assert (S44 : xs s5 44 = Ptr 4 dp) by (rewrite (keep_read _ _ _ _ K5) by (cbn; tauto); exact X44).
  (* Results *)
  eapply reach_trans; [apply (finish4 Ht D T (S n) row col lp rp ip s5 HM C5 W6 S45 U46 U47); assumption|].
  intros pc s6 (-> & D' & T' & G1 & G2 & G3 & G4 & (G16 & G17 & G18 & G19) & G7 & G8).
  assert (C6 : co s6) by (eapply core4_keep; [exact C5|eapply keep_incl4; [|exact G7]; reflexivity]).
  assert (R6 : forall r, In r keptregs -> xs s6 r = xs s5 r) by (intros r; apply (keep_read _ _ _ _ G7)).
  eapply reach_weaken; [apply (next4 D' T' row col dp (ip + 4 * Z.of_nat size4) np nq s6 G1 C6); try assumption; ((rewrite R6 by (cbn; tauto); assumption) || (rewrite (keepv_read _ _ _ _ G8) by (cbn; tauto); assumption))|lia|].
  intros pc s7 (-> & [T1 T5 T7 T44 T45 T46 T47 T8 T9 T10 T11 TM TV TK]). split; [reflexivity|]. exists D'. split; [exact G2|].
  assert (R7 : forall r, In r [8; 9; 10; 11; 12; 40; 41; 42; 43; 48; 49; 50; 51; 52]%nat -> xs s7 r = xs s6 r) by (intros r; apply (keep_read _ _ _ _ TK)).
  constructor; try assumption.
  - exists T'. rewrite G3, TM. split; [exact HT|exact G1].
  - eapply core4_keep; [exact C6|eapply keep_incl4; [|exact TK]; reflexivity].
  - rewrite R7, R6, (keep_read _ _ _ _ K5c) by (cbn; tauto). exact Y40.
  - rewrite R7, R6, (keep_read _ _ _ _ K5c) by (cbn; tauto). exact Y41.
  - rewrite R7, R6, (keep_read _ _ _ _ K5b) by (cbn; tauto). exact W42.
  - rewrite R7, R6, (keep_read _ _ _ _ K5b) by (cbn; tauto). exact W43.
  - rewrite (keepv_read _ _ _ _ TV) by (cbn; tauto). exact G16.
  - rewrite (keepv_read _ _ _ _ TV) by (cbn; tauto). exact G17.
  - rewrite (keepv_read _ _ _ _ TV) by (cbn; tauto). exact G18.
  - rewrite (keepv_read _ _ _ _ TV) by (cbn; tauto). exact G19.
  - rewrite (keepv_read _ _ _ _ TV), (keepv_read _ _ _ _ G8) by (cbn; tauto). exact S13.
Qed.

(** ** All blocks *)
Lemma room4 : forall s i, 0 <= s -> 0 <= i -> 0 <= 4 * s * i.
Proof. clear. intros. nia. Qed.
Lemma room42 : forall s i n, 0 <= s -> 0 <= i < n -> 4 * s * i + 4 * s <= 4 * s * n.
Proof. clear. intros. nia. Qed.
Lemma dst_room4 : forall z i nb d f p len, 0 <= z -> 0 <= i < nb -> f = (if i =? nb - 1 then Z.min 4 (d - 4 * i) else 4) -> 4 * (nb - 1) < d -> p + z * Z.min (4 * nb) d <= len -> p + 4 * z * i + z * f <= len.
Proof.
  clear. intros z i nb d f p len Hz Hi -> Hd H. assert (4 * i + (if i =? nb - 1 then Z.min 4 (d - 4 * i) else 4) <= Z.min (4 * nb) d) by (destruct (Z.eqb_spec i (nb - 1)); lia).
  set (f := if i =? nb - 1 then _ else _) in *. clearbody f. assert (z * (4 * i + f) <= z * Z.min (4 * nb) d) by (apply Z.mul_le_mono_nonneg_l; assumption). lia.
Qed.
Lemma prologue4 : forall D T s, km D T (mem s) -> 64 <= blen T -> xs s 40 = Ptr 1 lo -> xs s 41 = Ptr 2 ro -> xs s 42 = Ptr 1 lo -> xs s 43 = Ptr 2 ro -> xs s 44 = Ptr 4 dof -> xs s 45 = Ptr 4 dof ->
  xs s 46 = Int sr -> xs s 47 = Int sc -> xs s 48 = Ptr 0 0 -> xs s 49 = Int drz -> xs s 50 = Int dcz -> xs s 51 = Ptr 5 0 -> xs s 52 = Int tyz -> full (vs s 13) ->
  0 <= lo /\ lo + 64 <= blen Lb -> 0 <= ro /\ ro + 64 <= blen Rb ->
  reach 27 code 0 s (fun pc s' => pc = 27%nat /\ at4 D sr sc lo ro dof dof s').
Proof.
  intros D T s HM HT X40 X41 X42 X43 X44 X45 X46 X47 X48 X49 X50 X51 X52 F13 HL HR. pose proof HM as [M0 M1 M2 M3 M4 M5 M6 M7 M8 M9].
  assert (BL : blen (enc 1 Lb) = blen Lb) by apply Z.mul_1_l. assert (BR : blen (enc 1 Rb) = blen Rb) by apply Z.mul_1_l.
  begin. do 27 pstep. finish. split; [reflexivity|].
  constructor; try (constructor; reads_lia); look; try assumption; try reads_lia; try (f_equal; lia).
  - exists T. split; assumption.
  - apply pairs_at; lia.
  - apply pairs_at; lia.
  - apply pairs_at; lia.
  - apply pairs_at; lia.
Qed.

Hypothesis Hcol1 : sc = lc.
Variable nb : Z.
Hypothesis Hnb : 1 <= nb /\ lr = sr + 4 * (nb - 1).
(** [cnt] elements have been stored. *)
Definition written4 (n : nat) (cnt : Z) (D0 D : buf Z) : Prop :=
  blen D = blen D0 /\ forall x, bdat D x =
    if (dof <=? x) && (x <? dof + Z.of_nat size4 * cnt)
    then let b := (x - dof) / (4 * Z.of_nat size4) in nth (Z.to_nat ((x - dof) mod (4 * Z.of_nat size4))) (out4 n (sr + 4 * b) sc (lo + 4 * ls * b) ro) 0
    else bdat D0 x.
Lemma size4_pos : 1 <= Z.of_nat size4 <= 4.
Proof. clear. unfold size8. destruct rawt; [lia|]. destruct (ty =? 3); lia. Qed.
Lemma written4_next : forall n i m D0 D D', 0 <= i -> 0 <= m <= 4 -> written4 n (4 * i) D0 D ->
  stored (dof + 4 * Z.of_nat size4 * i) (Z.of_nat size4 * m) (out4 n (sr + 4 * i) sc (lo + 4 * ls * i) ro) D D' -> written4 n (4 * i + m) D0 D'.
Proof.
  intros n i m D0 D D' Hi Hm [W1 W2] [S1 S2]. pose proof size4_pos as Hs. split; [congruence|]. intros x. rewrite S2, W2. cbv zeta. set (z := Z.of_nat size4) in *. clearbody z. clear - Hi Hm Hs.
  destruct (Z.leb_spec (dof + 4 * z * i) x) as [H1|H1]; destruct (Z.ltb_spec x (dof + 4 * z * i + z * m)) as [H2|H2]; cbn [andb].
  - assert (Eq : (x - dof) / (4 * z) = i) by (symmetry; apply (Z.div_unique _ _ i (x - dof - 4 * z * i)); nia).
    assert (Er : (x - dof) mod (4 * z) = x - (dof + 4 * z * i)) by (symmetry; apply (Z.mod_unique _ _ i); nia).
    replace (dof <=? x) with true by (symmetry; apply Z.leb_le; nia). replace (x <? dof + z * (4 * i + m)) with true by (symmetry; apply Z.ltb_lt; nia). cbn [andb]. rewrite Eq, Er. reflexivity.
  - replace (x <? dof + z * (4 * i)) with false by (symmetry; apply Z.ltb_ge; nia). replace (x <? dof + z * (4 * i + m)) with false by (symmetry; apply Z.ltb_ge; nia). reflexivity.
  - replace (x <? dof + z * (4 * i)) with true by (symmetry; apply Z.ltb_lt; nia). replace (x <? dof + z * (4 * i + m)) with true by (symmetry; apply Z.ltb_lt; nia). reflexivity.
  - replace (x <? dof + z * (4 * i)) with true by (symmetry; apply Z.ltb_lt; nia). replace (x <? dof + z * (4 * i + m)) with true by (symmetry; apply Z.ltb_lt; nia). reflexivity.
Qed.

Lemma blocks4 : typed -> forall n D0, 16 * Z.of_nat (S n) = K -> K < 2 ^ 31 - 16 -> 0 <= lo /\ K <= ls /\ lo + 4 * ls * nb <= blen Lb -> 0 <= ro /\ ro + 4 * K <= blen Rb ->
  (if hb then sr + 4 * nb else 4) <= blen Bi -> (hrs = true -> sc + 4 <= blen SR) -> (hls = true -> sr + 4 * nb <= blen SL) ->
  (if hpc then sr + 4 * nb else 4) <= blen Mu -> (if hpc then sr + 4 * nb else 4) <= blen Ex -> (rawt = false -> forall r, 0 <= r < (if hpc then sr + 4 * nb else 4) -> fixed_point (bdat Mu r) /\ exponent (bdat Ex r)) ->
  0 <= dof -> dof + Z.of_nat size4 * Z.min (4 * nb) (dr - sr) <= blen D0 ->
  forall m i D s, 0 <= i -> nb - i = Z.of_nat (S m) -> written4 (S n) (4 * i) D0 D -> at4 D (sr + 4 * i) sc (lo + 4 * ls * i) ro (dof + 4 * Z.of_nat size4 * i) dof s ->
  reach ((22 * n + 200) * S m) code 27 s (fun pc s' => pc = 333%nat /\ exists D' T, km D' T (mem s') /\ written4 (S n) (Z.min (4 * nb) (dr - sr)) D0 D').
Proof.
  intros Ht n D0 HK HK2 HL HR HB HSR HSL HMu HEx HQ Hdof HD.
  assert (HP : forall i, 0 <= i < nb -> 4 * ls * i + 4 * ls <= 4 * ls * nb) by (intros; apply room42; lia).
  induction m as [|m IH]; intros i D s Hi Hm HW HA.
  all: assert (PB : (if hb then sr + 4 * i else 0) + 4 <= blen Bi) by (destruct hb; lia);
    assert (PM : chan (sr + 4 * i) + 4 <= blen Mu) by (unfold chan8; destruct hpc; lia); assert (PE : chan (sr + 4 * i) + 4 <= blen Ex) by (unfold chan8; destruct hpc; lia);
    assert (PQ : rawt = false -> forall r, (r < 4)%nat -> fixed_point (mult (sr + 4 * i) r) /\ exponent (expo (sr + 4 * i) r)) by (intros Er r Hr; unfold mult8, expo8, chan8; apply (HQ Er); destruct hpc; lia);
    assert (PS : hls = true -> sr + 4 * i + 4 <= blen SL) by (intros E; specialize (HSL E); lia);
    pose proof size4_pos as Hs; pose proof (HP i ltac:(lia)) as Pi;
    assert (Hin : 0 <= i < nb) by lia; assert (Pi0 : 0 <= 4 * ls * i) by (apply room4; lia); assert (Pz0 : 0 <= 4 * Z.of_nat size4 * i) by (apply room4; lia);
    assert (HF : fit4 dr (sr + 4 * i) = if i =? nb - 1 then Z.min 4 (dr - sr - 4 * i) else 4) by (unfold fit4; destruct (Z.leb_spec (dr - (sr + 4 * i)) 4), (Z.eqb_spec i (nb - 1)); lia);
    assert (HDi : dof + 4 * Z.of_nat size4 * i + Z.of_nat size4 * fit4 dr (sr + 4 * i) <= blen D)
      by (rewrite (proj1 HW); apply (dst_room4 _ _ nb (dr - sr)); [lia|lia|exact HF|lia|exact HD]);
    assert (BK := block4 Ht D n (sr + 4 * i) sc (lo + 4 * ls * i) ro (dof + 4 * Z.of_nat size4 * i) dof s HA HK HK2 ltac:(lia) ltac:(lia) ltac:(lia) HR);
    assert (BK2 := BK ltac:(unfold next_lhs4; destruct (Z.ltb_spec (sr + 4 * i) lr); [pose proof (HP (i + 1) ltac:(lia)); lia|pose proof (HP 0 ltac:(lia)); lia])); clear BK;
    assert (PR : 0 <= nrhs (sr + 4 * i) sc ro /\ nrhs (sr + 4 * i) sc ro + 64 <= blen Rb) by (unfold next_rhs4; replace (sc <? lc) with false by (symmetry; apply Z.ltb_ge; lia); destruct (sr + 4 * i <? lr); lia);
    assert (BK3 := BK2 PR PB HSR PS); clear BK2;
    assert (BK4 := BK3 PM PE PQ ltac:(lia) HDi); clear BK3.
  - replace ((22 * n + 200) * 1)%nat with (22 * n + 200)%nat by lia. eapply reach_weaken; [exact BK4|lia|]. intros pc s' (-> & D' & S & A).
    unfold next_col4. replace (sr + 4 * i =? lr) with true by (symmetry; apply Z.eqb_eq; lia). replace (sc + 4 <=? lc) with false by (symmetry; apply Z.leb_gt; lia).
    split; [reflexivity|]. destruct (a4_mem _ _ _ _ _ _ _ _ A) as (T & _ & KM). exists D', T. split; [exact KM|].
    replace (Z.min (4 * nb) (dr - sr)) with (4 * i + fit4 dr (sr + 4 * i)) by (rewrite HF; replace (i =? nb - 1) with true by (symmetry; apply Z.eqb_eq; lia); lia).
    eapply written4_next; [lia| |exact HW|exact S]. unfold fit4; destruct (Z.leb_spec (dr - (sr + 4 * i)) 4); lia.
  - replace ((22 * n + 200) * S (S m))%nat with (22 * n + 200 + (22 * n + 200) * S m)%nat by lia. eapply reach_trans; [exact BK4|]. intros pc s' (-> & D' & S & A).
    unfold next_col4, next_lhs4, next_rhs4 in *. replace (sr + 4 * i =? lr) with false in * by (symmetry; apply Z.eqb_neq; lia). replace (sc <=? lc) with true by (symmetry; apply Z.leb_le; lia).
    replace (sr + 4 * i <? lr) with true in A by (symmetry; apply Z.ltb_lt; lia).
    apply (IH (i + 1) D' s'); [lia|lia| |].
    + replace (4 * (i + 1)) with (4 * i + 4) by lia. eapply written4_next; [lia| |exact HW|]; [lia|].
      replace (fit4 dr (sr + 4 * i)) with 4 in S by (rewrite HF; replace (i =? nb - 1) with false by (symmetry; apply Z.eqb_neq; lia); reflexivity). exact S.
    + replace (sr + 4 * (i + 1)) with (sr + 4 * i + 4) by lia. replace (lo + 4 * ls * (i + 1)) with (lo + 4 * ls * i + ls * 4) by lia.
      replace (dof + 4 * Z.of_nat size4 * (i + 1)) with (dof + 4 * Z.of_nat size4 * i + 4 * Z.of_nat size4) by lia. exact A.
Qed.

(** The whole program. *)
Lemma program4 : typed -> forall n D0 T s, 16 * Z.of_nat (S n) = K -> K < 2 ^ 31 - 16 -> 0 <= lo /\ K <= ls /\ lo + 4 * ls * nb <= blen Lb -> 0 <= ro /\ ro + 4 * K <= blen Rb ->
  (if hb then sr + 4 * nb else 4) <= blen Bi -> (hrs = true -> sc + 4 <= blen SR) -> (hls = true -> sr + 4 * nb <= blen SL) ->
  (if hpc then sr + 4 * nb else 4) <= blen Mu -> (if hpc then sr + 4 * nb else 4) <= blen Ex -> (rawt = false -> forall r, 0 <= r < (if hpc then sr + 4 * nb else 4) -> fixed_point (bdat Mu r) /\ exponent (bdat Ex r)) ->
  0 <= dof -> dof + Z.of_nat size4 * Z.min (4 * nb) (dr - sr) <= blen D0 ->
  km D0 T (mem s) -> 64 <= blen T -> xs s 40 = Ptr 1 lo -> xs s 41 = Ptr 2 ro -> xs s 42 = Ptr 1 lo -> xs s 43 = Ptr 2 ro -> xs s 44 = Ptr 4 dof -> xs s 45 = Ptr 4 dof ->
  xs s 46 = Int sr -> xs s 47 = Int sc -> xs s 48 = Ptr 0 0 -> xs s 49 = Int drz -> xs s 50 = Int dcz -> xs s 51 = Ptr 5 0 -> xs s 52 = Int tyz -> full (vs s 13) ->
  reach (27 + (22 * n + 200) * Z.to_nat nb) code 0 s (fun pc s' => pc = 333%nat /\ exists D' T, km D' T (mem s') /\ written4 (S n) (Z.min (4 * nb) (dr - sr)) D0 D').
Proof.
  intros Ht n D0 T s HK HK2 HL HR HB HSR HSL HMu HEx HQ Hdof HD HM HT. intros.
  eapply reach_trans; [apply (prologue4 D0 T s HM HT); try assumption; [|lia]|].
  - assert (4 * ls * 1 <= 4 * ls * nb) by nia. lia.
  - intros pc s1 [-> HA]. replace (Z.to_nat nb) with (S (Z.to_nat nb - 1)) by lia.
    apply (blocks4 Ht n D0 HK HK2 HL HR HB HSR HSL HMu HEx HQ Hdof HD (Z.to_nat nb - 1) 0 D0 s1); [lia|lia| |].
    + split; [reflexivity|]. intros x. replace ((dof <=? x) && (x <? dof + Z.of_nat size4 * (4 * 0))) with false; [reflexivity|].
      symmetry. destruct (Z.leb_spec dof x); [|reflexivity]. apply Z.ltb_ge. lia.
    + replace (sr + 4 * 0) with sr by lia. replace (lo + 4 * ls * 0) with lo by lia. replace (dof + 4 * Z.of_nat size4 * 0) with dof by lia. exact HA.
Qed.

End Block.
