(** Kernel8bitNeonDotprodX1 and Kernel8bitNeonDotprod (kernel_arm64.cc:4414-5667, 2987-4412): the results of a block narrowed to the type of the destination. *)
From Coq Require Import ZArith List Bool Lia.
From Verif Require Import Base Mat Simd SimdFacts SpecSimd Kernel8bitFacts RequantProps Neon64 NeonRun NeonTac NeonCols NeonPack NeonKTac NeonKernelF NeonKernelT NeonKernel8Code Neon8Lanes Neon8Tac NeonKernelB Neon8Col Neon8Blk Neon8Dot Neon8DotHeld.
Import ListNotations.
Open Scope Z_scope.

(** Two columns in one register. *)
Definition joined8 (f g : nat -> Z) (i : nat) : Z := if Nat.ltb i 8 then f i else g (i - 8)%nat.
Lemma join18 : forall f g, firstn 8 (extend (lv 1 8 f)) ++ lv 1 8 g = lv 1 16 (joined8 f g).
Proof. reflexivity. Qed.
Definition added8 (x y z : vec) : vec := vop_val (Sqadd 2) (firstn 8 (extend (narrow false 2 x)) ++ narrow false 2 y) z.
Definition paired8 (u : bool) (v w : vec) : vec := firstn 8 (extend (narrow u 1 v)) ++ narrow u 1 w.
Lemma added8_lanes : forall f g z, -32768 <= z <= 32767 -> added8 (w4 f) (w4 g) (lv 2 8 (fun _ => wrap_u 16 z)) = lv 2 8 (fun i => sat_s 2 (sat_s 2 (wrap_s 32 (joined f g i)) + z)).
Proof.
  intros f g z Hz. unfold added8. rewrite !narrow4, join24. cbn [vop_val]. rewrite v_binary by lia. change (8 * Z.of_nat 2) with 16. apply lv_ext. intros i Hi. f_equal.
  rewrite (wrap_s_u 16), (wrap_s_small 16 z) by lia. unfold joined. destruct (Nat.ltb i 4); rewrite sat_s_idem; reflexivity.
Qed.
Lemma stored8_two : forall (u : bool) f g f' g' (z lo hi : Z), (if u then 0 <= z <= 255 else -128 <= z <= 127) -> (if u then 0 <= lo <= 255 /\ 0 <= hi <= 255 else -128 <= lo <= 127 /\ -128 <= hi <= 127) ->
  bounded8 u (paired8 u (added8 (w4 f) (w4 g) (lv 2 8 (fun _ => wrap_u 16 z))) (added8 (w4 f') (w4 g') (lv 2 8 (fun _ => wrap_u 16 z)))) (lv 1 16 (fun _ => wrap_u 8 lo)) (lv 1 16 (fun _ => wrap_u 8 hi)) =
  lv 1 16 (joined8 (fun i => between lo hi (wrap_s 32 (joined f g i) + z)) (fun i => between lo hi (wrap_s 32 (joined f' g' i) + z))).
Proof.
  intros u f g f' g' z lo hi Hz Hb. unfold paired8. rewrite !added8_lanes by (destruct u; lia). rewrite !narrow2, join18. unfold bounded8. cbn [vop_val].
  assert (S2 : forall x, sat_s 2 x = Z.max (-32768) (Z.min 32767 x)) by reflexivity.
  assert (U1 : forall x, sat_u 1 x = Z.max 0 (Z.min 255 x)) by reflexivity. assert (S1 : forall x, sat_s 1 x = Z.max (-128) (Z.min 127 x)) by reflexivity.
  assert (WU : forall x, 0 <= x <= 255 -> wrap_u 8 x = x) by (intros x Hx; apply wrap_u_small; change (2 ^ 8) with 256; lia).
  assert (WS : forall x, -128 <= x <= 127 -> wrap_s 8 x = x) by (intros x Hx; apply wrap_s_small; change (2 ^ (8 - 1)) with 128; lia).
  destruct u.
  - rewrite !u_binary by lia. change (8 * Z.of_nat 1) with 8. apply lv_ext. intros i Hi. f_equal. rewrite !(WU lo), !(WU hi) by lia. unfold joined8.
    destruct (Nat.ltb i 8); rewrite sat_s_idem; (rewrite (WU (sat_u 1 _)) by (rewrite U1; lia)); rewrite U1, !S2, SU by lia; (rewrite WU by lia); unfold between; lia.
  - rewrite !v_binary by lia. change (8 * Z.of_nat 1) with 8. apply lv_ext. intros i Hi. f_equal. rewrite !(wrap_s_u 8) by lia. rewrite !(WS lo), !(WS hi) by lia. unfold joined8.
    destruct (Nat.ltb i 8); rewrite sat_s_idem; (rewrite (WS (sat_s 1 _)) by (rewrite S1; lia)); rewrite S1, !S2, SS by lia; (rewrite WS by lia); unfold between; lia.
Qed.
Lemma first_half : forall f g, firstn 8 (lv 1 16 (joined8 f g)) = lv 1 8 f.
Proof. reflexivity. Qed.
Lemma second_half : forall f g, firstn 8 (extend (of_lanes 8 (repeat (nth 1 (ulanes 8 (lv 1 16 (joined8 f g))) 0) 1))) = lv 1 8 g.
Proof.
  intros f g. assert (E : nth 1 (ulanes 8 (lv 1 16 (joined8 f g))) 0 = of_bytes (lv 1 8 g)) by reflexivity. rewrite E. clear E.
  unfold of_lanes. cbn [repeat map concat]. rewrite app_nil_r, bytes_of_of_bytes8 by (apply lv_length || apply lv_range). reflexivity.
Qed.
(** The columns of a block, as bytes. *)
Definition column (n : nat) (lo hi : Z) (F : nat -> nat -> Z) (c : nat) : list Z := lv n 8 (fun i => between lo hi (F i c)).
Lemma grid_joined : forall (F : nat -> nat -> Z) c i, (i < 8)%nat -> joined (fun i => F (4 * 0 + i)%nat c) (fun i => F (4 * 1 + i)%nat c) i = F i c.
Proof. intros F c i Hi. unfold joined. destruct (Nat.ltb_spec i 4); f_equal; lia. Qed.
Lemma column8 : forall lo hi F z c, lv 1 8 (fun i => between lo hi (wrap_s 32 (joined (fun i => F (4 * 0 + i)%nat c) (fun i => F (4 * 1 + i)%nat c) i) + z)) = column 1 lo hi (fun i c => wrap_s 32 (F i c) + z) c.
Proof. intros. apply lv_ext. intros i Hi. rewrite grid_joined by exact Hi. reflexivity. Qed.
Lemma column16 : forall lo hi F z c, lv 2 8 (fun i => between lo hi (wrap_s 32 (joined (fun i => F (4 * 0 + i)%nat c) (fun i => F (4 * 1 + i)%nat c) i + z))) = column 2 lo hi (fun i c => wrap_s 32 (F i c + z)) c.
Proof. intros. apply lv_ext. intros i Hi. rewrite grid_joined by exact Hi. reflexivity. Qed.

Section Narrow.
Variables (Lb Rb Bi SL SR Mu Ex : buf Z) (lo ro dof lzw rzw dzp pzw sr sc lr lc dr dc ls rs ds K cmin cmax : Z) (hb hls hrs hpc cc : bool) (drz dcz ty tyz : Z).
Notation kmem8 := (kmem8 Lb Rb Bi SL SR Mu Ex lo ro dof lzw rzw dzp pzw sr sc lr lc dr dc ls rs ds K cmin cmax hb hls hrs hpc cc).
Notation core8 := (core8 lc ls rs ds K drz dcz tyz).
Hypothesis Hty : tyz mod 2 ^ 32 = ty.
Hypothesis Hty4 : 1 <= ty <= 4.

(** The zero point of the destination, and the part for its type. *)
Lemma selectd : forall D T s, kmem8 D T (mem s) -> core8 s -> full (vs s 13) ->
  reach 7 tail8 303 s (fun pc s' => pc = (if (ty =? 3)%Z then 558 else if (ty =? 2)%Z then 434 else 310)%nat /\ nth 4 (ulanes 2 (vs s' 13)) 0 = wrap_u 16 dzp /\ full (vs s' 13) /\
    mem s' = mem s /\ keep mainregs s s' /\ keepv ([0; 1; 2; 3] ++ allv)%nat s s').
Proof.
  intros D T s [M0 M1 M2 M3 M4 M5 M6 M7 M8 M9] [C8 C9 C10 C11 C12 C48 C49 C50 C51 C52] F13. begin. do 4 kstepd.
  eapply reach_b with (b := (ty =? 3)); [reflexivity|reflexivity|reflexivity|].
  assert (E13 : nth 4 (ulanes 2 (splice (vs s 13) (2 * 4) (bytes_of 2 (wrap_u 32 dzp)))) 0 = wrap_u 16 dzp) by (rewrite lane_h4 by exact F13; exact (wrap16 0 0 0 _)).
  assert (F13' : full (splice (vs s 13) (2 * 4) (bytes_of 2 (wrap_u 32 dzp)))) by (apply full_splice; [exact F13|lia]).
  destruct (ty =? 3) eqn:E3; [|kstepd; (eapply reach_b with (b := (ty =? 2)); [reflexivity|reflexivity|reflexivity|]); destruct (ty =? 2) eqn:E2];
    finish; rewrite ?E3, ?E2; (split; [reflexivity|]); (split; [look; exact E13|]); (split; [look; exact F13'|]); (split; [reflexivity|]); split; kept_here.
Qed.

Lemma narrow_u8 : forall D T F s, kmem8 D T (mem s) -> core8 s -> outs (grid F) s -> nth 4 (ulanes 2 (vs s 13)) 0 = wrap_u 16 dzp -> 0 <= dzp <= 255 /\ 0 <= cmin <= 255 /\ 0 <= cmax <= 255 ->
  reach 58 tail8 310 s (fun pc s' => pc = 368%nat /\ held_u8 (column 1 cmin cmax (fun i c => wrap_s 32 (F i c) + dzp)) s' /\ Forall (fun r => vs s' r = repeat 0 16) [24; 25; 26; 27; 28; 29; 30; 31]%nat /\
    mem s' = mem s /\ keep mainregs s s' /\ keepv [0; 1; 2; 3; 13]%nat s s').
Proof.
  intros D T F s [M0 M1 M2 M3 M4 M5 M6 M7 M8 M9] [C8 C9 C10 C11 C12 C48 C49 C50 C51 C52] [O16 O17 O18 O19 O20 O21 O22 O23 O24 O25 O26 O27 O28 O29 O30 O31] Z13 (Hz & Hc).
  unfold grid in O16, O17, O18, O19, O20, O21, O22, O23, O24, O25, O26, O27, O28, O29, O30, O31.
  begin. do 58 kstepd. finish. split; [reflexivity|]. split; [|split; [repeat constructor; reflexivity|split; [reflexivity|split; kept_here]]].
  unfold held_u8. look. rewrite Z13, !dup_lv by reflexivity.
  repeat match goal with |- context [vop_val (Sqadd 2) (firstn 8 (extend (narrow false 2 ?x)) ++ narrow false 2 ?y) ?z] => change (vop_val (Sqadd 2) (firstn 8 (extend (narrow false 2 x)) ++ narrow false 2 y) z) with (added8 x y z) end.
  repeat match goal with |- context [vop_val (Umin 1) (vop_val (Umax 1) (firstn 8 (extend (narrow true 1 ?v)) ++ narrow true 1 ?w) ?l) ?h] => change (vop_val (Umin 1) (vop_val (Umax 1) (firstn 8 (extend (narrow true 1 v)) ++ narrow true 1 w) l) h) with (bounded8 true (paired8 true v w) l h) end.
  rewrite !(stored8_two true) by assumption. rewrite !first_half, !second_half, !column8. repeat split.
Qed.

Lemma narrow_s8 : forall D T F s, kmem8 D T (mem s) -> core8 s -> outs (grid F) s -> nth 4 (ulanes 2 (vs s 13)) 0 = wrap_u 16 dzp -> -128 <= dzp <= 127 /\ -128 <= cmin <= 127 /\ -128 <= cmax <= 127 ->
  reach 58 tail8 434 s (fun pc s' => pc = 492%nat /\ held_s8 (column 1 cmin cmax (fun i c => wrap_s 32 (F i c) + dzp)) s' /\ Forall (fun r => vs s' r = repeat 0 16) [24; 25; 26; 27; 28; 29; 30; 31]%nat /\
    mem s' = mem s /\ keep mainregs s s' /\ keepv [0; 1; 2; 3; 13]%nat s s').
Proof.
  intros D T F s [M0 M1 M2 M3 M4 M5 M6 M7 M8 M9] [C8 C9 C10 C11 C12 C48 C49 C50 C51 C52] [O16 O17 O18 O19 O20 O21 O22 O23 O24 O25 O26 O27 O28 O29 O30 O31] Z13 (Hz & Hc).
  unfold grid in O16, O17, O18, O19, O20, O21, O22, O23, O24, O25, O26, O27, O28, O29, O30, O31.
  begin. do 58 kstepd. finish. split; [reflexivity|]. split; [|split; [repeat constructor; reflexivity|split; [reflexivity|split; kept_here]]].
  unfold held_s8. look. rewrite Z13, !dup_lv by reflexivity.
  repeat match goal with |- context [vop_val (Sqadd 2) (firstn 8 (extend (narrow false 2 ?x)) ++ narrow false 2 ?y) ?z] => change (vop_val (Sqadd 2) (firstn 8 (extend (narrow false 2 x)) ++ narrow false 2 y) z) with (added8 x y z) end.
  repeat match goal with |- context [vop_val (Smin 1) (vop_val (Smax 1) (firstn 8 (extend (narrow false 1 ?v)) ++ narrow false 1 ?w) ?l) ?h] => change (vop_val (Smin 1) (vop_val (Smax 1) (firstn 8 (extend (narrow false 1 v)) ++ narrow false 1 w) l) h) with (bounded8 false (paired8 false v w) l h) end.
  rewrite !(stored8_two false) by assumption. rewrite !first_half, !second_half, !column8. repeat split.
Qed.

Lemma narrow_s16 : forall D T F s, kmem8 D T (mem s) -> core8 s -> outs (grid F) s -> nth 4 (ulanes 2 (vs s 13)) 0 = wrap_u 16 dzp -> -32768 <= dzp <= 32767 /\ -32768 <= cmin <= 32767 /\ -32768 <= cmax <= 32767 ->
  reach 62 tail8 558 s (fun pc s' => pc = 620%nat /\ held_s16 (column 2 cmin cmax (fun i c => wrap_s 32 (F i c + dzp))) s' /\ Forall (fun r => vs s' r = repeat 0 16) [24; 25; 26; 27; 28; 29; 30; 31]%nat /\
    mem s' = mem s /\ keep mainregs s s' /\ keepv [0; 1; 2; 3; 13]%nat s s').
Proof.
  intros D T F s [M0 M1 M2 M3 M4 M5 M6 M7 M8 M9] [C8 C9 C10 C11 C12 C48 C49 C50 C51 C52] [O16 O17 O18 O19 O20 O21 O22 O23 O24 O25 O26 O27 O28 O29 O30 O31] Z13 (Hz & Hc).
  unfold grid in O16, O17, O18, O19, O20, O21, O22, O23, O24, O25, O26, O27, O28, O29, O30, O31.
  begin. do 62 kstepd. finish. split; [reflexivity|]. split; [|split; [repeat constructor; reflexivity|split; [reflexivity|split; kept_here]]].
  unfold held_s16. look. rewrite Z13, !dup_lv by reflexivity.
  repeat match goal with |- context [vop_val (Smin 2) (vop_val (Smax 2) (firstn 8 (extend (narrow false 2 (saddw ?x ?z))) ++ narrow false 2 (saddw ?y ?z)) ?l) ?h] => change (vop_val (Smin 2) (vop_val (Smax 2) (firstn 8 (extend (narrow false 2 (saddw x z))) ++ narrow false 2 (saddw y z)) l) h) with (bounded16 (narrowed16 x y z) l h) end.
  rewrite !stored16 by tauto. rewrite !column16. repeat split; reflexivity.
Qed.
End Narrow.
