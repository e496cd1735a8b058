(** The float kernels for AArch64: what is stored, word by word. *)
From Coq Require Import ZArith List Bool Lia.
From Verif Require Import Base Mat Simd SimdFacts Neon64 NeonRun NeonTac NeonCols NeonPackMath NeonKTac NeonKernelCode NeonKernelF NeonKernelT.
Import ListNotations.
Open Scope Z_scope.

(** The bytes of the words [w r c] for [P r c], word (r, c) at [o r c], replace those of [D0]. *)
Record drawn (o w : Z -> Z -> Z) (P : Z -> Z -> Prop) (D0 D : buf Z) : Prop := {
  dn_len : blen D = blen D0;
  dn_in : forall r c b, P r c -> 0 <= b < 4 -> bdat D (o r c + b) = nth (Z.to_nat b) (bytes_of 4 (w r c)) 0;
  dn_out : forall x, (forall r c, P r c -> ~ 0 <= x - o r c < 4) -> bdat D x = bdat D0 x }.

Lemma drawn_none : forall o w P D, (forall r c, ~ P r c) -> drawn o w P D D.
Proof. intros o w P D H. constructor; [reflexivity|intros r c b HP; destruct (H r c HP)|reflexivity]. Qed.
Lemma drawn_iff : forall o w (P P' : Z -> Z -> Prop) D0 D, (forall r c, P r c <-> P' r c) -> drawn o w P D0 D -> drawn o w P' D0 D.
Proof.
  intros o w P P' D0 D H [H1 H2 H3]. constructor; [exact H1|intros r c b HP; apply H2, H, HP|].
  intros x Hx. apply H3. intros r c HP. apply Hx, H, HP.
Qed.
Lemma drawn_app : forall o w (P B : Z -> Z -> Prop) D0 D1 D2, (forall r c r' c', P r c -> B r' c' -> (r, c) <> (r', c') -> 4 <= Z.abs (o r c - o r' c')) ->
  (forall r c, B r c \/ ~ B r c) -> drawn o w P D0 D1 -> drawn o w B D1 D2 -> drawn o w (fun r c => P r c \/ B r c) D0 D2.
Proof.
  intros o w P B D0 D1 D2 Hn Hd [A1 A2 A3] [B1 B2 B3]. constructor; [congruence| |].
  - intros r c b HP Hb. destruct (Hd r c) as [HB|HB]; [apply B2; assumption|]. destruct HP as [HP|HP]; [|contradiction].
    rewrite B3; [apply A2; assumption|]. intros r' c' HB'. assert (Hne : (r, c) <> (r', c')) by congruence. pose proof (Hn r c r' c' HP HB' Hne). lia.
  - intros x Hx. rewrite B3 by (intros; apply Hx; tauto). apply A3. intros; apply Hx; tauto.
Qed.

(** ** Registers *)
Lemma lanes_nth : forall ws i b, (i < length ws)%nat -> (b < 4)%nat -> nth (4 * i + b) (of_lanes 4 ws) 0 = nth b (bytes_of 4 (nth i ws 0)) 0.
Proof.
  induction ws as [|z ws IH]; intros i b Hi Hb; [cbn in Hi; lia|]. rewrite of_lanes_cons. destruct i as [|i].
  - rewrite app_nth1 by (rewrite bytes_of_length; lia). reflexivity.
  - rewrite app_nth2 by (rewrite bytes_of_length; lia). rewrite bytes_of_length. replace (4 * S i + b - 4)%nat with (4 * i + b)%nat by lia. apply IH; cbn in Hi; lia.
Qed.
(** The register with words [w] of rows 4h to 4h + 3 of column c. *)
Definition vec_of (w : Z -> Z -> Z) (h c : nat) : list Z := of_lanes 4 (map (fun i => w (4 * Z.of_nat h + i) (Z.of_nat c)) [0; 1; 2; 3]).
Lemma full_vec_of : forall w h c, full (vec_of w h c).
Proof. intros. apply full_words. reflexivity. Qed.
Lemma vec_of_nth : forall w h c i b, 0 <= i < 4 -> 0 <= b < 4 -> nth (Z.to_nat (4 * i + b)) (vec_of w h c) 0 = nth (Z.to_nat b) (bytes_of 4 (w (4 * Z.of_nat h + i) (Z.of_nat c))) 0.
Proof.
  intros w h c i b Hi Hb. replace (Z.to_nat (4 * i + b)) with (4 * Z.to_nat i + Z.to_nat b)%nat by lia. unfold vec_of.
  rewrite lanes_nth by (cbn [map length]; lia). do 2 f_equal.
  assert (i = 0 \/ i = 1 \/ i = 2 \/ i = 3) as [-> | [-> | [-> | ->]]] by lia; reflexivity.
Qed.

(** ** A block of stored registers *)
Lemma put_cols_out : forall P p st g n x, (forall h c, full (g h c)) -> (forall c, 0 <= c < Z.of_nat n -> ~ 0 <= x - (p + st * c) < 32) -> bdat (put_cols P p st g n) x = bdat P x.
Proof.
  intros P p st g n x Hg. induction n as [|n IH]; intros H; [reflexivity|]. cbn [put_cols]. pose proof (H (Z.of_nat n) ltac:(lia)) as H'.
  rewrite put_out by (rewrite Hg; lia). rewrite put_out by (rewrite Hg; lia). apply IH. intros c Hc. apply H. lia.
Qed.
Lemma put_cols_in : forall P p st w n c r b, 32 <= st -> 0 <= c < Z.of_nat n -> 0 <= r < 8 -> 0 <= b < 4 ->
  bdat (put_cols P p st (vec_of w) n) (p + st * c + 4 * r + b) = nth (Z.to_nat b) (bytes_of 4 (w r c)) 0.
Proof.
  intros P p st w n c r b Hst. induction n as [|n IH]; intros Hc Hr Hb; [lia|]. cbn [put_cols]. pose proof full_vec_of as HF. unfold full in HF.
  destruct (Z.eq_dec c (Z.of_nat n)) as [->|Hne].
  - destruct (Z.ltb_spec r 4).
    + rewrite put_out by (rewrite HF; lia). rewrite put_in by (rewrite HF; lia). replace (p + st * Z.of_nat n + 4 * r + b - (p + st * Z.of_nat n)) with (4 * r + b) by lia.
      rewrite vec_of_nth by lia. reflexivity.
    + rewrite put_in by (rewrite HF; lia). replace (p + st * Z.of_nat n + 4 * r + b - (p + st * Z.of_nat n + 16)) with (4 * (r - 4) + b) by lia.
      rewrite vec_of_nth by lia. replace (4 * Z.of_nat 1 + (r - 4)) with r by lia. reflexivity.
  - assert (st * (Z.of_nat n - c) >= 32) by nia. rewrite put_out by (rewrite HF; lia). rewrite put_out by (rewrite HF; lia). apply IH; lia.
Qed.
Lemma put_cols_word : forall T w c r, 0 <= c < 8 -> 0 <= r < 8 -> word_at (put_cols T 0 32 (vec_of w) 8) (32 * c + 4 * r) = bytes_of 4 (w r c).
Proof.
  intros T w c r Hc Hr. unfold word_at. apply bytes_of_mod. change (256 ^ Z.of_nat 4) with (2 ^ 32).
  assert (E : get_bytes (put_cols T 0 32 (vec_of w) 8) (32 * c + 4 * r) 4 = bytes_of 4 (w r c)).
  { unfold get_bytes. cbn [zseq map].
    assert (G : forall b, 0 <= b < 4 -> bdat (put_cols T 0 32 (vec_of w) 8) (32 * c + 4 * r + b) = nth (Z.to_nat b) (bytes_of 4 (w r c)) 0).
    { intros b Hb. rewrite <- (put_cols_in T 0 32 w 8 c r b) by lia. f_equal. }
    rewrite !G by lia. reflexivity. }
  rewrite E, of_bytes_of. change (256 ^ Z.of_nat 4) with (2 ^ 32). rewrite Z.mod_mod by lia. reflexivity.
Qed.

(** ** A block copied word by word *)
Lemma copy_col_out : forall D T dp tp n x, ~ 0 <= x - dp < 4 * Z.of_nat n -> bdat (copy_col D T dp tp n) x = bdat D x.
Proof.
  intros D T dp tp n x. induction n as [|n IH]; intros H; [reflexivity|]. cbn [copy_col]. unfold word_at. rewrite put_out by (rewrite bytes_of_length; lia). apply IH. lia.
Qed.
Lemma copy_col_in : forall D T dp tp n r b, 0 <= r < Z.of_nat n -> 0 <= b < 4 -> bdat (copy_col D T dp tp n) (dp + 4 * r + b) = nth (Z.to_nat b) (word_at T (tp + 4 * r)) 0.
Proof.
  intros D T dp tp n r b. induction n as [|n IH]; intros Hr Hb; [lia|]. cbn [copy_col]. destruct (Z.eq_dec r (Z.of_nat n)) as [->|Hne].
  - rewrite put_in by (unfold word_at; rewrite bytes_of_length; lia). do 2 f_equal. lia.
  - rewrite put_out by (unfold word_at; rewrite bytes_of_length; lia). apply IH; lia.
Qed.
Lemma copy_cols_out : forall D T dp ds nr n x, (forall c, 0 <= c < Z.of_nat n -> ~ 0 <= x - (dp + ds * c) < 4 * Z.of_nat nr) -> bdat (copy_cols D T dp ds nr n) x = bdat D x.
Proof.
  intros D T dp ds nr n x. induction n as [|n IH]; intros H; [reflexivity|]. cbn [copy_cols].
  rewrite copy_col_out by (apply H; lia). apply IH. intros c Hc. apply H. lia.
Qed.
Lemma copy_cols_in : forall D T dp ds nr n c r b, 4 * Z.of_nat nr <= ds -> 0 <= c < Z.of_nat n -> 0 <= r < Z.of_nat nr -> 0 <= b < 4 ->
  bdat (copy_cols D T dp ds nr n) (dp + ds * c + 4 * r + b) = nth (Z.to_nat b) (word_at T (32 * c + 4 * r)) 0.
Proof.
  intros D T dp ds nr n c r b Hds. induction n as [|n IH]; intros Hc Hr Hb; [lia|]. cbn [copy_cols]. destruct (Z.eq_dec c (Z.of_nat n)) as [->|Hne].
  - apply copy_col_in; lia.
  - assert (ds * (Z.of_nat n - c) >= ds) by nia. rewrite copy_col_out by lia. apply IH; lia.
Qed.

(** ** A block *)
(** The destination after a block of [nr] rows and [nc] columns of [g] at [ip]. *)
Definition block_out (D T : buf Z) (ip ds : Z) (g : nat -> nat -> list Z) (nr nc : Z) : buf Z :=
  if (nr =? 8) && (nc =? 8) then put_cols D ip ds g 8 else copy_cols D (put_cols T 0 32 g 8) ip ds (Z.to_nat nr) (Z.to_nat nc).
Lemma block_out_blen : forall D T ip ds g nr nc, blen (block_out D T ip ds g nr nc) = blen D.
Proof. intros. unfold block_out. destruct ((nr =? 8) && (nc =? 8)); [apply put_cols_blen|apply copy_cols_blen]. Qed.
Lemma put_cols_ext : forall P p st g g' n, (forall h c, (h < 2)%nat -> (c < n)%nat -> g h c = g' h c) -> put_cols P p st g n = put_cols P p st g' n.
Proof.
  intros P p st g g' n. induction n as [|n IH]; intros H; [reflexivity|]. cbn [put_cols]. rewrite IH by (intros; apply H; lia). rewrite !H by lia. reflexivity.
Qed.
Lemma block_out_ext : forall D T ip ds g g' nr nc, (forall h c, (h < 2)%nat -> (c < 8)%nat -> g h c = g' h c) -> block_out D T ip ds g nr nc = block_out D T ip ds g' nr nc.
Proof.
  intros D T ip ds g g' nr nc H. unfold block_out. rewrite (put_cols_ext D ip ds g g') by (intros; apply H; lia). rewrite (put_cols_ext T 0 32 g g') by (intros; apply H; lia). reflexivity.
Qed.

Lemma block_drawn : forall D T ip ds w nr nc, 0 < nr <= 8 -> 0 < nc <= 8 -> 4 * nr <= ds ->
  drawn (fun r c => ip + ds * c + 4 * r) w (fun r c => 0 <= r < nr /\ 0 <= c < nc) D (block_out D T ip ds (vec_of w) nr nc).
Proof.
  intros D T ip ds w nr nc Hr Hc Hds. constructor; [apply block_out_blen| |].
  - intros r c b [HR HC] Hb. unfold block_out. destruct ((nr =? 8) && (nc =? 8)) eqn:E8.
    + apply andb_prop in E8. destruct E8 as [E1 E2]. apply Z.eqb_eq in E1, E2. apply put_cols_in; lia.
    + rewrite copy_cols_in by lia. rewrite put_cols_word by lia. reflexivity.
  - intros x Hx. assert (G : forall c, 0 <= c < nc -> ~ 0 <= x - (ip + ds * c) < 4 * nr).
    { intros c HC Hbad. apply (Hx ((x - (ip + ds * c)) / 4) c); [split; [|exact HC]; split; [apply Z.div_pos; lia|apply Z.div_lt_upper_bound; lia]|].
      pose proof (Z.div_mod (x - (ip + ds * c)) 4 ltac:(lia)). pose proof (Z.mod_pos_bound (x - (ip + ds * c)) 4 ltac:(lia)). lia. }
    unfold block_out. destruct ((nr =? 8) && (nc =? 8)) eqn:E8.
    + apply andb_prop in E8. destruct E8 as [E1 E2]. apply Z.eqb_eq in E1, E2. apply put_cols_out; [apply full_vec_of|]. intros c HC. specialize (G c ltac:(lia)). lia.
    + apply copy_cols_out. intros c HC. specialize (G c ltac:(lia)). lia.
Qed.
