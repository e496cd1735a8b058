(** Per-channel buffers: EnsurePerChannelBuffersLargeEnough. *)
From Verif Require Import Base SidePair SizeUtil SizeUtilFacts Mat MatFacts Scalars Pack PackFacts
  MemcpyPackFacts MulParams Kernel TrMul.

Lemma assert_zero_tail_ok : forall {A} dbg (is_zero : A -> bool) b n cap, n <= cap ->
  (forall x, b = Some x -> 0 <= n /\ cap <= blen x /\ forall i, n <= i < cap -> is_zero (bdat x i) = true) ->
  assert_zero_tail dbg is_zero b n cap = Ok tt.
Proof.
  intros A dbg is_zero b n cap Hn H. unfold assert_zero_tail. destruct dbg; [|reflexivity].
  destruct b as [x|]; [|reflexivity]. destruct (H x eq_refl) as (H0 & H1 & H2).
  destruct (forto_inv (fun _ (_ : unit) => True) (fun i _ => v <- bread x i ;; dcheck true (is_zero v)) n cap tt Hn)
    as ([] & E & _); auto.
  intros i [] Hi _. exists tt. split; auto. rewrite bread_ok by lia. cbn [bind].
  apply dcheck_ok. auto.
Qed.

Lemma grow_buffer_ok : forall {A} (zero : A) fresh b n req, 0 <= n <= req -> n <= blen b ->
  exists b', grow_buffer zero fresh (Some b) n req = Ok (Some b') /\ blen b' = req /\
    (forall i, 0 <= i < n -> bdat b' i = bdat b i) /\ (forall i, n <= i < req -> bdat b' i = zero).
Proof.
  intros A zero fresh b n req Hn Hb. unfold grow_buffer.
  destruct (bcopy_ok {| blen := req; bdat := fresh |} 0 b 0 n) as (d & E & Ld & Hd); cbn [blen]; try lia.
  rewrite E. cbn [bind blen] in *.
  destruct (bzero_ok zero d n (req - n)) as (d' & E' & Ld' & Hd'); try lia.
  rewrite E'. cbn [bind]. eexists. split; [reflexivity|]. split; [congruence|]. split.
  - intros i Hi. rewrite Hd'. replace (_ && _) with false by lia. rewrite Hd.
    replace (_ && _) with true by lia. f_equal. lia.
  - intros i Hi. rewrite Hd'. replace (_ && _) with true by lia. reflexivity.
Qed.

(** A user buffer of [n] values in a capacity of [cap], as the documentation of
    perchannel_buffers_capacity_rounding requires. *)
Definition user_buffer {A} (is_zero : A -> bool) (b : option (buf A)) (n cap : Z) : Prop :=
  forall x, b = Some x -> cap <= blen x /\ forall i, n <= i < cap -> is_zero (bdat x i) = true.

Record user_params {V} (o : ops V) (mp : mul_params V) (n cap : Z) : Prop := {
  up_bias : user_buffer (o_is_zero o) (mp_bias mp) n cap;
  up_mult : user_buffer (fun z => z =? 0) (multiplier_fixedpoint_perchannel mp) n cap;
  up_exp : user_buffer (fun z => z =? 0) (multiplier_exponent_perchannel mp) n cap
}.

(** [b'] serves reads of [b] below [n] and can be read up to [req]; past [n] it
    holds [zero] if it was grown. *)
Definition serves {A} (zero : A) (grown : bool) (b b' : option (buf A)) (n req : Z) : Prop :=
  match b, b' with
  | None, None => True
  | Some x, Some y => req <= blen y /\ (forall i, 0 <= i < n -> bdat y i = bdat x i) /\
      (if grown then forall i, n <= i < req -> bdat y i = zero else y = x)
  | _, _ => False
  end.

Record params_serve {V} (o : ops V) (grown : bool) (mp mp' : mul_params V) (n req : Z) : Prop := {
  ps_bias : serves (o_acc0 o) grown (mp_bias mp) (mp_bias mp') n req;
  ps_mult : o_quant o <> None ->
     serves 0 grown (multiplier_fixedpoint_perchannel mp) (multiplier_fixedpoint_perchannel mp') n req;
  ps_exp : o_quant o <> None ->
     serves 0 grown (multiplier_exponent_perchannel mp) (multiplier_exponent_perchannel mp') n req;
  ps_m : multiplier_fixedpoint mp' = multiplier_fixedpoint mp;
  ps_e : multiplier_exponent mp' = multiplier_exponent mp;
  ps_min : mp_min mp' = mp_min mp;
  ps_max : mp_max mp' = mp_max mp;
  ps_chan : mp_chan mp' = mp_chan mp;
  ps_flag : mp_perchannel mp' = mp_perchannel mp
}.

Lemma serves_same : forall {A} (zero : A) is_zero b n cap req, req <= cap -> user_buffer is_zero b n cap ->
  serves zero false b b n req.
Proof.
  intros A zero is_zero [x|] n cap req Hr H; cbn; auto. destruct (H x eq_refl) as [H1 _].
  split; [lia|]. split; auto.
Qed.

Lemma set_perchannel_same : forall {V} dbg (mp : mul_params V), mp_perchannel mp = true ->
  set_perchannel dbg mp true = Ok mp.
Proof. intros V dbg mp H. unfold set_perchannel. rewrite H. reflexivity. Qed.

Lemma ensure_per_channel_ok : forall {V} dbg (o : ops V) required n fresh freshz mp k,
  0 <= k <= 30 -> mp_rounding_log2 mp = k ->
  0 <= n <= required -> n + 2 ^ k <= int_max ->
  user_params o mp n (round_up n (2 ^ k)) ->
  exists mp', ensure_per_channel_buffers dbg o required n fresh freshz mp =
      Ok (mp', round_up n (2 ^ k) <? required) /\
    params_serve o (round_up n (2 ^ k) <? required) mp mp' n required.
Proof.
  intros V dbg o required n fresh freshz mp k Hk Ek Hn Hmax U.
  assert (Pk : 0 < 2 ^ k) by (apply pow2_pos; lia).
  assert (Pk2 : 2 ^ k <= 2 ^ 30) by (apply Z.pow_le_mono_r; lia).
  unfold ensure_per_channel_buffers, capacity_rounding. rewrite Ek.
  assert (E1 : shl32 1 k = Ok (2 ^ k)).
  { unfold shl32. replace (_ && _) with true by lia. rewrite Z.mul_1_l. apply i32_ok.
    change (2 ^ 30) with 1073741824 in Pk2. unfold int_min, int_max. lia. }
  rewrite E1. cbn [bind].
  assert (E2 : round_up_pot dbg 32 n (2 ^ k) = Ok (round_up n (2 ^ k))).
  { unfold round_up. apply round_up_pot_ok; [lia|lia|lia|exact Hmax]. }
  rewrite E2. cbn [bind]. pose proof (round_up_spec n (2 ^ k) Pk) as [R _].
  set (cap := round_up n (2 ^ k)) in *. destruct U as [U1 U2 U3].
  rewrite assert_zero_tail_ok by (try lia; intros x Hx; destruct (U1 x Hx); auto with zarith). cbn [bind].
  rewrite assert_zero_tail_ok by (try lia; intros x Hx; destruct (U2 x Hx); auto with zarith). cbn [bind].
  rewrite assert_zero_tail_ok by (try lia; intros x Hx; destruct (U3 x Hx); auto with zarith). cbn [bind].
  destruct (Z.leb_spec required cap) as [Hle|Hgt].
  - replace (cap <? required) with false by lia. exists mp. split; [reflexivity|].
    constructor; auto; intros; eapply serves_same; eauto.
  - replace (cap <? required) with true by lia.
    (* bias *)
    assert (S1 : exists mp1, (match mp_bias mp with
          | None => Ok mp
          | Some b => nb <- grow_buffer (o_acc0 o) fresh (Some b) n required ;; Ok (set_bias mp nb)
          end) = Ok mp1 /\ serves (o_acc0 o) true (mp_bias mp) (mp_bias mp1) n required /\
          mp1 = set_bias mp (mp_bias mp1)).
    { destruct (mp_bias mp) as [b|] eqn:Eb.
      - destruct (U1 b eq_refl) as [Hb _].
        destruct (grow_buffer_ok (o_acc0 o) fresh b n required) as (b' & E & Lb & H1 & H2); try lia.
        rewrite E. cbn [bind]. eexists. split; [reflexivity|]. cbn [mp_bias set_bias]. split; [|reflexivity].
        cbn. split; [lia|]. split; auto.
      - exists mp. split; [reflexivity|]. rewrite Eb. split; [exact I|]. destruct mp; cbn in *. rewrite Eb. reflexivity. }
    destruct S1 as (mp1 & E & Sb & Eq1). rewrite E. clear E. cbn [bind].
    assert (Epc : mp_perchannel mp1 = mp_perchannel mp) by (rewrite Eq1; reflexivity).
    assert (Em1 : mp_mult_pc mp1 = mp_mult_pc mp) by (rewrite Eq1; reflexivity).
    assert (Ee1 : mp_exp_pc mp1 = mp_exp_pc mp) by (rewrite Eq1; reflexivity).
    destruct (o_quant o) as [q|] eqn:Eq.
    2: { exists mp1. split; [reflexivity|]. constructor; auto; try (rewrite Eq; congruence); rewrite Eq1; reflexivity. }
    (* multipliers *)
    assert (S2 : exists mp2, (match multiplier_fixedpoint_perchannel mp1 with
            | None => Ok mp1
            | Some b => nb <- grow_buffer 0 freshz (Some b) n required ;;
                        set_multiplier_fixedpoint_perchannel dbg mp1 nb
            end) = Ok mp2 /\
          serves 0 true (multiplier_fixedpoint_perchannel mp) (multiplier_fixedpoint_perchannel mp2) n required /\
          mp_bias mp2 = mp_bias mp1 /\ mp_mult mp2 = mp_mult mp /\ mp_exp mp2 = mp_exp mp /\
          mp_exp_pc mp2 = mp_exp_pc mp /\ mp_perchannel mp2 = mp_perchannel mp /\
          mp_min mp2 = mp_min mp /\ mp_max mp2 = mp_max mp /\ mp_chan mp2 = mp_chan mp).
    { unfold multiplier_fixedpoint_perchannel in *. rewrite Epc, Em1.
      destruct (mp_perchannel mp) eqn:Ep.
      - destruct (mp_mult_pc mp) as [b|] eqn:Eb.
        + destruct (U2 b eq_refl) as [Hb _].
          destruct (grow_buffer_ok 0 freshz b n required) as (b' & E & Lb & H1 & H2); try lia.
          rewrite E. cbn [bind]. unfold set_multiplier_fixedpoint_perchannel.
          rewrite set_perchannel_same by auto. cbn [bind]. eexists. split; [reflexivity|].
          cbn. rewrite Epc. split; [cbn; split; [lia|split; auto]|]. rewrite Eq1. cbn. auto 10.
        + exists mp1. split; [reflexivity|]. rewrite Epc, Em1. split; [exact I|]. rewrite Eq1. cbn. auto 10.
      - exists mp1. split; [reflexivity|]. rewrite Epc. split; [exact I|]. rewrite Eq1. cbn. auto 10. }
    destruct S2 as (mp2 & E & Sm & Q1 & Q2 & Q3 & Q4 & Q5 & Q6 & Q7 & Q8). rewrite E. clear E. cbn [bind].
    assert (S3 : exists mp3, (match multiplier_exponent_perchannel mp2 with
            | None => Ok mp2
            | Some b => nb <- grow_buffer 0 freshz (Some b) n required ;;
                        set_multiplier_exponent_perchannel dbg mp2 nb
            end) = Ok mp3 /\
          serves 0 true (multiplier_exponent_perchannel mp) (multiplier_exponent_perchannel mp3) n required /\
          mp_bias mp3 = mp_bias mp1 /\ mp_mult mp3 = mp_mult mp /\ mp_exp mp3 = mp_exp mp /\
          multiplier_fixedpoint_perchannel mp3 = multiplier_fixedpoint_perchannel mp2 /\
          mp_perchannel mp3 = mp_perchannel mp /\
          mp_min mp3 = mp_min mp /\ mp_max mp3 = mp_max mp /\ mp_chan mp3 = mp_chan mp).
    { unfold multiplier_exponent_perchannel in *. rewrite Q4, Q5.
      destruct (mp_perchannel mp) eqn:Ep.
      - destruct (mp_exp_pc mp) as [b|] eqn:Eb.
        + destruct (U3 b eq_refl) as [Hb _].
          destruct (grow_buffer_ok 0 freshz b n required) as (b' & E & Lb & H1 & H2); try lia.
          rewrite E. cbn [bind]. unfold set_multiplier_exponent_perchannel.
          rewrite set_perchannel_same by auto. cbn [bind]. eexists. split; [reflexivity|].
          cbn. rewrite Q5. split; [cbn; split; [lia|split; auto]|].
          unfold multiplier_fixedpoint_perchannel. cbn. rewrite Q5. auto 12.
        + exists mp2. split; [reflexivity|]. rewrite Q4, Q5. split; [exact I|]. auto 12.
      - exists mp2. split; [reflexivity|]. rewrite Q5. split; [exact I|]. auto 12. }
    destruct S3 as (mp3 & E & Se & T1 & T2 & T3 & T4 & T5 & T6 & T7 & T8). rewrite E. clear E. cbn [bind].
    exists mp3. split; [reflexivity|]. constructor; auto.
    + rewrite T1. auto.
    + intros _. rewrite T4. auto.
    + unfold multiplier_fixedpoint. rewrite T2, T5. reflexivity.
    + unfold multiplier_exponent. rewrite T3, T5. reflexivity.
Qed.

(** Reads of channels below [n] give the user's values. *)
Lemma serves_read : forall {A} (zero : A) g b b' x n req c, serves zero g (Some b) (Some b') n req ->
  n <= req -> 0 <= c < n -> n <= blen b -> x = bread b c -> bread b' c = x.
Proof.
  intros A zero g b b' x n req c (H1 & H2 & _) Hn Hc Hb ->. rewrite !bread_ok by lia. rewrite H2 by lia. reflexivity.
Qed.

Section Reads.
Variables (V : Type) (o : ops V) (g : bool) (mp mp' : mul_params V) (n req : Z).
Hypotheses (S : params_serve o g mp mp' n req) (Hn : 0 <= n <= req).
Hypotheses (B1 : forall x, mp_bias mp = Some x -> n <= blen x).
Hypotheses (B2 : forall x, multiplier_fixedpoint_perchannel mp = Some x -> n <= blen x).
Hypotheses (B3 : forall x, multiplier_exponent_perchannel mp = Some x -> n <= blen x).

Lemma add_bias_serve : forall c a, 0 <= c < n -> add_bias o mp' c a = add_bias o mp c a.
Proof.
  intros c a Hc. unfold add_bias. pose proof (ps_bias _ _ _ _ _ _ S) as H.
  destruct (mp_bias mp) as [b|] eqn:Eb, (mp_bias mp') as [b'|] eqn:Eb'; cbn in H; try contradiction; auto.
  rewrite (serves_read (o_acc0 o) g b b' (bread b c) n req c); auto; try lia.
Qed.

Lemma finish_serve : forall dzp c a, 0 <= c < n -> finish o mp' dzp c a = finish o mp dzp c a.
Proof.
  intros dzp c a Hc. unfold finish. rewrite (ps_min _ _ _ _ _ _ S), (ps_max _ _ _ _ _ _ S).
  assert (E : apply_multiplier o mp' c a = apply_multiplier o mp c a).
  { unfold apply_multiplier. destruct (o_quant o) as [q|] eqn:Eq; [|reflexivity].
    unfold channel_multiplier.
    pose proof (ps_mult _ _ _ _ _ _ S ltac:(rewrite Eq; discriminate)) as Hm.
    pose proof (ps_exp _ _ _ _ _ _ S ltac:(rewrite Eq; discriminate)) as He.
    assert (Em : match multiplier_fixedpoint_perchannel mp' with
       | Some b => bread b c | None => Ok (multiplier_fixedpoint mp') end =
       match multiplier_fixedpoint_perchannel mp with
       | Some b => bread b c | None => Ok (multiplier_fixedpoint mp) end).
    { rewrite (ps_m _ _ _ _ _ _ S).
      destruct (multiplier_fixedpoint_perchannel mp) as [b|] eqn:Eb,
        (multiplier_fixedpoint_perchannel mp') as [b'|] eqn:Eb'; cbn in Hm; try contradiction; auto.
      apply (serves_read 0 g b b' _ n req c); auto; try lia. }
    assert (Ee : match multiplier_exponent_perchannel mp' with
       | Some b => bread b c | None => Ok (multiplier_exponent mp') end =
       match multiplier_exponent_perchannel mp with
       | Some b => bread b c | None => Ok (multiplier_exponent mp) end).
    { rewrite (ps_e _ _ _ _ _ _ S).
      destruct (multiplier_exponent_perchannel mp) as [b|] eqn:Eb,
        (multiplier_exponent_perchannel mp') as [b'|] eqn:Eb'; cbn in He; try contradiction; auto.
      apply (serves_read 0 g b b' _ n req c); auto; try lia. }
    rewrite Em, Ee. reflexivity. }
  rewrite E. reflexivity.
Qed.
End Reads.
