(** Model of the front end (ruy/create_trmul_params.h, ruy/frontend.h,
    ruy/prepare_packed_matrices.cc without caching) and of the memory operations of
    ruy/trmul.cc.  The multi-threaded part of TrMul is in TrMulMachine.v. *)
From Verif Require Import Base SidePair SizeUtil Mat Scalars Pack MulParams Kernel.

(** trmul_params.h:61-93 (TrMulParams), without the buffers. *)
Record tparams (V : Type) := {
  tp_ops : ops V;
  tp_kl : sp kernel_layout;
  tp_src : sp (mat V);
  tp_dst_layout : mat_layout;
  tp_dst_zp : Z;
  tp_packed_layout : sp pmat_layout;
  tp_packed_zp : sp Z;
  tp_mp : mul_params V }.
Arguments tp_ops {V}. Arguments tp_kl {V}. Arguments tp_src {V}. Arguments tp_dst_layout {V}.
Arguments tp_dst_zp {V}. Arguments tp_packed_layout {V}. Arguments tp_packed_zp {V}. Arguments tp_mp {V}.

(** * Per-channel buffers *)

(** create_trmul_params.h:247-279: debug-only check that [b[i] == 0] for
    user_size <= i < user_capacity. *)
Definition assert_zero_tail {A} (dbg : bool) (is_zero : A -> bool) (b : option (buf A)) (user_size user_capacity : Z)
  : res unit :=
  if dbg then
    match b with
    | None => Ok tt
    | Some b => forto user_size user_capacity (fun i _ => v <- bread b i ;; dcheck dbg (is_zero v)) tt
    end
  else Ok tt.

(** create_trmul_params.h:300-309 (and 310-327): allocate, memcpy, memset. The
    allocated memory initially holds [fresh]. *)
Definition grow_buffer {A} (zero : A) (fresh : Z -> A) (b : option (buf A)) (user_size required : Z)
  : res (option (buf A)) :=
  match b with
  | None => Ok None
  | Some b =>
    d <- bcopy {| blen := required; bdat := fresh |} 0 b 0 user_size ;;
    d <- bzero zero d user_size (required - user_size) ;;
    Ok (Some d)
  end.

(** create_trmul_params.h:281-376. Returns the parameters the kernel will use and
    whether kReallocatedPerChannelBuffer was raised. *)
Definition ensure_per_channel_buffers {V} (dbg : bool) (o : ops V) (required user_size : Z)
    (fresh : Z -> V) (freshz : Z -> Z) (mp : mul_params V) : res (mul_params V * bool) :=
  rounding <- capacity_rounding mp ;;
  user_capacity <- round_up_pot dbg 32 user_size rounding ;;
  assert_zero_tail dbg (o_is_zero o) (mp_bias mp) user_size user_capacity ;;;
  assert_zero_tail dbg (fun z => z =? 0) (multiplier_fixedpoint_perchannel mp) user_size user_capacity ;;;
  assert_zero_tail dbg (fun z => z =? 0) (multiplier_exponent_perchannel mp) user_size user_capacity ;;;
  if required <=? user_capacity then Ok (mp, false)
  else
    mp <- match mp_bias mp with
          | None => Ok mp
          | Some b => nb <- grow_buffer (o_acc0 o) fresh (Some b) user_size required ;; Ok (set_bias mp nb)
          end ;;
    match o_quant o with
    | None => Ok (mp, true)
    | Some _ =>
      mp <- match multiplier_fixedpoint_perchannel mp with
            | None => Ok mp
            | Some b => nb <- grow_buffer 0 freshz (Some b) user_size required ;;
                        set_multiplier_fixedpoint_perchannel dbg mp nb
            end ;;
      mp <- match multiplier_exponent_perchannel mp with
            | None => Ok mp
            | Some b => nb <- grow_buffer 0 freshz (Some b) user_size required ;;
                        set_multiplier_exponent_perchannel dbg mp nb
            end ;;
      Ok (mp, true)
    end.

(** * CreateTrMulParams *)

(** create_trmul_params.h:400-440 with PopulateTrMulParams 120-146 for the selected path. *)
Definition create_trmul_params_col_major {V} (dbg : bool) (o : ops V) (kl : sp kernel_layout)
    (fresh : Z -> V) (freshz : Z -> Z)
    (l r : mat V) (dst_layout : mat_layout) (dst_zp : Z) (mp : mul_params V) (chan : channel_dimension)
  : res (tparams V * bool) :=
  dcheck dbg (order_eqb (ml_order dst_layout) ColMajor) ;;;
  pl <- create_packed_layout dbg (m_layout l) (lhs kl) ;;
  pr <- create_packed_layout dbg (m_layout r) (rhs kl) ;;
  let mp := set_channel_dimension mp chan in
  let channel_side := match chan with ChRow => Lhs | ChCol => Rhs end in
  '(mp, advisory) <- ensure_per_channel_buffers dbg o (pl_cols (get channel_side (mk_sp pl pr)))
      (ml_cols (m_layout (get channel_side (mk_sp l r)))) fresh freshz mp ;;
  Ok ({| tp_ops := o; tp_kl := kl; tp_src := mk_sp l r; tp_dst_layout := dst_layout; tp_dst_zp := dst_zp;
         tp_packed_layout := mk_sp pl pr;
         tp_packed_zp := mk_sp (o_pack_zp o Lhs (m_zp l)) (o_pack_zp o Rhs (m_zp r));
         tp_mp := mp |}, advisory).

(** create_trmul_params.h:463-481. *)
Definition create_trmul_params {V} (dbg : bool) (o : ops V) (kl : sp kernel_layout)
    (fresh : Z -> V) (freshz : Z -> Z)
    (l r : mat V) (dst_layout : mat_layout) (dst_zp : Z) (mp : mul_params V) : res (tparams V * bool) :=
  match ml_order dst_layout with
  | ColMajor => create_trmul_params_col_major dbg o kl fresh freshz l r dst_layout dst_zp mp (mp_chan mp)
  | RowMajor => create_trmul_params_col_major dbg (swap_ops o) kl fresh freshz r l
                  (transpose_layout dst_layout) dst_zp mp (transpose_channel (mp_chan mp))
  end.

(** frontend.h:45-71: validation, then [Transpose(lhs)]. *)
Definition mul_front_end {V} (dbg : bool) (o : ops V) (kl : sp kernel_layout)
    (fresh : Z -> V) (freshz : Z -> Z)
    (l r dst : mat V) (mp : mul_params V) : res (tparams V * bool) :=
  dcheck dbg (o_validate o (m_zp l) (m_zp r) (m_zp dst)) ;;;
  create_trmul_params dbg o kl fresh freshz (transpose_mat l) r (m_layout dst) (m_zp dst) mp.

(** * Memory *)

(** The buffers a TrMul works on. *)
Record tmem (V : Type) := { tm_packed : sp (pmat V); tm_dst : buf V }.
Arguments tm_packed {V}. Arguments tm_dst {V}.

(** mat.h:430-440. FlatSize is 64-bit; SumsBytes multiplies two ints. *)
Definition data_bytes (l : pmat_layout) (size : Z) : res Z := n <- pflat_size l ;; i64 (n * size).
Definition sums_bytes (l : pmat_layout) (size : Z) : res Z := i32 (pl_cols l * size).

(** prepare_packed_matrices.cc:83-93, one side, never cached. AllocateBytes(0)
    returns null (allocator.h), which the RUY_CHECKs turn into an abort. *)
Definition allocate_packed {V} (t : tparams V) (s : side) (fresh fresh_sums : Z -> V) : res (pmat V) :=
  let l := get s (tp_packed_layout t) in
  db <- data_bytes l (o_data_size (tp_ops t) s) ;;
  rcheck (negb (db =? 0)) ;;;
  sb <- sums_bytes l (o_sums_size (tp_ops t) s) ;;
  rcheck (negb (sb =? 0)) ;;;
  n <- pflat_size l ;;
  Ok {| p_data := {| blen := n; bdat := fresh |};
        p_sums := Some {| blen := pl_cols l; bdat := fresh_sums |};
        p_layout := l; p_zp := get s (tp_packed_zp t) |}.

(** prepare_packed_matrices.cc:69-95 without caching. *)
Definition prepare_packed_matrices {V} (t : tparams V) (fresh fresh_sums : side -> Z -> V) (dst : buf V)
  : res (tmem V) :=
  pl <- allocate_packed t Lhs (fresh Lhs) (fresh_sums Lhs) ;;
  pr <- allocate_packed t Rhs (fresh Rhs) (fresh_sums Rhs) ;;
  Ok {| tm_packed := mk_sp pl pr; tm_dst := dst |}.

Definition set_packed {V} (m : tmem V) (s : side) (p : pmat V) : tmem V :=
  {| tm_packed := match s with Lhs => mk_sp p (rhs (tm_packed m)) | Rhs => mk_sp (lhs (tm_packed m)) p end;
     tm_dst := tm_dst m |}.

(** trmul_params.h:64-66 (RunPack). *)
Definition tm_run_pack {V} (dbg : bool) (t : tparams V) (s : side) (a b : Z) (m : tmem V) : res (tmem V) :=
  p <- run_pack dbg (tp_ops t) s (kl_cols (get s (tp_kl t))) (get s (tp_src t)) (get s (tm_packed m)) a b ;;
  Ok (set_packed m s p).

(** trmul_params.h:67-70 (RunKernel). *)
Definition tm_run_kernel {V} (dbg fat : bool) (t : tparams V) (start end_ : sp Z) (m : tmem V) : res (tmem V) :=
  d <- run_kernel dbg fat (tp_ops t) (kl_cols (lhs (tp_kl t))) (kl_cols (rhs (tp_kl t)))
         (lhs (tm_packed m)) (rhs (tm_packed m)) (tp_mp t)
         (lhs start) (rhs start) (lhs end_) (rhs end_) (tp_dst_layout t) (tp_dst_zp t) (tm_dst m) ;;
  Ok {| tm_packed := tm_packed m; tm_dst := d |}.

(** trmul.cc:342-359: the simple loop. [prepacked] is params->is_prepacked; [pack] and [kernel] are
    RunPack and RunKernel. *)
Definition simple_loop_by {V} (pack : side -> Z -> Z -> tmem V -> res (tmem V))
    (kernel : sp Z -> sp Z -> tmem V -> res (tmem V)) (prepacked : sp bool) (t : tparams V) (m : tmem V) : res (tmem V) :=
  let dims := mk_sp (pl_cols (lhs (tp_packed_layout t))) (pl_cols (rhs (tp_packed_layout t))) in
  m <- (if lhs prepacked then Ok m else pack Lhs 0 (lhs dims) m) ;;
  m <- (if rhs prepacked then Ok m else pack Rhs 0 (rhs dims) m) ;;
  kernel (mk_sp 0 0) dims m.

Definition simple_loop {V} (dbg fat : bool) (prepacked : sp bool) (t : tparams V) (m : tmem V) : res (tmem V) :=
  simple_loop_by (tm_run_pack dbg t) (tm_run_kernel dbg fat t) prepacked t m.

(** The whole call when TrMul takes the simple loop; the matrix after the call. *)
Definition mul_simple {V} (dbg fat : bool) (o : ops V) (kl : sp kernel_layout)
    (fresh : Z -> V) (freshz : Z -> Z) (fp fs : side -> Z -> V) (l r dst : mat V) (mp : mul_params V)
  : res (mat V) :=
  '(t, _) <- mul_front_end dbg o kl fresh freshz l r dst mp ;;
  m <- prepare_packed_matrices t fp fs (m_data dst) ;;
  m <- simple_loop dbg fat (mk_sp false false) t m ;;
  Ok {| m_data := tm_dst m; m_layout := m_layout dst; m_zp := m_zp dst |}.
