(** Model of the suppression of denormals: ruy/denormal.cc, and its uses in
    ruy/trmul.cc:TrMul (line 329) and ruy/thread_pool.cc:Thread::ThreadFuncImpl (line 146).

    The machine of ThreadPool.v, each thread of which has a control register. Registers are
    private to threads, so that only the order of the actions of one thread matters. *)
From Verif Require Import Base SpecDenormal ThreadPool.

(** denormal.cc:36-53 (get_fpu_state): the register, as the type of the member holds it. *)
Definition get_fpu_state (a : fpu) (r : Z) : Z := wrap_u (reg_width a) r.
(** denormal.cc:55-71 (set_fpu_state): the register afterwards. *)
Definition set_fpu_state (a : fpu) (saved r : Z) : Z := match a with NoRegister => r | _ => saved end.
(** denormal.cc:73-112 (disable_fpu_denormals). The instructions ORR for 64-bit ARM are on
    the 32-bit view of the register, which clears the upper half. *)
Definition disable_fpu_denormals (a : fpu) (r : Z) : Z :=
  match a with
  | Mxcsr => Z.lor r 0x8040
  | Fpscr => Z.lor r 0x1000000
  | FpcrGnu => Z.lor (wrap_u 32 (Z.lor (wrap_u 32 r) 0x1000000)) 0x80000
  | FpcrMsvc => Z.lor r 0x1080000
  | NoRegister => r
  end.

(** A thread's register and its ScopedSuppressDenormals (denormal.cc:115-120), if there is one. *)
Record fenv := { e_reg : Z; e_scope : option Z }.
Definition scope_begin (a : fpu) (e : fenv) : fenv :=
  {| e_reg := disable_fpu_denormals a (e_reg e); e_scope := Some (get_fpu_state a (e_reg e)) |}.
Definition scope_end (a : fpu) (e : fenv) : res fenv :=
  match e_scope e with
  | None => UB
  | Some x => Ok {| e_reg := set_fpu_state a x (e_reg e); e_scope := None |}
  end.
(** What floating-point code does to the register: anything (flags of exceptions, of
    comparisons), except for the bits that decide about denormals. *)
Definition flush_mask (a : fpu) : Z := fold_right (fun b m => Z.lor (2 ^ b) m) 0 (flush_bits a).
Definition computed (a : fpu) (x : Z) (e : fenv) : fenv :=
  {| e_reg := wrap_u (reg_width a) (Z.lor (Z.land (e_reg e) (flush_mask a)) (Z.ldiff x (flush_mask a))); e_scope := e_scope e |}.

(** A multiplication: whether an operand is packed for the cache, and the number of tasks
    (none if TrMul runs it as a simple loop, trmul.cc:339-360). *)
Record mul_call := { mc_packs : bool; mc_tasks : option Z }.

(** What is observed: registers when a multiplication is called and when it returns, when
    an operand is packed for the cache, when the kernels of a task begin and end (no task:
    the simple loop), and when a worker thread begins and ends. *)
Inductive devent :=
| DCall (c : nat) (r : Z) | DReturn (c : nat) (r : Z)
| DPack (c : nat) (r : Z)
| DBegin (t : option task) (by_ : tid) (r : Z) | DEnd (t : option task) (by_ : tid) (r : Z)
| DStart (k : nat) (r : Z) | DExit (k : nat) (r : Z).

(** The calling thread: between multiplications; before packing for the cache
    (prepare_packed_matrices.cc); before the scope (trmul.cc:333); in the simple loop; in
    ThreadPool::Execute; before the end of the scope. *)
Inductive phase := POut | PPrep (m : mul_call) | PScope (m : mul_call) | PSimple (ending : bool) | PPool | PLeave.

Record dst := {
  d_pool : st;
  d_calls : list mul_call;      (* multiplications still to come; then the destructor *)
  d_number : nat;               (* multiplications so far *)
  d_phase : phase;
  d_main : fenv;
  d_ws : nat -> fenv;
  d_log : list devent
}.

(** Choices: those of the pool; what the caller sets its register to between
    multiplications; the register of a new thread; what computations do to the register. *)
Record dchoice := { dc_pool : choice; dc_set : option Z; dc_new : Z; dc_flags : Z }.

Definition with_phase (s : dst) (p : phase) : dst := {| d_pool := d_pool s; d_calls := d_calls s; d_number := d_number s;
  d_phase := p; d_main := d_main s; d_ws := d_ws s; d_log := d_log s |}.
Definition with_main_env (s : dst) (e : fenv) : dst := {| d_pool := d_pool s; d_calls := d_calls s; d_number := d_number s;
  d_phase := d_phase s; d_main := e; d_ws := d_ws s; d_log := d_log s |}.
Definition with_worker_env (s : dst) (k : nat) (e : fenv) : dst := {| d_pool := d_pool s; d_calls := d_calls s; d_number := d_number s;
  d_phase := d_phase s; d_main := d_main s; d_ws := upd (d_ws s) k e; d_log := d_log s |}.
Definition demit (s : dst) (e : devent) : dst := {| d_pool := d_pool s; d_calls := d_calls s; d_number := d_number s;
  d_phase := d_phase s; d_main := d_main s; d_ws := d_ws s; d_log := d_log s ++ [e] |}.
Definition with_pool (s : dst) (p : st) : dst := {| d_pool := p; d_calls := d_calls s; d_number := d_number s;
  d_phase := d_phase s; d_main := d_main s; d_ws := d_ws s; d_log := d_log s |}.

Definition env_of (s : dst) (t : tid) : fenv := match t with Main => d_main s | Worker k => d_ws s k end.
Definition with_env (s : dst) (t : tid) (e : fenv) : dst :=
  match t with Main => with_main_env s e | Worker k => with_worker_env s k e end.

(** The beginning and the end of Task::Run, as the pool reports them. *)
Definition observe (a : fpu) (flags : Z) (e : event) (s : dst) : dst :=
  match e with
  | EBegin t w => demit s (DBegin (Some t) w (e_reg (env_of s w)))
  | EEnd t w => let s := with_env s w (computed a flags (env_of s w)) in demit s (DEnd (Some t) w (e_reg (env_of s w)))
  | _ => s
  end.
Definition observe_all (a : fpu) (flags : Z) (es : list event) (s : dst) : dst := fold_left (fun s e => observe a flags e s) es s.
(** The events of one step of the pool. *)
Definition news (p p' : st) : list event := skipn (length (s_log p)) (s_log p').
Definition returns (es : list event) : bool := existsb (fun e => match e with EReturn _ => true | _ => false end) es.

(** One step of the calling thread within the pool; a thread it creates gets some register. *)
Definition pool_main_step (a : fpu) (dbg : bool) (ch : dchoice) (s : dst) : res dst :=
  let p := d_pool s in
  p' <- step dbg Main (dc_pool ch) p ;;
  let s := observe_all a (dc_flags ch) (news p p') (with_pool s p') in
  let s := if (s_n p <? s_n p')%nat
           then demit (with_worker_env s (s_n p) {| e_reg := dc_new ch; e_scope := None |}) (DStart (s_n p) (dc_new ch)) else s in
  Ok (if returns (news p p') then with_phase s PLeave else s).

Definition dmain_step (a : fpu) (dbg : bool) (ch : dchoice) (s : dst) : res dst :=
  match d_phase s with
  | POut =>
    match dc_set ch, d_calls s with
    | Some r, _ => Ok (with_main_env s {| e_reg := r; e_scope := e_scope (d_main s) |})
    | None, [] => pool_main_step a dbg ch s
    | None, m :: rest =>
      let s := {| d_pool := d_pool s; d_calls := rest; d_number := S (d_number s); d_phase := PPrep m;
                  d_main := d_main s; d_ws := d_ws s; d_log := d_log s |} in
      Ok (demit s (DCall (d_number s) (e_reg (d_main s))))
    end
  | PPrep m =>
    let s := with_phase s (PScope m) in
    Ok (if mc_packs m then demit s (DPack (d_number s) (e_reg (d_main s))) else s)
  | PScope m =>
    Ok (with_phase (with_main_env s (scope_begin a (d_main s))) (match mc_tasks m with None => PSimple false | Some _ => PPool end))
  | PSimple ending =>
    if ending then
      let s := with_main_env s (computed a (dc_flags ch) (d_main s)) in
      Ok (demit (with_phase s PLeave) (DEnd None Main (e_reg (d_main s))))
    else Ok (demit (with_phase s (PSimple true)) (DBegin None Main (e_reg (d_main s))))
  | PPool => pool_main_step a dbg ch s
  | PLeave =>
    e <- scope_end a (d_main s) ;;
    Ok (demit (with_phase (with_main_env s e) POut) (DReturn (d_number s) (e_reg e)))
  end.

(** thread_pool.cc:143-156: the scope begins after the first RevertToReadyState, before the
    loop, and ends with the function (here with the assertion of line 155). *)
Definition dworker_step (a : fpu) (dbg : bool) (k : nat) (ch : dchoice) (s : dst) : res dst :=
  let p := d_pool s in
  match e_scope (d_ws s k), w_pc (s_ws p k) with
  | None, WWait PCheck => Ok (with_worker_env s k (scope_begin a (d_ws s k)))
  | _, pc =>
    p' <- step dbg (Worker k) (dc_pool ch) p ;;
    let s := observe_all a (dc_flags ch) (news p p') (with_pool s p') in
    match pc, w_pc (s_ws p' k) with
    | WEnd, WDone =>
      e <- scope_end a (d_ws s k) ;;
      Ok (demit (with_worker_env s k e) (DExit k (e_reg e)))
    | _, _ => Ok s
    end
  end.

Definition dstep (a : fpu) (dbg : bool) (t : tid) (ch : dchoice) (s : dst) : res dst :=
  match t with
  | Main => dmain_step a dbg ch s
  | Worker k => if (k <? s_n (d_pool s))%nat then dworker_step a dbg k ch s else Ok s
  end.

Fixpoint dexec (a : fpu) (dbg : bool) (sched : list (tid * dchoice)) (s : dst) : res dst :=
  match sched with
  | [] => Ok s
  | (t, ch) :: rest => s' <- dstep a dbg t ch s ;; dexec a dbg rest s'
  end.

(** The calls of ThreadPool::Execute. *)
Fixpoint pool_script (calls : list mul_call) : list Z :=
  match calls with
  | [] => []
  | m :: rest => match mc_tasks m with None => pool_script rest | Some n => n :: pool_script rest end
  end.
Definition dinit (calls : list mul_call) (r : Z) : dst := {|
  d_pool := init (pool_script calls); d_calls := calls; d_number := 0; d_phase := POut;
  d_main := {| e_reg := r; e_scope := None |}; d_ws := fun _ => {| e_reg := 0; e_scope := None |}; d_log := [] |}.
