(** Model of the fiber scheduler with a callback of the user's own (src/fiber/common/
    fiber_scheduler_create.c, fiber_scheduler_add.c, fiber_scheduler_yield.c, fiber_scheduler_run.c,
    fiber_entry.c, fiber_scheduler_resource_release.c), for one thread and any number of schedulers.

    A strand is what runs: the thread's own code (0) or a fiber's function (the fiber's address).  A
    fiber's structure holds a saved strand, which is not always its own: fiber_switch saves whatever
    runs in the structure it is given (x86_64/fiber_switch.s, C44).

    The callback is any function of its context [C] and its arguments.  It may leave its outputs
    unset and may release fibers; the fibers' functions are the sequence of calls that they make. *)
From Verif Require Import Base Status MemModel Heap SchedModel.

(** What a callback did: its status, its outputs (if set), the fibers it released, its context then. *)
Record answer (C : Type) := Ans {
  a_status : Z; a_fib : option Z; a_disc : option Z; a_event : option Z; a_param : option Z; a_freed : list Z; a_ctx : C }.
Arguments Ans {C}. Arguments a_status {C}. Arguments a_fib {C}. Arguments a_disc {C}. Arguments a_event {C}.
Arguments a_param {C}. Arguments a_freed {C}. Arguments a_ctx {C}.
(** Scheduler, context, yielding fiber, event, parameter. *)
Definition callback (C : Type) := Z -> C -> Z -> Z -> Z -> answer C.

(** Where a saved strand stands: at the start of fiber_entry for a fiber (fiber_make.s), in a call of
    fiber_scheduler_yield on a scheduler, of fiber_scheduler_add, or in the yield at the end of
    fiber_entry. *)
Inductive kind := KYield (s : Z) | KAdd | KStop.
Inductive saved := Start (f : Z) | Wait (strand : Z) (k : kind).
(** fiber_internal.h:27-45; [u_entry] is not in the structure: it is the scheduler that fiber_make.s put on
    the fiber's stack as an argument of fiber_entry.  [u_saved] is what stack_ptr leads to: nothing before the
    first switch away from a thread's fiber and while the fiber runs, when using it would be wrong. *)
Record ufib := UF { u_state : Z; u_sched : Z; u_entry : Z; u_disc : Z; u_event : Z; u_param : Z; u_saved : option saved }.
(** fiber_internal.h:47-62 *)
Record usch (C : Type) := US { s_main : Z; s_cur : Z; s_ctx : C }.
Arguments US {C}. Arguments s_main {C}. Arguments s_cur {C}. Arguments s_ctx {C}.
(** The calls of callbacks so far: scheduler, yielding fiber, event, parameter. *)
Record world (C : Type) := W { w_schs : heap (usch C); w_ufs : heap ufib; w_run : Z; w_calls : list (Z * Z * Z * Z) }.
Arguments W {C}. Arguments w_schs {C}. Arguments w_ufs {C}. Arguments w_run {C}. Arguments w_calls {C}.

(** What the strand that runs next sees: its function starts; its call of yield returns with these; its
    call of add returns.  [Fails e]: the call of the strand that ran fails, and it goes on.  [Dies]: a
    return from fiber_entry, which ends the process (C44_finish_refuted). *)
Inductive outcome := Begins | Yields (d e p : Z) | Added | Fails (e : Z) | Dies.

(** Assignments of the fields. *)
Definition set_saved (x : option saved) (b : ufib) : ufib := UF (u_state b) (u_sched b) (u_entry b) (u_disc b) (u_event b) (u_param b) x.
Definition set_state (x : Z) (b : ufib) : ufib := UF x (u_sched b) (u_entry b) (u_disc b) (u_event b) (u_param b) (u_saved b).
Definition set_usched (x : Z) (b : ufib) : ufib := UF (u_state b) x (u_entry b) (u_disc b) (u_event b) (u_param b) (u_saved b).
Definition set_resume (d e p : Z) (b : ufib) : ufib := UF (u_state b) (u_sched b) (u_entry b) d e p (u_saved b).

(** The releases of fibers that a callback makes, fiber_resource_release.c:29-65. *)
Fixpoint free_all (l : list Z) (h : heap ufib) : option (heap ufib) :=
  match l with [] => Some h | f :: l' => do h1 <- hfree h f; free_all l' h1 end.
(** An output, or what was there before. *)
Definition or_junk (x : option Z) (junk : Z) : Z := match x with Some v => v | None => junk end.

(** fiber_switch.s:46-107: what runs is saved in [prev], and what [next] had saved goes on. *)
Definition fiber_switch {C} (k : kind) (prev next d e p : Z) (w : world C) : option (outcome * world C) :=
  do b <- hget (w_ufs w) prev;
  let h1 := hset (w_ufs w) prev (set_saved (Some (Wait (w_run w) k)) b) in
  do c <- hget h1 next;
  do x <- u_saved c;
  let h2 := hset h1 next (set_resume d e p (set_saved None c)) in
  match x with
  (* fiber_entry.c:26-33 *)
  | Start f =>
      do c' <- hget h2 f;
      Some (Begins, W (w_schs w) (hset h2 f (set_state RUNNING c')) f (w_calls w))
  (* fiber_scheduler_yield.c:87-97 *)
  | Wait r (KYield s) =>
      do t <- hget (w_schs w) s;
      do c' <- hget h2 (s_cur t);
      Some (Yields (u_disc c') (u_event c') (u_param c'), W (w_schs w) h2 r (w_calls w))
  (* fiber_scheduler_add.c:80-84 *)
  | Wait r KAdd => Some (Added, W (w_schs w) h2 r (w_calls w))
  (* fiber_entry.c:43-46 *)
  | Wait r KStop => Some (Dies, W (w_schs w) h2 r (w_calls w))
  end.

(** The part that fiber_scheduler_add.c:57-81 and fiber_scheduler_yield.c:65-85 share: the callback of
    [s] is called and the fiber that it names resumed.  [je], [jp]: what is in outputs it leaves unset. *)
Definition switch {C} (cb : callback C) (s : Z) (k : kind) (ev p je jp : Z) (w : world C) : option (outcome * world C) :=
  do t <- hget (w_schs w) s;
  let a := cb s (s_ctx t) (s_cur t) ev p in
  do h <- free_all (a_freed a) (w_ufs w);
  let w1 := W (hset (w_schs w) s (US (s_main t) (s_cur t) (a_ctx a))) h (w_run w) (w_calls w ++ [(s, s_cur t, ev, p)]) in
  if negb (ok (a_status a)) then Some (Fails (a_status a), w1) else
  do g <- a_fib a;
  fiber_switch k (s_cur t) g (or_junk (a_disc a) INTERNAL_ID) (or_junk (a_event a) je) (or_junk (a_param a) jp)
    (W (hset (w_schs w) s (US (s_main t) g (a_ctx a))) h (w_run w) (w_calls w1)).

(** fiber_scheduler_yield.c:52-101 *)
Definition usr_yield {C} (cb : callback C) (s ev p je jp : Z) (w : world C) := switch cb s (KYield s) ev p je jp w.
(** fiber_scheduler_run.c:51-66 *)
Definition usr_run {C} (cb : callback C) (s je jp : Z) (w : world C) := usr_yield cb s YIELD_RUN 0 je jp w.
(** fiber_scheduler_add.c:44-86 *)
Definition usr_add {C} (cb : callback C) (s f je jp : Z) (w : world C) : option (outcome * world C) :=
  do b <- hget (w_ufs w) f;
  switch cb s KAdd YIELD_ADD_FIBER f je jp (W (w_schs w) (hset (w_ufs w) f (set_usched s b)) (w_run w) (w_calls w)).
(** fiber_entry.c:35-46: the function of the fiber that runs returned, and [p] is where its status is.  The
    thread's own code is no fiber's function. *)
Definition usr_return {C} (cb : callback C) (p je jp : Z) (w : world C) : option (outcome * world C) :=
  do b <- hget (w_ufs w) (w_run w);
  do '(o, w') <- switch cb (u_entry b) KStop YIELD_STOP p je jp
                   (W (w_schs w) (hset (w_ufs w) (w_run w) (set_state STOPPED b)) (w_run w) (w_calls w));
  match o with Fails _ => Some (Dies, w') | _ => Some (o, w') end.
(** fiber_create.c:71-140 where it succeeds, for the scheduler [s] at the new address [f] *)
Definition usr_fiber {C} (s f : Z) (w : world C) : world C :=
  W (w_schs w) (hadd (w_ufs w) f (UF CREATED s s 0 0 0 (Some (Start f)))) (w_run w) (w_calls w).
(** fiber_state_get.c:25-32 *)
Definition usr_state {C} (f : Z) (w : world C) : option Z := do b <- hget (w_ufs w) f; Some (u_state b).
(** fiber_scheduler_from_fiber_get.c:27-36 *)
Definition usr_scheduler {C} (f : Z) (w : world C) : option Z := do b <- hget (w_ufs w) f; Some (u_sched b).

(** fiber_scheduler_resource_release.c:29-86 where there is a main fiber, whose release reclaims its structure
    only (fiber_resource_release.c:29-65, no stack): the status.  [rf], [rs]: the statuses of the reclaims of
    the main fiber's structure and of the scheduler's. *)
Definition usr_release {C} (cb : callback C) (rf rs s : Z) (w : world C) : option (Z * world C) :=
  do t <- hget (w_schs w) s;
  let a := cb s (s_ctx t) (s_main t) YIELD_RESOURCE_RELEASE 0 in
  do h <- free_all (a_freed a) (w_ufs w);
  do h1 <- hfree h (s_main t);
  Some (if negb (ok rs) then rs else if negb (ok (a_status a)) then a_status a else rf,
        W (hdel (w_schs w) s) h1 (w_run w) (w_calls w ++ [(s, s_main t, YIELD_RESOURCE_RELEASE, 0)])).
(** fiber_scheduler_create.c:68-160: [al1], [al2] are the statuses of the allocations of the scheduler's
    structure, at [s], and of its main fiber's (fiber_create_for_thread.c:63-115), at [m]; [rf], [rs] those of a
    cleanup's reclaims; [je] is in the event output if unset.  The status, the scheduler put in the caller's
    variable if one is, and the world. *)
Definition usr_create {C} (cb : callback C) (al1 al2 s m rf rs je : Z) (ctx : C) (w : world C) : option (Z * option Z * world C) :=
  if negb (ok al1) then Some (ERROR_GENERAL_OUT_OF_MEMORY, None, w) else
  if negb (ok al2) then Some (if negb (ok rs) then rs else ERROR_GENERAL_OUT_OF_MEMORY, None, w) else
  let a := cb s ctx m YIELD_MAIN 0 in
  do h <- free_all (a_freed a) (hadd (w_ufs w) m (UF RUNNING s 0 0 0 0 None));
  let w1 := W (hadd (w_schs w) s (US m m (a_ctx a))) h (w_run w) (w_calls w ++ [(s, m, YIELD_MAIN, 0)]) in
  let cleanup e := do '(r, w2) <- usr_release cb rf rs s w1; Some (if negb (ok r) then r else e, None, w2) in
  if negb (ok (a_status a)) then cleanup (a_status a) else
  do g <- a_fib a;
  if negb (g =? m) || negb (or_junk (a_event a) je =? RESUME_MAIN) then cleanup ERROR_FIBER_SCHEDULER_CALLBACK_STATE
  else Some (STATUS_SUCCESS, Some s, w1).

(** A call of one of these functions by whatever runs, with the junk in its unset outputs. *)
Inductive ucall := CFiber (s f : Z) | CAdd (s f je jp : Z) | CYield (s ev p je jp : Z) | CRun (s je jp : Z) | CReturn (p je jp : Z).
(** What follows a call. *)
Inductive seen := Created | Sees (o : outcome).
Definition do_call {C} (cb : callback C) (c : ucall) (w : world C) : option (seen * world C) :=
  match c with
  | CFiber s f => Some (Created, usr_fiber s f w)
  | CAdd s f je jp => do '(o, w') <- usr_add cb s f je jp w; Some (Sees o, w')
  | CYield s ev p je jp => do '(o, w') <- usr_yield cb s ev p je jp w; Some (Sees o, w')
  | CRun s je jp => do '(o, w') <- usr_run cb s je jp w; Some (Sees o, w')
  | CReturn p je jp => do '(o, w') <- usr_return cb p je jp w; Some (Sees o, w')
  end.
(** The calls made one after the other, each by whatever then runs, until the process dies. *)
Fixpoint do_calls {C} (cb : callback C) (l : list ucall) (w : world C) : option (list seen * world C) :=
  match l with
  | [] => Some ([], w)
  | c :: l' =>
      do '(o, w1) <- do_call cb c w;
      match o with
      | Sees Dies => Some ([o], w1)
      | _ => do '(os, w2) <- do_calls cb l' w1; Some (o :: os, w2)
      end
  end.
