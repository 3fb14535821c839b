(** Model of src/condition: condition variables between fibers, as code of a discipline
    (SchedModel.v).
    - A condition is identified with its handle; 0 is not one.
    - Its wait list is the sequence of its fibers, which is what C23 proves of src/slist.
    - [T] is the tree of conditions (TabModel.v).  Releasing a condition when it is closed
      succeeds in reclaiming all of its memory. *)
From Verif Require Import Base Status MemModel Heap TabModel SchedModel MsgModel.

(** condition_discipline_definitions.c:12-14 *)
Definition CONDITION_ID : Z := 0x1113d4e7e0b24f1b9df65e65b16f140d.
(** include/rcpr/fiber/disciplines/condition.h:31-81 *)
Definition CY_CREATE : Z := 0.
Definition CY_CLOSE : Z := 1.
Definition CY_WAIT : Z := 2.
Definition CY_NOTIFY_ONE : Z := 3.
Definition CY_NOTIFY_ALL : Z := 4.
Definition CR_CREATE_SUCCESS : Z := 0.
Definition CR_CREATE_FAILURE : Z := 1.
Definition CR_CLOSE_SUCCESS : Z := 2.
Definition CR_CLOSE_FAILURE : Z := 3.
Definition CR_WAIT_SUCCESS : Z := 4.
Definition CR_WAIT_FAILURE : Z := 5.
Definition CR_NOTIFY_SUCCESS : Z := 6.
Definition CR_NOTIFY_FAILURE : Z := 7.
(** The addresses of the handlers and of the context. *)
Definition FN_COND_CREATE : Z := 301.
Definition FN_COND_CLOSE : Z := 302.
Definition FN_COND_WAIT : Z := 303.
Definition FN_COND_NOTIFY_ONE : Z := 304.
Definition FN_COND_NOTIFY_ALL : Z := 305.
Definition COND_CTX : Z := 300.

(** condition_internal.h:24-48, with the live conditions and their wait lists *)
Record cst (T : Type) := CS { c_tree : T; c_conds : heap (list Z); c_index : Z }.
Arguments CS {T}. Arguments c_tree {T}. Arguments c_conds {T}. Arguments c_index {T}.
Definition set_wait {T} (k : Z) (q : list Z) (m : cst T) : cst T := CS (c_tree m) (hset (c_conds m) k q) (c_index m).
Definition on_cond {U} (cx : Z) (c : hprog U) : hprog U := if cx =? COND_CTX then c else HUndef.

(** set_next_fiber_to_run and add_fiber_to_run_queue of the yielding fiber, the end of
    each handler *)
Definition at_once {U} (yf ev p : Z) : hprog U := HReady true (yf, (CONDITION_ID, ev, p)) (fun e => HRet e).
Definition in_turn {U} (yf ev p : Z) : hprog U := HReady false (yf, (CONDITION_ID, ev, p)) (fun e => HRet e).

(** condition_discipline_create_callback_handler.c:33-96.  condition_barrier_create.c:
    43-106 allocates the barrier and its list.  If the insertion fails, the barrier is
    released (condition_barrier_create.c:117-161), and the status of this release is
    reported. *)
Definition create_cond {T} (ts : tops T) (cx yf p : Z) : hprog (cst T) :=
  on_cond cx (HLoad (fun m =>
  let k := wrap64 (c_index m + 1) in
  let fail e := at_once yf CR_CREATE_FAILURE e in
  HMalloc (fun e => if negb (ok e) then fail e else
  HMalloc (fun e => if negb (ok e) then HFree (fun r => fail (if negb (ok r) then r else e)) else
  HMalloc (fun a =>
  need (t_insert ts a (c_tree m) k) (fun '(e, t) =>
  if negb (ok e) then HFree (fun r1 => HFree (fun r2 => fail (if negb (ok r1) then r1 else r2))) else
  HStore (CS t (hadd (c_conds m) k []) k) (at_once yf CR_CREATE_SUCCESS k))))))).

(** condition_discipline_close_callback_handler.c:32-74; the waiting fibers are dropped
    from the list (condition_barrier_create.c:129-139) *)
Definition close_cond {T} (ts : tops T) (cx yf k : Z) : hprog (cst T) :=
  on_cond cx (HLoad (fun m =>
  need (t_delete ts (c_tree m) k) (fun '(e, t) =>
  let m := CS t (c_conds m) (c_index m) in
  if negb (ok e) then HStore m (at_once yf CR_CLOSE_FAILURE e) else
  need (hget (c_conds m) k) (fun _ =>
  HStore (CS (c_tree m) (hdel (c_conds m) k) (c_index m)) (at_once yf CR_CLOSE_SUCCESS STATUS_SUCCESS))))).

(** condition_discipline_wait_callback_handler.c:34-78; slist_append_tail allocates a node *)
Definition wait_cond {T} (ts : tops T) (cx yf h : Z) : hprog (cst T) :=
  on_cond cx (HLoad (fun m =>
  let fail e := at_once yf CR_WAIT_FAILURE e in
  need (t_find ts (c_tree m) h) (fun '(e, k) =>
  if negb (ok e) then fail e else
  need (hget (c_conds m) k) (fun q =>
  HMalloc (fun e => if negb (ok e) then fail e else
  HStore (set_wait k (q ++ [yf]) m) (HRet STATUS_SUCCESS)))))).

(** slist_pop of a wait list that is not empty, then add_fiber_to_run_queue.  If reclaiming
    the node fails, slist_pop.c:91-119 releases the fiber, and the handler resumes NULL or
    leaves a released fiber in the scheduler: both undefined here. *)
Definition wake {T} (k x : Z) (q : list Z) (c : Z -> hprog (cst T)) : hprog (cst T) :=
  HLoad (fun m => HStore (set_wait k q m)
  (HFree (fun r => if negb (ok r) then HUndef else
  HReady false (x, (CONDITION_ID, CR_WAIT_SUCCESS, STATUS_SUCCESS)) c))).
(** condition_discipline_notify_one_callback_handler.c:34-106 *)
Definition notify_one {T} (ts : tops T) (cx yf h : Z) : hprog (cst T) :=
  on_cond cx (HLoad (fun m =>
  need (t_find ts (c_tree m) h) (fun '(e, k) =>
  if negb (ok e) then in_turn yf CR_NOTIFY_FAILURE e else
  need (hget (c_conds m) k) (fun q =>
  match q with
  | [] => in_turn yf CR_NOTIFY_SUCCESS e
  | x :: q => wake k x q (fun e => in_turn yf CR_NOTIFY_SUCCESS e)
  end)))).
(** condition_discipline_notify_all_callback_handler.c:34-106 *)
Fixpoint wake_all {T} (k : Z) (q : list Z) (e : Z) (c : Z -> hprog (cst T)) : hprog (cst T) :=
  match q with
  | [] => c e
  | x :: q => wake k x q (fun e => wake_all k q e c)
  end.
Definition notify_all {T} (ts : tops T) (cx yf h : Z) : hprog (cst T) :=
  on_cond cx (HLoad (fun m =>
  need (t_find ts (c_tree m) h) (fun '(e, k) =>
  if negb (ok e) then in_turn yf CR_NOTIFY_FAILURE e else
  need (hget (c_conds m) k) (fun q => wake_all k q e (fun e => in_turn yf CR_NOTIFY_SUCCESS e))))).

(** ** The API: what a call returns once its fiber is resumed with an event and a
    parameter: status and, if it is written, the result *)
(** conditional_create.c:58-76 *)
Definition conditional_create_result (e p : Z) : Z * option Z :=
  if e =? CR_CREATE_FAILURE then (p, None) else if e =? CR_CREATE_SUCCESS then (STATUS_SUCCESS, Some p) else (ERROR_CONDITION_UNKNOWN_ERROR, None).
(** conditional_close.c:55-66 *)
Definition conditional_close_result (e p : Z) : Z :=
  if (e =? CR_CLOSE_FAILURE) || (e =? CR_CLOSE_SUCCESS) then p else ERROR_CONDITION_UNKNOWN_ERROR.
(** conditional_wait.c:56-72 *)
Definition conditional_wait_result (e p : Z) : Z :=
  if e =? CR_WAIT_FAILURE then p else if e =? CR_WAIT_SUCCESS then STATUS_SUCCESS else ERROR_CONDITION_UNKNOWN_ERROR.
(** conditional_notify_one.c:56-72, conditional_notify_all.c:56-72 *)
Definition conditional_notify_result (e p : Z) : Z :=
  if e =? CR_NOTIFY_FAILURE then p else if e =? CR_NOTIFY_SUCCESS then STATUS_SUCCESS else ERROR_CONDITION_UNKNOWN_ERROR.

(** ** Together with other disciplines *)
Definition cond_fn (fn : Z) : bool := (FN_COND_CREATE <=? fn) && (fn <=? FN_COND_NOTIFY_ALL).
Definition cond_acts {T V} (ts : tops T) (other : acts V) : acts (cst T * V) := fun fn cx yf p =>
  if negb (cond_fn fn) then on_snd (other fn cx yf p) else on_fst (
  if fn =? FN_COND_CREATE then create_cond ts cx yf p
  else if fn =? FN_COND_CLOSE then close_cond ts cx yf p
  else if fn =? FN_COND_WAIT then wait_cond ts cx yf p
  else if fn =? FN_COND_NOTIFY_ONE then notify_one ts cx yf p
  else notify_all ts cx yf p).
