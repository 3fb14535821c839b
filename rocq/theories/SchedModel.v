(** Model of src/fiber/common: fibers, the scheduler, its run queue, disciplines, and the
    internal and management disciplines.
    - The run queue is the sequence of fibers in it, which is what C25 proves of
      src/queue; taking an element out reclaims its list node, and if this fails the
      element is released instead (slist_pop.c:91-119).
    - The tree of fibers is given by its operations [ts] (TabModel.v).  The tree of
      disciplines only grows, and is the list of its elements (C28).
    - Disciplines' identifiers are numbers, the ones of the library being the big-endian
      value of their bytes.  Function pointers are numbers, the ones of the library being
      the constants FN_*; [ext] is the meaning of all others.
    - [T] is the tree of fibers, [U] the state of the disciplines outside this file. *)
From Verif Require Import Base Status MemModel Heap TabModel.

(** include/rcpr/fiber.h:50-57 *)
Definition YIELD_RUN : Z := 0.
Definition YIELD_MAIN : Z := 1.
Definition YIELD_ADD_FIBER : Z := 2.
Definition YIELD_STOP : Z := 3.
Definition YIELD_RESOURCE_RELEASE : Z := 4.
(** include/rcpr/fiber.h:70-76 *)
Definition RESUME_MAIN : Z := 16.
Definition RESUME_ADD_FIBER : Z := 17.
Definition RESUME_RUN : Z := 18.
Definition RESUME_RESOURCE_RELEASE : Z := 19.
Definition RESUME_IDLE : Z := 32.
(** include/rcpr/fiber.h:89-95 *)
Definition CREATED : Z := 0.
Definition RUNNING : Z := 1.
Definition STOPPED : Z := 2.
(** include/rcpr/fiber.h, the management discipline's events *)
Definition MGMT_YIELD_RECEIVE : Z := 0.
Definition MGMT_YIELD_QUIESCE : Z := 1.
Definition MGMT_YIELD_TERMINATE : Z := 2.
Definition MGMT_YIELD_QUIESCE_ALL : Z := 3.
Definition MGMT_YIELD_TERMINATE_ALL : Z := 4.
Definition MGMT_FIBER_ADD : Z := 0.
Definition MGMT_FIBER_STOP : Z := 1.
Definition MGMT_QUIESCE : Z := 2.
Definition MGMT_TERMINATE : Z := 3.
Definition MGMT_RESULT : Z := 4.
(** fiber_scheduler_internal_discipline_id.c:18-20,
    fiber_scheduler_management_discipline_definitions.c:12-14 *)
Definition INTERNAL_ID : Z := 0x505aaf7d7201452e949c46fa5a6f90de.
Definition MANAGEMENT_ID : Z := 0x7b9163060a6942febbcbeb9f7b95838d.
(** Addresses of the handlers of this file, of the disciplined context, and of the
    management discipline. *)
Definition FN_RUN : Z := 101.
Definition FN_MAIN : Z := 102.
Definition FN_ADD_FIBER : Z := 103.
Definition FN_STOP : Z := 104.
Definition FN_RESOURCE_RELEASE : Z := 105.
Definition FN_RECEIVE : Z := 106.
Definition FN_QUIESCE : Z := 107.
Definition FN_TERMINATE : Z := 108.
Definition FN_QUIESCE_ALL : Z := 109.
Definition FN_TERMINATE_ALL : Z := 110.
Definition SCHED_CTX : Z := 1.
Definition MGMT_DISC : Z := 1.

(** fiber_internal.h:27-45; of the fields only those the scheduler uses *)
Record fiber := Fib { f_state : Z; f_disc : Z; f_event : Z; f_param : Z }.
(** fiber_internal.h:86-99; the vector's size is its length *)
Record disc := Disc { d_id : Z; d_owned : bool; d_ctx : Z; d_cbs : list Z; d_codes : list Z }.
(** disciplines_by_uuid as (id, discipline), the live disciplines, callback_vector and
    context_vector (fiber_internal.h:64-84) *)
Record reg := Reg { g_discs : list (Z * Z); g_heap : heap disc; g_cbs : list Z; g_ctxs : list Z }.
(** The scheduler and its disciplined context; [w_al] and [w_rc] are the statuses of the
    coming allocations and reclaims, which succeed when the list is used up. *)
Record sw (T U : Type) := SW
  { w_fibs : heap fiber; w_tab : T; w_reg : reg; w_rq : list Z;
    w_idle : Z; w_main : Z; w_mgmt : Z; w_cur : Z;
    w_al : list Z; w_rc : list Z; w_user : U }.
Arguments SW {T U}. Arguments w_fibs {T U}. Arguments w_tab {T U}. Arguments w_reg {T U}. Arguments w_rq {T U}.
Arguments w_idle {T U}. Arguments w_main {T U}. Arguments w_mgmt {T U}. Arguments w_cur {T U}.
Arguments w_al {T U}. Arguments w_rc {T U}. Arguments w_user {T U}.

(** Assignments to one field. *)
Definition set_fibs {T U} x (w : sw T U) : sw T U := SW x (w_tab w) (w_reg w) (w_rq w) (w_idle w) (w_main w) (w_mgmt w) (w_cur w) (w_al w) (w_rc w) (w_user w).
Definition set_tab {T U} (x : T) (w : sw T U) : sw T U := SW (w_fibs w) x (w_reg w) (w_rq w) (w_idle w) (w_main w) (w_mgmt w) (w_cur w) (w_al w) (w_rc w) (w_user w).
Definition set_reg {T U} x (w : sw T U) : sw T U := SW (w_fibs w) (w_tab w) x (w_rq w) (w_idle w) (w_main w) (w_mgmt w) (w_cur w) (w_al w) (w_rc w) (w_user w).
Definition set_rq {T U} x (w : sw T U) : sw T U := SW (w_fibs w) (w_tab w) (w_reg w) x (w_idle w) (w_main w) (w_mgmt w) (w_cur w) (w_al w) (w_rc w) (w_user w).
Definition set_idle {T U} x (w : sw T U) : sw T U := SW (w_fibs w) (w_tab w) (w_reg w) (w_rq w) x (w_main w) (w_mgmt w) (w_cur w) (w_al w) (w_rc w) (w_user w).
Definition set_main {T U} x (w : sw T U) : sw T U := SW (w_fibs w) (w_tab w) (w_reg w) (w_rq w) (w_idle w) x (w_mgmt w) (w_cur w) (w_al w) (w_rc w) (w_user w).
Definition set_mgmt {T U} x (w : sw T U) : sw T U := SW (w_fibs w) (w_tab w) (w_reg w) (w_rq w) (w_idle w) (w_main w) x (w_cur w) (w_al w) (w_rc w) (w_user w).
Definition set_cur {T U} x (w : sw T U) : sw T U := SW (w_fibs w) (w_tab w) (w_reg w) (w_rq w) (w_idle w) (w_main w) (w_mgmt w) x (w_al w) (w_rc w) (w_user w).
Definition set_al {T U} x (w : sw T U) : sw T U := SW (w_fibs w) (w_tab w) (w_reg w) (w_rq w) (w_idle w) (w_main w) (w_mgmt w) (w_cur w) x (w_rc w) (w_user w).
Definition set_rc {T U} x (w : sw T U) : sw T U := SW (w_fibs w) (w_tab w) (w_reg w) (w_rq w) (w_idle w) (w_main w) (w_mgmt w) (w_cur w) (w_al w) x (w_user w).
Definition set_user {T U} (x : U) (w : sw T U) : sw T U := SW (w_fibs w) (w_tab w) (w_reg w) (w_rq w) (w_idle w) (w_main w) (w_mgmt w) (w_cur w) (w_al w) (w_rc w) x.

(** The status of the next allocation, of the next reclaim. *)
Definition allocation {T U} (w : sw T U) : Z * sw T U :=
  match w_al w with [] => (STATUS_SUCCESS, w) | e :: t => (e, set_al t w) end.
Definition reclaim {T U} (w : sw T U) : Z * sw T U :=
  match w_rc w with [] => (STATUS_SUCCESS, w) | e :: t => (e, set_rc t w) end.

(** Store the three restore fields of a fiber; it must be live. *)
Definition set_restore {T U} (f d e p : Z) (w : sw T U) : option (sw T U) :=
  do b <- hget (w_fibs w) f; Some (set_fibs (hset (w_fibs w) f (Fib (f_state b) d e p)) w).

(** disciplined_fiber_scheduler_add_fiber_to_run_queue.c:44-67 *)
Definition add_to_run_queue {T U} (f d e p : Z) (w : sw T U) : option (Z * sw T U) :=
  do w1 <- set_restore f d e p w;
  let '(st, w2) := allocation w1 in
  if ok st then Some (STATUS_SUCCESS, set_rq (w_rq w2 ++ [f]) w2) else Some (st, w2).
(** disciplined_fiber_scheduler_set_next_fiber_to_run.c:45-68 *)
Definition set_next {T U} (f d e p : Z) (w : sw T U) : option (Z * sw T U) :=
  do w1 <- set_restore f d e p w;
  let '(st, w2) := allocation w1 in
  if ok st then Some (STATUS_SUCCESS, set_rq (f :: w_rq w2) w2) else Some (st, w2).

(** A handler: context, yielding fiber, event, parameter; status and new state. *)
Definition handler (T U : Type) := Z -> Z -> Z -> Z -> sw T U -> option (Z * sw T U).
(** A handler of the disciplined context, called with any other pointer, is undefined. *)
Definition on_ctx {T U} (cx : Z) (x : option (Z * sw T U)) : option (Z * sw T U) :=
  if cx =? SCHED_CTX then x else None.

(** fiber_scheduler_create_with_disciplines.c:735-762 *)
Definition run_handler {T U} : handler T U := fun cx yf _ _ w =>
  on_ctx cx (if yf =? w_idle w then Some (STATUS_SUCCESS, w) else add_to_run_queue yf INTERNAL_ID RESUME_RUN 0 w).
(** fiber_scheduler_create_with_disciplines.c:778-802 *)
Definition main_handler {T U} : handler T U := fun cx yf _ _ w =>
  on_ctx cx (set_next yf INTERNAL_ID RESUME_MAIN 0 (set_main yf w)).
(** fiber_scheduler_create_with_disciplines.c:818-895 *)
Definition add_fiber_handler {T U} (ts : tops T) : handler T U := fun cx yf _ nf w =>
  on_ctx cx (
  do _ <- hget (w_fibs w) nf;
  let '(a, w) := allocation w in
  do '(e, t) <- t_insert ts a (w_tab w) nf;
  let w := set_tab t w in
  if negb (ok e) then Some (e, w) else
  do '(e, w) <- add_to_run_queue nf INTERNAL_ID RESUME_ADD_FIBER 0 w;
  if negb (ok e) then
    do '(de, t) <- t_delete ts (w_tab w) nf;
    Some (if negb (ok de) then de else e, set_tab t w)
  else
  do '(e, w) <- set_next yf INTERNAL_ID RESUME_ADD_FIBER 0 w;
  if negb (ok e) then Some (e, w) else
  if negb (w_mgmt w =? 0) then
    do '(e, w) <- set_next (w_mgmt w) MANAGEMENT_ID MGMT_FIBER_ADD nf w;
    if negb (ok e) then Some (e, w) else Some (STATUS_SUCCESS, set_mgmt 0 w)
  else Some (STATUS_SUCCESS, w)).
(** fiber_scheduler_create_with_disciplines.c:911-952 *)
Definition stop_handler {T U} : handler T U := fun cx yf _ _ w =>
  on_ctx cx (
  if negb (w_mgmt w =? 0) then
    do '(e, w) <- set_next (w_mgmt w) MANAGEMENT_ID MGMT_FIBER_STOP yf w;
    if negb (ok e) then Some (e, w) else Some (STATUS_SUCCESS, set_mgmt 0 w)
  else Some (STATUS_SUCCESS, w)).
(** fiber_scheduler_create_with_disciplines.c:968-987 *)
Definition resource_release_handler {T U} : handler T U := fun cx yf _ _ w =>
  on_ctx cx (set_next yf INTERNAL_ID RESUME_RESOURCE_RELEASE 0 w).
(** fiber_scheduler_create_with_disciplines.c:1003-1023 *)
Definition receive_handler {T U} : handler T U := fun cx yf _ _ w =>
  on_ctx cx (Some (STATUS_SUCCESS, set_mgmt yf w)).
(** fiber_scheduler_create_with_disciplines.c:1039-1094 ([req] QUIESCE) and 1110-1165
    ([req] TERMINATION) *)
Definition request_handler {T U} (req : Z) : handler T U := fun cx yf _ f w =>
  on_ctx cx (
  do b <- hget (w_fibs w) f;
  if negb (f_state b =? RUNNING) then
    do '(e, w) <- set_next yf MANAGEMENT_ID MGMT_RESULT ERROR_FIBER_INVALID_STATE w;
    if negb (ok e) then Some (e, w) else Some (STATUS_SUCCESS, w)
  else
    do '(e, w) <- set_next yf MANAGEMENT_ID MGMT_RESULT STATUS_SUCCESS w;
    if negb (ok e) then Some (e, w) else
    do '(e, w) <- set_next f MANAGEMENT_ID req 0 w;
    if negb (ok e) then Some (e, w) else Some (STATUS_SUCCESS, w)).
(** fiber_scheduler_create_with_disciplines.c:1198-1219, 1260-1282: the loop over the
    fibers [fs] of the tree; a fiber in the tree that is no longer live is undefined *)
Fixpoint request_loop {T U} (req yf : Z) (fs : list Z) (w : sw T U) : option (Z * sw T U) :=
  match fs with
  | [] => Some (STATUS_SUCCESS, w)
  | f :: t =>
      if negb (f =? 0) && negb (yf =? f) && negb (w_mgmt w =? f) then
        do b <- hget (w_fibs w) f;
        if f_state b =? RUNNING then
          do '(e, w) <- add_to_run_queue f MANAGEMENT_ID req 0 w;
          if negb (ok e) then Some (e, w) else request_loop req yf t w
        else request_loop req yf t w
      else request_loop req yf t w
  end.
(** fiber_scheduler_create_with_disciplines.c:1181-1227, 1243-1290 *)
Definition request_all_handler {T U} (ts : tops T) (req : Z) : handler T U := fun cx yf _ _ w =>
  on_ctx cx (
  do fs <- t_elems ts (w_tab w);
  do '(e, w) <- request_loop req yf fs w;
  if negb (ok e) then Some (e, w) else add_to_run_queue yf MANAGEMENT_ID MGMT_RESULT STATUS_SUCCESS w).

(** A call through a function pointer. *)
Definition call {T U} (ts : tops T) (ext : Z -> handler T U) (fn : Z) : handler T U :=
  if fn =? FN_RUN then run_handler
  else if fn =? FN_MAIN then main_handler
  else if fn =? FN_ADD_FIBER then add_fiber_handler ts
  else if fn =? FN_STOP then stop_handler
  else if fn =? FN_RESOURCE_RELEASE then resource_release_handler
  else if fn =? FN_RECEIVE then receive_handler
  else if fn =? FN_QUIESCE then request_handler MGMT_QUIESCE
  else if fn =? FN_TERMINATE then request_handler MGMT_TERMINATE
  else if fn =? FN_QUIESCE_ALL then request_all_handler ts MGMT_QUIESCE
  else if fn =? FN_TERMINATE_ALL then request_all_handler ts MGMT_TERMINATE
  else ext fn.

(** [(size_t)yield_event], the event being an int *)
Definition to_size (ev : Z) : Z := wrap64 ev.

(** [(int)] of a uint32_t *)
Definition to_int (x : Z) : Z := if x <? 2^31 then x else x - 2^32.

(** fiber_scheduler_create_with_disciplines.c:682-718: who runs next.  Fiber,
    discipline, event and parameter if the status is success. *)
Definition pick_next {T U} (w : sw T U) : option (Z * (Z * Z * Z * Z) * sw T U) :=
  match w_rq w with
  | f :: t =>
      let '(e, w1) := reclaim (set_rq t w) in
      if ok e then do b <- hget (w_fibs w1) f; Some (STATUS_SUCCESS, (f, f_disc b, f_event b, f_param b), w1)
      else
        (* queue_pop releases the fiber; success with a NULL fiber is dereferenced *)
        do _ <- hget (w_fibs w1) f;
        let '(e2, w2) := reclaim (set_fibs (hdel (w_fibs w1) f) w1) in
        if ok e2 then None else Some (e2, (0, 0, 0, 0), w2)
  | [] =>
      if negb (w_idle w =? 0) then Some (STATUS_SUCCESS, (w_idle w, INTERNAL_ID, RESUME_IDLE, 0), w)
      else Some (ERROR_FIBER_SCHEDULER_EXHAUSTED, (0, 0, 0, 0), w)
  end.
(** fiber_scheduler_create_with_disciplines.c:654-719; [cl] is the call through a
    function pointer *)
Definition sched_callback {T U} (cl : Z -> handler T U) (yf ev p : Z) (w : sw T U) : option (Z * (Z * Z * Z * Z) * sw T U) :=
  if Z.of_nat (length (g_cbs (w_reg w))) <=? to_size ev then Some (ERROR_FIBER_SCHEDULER_BAD_YIELD_EVENT, (0, 0, 0, 0), w) else
  do fn <- nth_error (g_cbs (w_reg w)) (Z.to_nat ev);
  do cx <- nth_error (g_ctxs (w_reg w)) (Z.to_nat ev);
  do '(e, w1) <- cl fn cx yf ev p w;
  if negb (ok e) then Some (e, (0, 0, 0, 0), w1) else pick_next w1.

(** fiber_switch: [f] continues with its restore fields set (x86_64/fiber_switch.s); a
    fiber that runs for the first time enters fiber_entry.c:26-33, which marks it running.
    A stopped fiber returns from its entry function and ends the process
    (fiber_make.s:finish), which is no outcome here. *)
Definition switch_to {T U} (f d e p : Z) (w : sw T U) : option (sw T U) :=
  do b <- hget (w_fibs w) f;
  if f_state b =? STOPPED then None else
  Some (set_cur f (set_fibs (hset (w_fibs w) f (Fib (if f_state b =? CREATED then RUNNING else f_state b) d e p)) w)).
(** fiber_scheduler_yield.c:52-100: status, and after it the fiber that runs, if the
    status is success, is [w_cur], and it finds the resume values in its restore fields.
    On an error the yielding fiber goes on. *)
Definition yield {T U} (cl : Z -> handler T U) (ev p : Z) (w : sw T U) : option (Z * sw T U) :=
  do '(e, (f, d, ev', p'), w1) <- sched_callback cl (w_cur w) ev p w;
  if negb (ok e) then Some (e, w1) else
  do w2 <- switch_to f d ev' p' w1; Some (STATUS_SUCCESS, w2).
(** fiber_scheduler_run.c:51-66, disciplined_fiber_scheduler_idle_fiber_yield.c *)
Definition scheduler_run {T U} (cl : Z -> handler T U) (w : sw T U) := yield cl YIELD_RUN 0 w.
(** fiber_scheduler_add.c:44-85 *)
Definition scheduler_add {T U} (cl : Z -> handler T U) (f : Z) (w : sw T U) := yield cl YIELD_ADD_FIBER f w.
(** fiber_entry.c:35-46: the current fiber's function returns.  [yield] returning to it
    ends the process as above. *)
Definition fiber_stop {T U} (cl : Z -> handler T U) (w : sw T U) : option (Z * sw T U) :=
  do b <- hget (w_fibs w) (w_cur w);
  do '(e, w1) <- yield cl YIELD_STOP 0 (set_fibs (hset (w_fibs w) (w_cur w) (Fib STOPPED (f_disc b) (f_event b) (f_param b))) w);
  if negb (ok e) then None else Some (e, w1).
(** fiber_create.c:71-152 where it succeeds (C48 has the rest): a new fiber *)
Definition new_fiber {T U} (f : Z) (w : sw T U) : sw T U := set_fibs (hadd (w_fibs w) f (Fib CREATED 0 0 0)) w.
(** fiber_resource_release.c:29-65: the memory is gone *)
Definition release_fiber {T U} (f : Z) (w : sw T U) : option (sw T U) :=
  do _ <- hget (w_fibs w) f; Some (set_fibs (hdel (w_fibs w) f) w).
(** disciplined_fiber_scheduler_remove_fiber.c:42-60 *)
Definition remove_fiber {T U} (ts : tops T) (f : Z) (w : sw T U) : option (Z * sw T U) :=
  do '(e, t) <- t_delete ts (w_tab w) f; Some (e, set_tab t w).
(** disciplined_fiber_scheduler_set_idle_fiber.c:41-60 *)
Definition set_idle_fiber {T U} (f : Z) (w : sw T U) : Z * sw T U := (STATUS_SUCCESS, set_idle f w).

(** ** Disciplines *)
(** fiber_scheduler_discipline_create.c:71-175 where it succeeds; [junk] is what the
    memory of callback_codes holds *)
Definition new_disc (junk : list Z) (id ctx : Z) (cbs : list Z) : disc :=
  Disc id false ctx cbs (firstn (length cbs) (junk ++ repeat 0 (length cbs))).
(** fiber_scheduler_discipline_add.c:51-163 for a disciplined scheduler, both vectors of
    which are allocated when it is created *)
Definition discipline_add {T U} (d : Z) (w : sw T U) : option (Z * sw T U) :=
  do x <- hget (g_heap (w_reg w)) d;
  if d_owned x then Some (ERROR_FIBER_SCHEDULER_DISCIPLINE_ALREADY_OWNED, w) else
  if existsb (fun y => fst y =? d_id x) (g_discs (w_reg w)) then Some (ERROR_FIBER_SCHEDULER_DUPLICATE_DISCIPLINE_ID, w) else
  let '(a, w) := allocation w in
  if negb (ok a) then Some (a, w) else
  let g := w_reg w in
  let w := set_reg (Reg ((d_id x, d) :: g_discs g) (g_heap g) (g_cbs g) (g_ctxs g)) w in
  let '(a, w) := allocation w in
  if negb (ok a) then Some (a, w) else
  let '(a, w) := allocation w in
  if negb (ok a) then Some (a, w) else
  let g := w_reg w in
  let off := Z.of_nat (length (g_cbs g)) in
  let codes := map (fun i => wrap32 (Z.of_nat i + off)) (seq 0 (length (d_cbs x))) in
  Some (STATUS_SUCCESS,
        set_reg (Reg (g_discs g) (hset (g_heap g) d (Disc (d_id x) true (d_ctx x) (d_cbs x) codes))
                     (g_cbs g ++ d_cbs x) (g_ctxs g ++ map (fun _ => d_ctx x) (d_cbs x))) w).
(** fiber_scheduler_discipline_find.c:47-84 *)
Definition discipline_find {T U} (id : Z) (w : sw T U) : Z * Z :=
  match find (fun y => fst y =? id) (g_discs (w_reg w)) with
  | Some y => (STATUS_SUCCESS, snd y)
  | None => (ERROR_FIBER_SCHEDULER_DISCIPLINE_NOT_FOUND, 0)
  end.
(** fiber_discipline_yield.c:49-78; the code is read as an int from a uint32_t *)
Definition discipline_yield {T U} (cl : Z -> handler T U) (d ev p : Z) (w : sw T U) : option (Z * sw T U) :=
  do x <- hget (g_heap (w_reg w)) d;
  if Z.of_nat (length (d_cbs x)) <? to_size ev then Some (ERROR_FIBER_SCHEDULER_BAD_YIELD_EVENT, w) else
  do code <- nth_error (d_codes x) (Z.to_nat ev);
  if d_owned x then yield cl (to_int code) p w else None.
(** disciplined_fiber_scheduler_receive_management_event.c:43-66 *)
Definition receive_event {T U} (cl : Z -> handler T U) (w : sw T U) := discipline_yield cl MGMT_DISC MGMT_YIELD_RECEIVE 0 w.
(** disciplined_fiber_scheduler_send_quiesce_request_to_fiber.c:40-63 and the three like
    it; the caller's result, when it is resumed, is [request_result] *)
Definition send_quiesce {T U} (cl : Z -> handler T U) (f : Z) (w : sw T U) := discipline_yield cl MGMT_DISC MGMT_YIELD_QUIESCE f w.
Definition send_terminate {T U} (cl : Z -> handler T U) (f : Z) (w : sw T U) := discipline_yield cl MGMT_DISC MGMT_YIELD_TERMINATE f w.
Definition send_quiesce_all {T U} (cl : Z -> handler T U) (w : sw T U) := discipline_yield cl MGMT_DISC MGMT_YIELD_QUIESCE_ALL 0 w.
Definition send_terminate_all {T U} (cl : Z -> handler T U) (w : sw T U) := discipline_yield cl MGMT_DISC MGMT_YIELD_TERMINATE_ALL 0 w.
(** disciplined_fiber_scheduler_send_quiesce_request_to_fiber.c:69-78 *)
Definition request_result (d e p : Z) : Z :=
  if negb (d =? MANAGEMENT_ID) || negb (e =? MGMT_RESULT) then ERROR_FIBER_UNEXPECTED_RESUME_EVENT else p.

(** ** Creation (where no allocation fails; SchedMem.v has the rest) *)
(** fiber_scheduler_create_with_disciplines.c:165-238 and fiber_scheduler_create.c:82-114
    with the main fiber [m] (fiber_create_for_thread.c:63-120) *)
Definition sched_blank {T U} (ts : tops T) (u : U) (m : Z) : sw T U :=
  SW [(m, Fib RUNNING 0 0 0)] (t_empty ts)
     (Reg [] [] [FN_RUN; FN_MAIN; FN_ADD_FIBER; FN_STOP; FN_RESOURCE_RELEASE] [SCHED_CTX; SCHED_CTX; SCHED_CTX; SCHED_CTX; SCHED_CTX])
     [] 0 0 0 0 [] [] u.
(** fiber_scheduler_create.c:117-149, then
    fiber_scheduler_create_with_disciplines.c:250-288 *)
Definition sched_create {T U} (ts : tops T) (ext : Z -> handler T U) (junk : list Z) (u : U) (m : Z) : option (Z * sw T U) :=
  do '(e, (f, _, ev, _), w) <- sched_callback (call ts ext) m YIELD_MAIN 0 (sched_blank ts u m);
  if negb (ok e) then None else
  if negb (f =? m) || negb (ev =? RESUME_MAIN) then None else
  let w := set_cur m w in
  let g := w_reg w in
  let d := new_disc junk MANAGEMENT_ID SCHED_CTX [FN_RECEIVE; FN_QUIESCE; FN_TERMINATE; FN_QUIESCE_ALL; FN_TERMINATE_ALL] in
  discipline_add MGMT_DISC (set_reg (Reg (g_discs g) (hadd (g_heap g) MGMT_DISC d) (g_cbs g) (g_ctxs g)) w).

(** ** Handlers of other disciplines *)
(** A fiber to make ready: fiber; discipline, event, parameter. *)
Definition entry : Type := Z * (Z * Z * Z).
(** Code outside this file that runs in a handler, or in a fiber between two yields: it
    makes fibers ready ([true]: with set_next_fiber_to_run, [false]: with
    add_fiber_to_run_queue), allocates, reclaims, and uses its own state [U]; the
    continuation gets the status of the call.  [HUndef] is undefined behaviour. *)
Inductive hprog (U : Type) :=
| HRet (e : Z)
| HReady (front : bool) (x : entry) (k : Z -> hprog U)
| HMalloc (k : Z -> hprog U)
| HFree (k : Z -> hprog U)
| HLoad (k : U -> hprog U)
| HStore (u : U) (k : hprog U)
| HUndef.
Arguments HRet {U}. Arguments HReady {U}. Arguments HMalloc {U}. Arguments HFree {U}. Arguments HLoad {U}. Arguments HStore {U}. Arguments HUndef {U}.
Fixpoint hrun {T U} (c : hprog U) (w : sw T U) : option (Z * sw T U) :=
  match c with
  | HRet e => Some (e, w)
  | HReady front (f, (d, e, p)) k => do '(st, w) <- (if front then set_next f d e p w else add_to_run_queue f d e p w); hrun (k st) w
  | HMalloc k => let '(st, w) := allocation w in hrun (k st) w
  | HFree k => let '(st, w) := reclaim w in hrun (k st) w
  | HLoad k => hrun (k (w_user w)) w
  | HStore u k => hrun k (set_user u w)
  | HUndef => None
  end.
(** The code behind function pointers: function, context, running fiber, parameter. *)
Definition acts (U : Type) := Z -> Z -> Z -> Z -> hprog U.
Definition ext_of {T U} (ac : acts U) (fn : Z) : handler T U := fun cx yf _ p w => hrun (ac fn cx yf p) w.
