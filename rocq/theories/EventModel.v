(** Model of what a call that blocks does with the event that its fiber is resumed with,
    and of the handler for unexpected events.
    - A handler is a user's function; it is the argument [cb], which gets all that
      it is called with and answers a status.  What it does besides is not modelled. *)
From Verif Require Import Base Status MemModel Heap TabModel SchedModel MsgModel CondModel IoModel AsyncModel.

(** The values that a yield returns: discipline, event and parameter
    (fiber_discipline_yield.c:66-78). *)
Record resume := Res { r_disc : Z; r_event : Z; r_param : Z }.

(** ** Calls that decode an answer *)
Inductive bcall := BMailboxCreate | BMailboxClose | BSend | BReceive
| BCondCreate | BCondClose | BCondWait | BCondNotify
| BRequest.           (* disciplined_fiber_scheduler_send_*_request_to_* *)
(** The status, and the result if it is written.  Only the last compares resume_id:
    mailbox_create.c:52-75, mailbox_close.c:50-64, message_send.c:57-79,
    message_receive.c:59-86, conditional_create.c:58-76, conditional_close.c:55-66,
    conditional_wait.c:56-72, conditional_notify_one.c:56-72 and
    conditional_notify_all.c:56-72, and
    disciplined_fiber_scheduler_send_quiesce_request_to_fiber.c:69-78 *)
Definition returns (c : bcall) (r : resume) : Z * option Z :=
  let e := r_event r in let p := r_param r in
  match c with
  | BMailboxCreate => mailbox_create_result e p
  | BMailboxClose => (mailbox_close_result e p, None)
  | BSend => (message_send_result e p, None)
  | BReceive => message_receive_result e p
  | BCondCreate => conditional_create_result e p
  | BCondClose => (conditional_close_result e p, None)
  | BCondWait => (conditional_wait_result e p, None)
  | BCondNotify => (conditional_notify_result e p, None)
  | BRequest => (request_result (r_disc r) e p, None)
  end.

(** ** The handler for unexpected events *)
(** fiber_internal.h:38-39; a fiber without handler has function 0, as fiber_create.c:95
    and fiber_create_for_thread.c:84 leave it *)
Record hook := Hook { k_fn : Z; k_ctx : Z }.
Definition no_hook : hook := Hook 0 0.
(** What a handler is called with. *)
Record told := Told { t_fn : Z; t_ctx : Z; t_fib : Z; t_res : resume; t_want : Z; t_wev : Z }.
(** fiber_unexpected_event_callback_add.c:38-50 *)
Definition callback_add (f fn ctx : Z) (h : heap hook) : option (Z * heap hook) :=
  do _ <- hget h f; Some (STATUS_SUCCESS, hset h f (Hook fn ctx)).
(** fiber_unexpected_event.c:39-62; the second result is the call, if it is made *)
Definition unexpected_event (cb : told -> Z) (h : heap hook) (f : Z) (r : resume) (want wev : Z) : option (Z * option told) :=
  do k <- hget h f;
  if k_fn k =? 0 then Some (ERROR_FIBER_NO_UNEXPECTED_HANDLER, None) else
  let t := Told (k_fn k) (k_ctx k) f r want wev in
  Some (cb t, Some t).

(** ** Waiting for a socket *)
(** psock_internal.h:74-84: a wrapped socket's fiber [k_fib] (psock_create_wrap_async.c:184),
    and who is blocked *)
Record wrapped := Wrapped { wk_fib : Z; wk_blocked : Z }.
(** psock_read_block.c:83-136 ([wev] the event AVAILABLE_READ) and
    psock_write_block.c:80-133 ([wev] AVAILABLE_WRITE).  [ys] is how the yields end, each
    with its status; [None] if they do not suffice to end the loop. *)
Fixpoint wait_told (cb : told -> Z) (h : heap hook) (wev : Z) (ys : list (Z * resume)) (s : wrapped) (log : list told) : option (Z * wrapped * list told) :=
  if negb (wk_blocked s =? 0) then Some (ERROR_PSOCK_DOUBLE_BLOCK_UNSUPPORTED, s, log) else
  match ys with
  | [] => None
  | (e, r) :: ys =>
      let s := Wrapped (wk_fib s) 0 in
      if negb (ok e) then Some (e, s, log) else
      if negb (r_disc r =? IO_ID) then
        do '(e, t) <- unexpected_event cb h (wk_fib s) r IO_ID wev;
        let log := log ++ match t with Some t => [t] | None => [] end in
        if negb (ok e) then Some (e, s, log) else wait_told cb h wev ys s log
      else Some (STATUS_SUCCESS, s, log)
  end.
