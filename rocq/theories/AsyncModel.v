(** Model of descriptor-backed sockets and of their asynchronous wrapper
    (src/psock/psock_from_descriptor_*.c, psock_wrap_async_*.c, psock_read_block.c,
    psock_write_block.c).  The kernel side of a descriptor is a script: how many
    bytes, or which errno, each system call yields. *)
From Verif Require Import Base Status CodecModel MemModel.

(** What one read(2) or write(2) does: transfer up to [n + 1] bytes, fail with an
    errno, or (writes only) transfer nothing. *)
Inductive kev := KGive (n : nat) | KFail (errno : Z) | KZero.

(** Linux: EAGAIN and EWOULDBLOCK. *)
Definition EAGAIN : Z := 11.
Definition EWOULDBLOCK : Z := 11.

(** A descriptor: the bytes the peer sends before closing that have not been read
    yet, the bytes accepted from us, and the scripts of reads and writes.  Past
    the end of its script a call transfers as much as possible. *)
Record kern := Kern { k_in : list Z; k_rs : list kev; k_out : list Z; k_ws : list kev }.

(** read(2): (return value, errno, bytes stored, descriptor). *)
Definition kread (k : kern) (n : nat) : Z * Z * list Z * kern :=
  let give c rs :=
    (Z.of_nat c, 0, firstn c (k_in k), Kern (skipn c (k_in k)) rs (k_out k) (k_ws k)) in
  match k_rs k with
  | [] => give (Nat.min n (length (k_in k))) []
  | KGive m :: t => give (Nat.min n (Nat.min (S m) (length (k_in k)))) t
  | KFail e :: t => (-1, e, [], Kern (k_in k) t (k_out k) (k_ws k))
  | KZero :: t => give 0%nat t
  end.

(** write(2): (return value, errno, descriptor). *)
Definition kwrite (k : kern) (d : list Z) : Z * Z * kern :=
  let take c ws := (Z.of_nat c, 0, Kern (k_in k) (k_rs k) (k_out k ++ firstn c d) ws) in
  match k_ws k with
  | [] => take (length d) []
  | KGive m :: t => take (Nat.min (S m) (length d)) t
  | KFail e :: t => (-1, e, Kern (k_in k) (k_rs k) (k_out k) t)
  | KZero :: t => take 0%nat t
  end.

Definition again (errno : Z) : bool := (EAGAIN =? errno) || (EWOULDBLOCK =? errno).

(** psock_from_descriptor_read.c:32-68 *)
Definition fd_read (k : kern) (n : nat) : rres kern :=
  let '(ret, errno, d, k') := kread k n in
  if ret <? 0 then
    if again errno then RRes ERROR_PSOCK_READ_WOULD_BLOCK n d k'
    else RRes ERROR_PSOCK_READ_GENERAL n d k'
  else RRes STATUS_SUCCESS (Z.to_nat ret) d k'.

(** psock_from_descriptor_write.c:32-67 *)
Definition fd_write (k : kern) (d : list Z) : wres kern :=
  let '(ret, errno, k') := kwrite k d in
  if ret <? 0 then
    if again errno then WRes ERROR_PSOCK_WRITE_WOULD_BLOCK (length d) k'
    else WRes ERROR_PSOCK_WRITE_GENERAL (length d) k'
  else WRes STATUS_SUCCESS (Z.to_nat ret) k'.

(** psock_create_from_descriptor.c: the vtable of a descriptor socket. *)
Definition fd_ops : sock_ops kern :=
  {| op_vtable := STATUS_SUCCESS; op_read := fun k n _ => fd_read k n; op_write := fd_write |}.

(** psock_from_descriptor_accept.c:34-66: from accept(2)'s return value and errno,
    the status and [*desc] if written. *)
Definition fd_accept (ret errno : Z) : Z * option Z :=
  if ret <? 0 then
    ((if again errno then ERROR_PSOCK_ACCEPT_WOULD_BLOCK else ERROR_PSOCK_ACCEPT_GENERAL), None)
  else (STATUS_SUCCESS, Some ret).
(** psock_from_descriptor_sendmsg.c:31-57 *)
Definition fd_sendmsg (ret errno : Z) : Z :=
  if ret <? 0 then (if again errno then ERROR_PSOCK_WRITE_WOULD_BLOCK else ERROR_PSOCK_SENDMSG_FAILED)
  else STATUS_SUCCESS.
(** psock_from_descriptor_recvmsg.c:32-64: the status and [*len] if written. *)
Definition fd_recvmsg (ret errno : Z) : Z * option Z :=
  if ret <? 0 then
    ((if again errno then ERROR_PSOCK_READ_WOULD_BLOCK else ERROR_PSOCK_RECVMSG_FAILED), None)
  else (STATUS_SUCCESS, Some ret).
(** psock_from_descriptor_setsockopt.c:34-57 *)
Definition fd_setsockopt (ret : Z) : Z :=
  if ret <? 0 then ERROR_PSOCK_SETSOCKOPT else STATUS_SUCCESS.

(** ** Blocking *)
(** How one yield of a blocked fiber ends: the status of fiber_discipline_yield,
    whether the resume came from the socket discipline, and otherwise what
    fiber_unexpected_event returned. *)
Record yev := Yev { y_status : Z; y_ours : bool; y_handler : Z }.

(** include/rcpr/fiber/disciplines/psock_io.h:31-43 *)
Definition WAIT_READ : Z := 0.
Definition WAIT_WRITE : Z := 1.

(** src/psock/psock_internal.h:26-33; the other types are SockModel's. *)
Definition PSOCK_TYPE_WRAP_ASYNC : Z := 3.

(** The wrapper: its descriptor, the fibers blocked on it (0 is NULL), the script
    of yields (past its end a yield is an ordinary resume), the log of yields. *)
Record async := Async
  { a_type : Z; a_k : kern; a_rfib : Z; a_wfib : Z; a_ys : list yev; a_log : list Z }.

(** What the two scheduler queries return, and the running fiber. *)
Record fenv := Fenv { f_sched : Z; f_current : Z; f_fiber : Z }.

(** The loop of psock_read_block.c:83-136 and psock_write_block.c:80-133: returns
    status, blocked-fiber field, remaining script, log. *)
Fixpoint wait_loop (code cur : Z) (ys : list yev) (fib : Z) (log : list Z) : Z * Z * list yev * list Z :=
  if negb (fib =? 0) then (ERROR_PSOCK_DOUBLE_BLOCK_UNSUPPORTED, fib, ys, log) else
  match ys with
  | [] => (STATUS_SUCCESS, 0, [], log ++ [code])
  | y :: t =>
      if negb (ok (y_status y)) then (y_status y, 0, t, log ++ [code])
      else if y_ours y then (STATUS_SUCCESS, 0, t, log ++ [code])
      else if negb (ok (y_handler y)) then (y_handler y, 0, t, log ++ [code])
      else wait_loop code cur t 0 (log ++ [code])
  end.

(** psock_read_block.c:46-139 *)
Definition read_block (f : fenv) (a : async) : Z * async :=
  if negb (PSOCK_TYPE_WRAP_ASYNC =? a_type a) then (ERROR_PSOCK_UNSUPPORTED_TYPE, a) else
  if negb (ok (f_sched f)) then (f_sched f, a) else
  if negb (ok (f_current f)) then (f_current f, a) else
  let '(e, fib, ys, log) := wait_loop WAIT_READ (f_fiber f) (a_ys a) (a_rfib a) (a_log a) in
  (e, Async (a_type a) (a_k a) fib (a_wfib a) ys log).

(** psock_write_block.c:44-136 *)
Definition write_block (f : fenv) (a : async) : Z * async :=
  if negb (PSOCK_TYPE_WRAP_ASYNC =? a_type a) then (ERROR_PSOCK_UNSUPPORTED_TYPE, a) else
  if negb (ok (f_sched f)) then (f_sched f, a) else
  if negb (ok (f_current f)) then (f_current f, a) else
  let '(e, fib, ys, log) := wait_loop WAIT_WRITE (f_fiber f) (a_ys a) (a_wfib a) (a_log a) in
  (e, Async (a_type a) (a_k a) (a_rfib a) fib ys log).

Definition set_k (a : async) (k : kern) : async :=
  Async (a_type a) k (a_rfib a) (a_wfib a) (a_ys a) (a_log a).

(** psock_wrap_async_read.c:70-113; [got] are the bytes stored so far, [*size] is
    their number; [n] is [read_size]. *)
Fixpoint async_read_loop (fuel : nat) (f : fenv) (block : bool) (a : async) (got : list Z) (n : nat)
  : option (rres async) :=
  match fuel with
  | O => None
  | S fuel' =>
      if (n =? 0)%nat then Some (RRes STATUS_SUCCESS (length got) got a) else
      let r := fd_read (a_k a) n in
      let a1 := set_k a (rr_sock r) in
      if (ERROR_PSOCK_READ_WOULD_BLOCK =? rr_status r) && block then
        let '(e, a2) := read_block f a1 in
        if negb (ok e) then Some (RRes e (length got) got a2)
        else async_read_loop fuel' f block a2 got n
      else if (ERROR_PSOCK_READ_WOULD_BLOCK =? rr_status r) && negb block then
        if (0 <? length got)%nat then Some (RRes STATUS_SUCCESS (length got) got a1)
        else Some (RRes (rr_status r) (length got) got a1)
      else if negb (ok (rr_status r)) then Some (RRes (rr_status r) (length got) got a1)
      else if (rr_size r =? 0)%nat then Some (RRes ERROR_PSOCK_READ_EOF (length got) got a1)
      else async_read_loop fuel' f block a1 (got ++ rr_data r) (n - rr_size r)
  end.

(** psock_wrap_async_read.c:38-116.  [vst] is what resource_vtable_read says of the
    wrapped socket. *)
Definition async_read (f : fenv) (vst : Z) (a : async) (n : nat) (block : bool) : option (rres async) :=
  if negb (ok vst) then Some (RRes vst n [] a)
  else async_read_loop (S (length (k_rs (a_k a)) + n)) f block a [] n.

(** psock_wrap_async_write.c:68-103; [d] are the bytes not yet handed over, [total]
    is [*size]. *)
Fixpoint async_write_loop (fuel : nat) (f : fenv) (a : async) (total : nat) (d : list Z) : option (wres async) :=
  match fuel with
  | O => None
  | S fuel' =>
      match d with
      | [] => Some (WRes STATUS_SUCCESS total a)
      | _ =>
        let r := fd_write (a_k a) d in
        let a1 := set_k a (wr_sock r) in
        if ERROR_PSOCK_WRITE_WOULD_BLOCK =? wr_status r then
          let '(e, a2) := write_block f a1 in
          if negb (ok e) then Some (WRes e total a2)
          else async_write_loop fuel' f a2 total d
        else if negb (ok (wr_status r)) then Some (WRes (wr_status r) (total - length d) a1)
        else if (wr_size r =? 0)%nat then Some (WRes ERROR_PSOCK_WRITE_EOF total a1)
        else async_write_loop fuel' f a1 total (skipn (wr_size r) d)
      end
  end.

(** psock_wrap_async_write.c:39-106 *)
Definition async_write (f : fenv) (vst : Z) (a : async) (d : list Z) : option (wres async) :=
  if negb (ok vst) then Some (WRes vst (length d) a)
  else async_write_loop (S (length (k_ws (a_k a)) + length d)) f a (length d) d.

(** The methods of an asynchronous socket (psock_create_wrap_async.c:36-46); the
    state is [None] if a loop exceeded its bound. *)
Definition async_ops (f : fenv) : sock_ops (option async) :=
  {| op_vtable := STATUS_SUCCESS;
     op_read := fun s n block =>
       match s with
       | Some a => match async_read f STATUS_SUCCESS a n block with
                   | Some r => RRes (rr_status r) (rr_size r) (rr_data r) (Some (rr_sock r))
                   | None => RRes STATUS_SUCCESS 0 [] None
                   end
       | None => RRes STATUS_SUCCESS 0 [] None
       end;
     op_write := fun s d =>
       match s with
       | Some a => match async_write f STATUS_SUCCESS a d with
                   | Some w => WRes (wr_status w) (wr_size w) (Some (wr_sock w))
                   | None => WRes STATUS_SUCCESS 0 None
                   end
       | None => WRes STATUS_SUCCESS 0 None
       end |}.

(** ** Accept, sendmsg, recvmsg *)
(** The retry loop: [rs] are the (return value, errno) pairs of the successive
    system calls; [None]: still blocked when the script ends. *)
Fixpoint retry {A} (call : Z -> Z -> Z * A) (wb : Z) (blk : fenv -> async -> Z * async)
  (f : fenv) (a : async) (rs : list (Z * Z)) : option (Z * option A * async) :=
  match rs with
  | [] => None
  | (ret, errno) :: t =>
      let '(e, out) := call ret errno in
      if wb =? e then
        let '(be, a1) := blk f a in
        if negb (ok be) then Some (be, None, a1) else retry call wb blk f a1 t
      else Some (e, Some out, a)
  end.

(** psock_wrap_async_accept.c:41-105; [vst] as above, [def] whether the wrapped
    vtable has the method.  Returns status, [*idesc] if written, the wrapper. *)
Definition async_accept (f : fenv) (vst : Z) (def : bool) (a : async) (rs : list (Z * Z))
  : option (Z * option Z * async) :=
  if negb (ok vst) then Some (vst, None, a) else
  if negb def then Some (ERROR_PSOCK_METHOD_UNDEFINED, None, a) else
  match retry fd_accept ERROR_PSOCK_ACCEPT_WOULD_BLOCK read_block f a rs with
  | Some (e, Some o, a') => Some (e, o, a')
  | Some (e, None, a') => Some (e, None, a')
  | None => None
  end.

(** psock_wrap_async_sendmsg.c:34-90 *)
Definition async_sendmsg (f : fenv) (vst : Z) (def : bool) (a : async) (rs : list (Z * Z))
  : option (Z * async) :=
  if negb (ok vst) then Some (vst, a) else
  if negb def then Some (ERROR_PSOCK_METHOD_UNDEFINED, a) else
  match retry (fun r e => (fd_sendmsg r e, tt)) ERROR_PSOCK_WRITE_WOULD_BLOCK write_block f a rs with
  | Some (e, _, a') => Some (e, a')
  | None => None
  end.

(** psock_wrap_async_recvmsg.c:35-91: status, [*len] if written, the wrapper. *)
Definition async_recvmsg (f : fenv) (vst : Z) (def : bool) (a : async) (rs : list (Z * Z))
  : option (Z * option Z * async) :=
  if negb (ok vst) then Some (vst, None, a) else
  if negb def then Some (ERROR_PSOCK_METHOD_UNDEFINED, None, a) else
  match retry fd_recvmsg ERROR_PSOCK_READ_WOULD_BLOCK read_block f a rs with
  | Some (e, Some o, a') => Some (e, o, a')
  | Some (e, None, a') => Some (e, None, a')
  | None => None
  end.
