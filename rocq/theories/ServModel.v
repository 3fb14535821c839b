(** Model of the echo server's fibers and of how a signal ends it,
    examples/echo_server/src/main.c, over the scheduler of SchedModel and the waits of IoModel.

    A step is one fiber running up to and through its next call of the library, or the signal
    thread sending a message.  What the kernel answers to reads, writes and accepts is the
    step's argument; bytes are not modelled here (EchoModel), nor is running out of memory, nor
    what descriptors refer to (DispModel).  A write that was done in parts is one answer, and a
    message on the signal socket arrives whole. *)
From Verif Require Import Base Status MemModel Heap TabModel SchedModel SchedSpec IoModel IoSpec.

(** The addresses of the main fiber, the manager, the listener and the idle fiber, of the
    discipline for I/O, and of the signal socket with its descriptor. *)
Record conf := Conf { c_main : Z; c_mgr : Z; c_lis : Z; c_idle : Z; c_disc : Z; c_sig : Z; c_sigfd : Z }.
(** main.c:68-72 *)
Inductive msg := Quiesce | Terminate.
(** The signal thread, main.c:965-1004: in sigwait; asleep after its first message; ended. *)
Inductive thr := TWait | TSleep | TEnd.
(** Where a fiber is that does not run: not started; in the yield of a wait to read or write, of a
    request to all fibers, of adding a fiber, of receiving a management event, of idling. *)
Inductive susp := UStart | UWait (wr : bool) | UReq (term : bool) | UAdd | URecv | UIdle.
(** Where the running fiber is: about to read (the main fiber from the signal thread, the listener
    to accept); to write; to block; back from a yield in a wait, which resumed it with a
    discipline and an event; the listener about to open its socket, to make a fiber for the
    descriptor [fd] and the socket [s], to wrap the socket, to add the fiber; the manager about to
    receive an event, with an event, to release a fiber; the idle fiber about to ask the kernel, to
    yield, to end; about to close its socket; to return; the main fiber behind its loop with a
    status, main.c:231-278, which is not modelled further. *)
Inductive stage := PRead | PWrite | PBlock (wr : bool) | PBack (wr : bool) (d ev : Z)
| POpen | PMake (fd s f : Z) | PWrap (fd s f : Z) | PAdd (f : Z)
| PReceive | PEvent (d ev p : Z) | PFree (f : Z)
| PRound | PIdle | PUnidle | PClose | PReturn | PLeft (e : Z).
(** What the fibers have besides: their sockets, by fiber; listen_context.quiesce; the signal
    thread and its messages on the way. *)
Record serv := Serv { v_cur : Z; v_stage : stage; v_sus : heap susp; v_socks : heap Z; v_quiesce : bool; v_thr : thr; v_chan : list msg }.
Definition at_stage (p : stage) (v : serv) : serv := Serv (v_cur v) p (v_sus v) (v_socks v) (v_quiesce v) (v_thr v) (v_chan v).
Definition with_sock (f s : Z) (v : serv) : serv := Serv (v_cur v) (v_stage v) (v_sus v) (hadd (v_socks v) f s) (v_quiesce v) (v_thr v) (v_chan v).
Definition no_sock (f : Z) (v : serv) : serv := Serv (v_cur v) (v_stage v) (v_sus v) (hdel (v_socks v) f) (v_quiesce v) (v_thr v) (v_chan v).
Definition quiesced (v : serv) : serv := Serv (v_cur v) (v_stage v) (v_sus v) (v_socks v) true (v_thr v) (v_chan v).
Definition with_chan (t : thr) (l : list msg) (v : serv) : serv := Serv (v_cur v) (v_stage v) (v_sus v) (v_socks v) (v_quiesce v) t l.
Definition suspended (f : Z) (q : susp) (v : serv) : serv := Serv (v_cur v) (v_stage v) (hadd (v_sus v) f q) (v_socks v) (v_quiesce v) (v_thr v) (v_chan v).

(** The kernel's answers: it would block; done; an error or the end of the stream; a connection
    [fd], with the addresses that malloc gives to its socket and its fiber. *)
Inductive answer := Again | Done | Gone | Conn (fd s f : Z).
(** What makes the server take a step: nothing but its code; an answer; the socket on which it
    listens, opened as [fd] at the address [s]; the answers [ans q] to epoll_wait(2); the signal
    thread. *)
Inductive input := XCode | XAnswer (r : answer) | XOpen (fd s : Z) | XRound (q : Z) | XThread.

(** How a fiber goes on that a yield resumed: the starts of the entry functions, main.c:566,
    1032-1035, 1140, epoll/psock_idle_fiber_entry.c:42; the ends of the yields,
    disciplined_fiber_scheduler_send_quiesce_request_to_all.c:65-75 with main.c:205-222,
    psock_read_block.c:104-136, epoll/psock_idle_fiber_entry.c:180-184 *)
Definition wake (c : conf) (f : Z) (q : susp) (d ev p : Z) : stage :=
  match q with
  | UStart => if f =? c_mgr c then PReceive else if f =? c_lis c then POpen else if f =? c_idle c then PRound else PRead
  | UWait wr => PBack wr d ev
  | UReq term => let e := request_result d ev p in if negb (ok e) then PLeft e else if term then PLeft STATUS_SUCCESS else PRead
  | UAdd => PRead
  | URecv => PEvent d ev p
  | UIdle => PRound
  end.
(** A call that switched: the fiber that it resumed runs. *)
Definition resumed (c : conf) (o : out) (v : serv) : option serv :=
  let '(_, (f, d, ev, p)) := o in
  do q <- hget (v_sus v) f;
  Some (Serv f (wake c f q d ev p) (hdel (v_sus v) f) (v_socks v) (v_quiesce v) (v_thr v) (v_chan v)).
(** The running fiber yields, to be found at [q]; if the call fails it is at [p]. *)
Definition yields (c : conf) (q : susp) (p : Z -> stage) (o : out) (v : serv) : option serv :=
  if negb (ok (fst o)) then Some (at_stage (p (fst o)) v) else resumed c o (suspended (v_cur v) q v).
(** When a blocking call failed: main.c:196, 1066-1070, 1146-1165 *)
Definition failed (c : conf) (f e : Z) : stage := if f =? c_main c then PLeft e else PClose.
(** listen_fiber_unexpected_handler, main.c:791-819; a fiber without handler gets
    ERROR_FIBER_NO_UNEXPECTED_HANDLER (EventModel), which are all but the listener. *)
Definition unexpected (c : conf) (f d ev : Z) : Z :=
  if f =? c_lis c then (if (d =? MANAGEMENT_ID) && (ev =? MGMT_QUIESCE) then STATUS_SUCCESS else ERROR_FIBER_INVALID_STATE)
  else ERROR_FIBER_NO_UNEXPECTED_HANDLER.

(** What the server does in a step: something of its own, or a call and what follows it.  [None]:
    the step cannot be taken now, or is not modelled. *)
Inductive doing := Own (v : serv) | Call (p : sop) (k : out -> option serv).
Definition decide (c : conf) (x : input) (v : serv) : option doing :=
  let f := v_cur v in
  let io p := isop (c_disc c) p in
  let goes p k := Some (Call p k) in
  match v_stage v, x with
  (* signal_thread_entry, main.c:976-1003 *)
  | _, XThread =>
      match v_thr v with
      | TWait => Some (Own (with_chan TSleep (v_chan v ++ [Quiesce]) v))
      | TSleep => Some (Own (with_chan TEnd (v_chan v ++ [Terminate]) v))
      | TEnd => None
      end
  (* main.c:190-225 *)
  | PRead, XCode =>
      if negb (f =? c_main c) then None else
      match v_chan v with
      | [] => Some (Own (at_stage (PBlock false) v))
      | m :: t =>
          let term := match m with Quiesce => false | Terminate => true end in
          goes (SRequestAll term) (fun o => yields c (UReq term) PLeft o (with_chan (v_thr v) t v))
      end
  (* the listener, main.c:1061-1091; dispatch, main.c:304-354 where it succeeds *)
  | PRead, XAnswer r =>
      if f =? c_main c then None else
      if f =? c_lis c then
        match r with
        | Again => Some (Own (at_stage (PBlock false) v))
        | Gone => Some (Own (at_stage PClose v))
        | Conn fd s g => Some (Own (if v_quiesce v then v else at_stage (PMake fd s g) v))
        | Done => None
        end
      (* echo_entry, main.c:1140-1159 *)
      else
        match r with
        | Again => Some (Own (at_stage (PBlock false) v))
        | Done => Some (Own (at_stage PWrite v))
        | Gone => Some (Own (at_stage PClose v))
        | Conn _ _ _ => None
        end
  | PWrite, XAnswer r =>
      match r with
      | Again => Some (Own (at_stage (PBlock true) v))
      | Done => Some (Own (at_stage PRead v))
      | Gone => Some (Own (at_stage PClose v))
      | Conn _ _ _ => None
      end
  | PMake fd s g, XCode => goes (SNew g) (fun o => Some (at_stage (PWrap fd s g) v))
  | PWrap fd s g, XCode => goes (io (ISocket fd s)) (fun o => Some (at_stage (PAdd g) (with_sock g s v)))
  | PAdd g, XCode => goes (SAdd g) (fun o => if negb (ok (fst o)) then None else yields c UAdd PLeft o (suspended g UStart v))
  (* psock_read_block.c:83-136, psock_write_block.c:80-133 *)
  | PBlock wr, XCode => do s <- hget (v_socks v) f; goes (io (IWait wr s)) (fun o => yields c (UWait wr) (failed c f) o v)
  | PBack wr d ev, XCode =>
      do s <- hget (v_socks v) f;
      goes (io (IBack wr s)) (fun o =>
        Some (match block_result d (unexpected c f d ev) with
              | Some e => at_stage (if negb (ok e) then failed c f e else if wr then PWrite else PRead) v
              | None => at_stage (PBlock wr) (quiesced v)
              end))
  (* main.c:1034-1052 *)
  | POpen, XOpen fd s => goes (io (ISocket fd s)) (fun o => Some (at_stage PRead (with_sock f s v)))
  | POpen, XAnswer Gone => Some (Own (at_stage PReturn v))
  (* fiber_manager_entry, main.c:566-640 *)
  | PReceive, XCode => goes SReceive (fun o => yields c URecv (fun _ => PReturn) o v)
  | PEvent d ev p, XCode =>
      if (d =? MANAGEMENT_ID) && (ev =? MGMT_FIBER_STOP)
      then goes (SRemove p) (fun o => Some (at_stage (if negb (ok (fst o)) then PReceive else PFree p) v))
      else Some (Own (at_stage PReceive v))
  | PFree g, XCode => goes (SFree g) (fun o => Some (at_stage PReceive v))
  (* epoll/psock_idle_fiber_entry.c:42-200 *)
  | PRound, XRound q => goes (io (IRound q)) (fun o => Some (at_stage (if negb (ok (fst o)) then PUnidle else PIdle) v))
  | PIdle, XCode => goes SRun (fun o => yields c UIdle (fun _ => PUnidle) o v)
  | PUnidle, XCode => goes (SIdle 0) (fun o => Some (at_stage PReturn v))
  (* main.c:1094-1119, 1165-1171, then the return from the entry function, fiber_entry.c:35-46 *)
  | PClose, XCode => do s <- hget (v_socks v) f; goes (io (IRelease s)) (fun o => Some (at_stage PReturn (no_sock f v)))
  | PReturn, XCode => goes SStop (fun o => if negb (ok (fst o)) then None else resumed c o v)
  | _, _ => None
  end.
(** A step, with the library's calls [ex] on its state. *)
Definition step {W} (ex : sop -> W -> option (out * W)) (c : conf) (x : input) (s : serv * W) : option (serv * W) :=
  do a <- decide c x (fst s);
  match a with
  | Own v => Some (v, snd s)
  | Call p k => do '(o, w) <- ex p (snd s); do v <- k o; Some (v, w)
  end.
Fixpoint steps {W} (ex : sop -> W -> option (out * W)) (c : conf) (xs : list input) (s : serv * W) : option (serv * W) :=
  match xs with [] => Some s | x :: t => do s <- step ex c x s; steps ex c t s end.

(** The start of main, main.c:125-186 with management_fiber_add (500-523), listen_fiber_add
    (654-712) and psock_create_wrap_async.c:291-333, where it succeeds: the calls, the adding of
    the manager and the listener both coming back at once. *)
Definition startup (c : conf) (junk : list Z) : list sop :=
  [SNew (c_mgr c); SAdd (c_mgr c); SNew (c_lis c); SAdd (c_lis c)] ++ io_setup junk (c_disc c) ++
  [SNew (c_idle c); SIdle (c_idle c); isop (c_disc c) (ISocket (c_sigfd c) (c_sig c))].
Definition serving (c : conf) : serv :=
  Serv (c_main c) PRead [(c_mgr c, UStart); (c_lis c, UStart); (c_idle c, UStart)] [(c_main c, c_sig c)] false TWait [].
(** The library's calls: the scheduler with the discipline for I/O. *)
Definition lib (ans : Z -> list kans) : acts (iost ep * unit) := io_acts epoll_plat ans (fun _ _ _ _ => HUndef).
