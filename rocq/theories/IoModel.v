(** Model of src/psock/platform/{poll,epoll} and of the waits of
    src/psock/psock_{read,write}_block.c: fibers wait until a descriptor is ready, as code
    of a discipline (SchedModel.v).
    - Between two switches of fibers code runs without interruption, so what a wait does
      before its yield and the handler of this yield are one program here.
    - The kernel's answers to the idle fiber are an argument, [ans]. *)
From Verif Require Import Base Status MemModel Heap TabModel SchedModel MsgModel.

(** psock_io_discipline_definitions.c:12-14 *)
Definition IO_ID : Z := 0xca99ebf9eb5b4909baacb85d36e85d8c.
(** include/rcpr/fiber/disciplines/psock_io.h:28-58 *)
Definition IY_WAIT_READ : Z := 0.
Definition IY_WAIT_WRITE : Z := 1.
Definition IR_READ : Z := 0.
Definition IR_WRITE : Z := 1.
Definition IO_FLAG_ERROR : Z := 1.
Definition IO_FLAG_EOF : Z := 2.
(** The addresses of the code below and of the context. *)
Definition IO_CTX : Z := 400.
Definition FN_IO_READ : Z := 401.
Definition FN_IO_WRITE : Z := 402.
Definition FN_IO_READ_BACK : Z := 403.
Definition FN_IO_WRITE_BACK : Z := 404.
Definition FN_IO_ROUND : Z := 405.
Definition FN_IO_SOCKET : Z := 406.
Definition FN_IO_RELEASE : Z := 407.

(** Linux: poll.h and sys/epoll.h have the same values for these. *)
Definition IN : Z := 0x1.
Definition OUT : Z := 0x4.
Definition ERR : Z := 0x8.
Definition HUP : Z := 0x10.
Definition NVAL : Z := 0x20.
Definition RDHUP : Z := 0x2000.
Definition ONESHOT : Z := 0x40000000.
(** Linux errnos *)
Definition ENOENT : Z := 2.
Definition EINTR : Z := 4.
Definition EEXIST : Z := 17.
(** [if (m & b)] *)
Definition has (m b : Z) : bool := negb (Z.land m b =? 0).

(** psock_internal.h:76-85: a psock_wrap_async by its descriptor, read_block_fib and
    write_block_fib *)
Record wsock := WS { ws_fd : Z; ws_r : Z; ws_w : Z }.
Definition ws_fib (wr : bool) (b : wsock) : Z := if wr then ws_w b else ws_r b.
Definition ws_set (wr : bool) (f : Z) (b : wsock) : wsock := if wr then WS (ws_fd b) (ws_r b) f else WS (ws_fd b) f (ws_w b).
(** The live sockets by their address, and the context of the discipline. *)
Record iost (K : Type) := IO { io_socks : heap wsock; io_k : K }.
Arguments IO {K}. Arguments io_socks {K}. Arguments io_k {K}.
Definition set_sock {K} (s : Z) (b : wsock) (m : iost K) : iost K := IO (hset (io_socks m) s b) (io_k m).
Definition set_k {K} (k : K) (m : iost K) : iost K := IO (io_socks m) k.

(** One program, then another that gets its status. *)
Fixpoint hseq {U} (c : hprog U) (k : Z -> hprog U) : hprog U :=
  match c with
  | HRet e => k e
  | HReady b x c => HReady b x (fun e => hseq (c e) k)
  | HMalloc c => HMalloc (fun e => hseq (c e) k)
  | HFree c => HFree (fun e => hseq (c e) k)
  | HLoad c => HLoad (fun u => hseq (c u) k)
  | HStore u c => HStore u (hseq c k)
  | HUndef => HUndef
  end.

(** psock_read_block.c:83-112, psock_write_block.c:80-109: the loop up to the yield, the
    handler [wait] of the yield, and the way out if the yield fails in it *)
Definition block {K} (wait : bool -> Z -> Z -> hprog (iost K)) (wr : bool) (cx yf s : Z) : hprog (iost K) :=
  if negb (cx =? IO_CTX) then HUndef else
  HLoad (fun m => need (hget (io_socks m) s) (fun b =>
  if negb (ws_fib wr b =? 0) then HRet ERROR_PSOCK_DOUBLE_BLOCK_UNSUPPORTED else
  HStore (set_sock s (ws_set wr yf b) m)
  (hseq (wait wr yf s) (fun e => if ok e then HRet e else
   HLoad (fun m => need (hget (io_socks m) s) (fun b => HStore (set_sock s (ws_set wr 0 b) m) (HRet e))))))).
(** psock_read_block.c:104-106, psock_write_block.c:101-103: the fiber goes on *)
Definition back {K} (wr : bool) (s : Z) : hprog (iost K) :=
  HLoad (fun m => need (hget (io_socks m) s) (fun b => HStore (set_sock s (ws_set wr 0 b) m) (HRet STATUS_SUCCESS))).
(** What these loops do with the discipline that resumed the fiber and the status of
    fiber_unexpected_event (psock_read_block.c:116-136): [None] to wait again, else the
    status. *)
Definition block_result (id unexpected : Z) : option Z :=
  if id =? IO_ID then Some STATUS_SUCCESS else if ok unexpected then None else Some unexpected.
(** psock_create_wrap_async.c:109-224 where it succeeds: a wrapper at address [s] of the
    descriptor [fd] *)
Definition new_sock {K} (fd s : Z) : hprog (iost K) :=
  HLoad (fun m => if (s =? 0) || zmem s (addrs (io_socks m)) then HUndef else HStore (IO (hadd (io_socks m) s (WS fd 0 0)) (io_k m)) (HRet STATUS_SUCCESS)).

(** What poll(2) or epoll_wait(2) answers: an errno, or for some descriptors what they
    are ready for. *)
Inductive kans := KErr (errno : Z) | KReady (r : list (Z * Z)).

(** ** poll *)
Record pent := PE { pe_fd : Z; pe_events : Z; pe_revents : Z; pe_fib : Z }.
(** psock_poll_internal.h:29-42; the two arrays are one list up to poll_curr *)
Record pst := PS { p_max : Z; p_list : list pent }.
(** psock_poll_internal.h:25 *)
Definition POLL_EVENT_SIZE_INCREMENT : Z := 1024.
(** poll/psock_fiber_scheduler_disciplined_read_wait_callback_handler.c:32-95 and
    poll/psock_fiber_scheduler_disciplined_write_wait_callback_handler.c:32-95.  poll_max
    stays below 2^64. *)
Definition poll_wait (wr : bool) (yf s : Z) : hprog (iost pst) :=
  HLoad (fun m => need (hget (io_socks m) s) (fun b =>
  let x := PE (ws_fd b) (if wr then OUT else IN) 0 yf in
  let add n := HStore (set_k (PS n (p_list (io_k m) ++ [x])) m) (HRet STATUS_SUCCESS) in
  if Z.of_nat (length (p_list (io_k m))) =? p_max (io_k m) then
    HMalloc (fun e => if negb (ok e) then HRet e else
    HMalloc (fun e => if negb (ok e) then HRet e else
    add (p_max (io_k m) + POLL_EVENT_SIZE_INCREMENT)))
  else add (p_max (io_k m)))).
(** What a descriptor is ready for. *)
Definition ready_for (r : list (Z * Z)) (fd : Z) : Z := match find (fun x => fst x =? fd) r with Some x => snd x | None => 0 end.
(** poll(2): an entry's revents are what it asks for, and failures *)
Definition polled (r : list (Z * Z)) (x : pent) : pent :=
  PE (pe_fd x) (pe_events x) (Z.land (ready_for r (pe_fd x)) (Z.lor (pe_events x) (Z.lor ERR (Z.lor HUP NVAL)))) (pe_fib x).
(** poll/psock_idle_fiber_entry.c:53-82 *)
Definition poll_event (x : pent) : Z :=
  if has (pe_revents x) IN then IR_READ
  else if has (pe_revents x) OUT then IR_WRITE
  else if has (pe_revents x) HUP then (if has (pe_events x) IN then IR_READ else IR_WRITE)
  else -1.
(** poll/psock_idle_fiber_entry.c:85-94 *)
Definition poll_param (x : pent) : Z :=
  Z.lor (if has (pe_revents x) ERR then IO_FLAG_ERROR else 0) (if has (pe_revents x) HUP then IO_FLAG_EOF else 0).
(** poll/psock_idle_fiber_entry.c:50-125; [kept] are the entries moved to the front so
    far, [l] those to come.  If a fiber cannot be made ready poll_curr is not changed. *)
Fixpoint poll_serve (kept l : list pent) : hprog (iost pst) :=
  match l with
  | [] => HLoad (fun m => HStore (set_k (PS (p_max (io_k m)) kept) m) (HRet STATUS_SUCCESS))
  | x :: l =>
      if negb (poll_event x =? -1) then
        HReady false (pe_fib x, (IO_ID, poll_event x, poll_param x)) (fun e => if negb (ok e) then
          HLoad (fun m => HStore (set_k (PS (p_max (io_k m)) (kept ++ skipn (length kept) (p_list (io_k m)))) m) (HRet e))
        else poll_serve kept l)
      else poll_serve (kept ++ [x]) l
  end.
(** poll/psock_idle_fiber_entry.c:42-125: one round of the idle fiber.  If it succeeds
    the idle fiber yields, else it ends, and is no longer the idle fiber
    (poll/psock_idle_fiber_entry.c:128-145). *)
Definition poll_round (l : list kans) : hprog (iost pst) :=
  match l with
  | [] => HUndef
  | KErr _ :: _ => HRet ERROR_PSOCK_POLL_FAILED
  | KReady r :: _ =>
      HLoad (fun m => let l := map (polled r) (p_list (io_k m)) in HStore (set_k (PS (p_max (io_k m)) l) m) (poll_serve [] l))
  end.
(** psock_create_wrap_async.c:235-263: closing the descriptor does nothing to the arrays *)
Definition poll_release (s : Z) : hprog (iost pst) :=
  HLoad (fun m => need (hget (io_socks m) s) (fun _ => HStore (IO (hdel (io_socks m) s) (io_k m)) (HRet STATUS_SUCCESS))).

(** ** epoll *)
(** An entry of the kernel's interest list: events asked for, the pointer, and whether it
    is enabled. *)
Record interest := It { it_ev : Z; it_ptr : Z; it_on : bool }.
(** The interest list by descriptor, and errnos with which calls of epoll_ctl(2) fail: 0
    if the call goes on, as do those past the end. *)
Record ep := EP { ep_set : heap interest; ep_ctl : list Z }.
(** epoll_ctl(2): errno, or 0 *)
Definition epoll_ctl (add : bool) (fd : Z) (i : interest) (k : ep) : Z * ep :=
  let e := hd 0 (ep_ctl k) in let t := tl (ep_ctl k) in
  if negb (e =? 0) then (e, EP (ep_set k) t) else
  match hget (ep_set k) fd with
  | Some _ => if add then (EEXIST, EP (ep_set k) t) else (0, EP (hset (ep_set k) fd i) t)
  | None => if add then (0, EP (hadd (ep_set k) fd i) t) else (ENOENT, EP (ep_set k) t)
  end.
(** epoll/psock_fiber_scheduler_disciplined_read_wait_callback_handler.c:52-76, and
    epoll/psock_idle_fiber_entry.c:70-71, 149-175 *)
Definition arm (s : Z) (b : wsock) (k : ep) : Z * ep :=
  let ev := Z.lor ONESHOT (Z.lor (if negb (ws_r b =? 0) then IN else 0) (if negb (ws_w b =? 0) then OUT else 0)) in
  let '(e, k) := epoll_ctl false (ws_fd b) (It ev s true) k in
  if e =? ENOENT then epoll_ctl true (ws_fd b) (It ev s true) k else (e, k).
(** epoll/psock_fiber_scheduler_disciplined_read_wait_callback_handler.c:31-86 and
    epoll/psock_fiber_scheduler_disciplined_write_wait_callback_handler.c:31-86 *)
Definition epoll_block (wr : bool) (yf s : Z) : hprog (iost ep) :=
  HLoad (fun m => need (hget (io_socks m) s) (fun b =>
  let '(e, k) := arm s b (io_k m) in
  HStore (set_k k m) (HRet (if negb (e =? 0) then ERROR_PSOCK_EPOLL_CTL_FAILED else STATUS_SUCCESS)))).
(** psock_epoll_internal.h:25 *)
Definition MAX_EPOLL_OUTPUTS : Z := 1024.
(** epoll_wait(2): up to [n] of the enabled descriptors that are ready for what is asked
    for or fail; with ONESHOT they are then disabled.  Events and pointer of each. *)
Fixpoint epoll_outputs (n : nat) (r : list (Z * Z)) (s : heap interest) : list (Z * Z) * heap interest :=
  match n, r with
  | S n, (fd, m) :: r =>
      match hget s fd with
      | Some i =>
          let ev := Z.land m (Z.lor (Z.ldiff (it_ev i) ONESHOT) (Z.lor ERR HUP)) in
          if it_on i && negb (ev =? 0) then
            let '(l, s) := epoll_outputs n r (hset s fd (It (it_ev i) (it_ptr i) (negb (has (it_ev i) ONESHOT)))) in ((ev, it_ptr i) :: l, s)
          else epoll_outputs (S n) r s
      | None => epoll_outputs (S n) r s
      end
  | _, _ => ([], s)
  end.
(** epoll/psock_idle_fiber_entry.c:76-92, 112-128 *)
Definition epoll_param (wr : bool) (filter : Z) : Z :=
  Z.lor (if has filter ERR then IO_FLAG_ERROR else 0) (if has filter HUP || negb wr && has filter RDHUP then IO_FLAG_EOF else 0).
(** epoll/psock_idle_fiber_entry.c:74-107, 110-143 *)
Definition epoll_wake (wr : bool) (filter ps : Z) (k : hprog (iost ep)) : hprog (iost ep) :=
  HLoad (fun m => need (hget (io_socks m) ps) (fun b =>
  if has filter (if wr then OUT else IN) && negb (ws_fib wr b =? 0) then
    HReady false (ws_fib wr b, (IO_ID, if wr then IR_WRITE else IR_READ, epoll_param wr filter)) (fun e => if negb (ok e) then HRet e else
    HLoad (fun m => HStore (set_sock ps (ws_set wr 0 b) m) k))
  else k)).
(** epoll/psock_idle_fiber_entry.c:61-177; the status of arming is dropped *)
Fixpoint epoll_serve (l : list (Z * Z)) : hprog (iost ep) :=
  match l with
  | [] => HRet STATUS_SUCCESS
  | (filter, ps) :: l =>
      epoll_wake false filter ps (epoll_wake true filter ps (
      HLoad (fun m => need (hget (io_socks m) ps) (fun b =>
      if negb (ws_r b =? 0) || negb (ws_w b =? 0)
      then HStore (set_k (snd (arm ps b (io_k m))) m) (epoll_serve l) else epoll_serve l))))
  end.
(** epoll/psock_idle_fiber_entry.c:46-177: one round of the idle fiber, after which it
    yields or ends as above *)
Fixpoint epoll_round (l : list kans) : hprog (iost ep) :=
  match l with
  | [] => HUndef
  | KErr e :: l => if e =? EINTR then epoll_round l else HRet ERROR_PSOCK_EPOLL_WAIT_FAILED
  | KReady r :: _ =>
      HLoad (fun m => let '(l, s) := epoll_outputs (Z.to_nat MAX_EPOLL_OUTPUTS) r (ep_set (io_k m)) in
      HStore (set_k (EP s (ep_ctl (io_k m))) m) (epoll_serve l))
  end.
(** psock_create_wrap_async.c:235-263: a closed descriptor leaves the interest list *)
Definition epoll_release (s : Z) : hprog (iost ep) :=
  HLoad (fun m => need (hget (io_socks m) s) (fun b =>
  HStore (IO (hdel (io_socks m) s) (EP (hdel (ep_set (io_k m)) (ws_fd b)) (ep_ctl (io_k m)))) (HRet STATUS_SUCCESS))).

(** ** Together with other disciplines *)
(** A platform: the handlers, the round of the idle fiber, and the release of a socket. *)
Record plat (K : Type) := Plat { pl_wait : bool -> Z -> Z -> hprog (iost K); pl_round : list kans -> hprog (iost K); pl_release : Z -> hprog (iost K) }.
Arguments Plat {K}. Arguments pl_wait {K}. Arguments pl_round {K}. Arguments pl_release {K}.
Definition poll_plat : plat pst := Plat poll_wait poll_round poll_release.
Definition epoll_plat : plat ep := Plat epoll_block epoll_round epoll_release.
Definition io_fn (fn : Z) : bool := (FN_IO_READ <=? fn) && (fn <=? FN_IO_RELEASE).
Definition io_acts {K V} (pl : plat K) (ans : Z -> list kans) (other : acts V) : acts (iost K * V) := fun fn cx yf p =>
  if negb (io_fn fn) then on_snd (other fn cx yf p) else on_fst (
  if fn =? FN_IO_READ then block (pl_wait pl) false cx yf p
  else if fn =? FN_IO_WRITE then block (pl_wait pl) true cx yf p
  else if fn =? FN_IO_READ_BACK then back false p
  else if fn =? FN_IO_WRITE_BACK then back true p
  else if fn =? FN_IO_ROUND then pl_round pl (ans p)
  else if fn =? FN_IO_SOCKET then new_sock cx p
  else pl_release pl p).
