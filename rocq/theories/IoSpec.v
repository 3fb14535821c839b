(** What waiting for a descriptor should do, said of a history of calls, their outcomes
    and what they made ready. *)
From Verif Require Import Base Status MemModel Heap TabModel SchedModel SchedSpec CondSpec IoModel.

(** ** Histories *)
Inductive iop :=
| ISocket (fd s : Z) | IRelease (s : Z)     (* a wrapper of a descriptor: made, released *)
| IWait (wr : bool) (s : Z)                 (* a read ([false]) or write that would block: wait *)
| IBack (wr : bool) (s : Z)                 (* the wait is over for the fiber that runs *)
| IRound (q : Z)                            (* the idle fiber asks the kernel; [ans q] is what it says *)
| IOther (p : sop).                         (* anything else *)
(** What a call does to the scheduler; [d] is the discipline. *)
Definition isop (d : Z) (p : iop) : sop :=
  match p with
  | ISocket fd s => SAct FN_IO_SOCKET fd s
  | IRelease s => SAct FN_IO_RELEASE 0 s
  | IWait wr s => SYield d (if wr then IY_WAIT_WRITE else IY_WAIT_READ) s
  | IBack wr s => SAct (if wr then FN_IO_WRITE_BACK else FN_IO_READ_BACK) 0 s
  | IRound q => SAct FN_IO_ROUND IO_CTX q
  | IOther p => p
  end.
(** The discipline is created and registered (psock_create_wrap_async.c:291-304,
    psock_fiber_scheduler_discipline_create.c). *)
Definition io_cbs : list Z := [FN_IO_READ; FN_IO_WRITE].
Definition io_setup (junk : list Z) (d : Z) : list sop := [SDisc junk d IO_ID IO_CTX io_cbs; SDiscAdd d].
(** {poll,epoll}/psock_fiber_scheduler_discipline_context_create.c *)
Definition poll_none : iost pst := IO [] (PS POLL_EVENT_SIZE_INCREMENT []).
Definition epoll_none (ctl : list Z) : iost ep := IO [] (EP [] ctl).

(** ** The specification *)
Inductive kind := Poll | Epoll.
(** A fiber, whether it waits to write, and for which socket. *)
Definition waiter : Type := Z * (bool * Z).
(** The sockets with their descriptors; the fibers that wait, the longest first; the fibers
    in a wait from which they did not return. *)
Record world := World { wo_socks : list (Z * Z); wo_wait : list waiter; wo_in : list waiter }.
Definition no_world : world := World [] [] [].
Inductive judgement := Good (c : Z) (l : world) | Bad | Open.
Definition judge (b : bool) (v : judgement) : judgement := if b then v else Bad.
Definition on_sock (wr : bool) (s : Z) (x : waiter) : bool := Bool.eqb (fst (snd x)) wr && (snd (snd x) =? s).
Definition by_fiber (c : Z) (x : waiter) : bool := fst x =? c.
Definition fd_of (socks : list (Z * Z)) (s : Z) : option Z := option_map snd (find (fun y => fst y =? s) socks).
(** What the kernel says of the descriptor a fiber waits for. *)
Definition said (r : list (Z * Z)) (socks : list (Z * Z)) (x : waiter) : Z :=
  match fd_of socks (snd (snd x)) with
  | Some fd => match find (fun y => fst y =? fd) r with Some y => snd y | None => 0 end
  | None => 0
  end.
(** It is ready for what the fiber waits for: bit 0 to read, bit 2 to write.  It failed or
    was hung up: bits 3, 4 and 5. *)
Definition ready_bit (wr : bool) (mask : Z) : bool := Z.testbit mask (if wr then 2 else 0).
Definition over (mask : Z) : bool := Z.testbit mask 3 || Z.testbit mask 4 || Z.testbit mask 5.
(** The fiber is resumed.  This is less than it should be: [over]. *)
Definition roused (kd : kind) (wr : bool) (mask : Z) : bool :=
  ready_bit wr mask || match kd with Poll => Z.testbit mask 4 | Epoll => false end.
Definition rousing (mask : Z) (x : waiter) : bool * entry :=
  (false, (fst x, (IO_ID, if fst (snd x) then IR_WRITE else IR_READ, (if Z.testbit mask 3 then IO_FLAG_ERROR else 0) + (if Z.testbit mask 4 then IO_FLAG_EOF else 0)))).
(** Poll goes through the waiting fibers, epoll through what the kernel says. *)
Definition due (kd : kind) (r : list (Z * Z)) (socks : list (Z * Z)) (wait : list waiter) : list (bool * entry) :=
  let roused_now x := roused kd (fst (snd x)) (said r socks x) in
  match kd with
  | Poll => map (fun x => rousing (said r socks x) x) (filter roused_now wait)
  | Epoll => flat_map (fun y => flat_map (fun wr => map (fun x => rousing (snd y) x)
      (filter (fun x => roused_now x && Bool.eqb (fst (snd x)) wr && match fd_of socks (snd (snd x)) with Some fd => fst y =? fd | None => false end) wait)) [false; true]) r
  end.
Fixpoint distinct (l : list Z) : bool := match l with [] => true | x :: l => negb (existsb (Z.eqb x) l) && distinct l end.
(** What the idle fiber gets: epoll goes on after a signal. *)
Fixpoint settled (kd : kind) (l : list kans) : option kans :=
  match l with
  | KErr e :: t => if match kd with Poll => false | Epoll => e =? EINTR end then settled kd t else Some (KErr e)
  | KReady r :: _ => Some (KReady r)
  | [] => None
  end.
Definition round_error (kd : kind) : Z := match kd with Poll => ERROR_PSOCK_POLL_FAILED | Epoll => ERROR_PSOCK_EPOLL_WAIT_FAILED end.
Definition plain (o : out) (e : Z) : bool :=
  let '(e', (f, d, ev, p)) := o in (e' =? e) && (f =? 0) && (d =? 0) && (ev =? 0) && (p =? 0).
(** [mem]: memory may run out; [sys]: calls of epoll_ctl(2) may fail.
    - A second fiber may not wait for the same: with poll until the first returns from its
      wait, with epoll while it waits.
    - With poll nothing is said of a fiber that returns from a wait that something else
      ended, with epoll of a fiber that returns from a wait when another waits for the
      same.
    - Nothing is said of a round in which a waiting fiber is not resumed although its
      descriptor failed or was hung up. *)
Definition io_step (kd : kind) (mem sys : bool) (ans : Z -> list kans) (d : Z) (p : iop) (o : out) (m : list (bool * entry)) (c : Z) (l : world) : judgement :=
  let quiet := made_is m [] in
  let within := existsb (by_fiber c) (wo_in l) in
  match p with
  | IBack wr s =>
      if negb (existsb (fun x => by_fiber c x && on_sock wr s x) (wo_in l)) then Open else
      let mine x := by_fiber c x && on_sock wr s x in
      let rest := filter (fun x => negb (mine x)) (wo_in l) in
      match kd with
      | Poll => if existsb (by_fiber c) (wo_wait l) then Open else judge (plain o STATUS_SUCCESS && quiet) (Good c (World (wo_socks l) (wo_wait l) rest))
      | Epoll =>
          if existsb (fun x => negb (by_fiber c x) && on_sock wr s x) (wo_wait l) then Open else
          judge (plain o STATUS_SUCCESS && quiet) (Good c (World (wo_socks l) (filter (fun x => negb (mine x)) (wo_wait l)) rest))
      end
  | _ => if within then Open else
  match p with
  | IBack _ _ => Open
  | IOther q => if foreign io_fn d q then Good (if moves q && ok (fst o) then runner o else c) l else Open
  | ISocket fd s => if existsb (fun y => snd y =? fd) (wo_socks l) then Open else judge (plain o STATUS_SUCCESS && quiet) (Good c (World ((s, fd) :: wo_socks l) (wo_wait l) (wo_in l)))
  | IRelease s => if existsb (fun x => snd (snd x) =? s) (wo_in l) then Open else
      judge (plain o STATUS_SUCCESS && quiet) (Good c (World (filter (fun y => negb (fst y =? s)) (wo_socks l)) (wo_wait l) (wo_in l)))
  | IWait wr s =>
      let busy := existsb (on_sock wr s) (match kd with Poll => wo_in l | Epoll => wo_wait l end) in
      if busy then judge (plain o ERROR_PSOCK_DOUBLE_BLOCK_UNSUPPORTED && quiet) (Good c l) else
      let waits := World (wo_socks l) (wo_wait l ++ [(c, (wr, s))]) (wo_in l ++ [(c, (wr, s))]) in
      if ok (fst o) then judge quiet (Good (runner o) waits) else
      if fst o =? ERROR_FIBER_SCHEDULER_EXHAUSTED then
        (match kd with Poll => if mem then Open else judge (plain o ERROR_FIBER_SCHEDULER_EXHAUSTED && quiet) (Good c waits)
                     | Epoll => judge (plain o ERROR_FIBER_SCHEDULER_EXHAUSTED && quiet) (Good c waits) end) else
      judge (plain o (fst o) && quiet && match kd with Poll => mem | Epoll => sys && (fst o =? ERROR_PSOCK_EPOLL_CTL_FAILED) end) (Good c l)
  | IRound q =>
      match settled kd (ans q) with
      | None => Open
      | Some (KErr _) => judge (plain o (round_error kd) && quiet) (Good c l)
      | Some (KReady r) =>
          if negb (distinct (map fst r)) || match kd with Poll => false | Epoll => MAX_EPOLL_OUTPUTS <? Z.of_nat (length r) end then Open else
          let awake x := roused kd (fst (snd x)) (said r (wo_socks l) x) in
          if existsb (fun x => negb (awake x) && over (said r (wo_socks l) x)) (wo_wait l) then Open else
          let ms := due kd r (wo_socks l) (wo_wait l) in
          if mem && negb (made_is m ms) then Open else
          if sys && existsb (fun x => negb (awake x) && negb (said r (wo_socks l) x =? 0)) (wo_wait l) then Open else
          judge (plain o STATUS_SUCCESS && made_is m ms) (Good c (World (wo_socks l) (filter (fun x => negb (awake x)) (wo_wait l)) (wo_in l)))
      end
  end end.
Fixpoint io_run (kd : kind) (mem sys : bool) (ans : Z -> list kans) (d : Z) (h : list iop) (os : list out) (ms : list (list (bool * entry))) (c : Z) (l : world) : judgement :=
  match h, os, ms with
  | [], _, _ => Good c l
  | p :: h, o :: os, m :: ms => match io_step kd mem sys ans d p o m c l with Good c l => io_run kd mem sys ans d h os ms c l | v => v end
  | _, _, _ => Bad
  end.
