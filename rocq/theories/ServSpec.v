(** Specification for C65: what the world around an echo server may do to it, and which of its
    states this leads to. *)
From Verif Require Import Base Status MemModel Heap TabModel SchedModel SchedSpec IoModel IoSpec ServModel.

(** What can be seen of the library: the ready fibers in order, the fibers, the sockets. *)
Record view := View { i_ready : list Z; i_fibs : list Z; i_socks : heap wsock }.
Definition seen {T} (w : sw T (iost ep * unit)) : view := View (w_rq w) (addrs (w_fibs w)) (io_socks (fst (w_user w))).
Definition fresh_sock (fd s : Z) (i : view) : Prop :=
  s <> 0 /\ ~ In s (addrs (i_socks i)) /\ forall t b, hget (i_socks i) t = Some b -> ws_fd b <> fd.
(** - Addresses from malloc and descriptors from the kernel are not in use.
    - epoll_wait(2) fails only with EINTR.
    - If [calm], then when the main fiber has a message to act on no other fiber is ready to run.
      C65_ready_refuted, C65_unserved_refuted and C65_left_open_refuted are about the other cases. *)
Definition allowed (calm : bool) (ans : Z -> list kans) (x : input) (v : serv) (i : view) : Prop :=
  match v_stage v, x with
  | PRead, XAnswer (Conn fd s f) => fresh_sock fd s i /\ f <> 0 /\ ~ In f (i_fibs i)
  | POpen, XOpen fd s => fresh_sock fd s i
  | PRead, XCode => calm = true -> v_chan v <> [] -> i_ready i = []
  | PRound, XRound q => exists r, settled Epoll (ans q) = Some (KReady r)
  | _, _ => True
  end.
(** Fibers are taken out of the scheduler's tree well: [Q] is asked of the tree (C30, C35). *)
Definition unlinks {T} (Q : T -> Z -> Prop) (x : input) (v : serv) (t : T) : Prop :=
  match v_stage v, x with PEvent _ _ p, XCode => Q t p | _, _ => True end.

(** The addresses of what main makes. *)
Definition good_conf (c : conf) : Prop :=
  NoDup [c_main c; c_mgr c; c_lis c; c_idle c; 0] /\ c_disc c <> 0 /\ c_disc c <> MGMT_DISC /\ c_sig c <> 0.
(** The states of the server: after the start of main, and from there by steps. *)
Inductive serves {T} (calm : bool) (ts : tops T) (Q : T -> Z -> Prop) (ans : Z -> list kans) (ctl : list Z) (c : conf) : serv * sw T (iost ep * unit) -> Prop :=
| begins : forall junk junk2 w0 os w, sched_create ts (ext_of (lib ans)) junk (epoll_none ctl, tt) (c_main c) = Some (STATUS_SUCCESS, w0) ->
    sexecs ts (lib ans) (startup c junk2) w0 = Some (os, w) -> serves calm ts Q ans ctl c (serving c, w)
| goes_on : forall x v w s', serves calm ts Q ans ctl c (v, w) -> allowed calm ans x v (seen w) -> unlinks Q x v (w_tab w) ->
    step (sexec ts (lib ans)) c x (v, w) = Some s' -> serves calm ts Q ans ctl c s'.

(** The main fiber has read the first message, and the second. *)
Definition read_first (v : serv) : Prop :=
  match v_thr v, v_chan v with TSleep, [] | TEnd, [_] | TEnd, [] => True | _, _ => False end.
Definition read_second (v : serv) : Prop := v_thr v = TEnd /\ v_chan v = [].
(** It is waiting for the answer to its request to all fibers. *)
Definition asking (c : conf) (v : serv) : Prop := exists t, hget (v_sus v) (c_main c) = Some (UReq t).
