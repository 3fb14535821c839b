(** Model of src/psock/platform/kqueue: fibers wait for a descriptor with kqueue(2), as a
    platform of IoModel.v.
    - The kernel's part of kevent(2) is modelled too, as FreeBSD's manual describes it: all
      changes are made, in order, before events are looked for; a change that fails is
      itself an output if there is room for it, and then no events are looked for; a signal
      (EINTR) leaves the changes made.
    - The kernel's answers to the idle fiber are an argument as in IoModel.v: what each
      descriptor is ready for, in the bits of poll(2).  A hang up (HUP, and RDHUP for what
      can be read) is the flag EV_EOF; a failed socket (ERR) is an event of both filters.
      A closed descriptor has no events, so NVAL says nothing. *)
From Verif Require Import Base Status MemModel Heap TabModel SchedModel MsgModel IoModel.

(** FreeBSD: sys/event.h *)
Definition EVFILT_READ : Z := -1.
Definition EVFILT_WRITE : Z := -2.
Definition EV_ADD : Z := 0x1.
Definition EV_ENABLE : Z := 0x4.
Definition EV_ONESHOT : Z := 0x10.
Definition EV_ERROR : Z := 0x4000.
Definition EV_EOF : Z := 0x8000.
Definition EBADF : Z := 9.
(** struct kevent: ident, filter, flags, udata *)
Record kevent := KV { kv_fd : Z; kv_filter : Z; kv_flags : Z; kv_udata : Z }.

(** psock_kqueue_internal.h:26-45: kevent_inputs up to inputs; the kernel's events that
    are registered; errnos with which changes fail: 0 if the change goes on, as do those
    past the end *)
Record kqst := KQ { kq_inputs : list kevent; kq_notes : list kevent; kq_ctl : list Z }.
(** psock_kqueue_internal.h:26-27 *)
Definition MAX_KEVENT_INPUTS : Z := 1024.
Definition MAX_KEVENT_OUTPUTS : Z := 1024.

(** ** kevent(2) *)
(** An event is registered by descriptor and filter. *)
Definition note_is (fd filter : Z) (x : kevent) : bool := (kv_fd x =? fd) && (kv_filter x =? filter).
Definition note_of (l : list kevent) (fd filter : Z) : option kevent := find (note_is fd filter) l.
Definition note_del (l : list kevent) (fd filter : Z) : list kevent := List.filter (fun x => negb (note_is fd filter x)) l.
(** One change: errno or 0, the events, the errnos to come.  EV_ADD adds the event or
    changes it; it is then enabled. *)
Definition kq_change (open : Z -> bool) (x : kevent) (l : list kevent) (ctl : list Z) : Z * list kevent * list Z :=
  let e := hd 0 ctl in let t := tl ctl in
  if negb (e =? 0) then (e, l, t) else
  if negb (open (kv_fd x)) then (EBADF, l, t) else
  match note_of l (kv_fd x) (kv_filter x) with
  | None => if has (kv_flags x) EV_ADD then (0, KV (kv_fd x) (kv_filter x) (Z.ldiff (kv_flags x) (Z.lor EV_ADD EV_ENABLE)) (kv_udata x) :: l, t) else (ENOENT, l, t)
  | Some _ => (0, KV (kv_fd x) (kv_filter x) (Z.ldiff (kv_flags x) (Z.lor EV_ADD EV_ENABLE)) (kv_udata x) :: note_del l (kv_fd x) (kv_filter x), t)
  end.
(** All changes; the outputs are those that failed.  [room] is false if there is no room
    for outputs: the call ends with the first failure.  There is room for all otherwise, as
    there are less inputs than MAX_KEVENT_OUTPUTS. *)
Fixpoint kq_changes (open : Z -> bool) (room : bool) (xs : list kevent) (l : list kevent) (ctl : list Z) : list kevent * list kevent * list Z :=
  match xs with
  | [] => ([], l, ctl)
  | x :: xs =>
      let '(e, l, ctl) := kq_change open x l ctl in
      if e =? 0 then kq_changes open room xs l ctl else
      let bad := KV (kv_fd x) (kv_filter x) EV_ERROR (kv_udata x) in
      if negb room then ([bad], l, ctl) else
      let '(f, l, ctl) := kq_changes open room xs l ctl in (bad :: f, l, ctl)
  end.
(** What makes an event of a filter, and when this is the end of file. *)
Definition kq_ready (filter mask : Z) : bool :=
  has mask ERR || has mask HUP || (if filter =? EVFILT_READ then has mask IN || has mask RDHUP else has mask OUT).
Definition kq_eof (filter mask : Z) : bool := has mask HUP || (filter =? EVFILT_READ) && has mask RDHUP.
(** Up to [n] events, for what is ready: descriptor, filter and mask. *)
Fixpoint kq_scan (n : nat) (r : list (Z * Z * Z)) (l : list kevent) : list kevent * list kevent :=
  match n, r with
  | S n', (fd, filter, mask) :: r =>
      match note_of l fd filter with
      | Some x =>
          if kq_ready filter mask then
            let '(o, l) := kq_scan n' r (if has (kv_flags x) EV_ONESHOT then note_del l fd filter else l) in
            (KV fd filter (Z.lor (kv_flags x) (if kq_eof filter mask then EV_EOF else 0)) (kv_udata x) :: o, l)
          else kq_scan n r l
      | None => kq_scan n r l
      end
  | _, _ => ([], l)
  end.
Definition kq_said (r : list (Z * Z)) : list (Z * Z * Z) :=
  flat_map (fun y => [(fst y, EVFILT_READ, snd y); (fst y, EVFILT_WRITE, snd y)]) r.
(** The descriptors that are open: those of the live sockets. *)
Definition kq_open {K} (m : iost K) (fd : Z) : bool := existsb (fun y => ws_fd (snd y) =? fd) (io_socks m).

(** ** The platform *)
(** psock_fiber_scheduler_disciplined_read_wait_callback_handler.c:31-78 and
    psock_fiber_scheduler_disciplined_write_wait_callback_handler.c:31-78.  The array has
    MAX_KEVENT_INPUTS entries: a write past its end is undefined. *)
Definition kq_wait (wr : bool) (yf s : Z) : hprog (iost kqst) :=
  HLoad (fun m => need (hget (io_socks m) s) (fun b =>
  let k := io_k m in
  if MAX_KEVENT_INPUTS <=? Z.of_nat (length (kq_inputs k)) then HUndef else
  let l := kq_inputs k ++ [KV (ws_fd b) (if wr then EVFILT_WRITE else EVFILT_READ) (Z.lor EV_ONESHOT (Z.lor EV_ADD EV_ENABLE)) yf] in
  if Z.of_nat (length l) =? MAX_KEVENT_INPUTS then
    let '(bad, notes, ctl) := kq_changes (kq_open m) false l (kq_notes k) (kq_ctl k) in
    HStore (set_k (KQ [] notes ctl) m) (HRet (match bad with [] => STATUS_SUCCESS | _ => ERROR_PSOCK_KEVENT_FAILED end))
  else HStore (set_k (KQ l (kq_notes k) (kq_ctl k)) m) (HRet STATUS_SUCCESS))).
(** psock_idle_fiber_entry.c:66-75 *)
Definition kq_event (x : kevent) : Z := if kv_filter x =? EVFILT_READ then IR_READ else IR_WRITE.
(** psock_idle_fiber_entry.c:63, 78-87 *)
Definition kq_param (x : kevent) : Z :=
  Z.lor (if has (kv_flags x) EV_ERROR then IO_FLAG_ERROR else 0) (if has (kv_flags x) EV_EOF then IO_FLAG_EOF else 0).
(** psock_idle_fiber_entry.c:57-98 *)
Fixpoint kq_serve (l : list kevent) : hprog (iost kqst) :=
  match l with
  | [] => HRet STATUS_SUCCESS
  | x :: l => HReady false (kv_udata x, (IO_ID, kq_event x, kq_param x)) (fun e => if negb (ok e) then HRet e else kq_serve l)
  end.
(** psock_idle_fiber_entry.c:43-98: one round of the idle fiber.  If it succeeds the idle
    fiber yields, else it ends, and is no longer the idle fiber
    (psock_idle_fiber_entry.c:101-118).  Errors other than EINTR are of the call as a
    whole: no change was made. *)
Definition kq_round (l : list kans) : hprog (iost kqst) :=
  match l with
  | [] => HUndef
  | a :: _ => HLoad (fun m =>
      let k := io_k m in
      if match a with KErr e => negb (e =? EINTR) | KReady _ => false end then HRet ERROR_PSOCK_KEVENT_FAILED else
      let '(bad, notes, ctl) := kq_changes (kq_open m) true (kq_inputs k) (kq_notes k) (kq_ctl k) in
      match bad, a with
      | _ :: _, _ => HStore (set_k (KQ [] notes ctl) m) (kq_serve bad)
      | [], KErr _ => HStore (set_k (KQ (kq_inputs k) notes ctl) m) (HRet ERROR_PSOCK_KEVENT_FAILED)
      | [], KReady r =>
          let '(o, notes) := kq_scan (Z.to_nat MAX_KEVENT_OUTPUTS) (kq_said r) notes in
          HStore (set_k (KQ [] notes ctl) m) (kq_serve o)
      end)
  end.
(** psock_create_wrap_async.c:235-263: the events of a closed descriptor are gone; the
    array is not changed *)
Definition kq_release (s : Z) : hprog (iost kqst) :=
  HLoad (fun m => need (hget (io_socks m) s) (fun b =>
  HStore (IO (hdel (io_socks m) s) (KQ (kq_inputs (io_k m)) (List.filter (fun x => negb (kv_fd x =? ws_fd b)) (kq_notes (io_k m))) (kq_ctl (io_k m)))) (HRet STATUS_SUCCESS))).
Definition kq_plat : plat kqst := Plat kq_wait kq_round kq_release.

(** ** The context *)
(** What a call leaves behind: blocks of memory and descriptors. *)
Record kept := Kept { ke_blocks : Z; ke_fds : Z }.
(** psock_fiber_scheduler_discipline_context_create.c:41-111; [al], [kq] and [rc] are what
    the allocator, kqueue(2) and a reclaim answer *)
Definition kq_context_create (al kq rc : Z) : Z * option kqst * kept :=
  if negb (ok al) then (al, None, Kept 0 0) else
  if kq <? 0 then (if ok rc then ERROR_PSOCK_KQUEUE_FAILED else rc, None, Kept (if ok rc then 0 else 1) 0)
  else (STATUS_SUCCESS, Some (KQ [] [] []), Kept 1 1).
(** psock_fiber_scheduler_discipline_context_create.c:122-141: what is left of the above *)
Definition kq_context_release (rc : Z) (h : kept) : Z * kept := (rc, Kept (ke_blocks h - (if ok rc then 1 else 0)) (ke_fds h - 1)).
(** psock_fiber_scheduler_discipline_set_resource_release.c:61-89: the status of the
    release of the discipline, by those of the context and of the discipline itself *)
Definition kq_chained_release (ctx disc : Z) : Z := if negb (ok ctx) then ctx else disc.
