(** Specification for C57: who closes which descriptor. *)
From Verif Require Import Base Status MemModel Heap FdModel SockModel.

(** The calls of a program, each with the answers that the system gives it: the program gets a
    descriptor by other means, closes one, or calls the library. *)
Inductive op := OOpen | OClose (fd : Z) | OFromDescriptor (fd : Z) | OListen (name : Z) | OConnect (port : Z) | OUser (ctx : Z) (vt : vtable) | OBuffer | OWrap (p : Z) | ORelease (p : Z) | OAccept (p : Z) | OSend (p fd : Z) | OReceive (p : Z).
Definition depth (w : world) : nat := S (length (w_h w)).
(** The status and the socket or descriptor returned *)
Definition exec (o : op) (a : ans) (w : world) : option (Z * Z * world) :=
  match o with
  | OOpen => Some (if a_fd a <? 0 then (ERROR_PSOCK_SOCKET_CREATE, 0, w) else (STATUS_SUCCESS, a_fd a, opened a w))
  | OClose fd => Some (STATUS_SUCCESS, 0, W (fd_close (w_t w) fd) (w_h w) (w_log w))
  | OFromDescriptor fd => Some (from_descriptor a fd w)
  | OListen name => Some (from_listen_address a name w)
  | OConnect port => Some (from_hostname_and_port a port w)
  | OUser ctx vt => Some (from_user_methods a ctx vt w)
  | OBuffer => Some (from_buffer a w)
  | OWrap p => wrap_async a p w
  | ORelease p => do '(e, w) <- release (depth w) a 0 p w; Some (e, 0, w)
  | OAccept p =>
      do d <- method (depth w) (w_h w) p MAccept;
      Some (match d with Refused e => (e, 0, w) | _ => if a_fd a <? 0 then (if ok (a_ret a) then ERROR_PSOCK_ACCEPT_WOULD_BLOCK else a_ret a, 0, w) else (STATUS_SUCCESS, a_fd a, opened a w) end)
  | OSend p fd => do '(e, _) <- send_descriptor (w_h w) p fd (a_ret a); Some (e, 0, w)
  | OReceive p =>
      do '(e, fd) <- receive_descriptor (w_h w) p (a_ret a) (map (fun c => (fst c, map fst (snd c))) (a_cms a));
      Some (e, match fd with Some fd => fd | None => 0 end, if ok e then W (install (w_t w) (rights (a_cms a))) (w_h w) (w_log w) else w)
  end.
Fixpoint run (os : list (op * ans)) (w : world) : option (list (Z * Z) * world) :=
  match os with
  | [] => Some ([], w)
  | (o, a) :: t => do '(r, w) <- exec o a w; do '(rs, w) <- run t w; Some (r :: rs, w)
  end.

(** What a program holds: descriptors of its own, with what they refer to; and sockets, each
    with its structs (the first is its handle) and descriptors. *)
Record held := Held { structs : list Z; fds : list (Z * Z) }.
Record view := View { mine : list (Z * Z); socks : list held }.
Definition is (p : Z) (x : held) : bool := match structs x with q :: _ => p =? q | [] => false end.
Definition drop (p : Z) (l : list held) : list held := filter (fun x => negb (is p x)) l.
Definition dropfd (fd : Z) (l : list (Z * Z)) : list (Z * Z) := filter (fun x => negb (fst x =? fd)) l.
Definition holding (p : Z) (v : view) : option held := find (is p) (socks v).
Definition object (fd : Z) (v : view) : option (Z * Z) := find (fun x => fst x =? fd) (mine v).
(** How a call that returned [e] and [x] changes that. *)
Definition after (o : op) (a : ans) (e x : Z) (v : view) : view :=
  match o with
  | OClose fd => View (dropfd fd (mine v)) (socks v)
  | ORelease p => View (mine v) (drop p (socks v))
  | _ => if negb (ok e) then v else
      match o with
      | OOpen | OAccept _ => View ((x, a_obj a) :: mine v) (socks v)
      | OFromDescriptor fd => match object fd v with Some d => View (dropfd fd (mine v)) (Held [x] [d] :: socks v) | None => v end
      | OListen _ | OConnect _ => View (mine v) (Held [x] [(a_fd a, a_obj a)] :: socks v)
      | OUser _ _ | OBuffer => View (mine v) (Held [x] [] :: socks v)
      | OWrap p => match holding p v with Some s => View (mine v) (Held (x :: structs s) (fds s) :: drop p (socks v)) | None => v end
      | OReceive _ => View (rights (a_cms a) ++ mine v) (socks v)
      | _ => v
      end
  end.
(** The program uses only what it holds. *)
Definition allowed (o : op) (v : view) : Prop :=
  match o with
  | OClose fd | OFromDescriptor fd | OSend _ fd => object fd v <> None
  | OWrap p | ORelease p | OAccept p | OReceive p => holding p v <> None
  | _ => True
  end /\ match o with OSend p _ => holding p v <> None | _ => True end.
(** The system returns new addresses and descriptors; with rights comes exactly one
    descriptor. *)
Definition fair (a : ans) (w : world) : Prop :=
  good_pick (a_pick a) /\ (a_fd a < 0 \/ w_t w (a_fd a) = None) /\
  (a_cms a = [] \/ exists fd obj, a_cms a = [((SOL_SOCKET, SCM_RIGHTS), [(fd, obj)])] /\ 0 <= fd /\ w_t w fd = None).
Fixpoint proper (os : list (op * ans)) (w : world) (v : view) : Prop :=
  match os with
  | [] => True
  | (o, a) :: t => allowed o v /\ fair a w /\ match exec o a w with Some ((e, x), w') => proper t w' (after o a e x v) | None => True end
  end.
Fixpoint afters (os : list (op * ans)) (rs : list (Z * Z)) (v : view) : view :=
  match os, rs with
  | (o, a) :: os, (e, x) :: rs => afters os rs (after o a e x v)
  | _, _ => v
  end.
(** The descriptors that are open are those that the program and its sockets hold, each held
    once; the structs in use are those of its sockets. *)
Definition matches (w : world) (v : view) : Prop :=
  let all := mine v ++ flat_map fds (socks v) in let st := flat_map structs (socks v) in
  NoDup (map fst all) /\ (forall fd obj, w_t w fd = Some obj <-> In (fd, obj) all) /\
  NoDup st /\ (forall p, (exists s, hget (w_h w) p = Some s /\ s <> SDead) <-> In p st).

(** Specification for C58: what serves the call of a method on the socket [p]. *)
Definition optional (m : meth) : Prop := m = MAccept \/ m = MSendmsg \/ m = MRecvmsg.
Inductive serves (h : heap sock) (m : meth) : Z -> dest -> Prop :=
| s_desc : forall p fd ty, hget h p = Some (SDesc fd ty) -> serves h m p (ToKernel fd)
| s_user : forall p ctx vt, hget h p = Some (SUser ctx vt) -> m <> MSetsockopt -> vt_fn vt m <> 0 -> serves h m p (ToUser (vt_fn vt m) ctx)
| s_user_null : forall p ctx vt, hget h p = Some (SUser ctx vt) -> optional m -> vt_fn vt m = 0 -> serves h m p (Refused ERROR_PSOCK_METHOD_UNDEFINED)
| s_user_option : forall p ctx vt, hget h p = Some (SUser ctx vt) -> m = MSetsockopt -> serves h m p (Refused ERROR_PSOCK_METHOD_UNDEFINED)
| s_wrap : forall p c ty d, hget h p = Some (SWrap c ty) -> m <> MSetsockopt -> serves h m c d -> serves h m p d
| s_wrap_option : forall p c ty, hget h p = Some (SWrap c ty) -> m = MSetsockopt -> serves h m p (Refused ERROR_PSOCK_METHOD_UNDEFINED)
| s_br_read : forall p c, hget h p = Some (SBr c) -> m = MRead -> serves h m p (ToBuffer p)
| s_br : forall p c d, hget h p = Some (SBr c) -> m = MWrite \/ optional m -> serves h m c d -> serves h m p d
| s_br_option : forall p c, hget h p = Some (SBr c) -> m = MSetsockopt -> serves h m p (Refused ERROR_PSOCK_METHOD_UNDEFINED)
| s_buf : forall p, hget h p = Some SBuf -> m = MRead \/ m = MWrite -> serves h m p (ToMemory p)
| s_buf_accept : forall p, hget h p = Some SBuf -> m = MAccept -> serves h m p (Refused ERROR_PSOCK_UNSUPPORTED_TYPE)
| s_buf_none : forall p, hget h p = Some SBuf -> m = MSendmsg \/ m = MRecvmsg \/ m = MSetsockopt -> serves h m p (Refused ERROR_PSOCK_METHOD_UNDEFINED).
