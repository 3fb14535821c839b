(** Model of the life of sockets and of who closes their descriptors: the constructors and
    releases in src/psock, the vtables, user methods and the transfer of descriptors.  What the
    methods do with data is in AsyncModel, MemModel, BrModel and CodecModel. *)
From Verif Require Import Base Status MemModel Heap FdModel.

(** <sys/socket.h> on Linux *)
Definition AF_INET : Z := 2.
Definition AF_INET6 : Z := 10.
Definition SOCK_STREAM : Z := 1.
Definition SOCK_DGRAM : Z := 2.
Definition SOL_SOCKET : Z := 1.
Definition SCM_RIGHTS : Z := 1.
(** include/rcpr/psock.h:339-344 *)
Definition PSOCK_SOCKET_TYPE_STREAM : Z := 1.
Definition PSOCK_SOCKET_TYPE_DATAGRAM : Z := 2.
Definition PSOCK_SOCKET_TYPE_OTHER : Z := 3.

(** The methods of psock_vtable but release: include/rcpr/psock.h. *)
Inductive meth := MRead | MWrite | MAccept | MSendmsg | MRecvmsg | MSetsockopt.
(** A user's psock_vtable: the function of each slot, 0 for NULL. *)
Record vtable := VT { vt_fn : meth -> Z; vt_release : Z }.
(** psock_internal.h:35-125: a socket from a descriptor with its socket type, from user methods
    with their context, wrapped for asynchronous use, from a buffer, buffered; a struct that
    could not be given back. *)
Inductive sock := SDesc (fd ty : Z) | SUser (ctx : Z) (vt : vtable) | SWrap (child ty : Z) | SBuf | SBr (wrapped : Z) | SDead.
(** What the code asks of the kernel and of the user. *)
Inductive call := CSocket (family type : Z) | CBind (fd name : Z) | CListen (fd backlog : Z) | CConnect (fd family addr port : Z) | CClose (fd : Z) | CNonblock (fd : Z) | CRelease (fn ctx : Z).
(** The descriptor table, the structs, what has been asked, the last call first *)
Record world := W { w_t : fdt; w_h : heap sock; w_log : list call }.
(** The answers for one call of the library: the descriptor that the kernel opens (or -1) and
    what it refers to; bind, listen, connect, close; the lookups of the host's addresses; the
    type of the socket; the statuses of the discipline for I/O and of making the descriptor
    non-blocking; of the allocation; of each reclaim; of the user's release function; the
    result and errno of a method's call; the control messages that were received, with the
    descriptors that came and what they refer to. *)
Record ans := An { a_fd : Z; a_obj : Z; a_bind : Z; a_listen : Z; a_connect : Z; a_close : Z; a_h4 : option Z; a_h6 : option Z; a_type : option Z;
  a_disc : Z; a_nb : Z; a_al : Z; a_pick : list Z -> Z; a_rc : nat -> Z; a_user : Z; a_ret : Z; a_cms : list (Z * Z * list (Z * Z)) }.

Definition logged (c : call) (w : world) : world := W (w_t w) (w_h w) (c :: w_log w).
(** socket(2), which succeeds *)
Definition opened (a : ans) (w : world) : world := W (fd_put (w_t w) (a_fd a) (Some (a_obj a))) (w_h w) (w_log w).
(** close(2): the descriptor is gone whatever it returns. *)
Definition closed (fd : Z) (w : world) : world := W (fd_close (w_t w) fd) (w_h w) (CClose fd :: w_log w).
Definition made (a : ans) (s : sock) (w : world) : Z * Z * world :=
  if negb (ok (a_al a)) then (a_al a, 0, w)
  else let p := a_pick a (addrs (w_h w)) in (STATUS_SUCCESS, p, W (w_t w) (hadd (w_h w) p s) (w_log w)).
(** allocator_reclaim of the struct at [p] *)
Definition reclaimed (a : ans) (k : nat) (p : Z) (w : world) : world :=
  W (w_t w) (if ok (a_rc a k) then hdel (w_h w) p else hset (w_h w) p SDead) (w_log w).

(** psock_create_from_descriptor.c:138-159 *)
Definition socket_type (t : option Z) : Z :=
  match t with
  | None => PSOCK_SOCKET_TYPE_OTHER
  | Some t => if t =? SOCK_STREAM then PSOCK_SOCKET_TYPE_STREAM else if t =? SOCK_DGRAM then PSOCK_SOCKET_TYPE_DATAGRAM else PSOCK_SOCKET_TYPE_OTHER
  end.
(** psock_create_from_descriptor.c:78-129: status, the socket, the world *)
Definition from_descriptor (a : ans) (fd : Z) (w : world) : Z * Z * world := made a (SDesc fd (socket_type (a_type a))) w.
(** psock_create_from_listen_address.c:62-120 *)
Definition from_listen_address (a : ans) (name : Z) (w : world) : Z * Z * world :=
  let w := logged (CSocket AF_INET SOCK_STREAM) w in
  if a_fd a <? 0 then (ERROR_PSOCK_CREATE_FROM_ADDRESS_SOCKET_CREATE, 0, w) else
  let cleanup e w := (if a_close a <? 0 then ERROR_PSOCK_CREATE_FROM_ADDRESS_CLOSE else e, 0, closed (a_fd a) w) in
  let w := logged (CBind (a_fd a) name) (opened a w) in
  if a_bind a <? 0 then cleanup ERROR_PSOCK_CREATE_FROM_ADDRESS_BIND w else
  let w := logged (CListen (a_fd a) 32) w in
  if a_listen a <? 0 then cleanup ERROR_PSOCK_CREATE_FROM_ADDRESS_LISTEN w else
  let '(e, p, w) := from_descriptor a (a_fd a) w in
  if negb (ok e) then cleanup e w else (STATUS_SUCCESS, p, w).
(** psock_create_from_hostname_and_port.c:65-159; htons of an unsigned int keeps 16 bits *)
Definition from_hostname_and_port (a : ans) (port : Z) (w : world) : Z * Z * world :=
  let connected family addr :=
    let w := logged (CSocket family SOCK_STREAM) w in
    if a_fd a <? 0 then (ERROR_PSOCK_SOCKET_CREATE, 0, w) else
    let w := logged (CConnect (a_fd a) family addr (port mod 2 ^ 16)) (opened a w) in
    if a_connect a <? 0 then (ERROR_PSOCK_CONNECTION_REFUSED, 0, closed (a_fd a) w) else
    let '(e, p, w) := from_descriptor a (a_fd a) w in
    if negb (ok e) then (e, 0, closed (a_fd a) w) else (STATUS_SUCCESS, p, w) in
  match a_h4 a with
  | Some addr => connected AF_INET addr
  | None => match a_h6 a with Some addr => connected AF_INET6 addr | None => (ERROR_PSOCK_HOSTNAME_LOOKUP_FAILURE, 0, w) end
  end.
(** psock_create_from_user_methods.c:92-146 *)
Definition from_user_methods (a : ans) (ctx : Z) (vt : vtable) (w : world) : Z * Z * world := made a (SUser ctx vt) w.
(** psock_create_from_buffer.c and psock_br_create_from_psock.c, seen as one allocation; for
    theirs see MemModel and BrModel *)
Definition from_buffer (a : ans) (w : world) : Z * Z * world := made a SBuf w.
Definition buffered (a : ans) (wrapped : Z) (w : world) : Z * Z * world := made a (SBr wrapped) w.
(** psock_create_wrap_async.c:109-224; for the discipline see OwnModel *)
Definition wrap_async (a : ans) (child : Z) (w : world) : option (Z * Z * world) :=
  do s <- hget (w_h w) child;
  match s with
  | SDesc fd ty =>
      if negb (ok (a_disc a)) then Some (a_disc a, 0, w) else
      let '(e, p, w) := made a (SWrap child ty) w in
      if negb (ok e) then Some (e, 0, w) else
      let w := logged (CNonblock fd) w in
      if negb (ok (a_nb a)) then Some (if negb (ok (a_rc a 0%nat)) then a_rc a 0%nat else a_nb a, 0, reclaimed a 0 p w)
      else Some (STATUS_SUCCESS, p, w)
  | SDead => None
  | _ => Some (ERROR_PSOCK_UNSUPPORTED_TYPE, 0, w)
  end.

(** resource_release of a socket: psock_from_descriptor_release.c:31-46,
    psock_create_from_user_methods.c:158-191, psock_create_wrap_async.c:235-263; those of
    psock_from_buffer_release.c and psock_br_release.c as one reclaim.  [n] bounds the depth of
    wrapped sockets, [k] numbers the reclaims from the outside. *)
Fixpoint release (n : nat) (a : ans) (k : nat) (p : Z) (w : world) : option (Z * world) :=
  match n with
  | O => None
  | S n =>
      do s <- hget (w_h w) p;
      match s with
      | SDesc fd _ => Some (a_rc a k, reclaimed a k p (closed fd w))
      | SUser ctx vt =>
          let '(e, w) := if vt_release vt =? 0 then (STATUS_SUCCESS, w) else (a_user a, logged (CRelease (vt_release vt) ctx) w) in
          Some (if negb (ok (a_rc a k)) then a_rc a k else e, reclaimed a k p w)
      | SWrap child _ =>
          do '(e, w) <- release n a (S k) child w;
          do _ <- hget (w_h w) p;
          Some (if negb (ok e) then e else a_rc a k, reclaimed a k p w)
      | SBuf | SBr _ => Some (a_rc a k, reclaimed a k p w)
      | SDead => None
      end
  end.

(** Where the call of a method arrives: at a system call, at a user's function, at the code for
    in-memory or buffered sockets; or its status *)
Inductive dest := ToKernel (fd : Z) | ToUser (fn ctx : Z) | ToMemory (p : Z) | ToBuffer (p : Z) | Refused (e : Z).
(** psock_accept.c:75-90 and the like, with the vtables in psock_create_from_descriptor.c:28-38,
    psock_create_from_user_methods.c:39-49 and 206-322, psock_create_wrap_async.c:36-46,
    psock_create_from_buffer.c:28-38 and psock_from_buffer_accept.c:44,
    psock_br_create_from_psock.c:24-34; the methods of wrapped and buffered sockets call those
    of what they wrap.  Reads of buffered sockets are left to BrModel. *)
Definition undefined_method : dest := Refused ERROR_PSOCK_METHOD_UNDEFINED.
Fixpoint method (n : nat) (h : heap sock) (p : Z) (m : meth) : option dest :=
  match n with
  | O => None
  | S n =>
      do s <- hget h p;
      match s, m with
      | SDesc fd _, _ => Some (ToKernel fd)
      | SUser _ _, MSetsockopt | SWrap _ _, MSetsockopt | SBr _, MSetsockopt => Some undefined_method
      | SUser ctx vt, MRead | SUser ctx vt, MWrite => if vt_fn vt m =? 0 then None else Some (ToUser (vt_fn vt m) ctx)
      | SUser ctx vt, _ => Some (if vt_fn vt m =? 0 then undefined_method else ToUser (vt_fn vt m) ctx)
      | SWrap child _, _ => method n h child m
      | SBr _, MRead => Some (ToBuffer p)
      | SBr wrapped, _ => method n h wrapped m
      | SBuf, MRead | SBuf, MWrite => Some (ToMemory p)
      | SBuf, MAccept => Some (Refused ERROR_PSOCK_UNSUPPORTED_TYPE)
      | SBuf, _ => Some undefined_method
      | SDead, _ => None
      end
  end.
(** psock_socket_type.c:25-30, the field as the constructors leave it *)
Definition type_of (s : sock) : option Z :=
  match s with SDesc _ ty | SWrap _ ty => Some ty | SUser _ _ | SBuf => Some PSOCK_SOCKET_TYPE_OTHER | SBr _ => Some 0 | SDead => None end.
(** The slots that are NULL: psock_write_raw_descriptor.c:74-78 and
    psock_read_raw_descriptor.c:75-79 look at the vtable of the socket itself. *)
Definition has_msg (s : sock) : bool := match s with SBuf => false | _ => true end.

(** psock_write_raw_descriptor.c:48-107: the status and the control message sent, if any; [e] is
    the status of the method. *)
Definition send_descriptor (h : heap sock) (p fd e : Z) : option (Z * list (Z * Z * list Z)) :=
  do s <- hget h p; do ty <- type_of s;
  if negb (ty =? PSOCK_SOCKET_TYPE_DATAGRAM) || negb (has_msg s) then Some (ERROR_PSOCK_UNSUPPORTED_TYPE, [])
  else Some (if negb (ok e) then e else STATUS_SUCCESS, [((SOL_SOCKET, SCM_RIGHTS), [fd])]).
(** psock_read_raw_descriptor.c:101-109: the first message with rights; reading a descriptor
    from one without is undefined. *)
Fixpoint first_rights (cs : list (Z * Z * list Z)) : option Z :=
  match cs with
  | [] => Some (-1)
  | (level, type, fds) :: t => if (level =? SOL_SOCKET) && (type =? SCM_RIGHTS) then match fds with fd :: _ => Some fd | [] => None end else first_rights t
  end.
(** psock_read_raw_descriptor.c:48-118: the status and [*desc] if written *)
Definition receive_descriptor (h : heap sock) (p e : Z) (cs : list (Z * Z * list Z)) : option (Z * option Z) :=
  do s <- hget h p; do ty <- type_of s;
  if negb (ty =? PSOCK_SOCKET_TYPE_DATAGRAM) || negb (has_msg s) then Some (ERROR_PSOCK_UNSUPPORTED_TYPE, None)
  else if negb (ok e) then Some (e, Some (-1))
  else do fd <- first_rights cs; if fd <? 0 then Some (ERROR_PSOCK_READ_GENERAL, Some fd) else Some (STATUS_SUCCESS, Some fd).
(** recvmsg(2) installs the descriptors that come with rights *)
Fixpoint install (t : fdt) (l : list (Z * Z)) : fdt := match l with [] => t | (fd, obj) :: l => install (fd_put t fd (Some obj)) l end.
Definition rights (cs : list (Z * Z * list (Z * Z))) : list (Z * Z) := flat_map (fun c => let '(level, type, l) := c in if (level =? SOL_SOCKET) && (type =? SCM_RIGHTS) then l else []) cs.
(** <bits/socket.h> on Linux, 64 bits: the room for control messages with [len] bytes, their
    length, and the room that psock_read_raw_descriptor.c:58,87 gives (one int). *)
Definition cmsg_align (len : Z) : Z := (len + 7) / 8 * 8.
Definition cmsg_space (len : Z) : Z := cmsg_align len + cmsg_align 16.
Definition cmsg_len (len : Z) : Z := cmsg_align 16 + len.
Definition descriptor_room : Z := cmsg_space 4.
