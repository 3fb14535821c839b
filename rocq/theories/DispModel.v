(** Model of how the echo server takes and ends connections, examples/echo_server/src/main.c,
    over the sockets and descriptors of SockModel. *)
From Verif Require Import Base Status MemModel Heap FdModel SockModel EchoModel.

(** The answers for one call of dispatch: of psock_create_from_descriptor, the allocation of
    the context, fiber_create, psock_create_wrap_async, fiber_scheduler_add; of the release of
    the fiber, of the sockets, and of giving the context back. *)
Record dans := DA { d_sock : ans; d_ctx : Z; d_fiber : Z; d_wrap : ans; d_add : Z; d_frel : Z; d_rel : ans; d_crc : Z }.
(** What dispatch leaves: its status; the world; the socket that the new fiber serves; whether
    the context and the fiber still exist. *)
Record disp := Disp { s_status : Z; s_world : world; s_conn : option Z; s_ctx : bool; s_fiber : bool }.

(** dispatch_context_release, main.c:461-487; the context's socket may be NULL, whose release
    reads through a null pointer. *)
Definition release_context (rel : ans) (crc : Z) (sock : option Z) (w : world) : option (Z * world) :=
  do q <- sock;
  do '(r, w) <- release (S (length (w_h w))) rel 0 q w;
  Some (context_release r crc, w).

(** dispatch, main.c:291-391; the context is created without a socket, :312-313, and gets it
    at :342. *)
Definition dispatch (d : dans) (fd : Z) (w : world) : option disp :=
  let '(e, p, w) := from_descriptor (d_sock d) fd w in
  if negb (ok e) then Some (Disp e w None false false) else
  if negb (ok (d_ctx d)) then
    do '(r, w) <- release (S (length (w_h w))) (d_rel d) 0 p w;
    Some (Disp (if negb (ok r) then r else d_ctx d) w None false false)
  else
  (* cleanup_dispatch_context and cleanup_sock *)
  let cleanup e fiber sock held w :=
    do '(r, w) <- release_context (d_rel d) (d_crc d) sock w;
    let e := if negb (ok r) then r else e in
    do '(e, w) <- match held with
                  | None => Some (e, w)
                  | Some p => do '(r, w) <- release (S (length (w_h w))) (d_rel d) 0 p w; Some (if negb (ok r) then r else e, w)
                  end;
    Some (Disp e w None (negb (ok (d_crc d))) fiber) in
  let frel e := if negb (ok (d_frel d)) then d_frel d else e in
  if negb (ok (d_fiber d)) then cleanup (d_fiber d) false None (Some p) w else
  do '(e, q, w) <- wrap_async (d_wrap d) p w;
  if negb (ok e) then cleanup (frel e) (negb (ok (d_frel d))) None (Some p) w else
  if negb (ok (d_add d)) then cleanup (frel (d_add d)) (negb (ok (d_frel d))) (Some q) None w else
  Some (Disp STATUS_SUCCESS w (Some q) true true).

(** listen_entry, main.c:1072-1091: what it does with a descriptor that it accepted. *)
Definition serve (quiesce : bool) (d : dans) (fd : Z) (w : world) : option disp :=
  if quiesce then Some (Disp STATUS_SUCCESS (closed fd w) None false false) else
  do r <- dispatch d fd w;
  Some (if negb (ok (s_status r)) then Disp (s_status r) (closed fd (s_world r)) (s_conn r) (s_ctx r) (s_fiber r) else r).

(** listen_entry, main.c:1034-1052 and 1094-1119: its socket, until the loop; [name] is the
    address.  The status, the socket of the loop if it is entered. *)
Definition listen_start (a aw rel : ans) (name ctx_release : Z) (w : world) : option (Z * option Z * world) :=
  let final e := if negb (ok ctx_release) then ctx_release else e in
  let '(e, p, w) := from_listen_address a name w in
  if negb (ok e) then Some (final e, None, w) else
  do '(e, q, w) <- wrap_async aw p w;
  if negb (ok e) then
    do '(r, w) <- release (S (length (w_h w))) rel 0 p w;
    Some (final (if negb (ok r) then r else e), None, w)
  else Some (STATUS_SUCCESS, Some q, w).
(** listen_entry, main.c:1066-1070 and 1094-1119: when psock_accept fails with [e] *)
Definition listen_stop (rel : ans) (ctx_release e q : Z) (w : world) : option (Z * world) :=
  do '(r, w) <- release (S (length (w_h w))) rel 0 q w;
  let e := if negb (ok r) then r else e in
  Some (if negb (ok ctx_release) then ctx_release else e, w).
