(** Model of the fiber that serves one connection of the echo server,
    examples/echo_server/src/main.c, over the sockets of AsyncModel. *)
From Verif Require Import Base Status CodecModel MemModel AsyncModel.

(** main.c:1137: the size of the buffer [data] *)
Definition DATA_SIZE : nat := Z.to_nat 1024.

(** How one round of the loop ends: with another round, or with a jump to
    [cleanup_context] and the status in [retval]. *)
Inductive turn := Again (a : async) | Ends (e : Z) (a : async).

(** main.c:1142-1165: one round of the loop; [None] if a loop below exceeded its bound.
    The write sends the first [data_size] bytes of the buffer. *)
Definition echo_turn (f : fenv) (a : async) : option turn :=
  let r := read_raw (async_ops f) DATA_SIZE (Some a) in
  do a1 <- rr_sock r;
  if ERROR_PSOCK_READ_WOULD_BLOCK =? rr_status r then
    let '(e, a2) := read_block f a1 in
    Some (if negb (ok e) then Ends e a2 else Again a2)
  else if negb (ok (rr_status r)) then Some (Ends (rr_status r) a1)
  else
    do '(e, s) <- write_raw_data (async_ops f) (firstn (rr_size r) (rr_data r)) (Some a1);
    do a2 <- s;
    Some (if negb (ok e) then Ends e a2 else Again a2).

(** main.c:1140-1166 *)
Fixpoint echo_loop (fuel : nat) (f : fenv) (a : async) : option (Z * async) :=
  match fuel with
  | O => None
  | S fuel => do t <- echo_turn f a; match t with Again a1 => echo_loop fuel f a1 | Ends e a1 => Some (e, a1) end
  end.

(** dispatch_context_release, main.c:461-487: from the statuses of releasing the socket and
    of giving the context back *)
Definition context_release (sock_release reclaim : Z) : Z :=
  if negb (ok sock_release) then sock_release else if negb (ok reclaim) then reclaim else STATUS_SUCCESS.

(** main.c:1133-1176; the bound is enough for any script (EchoProofs). *)
Definition echo_entry (f : fenv) (sock_release reclaim : Z) (a : async) : option (Z * async) :=
  do '(e, a1) <- echo_loop (S (length (k_rs (a_k a)) + length (k_in (a_k a)))) f a;
  let e2 := context_release sock_release reclaim in
  Some (if negb (ok e2) then e2 else e, a1).
