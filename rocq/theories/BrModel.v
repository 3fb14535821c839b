(** Model of the buffered reader (src/psock/psock_br_*.c) over an abstract wrapped
    socket. *)
From Verif Require Import Base Status StringModel CodecModel MemModel.

(** src/psock/psock_internal.h:48 *)
Definition PSOCK_BR_BUFFER_SIZE : nat := Z.to_nat 16384.

(** psock_internal.h [psock_br]: the buffer ([max_size] is its length),
    [current_size], [offset], [error], and the wrapped socket. *)
Record br (S : Type) := Br { q_buf : list Z; q_size : nat; q_off : nat; q_err : bool; q_w : S }.
Arguments Br {S}. Arguments q_buf {S}. Arguments q_size {S}. Arguments q_off {S}.
Arguments q_err {S}. Arguments q_w {S}.

(** size_t subtraction; an underflow is not meaningful here and counted as
    undefined. *)
Definition sub (a b : nat) : option nat := if (b <=? a)%nat then Some (a - b)%nat else None.
(** Load [n] bytes at [p]. *)
Definition ld_range (b : list Z) (p n : nat) : option (list Z) :=
  if (p + n <=? length b)%nat then Some (firstn n (skipn p b)) else None.

(** psock_br_fill.c:28-88 *)
Definition br_fill {S} (o : sock_ops S) (b : br S) : option (Z * br S) :=
  do b1 <- (if (0 <? q_off b)%nat then
              do n <- sub (q_size b) (q_off b);
              do d <- ld_range (q_buf b) (q_off b) n;
              do buf <- blit (q_buf b) 0 d;
              Some (Br buf n 0 (q_err b) (q_w b))
            else Some b);
  if negb (ok (op_vtable o)) then Some (op_vtable o, b1) else
  do room <- sub (length (q_buf b1)) (q_size b1);
  let r := op_read o (q_w b1) room false in
  do buf <- blit (q_buf b1) (q_size b1) (rr_data r);
  let b2 := Br buf (q_size b1) (q_off b1) (q_err b1) (rr_sock r) in
  if negb (ok (rr_status r)) then Some (rr_status r, b2) else
  if (rr_size r =? 0)%nat then Some (ERROR_PSOCK_READ_GENERAL, b2) else
  Some (STATUS_SUCCESS, Br buf (q_size b2 + rr_size r) (q_off b2) (q_err b2) (q_w b2)).

(** psock_br_psock_read.c:51-92; [avail], [req] are [available_bytes] and
    [requested_bytes], [got] the bytes stored for the caller. *)
Fixpoint br_read_loop {S} (fuel : nat) (o : sock_ops S) (block : bool) (b : br S)
  (avail req : nat) (got : list Z) : option (rres (br S)) :=
  match fuel with
  | O => None
  | Datatypes.S f =>
      do '(e, b1) <- (if (avail <? req)%nat then br_fill o b else Some (STATUS_SUCCESS, b));
      if negb (ok e) then Some (RRes e (length got) got b1) else
      do av <- sub (q_size b1) (q_off b1);
      let c := if (av <? req)%nat then av else req in
      do d <- ld_range (q_buf b1) (q_off b1) c;
      let b2 := Br (q_buf b1) (q_size b1) (q_off b1 + c) (q_err b1) (q_w b1) in
      if block && (0 <? req - c)%nat then br_read_loop f o block b2 (av - c) (req - c) (got ++ d)
      else Some (RRes STATUS_SUCCESS (length got + c) (got ++ d) b2)
  end.

(** psock_br_psock_read.c:31-103 *)
Definition br_read {S} (o : sock_ops S) (b : br S) (n : nat) (block : bool) : option (rres (br S)) :=
  do avail <- sub (q_size b) (q_off b);
  br_read_loop (Datatypes.S n) o block b avail n [].

(** psock_br_psock_write.c:29-53 *)
Definition br_write {S} (o : sock_ops S) (b : br S) (d : list Z) : wres (br S) :=
  if negb (ok (op_vtable o)) then WRes (op_vtable o) (length d) b else
  let r := op_write o (q_w b) d in
  WRes (wr_status r) (wr_size r) (Br (q_buf b) (q_size b) (q_off b) (q_err b) (wr_sock r)).

(** The reader as a socket (psock_br_create_from_psock.c:24-34,
    psock_br_psock_adapter.c:22-27); the state is [None] after undefined behaviour. *)
Definition br_ops {S} (o : sock_ops S) : sock_ops (option (br S)) :=
  {| op_vtable := STATUS_SUCCESS;
     op_read := fun s n block =>
       match s with
       | Some b => match br_read o b n block with
                   | Some r => RRes (rr_status r) (rr_size r) (rr_data r) (Some (rr_sock r))
                   | None => RRes STATUS_SUCCESS 0 [] None
                   end
       | None => RRes STATUS_SUCCESS 0 [] None
       end;
     op_write := fun s d =>
       match s with
       | Some b => let w := br_write o b d in WRes (wr_status w) (wr_size w) (Some (wr_sock w))
       | None => WRes STATUS_SUCCESS 0 None
       end |}.

(** Outcome of read_line: status, [*buffer_size], the caller's buffer, the reader. *)
Record lres (S : Type) := LRes { l_status : Z; l_size : nat; l_ub : list Z; l_br : br S }.
Arguments LRes {S}. Arguments l_status {S}. Arguments l_size {S}. Arguments l_ub {S}. Arguments l_br {S}.

(** psock_br_read_line.c:92-99: copy up to the newline, the end of the input or of
    the caller's buffer.  [inp] and [bp] are indices into the reader's buffer and
    the caller's; returns [inp], [available_input], the caller's buffer, [bp],
    [buffer_remaining], [copied_bytes]. *)
Fixpoint copy_line (remain : nat) (buf : list Z) (inp avail : nat) (ub : list Z) (bp copied : nat)
  : option (nat * nat * list Z * nat * nat * nat) :=
  match remain, avail with
  | Datatypes.S r, Datatypes.S av =>
      do c <- ld buf inp;
      if c =? 10 then Some (inp, avail, ub, bp, remain, copied)
      else do ub' <- st ub bp c;
           copy_line r buf (Datatypes.S inp) av ub' (Datatypes.S bp) (Datatypes.S copied)
  | _, _ => Some (inp, avail, ub, bp, remain, copied)
  end.

(** psock_br_read_line.c:89-200 *)
Fixpoint line_loop {S} (fuel : nat) (o : sock_ops S) (n : nat) (b : br S) (inp avail : nat) (ub : list Z)
  (bp remain committed : nat) : option (lres S) :=
  match fuel with
  | O => None
  | Datatypes.S f =>
      if (remain =? 0)%nat then Some (LRes ERROR_PSOCK_BR_READ_LINE_BAD_LOOP_INVARIANT n ub b) else
      do '(inp1, avail1, ub1, bp1, remain1, copied) <- copy_line remain (q_buf b) inp avail ub bp 0;
      do nl <- (if (0 <? avail1)%nat then do c <- ld (q_buf b) inp1; Some (c =? 10) else Some false);
      if (nl : bool) then
        do ub2 <- st ub1 bp1 0;
        Some (LRes STATUS_SUCCESS (committed + (copied + 1)) ub2
                (Br (q_buf b) (q_size b) (q_off b + (copied + 1)) (q_err b) (q_w b)))
      else if (remain1 =? 0)%nat then
        do ub2 <- st ub1 bp1 0;
        Some (LRes ERROR_PSOCK_BR_READ_LINE_TRUNCATED (committed + copied) ub2
                (Br (q_buf b) (q_size b) (q_off b + copied) (q_err b) (q_w b)))
      else if (avail1 =? 0)%nat then
        let committed1 := (committed + copied)%nat in
        let b1 := Br (q_buf b) (q_size b) (q_size b) (q_err b) (q_w b) in
        do b2 <- (if negb (q_err b1) then
                    do '(e, b') <- br_fill o b1;
                    Some (if negb (ok e) then Br (q_buf b') (q_size b') (q_off b') true (q_w b') else b')
                  else Some b1);
        if q_err b2 then
          if (committed1 =? 0)%nat then Some (LRes ERROR_PSOCK_READ_GENERAL n ub1 b2)
          else do ub2 <- st ub1 bp1 0;
               Some (LRes STATUS_SUCCESS (committed1 + 1) ub2 b2)
        else
          do avail2 <- sub (q_size b2) (q_off b2);
          line_loop f o n b2 (q_off b2) avail2 ub1 bp1 remain1 committed1
      else line_loop f o n b inp1 avail1 ub1 bp1 remain1 committed
  end.

(** psock_br_read_line.c:55-209; [n] is [*buffer_size]. *)
Definition read_line {S} (o : sock_ops S) (b : br S) (ub : list Z) (n : nat) : option (lres S) :=
  if (n <=? 1)%nat then Some (LRes ERROR_PSOCK_BR_READ_LINE_BUFFER_SIZE_TOO_SMALL n ub b) else
  do avail <- sub (q_size b) (q_off b);
  line_loop (Datatypes.S n) o n b (q_off b) avail ub 0 (n - 1) 0.

(** psock_br_release.c:27-62 on a reader with or without buffer.  Sites: [rc 0]
    buffer, [rc 1] the structure.  Returns the status and the number of reclaims. *)
Definition br_release (rc : nat -> Z) (has_buf : bool) : Z * Z :=
  let e0 := if has_buf then rc 0%nat else STATUS_SUCCESS in
  (if negb (ok e0) then e0 else rc 1%nat, (if has_buf then 1 else 0) + 1).

(** psock_br_create_from_psock.c:69-139.  Sites: [al 0] the structure, [al 1] the
    buffer.  The object is [None] if [*br] was not written. *)
Definition br_create {S} (al rc junk : nat -> Z) (w : S) : ctor (br S) :=
  if negb (ok (al 0%nat)) then Ctor (al 0%nat) None 0 else
  if negb (ok (al 1%nat)) then
    let '(re, k) := br_release rc false in
    Ctor (if negb (ok (al 1%nat)) then re else al 1%nat) None (1 - k)
  else Ctor STATUS_SUCCESS (Some (Br (fresh_block junk PSOCK_BR_BUFFER_SIZE) 0 0 false w)) 2.

(** ** Optional methods *)
(** psock_accept.c:59-91, psock_setsockopt.c:47-77, psock_br_psock_accept.c:31-63,
    psock_br_psock_sendmsg.c:28-60, psock_br_psock_recvmsg.c:29-61: the status, given
    what the vtable lookup says, whether the method is defined, and its status. *)
Definition dispatch (vst : Z) (defined : bool) (st : Z) : Z :=
  if negb (ok vst) then vst else if negb defined then ERROR_PSOCK_METHOD_UNDEFINED else st.
(** psock_create_from_user_methods.c:252-322 (accept, sendmsg, recvmsg) *)
Definition user_dispatch (defined : bool) (st : Z) : Z :=
  if negb defined then ERROR_PSOCK_METHOD_UNDEFINED else st.
