(** Model of the in-memory socket (src/psock/psock_create_from_buffer.c,
    psock_from_buffer_*.c).  Allocations and reclaims get their status from the
    oracles [al] and [rc], indexed by the call site in program order.  A failed
    reclaim leaves its block allocated.  [net] counts blocks allocated minus
    blocks reclaimed by the call. *)
From Verif Require Import Base Status StringModel CodecModel.

(** src/psock/psock_internal.h:87 *)
Definition PSOCK_BUFFER_SIZE : nat := Z.to_nat 4096.

(** psock_internal.h [psock_from_buffer]; a pointer is [None] when NULL, a queue
    entry is a [psock_output_buffer_node]'s (buffer, size).  The queue is the
    slist [output_queue] seen as a sequence.  Byte counts are unbounded naturals:
    every counted byte is stored in memory. *)
Record pb := Pb
  { pb_input : option (list Z);         (* input_buffer, input_buffer_size *)
    pb_roff : nat;                      (* buffer_read_offset *)
    pb_queue : option (list (list Z * nat)); (* output_queue *)
    pb_cur : option (list Z);           (* output_curr_buffer *)
    pb_osize : nat;                     (* output_buffer_size *)
    pb_woff : nat;                      (* buffer_write_offset *)
    pb_total : nat }.                   (* output_buffer_total_size *)

Definition ok (e : Z) : bool := e =? STATUS_SUCCESS.
(** A reclaim's effect on the number of live blocks. *)
Definition freed (e : Z) : Z := if ok e then 1 else 0.

(** memcpy of [d] at offset [off] of a block; outside the block is UB. *)
Definition blit (blk : list Z) (off : nat) (d : list Z) : option (list Z) :=
  if (off + length d <=? length blk)%nat
  then Some (firstn off blk ++ d ++ skipn (off + length d) blk) else None.

(** psock_from_buffer_read.c:33-70 *)
Definition mem_read (s : pb) (n : nat) : rres pb :=
  match pb_input s with
  | None => RRes ERROR_PSOCK_READ_EOF n [] s
  | Some b =>
      if (length b <=? pb_roff s)%nat then RRes ERROR_PSOCK_READ_EOF n [] s
      else
        let max := (length b - pb_roff s)%nat in
        let m := if (max <? n)%nat then max else n in
        RRes STATUS_SUCCESS m (firstn m (skipn (pb_roff s) b))
          (Pb (pb_input s) (pb_roff s + m) (pb_queue s) (pb_cur s) (pb_osize s) (pb_woff s) (pb_total s))
  end.

(** Outcome of a write: status, [*size], socket, [net]. *)
Record mwres := MW { mw_status : Z; mw_size : nat; mw_sock : pb; mw_net : Z }.

(** psock_from_buffer_write.c:92-132, the current buffer is full: queue it and
    allocate a new one.  Sites: [al 0] node (psock_output_buffer_node_create,
    262-294), [al 1] list node (slist_append_tail), [al 2] new buffer; [rc 0] the
    release of the node (217-247, its buffer detached). *)
Definition flush_full (al rc : nat -> Z) (junk : nat -> Z) (s : pb) : Z * pb * Z :=
  match pb_cur s, pb_queue s with
  | Some cur, Some q =>
      if negb (ok (al 0%nat)) then (al 0%nat, s, 0) else
      if negb (ok (al 1%nat)) then
        ((if ok (rc 0%nat) then al 1%nat else rc 0%nat), s, 1 - freed (rc 0%nat))
      else
        let s1 := Pb (pb_input s) (pb_roff s) (Some (q ++ [(cur, pb_osize s)])) None PSOCK_BUFFER_SIZE 0 (pb_total s) in
        if negb (ok (al 2%nat)) then (al 2%nat, s1, 2)
        else (STATUS_SUCCESS,
              Pb (pb_input s1) (pb_roff s1) (pb_queue s1) (Some (fresh_block junk PSOCK_BUFFER_SIZE))
                 (pb_osize s1) (pb_woff s1) (pb_total s1), 3)
  | _, _ => (ERROR_PSOCK_UNSUPPORTED_TYPE, s, 0)
  end.

(** psock_from_buffer_write.c:136-169 and the cleanups 189-202: a large remainder
    becomes its own node.  Sites: [al 3] buffer, [al 4] node, [al 5] list node;
    [rc 1] reclaim of the buffer, [rc 2] release of the node. *)
Definition append_large (al rc : nat -> Z) (s : pb) (d : list Z) : Z * pb * Z :=
  match pb_queue s with
  | Some q =>
      if negb (ok (al 3%nat)) then (al 3%nat, s, 0) else
      if negb (ok (al 4%nat)) then
        ((if ok (rc 1%nat) then al 4%nat else rc 1%nat), s, 1 - freed (rc 1%nat))
      else if negb (ok (al 5%nat)) then
        let e := if ok (rc 2%nat) then al 5%nat else rc 2%nat in
        ((if ok (rc 1%nat) then e else rc 1%nat), s, 2 - freed (rc 2%nat) - freed (rc 1%nat))
      else (STATUS_SUCCESS,
            Pb (pb_input s) (pb_roff s) (Some (q ++ [(d, length d)])) (pb_cur s) (pb_osize s) (pb_woff s) (pb_total s), 3)
  | None => (ERROR_PSOCK_UNSUPPORTED_TYPE, s, 0)
  end.

(** psock_from_buffer_write.c:47-206.  [*size] counts down while bytes are copied
    and is set to the total only on success. *)
Definition mem_write (al rc junk : nat -> Z) (s : pb) (d : list Z) : option mwres :=
  match pb_cur s, pb_queue s with
  | Some cur, Some _ =>
      let room := (pb_osize s - pb_woff s)%nat in
      let copy := if (length d <? room)%nat then length d else room in
      do cur1 <- blit cur (pb_woff s) (firstn copy d);
      let s1 := Pb (pb_input s) (pb_roff s) (pb_queue s) (Some cur1) (pb_osize s) (pb_woff s + copy) (pb_total s) in
      let d1 := skipn copy d in
      let '(e1, s2, n1) :=
        if (pb_osize s1 <=? pb_woff s1)%nat then flush_full al rc junk s1 else (STATUS_SUCCESS, s1, 0) in
      if negb (ok e1) then Some (MW e1 (length d1) s2 n1) else
      let '(e2, s3, d2, n2) :=
        if (pb_osize s2 <=? length d1)%nat
        then let '(e, s', n) := append_large al rc s2 d1 in (e, s', if ok e then [] else d1, n)
        else (STATUS_SUCCESS, s2, d1, 0) in
      if negb (ok e2) then Some (MW e2 (length d2) s3 (n1 + n2)) else
      match d2 with
      | [] => Some (MW STATUS_SUCCESS (length d)
                (Pb (pb_input s3) (pb_roff s3) (pb_queue s3) (pb_cur s3) (pb_osize s3) (pb_woff s3)
                    (pb_total s3 + length d)) (n1 + n2))
      | _ =>
        match pb_cur s3 with
        | Some cur3 =>
          do cur4 <- blit cur3 (pb_woff s3) d2;
          Some (MW STATUS_SUCCESS (length d)
                (Pb (pb_input s3) (pb_roff s3) (pb_queue s3) (Some cur4) (pb_osize s3)
                    (pb_woff s3 + length d2) (pb_total s3 + length d)) (n1 + n2))
        | None => None
        end
      end
  | _, _ => Some (MW ERROR_PSOCK_UNSUPPORTED_TYPE (length d) s 0)
  end.

(** psock_from_buffer_get_output_buffer.c:150-171: copy the queued buffers, at most
    [room] bytes in all; returns the bytes stored and the room left. *)
Fixpoint copy_queue (q : list (list Z * nat)) (room : nat) : option (list Z * nat) :=
  match q with
  | [] => Some ([], room)
  | (b, sz) :: t =>
      let copy := if (sz <? room)%nat then sz else room in
      if (length b <? copy)%nat then None
      else do '(rest, r) <- copy_queue t (room - copy); Some (firstn copy b ++ rest, r)
  end.

(** psock_from_buffer_get_output_buffer.c:135-184 *)
Definition copy_output (s : pb) (blk : list Z) : option (list Z) :=
  match pb_queue s, pb_cur s with
  | Some q, Some cur =>
      do '(got, room) <- copy_queue q (length blk);
      let copy := if (pb_woff s <? room)%nat then pb_woff s else room in
      if (length cur <? copy)%nat then None
      else blit blk 0 (got ++ firstn copy cur)
  | _, _ => None
  end.

(** Outcome: status, [*buffer_size] and [*buffer] if written, live blocks. *)
Record gores := GO { go_status : Z; go_size : option nat; go_buf : option (list Z); go_live : list (list Z) }.

(** psock_from_buffer_get_output_buffer.c:63-122.  [copy_output] never fails on a
    valid queue, so the reclaim path is not reachable. *)
Definition get_output_buffer (ast : Z) (junk : nat -> Z) (s : pb) : option gores :=
  match pb_cur s, pb_queue s with
  | Some _, Some _ =>
      if negb (ok ast) then Some (GO ast (Some (pb_total s)) None [])
      else do blk <- copy_output s (fresh_block junk (pb_total s));
           Some (GO STATUS_SUCCESS (Some (pb_total s)) (Some blk) [blk])
  | _, _ => Some (GO ERROR_PSOCK_UNSUPPORTED_TYPE None None [])
  end.

(** psock_from_buffer_accept.c:33-45 *)
Definition mem_accept (s : pb) : Z := ERROR_PSOCK_UNSUPPORTED_TYPE.

(** psock_from_buffer_release.c:33-88.  Sites: [rc 0] input buffer, [rc 1] current
    output buffer, [rc 2] output queue (the status of releasing the slist, which
    releases every node, see SlistModel), [rc 3] the socket itself.  Returns the
    status and the number of reclaims issued (the queue counted as its slist, and
    for every entry the list node, the buffer node and the buffer). *)
Definition mem_release (rc : nat -> Z) (s : pb) : Z * Z :=
  let e0 := match pb_input s with Some _ => rc 0%nat | None => STATUS_SUCCESS end in
  let e1 := match pb_cur s with Some _ => rc 1%nat | None => STATUS_SUCCESS end in
  let e2 := match pb_queue s with Some _ => rc 2%nat | None => STATUS_SUCCESS end in
  (if negb (ok e0) then e0 else if negb (ok e1) then e1 else if negb (ok e2) then e2 else rc 3%nat,
   (match pb_input s with Some _ => 1 | None => 0 end) +
   (match pb_cur s with Some _ => 1 | None => 0 end) +
   (match pb_queue s with Some q => 1 + 3 * Z.of_nat (length q) | None => 0 end) + 1).

(** Outcome of a constructor: status, the object if [*sock] was set, [net]. *)
Record ctor (A : Type) := Ctor { ct_status : Z; ct_obj : option A; ct_net : Z }.
Arguments Ctor {A}. Arguments ct_status {A}. Arguments ct_obj {A}. Arguments ct_net {A}.

(** psock_create_from_buffer.c:80-183.  Sites: [al 0] socket, [al 1] input copy or
    slist, [al 2] output buffer.  The cleanup releases the partially built socket. *)
Definition create_from_buffer (al rc junk : nat -> Z) (buffer : option (list Z)) : ctor pb :=
  if negb (ok (al 0%nat)) then Ctor (al 0%nat) None 0 else
  let fail e (s : pb) (n : Z) :=
    let '(re, k) := mem_release rc s in Ctor (if ok re then e else re) None (n - k) in
  match buffer with
  | Some b =>
      let blank := Pb None 0 None None 0 0 0 in
      if negb (ok (al 1%nat)) then fail (al 1%nat) blank 1
      else Ctor STATUS_SUCCESS (Some (Pb (Some b) 0 None None 0 0 0)) 2
  | None =>
      if negb (ok (al 1%nat)) then fail (al 1%nat) (Pb None 0 None None 0 0 0) 1
      else if negb (ok (al 2%nat)) then fail (al 2%nat) (Pb None 0 (Some []) None 0 0 0) 2
      else Ctor STATUS_SUCCESS
             (Some (Pb None 0 (Some []) (Some (fresh_block junk PSOCK_BUFFER_SIZE)) PSOCK_BUFFER_SIZE 0 0)) 3
  end.

(** The socket's methods (psock_create_from_buffer.c:28-38).  The state is [None]
    once undefined behaviour has happened. *)
Definition mem_ops (al rc junk : nat -> Z) : sock_ops (option pb) :=
  {| op_vtable := STATUS_SUCCESS;
     op_read := fun s n _ =>
       match s with
       | Some p => let r := mem_read p n in RRes (rr_status r) (rr_size r) (rr_data r) (Some (rr_sock r))
       | None => RRes STATUS_SUCCESS 0 [] None
       end;
     op_write := fun s d =>
       match s with
       | Some p => match mem_write al rc junk p d with
                   | Some w => WRes (mw_status w) (mw_size w) (Some (mw_sock w))
                   | None => WRes STATUS_SUCCESS 0 None
                   end
       | None => WRes STATUS_SUCCESS 0 None
       end |}.
