(** Vocabulary for the claims about descriptor-backed sockets: which schedules are
    free of errors. *)
From Verif Require Import Base Status CodecModel MemModel AsyncModel.

(** A schedule of system calls in which every call transfers something or would
    block. *)
Definition quiet (es : list kev) : Prop :=
  Forall (fun e => match e with KGive _ => True | KFail n => n = EAGAIN | KZero => False end) es.

(** Waiting works: every yield is resumed by the socket discipline, or by an event
    the user's handler lets pass. *)
Definition waits_work (f : fenv) (ys : list yev) : Prop :=
  f_sched f = STATUS_SUCCESS /\ f_current f = STATUS_SUCCESS /\
  Forall (fun y => y_status y = STATUS_SUCCESS /\ (y_ours y = true \/ y_handler y = STATUS_SUCCESS)) ys.

(** Statuses with which waiting can fail. *)
Definition wait_status (f : fenv) (ys : list yev) (e : Z) : Prop :=
  e = ERROR_PSOCK_DOUBLE_BLOCK_UNSUPPORTED \/ e = f_sched f \/ e = f_current f \/
  exists y, In y ys /\ (e = y_status y \/ e = y_handler y).

(** Reads on a socket, one after the other: what each reported. *)
Fixpoint reads {S} (o : sock_ops S) (s : S) (ns : list (nat * bool)) : list (rres S) * S :=
  match ns with
  | [] => ([], s)
  | (n, b) :: t => let r := op_read o s n b in let '(l, s') := reads o (rr_sock r) t in (r :: l, s')
  end.

(** The same with psock_read_raw. *)
Fixpoint raw_reads {S} (o : sock_ops S) (s : S) (ns : list nat) : list (rres S) * S :=
  match ns with
  | [] => ([], s)
  | n :: t => let r := read_raw o n s in let '(l, s') := raw_reads o (rr_sock r) t in (r :: l, s')
  end.

(** The bytes a caller gets from successful calls. *)
Definition received {S} (rs : list (rres S)) : list Z :=
  concat (map (fun r => if rr_status r =? STATUS_SUCCESS then firstn (rr_size r) (rr_data r) else []) rs).
