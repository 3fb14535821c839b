(** What a buffered reader is supposed to deliver, in terms of the byte stream of
    the wrapped socket. *)
From Verif Require Import Base Status CodecModel MemModel BrModel.

(** [rem s] is what remains of the stream in state [s].  Reads that succeed deliver
    its next bytes; reads that fail deliver nothing, and consume nothing unless the
    socket is [lossy], in which case they may throw away its end. *)
Record stream_sock {S} (o : sock_ops S) (inv : S -> Prop) (rem : S -> list Z) (lossy : bool) : Prop :=
  { ss_vtable : op_vtable o = STATUS_SUCCESS;
    ss_read : forall s n, inv s -> (0 < n)%nat ->
      let r := op_read o s n false in
      inv (rr_sock r) /\ (length (rr_data r) <= n)%nat /\
      (rr_status r = STATUS_SUCCESS -> rr_size r = length (rr_data r) /\ rem s = rr_data r ++ rem (rr_sock r)) /\
      (rr_status r <> STATUS_SUCCESS -> exists lost, rem s = rem (rr_sock r) ++ lost /\ (lossy = false -> lost = [])) }.

(** In addition, reads fail (or report zero bytes) only at the end of the stream. *)
Record smooth_sock {S} (o : sock_ops S) (inv : S -> Prop) (rem : S -> list Z) : Prop :=
  { sm_stream : stream_sock o inv rem false;
    sm_progress : forall s n, inv s -> (0 < n)%nat -> rem s <> [] ->
      rr_status (op_read o s n false) = STATUS_SUCCESS /\ rr_size (op_read o s n false) <> 0%nat }.

(** Bytes buffered but not yet delivered, and everything still to come. *)
Definition buffered {S} (b : br S) : list Z := firstn (q_size b - q_off b) (skipn (q_off b) (q_buf b)).
Definition pending {S} (rem : S -> list Z) (b : br S) : list Z := buffered b ++ rem (q_w b).

(** States of a reader between calls. *)
Definition br_ok {S} (inv : S -> Prop) (b : br S) : Prop :=
  (q_off b <= q_size b)%nat /\ (q_size b <= length (q_buf b))%nat /\ (0 < length (q_buf b))%nat /\
  ((0 < q_off b)%nat \/ (q_size b < length (q_buf b))%nat) /\ inv (q_w b).

(** Histories of reads and read_line calls. *)
Inductive bop := BRead (n : nat) (block : bool) | BLine (ub : list Z) (n : nat).
Inductive bout := ORead (status : Z) (size : nat) (data : list Z) | OLine (status : Z) (size : nat) (ub : list Z).
Fixpoint br_run {S} (o : sock_ops S) (b : br S) (ops : list bop) : option (list bout * br S) :=
  match ops with
  | [] => Some ([], b)
  | BRead n block :: t =>
      match br_read o b n block with
      | Some r => match br_run o (rr_sock r) t with
                  | Some (l, b') => Some (ORead (rr_status r) (rr_size r) (rr_data r) :: l, b')
                  | None => None
                  end
      | None => None
      end
  | BLine ub n :: t =>
      match read_line o b ub n with
      | Some r => match br_run o (l_br r) t with
                  | Some (l, b') => Some (OLine (l_status r) (l_size r) (l_ub r) :: l, b')
                  | None => None
                  end
      | None => None
      end
  end.
Definition bop_ok (p : bop) : Prop := match p with BRead _ _ => True | BLine ub n => (n <= length ub)%nat end.

(** The caller's buffer after storing the text [l] and a NUL at its start. *)
Definition stored (l ub : list Z) : list Z := l ++ 0 :: skipn (S (length l)) ub.

(** Which bytes of the stream a call took and how it reported them. *)
Inductive took : bop -> bout -> list Z -> Prop :=
| took_read : forall n block e d, took (BRead n block) (ORead e (length d) d) d
| took_line : forall ub n l, ~ In 10 l -> (length l < n)%nat ->
    took (BLine ub n) (OLine STATUS_SUCCESS (length l + 1) (stored l ub)) (l ++ [10])
| took_last : forall ub n l, ~ In 10 l -> (length l + 1 < n)%nat -> l <> [] ->
    took (BLine ub n) (OLine STATUS_SUCCESS (length l + 1) (stored l ub)) l
| took_piece : forall ub n l, ~ In 10 l -> (length l + 1 = n)%nat -> l <> [] ->
    took (BLine ub n) (OLine ERROR_PSOCK_BR_READ_LINE_TRUNCATED (length l) (stored l ub)) l
| took_none : forall ub n, (1 < n)%nat -> took (BLine ub n) (OLine ERROR_PSOCK_READ_GENERAL n ub) []
| took_small : forall ub n, (n <= 1)%nat ->
    took (BLine ub n) (OLine ERROR_PSOCK_BR_READ_LINE_BUFFER_SIZE_TOO_SMALL n ub) [].

(** The text before the first newline, and what follows it if there is one. *)
Fixpoint cut_line (l : list Z) : list Z * option (list Z) :=
  match l with
  | [] => ([], None)
  | c :: t => if c =? 10 then ([], Some t) else let '(a, r) := cut_line t in (c :: a, r)
  end.

(** What read_line with a buffer of [n] bytes should return on a stream [p], and
    what should remain of the stream. *)
Definition line_spec (n : nat) (ub p : list Z) : Z * nat * list Z * list Z :=
  if (n <=? 1)%nat then (ERROR_PSOCK_BR_READ_LINE_BUFFER_SIZE_TOO_SMALL, n, ub, p) else
  let '(l, r) := cut_line p in
  if (length l <? n - 1)%nat then
    match r, l with
    | Some rest, _ => (STATUS_SUCCESS, length l + 1, stored l ub, rest)%nat
    | None, [] => (ERROR_PSOCK_READ_GENERAL, n, ub, [])
    | None, _ => (STATUS_SUCCESS, length l + 1, stored l ub, [])%nat
    end
  else (ERROR_PSOCK_BR_READ_LINE_TRUNCATED, n - 1, stored (firstn (n - 1) l) ub, skipn (n - 1) p)%nat.

(** The case the code does not decide by the stream alone: a line of exactly the
    capacity of the caller's buffer, followed by a newline. *)
Definition exact_fit (n : nat) (p : list Z) : Prop :=
  (1 < n)%nat /\ length (fst (cut_line p)) = (n - 1)%nat /\ snd (cut_line p) <> None.

(** A sequence of read_line calls with buffers of the given contents and sizes. *)
Fixpoint lines_spec (cs : list (list Z * nat)) (p : list Z) : list bout * list Z :=
  match cs with
  | [] => ([], p)
  | (ub, n) :: t => let '(e, z, ub', p') := line_spec n ub p in
                    let '(l, p'') := lines_spec t p' in (OLine e z ub' :: l, p'')
  end.
(** No call of the sequence meets the undecided case. *)
Fixpoint no_exact_fit (cs : list (list Z * nat)) (p : list Z) : Prop :=
  match cs with
  | [] => True
  | (ub, n) :: t => ~ exact_fit n p /\ no_exact_fit t (snd (line_spec n ub p))
  end.
