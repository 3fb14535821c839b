(** C17-C20, C48: buffered readers. *)
From Verif Require Import Base Status CodecModel MemModel MemSpec MemProofs AsyncModel AsyncSpec AsyncProofs BrModel BrSpec BrProofs BrInst.

(** ** C17 *)
(** A reader just created on a socket has the whole remaining stream ahead of it. *)
Theorem C17_created : forall S al rc junk (w : S) (inv : S -> Prop) (rem : S -> list Z) b, inv w -> ct_obj (br_create al rc junk w) = Some b ->
  br_ok inv b /\ pending rem b = rem w /\ q_err b = false /\ length (q_buf b) = Z.to_nat 16384.
Proof. exact created. Qed.
(** Any sequence of reads and read_line calls on a valid reader has no undefined
    behaviour, leaves it valid, and what the calls took, as they report it, are
    consecutive pieces of the stream; the rest is still to come. *)
Theorem C17_exactly_once_in_order : forall S (o : sock_ops S) inv rem, stream_sock o inv rem false ->
  forall ops b, br_ok inv b -> Forall bop_ok ops ->
  exists outs b' segs, br_run o b ops = Some (outs, b') /\ br_ok inv b' /\
    length segs = length ops /\ length outs = length ops /\
    (forall i p q s, nth_error ops i = Some p -> nth_error outs i = Some q -> nth_error segs i = Some s -> took p q s) /\
    pending rem b = concat segs ++ pending rem b'.
Proof. exact exactly_once. Qed.
(** If the wrapped socket may throw away the end of its stream when it fails (an
    asynchronous socket, C16), they are consecutive pieces of a prefix. *)
Theorem C17_prefix : forall S (o : sock_ops S) inv rem lossy, stream_sock o inv rem lossy ->
  forall ops b, br_ok inv b -> Forall bop_ok ops ->
  exists outs b' segs lost, br_run o b ops = Some (outs, b') /\ br_ok inv b' /\
    length segs = length ops /\ length outs = length ops /\
    (forall i p q s, nth_error ops i = Some p -> nth_error outs i = Some q -> nth_error segs i = Some s -> took p q s) /\
    pending rem b = concat segs ++ pending rem b' ++ lost.
Proof. exact prefix. Qed.
(** One read: when it succeeds a blocking read delivers exactly [n] bytes and a
    non-blocking one at least one; if enough is buffered the wrapped socket is not
    touched.  It fails only for lack of buffered bytes, with a status of the wrapped
    socket or ERROR_PSOCK_READ_GENERAL for a read of zero bytes. *)
Theorem C17_read : forall S (o : sock_ops S) inv rem lossy b n block, stream_sock o inv rem lossy -> br_ok inv b ->
  exists r, br_read o b n block = Some r /\ br_ok inv (rr_sock r) /\ q_err (rr_sock r) = q_err b /\
    rr_size r = length (rr_data r) /\ (length (rr_data r) <= n)%nat /\
    ((rr_status r = STATUS_SUCCESS /\ (block = true -> length (rr_data r) = n) /\ ((0 < n)%nat -> rr_data r <> []) /\
      ((n <= length (buffered b))%nat -> length (rr_data r) = n /\ q_w (rr_sock r) = q_w b)) \/
     (rr_status r <> STATUS_SUCCESS /\ (length (buffered b) < n)%nat /\ (length (rr_data r) < n)%nat /\ (block = false -> rr_data r = []) /\
      (rr_status r = ERROR_PSOCK_READ_GENERAL \/ exists s k, (0 < k)%nat /\ rr_status r = rr_status (op_read o s k false)) /\
      (smooth_sock o inv rem -> rem (q_w (rr_sock r)) = []))).
Proof. exact read_contract. Qed.
(** The wrapped socket is never asked for zero bytes: what it would do then makes no
    difference to any history. *)
Theorem C17_never_asks_for_zero : forall S (o1 o2 : sock_ops S) inv rem lossy, stream_sock o1 inv rem lossy ->
  op_vtable o2 = op_vtable o1 -> (forall s n, (0 < n)%nat -> op_read o2 s n false = op_read o1 s n false) ->
  forall ops b, br_ok inv b -> Forall bop_ok ops -> br_run o2 b ops = br_run o1 b ops.
Proof. exact br_run_nonzero. Qed.
(** A reader is itself a socket of the same kind (readers can be nested). *)
Theorem C17_reader_is_a_socket : forall S (o : sock_ops S) inv rem lossy, stream_sock o inv rem lossy ->
  stream_sock (br_ops o) (fun s => exists b, s = Some b /\ br_ok inv b)
    (fun s => match s with Some b => pending rem b | None => [] end) lossy.
Proof. exact br_stream. Qed.
(** An invalid wrapped socket is reported by the first read that needs it, and the
    buffered bytes are kept; writes go straight through. *)
Theorem C17_invalid_socket : forall S (o : sock_ops S) inv b n block, op_vtable o <> STATUS_SUCCESS -> br_ok inv b ->
  (length (buffered b) < n)%nat ->
  exists b', br_read o b n block = Some (RRes (op_vtable o) 0 [] b') /\ buffered b' = buffered b /\ q_w b' = q_w b.
Proof. exact invalid_socket. Qed.
Theorem C17_write : forall S (o : sock_ops S) b d,
  (op_vtable o <> STATUS_SUCCESS -> br_write o b d = WRes (op_vtable o) (length d) b /\ op_write (br_ops o) (Some b) d = WRes (op_vtable o) (length d) (Some b)) /\
  (op_vtable o = STATUS_SUCCESS ->
     let w := op_write o (q_w b) d in let b' := Br (q_buf b) (q_size b) (q_off b) (q_err b) (wr_sock w) in
     br_write o b d = WRes (wr_status w) (wr_size w) b' /\ op_write (br_ops o) (Some b) d = WRes (wr_status w) (wr_size w) (Some b')).
Proof.
  intros S o b d. unfold br_ops, br_write. cbn [op_write]. split; intros H.
  - rewrite (proj2 (ok_false _) H). auto.
  - rewrite H. change (negb (ok STATUS_SUCCESS)) with false. auto.
Qed.
(** Descriptor, asynchronous and in-memory sockets are such streams. *)
Theorem C17_descriptor_is_stream : stream_sock fd_ops (fun _ => True) k_in false.
Proof. exact fd_stream. Qed.
Theorem C17_memory_is_smooth : forall al rc junk, smooth_sock (mem_ops al rc junk) (fun o => o <> None) mem_rem.
Proof. exact mem_smooth. Qed.
Theorem C17_async_is_stream : forall f, stream_sock (async_ops f)
  (fun o => match o with Some a => quiet (k_rs (a_k a)) | None => False end)
  (fun o => match o with Some a => k_in (a_k a) | None => [] end) true.
Proof. exact async_stream. Qed.
(** Reads and lines over a descriptor that delivers in small pieces. *)
Example C17_example :
  let k := Kern [1;2;3;10;4;5;6;7;8;9] [KGive 0; KGive 1; KGive 4; KFail 11; KGive 0] [] [] in
  match ct_obj (br_create (fun _ => 0) (fun _ => 0) (fun _ => 0) k) with
  | Some b => match br_run fd_ops b [BRead 2 true; BLine [0;0;0;0;0] 5; BRead 3 false; BRead 3 true] with
              | Some (outs, _) => outs = [ORead 0 2 [1;2]; OLine 0 2 [3;0;0;0;0]; ORead 0 3 [4;5;6]; ORead ERROR_PSOCK_READ_WOULD_BLOCK 0 []]
              | None => False
              end
  | None => False
  end.
Proof. vm_compute. auto. Qed.

(** ** C18 *)
(** One call, over any wrapped socket and any reader state.  The caller's buffer is
    never overrun (the model would have no result), and the outcome is one of: the
    size is too small and nothing happens; a line of fewer than [n] bytes, its newline
    consumed but not stored; [n - 1] bytes of a longer line, reported as truncated;
    what came before the stream failed, reported as a line; or nothing, as
    ERROR_PSOCK_READ_GENERAL with the buffer untouched. *)
Theorem C18_read_line : forall S (o : sock_ops S) inv rem lossy b ub n, stream_sock o inv rem lossy -> br_ok inv b ->
  (n <= length ub)%nat ->
  exists r, read_line o b ub n = Some r /\ br_ok inv (l_br r) /\
  exists l lost, ~ In 10 l /\ (lossy = false -> lost = []) /\
  (((n <= 1)%nat /\ r = LRes ERROR_PSOCK_BR_READ_LINE_BUFFER_SIZE_TOO_SMALL n ub b) \/
   (1 < n)%nat /\
   ((l_status r = STATUS_SUCCESS /\ pending rem b = l ++ 10 :: pending rem (l_br r) /\ (length l < n)%nat /\
     l_size r = (length l + 1)%nat /\ l_ub r = l ++ 0 :: skipn (length l + 1) ub) \/
    (l_status r = ERROR_PSOCK_BR_READ_LINE_TRUNCATED /\ pending rem b = l ++ pending rem (l_br r) /\
     (length l + 1 = n)%nat /\ l_size r = length l /\ l_ub r = l ++ 0 :: skipn (length l + 1) ub) \/
    (l_status r = STATUS_SUCCESS /\ q_err (l_br r) = true /\ l <> [] /\ pending rem b = l ++ pending rem (l_br r) ++ lost /\ (length l + 1 < n)%nat /\
     l_size r = (length l + 1)%nat /\ l_ub r = l ++ 0 :: skipn (length l + 1) ub) \/
    (l_status r = ERROR_PSOCK_READ_GENERAL /\ q_err (l_br r) = true /\ buffered b = [] /\ pending rem b = pending rem (l_br r) ++ lost /\
     l_size r = n /\ l_ub r = ub))).
Proof. exact line_contract. Qed.
(** When the wrapped socket fails only at its end, the call returns what the stream
    says, exactly, except for a line that fits to the byte. *)
Theorem C18_next_line_partial : forall S (o : sock_ops S) inv rem b ub n, smooth_sock o inv rem -> br_ok inv b ->
  (n <= length ub)%nat -> (q_err b = true -> pending rem b = []) -> ~ exact_fit n (pending rem b) ->
  exists r, read_line o b ub n = Some r /\ br_ok inv (l_br r) /\ (q_err (l_br r) = true -> pending rem (l_br r) = []) /\
    (l_status r, l_size r, l_ub r, pending rem (l_br r)) = line_spec n ub (pending rem b).
Proof. exact line_smooth. Qed.
Example C18_smooth_example :
  let k := Kern [97;98;99;10;100;101;102;103;10;104] [KGive 0; KGive 5] [] [] in
  gives k /\ ~ exact_fit 5 (k_in k) /\
  line_spec 5 [1;1;1;1;1] (k_in k) = (STATUS_SUCCESS, 4%nat, [97;98;99;0;1], [100;101;102;103;10;104]) /\
  line_spec 4 [1;1;1;1] (skipn 4 (k_in k)) = (ERROR_PSOCK_BR_READ_LINE_TRUNCATED, 3%nat, [100;101;102;0], [103;10;104]).
Proof.
  cbv zeta. split; [repeat constructor; eauto|]. split; [unfold exact_fit; vm_compute; intros (_ & K & _); discriminate|].
  split; reflexivity.
Qed.
(** False in general: over a non-blocking descriptor, a line interrupted by a
    would-block is reported as complete and the rest of the stream is never
    returned. *)
Theorem C18_interrupted_line_refuted : exists k b outs b',
  k_in k = [97;98;99;10] /\ quiet (k_rs k) /\ ct_obj (br_create (fun _ => 0) (fun _ => 0) (fun _ => 0) k) = Some b /\
  br_run fd_ops b [BLine [0;0;0;0;0;0] 6; BLine [0;0;0;0;0;0] 6; BLine [0;0;0;0;0;0] 6] = Some (outs, b') /\
  outs = [OLine STATUS_SUCCESS 3 [97;98;0;0;0;0]; OLine ERROR_PSOCK_READ_GENERAL 6 [0;0;0;0;0;0]; OLine ERROR_PSOCK_READ_GENERAL 6 [0;0;0;0;0;0]] /\
  k_in (q_w b') = [99;10].
Proof.
  exists (Kern [97;98;99;10] [KGive 1; KFail 11] [] []). do 3 eexists. split; [reflexivity|]. split; [repeat constructor|].
  split; [reflexivity|]. split; [vm_compute; reflexivity|]. split; reflexivity.
Qed.

(** ** C19 *)
(** True when the wrapped sockets fail only at their end and no line fits a buffer to
    the byte: two sockets, whatever their chunking, with the same bytes give the same
    results, those of the specification. *)
Theorem C19_chunking_irrelevant_partial : forall S1 (o1 : sock_ops S1) inv1 rem1 S2 (o2 : sock_ops S2) inv2 rem2 b1 b2 cs,
  smooth_sock o1 inv1 rem1 -> smooth_sock o2 inv2 rem2 -> br_ok inv1 b1 -> br_ok inv2 b2 ->
  q_err b1 = false -> q_err b2 = false -> pending rem1 b1 = pending rem2 b2 ->
  Forall (fun c => (snd c <= length (fst c))%nat) cs -> no_exact_fit cs (pending rem1 b1) ->
  exists outs b1' b2', br_run o1 b1 (map (fun c => BLine (fst c) (snd c)) cs) = Some (outs, b1') /\
    br_run o2 b2 (map (fun c => BLine (fst c) (snd c)) cs) = Some (outs, b2') /\
    outs = fst (lines_spec cs (pending rem1 b1)) /\ pending rem1 b1' = pending rem2 b2'.
Proof. exact chunking. Qed.
Example C19_example : no_exact_fit [([1;1;1;1], 4%nat); ([1;1], 2%nat); ([1;1;1], 3%nat)] [97;98;10;99;100;10] /\
  fst (lines_spec [([1;1;1;1], 4%nat); ([1;1], 2%nat); ([1;1;1], 3%nat)] [97;98;10;99;100;10]) =
    [OLine 0 3 [97;98;0;1]; OLine ERROR_PSOCK_BR_READ_LINE_TRUNCATED 1 [99;0]; OLine 0 2 [100;0;1]].
Proof.
  split; [|reflexivity]. cbn. unfold exact_fit. cbn. repeat split; intros (_ & K & _); discriminate.
Qed.
(** False in general: the same three bytes "ab\n", a buffer of three; depending on
    where a chunk ends the line is complete or truncated, and the following call
    returns end of stream or an empty line. *)
Theorem C19_chunk_boundary_refuted : exists k1 k2 b1 b2 outs1 outs2 b1' b2',
  k_in k1 = k_in k2 /\ gives k1 /\ gives k2 /\
  ct_obj (br_create (fun _ => 0) (fun _ => 0) (fun _ => 0) k1) = Some b1 /\ ct_obj (br_create (fun _ => 0) (fun _ => 0) (fun _ => 0) k2) = Some b2 /\
  br_run fd_ops b1 [BLine [1;1;1] 3; BLine [1;1;1] 3] = Some (outs1, b1') /\
  br_run fd_ops b2 [BLine [1;1;1] 3; BLine [1;1;1] 3] = Some (outs2, b2') /\
  outs1 = [OLine STATUS_SUCCESS 3 [97;98;0]; OLine ERROR_PSOCK_READ_GENERAL 3 [1;1;1]] /\
  outs2 = [OLine ERROR_PSOCK_BR_READ_LINE_TRUNCATED 2 [97;98;0]; OLine STATUS_SUCCESS 1 [0;1;1]].
Proof.
  exists (Kern [97;98;10] [] [] []), (Kern [97;98;10] [KGive 1] [] []). do 6 eexists.
  split; [reflexivity|]. split; [constructor|]. split; [repeat constructor; eauto|].
  split; [reflexivity|]. split; [reflexivity|]. split; [vm_compute; reflexivity|]. split; [vm_compute; reflexivity|]. split; reflexivity.
Qed.
(** Nor is it independent of transient would-blocks: see C18_interrupted_line_refuted. *)

(** ** C20 *)
(** True when the second allocation succeeds, or the clean-up fails. *)
Theorem C20_reports_failure_partial : forall S al rc junk (w : S),
  al 1%nat = STATUS_SUCCESS \/ rc 1%nat <> STATUS_SUCCESS ->
  (ct_status (br_create al rc junk w) = STATUS_SUCCESS <-> ct_obj (br_create al rc junk w) <> None).
Proof. exact br_create_partial. Qed.
(** False: whenever the structure can be allocated and its buffer cannot, and the
    clean-up works, success is reported and the reader is not set. *)
Theorem C20_success_without_reader_refuted : forall S al rc junk (w : S),
  al 0%nat = STATUS_SUCCESS -> al 1%nat <> STATUS_SUCCESS -> rc 1%nat = STATUS_SUCCESS ->
  ct_status (br_create al rc junk w) = STATUS_SUCCESS /\ ct_obj (br_create al rc junk w) = None.
Proof.
  intros S al rc junk w H0 H1 H2. unfold br_create, br_release. rewrite H0, (proj2 (ok_false _) H1). change (negb (ok STATUS_SUCCESS)) with false. cbn. auto.
Qed.
Example C20_example : let al := fun k => if (k =? 1)%nat then ERROR_GENERAL_OUT_OF_MEMORY else STATUS_SUCCESS in
  al 0%nat = STATUS_SUCCESS /\ al 1%nat <> STATUS_SUCCESS /\
  ct_status (br_create (fun k => if (k =? 0)%nat then ERROR_GENERAL_OUT_OF_MEMORY else 0) (fun _ => 0) (fun _ => 0) tt) = ERROR_GENERAL_OUT_OF_MEMORY.
Proof. vm_compute. repeat split. discriminate. Qed.

(** ** C48 *)
(** Buffered reader: blocks allocated are owned or reclaimed (the status is C20). *)
Theorem C48_br_create : forall S al rc junk (w : S), (forall k, rc k = STATUS_SUCCESS) ->
  let c := br_create al rc junk w in
  (al 0%nat <> STATUS_SUCCESS -> ct_status c = al 0%nat /\ ct_obj c = None) /\
  (al 0%nat = STATUS_SUCCESS -> al 1%nat = STATUS_SUCCESS -> ct_status c = STATUS_SUCCESS /\ ct_obj c <> None) /\
  ct_net c = (if ct_obj c then 2 else 0) /\
  (forall b, ct_obj c = Some b -> q_w b = w) /\
  forall has_buf rc', br_release rc' has_buf =
    (if has_buf && negb (rc' 0%nat =? STATUS_SUCCESS) then rc' 0%nat else rc' 1%nat, if has_buf then 2 else 1).
Proof. exact br_blocks. Qed.

Print Assumptions C17_created.
Print Assumptions C17_exactly_once_in_order.
Print Assumptions C17_prefix.
Print Assumptions C17_read.
Print Assumptions C17_never_asks_for_zero.
Print Assumptions C17_reader_is_a_socket.
Print Assumptions C17_invalid_socket.
Print Assumptions C17_write.
Print Assumptions C17_descriptor_is_stream.
Print Assumptions C17_memory_is_smooth.
Print Assumptions C17_async_is_stream.
Print Assumptions C18_read_line.
Print Assumptions C18_next_line_partial.
Print Assumptions C18_interrupted_line_refuted.
Print Assumptions C19_chunking_irrelevant_partial.
Print Assumptions C19_chunk_boundary_refuted.
Print Assumptions C20_reports_failure_partial.
Print Assumptions C20_success_without_reader_refuted.
Print Assumptions C48_br_create.
