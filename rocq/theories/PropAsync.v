(** C15, C16, C51, C52: descriptor-backed sockets, their asynchronous wrapper, raw
    reads and optional methods. *)
From Verif Require Import Base Status CodecModel MemModel MemProofs AsyncModel AsyncSpec AsyncProofs BrModel BrSpec BrProofs BrInst.

(** ** C15 *)
(** Whatever the schedule, a read terminates, reports as many bytes as it stored, at
    most [n], and these are exactly the bytes taken from the stream.  A blocking read
    that succeeds stored [n] bytes; a non-blocking one at least one.  Nothing else of
    the socket changes but the schedule consumed. *)
Theorem C15_read_takes_next_bytes : forall f a n block, exists r,
  async_read f STATUS_SUCCESS a n block = Some r /\
  k_in (a_k a) = rr_data r ++ k_in (a_k (rr_sock r)) /\
  rr_size r = length (rr_data r) /\ (length (rr_data r) <= n)%nat /\
  (rr_status r = STATUS_SUCCESS -> block = true -> length (rr_data r) = n) /\
  (rr_status r = STATUS_SUCCESS -> block = false -> (0 < n)%nat -> rr_data r <> []) /\
  k_out (a_k (rr_sock r)) = k_out (a_k a) /\ k_ws (a_k (rr_sock r)) = k_ws (a_k a) /\
  a_type (rr_sock r) = a_type a /\ a_wfib (rr_sock r) = a_wfib a /\ (a_rfib a = 0 -> a_rfib (rr_sock r) = 0).
Proof.
  intros f a n block. destruct (async_read_post f a n block) as (r & R1 & (d & P1 & P2 & P3 & P4 & P5 & P6 & P7 & P8 & P9 & P10 & P11 & P12 & P13 & P14)).
  exists r. cbn [app] in P1. rewrite P1 in *. do 4 (split; [auto|]). split.
  - intros H B. destruct P14 as [(_ & [K|(K & _)])|[(K & _)|[(K & _)|[(K & _)|(K & K1 & _)]]]]; first [congruence | rewrite K in H; discriminate H].
  - split; [|auto]. intros H B N ->. destruct P14 as [(_ & [K|(_ & K)])|[(K & _)|[(K & _)|[(K & _)|(K & K1 & _)]]]]; first [cbn in K; lia | cbn in K; congruence | rewrite K in H; discriminate H].
Qed.
(** How a read can fail: a system error other than would-block; end of stream, and
    then (without system errors) nothing is left; would-block, only when not allowed
    to block and with nothing read; a failed wait, only when allowed to block. *)
Theorem C15_read_outcomes : forall f a n block r, async_read f STATUS_SUCCESS a n block = Some r ->
  rr_status r = STATUS_SUCCESS \/
  (rr_status r = ERROR_PSOCK_READ_GENERAL /\ exists e, In (KFail e) (k_rs (a_k a)) /\ e <> EAGAIN) \/
  (rr_status r = ERROR_PSOCK_READ_EOF /\ (quiet (k_rs (a_k a)) -> k_in (a_k (rr_sock r)) = [])) \/
  (rr_status r = ERROR_PSOCK_READ_WOULD_BLOCK /\ block = false /\ rr_data r = []) \/
  (block = true /\ (a_type a = PSOCK_TYPE_WRAP_ASYNC -> wait_status f (a_ys a) (rr_status r))).
Proof.
  intros f a n block r R. destruct (async_read_post f a n block) as (r' & R1 & (d & P1 & P2 & P3 & P4 & P5 & P6 & P7 & P8 & P9 & P10 & P11 & P12 & P13 & P14)).
  rewrite R1 in R. injection R as <-. cbn [app] in *. rewrite P1.
  destruct P14 as [(K & _)|[(K & K1)|[(K & K1)|[(K & K1 & K2)|(K & K1 & K2)]]]].
  - left; auto.
  - right; left; auto.
  - right; right; left; auto.
  - do 3 right; left. auto.
  - do 4 right. auto.
Qed.
(** Without system errors, and when waits are answered, a blocking read of [n] bytes
    succeeds exactly if the peer sends that many before closing, and then stores the
    next [n] bytes, for every schedule of partial reads and would-blocks. *)
Theorem C15_blocking_read_completes : forall f a n, quiet (k_rs (a_k a)) -> waits_work f (a_ys a) ->
  a_type a = PSOCK_TYPE_WRAP_ASYNC -> a_rfib a = 0 ->
  exists r, async_read f STATUS_SUCCESS a n true = Some r /\
    ((n <= length (k_in (a_k a)))%nat -> rr_status r = STATUS_SUCCESS /\ rr_size r = n /\ rr_data r = firstn n (k_in (a_k a)) /\
       k_in (a_k (rr_sock r)) = skipn n (k_in (a_k a))) /\
    ((length (k_in (a_k a)) < n)%nat -> rr_status r = ERROR_PSOCK_READ_EOF).
Proof.
  intros f a n Q W T R. destruct (async_read_post f a n true) as (r & R1 & (d & P1 & P2 & P3 & P4 & _ & _ & _ & _ & _ & _ & _ & _ & _ & P14)).
  destruct (read_loop_quiet (S (length (k_rs (a_k a)) + n)) f a [] n ltac:(lia) Q W T R) as (r' & R2 & R3 & _).
  exists r. split; [auto|]. unfold async_read in R1. change (negb (ok STATUS_SUCCESS)) with false in R1. cbv iota in R1.
  rewrite R1 in R2. injection R2 as <-. cbn [app] in P1. rewrite P1 in *. split; intros L.
  - destruct (Nat.leb_spec n (length (k_in (a_k a)))); [|lia]. split; [auto|].
    destruct P14 as [(_ & [K|(K & _)])|[(K & _)|[(K & _)|[(K & _)|(K & K1 & K2)]]]]; try congruence; try (rewrite K in R3; discriminate R3).
    rewrite P2, K. split; [auto|]. rewrite P4. rewrite firstn_exact, skipn_exact by auto. auto.
  - destruct (Nat.leb_spec n (length (k_in (a_k a)))); [lia|]. auto.
Qed.
(** A non-blocking read never waits. *)
Theorem C15_nonblocking_never_waits : forall f a n r, async_read f STATUS_SUCCESS a n false = Some r ->
  a_log (rr_sock r) = a_log a /\ a_ys (rr_sock r) = a_ys a /\ a_rfib (rr_sock r) = a_rfib a.
Proof.
  intros f a n r R. destruct (async_read_post f a n false) as (r' & R1 & (d & P1 & P2 & P3 & P4 & P5 & P6 & P7 & P8 & P9 & P10 & P11 & P12 & P13 & P14)).
  rewrite R1 in R. injection R as <-. auto.
Qed.
(** Reads wait for readability, writes for writability, and only their own side. *)
Theorem C15_waits_for_its_side : forall f a,
  (forall n block r, async_read f STATUS_SUCCESS a n block = Some r -> exists m, a_log (rr_sock r) = a_log a ++ repeat WAIT_READ m) /\
  (forall d r, async_write f STATUS_SUCCESS a d = Some r -> exists m, a_log (wr_sock r) = a_log a ++ repeat WAIT_WRITE m).
Proof.
  intros f a. split.
  - intros n block r R. destruct (async_read_post f a n block) as (r' & R1 & (d & P1 & P2 & P3 & P4 & P5 & P6 & P7 & P8 & P9 & P10 & P11 & _)).
    rewrite R1 in R. injection R as <-. auto.
  - intros d r R. destruct (async_write_post f a d) as (r' & R1 & (c & _ & _ & _ & _ & _ & _ & _ & P & _)).
    rewrite R1 in R. injection R as <-. auto.
Qed.
(** A fiber that must wait while another is already waiting on that side gets
    ERROR_PSOCK_DOUBLE_BLOCK_UNSUPPORTED and the other keeps waiting. *)
Theorem C15_second_reader_refused : forall f a n t, a_type a = PSOCK_TYPE_WRAP_ASYNC -> f_sched f = STATUS_SUCCESS ->
  f_current f = STATUS_SUCCESS -> a_rfib a <> 0 -> (0 < n)%nat -> k_rs (a_k a) = KFail EAGAIN :: t ->
  exists r, async_read f STATUS_SUCCESS a n true = Some r /\ rr_status r = ERROR_PSOCK_DOUBLE_BLOCK_UNSUPPORTED /\
    rr_size r = 0%nat /\ a_rfib (rr_sock r) = a_rfib a /\ a_log (rr_sock r) = a_log a.
Proof. exact async_read_double_block. Qed.
(** psock_read_block and psock_write_block, exactly: the wait goes on while the
    user's handler lets foreign events pass and ends with the first event that is
    the socket's, or that the handler rejects, or with a failing yield. *)
Theorem C15_wait_exact : forall f a pre y rest, f_sched f = STATUS_SUCCESS -> f_current f = STATUS_SUCCESS ->
  a_type a = PSOCK_TYPE_WRAP_ASYNC -> a_ys a = pre ++ y :: rest ->
  Forall (fun y => y_status y = STATUS_SUCCESS /\ y_ours y = false /\ y_handler y = STATUS_SUCCESS) pre ->
  y_status y <> STATUS_SUCCESS \/ y_ours y = true \/ y_handler y <> STATUS_SUCCESS ->
  let e := if negb (ok (y_status y)) then y_status y else if y_ours y then STATUS_SUCCESS else y_handler y in
  (a_rfib a = 0 -> read_block f a = (e, Async (a_type a) (a_k a) 0 (a_wfib a) rest (a_log a ++ repeat 0 (S (length pre))))) /\
  (a_wfib a = 0 -> write_block f a = (e, Async (a_type a) (a_k a) (a_rfib a) 0 rest (a_log a ++ repeat 1 (S (length pre))))).
Proof. exact blocks_exact. Qed.
Theorem C15_wait_refused : forall f a,
  (a_type a <> 3 -> read_block f a = (ERROR_PSOCK_UNSUPPORTED_TYPE, a) /\ write_block f a = (ERROR_PSOCK_UNSUPPORTED_TYPE, a)) /\
  (a_type a = 3 ->
    (f_sched f <> STATUS_SUCCESS -> read_block f a = (f_sched f, a) /\ write_block f a = (f_sched f, a)) /\
    (f_sched f = STATUS_SUCCESS -> f_current f <> STATUS_SUCCESS -> read_block f a = (f_current f, a) /\ write_block f a = (f_current f, a)) /\
    (f_sched f = STATUS_SUCCESS -> f_current f = STATUS_SUCCESS ->
      (a_rfib a <> 0 -> read_block f a = (ERROR_PSOCK_DOUBLE_BLOCK_UNSUPPORTED, a)) /\
      (a_wfib a <> 0 -> write_block f a = (ERROR_PSOCK_DOUBLE_BLOCK_UNSUPPORTED, a)))).
Proof. exact blocks_refused. Qed.
(** Whatever the schedule, a write terminates and what was handed to the descriptor
    is a prefix of the data; on success all of it, and the size reported is its. *)
Theorem C15_write_hands_over_in_order : forall f a d, exists r c,
  async_write f STATUS_SUCCESS a d = Some r /\ (c <= length d)%nat /\
  k_out (a_k (wr_sock r)) = k_out (a_k a) ++ firstn c d /\
  k_in (a_k (wr_sock r)) = k_in (a_k a) /\ k_rs (a_k (wr_sock r)) = k_rs (a_k a) /\
  a_type (wr_sock r) = a_type a /\ a_rfib (wr_sock r) = a_rfib a /\ (a_wfib a = 0 -> a_wfib (wr_sock r) = 0) /\
  ((wr_status r = STATUS_SUCCESS /\ c = length d /\ wr_size r = length d) \/
   (wr_status r = ERROR_PSOCK_WRITE_GENERAL /\ wr_size r = c /\ exists e, In (KFail e) (k_ws (a_k a)) /\ e <> EAGAIN) \/
   (wr_status r = ERROR_PSOCK_WRITE_EOF /\ wr_size r = length d /\ ~ quiet (k_ws (a_k a))) \/
   (wr_status r <> STATUS_SUCCESS /\ wr_size r = length d /\ (a_type a = PSOCK_TYPE_WRAP_ASYNC -> wait_status f (a_ys a) (wr_status r)))).
Proof.
  intros f a d. destruct (async_write_post f a d) as (r & R1 & (c & P1 & P2 & P3 & P4 & P5 & P6 & P7 & P8 & P9 & P10)).
  exists r, c. do 8 (split; [auto|]). destruct P10 as [P10|[(A & B & C)|[P10|P10]]]; auto.
  right. left. split; [auto|]. split; [rewrite B; lia|auto].
Qed.
Theorem C15_write_completes : forall f a d, quiet (k_ws (a_k a)) -> waits_work f (a_ys a) ->
  a_type a = PSOCK_TYPE_WRAP_ASYNC -> a_wfib a = 0 ->
  exists r, async_write f STATUS_SUCCESS a d = Some r /\ wr_status r = STATUS_SUCCESS /\ wr_size r = length d /\
    k_out (a_k (wr_sock r)) = k_out (a_k a) ++ d.
Proof.
  intros f a d Q W T F. destruct (C15_write_hands_over_in_order f a d) as (r & c & R1 & P1 & P2 & P3 & P4 & P5 & P6 & P7 & P8).
  destruct (write_loop_quiet (S (length (k_ws (a_k a)) + length d)) f a (length d) d ltac:(lia) Q W T F) as (r' & R2 & R3).
  exists r. split; [auto|]. unfold async_write in R1. change (negb (ok STATUS_SUCCESS)) with false in R1. cbv iota in R1.
  rewrite R1 in R2. injection R2 as <-. split; [auto|].
  destruct P8 as [(A & B & C)|[(A & _)|[(A & _)|(A & _)]]]; try congruence; try (rewrite A in R3; discriminate R3).
  split; [auto|]. rewrite P2, B, firstn_all. reflexivity.
Qed.
(** An invalid wrapped socket is reported and nothing is transferred. *)
Theorem C15_invalid_socket : forall f vst a, vst <> STATUS_SUCCESS ->
  (forall n block, async_read f vst a n block = Some (RRes vst n [] a)) /\
  (forall d, async_write f vst a d = Some (WRes vst (length d) a)).
Proof. intros f vst a H. unfold async_read, async_write. rewrite (proj2 (ok_false _) H). auto. Qed.
(** Would-blocks, a foreign event let pass, and partial transfers. *)
Example C15_example :
  let f := Fenv 0 0 5 in
  let a := Async 3 (Kern [1;2;3;4;5] [KGive 0; KFail 11; KGive 1; KFail 11] [] [KGive 1; KFail 11]) 0 0 [Yev 0 false 0; Yev 0 true 0] [] in
  quiet (k_rs (a_k a)) /\ waits_work f (a_ys a) /\
  match async_read f STATUS_SUCCESS a 4 true with
  | Some r => rr_status r = STATUS_SUCCESS /\ rr_data r = [1;2;3;4] /\ a_log (rr_sock r) = [0;0;0] /\
      match async_write f STATUS_SUCCESS (rr_sock r) [7;8;9] with
      | Some w => wr_status w = STATUS_SUCCESS /\ k_out (a_k (wr_sock w)) = [7;8;9] /\ a_log (wr_sock w) = [0;0;0;1]
      | None => False
      end
  | None => False
  end.
Proof.
  cbv zeta. split; [repeat constructor|]. split; [split; [reflexivity|split; [reflexivity|]]|].
  - constructor; [split; [reflexivity|right; reflexivity]|]. constructor; [split; [reflexivity|left; reflexivity]|constructor].
  - vm_compute. repeat split.
Qed.

(** ** C16 *)
(** True of plain descriptor sockets: nothing is lost or duplicated, and after enough
    non-empty psock_read_raw calls everything has been delivered. *)
Theorem C16_plain_descriptor_partial : forall ns k rs k', quiet (k_rs k) -> raw_reads fd_ops k ns = (rs, k') ->
  received rs ++ k_in k' = k_in k /\
  (Forall (fun n => (0 < n)%nat) ns -> (length (k_rs k) + length (k_in k) <= length ns)%nat -> received rs = k_in k).
Proof.
  intros ns k rs k' Q R. pose proof (raw_fd ns k Q) as A. pose proof (raw_fd_all ns k Q) as B. rewrite R in A, B. cbn [snd] in B.
  destruct A as (A & _). split; [auto|]. intros P L. specialize (B P L). rewrite B, app_nil_r in A. auto.
Qed.
Example C16_plain_example :
  let k := Kern [1;2;3;4;5] [KGive 1; KFail 11; KGive 0] [] [] in
  received (fst (raw_reads fd_ops k [4;4;4;4;4;4;4;4]%nat)) = [1;2;3;4;5].
Proof. vm_compute. reflexivity. Qed.
(** True of a buffered reader over a socket that fails only at the end of its stream:
    a blocking read of no more than what is left succeeds, so reading byte by byte
    delivers everything. *)
Theorem C16_reader_partial : forall S (o : sock_ops S) inv rem b n, smooth_sock o inv rem -> br_ok inv b ->
  (n <= length (pending rem b))%nat ->
  exists r, br_read o b n true = Some r /\ rr_status r = STATUS_SUCCESS /\ rr_data r = firstn n (pending rem b) /\
    rr_size r = n /\ pending rem (rr_sock r) = skipn n (pending rem b) /\ br_ok inv (rr_sock r).
Proof. exact read_smooth. Qed.
(** False of asynchronous sockets: whatever the peer sent, if it is less than what
    psock_read_raw asks for and the close has arrived, the call reports end of file,
    leaves the size as it was, and the bytes are gone. *)
Theorem C16_async_refuted : forall f a n, k_rs (a_k a) = [] -> (0 < length (k_in (a_k a)) < n)%nat ->
  let r := read_raw (async_ops f) n (Some a) in
  rr_status r = ERROR_PSOCK_READ_EOF /\ rr_size r = n /\ received [r] = [] /\ async_rem (rr_sock r) = [].
Proof. exact async_loses. Qed.
(** False of buffered readers: once fewer bytes than asked for are buffered and the
    stream has ended, every further read of that size fails and delivers nothing. *)
Theorem C16_reader_refuted : forall S (o : sock_ops S) inv rem lossy bs b n, stream_sock o inv rem lossy -> br_ok inv b ->
  rem (q_w b) = [] -> (length (buffered b) < n)%nat ->
  exists outs b', br_run o b (map (fun block => BRead n block) bs) = Some (outs, b') /\
    Forall (fun out => exists e, e <> STATUS_SUCCESS /\ out = ORead e 0 []) outs /\ length outs = length bs /\ buffered b' = buffered b.
Proof. exact reader_stuck. Qed.
(** Such a state is reached by reading ten bytes of thirteen. *)
Example C16_reader_example :
  let k := Kern (map Z.of_nat (seq 0 13)) [] [] [] in
  match ct_obj (br_create (fun _ => 0) (fun _ => 0) (fun _ => 0) k) with
  | Some b => match br_read fd_ops b 10 true with
              | Some r => rr_status r = STATUS_SUCCESS /\ rr_size r = 10%nat /\ k_in (q_w (rr_sock r)) = [] /\ buffered (rr_sock r) = [10;11;12]
              | None => False
              end
  | None => False
  end.
Proof. vm_compute. auto. Qed.

(** ** C51 *)
(** psock_read_raw passes on what one non-blocking read of the socket reports, except
    that on an error other than would-block the size is left as the caller set it. *)
Theorem C51_read_raw : forall S (o : sock_ops S) n s, let r := op_read o s n false in
  (op_vtable o <> STATUS_SUCCESS -> read_raw o n s = RRes (op_vtable o) n [] s) /\
  (op_vtable o = STATUS_SUCCESS ->
     (rr_status r = STATUS_SUCCESS \/ rr_status r = ERROR_PSOCK_READ_WOULD_BLOCK -> read_raw o n s = r) /\
     (rr_status r <> STATUS_SUCCESS -> rr_status r <> ERROR_PSOCK_READ_WOULD_BLOCK ->
        read_raw o n s = RRes (rr_status r) n (rr_data r) (rr_sock r))).
Proof.
  intros S o n s r. unfold read_raw. split.
  - intros H. destruct (Z.eqb_spec (op_vtable o) STATUS_SUCCESS); [congruence|reflexivity].
  - intros ->. change (negb (STATUS_SUCCESS =? STATUS_SUCCESS)) with false. cbv iota zeta. fold r. split.
    + intros [H|H]; rewrite H; reflexivity.
    + intros H1 H2. destruct (Z.eqb_spec (rr_status r) ERROR_PSOCK_READ_WOULD_BLOCK); [congruence|].
      destruct (Z.eqb_spec (rr_status r) STATUS_SUCCESS); [congruence|reflexivity].
Qed.
(** One read or write of a descriptor socket, for every behaviour of the kernel. *)
Theorem C51_descriptor_read : forall k n, let r := fd_read k n in
  k_in k = rr_data r ++ k_in (rr_sock r) /\ (length (rr_data r) <= n)%nat /\
  k_out (rr_sock r) = k_out k /\ k_ws (rr_sock r) = k_ws k /\ k_rs (rr_sock r) = tl (k_rs k) /\
  ((rr_status r = STATUS_SUCCESS /\ rr_size r = length (rr_data r)) \/
   (rr_data r = [] /\ rr_size r = n /\ exists e t, k_rs k = KFail e :: t /\
      ((e = 11 /\ rr_status r = ERROR_PSOCK_READ_WOULD_BLOCK) \/ (e <> 11 /\ rr_status r = ERROR_PSOCK_READ_GENERAL)))) /\
  (quiet (k_rs k) -> (0 < n)%nat -> rr_status r = STATUS_SUCCESS -> rr_size r = 0%nat -> k_in k = []).
Proof.
  intros k n r. destruct (fd_read_spec k n) as (A & B & C & D & E & F). do 6 (split; [auto|]).
  intros Q N H Z. destruct (fd_read_quiet k n Q N) as ([G|(_ & G)] & _); [fold r in G; rewrite G in H; discriminate|auto].
Qed.
Theorem C51_descriptor_write : forall k d, let r := fd_write k d in
  exists c, (c <= length d)%nat /\ k_out (wr_sock r) = k_out k ++ firstn c d /\
  k_in (wr_sock r) = k_in k /\ k_rs (wr_sock r) = k_rs k /\ k_ws (wr_sock r) = tl (k_ws k) /\
  ((wr_status r = STATUS_SUCCESS /\ wr_size r = c /\ (quiet (k_ws k) -> d <> [] -> c <> 0%nat) /\ (k_ws k = [] -> c = length d)) \/
   (c = 0%nat /\ wr_size r = length d /\ exists e t, k_ws k = KFail e :: t /\
      ((e = 11 /\ wr_status r = ERROR_PSOCK_WRITE_WOULD_BLOCK) \/ (e <> 11 /\ wr_status r = ERROR_PSOCK_WRITE_GENERAL)))).
Proof. exact fd_write_spec. Qed.
Example C51_example :
  rr_status (read_raw fd_ops 4 (Kern [1;2] [KFail 11] [] [])) = ERROR_PSOCK_READ_WOULD_BLOCK /\
  rr_status (read_raw fd_ops 4 (Kern [1;2] [KFail 5] [] [])) = ERROR_PSOCK_READ_GENERAL /\
  rr_data (read_raw fd_ops 4 (Kern [1;2] [KGive 0] [] [])) = [1].
Proof. vm_compute. auto. Qed.

(** ** C52 *)
(** Optional methods: an invalid vtable and a missing method are reported as such;
    otherwise the method's own status comes back. *)
Theorem C52_dispatch : forall vst defined st,
  (vst <> STATUS_SUCCESS -> dispatch vst defined st = vst) /\
  (vst = STATUS_SUCCESS -> defined = false -> dispatch vst defined st = ERROR_PSOCK_METHOD_UNDEFINED) /\
  (vst = STATUS_SUCCESS -> defined = true -> dispatch vst defined st = st) /\
  (user_dispatch false st = ERROR_PSOCK_METHOD_UNDEFINED) /\ (user_dispatch true st = st).
Proof.
  intros vst defined st. unfold dispatch, user_dispatch. split; [intros H; rewrite (proj2 (ok_false _) H); auto|].
  split; [intros -> ->; auto|]. split; [intros -> ->; auto|]. auto.
Qed.
(** System calls of the descriptor socket: would-block, failure, and the result. *)
Theorem C52_descriptor_calls : forall ret errno,
  (ret < 0 -> errno = 11 -> fd_accept ret errno = (ERROR_PSOCK_ACCEPT_WOULD_BLOCK, None) /\
     fd_sendmsg ret errno = ERROR_PSOCK_WRITE_WOULD_BLOCK /\ fd_recvmsg ret errno = (ERROR_PSOCK_READ_WOULD_BLOCK, None)) /\
  (ret < 0 -> errno <> 11 -> fd_accept ret errno = (ERROR_PSOCK_ACCEPT_GENERAL, None) /\
     fd_sendmsg ret errno = ERROR_PSOCK_SENDMSG_FAILED /\ fd_recvmsg ret errno = (ERROR_PSOCK_RECVMSG_FAILED, None)) /\
  (0 <= ret -> fd_accept ret errno = (STATUS_SUCCESS, Some ret) /\ fd_sendmsg ret errno = STATUS_SUCCESS /\
     fd_recvmsg ret errno = (STATUS_SUCCESS, Some ret)) /\
  (ret < 0 -> fd_setsockopt ret = ERROR_PSOCK_SETSOCKOPT) /\ (0 <= ret -> fd_setsockopt ret = STATUS_SUCCESS).
Proof. exact fd_calls. Qed.
(** The asynchronous versions retry after every would-block, waiting on the right
    side each time, and return the outcome of the first call that does not. *)
Theorem C52_async_calls : forall f a pre ret errno t, waits_work f (a_ys a) -> a_type a = PSOCK_TYPE_WRAP_ASYNC ->
  Forall (fun y => y_ours y = true) (a_ys a) -> a_rfib a = 0 -> a_wfib a = 0 ->
  Forall (fun p => fst p < 0 /\ snd p = 11) pre -> 0 <= ret \/ errno <> 11 ->
  (exists a', async_accept f STATUS_SUCCESS true a (pre ++ (ret, errno) :: t) = Some (fst (fd_accept ret errno), snd (fd_accept ret errno), a') /\
     a_k a' = a_k a /\ a_log a' = a_log a ++ repeat WAIT_READ (length pre) /\ a_rfib a' = 0 /\ a_wfib a' = 0) /\
  (exists a', async_sendmsg f STATUS_SUCCESS true a (pre ++ (ret, errno) :: t) = Some (fd_sendmsg ret errno, a') /\
     a_k a' = a_k a /\ a_log a' = a_log a ++ repeat WAIT_WRITE (length pre) /\ a_rfib a' = 0 /\ a_wfib a' = 0) /\
  (exists a', async_recvmsg f STATUS_SUCCESS true a (pre ++ (ret, errno) :: t) = Some (fst (fd_recvmsg ret errno), snd (fd_recvmsg ret errno), a') /\
     a_k a' = a_k a /\ a_log a' = a_log a ++ repeat WAIT_READ (length pre) /\ a_rfib a' = 0 /\ a_wfib a' = 0).
Proof. exact async_calls. Qed.
(** A wait that fails is reported, nothing is written, and no further call is made. *)
Theorem C52_async_wait_fails : forall f a ret t, a_type a = PSOCK_TYPE_WRAP_ASYNC ->
  ret < 0 -> f_sched f <> STATUS_SUCCESS ->
  async_accept f STATUS_SUCCESS true a ((ret, 11) :: t) = Some (f_sched f, None, a) /\
  async_sendmsg f STATUS_SUCCESS true a ((ret, 11) :: t) = Some (f_sched f, a) /\
  async_recvmsg f STATUS_SUCCESS true a ((ret, 11) :: t) = Some (f_sched f, None, a).
Proof. exact async_wait_fails. Qed.
Theorem C52_async_undefined : forall f vst def a rs, vst <> STATUS_SUCCESS \/ def = false ->
  let e := if vst =? STATUS_SUCCESS then ERROR_PSOCK_METHOD_UNDEFINED else vst in
  async_accept f vst def a rs = Some (e, None, a) /\ async_sendmsg f vst def a rs = Some (e, a) /\
  async_recvmsg f vst def a rs = Some (e, None, a).
Proof.
  intros f vst def a rs H. unfold async_accept, async_sendmsg, async_recvmsg, ok. destruct (Z.eqb_spec vst STATUS_SUCCESS) as [->|N]; cbn [negb]; [|auto].
  destruct H as [H| ->]; [congruence|auto].
Qed.
Example C52_example :
  let a := Async 3 (Kern [] [] [] []) 0 0 [] [] in
  async_accept (Fenv 0 0 5) STATUS_SUCCESS true a [(-1, 11); (-1, 11); (7, 0)] =
    Some (STATUS_SUCCESS, Some 7, Async 3 (Kern [] [] [] []) 0 0 [] [0;0]).
Proof. reflexivity. Qed.

Print Assumptions C15_read_takes_next_bytes.
Print Assumptions C15_read_outcomes.
Print Assumptions C15_blocking_read_completes.
Print Assumptions C15_nonblocking_never_waits.
Print Assumptions C15_waits_for_its_side.
Print Assumptions C15_second_reader_refused.
Print Assumptions C15_wait_exact.
Print Assumptions C15_wait_refused.
Print Assumptions C15_write_hands_over_in_order.
Print Assumptions C15_write_completes.
Print Assumptions C15_invalid_socket.
Print Assumptions C16_plain_descriptor_partial.
Print Assumptions C16_reader_partial.
Print Assumptions C16_async_refuted.
Print Assumptions C16_reader_refuted.
Print Assumptions C51_read_raw.
Print Assumptions C51_descriptor_read.
Print Assumptions C51_descriptor_write.
Print Assumptions C52_dispatch.
Print Assumptions C52_descriptor_calls.
Print Assumptions C52_async_calls.
Print Assumptions C52_async_wait_fails.
Print Assumptions C52_async_undefined.
