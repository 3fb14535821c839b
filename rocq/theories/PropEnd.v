(** C70: values written at one end of a connection are read at the other. *)
From Verif Require Import Base Status StringModel CodecModel CodecSpec CodecProofs MemModel AsyncModel AsyncSpec BrModel BrSpec BrInst EndSpec EndProofs.

(** ** Asynchronous sockets *)
(** However the kernel cuts the bytes up, and however often either end has to wait,
    every sequence of values is written and read back, also one ending in an empty
    string; both ends are then ready again. *)
Theorem C70_async_partial : forall fw fr w r rst junk vs more, ready fw w -> Forall valid vs ->
  exists w', write_all (async_ops fw) vs (Some w) = Some (STATUS_SUCCESS, Some w') /\ ready fw w' /\
    k_out (a_k w') = k_out (a_k w) ++ sent w w' /\ k_in (a_k w') = k_in (a_k w) /\
    (ready fr r -> k_in (a_k r) = sent w w' ++ more ->
     exists r', read_all (async_ops fr) STATUS_SUCCESS rst junk (map kind_of vs) (Some r) = (STATUS_SUCCESS, map delivered vs, Some r') /\
       ready fr r' /\ k_in (a_k r') = more /\ k_out (a_k r') = k_out (a_k r)).
Proof.
  intros fw fr w r rst junk vs more R V. destruct (write_async fw w vs R V) as (w' & E & R' & O & I).
  exists w'. split; [auto|]. split; [auto|]. rewrite (sent_app _ _ _ O). split; [auto|]. split; [auto|].
  intros RR II. apply read_async; auto.
Qed.
(** Whole conversations: the two ends speak in turns, as often and in whatever order
    they like, and every turn arrives as it was spoken. *)
Theorem C70_conversation_partial : forall rst junk fa fb turns a b,
  ready fa a -> ready fb b -> k_in (a_k a) = [] -> k_in (a_k b) = [] -> Forall (fun t => Forall valid (snd t)) turns ->
  talk rst junk fa fb turns a b = map (fun t => (STATUS_SUCCESS, STATUS_SUCCESS, map delivered (snd t))) turns.
Proof. exact talk_exact. Qed.
(** Two ends with short transfers, calls that would block and foreign events while
    waiting; three turns. *)
Definition env : fenv := Fenv 0 0 7.
Definition here : async :=
  Async PSOCK_TYPE_WRAP_ASYNC (Kern [] [KFail EAGAIN; KGive 0; KFail EAGAIN; KGive 2] [] [KGive 1; KFail EAGAIN; KGive 0]) 0 0
    [Yev 0 false 0; Yev 0 true 0] [].
Definition there : async :=
  Async PSOCK_TYPE_WRAP_ASYNC (Kern [] [KGive 1; KFail EAGAIN; KFail EAGAIN; KGive 0] [9] [KFail EAGAIN; KGive 4]) 0 0 [Yev 0 true 5] [].
Example C70_ready_example : ready env here /\ ready env there.
Proof. unfold ready, quiet, waits_work. cbn. repeat split; auto; repeat (constructor; cbn; auto). Qed.
Example C70_conversation_example :
  talk 0 (fun _ => 0) env env [(true, [VInt32 (-2); VString [104;105]]); (false, [VBool true; VData []]); (true, [VUint64 5])] here there
  = [(0, 0, [GotInt (-2); GotBlock [104;105;0] 2]); (0, 0, [GotBool true; GotBlock [] 0]); (0, 0, [GotInt 5])].
Proof. vm_compute. reflexivity. Qed.

(** ** Buffered readers *)
(** The same through a buffered reader of any socket that fails only at the end of its
    stream, and so of a plain descriptor, in whatever pieces the bytes come. *)
Theorem C70_buffered_partial : forall S (o : sock_ops S) inv rem rst junk vs b l, smooth_sock o inv rem -> br_ok inv b -> Forall valid vs ->
  pending rem b = concat (map wire vs) ++ l ->
  exists b', read_all (br_ops o) STATUS_SUCCESS rst junk (map kind_of vs) (Some b) = (STATUS_SUCCESS, map delivered vs, Some b') /\
    br_ok inv b' /\ pending rem b' = l.
Proof. exact br_exchange. Qed.
Theorem C70_buffered_descriptor_partial : forall al rc rst junk vs k b l, Forall valid vs ->
  Forall (fun e => exists m, e = KGive m) (k_rs k) -> k_in k = concat (map wire vs) ++ l ->
  ct_obj (br_create al rc junk k) = Some b ->
  exists b', read_all (br_ops fd_ops) STATUS_SUCCESS rst junk (map kind_of vs) (Some b) = (STATUS_SUCCESS, map delivered vs, Some b') /\
    buffered b' ++ k_in (q_w b') = l.
Proof.
  intros al rc rst junk vs k b l V G I C.
  destruct (created _ al rc junk k gives k_in b G C) as (B & P & _). rewrite I in P.
  destruct (br_exchange _ fd_ops gives k_in rst junk vs b l fd_smooth B V P) as (b' & E & _ & P'). exists b'. auto.
Qed.
Example C70_buffered_example :
  let k := Kern (wire (VInt64 (-7)) ++ wire (VString [97]) ++ [1;2]) [KGive 2; KGive 0; KGive 3; KGive 6] [] [] in
  match ct_obj (br_create (fun _ => 0) (fun _ => 0) (fun _ => 0) k) with
  | Some b => match read_all (br_ops fd_ops) 0 0 (fun _ => 0) [KInt64; KString] (Some b) with
              | (e, got, Some b') => e = 0 /\ got = [GotInt (-7); GotBlock [97;0] 1] /\ buffered b' ++ k_in (q_w b') = [1;2]
              | _ => False
              end
  | None => False
  end.
Proof. vm_compute. repeat split; reflexivity. Qed.
(** A buffered reader of an asynchronous socket, though: whatever is asked for, if all
    of it has arrived together with the end of the stream the reader reports end of
    file, and every byte that was not in its buffer before is gone. *)
Theorem C70_buffered_async_refuted : forall f ast rst junk k b a, br_ok async_inv b -> q_w b = Some a -> k_rs (a_k a) = [] ->
  (length (buffered b) < 4)%nat -> (length (k_in (a_k a)) < length (q_buf b) - length (buffered b))%nat ->
  exists b', call_reader (br_ops (async_ops f)) ast rst junk k (Some b) = (ERROR_PSOCK_READ_EOF, None, Some b') /\
    pending async_rem b' = buffered b.
Proof. exact br_async_eof. Qed.
(** And if nothing has arrived yet it does not wait: the caller is told that the call
    would block, although values are read with blocking reads. *)
Theorem C70_buffered_wait_refuted : forall f ast rst junk k b a t, br_ok async_inv b -> q_w b = Some a -> k_rs (a_k a) = KFail EAGAIN :: t ->
  (length (buffered b) < 4 < length (q_buf b))%nat ->
  exists b', call_reader (br_ops (async_ops f)) ast rst junk k (Some b) = (ERROR_PSOCK_READ_WOULD_BLOCK, None, Some b') /\
    pending async_rem b' = pending async_rem b.
Proof. exact br_async_would_block. Qed.
(** Both on a reader just created, with a value on the wire that would be read
    without the buffer. *)
Definition far (rs : list kev) : async := Async PSOCK_TYPE_WRAP_ASYNC (Kern (wire (VInt32 5)) rs [] []) 0 0 [] [].
Example C70_buffered_async_example :
  fst (read_all (async_ops env) 0 0 (fun _ => 0) [KInt32] (Some (far []))) = (0, [GotInt 5]) /\
  fst (read_all (async_ops env) 0 0 (fun _ => 0) [KInt32] (Some (far [KFail EAGAIN]))) = (0, [GotInt 5]) /\
  forall b, ct_obj (br_create (fun _ => 0) (fun _ => 0) (fun _ => 0) (Some (far []))) = Some b ->
    fst (call_reader (br_ops (async_ops env)) 0 0 (fun _ => 0) KInt32 (Some b)) = (ERROR_PSOCK_READ_EOF, None).
Proof.
  split; [vm_compute; reflexivity|]. split; [vm_compute; reflexivity|]. intros b C.
  assert (AI : async_inv (Some (far []))) by apply Forall_nil.
  destruct (created _ _ _ _ _ async_inv async_rem b AI C) as (B & P & _ & L).
  unfold br_create in C. cbn [ok negb Z.eqb STATUS_SUCCESS ct_obj] in C. injection C as <-.
  destruct (br_async_eof env 0 0 (fun _ => 0) KInt32 _ _ B eq_refl eq_refl) as (b' & E & _).
  - cbn. lia.
  - rewrite L. change (length (buffered _)) with 0%nat. change (length (k_in _)) with 8%nat. lia.
  - rewrite E. reflexivity.
Qed.

(** ** Plain descriptors *)
(** Without a buffer values pass as long as every system call transfers all it is
    asked to... *)
Theorem C70_plain_partial : forall w r rst junk vs l, k_ws w = [] -> Forall valid vs ->
  exists w', write_all fd_ops vs w = Some (STATUS_SUCCESS, w') /\ k_ws w' = [] /\ exists d, k_out w' = k_out w ++ d /\
    (k_rs r = [] -> k_in r = d ++ l ->
     exists r', read_all fd_ops STATUS_SUCCESS rst junk (map kind_of vs) r = (STATUS_SUCCESS, map delivered vs, r') /\ k_rs r' = [] /\ k_in r' = l).
Proof. exact fd_exchange. Qed.
(** ... but a first piece shorter than a value's type makes the reader fail with the
    piece consumed, and a short write makes the writer fail with part of the value
    sent: in both cases what follows is out of step. *)
Theorem C70_short_read_refuted : forall ast rst junk k kern m t, k_rs kern = KGive m :: t -> (S m < 4)%nat -> (4 <= length (k_in kern))%nat ->
  call_reader fd_ops ast rst junk k kern =
    (ERROR_PSOCK_READ_INVALID_SIZE, None, Kern (skipn (S m) (k_in kern)) t (k_out kern) (k_ws kern)).
Proof. exact fd_short_read. Qed.
Theorem C70_short_write_refuted : forall v kern m t, valid v -> k_ws kern = KGive m :: t -> (S m < 4)%nat ->
  call_writer fd_ops v kern =
    Some (ERROR_PSOCK_WRITE_INVALID_SIZE, Kern (k_in kern) (k_rs kern) (k_out kern ++ firstn (S m) (wire v)) t).
Proof. exact fd_short_write. Qed.
Example C70_out_of_step_example :
  let k := Kern (wire (VInt32 5) ++ wire (VInt32 6)) [KGive 0] [] [] in
  let '(e1, g1, k1) := call_reader fd_ops 0 0 (fun _ => 0) KInt32 k in
  let '(e2, g2, k2) := call_reader fd_ops 0 0 (fun _ => 0) KInt32 k1 in
  (e1, g1) = (ERROR_PSOCK_READ_INVALID_SIZE, None) /\ (e2, g2) = (ERROR_PSOCK_READ_BOXED_INVALID_TYPE, None).
Proof. vm_compute. split; reflexivity. Qed.

Print Assumptions C70_async_partial.
Print Assumptions C70_conversation_partial.
Print Assumptions C70_buffered_partial.
Print Assumptions C70_buffered_descriptor_partial.
Print Assumptions C70_buffered_async_refuted.
Print Assumptions C70_buffered_wait_refuted.
Print Assumptions C70_plain_partial.
Print Assumptions C70_short_read_refuted.
Print Assumptions C70_short_write_refuted.
