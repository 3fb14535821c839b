(** C12-C14: in-memory sockets.  Statements only; proofs are in MemProofs.v. *)
From Verif Require Import Base Status CodecModel MemModel MemSpec MemProofs.

(** ** C12 *)
(** No history of writes, with allocations failing anywhere, has undefined
    behaviour; if all writes succeeded each reported its whole size and the output
    buffer is their concatenation. *)
Theorem C12_concatenation : forall al rc junk s0 ws, ct_obj (create_from_buffer al rc junk None) = Some s0 ->
  exists rs s, write_history ws s0 = Some (rs, s) /\ length rs = length ws /\
    (Forall (fun r => fst r = STATUS_SUCCESS) rs ->
       map snd rs = map (fun w => length (wc_data w)) ws /\
       forall ast j,
         (ast = STATUS_SUCCESS -> get_output_buffer ast j s
            = Some (GO STATUS_SUCCESS (Some (length (concat (map wc_data ws))))
                       (Some (concat (map wc_data ws))) [concat (map wc_data ws)])) /\
         (ast <> STATUS_SUCCESS -> get_output_buffer ast j s
            = Some (GO ast (Some (length (concat (map wc_data ws)))) None []))).
Proof. exact concatenation. Qed.
(** As long as memory is available every write succeeds. *)
Theorem C12_never_fails_with_memory : forall al rc junk s0 ws rs s, ct_obj (create_from_buffer al rc junk None) = Some s0 ->
  Forall (fun w => forall k, wc_al w k = STATUS_SUCCESS) ws ->
  write_history ws s0 = Some (rs, s) -> Forall (fun r => fst r = STATUS_SUCCESS) rs.
Proof. exact never_fails_with_memory. Qed.
(** A failed write reports the allocator's status. *)
Theorem C12_failure_status : forall al rc junk s0 ws rs s w r, ct_obj (create_from_buffer al rc junk None) = Some s0 ->
  write_history ws s0 = Some (rs, s) -> Forall (fun r => fst r = STATUS_SUCCESS) rs ->
  mem_write (wc_al w) (wc_rc w) (wc_junk w) s (wc_data w) = Some r -> mw_status r <> STATUS_SUCCESS ->
  (exists k, mw_status r = wc_al w k) \/ (exists k, mw_status r = wc_rc w k).
Proof.
  intros al rc junk s0 ws rs s w r Hc H F E Ne. destruct (create_output _ _ _ _ Hc) as (W0 & C0 & T0 & N0).
  destruct (history_spec ws s0 W0) as (rs' & s' & E' & _ & Ws & _ & _ & _ & All); [rewrite T0; apply Nat.le_0_l|].
  rewrite H in E'. injection E' as <- <-. destruct (All F) as (_ & _ & _ & A4).
  eapply failure_status; eauto.
Qed.
(** Precisely: of the allocations the write makes, in order, the first to fail decides,
    unless reclaiming what was allocated for it fails too, and exactly the blocks that
    could not be reclaimed or already hold data stay allocated. *)
Theorem C12_failure_cause : forall al rc junk s0 ws rs s w r, ct_obj (create_from_buffer al rc junk None) = Some s0 ->
  write_history ws s0 = Some (rs, s) -> Forall (fun r => fst r = STATUS_SUCCESS) rs ->
  mem_write (wc_al w) (wc_rc w) (wc_junk w) s (wc_data w) = Some r ->
  let room := (pb_osize s - pb_woff s)%nat in
  match first_failure (write_sites (wc_al w) (wc_rc w) (room <=? length (wc_data w))%nat
                                   (PSOCK_BUFFER_SIZE + room <=? length (wc_data w))%nat) with
  | Some (e, blocks) => mw_status r = e /\ mw_net r = blocks
  | None => mw_status r = STATUS_SUCCESS
  end.
Proof.
  intros al rc junk s0 ws rs s w r Hc H F E. destruct (create_output _ _ _ _ Hc) as (W0 & C0 & T0 & N0).
  destruct (history_spec ws s0 W0) as (rs' & s' & E' & _ & Ws & _ & _ & _ & All); [rewrite T0; apply Nat.le_0_l|].
  rewrite H in E'. injection E' as <- <-. destruct (All F) as (_ & _ & _ & A4).
  eapply write_failure_cause; eauto.
Qed.
(** A write of 9000 bytes whose last list node cannot be allocated nor its node reclaimed. *)
Example C12_failure_cause_example :
  let al k := if (k =? 5)%nat then 31 else 0 in let rc k := if (k =? 2)%nat then 32 else 0 in
  match ct_obj (create_from_buffer always_ok always_ok (fun _ => 0) None) with
  | Some s0 => option_map (fun r => (mw_status r, mw_net r)) (mem_write al rc (fun _ => 0) s0 (repeat 3 (Z.to_nat 9000))) = Some (32, 4)
  | None => False
  end.
Proof. vm_compute. reflexivity. Qed.
(** Blocks: after any history (failed writes included) the blocks allocated and not
    reclaimed are exactly those the socket owns, and releasing it reclaims them. *)
Theorem C12_no_leak : forall al rc junk s0 ws rs s, ct_obj (create_from_buffer al rc junk None) = Some s0 ->
  Forall (fun w => forall k, wc_rc w k = STATUS_SUCCESS) ws ->
  write_history ws s0 = Some (rs, s) ->
  ct_net (create_from_buffer al rc junk None) + net_history ws s0 = owned s /\
  forall rc', (forall k, rc' k = STATUS_SUCCESS) -> mem_release rc' s = (STATUS_SUCCESS, owned s).
Proof. exact accounting. Qed.
Definition zeros : nat -> Z := fun _ => 0.
Definition good (d : list Z) : wcall := WCall always_ok always_ok zeros d.
(** Writes crossing the buffer boundary and taking the large-write path. *)
Example C12_example :
  let ws := [good (repeat 1 (Z.to_nat 4000)); good (repeat 2 (Z.to_nat 96)); good []; good (repeat 3 (Z.to_nat 9000)); good [4;5]] in
  match ct_obj (create_from_buffer always_ok always_ok zeros None) with
  | Some s0 => match write_history ws s0 with
               | Some (rs, s) => map fst rs = [0;0;0;0;0] /\ length (match pb_queue s with Some q => q | None => [] end) = 3%nat
               | None => False
               end
  | None => False
  end.
Proof. vm_compute. split; reflexivity. Qed.

(** ** C13 *)
(** True part: immediately after a failed write the output buffer still returns
    the bytes of the successful ones, unless it was the allocation of the next
    buffer that failed. *)
Theorem C13_after_failure_partial : forall al rc junk s0 ws w rs s r, ct_obj (create_from_buffer al rc junk None) = Some s0 ->
  write_history ws s0 = Some (rs, s) -> Forall (fun r => fst r = STATUS_SUCCESS) rs ->
  mem_write (wc_al w) (wc_rc w) (wc_junk w) s (wc_data w) = Some r -> mw_status r <> STATUS_SUCCESS ->
  wc_al w 2%nat = STATUS_SUCCESS ->
  forall j, get_output_buffer STATUS_SUCCESS j (mw_sock r)
     = Some (GO STATUS_SUCCESS (Some (length (concat (map wc_data ws)))) (Some (concat (map wc_data ws))) [concat (map wc_data ws)]).
Proof. exact after_failure. Qed.
(** The claim is false: after a write that failed when queueing a full buffer, the
    next successful write makes the output contain bytes of the failed one. *)
Definition fail_at (k : nat) : nat -> Z := fun i => if (i =? k)%nat then ERROR_GENERAL_OUT_OF_MEMORY else STATUS_SUCCESS.
Theorem C13_failed_bytes_appear_refuted : exists ws s0 rs s,
  ct_obj (create_from_buffer always_ok always_ok zeros None) = Some s0 /\
  write_history ws s0 = Some (rs, s) /\
  map fst rs = [STATUS_SUCCESS; ERROR_GENERAL_OUT_OF_MEMORY; STATUS_SUCCESS] /\
  accepted ws rs = [1;1;3] /\
  get_output_buffer STATUS_SUCCESS zeros s = Some (GO STATUS_SUCCESS (Some 3%nat) (Some [1;1;2]) [[1;1;2]]).
Proof.
  exists [good [1;1]; WCall (fail_at 0) always_ok zeros (repeat 2 (Z.to_nat 5000)); good [3]].
  do 3 eexists. repeat (split; [vm_compute; reflexivity|]). vm_compute. reflexivity.
Qed.
(** And if allocating the next buffer fails, the successful bytes can no longer be
    fetched and every later write fails. *)
Theorem C13_output_unreachable_refuted : exists ws s0 rs s,
  ct_obj (create_from_buffer always_ok always_ok zeros None) = Some s0 /\
  write_history ws s0 = Some (rs, s) /\
  map fst rs = [STATUS_SUCCESS; ERROR_GENERAL_OUT_OF_MEMORY; ERROR_PSOCK_UNSUPPORTED_TYPE] /\
  accepted ws rs = [1;1] /\
  get_output_buffer STATUS_SUCCESS zeros s = Some (GO ERROR_PSOCK_UNSUPPORTED_TYPE None None []).
Proof.
  exists [good [1;1]; WCall (fail_at 2) always_ok zeros (repeat 2 (Z.to_nat 5000)); good [3]].
  do 3 eexists. repeat (split; [vm_compute; reflexivity|]). vm_compute. reflexivity.
Qed.

(** ** C14 *)
(** Any sequence of reads returns consecutive slices. *)
Theorem C14_slices : forall al rc junk b s ns,
  ct_obj (create_from_buffer al rc junk (Some b)) = Some s ->
  fst (read_history ns s) = slices ns b.
Proof. exact input_slices. Qed.
(** Hence the bytes delivered are a prefix of the buffer, each exactly once... *)
Theorem C14_prefix : forall ns l, concat (map snd (slices ns l)) = firstn (list_sum ns) l.
Proof. exact slices_concat. Qed.
(** ... and end of file is reported exactly when the buffer is exhausted. *)
Theorem C14_eof : forall ns l i e d, nth_error (slices ns l) i = Some (e, d) ->
  (e = STATUS_SUCCESS \/ e = ERROR_PSOCK_READ_EOF) /\
  (e = ERROR_PSOCK_READ_EOF <-> (length l <= list_sum (firstn i ns))%nat).
Proof. exact slices_eof. Qed.
(** An input socket accepts no output, an output socket has no input, and neither
    can accept connections. *)
Theorem C14_wrong_direction : forall al rc junk s d n,
  (forall b, ct_obj (create_from_buffer al rc junk (Some b)) = Some s ->
     mem_write al rc junk s d = Some (MW ERROR_PSOCK_UNSUPPORTED_TYPE (length d) s 0) /\
     get_output_buffer STATUS_SUCCESS junk s = Some (GO ERROR_PSOCK_UNSUPPORTED_TYPE None None [])) /\
  (ct_obj (create_from_buffer al rc junk None) = Some s -> mem_read s n = RRes ERROR_PSOCK_READ_EOF n [] s) /\
  mem_accept s = ERROR_PSOCK_UNSUPPORTED_TYPE.
Proof. exact wrong_direction. Qed.
Example C14_example : match ct_obj (create_from_buffer always_ok always_ok zeros (Some [1;2;3;4;5])) with
  | Some s => fst (read_history [2;0;9;1]%nat s) = [(0,[1;2]); (0,[]); (0,[3;4;5]); (ERROR_PSOCK_READ_EOF,[])]
  | None => False end.
Proof. vm_compute. reflexivity. Qed.

(** ** C48, for this constructor *)
Theorem C48_memory_socket_create : forall al rc junk b, (forall k, rc k = STATUS_SUCCESS) ->
  let c := create_from_buffer al rc junk b in
  (ct_status c = STATUS_SUCCESS /\ exists s, ct_obj c = Some s /\ ct_net c = owned s) \/
  (ct_status c <> STATUS_SUCCESS /\ (exists k, ct_status c = al k) /\ ct_obj c = None /\ ct_net c = 0).
Proof. exact create_result. Qed.
Theorem C48_memory_socket_release : forall rc s, exists e,
  mem_release rc s = (e, owned s) /\ (e = STATUS_SUCCESS \/ exists k, e = rc k) /\
  ((forall k, rc k = STATUS_SUCCESS) -> e = STATUS_SUCCESS) /\
  (rc 3%nat <> STATUS_SUCCESS -> e <> STATUS_SUCCESS) /\
  (pb_input s <> None -> rc 0%nat <> STATUS_SUCCESS -> e = rc 0%nat).
Proof. exact release_result. Qed.

Print Assumptions C12_concatenation.
Print Assumptions C12_never_fails_with_memory.
Print Assumptions C12_failure_status.
Print Assumptions C12_failure_cause.
Print Assumptions C12_no_leak.
Print Assumptions C13_after_failure_partial.
Print Assumptions C13_failed_bytes_appear_refuted.
Print Assumptions C13_output_unreachable_refuted.
Print Assumptions C14_slices.
Print Assumptions C14_prefix.
Print Assumptions C14_eof.
Print Assumptions C14_wrong_direction.
Print Assumptions C48_memory_socket_create.
Print Assumptions C48_memory_socket_release.
