(** C76: after a failed call the variable given for the result holds what the documentation says. *)
From Verif Require Import Base Status Heap MemModel CodecModel OutModel OutSpec OutProofs.
From Verif Require AllocModel ListModel RbModel UuidModel AsyncModel DocProofs.

(** If the caller sets its variable to NULL before the call, it is NULL after every failure of a function that promises it. *)
Theorem C76_null_partial : forall f a, documented f = Null -> leaves f 0 a -> a = 0.
Proof. intros f a _ L. apply leaves_after in L. subst. unfold after. destruct (stores_null f); reflexivity. Qed.
(** Nine of them set it, whatever it held. *)
Theorem C76_stored_partial : forall f b a, stores_null f = true -> leaves f b a -> documented f = Null /\ a = 0.
Proof. intros f b a S L. apply leaves_after in L. unfold after in L. rewrite S in L. destruct f; try discriminate S; split; auto. Qed.
(** The functions that promise to leave it alone do. *)
Theorem C76_unchanged : forall f b a, documented f = Unchanged -> leaves f b a -> a = b.
Proof. intros f b a D L. apply leaves_after in L. unfold after in L. destruct f; try discriminate D; exact L. Qed.
(** The other twenty-three leave what was there, after each of their failures: a pointer to something that is gone, if the
    variable was used before. *)
Theorem C76_stale_refuted : forall f b, documented f = Null -> stores_null f = false -> leaves f b b /\ forall a, leaves f b a -> a = b.
Proof.
  intros f b _ S. assert (E : after f b = b) by (unfold after; rewrite S; reflexivity). split.
  - rewrite <- E at 2. apply after_leaves.
  - intros a L. apply leaves_after in L. congruence.
Qed.

(** The values read from a socket: a call that fails stores nothing, over any socket. *)
Theorem C76_values : forall S (o : sock_ops S) s,
  let raw {V} (r : vres S V) := v_status r <> STATUS_SUCCESS -> v_val r = None in
  (raw (read_raw_int64 o s) /\ raw (read_raw_uint64 o s) /\ raw (read_raw_int32 o s) /\ raw (read_raw_uint32 o s) /\ raw (read_raw_int16 o s) /\ raw (read_raw_uint16 o s) /\
   raw (read_raw_int8 o s) /\ raw (read_raw_uint8 o s) /\ raw (read_raw_bool o s)) /\
  (raw (read_boxed_int64 o s) /\ raw (read_boxed_uint64 o s) /\ raw (read_boxed_int32 o s) /\ raw (read_boxed_uint32 o s) /\ raw (read_boxed_int16 o s) /\ raw (read_boxed_uint16 o s) /\
   raw (read_boxed_int8 o s) /\ raw (read_boxed_uint8 o s) /\ raw (read_boxed_bool o s)).
Proof. intros S o s raw. split; repeat split; subst raw; cbv beta; try apply fixed_quiet; apply boxed_quiet; intros; apply fixed_quiet. Qed.
(** Nor does it keep a block. *)
Theorem C76_blocks : forall S (o : sock_ops S) ast rst junk n s,
  let quiet (r : bres S) := b_status r <> STATUS_SUCCESS -> b_out r = None /\ b_live r = [] in
  quiet (read_boxed_data o ast rst junk s) /\ quiet (read_boxed_string o ast rst junk s) /\ forall r, read_raw_data o ast rst junk n s = Some r -> quiet r.
Proof. intros S o ast rst junk n s quiet. split; [apply data_quiet|]. split; [apply string_quiet|]. intros r H. exact (raw_quiet _ _ _ _ _ _ _ _ H). Qed.

(** psock_read_raw (psock.h:1417: "data is unchanged"): an asynchronous socket stores the bytes that came before the end. *)
Theorem C76_read_raw_refuted : forall f x wr out, exists n, let a := AsyncModel.Async AsyncModel.PSOCK_TYPE_WRAP_ASYNC (AsyncModel.Kern [x] [] out wr) 0 0 [] [] in
  let r := read_raw (AsyncModel.async_ops f) n (Some a) in rr_status r = ERROR_PSOCK_READ_EOF /\ rr_data r = [x].
Proof. intros f x wr out. exists 2%nat. vm_compute. auto. Qed.
(** rcpr_uuid_parse_string (uuid.h:98: "uuid is not changed"): every UUID is changed by some text that is refused. *)
Theorem C76_uuid_refuted : forall d, length d = 16%nat -> exists s d', UuidModel.uuid_parse_string d (Some (s, 0%nat)) = Some (ERROR_UUID_PARSING_FAILED, d') /\ d' <> d.
Proof. exact uuid_changed. Qed.
(** rbtree_delete (rbtree.h:174: "r is set to NULL"): not found, the variable is as before; if the node cannot be reclaimed,
    the call fails and the variable holds the resource, which is no longer in the tree. *)
Theorem C76_delete_refuted : exists o v w,
  (forall b, rbtree_delete_var o v w 1 8 b = Some (ERROR_RBTREE_NOT_FOUND, b)) /\
  (forall b, rbtree_delete_var o v w 1 7 b = Some (5, 7)) /\ RbModel.rbtree_find o w 1 7 = Some (STATUS_SUCCESS, 7) /\
  match RbModel.rbtree_delete o v true w 1 7 with Some (e, r, w') => e = 5 /\ r = 7 /\ RbModel.rbtree_find o w' 1 7 = Some (ERROR_RBTREE_NOT_FOUND, 0) | None => False end.
Proof.
  exists DocProofs.rord, (RbModel.REnv 0 30 1 2 (fun _ => 0) (fun _ => 5) (fun _ => 0)), DocProofs.rworld1.
  split; [intros b; vm_compute; reflexivity|]. split; [intros b; vm_compute; reflexivity|]. split; vm_compute; auto.
Qed.

(** * Cases *)
(** Every function has a failing call, with any variable. *)
Example C76_ex : forall f b, exists a, leaves f b a.
Proof. exact fails_sometimes. Qed.
Example C76_thread_ex : leaves thread_create 77 77 /\ leaves thread_create 0 0 /\ leaves rcpr_uuid_to_string 77 0 /\ leaves psock_create_wrap_async 77 77.
Proof. split; [exact (after_leaves thread_create 77)|]. split; [exact (after_leaves thread_create 0)|]. split; [exact (after_leaves rcpr_uuid_to_string 77)|exact (after_leaves psock_create_wrap_async 77)]. Qed.
Example C76_values_ex : v_status (read_raw_int16 (AsyncModel.fd_ops) (AsyncModel.Kern [7] [] [] [])) <> STATUS_SUCCESS.
Proof. vm_compute. discriminate. Qed.
Example C76_blocks_ex : b_status (read_boxed_data (AsyncModel.fd_ops) 0 0 (fun _ => 0) (AsyncModel.Kern [0; 0; 0; 10; 0; 0; 0; 9; 1] [] [] [])) <> STATUS_SUCCESS.
Proof. vm_compute. discriminate. Qed.

Print Assumptions C76_null_partial.
Print Assumptions C76_stored_partial.
Print Assumptions C76_unchanged.
Print Assumptions C76_stale_refuted.
Print Assumptions C76_values.
Print Assumptions C76_blocks.
Print Assumptions C76_read_raw_refuted.
Print Assumptions C76_uuid_refuted.
Print Assumptions C76_delete_refuted.
