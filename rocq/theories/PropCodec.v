(** C07-C11: byte order, boxed values, raw transfers.  Statements only; proofs are
    in CodecProofs.v and MemProofs.v. *)
From Verif Require Import Base Status StringModel StringSpec CodecModel CodecSpec CodecProofs MemModel MemSpec MemProofs.

(** ** C07 *)
(** The conversions are mutually inverse on every value of the type. *)
Theorem C07_inverse : forall v,
  (signed 2 v -> ntoh16 (hton16 v) = v /\ hton16 (ntoh16 v) = v) /\
  (signed 4 v -> ntoh32 (hton32 v) = v /\ hton32 (ntoh32 v) = v) /\
  (signed 8 v -> ntoh64 (hton64 v) = v /\ hton64 (ntoh64 v) = v).
Proof. exact c07_inverse. Qed.
(** The memory image of the converted value is the big-endian encoding. *)
Theorem C07_network_image : forall v,
  (signed 2 (hton16 v) /\ be_encodes 2 v (le_bytes 2 (hton16 v))) /\
  (signed 4 (hton32 v) /\ be_encodes 4 v (le_bytes 4 (hton32 v))) /\
  (signed 8 (hton64 v) /\ be_encodes 8 v (le_bytes 8 (hton64 v))).
Proof. exact c07_image. Qed.
(** Conversely, [ntoh] of a loaded big-endian image is the encoded value. *)
Theorem C07_host_value : forall l, Forall is_byte l ->
  (length l = 2%nat -> signed 2 (ntoh16 (to_signed 2 (le_value l))) /\ be_encodes 2 (ntoh16 (to_signed 2 (le_value l))) l) /\
  (length l = 4%nat -> signed 4 (ntoh32 (to_signed 4 (le_value l))) /\ be_encodes 4 (ntoh32 (to_signed 4 (le_value l))) l) /\
  (length l = 8%nat -> signed 8 (ntoh64 (to_signed 8 (le_value l))) /\ be_encodes 8 (ntoh64 (to_signed 8 (le_value l))) l).
Proof. exact c07_from_wire. Qed.
(** The big-endian encoding of a value is unique. *)
Theorem C07_encoding_unique : forall n v l l', be_encodes n v l -> be_encodes n v l' -> l = l'.
Proof. intros n v l l' H H'. rewrite (be_encodes_unique _ _ _ H), (be_encodes_unique _ _ _ H'). reflexivity. Qed.
Example C07_example : hton32 (-2) = -16777217 /\ le_bytes 4 (hton32 (-2)) = [255;255;255;254] /\ signed 4 (-2).
Proof. vm_compute. repeat split; congruence. Qed.

(** ** C08 *)
(** Raw readers over any transport: errors and short transfers are reported and
    store nothing; a full transfer stores the value it encodes. *)
Theorem C08_raw_readers : forall S (o : sock_ops S),
  reads_fixed o (read_raw_int64 o) 8 (means_signed 8) /\
  reads_fixed o (read_raw_uint64 o) 8 (means_unsigned 8) /\
  reads_fixed o (read_raw_int32 o) 4 (means_signed 4) /\
  reads_fixed o (read_raw_uint32 o) 4 (means_unsigned 4) /\
  reads_fixed o (read_raw_int16 o) 2 (means_signed 2) /\
  reads_fixed o (read_raw_uint16 o) 2 (means_unsigned 2) /\
  reads_fixed o (read_raw_int8 o) 1 (means_signed 1) /\
  reads_fixed o (read_raw_uint8 o) 1 (means_unsigned 1) /\
  reads_fixed o (read_raw_bool o) 1 means_bool.
Proof. exact raw_readers. Qed.
Theorem C08_raw_writers : forall S (o : sock_ops S) v,
  writes_fixed o (write_raw_int64 o v) (be_bytes 8 v) /\
  writes_fixed o (write_raw_uint64 o v) (be_bytes 8 v) /\
  writes_fixed o (write_raw_int32 o v) (be_bytes 4 v) /\
  writes_fixed o (write_raw_uint32 o v) (be_bytes 4 v) /\
  writes_fixed o (write_raw_int16 o v) (be_bytes 2 v) /\
  writes_fixed o (write_raw_uint16 o v) (be_bytes 2 v) /\
  writes_fixed o (write_raw_int8 o v) (be_bytes 1 v) /\
  writes_fixed o (write_raw_uint8 o v) (be_bytes 1 v) /\
  (forall b, writes_fixed o (write_raw_bool o b) [if b then 1 else 0]).
Proof. exact raw_writers. Qed.
(** Boxed readers and writers over any transport. *)
Theorem C08_boxed_readers : forall S (o : sock_ops S),
  reads_tagged o (read_boxed_int64 o) (read_raw_int64 o) 16 /\
  reads_tagged o (read_boxed_uint64 o) (read_raw_uint64 o) 17 /\
  reads_tagged o (read_boxed_int32 o) (read_raw_int32 o) 18 /\
  reads_tagged o (read_boxed_uint32 o) (read_raw_uint32 o) 19 /\
  reads_tagged o (read_boxed_int16 o) (read_raw_int16 o) 20 /\
  reads_tagged o (read_boxed_uint16 o) (read_raw_uint16 o) 21 /\
  reads_tagged o (read_boxed_int8 o) (read_raw_int8 o) 22 /\
  reads_tagged o (read_boxed_uint8 o) (read_raw_uint8 o) 23 /\
  reads_tagged o (read_boxed_bool o) (read_raw_bool o) 24.
Proof. exact boxed_readers. Qed.
Theorem C08_boxed_writers : forall S (o : sock_ops S) v,
  writes_tagged o (write_boxed_int64 o v) (write_raw_int64 o v) 16 /\
  writes_tagged o (write_boxed_uint64 o v) (write_raw_uint64 o v) 17 /\
  writes_tagged o (write_boxed_int32 o v) (write_raw_int32 o v) 18 /\
  writes_tagged o (write_boxed_uint32 o v) (write_raw_uint32 o v) 19 /\
  writes_tagged o (write_boxed_int16 o v) (write_raw_int16 o v) 20 /\
  writes_tagged o (write_boxed_uint16 o v) (write_raw_uint16 o v) 21 /\
  writes_tagged o (write_boxed_int8 o v) (write_raw_int8 o v) 22 /\
  writes_tagged o (write_boxed_uint8 o v) (write_raw_uint8 o v) 23 /\
  (forall b, writes_tagged o (write_boxed_bool o b) (write_raw_bool o b) 24).
Proof. exact boxed_writers. Qed.
Theorem C08_boxed_data_reader : forall S (o : sock_ops S) ast rst junk,
  reads_block o (read_boxed_data o ast rst junk) ast 34 (fun _ => False) (fun d => d).
Proof. exact read_data_any. Qed.
Theorem C08_boxed_string_reader : forall S (o : sock_ops S) ast rst junk,
  reads_block o (read_boxed_string o ast rst junk) ast 32 (fun size => size = 2^32 - 1) (fun d => d ++ [0]).
Proof. exact read_string_any. Qed.
Theorem C08_boxed_data_writer : forall S (o : sock_ops S) d, writes_block o (write_boxed_data o d) 34 d.
Proof. exact write_data_any. Qed.
(** A string too long for its length field is refused before anything is written. *)
Theorem C08_boxed_string_writer : forall S (o : sock_ops S) b p t, cstring_at b p t ->
  (2^32 - 1 <= Z.of_nat (length t) -> forall s, write_boxed_string o b p s = Some (ERROR_PSOCK_WRITE_INVALID_SIZE, s)) /\
  (Z.of_nat (length t) < 2^32 - 1 ->
     exists wf, (forall s, write_boxed_string o b p s = Some (wf s)) /\ writes_block o wf 32 t).
Proof. exact write_string_any. Qed.
(** Every sequence of valid values is written in its wire format... *)
Theorem C08_write_sequence : forall S (o : sock_ops S) W vs s l, complete_writer o W -> W s l -> Forall valid vs ->
  exists s', write_all o vs s = Some (STATUS_SUCCESS, s') /\ W s' (l ++ concat (map wire vs)).
Proof. exact write_all_complete. Qed.
(** ... and read back, over every complete transport, leaving what follows.  The
    proviso is needed: see [C08_trailing_empty_refuted]. *)
Theorem C08_read_sequence_partial : forall S (o : sock_ops S) R rst junk vs s l, complete_reader o R -> Forall valid vs ->
  R s (concat (map wire vs) ++ l) -> (no_trailing_empty vs \/ l <> []) ->
  exists s', read_all o STATUS_SUCCESS rst junk (map kind_of vs) s = (STATUS_SUCCESS, map delivered vs, s') /\ R s' l.
Proof. exact read_all_complete. Qed.
(** The whole round trip through in-memory sockets, ending in end of file. *)
Theorem C08_memory_roundtrip_partial : forall rc junk ast rst vs, Forall valid vs -> no_trailing_empty vs ->
  ast = STATUS_SUCCESS ->
  exists s0 s1 blk r0 r1,
    create_from_buffer always_ok rc junk None = Ctor STATUS_SUCCESS (Some s0) 3 /\
    write_all (mem_ops always_ok rc junk) vs (Some s0) = Some (STATUS_SUCCESS, Some s1) /\
    get_output_buffer STATUS_SUCCESS junk s1 = Some (GO STATUS_SUCCESS (Some (length blk)) (Some blk) [blk]) /\
    blk = concat (map wire vs) /\
    create_from_buffer always_ok rc junk (Some blk) = Ctor STATUS_SUCCESS (Some r0) 2 /\
    read_all (mem_ops always_ok rc junk) ast rst junk (map kind_of vs) (Some r0)
      = (STATUS_SUCCESS, map delivered vs, Some r1) /\
    forall n, mem_read r1 n = RRes ERROR_PSOCK_READ_EOF n [] r1.
Proof. exact memory_roundtrip. Qed.
(** The unrestricted claim is false of the code: a final empty string (or byte
    array) is written but reading it back reports end of file. *)
Theorem C08_trailing_empty_refuted :
  let z := fun _ : nat => 0 in
  Forall (fun v => valid v /\ exists s0 s1 blk r0 r1 e,
    ct_obj (create_from_buffer always_ok always_ok z None) = Some s0 /\
    write_all (mem_ops always_ok always_ok z) [v] (Some s0) = Some (STATUS_SUCCESS, Some s1) /\
    get_output_buffer STATUS_SUCCESS z s1 = Some (GO STATUS_SUCCESS (Some (length blk)) (Some blk) [blk]) /\
    ct_obj (create_from_buffer always_ok always_ok z (Some blk)) = Some r0 /\
    call_reader (mem_ops always_ok always_ok z) STATUS_SUCCESS STATUS_SUCCESS z (kind_of v) (Some r0) = (e, None, r1) /\
    e = ERROR_PSOCK_READ_EOF) [VString []; VData []].
Proof.
  cbv zeta. apply Forall_cons; [|apply Forall_cons; [|apply Forall_nil]];
    (split; [split; [apply Forall_nil|vm_compute; reflexivity]|]).
  - eexists _, _, [0;0;0;32;0;0;0;0], _, _, _.
    repeat (split; [vm_compute; reflexivity|]). vm_compute. reflexivity.
  - eexists _, _, [0;0;0;34;0;0;0;0], _, _, _.
    repeat (split; [vm_compute; reflexivity|]). vm_compute. reflexivity.
Qed.
(** The hypotheses are met: the pipe and the in-memory socket are complete
    transports, and every kind of value occurs in a valid sequence. *)
Example C08_transports : complete_reader pipe_ops eq /\ complete_writer pipe_ops eq /\
  complete_reader (mem_ops always_ok always_ok (fun _ => 0)) mem_R /\
  complete_writer (mem_ops always_ok always_ok (fun _ => 0)) mem_W.
Proof.
  split; [exact pipe_complete_reader|]. split; [exact pipe_complete_writer|].
  split; [apply mem_complete_reader|apply mem_complete_writer; reflexivity].
Qed.
Definition sample : list value :=
  [VInt64 (-5); VUint64 (2^64 - 1); VInt32 (-2^31); VUint32 7; VInt16 (-1); VUint16 65535; VInt8 (-128); VUint8 200;
   VBool true; VData []; VString []; VString [104;105]; VData [0;255]].
Example C08_example : Forall valid sample /\ no_trailing_empty sample.
Proof.
  split.
  - unfold sample, valid, signed, unsigned, is_char, is_byte.
    repeat (apply Forall_cons; [first [lia | split; [repeat (apply Forall_cons; [lia|]); apply Forall_nil|cbn; lia] | exact I]|]); apply Forall_nil.
  - intros a v E. change sample with ([VInt64 (-5); VUint64 (2^64 - 1); VInt32 (-2^31); VUint32 7; VInt16 (-1); VUint16 65535; VInt8 (-128); VUint8 200;
      VBool true; VData []; VString []; VString [104;105]] ++ [VData [0;255]]) in E.
    apply app_inj_tail in E as (_ & <-). intros [H|H]; discriminate.
Qed.

(** ** C09 *)
(** Whatever the tag found, if it is not the reader's the reader refuses, stores
    nothing and has consumed the tag only. *)
Theorem C09_wrong_type : forall S (o : sock_ops S) R ast rst junk k s tag l,
  complete_reader o R -> length tag = 4%nat -> Forall is_byte tag -> tag <> tag_of k ->
  R s (tag ++ l) ->
  exists s', call_reader o ast rst junk k s = (ERROR_PSOCK_READ_BOXED_INVALID_TYPE, None, s') /\ R s' l.
Proof. exact wrong_type. Qed.
(** The tags of the eleven types differ, so every reader refuses every value of
    another type. *)
Theorem C09_tags_distinct : forall v k l, kind_of v <> k -> exists tag p, wire v ++ l = tag ++ p ++ l /\
  length tag = 4%nat /\ Forall is_byte tag /\ tag = tag_of (kind_of v) /\ tag <> tag_of k.
Proof.
  intros v k l N. exists (tag_of (kind_of v)), (skipn 4 (wire v)).
  split; [destruct v; reflexivity|]. split; [destruct v; reflexivity|].
  split; [destruct v; unfold kind_of, tag_of; all_chars|]. split; [reflexivity|].
  destruct v, k; cbn [kind_of] in N; try congruence; discriminate.
Qed.
Example C09_example : call_reader pipe_ops 0 0 (fun _ => 0) KUint64 (wire (VInt64 3))
  = (ERROR_PSOCK_READ_BOXED_INVALID_TYPE, None, [0;0;0;0;0;0;0;3]).
Proof. vm_compute. reflexivity. Qed.

(** ** C10 *)
(** Byte arrays shorter than 2^32 bytes are framed so that they are read back. *)
Theorem C10_short_data_partial : forall S (o : sock_ops S) W R d s l, complete_writer o W -> complete_reader o R ->
  Z.of_nat (length d) < 2^32 -> W s l ->
  exists s' frame, write_boxed_data o d s = (STATUS_SUCCESS, s') /\ W s' (l ++ frame) /\
    forall s0 rest rst junk, R s0 (frame ++ rest) -> d ++ rest <> [] ->
      exists s1, read_boxed_data o STATUS_SUCCESS rst junk s0
        = BRes STATUS_SUCCESS (Some (d, Z.of_nat (length d))) [d] s1 /\ R s1 rest.
Proof.
  intros S o W R d s l CW CR Hd Ws. destruct (write_data_complete S o W s l d CW Ws) as (s' & E & W').
  rewrite wrap32_small in W' by lia. exists s'. eexists. split; [exact E|]. split; [exact W'|].
  intros s0 rest rst junk Rs Ne. rewrite <- !app_assoc in Rs. apply read_data_complete; auto.
Qed.
(** From 2^32 bytes on the write still reports success, but reading the frame back
    gives a shorter array and leaves the rest of the data as garbage in the stream. *)
Theorem C10_long_data_refuted : forall S (o : sock_ops S) W R s s0 l d rst junk, complete_writer o W -> complete_reader o R ->
  W s l -> 2^32 <= Z.of_nat (length d) ->
  exists s' , write_boxed_data o d s = (STATUS_SUCCESS, s') /\
    exists frame, W s' (l ++ frame) /\
      (R s0 frame ->
       let n := Z.of_nat (length d) mod 2^32 in
       exists s1, read_boxed_data o STATUS_SUCCESS rst junk s0
           = BRes STATUS_SUCCESS (Some (firstn (Z.to_nat n) d, n)) [firstn (Z.to_nat n) d] s1 /\
         n <> Z.of_nat (length d) /\ R s1 (skipn (Z.to_nat n) d) /\ skipn (Z.to_nat n) d <> []).
Proof. exact data_truncated. Qed.
Example C10_long_data_exists : exists d : list Z, 2^32 <= Z.of_nat (length d).
Proof. exists (repeat 0 (Z.to_nat (2^32))). rewrite repeat_length, Z2Nat.id by lia. lia. Qed.

(** ** C11 *)
(** A block read over a transport that may deliver short, stop or fail at any call. *)
Theorem C11_read_raw_data : forall S (o : sock_ops S) R ast rst junk n s l, honest_reader o R -> R s l ->
  exists r, read_raw_data o ast rst junk n s = Some r /\
    (ast <> STATUS_SUCCESS -> r = BRes ast None [] s) /\
    (ast = STATUS_SUCCESS -> op_vtable o <> STATUS_SUCCESS -> r = BRes (op_vtable o) None [] s) /\
    (ast = STATUS_SUCCESS -> op_vtable o = STATUS_SUCCESS ->
      (exists d s', reads_to o s n d s' 0 /\ length d = n /\ (exists l', l = d ++ l' /\ R s' l') /\
         r = BRes STATUS_SUCCESS (Some (d, Z.of_nat n)) [d] s') \/
      (exists d s1 m, reads_to o s n d s1 m /\ m <> 0%nat /\ let q := op_read o s1 m true in
         ((rr_status q <> STATUS_SUCCESS /\ r = BRes (rr_status q) None [] (rr_sock q)) \/
          (rr_status q = STATUS_SUCCESS /\ rr_size q = 0%nat /\
           r = BRes ERROR_PSOCK_READ_INVALID_SIZE None [] (rr_sock q))))).
Proof. exact read_raw_data_spec. Qed.
Theorem C11_write_raw_data : forall S (o : sock_ops S) W s l d, honest_writer o W -> W s l ->
  exists e s2, write_raw_data o d s = Some (e, s2) /\
    (op_vtable o <> STATUS_SUCCESS -> e = op_vtable o /\ s2 = s) /\
    (op_vtable o = STATUS_SUCCESS ->
      (e = STATUS_SUCCESS /\ writes_to o s d s2 [] /\ W s2 (l ++ d)) \/
      (exists s1 d1 p, writes_to o s d s1 d1 /\ d1 <> [] /\ d = p ++ d1 /\ W s1 (l ++ p) /\
        let q := op_write o s1 d1 in s2 = wr_sock q /\
         ((wr_status q <> STATUS_SUCCESS /\ e = wr_status q) \/
          (wr_status q = STATUS_SUCCESS /\ wr_size q = 0%nat /\ e = ERROR_PSOCK_WRITE_INVALID_SIZE)))).
Proof. exact write_raw_data_spec. Qed.
(** An honest transport that delivers short: at most three bytes per call. *)
Definition trickle : sock_ops (list Z) :=
  {| op_vtable := STATUS_SUCCESS;
     op_read := fun s n _ => let k := Nat.min 3 (Nat.min n (length s)) in RRes STATUS_SUCCESS k (firstn k s) (skipn k s);
     op_write := fun s d => let k := Nat.min 3 (length d) in WRes STATUS_SUCCESS k (s ++ firstn k d) |}.
Example C11_trickle_honest : honest_reader trickle eq /\ honest_writer trickle eq.
Proof.
  split.
  - intros s l n <- _. cbn [trickle op_read rr_size rr_data rr_sock]. cbv zeta.
    set (k := Nat.min 3 (Nat.min n (length s))). assert (k <= n /\ k <= length s)%nat by (unfold k; lia).
    split; [lia|]. split; [rewrite firstn_length; lia|].
    exists (skipn k s). split; auto. symmetry. apply firstn_skipn.
  - intros s l d <- _. cbn [trickle op_write wr_size wr_sock]. cbv zeta. split; [lia|reflexivity].
Qed.
Example C11_example :
  read_raw_data trickle 0 0 (fun _ => 0) 7 [1;2;3;4;5;6;7;8] = Some (BRes 0 (Some ([1;2;3;4;5;6;7], 7)) [[1;2;3;4;5;6;7]] [8]) /\
  read_raw_data trickle 0 0 (fun _ => 0) 9 [1;2;3;4;5;6;7;8] = Some (BRes ERROR_PSOCK_READ_INVALID_SIZE None [] []) /\
  write_raw_data trickle [1;2;3;4;5;6;7;8] [0] = Some (0, [0;1;2;3;4;5;6;7;8]).
Proof. vm_compute. repeat split; reflexivity. Qed.

Print Assumptions C07_inverse.
Print Assumptions C07_network_image.
Print Assumptions C07_host_value.
Print Assumptions C07_encoding_unique.
Print Assumptions C08_raw_readers.
Print Assumptions C08_raw_writers.
Print Assumptions C08_boxed_readers.
Print Assumptions C08_boxed_writers.
Print Assumptions C08_boxed_data_reader.
Print Assumptions C08_boxed_string_reader.
Print Assumptions C08_boxed_data_writer.
Print Assumptions C08_boxed_string_writer.
Print Assumptions C08_write_sequence.
Print Assumptions C08_read_sequence_partial.
Print Assumptions C08_memory_roundtrip_partial.
Print Assumptions C08_trailing_empty_refuted.
Print Assumptions C09_wrong_type.
Print Assumptions C09_tags_distinct.
Print Assumptions C10_short_data_partial.
Print Assumptions C10_long_data_refuted.
Print Assumptions C11_read_raw_data.
Print Assumptions C11_write_raw_data.
