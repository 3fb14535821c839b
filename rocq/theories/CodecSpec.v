(** What the socket codec is supposed to do: big-endian integers, the boxed wire
    format, and transports. *)
From Verif Require Import Base Status CodecModel.

(** ** Big-endian (network order) integers *)
Definition be_value (l : list Z) : Z := fold_left (fun a b => a * 256 + b) l 0.
(** [l] is the [n]-byte network-order encoding of [v] (two's complement if negative). *)
Definition be_encodes (n : nat) (v : Z) (l : list Z) : Prop :=
  length l = n /\ Forall is_byte l /\ be_value l = v mod 2 ^ (8 * Z.of_nat n).
(** The same as a function. *)
Fixpoint be_bytes (n : nat) (v : Z) : list Z :=
  match n with O => [] | S m => (v / 256 ^ Z.of_nat m) mod 256 :: be_bytes m v end.

Definition signed (n : nat) (v : Z) : Prop := - 2 ^ (8 * Z.of_nat n - 1) <= v < 2 ^ (8 * Z.of_nat n - 1).
Definition unsigned (n : nat) (v : Z) : Prop := 0 <= v < 2 ^ (8 * Z.of_nat n).

(** ** Boxed values and their wire format *)
Inductive value :=
| VInt64 (v : Z) | VUint64 (v : Z) | VInt32 (v : Z) | VUint32 (v : Z)
| VInt16 (v : Z) | VUint16 (v : Z) | VInt8 (v : Z) | VUint8 (v : Z)
| VBool (b : bool) | VString (s : list Z) | VData (d : list Z).

Definition valid (v : value) : Prop :=
  match v with
  | VInt64 v => signed 8 v | VUint64 v => unsigned 8 v
  | VInt32 v => signed 4 v | VUint32 v => unsigned 4 v
  | VInt16 v => signed 2 v | VUint16 v => unsigned 2 v
  | VInt8 v => signed 1 v | VUint8 v => unsigned 1 v
  | VBool _ => True
  | VString s => Forall is_char s /\ Z.of_nat (length s) < 2^32 - 1
  | VData d => Forall is_byte d /\ Z.of_nat (length d) < 2^32
  end.

(** Tag (4 bytes), then the payload; strings and data carry a 4-byte length. *)
Definition wire (v : value) : list Z :=
  match v with
  | VInt64 v => [0;0;0;16] ++ be_bytes 8 v
  | VUint64 v => [0;0;0;17] ++ be_bytes 8 v
  | VInt32 v => [0;0;0;18] ++ be_bytes 4 v
  | VUint32 v => [0;0;0;19] ++ be_bytes 4 v
  | VInt16 v => [0;0;0;20] ++ be_bytes 2 v
  | VUint16 v => [0;0;0;21] ++ be_bytes 2 v
  | VInt8 v => [0;0;0;22] ++ be_bytes 1 v
  | VUint8 v => [0;0;0;23] ++ be_bytes 1 v
  | VBool b => [0;0;0;24] ++ [if b then 1 else 0]
  | VString s => [0;0;0;32] ++ be_bytes 4 (Z.of_nat (length s)) ++ s
  | VData d => [0;0;0;34] ++ be_bytes 4 (Z.of_nat (length d)) ++ d
  end.

(** The eleven readers. *)
Inductive kind := KInt64 | KUint64 | KInt32 | KUint32 | KInt16 | KUint16 | KInt8 | KUint8
                | KBool | KString | KData.
Definition kind_of (v : value) : kind :=
  match v with
  | VInt64 _ => KInt64 | VUint64 _ => KUint64 | VInt32 _ => KInt32 | VUint32 _ => KUint32
  | VInt16 _ => KInt16 | VUint16 _ => KUint16 | VInt8 _ => KInt8 | VUint8 _ => KUint8
  | VBool _ => KBool | VString _ => KString | VData _ => KData
  end.
Definition tag_of (k : kind) : list Z :=
  match k with
  | KInt64 => [0;0;0;16] | KUint64 => [0;0;0;17] | KInt32 => [0;0;0;18] | KUint32 => [0;0;0;19]
  | KInt16 => [0;0;0;20] | KUint16 => [0;0;0;21] | KInt8 => [0;0;0;22] | KUint8 => [0;0;0;23]
  | KBool => [0;0;0;24] | KString => [0;0;0;32] | KData => [0;0;0;34]
  end.

(** What a reader hands to its caller: a number, a truth value, or a fresh block
    and a length. *)
Inductive received := GotInt (v : Z) | GotBool (b : bool) | GotBlock (blk : list Z) (size : Z).
Definition delivered (v : value) : received :=
  match v with
  | VInt64 v | VUint64 v | VInt32 v | VUint32 v | VInt16 v | VUint16 v | VInt8 v | VUint8 v => GotInt v
  | VBool b => GotBool b
  | VString s => GotBlock (s ++ [0]) (Z.of_nat (length s))
  | VData d => GotBlock d (Z.of_nat (length d))
  end.

(** Calling the reader of a given kind: status, what the caller received, socket. *)
Definition box_int {S} (r : vres S Z) : Z * option received * S :=
  (v_status r, option_map GotInt (v_val r), v_sock r).
Definition box_bool {S} (r : vres S bool) : Z * option received * S :=
  (v_status r, option_map GotBool (v_val r), v_sock r).
Definition box_block {S} (r : bres S) : Z * option received * S :=
  (b_status r, option_map (fun p => GotBlock (fst p) (snd p)) (b_out r), b_sock r).

Definition call_reader {S} (o : sock_ops S) (ast rst : Z) (junk : nat -> Z) (k : kind) (s : S)
  : Z * option received * S :=
  match k with
  | KInt64 => box_int (read_boxed_int64 o s)
  | KUint64 => box_int (read_boxed_uint64 o s)
  | KInt32 => box_int (read_boxed_int32 o s)
  | KUint32 => box_int (read_boxed_uint32 o s)
  | KInt16 => box_int (read_boxed_int16 o s)
  | KUint16 => box_int (read_boxed_uint16 o s)
  | KInt8 => box_int (read_boxed_int8 o s)
  | KUint8 => box_int (read_boxed_uint8 o s)
  | KBool => box_bool (read_boxed_bool o s)
  | KString => box_block (read_boxed_string o ast rst junk s)
  | KData => box_block (read_boxed_data o ast rst junk s)
  end.

(** Calling the writer of a value; a string is passed as a NUL-terminated buffer. *)
Definition call_writer {S} (o : sock_ops S) (v : value) (s : S) : option (Z * S) :=
  match v with
  | VInt64 v => Some (write_boxed_int64 o v s)
  | VUint64 v => Some (write_boxed_uint64 o v s)
  | VInt32 v => Some (write_boxed_int32 o v s)
  | VUint32 v => Some (write_boxed_uint32 o v s)
  | VInt16 v => Some (write_boxed_int16 o v s)
  | VUint16 v => Some (write_boxed_uint16 o v s)
  | VInt8 v => Some (write_boxed_int8 o v s)
  | VUint8 v => Some (write_boxed_uint8 o v s)
  | VBool b => Some (write_boxed_bool o b s)
  | VString t => write_boxed_string o (t ++ [0]) 0 s
  | VData d => Some (write_boxed_data o d s)
  end.

(** Writing or reading a whole sequence, stopping at the first error. *)
Fixpoint write_all {S} (o : sock_ops S) (vs : list value) (s : S) : option (Z * S) :=
  match vs with
  | [] => Some (STATUS_SUCCESS, s)
  | v :: t => match call_writer o v s with
              | Some (e, s') => if e =? STATUS_SUCCESS then write_all o t s' else Some (e, s')
              | None => None
              end
  end.
Fixpoint read_all {S} (o : sock_ops S) (ast rst : Z) (junk : nat -> Z) (ks : list kind) (s : S)
  : Z * list received * S :=
  match ks with
  | [] => (STATUS_SUCCESS, [], s)
  | k :: t => match call_reader o ast rst junk k s with
              | (e, Some x, s') => if e =? STATUS_SUCCESS
                                   then match read_all o ast rst junk t s' with (e', l, s'') => (e', x :: l, s'') end
                                   else (e, [], s')
              | (e, None, s') => (e, [], s')
              end
  end.

(** ** Transports *)
(** [R s l]: the bytes [l] are still to be read from [s].  A complete transport
    serves every blocking read in full as long as bytes remain. *)
Definition complete_reader {S} (o : sock_ops S) (R : S -> list Z -> Prop) : Prop :=
  op_vtable o = STATUS_SUCCESS /\
  forall s l n, R s l -> l <> [] -> (n <= length l)%nat ->
    exists s', op_read o s n true = RRes STATUS_SUCCESS n (firstn n l) s' /\ R s' (skipn n l).
(** [W s l]: the bytes [l] have been written to [s]. *)
Definition complete_writer {S} (o : sock_ops S) (W : S -> list Z -> Prop) : Prop :=
  op_vtable o = STATUS_SUCCESS /\
  forall s l d, W s l -> exists s', op_write o s d = WRes STATUS_SUCCESS (length d) s' /\ W s' (l ++ d).

(** A transport that may deliver short, stop or fail at any call, but never
    invents, drops or reorders bytes and never exceeds the request. *)
Definition honest_reader {S} (o : sock_ops S) (R : S -> list Z -> Prop) : Prop :=
  forall s l n, R s l -> rr_status (op_read o s n true) = STATUS_SUCCESS ->
    (rr_size (op_read o s n true) <= n)%nat /\
    length (rr_data (op_read o s n true)) = rr_size (op_read o s n true) /\
    exists l', l = rr_data (op_read o s n true) ++ l' /\ R (rr_sock (op_read o s n true)) l'.
Definition honest_writer {S} (o : sock_ops S) (W : S -> list Z -> Prop) : Prop :=
  forall s l d, W s l -> wr_status (op_write o s d) = STATUS_SUCCESS ->
    (wr_size (op_write o s d) <= length d)%nat /\
    W (wr_sock (op_write o s d)) (l ++ firstn (wr_size (op_write o s d)) d).

(** The sequence of successful non-empty transfers a block read or write makes. *)
Inductive reads_to {S} (o : sock_ops S) : S -> nat -> list Z -> S -> nat -> Prop :=
| reads_refl : forall s n, reads_to o s n [] s n
| reads_step : forall s n d s2 m,
    n <> 0%nat -> rr_status (op_read o s n true) = STATUS_SUCCESS ->
    rr_size (op_read o s n true) <> 0%nat ->
    reads_to o (rr_sock (op_read o s n true)) (n - rr_size (op_read o s n true)) d s2 m ->
    reads_to o s n (rr_data (op_read o s n true) ++ d) s2 m.
Inductive writes_to {S} (o : sock_ops S) : S -> list Z -> S -> list Z -> Prop :=
| writes_refl : forall s d, writes_to o s d s d
| writes_step : forall s d s2 d2,
    d <> [] -> wr_status (op_write o s d) = STATUS_SUCCESS -> wr_size (op_write o s d) <> 0%nat ->
    writes_to o (wr_sock (op_write o s d)) (skipn (wr_size (op_write o s d)) d) s2 d2 ->
    writes_to o s d s2 d2.

(** ** Behaviour of the fixed-size readers and writers over any transport *)
Definition reads_fixed {S V} (o : sock_ops S) (rd : S -> vres S V) (n : nat) (means : list Z -> V -> Prop) : Prop :=
  (op_vtable o <> STATUS_SUCCESS -> forall s, rd s = VRes (op_vtable o) None s) /\
  (op_vtable o = STATUS_SUCCESS -> forall s,
     let r := op_read o s n true in
     (rr_status r <> STATUS_SUCCESS -> rd s = VRes (rr_status r) None (rr_sock r)) /\
     (rr_status r = STATUS_SUCCESS -> rr_size r <> n ->
        rd s = VRes ERROR_PSOCK_READ_INVALID_SIZE None (rr_sock r)) /\
     (rr_status r = STATUS_SUCCESS -> rr_size r = n -> length (rr_data r) = n -> Forall is_byte (rr_data r) ->
        exists v, rd s = VRes STATUS_SUCCESS (Some v) (rr_sock r) /\ means (rr_data r) v)).
Definition means_unsigned (n : nat) (l : list Z) (v : Z) : Prop := unsigned n v /\ be_encodes n v l.
Definition means_signed (n : nat) (l : list Z) (v : Z) : Prop := signed n v /\ be_encodes n v l.
Definition means_bool (l : list Z) (b : bool) : Prop := (b = false <-> l = [0]).

Definition writes_fixed {S} (o : sock_ops S) (wf : S -> Z * S) (d : list Z) : Prop :=
  (op_vtable o <> STATUS_SUCCESS -> forall s, wf s = (op_vtable o, s)) /\
  (op_vtable o = STATUS_SUCCESS -> forall s,
     let r := op_write o s d in
     (wr_status r <> STATUS_SUCCESS -> wf s = (wr_status r, wr_sock r)) /\
     (wr_status r = STATUS_SUCCESS -> wr_size r <> length d -> wf s = (ERROR_PSOCK_WRITE_INVALID_SIZE, wr_sock r)) /\
     (wr_status r = STATUS_SUCCESS -> wr_size r = length d -> wf s = (STATUS_SUCCESS, wr_sock r))).

(** A boxed reader/writer over any transport, in terms of the raw ones. *)
Definition reads_tagged {S V} (o : sock_ops S) (rd raw : S -> vres S V) (tag : Z) : Prop :=
  forall s, let t := read_raw_uint32 o s in
    (v_val t = None -> rd s = VRes (v_status t) None (v_sock t)) /\
    (forall x, v_val t = Some x -> x <> tag -> rd s = VRes ERROR_PSOCK_READ_BOXED_INVALID_TYPE None (v_sock t)) /\
    (v_val t = Some tag -> rd s = raw (v_sock t)).
Definition writes_tagged {S} (o : sock_ops S) (wf raw : S -> Z * S) (tag : Z) : Prop :=
  forall s, let t := write_raw_uint32 o tag s in
    (fst t <> STATUS_SUCCESS -> wf s = t) /\
    (fst t = STATUS_SUCCESS -> wf s = raw (snd t)).
(** Readers of length-prefixed blocks; [blk d] is the block handed to the caller. *)
Definition reads_block {S} (o : sock_ops S) (rd : S -> bres S) (ast : Z) (tag : Z)
  (too_big : Z -> Prop) (blk : list Z -> list Z) : Prop :=
  forall s, let t := read_raw_uint32 o s in let l := read_raw_uint32 o (v_sock t) in
    (v_val t = None -> rd s = BRes (v_status t) None [] (v_sock t)) /\
    (forall x, v_val t = Some x -> x <> tag -> rd s = BRes ERROR_PSOCK_READ_BOXED_INVALID_TYPE None [] (v_sock t)) /\
    (v_val t = Some tag ->
      (v_val l = None -> rd s = BRes (v_status l) None [] (v_sock l)) /\
      forall size, v_val l = Some size ->
        let r := op_read o (v_sock l) (Z.to_nat size) true in
        (too_big size -> rd s = BRes ERROR_PSOCK_READ_BOXED_INVALID_SIZE None [] (v_sock l)) /\
        (~ too_big size -> ast <> STATUS_SUCCESS -> rd s = BRes ast None [] (v_sock l)) /\
        (~ too_big size -> ast = STATUS_SUCCESS -> rr_status r <> STATUS_SUCCESS ->
           rd s = BRes (rr_status r) None [] (rr_sock r)) /\
        (~ too_big size -> ast = STATUS_SUCCESS -> rr_status r = STATUS_SUCCESS -> Z.of_nat (rr_size r) <> size ->
           rd s = BRes ERROR_PSOCK_READ_INVALID_SIZE None [] (rr_sock r)) /\
        (~ too_big size -> ast = STATUS_SUCCESS -> rr_status r = STATUS_SUCCESS -> Z.of_nat (rr_size r) = size ->
           length (rr_data r) = rr_size r -> 0 <= size < 2^32 ->
           rd s = BRes STATUS_SUCCESS (Some (blk (rr_data r), size)) [blk (rr_data r)] (rr_sock r))).
(** Writers of length-prefixed blocks. *)
Definition writes_block {S} (o : sock_ops S) (wf : S -> Z * S) (tag : Z) (d : list Z) : Prop :=
  forall s, let t := write_raw_uint32 o tag s in
    let l := write_raw_uint32 o (Z.of_nat (length d) mod 2^32) (snd t) in
    let r := op_write o (snd l) d in
    (fst t <> STATUS_SUCCESS -> wf s = t) /\
    (fst t = STATUS_SUCCESS -> fst l <> STATUS_SUCCESS -> wf s = l) /\
    (fst t = STATUS_SUCCESS -> fst l = STATUS_SUCCESS -> wr_status r <> STATUS_SUCCESS -> wf s = (wr_status r, wr_sock r)) /\
    (fst t = STATUS_SUCCESS -> fst l = STATUS_SUCCESS -> wr_status r = STATUS_SUCCESS -> wr_size r <> length d ->
       wf s = (ERROR_PSOCK_WRITE_INVALID_SIZE, wr_sock r)) /\
    (fst t = STATUS_SUCCESS -> fst l = STATUS_SUCCESS -> wr_status r = STATUS_SUCCESS -> wr_size r = length d ->
       wf s = (STATUS_SUCCESS, wr_sock r)).

(** A pipe: the simplest complete transport; its state is the bytes in flight. *)
Definition pipe_ops : sock_ops (list Z) :=
  {| op_vtable := STATUS_SUCCESS;
     op_read := fun s n _ => RRes STATUS_SUCCESS (Nat.min n (length s)) (firstn n s) (skipn n s);
     op_write := fun s d => WRes STATUS_SUCCESS (length d) (s ++ d) |}.

Definition is_empty_block (v : value) : Prop := v = VString [] \/ v = VData [].

(** The last value is not an empty string or byte array. *)
Definition no_trailing_empty (vs : list value) : Prop := forall a v, vs = a ++ [v] -> ~ is_empty_block v.
