(** Model of the raw and boxed psock readers and writers (src/psock/psock_read_*.c,
    psock_write_*.c) and of the byte-order utilities they use, over an abstract
    socket given by its [read_fn]/[write_fn]. *)
From Verif Require Import Base Status StringModel.

(** ** Integers in memory (x86-64: little endian) *)
Fixpoint le_bytes (n : nat) (v : Z) : list Z :=
  match n with O => [] | S m => v mod 256 :: le_bytes m (v / 256) end.
Fixpoint le_value (l : list Z) : Z :=
  match l with [] => 0 | b :: t => b + 256 * le_value t end.

(** Reinterpretation of an [n]-byte unsigned value as signed. *)
Definition to_signed (n : nat) (v : Z) : Z :=
  if v <? 2 ^ (8 * Z.of_nat n - 1) then v else v - 2 ^ (8 * Z.of_nat n).

(** include/rcpr/byteswap.h: [bswap_16/32/64] reverse the bytes of the object
    representation. *)
Definition byteswap (n : nat) (v : Z) : Z := le_value (rev (le_bytes n v)).

(** src/socket_utilities/socket_utility_hton16.c:22-31, hton32.c:22-31, hton64.c:22-31 and
    ntoh16.c:22-31, ntoh32.c:22-31, ntoh64.c:22-31: signed in, signed out. *)
Definition hton16 (v : Z) : Z := to_signed 2 (byteswap 2 v).
Definition hton32 (v : Z) : Z := to_signed 4 (byteswap 4 v).
Definition hton64 (v : Z) : Z := to_signed 8 (byteswap 8 v).
Definition ntoh16 (v : Z) : Z := to_signed 2 (byteswap 2 v).
Definition ntoh32 (v : Z) : Z := to_signed 4 (byteswap 4 v).
Definition ntoh64 (v : Z) : Z := to_signed 8 (byteswap 8 v).

(** ** Abstract sockets *)
(** Result of a [read_fn] call: status, value of [*size] afterwards, the bytes
    stored at the start of the caller's buffer, the socket afterwards. *)
Record rres (S : Type) := RRes { rr_status : Z; rr_size : nat; rr_data : list Z; rr_sock : S }.
Arguments RRes {S}. Arguments rr_status {S}. Arguments rr_size {S}. Arguments rr_data {S}. Arguments rr_sock {S}.
(** Result of a [write_fn] call: status, [*size], socket. *)
Record wres (S : Type) := WRes { wr_status : Z; wr_size : nat; wr_sock : S }.
Arguments WRes {S}. Arguments wr_status {S}. Arguments wr_size {S}. Arguments wr_sock {S}.

(** A socket type: what [resource_vtable_read] says about it, and its methods
    (include/rcpr/psock.h, psock_internal.h [psock_vtable]). *)
Record sock_ops (S : Type) := SockOps
  { op_vtable : Z;
    op_read : S -> nat -> bool -> rres S;
    op_write : S -> list Z -> wres S }.
Arguments op_vtable {S}. Arguments op_read {S}. Arguments op_write {S}.

(** Outcome of a typed read: status, the value stored in [*val] ([None]: [*val] not
    written), socket. *)
Record vres (S V : Type) := VRes { v_status : Z; v_val : option V; v_sock : S }.
Arguments VRes {S V}. Arguments v_status {S V}. Arguments v_val {S V}. Arguments v_sock {S V}.

(** Bytes of an [n]-byte local after [d] was stored at its start. *)
Definition overlay (d old : list Z) : list Z := d ++ skipn (length d) old.

(** The common body of psock_read_raw_{int8,uint8,int16,...,uint64,bool}.c
    (psock_read_raw_int64.c:55-97 and siblings): [conv] turns the bytes of the
    local [data] into the value assigned to [*val]. *)
Definition read_raw_fixed {S V} (o : sock_ops S) (n : nat) (conv : list Z -> V) (s : S) : vres S V :=
  if negb (op_vtable o =? STATUS_SUCCESS) then VRes (op_vtable o) None s
  else
    let r := op_read o s n true in
    if negb (rr_status r =? STATUS_SUCCESS) then VRes (rr_status r) None (rr_sock r)
    else if negb (rr_size r =? n)%nat then VRes ERROR_PSOCK_READ_INVALID_SIZE None (rr_sock r)
    else VRes STATUS_SUCCESS (Some (conv (overlay (rr_data r) (repeat 0 n)))) (rr_sock r).

(** psock_read_raw_int64.c:93 etc.: the local is loaded as a (signed) integer,
    byte-swapped, and converted to the type of [*val]. *)
Definition read_raw_int64 {S} (o : sock_ops S) := read_raw_fixed o 8 (fun l => ntoh64 (to_signed 8 (le_value l))).
Definition read_raw_uint64 {S} (o : sock_ops S) := read_raw_fixed o 8 (fun l => ntoh64 (to_signed 8 (le_value l)) mod 2^64).
Definition read_raw_int32 {S} (o : sock_ops S) := read_raw_fixed o 4 (fun l => ntoh32 (to_signed 4 (le_value l))).
Definition read_raw_uint32 {S} (o : sock_ops S) := read_raw_fixed o 4 (fun l => ntoh32 (to_signed 4 (le_value l)) mod 2^32).
Definition read_raw_int16 {S} (o : sock_ops S) := read_raw_fixed o 2 (fun l => ntoh16 (to_signed 2 (le_value l))).
Definition read_raw_uint16 {S} (o : sock_ops S) := read_raw_fixed o 2 (fun l => ntoh16 (to_signed 2 (le_value l)) mod 2^16).
(** psock_read_raw_int8.c:54-96, psock_read_raw_uint8.c:54-96 *)
Definition read_raw_int8 {S} (o : sock_ops S) := read_raw_fixed o 1 (fun l => to_signed 1 (le_value l)).
Definition read_raw_uint8 {S} (o : sock_ops S) := read_raw_fixed o 1 (fun l => le_value l).
(** psock_read_raw_bool.c:52-97 *)
Definition read_raw_bool {S} (o : sock_ops S) := read_raw_fixed o 1 (fun l => negb (le_value l =? 0)).

(** The common body of psock_write_raw_*.c (psock_write_raw_int64.c:47-85 and
    siblings): [d] are the bytes of the local [data]. *)
Definition write_raw_fixed {S} (o : sock_ops S) (d : list Z) (s : S) : Z * S :=
  if negb (op_vtable o =? STATUS_SUCCESS) then (op_vtable o, s)
  else
    let r := op_write o s d in
    if negb (wr_status r =? STATUS_SUCCESS) then (wr_status r, wr_sock r)
    else if negb (wr_size r =? length d)%nat then (ERROR_PSOCK_WRITE_INVALID_SIZE, wr_sock r)
    else (STATUS_SUCCESS, wr_sock r).

Definition write_raw_int64 {S} (o : sock_ops S) (v : Z) := write_raw_fixed o (le_bytes 8 (hton64 v)).
Definition write_raw_uint64 {S} (o : sock_ops S) (v : Z) := write_raw_fixed o (le_bytes 8 (hton64 (to_signed 8 v) mod 2^64)).
Definition write_raw_int32 {S} (o : sock_ops S) (v : Z) := write_raw_fixed o (le_bytes 4 (hton32 v)).
Definition write_raw_uint32 {S} (o : sock_ops S) (v : Z) := write_raw_fixed o (le_bytes 4 (hton32 (to_signed 4 v) mod 2^32)).
Definition write_raw_int16 {S} (o : sock_ops S) (v : Z) := write_raw_fixed o (le_bytes 2 (hton16 v)).
Definition write_raw_uint16 {S} (o : sock_ops S) (v : Z) := write_raw_fixed o (le_bytes 2 (hton16 (to_signed 2 v) mod 2^16)).
(** psock_write_raw_int8.c:47-83, psock_write_raw_uint8.c:47-83 *)
Definition write_raw_int8 {S} (o : sock_ops S) (v : Z) := write_raw_fixed o (le_bytes 1 v).
Definition write_raw_uint8 {S} (o : sock_ops S) (v : Z) := write_raw_fixed o (le_bytes 1 v).
(** psock_write_raw_bool.c:44-88 *)
Definition write_raw_bool {S} (o : sock_ops S) (v : bool) := write_raw_fixed o (le_bytes 1 (if v then 1 else 0)).

(** include/rcpr/psock.h:324-334 *)
Definition PSOCK_BOXED_TYPE_INT64 : Z := 16.
Definition PSOCK_BOXED_TYPE_UINT64 : Z := 17.
Definition PSOCK_BOXED_TYPE_INT32 : Z := 18.
Definition PSOCK_BOXED_TYPE_UINT32 : Z := 19.
Definition PSOCK_BOXED_TYPE_INT16 : Z := 20.
Definition PSOCK_BOXED_TYPE_UINT16 : Z := 21.
Definition PSOCK_BOXED_TYPE_INT8 : Z := 22.
Definition PSOCK_BOXED_TYPE_UINT8 : Z := 23.
Definition PSOCK_BOXED_TYPE_BOOL : Z := 24.
Definition PSOCK_BOXED_TYPE_STRING : Z := 32.
Definition PSOCK_BOXED_TYPE_DATA : Z := 34.

(** The common body of psock_read_boxed_{int64,...,bool}.c
    (psock_read_boxed_uint64.c:52-76 and siblings). *)
Definition read_boxed {S V} (o : sock_ops S) (tag : Z) (rdv : S -> vres S V) (s : S) : vres S V :=
  let t := read_raw_uint32 o s in
  match v_val t with
  | Some ty =>
      if ty =? tag then rdv (v_sock t) else VRes ERROR_PSOCK_READ_BOXED_INVALID_TYPE None (v_sock t)
  | None => VRes (v_status t) None (v_sock t)
  end.

Definition read_boxed_int64 {S} (o : sock_ops S) := read_boxed o PSOCK_BOXED_TYPE_INT64 (read_raw_int64 o).
Definition read_boxed_uint64 {S} (o : sock_ops S) := read_boxed o PSOCK_BOXED_TYPE_UINT64 (read_raw_uint64 o).
Definition read_boxed_int32 {S} (o : sock_ops S) := read_boxed o PSOCK_BOXED_TYPE_INT32 (read_raw_int32 o).
Definition read_boxed_uint32 {S} (o : sock_ops S) := read_boxed o PSOCK_BOXED_TYPE_UINT32 (read_raw_uint32 o).
Definition read_boxed_int16 {S} (o : sock_ops S) := read_boxed o PSOCK_BOXED_TYPE_INT16 (read_raw_int16 o).
Definition read_boxed_uint16 {S} (o : sock_ops S) := read_boxed o PSOCK_BOXED_TYPE_UINT16 (read_raw_uint16 o).
Definition read_boxed_int8 {S} (o : sock_ops S) := read_boxed o PSOCK_BOXED_TYPE_INT8 (read_raw_int8 o).
Definition read_boxed_uint8 {S} (o : sock_ops S) := read_boxed o PSOCK_BOXED_TYPE_UINT8 (read_raw_uint8 o).
Definition read_boxed_bool {S} (o : sock_ops S) := read_boxed o PSOCK_BOXED_TYPE_BOOL (read_raw_bool o).

(** The common body of psock_write_boxed_{int64,...,bool}.c
    (psock_write_boxed_uint64.c:44-60 and siblings). *)
Definition write_boxed {S} (o : sock_ops S) (tag : Z) (wrv : S -> Z * S) (s : S) : Z * S :=
  let (st1, s1) := write_raw_uint32 o tag s in
  if negb (st1 =? STATUS_SUCCESS) then (st1, s1) else wrv s1.

Definition write_boxed_int64 {S} (o : sock_ops S) (v : Z) := write_boxed o PSOCK_BOXED_TYPE_INT64 (write_raw_int64 o v).
Definition write_boxed_uint64 {S} (o : sock_ops S) (v : Z) := write_boxed o PSOCK_BOXED_TYPE_UINT64 (write_raw_uint64 o v).
Definition write_boxed_int32 {S} (o : sock_ops S) (v : Z) := write_boxed o PSOCK_BOXED_TYPE_INT32 (write_raw_int32 o v).
Definition write_boxed_uint32 {S} (o : sock_ops S) (v : Z) := write_boxed o PSOCK_BOXED_TYPE_UINT32 (write_raw_uint32 o v).
Definition write_boxed_int16 {S} (o : sock_ops S) (v : Z) := write_boxed o PSOCK_BOXED_TYPE_INT16 (write_raw_int16 o v).
Definition write_boxed_uint16 {S} (o : sock_ops S) (v : Z) := write_boxed o PSOCK_BOXED_TYPE_UINT16 (write_raw_uint16 o v).
Definition write_boxed_int8 {S} (o : sock_ops S) (v : Z) := write_boxed o PSOCK_BOXED_TYPE_INT8 (write_raw_int8 o v).
Definition write_boxed_uint8 {S} (o : sock_ops S) (v : Z) := write_boxed o PSOCK_BOXED_TYPE_UINT8 (write_raw_uint8 o v).
Definition write_boxed_bool {S} (o : sock_ops S) (v : bool) := write_boxed o PSOCK_BOXED_TYPE_BOOL (write_raw_bool o v).

(** psock_write_boxed_data.c:46-98; [data] is the whole object, its length is
    [data_size]. *)
Definition write_boxed_data {S} (o : sock_ops S) (data : list Z) (s : S) : Z * S :=
  let (st1, s1) := write_raw_uint32 o PSOCK_BOXED_TYPE_DATA s in
  if negb (st1 =? STATUS_SUCCESS) then (st1, s1) else
  let (st2, s2) := write_raw_uint32 o (wrap32 (Z.of_nat (length data))) s1 in
  if negb (st2 =? STATUS_SUCCESS) then (st2, s2) else
  if negb (op_vtable o =? STATUS_SUCCESS) then (op_vtable o, s2) else
  let r := op_write o s2 data in
  if negb (wr_status r =? STATUS_SUCCESS) then (wr_status r, wr_sock r)
  else if negb (length data =? wr_size r)%nat then (ERROR_PSOCK_WRITE_INVALID_SIZE, wr_sock r)
  else (STATUS_SUCCESS, wr_sock r).

(** psock_write_boxed_string.c:44-102 on the string at offset [p] of [b]. *)
Definition write_boxed_string {S} (o : sock_ops S) (b : list Z) (p : nat) (s : S) : option (Z * S) :=
  do len <- c_strlen b p;
  if 2^32 - 1 <=? Z.of_nat len then Some (ERROR_PSOCK_WRITE_INVALID_SIZE, s) else
  let (st1, s1) := write_raw_uint32 o PSOCK_BOXED_TYPE_STRING s in
  if negb (st1 =? STATUS_SUCCESS) then Some (st1, s1) else
  let (st2, s2) := write_raw_uint32 o (wrap32 (Z.of_nat len)) s1 in
  if negb (st2 =? STATUS_SUCCESS) then Some (st2, s2) else
  if negb (op_vtable o =? STATUS_SUCCESS) then Some (op_vtable o, s2) else
  let r := op_write o s2 (firstn len (skipn p b)) in
  if negb (wr_status r =? STATUS_SUCCESS) then Some (wr_status r, wr_sock r)
  else if negb (len =? wr_size r)%nat then Some (ERROR_PSOCK_WRITE_INVALID_SIZE, wr_sock r)
  else Some (STATUS_SUCCESS, wr_sock r).

(** Outcome of a read that allocates: status, the values stored through the output
    pointers (block contents and size; [None]: neither written), blocks still
    allocated by the call, socket. *)
Record bres (S : Type) := BRes
  { b_status : Z; b_out : option (list Z * Z); b_live : list (list Z); b_sock : S }.
Arguments BRes {S}. Arguments b_status {S}. Arguments b_out {S}. Arguments b_live {S}. Arguments b_sock {S}.

(** A [cleanup_buffer] label: the only block is reclaimed; [rst] is what
    [allocator_reclaim] returns. *)
Definition cleanup {S} (retval rst : Z) (s : S) : bres S :=
  BRes (if (retval =? STATUS_SUCCESS) && negb (rst =? STATUS_SUCCESS) then rst else retval) None [] s.

(** psock_read_boxed_data.c:63-148.  [ast] is the status of the allocation (made
    with [size] bytes), [rst] that of a reclaim, [junk] the fresh block's contents. *)
Definition read_boxed_data {S} (o : sock_ops S) (ast rst : Z) (junk : nat -> Z) (s : S) : bres S :=
  let t := read_raw_uint32 o s in
  match v_val t with
  | None => BRes (v_status t) None [] (v_sock t)
  | Some ty =>
    if negb (ty =? PSOCK_BOXED_TYPE_DATA) then BRes ERROR_PSOCK_READ_BOXED_INVALID_TYPE None [] (v_sock t) else
    let l := read_raw_uint32 o (v_sock t) in
    match v_val l with
    | None => BRes (v_status l) None [] (v_sock l)
    | Some size =>
      if negb (ast =? STATUS_SUCCESS) then BRes ast None [] (v_sock l) else
      let buf := fresh_block junk (Z.to_nat size) in
      if negb (op_vtable o =? STATUS_SUCCESS) then cleanup (op_vtable o) rst (v_sock l) else
      let r := op_read o (v_sock l) (Z.to_nat size) true in
      if negb (rr_status r =? STATUS_SUCCESS) then cleanup (rr_status r) rst (rr_sock r)
      else if negb (Z.of_nat (rr_size r) =? size) then cleanup ERROR_PSOCK_READ_INVALID_SIZE rst (rr_sock r)
      else let buf' := overlay (rr_data r) buf in
           BRes STATUS_SUCCESS (Some (buf', size)) [buf'] (rr_sock r)
    end
  end.

(** psock_read_boxed_string.c:64-158; the block has [size + 1] bytes. *)
Definition read_boxed_string {S} (o : sock_ops S) (ast rst : Z) (junk : nat -> Z) (s : S) : bres S :=
  let t := read_raw_uint32 o s in
  match v_val t with
  | None => BRes (v_status t) None [] (v_sock t)
  | Some ty =>
    if negb (ty =? PSOCK_BOXED_TYPE_STRING) then BRes ERROR_PSOCK_READ_BOXED_INVALID_TYPE None [] (v_sock t) else
    let l := read_raw_uint32 o (v_sock t) in
    match v_val l with
    | None => BRes (v_status l) None [] (v_sock l)
    | Some size =>
      if size =? 2^32 - 1 then BRes ERROR_PSOCK_READ_BOXED_INVALID_SIZE None [] (v_sock l) else
      if negb (ast =? STATUS_SUCCESS) then BRes ast None [] (v_sock l) else
      let buf := upd (fresh_block junk (Z.to_nat (wrap32 (size + 1)))) (Z.to_nat size) 0 in
      if negb (op_vtable o =? STATUS_SUCCESS) then cleanup (op_vtable o) rst (v_sock l) else
      let r := op_read o (v_sock l) (Z.to_nat size) true in
      if negb (rr_status r =? STATUS_SUCCESS) then cleanup (rr_status r) rst (rr_sock r)
      else if negb (Z.of_nat (rr_size r) =? size) then cleanup ERROR_PSOCK_READ_INVALID_SIZE rst (rr_sock r)
      else let buf' := overlay (rr_data r) buf in
           BRes STATUS_SUCCESS (Some (buf', size)) [buf'] (rr_sock r)
    end
  end.

(** psock_read_raw_data.c:92-112: the transfer loop.  [got] are the bytes already
    stored at the start of the buffer.  Returns the loop's status, the bytes got
    and the remaining size. *)
Fixpoint read_loop {S} (fuel : nat) (o : sock_ops S) (s : S) (got : list Z) (n : nat)
  : option (Z * list Z * nat * S) :=
  match fuel with
  | O => None
  | Datatypes.S f =>
      if (n =? 0)%nat then Some (STATUS_SUCCESS, got, n, s)
      else
        let r := op_read o s n true in
        if negb (rr_status r =? STATUS_SUCCESS) then Some (rr_status r, got, n, rr_sock r)
        else if (rr_size r =? 0)%nat then Some (STATUS_SUCCESS, got, n, rr_sock r)
        else read_loop f o (rr_sock r) (got ++ rr_data r) (n - rr_size r)
  end.

(** psock_read_raw_data.c:59-138.  The fuel suffices because a socket never
    reports more bytes than asked for (otherwise the C code itself underflows). *)
Definition read_raw_data {S} (o : sock_ops S) (ast rst : Z) (junk : nat -> Z) (n : nat) (s : S) : option (bres S) :=
  if negb (ast =? STATUS_SUCCESS) then Some (BRes ast None [] s) else
  if negb (op_vtable o =? STATUS_SUCCESS) then Some (cleanup (op_vtable o) rst s) else
  do '(st, got, rest, s') <- read_loop (Datatypes.S n) o s [] n;
  if negb (st =? STATUS_SUCCESS) then Some (cleanup st rst s')
  else if negb (rest =? 0)%nat then Some (cleanup ERROR_PSOCK_READ_INVALID_SIZE rst s')
  else let buf := overlay got (fresh_block junk n) in
       Some (BRes STATUS_SUCCESS (Some (buf, Z.of_nat n)) [buf] s').

(** psock_write_raw_data.c:70-89 *)
Fixpoint write_loop {S} (fuel : nat) (o : sock_ops S) (s : S) (d : list Z) : option (Z * list Z * S) :=
  match fuel with
  | O => None
  | Datatypes.S f =>
      match d with
      | [] => Some (STATUS_SUCCESS, [], s)
      | _ =>
        let r := op_write o s d in
        if negb (wr_status r =? STATUS_SUCCESS) then Some (wr_status r, d, wr_sock r)
        else if (wr_size r =? 0)%nat then Some (STATUS_SUCCESS, d, wr_sock r)
        else write_loop f o (wr_sock r) (skipn (wr_size r) d)
      end
  end.

(** psock_write_raw_data.c:47-99 *)
Definition write_raw_data {S} (o : sock_ops S) (d : list Z) (s : S) : option (Z * S) :=
  if negb (op_vtable o =? STATUS_SUCCESS) then Some (op_vtable o, s) else
  do '(st, rest, s') <- write_loop (Datatypes.S (length d)) o s d;
  if negb (st =? STATUS_SUCCESS) then Some (st, s')
  else match rest with [] => Some (STATUS_SUCCESS, s') | _ => Some (ERROR_PSOCK_WRITE_INVALID_SIZE, s') end.

(** psock_read_raw.c:58-100; returns status, [*data_size] afterwards, the bytes in
    the caller's buffer, socket. *)
Definition read_raw {S} (o : sock_ops S) (n : nat) (s : S) : rres S :=
  if negb (op_vtable o =? STATUS_SUCCESS) then RRes (op_vtable o) n [] s else
  let r := op_read o s n false in
  if (rr_status r =? ERROR_PSOCK_READ_WOULD_BLOCK) || (rr_status r =? STATUS_SUCCESS)
  then r else RRes (rr_status r) n (rr_data r) (rr_sock r).
