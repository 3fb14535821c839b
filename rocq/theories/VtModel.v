(** Model of the calls through function tables: include/rcpr/vtable.h, src/resource, the
    dispatch in src/allocator and src/psock.  What the functions themselves do is in the models
    of the allocators and of the sockets. *)
From Verif Require Import Base Status MemModel SockModel.

(** The types of the functions in resource_vtable, allocator_vtable and psock_vtable:
    include/rcpr/resource.h, allocator.h:538-545, psock.h:306-316. *)
Inductive kind := KRelease | KAllocate | KReclaim | KReallocate | KControl | KMeth (m : meth) | KUserRelease.
(** A word of memory: NULL, a function of some type, anything else. *)
Inductive word := WNull | WFn (k : kind) (f : Z) | WOther.
(** Memory by address, None where nothing may be read *)
Definition memory := Z -> option word.
(** The options of CMakeLists.txt:19-20 and NDEBUG: is the range checked, is the check an
    assertion, are assertions compiled out.  On macOS both options are off
    (config.h.cmake:32-38). *)
Record build := B { b_enforce : bool; b_assert : bool; b_ndebug : bool }.
(** __start_rcpr_vtable and __stop_rcpr_vtable, which is the address after the last byte *)
Record section := Sec { s_start : Z; s_stop : Z }.
(** An object: the pointer to its table; for a socket, its context and the user's table
    (psock_internal.h:35-125). *)
Record object := Obj { o_table : Z; o_ctx : Z; o_user : Z }.
(** What a call of the library comes to: it returns a status, having called these functions
    with these arguments and having stored this in its output parameter; the process is
    aborted; the C standard says nothing. *)
Inductive outcome := Ret (e : Z) (calls : list (kind * Z * list Z)) (stored : option Z) | Abort | Undef.

(** (ptrdiff_t)p *)
Definition ptrdiff (p : Z) : Z := if p <? 2 ^ 63 then p else p - 2 ^ 64.
(** vtable.h:65-77, 82-87: RCPR_VTABLE_CHECK, vtable_range_valid *)
Definition range_valid (b : build) (s : section) (p : Z) : bool :=
  if b_enforce b then (ptrdiff (s_start s) <=? ptrdiff p) && (ptrdiff p <=? ptrdiff (s_stop s)) else true.
(** vtable.h:33-41, RCPR_VTABLE_CHECK_ERROR_GOTO_FAIL: [fail] is what happens at the label,
    [next] is what follows the if statement. *)
Definition check_error (b : build) (fail next : outcome) : outcome :=
  if b_assert b then if b_ndebug b then next else Abort else fail.

(** The place of the pointer to a function in its table *)
Definition offset (k : kind) : Z :=
  match k with
  | KRelease => 0
  | KAllocate => 8 | KReclaim => 16 | KReallocate => 24 | KControl => 32
  | KMeth MRead => 8 | KMeth MWrite => 16 | KMeth MAccept => 24 | KMeth MSendmsg => 32 | KMeth MRecvmsg => 40 | KMeth MSetsockopt => 48
  | KUserRelease => 56
  end.
Definition kind_eq (j k : kind) : {j = k} + {j <> k}.
Proof. repeat decide equality. Defined.
(** vtable->fn(args), where the function returns [e]: a call through a pointer of another
    type is undefined. *)
Definition invoke (m : memory) (p : Z) (k : kind) (args : list Z) (e : Z) : outcome :=
  match m (p + offset k) with
  | Some (WFn j f) => if kind_eq j k then Ret e [(k, f, args)] None else Undef
  | _ => Undef
  end.
(** if (NULL == vtable->fn) return [error], and the call *)
Definition invoke_if_set (m : memory) (p : Z) (k : kind) (args : list Z) (e error : Z) : outcome :=
  match m (p + offset k) with
  | Some WNull => Ret error [] None
  | _ => invoke m p k args e
  end.

(** Store in the output parameter before doing the rest *)
Definition storing (v : Z) (o : outcome) : outcome :=
  match o with Ret e cs None => Ret e cs (Some v) | o => o end.

(** resource_init.c:26-38 *)
Definition resource_init (o : object) (table : Z) : object := Obj table (o_ctx o) (o_user o).
(** psock_resource_handle.c:27-32, allocator_resource_handle.c and the like: the resource is
    the first member of the object, so that its address is the object's.  psock_resource_handle_to_psock.c:28-37
    is the way back. *)
Definition resource_handle (p : Z) : Z := p.
Definition resource_handle_to_psock (r : Z) : Z := r.
(** resource_release.c:50-73 *)
Definition resource_release (b : build) (s : section) (m : memory) (r : Z) (o : object) (e : Z) : outcome :=
  let call := invoke m (o_table o) KRelease [r] e in
  if negb (range_valid b s (o_table o)) then check_error b (Ret ERROR_GENERAL_BAD_VTABLE [] None) call
  else call.
(** resource_vtable_read.c:29-57 *)
Definition resource_vtable_read (b : build) (s : section) (o : object) : outcome :=
  let go := Ret STATUS_SUCCESS [] (Some (o_table o)) in
  if negb (range_valid b s (o_table o)) then check_error b (Ret ERROR_GENERAL_BAD_VTABLE [] None) go
  else go.
(** allocator_allocate.c:41-68: [ptr] is the address of the output parameter. *)
Definition allocator_allocate (b : build) (s : section) (m : memory) (a : Z) (o : object) (ptr size e : Z) : outcome :=
  let call := invoke m (o_table o) KAllocate [a; ptr; size] e in
  if negb (range_valid b s (o_table o)) then storing 0 (check_error b (Ret ERROR_GENERAL_BAD_VTABLE [] None) call)
  else call.
(** allocator_reclaim.c:40-65 *)
Definition allocator_reclaim (b : build) (s : section) (m : memory) (a : Z) (o : object) (ptr e : Z) : outcome :=
  let call := invoke m (o_table o) KReclaim [a; ptr] e in
  if negb (range_valid b s (o_table o)) then check_error b (Ret ERROR_GENERAL_BAD_VTABLE [] None) call
  else call.
(** allocator_reallocate.c:47-72 *)
Definition allocator_reallocate (b : build) (s : section) (m : memory) (a : Z) (o : object) (ptr size e : Z) : outcome :=
  let call := invoke m (o_table o) KReallocate [a; ptr; size] e in
  if negb (range_valid b s (o_table o)) then check_error b (Ret ERROR_GENERAL_BAD_VTABLE [] None) call
  else call.
(** allocator_control.c:39-73 *)
Definition allocator_control (b : build) (s : section) (m : memory) (a : Z) (o : object) (key value size e : Z) : outcome :=
  let call := invoke_if_set m (o_table o) KControl [a; key; value; size] e ERROR_GENERAL_CONTROL_KEY_INVALID in
  if negb (range_valid b s (o_table o)) then check_error b (Ret ERROR_GENERAL_BAD_VTABLE [] None) call
  else call.
(** The use of a method of the socket [p]: psock_accept.c:60-91, psock_setsockopt.c:46-78,
    psock_read_raw.c:72-85, psock_write_raw_int8.c:61-73, psock_read_raw_descriptor.c:62-94,
    psock_write_raw_descriptor.c:62-99 and the like.  The readers and writers do not look for
    NULL.  (The type of the socket, which the functions for descriptors look at as well, is in
    SockModel.) *)
Definition psock_method (b : build) (s : section) (mem : memory) (p : Z) (o : object) (m : meth) (args : list Z) (e : Z) : outcome :=
  match resource_vtable_read b s o with
  | Ret r _ (Some table) =>
    match m with
    | MRead | MWrite => invoke mem table (KMeth m) (p :: o_ctx o :: args) e
    | _ => invoke_if_set mem table (KMeth m) (p :: o_ctx o :: args) e ERROR_PSOCK_METHOD_UNDEFINED
    end
  | Ret r _ None => Ret r [] None
  | x => x
  end.
(** psock_create_from_user_methods.c:205-330, which are what the methods of a socket with user
    methods come to; its setsockopt_fn is NULL (line 50). *)
Definition user_method (mem : memory) (p : Z) (o : object) (m : meth) (args : list Z) (e : Z) : outcome :=
  match m with
  | MRead | MWrite => invoke mem (o_user o) (KMeth m) (p :: o_ctx o :: args) e
  | MAccept | MSendmsg | MRecvmsg => invoke_if_set mem (o_user o) (KMeth m) (p :: o_ctx o :: args) e ERROR_PSOCK_METHOD_UNDEFINED
  | MSetsockopt => Ret ERROR_PSOCK_METHOD_UNDEFINED [] None
  end.
(** psock_create_from_user_methods.c:166-179; the reclaim of the struct is in SockModel. *)
Definition user_release (mem : memory) (p : Z) (o : object) (e : Z) : outcome :=
  invoke_if_set mem (o_user o) KUserRelease [p; o_ctx o] e STATUS_SUCCESS.
