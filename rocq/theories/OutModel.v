(** Model of what the functions of the library leave in the variable that the caller gives for the result, beside the models
    of the functions themselves: where the store to it stands, and so whether it is reached.  [b] is what the variable held
    before the call; NULL is 0. *)
From Verif Require Import Base Status MemModel.
From Verif Require AllocModel RbModel StringModel.

(** thread_create.c:139, thread_mutex_create.c:129, thread_cond_create.c:106, psock_create_from_buffer.c:165,
    psock_br_create_from_psock.c:122: the only store, of the address [new] of the object once it is made. *)
Definition ctor_var {A} (c : ctor A) (new b : Z) : Z := match ct_obj c with Some _ => new | None => b end.
(** bigint_create_zero.c:131, bigint_clone.c:105, slist_create.c:101, list_create.c:100, queue_create.c:106,
    rbtree_create.c:123, fiber_scheduler_create.c:142, bump_allocator_create.c:197, 261-270,
    thread_mutex_lock_acquire.c:63-70: the model gives the address if it is stored. *)
Definition opt_var (o : option Z) (b : Z) : Z := match o with Some p => p | None => b end.
(** psock_create_from_descriptor.c:122 (which psock_create_from_hostname_and_port.c:144 and
    psock_create_from_listen_address.c:101 give the variable to), psock_create_from_user_methods.c:139,
    psock_create_wrap_async.c:206, stack_create.c:126, fiber_create.c:133, fiber_create_for_thread.c:109,
    fiber_scheduler_discipline_create.c:150, fiber_scheduler_create_with_disciplines.c:286: the model gives the address, and
    0 if it is not stored. *)
Definition addr_var (p b : Z) : Z := if p =? 0 then b else p.

(** bump_allocator_create.c:86-91, 117: stores NULL or the region's address. *)
Definition bump_create_var (o : option AllocModel.bump) : Z := match o with Some a => AllocModel.bm_region a | None => 0 end.
(** malloc_allocator_create.c:60-102: status and variable; it holds what malloc returned. *)
Definition malloc_create (w : AllocModel.libc_outcome) : Z * Z :=
  match w with AllocModel.LOk p _ => (STATUS_SUCCESS, p) | _ => (ERROR_GENERAL_OUT_OF_MEMORY, 0) end.
(** rcpr_uuid_to_string.c:113-118, with the string at [new] *)
Definition uuid_string_var (o : StringModel.string_out) (new b : Z) : Z :=
  match StringModel.so_out o with Some (Some _) => new | Some None => 0 | None => b end.
(** rbtree_delete.c:52-81 with a variable: status, variable; *r is stored before the node is released. *)
Definition rbtree_delete_var (o : RbModel.order) (v : RbModel.renv) (w : RbModel.rworld) (t k b : Z) : option (Z * Z) :=
  do '(e, n) <- RbModel.find_node o w t k;
  if negb (ok e) then Some (e, b) else do '(e, r, _) <- RbModel.delete_node v true w t n; Some (e, r).
