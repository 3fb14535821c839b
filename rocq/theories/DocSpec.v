(** Vocabulary for the claim about documented status codes (C75).  Nothing here models code: [documented] is read off the
    headers of include/rcpr, and [returns] says, function by function, what calls of the models can return. *)
From Verif Require Import Base Status.
From Verif Require AllocModel BigintModel ListModel RbModel OwnModel SchedModel ThreadModel MemModel BrModel SockModel StringModel UuidModel.

(** The functions of which the header lists the status codes (without "a non-zero error code on failure" or the like). *)
Inductive fn :=
| bump_allocator_create | bump_allocate | malloc_allocate | bump_reclaim | malloc_reclaim | bump_reallocate | malloc_reallocate | bump_control | malloc_control
| bigint_create_zero | bigint_clone
| slist_create | slist_insert_head | slist_append_tail | slist_append | slist_pop | slist_node_next_pop
| list_insert_head | list_append_tail | list_append | list_insert | list_pop
| queue_create | queue_append | queue_insert | queue_pop
| rbtree_create | rbtree_insert | rbtree_find | rbtree_delete | rbtree_delete_node
| stack_create | fiber_create | fiber_create_for_thread | fiber_scheduler_discipline_create
| fiber_scheduler_discipline_add | fiber_scheduler_discipline_find
| thread_create | thread_mutex_create | thread_cond_create | thread_mutex_lock_acquire | thread_cond_wait
| psock_create_from_buffer | psock_create_from_user_methods | psock_br_create_from_psock | psock_create_from_listen_address
| split | rcpr_uuid_to_string | rcpr_uuid_parse_string | rcpr_uuid_parse_raw_string.

Notation OOM := ERROR_GENERAL_OUT_OF_MEMORY.
(** The codes other than STATUS_SUCCESS that the headers list.  Two of them are names that no header defines, and are left
    out: ERROR_GENERAL_UNSUPPORTED_OPERATION (allocator.h:301) and ERROR_RBTREE_DUPLICATE (rbtree.h:100). *)
Definition documented (f : fn) : list Z :=
  match f with
  | bump_allocator_create => [OOM]                                  (* allocator.h:137-141 *)
  | bump_allocate | malloc_allocate => [OOM]                        (* allocator.h:199-202 *)
  | bump_reclaim | malloc_reclaim => []                             (* allocator.h:253-254 *)
  | bump_reallocate | malloc_reallocate => [OOM]                    (* allocator.h:297-302 *)
  | bump_control | malloc_control => [ERROR_GENERAL_CONTROL_KEY_INVALID] (* allocator.h:355-358 *)
  | bigint_create_zero | bigint_clone => [OOM]                      (* bigint.h:51-54, 88-91 *)
  | slist_create | slist_insert_head | slist_append_tail | slist_append => [OOM] (* slist.h:76-79, 140-143, 190-193, 245-248; list.h:79-82 *)
  | slist_pop | slist_node_next_pop => []                           (* slist.h:369-370, 442-443 *)
  | list_insert_head | list_append_tail | list_append | list_insert => [OOM] (* list.h:143-146, 193-196, 248-251, 303-306 *)
  | list_pop => []                                                  (* list.h:427-428 *)
  | queue_create | queue_append | queue_insert => [OOM]             (* queue.h:41-44, 76-79, 142-145 *)
  | queue_pop => []                                                 (* queue.h:110-111 *)
  | rbtree_create | rbtree_insert => [OOM]                          (* rbtree.h:58-61, 96-101 *)
  | rbtree_find | rbtree_delete => [ERROR_RBTREE_NOT_FOUND]         (* rbtree.h:127-129, 161-163 *)
  | rbtree_delete_node => []                                        (* rbtree.h:198-199 *)
  | stack_create => [OOM]                                           (* stack.h:48-51 *)
  | fiber_create | fiber_create_for_thread => [OOM]                 (* fiber.h:260-263, 303-306 *)
  | fiber_scheduler_discipline_create => [OOM]                      (* fiber.h:441-444 *)
  | fiber_scheduler_discipline_add => [OOM; ERROR_FIBER_SCHEDULER_DUPLICATE_DISCIPLINE_ID; ERROR_FIBER_SCHEDULER_NOT_DISCIPLINED] (* fiber.h:514-521 *)
  | fiber_scheduler_discipline_find => [ERROR_FIBER_SCHEDULER_DISCIPLINE_NOT_FOUND] (* fiber.h:548-551 *)
  | thread_create | thread_mutex_create | thread_cond_create => [OOM] (* thread.h:76-79, 114-117, 147-150 *)
  | thread_mutex_lock_acquire | thread_cond_wait => []              (* thread.h:189-190, 224-225 *)
  | psock_create_from_buffer | psock_create_from_user_methods => [OOM] (* psock.h:575-578, 617-620 *)
  | psock_br_create_from_psock | psock_create_from_listen_address => [OOM] (* psock.h:657-660, 530-533 *)
  | split => [ERROR_STRING_END_OF_INPUT]                            (* string.h:237-239 *)
  | rcpr_uuid_to_string => [OOM]                                    (* uuid.h:51-53 *)
  | rcpr_uuid_parse_string | rcpr_uuid_parse_raw_string => [ERROR_UUID_PARSING_FAILED] (* uuid.h:85-88, 116-119 *)
  end.

(** The environment does as documented too: an allocation succeeds or is out of memory, a reclaim or a release of the user's
    resource succeeds. *)
Definition fair (e : Z) : Prop := e = STATUS_SUCCESS \/ e = OOM.
Definition fairs (al : nat -> Z) : Prop := forall k, fair (al k).
Definition smooth (rc : nat -> Z) : Prop := forall k, rc k = STATUS_SUCCESS.
Definition fair_list (v : ListModel.env) : Prop :=
  fair (ListModel.e_alloc v) /\ (forall x, ListModel.e_child v x = STATUS_SUCCESS) /\ (forall x, ListModel.e_reclaim v x = STATUS_SUCCESS).
Definition fair_tree (v : RbModel.renv) : Prop :=
  fair (RbModel.re_alloc v) /\ (forall x, RbModel.re_child v x = STATUS_SUCCESS) /\ (forall x, RbModel.re_reclaim v x = STATUS_SUCCESS).

(** [returns f e]: some call of [f], in some state in which it is defined, returns [e]. *)
Inductive returns : fn -> Z -> Prop :=
| r_bump_create : forall r n e o, AllocModel.bump_create r n = (e, o) -> returns bump_allocator_create e
| r_bump_allocate : forall b n e p b', AllocModel.bump_allocate b n = (e, p, b') -> returns bump_allocate e
| r_malloc_allocate : forall o h n e p h', AllocModel.malloc_allocate o h n = (e, p, h') -> returns malloc_allocate e
| r_bump_reclaim : forall b p e b', AllocModel.bump_reclaim b p = (e, b') -> returns bump_reclaim e
| r_malloc_reclaim : forall h p e h', AllocModel.malloc_reclaim h p = Some (e, h') -> returns malloc_reclaim e
| r_bump_reallocate : forall b p n e q b', AllocModel.bump_reallocate b p n = (e, q, b') -> returns bump_reallocate e
| r_malloc_reallocate : forall o h p n e q h', AllocModel.malloc_reallocate o h p n = Some (e, q, h') -> returns malloc_reallocate e
| r_bump_control : forall b k e b', AllocModel.bump_control b k = (e, b') -> returns bump_control e
| r_malloc_control : forall k, returns malloc_control (AllocModel.malloc_control k)
| r_bigint_zero : forall pick al h n e o h', fairs al -> BigintModel.bigint_create_zero pick al h n = Some (e, o, h') -> returns bigint_create_zero e
| r_bigint_clone : forall pick al h j e o h', fairs al -> BigintModel.bigint_clone pick al h j = Some (e, o, h') -> returns bigint_clone e
| r_slist_create : forall v w e l w', fair_list v -> ListModel.list_create v w = (e, l, w') -> returns slist_create e
| r_slist_insert_head : forall v w l c e w', fair_list v -> ListModel.slist_insert_head v w l c = Some (e, w') -> returns slist_insert_head e
| r_slist_append_tail : forall v w l c e w', fair_list v -> ListModel.slist_append_tail v w l c = Some (e, w') -> returns slist_append_tail e
| r_slist_append : forall v w q c e w', fair_list v -> ListModel.slist_append v w q c = Some (e, w') -> returns slist_append e
| r_slist_pop : forall v w l e c w', fair_list v -> ListModel.slist_pop v w l = Some (e, c, w') -> returns slist_pop e
| r_slist_next_pop : forall v w q e c w', fair_list v -> ListModel.slist_node_next_pop v w q = Some (e, c, w') -> returns slist_node_next_pop e
| r_list_insert_head : forall v w l c e w', fair_list v -> ListModel.list_insert_head v w l c = Some (e, w') -> returns list_insert_head e
| r_list_append_tail : forall v w l c e w', fair_list v -> ListModel.list_append_tail v w l c = Some (e, w') -> returns list_append_tail e
| r_list_append : forall v w q c e w', fair_list v -> ListModel.list_append v w q c = Some (e, w') -> returns list_append e
| r_list_insert : forall v w q c e w', fair_list v -> ListModel.list_insert v w q c = Some (e, w') -> returns list_insert e
| r_list_pop : forall v w l e c w', fair_list v -> ListModel.list_pop v w l = Some (e, c, w') -> returns list_pop e
| r_queue_create : forall al v qs w e q qs' w', fair al -> fair_list v -> ListModel.queue_create al STATUS_SUCCESS v qs w = (e, q, qs', w') -> returns queue_create e
| r_queue_append : forall v qs w q c e w', fair_list v -> ListModel.queue_append v qs w q c = Some (e, w') -> returns queue_append e
| r_queue_insert : forall v qs w q c e w', fair_list v -> ListModel.queue_insert v qs w q c = Some (e, w') -> returns queue_insert e
| r_queue_pop : forall v qs w q e c w', fair_list v -> ListModel.queue_pop v qs w q = Some (e, c, w') -> returns queue_pop e
| r_rbtree_create : forall v w e t w', fair_tree v -> RbModel.rbtree_create v w = (e, t, w') -> returns rbtree_create e
| r_rbtree_insert : forall o v w t r e w', fair_tree v -> RbModel.rbtree_insert o v w t r = Some (e, w') -> returns rbtree_insert e
| r_rbtree_find : forall o w t k e r, RbModel.rbtree_find o w t k = Some (e, r) -> returns rbtree_find e
| r_rbtree_delete : forall o v keep w t k e r w', fair_tree v -> RbModel.rbtree_delete o v keep w t k = Some (e, r, w') -> returns rbtree_delete e
| r_rbtree_delete_node : forall v keep w t n e r w', fair_tree v -> RbModel.delete_node v keep w t n = Some (e, r, w') -> returns rbtree_delete_node e
| r_stack : forall v s e p s', OwnModel.stack_create v s = Some (e, p, s') -> returns stack_create e
| r_fiber : forall v s e p s', OwnModel.fiber_create v s = Some (e, p, s') -> returns fiber_create e
| r_fiber_thread : forall v s e p s', OwnModel.fiber_for_thread v s = Some (e, p, s') -> returns fiber_create_for_thread e
| r_disc_create : forall v id s e p s', OwnModel.disc_create v id s = Some (e, p, s') -> returns fiber_scheduler_discipline_create e
| r_disc_add : forall v sc d s e s', fairs (OwnModel.e_al v) -> OwnModel.disc_add v sc d s = Some (e, s') -> returns fiber_scheduler_discipline_add e
| r_disc_find : forall T U id (w : SchedModel.sw T U) e d, SchedModel.discipline_find id w = (e, d) -> returns fiber_scheduler_discipline_find e
| r_thread : forall ai ss al cr pid g ctx, returns thread_create (MemModel.ct_status (ThreadModel.thread_create ai ss al cr STATUS_SUCCESS pid g ctx))
| r_mutex : forall al it, returns thread_mutex_create (MemModel.ct_status (ThreadModel.mutex_create al it STATUS_SUCCESS))
| r_cond : forall al it, returns thread_cond_create (MemModel.ct_status (ThreadModel.cond_create al it STATUS_SUCCESS))
| r_lock : forall w t k w' e q, ThreadModel.tstep w (ThreadModel.MuLocked t k) = ThreadModel.Go w' (ThreadModel.Ret e q) -> returns thread_mutex_lock_acquire e
| r_wait : forall w t l c k w' e q, ThreadModel.tstep w (ThreadModel.CoWait t l c k) = ThreadModel.Go w' (ThreadModel.Ret e q) -> returns thread_cond_wait e
| r_waited : forall w t w' e q, ThreadModel.tstep w (ThreadModel.CoBack t) = ThreadModel.Go w' (ThreadModel.Ret e q) -> returns thread_cond_wait e
| r_from_buffer : forall al rc junk b, fairs al -> smooth rc -> returns psock_create_from_buffer (MemModel.ct_status (MemModel.create_from_buffer al rc junk b))
| r_from_methods : forall a ctx vt w e p w', fair (SockModel.a_al a) -> SockModel.from_user_methods a ctx vt w = (e, p, w') -> returns psock_create_from_user_methods e
| r_br_create : forall (S : Type) al rc junk (s : S), fairs al -> smooth rc -> returns psock_br_create_from_psock (MemModel.ct_status (BrModel.br_create al rc junk s))
| r_listen : forall a name w e p w', fair (SockModel.a_al a) -> SockModel.from_listen_address a name w = (e, p, w') -> returns psock_create_from_listen_address e
| r_split : forall b p d r, StringModel.split b p d = Some r -> returns split (StringModel.sr_status r)
| r_uuid_string : forall al junk d o, fair al -> UuidModel.uuid_to_string al junk d = Some o -> returns rcpr_uuid_to_string (StringModel.so_status o)
| r_uuid_parse : forall d s e d', UuidModel.uuid_parse_string d s = Some (e, d') -> returns rcpr_uuid_parse_string e
| r_uuid_raw : forall d s n e d', UuidModel.uuid_parse_raw_string d s n = Some (e, d') -> returns rcpr_uuid_parse_raw_string e.

(** The functions that return codes which their documentation does not list, and those codes. *)
Definition extra (f : fn) : list Z :=
  match f with
  | bump_reallocate => [ERROR_GENERAL_REALLOCATION_NOT_SUPPORTED]
  | fiber_scheduler_discipline_add => [ERROR_FIBER_SCHEDULER_DISCIPLINE_ALREADY_OWNED]
  | thread_create => [ERROR_THREAD_ATTRIBUTE_INIT; ERROR_THREAD_ATTRIBUTE_SETSTACKSIZE; ERROR_THREAD_CREATE]
  | thread_mutex_create => [ERROR_THREAD_MUTEX_INIT]
  | thread_cond_create => [ERROR_THREAD_COND_INIT]
  | thread_mutex_lock_acquire => [ERROR_THREAD_MUTEX_LOCK]
  | thread_cond_wait => [ERROR_THREAD_COND_WAIT]
  | psock_create_from_listen_address => [ERROR_PSOCK_CREATE_FROM_ADDRESS_SOCKET_CREATE; ERROR_PSOCK_CREATE_FROM_ADDRESS_BIND;
      ERROR_PSOCK_CREATE_FROM_ADDRESS_LISTEN; ERROR_PSOCK_CREATE_FROM_ADDRESS_CLOSE]
  | _ => []
  end.
(** Codes that are listed and not returned: a bump allocator reallocates nothing, so it does not run out of memory; the
    model of fiber_scheduler_discipline_add is that for a scheduler with disciplines. *)
Definition absent (f : fn) : list Z :=
  match f with
  | bump_reallocate => [OOM]
  | fiber_scheduler_discipline_add => [ERROR_FIBER_SCHEDULER_NOT_DISCIPLINED]
  | _ => []
  end.
(** The two that never succeed. *)
Definition hopeless (f : fn) : bool := match f with bump_reallocate | malloc_control => true | _ => false end.
