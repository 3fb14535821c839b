(** Vocabulary for the claim about the caller's variable after a failure (C76). *)
From Verif Require Import Base Status MemModel OutModel.
From Verif Require AllocModel BigintModel ListModel RbModel OwnModel ThreadModel BrModel SockModel StringModel UuidModel UsrModel.

(** The functions whose header says what is in the caller's variable after a failure. *)
Inductive fn :=
| malloc_allocator_create | bump_allocator_create | allocate_malloc | allocate_bump | reallocate_malloc | reallocate_bump
| bigint_create_zero | bigint_clone | slist_create | list_create | queue_create | slist_pop | slist_node_next_pop | list_pop | queue_pop
| rbtree_create | rbtree_find | stack_create | fiber_create | fiber_create_for_thread | fiber_scheduler_create
| fiber_scheduler_create_with_disciplines | fiber_scheduler_discipline_create
| thread_create | thread_mutex_create | thread_cond_create | thread_mutex_lock_acquire | thread_cond_wait
| psock_create_from_descriptor | psock_create_wrap_async | psock_create_from_hostname_and_port | psock_create_from_listen_address
| psock_create_from_buffer | psock_create_from_user_methods | psock_br_create_from_psock | rcpr_uuid_to_string.

(** "On failure, ... is set to NULL"; "On failure, ... is unchanged". *)
Inductive promise := Null | Unchanged.
Definition documented (f : fn) : promise :=
  match f with
  | malloc_allocator_create | bump_allocator_create => Null               (* allocator.h:84, 146 *)
  | allocate_malloc | allocate_bump => Null                               (* allocator.h:208 *)
  | reallocate_malloc | reallocate_bump => Unchanged                      (* allocator.h:309 *)
  | bigint_create_zero | bigint_clone => Null                             (* bigint.h:65, 102 *)
  | slist_create | list_create | queue_create => Null                     (* slist.h:89, list.h:92, queue.h:55 *)
  | slist_pop | slist_node_next_pop | list_pop | queue_pop => Null        (* slist.h:384, 457, list.h:442, queue.h:125 *)
  | rbtree_create | rbtree_find => Null                                   (* rbtree.h:73, 139 *)
  | stack_create => Null                                                  (* stack.h:64 *)
  | fiber_create | fiber_create_for_thread => Null                        (* fiber.h:277, 317 *)
  | fiber_scheduler_create | fiber_scheduler_create_with_disciplines => Null (* fiber.h:360, 417 *)
  | fiber_scheduler_discipline_create => Null                             (* fiber.h:461 *)
  | thread_create | thread_mutex_create | thread_cond_create => Null      (* thread.h:94, 128, 161 *)
  | thread_mutex_lock_acquire => Null                                     (* thread.h:201 *)
  | thread_cond_wait => Unchanged                                         (* thread.h:236 *)
  | psock_create_from_descriptor => Null                                  (* psock.h:388 *)
  | psock_create_wrap_async => Unchanged                                  (* psock.h:453 *)
  | psock_create_from_hostname_and_port | psock_create_from_listen_address => Null (* psock.h:499, 544 *)
  | psock_create_from_buffer | psock_create_from_user_methods => Null     (* psock.h:589, 635 *)
  | psock_br_create_from_psock => Null                                    (* psock.h:673 *)
  | rcpr_uuid_to_string => Null                                           (* uuid.h:65 *)
  end.

Definition failed (e : Z) : Prop := e <> STATUS_SUCCESS.
(** [leaves f b a]: some call of [f] fails, with [b] in the caller's variable before and [a] after. *)
Inductive leaves : fn -> Z -> Z -> Prop :=
| l_malloc_create : forall b w e a, malloc_create w = (e, a) -> failed e -> leaves malloc_allocator_create b a
| l_bump_create : forall b r n e o, AllocModel.bump_create r n = (e, o) -> failed e -> leaves bump_allocator_create b (bump_create_var o)
| l_malloc : forall b o h n e p h', AllocModel.malloc_allocate o h n = (e, p, h') -> failed e -> leaves allocate_malloc b p
| l_bump : forall b m n e p m', AllocModel.bump_allocate m n = (e, p, m') -> failed e -> leaves allocate_bump b (opt_var p b)
| l_remalloc : forall b o h n e p h', AllocModel.malloc_reallocate o h b n = Some (e, p, h') -> failed e -> leaves reallocate_malloc b p
| l_rebump : forall b m n e p m', AllocModel.bump_reallocate m b n = (e, p, m') -> failed e -> leaves reallocate_bump b (opt_var p b)
| l_zero : forall b pick al h n e o h', BigintModel.bigint_create_zero pick al h n = Some (e, o, h') -> failed e -> leaves bigint_create_zero b (opt_var o b)
| l_clone : forall b pick al h j e o h', BigintModel.bigint_clone pick al h j = Some (e, o, h') -> failed e -> leaves bigint_clone b (opt_var o b)
| l_slist : forall b v w e l w', ListModel.list_create v w = (e, l, w') -> failed e -> leaves slist_create b (opt_var l b)
| l_list : forall b v w e l w', ListModel.list_create v w = (e, l, w') -> failed e -> leaves list_create b (opt_var l b)
| l_queue : forall b al rc v qs w e q qs' w', ListModel.queue_create al rc v qs w = (e, q, qs', w') -> failed e -> leaves queue_create b (opt_var q b)
| l_slist_pop : forall b v w l e c w', ListModel.slist_pop v w l = Some (e, c, w') -> failed e -> leaves slist_pop b c
| l_next_pop : forall b v w q e c w', ListModel.slist_node_next_pop v w q = Some (e, c, w') -> failed e -> leaves slist_node_next_pop b c
| l_list_pop : forall b v w l e c w', ListModel.list_pop v w l = Some (e, c, w') -> failed e -> leaves list_pop b c
| l_queue_pop : forall b v qs w q e c w', ListModel.queue_pop v qs w q = Some (e, c, w') -> failed e -> leaves queue_pop b c
| l_rbtree : forall b v w e t w', RbModel.rbtree_create v w = (e, t, w') -> failed e -> leaves rbtree_create b (opt_var t b)
| l_find : forall b o w t k e r, RbModel.rbtree_find o w t k = Some (e, r) -> failed e -> leaves rbtree_find b r
| l_stack : forall b v s e p s', OwnModel.stack_create v s = Some (e, p, s') -> failed e -> leaves stack_create b (addr_var p b)
| l_fiber : forall b v s e p s', OwnModel.fiber_create v s = Some (e, p, s') -> failed e -> leaves fiber_create b (addr_var p b)
| l_fiber_thread : forall b v s e p s', OwnModel.fiber_for_thread v s = Some (e, p, s') -> failed e -> leaves fiber_create_for_thread b (addr_var p b)
| l_usr : forall b C (cb : UsrModel.callback C) al1 al2 s m rf rs je ctx w e o w', UsrModel.usr_create cb al1 al2 s m rf rs je ctx w = Some (e, o, w') -> failed e ->
    leaves fiber_scheduler_create b (opt_var o b)
| l_sched : forall b v s e p s', OwnModel.scheduler_create v s = Some (e, p, s') -> failed e -> leaves fiber_scheduler_create_with_disciplines b (addr_var p b)
| l_disc : forall b v id s e p s', OwnModel.disc_create v id s = Some (e, p, s') -> failed e -> leaves fiber_scheduler_discipline_create b (addr_var p b)
| l_thread : forall b new ai ss al cr rc pid g ctx, failed (ct_status (ThreadModel.thread_create ai ss al cr rc pid g ctx)) ->
    leaves thread_create b (ctor_var (ThreadModel.thread_create ai ss al cr rc pid g ctx) new b)
| l_mutex : forall b new al it rc, failed (ct_status (ThreadModel.mutex_create al it rc)) -> leaves thread_mutex_create b (ctor_var (ThreadModel.mutex_create al it rc) new b)
| l_cond : forall b new al it rc, failed (ct_status (ThreadModel.cond_create al it rc)) -> leaves thread_cond_create b (ctor_var (ThreadModel.cond_create al it rc) new b)
| l_lock : forall b w t k w' e q, ThreadModel.tstep w (ThreadModel.MuLocked t k) = ThreadModel.Go w' (ThreadModel.Ret e q) -> failed e -> leaves thread_mutex_lock_acquire b (opt_var q b)
| l_wait : forall b w t c k w' e q, ThreadModel.tstep w (ThreadModel.CoWait t b c k) = ThreadModel.Go w' (ThreadModel.Ret e q) -> failed e -> leaves thread_cond_wait b (opt_var q b)
| l_desc : forall b a fd w e p w', SockModel.from_descriptor a fd w = (e, p, w') -> failed e -> leaves psock_create_from_descriptor b (addr_var p b)
| l_wrap : forall b a child w e p w', SockModel.wrap_async a child w = Some (e, p, w') -> failed e -> leaves psock_create_wrap_async b (addr_var p b)
| l_connect : forall b a port w e p w', SockModel.from_hostname_and_port a port w = (e, p, w') -> failed e -> leaves psock_create_from_hostname_and_port b (addr_var p b)
| l_listen : forall b a name w e p w', SockModel.from_listen_address a name w = (e, p, w') -> failed e -> leaves psock_create_from_listen_address b (addr_var p b)
| l_buffer : forall b new al rc junk s, failed (ct_status (create_from_buffer al rc junk s)) -> leaves psock_create_from_buffer b (ctor_var (create_from_buffer al rc junk s) new b)
| l_methods : forall b a ctx vt w e p w', SockModel.from_user_methods a ctx vt w = (e, p, w') -> failed e -> leaves psock_create_from_user_methods b (addr_var p b)
| l_br : forall b new (S : Type) al rc junk (s : S), failed (ct_status (BrModel.br_create al rc junk s)) -> leaves psock_br_create_from_psock b (ctor_var (BrModel.br_create al rc junk s) new b)
| l_uuid : forall b new al junk d o, UuidModel.uuid_to_string al junk d = Some o -> failed (StringModel.so_status o) -> leaves rcpr_uuid_to_string b (uuid_string_var o new b).

(** The functions that store NULL when they fail. *)
Definition stores_null (f : fn) : bool :=
  match f with
  | malloc_allocator_create | bump_allocator_create | allocate_malloc | slist_pop | slist_node_next_pop | list_pop | queue_pop | rbtree_find | rcpr_uuid_to_string => true
  | _ => false
  end.
