(** C75: calls fail only with the status codes that their documentation lists. *)
From Verif Require Import Base Status Heap MemModel DocSpec DocProofs.
From Verif Require AllocModel BigintModel ListModel RbModel OwnModel SchedModel ThreadModel BrModel SockModel StringModel UuidModel UsrModel AsyncModel.

(** The claim holds of the functions for which [extra] has nothing. *)
Theorem C75_documented_partial : forall f e, extra f = [] -> returns f e -> e = STATUS_SUCCESS \/ In e (documented f).
Proof. intros f e X R. apply codes in R. unfold possible in R. rewrite X in R. destruct R as [[-> _]|[[I _]|[]]]; auto. Qed.

(** Of all of them: exactly which codes they return.  With the documented ones and success come those in [extra]; those in
    [absent] do not occur, and two functions never succeed. *)
Theorem C75_exact : forall f e, returns f e <->
  (e = STATUS_SUCCESS /\ hopeless f = false) \/ (In e (documented f) /\ ~ In e (absent f)) \/ In e (extra f).
Proof. intros f e. split; [apply codes|apply back]. Qed.

(** Eight functions return codes that their documentation does not list. *)
Theorem C75_undocumented_refuted : forall f, extra f <> [] -> exists e, returns f e /\ e <> STATUS_SUCCESS /\ ~ In e (documented f).
Proof.
  intros f X. destruct f; cbn [extra] in X; try (destruct (X eq_refl)).
  all: match goal with |- exists e, returns ?f e /\ _ => let l := eval cbn [extra] in (extra f) in
    match l with ?e :: _ => exists e; split; [apply C75_exact; right; right; left; reflexivity|]; split; [discriminate|cbn [documented In]; intros K;
      repeat match goal with K : _ \/ _ |- _ => destruct K as [K|K]; [discriminate K|] | K : False |- _ => destruct K end] end end.
Qed.

(** Others hand on whatever they are given, although the documentation of each lists what it returns: signalling a condition
    variable (thread.h:254-255, 285-286: STATUS_SUCCESS only), wrapping a socket (psock.h:430-436), making a scheduler
    (fiber.h:345-348) and blocking on a socket (psock.h:1430-1433, 1452-1455).  No allocation or reclaim fails here. *)
Theorem C75_forwarded_refuted : forall e, e <> STATUS_SUCCESS ->
  (exists os w, ThreadModel.truns ThreadModel.tw0 [ThreadModel.CoCreate 1 0 0 0 300; ThreadModel.CoSignal 1 200 300 e []; ThreadModel.CoSignalAll 1 200 300 e] = Some (os, w) /\
    skipn 1 os = [ThreadModel.Ret e None; ThreadModel.Ret e None]) /\
  (exists a w child p w', SockModel.a_al a = STATUS_SUCCESS /\ smooth (SockModel.a_rc a) /\ SockModel.wrap_async a child w = Some (e, p, w')) /\
  (exists (cb : UsrModel.callback Z) w', UsrModel.usr_create cb 0 0 1 2 0 0 0 0 (UsrModel.W [] [] 0 []) = Some (e, None, w')) /\
  (exists f a a', AsyncModel.a_type a = AsyncModel.PSOCK_TYPE_WRAP_ASYNC /\ AsyncModel.read_block f a = (e, a')) /\
  (exists f a a', AsyncModel.a_type a = AsyncModel.PSOCK_TYPE_WRAP_ASYNC /\ AsyncModel.write_block f a = (e, a')).
Proof.
  intros e N. assert (Z0 : (e =? 0) = false) by (apply Z.eqb_neq; exact N). assert (OK : ok e = false) by exact Z0.
  split; [|split; [|split; [|split]]].
  - cbn -[Z.eqb]. rewrite Z0. cbn. do 2 eexists. split; reflexivity.
  - exists (SockModel.An 3 9 0 0 0 0 None None None 0 e 0 (fun _ => 1) (fun _ => 0) 0 0 []), (SockModel.W (fun _ => None) [(5, SockModel.SDesc 3 1)] []), 5.
    unfold SockModel.wrap_async. cbn -[ok]. rewrite OK. do 2 eexists. split; [reflexivity|]. split; [intros k; reflexivity|reflexivity].
  - exists (fun _ c _ ev _ => UsrModel.Ans (if ev =? SchedModel.YIELD_MAIN then e else 0) None None None None [] c).
    unfold UsrModel.usr_create. cbn -[ok]. rewrite OK. cbn. eexists. reflexivity.
  - exists (AsyncModel.Fenv 0 0 7), (AsyncModel.Async 3 (AsyncModel.Kern [] [] [] []) 0 0 [AsyncModel.Yev e true 0] []). unfold AsyncModel.read_block. cbn -[ok]. rewrite OK. eexists. split; reflexivity.
  - exists (AsyncModel.Fenv 0 0 7), (AsyncModel.Async 3 (AsyncModel.Kern [] [] [] []) 0 0 [AsyncModel.Yev e true 0] []). unfold AsyncModel.write_block. cbn -[ok]. rewrite OK. eexists. split; reflexivity.
Qed.

(** rbtree.h:100 promises an error for a second resource with the same key, by a name that is defined nowhere.  It is
    added. *)
Theorem C75_duplicate_refuted : exists o v w w1 w2, RbModel.rbtree_create v (RbModel.RW [] [] []) = (STATUS_SUCCESS, Some 1, w) /\
  RbModel.o_key o 7 = RbModel.o_key o 107 /\ RbModel.o_cmp o 7 7 = RbModel.COMPARE_EQ /\
  RbModel.rbtree_insert o v w 1 7 = Some (STATUS_SUCCESS, w1) /\
  RbModel.rbtree_insert o (RbModel.REnv 0 31 0 0 (fun _ => 0) (fun _ => 0) (fun _ => 0)) w1 1 107 = Some (STATUS_SUCCESS, w2) /\ RbModel.rbtree_count w2 1 = Some 2.
Proof.
  exists (RbModel.Order (fun r => r mod 100) (fun a b => if a <? b then -1 else if a =? b then 0 else 1)), (renv 0), rworld. do 2 eexists.
  repeat (split; [vm_compute; reflexivity|]). vm_compute. reflexivity.
Qed.

(** * Cases *)
Example C75_ex : extra rbtree_delete = [] /\ returns rbtree_delete ERROR_RBTREE_NOT_FOUND /\ returns rbtree_delete STATUS_SUCCESS /\ ~ returns rbtree_delete OOM.
Proof.
  split; [reflexivity|]. split; [apply C75_exact; right; left; split; [left; reflexivity|intros []]|]. split; [apply C75_exact; left; split; reflexivity|].
  intros K. apply C75_exact in K as [[K _]|[[[K|[]] _]|[]]]; discriminate K.
Qed.
(** Forty-two of them keep to their documentation. *)
Definition all_fns : list fn := [bump_allocator_create; bump_allocate; malloc_allocate; bump_reclaim; malloc_reclaim; bump_reallocate; malloc_reallocate; bump_control; malloc_control;
  bigint_create_zero; bigint_clone; slist_create; slist_insert_head; slist_append_tail; slist_append; slist_pop; slist_node_next_pop;
  list_insert_head; list_append_tail; list_append; list_insert; list_pop; queue_create; queue_append; queue_insert; queue_pop;
  rbtree_create; rbtree_insert; rbtree_find; rbtree_delete; rbtree_delete_node; stack_create; fiber_create; fiber_create_for_thread; fiber_scheduler_discipline_create;
  fiber_scheduler_discipline_add; fiber_scheduler_discipline_find; thread_create; thread_mutex_create; thread_cond_create; thread_mutex_lock_acquire; thread_cond_wait;
  psock_create_from_buffer; psock_create_from_user_methods; psock_br_create_from_psock; psock_create_from_listen_address; split; rcpr_uuid_to_string; rcpr_uuid_parse_string; rcpr_uuid_parse_raw_string].
Example C75_count_ex : (forall f, In f all_fns) /\ length all_fns = 50%nat /\ length (filter (fun f => match extra f with [] => true | _ => false end) all_fns) = 42%nat.
Proof. split; [intros []; cbn; tauto|]. split; reflexivity. Qed.
Example C75_forwarded_ex : (22 : Z) <> STATUS_SUCCESS. Proof. discriminate. Qed.

Print Assumptions C75_documented_partial.
Print Assumptions C75_exact.
Print Assumptions C75_undocumented_refuted.
Print Assumptions C75_forwarded_refuted.
Print Assumptions C75_duplicate_refuted.
