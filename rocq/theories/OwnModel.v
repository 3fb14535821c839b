(** Model of the memory of the fiber scheduler, its disciplines and what they own: which
    call allocates, keeps and gives back which block.

    The heap holds structs with the pointers that matter for their release; other data is
    left out.  The status of the k-th allocation is [e_al k], and its address is any that is
    not live ([e_pick]), so addresses of freed blocks may be used again.  Reclaims,
    munmap and close succeed.  The memory that mmap gives and the descriptor that epoll_create1
    gives count as blocks.  The use of a struct that is not live is undefined: [None]. *)
From Verif Require Import Base Status MemModel Heap.

Inductive blk :=
| BRaw                                   (* an array, a node, mapped memory, a descriptor *)
| BUser                                  (* a resource of the user's, one block *)
| BStack (region : Z)                    (* stack_internal.h:23-34 *)
| BFiber (st : Z)                        (* fiber_internal.h, [st] may be NULL *)
| BTree (l : list (Z * Z))               (* an rbtree: its nodes and their values *)
| BSlist (own : bool) (l : list (Z * Z)) (* an slist: its nodes and their children; [own] says if the list is one that owns them and is not in the code *)
| BQueue (list : Z)                      (* queue_internal.h *)
| BDisc (id cbv codes ctx : Z) (added : bool) (* a discipline; [ctx] is 0 if its release is not chained; [added] if its scheduler is set *)
| BMsg (payload : Z)                     (* message_internal.h, may be NULL *)
| BMailbox (q : Z)
| BBoxes (tree : Z)                      (* message_discipline_context, condition_discipline_context *)
| BBarrier (list : Z)                    (* condition_barrier *)
| BPoll (events fibers : Z)              (* psock_io_poll_context *)
| BEpoll (ep : Z)                        (* psock_io_epoll_context *)
| BWrap (child : Z)                      (* psock_wrap_async *)
| BCtx (fibers discs rq cbv cxv idle sched : Z) (* fiber_scheduler_disciplined_context *)
| BSched (main ctx : Z) (disc : bool).   (* fiber_scheduler *)

Record menv := ME { e_al : nat -> Z; e_pick : list Z -> Z; e_fuel : nat }.
(** The heap, and how often the allocator was called. *)
Record ms := MS { m_h : heap blk; m_n : nat }.
Definition mem (A : Type) := ms -> option (A * ms).
Definition mret {A} (x : A) : mem A := fun s => Some (x, s).
Definition mbind {A B} (f : mem A) (g : A -> mem B) : mem B := fun s => match f s with Some (a, s1) => g a s1 | None => None end.
Definition undef {A} : mem A := fun _ => None.
Notation "'do!' x <- f ; g" := (mbind f (fun x => g)) (at level 200, x name, f at level 100, g at level 200, right associativity).
Notation "'do!' ' x <- f ; g" := (mbind f (fun y => match y with x => g end)) (at level 200, x pattern, f at level 100, g at level 200, right associativity).

(** A block for [b], and its address *)
Definition alloc (v : menv) (b : blk) : mem (Z * Z) := fun s =>
  let e := e_al v (m_n s) in
  if ok e then let p := e_pick v (addrs (m_h s)) in Some ((e, p), MS (hadd (m_h s) p b) (S (m_n s))) else Some ((e, 0), MS (m_h s) (S (m_n s))).
Definition load (p : Z) : mem blk := fun s => match hget (m_h s) p with Some b => Some (b, s) | None => None end.
Definition store (p : Z) (b : blk) : mem unit := fun s => match hget (m_h s) p with Some _ => Some (tt, MS (hset (m_h s) p b) (m_n s)) | None => None end.
Definition free (p : Z) : mem unit := fun s => match hget (m_h s) p with Some _ => Some (tt, MS (hdel (m_h s) p) (m_n s)) | None => None end.

(** What a release does, in order: the release of a resource, the reclaim of a block, the
    call of the scheduler's callback by fiber_scheduler_resource_release.c:40-50. *)
Inductive act := Rel (p : Z) | Fr (p : Z) | Note (ctx : Z).
Definition opt (f : Z -> act) (p : Z) : list act := if p =? 0 then [] else [f p].
(** Popping every element (slist_pop.c:55-126) and releasing the empty list
    (slist_create.c:119-136) or queue (queue_create.c:124-147). *)
Definition emptied (h : heap blk) (p : Z) : option (list act) :=
  match hget h p with
  | Some (BSlist _ l) => Some (map (fun x => Fr (fst x)) l ++ [Fr p])
  | Some (BQueue q) => match hget h q with Some (BSlist _ l) => Some (map (fun x => Fr (fst x)) l ++ [Fr q; Fr p]) | _ => None end
  | _ => None
  end.
(** The releases, in the order of the rows:
    stack_create.c:152-173; fiber_resource_release.c:29-65; rbtree_create.c:145-176 with
    rbtree_delete_nodes.c:30-61 and rbtree_node_create.c:112-140, where the list has the
    nodes in the order in which they are released; slist_create.c:119-136, slist_clear.c:33-64,
    slist_node_release.c:31-61; queue_create.c:124-147; fiber_scheduler_discipline_create.c:
    186-221, after the chained release of its context (message_discipline_set_resource_release.c:
    72-101 and its likes) if it has one; message_create.c:110-143; mailbox_resource_create.c:
    117-143; message_discipline_context_create.c:178-211 and
    condition_discipline_context_create.c:180-213; condition_barrier_create.c:117-161;
    poll/ and epoll/psock_fiber_scheduler_discipline_context_create.c:152-197 and 123-142;
    psock_create_wrap_async.c:235-263; fiber_scheduler_create_with_disciplines.c:486-584, which
    does not reclaim the context; fiber_scheduler_resource_release.c:29-86, followed by the
    release of the context with disciplines
    (fiber_scheduler_create_with_disciplines.c:596-631). *)
Definition ctx_acts (h : heap blk) (fibers discs rq cbv cxv idle : Z) : option (list act) :=
  do e <- emptied h rq; Some ([Rel fibers; Rel discs] ++ e ++ opt Rel idle ++ opt Fr cbv ++ opt Fr cxv).
Definition rel_acts (h : heap blk) (p : Z) (b : blk) : option (list act) :=
  match b with
  | BRaw => None
  | BUser => Some [Fr p]
  | BStack r => Some [Fr r; Fr p]
  | BFiber st => Some (opt Rel st ++ [Fr p])
  | BTree l | BSlist _ l => Some (flat_map (fun x => [Rel (snd x); Fr (fst x)]) l ++ [Fr p])
  | BQueue q => Some [Rel q; Fr p]
  | BDisc _ cbv codes ctx _ => Some (opt Rel ctx ++ [Fr cbv; Fr codes; Fr p])
  | BMsg m => Some (opt Rel m ++ [Fr p])
  | BMailbox q => Some [Rel q; Fr p]
  | BBoxes t => Some [Rel t; Fr p]
  | BBarrier q => do e <- emptied h q; Some (e ++ [Fr p])
  | BPoll e f => Some [Fr e; Fr f; Fr p]
  | BEpoll e => Some [Fr e; Fr p]
  | BWrap c => Some [Rel c; Fr p]
  | BCtx fibers discs rq cbv cxv idle _ => ctx_acts h fibers discs rq cbv cxv idle
  | BSched main ctx d => let a := (if main =? 0 then [] else [Note ctx; Rel main]) ++ [Fr p] in
      if d then match hget h ctx with
           | Some (BCtx fibers discs rq cbv cxv idle _) => do e <- ctx_acts h fibers discs rq cbv cxv idle; Some (a ++ e)
           | _ => None
           end
      else Some a
  end.
(** The callback handler for RESOURCE_RELEASE (fiber_scheduler_create_with_disciplines.c:
    968-987) with disciplined_fiber_scheduler_set_next_fiber_to_run.c:45-68, and 676-703: the
    node that it inserts is popped again.  The scheduler of the context is used. *)
Definition note (v : menv) (ctx : Z) : mem Z :=
  do! b <- load ctx;
  match b with
  | BCtx _ _ rq _ _ _ sched =>
      if sched =? 0 then undef else
      do! c <- load sched; do! q <- load rq;
      match q with
      | BQueue sl => do! x <- load sl; do! '(e, node) <- alloc v BRaw; if ok e then do! _ <- free node; mret e else mret e
      | _ => undef
      end
  | _ => undef
  end.
(** The first error is returned. *)
Fixpoint run_acts (v : menv) (rel : Z -> mem Z) (l : list act) : mem Z :=
  match l with
  | [] => mret STATUS_SUCCESS
  | a :: l =>
      do! e <- match a with Rel p => rel p | Fr p => do! _ <- free p; mret STATUS_SUCCESS | Note ctx => note v ctx end;
      do! f <- run_acts v rel l; mret (if ok e then f else e)
  end.
(** resource_release of the resource at [p]; [fuel] bounds the nesting. *)
Fixpoint release_at (v : menv) (fuel : nat) (p : Z) : mem Z := fun s =>
  match fuel with
  | O => None
  | S n => match hget (m_h s) p with
      | Some b => match rel_acts (m_h s) p b with Some l => run_acts v (release_at v n) l s | None => None end
      | None => None
      end
  end.
Definition release (v : menv) (p : Z) : mem Z := release_at v (e_fuel v) p.

(** slist_create.c:62-108 *)
Definition slist_create (v : menv) (own : bool) : mem (Z * Z) := alloc v (BSlist own []).
(** rbtree_create.c:75-134 *)
Definition rbtree_create (v : menv) : mem (Z * Z) :=
  do! '(e, p) <- alloc v (BTree []); mret (if ok e then e else ERROR_GENERAL_OUT_OF_MEMORY, p).
(** queue_create.c:62-113 *)
Definition queue_create (v : menv) (own : bool) : mem (Z * Z) :=
  do! '(e, q) <- alloc v (BQueue 0); if negb (ok e) then mret (e, 0) else
  do! '(e, l) <- slist_create v own; if negb (ok e) then do! _ <- free q; mret (e, 0) else
  do! _ <- store q (BQueue l); mret (STATUS_SUCCESS, q).
(** stack_create.c:75-143; the second allocation is mmap *)
Definition stack_create (v : menv) : mem (Z * Z) :=
  do! '(e, p) <- alloc v (BStack 0); if negb (ok e) then mret (ERROR_GENERAL_OUT_OF_MEMORY, 0) else
  do! '(e, r) <- alloc v BRaw; if negb (ok e) then do! _ <- free p; mret (ERROR_GENERAL_OUT_OF_MEMORY, 0) else
  do! _ <- store p (BStack r); mret (STATUS_SUCCESS, p).
(** fiber_create.c:71-152 *)
Definition fiber_create (v : menv) : mem (Z * Z) :=
  do! '(e, p) <- alloc v (BFiber 0); if negb (ok e) then mret (ERROR_GENERAL_OUT_OF_MEMORY, 0) else
  do! '(e, st) <- stack_create v; if negb (ok e) then do! _ <- free p; mret (e, 0) else
  do! _ <- store p (BFiber st); mret (STATUS_SUCCESS, p).
(** fiber_create_for_thread.c:63-120 *)
Definition fiber_for_thread (v : menv) : mem (Z * Z) :=
  do! '(e, p) <- alloc v (BFiber 0); mret (if ok e then e else ERROR_GENERAL_OUT_OF_MEMORY, p).
(** fiber_scheduler_discipline_create.c:71-175 *)
Definition disc_create (v : menv) (id : Z) : mem (Z * Z) :=
  do! '(e, p) <- alloc v (BDisc id 0 0 0 false); if negb (ok e) then mret (ERROR_GENERAL_OUT_OF_MEMORY, 0) else
  do! '(e, cbv) <- alloc v BRaw; if negb (ok e) then do! _ <- free p; mret (ERROR_GENERAL_OUT_OF_MEMORY, 0) else
  do! '(e, codes) <- alloc v BRaw; if negb (ok e) then do! _ <- free cbv; do! _ <- free p; mret (ERROR_GENERAL_OUT_OF_MEMORY, 0) else
  do! _ <- store p (BDisc id cbv codes 0 false); mret (STATUS_SUCCESS, p).
(** message_create.c:51-99 *)
Definition message_create (v : menv) (payload : Z) : mem (Z * Z) := alloc v (BMsg payload).
(** mailbox_resource_create.c:42-106 *)
Definition mailbox_create (v : menv) : mem (Z * Z) :=
  do! '(e, p) <- alloc v (BMailbox 0); if negb (ok e) then mret (e, 0) else
  do! '(e, q) <- queue_create v true; if negb (ok e) then do! _ <- free p; mret (e, 0) else
  do! _ <- store p (BMailbox q); mret (STATUS_SUCCESS, p).
(** condition_barrier_create.c:43-106 *)
Definition barrier_create (v : menv) : mem (Z * Z) :=
  do! '(e, p) <- alloc v (BBarrier 0); if negb (ok e) then mret (e, 0) else
  do! '(e, q) <- slist_create v false; if negb (ok e) then do! _ <- free p; mret (e, 0) else
  do! _ <- store p (BBarrier q); mret (STATUS_SUCCESS, p).
(** message_discipline_context_create.c:48-119, condition_discipline_context_create.c:48-120 *)
Definition boxes_create (v : menv) : mem (Z * Z) :=
  do! '(e, p) <- alloc v (BBoxes 0); if negb (ok e) then mret (e, 0) else
  do! '(e, t) <- rbtree_create v; if negb (ok e) then do! _ <- free p; mret (e, 0) else
  do! _ <- store p (BBoxes t); mret (STATUS_SUCCESS, p).
(** poll/psock_fiber_scheduler_discipline_context_create.c:42-141 *)
Definition poll_create (v : menv) : mem (Z * Z) :=
  do! '(e, p) <- alloc v (BPoll 0 0); if negb (ok e) then mret (e, 0) else
  do! '(e, x) <- alloc v BRaw; if negb (ok e) then do! _ <- free p; mret (e, 0) else
  do! '(e, y) <- alloc v BRaw; if negb (ok e) then do! _ <- free x; do! _ <- free p; mret (e, 0) else
  do! _ <- store p (BPoll x y); mret (STATUS_SUCCESS, p).
(** epoll/psock_fiber_scheduler_discipline_context_create.c:43-112; the second allocation is
    epoll_create1 *)
Definition epoll_create (v : menv) : mem (Z * Z) :=
  do! '(e, p) <- alloc v (BEpoll 0); if negb (ok e) then mret (e, 0) else
  do! '(e, x) <- alloc v BRaw; if negb (ok e) then do! _ <- free p; mret (ERROR_PSOCK_EPOLL_CREATE_FAILED, 0) else
  do! _ <- store p (BEpoll x); mret (STATUS_SUCCESS, p).

(** rbtree_insert.c:45-68; the position in the tree is left out *)
Definition rbtree_insert (v : menv) (t x : Z) : mem Z :=
  do! b <- load t;
  match b with
  | BTree l => do! '(e, n) <- alloc v BRaw; if negb (ok e) then mret e else do! _ <- store t (BTree ((n, x) :: l)); mret STATUS_SUCCESS
  | _ => undef
  end.
(** allocator_reallocate of an array *)
Definition regrow (v : menv) (p : Z) : mem (Z * Z) :=
  do! '(e, q) <- alloc v BRaw; if negb (ok e) then mret (e, p) else do! _ <- free p; mret (e, q).
Definition disc_id (d : Z) : mem Z := do! b <- load d; match b with BDisc id _ _ _ _ => mret id | _ => undef end.
(** rbtree_find by the ID of the discipline *)
Fixpoint find_disc (l : list (Z * Z)) (id : Z) : mem Z :=
  match l with [] => mret 0 | (_, d) :: l => do! i <- disc_id d; if i =? id then mret d else find_disc l id end.
Definition disc_tree (sched : Z) : mem (list (Z * Z)) :=
  do! b <- load sched;
  match b with
  | BSched _ ctx true => do! c <- load ctx; match c with BCtx _ discs _ _ _ _ _ => do! t <- load discs; match t with BTree l => mret l | _ => undef end | _ => undef end
  | _ => undef
  end.
(** fiber_scheduler_discipline_find.c *)
Definition disc_find (sched id : Z) : mem Z := do! l <- disc_tree sched; find_disc l id.
(** fiber_scheduler_discipline_add.c:51-163; a disciplined scheduler's vectors are not NULL *)
Definition disc_add (v : menv) (sched d : Z) : mem Z :=
  do! b <- load sched; do! x <- load d;
  match b, x with
  | BSched _ ctx true, BDisc id dv codes dctx added =>
      if added then mret ERROR_FIBER_SCHEDULER_DISCIPLINE_ALREADY_OWNED else
      do! c <- load ctx;
      match c with
      | BCtx fibers discs rq cbv cxv idle sc =>
          do! t <- load discs;
          match t with
          | BTree l =>
              do! found <- find_disc l id; if negb (found =? 0) then mret ERROR_FIBER_SCHEDULER_DUPLICATE_DISCIPLINE_ID else
              do! e <- rbtree_insert v discs d; if negb (ok e) then mret e else
              do! '(e, cbv) <- regrow v cbv; do! _ <- store ctx (BCtx fibers discs rq cbv cxv idle sc); if negb (ok e) then mret e else
              do! '(e, cxv) <- regrow v cxv; do! _ <- store ctx (BCtx fibers discs rq cbv cxv idle sc); if negb (ok e) then mret e else
              do! _ <- store d (BDisc id dv codes dctx true); mret STATUS_SUCCESS
          | _ => undef
          end
      | _ => undef
      end
  | _, _ => undef
  end.
(** The context is the chained release's from now on (the set_resource_release functions). *)
Definition set_release (d ctx : Z) : mem unit :=
  do! b <- load d; match b with BDisc id cbv codes _ added => store d (BDisc id cbv codes ctx added) | _ => undef end.

(** fiber_scheduler_create.c:69-160 with the callback of the disciplined scheduler
    (fiber_scheduler_create_with_disciplines.c:654-719 and 778-802) *)
Definition sched_create (v : menv) (ctx : Z) : mem (Z * Z) :=
  do! '(e, p) <- alloc v (BSched 0 ctx false); if negb (ok e) then mret (ERROR_GENERAL_OUT_OF_MEMORY, 0) else
  do! '(e, m) <- fiber_for_thread v; if negb (ok e) then do! r <- release v p; mret (if ok r then e else r, 0) else
  do! _ <- store p (BSched m ctx false);
  do! c <- load ctx;
  match c with
  | BCtx _ _ rq _ _ _ _ =>
      do! q <- load rq;
      match q with
      | BQueue sl => do! l <- load sl; do! '(e, node) <- alloc v BRaw; if negb (ok e) then do! r <- release v p; mret (if ok r then e else r, 0) else do! _ <- free node; mret (STATUS_SUCCESS, p)
      | _ => undef
      end
  | _ => undef
  end.
(** fiber_scheduler_create_with_disciplines.c:129-380 *)
Definition FIBER_SCHEDULER_MANAGEMENT_DISCIPLINE : Z := 1.
Definition scheduler_create (v : menv) : mem (Z * Z) :=
  do! '(e, ctx) <- alloc v (BCtx 0 0 0 0 0 0 0); if negb (ok e) then mret (ERROR_GENERAL_OUT_OF_MEMORY, 0) else
  let reclaim_ctx (r : Z) : mem (Z * Z) := do! _ <- free ctx; mret (r, 0) in
  do! '(e, fibers) <- rbtree_create v; if negb (ok e) then reclaim_ctx e else
  do! _ <- store ctx (BCtx fibers 0 0 0 0 0 0);
  let cleanup_fibers r := do! f <- release v fibers; reclaim_ctx (if negb (ok f) then f else r) in
  do! '(e, discs) <- rbtree_create v; if negb (ok e) then cleanup_fibers e else
  do! _ <- store ctx (BCtx fibers discs 0 0 0 0 0);
  (* lines 346-355 test the wrong variable *)
  let cleanup_discs r := do! f <- release v discs; cleanup_fibers (if negb (ok r) then f else r) in
  do! '(e, rq) <- queue_create v false; if negb (ok e) then cleanup_discs e else
  do! _ <- store ctx (BCtx fibers discs rq 0 0 0 0);
  let cleanup_rq r := do! f <- release v rq; cleanup_discs (if negb (ok f) then f else r) in
  do! '(e, cbv) <- alloc v BRaw; if negb (ok e) then cleanup_rq e else
  do! _ <- store ctx (BCtx fibers discs rq cbv 0 0 0);
  let cleanup_cbv r := do! _ <- free cbv; cleanup_rq r in
  do! '(e, cxv) <- alloc v BRaw; if negb (ok e) then cleanup_cbv e else
  do! _ <- store ctx (BCtx fibers discs rq cbv cxv 0 0);
  let cleanup_cxv r := do! _ <- free cxv; cleanup_cbv r in
  do! '(e, sched) <- sched_create v ctx; if negb (ok e) then cleanup_cxv e else
  do! b <- load sched;
  match b with
  | BSched m _ _ =>
      do! _ <- store ctx (BCtx fibers discs rq cbv cxv 0 sched);
      do! _ <- store sched (BSched m ctx true);
      let cleanup_sched r := do! f <- release v sched; mret (if negb (ok f) then f else r, 0) in
      do! '(e, md) <- disc_create v FIBER_SCHEDULER_MANAGEMENT_DISCIPLINE; if negb (ok e) then cleanup_sched e else
      let cleanup_disc r := do! f <- release v md; cleanup_sched (if negb (ok f) then f else r) in
      do! e <- disc_add v sched md; if negb (ok e) then cleanup_disc e else
      mret (STATUS_SUCCESS, sched)
  | _ => undef
  end.
(** message_discipline_get_or_create.c:40-119, condition_discipline_get_or_create.c:40-120:
    status and discipline.  A discipline that is found is returned; [*msgdisc] is NULL after
    the failures that set it. *)
Definition boxes_discipline (v : menv) (sched id : Z) : mem (Z * Z) :=
  do! d <- disc_find sched id; if negb (d =? 0) then mret (STATUS_SUCCESS, d) else
  do! '(e, ctx) <- boxes_create v; if negb (ok e) then mret (e, 0) else
  let cleanup_ctx r := do! f <- release v ctx; mret (if negb (ok f) then f else r, 0) in
  do! '(e, d) <- disc_create v id; if negb (ok e) then cleanup_ctx e else
  do! e <- disc_add v sched d; if negb (ok e) then do! f <- release v d; cleanup_ctx (if negb (ok f) then f else e) else
  do! _ <- set_release d ctx; mret (STATUS_SUCCESS, d).
(** psock_fiber_scheduler_discipline_create.c:40-96; [mk] is the context's constructor *)
Definition io_create (v : menv) (mk : menv -> mem (Z * Z)) (id : Z) : mem (Z * Z) :=
  do! '(e, ctx) <- mk v; if negb (ok e) then mret (e, 0) else
  do! '(e, d) <- disc_create v id; if negb (ok e) then do! f <- release v ctx; mret (if negb (ok f) then f else e, 0) else
  do! _ <- set_release d ctx; mret (STATUS_SUCCESS, d).
(** psock_create_wrap_async.c:278-351 *)
Definition io_discipline (v : menv) (mk : menv -> mem (Z * Z)) (sched id : Z) : mem Z :=
  do! '(e, d) <- io_create v mk id; if negb (ok e) then mret e else
  do! e <- disc_add v sched d; if negb (ok e) then do! f <- release v d; mret (if negb (ok f) then f else e) else
  do! '(e, fib) <- fiber_create v; if negb (ok e) then mret e else
  do! b <- load sched;
  match b with
  | BSched _ ctx _ => do! c <- load ctx; match c with BCtx fibers discs rq cbv cxv _ sc => do! _ <- store ctx (BCtx fibers discs rq cbv cxv fib sc); mret STATUS_SUCCESS | _ => undef end
  | _ => undef
  end.
(** psock_create_wrap_async.c:109-224 for a descriptor socket [child]; [nb] is the status of
    socket_utility_set_nonblock *)
Definition wrap_async (v : menv) (mk : menv -> mem (Z * Z)) (sched id child nb : Z) : mem (Z * Z) :=
  do! d <- disc_find sched id;
  do! e <- (if d =? 0 then io_discipline v mk sched id else mret STATUS_SUCCESS); if negb (ok e) then mret (e, 0) else
  do! '(e, p) <- alloc v (BWrap child); if negb (ok e) then mret (e, 0) else
  if negb (ok nb) then do! _ <- free p; mret (nb, 0) else mret (STATUS_SUCCESS, p).
