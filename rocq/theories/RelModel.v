(** Model of the releases of the library's resources when giving something back may fail: reclaims of
    memory, munmap, close, the pthread calls and a user's own release functions.

    The heap holds structs with the pointers that matter for their release; other data is left out.
    Mapped memory, descriptors, what pthread creates and a lock that is held count as blocks.  Number
    [k] of the calls that give something back answers [r_an k]; if it fails the block stays as it is.
    Giving back or using a block that is not live is undefined: [None].  A handle is the
    address of its struct: every struct begins with its resource header (psock_resource_handle.c:26-31
    and the other *_resource_handle.c).  Left out: the allocators, whose releases call nothing that may
    fail, and the switch to the callback by which a scheduler with disciplines queues its main fiber
    for a moment when it is released (OwnModel). *)
From Verif Require Import Base Status MemModel Heap.

Inductive blk :=
| Mem | Fd | Sys               (* memory; a descriptor; mapped memory or what pthread creates *)
| Zero                         (* a struct that was overwritten with zeros, its function table with it *)
| User                         (* a resource or context of the user's, given back by one call *)
| Stack (region : Z) | Fiber (st : Z)
| Node (value : Z)             (* a node of an rbtree, an slist or a list; [value] may be NULL *)
| Rbtree (nodes : list Z)      (* in the order in which they are released *)
| List (nodes : list Z)        (* an slist or a list that owns its elements *)
| Waits (nodes : list Z) | Wnode (fib : Z)  (* the wait list of a condition: an slist of fibers that it does not own *)
| Queue (list : Z)
| Disc (cbv codes ctx : Z)     (* [ctx] is 0 if its release is not chained *)
| Msg (payload : Z) | Mailbox (q : Z)
| Boxes (tree : Z)             (* message_discipline_context, condition_discipline_context *)
| Barrier (waits : Z)
| Poll (events fibers : Z) | Epoll (ep : Z)  (* the contexts of the I/O discipline; [Epoll] also for kqueue *)
| Wrap (child : Z)             (* psock_wrap_async *)
| Dsock (fd : Z) | Br (buffer : Z) | Bsock (input output queue : Z) | Obuf (buffer : Z)
| Usock (context : Z)          (* [context] is 0 if the user gives no release function *)
| Bigint (array : Z) | Trigger
| Mutex (sys : Z) | Cond (sys : Z) | Thread (sys code : Z) | Lock
| Sched (main ctx : Z)         (* a scheduler with disciplines, and its context *)
| Sctx (fibers discs runq idle cbv ctxv : Z).  (* the run queue is a queue of fibers that it does not own: its list is a [Waits] *)

(** [r_zero]: what resource_release does with a struct of zeros, whose function table is NULL: undefined or
    abort, or an error status if the check of the tables is on and reports errors (vtable.h:33-77). *)
Record renv := RE { r_an : nat -> Z; r_zero : option Z; r_fuel : nat }.
(** The heap, and how often something was given back. *)
Record rs := RS { r_h : heap blk; r_n : nat }.
Definition rel (A : Type) := rs -> option (A * rs).
Definition rret {A} (x : A) : rel A := fun s => Some (x, s).
Definition rbind {A B} (f : rel A) (g : A -> rel B) : rel B := fun s => match f s with Some (a, s1) => g a s1 | None => None end.
Notation "'do!' x <- f ; g" := (rbind f (fun x => g)) (at level 200, x name, f at level 100, g at level 200, right associativity).

(** A call that gives back the block [q] *)
Definition give (v : renv) (q : Z) : rel Z := fun s =>
  match hget (r_h s) q with
  | None => None
  | Some _ => let e := r_an v (r_n s) in Some (e, RS (if ok e then hdel (r_h s) q else r_h s) (S (r_n s)))
  end.
Definition put (p : Z) (b : blk) : rel unit := fun s =>
  match hget (r_h s) p with Some _ => Some (tt, RS (hset (r_h s) p b) (r_n s)) | None => None end.

(** What a release function does in order: resource_release of [q]; giving back [q], where a failure is
    reported as [e] if there is one; joining a thread that returned [code]; closing a descriptor without
    looking at the result; overwriting the struct itself; popping the elements of the wait list [l], and then also releasing the queue [q]. *)
Inductive step := Rel (q : Z) | Give (q : Z) (e : option Z) | Join (q code : Z) | Close (q : Z) | Put (b : blk) | Pops (l : Z) (nodes : list Z)
| Drain (q l : Z) (nodes : list Z).
Definition opt (f : Z -> step) (q : Z) : list step := if q =? 0 then [] else [f q].
(** A release function: it returns at the first failure ([Stop]), or goes on and returns the first or the last. *)
Inductive mode := Stop | First | Last.
(** Clearing a list: the head is moved on before its node is released (slist_clear.c:38-51, list_clear.c:41-55;
    slist_node_cleanup.c:31-39 and list_node_cleanup.c:31-39 call the node's release function). *)
Fixpoint clear (nodes : list Z) : list step :=
  match nodes with [] => [] | n :: t => Put (List t) :: Rel n :: clear t end.
(** The releases, in the order of the rows:
    stack_create.c:152-173; fiber_resource_release.c:29-65;
    rbtree_node_create.c:112-140, slist_node_release.c:32-61 and list_node_release.c:31-60;
    rbtree_create.c:145-176 with rbtree_delete_nodes.c:31-61;
    slist_create.c:119-136 with slist_clear.c:33-64, list_create.c:126-144 with list_clear.c:33-73;
    the release of an empty wait list by slist_create.c:119-136, and that of its nodes;
    queue_create.c:124-147; fiber_scheduler_discipline_create.c:186-221, after the chained release of
    its context (message_discipline_set_resource_release.c:72-101 and its likes) if it has one;
    message_create.c:110-143; mailbox_resource_create.c:117-143;
    message_discipline_context_create.c:178-211 and condition_discipline_context_create.c:180-213;
    condition_barrier_create.c:117-161;
    poll/psock_fiber_scheduler_discipline_context_create.c:152-197, epoll/ 123-142 and kqueue/ 122-141;
    psock_create_wrap_async.c:235-263; psock_from_descriptor_release.c:32-46; psock_br_release.c:27-64;
    psock_from_buffer_release.c:33-91; psock_from_buffer_write.c:217-248;
    psock_create_from_user_methods.c:158-190; bigint_release.c:28-51; auto_reset_trigger_create.c:114-127;
    thread_mutex_create.c:158-193; thread_cond_create.c:132-167; thread_create.c:190-225;
    thread_mutex_create.c:203-218;
    fiber_scheduler_create_with_disciplines.c:596-634 with fiber_scheduler_resource_release.c:29-83, and
    fiber_scheduler_create_with_disciplines.c:486-583, which does not give back the context itself. *)
Definition release_fn (h : heap blk) (p : Z) (b : blk) : option (mode * list step) :=
  match b with
  | Mem | Fd | Sys | Zero => None
  | User => Some (Stop, [Give p None])
  | Stack r => Some (Stop, [Give r (Some ERROR_STACK_UNMAP); Put Zero; Give p None])
  | Fiber st => Some (Last, opt Rel st ++ [Put Zero; Give p None])
  | Node x => Some (Stop, (if x =? 0 then [] else [Put (Node 0); Rel x]) ++ [Give p None])
  | Rbtree l => Some (First, map Rel l ++ [Put Zero; Give p None])
  | List l => Some (Stop, clear l ++ [Give p None])
  | Waits l => match l with [] => Some (Stop, [Give p None]) | _ => None end
  | Wnode x => if x =? 0 then Some (Stop, [Give p None]) else None
  | Queue l => Some (Last, [Rel l; Give p None])
  | Disc cbv codes ctx => Some (First, (if ctx =? 0 then [] else [Put (Disc cbv codes 0); Rel ctx]) ++ [Give cbv None; Give codes None; Give p None])
  | Msg m => Some (First, opt Rel m ++ [Give p None])
  | Mailbox q => Some (First, [Rel q; Give p None])
  | Boxes t => Some (First, [Rel t; Put Zero; Give p None])
  | Barrier l =>
      match hget h l with Some (Waits ns) => Some (First, [Pops l ns; Rel l; Give p None]) | _ => None end
  | Poll x y => Some (First, [Give x None; Give y None; Put Zero; Give p None])
  | Epoll x => Some (First, [Close x; Put Zero; Give p None])
  | Wrap c => Some (First, [Rel c; Give p None])
  | Dsock d => Some (First, [Close d; Put Zero; Give p None])
  | Br x => Some (First, opt (fun q => Give q None) x ++ [Put Zero; Give p None])
  | Bsock i o q => Some (First, opt (fun q => Give q None) i ++ opt (fun q => Give q None) o ++ opt Rel q ++ [Put Zero; Give p None])
  | Obuf x => Some (First, opt (fun q => Give q None) x ++ [Give p None])
  | Usock c => Some (Last, opt (fun q => Give q None) c ++ [Put Zero; Give p None])
  | Bigint a => Some (Last, [Give a None; Give p None])
  | Trigger => Some (First, [Put Zero; Give p None])
  | Mutex m => Some (Last, [Give m (Some ERROR_THREAD_MUTEX_DESTROY); Put Zero; Give p None])
  | Cond m => Some (Last, [Give m (Some ERROR_THREAD_COND_DESTROY); Put Zero; Give p None])
  | Thread t c => Some (Last, [Join t c; Put Zero; Give p None])
  | Lock => Some (Stop, [Give p (Some ERROR_THREAD_MUTEX_UNLOCK)])
  | Sched m c => Some (Last, opt Rel m ++ [Put Zero; Give p None; Rel c])
  | Sctx f d q i x y =>
      match hget h q with
      | Some (Queue l) =>
          match hget h l with
          | Some (Waits ns) => Some (First, [Rel f; Rel d; Drain q l ns] ++ opt Rel i ++ opt (fun q => Give q None) x ++ opt (fun q => Give q None) y)
          | _ => None
          end
      | _ => None
      end
  end.

(** condition_barrier_create.c:129-140 and fiber_scheduler_create_with_disciplines.c:516-525, with slist_pop.c:55-126: each node is unlinked and released; if that
    fails its element is released instead.  [q] is the list; the last error counts. *)
Fixpoint pops (v : renv) (r : Z -> rel Z) (q : Z) (acc : Z) (nodes : list Z) : rel Z :=
  match nodes with
  | [] => rret acc
  | n :: t => fun s =>
      match hget (r_h s) n with
      | Some (Wnode f) =>
          (do! _ <- put n (Wnode 0);
           do! _ <- put q (Waits t);
           do! e <- r n;
           do! e <- if ok e then rret e else r f;
           pops v r q (if ok e then acc else e) t) s
      | _ => None
      end
  end.
Definition run1 (v : renv) (r : Z -> rel Z) (p : Z) (x : step) : rel Z :=
  match x with
  | Rel q => r q
  | Give q e => do! a <- give v q; rret (if ok a then a else match e with Some e => e | None => a end)
  | Join q c => do! a <- give v q; rret (if ok a then c else ERROR_THREAD_JOIN)
  | Close q => do! _ <- give v q; rret STATUS_SUCCESS
  | Put b => do! _ <- put p b; rret STATUS_SUCCESS
  | Pops l ns => pops v r l STATUS_SUCCESS ns
  | Drain q l ns => do! a <- pops v r l STATUS_SUCCESS ns; do! e <- r q; rret (if ok e then a else e)
  end.
(** The rest of a function, when [acc] is the status to return so far. *)
Fixpoint run (v : renv) (r : Z -> rel Z) (p : Z) (m : mode) (acc : Z) (l : list step) : rel Z :=
  match l with
  | [] => rret acc
  | x :: l =>
      do! e <- run1 v r p x;
      match m with
      | Stop => if ok e then run v r p m acc l else rret e
      | First => run v r p m (if ok acc then e else acc) l
      | Last => run v r p m (if ok e then acc else e) l
      end
  end.
(** resource_release.c:50-73; [fuel] bounds the nesting. *)
Fixpoint release_at (v : renv) (fuel : nat) (p : Z) : rel Z := fun s =>
  match fuel with
  | O => None
  | S n => match hget (r_h s) p with
      | Some Zero => match r_zero v with Some e => Some (e, s) | None => None end
      | Some b => match release_fn (r_h s) p b with Some (m, l) => run v (release_at v n) p m STATUS_SUCCESS l s | None => None end
      | None => None
      end
  end.
Definition release (v : renv) (p : Z) : rel Z := release_at v (r_fuel v) p.
