(** What the release of a resource has to do (resource.h:61-82), in terms of the blocks that belong to it. *)
From Verif Require Import Base Status MemModel Heap RelModel.

Definition some (p : Z) : list Z := if p =? 0 then [] else [p].
(** What a struct owns.  A condition with waiting fibers is not covered: its release is allowed to touch them.
    Nor is a scheduler, which does not give back all that it owns. *)
Definition holds (b : blk) : list Z :=
  match b with
  | Mem | Fd | Sys | Zero | User | Trigger | Lock | Wnode _ | Waits _ => []
  | Stack x | Queue x | Mailbox x | Boxes x | Barrier x | Epoll x | Wrap x | Dsock x | Bigint x | Mutex x | Cond x | Thread x _ => [x]
  | Fiber x | Node x | Msg x | Br x | Obuf x | Usock x => some x
  | Rbtree l | List l => l
  | Disc x y c => [x; y] ++ some c
  | Poll x y => [x; y]
  | Bsock i o q => some i ++ some o ++ some q
  | Sched m c => some m ++ [c]
  | Sctx f d q i x y => [f; d; q] ++ some i ++ some x ++ some y
  end.
(** The parts that are no resources of their own: what each must be. *)
Definition fits (h : heap blk) (b : blk) : Prop :=
  match b with
  | Zero | Wnode _ | Sched _ _ | Sctx _ _ _ _ _ _ => False  (* see C77_context_refuted *)
  | Waits l => l = []
  | Stack x | Mutex x | Cond x | Thread x _ => hget h x = Some Sys
  | Epoll x | Dsock x => hget h x = Some Fd
  | Barrier x => hget h x = Some (Waits [])
  | Bigint x => hget h x = Some Mem
  | Br x | Obuf x => x <> 0 -> hget h x = Some Mem
  | Usock x => x <> 0 -> hget h x = Some User
  | Poll x y | Disc x y _ => hget h x = Some Mem /\ hget h y = Some Mem
  | Bsock i o _ => (i <> 0 -> hget h i = Some Mem) /\ (o <> 0 -> hget h o = Some Mem)
  | _ => True
  end.
(** A resource: not a bare block. *)
Definition resource (b : blk) : Prop := match b with Mem | Fd | Sys => False | _ => True end.
(** The parts that are resources. *)
Definition children (b : blk) : list Z :=
  match b with
  | Queue x | Mailbox x | Boxes x | Barrier x | Wrap x => [x]
  | Fiber x | Node x | Msg x => some x
  | Rbtree l | List l => l
  | Disc _ _ c => some c
  | Bsock _ _ q => some q
  | _ => []
  end.
(** The block at [p] and everything that it owns. *)
Inductive owns (h : heap blk) : Z -> list Z -> Prop :=
| Owns : forall p b ls, hget h p = Some b -> fits h b -> (forall q c, In q (children b) -> hget h q = Some c -> resource c) ->
    Forall2 (owns h) (holds b) ls -> owns h p (p :: concat ls).
(** A resource at [p] made of the blocks [l], none twice. *)
Definition whole (h : heap blk) (p : Z) (l : list Z) : Prop := owns h p l /\ NoDup l /\ exists b, hget h p = Some b /\ resource b.

Definition gone (h : heap blk) (l : list Z) : Prop := forall q, In q l -> hget h q = None.
Definition same_but (h h' : heap blk) (l : list Z) : Prop := forall q, ~ In q l -> hget h' q = hget h q.
(** Everything that is given back from now on is taken. *)
Definition taken (v : renv) (s : rs) : Prop := forall k, (r_n s <= k)%nat -> r_an v k = STATUS_SUCCESS.
(** No thread among [l] returned an error. *)
Definition no_errors (h : heap blk) (l : list Z) : Prop := forall q t c, In q l -> hget h q = Some (Thread t c) -> c = STATUS_SUCCESS.
(** The resources whose release, when it fails, cannot be repeated unless both the struct and a part of it are left. *)
Definition spent (b : blk) : bool :=
  match b with
  | Fiber _ | Rbtree _ | Queue _ | Disc _ _ _ | Mailbox _ | Boxes _ | Barrier _ | Poll _ _ | Epoll _ | Wrap _ | Dsock _ | Br _ | Bsock _ _ _
  | Usock _ | Bigint _ | Trigger | Mutex _ | Cond _ | Thread _ _ => true
  | Msg x | Obuf x => negb (x =? 0)
  | _ => false
  end.
(** Those of them that overwrite the struct before they give it back. *)
Definition cleared (b : blk) : bool :=
  match b with
  | Fiber _ | Rbtree _ | Boxes _ | Poll _ _ | Epoll _ | Dsock _ | Br _ | Bsock _ _ _ | Usock _ | Trigger | Mutex _ | Cond _ | Thread _ _ => true
  | _ => false
  end.
(** The resources whose release can be repeated when it fails. *)
Definition keeps (b : blk) : Prop := match b with List _ | Lock | User => True | Msg x | Obuf x => x = 0 | _ => False end.
(** A second release has no effect, or is undefined. *)
Definition futile (v : renv) (p : Z) (s : rs) : Prop := release v p s = None \/ exists e, release v p s = Some (e, s).
(** A resource, or none. *)
Definition maybe (h : heap blk) (p : Z) (l : list Z) : Prop := p = 0 /\ l = [] \/ p <> 0 /\ whole h p l.
(** A scheduler with disciplines at [p], its context at [c], and all that belongs to them but the context:
    the main fiber, the tree of fibers, that of disciplines, the run queue with its nodes but not the fibers
    in it, the idle fiber and two arrays. *)
Inductive scheduled (h : heap blk) (p c : Z) : list Z -> Prop :=
| Scheduled : forall m f d q i x y l ns lm lf ld li, hget h p = Some (Sched m c) -> hget h c = Some (Sctx f d q i x y) -> maybe h m lm -> whole h f lf -> whole h d ld ->
    hget h q = Some (Queue l) -> hget h l = Some (Waits ns) -> (forall n, In n ns -> exists k, hget h n = Some (Wnode k)) -> maybe h i li ->
    (x <> 0 -> hget h x = Some Mem) -> (y <> 0 -> hget h y = Some Mem) ->
    scheduled h p c (p :: lm ++ concat [lf; ld; q :: l :: ns; li; some x; some y]).
