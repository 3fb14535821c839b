(** Model of src/slist, src/list and src/queue over a heap of nodes and a heap of
    list headers.  The two lists share the node type: slist nodes have no [prev]
    field and it stays 0 in them.  Addresses and resources are numbers, 0 is NULL.
    Allocators are one: every [alloc] field refers to it and is not represented.
    Counts are unbounded (a list of 2^64 nodes does not fit in memory). *)
From Verif Require Import Base Status MemModel Heap.

(** src/slist/slist_internal.h, src/list/list_internal.h [slist_node], [list_node] *)
Record node := Node { n_parent : Z; n_prev : Z; n_next : Z; n_child : Z }.
(** [slist], [list] *)
Record hdr := Hdr { h_head : Z; h_tail : Z; h_count : Z }.
(** Memory, and the resources released so far. *)
Record world := World { w_nodes : heap node; w_hdrs : heap hdr; w_rel : list Z }.
(** What the environment does during one call: the status of an allocation and the
    address it gives to a node or a header, the status of releasing a resource,
    and of reclaiming a node or a header (which stays allocated if this fails). *)
Record env := Env
  { e_alloc : Z; e_new : Z; e_newh : Z;
    e_child : Z -> Z; e_reclaim : Z -> Z; e_reclaimh : Z -> Z }.

(** Memory accesses; [None] if the address is not live. *)
Definition setn (w : world) (p : Z) (f : node -> node) : option world :=
  do n <- hget (w_nodes w) p; Some (World (hset (w_nodes w) p (f n)) (w_hdrs w) (w_rel w)).
Definition seth (w : world) (l : Z) (f : hdr -> hdr) : option world :=
  do h <- hget (w_hdrs w) l; Some (World (w_nodes w) (hset (w_hdrs w) l (f h)) (w_rel w)).
Definition to_parent v n := Node v (n_prev n) (n_next n) (n_child n).
Definition to_prev v n := Node (n_parent n) v (n_next n) (n_child n).
Definition to_next v n := Node (n_parent n) (n_prev n) v (n_child n).
Definition to_child v n := Node (n_parent n) (n_prev n) (n_next n) v.
Definition to_head v h := Hdr v (h_tail h) (h_count h).
Definition to_tail v h := Hdr (h_head h) v (h_count h).
Definition to_count v h := Hdr (h_head h) (h_tail h) v.

(** resource_release (src/resource/resource_release.c) of a user's resource; NULL is
    dereferenced. *)
Definition release_child (v : env) (w : world) (c : Z) : option (Z * world) :=
  if c =? 0 then None else Some (e_child v c, World (w_nodes w) (w_hdrs w) (w_rel w ++ [c])).

(** allocator_reclaim of a node *)
Definition reclaim_node (v : env) (w : world) (p : Z) : option (Z * world) :=
  do _ <- hget (w_nodes w) p;
  if ok (e_reclaim v p) then Some (STATUS_SUCCESS, World (hdel (w_nodes w) p) (w_hdrs w) (w_rel w))
  else Some (e_reclaim v p, w).

(** slist_create.c:62-108, list_create.c:61-115: status and [*list] if written. *)
Definition list_create (v : env) (w : world) : Z * option Z * world :=
  if negb (ok (e_alloc v)) then (e_alloc v, None, w) else
  let l := e_newh v in
  (STATUS_SUCCESS, Some l, World (w_nodes w) (hadd (w_hdrs w) l (Hdr 0 0 0)) (w_rel w)).

(** slist_node_create.c:61-116, list_node_create.c:61-116 *)
Definition node_create (v : env) (w : world) (l c : Z) : option (Z * Z * world) :=
  do _ <- hget (w_hdrs w) l;
  if negb (ok (e_alloc v)) then Some (e_alloc v, 0, w) else
  let p := e_new v in
  Some (STATUS_SUCCESS, p, World (hadd (w_nodes w) p (Node l 0 0 c)) (w_hdrs w) (w_rel w)).

(** slist_node_release.c:31-61, list_node_release.c:30-60 *)
Definition node_release (v : env) (w : world) (p : Z) : option (Z * world) :=
  do n <- hget (w_nodes w) p;
  if negb (n_child n =? 0) then
    do w1 <- setn w p (to_child 0);
    do '(e, w2) <- release_child v w1 (n_child n);
    if negb (ok e) then Some (e, w2) else reclaim_node v w2 p
  else reclaim_node v w p.

(** slist_append_tail.c:45-79 *)
Definition slist_append_tail (v : env) (w : world) (l c : Z) : option (Z * world) :=
  do '(e, p, w1) <- node_create v w l c;
  if negb (ok e) then Some (e, w1) else
  do h <- hget (w_hdrs w1) l;
  do w2 <- (if negb (h_tail h =? 0) then
              do w' <- setn w1 (h_tail h) (to_next p); seth w' l (to_tail p)
            else do w' <- seth w1 l (to_head p); seth w' l (to_tail p));
  do w3 <- seth w2 l (fun h => to_count (h_count h + 1) h);
  Some (STATUS_SUCCESS, w3).

(** slist_insert_head.c:45-81 *)
Definition slist_insert_head (v : env) (w : world) (l c : Z) : option (Z * world) :=
  do '(e, p, w1) <- node_create v w l c;
  if negb (ok e) then Some (e, w1) else
  do h <- hget (w_hdrs w1) l;
  do w2 <- setn w1 p (to_next (h_head h));
  do w3 <- (if negb (h_head h =? 0) then seth w2 l (to_head p)
            else do w' <- seth w2 l (to_head p); seth w' l (to_tail p));
  do w4 <- seth w3 l (fun h => to_count (h_count h + 1) h);
  Some (STATUS_SUCCESS, w4).

(** slist_append.c:51-90 *)
Definition slist_append (v : env) (w : world) (q c : Z) : option (Z * world) :=
  do n <- hget (w_nodes w) q;
  let par := n_parent n in
  do '(e, p, w1) <- node_create v w par c;
  if negb (ok e) then Some (e, w1) else
  do h <- hget (w_hdrs w1) par;
  do w2 <- (if q =? h_tail h then seth w1 par (to_tail p) else Some w1);
  do n2 <- hget (w_nodes w2) q;
  do w3 <- setn w2 p (to_next (n_next n2));
  do w4 <- setn w3 q (to_next p);
  do w5 <- seth w4 par (fun h => to_count (h_count h + 1) h);
  Some (STATUS_SUCCESS, w5).

(** The end of slist_pop.c:91-119, list_pop.c:99-124 and slist_node_next_pop.c:
    98-123: release the unlinked node [p] (its child [c] already detached); if this
    fails, release the child instead of returning it.  Returns status and [*r]. *)
Definition pop_finish (v : env) (w : world) (p c : Z) : option (Z * Z * world) :=
  do '(e, w1) <- node_release v w p;
  if negb (ok e) then
    do '(e2, w2) <- release_child v w1 c; Some (e2, 0, w2)
  else Some (STATUS_SUCCESS, c, w1).

(** slist_pop.c:55-126; [*r] is NULL on entry. *)
Definition slist_pop (v : env) (w : world) (l : Z) : option (Z * Z * world) :=
  do h <- hget (w_hdrs w) l;
  if negb (h_head h =? 0) then
    do w1 <- (if h_head h =? h_tail h then seth w l (to_tail 0) else Some w);
    let t := h_head h in
    do n <- hget (w_nodes w1) t;
    do w2 <- setn w1 t (to_child 0);
    do w3 <- seth w2 l (to_head (n_next n));
    do w4 <- setn w3 t (to_parent 0);
    do w5 <- setn w4 t (to_next 0);
    do w6 <- seth w5 l (fun h => to_count (h_count h - 1) h);
    pop_finish v w6 t (n_child n)
  else Some (STATUS_SUCCESS, 0, w).

(** slist_node_next_pop.c:56-130 *)
Definition slist_node_next_pop (v : env) (w : world) (q : Z) : option (Z * Z * world) :=
  do n <- hget (w_nodes w) q;
  let par := n_parent n in
  if negb (n_next n =? 0) then
    do h <- hget (w_hdrs w) par;
    do w1 <- (if n_next n =? h_tail h then seth w par (to_tail q) else Some w);
    let t := n_next n in
    do m <- hget (w_nodes w1) t;
    do w2 <- setn w1 t (to_child 0);
    do w3 <- setn w2 q (to_next (n_next m));
    do w4 <- setn w3 t (to_parent 0);
    do w5 <- setn w4 t (to_next 0);
    do w6 <- seth w5 par (fun h => to_count (h_count h - 1) h);
    pop_finish v w6 t (n_child m)
  else Some (STATUS_SUCCESS, 0, w).

(** slist_clear.c:39-54 ([dbl] false) and list_clear.c:40-56 ([dbl] true) *)
Fixpoint clear_loop (fuel : nat) (dbl : bool) (v : env) (w : world) (l : Z) : option (Z * world) :=
  match fuel with
  | O => None
  | S f =>
      do h <- hget (w_hdrs w) l;
      if h_head h =? 0 then Some (STATUS_SUCCESS, w) else
      let t := h_head h in
      do n <- hget (w_nodes w) t;
      do w1 <- seth w l (to_head (n_next n));
      do w2 <- seth w1 l (fun h => to_count (h_count h - 1) h);
      do w3 <- setn w2 t (to_parent 0);
      do w4 <- setn w3 t (to_next 0);
      do w5 <- (if dbl then setn w4 t (to_prev 0) else Some w4);
      do '(e, w6) <- node_release v w5 t;
      if negb (ok e) then Some (e, w6) else clear_loop f dbl v w6 l
  end.

(** slist_clear.c:33-64, list_clear.c:31-73.  One more round than there are nodes. *)
Definition clear (dbl : bool) (v : env) (w : world) (l : Z) : option (Z * world) :=
  do '(e, w1) <- clear_loop (S (length (w_nodes w))) dbl v w l;
  if negb (ok e) then Some (e, w1) else
  do w2 <- seth w1 l (to_tail 0);
  do w3 <- seth w2 l (to_count 0);
  Some (STATUS_SUCCESS, w3).
Definition slist_clear := clear false.
Definition list_clear := clear true.

(** slist_create.c:119-136, list_create.c:126-144 *)
Definition release (dbl : bool) (v : env) (w : world) (l : Z) : option (Z * world) :=
  do '(e, w1) <- clear dbl v w l;
  if negb (ok e) then Some (e, w1) else
  do _ <- hget (w_hdrs w1) l;
  if ok (e_reclaimh v l) then Some (STATUS_SUCCESS, World (w_nodes w1) (hdel (w_hdrs w1) l) (w_rel w1))
  else Some (e_reclaimh v l, w1).
Definition slist_release := release false.
Definition list_release := release true.

(** slist_swap.c:39-54, list_swap.c:39-54: the headers are copied, the nodes not
    touched. *)
Definition list_swap (w : world) (l r : Z) : option world :=
  do a <- hget (w_hdrs w) l;
  do b <- hget (w_hdrs w) r;
  do w1 <- seth w l (fun _ => b);
  seth w1 r (fun _ => a).

(** slist_head.c:49-61, slist_tail.c:48-60, slist_count.c:26-34, and list_*.c *)
Definition list_head (w : world) (l : Z) : option Z := do h <- hget (w_hdrs w) l; Some (h_head h).
Definition list_tail (w : world) (l : Z) : option Z := do h <- hget (w_hdrs w) l; Some (h_tail h).
Definition list_count (w : world) (l : Z) : option Z := do h <- hget (w_hdrs w) l; Some (h_count h).
(** slist_node_next.c:40-52, slist_node_child.c:43-55, list_node_next.c:37-49,
    list_node_prev.c:38-50, list_node_child.c:40-52 *)
Definition node_next (w : world) (q : Z) : option Z := do n <- hget (w_nodes w) q; Some (n_next n).
Definition node_prev (w : world) (q : Z) : option Z := do n <- hget (w_nodes w) q; Some (n_prev n).
Definition node_child (w : world) (q : Z) : option Z := do n <- hget (w_nodes w) q; Some (n_child n).
(** slist_node_child_swap.c:53-75, list_node_child_swap.c:52-74; returns [*r]. *)
Definition node_child_swap (w : world) (q c : Z) : option (Z * world) :=
  do n <- hget (w_nodes w) q;
  do w1 <- setn w q (to_child c);
  Some (n_child n, w1).

(** list_append_tail.c:45-88 *)
Definition list_append_tail (v : env) (w : world) (l c : Z) : option (Z * world) :=
  do '(e, p, w1) <- node_create v w l c;
  if negb (ok e) then Some (e, w1) else
  do h <- hget (w_hdrs w1) l;
  do w2 <- (if negb (h_tail h =? 0) then
              do w' <- setn w1 p (to_prev (h_tail h));
              do w'' <- setn w' (h_tail h) (to_next p); seth w'' l (to_tail p)
            else do w' <- seth w1 l (to_head p); seth w' l (to_tail p));
  do w3 <- seth w2 l (fun h => to_count (h_count h + 1) h);
  Some (STATUS_SUCCESS, w3).

(** list_insert_head.c:45-87 *)
Definition list_insert_head (v : env) (w : world) (l c : Z) : option (Z * world) :=
  do '(e, p, w1) <- node_create v w l c;
  if negb (ok e) then Some (e, w1) else
  do h <- hget (w_hdrs w1) l;
  do w2 <- setn w1 p (to_next (h_head h));
  do w2 <- setn w2 p (to_prev 0);
  do w3 <- (if negb (h_head h =? 0) then
              do w' <- seth w2 l (to_head p);
              do n <- hget (w_nodes w') p;
              setn w' (n_next n) (to_prev p)
            else do w' <- seth w2 l (to_head p); seth w' l (to_tail p));
  do w4 <- seth w3 l (fun h => to_count (h_count h + 1) h);
  Some (STATUS_SUCCESS, w4).

(** list_append.c:51-107 *)
Definition list_append (v : env) (w : world) (q c : Z) : option (Z * world) :=
  do n <- hget (w_nodes w) q;
  let par := n_parent n in
  do '(e, p, w1) <- node_create v w par c;
  if negb (ok e) then Some (e, w1) else
  do h <- hget (w_hdrs w1) par;
  do w2 <- (if q =? h_tail h then seth w1 par (to_tail p) else Some w1);
  do n2 <- hget (w_nodes w2) q;
  do w3 <- setn w2 p (to_next (n_next n2));
  do w4 <- setn w3 p (to_prev q);
  do w5 <- (if negb (n_next n2 =? 0) then setn w4 (n_next n2) (to_prev p) else Some w4);
  do w6 <- setn w5 q (to_next p);
  do w7 <- seth w6 par (fun h => to_count (h_count h + 1) h);
  Some (STATUS_SUCCESS, w7).

(** list_insert.c:49-72 *)
Definition list_insert (v : env) (w : world) (q c : Z) : option (Z * world) :=
  do n <- hget (w_nodes w) q;
  if negb (n_prev n =? 0) then list_append v w (n_prev n) c
  else list_insert_head v w (n_parent n) c.

(** list_pop.c:54-131 *)
Definition list_pop (v : env) (w : world) (l : Z) : option (Z * Z * world) :=
  do h <- hget (w_hdrs w) l;
  if negb (h_head h =? 0) then
    do w1 <- (if h_head h =? h_tail h then seth w l (to_tail 0) else Some w);
    let t := h_head h in
    do n <- hget (w_nodes w1) t;
    do w2 <- setn w1 t (to_child 0);
    do w3 <- seth w2 l (to_head (n_next n));
    do w3 <- (if negb (n_next n =? 0) then setn w3 (n_next n) (to_prev 0) else Some w3);
    do w4 <- setn w3 t (to_parent 0);
    do w5 <- setn w4 t (to_next 0);
    do w6 <- seth w5 l (fun h => to_count (h_count h - 1) h);
    pop_finish v w6 t (n_child n)
  else Some (STATUS_SUCCESS, 0, w).

(** ** Queues: a pointer to an slist (src/queue/queue_internal.h) *)
Definition queues := heap Z.
(** queue_create.c:62-113.  [al] is the status of the allocation of the queue, [rc]
    of reclaiming it; [e_alloc v] is the status of slist_create's. *)
Definition queue_create (al rc : Z) (v : env) (qs : queues) (w : world) : Z * option Z * queues * world :=
  if negb (ok al) then (al, None, qs, w) else
  let q := e_new v in
  let qs1 := hadd qs q 0 in
  let '(e, l, w1) := list_create v w in
  match l with
  | Some l => (STATUS_SUCCESS, Some q, hset qs1 q l, w1)
  | None => if negb (ok rc) then (rc, None, qs1, w1) else (e, None, hdel qs1 q, w1)
  end.
(** queue_append.c:45-55, queue_insert.c:45-55, queue_pop.c:54-65, queue_count.c:26-33 *)
Definition queue_append v (qs : queues) w q c := do l <- hget qs q; slist_append_tail v w l c.
Definition queue_insert v (qs : queues) w q c := do l <- hget qs q; slist_insert_head v w l c.
Definition queue_pop v (qs : queues) w q := do l <- hget qs q; slist_pop v w l.
Definition queue_count (qs : queues) w q := do l <- hget qs q; list_count w l.
(** queue_create.c:124-147; [rc] is the status of reclaiming the queue. *)
Definition queue_release (rc : Z) (v : env) (qs : queues) (w : world) (q : Z) : option (Z * queues * world) :=
  do l <- hget qs q;
  do _ <- hget (w_hdrs w) l;
  do '(e, w1) <- slist_release v w l;
  if ok rc then Some (e, hdel qs q, w1) else Some (rc, qs, w1).
