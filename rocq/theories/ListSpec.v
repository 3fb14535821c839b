(** What lists are: finite sequences of resources, each carried by a node whose
    address is the client's handle to it.  The abstract state says, for every list,
    which sequence it holds; an operation on it is the one on sequences. *)
From Verif Require Import Base Status MemModel Heap ListModel.

(** A node, the list it was created in, and its resource. *)
Record el := El { el_addr : Z; el_parent : Z; el_child : Z }.
Record astate := AState
  { a_lists : heap (list el);  (* every list and its elements *)
    a_leak : list Z;           (* nodes that are in no list but were not given back *)
    a_rel : list Z }.          (* resources released so far, in order *)
Definition all_nodes (aw : heap (list el)) : list Z := flat_map (fun x => map el_addr (snd x)) aw.

(** Operations of the two libraries; [OInsert] and [OPrev] exist only for list,
    [ONextPop] only for slist. *)
Inductive op :=
| OCreate | OInsertHead (l c : Z) | OAppendTail (l c : Z) | OAppend (q c : Z) | OInsert (q c : Z)
| OPop (l : Z) | ONextPop (q : Z) | OClear (l : Z) | ORelease (l : Z) | OSwap (l r : Z)
| OChildSwap (q c : Z) | OHead (l : Z) | OTail (l : Z) | OCount (l : Z)
| ONext (q : Z) | OPrev (q : Z) | OChild (q : Z).

(** A client's call: status and value delivered ([*r], 0 if none). *)
Definition only {A} (b : bool) (x : option A) : option A := if b then x else None.
Definition sts (x : option (Z * world)) : option (Z * Z * world) := do '(e, w) <- x; Some (e, 0, w).
Definition qry (w : world) (x : option Z) : option (Z * Z * world) := do z <- x; Some (STATUS_SUCCESS, z, w).
Definition exec (dbl : bool) (v : env) (w : world) (o : op) : option (Z * Z * world) :=
  match o with
  | OCreate => let '(e, l, w1) := list_create v w in Some (e, match l with Some l => l | None => 0 end, w1)
  | OInsertHead l c => sts (if dbl then list_insert_head v w l c else slist_insert_head v w l c)
  | OAppendTail l c => sts (if dbl then list_append_tail v w l c else slist_append_tail v w l c)
  | OAppend q c => sts (if dbl then list_append v w q c else slist_append v w q c)
  | OInsert q c => only dbl (sts (list_insert v w q c))
  | OPop l => if dbl then list_pop v w l else slist_pop v w l
  | ONextPop q => only (negb dbl) (slist_node_next_pop v w q)
  | OClear l => sts (if dbl then list_clear v w l else slist_clear v w l)
  | ORelease l => sts (if dbl then list_release v w l else slist_release v w l)
  | OSwap l r => do w1 <- list_swap w l r; Some (STATUS_SUCCESS, 0, w1)
  | OChildSwap q c => do '(old, w1) <- node_child_swap w q c; Some (STATUS_SUCCESS, old, w1)
  | OHead l => qry w (list_head w l)
  | OTail l => qry w (list_tail w l)
  | OCount l => qry w (list_count w l)
  | ONext q => qry w (node_next w q)
  | OPrev q => only dbl (qry w (node_prev w q))
  | OChild q => qry w (node_child w q)
  end.
Fixpoint execs (dbl : bool) (w : world) (h : list (env * op)) : option (list (Z * Z) * world) :=
  match h with
  | [] => Some ([], w)
  | (v, o) :: t =>
      do '(e, x, w1) <- exec dbl v w o;
      do '(outs, w2) <- execs dbl w1 t;
      Some ((e, x) :: outs, w2)
  end.
Definition world0 : world := World [] [] [].

(** ** The same operations on sequences *)
Definition first (s : list el) : Z := match s with [] => 0 | e :: _ => el_addr e end.
Definition last_addr (s : list el) : Z := last (map el_addr s) 0.

(** The list a node is in, what precedes and what follows it. *)
Fixpoint split_at (q : Z) (s : list el) : option (list el * el * list el) :=
  match s with
  | [] => None
  | e :: t => if el_addr e =? q then Some ([], e, t) else
              match split_at q t with Some (a, x, b) => Some (e :: a, x, b) | None => None end
  end.
Fixpoint locate (q : Z) (aw : heap (list el)) : option (Z * (list el * el * list el)) :=
  match aw with
  | [] => None
  | (l, s) :: t => match split_at q s with Some r => Some (l, r) | None => locate q t end
  end.

(** [l]'s elements become [s]. *)
Definition put (a : astate) (l : Z) (s : list el) : astate := AState (hset (a_lists a) l s) (a_leak a) (a_rel a).
(** Adding an element: only the sequence changes, and nothing if memory runs out.  An
    allocator never hands out NULL or a node in use. *)
Definition adding (v : env) (a : astate) (l : Z) (f : Z -> list el) : option (Z * Z * astate) :=
  if negb (ok (e_alloc v)) then Some (e_alloc v, 0, a) else
  if (e_new v =? 0) || existsb (Z.eqb (e_new v)) (all_nodes (a_lists a) ++ a_leak a) then None else
  Some (STATUS_SUCCESS, 0, put a l (f (e_new v))).
(** Taking [e] out of [l], leaving [s]: its resource is delivered.  If the node cannot
    be given back, the resource is released instead. *)
Definition taking (v : env) (a : astate) (l : Z) (e : el) (s : list el) : option (Z * Z * astate) :=
  if ok (e_reclaim v (el_addr e)) then Some (STATUS_SUCCESS, el_child e, put a l s) else
  if el_child e =? 0 then None else
  Some (e_child v (el_child e), 0,
        AState (hset (a_lists a) l s) (el_addr e :: a_leak a) (a_rel a ++ [el_child e])).
(** Clearing: elements are taken from the front and their resources released, up to
    and including the first that fails: status, resources released, nodes not given
    back, elements left. *)
Fixpoint clearing (v : env) (s : list el) : Z * list Z * list Z * list el :=
  match s with
  | [] => (STATUS_SUCCESS, [], [], [])
  | e :: t =>
      let c := if el_child e =? 0 then [] else [el_child e] in
      if negb (el_child e =? 0) && negb (ok (e_child v (el_child e))) then (e_child v (el_child e), c, [el_addr e], t)
      else if negb (ok (e_reclaim v (el_addr e))) then (e_reclaim v (el_addr e), c, [el_addr e], t)
      else let '(st, r, k, rest) := clearing v t in (st, c ++ r, k, rest)
  end.

(** The abstract operation.  [None]: the call is not allowed (no such list or node, a
    node used after a swap with a list it was not created in, NULL to release), or it
    is a failing clear that leaves the list unusable: of an slist if its very last
    element fails, of a list in any case. *)
Definition astep (dbl : bool) (v : env) (a : astate) (o : op) : option (Z * Z * astate) :=
  let L := a_lists a in
  match o with
  | OCreate =>
      if negb (ok (e_alloc v)) then Some (e_alloc v, 0, a) else
      if (e_newh v =? 0) || existsb (Z.eqb (e_newh v)) (addrs L) then None else
      Some (STATUS_SUCCESS, e_newh v, AState (hadd L (e_newh v) []) (a_leak a) (a_rel a))
  | OInsertHead l c => do s <- hget L l; adding v a l (fun p => El p l c :: s)
  | OAppendTail l c => do s <- hget L l; adding v a l (fun p => s ++ [El p l c])
  | OAppend q c =>
      do '(l, (x, e, y)) <- locate q L;
      only (el_parent e =? l) (adding v a l (fun p => x ++ e :: El p l c :: y))
  | OInsert q c =>
      do '(l, (x, e, y)) <- locate q L;
      only (dbl && (el_parent (last x e) =? l)) (adding v a l (fun p => x ++ El p l c :: e :: y))
  | OPop l =>
      do s <- hget L l;
      match s with [] => Some (STATUS_SUCCESS, 0, a) | e :: t => taking v a l e t end
  | ONextPop q =>
      do '(l, (x, e, y)) <- locate q L;
      match y with
      | [] => only (negb dbl) (Some (STATUS_SUCCESS, 0, a))
      | n :: z => only (negb dbl && (el_parent e =? l)) (taking v a l n (x ++ e :: z))
      end
  | OClear l =>
      do s <- hget L l;
      let '(st, r, k, rest) := clearing v s in
      only (ok st || (negb dbl && negb (first rest =? 0)))
        (Some (st, 0, AState (hset L l rest) (k ++ a_leak a) (a_rel a ++ r)))
  | ORelease l =>
      do s <- hget L l;
      let '(st, r, k, rest) := clearing v s in
      if ok st then
        Some (e_reclaimh v l, 0,
              AState (if ok (e_reclaimh v l) then hdel L l else hset L l []) (a_leak a) (a_rel a ++ r))
      else only (negb dbl && negb (first rest =? 0))
             (Some (st, 0, AState (hset L l rest) (k ++ a_leak a) (a_rel a ++ r)))
  | OSwap l r =>
      do s <- hget L l; do t <- hget L r;
      only (negb (l =? r)) (Some (STATUS_SUCCESS, 0, put (put a l t) r s))
  | OChildSwap q c =>
      do '(l, (x, e, y)) <- locate q L;
      Some (STATUS_SUCCESS, el_child e, put a l (x ++ El (el_addr e) (el_parent e) c :: y))
  | OHead l => do s <- hget L l; Some (STATUS_SUCCESS, first s, a)
  | OTail l => do s <- hget L l; Some (STATUS_SUCCESS, last_addr s, a)
  | OCount l => do s <- hget L l; Some (STATUS_SUCCESS, Z.of_nat (length s), a)
  | ONext q => do '(l, (x, e, y)) <- locate q L; Some (STATUS_SUCCESS, first y, a)
  | OPrev q => do '(l, (x, e, y)) <- locate q L; only dbl (Some (STATUS_SUCCESS, last_addr x, a))
  | OChild q => do '(l, (x, e, y)) <- locate q L; Some (STATUS_SUCCESS, el_child e, a)
  end.
Fixpoint asteps (dbl : bool) (a : astate) (h : list (env * op)) : option (list (Z * Z) * astate) :=
  match h with
  | [] => Some ([], a)
  | (v, o) :: t =>
      do '(e, x, a1) <- astep dbl v a o;
      do '(outs, a2) <- asteps dbl a1 t;
      Some ((e, x) :: outs, a2)
  end.
Definition astate0 : astate := AState [] [] [].

(** A client walking a list from a node, by [step], collecting the resources. *)
Fixpoint walk (fuel : nat) (step : world -> Z -> option Z) (w : world) (p : Z) : option (list Z) :=
  if p =? 0 then Some [] else
  match fuel with
  | O => None
  | S f => do c <- node_child w p; do q <- step w p; do r <- walk f step w q; Some (c :: r)
  end.

(** ** Queues *)
Inductive qop := QAppend (c : Z) | QInsert (c : Z) | QPop | QCount.
(** Per call: status of the allocation, of releasing a resource and of reclaiming a
    node; the address of a new node is picked among those not in use. *)
Record qenv := QEnv { q_alloc : Z; q_child : Z -> Z; q_reclaim : Z }.
Definition qenv_of (pick : list Z -> Z) (w : world) (v : qenv) : env :=
  Env (q_alloc v) (pick (addrs (w_nodes w))) 0 (q_child v) (fun _ => q_reclaim v) (fun _ => 0).
Definition qexec (pick : list Z -> Z) (v : qenv) (qs : queues) (w : world) (q : Z) (o : qop) : option (Z * Z * world) :=
  let v := qenv_of pick w v in
  match o with
  | QAppend c => sts (queue_append v qs w q c)
  | QInsert c => sts (queue_insert v qs w q c)
  | QPop => queue_pop v qs w q
  | QCount => qry w (queue_count qs w q)
  end.
Fixpoint qexecs (pick : list Z -> Z) (qs : queues) (w : world) (q : Z) (h : list (qenv * qop)) : option (list (Z * Z) * world) :=
  match h with
  | [] => Some ([], w)
  | (v, o) :: t =>
      do '(e, x, w1) <- qexec pick v qs w q o;
      do '(outs, w2) <- qexecs pick qs w1 q t;
      Some ((e, x) :: outs, w2)
  end.
(** A queue is a sequence of resources: append at the back, insert and pop at the
    front.  A pop that cannot give back the node's memory loses the resource: it is
    released, and the status of that release is reported. *)
Definition qspec (v : qenv) (s : list Z) (o : qop) : Z * Z * list Z :=
  match o with
  | QAppend c => if ok (q_alloc v) then (STATUS_SUCCESS, 0, s ++ [c]) else (q_alloc v, 0, s)
  | QInsert c => if ok (q_alloc v) then (STATUS_SUCCESS, 0, c :: s) else (q_alloc v, 0, s)
  | QPop => match s with
            | [] => (STATUS_SUCCESS, 0, [])
            | c :: t => if ok (q_reclaim v) then (STATUS_SUCCESS, c, t) else (q_child v c, 0, t)
            end
  | QCount => (STATUS_SUCCESS, Z.of_nat (length s), s)
  end.
Fixpoint qspecs (s : list Z) (h : list (qenv * qop)) : list (Z * Z) * list Z :=
  match h with
  | [] => ([], s)
  | (v, o) :: t => let '(e, x, s1) := qspec v s o in let '(outs, s2) := qspecs s1 t in ((e, x) :: outs, s2)
  end.
Definition qop_nonnull (o : qop) : Prop := match o with QAppend c | QInsert c => c <> 0 | _ => True end.

(** ** Reachable states: what some allowed history of calls leads to *)
Definition reaches (dbl : bool) (w : world) (a : astate) : Prop :=
  exists h outs, asteps dbl astate0 h = Some (outs, a) /\ execs dbl world0 h = Some (outs, w).
Definition nonnull (s : list Z) : list Z := filter (fun c => negb (c =? 0)) s.
