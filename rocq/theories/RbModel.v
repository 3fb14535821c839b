(** Model of src/rbtree over a heap of nodes and a heap of tree headers.  The sentinel
    [nil_impl] embedded in a tree is a node of the node heap, allocated and freed with
    its tree; [t_nil] is the pointer to it.  Every field is read from memory at the
    point where the C code reads it.  Counts are unbounded. *)
From Verif Require Import Base Status MemModel Heap.

(** src/rbtree/rbtree_internal.h:25-53; RBTREE_RED is true *)
Record rnode := RN { r_parent : Z; r_left : Z; r_right : Z; r_value : Z; r_red : bool }.
Record tree := RT { t_root : Z; t_nil : Z; t_impl : Z; t_count : Z }.
Record rworld := RW { rw_nodes : heap rnode; rw_trees : heap tree; rw_rel : list Z }.
(** The environment of one call: status and addresses of an allocation (node; tree and
    the sentinel inside it), status of releasing a resource, of reclaiming a node, of
    reclaiming a tree. *)
Record renv := REnv
  { re_alloc : Z; re_new : Z; re_tree : Z; re_nil : Z;
    re_child : Z -> Z; re_reclaim : Z -> Z; re_reclaimt : Z -> Z }.
(** The user's callbacks: the key of a resource, and the comparison of keys. *)
Record order := Order { o_key : Z -> Z; o_cmp : Z -> Z -> Z }.
(** include/rcpr/compare.h:25-27 *)
Definition COMPARE_LT : Z := -1.
Definition COMPARE_EQ : Z := 0.
Definition COMPARE_GT : Z := 1.

(** Memory accesses; [None] if the address is not live. *)
Definition lf (w : rworld) (p : Z) : option Z := do n <- hget (rw_nodes w) p; Some (r_left n).
Definition rg (w : rworld) (p : Z) : option Z := do n <- hget (rw_nodes w) p; Some (r_right n).
Definition pa (w : rworld) (p : Z) : option Z := do n <- hget (rw_nodes w) p; Some (r_parent n).
Definition va (w : rworld) (p : Z) : option Z := do n <- hget (rw_nodes w) p; Some (r_value n).
Definition co (w : rworld) (p : Z) : option bool := do n <- hget (rw_nodes w) p; Some (r_red n).
Definition setr (w : rworld) (p : Z) (f : rnode -> rnode) : option rworld :=
  do n <- hget (rw_nodes w) p; Some (RW (hset (rw_nodes w) p (f n)) (rw_trees w) (rw_rel w)).
Definition sett (w : rworld) (t : Z) (f : tree -> tree) : option rworld :=
  do h <- hget (rw_trees w) t; Some (RW (rw_nodes w) (hset (rw_trees w) t (f h)) (rw_rel w)).
Definition toP v n := RN v (r_left n) (r_right n) (r_value n) (r_red n).
Definition toL v n := RN (r_parent n) v (r_right n) (r_value n) (r_red n).
Definition toR v n := RN (r_parent n) (r_left n) v (r_value n) (r_red n).
Definition toV v n := RN (r_parent n) (r_left n) (r_right n) v (r_red n).
Definition toC v n := RN (r_parent n) (r_left n) (r_right n) (r_value n) v.
Definition toRoot v h := RT v (t_nil h) (t_impl h) (t_count h).
Definition toCount v h := RT (t_root h) (t_nil h) (t_impl h) v.
Definition root (w : rworld) (t : Z) : option Z := do h <- hget (rw_trees w) t; Some (t_root h).
Definition nil_ (w : rworld) (t : Z) : option Z := do h <- hget (rw_trees w) t; Some (t_nil h).

(** rbtree_create.c:75-134 *)
Definition rbtree_create (v : renv) (w : rworld) : Z * option Z * rworld :=
  if negb (ok (re_alloc v)) then (ERROR_GENERAL_OUT_OF_MEMORY, None, w) else
  let n := re_nil v in
  (STATUS_SUCCESS, Some (re_tree v),
   RW (hadd (rw_nodes w) n (RN n n n n false)) (hadd (rw_trees w) (re_tree v) (RT n n n 0)) (rw_rel w)).

(** rbtree_left_rotate.c:36-71 *)
Definition left_rotate (w : rworld) (t x : Z) : option rworld :=
  do y <- rg w x;
  do yl <- lf w y;
  do w <- setr w x (toR yl);
  do yl <- lf w y; do nl <- nil_ w t;
  do w <- (if negb (yl =? nl) then setr w yl (toP x) else Some w);
  do xp <- pa w x;
  do w <- setr w y (toP xp);
  do xp <- pa w x;
  do w <- (if xp =? nl then sett w t (toRoot y) else
           do xpl <- lf w xp;
           if x =? xpl then setr w xp (toL y) else setr w xp (toR y));
  do w <- setr w y (toL x);
  setr w x (toP y).

(** rbtree_right_rotate.c:35-70 *)
Definition right_rotate (w : rworld) (t y : Z) : option rworld :=
  do x <- lf w y;
  do xr <- rg w x;
  do w <- setr w y (toL xr);
  do xr <- rg w x; do nl <- nil_ w t;
  do w <- (if negb (xr =? nl) then setr w xr (toP y) else Some w);
  do yp <- pa w y;
  do w <- setr w x (toP yp);
  do yp <- pa w y;
  do w <- (if yp =? nl then sett w t (toRoot x) else
           do ypr <- rg w yp;
           if y =? ypr then setr w yp (toR x) else setr w yp (toL x));
  do w <- setr w x (toR y);
  setr w y (toP x).

(** rbtree_insert_fixup.c:28-78: the loop *)
Fixpoint insert_loop (fuel : nat) (w : rworld) (t z : Z) : option rworld :=
  match fuel with
  | O => None
  | S f =>
      do zp <- pa w z; do c <- co w zp;
      if negb c then Some w else
      do zpp <- pa w zp; do l <- lf w zpp;
      if zp =? l then
        do y <- rg w zpp; do yc <- co w y;
        if yc then
          do w <- setr w zp (toC false);
          do w <- setr w y (toC false);
          do w <- setr w zpp (toC true);
          insert_loop f w t zpp
        else
          do r <- rg w zp;
          do '(z, w) <- (if z =? r then do w <- left_rotate w t zp; Some (zp, w) else Some (z, w));
          do zp <- pa w z;
          do w <- setr w zp (toC false);
          do zpp <- pa w zp;
          do w <- setr w zpp (toC true);
          do w <- right_rotate w t zpp;
          insert_loop f w t z
      else
        do y <- lf w zpp; do yc <- co w y;
        if yc then
          do w <- setr w zp (toC false);
          do w <- setr w y (toC false);
          do w <- setr w zpp (toC true);
          insert_loop f w t zpp
        else
          do l <- lf w zp;
          do '(z, w) <- (if z =? l then do w <- right_rotate w t zp; Some (zp, w) else Some (z, w));
          do zp <- pa w z;
          do w <- setr w zp (toC false);
          do zpp <- pa w zp;
          do w <- setr w zpp (toC true);
          do w <- left_rotate w t zpp;
          insert_loop f w t z
  end.

(** rbtree_insert_fixup.c:24-81 *)
Definition insert_fixup (w : rworld) (t z : Z) : option rworld :=
  do w <- insert_loop (S (length (rw_nodes w))) w t z;
  do r <- root w t; setr w r (toC false).

(** The last lines of rbtree_insert_node.c:81-84, rbtree_remove_node.c:79-82 and
    rbtree_clear.c:60-63 *)
Definition reset_nil (w : rworld) (t : Z) : option rworld :=
  do n <- nil_ w t;
  do w <- setr w n (toP n); do w <- setr w n (toL n); do w <- setr w n (toR n); setr w n (toC false).

(** rbtree_insert_node.c:35-49: the descent; returns [y]. *)
Fixpoint insert_descend (fuel : nat) (o : order) (w : rworld) (nl k x y : Z) : option Z :=
  match fuel with
  | O => None
  | S f =>
      if x =? nl then Some y else
      do xv <- va w x;
      if o_cmp o k (o_key o xv) =? COMPARE_LT then do l <- lf w x; insert_descend f o w nl k l x
      else do r <- rg w x; insert_descend f o w nl k r x
  end.

(** rbtree_insert_node.c:27-85 *)
Definition insert_node (o : order) (w : rworld) (t z : Z) : option rworld :=
  do x <- root w t; do nl <- nil_ w t; do zv <- va w z;
  let k := o_key o zv in
  do y <- insert_descend (S (length (rw_nodes w))) o w nl k x nl;
  do w <- setr w z (toP y);
  do w <- (if y =? nl then sett w t (toRoot z) else
           do yv <- va w y;
           if o_cmp o k (o_key o yv) =? COMPARE_LT then setr w y (toL z) else setr w y (toR z));
  do w <- setr w z (toL nl); do w <- setr w z (toR nl); do w <- setr w z (toC true);
  do w <- insert_fixup w t z;
  do w <- sett w t (fun h => toCount (t_count h + 1) h);
  reset_nil w t.

(** rbtree_node_create.c:50-100 and rbtree_insert.c:45-68 *)
Definition rbtree_insert (o : order) (v : renv) (w : rworld) (t r : Z) : option (Z * rworld) :=
  do nl <- nil_ w t;
  if negb (ok (re_alloc v)) then Some (re_alloc v, w) else
  let w1 := RW (hadd (rw_nodes w) (re_new v) (RN nl nl nl r false)) (rw_trees w) (rw_rel w) in
  do w2 <- insert_node o w1 t (re_new v); Some (STATUS_SUCCESS, w2).

(** rbtree_find_node.c:38-60 *)
Fixpoint find_loop (fuel : nat) (o : order) (w : rworld) (nl k x : Z) : option (Z * Z) :=
  match fuel with
  | O => None
  | S f =>
      if x =? nl then Some (ERROR_RBTREE_NOT_FOUND, 0) else
      do xv <- va w x;
      let c := o_cmp o k (o_key o xv) in
      if c =? COMPARE_EQ then Some (STATUS_SUCCESS, x)
      else if c =? COMPARE_LT then do l <- lf w x; find_loop f o w nl k l
      else do r <- rg w x; find_loop f o w nl k r
  end.
Definition find_node (o : order) (w : rworld) (t k : Z) : option (Z * Z) :=
  do x <- root w t; do nl <- nil_ w t; find_loop (S (length (rw_nodes w))) o w nl k x.
(** rbtree_find.c:44-66: status and [*r] *)
Definition rbtree_find (o : order) (w : rworld) (t k : Z) : option (Z * Z) :=
  do '(e, x) <- find_node o w t k;
  if negb (ok e) then Some (e, 0) else do v <- va w x; Some (STATUS_SUCCESS, v).

(** rbtree_minimum_node.c:26-36, rbtree_maximum_node.c:26-36 *)
Fixpoint min_loop (fuel : nat) (w : rworld) (nl x : Z) : option Z :=
  match fuel with
  | O => None
  | S f => do l <- lf w x; if l =? nl then Some x else min_loop f w nl l
  end.
Fixpoint max_loop (fuel : nat) (w : rworld) (nl x : Z) : option Z :=
  match fuel with
  | O => None
  | S f => do r <- rg w x; if r =? nl then Some x else max_loop f w nl r
  end.
Definition minimum_node (w : rworld) (t x : Z) : option Z := do nl <- nil_ w t; min_loop (S (length (rw_nodes w))) w nl x.
Definition maximum_node (w : rworld) (t x : Z) : option Z := do nl <- nil_ w t; max_loop (S (length (rw_nodes w))) w nl x.
(** rbtree_successor_node.c:26-44, rbtree_predecessor_node.c:26-44 *)
Fixpoint succ_loop (fuel : nat) (w : rworld) (nl x y : Z) : option Z :=
  match fuel with
  | O => None
  | S f => if y =? nl then Some y else
           do r <- rg w y; if x =? r then do p <- pa w y; succ_loop f w nl y p else Some y
  end.
Fixpoint pred_loop (fuel : nat) (w : rworld) (nl x y : Z) : option Z :=
  match fuel with
  | O => None
  | S f => if y =? nl then Some y else
           do l <- lf w y; if x =? l then do p <- pa w y; pred_loop f w nl y p else Some y
  end.
Definition successor_node (w : rworld) (t x : Z) : option Z :=
  do nl <- nil_ w t; do r <- rg w x;
  if negb (r =? nl) then minimum_node w t r else
  do y <- pa w x; succ_loop (S (length (rw_nodes w))) w nl x y.
Definition predecessor_node (w : rworld) (t x : Z) : option Z :=
  do nl <- nil_ w t; do l <- lf w x;
  if negb (l =? nl) then maximum_node w t l else
  do y <- pa w x; pred_loop (S (length (rw_nodes w))) w nl x y.

(** rbtree_transplant.c:31-52 *)
Definition transplant (w : rworld) (t u v : Z) : option rworld :=
  do nl <- nil_ w t;
  do up <- pa w u;
  do w <- (if up =? nl then sett w t (toRoot v) else
           do l <- lf w up;
           if u =? l then setr w up (toL v) else setr w up (toR v));
  do up <- pa w u;
  setr w v (toP up).

(** rbtree_delete_fixup.c:28-63: one iteration for a left child; the next [x] *)
Definition fixup_left (w : rworld) (t x : Z) : option (Z * rworld) :=
  do xp <- pa w x;
  do s <- rg w xp; do sc <- co w s;
  do '(s, w) <- (if sc then
      do w <- setr w s (toC false);
      do w <- setr w xp (toC true);
      do w <- left_rotate w t xp;
      do xp <- pa w x; do s <- rg w xp; Some (s, w)
    else Some (s, w));
  do sl <- lf w s; do slc <- co w sl;
  do sr <- rg w s; do src <- co w sr;
  if negb slc && negb src then
    do w <- setr w s (toC true);
    do xp <- pa w x; Some (xp, w)
  else
    do '(s, w) <- (if negb src then
        do w <- setr w sl (toC false);
        do w <- setr w s (toC true);
        do w <- right_rotate w t s;
        do xp <- pa w x; do s <- rg w xp; Some (s, w)
      else Some (s, w));
    do xp <- pa w x; do xpc <- co w xp;
    do w <- setr w s (toC xpc);
    do xp <- pa w x;
    do w <- setr w xp (toC false);
    do sr <- rg w s;
    do w <- setr w sr (toC false);
    do xp <- pa w x;
    do w <- left_rotate w t xp;
    do x <- root w t; Some (x, w).
(** rbtree_delete_fixup.c:65-99: one iteration for a right child, as written: line 69 tests [x]. *)
Definition fixup_right (w : rworld) (t x : Z) : option (Z * rworld) :=
  do xp <- pa w x;
  do s <- lf w xp;
  do xc <- co w x;
  do '(s, w) <- (if xc then
      do w <- setr w s (toC false);
      do w <- setr w xp (toC true);
      do w <- right_rotate w t xp;
      do xp <- pa w x; do s <- lf w xp; Some (s, w)
    else Some (s, w));
  do sr <- rg w s; do src <- co w sr;
  do sl <- lf w s; do slc <- co w sl;
  if negb src && negb slc then
    do w <- setr w s (toC true);
    do xp <- pa w x; Some (xp, w)
  else
    do '(s, w) <- (if negb slc then
        do w <- setr w sr (toC false);
        do w <- setr w s (toC true);
        do w <- left_rotate w t s;
        do xp <- pa w x; do s <- lf w xp; Some (s, w)
      else Some (s, w));
    do xp <- pa w x; do xpc <- co w xp;
    do w <- setr w s (toC xpc);
    do xp <- pa w x;
    do w <- setr w xp (toC false);
    do sl <- lf w s;
    do w <- setr w sl (toC false);
    do xp <- pa w x;
    do w <- right_rotate w t xp;
    do x <- root w t; Some (x, w).
(** rbtree_delete_fixup.c:26-28, 64: one iteration *)
Definition fixup_step (w : rworld) (t x : Z) : option (Z * rworld) :=
  do xp <- pa w x; do l <- lf w xp;
  if x =? l then fixup_left w t x else fixup_right w t x.
(** rbtree_delete_fixup.c:24-103, as written: the loop runs while [x] is not the
    sentinel (not: while it is not the root). *)
Fixpoint delete_fixup (fuel : nat) (w : rworld) (t x : Z) : option rworld :=
  match fuel with
  | O => None
  | S f =>
      do nl <- nil_ w t; do xc <- co w x;
      if (x =? nl) || xc then setr w x (toC false) else
      do '(x, w) <- fixup_step w t x; delete_fixup f w t x
  end.

(** rbtree_remove_node.c:30-73: [z] is unlinked.  The colour that goes missing, and the node that
    is in its place. *)
Definition unlink (w : rworld) (t z : Z) : option (bool * Z * rworld) :=
  do nl <- nil_ w t;
  do zc <- co w z;
  do zl <- lf w z; do zr <- rg w z;
  if zl =? nl then do w <- transplant w t z zr; Some (zc, zr, w)
  else if zr =? nl then do w <- transplant w t z zl; Some (zc, zl, w)
  else
    do y <- minimum_node w t zr;
    do yc <- co w y;
    do x <- rg w y;
    do yp <- pa w y;
    do w <- (if yp =? z then setr w x (toP y) else
             do w <- transplant w t y x;
             do zr <- rg w z;
             do w <- setr w y (toR zr);
             do yr <- rg w y;
             setr w yr (toP y));
    do w <- transplant w t z y;
    do zl <- lf w z;
    do w <- setr w y (toL zl);
    do yl <- lf w y;
    do w <- setr w yl (toP y);
    do zc <- co w z;
    do w <- setr w y (toC zc);
    Some (yc, x, w).
(** rbtree_remove_node.c:27-83 *)
Definition remove_node (w : rworld) (t z : Z) : option rworld :=
  do '(yc, x, w) <- unlink w t z;
  do w <- (if negb yc then delete_fixup (S (length (rw_nodes w))) w t x else Some w);
  do w <- sett w t (fun h => toCount (t_count h - 1) h);
  reset_nil w t.

(** resource_release of a user's resource *)
Definition release_value (v : renv) (w : rworld) (c : Z) : option (Z * rworld) :=
  if c =? 0 then None else Some (re_child v c, RW (rw_nodes w) (rw_trees w) (rw_rel w ++ [c])).
(** rbtree_node_create.c:112-140 *)
Definition node_release (v : renv) (w : rworld) (n : Z) : option (Z * rworld) :=
  do c <- va w n;
  do '(e, w) <- (if negb (c =? 0) then do w <- setr w n (toV 0); release_value v w c else Some (STATUS_SUCCESS, w));
  if negb (ok e) then Some (e, w) else
  do _ <- hget (rw_nodes w) n;
  if ok (re_reclaim v n) then Some (STATUS_SUCCESS, RW (hdel (rw_nodes w) n) (rw_trees w) (rw_rel w))
  else Some (re_reclaim v n, w).

(** rbtree_delete_node.c:53-74; [keep]: [r] is not NULL.  Status, [*r], world. *)
Definition delete_node (v : renv) (keep : bool) (w : rworld) (t n : Z) : option (Z * Z * rworld) :=
  do w <- remove_node w t n;
  do '(r, w) <- (if keep then do c <- va w n; do w <- setr w n (toV 0); Some (c, w) else Some (0, w));
  do '(e, w) <- node_release v w n; Some (e, r, w).
(** rbtree_delete.c:51-81 *)
Definition rbtree_delete (o : order) (v : renv) (keep : bool) (w : rworld) (t k : Z) : option (Z * Z * rworld) :=
  do '(e, n) <- find_node o w t k;
  if negb (ok e) then Some (e, 0, w) else delete_node v keep w t n.

(** rbtree_delete_nodes.c:30-61 *)
Fixpoint delete_nodes (fuel : nat) (v : renv) (w : rworld) (t n : Z) : option (Z * rworld) :=
  match fuel with
  | O => None
  | S f =>
      do nl <- nil_ w t;
      do l <- lf w n;
      do '(el, w) <- (if negb (nl =? l) then delete_nodes f v w t l else Some (STATUS_SUCCESS, w));
      do r <- rg w n;
      do '(er, w) <- (if negb (nl =? r) then delete_nodes f v w t r else Some (STATUS_SUCCESS, w));
      do '(en, w) <- node_release v w n;
      Some (if negb (ok el) then el else if negb (ok er) then er else if negb (ok en) then en else STATUS_SUCCESS, w)
  end.
(** rbtree_clear.c:40-66 *)
Definition rbtree_clear (v : renv) (w : rworld) (t : Z) : option (Z * rworld) :=
  do r <- root w t; do nl <- nil_ w t;
  do '(e, w) <- (if negb (r =? nl) then delete_nodes (S (length (rw_nodes w))) v w t r else Some (STATUS_SUCCESS, w));
  do w <- sett w t (toRoot nl);
  do w <- sett w t (toCount 0);
  do w <- reset_nil w t;
  Some (e, w).
(** rbtree_create.c:145-176.  The tree and the sentinel inside it go together. *)
Definition rbtree_release (v : renv) (w : rworld) (t : Z) : option (Z * rworld) :=
  do h <- hget (rw_trees w) t;
  do '(e, w) <- (if negb (t_root h =? t_nil h) then delete_nodes (S (length (rw_nodes w))) v w t (t_root h) else Some (STATUS_SUCCESS, w));
  do _ <- hget (rw_nodes w) (t_impl h);
  if ok (re_reclaimt v t) then
    Some (e, RW (hdel (rw_nodes w) (t_impl h)) (hdel (rw_trees w) t) (rw_rel w))
  else Some (if negb (ok e) then e else re_reclaimt v t, w).

(** rbtree_swap.c:37-52: root, nil, count and the sentinel itself are exchanged
    ([t_impl], the address of the sentinel inside the tree, is not a field). *)
Definition rbtree_swap (w : rworld) (l r : Z) : option rworld :=
  do a <- hget (rw_trees w) l; do b <- hget (rw_trees w) r;
  do na <- hget (rw_nodes w) (t_impl a); do nb <- hget (rw_nodes w) (t_impl b);
  do w <- setr w (t_impl a) (fun _ => nb); do w <- setr w (t_impl b) (fun _ => na);
  do w <- sett w l (fun _ => RT (t_root b) (t_nil b) (t_impl a) (t_count b));
  sett w r (fun _ => RT (t_root a) (t_nil a) (t_impl b) (t_count a)).

(** rbtree_count.c:23-30, rbtree_root_node.c, rbtree_nil_node.c, rbtree_left_node.c,
    rbtree_right_node.c, rbtree_parent_node.c, rbtree_node_value.c are [root], [nil_],
    [lf], [rg], [pa], [va] and: *)
Definition rbtree_count (w : rworld) (t : Z) : option Z := do h <- hget (rw_trees w) t; Some (t_count h).
