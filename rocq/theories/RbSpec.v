(** What the red-black tree should do, said without colours, rotations or pointers:
    a tree holds a sequence of (node, resource) pairs in key order. *)
From Coq Require Export Sorting.Permutation Sorting.Sorted.
From Verif Require Import Base Status MemModel Heap RbModel.

(** A total order on keys. *)
Definition good_order (o : order) : Prop :=
  (forall a b, o_cmp o a b = COMPARE_LT \/ o_cmp o a b = COMPARE_EQ \/ o_cmp o a b = COMPARE_GT) /\
  (forall a b, o_cmp o a b = COMPARE_LT <-> o_cmp o b a = COMPARE_GT) /\
  (forall a b c, o_cmp o a b <> COMPARE_GT -> o_cmp o b c <> COMPARE_GT -> o_cmp o a c <> COMPARE_GT).

(** The key of an item compares equal to [k]. *)
Definition has_key (o : order) (k : Z) (i : Z * Z) : Prop := o_cmp o k (o_key o (snd i)) = COMPARE_EQ.
(** Key order between items. *)
Definition item_le (o : order) (i j : Z * Z) : Prop := o_cmp o (o_key o (snd i)) (o_key o (snd j)) <> COMPARE_GT.
Definition in_order (o : order) (l : list (Z * Z)) : Prop := StronglySorted (item_le o) l.
(** A new item goes before the first item whose key is greater. *)
Fixpoint put (o : order) (i : Z * Z) (l : list (Z * Z)) : list (Z * Z) :=
  match l with
  | [] => [i]
  | j :: t => if o_cmp o (o_key o (snd i)) (o_key o (snd j)) =? COMPARE_LT then i :: l else j :: put o i t
  end.

(** The contents of a tree as a user reads them: start at the minimum, follow
    [rbtree_successor_node] until the nil node. *)
Fixpoint walk_from (fuel : nat) (w : rworld) (t n : Z) : option (list (Z * Z)) :=
  match fuel with
  | O => None
  | S f => do nl <- nil_ w t;
           if n =? nl then Some [] else
           do x <- va w n; do m <- successor_node w t n; do l <- walk_from f w t m; Some ((n, x) :: l)
  end.
Definition walk (w : rworld) (t : Z) : option (list (Z * Z)) :=
  do r <- root w t; do nl <- nil_ w t;
  if r =? nl then Some [] else
  do m <- minimum_node w t r; walk_from (S (length (rw_nodes w))) w t m.
(** The same backwards, from the maximum. *)
Fixpoint walkback_from (fuel : nat) (w : rworld) (t n : Z) : option (list (Z * Z)) :=
  match fuel with
  | O => None
  | S f => do nl <- nil_ w t;
           if n =? nl then Some [] else
           do x <- va w n; do m <- predecessor_node w t n; do l <- walkback_from f w t m; Some ((n, x) :: l)
  end.
Definition walkback (w : rworld) (t : Z) : option (list (Z * Z)) :=
  do r <- root w t; do nl <- nil_ w t;
  if r =? nl then Some [] else
  do m <- maximum_node w t r; walkback_from (S (length (rw_nodes w))) w t m.
(** Depth first, children before their parent, by the node accessors. *)
Fixpoint post_from (fuel : nat) (w : rworld) (t n : Z) : option (list (Z * Z)) :=
  match fuel with
  | O => None
  | S f => do nl <- nil_ w t;
           if n =? nl then Some [] else
           do l <- lf w n; do r <- rg w n; do x <- va w n;
           do a <- post_from f w t l; do b <- post_from f w t r; Some (a ++ b ++ [(n, x)])
  end.
Definition post (w : rworld) (t : Z) : option (list (Z * Z)) :=
  do r <- root w t; post_from (S (length (rw_nodes w))) w t r.
(** The number of nodes on the longest way down from the root. *)
Fixpoint depth_from (fuel : nat) (w : rworld) (t n : Z) : option nat :=
  match fuel with
  | O => None
  | S f => do nl <- nil_ w t;
           if n =? nl then Some O else
           do l <- lf w n; do r <- rg w n;
           do a <- depth_from f w t l; do b <- depth_from f w t r; Some (S (Nat.max a b))
  end.
Definition depth (w : rworld) (t : Z) : option nat :=
  do r <- root w t; depth_from (S (length (rw_nodes w))) w t r.

(** ** Histories *)
Inductive rop :=
| OCreate | OInsert (t r : Z) | ODelete (keep : bool) (t k : Z) | ODeleteNode (keep : bool) (t n : Z)
| OClear (t : Z) | ORelease (t : Z) | OSwap (a b : Z).
(** A call: its status, its output, the memory afterwards. *)
Definition rexec (o : order) (v : renv) (w : rworld) (p : rop) : option (Z * Z * rworld) :=
  match p with
  | OCreate => let '(e, r, w) := rbtree_create v w in Some (e, match r with Some t => t | None => 0 end, w)
  | OInsert t r => do '(e, w) <- rbtree_insert o v w t r; Some (e, 0, w)
  | ODelete keep t k => rbtree_delete o v keep w t k
  | ODeleteNode keep t n => delete_node v keep w t n
  | OClear t => do '(e, w) <- rbtree_clear v w t; Some (e, 0, w)
  | ORelease t => do '(e, w) <- rbtree_release v w t; Some (e, 0, w)
  | OSwap a b => do w <- rbtree_swap w a b; Some (STATUS_SUCCESS, 0, w)
  end.
Fixpoint rexecs (o : order) (w : rworld) (l : list (renv * rop)) : option rworld :=
  match l with [] => Some w | (v, p) :: t => do '(_, _, w) <- rexec o v w p; rexecs o w t end.
Definition rempty : rworld := RW [] [] [].

(** ** The specification *)
Record ent := Ent { e_items : list (Z * Z); e_nil : Z; e_impl : Z }.
Record rstate := RS { s_ents : heap ent; s_rel : list Z }.
Definition sempty : rstate := RS [] [].
(** Status of releasing a node: the resource's own release first, unless the user kept
    it, then the reclaiming of the node. *)
Definition drop_status (v : renv) (keep : bool) (i : Z * Z) : Z :=
  if keep then re_reclaim v (fst i)
  else if ok (re_child v (snd i)) then re_reclaim v (fst i) else re_child v (snd i).
Fixpoint first_error (l : list Z) : Z :=
  match l with [] => STATUS_SUCCESS | e :: t => if ok e then first_error t else e end.
(** Addresses handed out are fresh, resources are not NULL, trees and nodes are live, a
    tree is swapped with another one, a tree is released only while its nil pointer is
    its own sentinel. *)
Definition allowed (v : renv) (w : rworld) (s : rstate) (p : rop) : Prop :=
  match p with
  | OCreate => re_tree v <> 0 /\ ~ In (re_tree v) (addrs (rw_trees w)) /\ re_nil v <> 0 /\ ~ In (re_nil v) (addrs (rw_nodes w))
  | OInsert t r => In t (addrs (s_ents s)) /\ r <> 0 /\ re_new v <> 0 /\ ~ In (re_new v) (addrs (rw_nodes w))
  | ODelete _ t _ | OClear t => In t (addrs (s_ents s))
  | ODeleteNode _ t n => exists e, hget (s_ents s) t = Some e /\ In n (map fst (e_items e))
  | ORelease t => exists e, hget (s_ents s) t = Some e /\ e_nil e = e_impl e
  | OSwap a b => a <> b /\ In a (addrs (s_ents s)) /\ In b (addrs (s_ents s))
  end.
(** [astep o v s p e out s']: from [s] the call may return [e] and [out] and lead to [s']. *)
Definition astep (o : order) (v : renv) (s : rstate) (p : rop) (e out : Z) (s' : rstate) : Prop :=
  let with_items t items rel :=
    exists x, hget (s_ents s) t = Some x /\ s' = RS (hset (s_ents s) t (Ent items (e_nil x) (e_impl x))) rel in
  let removed keep t i l1 l2 :=
    e = drop_status v keep i /\ out = (if keep then snd i else 0) /\
    with_items t (l1 ++ l2) (if keep then s_rel s else s_rel s ++ [snd i]) in
  match p with
  | OCreate =>
      if ok (re_alloc v) then e = STATUS_SUCCESS /\ out = re_tree v /\
        s' = RS (hadd (s_ents s) (re_tree v) (Ent [] (re_nil v) (re_nil v))) (s_rel s)
      else e = ERROR_GENERAL_OUT_OF_MEMORY /\ out = 0 /\ s' = s
  | OInsert t r =>
      out = 0 /\
      if ok (re_alloc v) then e = STATUS_SUCCESS /\
        exists x, hget (s_ents s) t = Some x /\ with_items t (put o (re_new v, r) (e_items x)) (s_rel s)
      else e = re_alloc v /\ s' = s
  | ODelete keep t k =>
      exists x, hget (s_ents s) t = Some x /\
      ((Forall (fun i => ~ has_key o k i) (e_items x) /\ e = ERROR_RBTREE_NOT_FOUND /\ out = 0 /\ s' = s) \/
       (exists l1 i l2, e_items x = l1 ++ i :: l2 /\ has_key o k i /\ removed keep t i l1 l2))
  | ODeleteNode keep t n =>
      exists x l1 i l2, hget (s_ents s) t = Some x /\ e_items x = l1 ++ i :: l2 /\ fst i = n /\ removed keep t i l1 l2
  | OClear t =>
      exists x order_, hget (s_ents s) t = Some x /\ Permutation order_ (e_items x) /\ out = 0 /\
      e = first_error (map (drop_status v false) order_) /\ with_items t [] (s_rel s ++ map snd order_)
  | ORelease t =>
      exists x order_, hget (s_ents s) t = Some x /\ Permutation order_ (e_items x) /\ out = 0 /\
      e = (if ok (first_error (map (drop_status v false) order_)) then re_reclaimt v t
           else first_error (map (drop_status v false) order_)) /\
      s' = RS (hdel (s_ents s) t) (s_rel s ++ map snd order_)
  | OSwap a b =>
      exists x y, hget (s_ents s) a = Some x /\ hget (s_ents s) b = Some y /\ e = STATUS_SUCCESS /\ out = 0 /\
      s' = RS (hset (hset (s_ents s) a (Ent (e_items y) (e_nil y) (e_impl x))) b (Ent (e_items x) (e_nil x) (e_impl y))) (s_rel s)
  end.

(** Each node at which the loop of rbtree_delete_fixup stands, apart from the root, has a
    sibling or a red parent; and the sentinel's children are the sentinel, as they are in every tree
    except one that was swapped with another and not changed since. *)
Fixpoint steady (fuel : nat) (w : rworld) (t x : Z) : option bool :=
  match fuel with
  | O => None
  | S f =>
      do nl <- nil_ w t; do red <- co w x;
      if (x =? nl) || red then Some true else
      do r <- root w t; do p <- pa w x; do a <- lf w p; do b <- rg w p; do c <- co w p; do u <- lf w nl; do v <- rg w nl;
      if (u =? nl) && (v =? nl) && ((x =? r) || c || negb (a =? nl) && negb (b =? nl))
      then do '(x, w) <- fixup_step w t x; steady f w t x
      else Some false
  end.
(** Removing [n] unlinks a node of some colour and puts its only child [x] in its place.
    If the colour is black the loop starts at [x]. *)
Definition sound_removal (w : rworld) (t n : Z) : Prop :=
  exists red x w', unlink w t n = Some (red, x, w') /\ (red = false -> steady (S (length (rw_nodes w'))) w' t x = Some true).
(** The loop is to start at [x], a black child of the root that has no sibling. *)
Definition only_child (w : rworld) (t x : Z) : Prop :=
  exists nl r, nil_ w t = Some nl /\ root w t = Some r /\ x <> nl /\ co w x = Some false /\ pa w x = Some r /\
    ((lf w r = Some x /\ rg w r = Some nl) \/ (lf w r = Some nl /\ rg w r = Some x)) /\
    pa w nl = Some nl /\ lf w nl = Some nl /\ rg w nl = Some nl.
(** The call removes nothing, or the loop it makes run has siblings to work with. *)
Definition quiet (o : order) (w : rworld) (p : rop) : Prop :=
  match p with
  | ODelete _ t k => forall n, find_node o w t k = Some (STATUS_SUCCESS, n) -> sound_removal w t n
  | ODeleteNode _ t n => sound_removal w t n
  | _ => True
  end.
(** The memory shows the contents the state says: what the walk over each tree finds,
    and the resources released so far. *)
Definition sees (w : rworld) (s : rstate) : Prop :=
  rw_rel w = s_rel s /\ forall t e, hget (s_ents s) t = Some e -> walk w t = Some (e_items e).
(** Executions from [w] and [s], all of whose calls satisfy [P], that the specification
    explains step by step. *)
Inductive runs (o : order) (P : rworld -> rop -> Prop) : rworld -> rstate -> list (renv * rop) -> rworld -> rstate -> Prop :=
| runs_nil : forall w s, runs o P w s [] w s
| runs_snoc : forall w s l w1 s1 v p e out w2 s2,
    runs o P w s l w1 s1 -> allowed v w1 s1 p -> P w1 p ->
    rexec o v w1 p = Some (e, out, w2) -> astep o v s1 p e out s2 -> sees w2 s2 ->
    runs o P w s (l ++ [(v, p)]) w2 s2.
(** Only creations and insertions. *)
Definition grows (w : rworld) (p : rop) : Prop :=
  match p with OCreate | OInsert _ _ => True | _ => False end.
