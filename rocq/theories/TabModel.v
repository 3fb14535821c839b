(** The trees that the scheduler and the message and condition disciplines keep, by the
    calls they make on them.  The elements are numbers and are their own keys: a fiber is
    its pointer, and a mailbox or a condition is identified with its address.  Deletions
    never fail to reclaim their node here (see C30 for that). *)
From Verif Require Import Base Status MemModel Heap RbModel RbSpec.

Record tops (T : Type) := Tops
  { t_empty : T;
    t_insert : Z -> T -> Z -> option (Z * T);    (* status of the allocation, tree, element *)
    t_find : T -> Z -> option (Z * Z);           (* status, element *)
    t_delete : T -> Z -> option (Z * T);
    t_elems : T -> option (list Z) }.            (* minimum, then successors *)
Arguments Tops {T}. Arguments t_empty {T}. Arguments t_insert {T}. Arguments t_find {T}. Arguments t_delete {T}. Arguments t_elems {T}.

(** ** The map a user expects: a sorted list *)
Fixpoint zput (k : Z) (l : list Z) : list Z :=
  match l with [] => [k] | j :: t => if k <? j then k :: l else j :: zput k t end.
Fixpoint zdel (k : Z) (l : list Z) : list Z :=
  match l with [] => [] | j :: t => if k =? j then t else j :: zdel k t end.
Definition zmem (k : Z) (l : list Z) : bool := existsb (Z.eqb k) l.
Definition list_tops : tops (list Z) :=
  Tops []
    (fun a t k => if ok a then Some (STATUS_SUCCESS, zput k t) else Some (a, t))
    (fun t k => if zmem k t then Some (STATUS_SUCCESS, k) else Some (ERROR_RBTREE_NOT_FOUND, 0))
    (fun t k => if zmem k t then Some (STATUS_SUCCESS, zdel k t) else Some (ERROR_RBTREE_NOT_FOUND, t))
    (fun t => Some t).

(** ** The tree of src/rbtree *)
(** The comparisons of pointers and of addresses,
    fiber_scheduler_create_with_disciplines.c:394-407 and 418-423,
    message_discipline_context_create.c:133-147 and 157-167,
    condition_discipline_context_create.c:134-148 and 159-169 *)
Definition num_order : order :=
  Order (fun r => r) (fun a b => if a <? b then COMPARE_LT else if b <? a then COMPARE_GT else COMPARE_EQ).
(** A tree at address 1 of a memory that [pick] hands out. *)
Definition rb_env (pick : list Z -> Z) (a : Z) (w : rworld) : renv :=
  REnv a (pick (addrs (rw_nodes w))) 1 1 (fun _ => 0) (fun _ => 0) (fun _ => 0).
Definition rb_start : rworld := snd (rbtree_create (rb_env (fun _ => 1) 0 rempty) rempty).
Definition rb_tops (pick : list Z -> Z) : tops rworld :=
  Tops rb_start
    (fun a w k => rbtree_insert num_order (rb_env pick a w) w 1 k)
    (fun w k => rbtree_find num_order w 1 k)
    (fun w k => do '(e, _, w') <- rbtree_delete num_order (rb_env pick 0 w) true w 1 k; Some (e, w'))
    (fun w => do l <- walk w 1; Some (map snd l)).
