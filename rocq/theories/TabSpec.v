(** What a tree of numbers should do: [TR t l] says that the tree holds the sorted list
    [l]; [Q t k] is the condition under which a deletion is right. *)
From Verif Require Import Base Status MemModel TabModel.

Record tab_ok {T} (ts : tops T) (TR : T -> list Z -> Prop) (Q : T -> Z -> Prop) : Prop := TabOk
  { tb_empty : TR (t_empty ts) [];
    tb_insert : forall a t l k, TR t l -> k <> 0 -> exists t',
      t_insert ts a t k = Some (if ok a then STATUS_SUCCESS else a, t') /\ TR t' (if ok a then zput k l else l);
    tb_find : forall t l k, TR t l ->
      t_find ts t k = Some (if zmem k l then (STATUS_SUCCESS, k) else (ERROR_RBTREE_NOT_FOUND, 0));
    tb_delete : forall t l k, TR t l -> Q t k -> exists t',
      t_delete ts t k = Some (if zmem k l then STATUS_SUCCESS else ERROR_RBTREE_NOT_FOUND, t') /\ TR t' (zdel k l);
    tb_elems : forall t l, TR t l -> t_elems ts t = Some l }.
(** A tree on which every deletion is right. *)
Definition perfect {T} (ts : tops T) (TR : T -> list Z -> Prop) : Prop := tab_ok ts TR (fun _ _ => True).
