(** What it means for a heap to hold a big integer. *)
From Verif Require Import Base Heap BigintModel.

(** At [p] there is an integer with the given sign and limbs. *)
Definition holds (h : heap bcell) (p : Z) (sign : bool) (limbs : list Z) : Prop :=
  exists a, hget h p = Some (BStruct sign (length limbs) a) /\ hget h a = Some (BLimbs limbs) /\ a <> 0.

(** The two integers share no memory. *)
Definition independent (h : heap bcell) (i j : Z) : Prop :=
  forall s1 n1 a1 s2 n2 a2, hget h i = Some (BStruct s1 n1 a1) -> hget h j = Some (BStruct s2 n2 a2) ->
    i <> j /\ a1 <> a2 /\ i <> a2 /\ j <> a1.
