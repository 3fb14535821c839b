(** Moving descriptors: what callers expect. *)
From Verif Require Import Base FdModel.

(** Requests: pairs of source and target descriptor, carried out in order. *)
Definition sources (rq : list (Z * Z)) := map fst rq.
Definition targets (rq : list (Z * Z)) := map snd rq.

(** The table after all moves: each target refers to what its source referred to,
    every source that is not a target is closed, everything else is as before. *)
Definition moved (t t' : fdt) (rq : list (Z * Z)) : Prop :=
  (forall s d, In (s, d) rq -> t' d = t s) /\
  (forall s, In s (sources rq) -> ~ In s (targets rq) -> t' s = None) /\
  (forall x, ~ In x (sources rq) -> ~ In x (targets rq) -> t' x = t x).

(** No source is one of the targets of the requests up to and including its own. *)
Fixpoint no_collision (before : list Z) (rq : list (Z * Z)) : Prop :=
  match rq with
  | [] => True
  | (s, d) :: rest => ~ In s (d :: before) /\ no_collision (d :: before) rest
  end.

(** Consecutive targets starting at [threshold]. *)
Fixpoint consecutive (threshold : Z) (srcs : list Z) : list (Z * Z) :=
  match srcs with
  | [] => []
  | s :: rest => (s, threshold) :: consecutive (threshold + 1) rest
  end.

(** The variable argument list encoding requests, terminated by a negative number. *)
Fixpoint encode (rq : list (Z * Z)) (last : Z) : list Z :=
  match rq with
  | [] => [last]
  | (s, d) :: rest => s :: d :: encode rest last
  end.
