(** Specification for C69: the shape of a function that uses the control macros, and what it is
    to do. *)
From Verif Require Import Base Status CtlModel.

(** n steps; if step i fails, go to label i, behind which the steps before it are undone. *)
Definition tries (n : nat) : list line := map (fun i => Try (Step i) i) (seq 0 n).
Definition undoes (n : nat) : list line := flat_map (fun i => [Plain (SLabel (S i)); Cleanup (Undo i)]) (rev (seq 0 n)).
(** A constructor keeps what it made ([keep]); another function undoes it in any case. *)
Definition ladder (keep : bool) (n : nat) : list line :=
  [Preamble] ++ tries n ++ [Plain SSucceed] ++ (if keep then [Plain (SGoto 0)] else []) ++ undoes n ++ [Plain (SLabel 0); Plain SReturn].

(** The steps up to [k], and the cleanups of those before [k], last first *)
Definition did (k : nat) : list op := map Step (seq 0 k).
Definition undid (k : nat) : list op := map Undo (rev (seq 0 k)).
(** The status in the end: that of the last cleanup that failed, or else [st] *)
Fixpoint cascade (ans : op -> Z) (l : list op) (st : Z) : Z :=
  match l with [] => st | o :: l => cascade ans l (if ans o =? STATUS_SUCCESS then st else ans o) end.
(** The first failing step *)
Definition first_failure (ans : op -> Z) (n k : nat) : Prop :=
  (k < n)%nat /\ ans (Step k) <> STATUS_SUCCESS /\ forall i, (i < k)%nat -> ans (Step i) = STATUS_SUCCESS.
Definition all_succeed (ans : op -> Z) (n : nat) : Prop := forall i, (i < n)%nat -> ans (Step i) = STATUS_SUCCESS.
(** How a function ended: what it returned and evaluated *)
Definition result (r : outcome) : option (Z * list op) := match r with Ends z s => Some (z, c_log s) | _ => None end.
