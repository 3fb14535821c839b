(** Specification of C47 and C56, from what a trace shows: the calls, what they return, and
    what the threads' functions do. *)
From Verif Require Import Base Status MemModel ThreadModel.

Definition trace := list (tev * tout).
(** The thread that the last successful thread_create gave the address [p]. *)
Definition created_at (tr : trace) (p : Z) : option Z :=
  fold_left (fun r x => match x with (ThCreate _ _ _ _ _ _ _ pid _ _, Ret e (Some q)) => if ok e && (q =? p) then Some pid else r | _ => r end) tr None.
(** What the function of thread [t] returned. *)
Definition returned (tr : trace) (t : Z) : list Z :=
  flat_map (fun x => match x with (ThReturn u v, _) => if u =? t then [v] else [] | _ => [] end) tr.
(** With which function and argument threads were created and begin. *)
Definition orders (tr : trace) (t : Z) : list (Z * Z) :=
  flat_map (fun x => match x with (ThCreate _ _ _ _ _ _ _ pid fn ctx, Ret e _) => if ok e && (pid =? t) then [(fn, ctx)] else [] | _ => [] end) tr.
Definition begun (tr : trace) (t : Z) : list (Z * Z) :=
  flat_map (fun x => match x with (ThEnter u, Calls fn ctx) => if u =? t then [(fn, ctx)] else [] | _ => [] end) tr.
(** The release that thread [t] waits in: the address. *)
Definition releasing (tr : trace) (t : Z) : option Z :=
  fold_left (fun r x => match x with (ThRelease u p, _) => if u =? t then Some p else r | (ThJoined u _ _, _) => if u =? t then None else r | _ => r end) tr None.
(** The locks that threads hold: a lock is held from the return of its acquisition, or of
    a wait, up to its release, or to the next wait. *)
Definition drop (t l : Z) (h : list (Z * Z)) : list (Z * Z) := filter (fun y => negb ((fst y =? t) && (snd y =? l))) h.
Definition held (tr : trace) : list (Z * Z) :=
  fold_left (fun h x => match x with
    | (MuLocked t _, Ret e (Some l)) => if ok e then (t, l) :: h else h
    | (CoBack t, Ret e (Some l)) => if ok e then (t, l) :: h else h
    | (LkRelease t l _, Ret e _) => if ok e then drop t l h else h
    | (CoWait t l _ _, Quiet) => drop t l h
    | _ => h
    end) tr [].
(** The lock that [t] is about to acquire. *)
Definition acquiring (tr : trace) (t : Z) : option Z :=
  fold_left (fun r x => match x with (MuAcquire u l, _) => if u =? t then Some l else r | (MuLocked u _, _) => if u =? t then None else r | _ => r end) tr None.
(** The threads that wait on condition [c], and with which lock. *)
Definition waiting (tr : trace) (c : Z) : list (Z * Z) :=
  fold_left (fun h x => match x with
    | (CoWait t l d _, Quiet) => if d =? c then (t, l) :: h else h
    | (CoWake t, _) => filter (fun y => negb (fst y =? t)) h
    | (CoSignal _ _ d _ woken, Ret e _) => if (d =? c) && ok e then filter (fun y => negb (existsb (Z.eqb (fst y)) woken)) h else h
    | (CoSignalAll _ _ d _, Ret e _) => if (d =? c) && ok e then [] else h
    | _ => h
    end) tr [].
(** The lock that the wait in which [t] is was called with. *)
Definition waited_with (tr : trace) (t : Z) : option Z :=
  fold_left (fun r x => match x with (CoWait u l _ _, Quiet) => if u =? t then Some l else r | (CoBack u, _) => if u =? t then None else r | _ => r end) tr None.
Definition exited (tr : trace) (t : Z) : bool := existsb (fun x => match x with (ThExit u, _) => u =? t | _ => false end) tr.
(** No join fails. *)
Definition joins_work (l : list tev) : Prop := forall t jn rc, In (ThJoined t jn rc) l -> jn = 0.
