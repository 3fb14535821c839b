(** Specification for C67 and C68: what a program still has, and the steps of a start. *)
From Verif Require Import Base Status ImgModel ExitModel.

Definition thing_eq (x y : thing) : {x = y} + {x <> y}.
Proof. decide equality. apply Z.eq_dec. Defined.
Fixpoint drop (x : thing) (l : list thing) : list thing :=
  match l with [] => [] | y :: t => if thing_eq x y then t else y :: drop x t end.
(** What is held after the events of a log, last acquired first; [None] if something was released
    that was not held, or acquired twice. *)
Fixpoint replay (h : list thing) (l : list ev) : option (list thing) :=
  match l with
  | [] => Some h
  | Acq x :: l => if in_dec thing_eq x h then None else replay (x :: h) l
  | Rel x :: l => if in_dec thing_eq x h then replay (drop x h) l else None
  end.
Definition left_over (l : list ev) : option (list thing) := replay [] l.

(** A start: steps with an error code, whether they succeed and what they acquire.  The code of the
    first that fails and what was acquired before. *)
Fixpoint stops (l : list (Z * bool * list thing)) (acc : list thing) : option (Z * list thing) :=
  match l with
  | [] => None
  | (code, good, xs) :: l => if good then stops l (acc ++ xs) else Some (code, acc)
  end.
(** mandelbrot: the steps before the threads are made *)
Definition starts (a : manswers) : list (Z * bool * list thing) :=
  [(1, a_alloc a =? 0, [Allocator]); (2, a_config a =? 0, Config :: if a_strdup a then [Prefix] else []); (4, a_array a, [Array]);
   (5, a_mutex a =? 0, [Mutex]); (6, a_wcond a =? 0, [WorkerCond]); (7, a_mcond a =? 0, [MainCond]); (8, a_threads a, [Threads])].
Definition kept (x : thing) : bool := match x with Config => true | _ => false end.
(** Everything is given back in reverse order, but for what is kept. *)
Definition undone (xs : list thing) : list ev := map Acq xs ++ map Rel (filter (fun x => negb (kept x)) (rev xs)).
(** All of mandelbrot's threads are made, or those before [k]. *)
Definition made (a : manswers) (k : Z) : Prop := forall i, 0 <= i < k -> a_thread a i = STATUS_SUCCESS.
(** The frames before [k] were written. *)
Definition wrote (a : manswers) (k : Z) : Prop :=
  a_strdup a = true /\ forall i, 0 <= i < k -> a_wake a i = STATUS_SUCCESS /\ a_wait a i = Some STATUS_SUCCESS /\ a_open a i = true.
(** Behind cleanup_threads the workers can be woken, and those before [k] end. *)
Definition wakes (a : manswers) (k : Z) : Prop :=
  a_relock a = Some STATUS_SUCCESS /\ a_rewake a = STATUS_SUCCESS /\ a_unlock a = STATUS_SUCCESS /\ forall i, 0 <= i < k -> exists st, a_join a i = Some st.
(** Mandelbrot's threads, last first *)
Definition workers : list thing := map (fun i => Thread (Z.of_nat i)) (rev (seq 0 (Z.to_nat JOBS))).

(** Nothing that the echo server calls until its loop fails. *)
Definition serving (a : eanswers) : Prop :=
  e_alloc a = 0 /\ e_sched a = 0 /\ e_mgr a = 0 /\ e_mgr_add a = 0 /\ e_ctx a = 0 /\ e_lis a = 0 /\ e_lis_cb a = 0 /\ e_lis_add a = 0 /\
  e_pair a = 0 /\ e_sig a = 0 /\ e_left a = 0 /\ e_thread a = 0 /\ e_right a = 0 /\ e_wrap a = 0.
(** The first status that is not success. *)
Fixpoint first_error (l : list Z) : Z := match l with [] => STATUS_SUCCESS | st :: l => if st =? STATUS_SUCCESS then first_error l else st end.
(** No release fails. *)
Definition releases (a : eanswers) : Prop :=
  e_mgr_rel a = 0 /\ e_lis_rel a = 0 /\ e_ctx_rel a = 0 /\ e_left_rel a = 0 /\ e_sig_rel a = 0 /\ e_right_rel a = 0 /\ e_sched_rel a = 0.
(** The calls of the start in order, up to the signal thread *)
Definition before_thread (a : eanswers) : list Z := [e_alloc a; e_sched a; e_mgr a; e_mgr_add a; e_ctx a; e_lis a; e_lis_cb a; e_lis_add a].
Definition thread_calls (a : eanswers) : list Z := [e_pair a; e_sig a; e_left a; e_thread a].
(** Each call of the start once there is a scheduler, with the statuses of the releases that its failure
    leads to, the one that counts most first *)
Definition undoing (a : eanswers) : list (Z * list Z) :=
  [(e_mgr a, []); (e_mgr_add a, [e_mgr_rel a]); (e_ctx a, []); (e_lis a, [e_ctx_rel a]);
   (e_lis_cb a, [e_ctx_rel a; e_lis_rel a]); (e_lis_add a, [e_ctx_rel a; e_lis_rel a]);
   (e_pair a, []); (e_sig a, []); (e_left a, [e_sig_rel a]); (e_thread a, [e_left_rel a; e_sig_rel a])].
Fixpoint failed_call (l : list (Z * list Z)) : option (Z * list Z) :=
  match l with [] => None | (st, rels) :: l => if st =? STATUS_SUCCESS then failed_call l else Some (st, rels) end.
