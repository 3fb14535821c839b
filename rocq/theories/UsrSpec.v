(** What a scheduler with the user's own callback should do, without stacks or structures: one fiber runs and
    the others are parked; each call asks the callback once, and the fiber that it names runs. *)
From Verif Require Import Base Status MemModel Heap SchedModel UsrModel.

(** Why a fiber is parked: it has not begun; it is in a call of yield or of add; its function has returned. *)
Inductive phase := Unbegun | Yielding | Adding | Returned.
(** The fiber that runs, the parked ones, the callback's context, and what the callback was told. *)
Record sys (C : Type) := Sys { running : Z; parked : Z -> option phase; context : C; told : list (Z * Z * Z) }.
Arguments Sys {C}. Arguments running {C}. Arguments parked {C}. Arguments context {C}. Arguments told {C}.

Definition upd {V} (m : Z -> option V) (f : Z) (v : option V) : Z -> option V := fun g => if g =? f then v else m g.
(** What a fiber sees when it is resumed with these values. *)
Definition sees (ph : phase) (d e p : Z) : outcome :=
  match ph with Unbegun => Begins | Yielding => Yields d e p | Adding => Added | Returned => Dies end.
(** A callback may release parked fibers, each once, but not the main one. *)
Fixpoint released (main : Z) (l : list Z) (m : Z -> option phase) : option (Z -> option phase) :=
  match l with
  | [] => Some m
  | f :: l' => match m f with
               | Some _ => if f =? main then None else released main l' (upd m f None)
               | None => None
               end
  end.
Definition or_else (x : option Z) (v : Z) : Z := match x with Some y => y | None => v end.

(** The running fiber, about to be parked in phase [why], has the callback asked.  [None]: the callback did what
    it must not: it released or named a fiber that it could not, or named none. *)
Definition ask {C} (cb : callback C) (sched main : Z) (why : phase) (ev p je jp : Z) (y : sys C) : option (outcome * sys C) :=
  let a := cb sched (context y) (running y) ev p in
  let told' := told y ++ [(running y, ev, p)] in
  match released main (a_freed a) (parked y) with
  | None => None
  | Some m =>
      if a_status a =? 0 then
        match a_fib a with
        | None => None
        | Some g =>
            let m' := upd m (running y) (Some why) in
            match m' g with
            | None => None
            | Some ph => Some (sees ph (or_else (a_disc a) INTERNAL_ID) (or_else (a_event a) je) (or_else (a_param a) jp),
                               Sys g (upd m' g None) (a_ctx a) told')
            end
        end
      else Some (Fails (a_status a), Sys (running y) m (a_ctx a) told')
  end.

Definition known {C} (f : Z) (y : sys C) : bool :=
  (f =? running y) || match parked y f with Some _ => true | None => false end.
(** The calls on the one scheduler.  [None] also for a fiber created at an address in use, the addition of what
    is no fiber, and a return where no fiber's function runs. *)
Definition does {C} (cb : callback C) (sched main : Z) (c : ucall) (y : sys C) : option (seen * sys C) :=
  match c with
  | CFiber s f =>
      if (s =? sched) && negb (f =? 0) && negb (known f y)
      then Some (Created, Sys (running y) (upd (parked y) f (Some Unbegun)) (context y) (told y)) else None
  | CAdd s f je jp =>
      if (s =? sched) && known f y
      then match ask cb sched main Adding YIELD_ADD_FIBER f je jp y with Some (o, y') => Some (Sees o, y') | None => None end else None
  | CYield s ev p je jp =>
      if s =? sched then match ask cb sched main Yielding ev p je jp y with Some (o, y') => Some (Sees o, y') | None => None end else None
  | CRun s je jp =>
      if s =? sched then match ask cb sched main Yielding YIELD_RUN 0 je jp y with Some (o, y') => Some (Sees o, y') | None => None end else None
  | CReturn p je jp =>
      if running y =? main then None
      else match ask cb sched main Returned YIELD_STOP p je jp y with
           | Some (Fails e, y') => Some (Sees Dies, y')
           | Some (o, y') => Some (Sees o, y')
           | None => None
           end
  end.
Fixpoint does_all {C} (cb : callback C) (sched main : Z) (l : list ucall) (y : sys C) : option (list seen * sys C) :=
  match l with
  | [] => Some ([], y)
  | c :: l' =>
      match does cb sched main c y with
      | None => None
      | Some (Sees Dies, y1) => Some ([Sees Dies], y1)
      | Some (o, y1) => match does_all cb sched main l' y1 with Some (os, y2) => Some (o :: os, y2) | None => None end
      end
  end.
(** A scheduler just made. *)
Definition fresh {C} (main : Z) (ctx : C) : sys C := Sys main (fun _ => None) ctx [].
(** What fiber_state_get says of a fiber. *)
Definition state_of {C} (y : sys C) (f : Z) : option Z :=
  if f =? running y then Some RUNNING else
  match parked y f with
  | Some Unbegun => Some CREATED | Some Returned => Some STOPPED | Some _ => Some RUNNING | None => None
  end.

(** The strands there are: the one that runs, and those saved in fibers. *)
Definition strand (x : saved) : Z := match x with Start f => f | Wait r _ => r end.
Fixpoint strands_in (h : list (Z * ufib)) : list Z :=
  match h with
  | [] => []
  | (_, b) :: t => match u_saved b with Some x => strand x :: strands_in t | None => strands_in t end
  end.
Definition strands {C} (w : world C) : list Z := w_run w :: strands_in (w_ufs w).
(** The fibers that a history creates. *)
Definition creates (c : ucall) : list Z := match c with CFiber _ f => [f] | _ => [] end.
Definition created (l : list ucall) : list Z := flat_map creates l.
(** Each scheduler's current fiber has nothing saved in it, and no two schedulers have the same one: how a world is
    where every scheduler has been made by fiber_scheduler_create. *)
Definition apart {C} (w : world C) : Prop :=
  (forall s t, hget (w_schs w) s = Some t -> exists b, hget (w_ufs w) (s_cur t) = Some b /\ u_saved b = None) /\
  (forall s1 t1 s2 t2, hget (w_schs w) s1 = Some t1 -> hget (w_schs w) s2 = Some t2 -> s_cur t1 = s_cur t2 -> s1 = s2).
(** A callback that, told of the main fiber, resumes it as it is to; and one that releases nothing. *)
Definition welcomes {C} (cb : callback C) (sched main je : Z) (ctx : C) : Prop :=
  let a := cb sched ctx main YIELD_MAIN 0 in
  a_status a = 0 /\ a_fib a = Some main /\ or_else (a_event a) je = RESUME_MAIN /\ a_freed a = [].
Definition keeps_all {C} (cb : callback C) : Prop := forall s c f e p, a_freed (cb s c f e p) = [].
(** The first of several statuses that is an error. *)
Fixpoint first_bad (l : list Z) : Z := match l with [] => 0 | e :: l' => if e =? 0 then first_bad l' else e end.
