(** What each fiber of a scheduler with disciplines should see, from what the scheduler answers alone. *)
From Verif Require Import Base Status MemModel Heap TabModel SchedModel SchedSpec UsrModel UsrSpec TurnModel.

(** The calls that may let another fiber run, and where they leave their caller. *)
Definition may_switch (op : sop) : bool :=
  match op with
  | SAdd _ | SRun | SStop | SMain | SWake | SReceive | SRequest _ _ | SRequestAll _ | SYield _ _ _ => true
  | _ => false
  end.
Definition leaves (op : sop) : phase := match op with SAdd _ => Adding | SStop => Returned | _ => Yielding end.
(** Fiber [run] runs and the others are where [ph] says.  A call answered with an error returns it to its caller; one
    answered with the fiber [f] and the values [d], [ev], [p] stays where it is, and [f] goes on from where it was left:
    its function begins, or its own earlier call returns, with these values if it was a yield. *)
Fixpoint plays (h : list sop) (os : list out) (run : Z) (ph : Z -> phase) : list saw :=
  match h, os with
  | op :: h', o :: os' =>
      if may_switch op then
        let '(e, (f, d, ev, p)) := o in
        if e =? 0
        then let ph' := fun g => if g =? run then leaves op else ph g in Saw (sees (ph' f) d ev p) :: plays h' os' f ph'
        else Saw (Fails e) :: plays h' os' run ph
      else Stayed o :: plays h' os' run (match op with SNew f => fun g => if g =? f then Unbegun else ph g | _ => ph end)
  | _, _ => []
  end.
(** Fibers are created at free addresses and only fibers are added; only a fiber's function returns, not the main
    fiber [m]'s code; and neither the fiber that runs nor the main one is released. *)
Fixpoint careful {T U} (ts : tops T) (ac : acts U) (m : Z) (h : list sop) (w : sw T U) : Prop :=
  match h with
  | [] => True
  | op :: h' =>
      match op with
      | SNew f => f <> 0 /\ ~ In f (addrs (w_fibs w))
      | SAdd f => In f (addrs (w_fibs w))
      | SStop => w_cur w <> m
      | _ => True
      end /\
      match sexec ts ac op w with
      | Some (_, w') => In (w_cur w) (addrs (w_fibs w')) /\ In m (addrs (w_fibs w')) /\ careful ts ac m h' w'
      | None => True
      end
  end.
