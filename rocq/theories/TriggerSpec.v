(** What an auto-reset trigger is, read off the history of events (most recent first). *)
From Verif Require Import Base Status TriggerModel.

(** The registration in force: made successfully and its callback not finished. *)
Fixpoint registered (tr : list trig_event) : option (Z * Z) :=
  match tr with
  | [] => None
  | ERegister cb ctx e :: past => if e =? STATUS_SUCCESS then Some (cb, ctx) else registered past
  | EReturn :: _ => None
  | _ :: past => registered past
  end.
(** A signal was given since the last time a callback finished. *)
Fixpoint signalled (tr : list trig_event) : bool :=
  match tr with
  | [] => false
  | ESignal :: _ => true
  | EReturn :: _ => false
  | _ :: past => signalled past
  end.
Definition due (tr : list trig_event) : option (Z * Z) := if signalled tr then registered tr else None.

(** Every event is what it must be, given its past. *)
Fixpoint legal (tr : list trig_event) : Prop :=
  match tr with
  | [] => True
  | e :: past => legal past /\
      (* registration is refused exactly while one is in force *)
      (forall cb ctx st, e = ERegister cb ctx st ->
         st = match registered past with
              | None => STATUS_SUCCESS
              | Some _ => ERROR_AUTO_RESET_TRIGGER_LISTENER_ALREADY_REGISTERED
              end) /\
      (* callbacks run in a step only, and only if registered and signalled... *)
      (forall cb ctx, e = ECall cb ctx -> exists p, past = EStep :: p /\ due p = Some (cb, ctx)) /\
      (* ... and then they do run *)
      (forall p cb ctx, past = EStep :: p -> due p = Some (cb, ctx) -> e = ECall cb ctx)
  end.
(** No callback is left to be run by a step already made. *)
Definition settled (tr : list trig_event) : Prop := forall p, tr = EStep :: p -> due p = None.

Definition registrations (tr : list trig_event) : nat :=
  length (filter (fun e => match e with ERegister _ _ st => st =? STATUS_SUCCESS | _ => false end) tr).

(** Callbacks that do not step the trigger themselves. *)
Definition step_free (beh : behaviour) : Prop := forall n cb ctx, ~ In TStep (beh n cb ctx).
