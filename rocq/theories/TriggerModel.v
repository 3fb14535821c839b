(** Model of src/auto_reset_trigger/*.c.  Callbacks are identified by a number; what
    a callback does to the trigger while it runs is given by a behaviour. *)
From Verif Require Import Base Status MemModel.

(** auto_reset_trigger_internal.h:20-27; no callback is NULL.  0 is the NULL context. *)
Record trig := Trig { t_triggered : bool; t_callback : option Z; t_context : Z }.

(** Calls made on the trigger, from outside or from inside a callback. *)
Inductive trig_op := TRegister (cb ctx : Z) | TSignal | TStep.

(** What happens, as seen by the caller and the callbacks (most recent first). *)
Inductive trig_event :=
  | ERegister (cb ctx : Z) (st : Z) | ESignal | EStep | ECall (cb ctx : Z) | EReturn.

(** auto_reset_trigger_create.c:60-103 *)
Definition trigger_create (ast : Z) : ctor trig :=
  if ast =? STATUS_SUCCESS then Ctor STATUS_SUCCESS (Some (Trig false None 0)) 1
  else Ctor ast None 0.

(** auto_reset_trigger_create.c:114-128: status and number of blocks reclaimed. *)
Definition trigger_release (rst : Z) (t : trig) : Z * Z := (rst, 1).

(** auto_reset_trigger_register.c:27-47 *)
Definition trigger_register (t : trig) (cb ctx : Z) : Z * trig :=
  match t_callback t with
  | Some _ => (ERROR_AUTO_RESET_TRIGGER_LISTENER_ALREADY_REGISTERED, t)
  | None => (STATUS_SUCCESS, Trig (t_triggered t) (Some cb) ctx)
  end.

(** auto_reset_trigger_signal.c:24-32 *)
Definition trigger_signal (t : trig) : trig := Trig true (t_callback t) (t_context t).

(** What a callback does when it is run for the n-th time overall. *)
Definition behaviour := nat -> Z -> Z -> list trig_op.
Definition calls (tr : list trig_event) : nat :=
  length (filter (fun e => match e with ECall _ _ => true | _ => false end) tr).

(** A sequence of calls; [TStep] is auto_reset_trigger_step.c:19-40, whose callback
    may call the trigger again.  [None]: the fuel did not suffice. *)
Fixpoint trig_run (fuel : nat) (beh : behaviour) (ops : list trig_op) (t : trig) (tr : list trig_event)
  : option (trig * list trig_event) :=
  match fuel with
  | O => None
  | S f =>
      match ops with
      | [] => Some (t, tr)
      | TRegister cb ctx :: rest =>
          let (e, t') := trigger_register t cb ctx in trig_run f beh rest t' (ERegister cb ctx e :: tr)
      | TSignal :: rest => trig_run f beh rest (trigger_signal t) (ESignal :: tr)
      | TStep :: rest =>
          if t_triggered t then
            match t_callback t with
            | Some cb =>
                do '(t1, tr1) <- trig_run f beh (beh (calls tr) cb (t_context t)) t (ECall cb (t_context t) :: EStep :: tr);
                trig_run f beh rest (Trig false None 0) (EReturn :: tr1)
            | None => trig_run f beh rest t (EStep :: tr)
            end
          else trig_run f beh rest t (EStep :: tr)
      end
  end.
