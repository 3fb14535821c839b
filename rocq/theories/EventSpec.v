(** What a call that blocks should do with the event that its fiber is resumed with. *)
From Verif Require Import Base Status MemModel Heap TabModel SchedModel SchedSpec MsgModel MsgSpec CondModel CondSpec IoModel EventModel.

(** ** The answers to a call *)
(** The discipline that is called. *)
Definition serves (c : bcall) : Z :=
  match c with
  | BMailboxCreate | BMailboxClose | BSend | BReceive => MESSAGE_ID
  | BCondCreate | BCondClose | BCondWait | BCondNotify => CONDITION_ID
  | BRequest => MANAGEMENT_ID
  end.
(** An answer is success with the parameter as result, success, or a status. *)
Inductive kind := Gives | Done | Says.
(** The resume events of message.h, condition.h and management.h for each call. *)
Definition answers (c : bcall) : list (Z * kind) :=
  match c with
  | BMailboxCreate => [(0, Gives); (1, Says)]
  | BMailboxClose => [(2, Says)]
  | BSend => [(3, Done); (4, Says)]
  | BReceive => [(5, Gives); (6, Says)]
  | BCondCreate => [(0, Gives); (1, Says)]
  | BCondClose => [(2, Says); (3, Says)]
  | BCondWait => [(4, Done); (5, Says)]
  | BCondNotify => [(6, Done); (7, Says)]
  | BRequest => [(4, Says)]
  end.
Definition decode (c : bcall) (e p : Z) : option (Z * option Z) :=
  match find (fun x => fst x =? e) (answers c) with
  | Some (_, Gives) => Some (STATUS_SUCCESS, Some p)
  | Some (_, Done) => Some (STATUS_SUCCESS, None)
  | Some (_, Says) => Some (p, None)
  | None => None
  end.
(** What the call should return; [None] if this is not an answer to it. *)
Definition reply (c : bcall) (r : resume) : option (Z * option Z) :=
  if r_disc r =? serves c then decode c (r_event r) (r_param r) else None.
(** The error for anything else. *)
Definition no_answer (c : bcall) : Z :=
  match c with
  | BMailboxCreate | BMailboxClose | BSend | BReceive => ERROR_MESSAGE_UNKNOWN_ERROR
  | BCondCreate | BCondClose | BCondWait | BCondNotify => ERROR_CONDITION_UNKNOWN_ERROR
  | BRequest => ERROR_FIBER_UNEXPECTED_RESUME_EVENT
  end.

(** ** Histories of mailboxes and conditions *)
(** What a fiber that does not run waits for: to be added, to run again, to be the main
    fiber, to release a resource; or an answer. *)
Inductive want := WAdd | WRun | WMain | WWake | WCall (c : bcall).
Definition fits (w : want) (r : resume) : bool :=
  let internal e := (r_disc r =? INTERNAL_ID) && (r_event r =? e) in
  match w with
  | WAdd => internal RESUME_ADD_FIBER
  | WRun => internal RESUME_RUN
  | WMain => internal RESUME_MAIN
  | WWake => internal RESUME_RESOURCE_RELEASE
  | WCall c => match reply c r with Some _ => true | None => false end
  end.
(** What the running fiber waits for after a call; [dm] and [dc] are the message and the
    condition discipline.  Requests to fibers are not among these calls. *)
Definition wants (dm dc : Z) (p : sop) : option want :=
  match p with
  | SAdd _ => Some WAdd
  | SRun => Some WRun
  | SMain => Some WMain
  | SWake => Some WWake
  | SStop => Some WRun
  | SYield d ev _ =>
      if d =? dm then option_map WCall (nth_error [BMailboxCreate; BMailboxClose; BSend; BReceive] (Z.to_nat ev))
      else if d =? dc then option_map WCall (nth_error [BCondCreate; BCondClose; BCondWait; BCondNotify; BCondNotify] (Z.to_nat ev))
      else None
  | _ => None
  end.
(** The calls that do not switch: a new fiber, a message's own functions, looking up. *)
Definition stays (p : sop) : bool :=
  match p with
  | SNew _ | SDiscFind _ => true
  | SAct fn _ _ => (FN_MESSAGE_CREATE <=? fn) && (fn <=? FN_MESSAGE_PAYLOAD)
  | _ => false
  end.
(** Every fiber that is resumed gets what it waits for.  [pn] says what each fiber waits
    for, [c] is the running fiber.  Nothing is said after a call that fails, or of other
    calls, or after adding a fiber that ran already. *)
Fixpoint own_answers (dm dc : Z) (h : list sop) (os : list out) (pn : heap want) (c : Z) : bool :=
  match h, os with
  | p :: h, o :: os =>
      if stays p then own_answers dm dc h os pn c else
      match wants dm dc p with
      | None => true
      | Some w =>
          let '(e, (f, d, ev, x)) := o in
          if negb (ok e) then true else
          let new := match p with SAdd f => [f] | _ => [] end in
          if existsb (fun f => zmem f (addrs pn)) new then true else
          let pn := map (fun f => (f, WAdd)) new ++ (c, w) :: pn in
          match hget pn f with
          | Some w => fits w (Res d ev x) && own_answers dm dc h os pn f
          | None => false
          end
      end
  | [], [] => true
  | _, _ => false
  end.
(** A history of which all of this is said. *)
Fixpoint all_said (dm dc : Z) (h : list sop) (os : list out) : bool :=
  match h, os with
  | p :: h, o :: os => (stays p || (match wants dm dc p with Some _ => true | None => false end && ok (fst o))) && all_said dm dc h os
  | _, _ => true
  end.

(** ** The handler for unexpected events *)
(** While the fiber [cur] waits for a socket, each event of another discipline is told to
    its handler [k]. *)
Definition tells (k : hook) (cur wev : Z) (r : resume) : told := Told (k_fn k) (k_ctx k) cur r IO_ID wev.
Definition goes_on (cb : told -> Z) (k : hook) (cur wev : Z) (y : Z * resume) : Prop :=
  fst y = STATUS_SUCCESS /\ r_disc (snd y) <> IO_ID /\ k_fn k <> 0 /\ cb (tells k cur wev (snd y)) = STATUS_SUCCESS.
(** How a wait ends: with a failing yield, the event it waits for, no handler, or what the
    handler says. *)
Inductive ends (cb : told -> Z) (k : hook) (cur wev : Z) : Z * resume -> Z -> list told -> Prop :=
| end_yield : forall e r, e <> STATUS_SUCCESS -> ends cb k cur wev (e, r) e []
| end_ready : forall r, r_disc r = IO_ID -> ends cb k cur wev (STATUS_SUCCESS, r) STATUS_SUCCESS []
| end_none : forall r, r_disc r <> IO_ID -> k_fn k = 0 -> ends cb k cur wev (STATUS_SUCCESS, r) ERROR_FIBER_NO_UNEXPECTED_HANDLER []
| end_told : forall r, r_disc r <> IO_ID -> k_fn k <> 0 -> cb (tells k cur wev r) <> STATUS_SUCCESS ->
    ends cb k cur wev (STATUS_SUCCESS, r) (cb (tells k cur wev r)) [tells k cur wev r].
