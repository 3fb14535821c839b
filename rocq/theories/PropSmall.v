(** C32, C33: big integers and triggers.  Statements only; proofs are in
    BigintProofs.v and TriggerProofs.v. *)
From Verif Require Import Base Status Heap MemModel MemSpec BigintModel BigintSpec BigintProofs TriggerModel TriggerSpec TriggerProofs.

(** ** C32 *)
(** Creation yields zero in ceil(size/64) limbs in fresh memory, or reports the
    allocator's status and leaves the heap as it was. *)
Theorem C32_create_zero : forall pick al h size, good_pick pick -> hwf h -> 0 <= size ->
  (al 0%nat = STATUS_SUCCESS /\ al 1%nat = STATUS_SUCCESS ->
   exists i h', bigint_create_zero pick al h size = Some (STATUS_SUCCESS, Some i, h') /\ hwf h' /\
     holds h' i false (repeat 0 (Z.to_nat ((size + 63) / 64))) /\
     (forall q v, hget h q = Some v -> hget h' q = Some v) /\ (length h' = length h + 2)%nat /\ hget h i = None) /\
  (forall e, e <> STATUS_SUCCESS -> al 0%nat = e \/ (al 0%nat = STATUS_SUCCESS /\ al 1%nat = e) ->
   bigint_create_zero pick al h size = Some (e, None, h)).
Proof. exact create_zero_spec. Qed.
Theorem C32_clone : forall pick al h j sg l, good_pick pick -> hwf h -> holds h j sg l ->
  (al 0%nat = STATUS_SUCCESS /\ al 1%nat = STATUS_SUCCESS ->
   exists i h', bigint_clone pick al h j = Some (STATUS_SUCCESS, Some i, h') /\ hwf h' /\
     holds h' i sg l /\ holds h' j sg l /\ independent h' i j /\
     (forall q v, hget h q = Some v -> hget h' q = Some v) /\ (length h' = length h + 2)%nat) /\
  (forall e, e <> STATUS_SUCCESS -> al 0%nat = e \/ (al 0%nat = STATUS_SUCCESS /\ al 1%nat = e) ->
   bigint_clone pick al h j = Some (e, None, h)).
Proof. exact clone_spec. Qed.
(** Release hands back the limb array, cleared, then the object, and nothing else. *)
Theorem C32_release : forall rc h i sg l, hwf h -> holds h i sg l ->
  exists e h' a, bigint_release rc h i = Some (e, h', [BLimbs (repeat 0 (length l)); BStruct sg (length l) a]) /\
    hget h i = Some (BStruct sg (length l) a) /\ hwf h' /\
    (forall q, hget h' q = if (q =? i) || (q =? a) then None else hget h q) /\
    (e = if rc 1%nat =? STATUS_SUCCESS then rc 0%nat else rc 1%nat).
Proof. exact release_spec. Qed.
Example C32_example :
  good_pick pick_max /\
  match bigint_create_zero pick_max (fun _ => 0) [] 129 with
  | Some (0, Some i, h) => hwf h /\ holds h i false [0;0;0] /\
      match bigint_clone pick_max (fun _ => 0) h i with
      | Some (0, Some j, h') => j <> i /\ match bigint_release (fun _ => 0) h' i with
                                         | Some (0, h2, _) => length h2 = 2%nat | _ => False end
      | _ => False end
  | _ => False
  end.
Proof.
  split; [exact pick_max_good|]. vm_compute. split; [split|split].
  - apply NoDup_cons; [cbn; intuition congruence|]. apply NoDup_cons; [cbn; tauto|]. apply NoDup_nil.
  - intuition congruence.
  - exists 2. repeat split; congruence.
  - split; [congruence|reflexivity].
Qed.

(** ** C33 *)
(** For every history of calls and every behaviour of the callbacks that does not
    step the trigger from inside a callback. *)
Theorem C33_trigger_partial : forall beh ops t, step_free beh -> ct_obj (trigger_create STATUS_SUCCESS) = Some t ->
  exists t' tr' f0, (forall fuel, (f0 <= fuel)%nat -> trig_run fuel beh ops t [] = Some (t', tr')) /\
    legal tr' /\ settled tr' /\ (calls tr' <= registrations tr')%nat.
Proof. exact trigger_history. Qed.
(** A callback that steps the trigger is run again for the same registration. *)
Theorem C33_reentrant_step_refuted : exists beh t tr,
  trig_run 20 beh [TRegister 1 7; TSignal; TStep] (Trig false None 0) [] = Some (t, tr) /\
  registrations tr = 1%nat /\ calls tr = 2%nat.
Proof.
  exists (fun n _ _ => match n with O => [TStep] | _ => [] end). eexists _, _.
  split; [vm_compute; reflexivity|]. split; reflexivity.
Qed.
Example C33_example : step_free (fun n cb ctx => [TRegister 9 9; TSignal]) /\
  trig_run 50 (fun n cb ctx => [TRegister 9 9; TSignal]) [TSignal; TRegister 1 7; TRegister 2 8; TStep; TStep; TRegister 3 4; TStep] (Trig false None 0) []
  = Some (Trig false (Some 3) 4,
      rev [ESignal; ERegister 1 7 STATUS_SUCCESS; ERegister 2 8 ERROR_AUTO_RESET_TRIGGER_LISTENER_ALREADY_REGISTERED;
       EStep; ECall 1 7; ERegister 9 9 ERROR_AUTO_RESET_TRIGGER_LISTENER_ALREADY_REGISTERED; ESignal; EReturn;
       EStep; ERegister 3 4 STATUS_SUCCESS; EStep]).
Proof. split; [intros n cb ctx [H|[H|[]]]; discriminate|vm_compute; reflexivity]. Qed.
(** Creation and release. *)
Theorem C48_trigger_create : forall ast, no_leak (fun _ => 1) (trigger_create ast) /\ ct_status (trigger_create ast) = ast.
Proof.
  intros. unfold trigger_create. destruct (Z.eqb_spec ast STATUS_SUCCESS) as [->|N]; split; auto.
  - left. split; auto. eexists. split; reflexivity.
  - right. auto.
Qed.
Theorem C48_trigger_release : forall rst t, trigger_release rst t = (rst, 1).
Proof. reflexivity. Qed.

Print Assumptions C32_create_zero.
Print Assumptions C32_clone.
Print Assumptions C32_release.
Print Assumptions C33_trigger_partial.
Print Assumptions C33_reentrant_step_refuted.
Print Assumptions C48_trigger_create.
Print Assumptions C48_trigger_release.
