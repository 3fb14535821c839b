(** C59: what a call that blocks does with the event that its fiber is resumed with. *)
From Verif Require Import Base Status MemModel MemProofs Heap TabModel TabSpec TabProofs TabRb SchedModel SchedSpec SchedProofs SchedHist DiscFrame MsgModel MsgSpec CondModel CondSpec IoModel AsyncModel EventModel EventSpec EventProofs.

(** ** The answers *)
(** An event of the discipline that was called is decoded as documented, and one that is
    no answer to the call is an error; a request to a fiber checks this of any event. *)
Theorem C59_decodes_partial : forall c r, r_disc r = serves c \/ c = BRequest ->
  returns c r = match reply c r with Some x => x | None => (no_answer c, None) end /\ no_answer c <> STATUS_SUCCESS.
Proof.
  intros c [d e p] H. split; [|destruct c; discriminate]. unfold reply. cbn [r_disc r_event r_param] in *.
  destruct c; (destruct H as [H|H]; [cbn [serves] in H; subst d; rewrite Z.eqb_refl|try discriminate H]); unfold decode; cbn [returns answers find fst r_event r_param r_disc serves].
  all: unfold mailbox_create_result, mailbox_close_result, message_send_result, message_receive_result, conditional_create_result, conditional_close_result, conditional_wait_result, conditional_notify_result, request_result;
    unfold MR_CREATE_FAILURE, MR_CREATE_SUCCESS, MR_CLOSE, MR_SEND_FAILURE, MR_SEND_SUCCESS, MR_RECEIVE_FAILURE, MR_RECEIVE_SUCCESS, CR_CREATE_FAILURE, CR_CREATE_SUCCESS, CR_CLOSE_FAILURE, CR_CLOSE_SUCCESS, CR_WAIT_FAILURE, CR_WAIT_SUCCESS, CR_NOTIFY_FAILURE, CR_NOTIFY_SUCCESS, MGMT_RESULT; cbn [no_answer].
  1-9: rewrite ?(Z.eqb_sym 0), ?(Z.eqb_sym 1), ?(Z.eqb_sym 2), ?(Z.eqb_sym 3), ?(Z.eqb_sym 4), ?(Z.eqb_sym 5), ?(Z.eqb_sym 6), ?(Z.eqb_sym 7);
    repeat match goal with |- context [?a =? ?b] => destruct (Z.eqb_spec a b) end; subst; try reflexivity; try discriminate; try lia.
  rewrite (Z.eqb_sym 4). destruct (d =? MANAGEMENT_ID); [destruct (e =? 4); reflexivity|reflexivity].
Qed.
Example C59_decodes_ex : returns BReceive (Res MESSAGE_ID 5 100) = (STATUS_SUCCESS, Some 100) /\ returns BCondWait (Res CONDITION_ID 5 7) = (7, None) /\
  returns BSend (Res MESSAGE_ID 5 100) = (ERROR_MESSAGE_UNKNOWN_ERROR, None) /\ returns BRequest (Res MESSAGE_ID 4 0) = (ERROR_FIBER_UNEXPECTED_RESUME_EVENT, None).
Proof. vm_compute. auto. Qed.
(** But no other call looks at the discipline: whatever it is, an event with the number of
    an answer is taken for one. *)
Theorem C59_discipline_refuted : forall c r, c <> BRequest -> r_disc r <> serves c ->
  reply c r = None /\ returns c r = match decode c (r_event r) (r_param r) with Some x => x | None => (no_answer c, None) end.
Proof.
  intros c [d e p] N D. cbn [r_disc r_event r_param] in *. split.
  - unfold reply. cbn [r_disc]. apply Z.eqb_neq in D. rewrite D. reflexivity.
  - destruct (C59_decodes_partial c (Res (serves c) e p) (or_introl eq_refl)) as [H _]. unfold reply in H. cbn [r_disc r_event r_param] in H. rewrite Z.eqb_refl in H.
    rewrite <- H. destruct c; try reflexivity. contradiction.
Qed.
Example C59_discipline_ex : returns BCondClose (Res MANAGEMENT_ID MGMT_QUIESCE 0) = (STATUS_SUCCESS, None) /\ returns BMailboxCreate (Res IO_ID 0 2) = (STATUS_SUCCESS, Some 2).
Proof. vm_compute. auto. Qed.

(** ** Histories *)
(** In every history of mailboxes, conditions, fibers and messages from the creation of a
    scheduler, with any allocation failures, each fiber that is resumed gets an answer to
    its last call, until a call fails or a fiber is sent a request.  The trees are any. *)
Theorem C59_history_partial : forall T T2 T3 V (ts : tops T) TR Qr dels (ts2 : tops T2) (ts3 : tops T3) (other : acts V) junk junk2 junk3 dm dc v m al h os a,
  tab_ok ts TR Qr -> m <> 0 ->
  let ac := msg_acts ts2 (cond_acts ts3 other) in
  asteps dels ac (msg_setup junk2 dm ++ cond_setup junk3 dc ++ h) (al_set al (ainit (msg_none ts2, (cond_none ts3, v)) m)) = Some (repeat (STATUS_SUCCESS, nowhere) 4 ++ os, a) ->
  well_removed ts ac Qr dels junk (msg_none ts2, (cond_none ts3, v)) m al (msg_setup junk2 dm ++ cond_setup junk3 dc ++ h) ->
  exists w0 w, sched_create ts (ext_of ac) junk (msg_none ts2, (cond_none ts3, v)) m = Some (STATUS_SUCCESS, w0) /\
    sexecs ts ac (msg_setup junk2 dm ++ cond_setup junk3 dc ++ h) (set_al al w0) = Some (repeat (STATUS_SUCCESS, nowhere) 4 ++ os, w) /\
    own_answers dm dc h os [] m = true.
Proof.
  intros T T2 T3 V ts TR Qr dels ts2 ts3 other junk junk2 junk3 dm dc v m al h os a PT M ac A RM.
  destruct (create_sim _ _ _ _ _ (ext_of ac) junk (msg_none ts2, (cond_none ts3, v)) m PT M) as (w0 & C & R0).
  destruct (steps_sim_q _ _ _ _ _ _ _ _ _ _ _ _ PT (fun D => RM D _ C) (rel_al _ _ _ _ _ al R0) A) as (w & E & R).
  exists w0, w. do 2 (split; [auto|]). rewrite app_assoc in A.
  assert (SP : forall h1 h2 a0 os a', asteps dels ac (h1 ++ h2) a0 = Some (os, a') -> exists o1 o2 a1, asteps dels ac h1 a0 = Some (o1, a1) /\ asteps dels ac h2 a1 = Some (o2, a') /\ os = o1 ++ o2 /\ length o1 = length h1).
  { clear. induction h1 as [|p h1 IH]; intros h2 a0 os a' H.
    - exists [], os, a0. auto.
    - cbn [app asteps] in *. destruct (astep _ _ p a0) as [[o a1]|]; [|discriminate]. destruct (asteps _ _ (h1 ++ h2) a1) as [[l a2]|] eqn:E; [|discriminate].
      inversion H; subst. apply IH in E as (o1 & o2 & a3 & E1 & E2 & -> & L). exists (o :: o1), o2, a3. rewrite E1. cbn. auto. }
  apply SP in A as (o1 & o2 & a1 & A1 & A2 & EQ & LN).
  destruct o1 as [|x1 [|x2 [|x3 [|x4 [|x5 o1]]]]]; try discriminate LN. cbn [repeat app] in EQ. inversion EQ; subst x1 x2 x3 x4 o2; clear EQ.
  apply inv_start in A1 as (ND & I). eapply own_steps; eauto.
Qed.
(** Fiber 2 waits for a message and fiber 3 for a condition; 10 sends and notifies. *)
Definition nothing : acts unit := fun _ _ _ _ => HUndef.
Definition acts59 := msg_acts list_tops (cond_acts list_tops nothing).
Definition user59 := (msg_none list_tops, (cond_none list_tops, tt)).
Definition setup59 : list sop := msg_setup [] 60 ++ cond_setup [] 70.
Definition h59 : list sop :=
  flat_map (sops 60) [MCreate; MCreate] ++ [csop 70 CCreate; csop 70 CCreate; SNew 2; SNew 3; SAdd 2; SAdd 3; SRun] ++ sops 60 (MReceive 1) ++ [csop 70 (CWait 1)] ++
  flat_map (sops 60) [MNew 100 0 0; MSend 1 100] ++ [SRun; csop 70 (CNotify 1); SRun; SRun; SStop].
Example C59_history_ex : exists os a, asteps true acts59 (setup59 ++ h59) (al_set [] (ainit user59 10)) = Some (repeat (STATUS_SUCCESS, nowhere) 4 ++ os, a) /\
  all_said 60 70 h59 os = true /\ nth_error os 14 = Some (0, (2, MESSAGE_ID, MR_RECEIVE_SUCCESS, 100)) /\ nth_error os 17 = Some (0, (3, CONDITION_ID, CR_WAIT_SUCCESS, 0)).
Proof. eexists _, _. split; [vm_compute; reflexivity|]. split; [vm_compute; reflexivity|]. split; vm_compute; reflexivity. Qed.
(** One request is enough.  Fiber 2 waits for a message at mailbox 1 when a quiesce request
    makes the call fail; then it waits for condition 1.  The next message to mailbox 1 ends
    this wait: conditional_wait returns the address of the message as a status, and the
    message is in no mailbox any more. *)
Definition start59 : list sop := flat_map (sops 60) [MCreate; MCreate] ++ [csop 70 CCreate; csop 70 CCreate; SNew 2; SAdd 2; SRun].
Definition runs59 (h : list sop) (l : list out) (m : mst (list Z)) : Prop :=
  exists w0 os w, sched_create list_tops (ext_of acts59) [] user59 10 = Some (STATUS_SUCCESS, w0) /\
    sexecs list_tops acts59 (setup59 ++ start59 ++ h) w0 = Some (os, w) /\ skipn 11 os = l /\ fst (w_user w) = m.
Definition quiesced : out := (STATUS_SUCCESS, (2, MANAGEMENT_ID, MGMT_QUIESCE, 0)).
Definition goes_on10 : out := (STATUS_SUCCESS, (10, INTERNAL_ID, RESUME_RUN, 0)).
Definition sent10 : out := (STATUS_SUCCESS, (10, MANAGEMENT_ID, MGMT_RESULT, STATUS_SUCCESS)).
Definition quiet : out := (STATUS_SUCCESS, nowhere).
Theorem C59_lost_message_refuted :
  runs59 (sops 60 (MReceive 1) ++ [SRequest false 2; csop 70 (CWait 1)] ++ flat_map (sops 60) [MNew 100 0 0; MSend 1 100])
    [goes_on10; quiesced; sent10; quiet; quiet; quiet; (STATUS_SUCCESS, (2, MESSAGE_ID, MR_RECEIVE_SUCCESS, 100))]
    (MS [1; 2] [(2, Mbox 0 []); (1, Mbox 0 [])] 2 [(100, Msg 0 1 0)] []) /\
  returns BReceive (Res MANAGEMENT_ID MGMT_QUIESCE 0) = (ERROR_MESSAGE_UNKNOWN_ERROR, None) /\
  returns BCondWait (Res MESSAGE_ID MR_RECEIVE_SUCCESS 100) = (100, None).
Proof. split; [|split; reflexivity]. unfold runs59. eexists _, _, _. split; [vm_compute; reflexivity|]. split; [vm_compute; reflexivity|]. split; vm_compute; reflexivity. Qed.
(** In the same situation, waiting for mailbox 2 instead, it gets the message sent to
    mailbox 1. *)
Theorem C59_other_mailbox_refuted :
  runs59 (sops 60 (MReceive 1) ++ [SRequest false 2] ++ sops 60 (MReceive 2) ++ flat_map (sops 60) [MNew 100 0 0; MSend 1 100])
    [goes_on10; quiesced; sent10; quiet; quiet; quiet; (STATUS_SUCCESS, (2, MESSAGE_ID, MR_RECEIVE_SUCCESS, 100))]
    (MS [1; 2] [(2, Mbox 2 []); (1, Mbox 0 [])] 2 [(100, Msg 0 1 0)] []) /\
  returns BReceive (Res MESSAGE_ID MR_RECEIVE_SUCCESS 100) = (STATUS_SUCCESS, Some 100).
Proof. split; [|reflexivity]. unfold runs59. eexists _, _, _. split; [vm_compute; reflexivity|]. split; [vm_compute; reflexivity|]. split; vm_compute; reflexivity. Qed.
(** And if it waits for mailbox 1 again, it is refused: it is still registered there. *)
Theorem C59_again_refuted :
  runs59 (sops 60 (MReceive 1) ++ [SRequest false 2] ++ sops 60 (MReceive 1))
    [goes_on10; quiesced; (STATUS_SUCCESS, (2, MESSAGE_ID, MR_RECEIVE_FAILURE, ERROR_MESSAGE_ALREADY_BLOCKED))]
    (MS [1; 2] [(2, Mbox 0 []); (1, Mbox 2 [])] 2 [] []).
Proof. unfold runs59. eexists _, _, _. split; [vm_compute; reflexivity|]. split; [vm_compute; reflexivity|]. split; vm_compute; reflexivity. Qed.
(** A wait for condition 1 that ended so lets a notification of condition 1 end a wait for
    condition 2. *)
Theorem C59_other_condition_refuted :
  runs59 [csop 70 (CWait 1); SRequest false 2; csop 70 (CWait 2); csop 70 (CNotify 1)]
    [goes_on10; quiesced; sent10; (STATUS_SUCCESS, (2, CONDITION_ID, CR_WAIT_SUCCESS, STATUS_SUCCESS))]
    (MS [1; 2] [(2, Mbox 0 []); (1, Mbox 0 [])] 2 [] []) /\
  returns BCondWait (Res CONDITION_ID CR_WAIT_SUCCESS STATUS_SUCCESS) = (STATUS_SUCCESS, None).
Proof. split; [|reflexivity]. unfold runs59. eexists _, _, _. split; [vm_compute; reflexivity|]. split; [vm_compute; reflexivity|]. split; vm_compute; reflexivity. Qed.

(** ** The handler for unexpected events *)
(** A handler is kept for its fiber, in place of the one before; others keep theirs. *)
Theorem C59_handler : forall (h : heap hook) f fn ctx, hget h f <> None ->
  exists h', callback_add f fn ctx h = Some (STATUS_SUCCESS, h') /\ hget h' f = Some (Hook fn ctx) /\ forall g, g <> f -> hget h' g = hget h g.
Proof.
  intros h f fn ctx G. unfold callback_add. destruct (hget h f) as [k|] eqn:E; [|contradiction]. eexists. split; [reflexivity|].
  split; [eapply hget_hset_same; eauto|]. intros g N. apply hget_hset_other. auto.
Qed.
Example C59_handler_ex : hget [(2, no_hook); (3, no_hook)] 2 = Some (Hook 0 0). Proof. reflexivity. Qed.
(** An event is told to the handler of the fiber, with the fiber's context, what came and
    what was expected; the status is what the handler says. *)
Theorem C59_event : forall cb (h : heap hook) f k r want wev, hget h f = Some k ->
  unexpected_event cb h f r want wev =
    if k_fn k =? 0 then Some (ERROR_FIBER_NO_UNEXPECTED_HANDLER, None) else Some (cb (Told (k_fn k) (k_ctx k) f r want wev), Some (Told (k_fn k) (k_ctx k) f r want wev)).
Proof. intros. unfold unexpected_event. rewrite H. reflexivity. Qed.
(** A fiber whose handler was never set has none to tell. *)
Theorem C59_unset : forall cb (h : heap hook) f r want wev, hget h f = Some no_hook -> unexpected_event cb h f r want wev = Some (ERROR_FIBER_NO_UNEXPECTED_HANDLER, None).
Proof. intros cb h f r want wev H. rewrite (C59_event _ _ _ _ _ _ _ H). reflexivity. Qed.
Example C59_event_ex : unexpected_event (fun t => t_ctx t) [(2, Hook 900 5)] 2 (Res MESSAGE_ID 5 100) IO_ID 0 = Some (5, Some (Told 900 5 2 (Res MESSAGE_ID 5 100) IO_ID 0)).
Proof. reflexivity. Qed.
(** A fiber that waits for its own socket goes on waiting as long as it is resumed by other
    disciplines and its handler says so; each of these events was told to its handler, in
    order, and nothing else was. *)
Theorem C59_wait_partial : forall cb (h : heap hook) wev cur k ys s log, hget h cur = Some k -> wk_fib s = cur -> wk_blocked s = 0 ->
  (forall e s' l, wait_told cb h wev ys s log = Some (e, s', l) <->
    exists pre y post last, ys = pre ++ y :: post /\ Forall (goes_on cb k cur wev) pre /\ ends cb k cur wev y e last /\
      l = log ++ map (fun y => tells k cur wev (snd y)) pre ++ last /\ s' = s) /\
  (wait_told cb h wev ys s log = None <-> Forall (goes_on cb k cur wev) ys).
Proof.
  intros cb h wev cur k ys [sf sb] log G F B. cbn [wk_fib wk_blocked] in *. subst sf sb. revert log.
  induction ys as [|[e0 r] ys IH]; intros log.
  - cbn [wait_told wk_blocked Z.eqb negb]. split; [|split; auto]. intros e s' l. split; [discriminate|]. intros (pre & y & post & last & E & _). destruct pre; discriminate.
  - cbn [wait_told wk_blocked wk_fib]. change (negb (0 =? 0)) with false. cbv iota.
    assert (SPLIT : forall e s' l,
      (exists pre y post last, (e0, r) :: ys = pre ++ y :: post /\ Forall (goes_on cb k cur wev) pre /\ ends cb k cur wev y e last /\ l = log ++ map (fun y => tells k cur wev (snd y)) pre ++ last /\ s' = Wrapped cur 0) <->
      (exists last, ends cb k cur wev (e0, r) e last /\ l = log ++ last /\ s' = Wrapped cur 0) \/
      (goes_on cb k cur wev (e0, r) /\ exists pre y post last, ys = pre ++ y :: post /\ Forall (goes_on cb k cur wev) pre /\ ends cb k cur wev y e last /\ l = (log ++ [tells k cur wev r]) ++ map (fun y => tells k cur wev (snd y)) pre ++ last /\ s' = Wrapped cur 0)).
    { intros e s' l. split.
      - intros (pre & y & post & last & E & FA & EN & L & S'). destruct pre as [|x pre].
        + cbn [app] in E. inversion E; subst. left. exists last. auto.
        + cbn [app] in E. inversion E; subst. inversion FA; subst. right. split; auto. exists pre, y, post, last. repeat split; auto. cbn [map snd app]. rewrite <- app_assoc. reflexivity.
      - intros [(last & EN & L & S')|(GO & pre & y & post & last & E & FA & EN & L & S')].
        + exists [], (e0, r), ys, last. auto.
        + exists ((e0, r) :: pre), y, post, last. subst. repeat split; auto. cbn [map snd app]. rewrite <- app_assoc. reflexivity. }
    destruct (ok e0) eqn:O.
    + apply ok_true in O. subst e0. cbn [negb]. destruct (Z.eqb_spec (r_disc r) IO_ID) as [D|D]; cbn [negb].
      * split; [|split; [discriminate|intros FA; inversion FA as [|? ? [_ [X _]]]; subst; contradiction]]. intros e s' l. rewrite SPLIT. split.
        -- intros E. inversion E; subst. left. exists []. rewrite app_nil_r. split; [apply end_ready; auto|auto].
        -- intros [(last & EN & -> & ->)|((_ & X & _) & _)]; [|contradiction]. inversion EN; subst; try contradiction. rewrite app_nil_r. reflexivity.
      * unfold unexpected_event. rewrite G. destruct (Z.eqb_spec (k_fn k) 0) as [K|K].
        -- change (negb (ok ERROR_FIBER_NO_UNEXPECTED_HANDLER)) with true. cbv iota. rewrite app_nil_r.
           split; [|split; [discriminate|intros FA; inversion FA as [|? ? [_ [_ [X _]]]]; subst; contradiction]]. intros e s' l. rewrite SPLIT. split.
           ++ intros E. inversion E; subst. left. exists []. rewrite app_nil_r. split; [apply end_none; auto|auto].
           ++ intros [(last & EN & -> & ->)|((_ & _ & X & _) & _)]; [|contradiction]. inversion EN; subst; try contradiction. rewrite app_nil_r. reflexivity.
        -- fold (tells k cur wev r). destruct (ok (cb (tells k cur wev r))) eqn:OC; cbn [negb].
           ++ apply ok_true in OC. destruct (IH (log ++ [tells k cur wev r])) as [I1 I2].
              assert (GO : goes_on cb k cur wev (STATUS_SUCCESS, r)) by (repeat split; auto).
              split; [|rewrite I2; split; [auto|intros FA; inversion FA; auto]]. intros e s' l. rewrite I1, SPLIT. split.
              ** intros X. right. auto.
              ** intros [(last & EN & -> & ->)|(_ & X)]; [|exact X]. inversion EN; subst; try contradiction.
           ++ split; [|split; [discriminate|intros FA; inversion FA as [|? ? [_ [_ [_ X]]]]; subst; cbn [snd] in X; rewrite X in OC; discriminate]].
              assert (NC : cb (tells k cur wev r) <> STATUS_SUCCESS) by (intros X; rewrite X in OC; discriminate).
              intros e s' l. rewrite SPLIT. split.
              ** intros E. inversion E; subst. left. exists [tells k cur wev r]. split; [apply end_told; auto|auto].
              ** intros [(last & EN & -> & ->)|((_ & _ & _ & X) & _)]; [|contradiction]. inversion EN; subst; try contradiction. reflexivity.
    + cbn [negb]. assert (NE : e0 <> STATUS_SUCCESS) by (intros ->; discriminate).
      split; [|split; [discriminate|intros FA; inversion FA as [|? ? [X _]]; subst; cbn [fst] in X; contradiction]]. intros e s' l. rewrite SPLIT. split.
      * intros E. inversion E; subst. left. exists []. rewrite app_nil_r. split; [apply end_yield; auto|auto].
      * intros [(last & EN & -> & ->)|((X & _) & _)]; [|cbn [fst] in X; contradiction]. inversion EN; subst; try contradiction. rewrite app_nil_r. reflexivity.
Qed.
(** Fiber 2 is sent a quiesce request, which its handler accepts, then the socket is
    ready. *)
Definition hooks59 : heap hook := [(2, Hook 900 5); (3, Hook 901 6)].
Definition ys59 : list (Z * EventModel.resume) := [(STATUS_SUCCESS, Res MANAGEMENT_ID MGMT_QUIESCE 0); (STATUS_SUCCESS, Res IO_ID 0 0)].
Example C59_wait_ex : wait_told (fun _ => STATUS_SUCCESS) hooks59 0 ys59 (Wrapped 2 0) [] = Some (STATUS_SUCCESS, Wrapped 2 0, [Told 900 5 2 (Res MANAGEMENT_ID MGMT_QUIESCE 0) IO_ID 0]).
Proof. reflexivity. Qed.
(** But the handler is that of the fiber for which the socket was wrapped: if another
    fiber waits, its own handler, set or not, is never asked, and the first event of
    another discipline goes to the handler of a fiber that does not wait. *)
Theorem C59_wait_refuted : forall cb (h : heap hook) wev cur k f r ys s, wk_fib s = f -> f <> cur -> wk_blocked s = 0 -> hget h f = Some k -> k_fn k <> 0 -> r_disc r <> IO_ID ->
  cb (tells k f wev r) <> STATUS_SUCCESS ->
  wait_told cb h wev ((STATUS_SUCCESS, r) :: ys) s [] = Some (cb (tells k f wev r), s, [tells k f wev r]) /\ t_fib (tells k f wev r) <> cur.
Proof.
  intros cb h wev cur k f r ys [sf sb] S N B G K D C. cbn [wk_fib wk_blocked] in *. subst sf sb. split; [|exact N]. cbn [wait_told wk_blocked wk_fib]. change (negb (0 =? 0)) with false. cbv iota.
  change (negb (ok STATUS_SUCCESS)) with false. cbv iota. apply Z.eqb_neq in D. rewrite D. cbn [negb]. unfold unexpected_event. rewrite G. apply Z.eqb_neq in K. rewrite K.
  fold (tells k f wev r). destruct (ok (cb (tells k f wev r))) eqn:O; [apply ok_true in O; contradiction|]. reflexivity.
Qed.
Example C59_wait_refuted_ex : wait_told (fun t => t_ctx t) hooks59 1 ys59 (Wrapped 3 0) [] = Some (6, Wrapped 3 0, [Told 901 6 3 (Res MANAGEMENT_ID MGMT_QUIESCE 0) IO_ID 1]).
Proof. reflexivity. Qed.
(** This loop is the one of AsyncModel.v, where what the handler says is given. *)
Definition seen (cb : told -> Z) (h : heap hook) (wev f : Z) (y : Z * EventModel.resume) : yev :=
  Yev (fst y) (r_disc (snd y) =? IO_ID) (match unexpected_event cb h f (snd y) IO_ID wev with Some (e, _) => e | None => 0 end).
Theorem C59_same_loop : forall cb (h : heap hook) wev code cur ys s log e s' l n, wait_told cb h wev ys s log = Some (e, s', l) ->
  exists ys' m, wait_loop code cur (map (seen cb h wev (wk_fib s)) ys) (wk_blocked s) n = (e, wk_blocked s', ys', m).
Proof.
  intros cb h wev code cur. induction ys as [|[e0 r] ys IH]; intros s log e s' l n H; cbn [wait_told] in H; cbn [map wait_loop].
  - destruct (wk_blocked s =? 0) eqn:B; cbn [negb] in *; [discriminate|]. inversion H; subst. eauto.
  - destruct (wk_blocked s =? 0) eqn:B; cbn [negb] in *; [|inversion H; subst; eauto].
    unfold seen at 1. cbn [fst snd]. cbn [wk_fib] in H.
    change (y_status (seen cb h wev (wk_fib s) (e0, r))) with e0. change (y_ours (seen cb h wev (wk_fib s) (e0, r))) with (r_disc r =? IO_ID).
    cbn [y_status y_ours y_handler]. destruct (ok e0) eqn:O; cbn [negb] in *; [|inversion H; subst; eauto].
    destruct (r_disc r =? IO_ID); cbn [negb] in H; [inversion H; subst; eauto|].
    destruct (unexpected_event cb h (wk_fib s) r IO_ID wev) as [[eu t]|] eqn:UE; [|discriminate]. unfold seen. cbn [y_handler fst snd]. rewrite UE.
    destruct (ok eu) eqn:OU; cbn [negb] in *; [|inversion H; subst; eauto].
    apply (IH _ _ _ _ _ (n ++ [code])) in H. exact H.
Qed.

Print Assumptions C59_decodes_partial.
Print Assumptions C59_discipline_refuted.
Print Assumptions C59_history_partial.
Print Assumptions C59_lost_message_refuted.
Print Assumptions C59_other_mailbox_refuted.
Print Assumptions C59_again_refuted.
Print Assumptions C59_other_condition_refuted.
Print Assumptions C59_handler.
Print Assumptions C59_event.
Print Assumptions C59_unset.
Print Assumptions C59_wait_partial.
Print Assumptions C59_wait_refuted.
Print Assumptions C59_same_loop.
