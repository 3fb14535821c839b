(** C39 - C42: mailboxes and messages. *)
From Verif Require Import Base Status MemModel MemProofs Heap TabModel TabSpec TabProofs TabRb SchedModel SchedSpec SchedProofs SchedHist DiscFrame MsgModel MsgSpec MsgProofs MsgHist PropSched.

(** ** C39 *)
(** Every history of calls that the scheduler's specification covers, with any allocation
    failures and any other disciplines, does to mailboxes what MsgSpec.v says, as long as
    no yield fails for lack of memory.  For every mailbox, what was sent is what was
    received, in this order, and then what waits.  The trees of fibers and of mailboxes are
    any that do what TabSpec.v says. *)
Theorem C39_mail_partial : forall T T2 V (ts : tops T) TR Qr dels (ts2 : tops T2) TR2 Q2 (other : acts V) junk junk2 v m al d h os a,
  tab_ok ts TR Qr -> tab_ok ts2 TR2 Q2 -> m <> 0 ->
  closes dels (msg_acts ts2 other) Q2 d (msg_setup junk2 d) h (al_set al (ainit (msg_none ts2, v) m)) ->
  asteps dels (msg_acts ts2 other) (msg_setup junk2 d ++ flat_map (sops d) h) (al_set al (ainit (msg_none ts2, v) m)) =
    Some ((STATUS_SUCCESS, nowhere) :: (STATUS_SUCCESS, nowhere) :: os, a) ->
  well_removed ts (msg_acts ts2 other) Qr dels junk (msg_none ts2, v) m al (msg_setup junk2 d ++ flat_map (sops d) h) ->
  exists w0 w, sched_create ts (ext_of (msg_acts ts2 other)) junk (msg_none ts2, v) m = Some (STATUS_SUCCESS, w0) /\
    sexecs ts (msg_acts ts2 other) (msg_setup junk2 d ++ flat_map (sops d) h) (set_al al w0) =
      Some ((STATUS_SUCCESS, nowhere) :: (STATUS_SUCCESS, nowhere) :: os, w) /\
    (forall mem, (mem = false -> al = []) -> mail_run mem d h os m no_mail <> Wrong /\
       forall c l, mail_run mem d h os m no_mail = Fine c l ->
         w_cur w = c /\
         (forall b, hget (m_boxes (fst (w_user w))) b = option_map (fun x => Mbox (fst x) (snd x)) (hget (l_boxes l) b)) /\
         (forall b, exists q, in_box b (l_sent l) = in_box b (l_got l) ++ q) /\
         (forall b f q, hget (l_boxes l) b = Some (f, q) -> in_box b (l_sent l) = in_box b (l_got l) ++ q /\ (f <> 0 -> q = []))).
Proof.
  intros T T2 V ts TR Qr dels ts2 TR2 Q2 other junk junk2 v m al d h os a PT PT2 M CL A RM.
  destruct (create_sim _ _ _ _ _ (ext_of (msg_acts ts2 other)) junk (msg_none ts2, v) m PT M) as (w0 & C & R0).
  destruct (steps_sim_q _ _ _ _ _ _ _ _ _ _ _ _ PT (fun D => RM D _ C) (rel_al _ _ _ _ _ al R0) A) as (w & E & R).
  exists w0, w. do 2 (split; [auto|]). intros mem ME.
  apply asteps_app in A as (o1 & o2 & a1 & A1 & A2 & EQ & LN).
  destruct o1 as [|x1 [|x2 [|x3 o1]]]; try discriminate LN. cbn [app] in EQ. inversion EQ; subst x1 x2 o2; clear EQ.
  assert (R1 : MRel TR2 mem d a1 m no_mail) by (eapply setup_rel; eauto).
  assert (ST : steps_on TR2 mem d a (mail_run mem d h os m no_mail)).
  { eapply run_steps; eauto. eapply (closes_app _ _ _ _ _ _ _ []); [exact CL|]. cbn [flat_map]. rewrite app_nil_r. exact A1. }
  split; [intros K; rewrite K in ST; exact ST|]. intros c l K. rewrite K in ST. cbn [steps_on] in ST.
  apply run_inv in K; [|apply inv_none]. destruct K. split; [rewrite (r_cur _ _ _ R); apply (mr_cur _ _ _ _ _ _ ST)|].
  split; [|split; auto]. intros b. rewrite (r_user _ _ _ R), (box_get _ _ _ _ b (mr_box _ _ _ _ _ _ ST)). destruct (hget _ b) as [[f q]|]; reflexivity.
Qed.
(** Fiber 10 makes mailbox 1 and sends message 100 there; 2 and 3 receive, 2 gets the
    message, 3 waits; 10 sends 101 and then 102. *)
Definition quiet_acts : acts unit := fun _ _ _ _ => HRet 0.
Definition h39 : list mop :=
  [MNew 100 0 500; MNew 101 0 501; MNew 102 0 0; MOther (SNew 2); MOther (SNew 3); MOther (SAdd 2); MOther (SAdd 3); MCreate; MSend 1 100; MOther SRun;
   MReceive 1; MOther SRun; MReceive 1; MSend 1 101; MOther SRun; MOther SRun; MSend 1 102; MReceive 7; MCreate; MClose 2; MClose 2].
Definition os39 : list out :=
  [(0, nowhere); (0, nowhere); (0, nowhere); (0, nowhere); (0, nowhere); (0, nowhere); (0, nowhere); (0, nowhere);
   (0, (10, INTERNAL_ID, RESUME_ADD_FIBER, 0)); (0, (10, INTERNAL_ID, RESUME_ADD_FIBER, 0)); (0, (10, MESSAGE_ID, MR_CREATE_SUCCESS, 1));
   (0, nowhere); (0, (10, MESSAGE_ID, MR_SEND_SUCCESS, 0)); (0, (2, INTERNAL_ID, RESUME_ADD_FIBER, 0));
   (0, (2, MESSAGE_ID, MR_RECEIVE_SUCCESS, 100)); (0, (3, INTERNAL_ID, RESUME_ADD_FIBER, 0)); (0, (10, INTERNAL_ID, RESUME_RUN, 0));
   (0, nowhere); (0, (3, MESSAGE_ID, MR_RECEIVE_SUCCESS, 101)); (0, (10, MESSAGE_ID, MR_SEND_SUCCESS, 0)); (0, (2, INTERNAL_ID, RESUME_RUN, 0));
   (0, nowhere); (0, (2, MESSAGE_ID, MR_SEND_SUCCESS, 0)); (0, (2, MESSAGE_ID, MR_RECEIVE_FAILURE, ERROR_RBTREE_NOT_FOUND));
   (0, (2, MESSAGE_ID, MR_CREATE_SUCCESS, 2)); (0, (2, MESSAGE_ID, MR_CLOSE, 0)); (0, (2, MESSAGE_ID, MR_CLOSE, ERROR_RBTREE_NOT_FOUND))].
Example C39_example : exists a, asteps true (msg_acts list_tops quiet_acts) (msg_setup [] 60 ++ flat_map (sops 60) h39) (ainit (msg_none list_tops, tt) 10) =
    Some ((STATUS_SUCCESS, nowhere) :: (STATUS_SUCCESS, nowhere) :: os39, a) /\
  mail_run false 60 h39 os39 10 no_mail = Fine 2 (Mail [(1, (0, [102]))] 2 [(1, 100); (1, 101); (1, 102)] [(1, 100); (1, 101)]).
Proof. eexists. split; [vm_compute; reflexivity|vm_compute; reflexivity]. Qed.
(** With the trees of src/rbtree, while the fibers that are removed and the mailboxes that
    are closed are deletions that C30 covers, which is so if there are none. *)
Theorem C39_real_tree_partial : forall V pick dels (other : acts V) junk junk2 v m al d h os a, good_pick pick -> m <> 0 ->
  no_close h \/ closes dels (msg_acts (rb_tops pick) other) rb_quiet d (msg_setup junk2 d) h (al_set al (ainit (msg_none (rb_tops pick), v) m)) ->
  asteps dels (msg_acts (rb_tops pick) other) (msg_setup junk2 d ++ flat_map (sops d) h) (al_set al (ainit (msg_none (rb_tops pick), v) m)) =
    Some ((STATUS_SUCCESS, nowhere) :: (STATUS_SUCCESS, nowhere) :: os, a) ->
  well_removed (rb_tops pick) (msg_acts (rb_tops pick) other) rb_quiet dels junk (msg_none (rb_tops pick), v) m al (msg_setup junk2 d ++ flat_map (sops d) h) ->
  exists w0 w, sched_create (rb_tops pick) (ext_of (msg_acts (rb_tops pick) other)) junk (msg_none (rb_tops pick), v) m = Some (STATUS_SUCCESS, w0) /\
    sexecs (rb_tops pick) (msg_acts (rb_tops pick) other) (msg_setup junk2 d ++ flat_map (sops d) h) (set_al al w0) =
      Some ((STATUS_SUCCESS, nowhere) :: (STATUS_SUCCESS, nowhere) :: os, w) /\
    mail_run true d h os m no_mail <> Wrong /\ (al = [] -> mail_run false d h os m no_mail <> Wrong).
Proof.
  intros V pick dels other junk junk2 v m al d h os a GP M NC A RM.
  assert (CL : closes dels (msg_acts (rb_tops pick) other) rb_quiet d (msg_setup junk2 d) h (al_set al (ainit (msg_none (rb_tops pick), v) m))) by (destruct NC; [apply closes_none|]; auto).
  destruct (C39_mail_partial _ _ _ _ _ _ _ _ _ _ other junk junk2 v m al d h os a (real_tree pick GP) (rb_tab_ok pick GP) M CL A RM) as (w0 & w & X & Y & W).
  exists w0, w. do 2 (split; [auto|]). split; [apply W; discriminate|]. intros E. apply W. auto.
Qed.
(** Of ten mailboxes four are closed, and the loop runs as 2 is; then 5, with a
    message that waits, and 8 are used. *)
Definition h39r : list mop := repeat MCreate 10 ++ [MNew 100 0 0; MSend 5 100; MClose 1; MClose 2; MClose 6; MClose 3; MReceive 5; MNew 101 0 0; MSend 8 101; MReceive 8; MClose 8].
Example C39_real_tree_example : exists os a, asteps false (msg_acts (rb_tops pick_max) quiet_acts) (msg_setup [] 60 ++ flat_map (sops 60) h39r) (al_set [] (ainit (msg_none (rb_tops pick_max), tt) 10)) =
    Some ((STATUS_SUCCESS, nowhere) :: (STATUS_SUCCESS, nowhere) :: os, a) /\
  closes false (msg_acts (rb_tops pick_max) quiet_acts) rb_quiet 60 (msg_setup [] 60) h39r (al_set [] (ainit (msg_none (rb_tops pick_max), tt) 10)) /\
  mail_run false 60 h39r os 10 no_mail = Fine 10 (Mail [(10, (0, [])); (9, (0, [])); (7, (0, [])); (5, (0, [])); (4, (0, []))] 10 [(5, 100); (8, 101)] [(5, 100); (8, 101)]).
Proof.
  eexists; eexists. split; [vm_compute; reflexivity|]. split.
  - eapply closesb_ok; [apply rb_quietb_ok|vm_compute; reflexivity|vm_compute; reflexivity].
  - vm_compute. reflexivity.
Qed.
(** What the calls of message.h return when they are resumed. *)
Theorem C39_results : forall p,
  message_send_result MR_SEND_SUCCESS p = STATUS_SUCCESS /\ message_send_result MR_SEND_FAILURE p = p /\
  message_receive_result MR_RECEIVE_SUCCESS p = (STATUS_SUCCESS, Some p) /\ message_receive_result MR_RECEIVE_FAILURE p = (p, None) /\
  mailbox_create_result MR_CREATE_SUCCESS p = (STATUS_SUCCESS, Some p) /\ mailbox_create_result MR_CREATE_FAILURE p = (p, None) /\
  mailbox_close_result MR_CLOSE p = p /\
  (forall e, e <> MR_SEND_SUCCESS -> e <> MR_SEND_FAILURE -> message_send_result e p = ERROR_MESSAGE_UNKNOWN_ERROR) /\
  (forall e, e <> MR_RECEIVE_SUCCESS -> e <> MR_RECEIVE_FAILURE -> message_receive_result e p = (ERROR_MESSAGE_UNKNOWN_ERROR, None)) /\
  (forall e, e <> MR_CREATE_SUCCESS -> e <> MR_CREATE_FAILURE -> mailbox_create_result e p = (ERROR_MESSAGE_UNKNOWN_ERROR, None)) /\
  (forall e, e <> MR_CLOSE -> mailbox_close_result e p = ERROR_MESSAGE_UNKNOWN_ERROR).
Proof.
  intros p. do 7 (split; [reflexivity|]).
  split; [|split; [|split]]; unfold message_send_result, message_receive_result, mailbox_create_result, mailbox_close_result; intros e; intros;
    repeat match goal with H : e <> ?k |- _ => apply Z.eqb_neq in H; rewrite H; clear H end; reflexivity.
Qed.
(** If the allocation that resumes the receiver fails, the message is lost: 10 sends 100,
    its receive fails, and nothing waits for the next one although the message still
    exists. *)
Theorem C39_lost_refuted : exists w0 w, sched_create list_tops (ext_of (msg_acts list_tops quiet_acts)) [] (msg_none list_tops, tt) 10 = Some (STATUS_SUCCESS, w0) /\
  sexecs list_tops (msg_acts list_tops quiet_acts) (msg_setup [] 60 ++ flat_map (sops 60) [MCreate; MNew 100 0 0; MSend 1 100; MReceive 1]) (set_al [0; 0; 0; 0; 0; 0; 0; 0; 0; 0; 77] w0) =
    Some ([(0, nowhere); (0, nowhere); (0, (10, MESSAGE_ID, MR_CREATE_SUCCESS, 1)); (0, nowhere); (0, nowhere); (0, nowhere);
           (0, (10, MESSAGE_ID, MR_SEND_SUCCESS, 0)); (77, nowhere)], w) /\
  hget (m_boxes (fst (w_user w))) 1 = Some (Mbox 0 []) /\ hget (m_msgs (fst (w_user w))) 100 = Some (Msg 0 1 0).
Proof. eexists; eexists. split; [vm_compute; reflexivity|]. split; [vm_compute; reflexivity|]. split; vm_compute; reflexivity. Qed.
(** A send that reports an error delivers its message nevertheless, so that a sender who
    sends it again or releases it breaks the mailbox. *)
Theorem C39_failed_send_refuted : exists w0 w, sched_create list_tops (ext_of (msg_acts list_tops quiet_acts)) [] (msg_none list_tops, tt) 10 = Some (STATUS_SUCCESS, w0) /\
  sexecs list_tops (msg_acts list_tops quiet_acts) (msg_setup [] 60 ++ flat_map (sops 60) [MCreate; MNew 100 0 0; MSend 1 100; MReceive 1]) (set_al [0; 0; 0; 0; 0; 0; 0; 0; 0; 77] w0) =
    Some ([(0, nowhere); (0, nowhere); (0, (10, MESSAGE_ID, MR_CREATE_SUCCESS, 1)); (0, nowhere); (0, nowhere); (0, nowhere);
           (77, nowhere); (0, (10, MESSAGE_ID, MR_RECEIVE_SUCCESS, 100))], w).
Proof. eexists; eexists. split; [vm_compute; reflexivity|]. vm_compute. reflexivity. Qed.

(** ** C40 *)
(** With fewer than 2^64 calls, no two creations return the same address, whatever fails
    and whatever is closed. *)
Theorem C40_unique : forall T T2 V (ts : tops T) TR Qr dels (ts2 : tops T2) TR2 Q2 (other : acts V) junk junk2 v m al d h os a,
  tab_ok ts TR Qr -> tab_ok ts2 TR2 Q2 -> m <> 0 -> all_foreign d h -> Z.of_nat (length h) < 2^64 ->
  asteps dels (msg_acts ts2 other) (msg_setup junk2 d ++ flat_map (sops d) h) (al_set al (ainit (msg_none ts2, v) m)) =
    Some ((STATUS_SUCCESS, nowhere) :: (STATUS_SUCCESS, nowhere) :: os, a) ->
  well_removed ts (msg_acts ts2 other) Qr dels junk (msg_none ts2, v) m al (msg_setup junk2 d ++ flat_map (sops d) h) ->
  exists w0 w, sched_create ts (ext_of (msg_acts ts2 other)) junk (msg_none ts2, v) m = Some (STATUS_SUCCESS, w0) /\
    sexecs ts (msg_acts ts2 other) (msg_setup junk2 d ++ flat_map (sops d) h) (set_al al w0) =
      Some ((STATUS_SUCCESS, nowhere) :: (STATUS_SUCCESS, nowhere) :: os, w) /\
    NoDup (created d h os) /\ (forall b, In b (created d h os) -> 0 < b).
Proof.
  intros T T2 V ts TR Qr dels ts2 TR2 Q2 other junk junk2 v m al d h os a PT PT2 M AF LN A RM.
  destruct (create_sim _ _ _ _ _ (ext_of (msg_acts ts2 other)) junk (msg_none ts2, v) m PT M) as (w0 & C & R0).
  destruct (steps_sim_q _ _ _ _ _ _ _ _ _ _ _ _ PT (fun D => RM D _ C) (rel_al _ _ _ _ _ al R0) A) as (w & E & R).
  exists w0, w. do 2 (split; [auto|]).
  apply asteps_app in A as (o1 & o2 & a1 & A1 & A2 & EQ & LL).
  destruct o1 as [|x1 [|x2 [|x3 o1]]]; try discriminate LL. cbn [app] in EQ. inversion EQ; subst x1 x2 o2; clear EQ.
  assert (R1 : MRel TR2 true d a1 m no_mail) by (eapply (setup_rel _ _ ts2 other TR2 Q2); [exact PT2| |exact A1|reflexivity]; discriminate).
  destruct R1 as [Q3 Q4 Q5 _ Q6]. destruct (created_index _ _ _ _ _ _ _ 0 _ _ _ (MkARel _ _ _ _ _ Q4 Q5 (br_index _ _ _ Q6)) (Z.le_refl 0) LN AF A2). auto.
Qed.
Example C40_example : created 60 h39 os39 = [1; 2] /\ all_foreign 60 h39.
Proof. split; [vm_compute; reflexivity|]. intros q K. cbn in K. repeat (destruct K as [K|K]; [inversion K; subst; try reflexivity|]); destruct K. Qed.
(** A mailbox that is open is found: while memory lasts, no send to it and no receive from
    it fails for want of it. *)
Lemma skipn_skipn : forall A n k (l : list A), skipn n (skipn k l) = skipn (k + n) l.
Proof. induction k as [|k IH]; intros l; [auto|]. destruct l; [apply skipn_nil|]. cbn [skipn Nat.add]. apply IH. Qed.
Lemma mail_run_app : forall mem d h t os c l, mail_run mem d (h ++ t) os c l =
  match mail_run mem d h os c l with Fine c l => mail_run mem d t (skipn (length (flat_map (sops d) h)) os) c l | v => v end.
Proof.
  induction h as [|p h IH]; intros t os c l; [reflexivity|]. cbn [app mail_run flat_map]. destruct (mail_step _ _ _ _ _ _); [|reflexivity|reflexivity].
  rewrite IH. destruct (mail_run _ _ _ _ _ _); auto. rewrite app_length, skipn_skipn. auto.
Qed.
Lemma asteps_length : forall U dels (ac : acts U) h a os a', asteps dels ac h a = Some (os, a') -> length os = length h.
Proof.
  induction h as [|p h IH]; intros a os a' H; cbn [asteps] in H; [inversion H; auto|].
  destruct (astep _ _ _ _) as [[o a1]|]; [|discriminate]. destruct (asteps _ _ h a1) as [[l a2]|] eqn:E; [|discriminate]. inversion H; subst. cbn [length]. erewrite IH; eauto.
Qed.
Lemma exists_last_or_nil : forall A (l : list A), l = [] \/ exists t x, l = t ++ [x].
Proof. intros A l. destruct l as [|y l]; [auto|]. right. destruct (exists_last (l := y :: l)) as (t & x & E); [discriminate|]. eauto. Qed.
Definition outcome (d : Z) (h : list mop) (os : list out) : out := last (skipn (length (flat_map (sops d) h)) os) (0, nowhere).
Theorem C40_reachable_partial : forall T2 V dels (ts2 : tops T2) TR2 Q2 (other : acts V) junk2 v m d h p os a b c l f q,
  tab_ok ts2 TR2 Q2 -> m <> 0 -> closes dels (msg_acts ts2 other) Q2 d (msg_setup junk2 d) h (al_set [] (ainit (msg_none ts2, v) m)) ->
  asteps dels (msg_acts ts2 other) (msg_setup junk2 d ++ flat_map (sops d) (h ++ [p])) (ainit (msg_none ts2, v) m) =
    Some ((STATUS_SUCCESS, nowhere) :: (STATUS_SUCCESS, nowhere) :: os, a) ->
  mail_run false d h os m no_mail = Fine c l -> hget (l_boxes l) b = Some (f, q) ->
  (p = MReceive b -> resumes (outcome d h os) c MESSAGE_ID MR_RECEIVE_FAILURE ERROR_RBTREE_NOT_FOUND = false \/ (f = 0 /\ q = [])) /\
  (forall x, p = MSend b x -> resumes (outcome d h os) c MESSAGE_ID MR_SEND_FAILURE ERROR_RBTREE_NOT_FOUND = false).
Proof.
  intros T2 V dels ts2 TR2 Q2 other junk2 v m d h p os a b c l f q PT2 M CL A R G.
  assert (KIND : (exists b, p = MReceive b \/ exists x, p = MSend b x) \/ (forall b x, p <> MReceive b /\ p <> MSend b x)).
  { destruct p; try (right; intros; split; discriminate); left; eauto. }
  destruct KIND as [(b0 & KB)|KN].
  2:{ split; [intros ->; destruct (KN b 0); congruence|intros x ->; destruct (KN b x); congruence]. }
  assert (CL' : closes dels (msg_acts ts2 other) Q2 d (msg_setup junk2 d) (h ++ [p]) (al_set [] (ainit (msg_none ts2, v) m))).
  { intros h1 k h2 o2 a2 E H. destruct (exists_last_or_nil _ h2) as [->|(h3 & y & ->)].
    - apply app_inj_tail in E as [_ E]. exfalso. destruct KB as [E2|[x E2]]; congruence.
    - replace (h1 ++ MClose k :: h3 ++ [y]) with ((h1 ++ MClose k :: h3) ++ [y]) in E by (rewrite <- app_assoc; reflexivity). apply app_inj_tail in E as [E _]. eapply CL; eauto. }
  destruct (C39_mail_partial _ _ _ _ _ _ dels ts2 TR2 Q2 other [] junk2 v m [] d (h ++ [p]) os a any_tree PT2 M CL' A (removed_any _ _ _ _ _ _ _ _ _ _)) as (w0 & w & _ & _ & W).
  destruct (W false (fun _ => eq_refl)) as [W1 _]. clear W. rewrite mail_run_app, R in W1. cbn [mail_run] in W1.
  assert (LEN : length os = (length (flat_map (sops d) h) + length (sops d p))%nat).
  { apply asteps_length in A. rewrite flat_map_app, !app_length in A. cbn [length flat_map msg_setup] in A. rewrite app_nil_r in A. exact (eq_add_S _ _ (eq_add_S _ _ A)). }
  rewrite firstn_all2 in W1 by (rewrite skipn_length; change (@length (Z * (Z * Z * Z * Z)) os) with (@length out os) in *; lia). fold (outcome d h os) in W1. set (o := outcome d h os) in *.
  destruct o as [e [[[f1 d1] e1] p1]]. split.
  - intros ->. unfold mail_step in W1. rewrite G in W1. cbn [andb] in W1. destruct q as [|x q].
    + destruct (Z.eqb_spec f 0) as [->|N]; [auto|]. left. destruct (resumes _ c MESSAGE_ID MR_RECEIVE_FAILURE ERROR_RBTREE_NOT_FOUND) eqn:E1; auto. exfalso. apply W1.
      cbn [resumes] in E1 |- *. apply andb_prop in E1 as [E1 E2]. apply Z.eqb_eq in E2. subst p1. change (ERROR_RBTREE_NOT_FOUND =? ERROR_MESSAGE_ALREADY_BLOCKED) with false. rewrite andb_false_r. reflexivity.
    + left. destruct (resumes _ c MESSAGE_ID MR_RECEIVE_FAILURE ERROR_RBTREE_NOT_FOUND) eqn:E1; auto. exfalso. apply W1.
      cbn [resumes] in E1 |- *. apply andb_prop in E1 as [E1 E2]. apply andb_prop in E1 as [E1 E3]. apply Z.eqb_eq in E3. subst e1. change (MR_RECEIVE_FAILURE =? MR_RECEIVE_SUCCESS) with false. rewrite andb_false_r. reflexivity.
  - intros y ->. unfold mail_step in W1. rewrite G in W1. cbn [andb] in W1. destruct (resumes _ c MESSAGE_ID MR_SEND_FAILURE ERROR_RBTREE_NOT_FOUND) eqn:E1; auto. exfalso. apply W1.
    cbn [resumes] in E1 |- *. apply andb_prop in E1 as [E1 E2]. apply andb_prop in E1 as [E1 E3]. apply Z.eqb_eq in E3. subst e1.
    change (MR_SEND_FAILURE =? MR_SEND_SUCCESS) with false. change (MR_SEND_FAILURE =? MR_RECEIVE_SUCCESS) with false. rewrite !andb_false_r. destruct (f =? 0); reflexivity.
Qed.
Example C40_reachable_example : exists a, asteps true (msg_acts list_tops quiet_acts) (msg_setup [] 60 ++ flat_map (sops 60) ([MCreate; MCreate; MClose 1; MNew 100 0 0] ++ [MSend 2 100])) (ainit (msg_none list_tops, tt) 10) =
    Some ((STATUS_SUCCESS, nowhere) :: (STATUS_SUCCESS, nowhere) :: [(0, (10, MESSAGE_ID, MR_CREATE_SUCCESS, 1)); (0, (10, MESSAGE_ID, MR_CREATE_SUCCESS, 2)); (0, (10, MESSAGE_ID, MR_CLOSE, 0)); (0, nowhere); (0, nowhere); (0, nowhere); (0, (10, MESSAGE_ID, MR_SEND_SUCCESS, 0))], a) /\
  mail_run false 60 [MCreate; MCreate; MClose 1; MNew 100 0 0] [(0, (10, MESSAGE_ID, MR_CREATE_SUCCESS, 1)); (0, (10, MESSAGE_ID, MR_CREATE_SUCCESS, 2)); (0, (10, MESSAGE_ID, MR_CLOSE, 0)); (0, nowhere); (0, nowhere); (0, nowhere); (0, (10, MESSAGE_ID, MR_SEND_SUCCESS, 0))] 10 no_mail =
    Fine 10 (Mail [(2, (0, []))] 2 [] []).
Proof. eexists. split; [vm_compute; reflexivity|vm_compute; reflexivity]. Qed.
(** With the tree of src/rbtree: of mailboxes 1 - 9 all but 1 and 8 are closed, then neither
    of them is found any more. *)
Definition h40 : list mop := repeat MCreate 8 ++ [MClose 7; MClose 6; MClose 5; MCreate; MClose 3; MClose 9; MClose 4; MClose 2; MReceive 1; MReceive 8].
Theorem C40_reachable_refuted : exists w0 os w, sched_create list_tops (ext_of (msg_acts (rb_tops pick_max) quiet_acts)) [] (msg_none (rb_tops pick_max), tt) 10 = Some (STATUS_SUCCESS, w0) /\
  sexecs list_tops (msg_acts (rb_tops pick_max) quiet_acts) (msg_setup [] 60 ++ flat_map (sops 60) h40) w0 = Some (os, w) /\
  created 60 h40 (skipn 2 os) = [1; 2; 3; 4; 5; 6; 7; 8; 9] /\
  skipn 17 os = [(0, (10, MESSAGE_ID, MR_CLOSE, 0)); (0, (10, MESSAGE_ID, MR_RECEIVE_FAILURE, ERROR_RBTREE_NOT_FOUND)); (0, (10, MESSAGE_ID, MR_RECEIVE_FAILURE, ERROR_RBTREE_NOT_FOUND))].
Proof.
  eexists; eexists; eexists. split; [vm_compute; reflexivity|]. split; [vm_compute; reflexivity|]. split; vm_compute; reflexivity.
Qed.


(** ** C41 (mailboxes; PropCond.v has conditions) *)
(** The handler of a creation ends by answering the creator.  If allocation [i] is the
    first to fail and is not that of the tree node, the call returns an error, its status
    if the reclaims succeed, and stores no address; the [i] blocks are reclaimed and no
    mailbox is added.  It also returns an error if the tree node cannot be allocated and
    reclaiming one of the three blocks fails.  If none fails, it succeeds and stores the address of the new
    mailbox. *)
Theorem C41_mailbox_partial : forall T T2 (ts2 : tops T2) TR Q yf p (w : sw T (mst T2)) tl,
  tab_ok ts2 TR Q -> TR (m_tree (w_user w)) tl -> wrap64 (m_index (w_user w) + 1) <> 0 ->
  (forall i, (i < 3)%nat -> (forall j, (j < i)%nat -> nth j (w_al w) STATUS_SUCCESS = STATUS_SUCCESS) -> nth i (w_al w) STATUS_SUCCESS <> STATUS_SUCCESS ->
     exists ev x w', hrun (create_box ts2 MSG_CTX yf p) w = hrun (answer yf ev x) w' /\
       fst (mailbox_create_result ev x) <> STATUS_SUCCESS /\ snd (mailbox_create_result ev x) = None /\
       (Forall (fun r => r = STATUS_SUCCESS) (w_rc w) -> fst (mailbox_create_result ev x) = nth i (w_al w) STATUS_SUCCESS) /\
       w' = after (S i) i w) /\
  ((forall j, (j < 3)%nat -> nth j (w_al w) STATUS_SUCCESS = STATUS_SUCCESS) -> nth 3 (w_al w) STATUS_SUCCESS <> STATUS_SUCCESS ->
     (exists j, (j < 3)%nat /\ nth j (w_rc w) STATUS_SUCCESS <> STATUS_SUCCESS) ->
     exists ev x, hrun (create_box ts2 MSG_CTX yf p) w = hrun (answer yf ev x) (after 4 3 w) /\
       fst (mailbox_create_result ev x) <> STATUS_SUCCESS /\ snd (mailbox_create_result ev x) = None) /\
  ((forall j, (j < 4)%nat -> nth j (w_al w) STATUS_SUCCESS = STATUS_SUCCESS) ->
     exists ev x w', hrun (create_box ts2 MSG_CTX yf p) w = hrun (answer yf ev x) w' /\
       mailbox_create_result ev x = (STATUS_SUCCESS, Some (wrap64 (m_index (w_user w) + 1))) /\
       w' = set_user (w_user w') (after 4 0 w) /\
       m_boxes (w_user w') = hadd (m_boxes (w_user w)) (wrap64 (m_index (w_user w) + 1)) (Mbox 0 []) /\
       m_index (w_user w') = wrap64 (m_index (w_user w) + 1) /\ m_msgs (w_user w') = m_msgs (w_user w) /\ m_rel (w_user w') = m_rel (w_user w)).
Proof.
  intros T T2 ts2 TR Q yf p w tl OK T1 NZ.
  assert (W0 : hrun (create_box ts2 MSG_CTX yf p) w = hrun (create_box ts2 MSG_CTX yf p) (after 0 0 w)) by (unfold after; cbn [skipn]; rewrite sw_eta; reflexivity).
  assert (FR : forall i, Forall (fun r => r = STATUS_SUCCESS) (w_rc w) -> nth i (w_rc w) STATUS_SUCCESS = STATUS_SUCCESS).
  { intros i F. destruct (nth_in_or_default i (w_rc w) STATUS_SUCCESS) as [J|J]; auto. rewrite Forall_forall in F. auto. }
  unfold create_box, on_msg in *. rewrite Z.eqb_refl in *. rewrite W0. rewrite hrun_load, hrun_malloc.
  split; [|split].
  - intros i I PRE NE. destruct i as [|[|[|i]]]; [| | |lia].
    + apply ok_false in NE. rewrite NE. cbn [negb]. do 3 eexists. split; [reflexivity|]. cbn [mailbox_create_result MR_CREATE_FAILURE]. apply ok_false in NE.
      split; [exact NE|]. split; [reflexivity|]. split; [reflexivity|]. reflexivity.
    + rewrite (PRE 0%nat) by lia. change (negb (ok STATUS_SUCCESS)) with false. cbv iota. rewrite hrun_malloc. apply ok_false in NE. rewrite NE. cbn [negb]. rewrite hrun_free. do 3 eexists. split; [reflexivity|].
      apply ok_false in NE. cbn. split; [|split; [reflexivity|split; [|reflexivity]]].
      * destruct (ok _) eqn:O; cbn [negb]; [auto|apply ok_false; auto].
      * intros F. rewrite FR by auto. reflexivity.
    + rewrite (PRE 0%nat) by lia. change (negb (ok STATUS_SUCCESS)) with false. cbv iota. rewrite hrun_malloc. rewrite (PRE 1%nat) by lia. change (negb (ok STATUS_SUCCESS)) with false. cbv iota. rewrite hrun_malloc. apply ok_false in NE. rewrite NE. cbn [negb]. rewrite hrun_free. cbv zeta. rewrite hrun_free.
      do 3 eexists. split; [reflexivity|].
      apply ok_false in NE. cbn. split; [|split; [reflexivity|split; [|reflexivity]]].
      * destruct (ok (nth 1 _ _)) eqn:O; cbn [negb]; [|apply ok_false; auto]. destruct (ok (nth 0 (w_rc w) _)) eqn:O0; cbn [negb]; [auto|apply ok_false; auto].
      * intros F. rewrite !FR by auto. reflexivity.
  - intros PRE NE BAD. rewrite (PRE 0%nat) by lia. change (negb (ok STATUS_SUCCESS)) with false. cbv iota. rewrite hrun_malloc, (PRE 1%nat) by lia. change (negb (ok STATUS_SUCCESS)) with false. cbv iota. rewrite hrun_malloc, (PRE 2%nat) by lia. change (negb (ok STATUS_SUCCESS)) with false. cbv iota.
    rewrite hrun_malloc. destruct (tb_insert _ _ _ OK (nth 3 (w_al w) STATUS_SUCCESS) (m_tree (w_user w)) tl _ T1 NZ) as (t' & I1 & I2). rewrite I1. apply ok_false in NE. cbn [need]. rewrite NE. rewrite NE. cbn [negb].
    rewrite !hrun_free. do 2 eexists. split; [reflexivity|]. cbn. split; [|reflexivity].
    destruct (ok (nth 1 (w_rc w) STATUS_SUCCESS)) eqn:O1; cbn [negb]; [|rewrite O1; cbn [negb]; apply ok_false; auto].
    destruct (ok (nth 0 (w_rc w) STATUS_SUCCESS)) eqn:O0; cbn [negb]; [|apply ok_false; auto].
    destruct BAD as (j & J & B). destruct j as [|[|[|j]]]; [| |exact B|lia]; apply ok_false in B; congruence.
  - intros PRE. rewrite (PRE 0%nat) by lia. change (negb (ok STATUS_SUCCESS)) with false. cbv iota. rewrite hrun_malloc, (PRE 1%nat) by lia. change (negb (ok STATUS_SUCCESS)) with false. cbv iota. rewrite hrun_malloc, (PRE 2%nat) by lia. change (negb (ok STATUS_SUCCESS)) with false. cbv iota.
    rewrite hrun_malloc, (PRE 3%nat) by lia. destruct (tb_insert _ _ _ OK STATUS_SUCCESS (m_tree (w_user w)) tl _ T1 NZ) as (t' & I1 & I2). rewrite I1. cbn.
    do 3 eexists. split; [reflexivity|]. split; [reflexivity|]. split; [reflexivity|]. auto.
Qed.
(** If the fourth allocation fails, that of the tree node, and the reclaims succeed, the
    call returns success and stores no address, as no mailbox was made. *)
Theorem C41_mailbox_refuted : forall T T2 (ts2 : tops T2) TR Q yf p (w : sw T (mst T2)) tl,
  tab_ok ts2 TR Q -> TR (m_tree (w_user w)) tl -> wrap64 (m_index (w_user w) + 1) <> 0 ->
  (forall j, (j < 3)%nat -> nth j (w_al w) STATUS_SUCCESS = STATUS_SUCCESS) -> nth 3 (w_al w) STATUS_SUCCESS <> STATUS_SUCCESS ->
  Forall (fun r => r = STATUS_SUCCESS) (w_rc w) ->
  exists ev x w', hrun (create_box ts2 MSG_CTX yf p) w = hrun (answer yf ev x) w' /\
    mailbox_create_result ev x = (STATUS_SUCCESS, None) /\ w' = after 4 3 w.
Proof.
  intros T T2 ts2 TR Q yf p w tl OK T1 NZ PRE NE RC.
  assert (W0 : hrun (create_box ts2 MSG_CTX yf p) w = hrun (create_box ts2 MSG_CTX yf p) (after 0 0 w)) by (unfold after; cbn [skipn]; rewrite sw_eta; reflexivity).
  assert (FR : forall i, nth i (w_rc w) STATUS_SUCCESS = STATUS_SUCCESS).
  { intros i. destruct (nth_in_or_default i (w_rc w) STATUS_SUCCESS) as [J|J]; auto. rewrite Forall_forall in RC. auto. }
  unfold create_box, on_msg in *. rewrite Z.eqb_refl in *. rewrite W0. rewrite hrun_load, hrun_malloc.
  rewrite (PRE 0%nat) by lia. change (negb (ok STATUS_SUCCESS)) with false. cbv iota. rewrite hrun_malloc, (PRE 1%nat) by lia. change (negb (ok STATUS_SUCCESS)) with false. cbv iota. rewrite hrun_malloc, (PRE 2%nat) by lia. change (negb (ok STATUS_SUCCESS)) with false. cbv iota.
  rewrite hrun_malloc. destruct (tb_insert _ _ _ OK (nth 3 (w_al w) STATUS_SUCCESS) (m_tree (w_user w)) tl _ T1 NZ) as (t' & I1 & I2). rewrite I1. apply ok_false in NE. cbn [need]. rewrite NE. rewrite NE. cbn [negb].
  rewrite !hrun_free, !FR. do 3 eexists. split; [reflexivity|]. split; reflexivity.
Qed.
(** Fiber 10 asks for a mailbox; the three allocations of the setup and the three of the
    mailbox succeed, the seventh fails: the call returns success and stores nothing. *)
Example C41_mailbox_example : exists w0 w, sched_create list_tops (ext_of (msg_acts list_tops quiet_acts)) [] (msg_none list_tops, tt) 10 = Some (STATUS_SUCCESS, w0) /\
  sexecs list_tops (msg_acts list_tops quiet_acts) (msg_setup [] 60 ++ sops 60 MCreate) (set_al [0; 0; 0; 0; 0; 0; 77] w0) =
    Some ([(STATUS_SUCCESS, nowhere); (STATUS_SUCCESS, nowhere); (STATUS_SUCCESS, (10, MESSAGE_ID, MR_CREATE_FAILURE, STATUS_SUCCESS))], w) /\
  mailbox_create_result MR_CREATE_FAILURE STATUS_SUCCESS = (STATUS_SUCCESS, None) /\ m_boxes (fst (w_user w)) = [].
Proof.
  do 2 eexists. split; [vm_compute; reflexivity|]. split; [vm_compute; reflexivity|]. split; [reflexivity|]. vm_compute. reflexivity.
Qed.

(** ** C42 (mailboxes) *)
Lemma msgs_release_spec : forall T q (m : mst T), hwf (m_msgs m) -> NoDup q -> (forall x, In x q -> hget (m_msgs m) x <> None) ->
  exists ms, msgs_release q m = Some (MS (m_tree m) (m_boxes m) (m_index m) ms
      (m_rel m ++ flat_map (fun x => match hget (m_msgs m) x with Some g => if g_payload g =? 0 then [] else [g_payload g] | None => [] end) q)) /\
    (forall x, In x q -> hget ms x = None) /\ (forall x, ~ In x q -> hget ms x = hget (m_msgs m) x).
Proof.
  induction q as [|x q IH]; intros m W ND L.
  - exists (m_msgs m). cbn. rewrite app_nil_r. destruct m. split; [reflexivity|]. split; [contradiction|auto].
  - inversion ND; subst. cbn [msgs_release]. unfold msg_release. destruct (hget (m_msgs m) x) as [g|] eqn:G; [|exfalso; apply (L x); [left; auto|auto]].
    set (m1 := MS (m_tree m) (m_boxes m) (m_index m) (hdel (m_msgs m) x) (if g_payload g =? 0 then m_rel m else m_rel m ++ [g_payload g])).
    assert (OT : forall y, y <> x -> hget (hdel (m_msgs m) x) y = hget (m_msgs m) y) by (intros y NE; apply hget_hdel_other; auto).
    destruct (IH m1) as (ms & R & R1 & R2); cbn [m1 m_msgs].
    + apply hdel_wf; auto.
    + auto.
    + intros y J. rewrite OT by (intros ->; auto). apply L. right; auto.
    + exists ms. rewrite R. cbn [m1 m_tree m_boxes m_index m_msgs m_rel] in *. split.
      * f_equal. f_equal. cbn [flat_map]. rewrite G. replace (flat_map _ q) with (flat_map (fun y => match hget (m_msgs m) y with Some g0 => if g_payload g0 =? 0 then [] else [g_payload g0] | None => [] end) q).
        -- destruct (g_payload g =? 0); [reflexivity|]. rewrite <- app_assoc. reflexivity.
        -- rewrite !flat_map_concat_map. f_equal. apply map_ext_in. intros y J. rewrite OT; [reflexivity|intros ->; auto].
      * split.
        -- intros y [<-|J]; [|apply R1; auto]. rewrite R2 by auto. apply hget_hdel_same. auto.
        -- intros y NI. rewrite R2 by (intros K; apply NI; right; auto). apply OT. intros ->. apply NI. left; auto.
Qed.

(** Closing a mailbox removes it and releases the messages that wait in it, with their
    payloads, and nothing else; closing one that does not exist is refused. *)
Theorem C42_mailbox_close_partial : forall T T2 (ts2 : tops T2) TR Q yf b (w : sw T (mst T2)) tl,
  tab_ok ts2 TR Q -> TR (m_tree (w_user w)) tl -> Q (m_tree (w_user w)) b -> hwf (m_boxes (w_user w)) -> hwf (m_msgs (w_user w)) ->
  (forall k, In k tl <-> hget (m_boxes (w_user w)) k <> None) ->
  match hget (m_boxes (w_user w)) b with
  | None => exists u, hrun (close_box ts2 MSG_CTX yf b) w = hrun (answer yf MR_CLOSE ERROR_RBTREE_NOT_FOUND) (set_user u w) /\
      m_boxes u = m_boxes (w_user w) /\ m_index u = m_index (w_user w) /\ m_msgs u = m_msgs (w_user w) /\ m_rel u = m_rel (w_user w)
  | Some (Mbox f q) => NoDup q -> (forall x, In x q -> hget (m_msgs (w_user w)) x <> None) ->
      exists u, hrun (close_box ts2 MSG_CTX yf b) w = hrun (answer yf MR_CLOSE STATUS_SUCCESS) (set_user u w) /\
        hget (m_boxes u) b = None /\ (forall k, k <> b -> hget (m_boxes u) k = hget (m_boxes (w_user w)) k) /\ m_index u = m_index (w_user w) /\
        (forall x, In x q -> hget (m_msgs u) x = None) /\ (forall x, ~ In x q -> hget (m_msgs u) x = hget (m_msgs (w_user w)) x) /\
        m_rel u = m_rel (w_user w) ++ flat_map (fun x => match hget (m_msgs (w_user w)) x with Some g => if g_payload g =? 0 then [] else [g_payload g] | None => [] end) q /\
        exists tl', TR (m_tree u) tl' /\ tl' = zdel b tl
  end.
Proof.
  intros T T2 ts2 TR Q yf b w tl OK T1 QB WB WM IN.
  destruct (tb_delete _ _ _ OK (m_tree (w_user w)) tl b T1 QB) as (t' & D1 & D2).
  destruct (hget (m_boxes (w_user w)) b) as [[f q]|] eqn:G.
  - intros ND L. unfold close_box, on_msg. rewrite Z.eqb_refl. cbn [hrun]. rewrite D1.
    assert (Z1 : zmem b tl = true) by (apply zmem_in, IN; rewrite G; discriminate). rewrite Z1. cbn [need]. change (negb (ok STATUS_SUCCESS)) with false. cbv iota zeta. cbn [m_boxes]. rewrite G. cbn [need].
    set (m := MS t' (m_boxes (w_user w)) (m_index (w_user w)) (m_msgs (w_user w)) (m_rel (w_user w))).
    destruct (msgs_release_spec T2 q m WM ND L) as (ms & R & R1 & R2). cbn [b_queue]. rewrite R. cbn [need hrun m m_tree m_boxes m_index m_msgs m_rel].
    eexists. split; [reflexivity|]. cbn [m m_tree m_boxes m_index m_msgs m_rel] in *.
    split; [apply hget_hdel_same; auto|]. split; [intros; apply hget_hdel_other; auto|]. split; [reflexivity|]. split; [auto|]. split; [auto|]. split; [reflexivity|]. eauto.
  - unfold close_box, on_msg. rewrite Z.eqb_refl. cbn [hrun]. rewrite D1.
    assert (Z1 : zmem b tl = false) by (apply zmem_not; intros K; apply IN in K; auto). rewrite Z1. cbn [need]. change (negb (ok ERROR_RBTREE_NOT_FOUND)) with true. cbv iota zeta. cbn [hrun].
    eexists. split; [reflexivity|]. auto.
Qed.
(** A fiber blocked on the mailbox is not woken: after the close the run queue is that of
    before with the closing fiber, the other fibers are as they were, and no mailbox knows
    the blocked fiber. *)
Theorem C42_mailbox_refuted : forall T T2 (ts2 : tops T2) TR Q yf b (w : sw T (mst T2)) tl f fy,
  tab_ok ts2 TR Q -> TR (m_tree (w_user w)) tl -> Q (m_tree (w_user w)) b -> hwf (m_boxes (w_user w)) ->
  In b tl -> hget (m_boxes (w_user w)) b = Some (Mbox f []) -> f <> 0 -> f <> yf -> ~ In f (w_rq w) -> hget (w_fibs w) yf = Some fy ->
  (forall k x, k <> b -> hget (m_boxes (w_user w)) k = Some x -> b_blocked x <> f) -> w_al w = [] ->
  exists w', hrun (close_box ts2 MSG_CTX yf b) w = Some (STATUS_SUCCESS, w') /\
    w_rq w' = yf :: w_rq w /\ ~ In f (w_rq w') /\ (forall g, g <> yf -> hget (w_fibs w') g = hget (w_fibs w) g) /\
    (forall k x, hget (m_boxes (w_user w')) k = Some x -> b_blocked x <> f).
Proof.
  intros T T2 ts2 TR Q yf b w tl f fy OK T1 QB WB IN G F0 FY NR GY OT AL.
  destruct (tb_delete _ _ _ OK (m_tree (w_user w)) tl b T1 QB) as (t' & D1 & D2).
  unfold close_box, on_msg. rewrite Z.eqb_refl. cbn [hrun]. rewrite D1. apply zmem_in in IN. rewrite IN. cbn [need]. change (negb (ok STATUS_SUCCESS)) with false. cbv iota zeta. cbn [m_boxes]. rewrite G.
  cbn [need b_queue msgs_release hrun answer m_tree m_boxes m_index m_msgs m_rel]. unfold set_next, set_restore. cbn [set_user w_fibs]. rewrite GY. unfold allocation. cbn [set_fibs w_al]. change (w_al (set_user _ w)) with (w_al w). rewrite ?AL.
  change (ok STATUS_SUCCESS) with true. cbv iota. eexists. split; [reflexivity|]. cbn [set_rq w_rq w_fibs w_user m_boxes].
  split; [reflexivity|]. split; [intros [K|K]; auto|]. split; [intros g NE; apply hget_hset_other; auto|].
  intros k x K. change (hget (hdel (m_boxes (w_user w)) b) k = Some x) in K. destruct (Z.eq_dec k b) as [->|NE]; [rewrite hget_hdel_same in K by auto; discriminate|]. rewrite hget_hdel_other in K by auto. eauto.
Qed.
(** Fiber 2 receives from an empty mailbox; 10 closes it and lets others run, but there is
    none: 2 waits forever. *)
Definition h42 : list mop := [MOther (SNew 2); MOther (SAdd 2); MCreate; MOther SRun; MReceive 1; MClose 1; MOther SRun].
Example C42_mailbox_example : exists w0 os w, sched_create list_tops (ext_of (msg_acts list_tops quiet_acts)) [] (msg_none list_tops, tt) 10 = Some (STATUS_SUCCESS, w0) /\
  sexecs list_tops (msg_acts list_tops quiet_acts) (msg_setup [] 60 ++ flat_map (sops 60) h42) w0 = Some (os, w) /\
  skipn 5 os = [(0, (2, INTERNAL_ID, RESUME_ADD_FIBER, 0)); (0, (10, INTERNAL_ID, RESUME_RUN, 0)); (0, (10, MESSAGE_ID, MR_CLOSE, 0)); (0, (10, INTERNAL_ID, RESUME_RUN, 0))] /\
  w_rq w = [] /\ m_boxes (fst (w_user w)) = [].
Proof.
  do 3 eexists. split; [vm_compute; reflexivity|]. split; [vm_compute; reflexivity|]. split; [vm_compute; reflexivity|]. split; vm_compute; reflexivity.
Qed.

(** ** C55: a message keeps what it was made with *)
(** Making a message, reading it and releasing it. *)
Theorem C55_message : forall T T2 (w : sw T (mst T2)) x ret pay, x <> 0 -> hget (m_msgs (w_user w)) x = None -> hwf (m_msgs (w_user w)) ->
  exists w1 w2, hrun (new_msg x ret) w = Some (STATUS_SUCCESS, w1) /\ hrun (set_payload x pay) w1 = Some (STATUS_SUCCESS, w2) /\
    w2 = set_user (w_user w2) w /\ m_boxes (w_user w2) = m_boxes (w_user w) /\ m_rel (w_user w2) = m_rel (w_user w) /\
    message_return_address x (w_user w2) = Some ret /\
    message_payload x false (w_user w2) = Some (pay, w_user w2) /\
    (forall y, y <> x -> hget (m_msgs (w_user w2)) y = hget (m_msgs (w_user w)) y) /\
    (** the payload is released with the message, unless it was NULL or taken *)
    (exists w3, hrun (release_msg x) w2 = Some (STATUS_SUCCESS, w3) /\ hget (m_msgs (w_user w3)) x = None /\
       m_rel (w_user w3) = m_rel (w_user w) ++ (if pay =? 0 then [] else [pay])) /\
    (exists u, message_payload x true (w_user w2) = Some (pay, u) /\ message_payload x false u = Some (0, u) /\ message_return_address x u = Some ret /\
       exists w3, hrun (release_msg x) (set_user u w2) = Some (STATUS_SUCCESS, w3) /\ hget (m_msgs (w_user w3)) x = None /\ m_rel (w_user w3) = m_rel (w_user w)).
Proof.
  intros T T2 w x ret pay X0 NL WF. unfold new_msg, set_payload, release_msg, msg_release, message_payload, message_return_address. cbn [hrun]. rewrite NL. apply Z.eqb_neq in X0 as X1. rewrite X1. cbn [orb hrun].
  do 2 eexists. split; [reflexivity|]. cbn [set_user w_user m_msgs hrun need m_rel m_boxes]. rewrite hget_hadd_same. cbn [need hrun g_return g_send].
  assert (A1 : hwf (hadd (m_msgs (w_user w)) x (Msg ret 0 0))) by (apply hadd_wf; auto).
  assert (A2 : forall m, hwf (hset (hadd (m_msgs (w_user w)) x (Msg ret 0 0)) x m)) by (intros; apply hset_wf; auto).
  assert (A3 : forall m, hget (hset (hadd (m_msgs (w_user w)) x (Msg ret 0 0)) x m) x = Some m) by (intros; eapply hget_hset_same; apply hget_hadd_same).
  split; [reflexivity|]. split; [reflexivity|]. cbn [set_user w_user m_msgs m_rel m_boxes]. do 2 (split; [reflexivity|]). rewrite A3. cbn [g_return g_payload].
  do 2 (split; [reflexivity|]). split; [intros y NE; rewrite hget_hset_other, hget_hadd_other; auto|].
  split; [|].
  - eexists. cbn [hrun need g_payload]. split; [reflexivity|]. cbn [set_user w_user m_msgs m_rel]. split; [apply hget_hdel_same; auto|]. destruct (pay =? 0); [rewrite app_nil_r|]; reflexivity.
  - eexists. split; [reflexivity|]. cbn [m_msgs hrun set_user w_user]. rewrite hset_hset. rewrite A3. cbn [need g_payload g_return g_send]. do 2 (split; [reflexivity|]).
    cbn [hrun]. eexists. split; [reflexivity|]. cbn [set_user w_user m_msgs m_rel]. split; [apply hget_hdel_same; auto|]. reflexivity.
Qed.
(** While it is sent, waits and is received, a message keeps its payload and its return
    address: no handler but that of a close touches them, and a send writes the address it
    is sent to and nothing else. *)
Theorem C55_kept : forall T T2 (ts2 : tops T2) cx yf p (w : sw T (mst T2)) e w', w_rc w = [] ->
  hrun (create_box ts2 cx yf p) w = Some (e, w') \/ hrun (send ts2 cx yf p) w = Some (e, w') \/ hrun (receive ts2 cx yf p) w = Some (e, w') ->
  m_msgs (w_user w') = m_msgs (w_user w) /\ m_rel (w_user w') = m_rel (w_user w).
Proof.
  intros T T2 ts2 cx yf p w e w' RC H.
  assert (NE : forall A (x : option A) k P, (forall y, x = Some y -> keeps P (k y)) -> keeps P (@need (mst T2) A x k)) by (intros A [y|] k P K; cbn; auto).
  assert (PB : forall (P : mst T2 -> Prop) k b c, (forall (m : mst T2) x, P m -> P (set_box k x m)) -> (forall y, keeps P (c STATUS_SUCCESS y)) -> keeps P (@pop_box T2 k b c)).
  { intros P k b c A B. unfold pop_box. cbn [keeps]. intros u PU. destruct (b_queue b); [exact Logic.I|]. cbn [keeps]. split; [auto|]. apply B. }
  set (P := fun m : mst T2 => m_msgs m = m_msgs (w_user w) /\ m_rel m = m_rel (w_user w)).
  assert (PS : forall m k x, P m -> P (set_box k x m)) by (intros ? ? ? K; exact K).
  change (P (w_user w')). destruct H as [H|[H|H]]; refine (hrun_keeps _ _ P _ _ _ _ _ (conj eq_refl eq_refl) RC H); clear H.
  - unfold create_box, on_msg. destruct (cx =? MSG_CTX); [|exact Logic.I]. cbn [keeps]. intros u PU e1. destruct (negb (ok e1)); [cbn; auto|]. cbn [keeps]. intros e2. destruct (negb (ok e2)); [cbn; auto|]. cbn [keeps].
    intros e3. destruct (negb (ok e3)); [cbn; auto|]. cbn [keeps]. intros e4. apply NE. intros [e5 t] _. destruct (negb (ok e5)); [cbn; auto|]. cbn. auto.
  - unfold send, on_msg. destruct (cx =? MSG_CTX); [|exact Logic.I]. cbn [keeps]. intros u PU. apply NE. intros g _. apply NE. intros [e1 k] _. destruct (negb (ok e1)); [cbn; auto|].
    apply NE. intros b _. cbn [keeps]. intros e2. destruct (negb (ok e2)); [cbn; auto|]. cbn [keeps]. split; [auto|]. intros e3. destruct (negb (ok e3)); [cbn; auto|]. destruct (negb _); [|cbn; auto].
    apply PB; [auto|]. intros y. cbn. auto.
  - unfold receive, on_msg. destruct (cx =? MSG_CTX); [|exact Logic.I]. cbn [keeps]. intros u PU. apply NE. intros [e1 k] _. destruct (negb (ok e1)); [cbn; auto|]. apply NE. intros b _.
    destruct (b_queue b); [destruct (negb _); cbn; auto|]. apply PB; [auto|]. intros y. cbn. auto.
Qed.
Theorem C55_sent : forall T T2 (w : sw T (mst T2)) x addr e w', hrun (set_address x addr) w = Some (e, w') -> hwf (m_msgs (w_user w)) ->
  e = STATUS_SUCCESS /\ w' = set_user (w_user w') w /\ message_return_address x (w_user w') = message_return_address x (w_user w) /\
  option_map fst (message_payload x false (w_user w')) = option_map fst (message_payload x false (w_user w)) /\
  option_map g_send (hget (m_msgs (w_user w')) x) = Some addr /\
  (forall y, y <> x -> hget (m_msgs (w_user w')) y = hget (m_msgs (w_user w)) y) /\ m_boxes (w_user w') = m_boxes (w_user w) /\ m_rel (w_user w') = m_rel (w_user w).
Proof.
  intros T T2 w x addr e w' H WF. unfold set_address in H. cbn [hrun] in H. destruct (hget (m_msgs (w_user w)) x) as [g|] eqn:G; [|discriminate]. cbn [need hrun] in H. inversion H; subst; clear H.
  split; [reflexivity|]. split; [reflexivity|]. unfold message_return_address, message_payload. cbn [set_user w_user m_msgs m_boxes m_rel]. rewrite G.
  rewrite (hget_hset_same _ _ _ _ G). cbn. repeat (split; [reflexivity|]). split; [intros y NE; apply hget_hset_other; auto|]. auto.
Qed.

Print Assumptions C39_mail_partial.
Print Assumptions C39_real_tree_partial.
Print Assumptions C39_results.
Print Assumptions C39_lost_refuted.
Print Assumptions C39_failed_send_refuted.
Print Assumptions C40_unique.
Print Assumptions C40_reachable_partial.
Print Assumptions C40_reachable_refuted.
Print Assumptions C41_mailbox_partial.
Print Assumptions C41_mailbox_refuted.
Print Assumptions C42_mailbox_close_partial.
Print Assumptions C42_mailbox_refuted.
Print Assumptions C55_message.
Print Assumptions C55_kept.
Print Assumptions C55_sent.
