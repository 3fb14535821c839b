(** C41 - C43: conditions. *)
From Coq Require Import Permutation.
From Verif Require MsgProofs.
From Verif Require Import Base Status MemModel MemProofs Heap TabModel TabSpec TabProofs TabRb SchedModel SchedSpec SchedProofs SchedHist DiscFrame MsgModel CondModel CondSpec CondProofs PropSched.

(** ** C43 *)
(** Every history of calls that the scheduler's specification covers, with any allocation
    failures and any other disciplines, does to conditions what CondSpec.v says, where it
    says something: a wait puts the fiber behind those that wait, a notification makes
    ready the first of them, or all in their order, and then the notifier, each behind what
    is ready already.  [ms] is what each call makes ready; all of this is resumed or still
    ready, and what is made ready behind others is resumed in this order.  The trees of
    fibers and of conditions are any that do what TabSpec.v says. *)
Theorem C43_conditions_partial : forall T T2 V (ts : tops T) TR Qr dels (ts2 : tops T2) TR2 Q2 (other : acts V) junk junk2 v m al mem d h os a,
  tab_ok ts TR Qr -> tab_ok ts2 TR2 Q2 -> m <> 0 -> (mem = false -> al = []) ->
  closes dels (cond_acts ts2 other) Q2 d (cond_setup junk2 d) h (al_set al (ainit (cond_none ts2, v) m)) ->
  asteps dels (cond_acts ts2 other) (cond_setup junk2 d ++ map (csop d) h) (al_set al (ainit (cond_none ts2, v) m)) =
    Some ((STATUS_SUCCESS, nowhere) :: (STATUS_SUCCESS, nowhere) :: os, a) ->
  well_removed ts (cond_acts ts2 other) Qr dels junk (cond_none ts2, v) m al (cond_setup junk2 d ++ map (csop d) h) ->
  let ms := skipn 2 (made_by dels (cond_acts ts2 other) (cond_setup junk2 d ++ map (csop d) h) (al_set al (ainit (cond_none ts2, v) m))) in
  exists w0 w, sched_create ts (ext_of (cond_acts ts2 other)) junk (cond_none ts2, v) m = Some (STATUS_SUCCESS, w0) /\
    sexecs ts (cond_acts ts2 other) (cond_setup junk2 d ++ map (csop d) h) (set_al al w0) =
      Some ((STATUS_SUCCESS, nowhere) :: (STATUS_SUCCESS, nowhere) :: os, w) /\
    Permutation (concat ms) (a_ran a ++ a_ready a) /\ late (concat ms) = late (a_ran a) ++ late (a_ready a) /\
    runs_as (map snd (a_ran a)) (switches (map (csop d) h) os) /\ w_rq w = map (fun x => fst (snd x)) (a_ready a) /\
    cond_run mem d h os ms m no_waits <> Wrong /\
    (forall c l, cond_run mem d h os ms m no_waits = Fine c l -> w_cur w = c /\ c_conds (fst (w_user w)) = k_waits l).
Proof.
  intros T T2 V ts TR Qr dels ts2 TR2 Q2 other junk junk2 v m al mem d h os a PT PT2 M ME CL A RM ms.
  destruct (C35_refines_partial _ _ _ _ _ _ (cond_acts ts2 other) junk (cond_none ts2, v) m al _ _ _ PT M A RM) as (w0 & w & C & E & P1 & P2 & P3 & P4 & P5 & P6).
  destruct (create_sim _ _ _ _ _ (ext_of (cond_acts ts2 other)) junk (cond_none ts2, v) m PT M) as (w0' & C' & R0). assert (w0' = w0) as -> by congruence.
  destruct (steps_sim_q _ _ _ _ _ _ _ _ _ _ _ _ PT (fun D => RM D _ C) (rel_al _ _ _ _ _ al R0) A) as (w' & E' & R). assert (w' = w) as -> by congruence. clear C' E'.
  apply MsgProofs.asteps_app in A as (o1 & o2 & a1 & A1 & A2 & EQ & LN).
  destruct o1 as [|x1 [|x2 [|x3 o1]]]; try discriminate LN. cbn [app] in EQ. inversion EQ; subst x1 x2 o2; clear EQ.
  destruct (setup_rel _ _ ts2 other TR2 Q2 dels v m al d junk2 _ a1 mem PT2 ME A1 eq_refl) as [R2 M2].
  assert (LM : length (made_by dels (cond_acts ts2 other) (cond_setup junk2 d) (al_set al (ainit (cond_none ts2, v) m))) = 2%nat) by (apply (made_by_concat _ _ _ _ _ _ _ A1)).
  unfold ms. rewrite (made_by_app _ _ _ _ _ _ _ _ A1), skipn_app, <- LM, skipn_all, Nat.sub_diag. cbn [app skipn].
  destruct (made_by_concat _ _ _ _ _ _ _ A2) as (B1 & B2 & B3). rewrite M2 in B1. cbn [app] in B1. rewrite <- B1.
  assert (ST : steps_on TR2 mem d a (cond_run mem d h os (made_by dels (cond_acts ts2 other) (map (csop d) h) a1) m no_waits)).
  { apply (run_steps _ _ _ other _ Q2 dels mem d h a1 m no_waits os a); auto. eapply (closes_app _ _ _ _ _ _ _ []); [exact CL|]. cbn [map]. rewrite app_nil_r. exact A1. }
  exists w0, w. do 2 (split; [auto|]). do 2 (split; [auto|]). split; [exact P3|]. split; [auto|].
  split; [intros K; rewrite K in ST; exact ST|]. intros c l K. rewrite K in ST. cbn [steps_on] in ST.
  split; [rewrite P6; apply (cl_cur _ _ _ _ _ _ ST)|]. rewrite (r_user _ _ _ R). symmetry. apply (cr_conds _ _ _ (cl_rel _ _ _ _ _ _ ST)).
Qed.
(** Fibers 2, 3 and 4 wait for condition 1; 10 notifies one, then all, then no one. *)
Definition quiet : acts unit := fun _ _ _ _ => HRet 0.
Definition h43 : list cop :=
  [COther (SNew 2); COther (SNew 3); COther (SNew 4); COther (SAdd 2); COther (SAdd 3); COther (SAdd 4); CCreate; COther SRun; CWait 1; CWait 1; CWait 1;
   CNotify 1; COther SRun; CNotifyAll 1; COther SRun; COther SRun; COther SRun; CNotifyAll 1; CNotify 7; CClose 1; CWait 1].
Definition os43 : list out :=
  [(0, nowhere); (0, nowhere); (0, nowhere); (0, (10, INTERNAL_ID, RESUME_ADD_FIBER, 0)); (0, (10, INTERNAL_ID, RESUME_ADD_FIBER, 0)); (0, (10, INTERNAL_ID, RESUME_ADD_FIBER, 0));
   (0, (10, CONDITION_ID, CR_CREATE_SUCCESS, 1)); (0, (2, INTERNAL_ID, RESUME_ADD_FIBER, 0)); (0, (3, INTERNAL_ID, RESUME_ADD_FIBER, 0)); (0, (4, INTERNAL_ID, RESUME_ADD_FIBER, 0));
   (0, (10, INTERNAL_ID, RESUME_RUN, 0)); (0, (2, CONDITION_ID, CR_WAIT_SUCCESS, 0));
   (0, (10, CONDITION_ID, CR_NOTIFY_SUCCESS, 0)); (0, (2, INTERNAL_ID, RESUME_RUN, 0)); (0, (3, CONDITION_ID, CR_WAIT_SUCCESS, 0)); (0, (4, CONDITION_ID, CR_WAIT_SUCCESS, 0));
   (0, (10, CONDITION_ID, CR_NOTIFY_SUCCESS, 0)); (0, (2, INTERNAL_ID, RESUME_RUN, 0)); (0, (3, INTERNAL_ID, RESUME_RUN, 0)); (0, (3, CONDITION_ID, CR_CLOSE_SUCCESS, 0));
   (0, (3, CONDITION_ID, CR_WAIT_FAILURE, ERROR_RBTREE_NOT_FOUND))].
Example C43_example : exists a, asteps true (cond_acts list_tops quiet) (cond_setup [] 60 ++ map (csop 60) h43) (al_set [] (ainit (cond_none list_tops, tt) 10)) =
    Some ((STATUS_SUCCESS, nowhere) :: (STATUS_SUCCESS, nowhere) :: os43, a) /\
  cond_run false 60 h43 os43 (skipn 2 (made_by true (cond_acts list_tops quiet) (cond_setup [] 60 ++ map (csop 60) h43) (al_set [] (ainit (cond_none list_tops, tt) 10)))) 10 no_waits =
    Fine 3 (Waits [] 1).
Proof. eexists. split; vm_compute; reflexivity. Qed.
(** With the trees of src/rbtree, while the fibers that are removed and the conditions that
    are closed are deletions that C30 covers, which is so if there are none. *)
Theorem C43_real_tree_partial : forall V pick dels (other : acts V) junk junk2 v m al mem d h os a, good_pick pick -> m <> 0 -> (mem = false -> al = []) ->
  no_cond_close h \/ closes dels (cond_acts (rb_tops pick) other) rb_quiet d (cond_setup junk2 d) h (al_set al (ainit (cond_none (rb_tops pick), v) m)) ->
  asteps dels (cond_acts (rb_tops pick) other) (cond_setup junk2 d ++ map (csop d) h) (al_set al (ainit (cond_none (rb_tops pick), v) m)) =
    Some ((STATUS_SUCCESS, nowhere) :: (STATUS_SUCCESS, nowhere) :: os, a) ->
  well_removed (rb_tops pick) (cond_acts (rb_tops pick) other) rb_quiet dels junk (cond_none (rb_tops pick), v) m al (cond_setup junk2 d ++ map (csop d) h) ->
  let ms := skipn 2 (made_by dels (cond_acts (rb_tops pick) other) (cond_setup junk2 d ++ map (csop d) h) (al_set al (ainit (cond_none (rb_tops pick), v) m))) in
  exists w0 w, sched_create (rb_tops pick) (ext_of (cond_acts (rb_tops pick) other)) junk (cond_none (rb_tops pick), v) m = Some (STATUS_SUCCESS, w0) /\
    sexecs (rb_tops pick) (cond_acts (rb_tops pick) other) (cond_setup junk2 d ++ map (csop d) h) (set_al al w0) =
      Some ((STATUS_SUCCESS, nowhere) :: (STATUS_SUCCESS, nowhere) :: os, w) /\
    Permutation (concat ms) (a_ran a ++ a_ready a) /\ late (concat ms) = late (a_ran a) ++ late (a_ready a) /\
    runs_as (map snd (a_ran a)) (switches (map (csop d) h) os) /\ w_rq w = map (fun x => fst (snd x)) (a_ready a) /\
    cond_run mem d h os ms m no_waits <> Wrong.
Proof.
  intros V pick dels other junk junk2 v m al mem d h os a GP M ME NC A RM.
  assert (CL : closes dels (cond_acts (rb_tops pick) other) rb_quiet d (cond_setup junk2 d) h (al_set al (ainit (cond_none (rb_tops pick), v) m))) by (destruct NC; [apply closes_none|]; auto).
  destruct (C43_conditions_partial _ _ _ _ _ _ _ _ _ _ other junk junk2 v m al mem d h os a (real_tree pick GP) (rb_tab_ok pick GP) M ME CL A RM) as (w0 & w & H1 & H2 & H3 & H4 & H5 & H6 & H7 & _).
  exists w0, w. do 6 (split; [assumption|]). assumption.
Qed.
(** Of ten conditions four are closed, and the loop runs as 2 is; then one is notified. *)
Definition h43r : list cop := repeat CCreate 10 ++ [CClose 1; CClose 2; CClose 6; CClose 3; CNotify 5; CNotify 6].
Example C43_real_tree_example : exists os a, asteps false (cond_acts (rb_tops pick_max) quiet) (cond_setup [] 60 ++ map (csop 60) h43r) (al_set [] (ainit (cond_none (rb_tops pick_max), tt) 10)) =
    Some ((STATUS_SUCCESS, nowhere) :: (STATUS_SUCCESS, nowhere) :: os, a) /\
  closes false (cond_acts (rb_tops pick_max) quiet) rb_quiet 60 (cond_setup [] 60) h43r (al_set [] (ainit (cond_none (rb_tops pick_max), tt) 10)) /\
  skipn 14 os = [(0, (10, CONDITION_ID, CR_NOTIFY_SUCCESS, 0)); (0, (10, CONDITION_ID, CR_NOTIFY_FAILURE, ERROR_RBTREE_NOT_FOUND))].
Proof.
  eexists; eexists. split; [vm_compute; reflexivity|]. split.
  - eapply closesb_ok; [apply rb_quietb_ok|vm_compute; reflexivity|vm_compute; reflexivity].
  - vm_compute. reflexivity.
Qed.
(** What the calls of condition.h return when they are resumed. *)
Theorem C43_results : forall p,
  conditional_create_result CR_CREATE_SUCCESS p = (STATUS_SUCCESS, Some p) /\ conditional_create_result CR_CREATE_FAILURE p = (p, None) /\
  conditional_close_result CR_CLOSE_SUCCESS p = p /\ conditional_close_result CR_CLOSE_FAILURE p = p /\
  conditional_wait_result CR_WAIT_SUCCESS p = STATUS_SUCCESS /\ conditional_wait_result CR_WAIT_FAILURE p = p /\
  conditional_notify_result CR_NOTIFY_SUCCESS p = STATUS_SUCCESS /\ conditional_notify_result CR_NOTIFY_FAILURE p = p /\
  (forall e, e <> CR_CREATE_SUCCESS -> e <> CR_CREATE_FAILURE -> conditional_create_result e p = (ERROR_CONDITION_UNKNOWN_ERROR, None)) /\
  (forall e, e <> CR_CLOSE_SUCCESS -> e <> CR_CLOSE_FAILURE -> conditional_close_result e p = ERROR_CONDITION_UNKNOWN_ERROR) /\
  (forall e, e <> CR_WAIT_SUCCESS -> e <> CR_WAIT_FAILURE -> conditional_wait_result e p = ERROR_CONDITION_UNKNOWN_ERROR) /\
  (forall e, e <> CR_NOTIFY_SUCCESS -> e <> CR_NOTIFY_FAILURE -> conditional_notify_result e p = ERROR_CONDITION_UNKNOWN_ERROR).
Proof.
  intros p. do 8 (split; [reflexivity|]).
  split; [|split; [|split]]; unfold conditional_create_result, conditional_close_result, conditional_wait_result, conditional_notify_result; intros e; intros;
    repeat match goal with H : e <> ?k |- _ => apply Z.eqb_neq in H; rewrite H; clear H end; reflexivity.
Qed.
(** If the allocation that makes the waiting fiber ready fails, the fiber is lost although
    the notification succeeds: 2 waits, 10 notifies, and no one waits or is ready. *)
Definition h43l : list cop := [COther (SNew 2); COther (SAdd 2); CCreate; COther SRun; CWait 1; CNotify 1].
Theorem C43_lost_refuted : exists w0 os w, sched_create list_tops (ext_of (cond_acts list_tops quiet)) [] (cond_none list_tops, tt) 10 = Some (STATUS_SUCCESS, w0) /\
  sexecs list_tops (cond_acts list_tops quiet) (cond_setup [] 60 ++ map (csop 60) h43l) (set_al (repeat 0 12 ++ [77]) w0) = Some (os, w) /\
  skipn 5 os = [(0, (2, INTERNAL_ID, RESUME_ADD_FIBER, 0)); (0, (10, INTERNAL_ID, RESUME_RUN, 0)); (0, (10, CONDITION_ID, CR_NOTIFY_SUCCESS, 77))] /\
  conditional_notify_result CR_NOTIFY_SUCCESS 77 = STATUS_SUCCESS /\ w_rq w = [] /\ c_conds (fst (w_user w)) = [(1, [])].
Proof.
  do 3 eexists. split; [vm_compute; reflexivity|]. split; [vm_compute; reflexivity|]. split; [vm_compute; reflexivity|]. split; [vm_compute; reflexivity|]. split; vm_compute; reflexivity.
Qed.

(** ** C41 (conditions) *)
(** As for mailboxes: if allocation [i] is the first to fail and is not that of the tree
    node, the call returns an error, its status if the reclaims succeed, and stores no
    handle; the [i] blocks are reclaimed and no condition is added.  It also returns an
    error if the tree node cannot be allocated and reclaiming one of the two blocks fails.
    If nothing fails, it succeeds and stores the handle of the new condition. *)
Theorem C41_condition_partial : forall T T2 (ts2 : tops T2) TR Q yf p (w : sw T (cst T2)) tl,
  tab_ok ts2 TR Q -> TR (c_tree (w_user w)) tl -> wrap64 (c_index (w_user w) + 1) <> 0 ->
  (forall i, (i < 2)%nat -> (forall j, (j < i)%nat -> nth j (w_al w) STATUS_SUCCESS = STATUS_SUCCESS) -> nth i (w_al w) STATUS_SUCCESS <> STATUS_SUCCESS ->
     exists ev x w', hrun (create_cond ts2 COND_CTX yf p) w = hrun (at_once yf ev x) w' /\
       fst (conditional_create_result ev x) <> STATUS_SUCCESS /\ snd (conditional_create_result ev x) = None /\
       (Forall (fun r => r = STATUS_SUCCESS) (w_rc w) -> fst (conditional_create_result ev x) = nth i (w_al w) STATUS_SUCCESS) /\
       w' = after (S i) i w) /\
  ((forall j, (j < 2)%nat -> nth j (w_al w) STATUS_SUCCESS = STATUS_SUCCESS) -> nth 2 (w_al w) STATUS_SUCCESS <> STATUS_SUCCESS ->
     (exists j, (j < 2)%nat /\ nth j (w_rc w) STATUS_SUCCESS <> STATUS_SUCCESS) ->
     exists ev x, hrun (create_cond ts2 COND_CTX yf p) w = hrun (at_once yf ev x) (after 3 2 w) /\
       fst (conditional_create_result ev x) <> STATUS_SUCCESS /\ snd (conditional_create_result ev x) = None) /\
  ((forall j, (j < 3)%nat -> nth j (w_al w) STATUS_SUCCESS = STATUS_SUCCESS) ->
     exists ev x w', hrun (create_cond ts2 COND_CTX yf p) w = hrun (at_once yf ev x) w' /\
       conditional_create_result ev x = (STATUS_SUCCESS, Some (wrap64 (c_index (w_user w) + 1))) /\
       w' = set_user (w_user w') (after 3 0 w) /\
       c_conds (w_user w') = hadd (c_conds (w_user w)) (wrap64 (c_index (w_user w) + 1)) [] /\
       c_index (w_user w') = wrap64 (c_index (w_user w) + 1)).
Proof.
  intros T T2 ts2 TR Q yf p w tl OK T1 NZ.
  assert (W0 : hrun (create_cond ts2 COND_CTX yf p) w = hrun (create_cond ts2 COND_CTX yf p) (after 0 0 w)) by (unfold after; cbn [skipn]; rewrite sw_eta; reflexivity).
  assert (FR : forall i, Forall (fun r => r = STATUS_SUCCESS) (w_rc w) -> nth i (w_rc w) STATUS_SUCCESS = STATUS_SUCCESS).
  { intros i F. destruct (nth_in_or_default i (w_rc w) STATUS_SUCCESS) as [J|J]; auto. rewrite Forall_forall in F. auto. }
  unfold create_cond, on_cond in *. rewrite Z.eqb_refl in *. rewrite W0. rewrite hrun_load, hrun_malloc.
  split; [|split].
  - intros i I PRE NE. destruct i as [|[|i]]; [| |lia].
    + apply ok_false in NE. rewrite NE. cbn [negb]. do 3 eexists. split; [reflexivity|]. cbn [conditional_create_result CR_CREATE_FAILURE]. apply ok_false in NE.
      split; [exact NE|]. split; [reflexivity|]. split; [reflexivity|]. reflexivity.
    + rewrite (PRE 0%nat) by lia. change (negb (ok STATUS_SUCCESS)) with false. cbv iota. rewrite hrun_malloc. apply ok_false in NE. rewrite NE. cbn [negb]. rewrite hrun_free. do 3 eexists. split; [reflexivity|].
      apply ok_false in NE. cbn. split; [|split; [reflexivity|split; [|reflexivity]]].
      * destruct (ok _) eqn:O; cbn [negb]; [auto|apply ok_false; auto].
      * intros F. rewrite FR by auto. reflexivity.
  - intros PRE NE BAD. rewrite (PRE 0%nat) by lia. change (negb (ok STATUS_SUCCESS)) with false. cbv iota. rewrite hrun_malloc, (PRE 1%nat) by lia. change (negb (ok STATUS_SUCCESS)) with false. cbv iota.
    rewrite hrun_malloc. destruct (tb_insert _ _ _ OK (nth 2 (w_al w) STATUS_SUCCESS) (c_tree (w_user w)) tl _ T1 NZ) as (t' & I1 & I2). rewrite I1. apply ok_false in NE. cbn [need]. rewrite NE. rewrite NE. cbn [negb].
    rewrite !hrun_free. do 2 eexists. split; [reflexivity|]. cbn. split; [|reflexivity].
    destruct (ok (nth 0 (w_rc w) STATUS_SUCCESS)) eqn:O0; cbn [negb]; [|apply ok_false; auto].
    destruct BAD as (j & J & B). destruct j as [|[|j]]; [|exact B|lia]. apply ok_false in B. congruence.
  - intros PRE. rewrite (PRE 0%nat) by lia. change (negb (ok STATUS_SUCCESS)) with false. cbv iota. rewrite hrun_malloc, (PRE 1%nat) by lia. change (negb (ok STATUS_SUCCESS)) with false. cbv iota.
    rewrite hrun_malloc, (PRE 2%nat) by lia. destruct (tb_insert _ _ _ OK STATUS_SUCCESS (c_tree (w_user w)) tl _ T1 NZ) as (t' & I1 & I2). rewrite I1. cbn.
    do 3 eexists. split; [reflexivity|]. split; [reflexivity|]. split; [reflexivity|]. auto.
Qed.
(** If the tree node cannot be allocated and the reclaims succeed, the call returns
    success and stores no handle. *)
Theorem C41_condition_refuted : forall T T2 (ts2 : tops T2) TR Q yf p (w : sw T (cst T2)) tl,
  tab_ok ts2 TR Q -> TR (c_tree (w_user w)) tl -> wrap64 (c_index (w_user w) + 1) <> 0 ->
  (forall j, (j < 2)%nat -> nth j (w_al w) STATUS_SUCCESS = STATUS_SUCCESS) -> nth 2 (w_al w) STATUS_SUCCESS <> STATUS_SUCCESS ->
  Forall (fun r => r = STATUS_SUCCESS) (w_rc w) ->
  exists ev x w', hrun (create_cond ts2 COND_CTX yf p) w = hrun (at_once yf ev x) w' /\
    conditional_create_result ev x = (STATUS_SUCCESS, None) /\ w' = after 3 2 w.
Proof.
  intros T T2 ts2 TR Q yf p w tl OK T1 NZ PRE NE RC.
  assert (W0 : hrun (create_cond ts2 COND_CTX yf p) w = hrun (create_cond ts2 COND_CTX yf p) (after 0 0 w)) by (unfold after; cbn [skipn]; rewrite sw_eta; reflexivity).
  assert (FR : forall i, nth i (w_rc w) STATUS_SUCCESS = STATUS_SUCCESS).
  { intros i. destruct (nth_in_or_default i (w_rc w) STATUS_SUCCESS) as [J|J]; auto. rewrite Forall_forall in RC. auto. }
  unfold create_cond, on_cond in *. rewrite Z.eqb_refl in *. rewrite W0. rewrite hrun_load, hrun_malloc.
  rewrite (PRE 0%nat) by lia. change (negb (ok STATUS_SUCCESS)) with false. cbv iota. rewrite hrun_malloc, (PRE 1%nat) by lia. change (negb (ok STATUS_SUCCESS)) with false. cbv iota.
  rewrite hrun_malloc. destruct (tb_insert _ _ _ OK (nth 2 (w_al w) STATUS_SUCCESS) (c_tree (w_user w)) tl _ T1 NZ) as (t' & I1 & I2). rewrite I1. apply ok_false in NE. cbn [need]. rewrite NE. rewrite NE. cbn [negb].
  rewrite !hrun_free, !FR. do 3 eexists. split; [reflexivity|]. split; reflexivity.
Qed.
(** Fiber 10 asks for a condition; the third of its allocations fails. *)
Example C41_condition_example : exists w0 w, sched_create list_tops (ext_of (cond_acts list_tops quiet)) [] (cond_none list_tops, tt) 10 = Some (STATUS_SUCCESS, w0) /\
  sexecs list_tops (cond_acts list_tops quiet) (cond_setup [] 60 ++ map (csop 60) [CCreate]) (set_al [0; 0; 0; 0; 0; 77] w0) =
    Some ([(STATUS_SUCCESS, nowhere); (STATUS_SUCCESS, nowhere); (STATUS_SUCCESS, (10, CONDITION_ID, CR_CREATE_FAILURE, STATUS_SUCCESS))], w) /\
  conditional_create_result CR_CREATE_FAILURE STATUS_SUCCESS = (STATUS_SUCCESS, None) /\ c_conds (fst (w_user w)) = [].
Proof.
  do 2 eexists. split; [vm_compute; reflexivity|]. split; [vm_compute; reflexivity|]. split; [reflexivity|]. vm_compute. reflexivity.
Qed.

(** ** C42 (conditions) *)
(** Closing a condition removes it and nothing else; closing one that does not exist is
    refused. *)
Theorem C42_condition_close_partial : forall T T2 (ts2 : tops T2) TR Q yf k (w : sw T (cst T2)) tl,
  tab_ok ts2 TR Q -> TR (c_tree (w_user w)) tl -> Q (c_tree (w_user w)) k -> hwf (c_conds (w_user w)) ->
  (forall x, In x tl <-> hget (c_conds (w_user w)) x <> None) ->
  match hget (c_conds (w_user w)) k with
  | None => exists u, hrun (close_cond ts2 COND_CTX yf k) w = hrun (at_once yf CR_CLOSE_FAILURE ERROR_RBTREE_NOT_FOUND) (set_user u w) /\
      c_conds u = c_conds (w_user w) /\ c_index u = c_index (w_user w)
  | Some _ => exists u, hrun (close_cond ts2 COND_CTX yf k) w = hrun (at_once yf CR_CLOSE_SUCCESS STATUS_SUCCESS) (set_user u w) /\
      hget (c_conds u) k = None /\ (forall x, x <> k -> hget (c_conds u) x = hget (c_conds (w_user w)) x) /\ c_index u = c_index (w_user w) /\
      exists tl', TR (c_tree u) tl' /\ tl' = zdel k tl
  end.
Proof.
  intros T T2 ts2 TR Q yf k w tl OK T1 QB WB IN.
  destruct (tb_delete _ _ _ OK (c_tree (w_user w)) tl k T1 QB) as (t' & D1 & D2).
  unfold close_cond, on_cond. rewrite Z.eqb_refl. cbn [hrun]. rewrite D1.
  destruct (hget (c_conds (w_user w)) k) as [q|] eqn:G.
  - assert (Z1 : zmem k tl = true) by (apply zmem_in, IN; rewrite G; discriminate). rewrite Z1. cbn [need]. change (negb (ok STATUS_SUCCESS)) with false. cbv iota zeta. cbn [c_conds]. rewrite G. cbn [need hrun c_tree c_conds c_index].
    eexists. split; [reflexivity|]. cbn [c_tree c_conds c_index].
    split; [apply hget_hdel_same; auto|]. split; [intros; apply hget_hdel_other; auto|]. split; [reflexivity|]. eauto.
  - assert (Z1 : zmem k tl = false) by (apply zmem_not; intros K; apply IN in K; auto). rewrite Z1. cbn [need]. change (negb (ok ERROR_RBTREE_NOT_FOUND)) with true. cbv iota zeta. cbn [hrun].
    eexists. split; [reflexivity|]. auto.
Qed.
(** The fibers that wait are not woken: after the close the run queue is that of before
    with the closing fiber, the other fibers are as they were, and no condition knows
    those that waited. *)
Theorem C42_condition_refuted : forall T T2 (ts2 : tops T2) TR Q yf k (w : sw T (cst T2)) tl q f fy,
  tab_ok ts2 TR Q -> TR (c_tree (w_user w)) tl -> Q (c_tree (w_user w)) k -> hwf (c_conds (w_user w)) ->
  In k tl -> hget (c_conds (w_user w)) k = Some q -> In f q -> f <> yf -> ~ In f (w_rq w) -> hget (w_fibs w) yf = Some fy ->
  (forall x q', x <> k -> hget (c_conds (w_user w)) x = Some q' -> ~ In f q') -> w_al w = [] ->
  exists w', hrun (close_cond ts2 COND_CTX yf k) w = Some (STATUS_SUCCESS, w') /\
    w_rq w' = yf :: w_rq w /\ ~ In f (w_rq w') /\ (forall g, g <> yf -> hget (w_fibs w') g = hget (w_fibs w) g) /\
    (forall x q', hget (c_conds (w_user w')) x = Some q' -> ~ In f q').
Proof.
  intros T T2 ts2 TR Q yf k w tl q f fy OK T1 QB WB IN G F0 FY NR GY OT AL.
  destruct (tb_delete _ _ _ OK (c_tree (w_user w)) tl k T1 QB) as (t' & D1 & D2).
  unfold close_cond, on_cond. rewrite Z.eqb_refl. cbn [hrun]. rewrite D1. apply zmem_in in IN. rewrite IN. cbn [need]. change (negb (ok STATUS_SUCCESS)) with false. cbv iota zeta. cbn [c_conds]. rewrite G.
  cbn [need hrun at_once c_tree c_conds c_index]. unfold set_next, set_restore. cbn [set_user w_fibs]. rewrite GY. unfold allocation. cbn [set_fibs w_al]. change (w_al (set_user _ w)) with (w_al w). rewrite ?AL.
  change (ok STATUS_SUCCESS) with true. cbv iota. eexists. split; [reflexivity|]. cbn [set_rq w_rq w_fibs w_user c_conds].
  split; [reflexivity|]. split; [intros [K|K]; auto|]. split; [intros g NE; apply hget_hset_other; auto|].
  intros x q' K. change (hget (hdel (c_conds (w_user w)) k) x = Some q') in K. destruct (Z.eq_dec x k) as [->|NE]; [rewrite hget_hdel_same in K by auto; discriminate|]. rewrite hget_hdel_other in K by auto. eauto.
Qed.
(** Fiber 2 waits for a condition; 10 closes it and lets others run, but there is none. *)
Definition h42c : list cop := [COther (SNew 2); COther (SAdd 2); CCreate; COther SRun; CWait 1; CClose 1; COther SRun].
Example C42_condition_example : exists w0 os w, sched_create list_tops (ext_of (cond_acts list_tops quiet)) [] (cond_none list_tops, tt) 10 = Some (STATUS_SUCCESS, w0) /\
  sexecs list_tops (cond_acts list_tops quiet) (cond_setup [] 60 ++ map (csop 60) h42c) w0 = Some (os, w) /\
  skipn 5 os = [(0, (2, INTERNAL_ID, RESUME_ADD_FIBER, 0)); (0, (10, INTERNAL_ID, RESUME_RUN, 0)); (0, (10, CONDITION_ID, CR_CLOSE_SUCCESS, 0)); (0, (10, INTERNAL_ID, RESUME_RUN, 0))] /\
  w_rq w = [] /\ c_conds (fst (w_user w)) = [].
Proof.
  do 3 eexists. split; [vm_compute; reflexivity|]. split; [vm_compute; reflexivity|]. split; [vm_compute; reflexivity|]. split; vm_compute; reflexivity.
Qed.

Print Assumptions C43_conditions_partial.
Print Assumptions C43_real_tree_partial.
Print Assumptions C43_results.
Print Assumptions C43_lost_refuted.
Print Assumptions C41_condition_partial.
Print Assumptions C41_condition_refuted.
Print Assumptions C42_condition_close_partial.
Print Assumptions C42_condition_refuted.
