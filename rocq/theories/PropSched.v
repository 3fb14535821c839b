(** C35 - C37, C53, C54: the disciplined scheduler. *)
From Coq Require Import Permutation.
From Verif Require Import Base Status MemModel MemProofs Heap TabModel TabSpec TabProofs TabRb SchedModel SchedSpec SchedProofs SchedHist.

(** The theorems are for every tree of fibers that does what TabSpec.v says; this is so
    of the tree of src/rbtree as far as its deletions are those that C30 covers, and of a
    correct tree always. *)
Lemma any_tree : tab_ok list_tops (fun t l => t = l) (fun _ _ => True).
Proof. apply list_perfect. Qed.
Lemma real_tree : forall pick, good_pick pick -> tab_ok (rb_tops pick) rb_holds rb_quiet.
Proof. apply rb_tab_ok. Qed.
(** Nothing is asked of a correct tree, and nothing if no fiber is removed. *)
Lemma removed_any : forall T U (ts : tops T) (ac : acts U) dels junk u m al h, well_removed ts ac (fun _ _ => True) dels junk u m al h.
Proof. intros T U ts ac dels junk u m al h _ w0 _ h1 p h2 os w1 _ _. destruct p; cbn [removal]; auto. Qed.
Lemma removed_none : forall T U (ts : tops T) (ac : acts U) Q junk u m al h, well_removed ts ac Q false junk u m al h.
Proof. intros T U ts ac Q junk u m al h E. discriminate. Qed.

(** ** C35 *)
(** Every covered history, with any allocation failures and any user disciplines, does
    exactly what the specification says.  What was made ready is what was resumed plus
    what is ready; what was made ready behind the others was resumed in that order; the
    values found on resumption are those it was made ready with. *)
Theorem C35_refines_partial : forall T U (ts : tops T) TR Qr dels (ac : acts U) junk u m al h os a,
  tab_ok ts TR Qr -> m <> 0 -> asteps dels ac h (al_set al (ainit u m)) = Some (os, a) ->
  well_removed ts ac Qr dels junk u m al h ->
  exists w0 w, sched_create ts (ext_of ac) junk u m = Some (STATUS_SUCCESS, w0) /\
    sexecs ts ac h (set_al al w0) = Some (os, w) /\
    Permutation (a_made a) (a_ran a ++ a_ready a) /\
    late (a_made a) = late (a_ran a) ++ late (a_ready a) /\
    runs_as (map snd (a_ran a)) (switches h os) /\
    w_rq w = map (fun x => fst (snd x)) (a_ready a) /\ NoDup (w_rq w) /\ w_cur w = a_cur a.
Proof.
  intros T U ts TR Qr dels ac junk u m al h os a PT M A RM.
  destruct (create_sim _ _ _ _ _ (ext_of ac) junk u m PT M) as (w0 & C & R0).
  destruct (steps_sim_q _ _ _ _ _ _ _ _ _ _ _ _ PT (fun D => RM D w0 C) (rel_al _ _ _ _ _ al R0) A) as (w & E & R).
  exists w0, w. do 2 (split; [auto|]). destruct (steps_good _ _ _ _ _ _ _ (good_init _ u m al) A) as [G1 G2].
  do 2 (split; [auto|]). destruct (steps_ran _ _ _ _ _ _ _ A) as (l & L1 & L2). cbn [al_set ainit a_ran app] in L1. subst l.
  split; [auto|]. rewrite (r_rq _ _ _ R). split; [auto|]. split; [apply (r_nodup _ _ _ R)|apply (r_cur _ _ _ R)].
Qed.
(** With the tree of src/rbtree: nothing is removed from it, or each removal is a deletion
    that C30 covers. *)
Theorem C35_real_tree_partial : forall U pick dels (ac : acts U) junk u m al h os a, good_pick pick -> m <> 0 ->
  asteps dels ac h (al_set al (ainit u m)) = Some (os, a) ->
  well_removed (rb_tops pick) ac rb_quiet dels junk u m al h ->
  exists w0 w, sched_create (rb_tops pick) (ext_of ac) junk u m = Some (STATUS_SUCCESS, w0) /\
    sexecs (rb_tops pick) ac h (set_al al w0) = Some (os, w) /\ w_rq w = map (fun x => fst (snd x)) (a_ready a) /\
    t_elems (rb_tops pick) (w_tab w) = Some (a_known a).
Proof.
  intros U pick dels ac junk u m al h os a GP M A RM.
  destruct (create_sim _ _ _ _ _ (ext_of ac) junk u m (rb_tab_ok pick GP) M) as (w0 & C & R0).
  destruct (steps_sim_q _ _ _ _ _ _ _ _ _ _ _ _ (rb_tab_ok pick GP) (fun D => RM D w0 C) (rel_al _ _ _ _ _ al R0) A) as (w & E & R).
  exists w0, w. do 2 (split; [auto|]). split; [apply (r_rq _ _ _ R)|]. apply (tb_elems _ _ _ (rb_tab_ok pick GP)), (r_tab _ _ _ R).
Qed.
(** Disciplines 7 and 8: function 1 suspends the yielder and keeps it in the state, function 2
    wakes the kept fiber after all others with the parameter and lets the yielder go on. *)
Definition waker : acts Z := fun fn cx yf p =>
  if fn =? 1 then HStore yf (HRet 0)
  else if fn =? 2 then HLoad (fun u => HReady false (u, (cx, 5, p)) (fun e => if negb (ok e) then HRet e else HReady true (yf, (cx, 6, 0)) (fun e => HStore 0 (HRet e))))
  else HRet 0.
Definition h35a : list sop :=
  [SNew 2; SNew 3; SDisc [9] 50 7 70 [1; 2]; SDiscAdd 50; SDiscFind 7; SAdd 2; SAdd 3; SRun; SYield 50 0 0; SRun; SYield 50 1 99; SRun; SRun; SReceive; SYield 50 3 0; SNew 4; SAdd 4; SStop].
Example C35_example : exists a, asteps false waker h35a (al_set [0; 0; 0; 0; 0; 0; 0; 0] (ainit 0 10)) =
  Some ([(0, nowhere); (0, nowhere); (0, nowhere); (0, nowhere); (0, (50, 0, 0, 0));
         (0, (10, INTERNAL_ID, RESUME_ADD_FIBER, 0)); (0, (10, INTERNAL_ID, RESUME_ADD_FIBER, 0));
         (0, (2, INTERNAL_ID, RESUME_ADD_FIBER, 0)); (0, (3, INTERNAL_ID, RESUME_ADD_FIBER, 0));
         (0, (10, INTERNAL_ID, RESUME_RUN, 0)); (0, (10, 70, 6, 0)); (0, (3, INTERNAL_ID, RESUME_RUN, 0));
         (0, (2, 70, 5, 99)); (0, (10, INTERNAL_ID, RESUME_RUN, 0)); (ERROR_FIBER_SCHEDULER_BAD_YIELD_EVENT, nowhere);
         (0, nowhere); (0, (2, MANAGEMENT_ID, MGMT_FIBER_ADD, 4)); (0, (10, INTERNAL_ID, RESUME_ADD_FIBER, 0))], a) /\
  map snd (a_ready a) = [(3, (INTERNAL_ID, RESUME_RUN, 0)); (4, (INTERNAL_ID, RESUME_ADD_FIBER, 0))].
Proof. eexists. split; [vm_compute; reflexivity|]. vm_compute. reflexivity. Qed.
(** Ten fibers are added and four are removed; the loop of the deletion runs as 22 is. *)
Definition h35r : list sop := flat_map (fun f => [SNew f; SAdd f]) [21; 22; 23; 24; 25; 26; 27; 28; 29; 30] ++ [SRemove 21; SRemove 22; SRemove 26; SRemove 23; SRemove 26; SRun].
Example C35_real_tree_example : exists os a, asteps true waker h35r (al_set [] (ainit 0 10)) = Some (os, a) /\
  well_removed (rb_tops pick_max) waker rb_quiet true [] 0 10 [] h35r /\ a_known a = [24; 25; 27; 28; 29; 30] /\
  skipn 20 os = [(0, nowhere); (0, nowhere); (0, nowhere); (0, nowhere); (ERROR_RBTREE_NOT_FOUND, nowhere); (0, (21, INTERNAL_ID, RESUME_ADD_FIBER, 0))].
Proof.
  eexists; eexists. split; [vm_compute; reflexivity|]. split.
  - intros _ w0 C. assert (C1 : sched_create (rb_tops pick_max) (ext_of waker) [] 0 10 = Some (STATUS_SUCCESS, w0)) by exact C. clear C. revert C1.
    vm_compute sched_create. intros C. inversion C; subst w0. eapply removalsb_ok; [apply rb_quietb_ok|vm_compute; reflexivity].
  - split; vm_compute; reflexivity.
Qed.

(** Not first in, first out: the fiber that adds another one goes on before fibers that
    were ready before. *)
Theorem C35_fifo_refuted : exists w0 w, sched_create list_tops (ext_of waker) [] 0 10 = Some (STATUS_SUCCESS, w0) /\
  sexecs list_tops waker [SNew 2; SNew 3; SAdd 2] w0 = Some ([(0, nowhere); (0, nowhere); (0, (10, INTERNAL_ID, RESUME_ADD_FIBER, 0))], w) /\
  w_rq w = [2] /\ exists w', sexec list_tops waker (SAdd 3) w = Some ((0, (10, INTERNAL_ID, RESUME_ADD_FIBER, 0)), w') /\ w_rq w' = [2; 3].
Proof.
  eexists; eexists. split; [vm_compute; reflexivity|]. split; [vm_compute; reflexivity|]. split; [vm_compute; reflexivity|].
  eexists. split; vm_compute; reflexivity.
Qed.
(** Not once: fiber 2 waits for management events, 10 adds fiber 3, and the allocation
    that tells 2 fails.  10 gets the error and goes on, but was also made ready: it runs
    twice for each of its next yields, so that its second one lets no one else run. *)
Theorem C35_once_refuted : exists w0 w, sched_create list_tops (ext_of waker) [] 0 10 = Some (STATUS_SUCCESS, w0) /\
  sexecs list_tops waker [SNew 2; SAdd 2; SRun; SReceive; SNew 3; SAdd 3; SRun] (set_al [0; 0; 0; 0; 0; 0; 0; 77] w0) =
    Some ([(0, nowhere); (0, (10, INTERNAL_ID, RESUME_ADD_FIBER, 0)); (0, (2, INTERNAL_ID, RESUME_ADD_FIBER, 0));
           (0, (10, INTERNAL_ID, RESUME_RUN, 0)); (0, nowhere); (77, nowhere); (0, (10, INTERNAL_ID, RESUME_RUN, 0))], w) /\
  w_rq w = [3; 10].
Proof. eexists; eexists. split; [vm_compute; reflexivity|]. split; vm_compute; reflexivity. Qed.
(** A failed addition of a fiber adds it nevertheless if the third allocation failed. *)
Theorem C35_failed_add_refuted : exists w0 w, sched_create list_tops (ext_of waker) [] 0 10 = Some (STATUS_SUCCESS, w0) /\
  sexecs list_tops waker [SNew 2; SAdd 2] (set_al [0; 0; 77] w0) = Some ([(0, nowhere); (77, nowhere)], w) /\ w_rq w = [2] /\ w_tab w = [2].
Proof. eexists; eexists. split; [vm_compute; reflexivity|]. split; [vm_compute; reflexivity|]. split; vm_compute; reflexivity. Qed.

(** ** C36 *)
(** A yield of event [ev] of a registered discipline calls its callback number [ev] with
    its context and with the yielding fiber, for any meaning [cl] of the callbacks, and
    nothing else happens before or instead. *)
Theorem C36_dispatch_partial : forall T U (ts : tops T) TR Qr dels (ac : acts U) (w : sw T U) a d x ev p fn,
  tab_ok ts TR Qr -> reached ts Qr dels ac w a -> hget (a_discs a) d = Some x -> dd_owned x = true ->
  0 <= ev -> nth_error (dd_cbs x) (Z.to_nat ev) = Some fn ->
  exists c, 0 <= c < 2^31 /\ forall cl, discipline_yield cl d ev p w = handled (cl fn (dd_ctx x) (a_cur a) c p w).
Proof.
  intros T U ts TR Qr dels ac w a d x ev p fn PT RE X Ow P0 N. pose proof (reached_rel T U ts TR Qr dels ac w a PT RE) as R.
  pose proof (rel_reg _ _ _ _ _ R) as S0. pose proof (r_reg _ _ _ R) as G.
  assert (K : exists c, 0 <= c /\ (forall cl, discipline_yield cl d ev p w = yield cl c p w) /\
    nth_error (g_cbs (w_reg w)) (Z.to_nat c) = Some fn /\ nth_error (g_ctxs (w_reg w)) (Z.to_nat c) = Some (dd_ctx x)).
  { apply (dyield_all _ _ TR w a d x ev p fn R X Ow P0 N). }
  destruct K as (c & C0 & C1 & C2 & C3). exists c.
  assert (L : (Z.to_nat c < length (g_cbs (w_reg w)))%nat) by (apply nth_error_Some; rewrite C2; discriminate).
  split; [lia|]. intros cl. rewrite C1. unfold yield, sched_callback, handled.
  unfold to_size, wrap64. rewrite Z.mod_small by lia. replace (Z.of_nat (length (g_cbs (w_reg w))) <=? c) with false by (symmetry; apply Z.leb_gt; lia).
  rewrite C2, C3, (r_cur _ _ _ R). destruct (cl fn (dd_ctx x) (a_cur a) c p w) as [[e w1]|]; [|reflexivity].
  destruct (ok e) eqn:O; cbn [negb]; [|rewrite O; reflexivity]. destruct (pick_next w1) as [[[e2 [[[f2 d2] ev2] p2]] w2]|]; reflexivity.
Qed.
(** Event numbers below zero or above the number of callbacks are refused and nothing
    happens. *)
Theorem C36_refused_partial : forall T U (ts : tops T) TR Qr dels (ac : acts U) (w : sw T U) a d x ev p cl,
  tab_ok ts TR Qr -> reached ts Qr dels ac w a -> hget (a_discs a) d = Some x -> dd_owned x = true ->
  - 2^31 <= ev < 2^31 -> ev < 0 \/ Z.of_nat (length (dd_cbs x)) < ev ->
  discipline_yield cl d ev p w = Some (ERROR_FIBER_SCHEDULER_BAD_YIELD_EVENT, w).
Proof.
  intros T U ts TR Qr dels ac w a d x ev p cl PT RE X Ow B K. pose proof (reached_rel T U ts TR Qr dels ac w a PT RE) as R.
  apply (dyield_bad _ _ TR w a d x ev p cl R X Ow B K).
Qed.
(** The number just above the last callback is not refused: the table of codes is read
    out of its bounds, for every discipline. *)
Theorem C36_bound_refuted : forall T U (ts : tops T) TR Qr dels (ac : acts U) (w : sw T U) a d x p cl,
  tab_ok ts TR Qr -> reached ts Qr dels ac w a -> hget (a_discs a) d = Some x -> dd_owned x = true ->
  discipline_yield cl d (Z.of_nat (length (dd_cbs x))) p w = None.
Proof.
  intros T U ts TR Qr dels ac w a d x p cl PT RE X Ow. pose proof (reached_rel T U ts TR Qr dels ac w a PT RE) as R.
  apply (dyield_edge _ _ TR w a d x p cl R X Ow).
Qed.
(** A discipline is found under its identifier exactly when it was registered; it is
    refused if it is registered already or its identifier is taken. *)
Theorem C36_registration : forall T U (ts : tops T) TR Qr dels (ac : acts U) (w : sw T U) a,
  tab_ok ts TR Qr -> reached ts Qr dels ac w a ->
  (forall id, discipline_find id w = match find (fun y => fst y =? id) (a_ids a) with Some y => (STATUS_SUCCESS, snd y) | None => (ERROR_FIBER_SCHEDULER_DISCIPLINE_NOT_FOUND, 0) end) /\
  (forall d x, hget (a_discs a) d = Some x -> dd_owned x = true -> discipline_add d w = Some (ERROR_FIBER_SCHEDULER_DISCIPLINE_ALREADY_OWNED, w)) /\
  (forall d x y, hget (a_discs a) d = Some x -> dd_owned x = false -> In y (a_ids a) -> fst y = dd_id x ->
     discipline_add d w = Some (ERROR_FIBER_SCHEDULER_DUPLICATE_DISCIPLINE_ID, w)) /\
  (forall d x, hget (a_discs a) d = Some x -> dd_owned x = false -> (forall y, In y (a_ids a) -> fst y <> dd_id x) -> a_al a = [] ->
     a_total a + Z.of_nat (length (dd_cbs x)) < 2^31 ->
     exists w', discipline_add d w = Some (STATUS_SUCCESS, w') /\ discipline_find (dd_id x) w' = (STATUS_SUCCESS, d) /\ w_rq w' = w_rq w /\ w_fibs w' = w_fibs w).
Proof.
  intros T U ts TR Qr dels ac w a PT RE. pose proof (reached_rel T U ts TR Qr dels ac w a PT RE) as R. pose proof (r_reg _ _ _ R) as G.
  assert (DA : forall d x, hget (a_discs a) d = Some x -> exists y, hget (g_heap (w_reg w)) d = Some y /\ drop_codes y = x).
  { intros d x X. rewrite (g_dd _ _ _ _ G), hmap_get in X. destruct (hget (g_heap (w_reg w)) d) as [y|]; inversion X; eauto. }
  split; [|split; [|split]].
  - intros id. unfold discipline_find. rewrite (g_ids _ _ _ _ G). reflexivity.
  - intros d x X Ow. destruct (DA _ _ X) as (y & Y & <-). cbn [drop_codes dd_owned] in Ow. unfold discipline_add. rewrite Y, Ow. reflexivity.
  - intros d x z X Ow I E. destruct (DA _ _ X) as (y & Y & <-). cbn [drop_codes dd_owned dd_id] in *. unfold discipline_add. rewrite Y, Ow, (g_ids _ _ _ _ G).
    replace (existsb (fun y0 => fst y0 =? d_id y) (a_ids a)) with true; [reflexivity|]. symmetry. apply existsb_exists. exists z. split; [auto|apply Z.eqb_eq; auto].
  - intros d x X Ow N AL Sm. destruct (DA _ _ X) as (y & Y & <-). cbn [drop_codes dd_owned dd_id dd_cbs] in *. unfold discipline_add. rewrite Y, Ow, (g_ids _ _ _ _ G).
    replace (existsb (fun y0 => fst y0 =? d_id y) (a_ids a)) with false.
    2:{ symmetry. destruct (existsb _ _) eqn:E; auto. apply existsb_exists in E as (z & I & E). apply Z.eqb_eq in E. exfalso. apply (N z I E). }
    assert (A0 : forall v : sw T U, w_al v = [] -> allocation v = (STATUS_SUCCESS, v)) by (intros v V; unfold allocation; rewrite V; reflexivity).
    assert (AW : w_al w = []) by (rewrite (r_al _ _ _ R); exact AL).
    rewrite (A0 w AW). change (ok STATUS_SUCCESS) with true. cbn [negb].
    do 2 (rewrite A0 by exact AW; change (ok STATUS_SUCCESS) with true; cbn [negb]).
    eexists. split; [reflexivity|]. unfold discipline_find. unset. cbn [g_discs find fst snd]. rewrite Z.eqb_refl. auto.
Qed.
(** Two disciplines, the second one registered after two others. *)
Example C36_example : exists w a, reached list_tops (fun _ _ => True) true waker w a /\
  hget (a_discs a) 50 = Some (DD true 7 70 [1; 2]) /\ hget (a_discs a) 51 = Some (DD true 8 80 [3; 4; 5]) /\
  hget (a_discs a) 52 = Some (DD false 8 90 [6]) /\ a_ids a = [(8, 51); (7, 50); (MANAGEMENT_ID, MGMT_DISC)] /\
  (forall p, discipline_yield (fun fn cx yf _ _ w => Some (10000 * fn + 100 * cx + yf, w)) 51 2 p w = Some (10000 * 5 + 100 * 80 + 10, w)) /\
  discipline_add 52 w = Some (ERROR_FIBER_SCHEDULER_DUPLICATE_DISCIPLINE_ID, w).
Proof.
  eexists; eexists. split.
  { exists [], 0, 10, [], [SDisc [] 50 7 70 [1; 2]; SDiscAdd 50; SDisc [] 51 8 80 [3; 4; 5]; SDiscAdd 51; SDisc [] 52 8 90 [6]]. do 2 eexists.
    split; [discriminate|]. split; [vm_compute; reflexivity|]. split; [vm_compute; reflexivity|]. split; [vm_compute; reflexivity|apply removed_any]. }
  do 4 (split; [vm_compute; reflexivity|]). split; [|vm_compute; reflexivity]. intros p. vm_compute. reflexivity.
Qed.

(** ** C37 *)
(** What the call that asked returns: the outcome of its own request, and an error if it is
    resumed by anything else. *)
Theorem C37_result : forall d e p,
  (d = MANAGEMENT_ID -> e = MGMT_RESULT -> request_result d e p = p) /\
  (d <> MANAGEMENT_ID \/ e <> MGMT_RESULT -> request_result d e p = ERROR_FIBER_UNEXPECTED_RESUME_EVENT).
Proof.
  intros. unfold request_result. split.
  - intros -> ->. rewrite !Z.eqb_refl. reflexivity.
  - intros [H|H]; apply Z.eqb_neq in H; rewrite H; [reflexivity|]. destruct (d =? MANAGEMENT_ID); reflexivity.
Qed.
Example C37_result_example : request_result MANAGEMENT_ID MGMT_RESULT ERROR_FIBER_INVALID_STATE = ERROR_FIBER_INVALID_STATE /\
  request_result INTERNAL_ID RESUME_RUN 0 = ERROR_FIBER_UNEXPECTED_RESUME_EVENT.
Proof. split; reflexivity. Qed.

(** A running fiber that is not ready is resumed at once with the request; then the one
    that asked continues with success, then all others with what they were going to be
    resumed with. *)
Theorem C37_request_partial : forall T U (ts : tops T) TR Qr dels (ac : acts U) (w : sw T U) a t f,
  tab_ok ts TR Qr -> reached ts Qr dels ac w a -> a_al a = [] ->
  can_run a (a_cur a) -> can_run a f -> f <> a_cur a -> hget (a_life a) f = Some RUNNING ->
  exists w', sexec ts ac (SRequest t f) w = Some ((STATUS_SUCCESS, (f, MANAGEMENT_ID, request_event t, 0)), w') /\
    w_rq w' = a_cur a :: w_rq w /\ pending w' (a_cur a) = Some (MANAGEMENT_ID, MGMT_RESULT, STATUS_SUCCESS) /\
    forall g, In g (w_rq w) -> pending w' g = pending w g.
Proof.
  intros T U ts TR Qr dels ac w a t f PT RE AL CC CF NE RN. pose proof (reached_rel T U ts TR Qr dels ac w a PT RE) as R.
  assert (A : exists a', astep dels ac (SRequest t f) a = Some ((STATUS_SUCCESS, (f, MANAGEMENT_ID, request_event t, 0)), a') /\
    a_ready a' = (true, (a_cur a, (MANAGEMENT_ID, MGMT_RESULT, STATUS_SUCCESS))) :: a_ready a).
  { cbn [astep]. rewrite RN. change (RUNNING =? RUNNING) with true. cbn iota. cbn [pushes]. rewrite push_ok by auto.
    change (ok STATUS_SUCCESS) with true. cbn [negb]. rewrite push_ok; [|exact AL|].
    2:{ destruct CF as (s & L & N & Q). exists s. do 2 (split; [auto|]). unfold is_ready in *. cbn [queue_set a_ready existsb snd fst].
        replace (a_cur a =? f) with false by (symmetry; apply Z.eqb_neq; auto). exact Q. }
    change (ok STATUS_SUCCESS) with true. cbn [negb resume]. change (ok STATUS_SUCCESS) with true. cbn [negb queue_set a_ready snd].
    match goal with |- exists a', go ?x ?r ?n ?b = _ /\ _ => destruct (go_ok _ f MANAGEMENT_ID (request_event t) 0 r n b RUNNING RN) as (a' & G & G1 & _ & _) end; [discriminate|].
    exists a'. split; [exact G|auto]. }
  destruct A as (a' & A & Q). destruct (step_sim_q T U ts TR dels Qr ac w a (SRequest t f) _ a' PT (fun _ => Logic.I) R A) as (w' & E & R').
  exists w'. split; [auto|]. rewrite (r_rq _ _ _ R'), Q, (r_rq _ _ _ R). split; [reflexivity|].
  split; [eapply rel_pending; [exact R'|]; rewrite Q; left; reflexivity|].
  intros g G. apply in_map_iff in G as (x & <- & G). destruct x as [b [g v]]. change (who (b, (g, v))) with g.
  rewrite (rel_pending _ _ _ _ _ g v R) by (apply in_map_iff; exists (b, (g, v)); auto).
  eapply rel_pending; [exact R'|]. rewrite Q. right. apply in_map_iff. exists (b, (g, v)). auto.
Qed.
(** A fiber that does not run yet, or no more, is not resumed: the request is refused. *)
Theorem C37_refused : forall T U (ts : tops T) TR Qr dels (ac : acts U) (w : sw T U) a t f s,
  tab_ok ts TR Qr -> reached ts Qr dels ac w a -> a_al a = [] ->
  can_run a (a_cur a) -> hget (a_life a) f = Some s -> s <> RUNNING ->
  exists w', sexec ts ac (SRequest t f) w = Some ((STATUS_SUCCESS, (a_cur a, MANAGEMENT_ID, MGMT_RESULT, ERROR_FIBER_INVALID_STATE)), w') /\
    w_rq w' = w_rq w /\ forall g, In g (w_rq w) -> pending w' g = pending w g.
Proof.
  intros T U ts TR Qr dels ac w a t f s PT RE AL CC L NR. pose proof (reached_rel T U ts TR Qr dels ac w a PT RE) as R.
  assert (A : exists a', astep dels ac (SRequest t f) a = Some ((STATUS_SUCCESS, (a_cur a, MANAGEMENT_ID, MGMT_RESULT, ERROR_FIBER_INVALID_STATE)), a') /\ a_ready a' = a_ready a).
  { cbn [astep]. rewrite L. apply Z.eqb_neq in NR. rewrite NR. rewrite push_ok by auto. cbn [resume]. change (ok STATUS_SUCCESS) with true. cbn [negb queue_set a_ready snd].
    destruct CC as (s0 & L0 & N0 & _).
    match goal with |- exists a', go ?x ?r ?n ?b = _ /\ _ => destruct (go_ok _ (a_cur a) MANAGEMENT_ID MGMT_RESULT ERROR_FIBER_INVALID_STATE r n b s0 L0 N0) as (a' & G & G1 & _ & _) end.
    exists a'. split; [exact G|auto]. }
  destruct A as (a' & A & Q). destruct (step_sim_q T U ts TR dels Qr ac w a (SRequest t f) _ a' PT (fun _ => Logic.I) R A) as (w' & E & R').
  exists w'. split; [auto|]. rewrite (r_rq _ _ _ R'), Q, (r_rq _ _ _ R). split; [reflexivity|].
  intros g G. apply in_map_iff in G as (x & <- & G). destruct x as [b [g v]]. change (who (b, (g, v))) with g.
  rewrite (rel_pending _ _ _ _ _ g v R) by (apply in_map_iff; exists (b, (g, v)); auto).
  eapply rel_pending; [exact R'|]. rewrite Q. apply in_map_iff. exists (b, (g, v)). auto.
Qed.
(** A request to all fibers: the ready fibers run first, with their own values, then each
    running fiber of the scheduler with the request, once, then the one that asked. *)
Theorem C37_request_all_partial : forall T U (ts : tops T) TR Qr dels (ac : acts U) (w : sw T U) a t,
  tab_ok ts TR Qr -> reached ts Qr dels ac w a -> a_al a = [] ->
  (forall f, In f (a_known a) -> f <> 0 /\ In f (addrs (a_life a))) -> can_run a (a_cur a) -> 
  (forall f, In f (targets a) -> is_ready f a = false) -> (forall f, In f (w_rq w) -> hget (a_life a) f <> Some STOPPED) ->
  exists g v w', sexec ts ac (SRequestAll t) w = Some ((STATUS_SUCCESS, (g, fst (fst v), snd (fst v), snd v)), w') /\
    g :: w_rq w' = w_rq w ++ targets a ++ [a_cur a] /\
    forall f, let now := if f =? g then Some v else pending w' f in
      (In f (w_rq w) -> now = pending w f) /\ (In f (targets a) -> now = Some (MANAGEMENT_ID, request_event t, 0)) /\
      (f = a_cur a -> now = Some (MANAGEMENT_ID, MGMT_RESULT, STATUS_SUCCESS)).
Proof.
  intros T U ts TR Qr dels ac w a t PT RE AL KN CC TN NS. pose proof (reached_rel T U ts TR Qr dels ac w a PT RE) as R. pose proof (reached_known T U ts Qr dels ac w a RE) as ND.
  assert (NT : NoDup (targets a)) by (apply NoDup_filter; auto).
  assert (CT : forall f, In f (targets a) -> can_run a f).
  { intros f F. pose proof (TN f F) as Q. apply filter_In in F as [_ F]. apply andb_true_iff in F as [F _]. apply andb_true_iff in F as [F _].
    destruct (hget (a_life a) f) as [s|] eqn:L; [|discriminate]. exists s. split; [auto|]. split; [|auto]. apply Z.eqb_eq in F. subst s. discriminate. }
  assert (NC : ~ In (a_cur a) (targets a)).
  { intros F. apply filter_In in F as [_ F]. rewrite Z.eqb_refl in F. cbn [negb andb] in F. rewrite andb_false_r in F. discriminate. }
  set (es := map (fun f => (false, (f, (MANAGEMENT_ID, request_event t, 0)))) (targets a)).
  set (q := a_ready a ++ es ++ [(false, (a_cur a, (MANAGEMENT_ID, MGMT_RESULT, STATUS_SUCCESS)))]).
  assert (Hq : forall x, In x q -> exists s, hget (a_life a) (who x) = Some s /\ s <> STOPPED).
  { intros x X. unfold q in X. apply in_app_iff in X as [X|X].
    - assert (I : In (who x) (w_rq w)) by (rewrite (r_rq _ _ _ R); apply in_map; auto). pose proof (NS _ I) as K.
      destruct x as [b [f [[d e] p]]]. destruct (r_ent _ _ _ R f d e p) as (bb & BB & _); [apply in_map_iff; eexists; split; [|exact X]; reflexivity|].
      change (who (b, (f, (d, e, p)))) with f in *. rewrite (life_get _ _ _ _ _ f R), BB in *. cbn [option_map] in *. eexists. split; [reflexivity|]. congruence.
    - apply in_app_iff in X as [X|[X|[]]].
      + apply in_map_iff in X as (f & <- & F). destruct (CT f F) as (s & L & N & _). exists s. auto.
      + subst x. destruct CC as (s & L & N & _). exists s. auto. }
  assert (P : exists a1, pushes (es ++ [(false, (a_cur a, (MANAGEMENT_ID, MGMT_RESULT, STATUS_SUCCESS)))]) a = Some (STATUS_SUCCESS, a1) /\ a_ready a1 = q /\ a_life a1 = a_life a).
  { unfold es. rewrite pushes_back by auto. cbn [pushes]. rewrite push_ok; [|exact AL|].
    - change (ok STATUS_SUCCESS) with true. cbn [negb]. eexists. split; [reflexivity|]. cbn [queue_set a_ready a_life]. unfold q, es. rewrite app_assoc. auto.
    - destruct CC as (s & L & N & Q). exists s. do 2 (split; [auto|]). cbn [fst]. unfold is_ready in *. cbn [queue_set a_ready]. rewrite existsb_app. apply orb_false_iff. split; [exact Q|].
      apply not_true_is_false. intros K. apply existsb_exists in K as (x & X & E). apply in_map_iff in X as (f & <- & F). apply Z.eqb_eq in E. cbn [snd fst] in E. subst f. auto. }
  destruct P as (a1 & P & Q1 & L1). destruct q as [|[b [g [[d e] p]]] q'] eqn:EQ; [unfold q in EQ; destruct (a_ready a), es; discriminate|].
  assert (A : exists a', astep dels ac (SRequestAll t) a = Some ((STATUS_SUCCESS, (g, d, e, p)), a') /\ a_ready a' = q').
  { cbn [astep]. replace (forallb _ (a_known a)) with true.
    2:{ symmetry. apply forallb_forall. intros f F. destruct (KN f F) as [K1 K2]. apply andb_true_iff. split; [apply zmem_in; auto|apply negb_true_iff, Z.eqb_neq; auto]. }
    fold es. rewrite P. cbn [resume]. change (ok STATUS_SUCCESS) with true. cbn [negb]. rewrite Q1. cbn [snd].
    destruct (Hq _ (or_introl eq_refl)) as (s & L & N). cbn [who snd fst] in L. rewrite <- L1 in L.
    destruct (go_ok _ g d e p q' (a_ran a1 ++ [(b, (g, (d, e, p)))]) a1 s L N) as (a' & G & G1 & _). exists a'. split; [exact G|auto]. }
  destruct A as (a' & A & Qa). destruct (step_sim_q T U ts TR dels Qr ac w a (SRequestAll t) _ a' PT (fun _ => Logic.I) R A) as (w' & E & R').
  exists g, (d, e, p), w'. split; [exact E|]. rewrite (r_rq _ _ _ R'), Qa, (r_rq _ _ _ R).
  assert (WQ : map who (a_ready a) ++ targets a ++ [a_cur a] = g :: map who q').
  { transitivity (map who q); [|rewrite EQ; reflexivity]. unfold q, es. rewrite !map_app, map_map. cbn [map who snd fst]. rewrite map_id. reflexivity. }
  split; [auto|]. 
  assert (LK : forall f v, In (f, v) (map snd ((b, (g, (d, e, p))) :: q')) -> (if f =? g then Some (d, e, p) else pending w' f) = Some v).
  { assert (NDQ : NoDup (map who ((b, (g, (d, e, p))) :: q'))).
    { change (NoDup (g :: map who q')). constructor; [|rewrite <- Qa; apply (r_nodup _ _ _ R')]. 
      assert (ND2 : NoDup (map who (a_ready a1))).
      { destruct (pushes_sim _ _ _ _ _ _ _ _ R P) as (w1 & _ & R1). apply (r_nodup _ _ _ R1). }
      rewrite Q1 in ND2. inversion ND2; subst. auto. }
    intros f v I. cbn [map snd In] in I. destruct I as [I|I].
    - inversion I; subst. rewrite Z.eqb_refl. reflexivity.
    - destruct (Z.eqb_spec f g) as [->|N]; [|eapply rel_pending; [exact R'|]; rewrite Qa; exact I].
      exfalso. inversion NDQ as [|? ? X1 X2]; subst. apply X1. eapply in_who; eauto. }
  assert (LK' : forall f v, In (f, v) (map snd q) -> (if f =? g then Some (d, e, p) else pending w' f) = Some v) by (rewrite EQ; exact LK).
  clear LK. rename LK' into LK. unfold q, es in LK. rewrite !map_app, map_map in LK. cbn [snd map] in LK.
  intros f. cbv zeta. split; [|split].
  - intros I. apply in_map_iff in I as ([b0 [f0 v0]] & <- & I). change (who (b0, (f0, v0))) with f0.
    rewrite (LK f0 v0) by (apply in_app_iff; left; apply in_map_iff; exists (b0, (f0, v0)); auto).
    symmetry. eapply rel_pending; [exact R|]. apply in_map_iff. exists (b0, (f0, v0)). auto.
  - intros I. apply LK. apply in_app_iff. right. apply in_app_iff. left. apply in_map_iff. exists f. auto.
  - intros ->. apply LK. apply in_app_iff. right. apply in_app_iff. right. left. reflexivity.
Qed.
Definition three : list sop := [SNew 2; SAdd 2; SNew 3; SAdd 3; SRun; SRun; SReceive].
Example C37_example : exists w a, reached list_tops (fun _ _ => True) true waker w a /\ a_al a = [] /\ a_cur a = 10 /\ w_rq w = [2] /\ targets a = [2] /\
  can_run a 10 /\ can_run a 3 /\ hget (a_life a) 3 = Some RUNNING.
Proof.
  eexists; eexists. split.
  { exists [], 0, 10, [], three. do 2 eexists. split; [discriminate|]. split; [vm_compute; reflexivity|]. split; [vm_compute; reflexivity|]. split; [vm_compute; reflexivity|apply removed_any]. }
  do 4 (split; [vm_compute; reflexivity|]).
  split; [exists RUNNING; vm_compute; repeat split; discriminate|]. split; [exists RUNNING; vm_compute; repeat split; discriminate|vm_compute; reflexivity].
Qed.
(** 2 and 3 wait for management events, 3 last. *)
Example C37_all_example : exists w a, reached list_tops (fun _ _ => True) true waker w a /\ a_al a = [] /\ a_cur a = 10 /\ w_rq w = [] /\ targets a = [2] /\
  a_known a = [2; 3] /\ can_run a 10 /\ is_ready 2 a = false.
Proof.
  eexists; eexists. split.
  { exists [], 0, 10, [], [SNew 2; SAdd 2; SNew 3; SAdd 3; SRun; SReceive; SReceive]. do 2 eexists. split; [discriminate|]. split; [vm_compute; reflexivity|]. split; [vm_compute; reflexivity|]. split; [vm_compute; reflexivity|apply removed_any]. }
  do 5 (split; [vm_compute; reflexivity|]).
  split; [exists RUNNING; vm_compute; repeat split; discriminate|vm_compute; reflexivity].
Qed.
(** If the fiber is ready, the event it was going to be resumed with is lost, and the
    request is delivered twice: 2 yields to run, 10 asks it to quiesce; 2 is resumed with
    the request, suspends itself until a management event arrives, and is resumed with
    the same request again, never with the event of its yield. *)
Theorem C37_ready_refuted : exists w0 w w', sched_create list_tops (ext_of waker) [] 0 10 = Some (STATUS_SUCCESS, w0) /\
  sexecs list_tops waker [SNew 2; SAdd 2; SRun; SRun] w0 = Some ([(0, nowhere); (0, (10, INTERNAL_ID, RESUME_ADD_FIBER, 0)); (0, (2, INTERNAL_ID, RESUME_ADD_FIBER, 0)); (0, (10, INTERNAL_ID, RESUME_RUN, 0))], w) /\
  w_rq w = [2] /\ pending w 2 = Some (INTERNAL_ID, RESUME_RUN, 0) /\
  sexecs list_tops waker [SRequest false 2; SReceive; SRun] w = Some ([(0, (2, MANAGEMENT_ID, MGMT_QUIESCE, 0)); (0, (10, MANAGEMENT_ID, MGMT_RESULT, 0)); (0, (2, MANAGEMENT_ID, MGMT_QUIESCE, 0))], w') /\
  w_rq w' = [10].
Proof.
  eexists; eexists; eexists. split; [vm_compute; reflexivity|]. split; [vm_compute; reflexivity|]. do 2 (split; [vm_compute; reflexivity|]). split; vm_compute; reflexivity.
Qed.
(** The same with a request to all: the second queue entry of 2 resumes it after it has
    stopped, which ends the process. *)
Theorem C37_stopped_refuted : exists w0 w, sched_create list_tops (ext_of waker) [] 0 10 = Some (STATUS_SUCCESS, w0) /\
  sexecs list_tops waker [SNew 2; SAdd 2; SRun; SRun; SRequestAll true] w0 =
    Some ([(0, nowhere); (0, (10, INTERNAL_ID, RESUME_ADD_FIBER, 0)); (0, (2, INTERNAL_ID, RESUME_ADD_FIBER, 0)); (0, (10, INTERNAL_ID, RESUME_RUN, 0));
           (0, (2, MANAGEMENT_ID, MGMT_TERMINATE, 0))], w) /\ w_rq w = [2; 10] /\ sexec list_tops waker SStop w = None.
Proof. eexists; eexists. split; [vm_compute; reflexivity|]. split; [vm_compute; reflexivity|]. split; vm_compute; reflexivity. Qed.

(** ** C53 *)
(** The management fiber, if it waits, is the next to run after a fiber was added or has
    stopped, and is told which. *)
Theorem C53_told_partial : forall T U (ts : tops T) TR Qr dels (ac : acts U) (w : sw T U) a p r a',
  tab_ok ts TR Qr -> reached ts Qr dels ac w a -> a_mgmt a <> 0 -> (dels = true -> removal ts Qr p w) ->
  astep dels ac p a = Some ((STATUS_SUCCESS, r), a') ->
  (forall f, p = SAdd f -> r = (a_mgmt a, MANAGEMENT_ID, MGMT_FIBER_ADD, f)) /\
  (p = SStop -> r = (a_mgmt a, MANAGEMENT_ID, MGMT_FIBER_STOP, a_cur a)) /\
  exists w', sexec ts ac p w = Some ((STATUS_SUCCESS, r), w') /\ w_mgmt w' = a_mgmt a'.
Proof.
  intros T U ts TR Qr dels ac w a p r a' PT RE M RM A. pose proof (reached_rel T U ts TR Qr dels ac w a PT RE) as R.
  assert (TR1 : forall ev f (b : ast U) e b' o c, a_mgmt b = a_mgmt a -> tell ev f b = Some (e, b') -> resume (Some (e, b')) = Some (o, c) -> fst o = STATUS_SUCCESS ->
    snd o = (a_mgmt a, MANAGEMENT_ID, ev, f)).
  { intros ev f b e b' o c Mb T0 RS0 Ok. unfold tell in T0. rewrite Mb in T0. apply Z.eqb_neq in M. rewrite M in T0.
    destruct (push true (a_mgmt a, (MANAGEMENT_ID, ev, f)) b) as [[e1 b1]|] eqn:P; [|discriminate].
    assert (Fr : ok e1 = true -> exists q, a_ready b1 = (true, (a_mgmt a, (MANAGEMENT_ID, ev, f))) :: q).
    { intros O. unfold push in P. destruct (hget _ _); [|discriminate]. destruct (_ || _); [discriminate|]. destruct (alloc_spec b) as [ea b2].
      destruct (ok ea) eqn:Oe; cbn [negb] in P; inversion P; subst; [eexists; reflexivity|]. congruence. }
    destruct (ok e1) eqn:O; inversion T0; subst; cbn [resume] in RS0; rewrite O in RS0; cbn [negb] in RS0.
    - destruct (Fr eq_refl) as (q & Q). cbn [mgmt_set a_ready] in RS0. rewrite Q in RS0. apply go_keeps in RS0 as (_ & _ & _ & ->). reflexivity.
    - inversion RS0; subst. cbn [fst] in Ok. rewrite Ok in O. discriminate. }
  split; [|split].
  - intros f ->. cbn [astep] in A. destruct (join dels f a) as [[e b]|] eqn:J; [|discriminate].
    assert (OE : ok e = true).
    { destruct (ok e) eqn:O; auto. cbn [resume] in A. rewrite O in A. cbn [negb] in A. inversion A; subst. discriminate. }
    unfold join in J. destruct (zmem f (a_known a)); [discriminate|]. destruct (hget _ _); [|discriminate].
    pose proof (alloc_cur U a) as AC. destruct (alloc_spec a) as [ea a1]. cbn [snd] in AC.
    destruct (ok ea) eqn:O1; cbn [negb] in J; [|inversion J; subst; congruence].
    destruct (push false _ _) as [[e2 a2]|] eqn:P2; [|discriminate]. apply push_keeps in P2 as (_ & P2 & _). aunset.
    destruct (ok e2) eqn:O2; cbn [negb] in J; [|destruct dels; [|discriminate]; inversion J; subst; congruence].
    destruct (push true _ a2) as [[e3 a3]|] eqn:P3; [|discriminate]. apply push_keeps in P3 as (_ & P3 & _).
    destruct (ok e3) eqn:O3; cbn [negb] in J; [|inversion J; subst; congruence].
    apply (TR1 MGMT_FIBER_ADD f a3 e b (STATUS_SUCCESS, r) a' ltac:(destruct AC as (_ & AC & _); congruence) J A eq_refl).
  - intros ->. cbn [astep] in A. destruct (hget _ _); [|discriminate]. destruct (tell _ _ _) as [[e b]|] eqn:T0; [|discriminate].
    destruct (resume (Some (e, b))) as [[o1 b1]|] eqn:RS0; [|discriminate]. destruct (ok (fst o1)) eqn:O1; inversion A; subst.
    apply (TR1 MGMT_FIBER_STOP (a_cur a) (life_set (hset (a_life a) (a_cur a) STOPPED) a) e b (STATUS_SUCCESS, r) a' eq_refl T0 RS0 eq_refl).
  - destruct (step_sim_q T U ts TR dels Qr ac w a _ _ a' PT RM R A) as (w' & E & R'). exists w'. split; [auto|apply (r_mgmt _ _ _ R')].
Qed.
Example C53_example : exists w a a1 a2, reached list_tops (fun _ _ => True) true waker w a /\ a_mgmt a = 3 /\
  astep true waker SStop a = Some ((0, (3, MANAGEMENT_ID, MGMT_FIBER_STOP, 10)), a1) /\
  (do '(_, b) <- astep true waker (SNew 4) a; astep true waker (SAdd 4) b) = Some ((0, (3, MANAGEMENT_ID, MGMT_FIBER_ADD, 4)), a2).
Proof.
  eexists; eexists; eexists; eexists. split.
  { exists [], 0, 10, [], three. do 2 eexists. split; [discriminate|]. split; [vm_compute; reflexivity|]. split; [vm_compute; reflexivity|]. split; [vm_compute; reflexivity|apply removed_any]. }
  split; [vm_compute; reflexivity|]. split; vm_compute; reflexivity.
Qed.
(** If it does not wait, it is never told: 3 was told that 10 added 4, and is handling
    this when 2 stops; it then waits again, and is not ready. *)
Theorem C53_every_refuted : exists w0 os w, sched_create list_tops (ext_of waker) [] 0 10 = Some (STATUS_SUCCESS, w0) /\
  sexecs list_tops waker (three ++ [SNew 4; SAdd 4; SRun; SRun; SStop; SRun; SReceive]) w0 = Some (os, w) /\
  skipn 7 os = [(0, nowhere); (0, (3, MANAGEMENT_ID, MGMT_FIBER_ADD, 4)); (0, (10, INTERNAL_ID, RESUME_ADD_FIBER, 0)); (0, (2, INTERNAL_ID, RESUME_RUN, 0));
                (0, (4, INTERNAL_ID, RESUME_ADD_FIBER, 0)); (0, (3, INTERNAL_ID, RESUME_RUN, 0)); (0, (10, INTERNAL_ID, RESUME_RUN, 0))] /\
  option_map f_state (hget (w_fibs w) 2) = Some STOPPED /\ w_mgmt w = 3 /\ w_rq w = [4].
Proof. eexists; eexists; eexists. do 5 (split; [vm_compute; reflexivity|]). vm_compute; reflexivity. Qed.

(** ** C54 *)
(** A registration that fails changes no callback and no discipline, and nothing at all
    unless the tree took the discipline before the memory ran out. *)
Theorem C54_failed_partial : forall T U d (w : sw T U) e w', discipline_add d w = Some (e, w') -> e <> STATUS_SUCCESS ->
  g_cbs (w_reg w') = g_cbs (w_reg w) /\ g_ctxs (w_reg w') = g_ctxs (w_reg w) /\ g_heap (w_reg w') = g_heap (w_reg w) /\
  (w' = w \/ w' = set_al (tl (w_al w)) w \/ exists n x, hget (g_heap (w_reg w)) d = Some x /\
     w' = set_al (skipn n (w_al w)) (set_reg (Reg ((d_id x, d) :: g_discs (w_reg w)) (g_heap (w_reg w)) (g_cbs (w_reg w)) (g_ctxs (w_reg w))) w)).
Proof.
  intros T U d w e w' A NE. unfold discipline_add in A. destruct (hget _ d) as [x|] eqn:X; [|discriminate].
  destruct (d_owned x); [inversion A; subst; auto 6|]. destruct (existsb _ _); [inversion A; subst; auto 6|].
  unfold allocation in A. destruct w as [fibs tab g rq idle mn mg cur al rc us]. cbn [w_al w_reg set_al set_reg] in *.
  destruct al as [|e1 al].
  - cbn in A. inversion A; subst. elim NE. reflexivity.
  - destruct (ok e1) eqn:O1; cbn [negb w_al w_reg set_al set_reg] in A.
    2:{ inversion A; subst. cbn [w_reg set_al tl]. auto 6. }
    destruct al as [|e2 al]; [cbn in A; inversion A; subst; elim NE; reflexivity|].
    destruct (ok e2) eqn:O2; cbn [negb w_al w_reg set_al set_reg] in A.
    2:{ inversion A; subst. cbn [w_reg set_al tl g_cbs g_ctxs g_heap]. do 3 (split; [reflexivity|]). right. right. exists 2%nat, x. auto. }
    destruct al as [|e3 al]; [cbn in A; inversion A; subst; elim NE; reflexivity|].
    destruct (ok e3) eqn:O3; cbn [negb w_al w_reg set_al set_reg] in A.
    { inversion A; subst. elim NE. reflexivity. }
    inversion A; subst. cbn [w_reg set_al tl g_cbs g_ctxs g_heap]. do 3 (split; [reflexivity|]). right. right. exists 3%nat, x. auto.
Qed.
(** In that case it can be found although it was not registered, cannot be registered
    again, and a yield through it is undefined. *)
Theorem C54_refuted : exists w0 w, sched_create list_tops (ext_of waker) [] 0 10 = Some (STATUS_SUCCESS, w0) /\
  sexecs list_tops waker [SDisc [] 51 7 80 [3; 4; 5]; SDiscAdd 51; SDiscFind 7; SDiscAdd 51] (set_al [0; ERROR_GENERAL_OUT_OF_MEMORY] w0) =
    Some ([(0, nowhere); (ERROR_GENERAL_OUT_OF_MEMORY, nowhere); (0, (51, 0, 0, 0)); (ERROR_FIBER_SCHEDULER_DUPLICATE_DISCIPLINE_ID, nowhere)], w) /\
  sexec list_tops waker (SYield 51 0 0) w = None.
Proof. eexists; eexists. do 2 (split; [vm_compute; reflexivity|]). vm_compute; reflexivity. Qed.

Print Assumptions C35_refines_partial.
Print Assumptions C35_real_tree_partial.
Print Assumptions C35_fifo_refuted.
Print Assumptions C35_once_refuted.
Print Assumptions C35_failed_add_refuted.
Print Assumptions C36_dispatch_partial.
Print Assumptions C36_refused_partial.
Print Assumptions C36_bound_refuted.
Print Assumptions C36_registration.
Print Assumptions C37_result.
Print Assumptions C37_request_partial.
Print Assumptions C37_refused.
Print Assumptions C37_request_all_partial.
Print Assumptions C37_ready_refuted.
Print Assumptions C37_stopped_refuted.
Print Assumptions C53_told_partial.
Print Assumptions C53_every_refuted.
Print Assumptions C54_failed_partial.
Print Assumptions C54_refuted.
