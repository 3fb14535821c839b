(** C73: on a scheduler with disciplines, the fiber that the scheduler lets run is the one whose code runs. *)
From Verif Require Import Base Status MemModel Heap TabModel TabSpec SchedModel SchedSpec SchedProofs SchedHist PropSched UsrModel UsrSpec UsrProofs TurnModel TurnSpec TurnProofs.

(** For every history of calls that the scheduler's own model answers with [os], with any disciplines and any results [al],
    [rc] of the coming allocations and reclaims: executed on the code that saves and restores stacks, each call returns its
    error in its caller, or else lets go on exactly the fiber answered, from where its own code was left, with the values
    answered ([plays]); and at the end the code that runs is that of the fiber that the scheduler holds for the running one
    (0: the thread's own code), and fiber_state_get says of each fiber what the scheduler's model says. *)
Theorem C73_runs_partial : forall T U (ts : tops T) (ac : acts U) junk u s m al rc h os w0 w,
  m <> 0 -> sched_create ts (ext_of ac) junk u m = Some (STATUS_SUCCESS, w0) ->
  let w1 := set_rc rc (set_al al w0) in
  careful ts ac m h w1 -> sexecs ts ac h w1 = Some (os, w) ->
  exists j j1 j',
    turn_create ts ac junk u s m = Some j /\ ctx_of s j = Some w0 /\ edit s w1 j = Some j1 /\
    turns ts ac s h j1 = Some (plays h os m (fun _ => Yielding), j') /\
    w_run j' = (if w_cur w =? m then 0 else w_cur w) /\ ctx_of s j' = Some w /\
    forall f, usr_state f j' = option_map f_state (hget (w_fibs w) f).
Proof.
  intros T U ts ac junk u s m al rc h os w0 w Nm Cr w1 Ca E.
  destruct (create_turn _ _ _ _ _ _ s _ _ Nm Cr) as (j & y & C & S & R & Ry).
  assert (Kp : keeps w0 w1) by (apply same_fibs_keeps; reflexivity).
  destruct (ctx_turn _ _ _ _ _ _ _ _ _ _ S R Kp) as (j1 & E1 & S1 & R1).
  destruct (turns_ok _ _ _ _ _ _ _ _ _ _ _ _ _ _ S1 R1 Ca E) as (xs & y' & j' & ph' & T' & S' & R' & ->).
  exists j, j1, j'. split; auto. split; [rewrite (ctx_ok _ _ _ _ _ _ _ S), (rl_ctx _ _ _ _ R); auto|]. split; auto.
  assert (Cm : w_cur w1 = m) by (rewrite (k_cur _ _ Kp), <- (rl_run _ _ _ _ R); auto). rewrite Cm in T'. split; auto.
  split; [rewrite (so_run _ _ _ _ _ _ S'), (rl_run _ _ _ _ R'); reflexivity|].
  split; [rewrite (ctx_ok _ _ _ _ _ _ _ S'), (rl_ctx _ _ _ _ R'); auto|].
  intros f. destruct (states_ok _ _ _ _ _ _ f S') as [-> _]. change (state_of y' f = st_of w f). rewrite (rl_st _ _ _ _ R').
  unfold state_of. destruct (f =? running y'); auto. destruct (parked y' f) as [[]|]; auto.
Qed.
(** Functions of discipline 7: 1 suspends the yielder and keeps it, 2 wakes the kept fiber and lets the yielder go on. *)
Definition sleeper : acts Z := fun fn cx yf p =>
  if fn =? 1 then HStore yf (HRet 0)
  else if fn =? 2 then HLoad (fun u => HReady false (u, (cx, 5, p)) (fun e => if negb (ok e) then HRet e else HReady true (yf, (cx, 6, 0)) (fun e => HStore 0 (HRet e))))
  else HRet 0.
(** The main fiber 10 starts 2 and 3; 2 sleeps, 3 wakes it and returns, 2 adds 4, for which the memory fails, and gives way. *)
Definition a_day : list sop :=
  [SNew 2; SNew 3; SDisc [9] 50 7 70 [1; 2]; SDiscAdd 50; SAdd 2; SAdd 3; SRun; SYield 50 0 0; SYield 50 1 99; SYield 50 3 0; SStop;
   SRun; SFree 3; SNew 4; SAdd 4; SRun].
Definition day_al : list Z := repeat 0 14 ++ [77].
Example C73_runs_met :
  match sched_create list_tops (ext_of sleeper) [] 0 10 with
  | Some (e, w0) =>
      e = STATUS_SUCCESS /\ careful list_tops sleeper 10 a_day (set_rc [] (set_al day_al w0)) /\
      match sexecs list_tops sleeper a_day (set_rc [] (set_al day_al w0)) with
      | Some (os, w) =>
          filter (fun x => match x with Saw _ => true | _ => false end) (plays a_day os 10 (fun _ => Yielding)) =
            [Saw Added; Saw Added; Saw Begins; Saw Begins; Saw (Yields 70 6 0); Saw (Fails ERROR_FIBER_SCHEDULER_BAD_YIELD_EVENT);
             Saw (Yields INTERNAL_ID RESUME_RUN 0); Saw (Yields 70 5 99); Saw (Fails 77); Saw (Yields INTERNAL_ID RESUME_RUN 0)] /\
          w_cur w = 10
      | None => False
      end
  | None => False
  end.
Proof. vm_compute. repeat split; auto 10; try (intros Q; repeat (destruct Q as [Q|Q]; [discriminate|]); exact Q); discriminate. Qed.

(** With C35: the answers are those of the specification of the scheduler, a queue of ready fibers. *)
Theorem C73_scheduled_partial : forall T U (ts : tops T) TR Qr dels (ac : acts U) junk u s m al h os a,
  tab_ok ts TR Qr -> m <> 0 -> asteps dels ac h (al_set al (ainit u m)) = Some (os, a) ->
  well_removed ts ac Qr dels junk u m al h ->
  (forall w0, sched_create ts (ext_of ac) junk u m = Some (STATUS_SUCCESS, w0) -> careful ts ac m h (set_al al w0)) ->
  exists j w0 j1 j',
    turn_create ts ac junk u s m = Some j /\ ctx_of s j = Some w0 /\ edit s (set_al al w0) j = Some j1 /\
    turns ts ac s h j1 = Some (plays h os m (fun _ => Yielding), j') /\
    w_run j' = (if a_cur a =? m then 0 else a_cur a).
Proof.
  intros T U ts TR Qr dels ac junk u s m al h os a PT Nm A RM Ca.
  destruct (C35_refines_partial _ _ _ _ _ _ _ _ _ _ _ _ _ _ PT Nm A RM) as (w0 & w & C & E & _ & _ & _ & _ & _ & Cu).
  specialize (Ca _ C).
  assert (Eq : set_rc (w_rc w0) (set_al al w0) = set_al al w0) by (destruct w0; reflexivity).
  destruct (C73_runs_partial _ _ _ _ _ _ s _ al (w_rc w0) h os w0 w Nm C) as (j & j1 & j' & H1 & H2 & H3 & H4 & H5 & _); try (rewrite Eq; auto).
  exists j, w0, j1, j'. rewrite Eq in H3. rewrite Cu in H5. auto.
Qed.
Example C73_scheduled_met :
  match asteps false sleeper (firstn 12 a_day) (al_set [] (ainit 0 10)) with
  | Some (os, a) => length os = 12%nat /\ a_cur a = 2
  | None => False
  end /\
  match sched_create list_tops (ext_of sleeper) [] 0 10 with
  | Some (e, w0) => careful list_tops sleeper 10 (firstn 12 a_day) (set_al [] w0)
  | None => False
  end.
Proof. vm_compute. repeat split; auto 10; try (intros Q; repeat (destruct Q as [Q|Q]; [discriminate|]); exact Q); discriminate. Qed.

(** A history on a new scheduler with main fiber 10, with these results of the coming allocations and reclaims: what is
    seen, what code runs at the end, and the state of fiber [f] then. *)
Definition ends (al rc : list Z) (h : list sop) (f : Z) : option (list saw * Z * option Z) :=
  do j <- turn_create list_tops sleeper [] 0 100 10;
  do w <- ctx_of 100 j;
  do j1 <- edit 100 (set_rc rc (set_al al w)) j;
  do '(xs, j') <- turns list_tops sleeper 100 h j1; Some (xs, w_run j', usr_state f j').
(** Without the condition that the running fiber is not released: a fiber that is made ready by its own call is released
    by the scheduler if the reclaim of its queue entry fails, and its code goes on with the error on the released stack. *)
Theorem C73_released_refuted :
  ends [] [0; 0; 77; 78] [SNew 2; SAdd 2; SRun; SWake] 2 = Some ([Stayed (0, nowhere); Saw Added; Saw Begins; Saw (Fails 78)], 2, None).
Proof. vm_compute. reflexivity. Qed.
(** Not every answer is for a fiber that can go on: fiber 3 adds 4 and the allocation that would tell 2 of it fails; 3 sees
    the error but is ready too; its function returns, it is resumed, and its second return from its entry ends the process. *)
Definition the_end : list sop :=
  [SNew 2; SNew 3; SNew 4; SAdd 2; SAdd 3; SRun; SReceive; SAdd 4; SStop; SRun].
Theorem C73_ends_refuted :
  ends (repeat 0 10 ++ [77]) [] the_end 3 =
    Some (map (fun _ => Stayed (0, nowhere)) [2; 3; 4] ++ [Saw Added; Saw Added; Saw Begins; Saw Begins; Saw (Fails 77); Saw (Yields MANAGEMENT_ID MGMT_FIBER_STOP 3); Saw Dies], 3, Some STOPPED).
Proof. vm_compute. reflexivity. Qed.

Print Assumptions C73_runs_partial.
Print Assumptions C73_scheduled_partial.
Print Assumptions C73_released_refuted.
Print Assumptions C73_ends_refuted.
