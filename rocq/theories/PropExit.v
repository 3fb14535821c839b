(** C67 and C68: how the examples start and end. *)
From Verif Require Import Base Status ImgModel ExitModel ExitSpec ExitProofs.

(** A failure before the threads are made: main returns the number of the step that failed, and
    what it had acquired is released in the reverse order, except the struct of the configuration. *)
Theorem C67_start_partial : forall a e xs, stops (starts a) [] = Some (e, xs) -> mandelbrot a = (Returns e, undone xs).
Proof.
  intros a e xs H. unfold starts in H. cbn [stops] in H. unfold mandelbrot, fails. change STATUS_SUCCESS with 0.
  assert (N : forall c st err, c <> 0 -> noted c st err = c) by (intros c st err C; unfold noted; destruct (fails st); [|reflexivity]; apply Z.eqb_neq in C; rewrite C; reflexivity).
  destruct (a_alloc a =? 0); [|injection H as <- <-; reflexivity]. cbn [negb].
  destruct (a_config a =? 0); [|injection H as <- <-; reflexivity]. cbn [negb].
  destruct (a_array a); [|injection H as <- <-; unfold cleanup_config; destruct (a_strdup a); reflexivity]. cbn [negb].
  destruct (a_mutex a =? 0); [|injection H as <- <-; unfold free_array, cleanup_config; destruct (a_strdup a); reflexivity]. cbn [negb].
  destruct (a_wcond a =? 0); [|injection H as <- <-; unfold release_mutex, free_array, cleanup_config; rewrite !(N 6) by lia; destruct (a_strdup a); reflexivity]. cbn [negb].
  destruct (a_mcond a =? 0); [|injection H as <- <-; unfold release_worker_cond, release_mutex, free_array, cleanup_config; rewrite !(N 7) by lia; destruct (a_strdup a); reflexivity]. cbn [negb].
  destruct (a_threads a); [discriminate|]. injection H as <- <-. cbn [negb]. unfold release_main_cond, release_worker_cond, release_mutex, free_array, cleanup_config. rewrite !(N 8) by lia. destruct (a_strdup a); reflexivity.
Qed.

(** If a thread cannot be made, main does not return: the pointers of this and the later threads
    are null when they are released.  (If the workers do not end, it does not come so far.) *)
Theorem C67_thread_refuted : forall a k, stops (starts a) [] = None -> 0 <= k < JOBS -> made a k -> a_thread a k <> STATUS_SUCCESS ->
  (forall c, fst (mandelbrot a) <> Returns c) /\ (wakes a k -> fst (mandelbrot a) = Undefined).
Proof.
  intros a k H K M F. rewrite (first_failed a k H K M F). unfold cleanup_threads. split.
  - intros c. destruct (a_relock a) as [st|]; [|discriminate]. destruct (fails st); [discriminate|]. destruct (fails (a_rewake a)); [discriminate|]. destruct (fails (a_unlock a)); [discriminate|].
    match goal with |- fst (release_threads ?a ?k ?i ?r ?co ?l) <> _ => destruct (rel_from a k i r co l) as [-> | ->] end; try discriminate; unfold JOBS in *; lia.
  - intros (W1 & W2 & W3 & W4). rewrite W1, W2, W3. change (fails STATUS_SUCCESS) with false. cbn iota. apply rel_undef; unfold JOBS in *; try lia. intros j J. apply W4. lia.
Qed.
(** If the lock cannot be taken but then can, and the workers end, main returns 11 and only the
    struct of the configuration is left. *)
Theorem C67_lock_partial : forall a, stops (starts a) [] = None -> made a JOBS -> a_lock a <> STATUS_SUCCESS -> wakes a JOBS ->
  fst (mandelbrot a) = Returns 11 /\ left_over (snd (mandelbrot a)) = Some [Config].
Proof.
  intros a H M F (W1 & W2 & W3 & W4). rewrite (all_made a H M). assert (X : fails (a_lock a) = true) by (unfold fails; apply Z.eqb_neq in F; rewrite F; reflexivity). rewrite X.
  unfold cleanup_threads. rewrite W1, W2, W3. change (fails STATUS_SUCCESS) with false. cbn iota.
  destruct (thread_range _ W4) as ((s0 & J0) & (s1 & J1) & (s2 & J2) & (s3 & J3) & (s4 & J4) & (s5 & J5) & (s6 & J6) & (s7 & J7)).
  change (Z.to_nat JOBS) with 8%nat. unfold JOBS. cbn [release_threads Z.leb Z.compare Pos.compare Pos.compare_cont]. change (0 + 1) with 1. change (1 + 1) with 2. change (2 + 1) with 3. change (3 + 1) with 4. change (4 + 1) with 5. change (5 + 1) with 6. change (6 + 1) with 7.
  rewrite J0, J1, J2, J3, J4, J5, J6, J7. cbn [Z.leb Z.compare Pos.compare Pos.compare_cont].
  assert (N : forall c st err, c <> 0 -> noted c st err = c) by (intros c st err C; unfold noted; destruct (fails st); [|reflexivity]; apply Z.eqb_neq in C; rewrite C; reflexivity).
  unfold release_main_cond, release_worker_cond, release_mutex, free_array, cleanup_config, cleanup_allocator. rewrite !(N 11) by lia. cbn [fst snd]. split; [reflexivity|].
  unfold started. destruct (a_strdup a); vm_compute; reflexivity.
Qed.
(** If the workers cannot be woken for a frame, or the wait for a frame fails, main hangs: it locks
    the mutex that it holds. *)
Theorem C67_frame_refuted : forall a i, stops (starts a) [] = None -> made a JOBS -> a_lock a = STATUS_SUCCESS -> 0 <= i < FRAMES -> wrote a i ->
  a_wake a i <> STATUS_SUCCESS \/ a_wake a i = STATUS_SUCCESS /\ (exists st, a_wait a i = Some st /\ st <> STATUS_SUCCESS) -> fst (mandelbrot a) = Hangs.
Proof.
  intros a i H M L I W F. rewrite (all_made a H M), L. change (fails STATUS_SUCCESS) with false. cbn iota.
  replace (Z.to_nat FRAMES) with (Z.to_nat i + S (Z.to_nat (FRAMES - i - 1)))%nat by lia. rewrite frames_skip by (try lia; replace (0 + Z.of_nat (Z.to_nat i)) with i by lia; exact W).
  replace (0 + Z.of_nat (Z.to_nat i)) with i by lia. cbn [frames]. destruct F as [F|(F & st & E & G)].
  - assert (X : fails (a_wake a i) = true) by (unfold fails; apply Z.eqb_neq in F; rewrite F; reflexivity). rewrite X. reflexivity.
  - rewrite F, E. assert (X : fails st = true) by (unfold fails; apply Z.eqb_neq in G; rewrite G; reflexivity). rewrite X. reflexivity.
Qed.
(** If nothing fails, main returns 0 holding the lock, and releases no thread, no condition, no
    mutex and no array. *)
Theorem C67_done_refuted : forall a, stops (starts a) [] = None -> made a JOBS -> a_lock a = STATUS_SUCCESS -> wrote a FRAMES ->
  fst (mandelbrot a) = Returns 0 /\ left_over (snd (mandelbrot a)) = Some (Lock :: workers ++ [Threads; MainCond; WorkerCond; Mutex; Array; Config]).
Proof.
  intros a H M L W. rewrite (all_made a H M), L. change (fails STATUS_SUCCESS) with false. cbn iota.
  replace (Z.to_nat FRAMES) with (Z.to_nat FRAMES + 0)%nat by lia. rewrite frames_skip by (try lia; unfold FRAMES; cbn; exact W). cbn [frames]. unfold cleanup_config, cleanup_allocator.
  cbn [fst snd]. split; [reflexivity|]. unfold started. rewrite (proj1 W). vm_compute. reflexivity.
Qed.
(** If a thread cannot be made or the lock cannot be taken, and then the workers cannot be told, main
    calls exit with everything acquired but what it released: its code tells which of the calls failed. *)
Theorem C67_exit : forall a k e, stops (starts a) [] = None -> made a k ->
  0 <= k < JOBS /\ a_thread a k <> STATUS_SUCCESS /\ e = 9 \/ k = JOBS /\ a_lock a <> STATUS_SUCCESS /\ e = 11 ->
  let held := rev (map (fun i => Thread (Z.of_nat i)) (seq 0 (Z.to_nat k))) ++ [Threads; MainCond; WorkerCond; Mutex; Array] ++ (if a_strdup a then [Prefix] else []) ++ [Config; Allocator] in
  let r := fst (mandelbrot a) in let l := left_over (snd (mandelbrot a)) in
  (a_relock a = None -> r = Hangs) /\
  (forall st, a_relock a = Some st -> st <> STATUS_SUCCESS -> r = Exits 99 /\ l = Some held) /\
  (a_relock a = Some STATUS_SUCCESS -> a_rewake a <> STATUS_SUCCESS -> r = Exits e /\ l = Some (Lock :: held)) /\
  (a_relock a = Some STATUS_SUCCESS -> a_rewake a = STATUS_SUCCESS -> a_unlock a <> STATUS_SUCCESS -> r = Exits 97 /\ l = Some held).
Proof.
  intros a k e H M C. assert (E : 0 <= k <= JOBS /\ e <> 0 /\ mandelbrot a = cleanup_threads a k e false ([Acq Allocator; Acq Config] ++ (if a_strdup a then [Acq Prefix] else []) ++ [Acq Array; Acq Mutex; Acq WorkerCond; Acq MainCond; Acq Threads] ++ map (fun i => Acq (Thread (Z.of_nat i))) (seq 0 (Z.to_nat k)))).
  { destruct C as [(K & F & ->)|(-> & F & ->)].
    - split; [lia|]. split; [lia|]. apply first_failed; assumption.
    - split; [unfold JOBS; lia|]. split; [lia|]. rewrite (all_made a H M), (fails_iff _ F). reflexivity. }
  destruct E as (K & E0 & E). cbn zeta. rewrite E. unfold cleanup_threads. clear E C H M.
  assert (E1 : (e =? 0) = false) by (apply Z.eqb_neq; exact E0). rewrite E1.
  assert (KK : k = 0 \/ k = 1 \/ k = 2 \/ k = 3 \/ k = 4 \/ k = 5 \/ k = 6 \/ k = 7 \/ k = 8) by (unfold JOBS in K; lia).
  split; [intros ->; reflexivity|]. split; [intros st -> F|split; [intros -> F|intros -> -> F]]; rewrite ?(fails_iff _ F); change (fails STATUS_SUCCESS) with false; cbn iota; rewrite ?(fails_iff _ F); cbn [fst snd];
    (split; [reflexivity|]); decompose [or] KK; subst k; destruct (a_strdup a); vm_compute; reflexivity.
Qed.
(** main returns 0 only if nothing failed; otherwise the code of the step that failed first, or 11
    if the lock failed and all workers ended. *)
Theorem C67_codes : forall a c, fst (mandelbrot a) = Returns c ->
  (c = 0 /\ stops (starts a) [] = None /\ made a JOBS /\ a_lock a = STATUS_SUCCESS /\ wrote a FRAMES) \/
  (exists xs, stops (starts a) [] = Some (c, xs)) \/
  (c = 11 /\ stops (starts a) [] = None /\ made a JOBS /\ a_lock a <> STATUS_SUCCESS /\ wakes a JOBS).
Proof.
  intros a c R. destruct (stops (starts a) []) as [[e xs]|] eqn:S.
  - rewrite (C67_start_partial a e xs S) in R. injection R as <-. right. left. eauto.
  - destruct (split_threads a) as [M|(k & K & M & F)]; [|exfalso; exact (proj1 (C67_thread_refuted a k S K M F) c R)].
    rewrite (all_made a S M) in R. destruct (fails (a_lock a)) eqn:L.
    + right. right. pose proof (fails_true _ L) as L'. unfold cleanup_threads in R. destruct (a_relock a) as [st|] eqn:R1; [|discriminate].
      destruct (fails st) eqn:R2; [discriminate|]. destruct (fails (a_rewake a)) eqn:R3; [discriminate|]. destruct (fails (a_unlock a)) eqn:R4; [discriminate|].
      assert (W : wakes a JOBS).
      { split; [rewrite R1, (fails_not _ R2); reflexivity|]. split; [exact (fails_not _ R3)|]. split; [exact (fails_not _ R4)|].
        revert R. match goal with |- fst (release_threads _ _ _ _ ?co ?l) = _ -> _ => generalize co l end. intros co l R.
        assert (G : forall n i co l, fst (release_threads a JOBS i n co l) = Returns c -> forall j, i <= j < i + Z.of_nat n -> exists st, a_join a j = Some st).
        { induction n as [|n IH]; intros i co' l' R' j J; [lia|]. cbn [release_threads] in R'. destruct (JOBS <=? i); [discriminate|]. destruct (a_join a i) eqn:Q; [|discriminate].
          destruct (Z.eq_dec j i) as [->|N]; [eauto|]. apply (IH _ _ _ R'). lia. }
        intros i I. apply (G _ _ _ _ R). unfold JOBS in *. lia. }
      repeat split; try assumption; try apply W. destruct (C67_lock_partial a S M L' W) as [X _]. rewrite (all_made a S M), L in X. unfold cleanup_threads in X. rewrite R1, R2, R3, R4 in X. congruence.
    + left. destruct (frames_back _ _ _ _ _ R) as (-> & D & W). repeat split; try assumption; try apply M; try (apply fails_not; exact L).
      1: apply D; unfold FRAMES; lia.
      all: apply W; unfold FRAMES in *; lia.
Qed.
(** Whatever fails: nothing is released that is not held, and nothing twice. *)
Theorem C67_safe : forall a, left_over (snd (mandelbrot a)) <> None.
Proof.
  intros a. destruct (stops (starts a) []) as [[e xs]|] eqn:S.
  - rewrite (C67_start_partial a e xs S). cbn [snd]. unfold starts in S. cbn [stops] in S.
    destruct (a_alloc a =? 0), (a_config a =? 0), (a_array a), (a_mutex a =? 0), (a_wcond a =? 0), (a_mcond a =? 0), (a_threads a); try discriminate S; injection S as <- <-; destruct (a_strdup a); vm_compute; discriminate.
  - destruct (split_threads a) as [M|(k & K & M & F)].
    + rewrite (all_made a S M). destruct (fails (a_lock a)).
      * unfold cleanup_threads. destruct (a_relock a) as [st|]; [|unfold started; destruct (a_strdup a); vm_compute; discriminate].
        destruct (fails st); [unfold started; destruct (a_strdup a); vm_compute; discriminate|].
        destruct (fails (a_rewake a)); [unfold started; destruct (a_strdup a); vm_compute; discriminate|]. destruct (fails (a_unlock a)); [unfold started; destruct (a_strdup a); vm_compute; discriminate|].
        apply release_safe; [unfold JOBS; lia|]. reflexivity.
      * destruct (frames_log a (Z.to_nat FRAMES) 0 (started a ++ [Acq Lock])) as [-> | [-> _]]; unfold cleanup_config, cleanup_allocator, started; destruct (a_strdup a); vm_compute; discriminate.
    + rewrite (first_failed a k S K M F). unfold cleanup_threads.
      assert (KK : k = 0 \/ k = 1 \/ k = 2 \/ k = 3 \/ k = 4 \/ k = 5 \/ k = 6 \/ k = 7) by (unfold JOBS in K; lia).
      destruct (a_relock a) as [st|]; [|decompose [or] KK; subst k; destruct (a_strdup a); vm_compute; discriminate].
      destruct (fails st); [decompose [or] KK; subst k; destruct (a_strdup a); vm_compute; discriminate|].
      destruct (fails (a_rewake a)); [decompose [or] KK; subst k; destruct (a_strdup a); vm_compute; discriminate|].
      destruct (fails (a_unlock a)); [decompose [or] KK; subst k; destruct (a_strdup a); vm_compute; discriminate|].
      apply release_safe; [unfold JOBS in *; lia|]. reflexivity.
Qed.

(** Everything goes well *)
Definition good_run : manswers := MA 0 0 true true 0 0 0 true (fun _ => 0) 0 (fun _ => 0) (fun _ => Some 0) (fun _ => true) (Some 0) 0 0 (fun _ => Some 0) 0 0 0.
Example C67_done_example : stops (starts good_run) [] = None /\ made good_run JOBS /\ wrote good_run FRAMES /\ fst (mandelbrot good_run) = Returns 0.
Proof.
  assert (M : made good_run JOBS) by (intros i I; reflexivity). assert (W : wrote good_run FRAMES) by (split; [reflexivity|intros i I; repeat split]).
  split; [reflexivity|]. split; [exact M|]. split; [exact W|]. exact (proj1 (C67_done_refuted good_run eq_refl M eq_refl W)).
Qed.
(** No memory for the threads, and releasing a condition fails *)
Example C67_start_example :
  mandelbrot (MA 0 0 true true 0 0 0 false (fun _ => 0) 0 (fun _ => 0) (fun _ => Some 0) (fun _ => true) (Some 0) 0 0 (fun _ => Some 0) 5 0 0) =
  (Returns 8, [Acq Allocator; Acq Config; Acq Prefix; Acq Array; Acq Mutex; Acq WorkerCond; Acq MainCond; Rel MainCond; Rel WorkerCond; Rel Mutex; Rel Array; Rel Prefix; Rel Allocator]).
Proof. reflexivity. Qed.
(** The fourth thread cannot be made; the lock cannot be taken; frame 100 cannot be started *)
Example C67_fails_example :
  (let a := MA 0 0 true true 0 0 0 true (fun i => if i =? 3 then 1 else 0) 0 (fun _ => 0) (fun _ => Some 0) (fun _ => true) (Some 0) 0 0 (fun _ => Some 0) 0 0 0 in made a 3 /\ wakes a 3 /\ fst (mandelbrot a) = Undefined) /\
  (let a := MA 0 0 true true 0 0 0 true (fun _ => 0) 1 (fun _ => 0) (fun _ => Some 0) (fun _ => true) (Some 0) 0 0 (fun _ => Some 0) 0 0 0 in made a JOBS /\ wakes a JOBS /\ fst (mandelbrot a) = Returns 11) /\
  (let a := MA 0 0 true true 0 0 0 true (fun _ => 0) 0 (fun i => if i =? 100 then 1 else 0) (fun _ => Some 0) (fun _ => true) (Some 0) 0 0 (fun _ => Some 0) 0 0 0 in made a JOBS /\ wrote a 100 /\ fst (mandelbrot a) = Hangs).
Proof.
  split; [|split]; cbn zeta.
  - split; [intros i I; cbn; destruct (Z.eqb_spec i 3); [lia|reflexivity]|]. split; [repeat split; intros i I; exists 0; reflexivity|]. vm_compute. reflexivity.
  - split; [intros i I; reflexivity|]. split; [repeat split; intros i I; exists 0; reflexivity|]. vm_compute. reflexivity.
  - match goal with |- made ?a _ /\ _ => assert (M : made a JOBS) by (intros i I; reflexivity); assert (W : wrote a 100) by (split; [reflexivity|intros i I; cbn; destruct (Z.eqb_spec i 100); [lia|repeat split]]) end.
    split; [exact M|]. split; [exact W|]. apply (C67_frame_refuted _ 100); try assumption; try reflexivity; [unfold FRAMES; lia|left; discriminate].
Qed.

(** * The echo server *)
(** Before the loop: if a call fails up to adding the listener, all that was acquired is released,
    and main returns the status of the call that failed, unless a release fails. *)
Theorem C68_start_partial : forall a, let e := first_error (before_thread a) in e <> 0 ->
  left_over (snd (echo_server a)) = Some [] /\ (exists c, fst (echo_server a) = Returns c /\ c <> 0) /\ (releases a -> fst (echo_server a) = Returns e).
Proof.
  intros a e F. unfold e, before_thread in *. clear e. unfold echo_server.
  destruct (fails (e_alloc a)) eqn:E1; [split; [reflexivity|]; split; [eexists; split; [reflexivity|exact (fails_true _ E1)]|intros _; here; reflexivity]|].
  rewrite (err_cons _ _ E1) in *.
  destruct (fails (e_sched a)) eqn:E2; [split; [reflexivity|]; split; [eexists; split; [reflexivity|exact (fails_true _ E2)]|intros _; here; reflexivity]|].
  rewrite (err_cons _ _ E2) in *.
  change [e_mgr a; e_mgr_add a; e_ctx a; e_lis a; e_lis_cb a; e_lis_add a] with ([e_mgr a; e_mgr_add a] ++ [e_ctx a; e_lis a; e_lis_cb a; e_lis_add a]) in *. rewrite first_app in *.
  destruct (manager_part a) as [(Z1 & ->)|(Z1 & Z2 & Z3 & Z4)].
  - rewrite Z1 in *. change (fails STATUS_SUCCESS) with false. cbn iota. change (0 =? 0) with true in *. cbn iota in *.
    destruct (listener_part a) as [(Y1 & ->)|(Y1 & Y2 & Y3 & Y4)]; [congruence|]. destruct (add_listener a) as [st l]. cbn [fst snd] in *. rewrite Y2. unfold echo_scheduler, echo_allocator. cbn [fst snd].
    split; [cbn [In] in Y3; decompose [or] Y3; subst; try contradiction; vm_compute; reflexivity|]. split; [eexists; split; [reflexivity|apply fails_true, or_fails; exact Y2]|].
    intros R. rewrite (Y4 R). destruct R as (_ & _ & _ & _ & _ & _ & ->). reflexivity.
  - apply Z.eqb_neq in Z1. rewrite Z1 in *. destruct (add_manager a) as [st l]. cbn [fst snd] in *. rewrite Z2. unfold echo_scheduler, echo_allocator. cbn [fst snd].
    split; [cbn [In] in Z3; decompose [or] Z3; subst; try contradiction; vm_compute; reflexivity|]. split; [eexists; split; [reflexivity|apply fails_true, or_fails; exact Z2]|].
    intros R. rewrite (Z4 R). destruct R as (_ & _ & _ & _ & _ & _ & ->). reflexivity.
Qed.
Lemma past_start : forall a, first_error (before_thread a) = 0 ->
  echo_server a =
  let '(st, l) := start_signal_thread a in
  let log := [Acq Allocator; Acq Scheduler; Acq Manager; Acq ListenContext; Acq Listener] ++ l in
  if fails st then echo_scheduler a st [Listener; Manager] log else
  if fails (e_right a) then echo_join a (e_right a) [Listener; Manager] log else
  let log := log ++ [Acq RightSocket] in
  if fails (e_wrap a) then echo_join a (or_else (e_wrap a) (e_right_rel a)) [Listener; Manager] (log ++ [Rel Right; Rel RightSocket]) else
  let log := log ++ [Acq SignalSocket] in
  match e_loop a with
  | None => (Hangs, log)
  | Some st => if e_listening a then echo_join a st [Listener; Manager] log else echo_join a st [Manager] (log ++ [Rel ListenContext; Rel Listener])
  end.
Proof.
  intros a F. unfold echo_server, before_thread in *.
  destruct (fails (e_alloc a)) eqn:E1; [rewrite (err_here _ _ E1) in F; rewrite F in E1; discriminate|]. rewrite (err_cons _ _ E1) in *.
  destruct (fails (e_sched a)) eqn:E2; [rewrite (err_here _ _ E2) in F; rewrite F in E2; discriminate|]. rewrite (err_cons _ _ E2) in *.
  change [e_mgr a; e_mgr_add a; e_ctx a; e_lis a; e_lis_cb a; e_lis_add a] with ([e_mgr a; e_mgr_add a] ++ [e_ctx a; e_lis a; e_lis_cb a; e_lis_add a]) in *. rewrite first_app in *.
  destruct (manager_part a) as [(Z1 & ->)|(Z1 & _)]; [|apply Z.eqb_neq in Z1 as Z2; rewrite Z2 in F; contradiction]. rewrite Z1 in F. change (0 =? 0) with true in F. cbn iota in F.
  destruct (listener_part a) as [(Y1 & ->)|(Y1 & _)]; [|contradiction]. change (fails STATUS_SUCCESS) with false. cbn iota. destruct (start_signal_thread a). reflexivity.
Qed.
(** If the signal thread cannot be started, all is released but the listener's context. *)
Theorem C68_context_refuted : forall a, first_error (before_thread a) = 0 -> let e := first_error (thread_calls a) in e <> 0 ->
  left_over (snd (echo_server a)) = Some [ListenContext] /\ (exists c, fst (echo_server a) = Returns c /\ c <> 0) /\ (releases a -> fst (echo_server a) = Returns e).
Proof.
  intros a B e F. rewrite (past_start a B). unfold e, thread_calls in *. clear e B. destruct (signal_part a) as [(Y1 & _)|(Y1 & Y2 & Y3 & Y4)]; [contradiction|].
  destruct (start_signal_thread a) as [st l]. cbn [fst snd] in *. cbv zeta. rewrite Y2. unfold echo_scheduler, echo_allocator. cbn [fst snd].
  split; [cbn [In] in Y3; decompose [or] Y3; subst; try contradiction; vm_compute; reflexivity|]. split; [eexists; split; [reflexivity|apply fails_true, or_fails; exact Y2]|].
  intros R. rewrite (Y4 R). destruct R as (_ & _ & _ & _ & _ & _ & ->). reflexivity.
Qed.
Lemma with_thread : forall a, first_error (before_thread a) = 0 -> first_error (thread_calls a) = 0 ->
  echo_server a =
  let log := [Acq Allocator; Acq Scheduler; Acq Manager; Acq ListenContext; Acq Listener; Acq Left; Acq Right; Acq SignalContext; Acq LeftSocket; Acq SignalThread] in
  if fails (e_right a) then echo_join a (e_right a) [Listener; Manager] log else
  let log := log ++ [Acq RightSocket] in
  if fails (e_wrap a) then echo_join a (or_else (e_wrap a) (e_right_rel a)) [Listener; Manager] (log ++ [Rel Right; Rel RightSocket]) else
  let log := log ++ [Acq SignalSocket] in
  match e_loop a with
  | None => (Hangs, log)
  | Some st => if e_listening a then echo_join a st [Listener; Manager] log else echo_join a st [Manager] (log ++ [Rel ListenContext; Rel Listener])
  end.
Proof.
  intros a B T. rewrite (past_start a B). destruct (signal_part a) as [(_ & ->)|(Y1 & _)]; [reflexivity|contradiction].
Qed.
(** If main's end of the pair cannot be made a socket, main waits for the signal thread, that is for
    a signal; then it returns the failure, and the pair, the signal thread's context and the
    listener's context are left; if only the wrapper cannot be made, main's end is closed. *)
Theorem C68_right_refuted : forall a, first_error (before_thread a) = 0 -> first_error (thread_calls a) = 0 ->
  let e := first_error [e_right a; e_wrap a] in e <> 0 ->
  (e_join a = None -> fst (echo_server a) = Hangs) /\
  (forall st, e_join a = Some st ->
    left_over (snd (echo_server a)) = Some ([LeftSocket; SignalContext] ++ (if e_right a =? 0 then [] else [Right]) ++ [Left; ListenContext]) /\
    (exists c, fst (echo_server a) = Returns c /\ c <> 0) /\ (st = 0 -> releases a -> fst (echo_server a) = Returns e)).
Proof.
  intros a B T e F. rewrite (with_thread a B T). unfold e in *. clear e B T. cbv zeta. unfold echo_join, echo_scheduler, echo_allocator.
  destruct (fails (e_right a)) eqn:E1.
  - pose proof (fails_true _ E1) as N. apply Z.eqb_neq in N. change STATUS_SUCCESS with 0 in N. rewrite N. split; [intros ->; reflexivity|]. intros st ->. cbn [fst snd].
    split; [vm_compute; reflexivity|]. split; [eexists; split; [reflexivity|apply fails_true; repeat apply or_fails; exact E1]|].
    intros -> (_ & _ & _ & _ & _ & _ & ->). here. reflexivity.
  - rewrite (err_cons _ _ E1) in *. pose proof (fails_not _ E1) as N. rewrite N. change (STATUS_SUCCESS =? 0) with true. cbn iota.
    destruct (fails (e_wrap a)) eqn:E2; [|rewrite (err_cons _ _ E2) in F; contradiction].
    split; [intros ->; reflexivity|]. intros st ->. cbn [fst snd].
    split; [vm_compute; reflexivity|]. split; [eexists; split; [reflexivity|apply fails_true; repeat apply or_fails; exact E2]|].
    intros -> (_ & _ & _ & _ & _ & -> & ->). here. reflexivity.
Qed.
(** Behind the loop: the signal thread is joined and the scheduler and the allocator are released;
    the sockets of both ends of the pair and the signal thread's context are left, and the
    listener's context if the listener has not ended.  main returns the last failure of the loop,
    the join and the scheduler's release. *)
Theorem C68_left_refuted : forall a st, first_error (before_thread a) = 0 -> first_error (thread_calls a) = 0 -> first_error [e_right a; e_wrap a] = 0 -> e_loop a = Some st ->
  (e_join a = None -> fst (echo_server a) = Hangs) /\
  (forall j, e_join a = Some j ->
    fst (echo_server a) = Returns (first_error [e_sched_rel a; j; st]) /\
    left_over (snd (echo_server a)) = Some ([SignalSocket; RightSocket; LeftSocket; SignalContext; Right; Left] ++ if e_listening a then [ListenContext] else [])).
Proof.
  intros a st B T W L. rewrite (with_thread a B T). clear B T. cbv zeta. unfold echo_join, echo_scheduler, echo_allocator.
  destruct (fails (e_right a)) eqn:E1; [rewrite (err_here _ _ E1) in W; rewrite W in E1; discriminate|]. rewrite (err_cons _ _ E1) in W.
  destruct (fails (e_wrap a)) eqn:E2; [rewrite (err_here _ _ E2) in W; rewrite W in E2; discriminate|]. rewrite L.
  assert (V : forall j, or_else (or_else st j) (e_sched_rel a) = first_error [e_sched_rel a; j; st]).
  { intros j. unfold or_else. cbn [first_error]. unfold fails. change STATUS_SUCCESS with 0. destruct (e_sched_rel a =? 0), (j =? 0); cbn [negb]; try reflexivity. destruct (Z.eqb_spec st 0); congruence. }
  destruct (e_listening a); (split; [intros ->; reflexivity|]; intros j ->; cbn [fst snd]; rewrite V; split; [reflexivity|vm_compute; reflexivity]).
Qed.
(** Nothing is released that is not held, and nothing twice, whatever fails; in particular the
    descriptors of the pair are closed at most once. *)
Theorem C68_safe : forall a, left_over (snd (echo_server a)) <> None.
Proof.
  intros a. destruct (Z.eq_dec (first_error (before_thread a)) 0) as [B|B]; [|rewrite (proj1 (C68_start_partial a B)); discriminate].
  destruct (Z.eq_dec (first_error (thread_calls a)) 0) as [T|T]; [|rewrite (proj1 (C68_context_refuted a B T)); discriminate].
  rewrite (with_thread a B T). cbv zeta. unfold echo_join, echo_scheduler, echo_allocator.
  destruct (fails (e_right a)), (fails (e_wrap a)), (e_loop a), (e_listening a), (e_join a); vm_compute; discriminate.
Qed.
(** What main returns if the start fails, releases failing or not: the last failure. *)
Theorem C68_reported : forall a st rels, e_alloc a = 0 -> e_sched a = 0 -> failed_call (undoing a) = Some (st, rels) ->
  fst (echo_server a) = Returns (first_error (e_sched_rel a :: rels ++ [st])).
Proof.
  intros a st rels A S F. unfold undoing, failed_call, STATUS_SUCCESS in F.
  unfold echo_server, add_manager, add_listener, start_signal_thread, echo_join, echo_scheduler, echo_allocator, or_else, fails, STATUS_SUCCESS. rewrite A, S.
  change (0 =? 0) with true. cbn [negb]. cbv iota zeta.
  repeat match type of F with (if ?c then _ else _) = _ => let E := fresh "E" in destruct c eqn:E; cbn [negb]; cbv iota end;
  try discriminate F; injection F as <- <-; cbn [app first_error]; unfold STATUS_SUCCESS;
  repeat (cbn [negb fst snd]; cbv iota;
    match goal with
    | |- context [0 =? 0] => change (0 =? 0) with true
    | H : (?x =? 0) = _ |- context [?x =? 0] => rewrite H
    | |- context [?x =? 0] => match x with context [if _ then _ else _] => fail 1 | _ => let E := fresh "E" in destruct (x =? 0) eqn:E end
    end); cbn [negb fst snd]; reflexivity.
Qed.
Example C68_reported_example :
  let a := EA 0 0 0 0 0 0 0 0 0 0 0 0 0 0 7 8 9 0 0 0 (Some 0) true (Some 0) 0 in
  failed_call (undoing a) = Some (7, [8; 9]) /\ fst (echo_server a) = Returns 8.
Proof. repeat split. Qed.
(** main returns 0 exactly if no call of the start, the loop and the join failed and the scheduler
    was released. *)
Theorem C68_zero : forall a, fst (echo_server a) = Returns 0 <->
  serving a /\ e_loop a = Some 0 /\ e_join a = Some 0 /\ e_sched_rel a = 0.
Proof.
  intros a. assert (G : serving a <-> first_error (before_thread a) = 0 /\ first_error (thread_calls a) = 0 /\ first_error [e_right a; e_wrap a] = 0).
  { split.
    - intros S. unfold serving in S. decompose [and] S. clear S. unfold before_thread, thread_calls. repeat match goal with E : _ a = 0 |- _ => rewrite E; clear E end. repeat split.
    - unfold before_thread, thread_calls. intros (A & B & C). apply first_zero in A, B, C.
      repeat match goal with H : Forall _ (_ :: _) |- _ => inversion H; subst; clear H end. unfold serving. repeat split; assumption. }
  destruct (Z.eq_dec (first_error (before_thread a)) 0) as [B|B].
  2: { destruct (C68_start_partial a B) as (_ & (c & -> & C) & _). split; [intros E; congruence|]. intros (S & _). apply G in S. tauto. }
  destruct (Z.eq_dec (first_error (thread_calls a)) 0) as [T|T].
  2: { destruct (C68_context_refuted a B T) as (_ & (c & -> & C) & _). split; [intros E; congruence|]. intros (S & _). apply G in S. tauto. }
  destruct (Z.eq_dec (first_error [e_right a; e_wrap a]) 0) as [W|W].
  2: { destruct (C68_right_refuted a B T W) as (H1 & H2). split; [intros E|intros (S & _); apply G in S; tauto]. destruct (e_join a) as [j|]; [|rewrite H1 in E by reflexivity; discriminate].
       destruct (H2 j eq_refl) as (_ & (c & D & C) & _). congruence. }
  destruct (e_loop a) as [st|] eqn:L.
  - destruct (C68_left_refuted a st B T W L) as (H1 & H2). destruct (e_join a) as [j|] eqn:J; [|rewrite H1 by reflexivity; split; [discriminate|intros (_ & _ & X & _); discriminate]].
    destruct (H2 j eq_refl) as (-> & _). split.
    + intros E. injection E as E. apply (first_zero [e_sched_rel a; j; st]) in E. inversion E as [|? ? X1 E1]; subst. inversion E1 as [|? ? X2 E2]; subst. inversion E2 as [|? ? X3 E3]; subst.
      repeat split; try (apply G; tauto); try congruence.
    + intros (_ & X1 & X2 & X3). injection X1 as ->. injection X2 as ->. rewrite X3. reflexivity.
  - split; [|intros (_ & X & _); discriminate]. rewrite (with_thread a B T). cbv zeta. rewrite L. unfold echo_join, echo_scheduler, echo_allocator.
    destruct (fails (e_right a)) eqn:E1; [rewrite (err_here _ _ E1) in W; rewrite W in E1; discriminate|]. rewrite (err_cons _ _ E1) in W.
    destruct (fails (e_wrap a)) eqn:E2; [rewrite (err_here _ _ E2) in W; rewrite W in E2; discriminate|]. discriminate.
Qed.
(** The shell sees the low eight bits of what main returns.  A status whose last eight bits are zero
    looks like success: running out of memory at the start, or a read that fails in the loop. *)
Theorem C68_exit_refuted :
  (forall a, e_alloc a = 0 -> e_sched a = ERROR_GENERAL_OUT_OF_MEMORY -> fst (echo_server a) = Returns ERROR_GENERAL_OUT_OF_MEMORY /\ exit_status (fst (echo_server a)) = Some 0) /\
  (forall a, serving a -> e_loop a = Some ERROR_PSOCK_READ_GENERAL -> e_join a = Some 0 -> e_sched_rel a = 0 -> exit_status (fst (echo_server a)) = Some 0) /\
  (forall a, fst (echo_server a) = Returns 0 -> exit_status (fst (echo_server a)) = Some 0) /\
  ERROR_GENERAL_OUT_OF_MEMORY <> 0 /\ ERROR_PSOCK_READ_GENERAL <> 0.
Proof.
  split; [intros a A S; unfold echo_server; rewrite A, S; split; vm_compute; reflexivity|]. split.
  - intros a S L J R. unfold serving in S. decompose [and] S. clear S.
    unfold echo_server, add_manager, add_listener, start_signal_thread, echo_join, echo_scheduler, echo_allocator. rewrite L, J, R.
    repeat match goal with E : _ a = 0 |- _ => rewrite E; clear E end. destruct (e_listening a); vm_compute; reflexivity.
  - split; [intros a ->; reflexivity|]. split; discriminate.
Qed.
Definition good_server (loop : option Z) (listening : bool) : eanswers := EA 0 0 0 0 0 0 0 0 0 0 0 0 0 0 0 0 0 0 0 0 loop listening (Some 0) 0.
Example C68_left_example : serving (good_server (Some 0) false) /\ releases (good_server (Some 0) false) /\ fst (echo_server (good_server (Some 0) false)) = Returns 0 /\
  left_over (snd (echo_server (good_server (Some 3) true))) = Some [SignalSocket; RightSocket; LeftSocket; SignalContext; Right; Left; ListenContext].
Proof. repeat split. Qed.
(** The listener cannot be added to the scheduler; the signal thread cannot be made; main's end cannot be made a socket *)
Example C68_fails_example :
  echo_server (EA 0 0 0 0 0 0 0 0 7 0 0 0 0 0 0 0 0 0 0 0 (Some 0) true (Some 0) 0) =
    (Returns 7, [Acq Allocator; Acq Scheduler; Acq Manager; Acq ListenContext; Acq Listener; Rel Listener; Rel ListenContext; Rel Manager; Rel Scheduler; Rel Allocator]) /\
  left_over (snd (echo_server (EA 0 0 0 0 0 0 0 0 0 0 0 0 0 0 7 0 0 0 0 0 (Some 0) true (Some 0) 0))) = Some [ListenContext] /\
  left_over (snd (echo_server (EA 0 0 0 0 0 0 0 0 0 0 0 0 0 0 0 0 0 7 0 0 (Some 0) true (Some 0) 0))) = Some [LeftSocket; SignalContext; Right; Left; ListenContext].
Proof. repeat split. Qed.

Print Assumptions C67_start_partial.
Print Assumptions C67_thread_refuted.
Print Assumptions C67_lock_partial.
Print Assumptions C67_frame_refuted.
Print Assumptions C67_done_refuted.
Print Assumptions C67_exit.
Print Assumptions C67_codes.
Print Assumptions C67_safe.
Print Assumptions C68_start_partial.
Print Assumptions C68_context_refuted.
Print Assumptions C68_right_refuted.
Print Assumptions C68_left_refuted.
Print Assumptions C68_safe.
Print Assumptions C68_reported.
Print Assumptions C68_zero.
Print Assumptions C68_exit_refuted.
