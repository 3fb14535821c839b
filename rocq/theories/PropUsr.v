(** C72: a fiber scheduler made with the user's own callback switches exactly as the callback says. *)
From Coq Require Import Permutation.
From Verif Require Import Base Status MemModel Heap SchedModel UsrModel UsrSpec UsrProofs.

(** No process, schedulers or fibers: the thread's own code runs. *)
Definition nothing {C} : world C := W [] [] 0 [].

Lemma welcomed : forall C (cb : callback C) s m rf rs je ctx w,
  welcomes cb s m je ctx ->
  usr_create cb STATUS_SUCCESS STATUS_SUCCESS s m rf rs je ctx w =
  Some (STATUS_SUCCESS, Some s,
        W (hadd (w_schs w) s (US m m (a_ctx (cb s ctx m YIELD_MAIN 0)))) (hadd (w_ufs w) m (UF RUNNING s 0 0 0 0 None))
          (w_run w) (w_calls w ++ [(s, m, YIELD_MAIN, 0)])).
Proof.
  intros C cb s m rf rs je ctx w (H1 & H2 & H3 & H4). unfold usr_create. change (negb (ok STATUS_SUCCESS)) with false.
  cbn match. rewrite H4. cbn [free_all]. unfold ok. change STATUS_SUCCESS with 0. rewrite H1, H2. cbn [Z.eqb negb].
  rewrite Z.eqb_refl. change (or_junk (a_event (cb s ctx m YIELD_MAIN 0)) je) with (or_else (a_event (cb s ctx m YIELD_MAIN 0)) je).
  rewrite H3. reflexivity.
Qed.
Lemma made_ok : forall C (cb : callback C) s m ctx,
  m <> 0 ->
  sys_ok s m RUNNING [(s, m, YIELD_MAIN, 0)] (fresh m ctx)
    (W (C := C) (hadd [] s (US m m ctx)) (hadd [] m (UF RUNNING s 0 0 0 0 None)) 0 ([] ++ [(s, m, YIELD_MAIN, 0)])).
Proof.
  intros C cb s m ctx Nm. constructor; cbn; auto; try (rewrite Z.eqb_refl; auto).
  - unfold own. rewrite Z.eqb_refl. auto.
  - reflexivity.
  - constructor; cbn; auto.
    + split; cbn; [repeat constructor; auto|]. intros [K|[]]; auto.
    + rewrite Z.eqb_refl. unfold entry_of. rewrite Z.eqb_refl. eauto.
    + discriminate.
    + intros f _ D. destruct (Z.eqb_spec f m); congruence.
Qed.

(** In every history of calls on a scheduler, from its creation: the callback is asked once for each addition, yield,
    run and return, with the fiber that really runs, the event and the parameter given; if it fails, the call fails with
    its status and the fiber goes on; otherwise exactly the fiber that it names goes on, beginning if it had not begun,
    and if it is in a yield, with the discipline id, event and parameter answered; and fiber_state_get and
    fiber_scheduler_from_fiber_get say so.  The histories are those where the callback names a parked fiber or the one
    that runs, and releases parked fibers other than the main one. *)
Theorem C72_follows : forall C (cb : callback C) s m rf rs je ctx l os y,
  m <> 0 ->
  welcomes cb s m je ctx ->
  does_all cb s m l (fresh m (a_ctx (cb s ctx m YIELD_MAIN 0))) = Some (os, y) ->
  exists w w',
    usr_create cb STATUS_SUCCESS STATUS_SUCCESS s m rf rs je ctx nothing = Some (STATUS_SUCCESS, Some s, w) /\
    do_calls cb l w = Some (os, w') /\
    w_calls w' = (s, m, YIELD_MAIN, 0) :: map (fun '(f, e, p) => (s, f, e, p)) (told y) /\
    (~ In (Sees Dies) os -> forall f,
       usr_state f w' = state_of y f /\ usr_scheduler f w' = (if known f y then Some s else None)).
Proof.
  intros C cb s m rf rs je ctx l os y Nm We D.
  pose proof (made_ok C cb s m (a_ctx (cb s ctx m YIELD_MAIN 0)) Nm) as S.
  destruct (does_all_ok _ _ _ _ _ _ _ _ _ _ S D) as (w' & E & Cl & R).
  eexists. exists w'. split; [apply welcomed; auto|]. split; [exact E|]. split; [exact Cl|].
  intros K f. eapply states_ok; eauto.
Qed.
(** A callback that runs fibers in turn; its context is the fibers ready to run. *)
Definition in_turn : callback (list Z) := fun s q yf ev p =>
  if ev =? YIELD_MAIN then Ans 0 (Some yf) None (Some RESUME_MAIN) (Some 0) [] q
  else if ev =? YIELD_ADD_FIBER then Ans 0 (Some yf) None (Some RESUME_ADD_FIBER) (Some 0) [] (q ++ [p])
  else if ev =? YIELD_RESOURCE_RELEASE then Ans 0 None None None None q []
  else match (if ev =? YIELD_STOP then q else q ++ [yf]) with
       | g :: q' => Ans 0 (Some g) (if ev =? 51 then Some 7 else None) (Some ev) (if p =? 0 then None else Some p) [] q'
       | [] => Ans 9 None None None None [] q
       end.
(** Two fibers that take turns with the main one; the second returns, and then the first. *)
Definition turns : list ucall :=
  [CFiber 100 2; CFiber 100 3; CAdd 100 2 70 71; CAdd 100 3 70 71; CRun 100 70 71;
   CYield 100 50 60 70 71; CYield 100 51 61 72 73; CYield 100 52 0 74 75; CYield 100 53 63 76 77; CReturn 64 78 79;
   CRun 100 80 81; CReturn 65 82 83].
Example C72_follows_met :
  welcomes in_turn 100 1 0 [] /\
  match does_all in_turn 100 1 turns (fresh 1 []) with
  | Some (os, y) =>
      os = [Created; Created; Sees Added; Sees Added; Sees Begins; Sees Begins; Sees (Yields 7 51 61);
            Sees (Yields INTERNAL_ID 52 75); Sees (Yields INTERNAL_ID 53 63); Sees (Yields INTERNAL_ID 3 64);
            Sees (Yields INTERNAL_ID 0 81); Sees (Yields INTERNAL_ID 3 65)] /\
      map (state_of y) [1; 2; 3; 4] = [Some RUNNING; Some STOPPED; Some STOPPED; None] /\ running y = 1 /\ length (told y) = 10%nat
  | None => False
  end.
Proof. split; [vm_compute; auto|]. vm_compute. repeat split. Qed.

(** The scheduler's release, after any such history, by whatever runs then: the callback is asked once, as the main fiber,
    with the release event; the main fiber goes, and of the others exactly those that the callback releases; the status is
    the first that failed of the reclaim of the scheduler, the callback, and the reclaim of the main fiber. *)
Theorem C72_release : forall C (cb : callback C) s m rf rs rf' rs' je ctx l os y m',
  m <> 0 -> welcomes cb s m je ctx ->
  does_all cb s m l (fresh m (a_ctx (cb s ctx m YIELD_MAIN 0))) = Some (os, y) ->
  ~ In (Sees Dies) os ->
  let a := cb s (context y) m YIELD_RESOURCE_RELEASE 0 in
  released m (a_freed a) (parked y) = Some m' ->
  exists w w' w'',
    usr_create cb STATUS_SUCCESS STATUS_SUCCESS s m rf rs je ctx nothing = Some (STATUS_SUCCESS, Some s, w) /\
    do_calls cb l w = Some (os, w') /\
    usr_release cb rf' rs' s w' = Some (first_bad [rs'; a_status a; rf'], w'') /\
    w_calls w'' = w_calls w' ++ [(s, m, YIELD_RESOURCE_RELEASE, 0)] /\ w_run w'' = w_run w' /\ w_schs w'' = [] /\
    forall f, usr_state f w'' = if f =? m then None else state_of (Sys (running y) m' (context y) (told y)) f.
Proof.
  intros C cb s m rf rs rf' rs' je ctx l os y m' Nm We D K a Rl.
  pose proof (made_ok C cb s m (a_ctx (cb s ctx m YIELD_MAIN 0)) Nm) as S.
  destruct (does_all_ok _ _ _ _ _ _ _ _ _ _ S D) as (w' & E & Cl & R). specialize (R K).
  pose proof (calls_schs _ _ _ _ _ _ E) as As. cbn in As.
  destruct R as [Hs Hr _ Hf].
  destruct (free_ok _ _ _ _ _ _ _ _ Hf Rl) as (h & Eh & F).
  destruct F as [Wf N (d & e & p & G) P U M].
  assert (Gm : exists b, hget h m = Some b).
  { destruct M as [M|[M|M]]; [rewrite <- M; eauto| |]; destruct (P _ _ M) as (d' & e' & p' & G'); eauto. }
  destruct Gm as (bm & Gm).
  eexists. exists w'. eexists. split; [apply welcomed; auto|]. split; [exact E|].
  unfold usr_release. rewrite Hs. cbn [s_ctx s_main]. fold a. rewrite Eh. unfold hfree. rewrite Gm.
  split; [f_equal; f_equal; unfold first_bad, ok; change STATUS_SUCCESS with 0; destruct (rs' =? 0), (a_status a =? 0), (Z.eqb_spec rf' 0); cbn; auto|].
  cbn [w_calls w_run w_schs]. split; auto. split; auto. split.
  - destruct (w_schs w') as [|[q t] [|]]; try discriminate As. cbn in *. inversion As; subst. rewrite Z.eqb_refl. auto.
  - intros f. unfold usr_state. cbn [w_ufs]. rewrite hget_hdel by auto. destruct (Z.eqb_spec f m) as [|Nf]; auto.
    unfold state_of. cbn [running parked].
    destruct (Z.eqb_spec f (running y)) as [->|Dr]; [rewrite G; auto|].
    destruct (m' f) as [ph|] eqn:Em; [destruct (P f ph Em) as (d' & e' & p' & G'); rewrite G'; destruct ph; auto|].
    rewrite (U f Em Dr). auto.
Qed.
Example C72_release_met :
  match does_all in_turn 100 1 (firstn 7 turns) (fresh 1 []) with
  | Some (os, y) =>
      running y = 1 /\
      match released 1 (a_freed (in_turn 100 (context y) 1 YIELD_RESOURCE_RELEASE 0)) (parked y) with
      | Some m' => map (state_of y) [1; 2; 3] = [Some RUNNING; Some RUNNING; Some RUNNING] /\ m' 2 = None /\ m' 3 = None
      | None => False end
  | None => False
  end.
Proof. vm_compute. repeat split. Qed.

(** A creation that fails puts back all that it allocated, and answers the first failure of its cleanup or else its own;
    the callback is told of the main fiber only if both structures could be allocated, and of the release of all it was told of. *)
Theorem C72_create : forall C (cb : callback C) al1 al2 s m rf rs je ctx (w : world C),
  let a := cb s ctx m YIELD_MAIN 0 in
  let a' := cb s (a_ctx a) m YIELD_RESOURCE_RELEASE 0 in
  let undone e := Some (first_bad [rs; a_status a'; rf; e], None : option Z,
                        W (w_schs w) (w_ufs w) (w_run w) (w_calls w ++ [(s, m, YIELD_MAIN, 0); (s, m, YIELD_RESOURCE_RELEASE, 0)])) in
  let result := usr_create cb al1 al2 s m rf rs je ctx w in
  (al1 <> 0 -> result = Some (ERROR_GENERAL_OUT_OF_MEMORY, None, w)) /\
  (al1 = 0 -> al2 <> 0 -> result = Some (first_bad [rs; ERROR_GENERAL_OUT_OF_MEMORY], None, w)) /\
  (al1 = 0 -> al2 = 0 -> a_freed a = [] -> a_freed a' = [] -> a_status a <> 0 -> result = undone (a_status a)) /\
  (al1 = 0 -> al2 = 0 -> a_freed a = [] -> a_freed a' = [] -> a_status a = 0 -> forall g, a_fib a = Some g ->
     g <> m \/ or_else (a_event a) je <> RESUME_MAIN -> result = undone ERROR_FIBER_SCHEDULER_CALLBACK_STATE) /\
  (al1 = 0 -> al2 = 0 -> welcomes cb s m je ctx -> exists w', result = Some (STATUS_SUCCESS, Some s, w') /\
     w_calls w' = w_calls w ++ [(s, m, YIELD_MAIN, 0)] /\ w_run w' = w_run w /\
     usr_state m w' = Some RUNNING /\ usr_scheduler m w' = Some s /\ hget (w_schs w') s = Some (US m m (a_ctx a)) /\
     (forall f, f <> m -> usr_state f w' = usr_state f w) /\ (forall x, x <> s -> hget (w_schs w') x = hget (w_schs w) x)).
Proof.
  intros C cb al1 al2 s m rf rs je ctx w a a' undone result.
  assert (Rel : forall e, a_freed a' = [] ->
     match usr_release cb rf rs s (W (hadd (w_schs w) s (US m m (a_ctx a))) (hadd (w_ufs w) m (UF RUNNING s 0 0 0 0 None)) (w_run w) (w_calls w ++ [(s, m, YIELD_MAIN, 0)]))
     with Some (r, w2) => Some (if negb (ok r) then r else e, None : option Z, w2) | None => None end = undone e).
  { intros e F. unfold usr_release. cbn [w_schs w_ufs w_run w_calls hadd hget]. rewrite Z.eqb_refl. cbn [s_ctx s_main].
    fold a'. rewrite F. cbn [free_all]. unfold hfree, hadd. cbn [hget hdel]. rewrite ?Z.eqb_refl. cbn [hget hdel].
    unfold undone. rewrite <- app_assoc. f_equal. f_equal. f_equal. unfold first_bad, ok. change STATUS_SUCCESS with 0.
    destruct (rs =? 0) eqn:E1, (a_status a' =? 0) eqn:E2, (rf =? 0) eqn:E3; cbn [negb];
      rewrite ?E1, ?E2, ?E3; cbn; auto; destruct (Z.eqb_spec e 0); auto. }
  unfold result, usr_create, ok. change STATUS_SUCCESS with 0. repeat split; intros H1; try (intros H2); try subst al1; try subst al2; cbn [Z.eqb negb].
  - destruct (Z.eqb_spec al1 0); [congruence|reflexivity].
  - destruct (Z.eqb_spec al2 0); [congruence|]. cbn. destruct (rs =? 0); reflexivity.
  - intros F F' St. fold a. rewrite F. cbn [free_all]. destruct (Z.eqb_spec (a_status a) 0); [congruence|]. cbn [negb]. apply Rel; auto.
  - intros F F' St g Eg Bad. fold a. rewrite F. cbn [free_all]. rewrite St, Eg. cbn [Z.eqb negb].
    change (or_junk (a_event a) je) with (or_else (a_event a) je).
    replace (negb (g =? m) || negb (or_else (a_event a) je =? RESUME_MAIN)) with true; [apply Rel; auto|].
    destruct Bad as [B|B]; apply Z.eqb_neq in B; rewrite B; auto. cbn. rewrite orb_true_r. auto.
  - intros We. pose proof (welcomed _ cb s m rf rs je ctx w We) as X. unfold usr_create, ok in X. change STATUS_SUCCESS with 0 in X.
    cbn [Z.eqb negb] in X. eexists. split; [exact X|]. cbn. unfold usr_state, usr_scheduler. cbn. rewrite !Z.eqb_refl.
    repeat split. + intros f N. destruct (Z.eqb_spec f m); congruence. + intros x N. destruct (Z.eqb_spec x s); congruence.
Qed.
Example C72_create_met :
  usr_create in_turn 0 0 100 1 0 0 0 [] nothing <> None /\
  usr_create (fun s (q : unit) yf ev p => Ans (if ev =? YIELD_MAIN then 5 else 0) None None None None [] tt) 0 0 100 1 0 0 0 tt nothing =
    Some (5, None, W [] [] 0 [(100, 1, YIELD_MAIN, 0); (100, 1, YIELD_RESOURCE_RELEASE, 0)]) /\
  usr_create (fun s (q : unit) yf ev p => Ans 0 (Some yf) None (Some RESUME_RUN) None [] tt) 0 0 100 1 0 0 0 tt nothing =
    Some (ERROR_FIBER_SCHEDULER_CALLBACK_STATE, None, W [] [] 0 [(100, 1, YIELD_MAIN, 0); (100, 1, YIELD_RESOURCE_RELEASE, 0)]).
Proof. vm_compute. repeat split. discriminate. Qed.

(** With any number of schedulers in the thread and any callbacks, in every history that is defined: no fiber's execution is
    ever in two places, so none is resumed while it runs or resumed twice. *)
Theorem C72_one_place : forall C (cb : callback C) l w os w',
  NoDup (created l ++ strands w) -> do_calls cb l w = Some (os, w') -> NoDup (strands w').
Proof.
  intros C cb l w os w' N H. destruct (calls_strands _ _ _ _ _ _ H) as (lost & P).
  apply (no_dup_left _ lost). eapply Permutation_NoDup; [exact P|].
  rewrite <- (firstn_skipn (length os) l) in N. unfold created in *. rewrite flat_map_app, <- app_assoc in N.
  eapply Permutation_NoDup in N; [|apply Permutation_app_head, Permutation_app_comm].
  rewrite app_assoc in N. apply no_dup_left in N. auto.
Qed.
(** And if the callbacks release no fiber, none is lost: whatever ran or waited, and every fiber made, runs or waits. *)
Theorem C72_none_lost : forall C (cb : callback C) l w os w',
  keeps_all cb -> apart w -> NoDup (created l ++ addrs (w_ufs w)) -> do_calls cb l w = Some (os, w') ->
  Permutation (created (firstn (length os) l) ++ strands w) (strands w') /\ apart w'.
Proof. intros. eapply calls_apart; eauto. Qed.
(** Schedulers made by fiber_scheduler_create are such worlds. *)
Theorem C72_apart : forall C (cb : callback C) s m rf rs je ctx w w',
  welcomes cb s m je ctx -> apart w -> hget (w_schs w) s = None -> hget (w_ufs w) m = None ->
  usr_create cb STATUS_SUCCESS STATUS_SUCCESS s m rf rs je ctx w = Some (STATUS_SUCCESS, Some s, w') ->
  apart w' /\ strands w' = strands w.
Proof.
  intros C cb s m rf rs je ctx w w' We [A1 A2] Fs Fm E. rewrite (welcomed _ _ _ _ _ _ _ _ _ We) in E. inversion E; subst. clear E.
  split; [|reflexivity]. split; cbn.
  - intros s' t'. destruct (Z.eqb_spec s' s) as [->|]; intros H.
    + inversion H; subst. cbn. rewrite Z.eqb_refl. eauto.
    + destruct (A1 _ _ H) as (b & Hb & Nb). destruct (Z.eqb_spec (s_cur t') m); [congruence|eauto].
  - intros s1 t1 s2 t2. destruct (Z.eqb_spec s1 s) as [->|], (Z.eqb_spec s2 s) as [->|]; intros H1 H2 Eq; auto.
    + inversion H1; subst. cbn in Eq. destruct (A1 _ _ H2) as (b & Hb & _). congruence.
    + inversion H2; subst. cbn in Eq. destruct (A1 _ _ H1) as (b & Hb & _). congruence.
    + eauto.
Qed.
(** Two schedulers, 100 and 200, with the main fibers 1 and 4; a fiber of the first runs the second. *)
Definition nested : list ucall :=
  [CFiber 100 2; CFiber 200 5; CAdd 100 2 0 0; CRun 100 0 0; CAdd 200 5 0 0; CRun 200 0 0; CYield 100 50 60 0 0; CYield 200 51 61 0 0].
Definition two (w : world (list Z)) : option (world (list Z)) :=
  do '(_, _, w1) <- usr_create in_turn 0 0 100 1 0 0 0 [] w;
  do '(_, _, w2) <- usr_create in_turn 0 0 200 4 0 0 0 [] w1;
  Some w2.
Example C72_one_place_met :
  match two nothing with
  | Some w =>
      apart w /\ created nested ++ strands w = [2; 5; 0] /\ addrs (w_ufs w) = [4; 1] /\
      match do_calls in_turn nested w with
      | Some (os, w') =>
          os = [Created; Created; Sees Added; Sees Begins; Sees Added; Sees Begins; Sees (Yields INTERNAL_ID 50 60); Sees (Yields 7 51 61)] /\
          strands w' = [2; 0; 5]
      | None => False
      end
  | None => False
  end.
Proof.
  assert (A : forall w w', two w = Some w' -> w = nothing -> apart w').
  { intros w w' E ->. vm_compute in E. inversion E; subst. split; cbn.
    - intros s t. destruct (s =? 200), (s =? 100); intros H; inversion H; subst; cbn; eauto.
    - intros s1 t1 s2 t2. destruct (Z.eqb_spec s1 200), (Z.eqb_spec s1 100), (Z.eqb_spec s2 200), (Z.eqb_spec s2 100);
        intros H1 H2 Q; inversion H1; inversion H2; subst; cbn in Q; congruence. }
  destruct (two nothing) as [w|] eqn:E; [|vm_compute in E; discriminate]. split; [eapply A; eauto|].
  vm_compute in E. inversion E; subst. vm_compute. repeat split.
Qed.

(** The documentation says that a failed creation sets the caller's variable to NULL: it never does. *)
Theorem C72_null_refuted : forall C (cb : callback C) al1 al2 s m rf rs je ctx w e o w',
  usr_create cb al1 al2 s m rf rs je ctx w = Some (e, o, w') -> o = None \/ o = Some s /\ e = STATUS_SUCCESS.
Proof.
  intros C cb al1 al2 s m rf rs je ctx w e o w' H. unfold usr_create in H.
  repeat match type of H with
  | Some _ = Some _ => inversion H; subst; auto
  | None = Some _ => discriminate
  | context [if ?c then _ else _] => destruct c
  | context [match ?x with Some _ => _ | None => _ end] => destruct x as [?|]
  end; try (destruct p; inversion H; subst; auto).
Qed.
Example C72_null_refuted_met :
  usr_create in_turn 1 0 100 1 0 0 0 [] nothing = Some (ERROR_GENERAL_OUT_OF_MEMORY, None, nothing).
Proof. reflexivity. Qed.
(** The documentation says that a callback's failure ends the process: a call of add, yield or run just fails, and
    things go on as if it had not been made. *)
Theorem C72_abort_refuted : exists C (cb : callback C) ctx l os y,
  welcomes cb 100 1 0 ctx /\ does_all cb 100 1 l (fresh 1 (a_ctx (cb 100 ctx 1 YIELD_MAIN 0))) = Some (os, y) /\
  os = [Sees (Fails 9); Created; Sees Added; Sees Begins; Sees (Fails 9); Sees (Yields INTERNAL_ID 50 60)].
Proof.
  exists (list Z), (fun s q yf ev p => if ev =? 55 then Ans 9 None None None None [] q else in_turn s q yf ev p), [],
    [CYield 100 55 0 0 0; CFiber 100 2; CAdd 100 2 0 0; CRun 100 0 0; CYield 100 55 0 0 0; CYield 100 50 60 0 0].
  do 2 eexists. split; [vm_compute; auto|]. split; [vm_compute; reflexivity|reflexivity].
Qed.
(** The callback owns the fibers added and is to release them when they are no longer in use; but releasing a fiber when
    told that it has returned is undefined, as the fiber's state is saved after that. *)
Theorem C72_stop_refuted : forall C (cb : callback C) w p je jp b t,
  hwf (w_ufs w) ->
  hget (w_ufs w) (w_run w) = Some b -> hget (w_schs w) (u_entry b) = Some t -> s_cur t = w_run w ->
  let a := cb (u_entry b) (s_ctx t) (w_run w) YIELD_STOP p in
  a_status a = 0 -> In (w_run w) (a_freed a) ->
  usr_return cb p je jp w = None.
Proof.
  intros C cb w p je jp b t Wf Hb Ht Hc a St Fr. unfold usr_return. rewrite Hb. unfold switch. cbn [w_schs w_ufs].
  rewrite Ht, Hc. fold a. destruct (free_all _ _) as [h|] eqn:E; [|auto].
  assert (G : hget h (w_run w) = None) by (eapply free_gone; [apply hset_wf; exact Wf|exact E|exact Fr]).
  unfold ok. change STATUS_SUCCESS with 0. rewrite St. cbn [Z.eqb negb]. destruct (a_fib a); auto.
  unfold fiber_switch. cbn [w_ufs]. rewrite G. auto.
Qed.
Example C72_stop_refuted_met :
  let cb : callback (list Z) := fun s q yf ev p => if ev =? YIELD_STOP then Ans 0 (Some 1) None None None [yf] [] else in_turn s q yf ev p in
  match usr_create cb 0 0 100 1 0 0 0 [] nothing with
  | Some (_, _, w) =>
      match do_calls cb [CFiber 100 2; CAdd 100 2 0 0; CRun 100 0 0] w with
      | Some (os, w') => os = [Created; Sees Added; Sees Begins] /\ w_run w' = 2 /\ usr_return cb 64 0 0 w' = None
      | None => False
      end
  | None => False
  end.
Proof. vm_compute. repeat split. Qed.
(** A fiber that has returned must not be resumed: the process dies, as it does if the callback fails when told. *)
Theorem C72_returned_refuted : exists C (cb : callback C) ctx l y,
  welcomes cb 100 1 0 ctx /\ does_all cb 100 1 l (fresh 1 (a_ctx (cb 100 ctx 1 YIELD_MAIN 0))) =
    Some ([Created; Sees Added; Sees Begins; Sees (Yields INTERNAL_ID YIELD_STOP 64); Sees Dies], y) /\ state_of y 3 = None.
Proof.
  exists (list Z), (fun s q yf ev p => if ev =? 55 then Ans 0 (Some p) None None None [] q else in_turn s q yf ev p), [],
    [CFiber 100 2; CAdd 100 2 0 0; CRun 100 0 0; CReturn 64 0 0; CYield 100 55 2 0 0; CFiber 100 3].
  eexists. split; [vm_compute; auto|]. split; [vm_compute; reflexivity|reflexivity].
Qed.
(** A fiber made for one scheduler and added to another belongs, it is told, to the other, which runs it; but its return
    is told to the first one's callback, as if the first one's current fiber had returned. *)
Theorem C72_other_refuted :
  match two nothing with
  | Some w =>
      match do_calls in_turn [CFiber 100 2; CAdd 200 2 0 0; CRun 200 0 0] w with
      | Some (os, w1) =>
          os = [Created; Sees Added; Sees Begins] /\ usr_scheduler 2 w1 = Some 200 /\ w_run w1 = 2 /\
          match do_calls in_turn [CReturn 64 0 0] w1 with
          | Some (os', w2) => os' = [Sees Dies] /\ w_calls w2 = w_calls w1 ++ [(100, 1, YIELD_STOP, 64)]
          | None => False
          end
      | None => False
      end
  | None => False
  end.
Proof. vm_compute. repeat split. Qed.

Print Assumptions C72_follows.
Print Assumptions C72_release.
Print Assumptions C72_create.
Print Assumptions C72_one_place.
Print Assumptions C72_none_lost.
Print Assumptions C72_apart.
Print Assumptions C72_null_refuted.
Print Assumptions C72_abort_refuted.
Print Assumptions C72_stop_refuted.
Print Assumptions C72_returned_refuted.
Print Assumptions C72_other_refuted.
