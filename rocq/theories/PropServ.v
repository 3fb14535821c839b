(** C65: a signal shuts the echo server down.

    - C65_startup: main starts the server, whatever malloc's memory held.
    - C65_safe_partial: while the server runs, no step that it can take is undefined: no fiber or
      socket is used after it was released, none is made ready twice.
    - C65_untouched_partial: a fiber that waits for its socket is woken by the management
      discipline only with a request whose message the main fiber has read.
    - C65_quiesced_partial: when the request that follows the first message has come back, all
      connections and their fibers are gone, and no later state has one.
    - C65_terminated_partial: when the main fiber leaves its loop well, it has read both messages,
      and nothing is left but the signal socket and the fibers main, manager and idle.
    - C65_prompt_partial: a request comes back after finitely many steps, that no answer of the
      kernel can delay.
    What is missing: all but the first hold where no other fiber is ready when the main fiber acts
    on a message.  The three refuted theorems show each of them failing otherwise. *)
From Verif Require Import Base Status MemModel Heap TabModel TabSpec TabProofs SchedModel SchedSpec SchedProofs SchedHist IoModel IoSpec ServModel ServSpec ServInv ServSteps ServReach ServEnd.

Theorem C65_startup : forall T (ts : tops T) TR Q ans ctl c junk junk2, tab_ok ts TR Q -> good_conf c ->
  exists w0 os w, sched_create ts (ext_of (lib ans)) junk (epoll_none ctl, tt) (c_main c) = Some (STATUS_SUCCESS, w0) /\
    sexecs ts (lib ans) (startup c junk2) w0 = Some (os, w) /\ serves true ts Q ans ctl c (serving c, w).
Proof. exact serves_begins. Qed.

Theorem C65_safe_partial : forall T (ts : tops T) TR Q ans ctl c x v w, tab_ok ts TR Q -> good_conf c ->
  serves true ts Q ans ctl c (v, w) -> allowed true ans x v (seen w) -> unlinks Q x v (w_tab w) -> decide c x v <> None ->
  exists s', step (sexec ts (lib ans)) c x (v, w) = Some s' /\ serves true ts Q ans ctl c s'.
Proof. exact serves_step. Qed.

Theorem C65_untouched_partial : forall T (ts : tops T) TR Q ans ctl c v w wr d ev, tab_ok ts TR Q -> good_conf c ->
  serves true ts Q ans ctl c (v, w) -> v_stage v = PBack wr d ev ->
  d = IO_ID \/ d = MANAGEMENT_ID /\ v_cur v <> c_main c /\ (ev = MGMT_QUIESCE /\ read_first v \/ ev = MGMT_TERMINATE /\ read_second v).
Proof.
  intros T ts TR Q ans ctl c v w wr d ev PT CF S SG. destruct (serves_inv _ _ _ _ _ _ _ _ PT CF S) as (a & R & IV). destruct (Z.eq_dec d IO_ID) as [|N]; [auto|right]. eapply inv_told; eauto.
Qed.

Theorem C65_quiesced_partial : forall T (ts : tops T) TR Q ans ctl c v w, tab_ok ts TR Q -> good_conf c ->
  serves true ts Q ans ctl c (v, w) -> read_first v -> ~ asking c v ->
  (forall f, In f (i_fibs (seen w)) -> f = c_main c \/ f = c_mgr c \/ f = c_lis c \/ f = c_idle c) /\
  (forall s, In s (addrs (i_socks (seen w))) -> s = c_sig c \/ hget (v_socks v) (c_lis c) = Some s) /\
  (In (c_lis c) (i_fibs (seen w)) -> v_quiesce v = true).
Proof.
  intros T ts TR Q ans ctl c v w PT CF S RF NA. destruct (serves_inv _ _ _ _ _ _ _ _ PT CF S) as (a & R & IV). cbn [fst snd] in *. rewrite (rel_seen _ _ _ _ R). apply inv_quiesced; auto.
Qed.

Theorem C65_terminated_partial : forall T (ts : tops T) TR Q ans ctl c v w, tab_ok ts TR Q -> good_conf c ->
  serves true ts Q ans ctl c (v, w) -> v_stage v = PLeft STATUS_SUCCESS ->
  read_second v /\ v_cur v = c_main c /\
  (forall f, In f (i_fibs (seen w)) <-> f = c_main c \/ f = c_mgr c \/ f = c_idle c) /\
  (forall s, In s (addrs (i_socks (seen w))) <-> s = c_sig c) /\ TR (w_tab w) [c_mgr c].
Proof.
  intros T ts TR Q ans ctl c v w PT CF S SG. pose proof (serves_told _ _ _ _ _ _ _ _ PT CF S) as [_ TF]. destruct (serves_inv _ _ _ _ _ _ _ _ PT CF S) as (a & R & IV). cbn [fst snd] in *.
  destruct (inv_left _ _ _ IV SG) as (L1 & L2 & L3). split; [auto|]. split.
  - destruct IV as (P & md & _ & _ & _ & ST & _). rewrite SG in ST. destruct ST as (_ & _ & _ & _ & _ & ST). apply ST.
  - rewrite (rel_seen _ _ _ _ R). split; [auto|]. split; [auto|]. rewrite <- L3. apply (r_tab _ _ _ R).
Qed.

Theorem C65_prompt_partial : forall T (ts : tops T) TR ans ctl c v w, perfect ts TR -> good_conf c ->
  serves true ts (fun _ _ => True) ans ctl c (v, w) -> asking c v ->
  exists n v' w', (n <= 7 * (1 + length (i_ready (seen w))))%nat /\
    steps (sexec ts (lib ans)) c (repeat XCode n) (v, w) = Some (v', w') /\ serves true ts (fun _ _ => True) ans ctl c (v', w') /\
    v_cur v' = c_main c /\ (v_stage v' = PRead \/ v_stage v' = PLeft STATUS_SUCCESS).
Proof.
  intros T ts TR ans ctl c v w PT CF S AK. destruct (serves_inv _ _ _ _ _ _ _ _ PT CF S) as (a & R & IV). cbn [fst snd] in *.
  destruct (ask_ends _ ts TR ans ctl c _ v w a PT CF S R IV AK (inv_weight _ _ _ _ _ R)) as (n & v' & w' & N & E & S' & B). exists n, v', w'. auto.
Qed.

(** What a fiber of a connection calls after each answer of the kernel, whatever the library does:
    it waits for what it could not do, closes its socket after an error, and otherwise reads and
    writes in turn.  If the wait itself fails it closes its socket. *)
Theorem C65_connection : forall W (ex : sop -> W -> option (out * W)) c v w s,
  v_cur v <> c_main c -> v_cur v <> c_lis c -> hget (v_socks v) (v_cur v) = Some s ->
  forall wr : bool, v_stage v = (if wr then PWrite else PRead) ->
  step ex c (XAnswer Done) (v, w) = Some (at_stage (if wr then PRead else PWrite) v, w) /\
  (forall o w', ex (isop (c_disc c) (IRelease s)) w = Some (o, w') ->
     exists v', steps ex c [XAnswer Gone; XCode] (v, w) = Some (v', w') /\ v_stage v' = PReturn /\ v_socks v' = hdel (v_socks v) (v_cur v)) /\
  (forall o w', ex (isop (c_disc c) (IWait wr s)) w = Some (o, w') -> fst o <> STATUS_SUCCESS ->
     exists v', steps ex c [XAnswer Again; XCode] (v, w) = Some (v', w') /\ v_stage v' = PClose).
Proof.
  intros W ex c v w s NM NL HS wr SG. apply Z.eqb_neq in NM, NL. split; [|split].
  - unfold step, decide. cbn [fst snd]. rewrite SG. destruct wr; rewrite ?NM, ?NL; reflexivity.
  - intros o w' E. unfold steps, step, decide. cbn [fst snd]. rewrite SG. destruct wr; rewrite ?NM, ?NL; cbn [fst snd at_stage v_stage v_cur v_socks]; rewrite HS, E; eexists; (split; [reflexivity|]); split; reflexivity.
  - intros o w' E F. assert (K : ok (fst o) = false) by (apply Z.eqb_neq; exact F). unfold steps, step, decide. cbn [fst snd]. rewrite SG.
    destruct wr; rewrite ?NM, ?NL; cbn [fst snd at_stage v_stage v_cur v_socks]; rewrite HS, E; unfold yields; rewrite K; cbn [negb]; unfold failed; cbn [at_stage v_cur]; rewrite NM; eexists; split; reflexivity.
Qed.
(** If the kernel cannot be asked, or the yield of the idle fiber fails, the idle fiber takes itself
    out of the scheduler and ends. *)
Theorem C65_idle_fails : forall W (ex : sop -> W -> option (out * W)) c v w x,
  (exists q, v_stage v = PRound /\ x = XRound q /\ exists o w1, ex (isop (c_disc c) (IRound q)) w = Some (o, w1) /\ fst o <> STATUS_SUCCESS) \/
  v_stage v = PIdle /\ x = XCode /\ (exists o w1, ex SRun w = Some (o, w1) /\ fst o <> STATUS_SUCCESS) ->
  exists v1 w1, step ex c x (v, w) = Some (v1, w1) /\ (forall o w2, ex (SIdle 0) w1 = Some (o, w2) ->
    exists v2, step ex c XCode (v1, w1) = Some (v2, w2) /\ (forall f d ev p w3 q, ex SStop w2 = Some ((STATUS_SUCCESS, (f, d, ev, p)), w3) -> hget (v_sus v) f = Some q ->
      exists v3, step ex c XCode (v2, w2) = Some (v3, w3) /\ v_cur v3 = f)).
Proof.
  intros W ex c v w x H.
  assert (E : exists w1, step ex c x (v, w) = Some (at_stage PUnidle v, w1)).
  { destruct H as [(q & SG & -> & o & w1 & E & F)|(SG & -> & o & w1 & E & F)]; exists w1; assert (K : ok (fst o) = false) by (apply Z.eqb_neq; exact F); unfold step, decide; cbn [fst snd]; rewrite SG; cbn iota; rewrite E; [|unfold yields]; rewrite K; reflexivity. }
  destruct E as (w1 & E). exists (at_stage PUnidle v), w1. split; [exact E|]. intros o w2 I. exists (at_stage PReturn v). split.
  - unfold step, decide. cbn [fst snd at_stage v_stage]. rewrite I. reflexivity.
  - intros f d ev p w3 q S HQ. unfold step, decide. cbn [fst snd at_stage v_stage]. rewrite S. cbn [fst ok STATUS_SUCCESS Z.eqb negb]. unfold resumed. cbn [at_stage v_sus]. rewrite HQ. eexists. split; reflexivity.
Qed.

(** ** A server with one connection, from its start to its end *)
Definition c65 : conf := Conf 1 2 3 4 50 60 5.
(** The kernel's answers, by number: the listener's socket is ready, the connection's, the signal
    socket, two of them in this order. *)
Definition ans65 (q : Z) : list kans :=
  [KReady (if q =? 1 then [(6, 1)] else if q =? 2 then [(7, 1)] else if q =? 3 then [(5, 1)] else if q =? 4 then [(5, 1); (7, 1)] else [(6, 1); (5, 1)])].
Definition boot65 : list input := [XCode; XCode; XCode; XOpen 6 61; XAnswer Again; XCode].
Definition accept65 : list input := [XCode; XCode; XAnswer (Conn 7 62 100); XCode; XCode; XCode; XCode; XCode; XAnswer Again; XCode].
Definition up65 : list input := boot65 ++ [XRound 1] ++ accept65 ++ [XAnswer Again; XCode].
Definition told65 : list input := up65 ++ [XThread; XRound 3; XCode; XCode; XCode].
Definition cut65 : list input := told65 ++ repeat XCode 10.
Definition ended65 : list input := cut65 ++ [XThread; XRound 3; XCode; XCode; XCode] ++ repeat XCode 6.
Definition look (s : serv * sw (list Z) (iost ep * unit)) := (v_cur (fst s), v_stage (fst s), i_ready (seen (snd s)), i_fibs (seen (snd s)), addrs (i_socks (seen (snd s)))).
Example C65_conf : good_conf c65.
Proof. split; [|repeat split; discriminate]. cbn. repeat (constructor; [cbn; intuition discriminate|]). constructor. Qed.
(** The connection is up and waits. *)
Example C65_up_example : exists s, plays_from true ans65 c65 up65 = Some s /\ serves true list_tops (fun _ _ => True) ans65 [] c65 s /\ look s = (4, PRound, [], [100; 4; 3; 2; 1], [62; 61; 60]) /\ v_thr (fst s) = TWait.
Proof. destruct (plays_from true ans65 c65 up65) as [s|] eqn:E; [|vm_compute in E; discriminate]. exists s. split; [auto|]. split; [eapply plays_from_serves; eauto|]. vm_compute in E. inversion E; subst. split; reflexivity. Qed.
(** The connection's fiber has read and is about to write. *)
Example C65_connection_example : exists s, plays_from true ans65 c65 (boot65 ++ [XRound 1] ++ accept65 ++ [XAnswer Done]) = Some s /\ serves true list_tops (fun _ _ => True) ans65 [] c65 s /\ v_cur (fst s) = 100 /\ v_stage (fst s) = PWrite /\ hget (v_socks (fst s)) 100 = Some 62.
Proof. destruct (plays_from true ans65 c65 (boot65 ++ [XRound 1] ++ accept65 ++ [XAnswer Done])) as [s|] eqn:E; [|vm_compute in E; discriminate]. exists s. split; [auto|]. split; [eapply plays_from_serves; eauto|]. vm_compute in E. inversion E; subst. repeat split; reflexivity. Qed.
(** The main fiber is asking all fibers. *)
Example C65_told_example : exists s, plays_from true ans65 c65 told65 = Some s /\ serves true list_tops (fun _ _ => True) ans65 [] c65 s /\ asking c65 (fst s) /\ look s = (3, PBack false MANAGEMENT_ID MGMT_QUIESCE, [100; 1], [100; 4; 3; 2; 1], [62; 61; 60]).
Proof. destruct (plays_from true ans65 c65 told65) as [s|] eqn:E; [|vm_compute in E; discriminate]. exists s. split; [auto|]. split; [eapply plays_from_serves; eauto|]. vm_compute in E. inversion E; subst. split; [exists false; reflexivity|reflexivity]. Qed.
(** The connection is gone. *)
Example C65_cut_example : exists s, plays_from true ans65 c65 cut65 = Some s /\ serves true list_tops (fun _ _ => True) ans65 [] c65 s /\ read_first (fst s) /\ ~ asking c65 (fst s) /\ look s = (4, PRound, [], [4; 3; 2; 1], [61; 60]).
Proof. destruct (plays_from true ans65 c65 cut65) as [s|] eqn:E; [|vm_compute in E; discriminate]. exists s. split; [auto|]. split; [eapply plays_from_serves; eauto|]. vm_compute in E. inversion E; subst. split; [exact Logic.I|]. split; [intros (t & X); discriminate X|reflexivity]. Qed.
Example C65_ended_example : exists s, plays_from true ans65 c65 ended65 = Some s /\ serves true list_tops (fun _ _ => True) ans65 [] c65 s /\ look s = (1, PLeft STATUS_SUCCESS, [], [4; 2; 1], [60]).
Proof. destruct (plays_from true ans65 c65 ended65) as [s|] eqn:E; [|vm_compute in E; discriminate]. exists s. split; [auto|]. split; [eapply plays_from_serves; eauto|]. vm_compute in E. inversion E; subst. reflexivity. Qed.

(** ** When other fibers are ready *)
(** The connection's socket is reported together with the signal socket: its fiber is in the queue
    twice, ends at the first, and the manager releases it; the second resumes it. *)
Theorem C65_ready_refuted : exists c ans v w x, good_conf c /\ serves false list_tops (fun _ _ => True) ans [] c (v, w) /\ allowed false ans x v (seen w) /\ decide c x v <> None /\
  step (sexec list_tops (lib ans)) c x (v, w) = None /\ ~ In 100 (i_fibs (seen w)) /\ In 100 (i_ready (seen w)).
Proof.
  set (h := up65 ++ [XThread; XRound 4; XCode; XCode; XCode] ++ repeat XCode 7). destruct (plays_from false ans65 c65 h) as [[v w]|] eqn:E; [|vm_compute in E; discriminate].
  exists c65, ans65, v, w, XCode. split; [exact C65_conf|]. split; [eapply plays_from_serves; eauto|]. vm_compute in E. inversion E; subst. split; [exact Logic.I|]. split; [vm_compute; discriminate|]. split; [vm_compute; reflexivity|].
  split; [cbn; intuition discriminate|cbn; auto].
Qed.
(** A connection that the listener accepted just before the main fiber acted on the first message
    is not told, and is served on. *)
Theorem C65_unserved_refuted : exists c ans v w s, good_conf c /\ serves false list_tops (fun _ _ => True) ans [] c (v, w) /\ read_first v /\ ~ asking c v /\ v_cur v = c_idle c /\ i_ready (seen w) = [] /\
  In s (addrs (i_socks (seen w))) /\ s <> c_sig c /\ hget (v_socks v) (c_lis c) <> Some s.
Proof.
  set (h := boot65 ++ [XThread; XRound 5] ++ accept65 ++ [XCode; XCode; XAnswer Again] ++ repeat XCode 5). destruct (plays_from false ans65 c65 h) as [[v w]|] eqn:E; [|vm_compute in E; discriminate].
  exists c65, ans65, v, w, 62. split; [exact C65_conf|]. split; [eapply plays_from_serves; eauto|]. vm_compute in E. inversion E; subst. split; [exact Logic.I|]. split; [intros (t & X); discriminate X|]. do 2 (split; [reflexivity|]).
  split; [cbn; auto|]. split; [discriminate|]. vm_compute. discriminate.
Qed.
(** The listener had not run yet when the main fiber acted on the first message: it is not told,
    goes on accepting, and a connection that it accepts just before the second message is open when
    the main fiber leaves its loop. *)
Theorem C65_left_open_refuted : exists c ans v w s, good_conf c /\ serves false list_tops (fun _ _ => True) ans [] c (v, w) /\ v_stage v = PLeft STATUS_SUCCESS /\ In s (addrs (i_socks (seen w))) /\ s <> c_sig c.
Proof.
  set (h := [XThread; XCode; XCode; XOpen 6 61; XAnswer Again; XCode; XCode; XCode; XThread; XRound 5] ++ accept65 ++ [XCode; XCode; XAnswer Again] ++ repeat XCode 7). destruct (plays_from false ans65 c65 h) as [[v w]|] eqn:E; [|vm_compute in E; discriminate].
  exists c65, ans65, v, w, 62. split; [exact C65_conf|]. split; [eapply plays_from_serves; eauto|]. vm_compute in E. inversion E; subst. split; [reflexivity|]. split; [cbn; auto|discriminate].
Qed.

Print Assumptions C65_startup.
Print Assumptions C65_safe_partial.
Print Assumptions C65_untouched_partial.
Print Assumptions C65_quiesced_partial.
Print Assumptions C65_terminated_partial.
Print Assumptions C65_prompt_partial.
Print Assumptions C65_connection.
Print Assumptions C65_idle_fails.
Print Assumptions C65_ready_refuted.
Print Assumptions C65_unserved_refuted.
Print Assumptions C65_left_open_refuted.
