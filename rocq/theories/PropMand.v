(** C64: the mandelbrot example. *)
From Verif Require Import Base Status MemModel MemProofs Heap ThreadModel ThreadSpec ThreadProofs MandModel MandSpec MandProofs MandInv MandStep MandLive MandSafe MandFail.

Lemma reached_inv : forall c s, reached c s -> Inv c s.
Proof. intros c s (L0 & ws & s0 & l & S & C & H). destruct (start_inv _ _ _ S L0) as (I & _). exact (proj2 (runs_inv c l s0 I C) s H). Qed.
Lemma start_safe : forall c ws s, start c ws = Some s -> 0 <= f_lines c -> Safe c s.
Proof.
  intros c ws s S L0. destruct (start_inv _ _ _ S L0) as (I & M & _). apply Inv_safe; auto. unfold start in S. destruct (truns tw0 (setup c ws)) as [[os w]|] eqn:R; [|discriminate]. inversion S; subst. apply (truns_pc0 _ _ _ _ R). split; [split; [constructor|intros []]|reflexivity].
Qed.

(** The files are frames 0, 1, ... in order, each with all of its lines in order and each line
    computed for its frame, whatever fails and however the threads are scheduled, if the main
    thread's wait does not end without a signal.  If the main thread returns, all are there. *)
Theorem C64_frames_partial : forall c ws s0 l s,
  start c ws = Some s0 -> 0 <= f_lines c -> ~ In (Spurious 1) l -> mruns c s0 l = MGo s ->
  exists n, 0 <= n <= Z.max 0 (f_frames c) /\ s_files s = animation n (f_lines c) /\
    forall e, s_main s = MEnd e -> e = 0 /\ n = Z.max 0 (f_frames c).
Proof.
  intros c ws s0 l s S L0 NI H. pose proof (runs_safe _ _ _ _ (start_safe _ _ _ S L0) NI H) as (_ & _ & _ & I). unfold SI in I. destruct (s_main s) as [| |i|e|e].
  - exists 0. destruct I as (F & _). split; [lia|]. split; [rewrite animation_none by lia; auto|discriminate].
  - exists 0. destruct I as (F & _). split; [lia|]. split; [rewrite animation_none by lia; auto|discriminate].
  - exists i. destruct I as (B & F & _). split; [lia|]. split; [auto|discriminate].
  - destruct I as (n & B & F). exists n. split; [auto|]. split; [auto|discriminate].
  - destruct I as (E & F). exists (Z.max 0 (f_frames c)). split; [lia|]. split; [|intros e' [= <-]; auto]. destruct (Z.leb_spec 0 (f_frames c)); [rewrite Z.max_r by lia; auto|]. rewrite F, !animation_none by lia. auto.
Qed.
(** If nothing fails, nothing is undefined, no thread is told to stop, no two workers have the
    same line, the frame is not changed while a worker has a line of it, and all lines that are
    allocated are freed at the end. *)
Theorem C64_calm_partial : forall c ws s0 l,
  start c ws = Some s0 -> 0 <= f_lines c -> Forall calm l ->
  mruns c s0 l <> MUndef /\
  forall s, mruns c s0 l = MGo s ->
    i_quiesce (s_info s) = false /\ 0 <= s_bufs s <= f_lines c /\ (forall e, s_main s = MEnd e -> e = 0 /\ s_bufs s = 0) /\ (forall code, s_main s <> MClean code) /\
    (forall t u n, at_line (s_wk s t) = Some n -> at_line (s_wk s u) = Some n -> t = u) /\
    (forall t n, at_line (s_wk s t) = Some n -> 0 <= n < f_lines c /\ s_main s = MFrame (i_frame (s_info s)) /\ (forall k f, s_wk s t = Some (WSave k f) -> f = i_frame (s_info s))).
Proof.
  intros c ws s0 l S L0 C. destruct (start_inv _ _ _ S L0) as (I0 & M0 & _). destruct (runs_inv c l s0 I0 C) as [A B]. split; [auto|]. intros s H. destruct (B s H) as (_ & T & L). unfold LI in L.
  destruct (s_main s) as [| |i|e|e] eqn:M.
  - destruct L as (E & _ & BU & ID). rewrite E, BU. cbn. split; [auto|]. split; [lia|]. split; [discriminate|]. split; [discriminate|]. split; intros; rewrite ID in *; discriminate.
  - destruct L as (E & _ & BU & ID). rewrite E, BU. cbn. split; [auto|]. split; [lia|]. split; [discriminate|]. split; [discriminate|]. split; intros; rewrite ID in *; discriminate.
  - destruct L as (BI & _ & D & _). split; [apply D|]. pose proof (D_curr _ _ _ _ _ D). rewrite (D_bufs _ _ _ _ _ D). split; [lia|]. split; [discriminate|]. split; [discriminate|]. split; [apply D|]. intros t n AT. rewrite (D_frame _ _ _ _ _ D). destruct (D_at _ _ _ _ _ D t n AT) as [K _]. split; [lia|]. split; [auto|]. intros k f W. pose proof (D_kind _ _ _ _ _ D t) as DK. rewrite W in DK. auto.
  - destruct L.
  - destruct L as (E & _ & BU & ID & _). rewrite BU. split; [|split; [lia|split; [intros e' [= <-]; auto|split; [discriminate|split; intros; rewrite ID in *; discriminate]]]].
    (* the flag *) clear -I0 M0 C H M. assert (Q : forall l s s', Inv c s -> i_quiesce (s_info s) = false -> Forall calm l -> mruns c s l = MGo s' -> i_quiesce (s_info s') = false).
    { clear. induction l as [|x l IH]; intros s s' I Q C H; cbn [mruns] in H; [inversion H; subst; auto|]. inversion C; subst. destruct (step_all c s x I H2) as [_ B]. destruct (mstep c s x) as [| |s1] eqn:E; try discriminate. destruct (B s1 eq_refl) as [TR I1]. refine (IH s1 s' I1 _ H3 H).
      assert (TU : forall t inf bufs, turn c t inf bufs s s1 -> i_quiesce inf = false -> i_quiesce (s_info s1) = false) by (intros t inf bufs [(_ & -> & _)|(_ & _ & -> & _)] K; exact K).
      assert (FU : forall i inf, fresh c i inf s s1 -> i_quiesce inf = false -> i_quiesce (s_info s1) = false) by (intros i inf [(_ & _ & -> & _)|(_ & _ & -> & _)] K; exact K).
      destruct TR; try congruence; try (eapply TU; eauto; fail); try (eapply FU; eauto; fail). eapply FU; [eassumption|]. unfold main_write in H4. destruct (existsb _ _); [discriminate|]. inversion H4; subst. exact Q. }
    eapply Q; [exact I0| |exact C|exact H]. destruct I0 as (_ & _ & L). unfold LI in L. rewrite M0 in L. destruct L as (-> & _). auto.
Qed.
(** The number of steps is bounded: nothing runs forever, unless threads are woken without
    signals forever. *)
Theorem C64_bounded : forall c ws s0 l s,
  start c ws = Some s0 -> 0 <= f_lines c -> Forall calm l -> mruns c s0 l = MGo s ->
  Z.of_nat (length l) <= 2 * Z.of_nat (length ws) + 2 + Z.max 0 (f_frames c) * (Z.of_nat (length ws) + 3 * f_lines c + 2) + 2 * Z.of_nat (spurious l).
Proof.
  intros c ws s0 l s S L0 C H. destruct (start_inv _ _ _ S L0) as (I0 & M0 & ND & WK).
  assert (W : workers (map snd ws) s0).
  { split; [auto|]. intros t K. rewrite WK in K. destruct (existsb (fun x => snd x =? t) ws) eqn:E; [|congruence]. apply existsb_exists in E as (x & X & E). apply Z.eqb_eq in E. subst t. apply in_map. auto. }
  destruct (runs_bound c _ l s0 s I0 W C H) as (I1 & _ & B). assert (0 <= measure c (map snd ws) s) by (unfold measure; pose proof (total_pos (cost c s) (map snd ws) (cost_pos c s)); pose proof (mcost_pos c (map snd ws) s I1); lia).
  assert (E : measure c (map snd ws) s0 <= 2 * Z.of_nat (length ws) + 2 + Z.max 0 (f_frames c) * (Z.of_nat (length ws) + 3 * f_lines c + 2)); [|lia].
  unfold measure, mcost, per. rewrite M0, map_length. assert (total (cost c s0) (map snd ws) <= 2 * Z.of_nat (length ws)); [|lia]. rewrite <- (map_length snd ws). generalize (map snd ws). intros u. clear -WK. induction u as [|t u IH]; [cbn; lia|]. cbn [total fold_right length]. fold (total (cost c s0) u). assert (cost c s0 t <= 2); [|lia]. unfold cost. rewrite WK. destruct (existsb _ ws); lia.
Qed.
(** If a worker waits before the main thread gets the lock, the program goes on, whatever the
    schedule, until all frames are written. *)
Theorem C64_goes_on_partial : forall c s l s',
  reached c s -> 0 < f_lines c -> s_main s = MStart \/ s_main s = MLock -> (exists t, s_wk s t = Some WWait) ->
  Forall calm l -> mruns c s l = MGo s' ->
  s_main s' = MEnd 0 /\ s_files s' = animation (f_frames c) (f_lines c) \/ exists x s'', prompt x /\ mstep c s' x = MGo s''.
Proof.
  intros c s l s' R LP M W C H. pose proof (reached_inv _ _ R) as I. assert (A : AI c s) by (unfold AI; destruct M as [-> | ->]; auto). destruct (runs_AI c l s s' I A C H) as [I' A']. destruct (enabled c s' I' A' LP) as [[e E]|(x & P & s'' & G & _)]; [left|right; eauto].
  destruct I' as (_ & _ & L). unfold LI in L. rewrite E in L. destruct L as (-> & F & _). auto.
Qed.
(** If no worker waits yet when the main thread gets the lock, they are not woken for the first
    frame, and no file is ever written. *)
Theorem C64_lost_wakeup : forall c s r l s',
  reached c s -> s_main s = MLock -> (forall t, s_wk s t <> Some WWait) -> 0 < f_frames c ->
  works r -> Forall prompt l -> mruns c s (Resume 1 r :: l) = MGo s' ->
  s_main s' = MFrame 0 /\ s_files s' = [].
Proof.
  intros c s r l s' R M NW F W P H. pose proof (reached_inv _ _ R) as I. cbn [mruns] in H. destruct (mstep c s (Resume 1 r)) as [| |s1] eqn:E; try discriminate. destruct (first_NA _ _ _ _ I M NW F W E) as [I1 N1]. destruct (runs_NA _ _ _ _ I1 N1 P H) as (A & B & _). auto.
Qed.
(** So the claim that all frames are written if nothing fails is false for every configuration. *)
Theorem C64_all_frames_refuted : forall c ws s0, start c ws = Some s0 -> 0 <= f_lines c -> 0 < f_frames c ->
  exists l s, Forall prompt l /\ mruns c s0 l = MGo s /\
    forall l' s', Forall prompt l' -> mruns c s l' = MGo s' -> s_main s' = MFrame 0 /\ s_files s' = [].
Proof.
  intros c ws s0 S L0 F. destruct (start_inv _ _ _ S L0) as (I0 & M0 & ND & WK). assert (W : works fine) by (repeat split).
  destruct (step_mbegin c s0 (proj1 (proj2 I0)) M0) as (s1 & E1 & TR1 & T1). destruct (step_all c s0 (Begin 1) I0 Logic.I) as [_ B1]. destruct (B1 _ E1) as [_ I1].
  assert (M1 : s_main s1 = MLock /\ s_wk s1 = s_wk s0) by (inversion TR1; subst; auto; rewrite (T_wk1 _ _ _ _ _ _ (proj1 (proj2 I0))) in *; discriminate). destruct M1 as [M1 W1].
  destruct (step_first c s1 fine T1 W M1) as (s2 & E2 & _). assert (NW : forall t, s_wk s1 t <> Some WWait) by (intros t; rewrite W1, WK; destruct (existsb _ ws); discriminate). destruct (first_NA _ _ _ _ I1 M1 NW F W E2) as [I2 N2].
  exists [Begin 1; Resume 1 fine], s2. split; [repeat constructor|]. split; [cbn [mruns]; rewrite E1, E2; auto|]. intros l' s' P H. destruct (runs_NA _ _ _ _ I2 N2 P H) as (A & B & _). auto.
Qed.
(** If the main thread's wait ends without a signal: in the first frame it reads pointers that
    were never set; later it writes a file without the lines that are not there yet. *)
Theorem C64_early_refuted : forall c s r i, reached c s -> s_main s = MFrame i -> i_written (s_info s) < f_lines c -> works r ->
  if i =? 0 then mruns c s [Spurious 1; Resume 1 r] = MUndef
  else exists s' ls, mruns c s [Spurious 1; Resume 1 r] = MGo s' /\ s_files s' = animation i (f_lines c) ++ [(i, ls)] /\ Z.of_nat (length ls) = i_written (s_info s).
Proof. intros c s r i R. apply early, reached_inv, R. Qed.
(** A frame with no lines is never complete. *)
Theorem C64_no_lines_refuted : forall c ws s0 l s, start c ws = Some s0 -> f_lines c = 0 -> 0 < f_frames c -> Forall calm l -> mruns c s0 l = MGo s ->
  s_files s = [] /\ forall e, s_main s <> MEnd e.
Proof.
  intros c ws s0 l s S L0 F C H. destruct (start_inv _ _ _ S ltac:(lia)) as (I0 & _). destruct (proj2 (runs_inv c l s0 I0 C) s H) as (_ & _ & L). unfold LI in L. destruct (s_main s) as [| |i|e|e].
  - split; [apply L|discriminate].
  - split; [apply L|discriminate].
  - destruct L as (B & FS & _ & Z0 & _). rewrite (Z0 L0) in FS. split; [rewrite FS; apply animation_none; lia|discriminate].
  - destruct L.
  - destruct L as (_ & _ & _ & _ & K). specialize (K L0). lia.
Qed.
(** If waking the workers or waiting fails, the main thread locks the mutex that it holds, and
    never goes on, whatever happens. *)
Theorem C64_main_fails_refuted : forall c s r,
  reached c s -> 0 < f_frames c -> s_main s = MLock -> r_lock r = 0 -> r_signal r <> 0 \/ r_wait r <> 0 ->
  exists s1, mstep c s (Resume 1 r) = MGo s1 /\
    forall l s', mruns c s1 l = MGo s' -> s_main s' = MClean (if r_signal r =? 0 then 12 else 10) /\ s_files s' = [] /\ tstep (s_tw s') (MuLocked 1 0) = Stuck.
Proof.
  intros c s r R F M RL E. pose proof (reached_inv _ _ R) as (L0 & T & L). unfold Th in T. unfold LI in L. rewrite M in T, L. cbn [holder held_by] in T. destruct L as (_ & FS & _).
  assert (Z0 : w_pc (s_tw s) 0 = None).
  { destruct R as (_ & ws & s0 & l & S & C & H). refine (proj2 (proj1 (proj2 (runs_safe c l s0 s (start_safe _ _ _ S L0) _ H)))). intros K. rewrite Forall_forall in C. apply C in K. cbn in K. lia. }
  pose proof (T_pd _ _ _ _ _ _ T 1 ltac:(discriminate)) as P. destruct (t_locked _ _ _ _ _ T P ltac:(discriminate)) as (w & S1 & T1 & _). cbn [mstep]. change (1 =? 1) with true. cbv iota. rewrite M, RL. erewrite lib_go by exact S1. cbn [status_of]. change (ok STATUS_SUCCESS) with true. cbn [negb].
  destruct (frame_fails c r 0 (set_tw w s)) as (s1 & E1 & J); [cbn [set_tw s_main s_wk s_tw]; rewrite M; exact T1| |auto|auto|].
  { refine (proj2 (tstep_WF _ _ _ _ S1 (conj _ Z0))). apply T. }
  exists s1. split; [exact E1|]. cbn [set_tw s_files] in J. rewrite FS in J. intros l s' H. pose proof (J_runs _ _ _ _ _ _ J H) as J'. split; [apply J'|]. split; [apply J'|]. eapply J_stuck. exact J'.
Qed.
(** The first lock of the main thread fails: it tells the workers to stop with code 11. *)
Theorem C64_main_lock_fails : forall c s r, reached c s -> s_main s = MLock -> r_lock r <> 0 ->
  exists s', mstep c s (Resume 1 r) = MGo s' /\ s_main s' = MClean 11 /\ i_quiesce (s_info s') = true /\ s_files s' = [] /\ hget (w_pend (s_tw s')) 1 = Some (PdLock (f_mu c)) /\ w_mu (s_tw s') (f_mu c) = Some (Some 0).
Proof.
  intros c s r R M RL. pose proof (reached_inv _ _ R) as (L0 & T & L). unfold Th in T. unfold LI in L. rewrite M in T, L. cbn [holder held_by] in T. destruct L as (_ & FS & _). pose proof (T_pd _ _ _ _ _ _ T 1 ltac:(discriminate)) as P. change (hget (w_pend (s_tw s)) 1 = Some (PdLock (f_mu c))) in P.
  cbn [mstep]. change (1 =? 1) with true. cbv iota. rewrite M. unfold lib at 1. cbn [tstep]. rewrite P, (T_mu _ _ _ _ _ _ T), (proj2 (Z.eqb_neq _ _) RL). cbn [negb status_of]. change (ok ERROR_THREAD_MUTEX_LOCK) with false. cbn [negb]. unfold main_clean, lib. cbn [quiesce set_info set_tw s_tw tstep]. unfold call, in_user. cbn [set_pend w_pc w_pend w_mu]. rewrite (T_main _ _ _ _ _ _ T), (hget_hdel_same _ _ (T_wf _ _ _ _ _ _ T)), (T_mu _ _ _ _ _ _ T).
  eexists. split; [reflexivity|]. cbn. split; [auto|]. split; [auto|]. split; [auto|]. split; [reflexivity|]. apply T.
Qed.
(** What a worker whose call fails leaves behind: its status, the lines, who has the lock (the
    worker itself if it could not unlock).  A failed unlock after a success is not reported. *)
Theorem C64_worker_fails : forall c s t r, reached c s -> running s ->
  (* a lock *)
  (r_lock r <> 0 -> s_wk s t = Some WLock -> exists s', mstep c s (Resume t r) = MGo s' /\ ended c s s' t ERROR_THREAD_MUTEX_LOCK (i_stop (s_info s)) (s_bufs s) 0) /\
  (forall n f, r_lock r <> 0 -> s_wk s t = Some (WSave n f) -> exists s', mstep c s (Resume t r) = MGo s' /\ ended c s s' t ERROR_THREAD_MUTEX_LOCK (i_stop (s_info s)) (s_bufs s - 1) 0) /\
  (* the first wait *)
  (r_lock r = 0 -> r_wait r <> 0 -> s_wk s t = Some WLock ->
    exists s', mstep c s (Resume t r) = MGo s' /\ ended c s s' t (rel_status r ERROR_THREAD_COND_WAIT) (i_stop (s_info s)) (s_bufs s) (if r_clean r =? 0 then 0 else t)) /\
  (* a later wait *)
  (r_wait r <> 0 -> s_wk s t = Some WWait -> woken c s t -> i_done (s_info s) = true \/ f_lines c <= i_curr (s_info s) ->
    exists s', mstep c s (Resume t r) = MGo s' /\ ended c s s' t (rel_status r ERROR_THREAD_COND_WAIT) (i_stop (i_finish (s_info s))) (s_bufs s) (if r_clean r =? 0 then 0 else t)) /\
  (* unlocking to draw a line, and the memory for it *)
  (s_wk s t = Some WWait -> woken c s t -> i_done (s_info s) = false -> i_curr (s_info s) < f_lines c ->
    (r_unlock r <> 0 -> exists s', mstep c s (Resume t r) = MGo s' /\
      ended c s s' t ERROR_THREAD_MUTEX_UNLOCK (Info (i_curr (s_info s) + 1) (i_written (s_info s)) true false (i_frame (s_info s)) (i_array (s_info s))) (s_bufs s) t) /\
    (r_unlock r = 0 -> r_malloc r = false -> exists s', mstep c s (Resume t r) = MGo s' /\ s_wk s' t = Some (WDraw (i_curr (s_info s)) false) /\ s_bufs s' = s_bufs s /\ mstep c s' (Draw t) = MUndef)) /\
  (* the signal after the last line *)
  (forall n i, s_main s = MFrame i -> s_wk s t = Some (WSave n i) -> r_lock r = 0 -> r_signal r <> 0 -> i_written (s_info s) + 1 = f_lines c ->
    exists s', mstep c s (Resume t r) = MGo s' /\
      ended c s s' t (rel_status r (r_signal r)) (Info (i_curr (s_info s)) (f_lines c) true true i (picture i (f_lines c))) (s_bufs s) (if r_clean r =? 0 then 0 else t)) /\
  (* told to stop *)
  (s_wk s t = Some WWait -> woken c s t ->
    exists s', mstep c (set_info (i_stop (s_info s)) s) (Resume t r) = MGo s' /\ ended c s s' t STATUS_SUCCESS (i_stop (s_info s)) (s_bufs s) (if r_clean r =? 0 then 0 else t)).
Proof.
  intros c s t r R RU. pose proof (reached_inv _ _ R) as I. assert (H : holder (s_main s) = None) by (unfold running in RU; destruct (s_main s); auto; contradiction). assert (H0 : held_by (s_main s) = 0) by (destruct (s_main s); auto; discriminate).
  assert (Q : i_quiesce (s_info s) = false) by (destruct R as (L0 & ws & s0 & l & S & C & X); apply (proj2 (C64_calm_partial c ws s0 l S L0 C) s X)).
  split; [|split; [|split; [|split; [|split; [|split]]]]].
  - intros A B. destruct (lock_fails c s t r I A (or_introl B)) as (s' & E & D). rewrite B, Z.sub_0_r, H0 in D. eauto.
  - intros n f A B. destruct (lock_fails c s t r I A) as (s' & E & D); [eauto|]. rewrite B, H0 in D. eauto.
  - intros. apply enter_fails; auto.
  - intros. apply rest_fails; auto.
  - intros A B D L. split; intros E.
    + destruct (unlock_fails c s t r I E H A B Q D L) as (s' & E1 & D1). exists s'. split; [auto|]. unfold taken, i_stop in D1. cbn in D1. rewrite D in D1. exact D1.
    + intros RM. apply malloc_fails; auto.
  - intros n i M A B C D. eapply signal_fails; eauto.
  - intros A B. apply told_to_stop; auto.
Qed.
(** One step without failures: what a worker that has drawn a line does, and one that is
    woken. *)
Theorem C64_worker_turn : forall c s t r, reached c s -> running s -> works r ->
  (forall n f, s_wk s t = Some (WSave n f) -> exists a, store (i_array (s_info s)) (Z.to_nat n) (Pixels f n) = Some a /\
    forall s', mstep c s (Resume t r) = MGo s' -> i_array (s_info s') = a /\ i_written (s_info s') = i_written (s_info s) + 1 /\
      (i_written (s_info s') = f_lines c -> i_done (s_info s') = true /\ woken c s' 1)) /\
  (s_wk s t = Some WWait -> woken c s t -> exists s', mstep c s (Resume t r) = MGo s' /\
    if negb (i_done (s_info s)) && (i_curr (s_info s) <? f_lines c) then s_wk s' t = Some (WDraw (i_curr (s_info s)) true) /\ i_curr (s_info s') = i_curr (s_info s) + 1 /\ s_bufs s' = s_bufs s + 1 /\ i_done (s_info s') = false
    else s_wk s' t = Some WWait /\ i_done (s_info s') = true /\ i_curr (s_info s') = i_curr (s_info s) /\ ~ woken c s' t).
Proof.
  intros c s t r R RU W. pose proof (reached_inv _ _ R) as I. pose proof I as (L0 & T & L). assert (H : holder (s_main s) = None) by (unfold running in RU; destruct (s_main s); auto; contradiction).
  assert (Q : i_quiesce (s_info s) = false) by (destruct R as (L1 & ws & s0 & l & S & C & X); apply (proj2 (C64_calm_partial c ws s0 l S L1 C) s X)). split.
  - intros n f WK. assert (N1 : t <> 1) by (intros ->; rewrite (T_wk1 _ _ _ _ _ _ T) in WK; discriminate). unfold LI in L. destruct (s_main s) as [| |i| |] eqn:M; try (destruct L as (_ & _ & _ & ID); specialize (ID t); rewrite WK in ID; discriminate); try contradiction; try discriminate H.
    destruct L as (_ & _ & D & _). assert (f = i) by (pose proof (D_kind _ _ _ _ _ D t) as K; rewrite WK in K; auto). subst f. destruct (DI_save _ _ _ _ _ _ _ D WK) as (a & ST & _ & D'). exists a. split; [auto|]. intros s' E. destruct (step_all c s (Resume t r) I W) as [_ B]. destruct (B s' E) as [TR _].
    assert (TU : forall inf bufs, turn c t inf bufs s s' -> i_array (s_info s') = i_array inf /\ i_written (s_info s') = i_written inf /\ (i_done inf = true -> i_done (s_info s') = true)) by (intros inf bufs [(_ & -> & _)|(K & _ & -> & _)]; cbn; split; auto; split; auto; congruence).
    inversion TR; subst; try congruence.
    + match goal with X : turn _ _ _ _ _ _ |- _ => destruct (TU _ _ X) as (A1 & A2 & A3) end. rewrite A1, A2. cbn [saved i_array i_written]. assert (a0 = a) by congruence. split; [auto|]. split; [auto|]. intros K. congruence.
    + match goal with X : turn _ _ _ _ _ _ |- _ => destruct (TU _ _ X) as (A1 & A2 & A3) end. rewrite A1, A2. cbn [i_finish saved i_array i_written]. assert (a0 = a) by congruence. split; [auto|]. split; [auto|]. intros K. split; [apply A3; auto|]. assumption.
  - intros WK WO. assert (N1 : t <> 1) by (intros ->; rewrite (T_wk1 _ _ _ _ _ _ T) in WK; discriminate). destruct (step_turn c s t r T W H Q WK WO) as (s' & E & TR & _). exists s'. split; [auto|]. inversion TR; subst; try congruence. match goal with X : turn _ _ _ _ _ _ |- _ => destruct X as [(K & E1 & E2 & E3 & E4)|(K1 & K2 & E1 & E2 & E3 & E4)] end; rewrite E3, upd_get, Z.eqb_refl, E1.
    + replace (negb (i_done (s_info s)) && (i_curr (s_info s) <? f_lines c)) with false by (destruct K as [-> |K]; [auto|]; rewrite (proj2 (Z.ltb_ge _ _) K), andb_false_r; auto). cbn [i_finish i_done i_curr]. split; [auto|]. split; [auto|]. split; [auto|]. unfold woken, pd in *. rewrite E4. discriminate.
    + rewrite K1, (proj2 (Z.ltb_lt _ _) K2). cbn. auto.
Qed.

(** Non-vacuity: two workers, two frames of two lines. *)
Definition ex_c : conf := Conf 10 11 12 2 2.
Definition ex_ws : list (Z * Z) := [(20, 2); (21, 3)].
Definition go t := Resume t fine.
Definition ex_frame : list mev := [go 2; go 3; Draw 2; Draw 3; go 2; go 3; go 1].
Definition ex_wait : list mev := [Begin 2; go 2; Begin 3; go 3; Begin 1].
Definition look {A} (c : conf) (ws : list (Z * Z)) (l : list mev) (f : mst -> A) : option A := match start c ws with Some s => match mruns c s l with MGo s => Some (f s) | _ => None end | None => None end.
Example C64_ex_run : look ex_c ex_ws (ex_wait ++ [go 1] ++ ex_frame ++ ex_frame) (fun s => (s_files s, s_main s, s_bufs s)) =
  Some ([(0, [Pixels 0 0; Pixels 0 1]); (1, [Pixels 1 0; Pixels 1 1])], MEnd 0, 0).
Proof. vm_compute. reflexivity. Qed.
Example C64_ex_animation : animation 2 2 = [(0, [Pixels 0 0; Pixels 0 1]); (1, [Pixels 1 0; Pixels 1 1])].
Proof. reflexivity. Qed.
Example C64_ex_calm : Forall calm (ex_wait ++ [go 1] ++ ex_frame ++ ex_frame) /\ ~ In (Spurious 1) (ex_wait ++ [go 1] ++ ex_frame ++ ex_frame).
Proof. split; [repeat constructor|]. cbn. intuition discriminate. Qed.
(** A worker waits before the main thread has the lock. *)
Example C64_ex_waits : look ex_c ex_ws ex_wait (fun s => (s_main s, s_wk s 2, s_wk s 3)) = Some (MLock, Some WWait, Some WWait).
Proof. vm_compute. reflexivity. Qed.
(** The main thread is first; the workers wait, and nothing can happen any more. *)
Example C64_ex_lost : look ex_c ex_ws [Begin 1; go 1; Begin 2; go 2; Begin 3; go 3] (fun s => (s_files s, s_main s, s_wk s 2, mstep ex_c s (go 1), mstep ex_c s (go 2), mstep ex_c s (go 3))) =
  Some ([], MFrame 0, Some WWait, MStuck, MStuck, MStuck).
Proof. vm_compute. reflexivity. Qed.
(** The second frame is written with one of its two lines. *)
Example C64_ex_early : look ex_c ex_ws (ex_wait ++ [go 1] ++ ex_frame ++ [go 2; Draw 2; go 2; Spurious 1; go 1]) s_files = Some [(0, [Pixels 0 0; Pixels 0 1]); (1, [Pixels 1 0])].
Proof. vm_compute. reflexivity. Qed.
(** A worker cannot lock to save its line: the frame is never complete. *)
Definition ex_bad : res := Res 35 0 0 0 0 [] true.
Example C64_ex_line : look ex_c ex_ws (ex_wait ++ [go 1; go 2; go 3; Draw 2; Draw 3; Resume 2 ex_bad; go 3]) (fun s => (s_files s, s_main s, s_wk s 2, s_wk s 3, i_curr (s_info s), i_written (s_info s), mstep ex_c s (go 1), mstep ex_c s (go 2), mstep ex_c s (go 3))) =
  Some ([], MFrame 0, Some (WEnd ERROR_THREAD_MUTEX_LOCK), Some WWait, 2, 1, MStuck, MStuck, MStuck).
Proof. vm_compute. reflexivity. Qed.
(** The lines of the state that [C64_worker_fails] is about. *)
Example C64_ex_woken : look ex_c ex_ws (ex_wait ++ [go 1]) (fun s => (hget (w_pend (s_tw s)) 2, s_wk s 2, s_main s, i_done (s_info s), i_curr (s_info s))) = Some (Some (PdBack 10), Some WWait, MFrame 0, false, 0).
Proof. vm_compute. reflexivity. Qed.

Print Assumptions C64_frames_partial.
Print Assumptions C64_calm_partial.
Print Assumptions C64_bounded.
Print Assumptions C64_goes_on_partial.
Print Assumptions C64_lost_wakeup.
Print Assumptions C64_all_frames_refuted.
Print Assumptions C64_early_refuted.
Print Assumptions C64_no_lines_refuted.
Print Assumptions C64_main_fails_refuted.
Print Assumptions C64_main_lock_fails.
Print Assumptions C64_worker_fails.
Print Assumptions C64_worker_turn.
