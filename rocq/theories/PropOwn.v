(** C38: schedulers with disciplines; C48: the constructors of the fiber library's objects. *)
From Verif Require Import Base Status MemModel MemProofs Heap OwnModel OwnSpec OwnProofs OwnSep OwnBuild OwnSched OwnDisc.

(** For the examples: an environment where the allocations that [bad] names fail. *)
Definition env (bad : nat -> bool) : menv := ME (fun k => if bad k then ERROR_GENERAL_OUT_OF_MEMORY else STATUS_SUCCESS) pick_max 64.
Lemma env_good : forall bad, good (env bad).
Proof. intros bad. split; [exact pick_max_good|cbn; lia]. Qed.
Definition start : ms := MS [(7, BUser)] 0.
Lemma start_wf : hwf (m_h start).
Proof. split; [repeat constructor; intros []|intros [K|[]]; discriminate]. Qed.

Lemma oks_fails : forall v a n i, oks v a n -> fails v a i -> (i < n)%nat -> False.
Proof. intros v a n i K [_ B] L. apply B. apply K. lia. Qed.
Lemma fails_same : forall v a i j, fails v a i -> fails v a j -> i = j.
Proof. intros v a i j A B. destruct (lt_eq_lt_dec i j) as [[L|L]|L]; [exfalso|auto|exfalso]; [apply (oks_fails v a j i)|apply (oks_fails v a i j)]; auto; [apply B|apply A]. Qed.
(** * C48 *)
(** A release gives back what the object owns, once, and nothing else; it makes no
    allocation. *)
Theorem C48_release : forall v s p l, hwf (m_h s) -> whole (m_h s) KRes p l -> (length l <= e_fuel v)%nat ->
  exists h', release v p s = Some (STATUS_SUCCESS, MS h' (m_n s)) /\ hwf h' /\ gone (m_h s) h' l.
Proof. exact release_whole. Qed.

Theorem C48_stack_create : forall v, good v -> builds v 2 oom (stack_create v).
Proof. exact builds_stack. Qed.
Theorem C48_fiber_create : forall v, good v -> builds v 3 oom (fiber_create v).
Proof. exact builds_fiber. Qed.
Theorem C48_fiber_create_for_thread : forall v, good v -> builds v 1 oom (fiber_for_thread v).
Proof. exact builds_fiber_for_thread. Qed.
Theorem C48_discipline_create : forall v id, good v -> builds v 3 oom (disc_create v id).
Proof. exact builds_disc. Qed.
Theorem C48_mailbox_create : forall v, good v -> builds v 3 raw (mailbox_create v).
Proof. exact builds_mailbox. Qed.
Theorem C48_barrier_create : forall v, good v -> builds v 2 raw (barrier_create v).
Proof. exact builds_barrier. Qed.
Theorem C48_context_create : forall v, good v -> builds v 2 raw_oom (boxes_create v).
Proof. exact builds_boxes. Qed.
Theorem C48_poll_context_create : forall v, good v -> builds v 3 raw (poll_create v).
Proof. exact builds_poll. Qed.
Theorem C48_epoll_context_create : forall v, good v -> builds v 2 epoll_err (epoll_create v).
Proof. exact builds_epoll. Qed.
Theorem C48_poll_discipline_create : forall v id, good v -> builds v 6 (io_err 3 raw) (io_create v poll_create id).
Proof. intros v id G. apply (builds_io v poll_create 3); [auto|lia|apply builds_poll; auto]. Qed.
Theorem C48_epoll_discipline_create : forall v id, good v -> builds v 5 (io_err 2 epoll_err) (io_create v epoll_create id).
Proof. intros v id G. apply (builds_io v epoll_create 2); [auto|lia|apply builds_epoll; auto]. Qed.
(** A message takes its payload, which may be NULL. *)
Theorem C48_message_create : forall v s payload lp, good v -> hwf (m_h s) -> (payload = 0 /\ lp = [] \/ whole (m_h s) KRes payload lp) ->
  exists s', hwf (m_h s') /\ m_n s' = S (m_n s) /\
    ((e_al v (m_n s) = STATUS_SUCCESS /\ exists p, message_create v payload s = Some ((STATUS_SUCCESS, p), s') /\ whole (m_h s') KRes p (p :: lp) /\ adds (m_h s) (m_h s') [p]) \/
     (e_al v (m_n s) <> STATUS_SUCCESS /\ message_create v payload s = Some ((e_al v (m_n s), 0), s') /\ unchanged (m_h s) (m_h s'))).
Proof.
  intros v s payload lp G W P. unfold message_create. pose proof (has_start s W) as H. destruct (st_alloc v (BMsg payload) _ _ _ G H) as [(K & p & s1 & E & H1 & M & NZ & FR)|(K & s1 & E & H1 & M)]; rewrite E; exists s1; (split; [apply (has_wf _ _ _ H1)|]); (split; [auto|]).
  - left. split; [auto|]. exists p. split; [auto|]. assert (A : adds (m_h s) (m_h s1) [p]).
    { intros q. destruct (in_dec _ _ _) as [[<-|[]]|N]; [split; [auto|rewrite (has_get _ _ _ p _ H1) by (left; auto); discriminate]|]. rewrite (has_out _ _ _ H1) by auto. auto. }
    split; [|auto]. pose proof (has_get _ _ _ p _ H1 (or_introl eq_refl)) as GP. destruct P as [[-> ->]|[O ND]].
    + split; [|repeat constructor; auto]. change [p] with (p :: concat []). econstructor; [exact GP|reflexivity|constructor].
    + split; [|constructor; [intros K1; apply (owns_live _ _ _ _ _ O K1); auto|auto]]. replace (p :: lp) with (p :: concat [lp]) by (cbn; rewrite app_nil_r; auto). econstructor; [exact GP|reflexivity|]. cbn [holds]. assert (payload <> 0) as PN by (intros ->; inversion O as [k0 p0 b ls X]; subst; rewrite hget_null in X by auto; discriminate). rewrite some_nz by auto. constructor; [|constructor]. cbn [fst snd]. eapply frame; [exact O|]. intros q Q. specialize (A q). destruct (in_dec _ _ _) as [[<-|[]]|]; [exfalso; apply (owns_live _ _ _ _ _ O Q); auto|auto].
  - right. split; [auto|]. split; [auto|]. exact (has_unchanged _ _ H1).
Qed.
(** The discipline of messages or of conditions, when the scheduler has it already. *)
Theorem C48_get_discipline : forall v s p l ids id, hwf (m_h s) -> scheduler (m_h s) p l ids -> In id ids ->
  exists d n, boxes_discipline v p id s = Some ((STATUS_SUCCESS, d), s) /\ d <> 0 /\ registered (m_h s) (n, d) id.
Proof.
  intros v s p l ids id W (WH & m & ctx & f & t & rq & cb & cx & idle & ds & V & R) I0. destruct (find_some s ds ids id W R I0) as (n & d & E & NZ & _ & RG). exists d, n. unfold boxes_discipline. rewrite (bind_some _ _ _ _ _ d s) by (rewrite (disc_find_view _ _ _ _ _ _ _ _ _ _ _ _ V); auto).
  destruct (Z.eqb_spec d 0); [contradiction|]. cbn [negb]. auto.
Qed.
(** A discipline that belongs to a scheduler, or whose identifier is taken, is not added. *)
Theorem C54_refused : forall v s p l ids d id cbv codes ctx added, hwf (m_h s) -> scheduler (m_h s) p l ids -> hget (m_h s) d = Some (BDisc id cbv codes ctx added) ->
  (added = true -> disc_add v p d s = Some (ERROR_FIBER_SCHEDULER_DISCIPLINE_ALREADY_OWNED, s)) /\
  (added = false -> In id ids -> disc_add v p d s = Some (ERROR_FIBER_SCHEDULER_DUPLICATE_DISCIPLINE_ID, s)).
Proof.
  intros v s p l ids d id cbv codes ctx added W (WH & m & cx0 & f & t & rq & cb & cx & idle & ds & V & R) G. pose proof V as (V1 & V2 & V3). unfold disc_add, mbind, load. rewrite V1, G. split.
  - intros ->. reflexivity.
  - intros -> I0. destruct (find_some s ds ids id W R I0) as (n & x & E & NZ & _ & _). rewrite V2, V3, E. destruct (Z.eqb_spec x 0); [contradiction|]. reflexivity.
Qed.
(** And when it has not: the scheduler has it afterwards, with six blocks more; or the first
    failure is one of the first six allocations, and nothing has changed. *)
Theorem C48_create_discipline_partial : forall v s p l ids id, good v -> hwf (m_h s) -> scheduler (m_h s) p l ids -> ~ In id ids -> (length l <= e_fuel v)%nat ->
  (oks v (m_n s) 8 -> exists d s' l', boxes_discipline v p id s = Some ((STATUS_SUCCESS, d), s') /\ hwf (m_h s') /\ scheduler (m_h s') p l' (id :: ids) /\ becomes (m_h s) (m_h s') l l' /\ length l' = (length l + 6)%nat) /\
  (forall i, (i < 6)%nat -> fails v (m_n s) i -> exists s', boxes_discipline v p id s = Some ((boxes_err i (e_al v (m_n s + i)%nat), 0), s') /\ boxes_err i (e_al v (m_n s + i)%nat) <> STATUS_SUCCESS /\ hwf (m_h s') /\ unchanged (m_h s) (m_h s')).
Proof.
  intros v s p l ids id G W SC NI N. destruct (st_boxes v s p l ids id G W SC NI N) as [(K & d & s' & l' & E & X1 & X2 & X3 & X4)|[(j & s' & J & K & E & X1 & X2 & X3)|(j & s' & J & K & E & _)]]; split.
  - intros _. exists d, s', l'. split; [auto|]. split; [auto|]. split; [auto|]. split; [auto|lia].
  - intros i I0 K'. exfalso. eapply oks_fails; [exact K|exact K'|lia].
  - intros K'. exfalso. eapply oks_fails; [exact K'|exact K|lia].
  - intros i I0 K'. rewrite (fails_same _ _ _ _ K' K). exists s'. auto.
  - intros K'. exfalso. eapply oks_fails; [exact K'|exact K|lia].
  - intros i I0 K'. exfalso. pose proof (fails_same _ _ _ _ K' K). lia.
Qed.
(** If the seventh or eighth allocation, for the scheduler's arrays, is the first to fail, the
    discipline is released but stays registered: the release of the scheduler uses it. *)
Theorem C48_create_discipline_refuted : forall v s p l ids id i, good v -> hwf (m_h s) -> scheduler (m_h s) p l ids -> ~ In id ids -> (length l <= e_fuel v)%nat ->
  (6 <= i < 8)%nat -> fails v (m_n s) i -> exists s', boxes_discipline v p id s = Some ((e_al v (m_n s + i)%nat, 0), s') /\ release v p s' = None.
Proof.
  intros v s p l ids id i G W SC NI N I0 K'. destruct (st_boxes v s p l ids id G W SC NI N) as [(K & _)|[(j & s' & J & K & _)|(j & s' & J & K & E & X)]].
  - exfalso. eapply oks_fails; [exact K|exact K'|lia].
  - exfalso. pose proof (fails_same _ _ _ _ K' K). lia.
  - rewrite (fails_same _ _ _ _ K' K). exists s'. auto.
Qed.
(** The discipline for I/O and its idle fiber, made when the first socket is wrapped: [mk]
    makes its context of [n] blocks. *)
Theorem C48_io_discipline_partial : forall v mk n err s p l ids id, good v -> (n <= 25)%nat -> builds v n err (mk v) -> hwf (m_h s) -> scheduler (m_h s) p l ids -> no_idle (m_h s) p -> ~ In id ids -> (length l <= e_fuel v)%nat ->
  (oks v (m_n s) (n + 9) -> exists s' l', io_discipline v mk p id s = Some (STATUS_SUCCESS, s') /\ hwf (m_h s') /\ scheduler (m_h s') p l' (id :: ids) /\ becomes (m_h s) (m_h s') l l' /\ length l' = (length l + n + 7)%nat) /\
  (forall i, (i < n + 4)%nat -> fails v (m_n s) i -> exists s', io_discipline v mk p id s = Some (io_disc_err n err i (e_al v (m_n s + i)%nat), s') /\ io_disc_err n err i (e_al v (m_n s + i)%nat) <> STATUS_SUCCESS /\ hwf (m_h s') /\ unchanged (m_h s) (m_h s')).
Proof.
  intros v mk n err s p l ids id G NN B W SC ID NI N. destruct (st_io_disc v mk n err s p l ids id G NN B W SC ID NI N) as [(K & s' & l' & E & X1 & X2 & X3 & X4)|[(j & s' & J & K & E & X1 & X2 & X3)|[(j & s' & J & K & E & _)|(j & s' & l' & J & K & _)]]]; split.
  - intros _. exists s', l'. auto.
  - intros i I0 K'. exfalso. eapply oks_fails; [exact K|exact K'|lia].
  - intros K'. exfalso. eapply oks_fails; [exact K'|exact K|lia].
  - intros i I0 K'. rewrite (fails_same _ _ _ _ K' K). exists s'. auto.
  - intros K'. exfalso. eapply oks_fails; [exact K'|exact K|lia].
  - intros i I0 K'. exfalso. pose proof (fails_same _ _ _ _ K' K). lia.
  - intros K'. exfalso. eapply oks_fails; [exact K'|exact K|lia].
  - intros i I0 K'. exfalso. pose proof (fails_same _ _ _ _ K' K). lia.
Qed.
(** Later failures: the discipline is released though registered, or it stays although an
    error is reported, and there is no idle fiber for it. *)
Theorem C48_io_discipline_refuted : forall v mk n err s p l ids id i, good v -> (n <= 25)%nat -> builds v n err (mk v) -> hwf (m_h s) -> scheduler (m_h s) p l ids -> no_idle (m_h s) p -> ~ In id ids -> (length l <= e_fuel v)%nat ->
  fails v (m_n s) i ->
  ((n + 4 <= i < n + 6)%nat -> exists s', io_discipline v mk p id s = Some (e_al v (m_n s + i)%nat, s') /\ release v p s' = None) /\
  ((n + 6 <= i < n + 9)%nat -> exists s' l', io_discipline v mk p id s = Some (ERROR_GENERAL_OUT_OF_MEMORY, s') /\ scheduler (m_h s') p l' (id :: ids) /\ no_idle (m_h s') p).
Proof.
  intros v mk n err s p l ids id i G NN B W SC ID NI N K'. destruct (st_io_disc v mk n err s p l ids id G NN B W SC ID NI N) as [(K & _)|[(j & s' & J & K & _)|[(j & s' & J & K & E & X)|(j & s' & l' & J & K & E & X1 & X2 & X3 & X4)]]].
  - split; intros I0; exfalso; (eapply oks_fails; [exact K|exact K'|lia]).
  - split; intros I0; exfalso; pose proof (fails_same _ _ _ _ K' K); lia.
  - split; intros I0; pose proof (fails_same _ _ _ _ K' K); [subst j; exists s'; auto|exfalso; lia].
  - split; intros I0; pose proof (fails_same _ _ _ _ K' K); [exfalso; lia|subst j; exists s', l'; auto].
Qed.
(** A wrapped socket takes the socket [child]; [nb] is the result of making it non-blocking. *)
Definition wraps (v : menv) (child nb : Z) (lc : list Z) (s : ms) (o : option (Z * Z * ms)) : Prop :=
  exists s', hwf (m_h s') /\
    ((e_al v (m_n s) = STATUS_SUCCESS /\ nb = STATUS_SUCCESS /\ exists q, o = Some ((STATUS_SUCCESS, q), s') /\ whole (m_h s') KRes q (q :: lc) /\ adds (m_h s) (m_h s') [q]) \/
     (exists e, o = Some ((e, 0), s') /\ e <> STATUS_SUCCESS /\ e = (if ok (e_al v (m_n s)) then nb else e_al v (m_n s)) /\ unchanged (m_h s) (m_h s'))).
Lemma wraps_ok : forall v child nb lc s, good v -> hwf (m_h s) -> whole (m_h s) KRes child lc ->
  wraps v child nb lc s ((do! '(e, p) <- alloc v (BWrap child); if negb (ok e) then mret (e, 0) else if negb (ok nb) then do! _ <- free p; mret (nb, 0) else mret (STATUS_SUCCESS, p)) s).
Proof.
  intros v child nb lc s G W [O ND]. pose proof (has_start s W) as H. st_al G.
  - destruct (Z.eq_dec nb STATUS_SUCCESS) as [->|B].
    + norm. match goal with H : has _ _ ?s |- context [mret _ ?s] => rename H into H1; rename s into s1 end. exists s1. split; [apply (has_wf _ _ _ H1)|]. left. split; [auto|]. split; [auto|]. exists p. split; [reflexivity|]. pose proof (has_get _ _ _ p _ H1 (or_introl eq_refl)) as GP.
      assert (A : adds (m_h s) (m_h s1) [p]) by (intros q; destruct (in_dec _ _ _) as [[<-|[]]|N]; [split; [auto|congruence]|]; rewrite (has_out _ _ _ H1) by auto; auto).
      split; [|auto]. split; [|constructor; [intros K1; apply (owns_live _ _ _ _ _ O K1); auto|auto]]. replace (p :: lc) with (p :: concat [lc]) by (cbn; rewrite app_nil_r; auto). econstructor; [exact GP|reflexivity|]. constructor; [|constructor]. cbn [fst snd]. eapply frame; [exact O|]. intros q Q. specialize (A q). destruct (in_dec _ _ _) as [[<-|[]]|]; [exfalso; apply (owns_live _ _ _ _ _ O Q); auto|auto].
    + is_bad B. norm. st_fr. match goal with H : has _ _ ?s |- context [mret _ ?s] => exists s; split; [apply (has_wf _ _ _ H)|]; right; exists nb; split; [reflexivity|]; split; [auto|]; split; [rewrite K; reflexivity|exact (has_unchanged _ _ H)] end.
  - exists s0. split; [apply (has_wf _ _ _ H1)|]. right. exists (e_al v (m_n s)). split; [reflexivity|]. split; [auto|]. split; [unfold ok; destruct (Z.eqb_spec (e_al v (m_n s)) STATUS_SUCCESS); [contradiction|auto]|exact (has_unchanged _ _ H1)].
Qed.
(** The scheduler has the discipline for I/O already. *)
Theorem C48_wrap_socket : forall v mk s p l ids id child lc nb, good v -> hwf (m_h s) -> scheduler (m_h s) p l ids -> In id ids -> whole (m_h s) KRes child lc ->
  wraps v child nb lc s (wrap_async v mk p id child nb s).
Proof.
  intros v mk s p l ids id child lc nb G W (WH & m & ctx & f & t & rq & cb & cx & idle & ds & V & R) I0 WC. destruct (find_some s ds ids id W R I0) as (n & d & E & NZ & _ & RG). unfold wrap_async. rewrite (bind_some _ _ _ _ _ d s) by (rewrite (disc_find_view _ _ _ _ _ _ _ _ _ _ _ _ V); auto).
  destruct (Z.eqb_spec d 0); [contradiction|]. rewrite (bind_some _ _ _ _ _ STATUS_SUCCESS s) by reflexivity. change (ok STATUS_SUCCESS) with true. cbn [negb]. apply wraps_ok; auto.
Qed.
(** It has not: the discipline is made first. If that fails the socket stays with the caller. *)
Theorem C48_wrap_first_socket : forall v mk n err s p l ids id child lc nb, good v -> (n <= 25)%nat -> builds v n err (mk v) -> hwf (m_h s) -> scheduler (m_h s) p l ids -> no_idle (m_h s) p -> ~ In id ids -> (length l <= e_fuel v)%nat ->
  whole (m_h s) KRes child lc -> (forall q, In q lc -> ~ In q l) ->
  (oks v (m_n s) (n + 9) -> exists s1 l', io_discipline v mk p id s = Some (STATUS_SUCCESS, s1) /\ scheduler (m_h s1) p l' (id :: ids) /\ becomes (m_h s) (m_h s1) l l' /\ wraps v child nb lc s1 (wrap_async v mk p id child nb s)) /\
  (forall i, (i < n + 4)%nat -> fails v (m_n s) i -> exists s', wrap_async v mk p id child nb s = Some ((io_disc_err n err i (e_al v (m_n s + i)%nat), 0), s') /\ io_disc_err n err i (e_al v (m_n s + i)%nat) <> STATUS_SUCCESS /\ unchanged (m_h s) (m_h s')).
Proof.
  intros v mk n err s p l ids id child lc nb G NN B W SC ID NI N [WC ND] DJ.
  assert (E0 : forall e s', io_discipline v mk p id s = Some (e, s') -> wrap_async v mk p id child nb s = (if negb (ok e) then mret (e, 0) else do! '(e, p) <- alloc v (BWrap child); if negb (ok e) then mret (e, 0) else if negb (ok nb) then do! _ <- free p; mret (nb, 0) else mret (STATUS_SUCCESS, p)) s').
  { destruct SC as (WH & m & ctx & f & t & rq & cb & cx & idle & ds & V & R). intros e s' E. unfold wrap_async. rewrite (bind_some _ _ _ _ _ 0 s) by (rewrite (disc_find_view _ _ _ _ _ _ _ _ _ _ _ _ V); eapply find_none; eauto). cbn [Z.eqb]. rewrite (bind_some _ _ _ _ _ e s') by exact E. reflexivity. }
  destruct (C48_io_discipline_partial v mk n err s p l ids id G NN B W SC ID NI N) as [X Y]. split.
  - intros K. destruct (X K) as (s1 & l' & E & W1 & S1 & BC & _). exists s1, l'. split; [auto|]. split; [auto|]. split; [auto|]. rewrite (E0 _ _ E). change (ok STATUS_SUCCESS) with true. cbn [negb]. apply wraps_ok; auto. split; [|auto]. eapply frame; [exact WC|]. intros q Q. destruct (BC q) as [A1 A2]. rewrite A2; [destruct (in_dec _ _ _) as [K1|]; [exfalso; apply (DJ q); auto|auto]|]. intros K1. destruct (A1 K1) as [K2|K2]; [apply (DJ q); auto|]. apply (owns_live _ _ _ _ _ WC Q). auto.
  - intros i I0 K. destruct (Y i I0 K) as (s' & E & NE & W1 & U). exists s'. rewrite (E0 _ _ E). split; [|auto]. unfold ok. destruct (Z.eqb_spec (io_disc_err n err i (e_al v (m_n s + i)%nat)) STATUS_SUCCESS); [contradiction|reflexivity].
Qed.

(** * C38 *)
(** All sixteen allocations succeed: a scheduler of new blocks, with the management discipline.
    One of the first three fails: an error, and nothing has changed. Missing: the other
    failures, see below. *)
Theorem C38_create_partial : forall v s, good v -> hwf (m_h s) ->
  (oks v (m_n s) 16 -> exists p l s', scheduler_create v s = Some ((STATUS_SUCCESS, p), s') /\ hwf (m_h s') /\ scheduler (m_h s') p l [1] /\ no_idle (m_h s') p /\ adds (m_h s) (m_h s') l /\ length l = 13%nat) /\
  (forall i, (i < 3)%nat -> fails v (m_n s) i -> exists s', scheduler_create v s = Some ((ERROR_GENERAL_OUT_OF_MEMORY, 0), s') /\ hwf (m_h s') /\ unchanged (m_h s) (m_h s')).
Proof.
  intros v s G W. destruct (st_create v s G W) as [(K & p & l & s' & m & ctx & f & d & rq & cb & cx & E & H & M & LN & V1 & V2 & n & x & dv & codes & V3 & V4)|C]; split.
  - intros _. exists p, l, s'. destruct (has_adds _ _ _ _ _ H) as [WH A]. split; [auto|]. split; [apply (has_wf _ _ _ H)|].
    assert (V : view (m_h s') p m ctx f d rq cb cx 0 [(n, x)]) by (unfold view; auto).
    split; [split; [auto|]; exists m, ctx, f, d, rq, cb, cx, 0, [(n, x)]; split; [auto|]; constructor; [|constructor]; exists dv, codes, 0, true; auto|]. split; [exists m, ctx, f, d, rq, cb, cx, [(n, x)]; auto|split; auto].
  - intros i I0 K'. exfalso. eapply oks_fails; [exact K|exact K'|lia].
  - intros K. exfalso. destruct C as [(i & s' & L & K' & _)|[(i & s' & L & K' & _)|[(i & L & K' & _)|(i & e & ctx & f & d & rq & cb & cx & p & s' & L & K' & _)]]]; (eapply oks_fails; [exact K|exact K'|lia]).
  - intros j J KJ. destruct C as [(i & s' & L & K' & E & H)|[(i & s' & L & K' & _)|[(i & L & K' & _)|(i & e & ctx & f & d & rq & cb & cx & p & s' & L & K' & _)]]]; pose proof (fails_same _ _ _ _ KJ K') as EQ; try (exfalso; lia). exists s'. split; [auto|]. split; [apply (has_wf _ _ _ H)|exact (has_unchanged _ _ H)].
Qed.
(** The creation reports success without a scheduler: the wrong variable is tested. *)
Theorem C38_create_refuted : forall v s i, good v -> hwf (m_h s) -> (3 <= i < 9)%nat -> fails v (m_n s) i ->
  exists s', scheduler_create v s = Some ((STATUS_SUCCESS, 0), s') /\ unchanged (m_h s) (m_h s').
Proof.
  intros v s j G W J KJ. destruct (st_create v s G W) as [(K & _)|[(i & s' & L & K' & E & H)|[(i & s' & L & K' & E & H)|[(i & L & K' & _)|(i & e & ctx & f & d & rq & cb & cx & p & s' & L & K' & _)]]]];
    try (exfalso; eapply oks_fails; [exact K|exact KJ|lia]); pose proof (fails_same _ _ _ _ KJ K') as EQ; try (exfalso; lia).
  exists s'. split; [auto|exact (has_unchanged _ _ H)].
Qed.
(** It uses a null pointer, or releases the management discipline twice. *)
Theorem C38_create_crash_refuted : forall v s i, good v -> hwf (m_h s) -> (i = 9 \/ i = 14 \/ i = 15)%nat -> fails v (m_n s) i -> scheduler_create v s = None.
Proof.
  intros v s j G W J KJ. destruct (st_create v s G W) as [(K & _)|[(i & s' & L & K' & E & H)|[(i & s' & L & K' & E & H)|[(i & L & K' & E)|(i & e & ctx & f & d & rq & cb & cx & p & s' & L & K' & _)]]]];
    try (exfalso; eapply oks_fails; [exact K|exact KJ|lia]); pose proof (fails_same _ _ _ _ KJ K') as EQ; try (exfalso; lia). auto.
Qed.
(** It keeps a block. The status is that of the next allocation, for the message that stops
    the fibers, if that fails too. *)
Theorem C38_create_leak_refuted : forall v s i, good v -> hwf (m_h s) -> (10 <= i < 14)%nat -> fails v (m_n s) i ->
  exists e s' ctx, scheduler_create v s = Some ((e, 0), s') /\ e <> STATUS_SUCCESS /\ adds (m_h s) (m_h s') [ctx] /\
    e = (if ok (e_al v (m_n s + S i)%nat) then if (i <? 13)%nat then ERROR_GENERAL_OUT_OF_MEMORY else e_al v (m_n s + 13)%nat else e_al v (m_n s + S i)%nat).
Proof.
  intros v s j G W J KJ. destruct (st_create v s G W) as [(K & _)|[(i & s' & L & K' & E & H)|[(i & s' & L & K' & E & H)|[(i & L & K' & E)|(i & e & ctx & f & d & rq & cb & cx & p & s' & L & K' & E & EE & H)]]]];
    try (exfalso; eapply oks_fails; [exact K|exact KJ|lia]); pose proof (fails_same _ _ _ _ KJ K') as EQ; try (exfalso; lia). subst j.
  exists e, s', ctx. split; [auto|]. split; [|split; [|auto]].
  - rewrite EE. unfold ok. destruct (Z.eqb_spec (e_al v (m_n s + S i)%nat) STATUS_SUCCESS); [|auto]. destruct (Nat.ltb_spec i 13); [discriminate|]. replace i with 13%nat in K' by lia. apply K'.
  - intros q. destruct (in_dec _ _ _) as [[<-|[]]|NQ]; [|apply (has_out _ _ _ H); auto]. split; [apply (has_in _ _ _ H); left; auto|]. rewrite (has_get _ _ _ ctx _ H (or_introl eq_refl)). discriminate.
Qed.
(** The release of a scheduler gives back everything but one block; its status is that of the
    allocation of the message that it sends. *)
Theorem C38_release_partial : forall v s p l ids, good v -> hwf (m_h s) -> scheduler (m_h s) p l ids -> (length l <= e_fuel v)%nat ->
  exists s' ctx, In ctx l /\ ctx <> p /\ release v p s = Some (e_al v (m_n s), s') /\ hwf (m_h s') /\ gone (m_h s) (m_h s') (remove Z.eq_dec ctx l).
Proof.
  intros v s p l ids G W (WH & m & ctx & f & t & rq & cb & cx & idle & ds & V & R) N. destruct (release_scheduler v s p l m ctx f t rq cb cx idle ds G W WH V N) as (s' & E & M & W' & GN & HC & IC). exists s', ctx. split; [auto|]. split; [|auto]. intros ->. destruct V as (V1 & V2 & _). rewrite V1 in V2. discriminate.
Qed.
(** So a scheduler that is made and released leaves a block behind. *)
Theorem C38_release_refuted : forall v s, good v -> hwf (m_h s) -> oks v (m_n s) 17 ->
  exists p s1 s2 ctx, scheduler_create v s = Some ((STATUS_SUCCESS, p), s1) /\ release v p s1 = Some (STATUS_SUCCESS, s2) /\ adds (m_h s) (m_h s2) [ctx].
Proof.
  intros v s G W K17. assert (K : oks v (m_n s) 16) by (intros i L; apply K17; lia).
  destruct (st_create v s G W) as [(_ & p & l & s' & m & ctx & f & d & rq & cb & cx & E & H & M & LN & V1 & V2 & n & x & dv & codes & V3 & V4)|C].
  - destruct (has_adds _ _ _ _ _ H) as [WH A]. assert (V : view (m_h s') p m ctx f d rq cb cx 0 [(n, x)]) by (unfold view; auto). destruct (release_scheduler v s' p l m ctx f d rq cb cx 0 _ G (has_wf _ _ _ H) WH V) as (s2 & E2 & M2 & W' & GN & HC & IC); [pose proof (proj2 G); lia|].
    exists p, s', s2, ctx. split; [auto|]. split; [rewrite E2, M, K17 by lia; reflexivity|]. intros q. specialize (A q). specialize (GN q). destruct (in_dec Z.eq_dec q [ctx]) as [[<-|[]]|NQ].
    + destruct (in_dec _ ctx l) as [I0|]; [|contradiction]. rewrite HC. auto.
    + rewrite GN. destruct (in_dec _ q l) as [I0|I0]; destruct (in_dec _ q (remove Z.eq_dec ctx l)) as [I1|I1]; [destruct A; auto| | |auto].
      * exfalso. apply I1. apply in_in_remove; [intros ->; apply NQ; left; auto|auto].
      * exfalso. apply in_remove in I1. tauto.
  - exfalso. destruct C as [(i & s' & L & K' & _)|[(i & s' & L & K' & _)|[(i & L & K' & _)|(i & e & ctx & f & d & rq & cb & cx & p & s' & L & K' & _)]]]; (eapply oks_fails; [exact K|exact K'|lia]).
Qed.

(** * Cases that meet the hypotheses *)
Definition none (k : nat) : bool := false.
Definition only (i k : nat) : bool := (k =? i)%nat.
Definition addresses {A} (o : option (A * ms)) : option (A * list Z) := option_map (fun r => (fst r, addrs (m_h (snd r)))) o.
Lemma only_fails : forall i a, (a <= i)%nat -> fails (env (only i)) a (i - a).
Proof. intros i a L. split; [intros k K; cbn; unfold only; destruct (Nat.eqb_spec k i); [lia|auto]|]. cbn. unfold only. replace (a + (i - a))%nat with i by lia. rewrite Nat.eqb_refl. discriminate. Qed.
Lemma none_oks : forall a n, oks (env none) a n.
Proof. intros a n k K. reflexivity. Qed.
(** Every failure point of the creation of a scheduler, in a heap with a block of the user's *)
Example C38_create_ex : addresses (scheduler_create (env none) start) = Some ((STATUS_SUCCESS, 15), [22; 21; 20; 19; 18; 17; 16; 15; 12; 11; 10; 9; 8; 7]) /\
  map (fun i => addresses (scheduler_create (env (only i)) start)) (seq 0 16) =
    let o := Some ((ERROR_GENERAL_OUT_OF_MEMORY, 0), [7]) in let w := Some ((STATUS_SUCCESS, 0), [7]) in let k := Some ((ERROR_GENERAL_OUT_OF_MEMORY, 0), [8; 7]) in
    [o; o; o; w; w; w; w; w; w; None; k; k; k; k; None; None].
Proof. vm_compute. auto. Qed.
Example C38_fails_ex : hwf (m_h start) /\ good (env (only 4)) /\ fails (env (only 4)) (m_n start) 4 /\ fails (env (only 14)) (m_n start) 14 /\ fails (env (only 11)) (m_n start) 11.
Proof. split; [exact start_wf|]. split; [apply env_good|]. split; [exact (only_fails 4 0 (Nat.le_0_l _))|]. split; [exact (only_fails 14 0 (Nat.le_0_l _))|exact (only_fails 11 0 (Nat.le_0_l _))]. Qed.
(** A scheduler with the block of a user beside it *)
Definition made : ms := match scheduler_create (env none) start with Some (_, s) => s | None => start end.
Lemma made_ok : exists l, hwf (m_h made) /\ scheduler (m_h made) 15 l [1] /\ no_idle (m_h made) 15 /\ length l = 13%nat /\ ~ In 7 l /\ whole (m_h made) KRes 7 [7].
Proof.
  destruct (proj1 (C38_create_partial (env none) start (env_good none) start_wf) (none_oks _ _)) as (p & l & s' & E & W & SC & NI & AD & LN). unfold made. rewrite E. assert (p = 15) as -> by (apply (f_equal (fun o => match o with Some ((_, p), _) => p | None => 0 end)) in E; vm_compute in E; auto).
  exists l. assert (N7 : ~ In 7 l) by (intros K; specialize (AD 7); destruct (in_dec _ _ _); [destruct AD as [A _]; discriminate A|contradiction]). do 5 (split; [assumption|]). specialize (AD 7). destruct (in_dec _ _ _); [contradiction|]. split; [|repeat constructor; intros []]. change [7] with (7 :: concat []); apply (Owns _ KRes 7 BUser []); [rewrite AD; reflexivity|reflexivity|constructor].
Qed.
Example C38_release_ex : option_map (fun r => (fst r, m_h (snd r))) (release (env none) 15 made) = Some (STATUS_SUCCESS, [(8, BCtx 9 10 11 21 22 0 15); (7, BUser)]).
Proof. vm_compute. auto. Qed.
Definition live (o : option (Z * ms)) : option (Z * nat) := option_map (fun r => (fst r, length (m_h (snd r)))) o.
(** The discipline of messages: eight failure points; success. The last two make the release of
    the scheduler undefined. *)
Example C48_create_discipline_ex : length (m_h made) = 14%nat /\ m_n made = 16%nat /\
  map (fun i => live (option_map (fun r => (fst (fst r), snd r)) (boxes_discipline (env (only (16 + i))) 15 77 made))) (seq 0 9) =
    (let o := Some (ERROR_GENERAL_OUT_OF_MEMORY, 14%nat) in let w := Some (ERROR_GENERAL_OUT_OF_MEMORY, 15%nat) in [o; o; o; o; o; o; w; w; Some (STATUS_SUCCESS, 20%nat)]) /\
  map (fun i => match boxes_discipline (env (only (16 + i))) 15 77 made with Some (_, s) => release (env (only (16 + i))) 15 s | None => Some (0, made) end) [6; 7]%nat = [None; None].
Proof. vm_compute. auto. Qed.
(** The management discipline is registered already; another one with its identifier *)
Example C54_refused_ex : option_map fst (do '(l, s) <- disc_tree 15 made; match l with (_, d) :: _ => disc_add (env none) 15 d s | [] => None end) = Some ERROR_FIBER_SCHEDULER_DISCIPLINE_ALREADY_OWNED /\
  option_map fst (do '(l, s) <- disc_tree 15 made; match l with (_, d) :: _ => do '(id, s) <- disc_id d s; do '(_, x, s) <- disc_create (env none) id s; disc_add (env none) 15 x s | [] => None end) = Some ERROR_FIBER_SCHEDULER_DUPLICATE_DISCIPLINE_ID.
Proof. vm_compute. auto. Qed.
(** The discipline for I/O, with poll *)
Example C48_io_discipline_ex : map (fun i => live (io_discipline (env (only (16 + i))) poll_create 15 77 made)) (seq 0 13) =
    let o := Some (ERROR_GENERAL_OUT_OF_MEMORY, 14%nat) in let w := Some (ERROR_GENERAL_OUT_OF_MEMORY, 15%nat) in let k := Some (ERROR_GENERAL_OUT_OF_MEMORY, 21%nat) in
    [o; o; o; o; o; o; o; w; w; k; k; k; Some (STATUS_SUCCESS, 24%nat)].
Proof. vm_compute. auto. Qed.
(** The block of the user stands for the socket. *)
Example C48_wrap_socket_ex : map (fun nb => option_map (fun r => (fst r, length (m_h (snd r)))) (wrap_async (env none) epoll_create 15 77 7 nb made)) [STATUS_SUCCESS; 5] = [Some ((STATUS_SUCCESS, 34), 24%nat); Some ((5, 0), 23%nat)].
Proof. vm_compute. auto. Qed.
Example C48_message_create_ex : option_map (fun r => (fst r, m_h (snd r))) (message_create (env none) 7 start) = Some ((STATUS_SUCCESS, 8), [(8, BMsg 7); (7, BUser)]).
Proof. vm_compute. auto. Qed.
(** A stack, a fiber, a mailbox *)
Example C48_builds_ex : addresses (stack_create (env none) start) = Some ((STATUS_SUCCESS, 8), [9; 8; 7]) /\ addresses (stack_create (env (only 1)) start) = Some ((ERROR_GENERAL_OUT_OF_MEMORY, 0), [7]) /\
  addresses (fiber_create (env none) start) = Some ((STATUS_SUCCESS, 8), [10; 9; 8; 7]) /\ addresses (fiber_create (env (only 2)) start) = Some ((ERROR_GENERAL_OUT_OF_MEMORY, 0), [7]) /\
  addresses (mailbox_create (env none) start) = Some ((STATUS_SUCCESS, 8), [10; 9; 8; 7]) /\ addresses (mailbox_create (env (only 2)) start) = Some ((ERROR_GENERAL_OUT_OF_MEMORY, 0), [7]).
Proof. vm_compute. repeat split; reflexivity. Qed.
(** The release of a fiber *)
Example C48_release_ex : match fiber_create (env none) start with Some ((_, p), s) => addresses (release (env none) p s) | None => None end = Some (STATUS_SUCCESS, [7]).
Proof. vm_compute. auto. Qed.

Print Assumptions C48_release.
Print Assumptions C48_stack_create.
Print Assumptions C48_fiber_create.
Print Assumptions C48_fiber_create_for_thread.
Print Assumptions C48_discipline_create.
Print Assumptions C48_mailbox_create.
Print Assumptions C48_barrier_create.
Print Assumptions C48_context_create.
Print Assumptions C48_poll_context_create.
Print Assumptions C48_epoll_context_create.
Print Assumptions C48_poll_discipline_create.
Print Assumptions C48_epoll_discipline_create.
Print Assumptions C48_message_create.
Print Assumptions C48_get_discipline.
Print Assumptions C54_refused.
Print Assumptions C48_create_discipline_partial.
Print Assumptions C48_create_discipline_refuted.
Print Assumptions C48_io_discipline_partial.
Print Assumptions C48_io_discipline_refuted.
Print Assumptions C48_wrap_socket.
Print Assumptions C48_wrap_first_socket.
Print Assumptions C38_create_partial.
Print Assumptions C38_create_refuted.
Print Assumptions C38_create_crash_refuted.
Print Assumptions C38_create_leak_refuted.
Print Assumptions C38_release_partial.
Print Assumptions C38_release_refuted.
