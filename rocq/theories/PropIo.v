(** C45: waiting for a descriptor. *)
From Coq Require Import Permutation.
From Verif Require MsgProofs.
From Verif Require Import Base Status MemModel MemProofs Heap TabModel TabSpec TabProofs TabRb SchedModel SchedSpec SchedProofs SchedHist DiscFrame MsgModel CondSpec CondProofs IoModel IoSpec IoProofs IoRound IoRoom PropSched.

(** Every history of calls that the scheduler's specification covers, with any allocation
    failures, any other disciplines and any answers of the kernel, does to waiting fibers
    what IoSpec.v says, where it says something.  [ms] is what each call makes ready; all of
    this is resumed or still ready, and in this order.  The tree of fibers is any that does
    what TabSpec.v says. *)
Theorem C45_poll_partial : forall T V (ts : tops T) TR Qr dels ans (other : acts V) junk junk2 v m al mem sys d h os a,
  tab_ok ts TR Qr -> m <> 0 -> (mem = false -> al = []) ->
  let ac := io_acts poll_plat ans other in
  asteps dels ac (io_setup junk2 d ++ map (isop d) h) (al_set al (ainit (poll_none, v) m)) = Some ((STATUS_SUCCESS, nowhere) :: (STATUS_SUCCESS, nowhere) :: os, a) ->
  well_removed ts ac Qr dels junk (poll_none, v) m al (io_setup junk2 d ++ map (isop d) h) ->
  let ms := skipn 2 (made_by dels ac (io_setup junk2 d ++ map (isop d) h) (al_set al (ainit (poll_none, v) m))) in
  exists w0 w, sched_create ts (ext_of ac) junk (poll_none, v) m = Some (STATUS_SUCCESS, w0) /\
    sexecs ts ac (io_setup junk2 d ++ map (isop d) h) (set_al al w0) = Some ((STATUS_SUCCESS, nowhere) :: (STATUS_SUCCESS, nowhere) :: os, w) /\
    Permutation (concat ms) (a_ran a ++ a_ready a) /\ late (concat ms) = late (a_ran a) ++ late (a_ready a) /\
    runs_as (map snd (a_ran a)) (switches (map (isop d) h) os) /\ w_rq w = map (fun x => fst (snd x)) (a_ready a) /\
    io_run Poll mem sys ans d h os ms m no_world <> Bad /\
    (forall c l, io_run Poll mem sys ans d h os ms m no_world = Good c l -> w_cur w = c /\ map pe_fib (p_list (io_k (fst (w_user w)))) = map fst (wo_wait l)).
Proof.
  intros T V ts TR Qr dels ans other junk junk2 v m al mem sys d h os a PT M ME ac A RM ms.
  destruct (C35_refines_partial _ _ _ _ _ _ ac junk (poll_none, v) m al _ _ _ PT M A RM) as (w0 & w & C & E & P1 & P2 & P3 & P4 & P5 & P6).
  destruct (create_sim _ _ _ _ _ (ext_of ac) junk (poll_none, v) m PT M) as (w0' & C' & R0). assert (w0' = w0) as -> by congruence.
  destruct (steps_sim_q _ _ _ _ _ _ _ _ _ _ _ _ PT (fun D => RM D _ C) (rel_al _ _ _ _ _ al R0) A) as (w' & E' & R). assert (w' = w) as -> by congruence. clear C' E'.
  apply MsgProofs.asteps_app in A as (o1 & o2 & a1 & A1 & A2 & EQ & LN).
  destruct o1 as [|x1 [|x2 [|x3 o1]]]; try discriminate LN. cbn [app] in EQ. inversion EQ; subst x1 x2 o2; clear EQ.
  destruct (setup_rel _ _ poll_rel poll_plat ans other dels poll_none v m al d junk2 _ a1 mem (none_common _ _) poll_none_rel M ME A1 eq_refl) as [R2 M2].
  assert (LM : length (made_by dels ac (io_setup junk2 d) (al_set al (ainit (poll_none, v) m))) = 2%nat) by (apply (made_by_concat _ _ _ _ _ _ _ A1)).
  unfold ms. rewrite (made_by_app _ _ _ _ _ _ _ _ A1), skipn_app, <- LM, skipn_all, Nat.sub_diag. cbn [app skipn].
  destruct (made_by_concat _ _ _ _ _ _ _ A2) as (B1 & B2 & B3). rewrite M2 in B1. cbn [app] in B1. rewrite <- B1.
  pose proof (poll_steps _ ans other dels sys mem d h a1 m no_world os a R2 A2) as ST. fold ac in ST.
  exists w0, w. do 2 (split; [auto|]). do 2 (split; [auto|]). split; [exact P3|]. split; [auto|].
  split; [intros K; rewrite K in ST; exact ST|]. intros c l K. rewrite K in ST. cbn [goes] in ST.
  split; [rewrite P6; apply (il_cur _ _ _ _ _ _ ST)|]. rewrite (r_user _ _ _ R). pose proof (pr_list _ _ (il_rel _ _ _ _ _ _ ST)) as F. induction F as [|x y lx ly (_ & _ & F1) _ IH]; [reflexivity|]. cbn [map]. congruence.
Qed.
(** With poll the arrays of the discipline are never written past their end: they have
    [p_max] entries, of which those of the waiting fibers are used. *)
Theorem C45_room : forall T V (ts : tops T) TR Qr dels ans (other : acts V) junk v m al h os a,
  tab_ok ts TR Qr -> m <> 0 ->
  let ac := io_acts poll_plat ans other in
  asteps dels ac h (al_set al (ainit (poll_none, v) m)) = Some (os, a) ->
  well_removed ts ac Qr dels junk (poll_none, v) m al h ->
  exists w0 w, sched_create ts (ext_of ac) junk (poll_none, v) m = Some (STATUS_SUCCESS, w0) /\ sexecs ts ac h (set_al al w0) = Some (os, w) /\
    let k := io_k (fst (w_user w)) in
    Z.of_nat (length (p_list k)) <= p_max k /\ exists n, 1 <= n /\ p_max k = n * 1024.
Proof.
  intros T V ts TR Qr dels ans other junk v m al h os a PT M ac A RM.
  destruct (create_sim _ _ _ _ _ (ext_of ac) junk (poll_none, v) m PT M) as (w0 & C & R0).
  destruct (steps_sim_q _ _ _ _ _ _ _ _ _ _ _ _ PT (fun D => RM D _ C) (rel_al _ _ _ _ _ al R0) A) as (w & E & R). exists w0, w. do 2 (split; [auto|]). rewrite (r_user _ _ _ R).
  refine (room_steps _ _ _ _ _ _ _ _ _ A). split; [discriminate|exists 1; split; [discriminate|reflexivity]].
Qed.
(** [ctl] are the errnos of calls of epoll_ctl(2). *)
Theorem C45_epoll_partial : forall T V (ts : tops T) TR Qr dels ans (other : acts V) junk junk2 v m al ctl mem sys d h os a,
  tab_ok ts TR Qr -> m <> 0 -> (mem = false -> al = []) -> (sys = false -> ctl = []) ->
  let ac := io_acts epoll_plat ans other in
  asteps dels ac (io_setup junk2 d ++ map (isop d) h) (al_set al (ainit (epoll_none ctl, v) m)) = Some ((STATUS_SUCCESS, nowhere) :: (STATUS_SUCCESS, nowhere) :: os, a) ->
  well_removed ts ac Qr dels junk (epoll_none ctl, v) m al (io_setup junk2 d ++ map (isop d) h) ->
  let ms := skipn 2 (made_by dels ac (io_setup junk2 d ++ map (isop d) h) (al_set al (ainit (epoll_none ctl, v) m))) in
  exists w0 w, sched_create ts (ext_of ac) junk (epoll_none ctl, v) m = Some (STATUS_SUCCESS, w0) /\
    sexecs ts ac (io_setup junk2 d ++ map (isop d) h) (set_al al w0) = Some ((STATUS_SUCCESS, nowhere) :: (STATUS_SUCCESS, nowhere) :: os, w) /\
    Permutation (concat ms) (a_ran a ++ a_ready a) /\ late (concat ms) = late (a_ran a) ++ late (a_ready a) /\
    runs_as (map snd (a_ran a)) (switches (map (isop d) h) os) /\ w_rq w = map (fun x => fst (snd x)) (a_ready a) /\
    io_run Epoll mem sys ans d h os ms m no_world <> Bad /\
    (forall c l, io_run Epoll mem sys ans d h os ms m no_world = Good c l -> w_cur w = c /\
       forall f wr s, In (f, (wr, s)) (wo_wait l) -> option_map (ws_fib wr) (hget (io_socks (fst (w_user w))) s) = Some f).
Proof.
  intros T V ts TR Qr dels ans other junk junk2 v m al ctl mem sys d h os a PT M ME SY ac A RM ms.
  destruct (C35_refines_partial _ _ _ _ _ _ ac junk (epoll_none ctl, v) m al _ _ _ PT M A RM) as (w0 & w & C & E & P1 & P2 & P3 & P4 & P5 & P6).
  destruct (create_sim _ _ _ _ _ (ext_of ac) junk (epoll_none ctl, v) m PT M) as (w0' & C' & R0). assert (w0' = w0) as -> by congruence.
  destruct (steps_sim_q _ _ _ _ _ _ _ _ _ _ _ _ PT (fun D => RM D _ C) (rel_al _ _ _ _ _ al R0) A) as (w' & E' & R). assert (w' = w) as -> by congruence. clear C' E'.
  apply MsgProofs.asteps_app in A as (o1 & o2 & a1 & A1 & A2 & EQ & LN).
  destruct o1 as [|x1 [|x2 [|x3 o1]]]; try discriminate LN. cbn [app] in EQ. inversion EQ; subst x1 x2 o2; clear EQ.
  destruct (setup_rel _ _ (epoll_rel sys) epoll_plat ans other dels (epoll_none ctl) v m al d junk2 _ a1 mem (none_common _ _) (epoll_none_rel _ _ SY) M ME A1 eq_refl) as [R2 M2].
  assert (LM : length (made_by dels ac (io_setup junk2 d) (al_set al (ainit (epoll_none ctl, v) m))) = 2%nat) by (apply (made_by_concat _ _ _ _ _ _ _ A1)).
  unfold ms. rewrite (made_by_app _ _ _ _ _ _ _ _ A1), skipn_app, <- LM, skipn_all, Nat.sub_diag. cbn [app skipn].
  destruct (made_by_concat _ _ _ _ _ _ _ A2) as (B1 & B2 & B3). rewrite M2 in B1. cbn [app] in B1. rewrite <- B1.
  pose proof (epoll_steps _ ans other dels sys mem d h a1 m no_world os a R2 A2) as ST. fold ac in ST.
  exists w0, w. do 2 (split; [auto|]). do 2 (split; [auto|]). split; [exact P3|]. split; [auto|].
  split; [intros K; rewrite K in ST; exact ST|]. intros c l K. rewrite K in ST. cbn [goes] in ST.
  split; [rewrite P6; apply (il_cur _ _ _ _ _ _ ST)|]. rewrite (r_user _ _ _ R). intros f wr s I0.
  pose proof (il_common _ _ _ _ _ _ ST) as IC. destruct (ic_live _ _ IC _ (ic_incl _ _ IC _ I0)) as [b B]. cbn [snd] in B. rewrite B. cbn [option_map]. f_equal.
  apply (er_fib _ _ _ (il_rel _ _ _ _ _ _ ST) s b wr f B); auto. apply (ic_nonnull _ _ IC _ (ic_incl _ _ IC _ I0)).
Qed.
(** With the tree of src/rbtree, as far as the removals of fibers are deletions that C30 covers. *)
Theorem C45_real_tree_partial : forall V pick dels ans (other : acts V) junk junk2 v m al mem d h os, good_pick pick -> m <> 0 -> (mem = false -> al = []) ->
  (forall sys a, let ac := io_acts poll_plat ans other in
   asteps dels ac (io_setup junk2 d ++ map (isop d) h) (al_set al (ainit (poll_none, v) m)) = Some ((STATUS_SUCCESS, nowhere) :: (STATUS_SUCCESS, nowhere) :: os, a) ->
   well_removed (rb_tops pick) ac rb_quiet dels junk (poll_none, v) m al (io_setup junk2 d ++ map (isop d) h) ->
   exists w0 w, sched_create (rb_tops pick) (ext_of ac) junk (poll_none, v) m = Some (STATUS_SUCCESS, w0) /\
     sexecs (rb_tops pick) ac (io_setup junk2 d ++ map (isop d) h) (set_al al w0) = Some ((STATUS_SUCCESS, nowhere) :: (STATUS_SUCCESS, nowhere) :: os, w) /\
     io_run Poll mem sys ans d h os (skipn 2 (made_by dels ac (io_setup junk2 d ++ map (isop d) h) (al_set al (ainit (poll_none, v) m)))) m no_world <> Bad) /\
  (forall ctl sys a, (sys = false -> ctl = []) -> let ac := io_acts epoll_plat ans other in
   asteps dels ac (io_setup junk2 d ++ map (isop d) h) (al_set al (ainit (epoll_none ctl, v) m)) = Some ((STATUS_SUCCESS, nowhere) :: (STATUS_SUCCESS, nowhere) :: os, a) ->
   well_removed (rb_tops pick) ac rb_quiet dels junk (epoll_none ctl, v) m al (io_setup junk2 d ++ map (isop d) h) ->
   exists w0 w, sched_create (rb_tops pick) (ext_of ac) junk (epoll_none ctl, v) m = Some (STATUS_SUCCESS, w0) /\
     sexecs (rb_tops pick) ac (io_setup junk2 d ++ map (isop d) h) (set_al al w0) = Some ((STATUS_SUCCESS, nowhere) :: (STATUS_SUCCESS, nowhere) :: os, w) /\
     io_run Epoll mem sys ans d h os (skipn 2 (made_by dels ac (io_setup junk2 d ++ map (isop d) h) (al_set al (ainit (epoll_none ctl, v) m)))) m no_world <> Bad).
Proof.
  intros V pick dels ans other junk junk2 v m al mem d h os GP M ME. split.
  - intros sys a ac A RM. destruct (C45_poll_partial _ _ _ _ _ _ ans other junk junk2 v m al mem sys d h os a (real_tree pick GP) M ME A RM) as (w0 & w & H1 & H2 & H3 & H4 & H5 & H6 & H7 & _). eauto 6.
  - intros ctl sys a SY ac A RM. destruct (C45_epoll_partial _ _ _ _ _ _ ans other junk junk2 v m al ctl mem sys d h os a (real_tree pick GP) M ME SY A RM) as (w0 & w & H1 & H2 & H3 & H4 & H5 & H6 & H7 & _). eauto 6.
Qed.

(** ** What the specification says *)
Ltac split_if H := match type of H with (if ?b then _ else _) = _ => destruct b end.
(** If the idle fiber asks the kernel and this says that the descriptor is ready for what
    a fiber waits for, or with poll that it was hung up, the fiber is made ready. *)
Theorem C45_roused : forall kd mem sys ans d q r o m c l c' l' f wr s, settled kd (ans q) = Some (KReady r) ->
  io_step kd mem sys ans d (IRound q) o m c l = Good c' l' -> In (f, (wr, s)) (wo_wait l) ->
  roused kd wr (said r (wo_socks l) (f, (wr, s))) = true ->
  (exists p, In (false, (f, (IO_ID, if wr then IR_WRITE else IR_READ, p))) m) /\ ~ In (f, (wr, s)) (wo_wait l').
Proof.
  intros kd mem sys ans d q r o m c l c' l' f wr s SE H I0 RO. cbn [io_step] in H. destruct (existsb (by_fiber c) _); [discriminate|]. rewrite SE in H.
  destruct (negb (distinct (map fst r)) || _) eqn:DI; [discriminate|]. split_if H; [discriminate|]. destruct (mem && _); [discriminate|]. destruct (sys && _); [discriminate|].
  destruct (plain _ _); [|discriminate]. cbn [andb judge] in H. destruct (made_is m _) eqn:MI; [|discriminate]. apply made_is_eq in MI. subst m. inversion H; subst; clear H. cbn [wo_wait]. split.
  - destruct kd.
    + eexists. cbn [due]. refine (_ : In (rousing (said r (wo_socks l) (f, (wr, s))) (f, (wr, s))) _). apply (in_map (fun x => rousing (said r (wo_socks l) x) x)). apply filter_In. split; auto.
    + apply orb_false_iff in DI as [DI _]. apply negb_false_iff in DI. rewrite due_rise by (apply distinct_nodup; auto).
      assert (E : exists fd, fd_of (wo_socks l) s = Some fd).
      { unfold said in RO. cbn [snd] in RO. destruct (fd_of (wo_socks l) s); [eauto|]. destruct wr; discriminate. }
      destruct E as [fd E]. destruct (said_in r (wo_socks l) (f, (wr, s)) fd E) as (y & Y1 & Y2 & Y3); [intros K; rewrite K in RO; destruct wr; discriminate|].
      eexists. apply in_flat_map. exists y. split; [auto|]. unfold rise. apply in_flat_map. exists wr. split; [destruct wr; cbn; auto|].
      refine (_ : In (rousing (snd y) (f, (wr, s))) _). apply in_map. apply filter_In. split; [auto|]. cbn [fst snd].
      unfold roused in RO. rewrite orb_false_r, <- Y3 in RO. rewrite Bool.eqb_reflx, RO, !andb_true_r. apply on_fd_true. cbn [snd]. congruence.
  - intros K. apply filter_In in K as [_ K]. cbn [fst snd] in K. rewrite RO in K. discriminate.
Qed.
(** Over any history that the specification covers, a fiber that waits goes on waiting,
    whatever the others do with the same socket, until it is made ready or returns from
    its wait itself. *)
Theorem C45_kept : forall kd mem sys ans d h os ms c l c' l' f wr s, io_run kd mem sys ans d h os ms c l = Good c' l' -> In (f, (wr, s)) (wo_wait l) ->
  In (f, (wr, s)) (wo_wait l') \/ (exists p, In (false, (f, (IO_ID, if wr then IR_WRITE else IR_READ, p))) (concat ms)) \/
  (exists h1 h2 l1, h = h1 ++ IBack wr s :: h2 /\ io_run kd mem sys ans d h1 os ms c l = Good f l1 /\ In (f, (wr, s)) (wo_wait l1)).
Proof.
  intros kd mem sys ans d. induction h as [|p h IH]; intros os ms c l c' l' f wr s H I0; cbn [io_run] in H.
  - inversion H; subst. auto.
  - destruct os as [|o os]; [discriminate|]. destruct ms as [|m ms]; [discriminate|]. destruct (io_step kd mem sys ans d p o m c l) as [c1 l1| |] eqn:S1; try discriminate.
    assert (CASE : In (f, (wr, s)) (wo_wait l1) \/ (exists q r, p = IRound q /\ settled kd (ans q) = Some (KReady r) /\ roused kd wr (said r (wo_socks l) (f, (wr, s))) = true) \/ (p = IBack wr s /\ c = f)).
    { destruct p as [fd t|t|wr' t|wr' t|q|p]; cbn [io_step] in S1.
      - split_if S1; [discriminate|]. split_if S1; [discriminate|]. destruct (_ && _); inversion S1; subst; auto.
      - split_if S1; [discriminate|]. split_if S1; [discriminate|]. destruct (_ && _); inversion S1; subst; auto.
      - destruct (existsb (by_fiber c) _); [discriminate|]. split_if S1; [destruct (_ && _); inversion S1; subst; auto|].
        assert (AP : In (f, (wr, s)) (wo_wait l ++ [(c, (wr', t))])) by (apply in_or_app; auto).
        destruct (ok (fst o)); [destruct (made_is _ _); inversion S1; subst; auto|]. destruct (_ =? ERROR_FIBER_SCHEDULER_EXHAUSTED).
        + destruct kd; [destruct mem; [discriminate|]|]; (destruct (_ && _); inversion S1; subst; auto).
        + destruct (_ && _); inversion S1; subst; auto.
      - destruct (negb _); [discriminate|]. destruct kd.
        + split_if S1; [discriminate|]. destruct (_ && _); inversion S1; subst; auto.
        + split_if S1; [discriminate|]. destruct (_ && _); [|discriminate]. cbn [judge] in S1. inversion S1; subst. cbn [wo_wait]. rewrite not_mine.
          destruct (Z.eq_dec c1 f) as [->|]; [|left; split; [auto|congruence]]. destruct (Z.eq_dec t s) as [->|]; [|left; split; [auto|congruence]].
          destruct (Bool.bool_dec wr' wr) as [->|]; [auto|left; split; [auto|congruence]].
      - destruct (existsb (by_fiber c) _); [discriminate|]. destruct (settled kd (ans q)) as [[e|r]|] eqn:SE; [|..|discriminate]; [destruct (_ && _); inversion S1; subst; auto|].
        destruct (negb (distinct _) || _); [discriminate|]. split_if S1; [discriminate|]. destruct (mem && _); [discriminate|]. destruct (sys && _); [discriminate|].
        destruct (_ && _); [|discriminate]. cbn [judge] in S1. inversion S1; subst. cbn [wo_wait]. destruct (roused kd wr (said r (wo_socks l) (f, (wr, s)))) eqn:RO; [right; left; eauto|].
        left. apply filter_In. split; [auto|]. cbn [fst snd]. rewrite RO. auto.
      - split_if S1; [discriminate|]. destruct (foreign _ _ _); inversion S1; subst; auto. }
    destruct CASE as [K|[(q & r & -> & SE & RO)|[-> ->]]].
    + destruct (IH os ms c1 l1 c' l' f wr s H K) as [A|[[x A]|(h1 & h2 & l2 & A1 & A2 & A3)]]; [auto| |].
      * right. left. exists x. cbn [concat]. apply in_or_app. auto.
      * right. right. exists (p :: h1), h2, l2. split; [rewrite A1; auto|]. split; [|auto]. cbn [io_run]. rewrite S1. exact A2.
    + right. left. destruct (C45_roused _ _ _ _ _ _ _ _ _ _ _ _ _ _ _ _ SE S1 I0 RO) as [[x A] _]. exists x. cbn [concat]. apply in_or_app. auto.
    + right. right. exists [], h, l. auto.
Qed.

(** ** Examples *)
Definition quiet : acts unit := fun _ _ _ _ => HRet 0.
(** Fibers 2 and 3 wait to read and to write on socket 100, and 10 to read on 200; a fourth
    wait for the same fails.  The idle fiber 5 finds descriptor 7 ready to write, then 7
    readable and 8 readable and hung up. *)
Definition ans45 (q : Z) : list kans :=
  if q =? 0 then [KReady [(7, OUT)]] else if q =? 1 then [KReady [(7, IN); (8, Z.lor IN HUP)]] else [KErr EINTR; KReady []].
Definition h45 : list iop :=
  [IOther (SNew 2); IOther (SNew 3); IOther (SNew 5); IOther (SAdd 2); IOther (SAdd 3); IOther (SIdle 5); ISocket 7 100; ISocket 8 200; IOther SRun;
   IWait false 100; IWait true 100; IWait false 100; IWait false 200;
   IRound 0; IOther SRun; IBack true 100; IWait true 100; IRound 1; IOther SRun; IBack false 100; IRelease 200].
Definition os45 (kd : kind) : list out :=
  [(0, nowhere); (0, nowhere); (0, nowhere); (0, (10, INTERNAL_ID, RESUME_ADD_FIBER, 0)); (0, (10, INTERNAL_ID, RESUME_ADD_FIBER, 0)); (0, nowhere); (0, nowhere); (0, nowhere);
   (0, (2, INTERNAL_ID, RESUME_ADD_FIBER, 0)); (0, (3, INTERNAL_ID, RESUME_ADD_FIBER, 0)); (0, (10, INTERNAL_ID, RESUME_RUN, 0));
   (ERROR_PSOCK_DOUBLE_BLOCK_UNSUPPORTED, nowhere); (0, (5, INTERNAL_ID, RESUME_IDLE, 0));
   (0, nowhere); (0, (3, IO_ID, IR_WRITE, 0)); (0, nowhere); (0, (5, INTERNAL_ID, RESUME_IDLE, 0));
   (0, nowhere); (0, (2, IO_ID, IR_READ, 0)); (0, nowhere); (0, nowhere)].
Definition ms45 {K} (pl : plat K) (u : iost K) (ans : Z -> list kans) (h : list iop) : list (list (bool * entry)) :=
  skipn 2 (made_by true (io_acts pl ans quiet) (io_setup [] 60 ++ map (isop 60) h) (al_set [] (ainit (u, tt) 10))).
Definition world45 : world := World [(200, 8); (100, 7)] [(3, (true, 100))] [(10, (false, 200)); (3, (true, 100))].
Definition h45a : list iop := firstn 20 h45.
Example C45_poll_example : exists a, asteps true (io_acts poll_plat ans45 quiet) (io_setup [] 60 ++ map (isop 60) h45a) (al_set [] (ainit (poll_none, tt) 10)) =
    Some ((STATUS_SUCCESS, nowhere) :: (STATUS_SUCCESS, nowhere) :: firstn 20 (os45 Poll), a) /\
  io_run Poll false false ans45 60 h45a (os45 Poll) (ms45 poll_plat poll_none ans45 h45a) 10 no_world = Good 2 world45.
Proof. eexists. split; vm_compute; reflexivity. Qed.
Example C45_epoll_example : exists a, asteps true (io_acts epoll_plat ans45 quiet) (io_setup [] 60 ++ map (isop 60) h45a) (al_set [] (ainit (epoll_none [], tt) 10)) =
    Some ((STATUS_SUCCESS, nowhere) :: (STATUS_SUCCESS, nowhere) :: firstn 20 (os45 Epoll), a) /\
  io_run Epoll false false ans45 60 h45a (os45 Epoll) (ms45 epoll_plat (epoll_none []) ans45 h45a) 10 no_world = Good 2 world45.
Proof. eexists. split; vm_compute; reflexivity. Qed.
(** The round in these that finds 7 and 8 ready makes 2 and 10 ready. *)
Example C45_roused_example :
  io_run Epoll false false ans45 60 (firstn 17 h45) (os45 Epoll) (ms45 epoll_plat (epoll_none []) ans45 h45a) 10 no_world =
    Good 5 (World [(200, 8); (100, 7)] [(2, (false, 100)); (10, (false, 200)); (3, (true, 100))] [(2, (false, 100)); (10, (false, 200)); (3, (true, 100))]) /\
  settled Epoll (ans45 1) = Some (KReady [(7, IN); (8, Z.lor IN HUP)]) /\
  nth 17 (ms45 epoll_plat (epoll_none []) ans45 h45a) [] = [(false, (2, (IO_ID, IR_READ, 0))); (false, (10, (IO_ID, IR_READ, IO_FLAG_EOF)))].
Proof. split; [|split]; vm_compute; reflexivity. Qed.

(** ** What waiting returns *)
(** A wait returns success if the discipline resumed the fiber, and else what
    fiber_unexpected_event says, or waits again if this asks for it. *)
Theorem C45_result : forall id e, block_result IO_ID e = Some STATUS_SUCCESS /\
  (id <> IO_ID -> (e = STATUS_SUCCESS -> block_result id e = None) /\ (e <> STATUS_SUCCESS -> block_result id e = Some e)).
Proof.
  intros id e. split; [reflexivity|]. intros N. unfold block_result. apply Z.eqb_neq in N. rewrite N. split; intros E; [apply ok_true in E|apply ok_false in E]; rewrite E; reflexivity.
Qed.

(** ** What is false *)
(** epoll: another fiber's activity does cancel a wait.  Fiber 2 waits to read on socket
    100 and 3 on socket 200; both are ready, 3 runs first and now waits to read on 100; 2
    returns from its wait and forgets 3.  Whatever the kernel says in all rounds to come, 3
    is not resumed. *)
Definition ans45c (rest : Z -> list kans) (q : Z) : list kans := if q =? 0 then [KReady [(8, IN); (7, IN)]] else rest q.
Definition h45c : list iop :=
  [IOther (SNew 2); IOther (SNew 3); IOther (SNew 5); IOther (SAdd 2); IOther (SAdd 3); IOther (SIdle 5); ISocket 7 100; ISocket 8 200; IOther SRun;
   IWait false 100; IWait false 200; IOther SReceive;
   IRound 0; IOther SRun; IBack false 200; IWait false 100; IBack false 100].
Definition idle_socks : heap wsock := [(200, WS 8 0 0); (100, WS 7 0 0)].
Definition at_idle (m : iost ep) : Prop := io_socks m = idle_socks /\ forall fd i, hget (ep_set (io_k m)) fd = Some i -> it_ptr i = 100 \/ it_ptr i = 200.
Lemma serve_idle : forall l (a : ast (iost ep * unit)) e a1, at_idle (fst (a_user a)) -> (forall y, In y l -> snd y = 100 \/ snd y = 200) ->
  happly (on_fst (epoll_serve l)) a = Some (e, a1) -> a_made a1 = a_made a /\ at_idle (fst (a_user a1)).
Proof.
  induction l as [|[ev p] l IH]; intros a e a1 AI P H; cbn [epoll_serve] in H.
  - cbn in H. inversion H; subst. auto.
  - assert (G : exists fd, hget idle_socks p = Some (WS fd 0 0)) by (destruct (P (ev, p) ltac:(left; auto)) as [K|K]; cbn [snd] in K; subst p; eexists; reflexivity). destruct G as [fd G]. pose proof AI as [E _].
    unfold epoll_wake in H. cbn [on_fst happly] in H. rewrite E, G in H. cbn [need ws_fib ws_r ws_w] in H. rewrite Z.eqb_refl in H. cbn [negb] in H. rewrite andb_false_r in H. cbn [on_fst happly] in H.
    rewrite E, G in H. cbn [need ws_fib ws_r ws_w] in H. rewrite Z.eqb_refl in H. cbn [negb] in H. rewrite andb_false_r in H. cbn [on_fst happly] in H. rewrite E, G in H. cbn [need ws_r ws_w] in H. rewrite Z.eqb_refl in H. cbn [negb orb] in H.
    eapply IH; eauto. intros y K. apply P. right. auto.
Qed.
Lemma outputs_idle : forall n r s, (forall fd i, hget s fd = Some i -> it_ptr i = 100 \/ it_ptr i = 200) ->
  (forall y, In y (fst (epoll_outputs n r s)) -> snd y = 100 \/ snd y = 200) /\ (forall fd i, hget (snd (epoll_outputs n r s)) fd = Some i -> it_ptr i = 100 \/ it_ptr i = 200).
Proof.
  intros n r. revert n. induction r as [|[fd m] r IH]; intros [|n] s H; cbn [epoll_outputs fst snd]; try (split; [intros y []|exact H]).
  destruct (hget s fd) as [i|] eqn:G; [|apply IH; auto]. destruct (it_on i && _); [|apply IH; auto].
  match goal with |- context [epoll_outputs n r ?t] => specialize (IH n t); destruct (epoll_outputs n r t) as [l s1] end. cbn [fst snd] in *. destruct IH as [A B].
  - intros t j. rewrite hget_hset, G. destruct (t =? fd); [|apply H]. intros K. inversion K; subst. cbn [it_ptr]. eapply H; eauto.
  - split; [|exact B]. intros y [<-|K]; [cbn [snd]; eapply H; eauto|auto].
Qed.
Lemma round_idle : forall q (a : ast (iost ep * unit)) e a1, at_idle (fst (a_user a)) -> happly (on_fst (epoll_round q)) a = Some (e, a1) -> a_made a1 = a_made a /\ at_idle (fst (a_user a1)).
Proof.
  induction q as [|[er|r] q IH]; intros a e a1 AI H; cbn [epoll_round] in H; [discriminate| |].
  - destruct (er =? EINTR); [eapply IH; eauto|]. cbn in H. inversion H; subst. auto.
  - cbn [on_fst happly] in H. destruct AI as [A1 A2]. destruct (outputs_idle (Z.to_nat MAX_EPOLL_OUTPUTS) r _ A2) as [B1 B2]. destruct (epoll_outputs _ _ _) as [l s]. cbn [fst snd] in *. cbn [on_fst happly] in H.
    apply serve_idle in H; auto. split; [exact A1|exact B2].
Qed.
Theorem C45_cancel_refuted : forall rest, let ac := io_acts epoll_plat (ans45c rest) quiet in
  let a0 := al_set [] (ainit (epoll_none [], tt) 10) in
  exists os a, asteps true ac (io_setup [] 60 ++ map (isop 60) h45c) a0 = Some (os, a) /\
    skipn 14 os = [(0, nowhere); (0, (3, IO_ID, IR_READ, 0)); (0, nowhere); (0, (2, IO_ID, IR_READ, 0)); (0, nowhere)] /\
    a_ready a = [] /\
    forall qs os' a', asteps true ac (map (isop 60) (map IRound qs)) a = Some (os', a') -> concat (made_by true ac (map (isop 60) (map IRound qs)) a) = [].
Proof.
  intros rest ac a0.
  assert (RUN : forall qs os' a a', at_idle (fst (a_user a)) -> asteps true ac (map (isop 60) (map IRound qs)) a = Some (os', a') -> concat (made_by true ac (map (isop 60) (map IRound qs)) a) = []).
  { induction qs as [|q qs IH]; intros os' a a' AI H; [reflexivity|]. cbn [map asteps isop] in H. cbn [map made_by isop]. destruct (astep true ac _ a) as [[o a1]|] eqn:S1; [|discriminate]. destruct (asteps _ _ _ a1) as [[os1 a2]|] eqn:S2; [|discriminate].
    cbn [astep] in S1. change (ac FN_IO_ROUND IO_CTX (a_cur a) q) with (@on_fst (iost ep) unit (epoll_round (ans45c rest q))) in S1. destruct (happly _ a) as [[e a3]|] eqn:HA; [|discriminate]. inversion S1; subst; clear S1.
    apply round_idle in HA as [M AI1]; auto. rewrite M, skipn_all. cbn [concat app]. eapply IH; eauto. }
  assert (E : exists os a, asteps true ac (io_setup [] 60 ++ map (isop 60) h45c) a0 = Some (os, a) /\ skipn 14 os = [(0, nowhere); (0, (3, IO_ID, IR_READ, 0)); (0, nowhere); (0, (2, IO_ID, IR_READ, 0)); (0, nowhere)] /\
    a_ready a = [] /\ at_idle (fst (a_user a))).
  2:{ destruct E as (os & a & E1 & E2 & E3 & E4). exists os, a. do 3 (split; [assumption|]). intros qs os' a'. apply RUN. exact E4. }
  subst ac a0. clear RUN. do 2 eexists. split; [vm_compute; reflexivity|]. split; [reflexivity|]. split; [reflexivity|]. split; [reflexivity|].
  cbn. intros fd i. destruct (fd =? 8); [intros K; inversion K; cbn; auto|]. destruct (fd =? 7); [intros K; inversion K; cbn; auto|]. discriminate.
Qed.
(** A fiber is not resumed if its descriptor fails: with poll if the kernel reports an
    error or a bad descriptor (ERR, NVAL) and nothing else, with epoll also if it reports a
    hang up (HUP), whatever else it reports that the fiber does not wait for. *)
Definition ans45f (mask : Z) (q : Z) : list kans := [KReady [(7, mask)]].
Definition h45f : list iop := [IOther (SNew 5); IOther (SIdle 5); ISocket 7 100; IWait false 100; IRound 0].
Lemma asteps_snoc : forall U dels (ac : acts U) h p (a : ast U) os a1 o a2, asteps dels ac h a = Some (os, a1) -> astep dels ac p a1 = Some (o, a2) -> asteps dels ac (h ++ [p]) a = Some (os ++ [o], a2).
Proof.
  induction h as [|x h IH]; intros p a os a1 o a2 H1 H2; cbn [asteps app] in *; [inversion H1; subst; rewrite H2; reflexivity|].
  destruct (astep dels ac x a) as [[o1 b]|]; [|discriminate]. destruct (asteps dels ac h b) as [[l b2]|] eqn:E; [|discriminate]. inversion H1; subst. rewrite (IH _ _ _ _ _ _ E H2). reflexivity.
Qed.
Lemma epoll_quiet : forall mask (a : ast (iost ep * unit)), Z.testbit mask 0 = false -> io_socks (fst (a_user a)) = [(100, WS 7 10 0)] -> ep_set (io_k (fst (a_user a))) = [(7, It 1073741825 100 true)] ->
  exists m, happly (on_fst (epoll_round [KReady [(7, mask)]])) a = Some (STATUS_SUCCESS, user_set m a).
Proof.
  intros mask a B0 S1 S2. cbn [epoll_round on_fst happly]. rewrite S2. change (Z.to_nat MAX_EPOLL_OUTPUTS) with (S (Z.to_nat 1023)). generalize (Z.to_nat 1023). intros n. cbn [epoll_outputs].
  change (hget [(7, It 1073741825 100 true)] 7) with (Some (It 1073741825 100 true)). cbn iota beta. cbn [it_on it_ev it_ptr andb].
  set (ev := Z.land mask _). assert (HI : has ev IN = false) by (unfold ev; rewrite has_in, Z.land_spec, B0; reflexivity).
  destruct (ev =? 0); cbn [negb].
  - cbn [epoll_serve on_fst happly]. eexists. reflexivity.
  - match goal with |- context [let '(l, s) := ?e in _] => replace e with (@nil (Z * Z), hset [(7, It 1073741825 100 true)] 7 (It 1073741825 100 false)) by (destruct n; reflexivity) end.
    cbn [epoll_serve]. unfold epoll_wake. cbn [on_fst happly user_set a_user fst snd set_k io_socks]. rewrite S1.
    change (hget [(100, WS 7 10 0)] 100) with (Some (WS 7 10 0)). cbn [need ws_fib ws_r ws_w on_fst happly]. rewrite HI. cbn [andb on_fst happly user_set a_user fst snd set_k io_socks]. rewrite S1.
    change (hget [(100, WS 7 10 0)] 100) with (Some (WS 7 10 0)). cbn [need ws_fib ws_r ws_w on_fst happly]. rewrite Z.eqb_refl. cbn [negb]. rewrite andb_false_r. cbn [on_fst happly user_set a_user fst snd set_k io_socks]. rewrite S1.
    change (hget [(100, WS 7 10 0)] 100) with (Some (WS 7 10 0)). cbn [need ws_fib ws_r ws_w on_fst happly]. change (negb (10 =? 0) || negb (0 =? 0)) with true. cbv iota. cbn [on_fst happly epoll_serve]. eexists. reflexivity.
Qed.
Theorem C45_failure_refuted : forall mask,
  (Z.testbit mask 0 = false -> Z.testbit mask 4 = false ->
   exists os a, asteps true (io_acts poll_plat (ans45f mask) quiet) (io_setup [] 60 ++ map (isop 60) h45f) (al_set [] (ainit (poll_none, tt) 10)) = Some (os, a) /\
     skipn 5 os = [(0, (5, INTERNAL_ID, RESUME_IDLE, 0)); (0, nowhere)] /\ a_made a = []) /\
  (Z.testbit mask 0 = false ->
   exists os a, asteps true (io_acts epoll_plat (ans45f mask) quiet) (io_setup [] 60 ++ map (isop 60) h45f) (al_set [] (ainit (epoll_none [], tt) 10)) = Some (os, a) /\
     skipn 5 os = [(0, (5, INTERNAL_ID, RESUME_IDLE, 0)); (0, nowhere)] /\ a_made a = []).
Proof.
  intros mask. split.
  - intros B0 B4. change (io_setup [] 60 ++ map (isop 60) h45f) with ((io_setup [] 60 ++ map (isop 60) (firstn 4 h45f)) ++ [isop 60 (IRound 0)]).
    do 2 eexists. split; [eapply asteps_snoc; [vm_compute; reflexivity|]|].
    + cbn [isop astep]. match goal with |- context [io_acts ?p ?q ?r FN_IO_ROUND IO_CTX ?c 0] => change (io_acts p q r FN_IO_ROUND IO_CTX c 0) with (@on_fst (iost pst) unit (poll_round [KReady [(7, mask)]])) end.
      cbn [poll_round on_fst happly a_user fst io_k p_list map poll_serve]. destruct (poll_one 7 false [(7, mask)] 10) as [P1 _]. cbv zeta in P1.
      change (polled [(7, mask)] (PE 7 IN 0 10)) with (polled [(7, mask)] (PE 7 1 0 10)) in P1. rewrite P1. unfold roused, ready_bit. cbn [ready_for find fst snd Z.eqb Pos.eqb]. rewrite B0, B4. cbn [orb negb poll_serve on_fst happly]. reflexivity.
    + split; reflexivity.
  - intros B0. change (io_setup [] 60 ++ map (isop 60) h45f) with ((io_setup [] 60 ++ map (isop 60) (firstn 4 h45f)) ++ [isop 60 (IRound 0)]).
    assert (E : exists os a, asteps true (io_acts epoll_plat (ans45f mask) quiet) (io_setup [] 60 ++ map (isop 60) (firstn 4 h45f)) (al_set [] (ainit (epoll_none [], tt) 10)) = Some (os, a) /\
      skipn 5 os = [(0, (5, INTERNAL_ID, RESUME_IDLE, 0))] /\ length os = 6%nat /\ a_made a = [] /\ io_socks (fst (a_user a)) = [(100, WS 7 10 0)] /\ ep_set (io_k (fst (a_user a))) = [(7, It 1073741825 100 true)])
      by (do 2 eexists; split; [vm_compute; reflexivity|]; repeat split).
    destruct E as (os & a & E1 & E2 & E3 & E4 & E5 & E6). destruct (epoll_quiet mask a B0 E5 E6) as (m & Q).
    exists (os ++ [(0, nowhere)]), (user_set m a). split; [eapply asteps_snoc; [exact E1|]|].
    + cbn [isop astep]. change (io_acts epoll_plat (ans45f mask) quiet FN_IO_ROUND IO_CTX (a_cur a) 0) with (@on_fst (iost ep) unit (epoll_round [KReady [(7, mask)]])). rewrite Q. reflexivity.
    + rewrite skipn_app, E2, E3. split; [reflexivity|exact E4].
Qed.
(** With poll a signal ends the idle fiber, and with it all waits: any answer that is an
    error does. *)
Theorem C45_signal_refuted : forall e rest V (a : ast (iost pst * V)) other ans d q, ans q = KErr e :: rest ->
  astep true (io_acts poll_plat ans other) (isop d (IRound q)) a = Some ((ERROR_PSOCK_POLL_FAILED, nowhere), a).
Proof. intros e rest V a other ans d q E. cbn [isop astep]. change (io_acts poll_plat ans other FN_IO_ROUND IO_CTX (a_cur a) q) with (@on_fst (iost pst) V (poll_round (ans q))). rewrite E. reflexivity. Qed.

Print Assumptions C45_poll_partial.
Print Assumptions C45_room.
Print Assumptions C45_epoll_partial.
Print Assumptions C45_real_tree_partial.
Print Assumptions C45_roused.
Print Assumptions C45_kept.
Print Assumptions C45_result.
Print Assumptions C45_cancel_refuted.
Print Assumptions C45_failure_refuted.
Print Assumptions C45_signal_refuted.
