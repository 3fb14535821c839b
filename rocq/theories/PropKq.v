(** C60: waiting for a descriptor with kqueue. *)
From Coq Require Import Permutation.
From Verif Require MsgProofs.
From Verif Require Import Base Status MemModel MemProofs Heap TabModel TabSpec TabProofs TabRb SchedModel SchedSpec SchedProofs SchedHist DiscFrame MsgModel CondSpec CondProofs IoModel IoSpec IoProofs IoRound IoRoom KqModel KqSpec KqProofs KqHist PropSched PropIo.

(** Every history of calls that the scheduler's specification covers, with any allocation
    failures, any other disciplines, any answers of the kernel and any refusals [ctl] of
    events, does to waiting fibers what KqSpec.v says, where it says something.  [ms] is
    what each call makes ready; all of this is resumed or still ready, and in this order.
    The event of each fiber that waits is with the kernel, or in the array for the next
    round. *)
Theorem C60_history_partial : forall T V (ts : tops T) TR Qr dels ans (other : acts V) junk junk2 v m al ctl mem sys d h os a,
  tab_ok ts TR Qr -> m <> 0 -> (mem = false -> al = []) -> (sys = false -> ctl = []) ->
  let ac := io_acts kq_plat ans other in
  asteps dels ac (io_setup junk2 d ++ map (isop d) h) (al_set al (ainit (kq_none ctl, v) m)) = Some ((STATUS_SUCCESS, nowhere) :: (STATUS_SUCCESS, nowhere) :: os, a) ->
  well_removed ts ac Qr dels junk (kq_none ctl, v) m al (io_setup junk2 d ++ map (isop d) h) ->
  let ms := skipn 2 (made_by dels ac (io_setup junk2 d ++ map (isop d) h) (al_set al (ainit (kq_none ctl, v) m))) in
  exists w0 w, sched_create ts (ext_of ac) junk (kq_none ctl, v) m = Some (STATUS_SUCCESS, w0) /\
    sexecs ts ac (io_setup junk2 d ++ map (isop d) h) (set_al al w0) = Some ((STATUS_SUCCESS, nowhere) :: (STATUS_SUCCESS, nowhere) :: os, w) /\
    Permutation (concat ms) (a_ran a ++ a_ready a) /\ late (concat ms) = late (a_ran a) ++ late (a_ready a) /\
    runs_as (map snd (a_ran a)) (switches (map (isop d) h) os) /\ w_rq w = map (fun x => fst (snd x)) (a_ready a) /\
    kq_run mem sys ans d h os ms m no_world <> Bad /\
    (forall c l, kq_run mem sys ans d h os ms m no_world = Good c l -> w_cur w = c /\
       forall f wr s, In (f, (wr, s)) (wo_wait l) -> option_map (ws_fib wr) (hget (io_socks (fst (w_user w))) s) = Some f /\
         exists fd e, fd_of (wo_socks l) s = Some fd /\ In e (kq_inputs (io_k (fst (w_user w))) ++ kq_notes (io_k (fst (w_user w)))) /\
           kv_fd e = fd /\ kv_filter e = (if wr then EVFILT_WRITE else EVFILT_READ) /\ kv_udata e = f).
Proof.
  intros T V ts TR Qr dels ans other junk junk2 v m al ctl mem sys d h os a PT M ME SY ac A RM ms.
  destruct (C35_refines_partial _ _ _ _ _ _ ac junk (kq_none ctl, v) m al _ _ _ PT M A RM) as (w0 & w & C & E & P1 & P2 & P3 & P4 & P5 & P6).
  destruct (create_sim _ _ _ _ _ (ext_of ac) junk (kq_none ctl, v) m PT M) as (w0' & C' & R0). assert (w0' = w0) as -> by congruence.
  destruct (steps_sim_q _ _ _ _ _ _ _ _ _ _ _ _ PT (fun D => RM D _ C) (rel_al _ _ _ _ _ al R0) A) as (w' & E' & R). assert (w' = w) as -> by congruence. clear C' E'.
  apply MsgProofs.asteps_app in A as (o1 & o2 & a1 & A1 & A2 & EQ & LN).
  destruct o1 as [|x1 [|x2 [|x3 o1]]]; try discriminate LN. cbn [app] in EQ. inversion EQ; subst x1 x2 o2; clear EQ.
  destruct (setup_rel _ _ (kq_rel sys) kq_plat ans other dels (kq_none ctl) v m al d junk2 _ a1 mem (none_common _ _) (kq_none_rel _ _ SY) M ME A1 eq_refl) as [R2 M2].
  assert (LM : length (made_by dels ac (io_setup junk2 d) (al_set al (ainit (kq_none ctl, v) m))) = 2%nat) by (apply (made_by_concat _ _ _ _ _ _ _ A1)).
  unfold ms. rewrite (made_by_app _ _ _ _ _ _ _ _ A1), skipn_app, <- LM, skipn_all, Nat.sub_diag. cbn [app skipn].
  destruct (made_by_concat _ _ _ _ _ _ _ A2) as (B1 & B2 & B3). rewrite M2 in B1. cbn [app] in B1. rewrite <- B1.
  pose proof (kq_steps _ ans other dels sys mem d h a1 m no_world os a R2 A2) as ST. fold ac in ST.
  exists w0, w. do 2 (split; [auto|]). do 2 (split; [auto|]). split; [exact P3|]. split; [auto|].
  split; [intros K; rewrite K in ST; exact ST|]. intros c l K. rewrite K in ST. cbn [goes] in ST.
  split; [rewrite P6; apply (il_cur _ _ _ _ _ _ ST)|]. rewrite (r_user _ _ _ R). intros f wr s I0.
  pose proof (il_common _ _ _ _ _ _ ST) as IC. split.
  - destruct (ic_live _ _ IC _ (ic_incl _ _ IC _ I0)) as [b B]. cbn [snd] in B. rewrite B. cbn [option_map]. f_equal.
    apply (kr_fib _ _ _ (il_rel _ _ _ _ _ _ ST) s b wr f B); [apply (ic_nonnull _ _ IC _ (ic_incl _ _ IC _ I0))|apply (ic_incl _ _ IC _ I0)].
  - destruct (kr_notes _ _ _ (il_rel _ _ _ _ _ _ ST)) as (W1 & W2 & A3 & A4 & A5 & _). rewrite A3 in I0. apply in_app_or in I0 as [I0|I0].
    + destruct (A5 _ I0) as (fd & Q1 & Q2). exists fd. eexists. split; [exact Q1|]. split; [apply in_or_app; right; eapply find_some; exact Q2|]. repeat split.
    + assert (G : exists e, In e (kq_inputs (io_k (fst (a_user a)))) /\ asks (wo_socks l) e (f, (wr, s))).
      { clear - A4 I0. induction A4 as [|e x l1 l2 F1 F2 IH]; [destruct I0|]. destruct I0 as [->|I0]; [exists e; split; [left|]; auto|]. destruct (IH I0) as (e1 & G1 & G2). exists e1. split; [right|]; auto. }
      destruct G as (e & G1 & fd & Q1 & ->). exists fd. eexists. split; [exact Q1|]. split; [apply in_or_app; left; exact G1|]. repeat split.
Qed.
(** The array of the context has 1024 entries; between two calls it has one free.  So the
    next wait does not write past its end. *)
Theorem C60_room : forall T V (ts : tops T) TR Qr dels ans (other : acts V) junk v m al ctl h os a,
  tab_ok ts TR Qr -> m <> 0 ->
  let ac := io_acts kq_plat ans other in
  asteps dels ac h (al_set al (ainit (kq_none ctl, v) m)) = Some (os, a) ->
  well_removed ts ac Qr dels junk (kq_none ctl, v) m al h ->
  exists w0 w, sched_create ts (ext_of ac) junk (kq_none ctl, v) m = Some (STATUS_SUCCESS, w0) /\ sexecs ts ac h (set_al al w0) = Some (os, w) /\
    Z.of_nat (length (kq_inputs (io_k (fst (w_user w))))) < 1024.
Proof.
  intros T V ts TR Qr dels ans other junk v m al ctl h os a PT M ac A RM.
  destruct (create_sim _ _ _ _ _ (ext_of ac) junk (kq_none ctl, v) m PT M) as (w0 & C & R0).
  destruct (steps_sim_q _ _ _ _ _ _ _ _ _ _ _ _ PT (fun D => RM D _ C) (rel_al _ _ _ _ _ al R0) A) as (w & E & R). exists w0, w. do 2 (split; [auto|]). rewrite (r_user _ _ _ R).
  refine (kq_range_steps _ _ _ _ _ _ _ _ _ A). reflexivity.
Qed.
(** With the tree of src/rbtree, as far as the removals of fibers are deletions that C30 covers. *)
Theorem C60_real_tree_partial : forall V pick dels ans (other : acts V) junk junk2 v m al ctl mem sys d h os a, good_pick pick -> m <> 0 -> (mem = false -> al = []) -> (sys = false -> ctl = []) ->
  let ac := io_acts kq_plat ans other in
  asteps dels ac (io_setup junk2 d ++ map (isop d) h) (al_set al (ainit (kq_none ctl, v) m)) = Some ((STATUS_SUCCESS, nowhere) :: (STATUS_SUCCESS, nowhere) :: os, a) ->
  well_removed (rb_tops pick) ac rb_quiet dels junk (kq_none ctl, v) m al (io_setup junk2 d ++ map (isop d) h) ->
  exists w0 w, sched_create (rb_tops pick) (ext_of ac) junk (kq_none ctl, v) m = Some (STATUS_SUCCESS, w0) /\
    sexecs (rb_tops pick) ac (io_setup junk2 d ++ map (isop d) h) (set_al al w0) = Some ((STATUS_SUCCESS, nowhere) :: (STATUS_SUCCESS, nowhere) :: os, w) /\
    kq_run mem sys ans d h os (skipn 2 (made_by dels ac (io_setup junk2 d ++ map (isop d) h) (al_set al (ainit (kq_none ctl, v) m)))) m no_world <> Bad.
Proof.
  intros V pick dels ans other junk junk2 v m al ctl mem sys d h os a GP M ME SY ac A RM.
  destruct (C60_history_partial _ _ _ _ _ _ ans other junk junk2 v m al ctl mem sys d h os a (real_tree pick GP) M ME SY A RM) as (w0 & w & H1 & H2 & H3 & H4 & H5 & H6 & H7 & _). eauto 6.
Qed.

(** ** What the specification says *)
(** A fiber is due if the kernel says of its descriptor that it is ready for what the fiber
    waits for, failed or was hung up. *)
Theorem C60_due : forall r socks W f wr s mask, In (f, (wr, s), mask) (kq_due r socks W) <->
  In (f, (wr, s)) W /\ exists fd, fd_of socks s = Some fd /\ In (fd, mask) r /\
    (Z.testbit mask (if wr then 2 else 0) = true \/ Z.testbit mask 3 = true \/ Z.testbit mask 4 = true \/ wr = false /\ Z.testbit mask 13 = true).
Proof.
  intros r socks W f wr s mask. unfold kq_due. rewrite in_flat_map.
  assert (RO : kq_roused wr mask = true <-> (Z.testbit mask (if wr then 2 else 0) = true \/ Z.testbit mask 3 = true \/ Z.testbit mask 4 = true \/ wr = false /\ Z.testbit mask 13 = true)).
  { unfold kq_roused, ready_bit. rewrite !orb_true_iff, andb_true_iff, negb_true_iff. tauto. }
  split.
  - intros ([fd mk] & Y1 & Y2). apply in_flat_map in Y2 as (w & _ & Y2). apply in_map_iff in Y2 as (x & E & Y2). cbn [fst snd] in *. inversion E; subst; clear E. apply filter_In in Y2 as [Y2 Y3]. cbn [fst snd] in Y3.
    apply andb_true_iff in Y3 as [Y3 Y4]. apply andb_true_iff in Y3 as [Y3 Y5]. apply Bool.eqb_prop in Y5. subst w. destruct (fd_of socks s) as [fd'|]; [|discriminate]. apply Z.eqb_eq in Y4. subst fd'.
    split; [auto|]. exists fd. split; [auto|]. split; [auto|]. apply RO. auto.
  - intros (I0 & fd & F & I1 & B). exists (fd, mask). split; [auto|]. apply in_flat_map. exists wr. split; [destruct wr; cbn; auto|]. cbn [fst snd].
    apply (in_map (fun x => (x, mask))). apply filter_In. split; [auto|]. cbn [fst snd]. rewrite F, Z.eqb_refl, Bool.eqb_reflx, (proj2 RO B). reflexivity.
Qed.
(** In every history no fiber waits twice. *)
Lemma run_alone : forall mem sys ans d h os ms c l c' l', kq_run mem sys ans d h os ms c l = Good c' l' -> NoDup (map fst (wo_wait l)) -> incl (wo_wait l) (wo_in l) ->
  NoDup (map fst (wo_wait l')) /\ incl (wo_wait l') (wo_in l').
Proof.
  intros mem sys ans d. induction h as [|p h IH]; intros os ms c l c' l' H N I0; cbn [kq_run] in H; [inversion H; subst; auto|].
  destruct os as [|o os]; [discriminate|]. destruct ms as [|m ms]; [discriminate|]. destruct (kq_step mem sys ans d p o m c l) as [c1 l1| |] eqn:S1; try discriminate.
  assert (K : NoDup (map fst (wo_wait l1)) /\ incl (wo_wait l1) (wo_in l1)); [|eapply IH; [exact H|apply K|apply K]]. clear IH H.
  assert (WO : forall fs, NoDup (map fst (without fs (wo_wait l))) /\ incl (without fs (wo_wait l)) (wo_in l)).
  { intros fs. split; [apply nodup_without; auto|]. intros x J. apply without_in in J as [J _]. auto. }
  destruct p as [fd s|s|wr s|wr s|q|p]; cbn [kq_step] in S1.
  - split_if S1; [discriminate|]. split_if S1; [discriminate|]. destruct (_ && _); inversion S1; subst; auto.
  - split_if S1; [discriminate|]. split_if S1; [discriminate|]. destruct (_ && _); inversion S1; subst; auto.
  - destruct (existsb (by_fiber c) _) eqn:WI; [discriminate|]. split_if S1; [destruct (_ && _); inversion S1; subst; auto|].
    assert (G : NoDup (map fst (wo_wait l ++ [(c, (wr, s))])) /\ incl (wo_wait l ++ [(c, (wr, s))]) (wo_in l ++ [(c, (wr, s))])).
    { split; [|intros x J; apply in_app_or in J as [J|J]; apply in_or_app; auto]. rewrite map_app. cbn [map fst]. apply (Permutation_NoDup (l := c :: map fst (wo_wait l))); [apply Permutation_cons_append|]. constructor; [|auto].
      intros J. apply in_map_iff in J as (x & J1 & J2). rewrite existsb_false in WI. specialize (WI x (I0 x J2)). unfold by_fiber in WI. rewrite J1, Z.eqb_refl in WI. discriminate. }
    destruct (ok (fst o)); [destruct (made_is _ _); inversion S1; subst; auto|]. destruct (_ =? ERROR_FIBER_SCHEDULER_EXHAUSTED); [destruct (_ && _); inversion S1; subst; auto|]. destruct (_ && _); discriminate.
  - destruct (_ || _) eqn:Q; [discriminate|]. destruct (_ && _); [|discriminate]. cbn [judge] in S1. inversion S1; subst. cbn [wo_wait wo_in]. split; [auto|].
    intros x J. apply filter_In. split; [auto|]. apply orb_false_iff in Q as [_ Q]. rewrite existsb_false in Q. rewrite (Q x J). reflexivity.
  - split_if S1; [discriminate|]. destruct (ans q) as [|k t]; [discriminate|]. split_if S1; [discriminate|]. split_if S1; [destruct (_ && _); inversion S1; subst; apply WO|].
    destruct k as [e|r]; [destruct (_ && _); [|discriminate]; cbn [judge] in S1; destruct sys; inversion S1; subst; auto|]. split_if S1; [discriminate|]. split_if S1; [discriminate|]. destruct (_ && _); inversion S1; subst; apply WO.
  - split_if S1; [discriminate|]. destruct (foreign _ _ _); inversion S1; subst; auto.
Qed.
Lemma nodup_join : forall A (l m : list A), NoDup l -> NoDup m -> (forall x, In x l -> ~ In x m) -> NoDup (l ++ m).
Proof. induction l as [|x l IH]; intros m N1 N2 D; [auto|]. inversion N1; subst. cbn [app]. constructor; [|apply IH; auto; intros y J; apply D; right; auto]. intros J. apply in_app_or in J as [J|J]; [auto|]. eapply D; [left; reflexivity|auto]. Qed.
Lemma due_nodup : forall socks W t, NoDup (map fst t) -> NoDup (map fst W) -> NoDup (map (fun y => fst (fst y)) (flat_map (hit socks W) t)).
Proof.
  intros socks W. induction t as [|[[fd f] mask] t IH]; intros N1 N2; [constructor|]. cbn [map fst] in N1. inversion N1 as [|? ? M1 M2]; subst. cbn [flat_map]. rewrite map_app.
  apply nodup_join; [|auto|].
  - unfold hit. rewrite map_map. cbn [fst]. apply nodup_map_filter. auto.
  - intros g J1 J2. apply in_map_iff in J1 as ([x m1] & E1 & J1). apply in_map_iff in J2 as ([y m2] & E2 & J2). cbn [fst] in *. subst g.
    apply in_flat_map in J2 as ([[fd' f'] mask'] & J2 & J3).
    unfold hit in J1, J3. apply in_map_iff in J1 as (x' & E1 & J1). apply in_map_iff in J3 as (y' & E3 & J3). inversion E1; inversion E3; subst. apply filter_In in J1 as [J1 K1]. apply filter_In in J3 as [J3 K3].
    assert (y = x) by (apply (same_fiber W); auto). subst y. apply andb_true_iff in K1 as [K1 K2]. apply andb_true_iff in K3 as [K3 K4]. apply andb_true_iff in K1 as [_ K1]. apply andb_true_iff in K3 as [_ K3].
    apply Z.eqb_eq in K1, K3. apply fd_is_true in K2, K4. apply M1. apply in_map_iff. exists (fd', f', m2). split; [cbn [fst]; congruence|auto].
Qed.
Lemma due_without : forall r socks fs W, kq_due r socks (without fs W) = filter (fun y => negb (existsb (Z.eqb (fst (fst y))) fs)) (kq_due r socks W).
Proof.
  intros r socks fs W. unfold kq_due.
  assert (FM : forall A B (g : A -> list B) p l, filter p (flat_map g l) = flat_map (fun x => filter p (g x)) l).
  { clear. intros A B g p l. induction l as [|x l IH]; [reflexivity|]. cbn [flat_map]. rewrite filter_app, IH. reflexivity. }
  assert (MF : forall A B (g : A -> B) p l, filter p (map g l) = map g (filter (fun x => p (g x)) l)).
  { clear. intros A B g p l. induction l as [|x l IH]; [reflexivity|]. cbn [map filter]. destruct (p (g x)); cbn [map]; rewrite IH; reflexivity. }
  rewrite FM. apply flat_map_ext. intros y. rewrite FM. apply flat_map_ext. intros wr. rewrite MF. f_equal. unfold without. rewrite !filter_filter. apply filter_ext. intros x. cbn [fst]. apply andb_comm.
Qed.
Lemma firstn_add : forall A a b (l : list A), firstn (a + b) l = firstn a l ++ firstn b (skipn a l).
Proof. intros A. induction a as [|a IH]; intros b l; [reflexivity|]. destruct l as [|x l]; [rewrite skipn_nil, !firstn_nil; reflexivity|]. cbn [Nat.add firstn skipn app]. rewrite IH. reflexivity. Qed.
Lemma without_app : forall a b l, without (a ++ b) l = without b (without a l).
Proof. intros a b l. unfold without. rewrite filter_filter. apply filter_ext. intros x. rewrite existsb_app, negb_orb. reflexivity. Qed.
Lemma take_due : forall r socks W K, NoDup (map fst W) -> NoDup (map fst r) ->
  kq_due r socks (without (map (fun y => fst (fst y)) (firstn K (kq_due r socks W))) W) = skipn K (kq_due r socks W).
Proof.
  intros r socks W K N1 N2. rewrite due_without. pose proof (due_nodup socks W (kq_said r) (said_nodup r N2) N1) as N. rewrite <- due_hits in N. set (D := kq_due r socks W) in *. clearbody D.
  assert (G : forall A B : list (waiter * Z), NoDup (map (fun y => fst (fst y)) (A ++ B)) -> filter (fun y => negb (existsb (Z.eqb (fst (fst y))) (map (fun y => fst (fst y)) A))) (A ++ B) = B).
  { clear. intros A B N. rewrite map_app in N. rewrite filter_app, filter_none, filter_all; [reflexivity|..].
    - intros x J. apply negb_true_iff, existsb_false. intros g J1. apply Z.eqb_neq. intros <-. eapply nodup_both; [exact N|exact J1|]. apply (in_map (fun y => fst (fst y))). auto.
    - intros x J. apply negb_false_iff, existsb_exists. exists (fst (fst x)). rewrite Z.eqb_refl. split; [apply (in_map (fun y => fst (fst y))); auto|auto]. }
  specialize (G (firstn K D) (skipn K D)). rewrite firstn_skipn in G. exact (G N).
Qed.
(** However many fibers are due, enough rounds resume them all, in order, and no others,
    if the kernel says the same in each. *)
Theorem C60_drains : forall mem sys ans d h os ms m0 c l q r t n os' ms' c' l', kq_run mem sys ans d h os ms m0 no_world = Good c l -> ans q = KReady r :: t ->
  kq_run mem sys ans d (repeat (IRound q) n) os' ms' c l = Good c' l' -> length ms' = n -> (forall x, In x ms' -> sys && refused x = false) -> (n <> 0)%nat ->
  let due := kq_due r (wo_socks l) (wo_wait l) in
  Z.of_nat (length due) <= 1024 * Z.of_nat n ->
  concat ms' = map kq_rousing due /\ forall x, In x (wo_wait l') <-> In x (wo_wait l) /\ forall mask, ~ In (x, mask) due.
Proof.
  intros mem sys ans d h os ms m0 c l q r t n os' ms' c' l' H0 AN H LN NR NZ due LE.
  destruct (run_alone _ _ _ _ _ _ _ _ _ _ _ H0 ltac:(constructor) ltac:(intros x [])) as [ND _]. clear H0 h os ms m0.
  set (K := Z.to_nat 1024).
  assert (G : forall n os' ms' c l, kq_run mem sys ans d (repeat (IRound q) n) os' ms' c l = Good c' l' -> length ms' = n -> (forall x, In x ms' -> sys && refused x = false) -> NoDup (map fst (wo_wait l)) ->
    (n <> 0%nat -> NoDup (map fst r)) /\
    concat ms' = map kq_rousing (firstn (n * K) (kq_due r (wo_socks l) (wo_wait l))) /\ wo_wait l' = without (map (fun y => fst (fst y)) (firstn (n * K) (kq_due r (wo_socks l) (wo_wait l)))) (wo_wait l)).
  { clear os' ms' n c l due H LN NR NZ LE ND. induction n as [|n IH]; intros os ms c l H LN NR ND.
    - cbn [repeat kq_run] in H. inversion H; subst. destruct ms; [|discriminate]. cbn [Nat.mul firstn map concat]. split; [congruence|]. split; [reflexivity|]. unfold without. cbn [existsb negb]. symmetry. apply filter_all. auto.
    - cbn [repeat kq_run] in H. destruct os as [|o os]; [discriminate|]. destruct ms as [|m ms]; [discriminate|]. destruct (kq_step _ _ _ _ _ _ _ _ _) as [c1 l1| |] eqn:S1; try discriminate.
      cbn [kq_step] in S1. split_if S1; [discriminate|]. rewrite AN in S1. split_if S1; [discriminate|]. rewrite (NR m (or_introl eq_refl)) in S1. destruct (distinct (map fst r)) eqn:DI; cbn [negb] in S1; [|discriminate]. apply distinct_nodup in DI.
      split_if S1; [discriminate|]. destruct (plain _ _); [|discriminate]. cbn [andb judge] in S1. destruct (made_is m _) eqn:MI; [|discriminate]. apply made_is_eq in MI. fold K in MI. cbn [judge] in S1. inversion S1; subst c1 l1; clear S1.
      cbn [length] in LN. assert (LN' : length ms = n) by congruence. destruct (IH os ms _ _ H LN') as (_ & I2 & I3); [intros x J; apply NR; right; auto|cbn [wo_wait]; apply nodup_without; auto|].
      cbn [wo_wait wo_socks] in I2, I3. rewrite MI, made_for_rousing, take_due in I2, I3 by auto. split; [auto|].
      cbn [Nat.mul concat]. rewrite firstn_add, !map_app, without_app. split; [rewrite I2, MI; reflexivity|exact I3]. }
  destruct (G n os' ms' c l H LN NR ND) as (DI & G1 & G2). specialize (DI NZ). fold due in G1, G2.
  assert (L : (length due <= n * K)%nat) by (subst K; rewrite <- (Nat2Z.id n) at 1; rewrite <- Z2Nat.inj_mul by lia; lia).
  rewrite firstn_all2 in G1, G2 by exact L. split; [exact G1|]. intros x. rewrite G2, without_in. split; intros [J1 J2]; (split; [auto|]).
  - intros mask K0. apply J2. change (fst x) with (fst (fst (x, mask))). apply (in_map (fun y => fst (fst y))). auto.
  - intros J. apply in_map_iff in J as ([y mask] & E & J). cbn [fst] in E. assert (y = x); [|subst; eapply J2; eauto].
    apply (same_fiber (wo_wait l)); auto. destruct y as [f [wr s]]. apply C60_due in J. tauto.
Qed.
Lemma kept_from : forall mem sys ans d h os ms c l c' l' f wr s, kq_run mem sys ans d h os ms c l = Good c' l' -> In (f, (wr, s)) (wo_wait l) ->
  NoDup (map fst (wo_wait l)) -> incl (wo_wait l) (wo_in l) ->
  In (f, (wr, s)) (wo_wait l') \/ exists p, In (false, (f, (IO_ID, if wr then IR_WRITE else IR_READ, p))) (concat ms).
Proof.
  intros mem sys ans d. induction h as [|p h IH]; intros os ms c l c' l' f wr s H I0 N IN0; cbn [kq_run] in H; [inversion H; subst; auto|].
  destruct os as [|o os]; [discriminate|]. destruct ms as [|m ms]; [discriminate|]. destruct (kq_step mem sys ans d p o m c l) as [c1 l1| |] eqn:S1; try discriminate.
  assert (AL : NoDup (map fst (wo_wait l1)) /\ incl (wo_wait l1) (wo_in l1)).
  { apply (run_alone mem sys ans d [p] [o] [m] c l c1); auto. cbn [kq_run]. rewrite S1. reflexivity. }
  assert (CASE : In (f, (wr, s)) (wo_wait l1) \/ exists p, In (false, (f, (IO_ID, if wr then IR_WRITE else IR_READ, p))) m).
  { assert (WO : forall D (g : waiter -> bool * entry), (forall x, exists p, g x = resumed x p) -> incl D (wo_wait l) -> m = map g D -> In (f, (wr, s)) (without (made_for m) (wo_wait l)) \/ exists p, In (false, (f, (IO_ID, if wr then IR_WRITE else IR_READ, p))) m).
    { intros D g G J ->. destruct (in_dec Z.eq_dec f (made_for (map g D))) as [K|K]; [right|left; apply without_in; auto].
      unfold made_for in K. rewrite map_map in K. apply in_map_iff in K as (x & K1 & K2). destruct (G x) as [pp G1]. rewrite G1 in K1. cbn [resumed snd fst] in K1.
      assert (x = (f, (wr, s))) by (apply (same_fiber (wo_wait l)); auto). subst x. exists pp. apply in_map_iff. eexists. split; [exact G1|auto]. }
    destruct p as [fd t|t|wr' t|wr' t|q|p]; cbn [kq_step] in S1.
    - split_if S1; [discriminate|]. split_if S1; [discriminate|]. destruct (_ && _); inversion S1; subst; auto.
    - split_if S1; [discriminate|]. split_if S1; [discriminate|]. destruct (_ && _); inversion S1; subst; auto.
    - split_if S1; [discriminate|]. split_if S1; [destruct (_ && _); inversion S1; subst; auto|].
      assert (AP : In (f, (wr, s)) (wo_wait l ++ [(c, (wr', t))])) by (apply in_or_app; auto).
      destruct (ok (fst o)); [destruct (made_is _ _); inversion S1; subst; auto|]. destruct (_ =? ERROR_FIBER_SCHEDULER_EXHAUSTED); [destruct (_ && _); inversion S1; subst; auto|]. destruct (_ && _); discriminate.
    - destruct (_ || _) eqn:Q; [discriminate|]. destruct (_ && _); [|discriminate]. cbn [judge] in S1. inversion S1; subst. auto.
    - split_if S1; [discriminate|]. destruct (ans q) as [|k t]; [discriminate|]. split_if S1; [discriminate|].
      destruct (sys && refused m).
      + destruct (plain _ _); [|discriminate]. cbn [andb] in S1. destruct (made_is m _) eqn:MI; [|discriminate]. apply made_is_eq in MI. cbn [judge] in S1. inversion S1; subst c1 l1. cbn [wo_wait].
        eapply (WO _ kq_failing); [intros x; eexists; reflexivity| |exact MI]. intros x J. apply filter_In in J. tauto.
      + destruct k as [e|r]; [destruct (_ && _); [|discriminate]; cbn [judge] in S1; destruct sys; inversion S1; subst; auto|]. split_if S1; [discriminate|]. split_if S1; [discriminate|].
        destruct (plain _ _); [|discriminate]. cbn [andb] in S1. destruct (made_is m _) eqn:MI; [|discriminate]. apply made_is_eq in MI. cbn [judge] in S1. inversion S1; subst c1 l1. cbn [wo_wait]. clear S1 WO.
        destruct (in_dec Z.eq_dec f (made_for m)) as [K|K]; [right|left; apply without_in; auto].
        rewrite MI, made_for_rousing in K. apply in_map_iff in K as ([x mask] & K1 & K2). cbn [fst] in K1.
        assert (x = (f, (wr, s))). { apply (same_fiber (wo_wait l)); auto. apply in_firstn in K2. destruct x as [g [w2 t2]]. apply C60_due in K2. tauto. } subst x.
        rewrite MI. eexists. apply in_map_iff. eexists. split; [|exact K2]. reflexivity.
    - split_if S1; [discriminate|]. destruct (foreign _ _ _); inversion S1; subst; auto. }
  destruct CASE as [K|[x K]]; [|right; exists x; cbn [concat]; apply in_or_app; auto].
  destruct (IH os ms c1 l1 c' l' f wr s H K (proj1 AL) (proj2 AL)) as [A|[x A]]; [auto|]. right. exists x. cbn [concat]. apply in_or_app. auto.
Qed.
(** Over any history that the specification covers, a fiber that waits goes on waiting,
    whatever the others do, until it is made ready. *)
Theorem C60_kept : forall mem sys ans d h0 os0 ms0 m0 h os ms c l c' l' f wr s, kq_run mem sys ans d h0 os0 ms0 m0 no_world = Good c l -> In (f, (wr, s)) (wo_wait l) ->
  kq_run mem sys ans d h os ms c l = Good c' l' ->
  In (f, (wr, s)) (wo_wait l') \/ exists p, In (false, (f, (IO_ID, if wr then IR_WRITE else IR_READ, p))) (concat ms).
Proof.
  intros mem sys ans d h0 os0 ms0 m0 h os ms c l c' l' f wr s H0 I0 H.
  destruct (run_alone _ _ _ _ _ _ _ _ _ _ _ H0 ltac:(constructor) ltac:(intros x [])) as [A B]. exact (kept_from _ _ _ _ _ _ _ _ _ _ _ _ _ _ H I0 A B).
Qed.

(** ** The context *)
(** The context holds a block and a descriptor if it is created, and nothing otherwise
    unless a reclaim fails too; its release gives both back. *)
Theorem C60_context : forall al kq rc, let '(e, k, h) := kq_context_create al kq rc in
  (e = STATUS_SUCCESS <-> al = STATUS_SUCCESS /\ 0 <= kq) /\
  (e = STATUS_SUCCESS -> k = Some (io_k (kq_none [])) /\ h = Kept 1 1 /\ kq_context_release STATUS_SUCCESS h = (STATUS_SUCCESS, Kept 0 0) /\ forall rc', ke_fds (snd (kq_context_release rc' h)) = 0 /\ fst (kq_context_release rc' h) = rc' /\ (rc' <> STATUS_SUCCESS -> ke_blocks (snd (kq_context_release rc' h)) = 1)) /\
  (e <> STATUS_SUCCESS -> k = None /\ ke_fds h = 0 /\ (rc = STATUS_SUCCESS -> ke_blocks h = 0) /\
    (al <> STATUS_SUCCESS -> e = al /\ ke_blocks h = 0) /\ (al = STATUS_SUCCESS -> kq < 0 /\ e = (if ok rc then ERROR_PSOCK_KQUEUE_FAILED else rc) /\ (rc <> STATUS_SUCCESS -> ke_blocks h = 1))).
Proof.
  intros al kq rc. unfold kq_context_create. destruct (ok al) eqn:OA; cbn [negb].
  - apply ok_true in OA. subst al. destruct (Z.ltb_spec kq 0) as [L|L].
    + destruct (ok rc) eqn:OR.
      * split; [split; [discriminate|intros [_ K]; lia]|]. split; [discriminate|]. intros _. do 2 (split; [reflexivity|]). split; [reflexivity|]. split; [congruence|]. intros _. split; [lia|]. split; [reflexivity|]. apply ok_true in OR. congruence.
      * pose proof (proj1 (ok_false _) OR) as NE. split; [split; [congruence|intros [_ K]; lia]|]. split; [congruence|]. intros _. do 2 (split; [reflexivity|]). split; [congruence|]. split; [congruence|]. auto.
    + split; [split; auto|]. split; [|congruence]. intros _. do 3 (split; [reflexivity|]). intros rc'. do 2 (split; [reflexivity|]). intros K. apply ok_false in K. unfold kq_context_release. rewrite K. reflexivity.
  - pose proof (proj1 (ok_false _) OA) as NE. split; [split; [congruence|intros [K _]; congruence]|]. split; [congruence|]. intros _. do 2 (split; [reflexivity|]). split; [reflexivity|]. split; [auto|congruence].
Qed.
Example C60_context_example : kq_context_create 0 5 0 = (0, Some (KQ [] [] []), Kept 1 1) /\ kq_context_create 0 (-1) 0 = (ERROR_PSOCK_KQUEUE_FAILED, None, Kept 0 0).
Proof. split; reflexivity. Qed.
(** The release of the discipline succeeds only if both releases do, and else gives the
    error of the context, which comes first. *)
Theorem C60_chained : forall ctx disc, (kq_chained_release ctx disc = STATUS_SUCCESS <-> ctx = STATUS_SUCCESS /\ disc = STATUS_SUCCESS) /\
  (ctx <> STATUS_SUCCESS -> kq_chained_release ctx disc = ctx) /\ (ctx = STATUS_SUCCESS -> kq_chained_release ctx disc = disc).
Proof.
  intros ctx disc. unfold kq_chained_release. destruct (ok ctx) eqn:O; cbn [negb].
  - apply ok_true in O. subst. split; [split; [auto|tauto]|]. split; [congruence|auto].
  - pose proof (proj1 (ok_false _) O) as NE. split; [split; [congruence|tauto]|]. split; [auto|congruence].
Qed.

(** ** Examples *)
(** The history of PropIo.v: fibers 2 and 3 wait to read and to write on socket 100, and 10
    to read on 200. *)
Definition ans60 (q : Z) : list kans :=
  if q =? 0 then [KReady [(7, OUT)]] else if q =? 1 then [KReady [(7, IN); (8, Z.lor IN HUP)]] else [KReady [(7, ERR)]].
Definition run60 (al : list Z) (ctl : list Z) (h : list iop) : option (list out * ast (iost kqst * unit)) :=
  asteps true (io_acts kq_plat ans60 quiet) (io_setup [] 60 ++ map (isop 60) h) (al_set al (ainit (kq_none ctl, tt) 10)).
Definition ms60 (al : list Z) (ctl : list Z) (h : list iop) : list (list (bool * entry)) :=
  skipn 2 (made_by true (io_acts kq_plat ans60 quiet) (io_setup [] 60 ++ map (isop 60) h) (al_set al (ainit (kq_none ctl, tt) 10))).
Example C60_history_example : exists a, run60 [] [] h45a = Some ((STATUS_SUCCESS, nowhere) :: (STATUS_SUCCESS, nowhere) :: firstn 20 (os45 Epoll), a) /\
  kq_run false false ans60 60 h45a (os45 Epoll) (ms60 [] [] h45a) 10 no_world = Good 2 world45.
Proof. eexists. split; vm_compute; reflexivity. Qed.
(** The round that finds 7 and 8 ready makes 2 and 10 ready; one that finds that 7 failed
    would make 2 and 3 ready. *)
Example C60_drains_example :
  kq_run false false ans60 60 (firstn 17 h45) (os45 Epoll) (ms60 [] [] h45a) 10 no_world =
    Good 5 (World [(200, 8); (100, 7)] [(2, (false, 100)); (10, (false, 200)); (3, (true, 100))] [(2, (false, 100)); (10, (false, 200)); (3, (true, 100))]) /\
  nth 17 (ms60 [] [] h45a) [] = [(false, (2, (IO_ID, IR_READ, 0))); (false, (10, (IO_ID, IR_READ, IO_FLAG_EOF)))] /\
  kq_due [(7, ERR)] [(200, 8); (100, 7)] [(2, (false, 100)); (10, (false, 200)); (3, (true, 100))] = [((2, (false, 100)), ERR); ((3, (true, 100)), ERR)].
Proof. split; [|split]; vm_compute; reflexivity. Qed.
(** The kernel refuses the event of 3: the round resumes it with an error, and not 2, which
    is ready; the next round does. *)
Definition h60r : list iop := firstn 13 h45 ++ [IRound 1; IRound 1].
Example C60_refused_example : exists os a, run60 [] [0; 12] h60r = Some ((STATUS_SUCCESS, nowhere) :: (STATUS_SUCCESS, nowhere) :: os, a) /\
  nth 13 (ms60 [] [0; 12] h60r) [] = [(false, (3, (IO_ID, IR_WRITE, IO_FLAG_ERROR)))] /\
  nth 14 (ms60 [] [0; 12] h60r) [] = [(false, (2, (IO_ID, IR_READ, 0))); (false, (10, (IO_ID, IR_READ, IO_FLAG_EOF)))] /\
  exists l, kq_run false true ans60 60 h60r os (ms60 [] [0; 12] h60r) 10 no_world = Good 5 l /\ wo_wait l = [].
Proof. do 2 eexists. split; [vm_compute; reflexivity|]. split; [vm_compute; reflexivity|]. split; [vm_compute; reflexivity|]. eexists. split; [vm_compute; reflexivity|reflexivity]. Qed.

(** ** What is false *)
(** A signal ends the idle fiber, and with it all waits: any answer that is an error does. *)
Theorem C60_signal_refuted : forall e rest V (a : ast (iost kqst * V)) other ans d q, ans q = KErr e :: rest -> kq_inputs (io_k (fst (a_user a))) = [] \/ e <> EINTR ->
  exists a', astep true (io_acts kq_plat ans other) (isop d (IRound q)) a = Some ((ERROR_PSOCK_KEVENT_FAILED, nowhere), a') /\ a_made a' = a_made a.
Proof.
  intros e rest V a other ans d q E H. cbn [isop astep]. change (io_acts kq_plat ans other FN_IO_ROUND IO_CTX (a_cur a) q) with (@on_fst (iost kqst) V (kq_round (ans q))). rewrite E. cbn [kq_round on_fst happly].
  destruct (Z.eqb_spec e EINTR) as [EI|NE]; cbn [negb]; [|eexists; split; reflexivity]. destruct H as [H|H]; [|congruence]. rewrite H. cbn [kq_changes on_fst happly]. eexists. split; reflexivity.
Qed.
(** Nobody is resumed any more, whatever the kernel says in all rounds to come: no event is
    with the kernel or in the array. *)
Definition nothing_kept (k : kqst) : Prop := kq_inputs k = [] /\ kq_notes k = [].
Lemma scan_none : forall t n, kq_scan n t [] = ([], []).
Proof. induction t as [|[[fd f] m] t IH]; intros [|n]; cbn [kq_scan]; auto. exact (IH (S n)). Qed.
Lemma never_again : forall V ans (other : acts V) d qs os (a a' : ast (iost kqst * V)), nothing_kept (io_k (fst (a_user a))) ->
  asteps true (io_acts kq_plat ans other) (map (isop d) (map IRound qs)) a = Some (os, a') -> concat (made_by true (io_acts kq_plat ans other) (map (isop d) (map IRound qs)) a) = [].
Proof.
  intros V ans other d. induction qs as [|q qs IH]; intros os a a' [N1 N2] H; [reflexivity|]. cbn [map asteps isop] in H. cbn [map made_by isop].
  destruct (astep true _ _ a) as [[o a1]|] eqn:S1; [|discriminate]. destruct (asteps _ _ _ a1) as [[os1 a2]|] eqn:S2; [|discriminate].
  cbn [astep] in S1. change (io_acts kq_plat ans other FN_IO_ROUND IO_CTX (a_cur a) q) with (@on_fst (iost kqst) V (kq_round (ans q))) in S1. destruct (happly _ a) as [[e a3]|] eqn:HA; [|discriminate]. inversion S1; subst; clear S1.
  assert (G : a_made a1 = a_made a /\ nothing_kept (io_k (fst (a_user a1)))).
  { destruct (ans q) as [|k t]; [discriminate|]. cbn [kq_round on_fst happly] in HA. rewrite N1, N2 in HA. cbn [kq_changes] in HA. destruct k as [er|r].
    - destruct (er =? EINTR); cbn [negb on_fst happly] in HA; inversion HA; subst; split; auto; split; auto.
    - rewrite scan_none in HA. cbn [on_fst happly kq_serve] in HA. inversion HA; subst. split; auto. split; auto. }
  destruct G as [M G]. rewrite M, skipn_all. cbn [concat app]. eapply IH; eauto.
Qed.
(** If memory runs out as a fiber is made ready, it and all that follow it are lost: 2 and 3
    wait to read, both are ready, and the round fails.  No later round resumes them. *)
Definition h60l : list iop :=
  [IOther (SNew 2); IOther (SNew 3); IOther (SNew 5); IOther (SAdd 2); IOther (SAdd 3); IOther (SIdle 5); ISocket 7 100; ISocket 8 200; IOther SRun;
   IWait false 100; IWait false 200; IOther SReceive; IRound 1].
Theorem C60_lost_refuted : exists a, run60 (repeat 0 10 ++ [ERROR_GENERAL_OUT_OF_MEMORY]) [] h60l =
    Some (map (fun x => (0, x)) [nowhere; nowhere; nowhere; nowhere; nowhere; (10, INTERNAL_ID, RESUME_ADD_FIBER, 0); (10, INTERNAL_ID, RESUME_ADD_FIBER, 0); nowhere; nowhere; nowhere;
      (2, INTERNAL_ID, RESUME_ADD_FIBER, 0); (3, INTERNAL_ID, RESUME_ADD_FIBER, 0); (10, INTERNAL_ID, RESUME_RUN, 0); (5, INTERNAL_ID, RESUME_IDLE, 0)] ++ [(ERROR_GENERAL_OUT_OF_MEMORY, nowhere)], a) /\
  a_ready a = [] /\ io_socks (fst (a_user a)) = [(200, WS 8 3 0); (100, WS 7 2 0)] /\
  forall ans qs os' a', asteps true (io_acts kq_plat ans quiet) (map (isop 60) (map IRound qs)) a = Some (os', a') -> concat (made_by true (io_acts kq_plat ans quiet) (map (isop 60) (map IRound qs)) a) = [].
Proof.
  assert (E : exists a, run60 (repeat 0 10 ++ [ERROR_GENERAL_OUT_OF_MEMORY]) [] h60l =
    Some (map (fun x => (0, x)) [nowhere; nowhere; nowhere; nowhere; nowhere; (10, INTERNAL_ID, RESUME_ADD_FIBER, 0); (10, INTERNAL_ID, RESUME_ADD_FIBER, 0); nowhere; nowhere; nowhere;
      (2, INTERNAL_ID, RESUME_ADD_FIBER, 0); (3, INTERNAL_ID, RESUME_ADD_FIBER, 0); (10, INTERNAL_ID, RESUME_RUN, 0); (5, INTERNAL_ID, RESUME_IDLE, 0)] ++ [(ERROR_GENERAL_OUT_OF_MEMORY, nowhere)], a) /\
    a_ready a = [] /\ io_socks (fst (a_user a)) = [(200, WS 8 3 0); (100, WS 7 2 0)] /\ nothing_kept (io_k (fst (a_user a))))
    by (eexists; split; [vm_compute; reflexivity|]; repeat split).
  destruct E as (a & E1 & E2 & E3 & E4). exists a. do 3 (split; [assumption|]). intros ans qs os' a'. apply never_again. exact E4.
Qed.
(** 1023 fibers start to wait before the next round, for sockets 10001 to 11023.  One more
    wait tells the kernel of all their events; if this refuses the first (ENOMEM), that wait fails,
    and the others are lost: no later round resumes them. *)
Definition ids (n : Z) : list Z := map Z.of_nat (seq 1 (Z.to_nat n)).
Definition h60f : list iop :=
  map (fun i => IOther (SNew (1000 + i))) (ids 1023) ++ map (fun i => IOther (SAdd (1000 + i))) (ids 1023) ++ map (fun i => ISocket i (10000 + i)) (ids 1024) ++
  [IOther SRun] ++ map (fun i => IWait false (10000 + i)) (ids 1024).
Theorem C60_flush_refuted : exists os a, run60 [] [12] h60f = Some (os, a) /\
  forallb (fun o => ok (fst o)) (removelast os) = true /\ last os (0, nowhere) = (ERROR_PSOCK_KEVENT_FAILED, nowhere) /\ a_ready a = [] /\
  forallb (fun i => match hget (io_socks (fst (a_user a))) (10000 + i) with Some b => ws_r b =? 1000 + i | None => false end) (ids 1023) = true /\
  forall ans qs os' a', asteps true (io_acts kq_plat ans quiet) (map (isop 60) (map IRound qs)) a = Some (os', a') -> concat (made_by true (io_acts kq_plat ans quiet) (map (isop 60) (map IRound qs)) a) = [].
Proof.
  assert (E : option_map (fun x => (forallb (fun o => ok (fst o)) (removelast (fst x)), last (fst x) (0, nowhere), a_ready (snd x), io_k (fst (a_user (snd x))),
      forallb (fun i => match hget (io_socks (fst (a_user (snd x)))) (10000 + i) with Some b => ws_r b =? 1000 + i | None => false end) (ids 1023))) (run60 [] [12] h60f) =
    Some (true, (ERROR_PSOCK_KEVENT_FAILED, nowhere), [], KQ [] [] [], true)) by (vm_compute; reflexivity).
  destruct (run60 [] [12] h60f) as [[os a]|]; [|discriminate]. cbn [option_map fst snd] in E. injection E as E1 E2 E3 E4 E5. exists os, a. split; [reflexivity|]. split; [exact E1|]. split; [exact E2|]. split; [exact E3|]. split; [exact E5|].
  intros ans qs os' a'. apply never_again. rewrite E4. split; reflexivity.
Qed.
(** A fiber whose wait was ended by something else is resumed by the events it waited for
    all the same.  Fiber 2 waits to read, is asked to quiesce, returns from its wait,
    releases the socket and waits for something else; another socket gets the same
    descriptor.  When this is readable, 2 is resumed as if it waited to read. *)
Definition h60s : list iop :=
  [IOther (SNew 2); IOther (SNew 5); IOther (SAdd 2); IOther (SIdle 5); ISocket 7 100; IOther SRun;
   IWait false 100; IOther (SRequest false 2); IBack false 100; IRelease 100; ISocket 7 300; IOther SReceive; IOther SReceive; IRound 1; IOther SRun].
Theorem C60_stale_refuted : exists os a, run60 [] [] h60s = Some (os, a) /\
  skipn 9 os = [(0, (2, MANAGEMENT_ID, MGMT_QUIESCE, 0)); (0, nowhere); (0, nowhere); (0, nowhere); (0, (10, MANAGEMENT_ID, MGMT_RESULT, 0)); (0, (5, INTERNAL_ID, RESUME_IDLE, 0));
    (0, nowhere); (0, (2, IO_ID, IR_READ, 0))] /\
  io_socks (fst (a_user a)) = [(300, WS 7 0 0)].
Proof. do 2 eexists. split; [vm_compute; reflexivity|]. split; reflexivity. Qed.

Print Assumptions C60_history_partial.
Print Assumptions C60_room.
Print Assumptions C60_real_tree_partial.
Print Assumptions C60_due.
Print Assumptions C60_drains.
Print Assumptions C60_kept.
Print Assumptions C60_context.
Print Assumptions C60_chained.
Print Assumptions C60_signal_refuted.
Print Assumptions C60_lost_refuted.
Print Assumptions C60_flush_refuted.
Print Assumptions C60_stale_refuted.
