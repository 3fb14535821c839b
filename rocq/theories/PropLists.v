(** C23 - C27: singly and doubly linked lists and queues. *)
From Coq Require Import Permutation.
From Verif Require Import Base Status MemModel Heap ListModel ListSpec ListProofs.

(** An environment in which everything works, allocating node [p] or list [l]. *)
Definition fine (p l : Z) : env := Env 0 p l (fun _ => 0) (fun _ => 0) (fun _ => 0).
(** One in which releasing resource [c] fails. *)
Definition bad (c : Z) : env := Env 0 0 0 (fun x => if x =? c then 77 else 0) (fun _ => 0) (fun _ => 0).

(** ** C23 *)
(** Every history of slist calls, on any number of lists, with any allocation and
    release failures, returns what the same operations on sequences return, without
    undefined behaviour; afterwards the live nodes are those in lists and those a
    failed release left behind, and the resources released are those it should be. *)
Theorem C23_slist_is_a_sequence : forall h outs a, asteps false astate0 h = Some (outs, a) ->
  exists w, execs false world0 h = Some (outs, w) /\
    Permutation (addrs (w_nodes w)) (all_nodes (a_lists a) ++ a_leak a) /\ NoDup (addrs (w_nodes w)) /\
    addrs (w_hdrs w) = addrs (a_lists a) /\ w_rel w = a_rel a.
Proof.
  intros h outs a A. destruct (steps_refine _ _ _ _ _ _ (inv0 false) A) as (w & E & I).
  exists w. destruct I as [I1 I2 I3 I4 I5 I6]. split; [auto|]. split; [auto|]. split; [apply I1|auto].
Qed.
(** Walking from the head by next visits exactly the elements, in order, and the count
    is their number. *)
Theorem C23_slist_walk : forall w a l s, reaches false w a -> hget (a_lists a) l = Some s ->
  (do p <- list_head w l; walk (length s) node_next w p) = Some (map el_child s) /\
  list_count w l = Some (Z.of_nat (length s)) /\ list_tail w l = Some (last_addr s).
Proof.
  intros w a l s R H. pose proof (reaches_inv _ _ _ R) as I. destruct (iv_lists _ _ _ I _ _ H) as [E L].
  unfold list_head, list_count, list_tail. rewrite E. cbn. split; [|auto]. eapply walk_fwd; eauto. apply I.
Qed.
Definition h23 : list (env * op) :=
  [(fine 0 1, OCreate); (fine 10 0, OAppendTail 1 100); (fine 11 0, OInsertHead 1 101); (fine 12 0, OAppend 11 102);
   (Env 5 0 0 (fun _ => 0) (fun _ => 0) (fun _ => 0), OAppend 10 103); (fine 0 2, OCreate); (fine 14 0, OAppendTail 2 104);
   (fine 0 0, ONextPop 11); (fine 12 0, OAppend 10 105); (fine 0 0, OPop 1); (fine 0 0, OCount 1); (fine 0 0, OHead 1);
   (fine 0 0, OTail 1); (fine 0 0, ONext 10); (fine 0 0, OChildSwap 12 106); (fine 0 0, OChild 12); (fine 0 0, ORelease 2)].
Example C23_example : exists a, asteps false astate0 h23 =
  Some ([(0, 1); (0, 0); (0, 0); (0, 0); (5, 0); (0, 2); (0, 0); (0, 102); (0, 0); (0, 101); (0, 2); (0, 10); (0, 12); (0, 12); (0, 105); (0, 106); (0, 0)], a) /\
  a_lists a = [(1, [El 10 1 100; El 12 1 106])] /\ a_rel a = [104].
Proof. eexists. split; [vm_compute; reflexivity|auto]. Qed.

(** ** C24 *)
Theorem C24_list_is_a_sequence : forall h outs a, asteps true astate0 h = Some (outs, a) ->
  exists w, execs true world0 h = Some (outs, w) /\
    Permutation (addrs (w_nodes w)) (all_nodes (a_lists a) ++ a_leak a) /\ NoDup (addrs (w_nodes w)) /\
    addrs (w_hdrs w) = addrs (a_lists a) /\ w_rel w = a_rel a.
Proof.
  intros h outs a A. destruct (steps_refine _ _ _ _ _ _ (inv0 true) A) as (w & E & I).
  exists w. destruct I as [I1 I2 I3 I4 I5 I6]. split; [auto|]. split; [auto|]. split; [apply I1|auto].
Qed.
(** Walking forwards from the head visits the elements in order, walking backwards from
    the tail visits them in reverse. *)
Theorem C24_list_walk : forall w a l s, reaches true w a -> hget (a_lists a) l = Some s ->
  (do p <- list_head w l; walk (length s) node_next w p) = Some (map el_child s) /\
  (do p <- list_tail w l; walk (length s) node_prev w p) = Some (rev (map el_child s)) /\
  list_count w l = Some (Z.of_nat (length s)).
Proof.
  intros w a l s R H. pose proof (reaches_inv _ _ _ R) as I. destruct (iv_lists _ _ _ I _ _ H) as [E L].
  unfold list_head, list_count, list_tail. rewrite E. cbn. split; [eapply walk_fwd; eauto; apply I|].
  split; [|auto]. eapply walk_bwd; eauto. apply I.
Qed.
Definition h24 : list (env * op) :=
  [(fine 0 1, OCreate); (fine 10 0, OAppendTail 1 100); (fine 11 0, OInsertHead 1 101); (fine 12 0, OAppend 11 102);
   (fine 13 0, OInsert 10 103); (fine 14 0, OInsert 11 104); (fine 0 0, OPrev 10); (fine 0 0, OPrev 14);
   (fine 0 0, OPop 1); (fine 0 0, OPrev 11); (fine 0 0, OCount 1)].
Example C24_example : exists a, asteps true astate0 h24 =
  Some ([(0, 1); (0, 0); (0, 0); (0, 0); (0, 0); (0, 0); (0, 13); (0, 0); (0, 104); (0, 0); (0, 4)], a) /\
  a_lists a = [(1, [El 11 1 101; El 12 1 102; El 13 1 103; El 10 1 100])].
Proof. eexists. split; [vm_compute; reflexivity|auto]. Qed.

(** ** C25 *)
(** A queue created in any world that list calls can lead to is, for every history of
    calls with every allocation and reclaim failure, the sequence [qspecs] says. *)
Theorem C25_queue_fifo : forall pick w a, good_pick pick -> reaches false w a ->
  forall v rc qs e q qs1 w1, queue_create STATUS_SUCCESS rc v qs w = (e, Some q, qs1, w1) ->
  ~ In (e_newh v) (addrs (w_hdrs w)) -> e_newh v <> 0 ->
  forall h, Forall (fun x => qop_nonnull (snd x)) h ->
  exists w2, qexecs pick qs1 w1 q h = Some (fst (qspecs [] h), w2).
Proof.
  intros pick w a G R v rc qs e q qs1 w1 C NI NZ h NN.
  pose proof (reaches_inv _ _ _ R) as I. unfold queue_create, list_create in C. cbn [ok] in C.
  change (negb (ok STATUS_SUCCESS)) with false in C. cbn iota in C.
  destruct (ok (e_alloc v)) eqn:O; cbn [negb] in C.
  2:{ destruct (negb (ok rc)); discriminate. }
  inversion C; subst; clear C.
  destruct (step_refines false v w a OCreate STATUS_SUCCESS (e_newh v) (AState (hadd (a_lists a) (e_newh v) []) (a_leak a) (a_rel a)) I) as (w' & E & I').
  { cbn [astep]. rewrite O. cbn [negb]. rewrite (proj2 (Z.eqb_neq _ _) NZ). cbn [orb].
    destruct (existsb _ _) eqn:X; [|auto]. apply existsb_exists in X as (y & X1 & X2). apply Z.eqb_eq in X2. subst y.
    rewrite <- (iv_addrs _ _ _ I) in X1. contradiction. }
  cbn [exec] in E. unfold list_create in E. rewrite O in E. cbn [negb] in E. inversion E; subst; clear E.
  assert (Hq : hget (hset (hadd qs (e_new v) 0) (e_new v) (e_newh v)) (e_new v) = Some (e_newh v)).
  { cbn. rewrite Z.eqb_refl. cbn. rewrite Z.eqb_refl. auto. }
  assert (Hl : hget (a_lists (AState (hadd (a_lists a) (e_newh v) []) (a_leak a) (a_rel a))) (e_newh v) = Some []).
  { cbn. rewrite Z.eqb_refl. auto. }
  destruct (queue_steps pick _ _ _ h _ _ [] G Hq I' Hl (Forall_nil _) NN) as (w2 & a2 & s2 & E2 & _). eauto.
Qed.
(** The queue specification is first in, first out: after any history the queue
    delivers, popped to the end, exactly what it holds in order. *)
Theorem C25_pop_all : forall v s, q_reclaim v = STATUS_SUCCESS ->
  qspecs s (repeat (v, QPop) (length s)) = (map (fun c => (STATUS_SUCCESS, c)) s, []).
Proof.
  intros v s H. induction s as [|c t IH]; cbn [length repeat qspecs qspec map]; [auto|].
  rewrite H. change (ok STATUS_SUCCESS) with true. cbn iota. rewrite IH. auto.
Qed.
Theorem C25_append_all : forall v s l, q_alloc v = STATUS_SUCCESS ->
  qspecs s (map (fun c => (v, QAppend c)) l) = (map (fun _ => (STATUS_SUCCESS, 0)) l, s ++ l).
Proof.
  intros v s l H. revert s. induction l as [|c t IH]; intros s; cbn [map qspecs qspec]; [rewrite app_nil_r; auto|].
  rewrite H. change (ok STATUS_SUCCESS) with true. cbn iota. rewrite IH, <- app_assoc. auto.
Qed.
Example C25_example :
  let v := QEnv 0 (fun _ => 9) 0 in
  exists w1 w2 a, reaches false world0 a /\ queue_create 0 0 (fine 7 8) [] world0 = (0, Some 7, [(7, 8)], w1) /\
  qexecs pick_max [(7, 8)] w1 7 [(v, QAppend 5); (v, QAppend 6); (QEnv 3 (fun _ => 9) 0, QAppend 7); (v, QInsert 4); (v, QPop); (v, QCount); (QEnv 0 (fun _ => 9) 2, QPop); (v, QPop); (v, QPop)] =
    Some ([(0, 0); (0, 0); (3, 0); (0, 0); (0, 4); (0, 2); (9, 0); (0, 6); (0, 0)], w2).
Proof. eexists. eexists. exists astate0. split; [exists [], []; auto|]. split; vm_compute; reflexivity. Qed.

(** ** C26 *)
(** The full statement: whatever the releases report, clearing releases every resource
    and leaves an empty list that works. *)
Definition C26_statement (dbl : bool) : Prop := forall w a v l s, reaches dbl w a -> hget (a_lists a) l = Some s ->
  exists st w' lk, clear dbl v w l = Some (st, w') /\ w_rel w' = w_rel w ++ nonnull (map el_child s) /\
    forall h outs a', asteps dbl (AState (hset (a_lists a) l []) lk (w_rel w')) h = Some (outs, a') ->
      exists w'', execs dbl w' h = Some (outs, w'').
(** It holds if no release and no reclaim fails. *)
Theorem C26_clear_partial : forall dbl w a v l s, reaches dbl w a -> hget (a_lists a) l = Some s ->
  (forall e, In e s -> el_child e <> 0 -> e_child v (el_child e) = STATUS_SUCCESS) ->
  (forall e, In e s -> e_reclaim v (el_addr e) = STATUS_SUCCESS) ->
  exists w', clear dbl v w l = Some (STATUS_SUCCESS, w') /\ w_rel w' = w_rel w ++ nonnull (map el_child s) /\
    reaches dbl w' (AState (hset (a_lists a) l []) (a_leak a) (w_rel w')).
Proof.
  intros dbl w a v l s R H H1 H2. pose proof (clearing_all_ok v s H1 H2) as C.
  destruct (reach_step dbl w a R v (OClear l) STATUS_SUCCESS 0 (AState (hset (a_lists a) l []) (a_leak a) (a_rel a ++ nonnull (map el_child s)))) as (w' & E & R').
  { cbn [astep]. rewrite H, C. auto. }
  pose proof (reaches_inv _ _ _ R) as I. pose proof (reaches_inv _ _ _ R') as I'.
  pose proof (iv_rel _ _ _ I') as X. cbn [a_rel] in X. rewrite <- (iv_rel _ _ _ I) in X.
  exists w'. rewrite X. rewrite (iv_rel _ _ _ I). split; [|split; auto].
  cbn [exec] in E. unfold sts, list_clear, slist_clear in E.
  destruct dbl; destruct (clear _ v w l) as [[e1 w1]|]; try discriminate; inversion E; subst; auto.
Qed.
(** Whatever fails, clear is defined and no resource is released twice or lost: those
    released and those still in the list are together those that were in the list. *)
Theorem C26_clear_never_twice : forall dbl w a v l s, reaches dbl w a -> hget (a_lists a) l = Some s ->
  exists st w' r rest, clear dbl v w l = Some (st, w') /\ w_rel w' = w_rel w ++ r /\
    r ++ nonnull (map el_child rest) = nonnull (map el_child s) /\
    (do p <- list_head w' l; walk (length rest) node_next w' p) = Some (map el_child rest) /\
    (st = STATUS_SUCCESS -> rest = []).
Proof.
  intros dbl w a v l s R H. pose proof (reaches_inv _ _ _ R) as I.
  destruct (clearing v s) as [[[st r] k] rest] eqn:C.
  destruct (clear_any dbl v w a l s I H _ _ _ _ C) as (w' & prev' & D1 & D2 & D3 & D4 & D5 & D6 & D7 & D8).
  exists st, w', r, rest. split; [auto|]. split; [auto|]. split; [eapply clearing_split; eauto|]. split.
  - unfold list_head. rewrite D4, Z.eqb_refl. cbn [h_head]. eapply walk_fwd; eauto.
  - intros ->. destruct (clearing_ok _ _ _ _ _ _ C eq_refl) as (_ & _ & ->). auto.
Qed.
(** Releasing a list whose resources and memory can be released takes it away. *)
Theorem C26_release_partial : forall dbl w a v l s, reaches dbl w a -> hget (a_lists a) l = Some s ->
  (forall e, In e s -> el_child e <> 0 -> e_child v (el_child e) = STATUS_SUCCESS) ->
  (forall e, In e s -> e_reclaim v (el_addr e) = STATUS_SUCCESS) -> e_reclaimh v l = STATUS_SUCCESS ->
  exists w', release dbl v w l = Some (STATUS_SUCCESS, w') /\ w_rel w' = w_rel w ++ nonnull (map el_child s) /\
    reaches dbl w' (AState (hdel (a_lists a) l) (a_leak a) (w_rel w')).
Proof.
  intros dbl w a v l s R H H1 H2 H3. pose proof (clearing_all_ok v s H1 H2) as C.
  destruct (reach_step dbl w a R v (ORelease l) STATUS_SUCCESS 0 (AState (hdel (a_lists a) l) (a_leak a) (a_rel a ++ nonnull (map el_child s)))) as (w' & E & R').
  { cbn [astep]. rewrite H, C. rewrite H3. auto. }
  pose proof (reaches_inv _ _ _ R) as I. pose proof (reaches_inv _ _ _ R') as I'.
  pose proof (iv_rel _ _ _ I') as X. cbn [a_rel] in X. rewrite <- (iv_rel _ _ _ I) in X.
  exists w'. rewrite X. rewrite (iv_rel _ _ _ I). split; [|split; auto].
  cbn [exec] in E. unfold sts, list_release, slist_release in E.
  destruct dbl; destruct (release _ v w l) as [[e1 w1]|]; try discriminate; inversion E; subst; auto.
Qed.
(** Once every list is released nothing is left, unless a release failed. *)
Theorem C26_nothing_left : forall dbl w a, reaches dbl w a -> a_lists a = [] -> a_leak a = [] -> w = World [] [] (a_rel a).
Proof.
  intros dbl w a R E1 E2. destruct (reaches_inv _ _ _ R) as [I1 I2 I3 I4 I5 I6]. rewrite E1, E2 in *. cbn in *.
  destruct w as [ns hs rl]. cbn in *. apply Permutation_sym, Permutation_nil in I5.
  destruct ns; [|discriminate]. destruct hs; [|discriminate]. subst. auto.
Qed.
Example C26_example : exists w a, reaches true w a /\ a_lists a = [(1, [El 10 1 100; El 11 1 0; El 12 1 102])] /\
  exists w', clear true (fine 0 0) w 1 = Some (0, w') /\ w_rel w' = [100; 102] /\ w_nodes w' = [].
Proof.
  eexists. eexists. split.
  - exists [(fine 0 1, OCreate); (fine 10 0, OAppendTail 1 100); (fine 11 0, OAppendTail 1 0); (fine 12 0, OAppendTail 1 102)].
    eexists. split; vm_compute; reflexivity.
  - split; [reflexivity|]. eexists. split; [vm_compute; reflexivity|auto].
Qed.
(** A node whose resource cannot be released no longer has it: the resource is not released
    again when the node is. *)
Theorem C26_node_retry : forall v w p n, hget (w_nodes w) p = Some n -> n_child n <> 0 -> e_child v (n_child n) <> STATUS_SUCCESS ->
  exists w', node_release v w p = Some (e_child v (n_child n), w') /\ w_rel w' = w_rel w ++ [n_child n] /\ map fst (w_nodes w') = map fst (w_nodes w) /\ w_hdrs w' = w_hdrs w /\
    forall v2, exists w'', node_release v2 w' p = Some (e_reclaim v2 p, w'') /\ w_rel w'' = w_rel w' /\ w_hdrs w'' = w_hdrs w /\
      w_nodes w'' = if ok (e_reclaim v2 p) then hdel (w_nodes w') p else w_nodes w'.
Proof.
  intros v w p n H C F. unfold node_release at 1. rewrite H. cbn beta iota. rewrite (proj2 (Z.eqb_neq _ _) C). cbn [negb]. unfold setn. rewrite H. cbn beta iota.
  unfold release_child. rewrite (proj2 (Z.eqb_neq _ _) C). cbn beta iota. replace (ok (e_child v (n_child n))) with false by (symmetry; unfold ok; apply Z.eqb_neq; exact F). cbn [negb].
  eexists. split; [reflexivity|]. cbn [w_rel w_nodes w_hdrs]. split; [auto|]. split; [apply hset_addrs|]. split; [auto|].
  intros v2. unfold node_release. cbn [w_nodes]. rewrite (hget_hset_same _ _ _ _ H). cbn [n_child to_child Z.eqb negb]. unfold reclaim_node. cbn [w_nodes]. rewrite (hget_hset_same _ _ _ _ H).
  destruct (ok (e_reclaim v2 p)) eqn:K; [unfold ok in K; apply Z.eqb_eq in K; rewrite K|]; (eexists; split; [reflexivity|]); auto.
Qed.
Example C26_node_retry_example : exists w', node_release (bad 100) (World [(10, Node 0 0 0 100)] [] []) 10 = Some (77, w') /\ w_rel w' = [100] /\
  node_release (fine 0 0) w' 10 = Some (0, World [] [] [100]).
Proof. eexists. split; [vm_compute; reflexivity|]. split; reflexivity. Qed.
(** A popped node whose own reclaim fails stays allocated, linked to nothing: it names
    no list, no successor and no resource. *)
Theorem C26_pop_unlinks : forall (dbl : bool) v w l h e r w', hget (w_hdrs w) l = Some h -> h_head h <> 0 ->
  e_reclaim v (h_head h) <> STATUS_SUCCESS ->
  (if dbl then list_pop v w l else slist_pop v w l) = Some (e, r, w') ->
  r = 0 /\ exists n, hget (w_nodes w') (h_head h) = Some n /\ n_parent n = 0 /\ n_next n = 0 /\ n_child n = 0.
Proof. exact pop_unlinks. Qed.
Theorem C26_next_pop_unlinks : forall v w q m e r w', hget (w_nodes w) q = Some m -> n_next m <> 0 -> n_next m <> q ->
  e_reclaim v (n_next m) <> STATUS_SUCCESS ->
  slist_node_next_pop v w q = Some (e, r, w') ->
  r = 0 /\ exists n, hget (w_nodes w') (n_next m) = Some n /\ n_parent n = 0 /\ n_next n = 0 /\ n_child n = 0.
Proof. exact next_pop_unlinks. Qed.
(** Popping a list of two while nodes cannot be reclaimed. *)
Example C26_pop_unlinks_example : forall dbl : bool,
  let w := World [(10, Node 1 0 11 100); (11, Node 1 (if dbl then 10 else 0) 0 101)] [(1, Hdr 10 11 2)] [] in
  let v := Env 0 0 0 (fun _ => 0) (fun _ => 66) (fun _ => 0) in
  (if dbl then list_pop v w 1 else slist_pop v w 1) =
    Some (0, 0, World [(10, Node 0 0 0 0); (11, Node 1 0 0 101)] [(1, Hdr 11 11 1)] [100]).
Proof. intros [|]; vm_compute; reflexivity. Qed.
(** It is false otherwise.  The first failure ends the release of the others: *)
Definition two : list (env * op) := [(fine 0 1, OCreate); (fine 10 0, OAppendTail 1 100); (fine 11 0, OAppendTail 1 101)].
Theorem C26_clear_stops_refuted : forall dbl, exists w a, reaches dbl w a /\ a_lists a = [(1, [El 10 1 100; El 11 1 101])] /\
  exists w', clear dbl (bad 100) w 1 = Some (77, w') /\ w_rel w' = [100].
Proof.
  intros [|]; (eexists; eexists; split; [exists two; eexists; split; vm_compute; reflexivity|]; split; [reflexivity|]);
    (eexists; split; [vm_compute; reflexivity|reflexivity]).
Qed.
(** A failure of the last element leaves a list that loses what is added: after the
    append succeeds, the list has no head and a pop returns nothing. *)
Theorem C26_clear_unusable_refuted : forall dbl, exists w a, reaches dbl w a /\
  exists w' w'', clear dbl (bad 101) w 1 = Some (77, w') /\
    execs dbl w' [(fine 20 0, OAppendTail 1 200); (fine 0 0, OCount 1); (fine 0 0, OPop 1)] = Some ([(0, 0); (0, 1); (0, 0)], w'').
Proof.
  intros [|]; (eexists; eexists; split; [exists two; eexists; split; vm_compute; reflexivity|]);
    (eexists; eexists; split; vm_compute; reflexivity).
Qed.
(** In a doubly linked list any failure leaves the new head linked back to the removed
    node: inserting before the head is undefined behaviour. *)
Theorem C26_clear_backlink_refuted : exists w a, reaches true w a /\
  exists w', clear true (bad 100) w 1 = Some (77, w') /\ list_head w' 1 = Some 11 /\
    list_insert (fine 20 0) w' 11 200 = None.
Proof.
  eexists. eexists. split; [exists two; eexists; split; vm_compute; reflexivity|].
  eexists. split; [vm_compute; reflexivity|]. split; vm_compute; reflexivity.
Qed.
Theorem C26_statement_refuted : forall dbl, ~ C26_statement dbl.
Proof.
  intros dbl S. destruct (C26_clear_stops_refuted dbl) as (w & a & R & E & w' & C & RL).
  assert (H : hget (a_lists a) 1 = Some [El 10 1 100; El 11 1 101]) by (rewrite E; auto).
  destruct (S w a (bad 100) 1 _ R H) as (st & w2 & lk & C2 & RL2 & _). rewrite C in C2. inversion C2; subst.
  rewrite RL in RL2. destruct R as (h & outs & A & EX). pose proof (f_equal (@length Z) RL2) as LN.
  rewrite app_length in LN. cbn in LN. lia.
Qed.
(** A queue whose list cannot be released is itself reclaimed nevertheless: the list
    and its remaining elements are then out of reach. *)
Theorem C26_queue_release : forall rc v qs w q l e w1, hget qs q = Some l -> slist_release v w l = Some (e, w1) ->
  queue_release rc v qs w q = Some (if ok rc then e else rc, if ok rc then hdel qs q else qs, w1).
Proof.
  intros rc v qs w q l e w1 H R. unfold queue_release. rewrite H.
  assert (X : exists h, hget (w_hdrs w) l = Some h).
  { unfold slist_release, release, clear in R. cbn [clear_loop] in R. destruct (hget (w_hdrs w) l); [eauto|discriminate]. }
  destruct X as [h ->]. rewrite R. destruct (ok rc); auto.
Qed.

(** ** C27 *)
(** After a swap each list holds the other's elements; every later operation on the
    lists themselves, and every one through a node used with the list it was created
    in, behaves as on the swapped sequences. *)
Theorem C27_swap_partial : forall dbl w a l r s t, reaches dbl w a -> l <> r ->
  hget (a_lists a) l = Some s -> hget (a_lists a) r = Some t ->
  exists w' a', list_swap w l r = Some w' /\ reaches dbl w' a' /\
    hget (a_lists a') l = Some t /\ hget (a_lists a') r = Some s /\
    (forall x, x <> l -> x <> r -> hget (a_lists a') x = hget (a_lists a) x) /\
    a_leak a' = a_leak a /\ a_rel a' = a_rel a.
Proof.
  intros dbl w a l r s t R N Hl Hr.
  destruct (reach_step dbl w a R (fine 0 0) (OSwap l r) STATUS_SUCCESS 0 (put (put a l t) r s)) as (w' & E & R').
  { cbn [astep]. rewrite Hl, Hr. rewrite (proj2 (Z.eqb_neq _ _) N). auto. }
  cbn [exec] in E. destruct (list_swap w l r) as [w1|]; [|discriminate]. inversion E; subst.
  exists w', (put (put a l t) r s). cbn [put a_lists a_leak a_rel]. split; [auto|]. split; [auto|].
  split; [rewrite hget_hset_other by auto; eapply hget_hset_same; eauto|].
  split; [eapply hget_hset_same; rewrite hget_hset_other by auto; eauto|].
  split; [intros x N1 N2; rewrite !hget_hset_other by auto; auto|auto].
Qed.
Definition swapped : list (env * op) :=
  [(fine 0 1, OCreate); (fine 0 2, OCreate); (fine 10 0, OAppendTail 1 100); (fine 0 0, OSwap 1 2)].
Example C27_example : forall dbl, exists w a, reaches dbl w a /\ a_lists a = [(2, [El 10 1 100]); (1, [])] /\
  exists w', execs dbl w [(fine 11 0, OAppendTail 2 101); (fine 0 0, OPop 2); (fine 0 0, OCount 2); (fine 0 0, OCount 1)] = Some ([(0, 0); (0, 100); (0, 1); (0, 0)], w').
Proof.
  intros [|]; (eexists; eexists; split; [exists swapped; eexists; split; vm_compute; reflexivity|]; split; [reflexivity|]);
    (eexists; vm_compute; reflexivity).
Qed.
(** Through a node of the other list it does not: appending after the only element of
    list 2 is counted in list 1, and a later append to list 2 drops it. *)
Theorem C27_swap_refuted : forall dbl, exists w a, reaches dbl w a /\ a_lists a = [(2, [El 10 1 100]); (1, [])] /\
  exists w', execs dbl w [(fine 11 0, OAppend 10 101); (fine 0 0, OCount 2); (fine 0 0, OCount 1); (fine 0 0, OHead 1); (fine 12 0, OAppendTail 2 102);
     (fine 0 0, OPop 2); (fine 0 0, OPop 2); (fine 0 0, OPop 2)] =
   Some ([(0, 0); (0, 1); (0, 1); (0, 0); (0, 0); (0, 100); (0, 102); (0, 0)], w').
Proof.
  intros [|]; (eexists; eexists; split; [exists swapped; eexists; split; vm_compute; reflexivity|]; split; [reflexivity|]);
    (eexists; vm_compute; reflexivity).
Qed.
(** If the list it was created in is released first, it is undefined behaviour. *)
Theorem C27_swap_dangling_refuted : forall dbl, exists w a w', reaches dbl w a /\ a_lists a = [(2, [El 10 1 100]); (1, [])] /\
  release dbl (fine 0 0) w 1 = Some (0, w') /\ exec dbl (fine 11 0) w' (OAppend 10 101) = None.
Proof.
  intros [|]; (eexists; eexists; eexists; split; [exists swapped; eexists; split; vm_compute; reflexivity|]; split; [reflexivity|]);
    split; vm_compute; reflexivity.
Qed.

(** ** C48 for lists and queues *)
Theorem C48_list_create : forall v w, list_create v w =
  if ok (e_alloc v) then (STATUS_SUCCESS, Some (e_newh v), World (w_nodes w) ((e_newh v, Hdr 0 0 0) :: w_hdrs w) (w_rel w))
  else (e_alloc v, None, w).
Proof. intros. unfold list_create. destruct (ok (e_alloc v)); auto. Qed.
(** A failed queue creation leaves memory as it was, unless the queue's own memory
    cannot be given back; a successful one adds the queue and an empty list. *)
Theorem C48_queue_create : forall al rc v qs w e q qs1 w1, queue_create al rc v qs w = (e, q, qs1, w1) ->
  (e = STATUS_SUCCESS /\ q = Some (e_new v) /\ hget qs1 (e_new v) = Some (e_newh v) /\ addrs qs1 = e_new v :: addrs qs /\
     w1 = World (w_nodes w) ((e_newh v, Hdr 0 0 0) :: w_hdrs w) (w_rel w) /\ al = STATUS_SUCCESS /\ e_alloc v = STATUS_SUCCESS) \/
  (e <> STATUS_SUCCESS /\ q = None /\ w1 = w /\ (rc = STATUS_SUCCESS -> qs1 = qs) /\
     e = if ok al then (if ok rc then e_alloc v else rc) else al).
Proof.
  intros al rc v qs w e q qs1 w1 C. unfold queue_create, list_create in C.
  destruct (ok al) eqn:O1; cbn [negb] in C.
  - apply MemProofs.ok_true in O1. subst al. destruct (ok (e_alloc v)) eqn:O2; cbn [negb] in C.
    + inversion C; subst. left. apply MemProofs.ok_true in O2. split; [auto|]. split; [auto|].
      split; [cbn; rewrite Z.eqb_refl; cbn; rewrite Z.eqb_refl; auto|]. split; [cbn; rewrite Z.eqb_refl; auto|]. auto.
    + right. destruct (ok rc) eqn:O3; cbn [negb] in C; inversion C; subst.
      * split; [intros K; rewrite K in O2; discriminate|]. split; [auto|]. split; [auto|]. split; [intros _; cbn; rewrite Z.eqb_refl; auto|auto].
      * split; [intros K; rewrite K in O3; discriminate|]. split; [auto|]. split; [auto|]. split; [intros ->; discriminate|auto].
  - inversion C; subst. right. split; [intros K; rewrite K in O1; discriminate|]. split; [auto|]. split; [auto|]. split; auto.
Qed.
Example C48_lists_example : queue_create 0 0 (Env 12 7 8 (fun _ => 0) (fun _ => 0) (fun _ => 0)) [(3, 4)] world0 = (12, None, [(3, 4)], world0).
Proof. reflexivity. Qed.

Print Assumptions C23_slist_is_a_sequence.
Print Assumptions C23_slist_walk.
Print Assumptions C24_list_is_a_sequence.
Print Assumptions C24_list_walk.
Print Assumptions C25_queue_fifo.
Print Assumptions C25_pop_all.
Print Assumptions C25_append_all.
Print Assumptions C26_clear_partial.
Print Assumptions C26_clear_never_twice.
Print Assumptions C26_release_partial.
Print Assumptions C26_nothing_left.
Print Assumptions C26_node_retry.
Print Assumptions C26_pop_unlinks.
Print Assumptions C26_next_pop_unlinks.
Print Assumptions C26_clear_stops_refuted.
Print Assumptions C26_clear_unusable_refuted.
Print Assumptions C26_clear_backlink_refuted.
Print Assumptions C26_statement_refuted.
Print Assumptions C26_queue_release.
Print Assumptions C27_swap_partial.
Print Assumptions C27_swap_refuted.
Print Assumptions C27_swap_dangling_refuted.
Print Assumptions C48_list_create.
Print Assumptions C48_queue_create.
