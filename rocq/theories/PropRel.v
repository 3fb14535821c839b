(** C77: the release of a resource gives back everything that belongs to it and says so, or the resource
    still belongs to the caller (resource.h:61-70). *)
From Verif Require Import Base Status MemModel Heap RelModel RelSpec RelProofs.

(** Whatever fails on the way, a release is defined and touches nothing that does not belong to the resource.
    It gives everything back if nothing fails.  Success means that everything was given back, but for
    descriptors; and unless a thread returned an error, everything was given back only if it says so. *)
Theorem C77_release_partial : forall v s p l, hwf (r_h s) -> whole (r_h s) p l -> (length l <= r_fuel v)%nat ->
  exists e s', release v p s = Some (e, s') /\ hwf (r_h s') /\ same_but (r_h s) (r_h s') l /\
    (e = STATUS_SUCCESS -> forall q, In q l -> hget (r_h s') q = None \/ hget (r_h s) q = Some Fd) /\
    (no_errors (r_h s) l -> taken v s -> e = STATUS_SUCCESS /\ gone (r_h s') l) /\
    (no_errors (r_h s) l -> gone (r_h s') l -> e = STATUS_SUCCESS).
Proof.
  intros v s p l W H L. destruct (release_does v (r_fuel v) s p l W H L) as (e & s' & A1 & A2 & A3 & _ & A5 & A6 & A7).
  exists e, s'. split; [exact A1|]. split; [exact A2|]. split; [exact A3|]. split; [exact A5|]. split; [intros N T; split; [apply A7; [exact N|]|]; apply A6; assumption|exact A7].
Qed.

(** The claim of resource.h holds of lists, of locks and of resources that consist of one block and are not
    cleared: after a failure the resource still belongs to the caller, with what it has not released, and
    releasing it again completes. *)
Theorem C77_still_owned_partial : forall v s p l b e s', hwf (r_h s) -> whole (r_h s) p l -> (length l <= r_fuel v)%nat -> hget (r_h s) p = Some b -> keeps b ->
  release v p s = Some (e, s') -> e <> STATUS_SUCCESS ->
  exists l', whole (r_h s') p l' /\ incl l' l /\ (forall q, In q l' -> q <> p -> hget (r_h s') q = hget (r_h s) q) /\
    forall v', taken v' s' -> (length l <= r_fuel v')%nat -> no_errors (r_h s) l -> exists s2, release v' p s' = Some (STATUS_SUCCESS, s2) /\ gone (r_h s2) l'.
Proof.
  intros v s p l b e s' W H L B K RR NE. destruct (keeps_whole v (r_fuel v) s p l b W H L B K e s' RR NE) as (l' & A1 & A2 & A3 & A4).
  exists l'. split; [exact A1|]. split; [exact A2|]. split; [exact A3|]. intros v' T L' N.
  destruct (release_does v (r_fuel v) s p l W H L) as (e1 & s1 & D1 & D2 & _). unfold release in RR. rewrite D1 in RR. injection RR as <- <-.
  assert (LL : (length l' <= r_fuel v')%nat) by (pose proof (NoDup_incl_length (proj1 (proj2 A1)) A2); lia).
  assert (N' : no_errors (r_h s1) l').
  { intros q t c Q E. destruct (Z.eq_dec q p) as [->|M].
    - exfalso. exact (A4 t c E).
    - rewrite A3 in E by assumption. eapply N; [apply A2; exact Q|exact E]. }
  destruct (release_does v' (r_fuel v') s1 p l' D2 A1 LL) as (e2 & s2 & F1 & _ & _ & _ & _ & F6 & F7).
  exists s2. split; [unfold release; rewrite F1, (F7 N' (F6 N' T)); reflexivity|apply F6; assumption].
Qed.

(** A stack whose memory cannot be unmapped is as before. *)
Theorem C77_stack_partial : forall v s p r, hget (r_h s) p = Some (Stack r) -> hget (r_h s) r = Some Sys -> r_an v (r_n s) <> STATUS_SUCCESS -> (1 <= r_fuel v)%nat ->
  release v p s = Some (ERROR_STACK_UNMAP, RS (r_h s) (S (r_n s))).
Proof.
  intros v s p r B R N F. unfold release. eapply stack_at; eassumption.
Qed.

(** Of every other resource it is false.  If giving back the struct fails, or a part of it but not the struct,
    or anything if the struct is cleared, an error is returned although the caller has nothing left that could
    be released: releasing the resource again is undefined, or changes nothing. *)
Theorem C77_again_refuted : forall v v' s p l b e s', hwf (r_h s) -> whole (r_h s) p l -> (length l <= r_fuel v)%nat -> hget (r_h s) p = Some b -> spent b = true ->
  release v p s = Some (e, s') -> hget (r_h s') p = None \/ gone (r_h s') (holds b) \/ cleared b = true -> futile v' p s'.
Proof. intros v v' s p l b e s' W H L B S RR D. eapply spent_futile; eauto. Qed.

(** So the memory of a fiber whose stack cannot be unmapped is lost: nothing points to the stack any more. *)
Theorem C77_stack_lost_refuted : forall v s p st r, hwf (r_h s) -> hget (r_h s) p = Some (Fiber st) -> hget (r_h s) st = Some (Stack r) -> hget (r_h s) r = Some Sys ->
  st <> p -> r <> p -> r_an v (r_n s) <> STATUS_SUCCESS -> r_an v (S (r_n s)) = STATUS_SUCCESS -> (2 <= r_fuel v)%nat ->
  exists s', release v p s = Some (ERROR_STACK_UNMAP, s') /\ hget (r_h s') p = None /\ hget (r_h s') st = Some (Stack r) /\ hget (r_h s') r = Some Sys.
Proof.
  intros v s p st r W B S R N1 N2 A1 A2 F. unfold release. destruct (r_fuel v) as [|n]; [lia|]. cbn [release_at]. rewrite B. cbn [release_fn]. unfold opt.
  assert (Z0 : st <> 0) by (intros ->; apply (proj2 W); eapply hget_in; exact S). apply Z.eqb_neq in Z0. rewrite Z0. cbn [app run]. unfold rbind at 1. cbn [run1].
  rewrite (stack_at v n s st r S R A1) by lia. change (ok ERROR_STACK_UNMAP) with false. cbn iota.
  unfold rbind at 1. unfold put, rbind, rret. cbn [r_h r_n]. rewrite B. change (ok STATUS_SUCCESS) with true. cbn iota.
  unfold run1, rbind, give, rret. cbn [r_h r_n]. rewrite (hget_hset_same _ _ Zero _ B), A2. change (ok STATUS_SUCCESS) with true. cbn iota.
  eexists. split; [reflexivity|]. cbn [r_h]. rewrite !hget_hdel by (apply hset_wf; exact W). rewrite Z.eqb_refl.
  rewrite (proj2 (Z.eqb_neq _ _) N1), (proj2 (Z.eqb_neq _ _) N2), !hget_hset_other by assumption. auto.
Qed.

(** Success although the descriptor is still open: the result of close is not looked at. *)
Theorem C77_close_refuted : forall v s p d, hwf (r_h s) -> hget (r_h s) p = Some (Dsock d) \/ hget (r_h s) p = Some (Epoll d) -> hget (r_h s) d = Some Fd -> d <> p ->
  r_an v (r_n s) <> STATUS_SUCCESS -> r_an v (S (r_n s)) = STATUS_SUCCESS -> (1 <= r_fuel v)%nat ->
  exists s', release v p s = Some (STATUS_SUCCESS, s') /\ hget (r_h s') p = None /\ hget (r_h s') d = Some Fd.
Proof.
  intros v s p d W B D N A1 A2 F. unfold release. destruct (r_fuel v) as [|n]; [lia|].
  assert (E : release_at v (S n) p s = run v (release_at v n) p First STATUS_SUCCESS [Close d; Put Zero; Give p None] s) by (cbn [release_at]; destruct B as [B|B]; rewrite B; reflexivity).
  rewrite E. clear E. assert (B' : exists b, hget (r_h s) p = Some b) by (destruct B; eauto). destruct B' as [b B'].
  cbn [run run1]. unfold rbind, give, put, rret. cbn [r_h r_n]. rewrite D, (ok_neq _ A1). cbn [r_h r_n]. rewrite B'. cbn [r_h r_n]. rewrite (hget_hset_same _ _ Zero _ B'), A2.
  change (ok STATUS_SUCCESS) with true. cbn iota. eexists. split; [reflexivity|]. cbn [r_h]. rewrite !hget_hdel by (apply hset_wf; exact W). rewrite Z.eqb_refl, (proj2 (Z.eqb_neq _ _) N), hget_hset_other by exact N. auto.
Qed.

(** A failure is reported although everything was given back: the status is what the thread returned. *)
Theorem C77_thread_refuted : forall v s p t c, hwf (r_h s) -> hget (r_h s) p = Some (Thread t c) -> hget (r_h s) t = Some Sys -> t <> p -> c <> STATUS_SUCCESS ->
  r_an v (r_n s) = STATUS_SUCCESS -> r_an v (S (r_n s)) = STATUS_SUCCESS -> (1 <= r_fuel v)%nat ->
  exists s', release v p s = Some (c, s') /\ hget (r_h s') p = None /\ hget (r_h s') t = None.
Proof.
  intros v s p t c W B T N C A1 A2 F. unfold release. destruct (r_fuel v) as [|n]; [lia|]. cbn [release_at]. rewrite B. cbn [release_fn run run1].
  unfold rbind, give, put, rret. cbn [r_h r_n]. rewrite T, A1. change (ok STATUS_SUCCESS) with true. cbn [r_h r_n].
  assert (B' : hget (hdel (r_h s) t) p = Some (Thread t c)) by (rewrite hget_hdel by exact W; rewrite (proj2 (Z.eqb_neq p t)) by congruence; exact B).
  rewrite B'. cbn [r_h r_n]. rewrite (hget_hset_same _ _ Zero _ B'), A2. change (ok STATUS_SUCCESS) with true. cbn iota. rewrite (ok_neq _ C).
  eexists. split; [reflexivity|]. cbn [r_h]. assert (W' : hwf (hdel (r_h s) t)) by (apply hdel_wf; exact W). rewrite !hget_hdel by (apply hset_wf; exact W'). rewrite Z.eqb_refl, (proj2 (Z.eqb_neq _ _) N), hget_hset_other by exact N.
  rewrite hget_hdel, Z.eqb_refl by exact W. auto.
Qed.

(** A condition that is released while fibers wait for it, if nothing fails: it is given back with its wait
    list, and the fibers are left alone. *)
Theorem C77_condition_partial : forall v s p l ns, hwf (r_h s) -> hget (r_h s) p = Some (Barrier l) -> hget (r_h s) l = Some (Waits ns) ->
  (forall n, In n ns -> exists f, hget (r_h s) n = Some (Wnode f)) -> NoDup ns -> taken v s -> (2 <= r_fuel v)%nat ->
  exists s', release v p s = Some (STATUS_SUCCESS, s') /\ gone (r_h s') (p :: l :: ns) /\ same_but (r_h s) (r_h s') (p :: l :: ns).
Proof. intros v s p l ns W P B N ND T L. unfold release. apply condition_taken; assumption. Qed.

(** A condition that is released while a fiber waits for it, when the node of the wait list cannot be
    reclaimed: the fiber, which the condition does not own, is released, its stack with it; the node is lost,
    and success is reported. *)
Theorem C77_waiter_refuted : forall v s p l w t f lf, hwf (r_h s) -> hget (r_h s) p = Some (Barrier l) -> hget (r_h s) l = Some (Waits (w :: t)) -> hget (r_h s) w = Some (Wnode f) ->
  (forall k, In k t -> exists g, hget (r_h s) k = Some (Wnode g)) -> NoDup (w :: t) -> whole (r_h s) f lf -> no_errors (r_h s) lf -> (forall q, In q lf -> ~ In q (p :: l :: w :: t)) ->
  r_an v (r_n s) <> STATUS_SUCCESS -> (forall k, (r_n s < k)%nat -> r_an v k = STATUS_SUCCESS) -> (2 + length lf <= r_fuel v)%nat ->
  exists s', release v p s = Some (STATUS_SUCCESS, s') /\ gone (r_h s') (p :: l :: t ++ lf) /\ hget (r_h s') w = Some (Wnode 0).
Proof. intros. unfold release. eapply waiter_lost; eassumption. Qed.

(** But for the context, a scheduler is given back completely if nothing fails, whatever it consists of and
    whichever fibers are in its run queue, and nothing else is touched. *)
Theorem C77_scheduler_partial : forall v s p c l, hwf (r_h s) -> scheduled (r_h s) p c l -> NoDup (c :: l) -> no_errors (r_h s) l -> taken v s -> (2 + length l <= r_fuel v)%nat ->
  exists s', release v p s = Some (STATUS_SUCCESS, s') /\ gone (r_h s') l /\ same_but (r_h s) (r_h s') l.
Proof. intros v s p c l W H ND NE T L. unfold release. eapply scheduler_taken; eassumption. Qed.
(** Success is reported although the context is still there: nothing gives it back. *)
Theorem C77_context_refuted : forall v s p c l, hwf (r_h s) -> scheduled (r_h s) p c l -> NoDup (c :: l) -> no_errors (r_h s) l -> taken v s -> (2 + length l <= r_fuel v)%nat ->
  exists s', release v p s = Some (STATUS_SUCCESS, s') /\ hget (r_h s') c <> None.
Proof.
  intros v s p c l W H ND NE T L. destruct (C77_scheduler_partial v s p c l W H ND NE T L) as (s' & A1 & _ & A3). exists s'. split; [exact A1|].
  inversion ND; subst. rewrite A3 by assumption. destruct H as [? ? ? ? ? ? ? ? ? ? ? ? ? _ C]. rewrite C. discriminate.
Qed.
(** If the first node of the run queue cannot be reclaimed and its fiber is one of the scheduler's, the fiber
    is released once more although it is gone: undefined. *)
Theorem C77_run_queue_refuted : forall s p c m fs d q i x y l w t f lm lf ld, hwf (r_h s) -> hget (r_h s) p = Some (Sched m c) -> hget (r_h s) c = Some (Sctx fs d q i x y) ->
  maybe (r_h s) m lm -> whole (r_h s) fs lf -> whole (r_h s) d ld -> hget (r_h s) q = Some (Queue l) -> hget (r_h s) l = Some (Waits (w :: t)) -> hget (r_h s) w = Some (Wnode f) -> In f lf ->
  NoDup (c :: p :: lm ++ lf ++ ld ++ [q; l; w]) -> no_errors (r_h s) (lm ++ lf ++ ld) -> forall z n e, (3 + length (lm ++ lf ++ ld) <= n)%nat -> e <> STATUS_SUCCESS ->
  exists k, release (RE (fun j => if Nat.eqb j k then e else STATUS_SUCCESS) z n) p s = None.
Proof.
  intros s p c m fs d q i x y l w t f lm lf ld W P C M F D Q L V I ND NE z n e B NZ.
  destruct (released_twice s p c m fs d q i x y l w t f lm lf ld W P C M F D Q L V I ND NE z n e B NZ) as [k K]. exists k. apply K.
Qed.

(** ** Examples *)
Ltac owning ls := eapply (Owns _ _ _ ls); [reflexivity|cbn; auto|cbn; intros ? ? K E; repeat destruct K as [<-|K]; try contradiction; cbn in E; injection E as <-; exact I|cbn; repeat constructor].
Definition waiting : heap blk := [(1, Barrier 2); (2, Waits [3]); (3, Wnode 4); (4, Fiber 5); (5, Stack 6); (6, Sys)].
Example waiting_lost : forall z, exists s', release (RE (fun k => if Nat.eqb k 0 then 1 else STATUS_SUCCESS) z 9) 1 (RS waiting 0) = Some (STATUS_SUCCESS, s') /\ gone (r_h s') [1; 2; 4; 5; 6] /\ hget (r_h s') 3 = Some (Wnode 0).
Proof.
  intros z. apply (C77_waiter_refuted (RE (fun k => if Nat.eqb k 0 then 1 else STATUS_SUCCESS) z 9) (RS waiting 0) 1 2 3 [] 4 [4; 5; 6]); try reflexivity; try (cbn; lia).
  - split; [cbn; repeat constructor; cbn; intuition discriminate|cbn; intuition discriminate].
  - repeat constructor; cbn; tauto.
  - split; [|split; [repeat constructor; cbn; intuition discriminate|exists (Fiber 5); split; [reflexivity|exact I]]]. owning [[5; 6]]. owning [[6]]. owning (@nil (list Z)).
  - intros q t c Q E. cbn in Q. repeat destruct Q as [<-|Q]; try contradiction; discriminate E.
  - discriminate.
  - intros [|k] K; [cbn in K; lia|reflexivity].
Qed.
Example waiting_taken : forall z, exists s', release (RE (fun _ => STATUS_SUCCESS) z 9) 1 (RS waiting 0) = Some (STATUS_SUCCESS, s') /\ gone (r_h s') [1; 2; 3] /\ same_but waiting (r_h s') [1; 2; 3].
Proof.
  intros z. apply (C77_condition_partial (RE (fun _ => STATUS_SUCCESS) z 9) (RS waiting 0) 1 2 [3]); try reflexivity; try (cbn; lia).
  - split; [cbn; repeat constructor; cbn; intuition discriminate|cbn; intuition discriminate].
  - intros n [<-|[]]. exists 4. reflexivity.
  - repeat constructor; cbn; tauto.
  - intros k _. reflexivity.
Qed.
(** Three waiting fibers, the nodes of two of which cannot be reclaimed, a stack that cannot be unmapped and a fiber that cannot
    be reclaimed: the last error is reported, and the condition is given back. *)
Example waiting_status : forall z, exists s',
  release (RE (fun k => nth k [1; 1; STATUS_SUCCESS; 2; 3] STATUS_SUCCESS) z 9) 1
    (RS [(1, Barrier 2); (2, Waits [3; 7; 9]); (3, Wnode 4); (4, Fiber 5); (5, Stack 6); (6, Sys); (7, Wnode 8); (8, Fiber 0); (9, Wnode 10); (10, Fiber 0)] 0) = Some (3, s') /\
  r_h s' = [(3, Wnode 0); (5, Stack 6); (6, Sys); (7, Wnode 0); (8, Zero); (10, Fiber 0)].
Proof. intros z. eexists. split; vm_compute; reflexivity. Qed.
(** A message discipline with a mailbox that holds a message with a payload. *)
Definition mail : heap blk := [(1, Disc 2 3 4); (2, Mem); (3, Mem); (4, Boxes 5); (5, Rbtree [6]); (6, Node 7); (7, Mailbox 8); (8, Queue 9); (9, List [10]); (10, Node 11); (11, Msg 12); (12, User)].
Example mail_wf : hwf mail.
Proof. split; [cbn; repeat constructor; cbn; intuition discriminate|cbn; intuition discriminate]. Qed.
Example mail_whole : whole mail 1 [1; 2; 3; 4; 5; 6; 7; 8; 9; 10; 11; 12].
Proof.
  split; [|split; [repeat constructor; cbn; intuition discriminate|exists (Disc 2 3 4); split; [reflexivity|exact I]]].
  owning [[2]; [3]; [4; 5; 6; 7; 8; 9; 10; 11; 12]].
  - owning (@nil (list Z)).
  - owning (@nil (list Z)).
  - owning [[5; 6; 7; 8; 9; 10; 11; 12]]. owning [[6; 7; 8; 9; 10; 11; 12]]. owning [[7; 8; 9; 10; 11; 12]]. owning [[8; 9; 10; 11; 12]]. owning [[9; 10; 11; 12]]. owning [[10; 11; 12]].
    owning [[11; 12]]. owning [[12]]. owning (@nil (list Z)).
Qed.
(** A scheduler with disciplines with a fiber, which is in the run queue, an idle fiber and a discipline. *)
Definition scheduler : heap blk :=
  [(1, Sched 2 5); (2, Fiber 0); (5, Sctx 6 10 15 20 23 24); (6, Rbtree [7]); (7, Node 8); (8, Fiber 9); (9, Stack 25); (25, Sys); (10, Rbtree [11]); (11, Node 12); (12, Disc 13 14 0); (13, Mem); (14, Mem);
   (15, Queue 16); (16, Waits [17]); (17, Wnode 8); (20, Fiber 21); (21, Stack 22); (22, Sys); (23, Mem); (24, Mem)].
Example scheduler_left : forall z, exists s', release (RE (fun _ => STATUS_SUCCESS) z 9) 1 (RS scheduler 0) = Some (STATUS_SUCCESS, s') /\ r_h s' = [(5, Sctx 6 10 15 20 23 24)].
Proof. intros z. eexists. split; vm_compute; reflexivity. Qed.
Example scheduler_scheduled : scheduled scheduler 1 5 [1; 2; 6; 7; 8; 9; 25; 10; 11; 12; 13; 14; 15; 16; 17; 20; 21; 22; 23; 24].
Proof.
  eapply (Scheduled scheduler 1 5 2 6 10 15 20 23 24 16 [17] [2] [6; 7; 8; 9; 25] [10; 11; 12; 13; 14] [20; 21; 22]); try reflexivity.
  - right. split; [discriminate|]. split; [|split; [repeat constructor; cbn; tauto|exists (Fiber 0); split; [reflexivity|exact I]]]. owning (@nil (list Z)).
  - split; [|split; [repeat constructor; cbn; intuition discriminate|exists (Rbtree [7]); split; [reflexivity|exact I]]]. owning [[7; 8; 9; 25]]. owning [[8; 9; 25]]. owning [[9; 25]]. owning [[25]]. owning (@nil (list Z)).
  - split; [|split; [repeat constructor; cbn; intuition discriminate|exists (Rbtree [11]); split; [reflexivity|exact I]]]. owning [[11; 12; 13; 14]]. owning [[12; 13; 14]]. owning [[13]; [14]]; owning (@nil (list Z)).
  - intros n [<-|[]]. exists 8. reflexivity.
  - right. split; [discriminate|]. split; [|split; [repeat constructor; cbn; intuition discriminate|exists (Fiber 21); split; [reflexivity|exact I]]]. owning [[21; 22]]. owning [[22]]. owning (@nil (list Z)).
Qed.
Example scheduler_hyp : hwf scheduler /\ NoDup [5; 1; 2; 6; 7; 8; 9; 25; 10; 11; 12; 13; 14; 15; 16; 17; 20; 21; 22; 23; 24] /\ no_errors scheduler (map fst scheduler).
Proof.
  split; [split; [cbn; repeat constructor; cbn; intuition discriminate|cbn; intuition discriminate]|]. split; [repeat constructor; cbn; intuition discriminate|].
  intros q t c Q E. cbn in Q. repeat destruct Q as [<-|Q]; try contradiction; discriminate E.
Qed.
(** In [scheduler] it is call 12, and the only one that may not fail. *)
Example scheduler_twice : forall z, exists k, release (RE (fun i => if Nat.eqb i k then 1 else STATUS_SUCCESS) z 99) 1 (RS scheduler 0) = None.
Proof.
  intros z. destruct scheduler_hyp as (W & _ & NE).
  eapply (C77_run_queue_refuted (RS scheduler 0) 1 5 2 6 10 15 20 23 24 16 17 [] 8 [2] [6; 7; 8; 9; 25] [10; 11; 12; 13; 14]); try reflexivity; try discriminate.
  - exact W.
  - right. split; [discriminate|]. split; [|split; [repeat constructor; cbn; tauto|exists (Fiber 0); split; [reflexivity|exact I]]]. owning (@nil (list Z)).
  - split; [|split; [repeat constructor; cbn; intuition discriminate|exists (Rbtree [7]); split; [reflexivity|exact I]]]. owning [[7; 8; 9; 25]]. owning [[8; 9; 25]]. owning [[9; 25]]. owning [[25]]. owning (@nil (list Z)).
  - split; [|split; [repeat constructor; cbn; intuition discriminate|exists (Rbtree [11]); split; [reflexivity|exact I]]]. owning [[11; 12; 13; 14]]. owning [[12; 13; 14]]. owning [[13]; [14]]; owning (@nil (list Z)).
  - cbn. auto.
  - repeat constructor; cbn; intuition discriminate.
  - intros q t c Q E. eapply NE; [|exact E]. cbn in *. intuition.
  - cbn. lia.
Qed.
Example scheduler_only : forall z j, (release (RE (fun i => if Nat.eqb i j then 1 else STATUS_SUCCESS) z 9) 1 (RS scheduler 0) = None) <-> j = 12%nat.
Proof.
  intros z j. split; [|intros ->; vm_compute; reflexivity].
  do 30 (destruct j as [|j]; [try reflexivity; vm_compute; discriminate|]). vm_compute. discriminate.
Qed.
(** If the payload cannot be given back, all of [mail] that stands above it is gone or lost. *)
Example mail_payload : forall z, exists s', release (RE (fun k => if Nat.eqb k 0 then 1 else STATUS_SUCCESS) z 99) 1 (RS mail 0) = Some (1, s') /\
  r_h s' = [(6, Node 0); (9, List []); (10, Node 0); (12, User)].
Proof. intros z. eexists. split; vm_compute; reflexivity. Qed.
(** If nothing fails, all is given back; if the discipline's own memory cannot be, the discipline cannot be released again. *)
Example mail_all : forall z, exists s', release (RE (fun _ => STATUS_SUCCESS) z 99) 1 (RS mail 0) = Some (STATUS_SUCCESS, s') /\ r_h s' = [].
Proof. intros z. eexists. split; vm_compute; reflexivity. Qed.
Example mail_struct : forall z v', exists s', release (RE (fun k => if Nat.eqb k 11 then 1 else STATUS_SUCCESS) z 99) 1 (RS mail 0) = Some (1, s') /\
  r_h s' = [(1, Disc 2 3 0)] /\ futile v' 1 s'.
Proof.
  intros z v'. eexists. split; [vm_compute; reflexivity|]. split; [reflexivity|].
  eapply (C77_again_refuted (RE (fun k => if Nat.eqb k 11 then 1 else STATUS_SUCCESS) z 99) v' (RS mail 0) 1); [exact mail_wf|exact mail_whole|cbn; lia|reflexivity|reflexivity|vm_compute; reflexivity|].
  right. left. intros q [<-|[<-|[<-|[]]]]; reflexivity.
Qed.
(** A fiber of which nothing can be given back: all of it is there, but the fiber has lost its stack. *)
Example fiber_left : forall z v', exists s', release (RE (fun _ => 1) z 9) 1 (RS [(1, Fiber 2); (2, Stack 3); (3, Sys)] 0) = Some (1, s') /\
  r_h s' = [(1, Zero); (2, Stack 3); (3, Sys)] /\ futile v' 1 s'.
Proof.
  intros z v'. eexists. split; [vm_compute; reflexivity|]. split; [reflexivity|].
  eapply (C77_again_refuted (RE (fun _ => 1) z 9) v' (RS [(1, Fiber 2); (2, Stack 3); (3, Sys)] 0) 1 [1; 2; 3]);
    [split; [cbn; repeat constructor; cbn; intuition discriminate|cbn; intuition discriminate]| |cbn; lia|reflexivity|reflexivity|vm_compute; reflexivity|right; right; reflexivity].
  split; [|split; [repeat constructor; cbn; intuition discriminate|exists (Fiber 2); split; [reflexivity|exact I]]].
  owning [[2; 3]]. owning [[3]]. owning (@nil (list Z)).
Qed.
(** The other resources, each with its own memory not given back: an error, and again nothing to release. *)
Example others : forall z, forallb (fun h => match release (RE (fun k => if Nat.eqb (S k) (length h) then 1 else STATUS_SUCCESS) z 99) 1 (RS h 0) with Some (e, s') => Z.eqb e 1 && Nat.eqb (length (r_h s')) 1 | None => false end)
  [[(1, Fiber 2); (2, Stack 3); (3, Sys)]; [(1, Rbtree [2]); (2, Node 3); (3, User)]; [(1, Queue 2); (2, List [])]; [(1, Msg 2); (2, User)]; [(1, Mailbox 2); (2, Queue 3); (3, List [])];
   [(1, Boxes 2); (2, Rbtree [])]; [(1, Barrier 2); (2, Waits [])]; [(1, Poll 2 3); (2, Mem); (3, Mem)]; [(1, Epoll 2); (2, Fd)]; [(1, Wrap 2); (2, Dsock 3); (3, Fd)]; [(1, Dsock 2); (2, Fd)];
   [(1, Br 2); (2, Mem)]; [(1, Bsock 2 3 4); (2, Mem); (3, Mem); (4, List [])]; [(1, Usock 2); (2, User)]; [(1, Bigint 2); (2, Mem)]; [(1, Trigger)]; [(1, Mutex 2); (2, Sys)]; [(1, Cond 2); (2, Sys)]; [(1, Thread 2 0); (2, Sys)]] = true.
Proof. intros z. vm_compute. reflexivity. Qed.
(** Which error is reported if call number k fails with status k + 1, counted from 0: the first or the last, and that of a close never. *)
Example which_error : forall z, map (fun h => match release (RE (fun k => Z.of_nat k + 1) z 99) 1 (RS h 0) with Some (e, _) => e | None => 0 end)
  [[(1, Fiber 2); (2, User)]; [(1, Node 2); (2, User)]; [(1, Rbtree [2; 3]); (2, User); (3, User)]; [(1, List [2; 3]); (2, User); (3, User)]; [(1, Queue 2); (2, List [])]; [(1, Disc 2 3 4); (2, Mem); (3, Mem); (4, User)];
   [(1, Msg 2); (2, User)]; [(1, Mailbox 2); (2, User)]; [(1, Boxes 2); (2, User)]; [(1, Barrier 2); (2, Waits [])]; [(1, Poll 2 3); (2, Mem); (3, Mem)]; [(1, Epoll 2); (2, Fd)];
   [(1, Wrap 2); (2, User)]; [(1, Dsock 2); (2, Fd)]; [(1, Br 2); (2, Mem)]; [(1, Bsock 2 3 4); (2, Mem); (3, Mem); (4, User)]; [(1, Obuf 2); (2, Mem)]; [(1, Usock 2); (2, User)];
   [(1, Bigint 2); (2, Mem)]; [(1, Mutex 2); (2, Sys)]; [(1, Cond 2); (2, Sys)]; [(1, Thread 2 0); (2, Sys)]; [(1, Sched 2 3); (2, User); (3, Sctx 4 5 6 0 0 0); (4, User); (5, User); (6, Queue 7); (7, Waits [])]; [(1, Sctx 4 5 6 8 9 10); (4, User); (5, User); (6, Queue 7); (7, Waits []); (8, User); (9, Mem); (10, Mem)]] =
  [2; 1; 1; 1; 2; 1;  1; 1; 1; 1; 1; 2;  1; 2; 1; 1; 1; 2;  2; 2; 2; 2; 3; 1].
Proof. intros z. vm_compute. reflexivity. Qed.
(** A list of two elements, the first of which cannot be given back: it is lost, the second is still the caller's. *)
Definition two : heap blk := [(1, List [2; 3]); (2, Node 4); (3, Node 5); (4, User); (5, User)].
Example two_whole : whole two 1 [1; 2; 4; 3; 5].
Proof.
  split; [|split; [repeat constructor; cbn; intuition discriminate|exists (List [2; 3]); split; [reflexivity|exact I]]].
  owning [[2; 4]; [3; 5]]; [owning [[4]]|owning [[5]]]; owning (@nil (list Z)).
Qed.
Example two_again : forall z, exists s', release (RE (fun k => if Nat.eqb k 0 then 1 else STATUS_SUCCESS) z 9) 1 (RS two 0) = Some (1, s') /\ r_h s' = [(1, List [3]); (2, Node 0); (3, Node 5); (4, User); (5, User)] /\
  exists s2, release (RE (fun _ => STATUS_SUCCESS) z 9) 1 s' = Some (STATUS_SUCCESS, s2) /\ r_h s2 = [(2, Node 0); (4, User)].
Proof. intros z. eexists. split; [vm_compute; reflexivity|]. split; [reflexivity|]. eexists. split; vm_compute; reflexivity. Qed.

Print Assumptions C77_release_partial.
Print Assumptions C77_still_owned_partial.
Print Assumptions C77_stack_partial.
Print Assumptions C77_again_refuted.
Print Assumptions C77_stack_lost_refuted.
Print Assumptions C77_close_refuted.
Print Assumptions C77_thread_refuted.
Print Assumptions C77_condition_partial.
Print Assumptions C77_waiter_refuted.
Print Assumptions C77_scheduler_partial.
Print Assumptions C77_context_refuted.
Print Assumptions C77_run_queue_refuted.
