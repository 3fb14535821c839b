(** Histories of scheduler calls. *)
From Coq Require Import Permutation.
From Verif Require Import Base Status MemModel MemProofs Heap TabModel TabSpec TabProofs SchedModel SchedSpec SchedProofs.

Lemma steps_sim : forall T U (ts : tops T) TR dels ac h (w : sw T U) a os a', tab_ok ts TR (fun _ _ => dels = true) -> Rel TR w a ->
  asteps dels ac h a = Some (os, a') -> exists w', sexecs ts ac h w = Some (os, w') /\ Rel TR w' a'.
Proof.
  induction h as [|p h IH]; intros w a os a' PT R H; cbn [asteps sexecs] in *; [inversion H; subst; eauto|].
  destruct (astep dels ac p a) as [[o a1]|] eqn:A; [|discriminate]. destruct (asteps dels ac h a1) as [[l a2]|] eqn:B; [|discriminate]. inversion H; subst.
  destruct (step_sim _ _ _ _ _ _ _ _ _ _ _ PT R A) as (w1 & W1 & R1). destruct (IH _ _ _ _ PT R1 B) as (w2 & W2 & R2). rewrite W1, W2. eauto.
Qed.
Lemma steps_sim_q : forall T U (ts : tops T) TR dels Q ac h (w : sw T U) a os a', tab_ok ts TR Q -> (dels = true -> removals ts ac Q h w) -> Rel TR w a ->
  asteps dels ac h a = Some (os, a') -> exists w', sexecs ts ac h w = Some (os, w') /\ Rel TR w' a'.
Proof.
  intros T U ts TR dels Q ac. induction h as [|p h IH]; intros w a os a' PT RM R H; cbn [asteps sexecs] in *; [inversion H; subst; eauto|].
  destruct (astep dels ac p a) as [[o a1]|] eqn:A; [|discriminate]. destruct (asteps dels ac h a1) as [[l a2]|] eqn:B; [|discriminate]. inversion H; subst.
  destruct (step_sim_q _ _ _ _ _ _ _ _ _ _ _ _ PT (fun D => RM D [] p h [] w eq_refl eq_refl) R A) as (w1 & E1 & R1).
  destruct (IH w1 a1 l a' PT) as (w2 & E2 & R2); auto.
  { intros D h1 q h2 os1 w3 -> E3. eapply (RM D (p :: h1) q h2); [reflexivity|]. cbn [sexecs]. rewrite E1, E3. reflexivity. }
  exists w2. rewrite E1, E2. auto.
Qed.

Lemma create_sim : forall T U (ts : tops T) TR Q ext junk (u : U) m, tab_ok ts TR Q -> m <> 0 ->
  exists w, sched_create ts ext junk u m = Some (STATUS_SUCCESS, w) /\ Rel TR w (ainit u m).
Proof.
  intros T U ts TR Q ext junk u m PT M. unfold sched_create, sched_callback, sched_blank.
  cbn [w_reg g_cbs g_ctxs length]. change (to_size YIELD_MAIN) with 1. change (Z.of_nat 5 <=? 1) with false. cbn iota.
  change (Z.to_nat YIELD_MAIN) with 1%nat. cbn [nth_error].
  change (call ts ext FN_MAIN) with (@main_handler T U). unfold main_handler, on_ctx. rewrite Z.eqb_refl. unfold set_next, set_restore. unset.
  cbn [hget]. rewrite Z.eqb_refl. unfold allocation. unset. change (ok STATUS_SUCCESS) with true. cbn [hset]. rewrite Z.eqb_refl. cbn [negb].
  unfold pick_next, reclaim. unset. change (ok STATUS_SUCCESS) with true. cbn [hget]. rewrite Z.eqb_refl. cbn [f_disc f_event f_param f_state negb orb].
  change (ok STATUS_SUCCESS) with true. cbn [negb orb]. rewrite Z.eqb_refl. cbn [negb orb]. unset. cbn [g_discs g_heap g_cbs g_ctxs].
  unfold discipline_add. unset. cbn [g_discs g_heap g_cbs g_ctxs hadd hget]. rewrite Z.eqb_refl. cbn [new_disc d_owned d_id d_cbs d_ctx existsb].
  unfold allocation. unset. change (ok STATUS_SUCCESS) with true. cbn [negb]. unset. change (ok STATUS_SUCCESS) with true. cbn [negb]. unset.
  cbn [g_discs g_heap g_cbs g_ctxs hset]. rewrite Z.eqb_refl. eexists. split; [reflexivity|].
  constructor; unset; cbn [ainit a_ready a_life a_known a_idle a_main a_mgmt a_cur a_discs a_ids a_total a_al a_user]; auto.
  - constructor.
  - intros f d e p [].
  - split; [constructor; [intros []|constructor]|]. intros [K|[]]. auto.
  - apply (tb_empty _ _ _ PT).
  - constructor; cbn [g_discs g_heap g_cbs g_ctxs]; auto; try reflexivity.
    + split; [constructor; [intros []|constructor]|]. intros [K|[]]. unfold MGMT_DISC in K. cbn in K. lia.
    + do 2 eexists. split; reflexivity.
    + intros d x. unfold hadd. cbn [hset]. rewrite ?Z.eqb_refl. cbn [hget]. destruct (d =? MGMT_DISC). 2:{ intros K. discriminate K. } intros K _. inversion K; subst.
      exists 5%nat. split; [reflexivity|]. intros i fn. cbn [d_cbs d_ctx]. do 5 (destruct i as [|i]; [cbn; intros Q1; inversion Q1; auto|]). intros K1; destruct i; discriminate K1.
Qed.
(** Later allocations may fail in any way. *)
Lemma rel_al : forall T U TR (w : sw T U) a l, Rel TR w a -> Rel TR (set_al l w) (al_set l a).
Proof. intros T U TR w a l R. destruct R. constructor; unset; aunset; auto. Qed.

(** ** What is made ready is resumed once *)
Definition conserved {U} (a : ast U) : Prop := Permutation (a_made a) (a_ran a ++ a_ready a).
Definition queued {U} (a : ast U) : Prop := late (a_made a) = late (a_ran a) ++ late (a_ready a).
Definition Good {U} (a : ast U) : Prop := conserved a /\ queued a.
Definition same_q {U} (a b : ast U) : Prop := a_made b = a_made a /\ a_ran b = a_ran a /\ a_ready b = a_ready a.
Lemma good_same : forall U (a b : ast U), same_q a b -> Good a -> Good b.
Proof. intros U a b (A & B & C) [G1 G2]. unfold Good, conserved, queued in *. rewrite A, B, C. auto. Qed.
Lemma late_app : forall a b, late (a ++ b) = late a ++ late b.
Proof. intros. unfold late. rewrite filter_app, map_app. auto. Qed.
Lemma alloc_same : forall U (a : ast U), same_q a (snd (alloc_spec a)).
Proof. intros. unfold alloc_spec, same_q. destruct (a_al a); auto. Qed.
Lemma push_good : forall U front x (a : ast U) e a', Good a -> push front x a = Some (e, a') -> Good a'.
Proof.
  intros U front x a e a' G P. unfold push in P. destruct (hget _ _); [|discriminate]. destruct (_ || _); [discriminate|].
  pose proof (alloc_same U a) as A. destruct (alloc_spec a) as [ea a1]. cbn [snd] in A. apply (good_same _ _ _ A) in G.
  destruct (ok ea); cbn [negb] in P; inversion P; subst; auto. destruct G as [G1 G2]. unfold Good, conserved, queued in *.
  cbn [a_made a_ran a_ready]. split.
  - rewrite G1. destruct front.
    + rewrite <- app_assoc. apply Permutation_app_head. rewrite <- Permutation_cons_append. auto.
    + rewrite <- app_assoc. auto.
  - rewrite late_app, G2. destruct front; cbn [late filter negb fst map snd].
    + rewrite app_nil_r. reflexivity.
    + rewrite late_app, app_assoc. reflexivity.
Qed.
Lemma pushes_good : forall U l (a : ast U) e a', Good a -> pushes l a = Some (e, a') -> Good a'.
Proof.
  induction l as [|[front x] l IH]; intros a e a' G P; cbn [pushes] in P; [inversion P; subst; auto|].
  destruct (push front x a) as [[e1 a1]|] eqn:E; [|discriminate]. apply push_good in E; auto. destruct (ok e1); cbn [negb] in P; [eauto|]. inversion P; subst; auto.
Qed.
Lemma tell_good : forall U ev f (a : ast U) e a', Good a -> tell ev f a = Some (e, a') -> Good a'.
Proof.
  intros U ev f a e a' G P. unfold tell in P. destruct (_ =? 0); [inversion P; subst; auto|].
  destruct (push _ _ a) as [[e1 a1]|] eqn:E; [|discriminate]. apply push_good in E; auto. destruct (ok e1); inversion P; subst; auto.
Qed.
Lemma join_good : forall U dels f (a : ast U) e a', Good a -> join dels f a = Some (e, a') -> Good a'.
Proof.
  intros U dels f a e a' G P. unfold join in P. destruct (zmem _ _); [discriminate|]. destruct (hget _ _); [|discriminate].
  pose proof (alloc_same U a) as A. destruct (alloc_spec a) as [ea a1]. cbn [snd] in A. apply (good_same _ _ _ A) in G.
  destruct (ok ea); cbn [negb] in P; [|inversion P; subst; auto].
  destruct (push false _ _) as [[e2 a2]|] eqn:E2; [|discriminate]. apply push_good in E2; [|exact G].
  destruct (ok e2); cbn [negb] in P; [|destruct dels; [|discriminate]; inversion P; subst; exact E2].
  destruct (push true _ _) as [[e3 a3]|] eqn:E3; [|discriminate]. apply push_good in E3; auto.
  destruct (ok e3); cbn [negb] in P; [|inversion P; subst; auto]. eapply tell_good; eauto.
Qed.
Lemma go_keeps : forall U x ready ran (a : ast U) o a', go x ready ran a = Some (o, a') ->
  a_made a' = a_made a /\ a_ran a' = ran /\ a_ready a' = ready /\ o = (STATUS_SUCCESS, (fst x, fst (fst (snd x)), snd (fst (snd x)), snd (snd x))).
Proof. intros U [f [[d e] p]] ready ran a o a' H. unfold go in H. destruct (hget _ _); [|discriminate]. destruct (_ =? STOPPED); inversion H; subst; auto. Qed.
Lemma resume_good : forall U e (a : ast U) o a', Good a -> resume (Some (e, a)) = Some (o, a') -> Good a'.
Proof.
  intros U e a o a' G H. cbn [resume] in H. destruct (ok e); cbn [negb] in H; [|inversion H; subst; auto].
  destruct G as [G1 G2]. unfold Good, conserved, queued in *. destruct (a_ready a) as [|x t] eqn:E.
  - destruct (_ =? 0); [inversion H; subst; rewrite E; auto|]. apply go_keeps in H as (A & B & C & _). rewrite A, B, C. auto.
  - apply go_keeps in H as (A & B & C & _). rewrite A, B, C. split; [rewrite <- app_assoc; auto|].
    rewrite G2, late_app, <- app_assoc. f_equal. change (x :: t) with ([x] ++ t). rewrite late_app. reflexivity.
Qed.
Lemma happly_good : forall U (c : hprog U) (a : ast U) e a', Good a -> happly c a = Some (e, a') -> Good a'.
Proof.
  intros U. induction c as [e|front x k IH|k IH|k IH|k IH|u k IH|]; intros a st a' G P; cbn [happly] in P; try discriminate; eauto.
  - inversion P; subst. auto.
  - destruct (push front x a) as [[e1 a1]|] eqn:E; [|discriminate]. apply push_good in E; eauto.
  - pose proof (alloc_same U a) as A. destruct (alloc_spec a) as [ea a1]. cbn [snd] in A. apply (good_same _ _ _ A) in G. eauto.
  - eapply IH; [|eauto]. exact G.
Qed.
Lemma step_good : forall U dels ac p (a : ast U) o a', Good a -> astep dels ac p a = Some (o, a') -> Good a'.
Proof.
  intros U dels ac p a o a' G H.
  assert (RS : forall X, (forall e a1, X = Some (e, a1) -> Good a1) -> resume X = Some (o, a') -> Good a').
  { intros [[e a1]|] K1 K2; [|discriminate]. eapply resume_good; [apply (K1 e a1 eq_refl)|exact K2]. }
  destruct p; cbn [astep] in H.
  - destruct (_ || _); inversion H; subst; exact G.
  - apply RS in H; auto. intros e a1. apply join_good; auto.
  - apply RS in H; auto. intros e a1. destruct (_ =? _); [intros K; inversion K; subst; auto|apply push_good; auto].
  - destruct (hget _ _); [|discriminate]. destruct (resume _) as [[o1 a1]|] eqn:R1; [|discriminate]. destruct (ok (fst o1)); inversion H; subst.
    apply RS in R1; auto. intros e a2. apply tell_good. exact G.
  - apply RS in H; auto. intros e a1. apply push_good. exact G.
  - apply RS in H; auto. intros e a1. apply push_good. exact G.
  - apply RS in H; auto. intros e a1 K. inversion K; subst. exact G.
  - destruct (hget _ _); [|discriminate]. apply RS in H; auto. intros e a1. destruct (_ =? RUNNING); [apply pushes_good; auto|apply push_good; auto].
  - destruct (forallb _ _); [|discriminate]. apply RS in H; auto. intros e a1. apply pushes_good. exact G.
  - destruct dels; inversion H; subst; exact G.
  - destruct (_ || _); inversion H; subst; exact G.
  - inversion H; subst; exact G.
  - destruct (_ || _); inversion H; subst; exact G.
  - destruct (hget _ _) as [x|]; [|discriminate]. destruct (dd_owned x); [inversion H; subst; auto|]. destruct (existsb _ _); [inversion H; subst; auto|].
    pose proof (alloc_same U a) as A1. destruct (alloc_spec a) as [e1 a1]. cbn [snd] in A1. apply (good_same _ _ _ A1) in G.
    destruct (ok e1); cbn [negb] in H; [|inversion H; subst; auto].
    match type of H with context [alloc_spec ?b] => pose proof (alloc_same U b) as A2; assert (G2 : Good b) by exact G; destruct (alloc_spec b) as [e2 a2] end.
    cbn [snd] in A2. apply (good_same _ _ _ A2) in G2. destruct (ok e2); cbn [negb] in H; [|inversion H; subst; auto].
    pose proof (alloc_same U a2) as A3. destruct (alloc_spec a2) as [e3 a3]. cbn [snd] in A3. apply (good_same _ _ _ A3) in G2.
    destruct (ok e3); cbn [negb] in H; [|inversion H; subst; auto]. destruct (_ <? _); inversion H; subst. exact G2.
  - destruct (find _ _); inversion H; subst; auto.
  - destruct (hget _ _) as [x|]; [|discriminate]. destruct (_ || _ || _ || _); [discriminate|]. destruct (_ || _); [inversion H; subst; auto|].
    destruct (nth_error _ _) as [fn|]; [|discriminate]. destruct (negb (user_fn fn)); [discriminate|].
    apply RS in H; auto. intros e a1. apply happly_good. exact G.
  - destruct (happly _ _) as [[e a1]|] eqn:J; [|discriminate]. inversion H; subst. eapply happly_good; eauto.
Qed.
Lemma steps_good : forall U dels ac h (a : ast U) os a', Good a -> asteps dels ac h a = Some (os, a') -> Good a'.
Proof.
  induction h as [|p h IH]; intros a os a' G H; cbn [asteps] in H; [inversion H; subst; auto|].
  destruct (astep _ _ _ _) as [[o a1]|] eqn:A; [|discriminate]. destruct (asteps _ _ _ a1) as [[l a2]|] eqn:B; [|discriminate]. inversion H; subst.
  eapply IH; [eapply step_good; eauto|eauto].
Qed.
Lemma good_init : forall U (u : U) m l, Good (al_set l (ainit u m)).
Proof. intros. split; [constructor|reflexivity]. Qed.

(** ** What is resumed *)
Lemma ra_app : forall l s l' s', runs_as l s -> runs_as l' s' -> runs_as (l ++ l') (s ++ s').
Proof. intros l s l' s' H K. induction H; cbn [app]; auto; constructor; auto. Qed.
Definition ran_by {U} (a : ast U) (o : out) (a' : ast U) : Prop :=
  exists l, a_ran a' = a_ran a ++ l /\ runs_as (map snd l) (if ok (fst o) then let '(f, d, e, p) := snd o in [(f, (d, e, p))] else []).
Lemma resume_ran : forall U e (a : ast U) o a', resume (Some (e, a)) = Some (o, a') -> ran_by a o a'.
Proof.
  intros U e a o a' H. cbn [resume] in H. destruct (ok e) eqn:O; cbn [negb] in H.
  2:{ inversion H; subst. exists []. cbn [fst]. rewrite O, app_nil_r. split; [auto|constructor]. }
  destruct (a_ready a) as [|[b [f [[d ev] p]]] t] eqn:E.
  - destruct (_ =? 0).
    + inversion H; subst. exists []. rewrite app_nil_r. split; [auto|constructor].
    + apply go_keeps in H as (_ & B & _ & ->). exists []. rewrite app_nil_r. split; [auto|]. cbn. apply ra_idle, ra_nil.
  - apply go_keeps in H as (_ & B & _ & ->). exists [(b, (f, (d, ev, p)))]. split; [auto|]. cbn. apply ra_ready, ra_nil.
Qed.
Lemma alloc_ran : forall U (a : ast U), a_ran (snd (alloc_spec a)) = a_ran a.
Proof. intros. apply alloc_same. Qed.
Lemma push_ran : forall U front x (a : ast U) e a', push front x a = Some (e, a') -> a_ran a' = a_ran a.
Proof.
  intros U front x a e a' P. unfold push in P. destruct (hget _ _); [|discriminate]. destruct (_ || _); [discriminate|].
  pose proof (alloc_ran U a) as A. destruct (alloc_spec a) as [ea a1]. cbn [snd] in A. destruct (ok ea); cbn [negb] in P; inversion P; subst; auto.
Qed.
Lemma pushes_ran : forall U l (a : ast U) e a', pushes l a = Some (e, a') -> a_ran a' = a_ran a.
Proof.
  induction l as [|[front x] l IH]; intros a e a' P; cbn [pushes] in P; [inversion P; subst; auto|].
  destruct (push front x a) as [[e1 a1]|] eqn:E; [|discriminate]. apply push_ran in E. destruct (ok e1); cbn [negb] in P; [|inversion P; subst; auto].
  apply IH in P. congruence.
Qed.
Lemma tell_ran : forall U ev f (a : ast U) e a', tell ev f a = Some (e, a') -> a_ran a' = a_ran a.
Proof.
  intros U ev f a e a' P. unfold tell in P. destruct (_ =? 0); [inversion P; subst; auto|].
  destruct (push _ _ a) as [[e1 a1]|] eqn:E; [|discriminate]. apply push_ran in E. destruct (ok e1); inversion P; subst; auto.
Qed.
Lemma join_ran : forall U dels f (a : ast U) e a', join dels f a = Some (e, a') -> a_ran a' = a_ran a.
Proof.
  intros U dels f a e a' P. unfold join in P. destruct (zmem _ _); [discriminate|]. destruct (hget _ _); [|discriminate].
  pose proof (alloc_ran U a) as A. destruct (alloc_spec a) as [ea a1]. cbn [snd] in A.
  destruct (ok ea); cbn [negb] in P; [|inversion P; subst; auto].
  destruct (push false _ _) as [[e2 a2]|] eqn:E2; [|discriminate]. apply push_ran in E2. aunset.
  destruct (ok e2); cbn [negb] in P; [|destruct dels; [|discriminate]; inversion P; subst; aunset; congruence].
  destruct (push true _ _) as [[e3 a3]|] eqn:E3; [|discriminate]. apply push_ran in E3.
  destruct (ok e3); cbn [negb] in P; [|inversion P; subst; congruence]. apply tell_ran in P. congruence.
Qed.
Lemma happly_ran : forall U (c : hprog U) (a : ast U) e a', happly c a = Some (e, a') -> a_ran a' = a_ran a.
Proof.
  intros U. induction c as [e|front x k IH|k IH|k IH|k IH|u k IH|]; intros a st a' P; cbn [happly] in P; try discriminate; eauto.
  - inversion P; subst. auto.
  - destruct (push front x a) as [[e1 a1]|] eqn:E; [|discriminate]. apply push_ran in E. apply IH in P. congruence.
  - pose proof (alloc_ran U a) as A. destruct (alloc_spec a) as [ea a1]. cbn [snd] in A. apply IH in P. congruence.
  - apply IH in P. exact P.
Qed.
Lemma step_ran : forall U dels ac p (a : ast U) o a', astep dels ac p a = Some (o, a') ->
  if moves p then ran_by a o a' else a_ran a' = a_ran a.
Proof.
  intros U dels ac p a o a' H.
  assert (RS : forall b X, (forall e a1, X = Some (e, a1) -> a_ran a1 = a_ran a) -> resume X = Some (o, b) -> ran_by a o b).
  { intros b [[e a1]|] K1 K2; [|discriminate]. apply resume_ran in K2. destruct K2 as (l & A & B). exists l. rewrite A, (K1 e a1 eq_refl). auto. }
  destruct p; cbn [astep moves] in *.
  - destruct (_ || _); inversion H; subst; auto.
  - apply RS in H; auto. intros e a1. apply join_ran.
  - apply RS in H; auto. intros e a1. destruct (_ =? _); [intros K; inversion K; subst; auto|apply push_ran].
  - destruct (hget _ _); [|discriminate]. destruct (resume _) as [[o1 a1]|] eqn:R1; [|discriminate]. destruct (ok (fst o1)); inversion H; subst.
    apply RS in R1; auto. intros e a2 K. apply tell_ran in K. auto.
  - apply RS in H; auto. intros e a1 K. apply push_ran in K. auto.
  - apply RS in H; auto. intros e a1 K. apply push_ran in K. auto.
  - apply RS in H; auto. intros e a1 K. inversion K; subst. auto.
  - destruct (hget _ _); [|discriminate]. apply RS in H; auto. intros e a1. destruct (_ =? RUNNING); [apply pushes_ran|apply push_ran].
  - destruct (forallb _ _); [|discriminate]. apply RS in H; auto. intros e a1. apply pushes_ran.
  - destruct dels; inversion H; subst; auto.
  - destruct (_ || _); inversion H; subst; auto.
  - inversion H; subst; auto.
  - destruct (_ || _); inversion H; subst; auto.
  - destruct (hget _ _) as [x|]; [|discriminate]. destruct (dd_owned x); [inversion H; subst; auto|]. destruct (existsb _ _); [inversion H; subst; auto|].
    pose proof (alloc_ran U a) as A1. destruct (alloc_spec a) as [e1 a1]. cbn [snd] in A1.
    destruct (ok e1); cbn [negb] in H; [|inversion H; subst; auto].
    match type of H with context [alloc_spec ?b] => pose proof (alloc_ran U b) as A2; destruct (alloc_spec b) as [e2 a2] end.
    cbn [snd] in A2. aunset. destruct (ok e2); cbn [negb] in H; [|inversion H; subst; congruence].
    pose proof (alloc_ran U a2) as A3. destruct (alloc_spec a2) as [e3 a3]. cbn [snd] in A3.
    destruct (ok e3); cbn [negb] in H; [|inversion H; subst; congruence]. destruct (_ <? _); inversion H; subst. aunset. congruence.
  - destruct (find _ _); inversion H; subst; auto.
  - destruct (hget _ _) as [x|]; [|discriminate]. destruct (_ || _ || _ || _); [discriminate|].
    destruct (_ || _); [inversion H; subst; exists []; rewrite app_nil_r; split; [auto|constructor]|].
    destruct (nth_error _ _) as [fn|]; [|discriminate]. destruct (negb (user_fn fn)); [discriminate|].
    apply RS in H; auto. intros e a1 K. apply happly_ran in K. auto.
  - destruct (happly _ _) as [[e a1]|] eqn:J; [|discriminate]. inversion H; subst. eapply happly_ran; eauto.
Qed.
Lemma steps_ran : forall U dels ac h (a : ast U) os a', asteps dels ac h a = Some (os, a') ->
  exists l, a_ran a' = a_ran a ++ l /\ runs_as (map snd l) (switches h os).
Proof.
  induction h as [|p h IH]; intros a os a' H; cbn [asteps] in H; [inversion H; subst; exists []; rewrite app_nil_r; split; [auto|constructor]|].
  destruct (astep _ _ _ _) as [[o a1]|] eqn:A; [|discriminate]. destruct (asteps _ _ _ a1) as [[l a2]|] eqn:B; [|discriminate]. inversion H; subst; clear H.
  destruct (IH _ _ _ B) as (l2 & R2 & S2). apply step_ran in A. destruct o as [e [[[f d] ev] x]]. cbn [switches].
  destruct (moves p); cbn [andb].
  - destruct A as (l1 & R1 & S1). exists (l1 ++ l2). rewrite R2, R1, app_assoc. split; [auto|]. rewrite map_app. cbn [fst snd] in S1.
    destruct (ok e); [change ((f, (d, ev, x)) :: switches h l) with ([(f, (d, ev, x))] ++ switches h l)|change (switches h l) with ([] ++ switches h l)]; apply ra_app; auto.
  - exists l2. rewrite R2, A. auto.
Qed.

Lemma reached_rel : forall T U (ts : tops T) TR Q dels ac (w : sw T U) a, tab_ok ts TR Q -> reached ts Q dels ac w a -> Rel TR w a.
Proof.
  intros T U ts TR Q dels ac w a PT (junk & u & m & al & h & os & w0 & M & C & E & A & RM).
  destruct (create_sim _ _ _ _ _ (ext_of ac) junk u m PT M) as (w1 & C1 & R1). rewrite C in C1. inversion C1; subst.
  destruct (steps_sim_q _ _ _ _ _ _ _ _ _ _ _ _ PT (fun D => RM D w1 C) (rel_al _ _ _ _ _ al R1) A) as (w2 & E2 & R2). rewrite E in E2. inversion E2; subst. auto.
Qed.

(** ** Yields of disciplines *)
Lemma dyield_all : forall T U TR (w : sw T U) a d x ev p fn, Rel TR w a -> hget (a_discs a) d = Some x -> dd_owned x = true ->
  0 <= ev -> nth_error (dd_cbs x) (Z.to_nat ev) = Some fn ->
  exists c, 0 <= c /\ (forall cl, discipline_yield cl d ev p w = yield cl c p w) /\
    nth_error (g_cbs (w_reg w)) (Z.to_nat c) = Some fn /\ nth_error (g_ctxs (w_reg w)) (Z.to_nat c) = Some (dd_ctx x).
Proof.
  intros T U TR w a d x ev p fn R X Ow P0 N. pose proof (r_reg _ _ _ R) as G. pose proof (rel_reg _ _ _ _ _ R) as S0.
  rewrite (g_dd _ _ _ _ G), hmap_get in X. destruct (hget (g_heap (w_reg w)) d) as [y|] eqn:Y; [|discriminate].
  cbn [option_map] in X. inversion X; subst; clear X. cbn [dd_owned dd_cbs dd_ctx drop_codes] in *.
  destruct (g_placed _ _ _ _ G _ _ Y Ow) as (off & Co & Pl). destruct (Pl _ _ N) as (N1 & N2).
  assert (L1 : (off + Z.to_nat ev < length (g_cbs (w_reg w)))%nat) by (apply nth_error_Some; congruence).
  assert (L2 : (Z.to_nat ev < length (d_cbs y))%nat) by (apply nth_error_Some; congruence).
  exists (Z.of_nat (off + Z.to_nat ev)). split; [lia|]. rewrite Nat2Z.id. split; [|auto]. intros cl.
  unfold discipline_yield. rewrite Y, Ow, Co.
  assert (E : nth_error (map (fun i => Z.of_nat (off + i)) (seq 0 (length (d_cbs y)))) (Z.to_nat ev) = Some (Z.of_nat (off + Z.to_nat ev))).
  { rewrite nth_error_map. rewrite (nth_error_nth' (seq 0 (length (d_cbs y))) 0%nat) by (rewrite seq_length; auto).
    rewrite seq_nth by auto. auto. }
  rewrite E. assert (B1 : (length (d_cbs y) <= length (g_cbs (w_reg w)))%nat) by (apply placed_len; exists off; auto).
  unfold to_size, to_int, wrap64. rewrite Z.mod_small by lia.
  replace (Z.of_nat (length (d_cbs y)) <? ev) with false by (symmetry; apply Z.ltb_ge; lia).
  replace (Z.of_nat (off + Z.to_nat ev) <? 2^31) with true by (symmetry; apply Z.ltb_lt; lia). auto.
Qed.
Lemma dyield_bad : forall T U TR (w : sw T U) a d x ev p cl, Rel TR w a -> hget (a_discs a) d = Some x -> dd_owned x = true ->
  - 2^31 <= ev < 2^31 -> ev < 0 \/ Z.of_nat (length (dd_cbs x)) < ev ->
  discipline_yield cl d ev p w = Some (ERROR_FIBER_SCHEDULER_BAD_YIELD_EVENT, w).
Proof.
  intros T U TR w a d x ev p cl R X Ow B K. pose proof (r_reg _ _ _ R) as G. pose proof (rel_reg _ _ _ _ _ R) as S0.
  rewrite (g_dd _ _ _ _ G), hmap_get in X. destruct (hget (g_heap (w_reg w)) d) as [y|] eqn:Y; [|discriminate].
  cbn [option_map] in X. inversion X; subst; clear X. cbn [dd_owned dd_cbs dd_ctx drop_codes] in *.
  unfold discipline_yield. rewrite Y. replace (Z.of_nat (length (d_cbs y)) <? to_size ev) with true; [auto|].
  symmetry. apply Z.ltb_lt. unfold to_size, wrap64. destruct (Z.lt_ge_cases ev 0) as [N|N].
  - rewrite <- (Z.mod_unique ev (2^64) (-1) (ev + 2^64)) by lia. pose proof (placed_len _ _ (g_placed _ _ _ _ G _ _ Y Ow)). lia.
  - rewrite Z.mod_small by lia. lia.
Qed.
Lemma dyield_edge : forall T U TR (w : sw T U) a d x p cl, Rel TR w a -> hget (a_discs a) d = Some x -> dd_owned x = true ->
  discipline_yield cl d (Z.of_nat (length (dd_cbs x))) p w = None.
Proof.
  intros T U TR w a d x p cl R X Ow. pose proof (r_reg _ _ _ R) as G. pose proof (rel_reg _ _ _ _ _ R) as S0.
  rewrite (g_dd _ _ _ _ G), hmap_get in X. destruct (hget (g_heap (w_reg w)) d) as [y|] eqn:Y; [|discriminate].
  cbn [option_map] in X. inversion X; subst; clear X. cbn [dd_owned dd_cbs dd_ctx drop_codes] in *.
  destruct (g_placed _ _ _ _ G _ _ Y Ow) as (off & Co & Pl). pose proof (placed_len _ _ (g_placed _ _ _ _ G _ _ Y Ow)) as L.
  unfold discipline_yield. rewrite Y, Co, Nat2Z.id. unfold to_size, wrap64. rewrite Z.mod_small by lia. rewrite Z.ltb_irrefl.
  replace (nth_error _ (length (d_cbs y))) with (@None Z); [auto|]. symmetry. apply nth_error_None. rewrite map_length, seq_length. lia.
Qed.

(** ** Calls whose effect is known in advance *)
Definition queue_set {U} (r m : list (bool * entry)) (a : ast U) : ast U :=
  AS r (a_life a) (a_known a) (a_idle a) (a_main a) (a_mgmt a) (a_cur a) (a_discs a) (a_ids a) (a_total a) (a_al a) (a_user a) m (a_ran a).
Lemma push_ok : forall U front x (a : ast U), a_al a = [] -> can_run a (fst x) ->
  push front x a = Some (STATUS_SUCCESS, queue_set (if front then (front, x) :: a_ready a else a_ready a ++ [(front, x)]) (a_made a ++ [(front, x)]) a).
Proof.
  intros U front x a A (s & L & N & Q). unfold push. apply Z.eqb_neq in N. rewrite L, N, Q. cbn [orb]. unfold alloc_spec. rewrite A.
  change (ok STATUS_SUCCESS) with true. cbn [negb]. reflexivity.
Qed.
Lemma ready_snoc : forall U f x (a : ast U) m, fst (snd x) <> f -> is_ready f (queue_set (a_ready a ++ [x]) m a) = is_ready f a.
Proof.
  intros U f x a m N. unfold is_ready. cbn [queue_set a_ready]. rewrite existsb_app. cbn [existsb]. apply Z.eqb_neq in N. rewrite N. rewrite !orb_false_r. reflexivity.
Qed.
Lemma pushes_back : forall U v tl l (a : ast U), a_al a = [] -> NoDup l -> (forall f, In f l -> can_run a f) ->
  pushes (map (fun f => (false, (f, v))) l ++ tl) a =
  pushes tl (queue_set (a_ready a ++ map (fun f => (false, (f, v))) l) (a_made a ++ map (fun f => (false, (f, v))) l) a).
Proof.
  induction l as [|f l IH]; intros a A ND C; cbn [map app].
  - rewrite !app_nil_r. destruct a. reflexivity.
  - cbn [pushes]. rewrite push_ok by (auto; apply C; left; auto). change (ok STATUS_SUCCESS) with true. cbn [negb]. inversion ND; subst.
    rewrite IH; auto.
    + cbn [queue_set a_ready a_made]. rewrite <- !app_assoc. reflexivity.
    + intros g G. destruct (C g (or_intror G)) as (s & L & N & Q). exists s. do 2 (split; [auto|]). rewrite ready_snoc; auto. cbn [snd fst]. intros ->. auto.
Qed.
Lemma go_ok : forall U f d e p ready ran (a : ast U) s, hget (a_life a) f = Some s -> s <> STOPPED -> exists a',
  go (f, (d, e, p)) ready ran a = Some ((STATUS_SUCCESS, (f, d, e, p)), a') /\ a_ready a' = ready /\ a_ran a' = ran /\ a_made a' = a_made a.
Proof. intros U f d e p ready ran a s L N. apply Z.eqb_neq in N. unfold go. rewrite L, N. eexists. split; [reflexivity|]. auto. Qed.

Lemma rel_pending : forall T U TR (w : sw T U) a f v, Rel TR w a -> In (f, v) (map snd (a_ready a)) -> pending w f = Some v.
Proof.
  intros T U TR w a f [[d e] p] R I. destruct (r_ent _ _ _ R _ _ _ _ I) as (b & B & X1 & X2 & X3). unfold pending. rewrite B. congruence.
Qed.

(** The fibers of the scheduler are told apart. *)
Lemma zput_nodup : forall k l, NoDup l -> ~ In k l -> NoDup (zput k l).
Proof.
  induction l as [|j l IH]; intros ND NI; cbn [zput]; [constructor; auto|]. destruct (k <? j); [constructor; auto|].
  inversion ND; subst. constructor; [|apply IH; auto; intros K; apply NI; right; auto].
  rewrite zput_in. intros [K|K]; [subst; apply NI; left; auto|auto].
Qed.
Lemma zdel_nodup : forall k l, NoDup l -> NoDup (zdel k l).
Proof.
  induction l as [|j l IH]; intros ND; cbn [zdel]; auto. inversion ND; subst. destruct (k =? j); [auto|]. constructor; auto. intros K. apply zdel_incl in K. auto.
Qed.
Lemma push_known : forall U front x (a : ast U) e a', push front x a = Some (e, a') -> a_known a' = a_known a.
Proof. intros. apply push_keeps in H. tauto. Qed.
Lemma pushes_known : forall U l (a : ast U) e a', pushes l a = Some (e, a') -> a_known a' = a_known a.
Proof.
  induction l as [|[front x] l IH]; intros a e a' P; cbn [pushes] in P; [inversion P; subst; auto|].
  destruct (push front x a) as [[e1 a1]|] eqn:E; [|discriminate]. apply push_known in E. destruct (ok e1); cbn [negb] in P; [|inversion P; subst; auto].
  apply IH in P. congruence.
Qed.
Lemma tell_known : forall U ev f (a : ast U) e a', tell ev f a = Some (e, a') -> a_known a' = a_known a.
Proof.
  intros U ev f a e a' P. unfold tell in P. destruct (_ =? 0); [inversion P; subst; auto|].
  destruct (push _ _ a) as [[e1 a1]|] eqn:E; [|discriminate]. apply push_known in E. destruct (ok e1); inversion P; subst; auto.
Qed.
Lemma resume_known : forall U e (a : ast U) o a', resume (Some (e, a)) = Some (o, a') -> a_known a' = a_known a.
Proof.
  intros U e a o a' H. cbn [resume] in H. destruct (ok e); cbn [negb] in H; [|inversion H; subst; auto].
  assert (G : forall x r n, go x r n a = Some (o, a') -> a_known a' = a_known a).
  { intros [f [[d ev] p]] r n K. unfold go in K. destruct (hget _ _); [|discriminate]. destruct (_ =? STOPPED); inversion K; subst. reflexivity. }
  destruct (a_ready a); [destruct (_ =? 0); [inversion H; subst; auto|]|]; eapply G; eauto.
Qed.
Lemma alloc_known : forall U (a : ast U), a_known (snd (alloc_spec a)) = a_known a.
Proof. intros. apply alloc_cur. Qed.
Lemma happly_known : forall U (c : hprog U) (a : ast U) e a', happly c a = Some (e, a') -> a_known a' = a_known a.
Proof.
  intros U. induction c as [e|front x k IH|k IH|k IH|k IH|u k IH|]; intros a st a' P; cbn [happly] in P; try discriminate; eauto.
  - inversion P; subst. auto.
  - destruct (push front x a) as [[e1 a1]|] eqn:E; [|discriminate]. apply push_known in E. apply IH in P. congruence.
  - pose proof (alloc_known U a) as A. destruct (alloc_spec a) as [ea a1]. cbn [snd] in A. apply IH in P. congruence.
  - apply IH in P. exact P.
Qed.
Lemma step_known : forall U dels ac p (a : ast U) o a', NoDup (a_known a) -> astep dels ac p a = Some (o, a') -> NoDup (a_known a').
Proof.
  intros U dels ac p a o a' ND H.
  assert (RS : forall (b : ast U) X, (forall e a1, X = Some (e, a1) -> NoDup (a_known a1)) -> resume X = Some (o, b) -> NoDup (a_known b)).
  { intros b [[e a1]|] K1 K2; [|discriminate]. apply resume_known in K2. rewrite K2. eauto. }
  destruct p; cbn [astep moves] in *.
  - destruct (_ || _); inversion H; subst; auto.
  - apply RS in H; auto. intros e a1 J. unfold join in J. destruct (zmem f (a_known a)) eqn:Zm; [discriminate|]. apply zmem_not in Zm. destruct (hget _ _); [|discriminate].
    pose proof (alloc_known U a) as A. destruct (alloc_spec a) as [ea a2]. cbn [snd] in A.
    destruct (ok ea); cbn [negb] in J; [|inversion J; subst; rewrite A; auto].
    destruct (push false _ _) as [[e2 a3]|] eqn:E2; [|discriminate]. apply push_known in E2. aunset.
    assert (N3 : NoDup (a_known a3)) by (rewrite E2, A; apply zput_nodup; auto).
    destruct (ok e2); cbn [negb] in J; [|destruct dels; [|discriminate]; inversion J; subst; aunset; apply zdel_nodup; auto].
    destruct (push true _ _) as [[e3 a4]|] eqn:E3; [|discriminate]. apply push_known in E3.
    destruct (ok e3); cbn [negb] in J; [|inversion J; subst; rewrite E3; auto]. apply tell_known in J. rewrite J, E3. auto.
  - apply RS in H; auto. intros e a1. destruct (_ =? _); [intros K; inversion K; subst; auto|intros K; apply push_known in K; rewrite K; auto].
  - destruct (hget _ _); [|discriminate]. destruct (resume _) as [[o1 a1]|] eqn:R1; [|discriminate]. destruct (ok (fst o1)); inversion H; subst.
    apply RS in R1; auto. intros e a2 K. apply tell_known in K. rewrite K. auto.
  - apply RS in H; auto. intros e a1 K. apply push_known in K. rewrite K. auto.
  - apply RS in H; auto. intros e a1 K. apply push_known in K. rewrite K. auto.
  - apply RS in H; auto. intros e a1 K. inversion K; subst. auto.
  - destruct (hget _ _); [|discriminate]. apply RS in H; auto. intros e a1. destruct (_ =? RUNNING); intros K; [apply pushes_known in K|apply push_known in K]; rewrite K; auto.
  - destruct (forallb _ _); [|discriminate]. apply RS in H; auto. intros e a1 K. apply pushes_known in K. rewrite K. auto.
  - destruct dels; inversion H; subst; auto. aunset. apply zdel_nodup. auto.
  - destruct (_ || _); inversion H; subst; auto.
  - inversion H; subst; auto.
  - destruct (_ || _); inversion H; subst; auto.
  - destruct (hget _ _) as [x|]; [|discriminate]. destruct (dd_owned x); [inversion H; subst; auto|]. destruct (existsb _ _); [inversion H; subst; auto|].
    pose proof (alloc_known U a) as A1. destruct (alloc_spec a) as [e1 a1]. cbn [snd] in A1.
    destruct (ok e1); cbn [negb] in H; [|inversion H; subst; rewrite A1; auto].
    match type of H with context [alloc_spec ?b] => pose proof (alloc_known U b) as A2; destruct (alloc_spec b) as [e2 a2] end.
    cbn [snd] in A2. aunset. destruct (ok e2); cbn [negb] in H; [|inversion H; subst; rewrite A2, A1; auto].
    pose proof (alloc_known U a2) as A3. destruct (alloc_spec a2) as [e3 a3]. cbn [snd] in A3.
    destruct (ok e3); cbn [negb] in H; [|inversion H; subst; rewrite A3, A2, A1; auto]. destruct (_ <? _); inversion H; subst. aunset. rewrite A3, A2, A1. auto.
  - destruct (find _ _); inversion H; subst; auto.
  - destruct (hget _ _) as [x|]; [|discriminate]. destruct (_ || _ || _ || _); [discriminate|].
    destruct (_ || _); [inversion H; subst; auto|].
    destruct (nth_error _ _) as [fn|]; [|discriminate]. destruct (negb (user_fn fn)); [discriminate|].
    apply RS in H; auto. intros e a1 K. apply happly_known in K. rewrite K. auto.
  - destruct (happly _ _) as [[e a1]|] eqn:J; [|discriminate]. inversion H; subst. apply happly_known in J. rewrite J. auto.
Qed.
Lemma reached_known : forall T U (ts : tops T) Q dels ac (w : sw T U) a, reached ts Q dels ac w a -> NoDup (a_known a).
Proof.
  intros T U ts Q dels ac w a (junk & u & m & al & h & os & w0 & _ & _ & _ & A & _). clear w w0.
  assert (K : forall h (a0 : ast U) os a1, NoDup (a_known a0) -> asteps dels ac h a0 = Some (os, a1) -> NoDup (a_known a1)).
  { clear. induction h as [|p h IH]; intros a0 os a1 ND H; cbn [asteps] in H; [inversion H; subst; auto|].
    destruct (astep _ _ _ _) as [[o a2]|] eqn:A; [|discriminate]. destruct (asteps _ _ _ a2) as [[l a3]|] eqn:B; [|discriminate]. inversion H; subst.
    eapply IH; [eapply step_known; eauto|eauto]. }
  eapply K; [|exact A]. constructor.
Qed.

(** To show that the removals of a given history are covered. *)
Fixpoint removalsb {T U} (ts : tops T) (ac : acts U) (qb : T -> Z -> bool) (h : list sop) (w : sw T U) : bool :=
  match h with
  | [] => true
  | p :: t => (match p with SRemove f => qb (w_tab w) f | SAdd _ => match w_al w with [] => true | _ => false end | _ => true end) &&
      match sexec ts ac p w with Some (_, w') => removalsb ts ac qb t w' | None => true end
  end.
Lemma removalsb_ok : forall T U (ts : tops T) (ac : acts U) (Q : T -> Z -> Prop) qb h w, (forall t f, qb t f = true -> Q t f) -> removalsb ts ac qb h w = true -> removals ts ac Q h w.
Proof.
  intros T U ts ac Q qb h w QB. revert w. induction h as [|p h IH]; intros w B h1 q h2 os w1 E X.
  - destruct h1; discriminate.
  - cbn [removalsb] in B. apply andb_true_iff in B as [B1 B2]. destruct h1 as [|p1 h1].
    + cbn [app] in E. inversion E; subst q h2. cbn [sexecs] in X. inversion X; subst w1. destruct p; cbn [removal]; auto.
      left. destruct (w_al w); [auto|discriminate].
    + cbn [app] in E. inversion E as [[E1 E2]]. subst p1. cbn [sexecs] in X. destruct (sexec ts ac p w) as [[o w2]|]; [|discriminate].
      destruct (sexecs ts ac h1 w2) as [[l w3]|] eqn:X1; [|discriminate]. inversion X; subst. eapply (IH _ B2); eauto.
Qed.
