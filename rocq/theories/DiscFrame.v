(** What calls leave alone that are no business of a discipline. *)
From Verif Require Import Base Status MemModel MemProofs Heap TabModel SchedModel SchedSpec SchedProofs SchedHist.

Definition frame {U} (a a' : ast U) : Prop :=
  a_cur a' = a_cur a /\ a_discs a' = a_discs a /\ a_user a' = a_user a /\ (a_al a = [] -> a_al a' = []).
Lemma frame_refl : forall U (a : ast U), frame a a.
Proof. repeat split; auto. Qed.
Lemma frame_trans : forall U (a b c : ast U), frame a b -> frame b c -> frame a c.
Proof. intros U a b c (A & B & C & D) (E & F & G & H). repeat split; try congruence. auto. Qed.
Lemma alloc_frame : forall U (a : ast U), frame a (snd (alloc_spec a)).
Proof. intros. unfold alloc_spec. destruct (a_al a) eqn:E; cbn; [apply frame_refl|]. repeat split; auto. intros K. congruence. Qed.
Lemma alloc_nil : forall U (a : ast U), a_al a = [] -> alloc_spec a = (STATUS_SUCCESS, a).
Proof. intros. unfold alloc_spec. rewrite H. auto. Qed.
Lemma push_frame : forall U front x (a : ast U) e a', push front x a = Some (e, a') -> frame a a' /\ (a_al a = [] -> e = STATUS_SUCCESS).
Proof.
  intros U front x a e a' P. unfold push in P. destruct (hget _ _); [|discriminate]. destruct (_ || _); [discriminate|].
  pose proof (alloc_frame U a) as A. pose proof (alloc_nil U a) as B. destruct (alloc_spec a) as [ea a1]. cbn [snd] in A.
  destruct (ok ea) eqn:O; cbn [negb] in P; inversion P; subst; split; auto.
  intros K. specialize (B K). inversion B; subst. discriminate.
Qed.
Lemma pushes_frame : forall U l (a : ast U) e a', pushes l a = Some (e, a') -> frame a a'.
Proof.
  induction l as [|[front x] l IH]; intros a e a' P; cbn [pushes] in P; [inversion P; subst; apply frame_refl|].
  destruct (push front x a) as [[e1 a1]|] eqn:E; [|discriminate]. apply push_frame in E as [E _]. destruct (ok e1); cbn [negb] in P; [|inversion P; subst; auto].
  apply IH in P. eapply frame_trans; eauto.
Qed.
Lemma tell_frame : forall U ev f (a : ast U) e a', tell ev f a = Some (e, a') -> frame a a'.
Proof.
  intros U ev f a e a' P. unfold tell in P. destruct (_ =? 0); [inversion P; subst; apply frame_refl|].
  destruct (push _ _ a) as [[e1 a1]|] eqn:E; [|discriminate]. apply push_frame in E as [E _]. destruct (ok e1); inversion P; subst; auto.
Qed.
Lemma join_frame : forall U dels f (a : ast U) e a', join dels f a = Some (e, a') -> frame a a'.
Proof.
  intros U dels f a e a' P. unfold join in P. destruct (zmem _ _); [discriminate|]. destruct (hget _ _); [|discriminate].
  pose proof (alloc_frame U a) as A. destruct (alloc_spec a) as [ea a1]. cbn [snd] in A.
  destruct (ok ea); cbn [negb] in P; [|inversion P; subst; auto].
  destruct (push false _ _) as [[e2 a2]|] eqn:E2; [|discriminate]. apply push_frame in E2 as [E2 _].
  assert (F2 : frame a a2) by (eapply frame_trans; [exact A|exact E2]).
  destruct (ok e2); cbn [negb] in P; [|destruct dels; [|discriminate]; inversion P; subst; exact F2].
  destruct (push true _ _) as [[e3 a3]|] eqn:E3; [|discriminate]. apply push_frame in E3 as [E3 _].
  assert (F3 : frame a a3) by (eapply frame_trans; [exact F2|exact E3]).
  destruct (ok e3); cbn [negb] in P; [|inversion P; subst; auto]. apply tell_frame in P. eapply frame_trans; eauto.
Qed.
(** Only the running fiber changes, if a fiber is resumed. *)
Definition switch_frame {U} (a : ast U) (o : out) (a' : ast U) : Prop :=
  a_cur a' = (if ok (fst o) then runner o else a_cur a) /\ a_discs a' = a_discs a /\ a_user a' = a_user a /\ (a_al a = [] -> a_al a' = []).
Lemma resume_frame : forall U e (a : ast U) o a', resume (Some (e, a)) = Some (o, a') -> switch_frame a o a'.
Proof.
  intros U e a o a' H. cbn [resume] in H. destruct (ok e) eqn:O; cbn [negb] in H.
  2:{ inversion H; subst. unfold switch_frame. cbn [fst]. rewrite O. auto. }
  assert (G : forall x r n, go x r n a = Some (o, a') -> switch_frame a o a').
  { intros [f [[d ev] p]] r n K. unfold go in K. destruct (hget _ _); [|discriminate]. destruct (_ =? STOPPED); inversion K; subst. repeat split; auto. }
  destruct (a_ready a); [destruct (_ =? 0); [inversion H; subst; repeat split; auto|]|]; eapply G; eauto.
Qed.
Lemma frame_switch : forall U (a b c : ast U) o, frame a b -> switch_frame b o c -> switch_frame a o c.
Proof. intros U a b c o (A & B & C & D) (E & F & G & H). split; [|split; [|split]]; try congruence; auto. rewrite E, A. auto. Qed.

(** Code that keeps something of the state. *)
Fixpoint safe {U} (P : U -> Prop) (c : hprog U) : Prop :=
  match c with
  | HRet _ => True
  | HReady _ _ k => forall e, safe P (k e)
  | HMalloc k => forall e, safe P (k e)
  | HFree k => forall e, safe P (k e)
  | HLoad k => forall u, P u -> safe P (k u)
  | HStore u k => P u /\ safe P k
  | HUndef => True
  end.
Definition uframe {U} (P : U -> Prop) (a a' : ast U) : Prop :=
  a_cur a' = a_cur a /\ a_discs a' = a_discs a /\ P (a_user a') /\ (a_al a = [] -> a_al a' = []).
Lemma happly_safe : forall U (P : U -> Prop) (c : hprog U) (a : ast U) e a', safe P c -> P (a_user a) -> happly c a = Some (e, a') -> uframe P a a'.
Proof.
  intros U P. induction c as [e|front x k IH|k IH|k IH|k IH|u k IH|]; intros a st a' S0 P0 H; cbn [happly safe] in *; try discriminate; eauto.
  - inversion H; subst. repeat split; auto.
  - destruct (push front x a) as [[e1 a1]|] eqn:E; [|discriminate]. apply push_frame in E as ((A & B & C & D) & _).
    apply IH in H; auto; [|rewrite C; auto]. destruct H as (E & F & G & I). repeat split; try congruence; auto.
  - pose proof (alloc_frame U a) as A. destruct (alloc_spec a) as [ea a1]. destruct A as (A & B & C & D). cbn [snd] in *.
    apply IH in H; auto; [|rewrite C; auto]. destruct H as (E & F & G & I). repeat split; try congruence; auto.
  - destruct S0 as [S1 S2]. apply IH in H; auto.
Qed.

(** A call that is foreign to discipline [d]. *)
Definition others_foreign {U} (mine : Z -> bool) (d : Z) (a : ast U) : Prop :=
  forall d' x, hget (a_discs a) d' = Some x -> d' <> d -> forallb (fun fn => negb (mine fn)) (dd_cbs x) = true.
Lemma step_frame : forall U (P : U -> Prop) mine dels (ac : acts U) d x p (a : ast U) o a',
  (forall fn cx yf y, mine fn = false -> safe P (ac fn cx yf y)) -> foreign mine d p = true ->
  hget (a_discs a) d = Some x -> dd_owned x = true -> others_foreign mine d a -> P (a_user a) ->
  astep dels ac p a = Some (o, a') ->
  a_cur a' = (if moves p && ok (fst o) then runner o else a_cur a) /\ hget (a_discs a') d = Some x /\ others_foreign mine d a' /\ P (a_user a') /\
  (a_al a = [] -> a_al a' = []).
Proof.
  intros U P mine dels ac d x p a o a' SF F D OW OF P0 H.
  assert (FR : forall b, switch_frame a o b -> a_cur b = (if true && ok (fst o) then runner o else a_cur a) /\ hget (a_discs b) d = Some x /\ others_foreign mine d b /\ P (a_user b) /\ (a_al a = [] -> a_al b = [])).
  { intros b (A & B & C & E). rewrite C. split; [exact A|]. rewrite B. split; [auto|]. split; [intros d' y; rewrite B; apply OF|]. auto. }
  assert (SAME : forall b : ast U, frame a b -> a_cur b = (if false then runner o else a_cur a) /\ hget (a_discs b) d = Some x /\ others_foreign mine d b /\ P (a_user b) /\ (a_al a = [] -> a_al b = [])).
  { intros b (A & B & C & E). rewrite C. split; [exact A|]. rewrite B. split; [auto|]. split; [intros d' y; rewrite B; apply OF|]. auto. }
  assert (RS : forall b X, (forall e a1, X = Some (e, a1) -> frame a a1) -> resume X = Some (o, b) -> switch_frame a o b).
  { intros b [[e a1]|] K1 K2; [|discriminate]. apply resume_frame in K2. eapply frame_switch; eauto. }
  destruct p; cbn [astep moves foreign] in *.
  - destruct (_ || _); inversion H; subst. apply SAME. repeat split; auto.
  - apply FR. apply RS in H; auto. intros e a1. apply join_frame.
  - apply FR. apply RS in H; auto. intros e a1. destruct (_ =? _); [intros K; inversion K; subst; apply frame_refl|apply push_frame].
  - destruct (hget (a_life a) _); [|discriminate]. destruct (resume _) as [[o1 a1]|] eqn:R1; [|discriminate]. destruct (ok (fst o1)); inversion H; subst.
    apply FR. apply RS in R1; auto. intros e a2 K. apply tell_frame in K. exact K.
  - apply FR. apply RS in H; auto. intros e a1 K. apply push_frame in K as [K _]. exact K.
  - apply FR. apply RS in H; auto. intros e a1 K. apply push_frame in K as [K _]. exact K.
  - apply FR. apply RS in H; auto. intros e a1 K. inversion K; subst. repeat split; auto.
  - destruct (hget (a_life a) _); [|discriminate]. apply FR. apply RS in H; auto. intros e a1. destruct (_ =? RUNNING); [apply pushes_frame|intros K; apply push_frame in K as [K _]; exact K].
  - destruct (forallb _ _); [|discriminate]. apply FR. apply RS in H; auto. intros e a1. apply pushes_frame.
  - destruct dels; inversion H; subst. apply SAME. repeat split; auto.
  - destruct (_ || _); inversion H; subst. apply SAME. repeat split; auto.
  - inversion H; subst. apply SAME. repeat split; auto.
  - destruct (_ || _) eqn:Q; inversion H; subst. apply orb_false_iff in Q as [_ Q]. apply TabProofs.zmem_not in Q.
    assert (d0 <> d) by (intros ->; apply Q; eapply hget_in; eauto). cbn [andb]. split; [reflexivity|]. cbn [discs_set a_discs a_user a_al].
    split; [rewrite hget_hadd_other; auto|]. split; [|auto]. intros d' y G N. unfold discs_set in G. cbn [a_discs] in G. rewrite hget_hadd in G. destruct (Z.eqb_spec d' d0) as [->|N'].
    + inversion G; subst. exact F.
    + eapply OF; eauto.
  - destruct (hget (a_discs a) d0) as [y|] eqn:Y; [|discriminate]. destruct (dd_owned y) eqn:OY; [inversion H; subst; apply SAME; apply frame_refl|].
    assert (ND : d0 <> d) by (intros ->; congruence).
    destruct (existsb _ _); [inversion H; subst; apply SAME; apply frame_refl|].
    pose proof (alloc_frame U a) as A1. destruct (alloc_spec a) as [e1 a1]. cbn [snd] in A1.
    destruct (ok e1); cbn [negb] in H; [|inversion H; subst; apply SAME; auto].
    match type of H with context [alloc_spec ?b] => pose proof (alloc_frame U b) as A2; destruct (alloc_spec b) as [e2 a2] end.
    cbn [snd] in A2. assert (B2 : frame a a2) by (eapply frame_trans; [exact A1|exact A2]). destruct (ok e2); cbn [negb] in H; [|inversion H; subst; apply SAME; auto].
    pose proof (alloc_frame U a2) as A3. destruct (alloc_spec a2) as [e3 a3]. cbn [snd] in A3.
    assert (B3 : frame a a3) by (eapply frame_trans; [exact B2|exact A3]).
    destruct (ok e3); cbn [negb] in H; [|inversion H; subst; apply SAME; auto]. destruct (_ <? _); inversion H; subst. destruct B3 as (C1 & C2 & C3 & C4).
    cbn [discs_set a_cur a_discs a_user a_al andb]. split; [auto|]. rewrite C2. split; [rewrite hget_hset_other; auto|]. split; [|rewrite C3; auto].
    intros d' z G N. cbn [discs_set a_discs] in G. rewrite ?C2, hget_hset in G. destruct (Z.eqb_spec d' d0) as [->|N'].
    + rewrite Y in G. inversion G; subst. cbn [dd_cbs]. eapply OF; eauto.
    + eapply OF; eauto.
  - destruct (find _ _); inversion H; subst; apply SAME; apply frame_refl.
  - destruct (hget (a_discs a) d0) as [y|] eqn:Y; [|discriminate]. destruct (_ || _ || _ || _); [discriminate|].
    destruct (_ || _); [inversion H; subst; apply SAME; apply frame_refl|].
    destruct (nth_error _ _) as [fn|] eqn:NE; [|discriminate]. destruct (negb (user_fn fn)); [discriminate|].
    destruct (happly _ a) as [[e a1]|] eqn:J; [|discriminate].
    apply negb_true_iff, Z.eqb_neq in F. pose proof (OF _ _ Y F) as L. rewrite forallb_forall in L. apply nth_error_In in NE. apply L in NE. apply negb_true_iff in NE.
    apply (happly_safe _ P) in J; auto. apply resume_frame in H. destruct J as (J1 & J2 & J3 & J4). destruct H as (H1 & H2 & H3 & H4).
    cbn [andb]. rewrite H1, J1. split; [auto|]. rewrite H2, J2. split; [auto|]. split; [intros d' z; rewrite H2, J2; apply OF|]. rewrite H3. auto.
  - destruct (happly _ a) as [[e a1]|] eqn:J; [|discriminate]. inversion H; subst. apply negb_true_iff in F.
    apply (happly_safe _ P) in J; auto. destruct J as (J1 & J2 & J3 & J4). cbn [andb]. rewrite J1. split; [auto|]. rewrite J2. split; [auto|]. split; [intros d' z; rewrite J2; apply OF|]. auto.
Qed.

(** A fiber made ready to run next is the one that runs. *)
Lemma ready_next : forall U f id ev p (a : ast U) o a', resume (happly (HReady true (f, (id, ev, p)) (fun e => HRet e)) a) = Some (o, a') ->
  a_user a' = a_user a /\ a_discs a' = a_discs a /\ (a_al a = [] -> a_al a' = []) /\
  ((ok (fst o) = false /\ a_al a <> [] /\ a_cur a' = a_cur a) \/ (o = (STATUS_SUCCESS, (f, id, ev, p)) /\ a_cur a' = f)).
Proof.
  intros U f id ev p a o a' H. cbn [happly] in H. destruct (push true (f, (id, ev, p)) a) as [[e a1]|] eqn:E; [|discriminate].
  pose proof (push_frame _ _ _ _ _ _ E) as ((A & B & C & D) & N).
  assert (Q : ok e = true -> exists t, a_ready a1 = (true, (f, (id, ev, p))) :: t).
  { unfold push in E. destruct (hget _ _); [|discriminate]. destruct (_ || _); [discriminate|]. destruct (alloc_spec a) as [ea a2]. destruct (ok ea) eqn:O; cbn [negb] in E; inversion E; subst; [|congruence]. intros _. eexists. reflexivity. }
  pose proof (resume_frame _ _ _ _ _ H) as (F1 & F2 & F3 & F4). rewrite F2, F3. split; [auto|]. split; [auto|]. split; [auto|].
  cbn [resume] in H. destruct (ok e) eqn:O; cbn [negb] in H.
  - right. destruct (Q eq_refl) as [t T]. rewrite T in H. apply go_keeps in H as (_ & _ & _ & ->). split; [reflexivity|]. rewrite F1. reflexivity.
  - left. inversion H; subst. cbn [fst] in *. split; [auto|]. split; [intros K; apply N in K; subst; discriminate|]. congruence.
Qed.

(** A handler alone: its allocations and reclaims one by one. *)
Definition after {T U} (i j : nat) (w : sw T U) : sw T U := set_rc (skipn j (w_rc w)) (set_al (skipn i (w_al w)) w).
Lemma sw_eta : forall T U (w : sw T U), set_rc (w_rc w) (set_al (w_al w) w) = w.
Proof. intros T U []. reflexivity. Qed.
Lemma skipn_one : forall A i (l : list A), skipn (S i) l = tl (skipn i l).
Proof. induction i; intros [|x l]; cbn [skipn tl]; auto. rewrite <- IHi. reflexivity. Qed.
Lemma nth_hd : forall A i (l : list A) d, nth i l d = hd d (skipn i l).
Proof. induction i; intros [|x l] d; cbn; auto. Qed.
Lemma hrun_malloc : forall T U k i j (w : sw T U), hrun (HMalloc k) (after i j w) = hrun (k (nth i (w_al w) STATUS_SUCCESS)) (after (S i) j w).
Proof.
  intros. cbn [hrun]. unfold allocation, after. rewrite skipn_one, nth_hd. destruct w. cbn. destruct (skipn i w_al) as [|e l]; reflexivity.
Qed.
Lemma hrun_free : forall T U k i j (w : sw T U), hrun (HFree k) (after i j w) = hrun (k (nth j (w_rc w) STATUS_SUCCESS)) (after i (S j) w).
Proof.
  intros. cbn [hrun]. unfold reclaim, after. rewrite skipn_one, nth_hd. destruct w. cbn. destruct (skipn j w_rc) as [|e l]; reflexivity.
Qed.
Lemma hrun_load : forall T U k i j (w : sw T U), hrun (HLoad k) (after i j w) = hrun (k (w_user w)) (after i j w).
Proof. intros. destruct w. reflexivity. Qed.
(** The same, if every reclaim succeeds. *)
Fixpoint keeps {U} (P : U -> Prop) (c : hprog U) : Prop :=
  match c with
  | HRet _ => True
  | HReady _ _ k => forall e, keeps P (k e)
  | HMalloc k => forall e, keeps P (k e)
  | HFree k => keeps P (k STATUS_SUCCESS)
  | HLoad k => forall u, P u -> keeps P (k u)
  | HStore u k => P u /\ keeps P k
  | HUndef => True
  end.
Lemma hrun_keeps : forall T U (P : U -> Prop) (c : hprog U) (w : sw T U) e w', keeps P c -> P (w_user w) -> w_rc w = [] -> hrun c w = Some (e, w') -> P (w_user w').
Proof.
  intros T U P. induction c as [e|front x k IH|k IH|k IH|k IH|u k IH|]; intros w st w' S0 P0 RC H; cbn [hrun keeps] in *; try discriminate; eauto.
  - inversion H; subst. auto.
  - destruct x as (f & (d & ev) & p).
    assert (A : forall e w1, (if front then set_next f d ev p w else add_to_run_queue f d ev p w) = Some (e, w1) -> w_user w1 = w_user w /\ w_rc w1 = w_rc w).
    { intros e w1. unfold set_next, add_to_run_queue, set_restore, allocation. destruct (hget _ f); [|destruct front; discriminate]. cbn. destruct (w_al w) as [|z l]; destruct front; cbn; repeat destruct (ok _); intros K; inversion K; subst; cbn; auto. }
    destruct (if front then _ else _) as [[e1 w1]|]; [|discriminate]. destruct (A _ _ eq_refl) as (A1 & A2). eapply IH; [apply S0|rewrite A1; auto|rewrite A2; auto|exact H].
  - unfold allocation in H. destruct (w_al w); (eapply IH; [apply S0| | |exact H]; auto).
  - unfold reclaim in H. rewrite RC in H. eapply IH; [apply S0| | |exact H]; auto.
  - destruct S0 as [S1 S2]. eapply IH; [apply S2| | |exact H]; auto.
Qed.
