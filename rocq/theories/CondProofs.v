From Verif Require Import Base Status MemModel MemProofs Heap TabModel TabSpec TabProofs SchedModel SchedSpec SchedProofs SchedHist DiscFrame MsgModel CondModel CondSpec.

(** ** What calls make ready *)
Definition grows {U} (a a' : ast U) : Prop := exists m, a_made a' = a_made a ++ m.
Lemma grows_refl : forall U (a b : ast U), a_made b = a_made a -> grows a b.
Proof. intros U a b E. exists []. rewrite app_nil_r. auto. Qed.
Lemma grows_trans : forall U (a b c : ast U), grows a b -> grows b c -> grows a c.
Proof. intros U a b c [m M] [n N]. exists (m ++ n). rewrite N, M, app_assoc. auto. Qed.
Lemma alloc_made : forall U (a : ast U), a_made (snd (alloc_spec a)) = a_made a.
Proof. intros. unfold alloc_spec. destruct (a_al a); reflexivity. Qed.
Lemma push_made : forall U front x (a : ast U) e a', push front x a = Some (e, a') -> a_made a' = a_made a ++ (if ok e then [(front, x)] else []).
Proof.
  intros U front x a e a' P. unfold push in P. destruct (hget _ _); [|discriminate]. destruct (_ || _); [discriminate|].
  pose proof (alloc_made U a) as A. destruct (alloc_spec a) as [ea a1]. cbn [snd] in A. destruct (ok ea) eqn:O; cbn [negb] in P; inversion P; subst.
  - cbn. rewrite A. reflexivity.
  - rewrite O, app_nil_r. auto.
Qed.
Lemma push_grows : forall U front x (a : ast U) e a', push front x a = Some (e, a') -> grows a a'.
Proof. intros. eexists. eapply push_made; eauto. Qed.
Lemma pushes_grows : forall U l (a : ast U) e a', pushes l a = Some (e, a') -> grows a a'.
Proof.
  induction l as [|[front x] l IH]; intros a e a' P; cbn [pushes] in P; [inversion P; subst; apply grows_refl; auto|].
  destruct (push front x a) as [[e1 a1]|] eqn:E; [|discriminate]. apply push_grows in E. destruct (ok e1); cbn [negb] in P; [|inversion P; subst; auto].
  apply IH in P. eapply grows_trans; eauto.
Qed.
Lemma happly_grows : forall U (c : hprog U) (a : ast U) e a', happly c a = Some (e, a') -> grows a a'.
Proof.
  induction c as [e|front x k IH|k IH|k IH|k IH|u k IH|]; intros a st a' H; cbn [happly] in *; try discriminate; eauto.
  - inversion H; subst. apply grows_refl. auto.
  - destruct (push front x a) as [[e1 a1]|] eqn:E; [|discriminate]. apply push_grows in E. eapply grows_trans; eauto.
  - pose proof (alloc_made U a) as A. destruct (alloc_spec a) as [ea a1]. eapply grows_trans; [apply grows_refl; exact A|eauto].
  - apply IH in H. exact H.
Qed.
Lemma tell_grows : forall U ev f (a : ast U) e a', tell ev f a = Some (e, a') -> grows a a'.
Proof.
  intros U ev f a e a' P. unfold tell in P. destruct (_ =? 0); [inversion P; subst; apply grows_refl; auto|].
  destruct (push _ _ a) as [[e1 a1]|] eqn:E; [|discriminate]. apply push_grows in E. destruct (ok e1); inversion P; subst; auto.
Qed.
Lemma join_grows : forall U dels f (a : ast U) e a', join dels f a = Some (e, a') -> grows a a'.
Proof.
  intros U dels f a e a' P. unfold join in P. destruct (zmem _ _); [discriminate|]. destruct (hget _ _); [|discriminate].
  pose proof (alloc_made U a) as A. destruct (alloc_spec a) as [ea a1]. cbn [snd] in A.
  destruct (ok ea); cbn [negb] in P; [|inversion P; subst; apply grows_refl; auto].
  destruct (push false _ _) as [[e2 a2]|] eqn:E2; [|discriminate]. apply push_grows in E2.
  assert (F2 : grows a a2) by (eapply grows_trans; [apply grows_refl; exact A|exact E2]).
  destruct (ok e2); cbn [negb] in P; [|destruct dels; [|discriminate]; inversion P; subst; exact F2].
  destruct (push true _ _) as [[e3 a3]|] eqn:E3; [|discriminate]. apply push_grows in E3.
  assert (F3 : grows a a3) by (eapply grows_trans; eauto).
  destruct (ok e3); cbn [negb] in P; [|inversion P; subst; auto]. apply tell_grows in P. eapply grows_trans; eauto.
Qed.
Lemma resume_made : forall U e (a : ast U) o a', resume (Some (e, a)) = Some (o, a') -> a_made a' = a_made a.
Proof.
  intros U e a o a' H. cbn [resume] in H. destruct (ok e) eqn:O; cbn [negb] in H; [|inversion H; subst; auto].
  assert (G : forall x r n, go x r n a = Some (o, a') -> a_made a' = a_made a).
  { intros [f [[d ev] p]] r n K. unfold go in K. destruct (hget _ _); [|discriminate]. destruct (_ =? STOPPED); inversion K; subst. auto. }
  destruct (a_ready a); [destruct (_ =? 0); [inversion H; subst; auto|]|]; eapply G; eauto.
Qed.
Lemma step_grows : forall U dels (ac : acts U) p (a : ast U) o a', astep dels ac p a = Some (o, a') -> grows a a'.
Proof.
  intros U dels ac p a o a' H.
  assert (RS : forall b X o, (forall e a1, X = Some (e, a1) -> grows a a1) -> resume X = Some (o, b) -> grows a b).
  { intros b [[e a1]|] o1 K1 K2; [|discriminate]. apply resume_made in K2. eapply grows_trans; [eauto|apply grows_refl; auto]. }
  destruct p; cbn [astep] in *.
  - destruct (_ || _); inversion H; subst. apply grows_refl. auto.
  - eapply RS; eauto. intros e a1. apply join_grows.
  - eapply RS; eauto. intros e a1. destruct (_ =? _); [intros K; inversion K; subst; apply grows_refl; auto|apply push_grows].
  - destruct (hget (a_life a) _); [|discriminate]. destruct (resume _) as [[o1 a1]|] eqn:R1; [|discriminate]. destruct (ok (fst o1)); inversion H; subst.
    eapply RS; [|exact R1]. intros e a2 K. apply tell_grows in K. exact K.
  - eapply RS; eauto. intros e a1 K. apply push_grows in K. exact K.
  - eapply RS; eauto. intros e a1 K. apply push_grows in K. exact K.
  - eapply RS; eauto. intros e a1 K. inversion K; subst. apply grows_refl. auto.
  - destruct (hget (a_life a) _); [|discriminate]. eapply RS; eauto. intros e a1. destruct (_ =? RUNNING); [apply pushes_grows|apply push_grows].
  - destruct (forallb _ _); [|discriminate]. eapply RS; eauto. intros e a1. apply pushes_grows.
  - destruct dels; inversion H; subst. apply grows_refl. auto.
  - destruct (_ || _); inversion H; subst. apply grows_refl. auto.
  - inversion H; subst. apply grows_refl. auto.
  - destruct (_ || _) eqn:Q; inversion H; subst. apply grows_refl. auto.
  - destruct (hget (a_discs a) d) as [y|] eqn:Y; [|discriminate]. destruct (dd_owned y) eqn:OY; [inversion H; subst; apply grows_refl; auto|].
    destruct (existsb _ _); [inversion H; subst; apply grows_refl; auto|].
    pose proof (alloc_made U a) as A1. destruct (alloc_spec a) as [e1 a1]. cbn [snd] in A1.
    destruct (ok e1); cbn [negb] in H; [|inversion H; subst; apply grows_refl; auto].
    match type of H with context [alloc_spec ?b] => pose proof (alloc_made U b) as A2; destruct (alloc_spec b) as [e2 a2] end.
    cbn [snd discs_set a_made] in A2. destruct (ok e2); cbn [negb] in H; [|inversion H; subst; apply grows_refl; congruence].
    pose proof (alloc_made U a2) as A3. destruct (alloc_spec a2) as [e3 a3]. cbn [snd] in A3.
    destruct (ok e3); cbn [negb] in H; [|inversion H; subst; apply grows_refl; congruence]. destruct (_ <? _); inversion H; subst. apply grows_refl. cbn. congruence.
  - destruct (find _ _); inversion H; subst; apply grows_refl; auto.
  - destruct (hget (a_discs a) d) as [y|] eqn:Y; [|discriminate]. destruct (_ || _ || _ || _); [discriminate|].
    destruct (_ || _); [inversion H; subst; apply grows_refl; auto|].
    destruct (nth_error _ _) as [fn|] eqn:NE; [|discriminate]. destruct (negb (user_fn fn)); [discriminate|].
    eapply RS; eauto. intros e a1. apply happly_grows.
  - destruct (happly _ a) as [[e a1]|] eqn:J; [|discriminate]. inversion H; subst. eapply happly_grows; eauto.
Qed.
Lemma same_refl : forall x, same x x = true.
Proof. intros [b [f [[d e] p]]]. unfold same. rewrite !Z.eqb_refl. destruct b; reflexivity. Qed.
Lemma made_is_refl : forall m, made_is m m = true.
Proof. induction m; cbn [made_is]; auto. rewrite same_refl. auto. Qed.
Lemma made_is_eq : forall m l, made_is m l = true -> m = l.
Proof.
  induction m as [|[b [f [[d e] p]]] m IH]; intros [|[b' [f' [[d' e'] p']]] l] H; try discriminate; auto. cbn [made_is same] in H.
  rewrite !andb_true_iff, !Z.eqb_eq in H. destruct H as ((((H1 & H2) & H3) & H4) & H5). rewrite Bool.eqb_true_iff in H1. destruct H1 as [H1 ?]. subst.
  f_equal. apply IH. auto.
Qed.

(** ** The relation *)
Lemma cond_foreign : forall T V (ts : tops T) (other : acts V) m fn cx yf y, cond_fn fn = false -> safe (fun u => fst u = m) (cond_acts ts other fn cx yf y).
Proof. intros. unfold cond_acts. rewrite H. cbn [negb]. induction (other fn cx yf y); cbn; auto. Qed.
Definition cond_dd : dd := DD true CONDITION_ID COND_CTX cond_cbs.
Record cond_rel {T} (TR : T -> list Z -> Prop) (m : cst T) (l : waits) : Prop := CondRel
  { cr_tree : exists tl, TR (c_tree m) tl /\ NoDup tl /\ (forall k, In k tl <-> In k (addrs (c_conds m)));
    cr_wf : hwf (c_conds m);
    cr_conds : k_waits l = c_conds m;
    cr_index : c_index m = k_next l;
    cr_range : 0 <= k_next l < 2^64;
    cr_keys : forall k, In k (addrs (c_conds m)) -> 0 < k <= k_next l }.
Record CRel {T V} (TR : T -> list Z -> Prop) (mem : bool) (d : Z) (a : ast (cst T * V)) (c : Z) (l : waits) : Prop := MkCRel
  { cl_cur : a_cur a = c;
    cl_disc : hget (a_discs a) d = Some cond_dd;
    cl_others : others_foreign cond_fn d a;
    cl_al : mem = false -> a_al a = [];
    cl_rel : cond_rel TR (fst (a_user a)) l }.
Lemma yield_cond : forall T V (ts : tops T) (other : acts V) dels d ev fn p a, hget (a_discs a) d = Some cond_dd ->
  0 <= ev -> nth_error (dd_cbs cond_dd) (Z.to_nat ev) = Some fn ->
  astep dels (cond_acts ts other) (SYield d ev p) a = resume (happly (cond_acts ts other fn COND_CTX (a_cur a) p) a).
Proof.
  intros T V ts other dels d ev fn p a D E NE. cbn [astep]. rewrite D.
  assert (L : (Z.to_nat ev < 5)%nat) by (change 5%nat with (length (dd_cbs cond_dd)); apply nth_error_Some; congruence).
  assert (C : ev = 0 \/ ev = 1 \/ ev = 2 \/ ev = 3 \/ ev = 4) by lia.
  destruct C as [->|[->|[->|[->| ->]]]]; cbn in NE; inversion NE; subst; reflexivity.
Qed.
Lemma told_same : forall f d ev p, resumes (STATUS_SUCCESS, (f, d, ev, p)) f d ev p = true.
Proof. intros. unfold resumes. rewrite !Z.eqb_refl. reflexivity. Qed.
Lemma refused_yes : forall f ev p, refused (STATUS_SUCCESS, (f, CONDITION_ID, ev, p)) f ev = true.
Proof. intros. unfold refused. rewrite !Z.eqb_refl. reflexivity. Qed.
Lemma refused_no : forall f ev ev' p, ev <> ev' -> refused (STATUS_SUCCESS, (f, CONDITION_ID, ev', p)) f ev = false.
Proof. intros. unfold refused. rewrite !Z.eqb_refl. apply not_eq_sym, Z.eqb_neq in H. rewrite H. reflexivity. Qed.
Definition steps_on {T V} (TR : T -> list Z -> Prop) mem d (a' : ast (cst T * V)) (v : verdict) : Prop :=
  match v with Fine c l => CRel TR mem d a' c l | Wrong => False | Unsaid => True end.

Lemma answered : forall T V (TR : T -> list Z -> Prop) mem d (a a1 : ast (cst T * V)) c l l' ev p o a' v, CRel TR mem d a c l ->
  a_discs a1 = a_discs a -> (a_al a = [] -> a_al a1 = []) -> cond_rel TR (fst (a_user a1)) l' ->
  resume (happly (on_fst (at_once c ev p)) a1) = Some (o, a') ->
  (mem = true -> ok (fst o) = false -> v = Unsaid) ->
  (o = (STATUS_SUCCESS, (c, CONDITION_ID, ev, p)) -> a_made a' = a_made a1 ++ [(true, (c, (CONDITION_ID, ev, p)))] -> v = Fine c l') -> steps_on TR mem d a' v.
Proof.
  intros T V TR mem d a a1 c l l' ev p o a' v R D AL BR H V1 V2.
  assert (MG : ok (fst o) = true -> a_made a' = a_made a1 ++ [(true, (c, (CONDITION_ID, ev, p)))]).
  { intros O. unfold at_once in H. cbn [on_fst happly] in H. destruct (push true _ a1) as [[e a2]|] eqn:P; [|discriminate]. apply push_made in P. pose proof (resume_made _ _ _ _ _ H) as RM. rewrite RM, P.
    destruct (ok e) eqn:E; [auto|]. cbn [resume] in H. rewrite E in H. cbn [negb] in H. inversion H; subst. cbn [fst] in O. congruence. }
  apply (ready_next _ c CONDITION_ID ev p) in H. destruct H as (H1 & H2 & H3 & [(F & N & _)|(-> & C)]).
  - destruct mem; [rewrite V1 by auto; exact Logic.I|]. exfalso. apply N, AL, (cl_al _ _ _ _ _ _ R). auto.
  - rewrite V2 by auto. constructor.
    + auto.
    + rewrite H2, D. apply (cl_disc _ _ _ _ _ _ R).
    + intros d' x. rewrite H2, D. apply (cl_others _ _ _ _ _ _ R).
    + intros M. apply H3, AL, (cl_al _ _ _ _ _ _ R). auto.
    + rewrite H1. auto.
Qed.
(** The yielding fiber becomes ready behind all others. *)
Lemma turned : forall T V (TR : T -> list Z -> Prop) mem d (a a1 : ast (cst T * V)) c l l' ev p o a' m m1 m', CRel TR mem d a c l ->
  a_discs a1 = a_discs a -> (a_al a = [] -> a_al a1 = []) -> cond_rel TR (fst (a_user a1)) l' -> a_made a1 = a_made a ++ m1 ->
  (mem = false -> m1 ++ [(false, (c, (CONDITION_ID, ev, p)))] = m') ->
  resume (happly (on_fst (in_turn c ev p)) a1) = Some (o, a') -> a_made a' = a_made a ++ m ->
  steps_on TR mem d a' (if mem && (negb (ok (fst o)) || negb (made_is m m')) then Unsaid else sure (ok (fst o) && made_is m m') (Fine (runner o) l')).
Proof.
  intros T V TR mem d a a1 c l l' ev p o a' m m1 m' R D AL CR MA ME H MM. unfold in_turn in H. cbn [on_fst happly] in H.
  destruct (push false _ a1) as [[e a2]|] eqn:P; [|discriminate]. pose proof (push_made _ _ _ _ _ _ P) as PM. pose proof (push_frame _ _ _ _ _ _ P) as ((A & B & C & E) & N).
  pose proof (resume_made _ _ _ _ _ H) as RM. pose proof (resume_frame _ _ _ _ _ H) as (F1 & F2 & F3 & F4).
  assert (OO : ok e = true -> ok (fst o) = true).
  { intros O. cbn [resume] in H. rewrite O in H. cbn [negb] in H.
    assert (RN : exists x t, a_ready a2 = x :: t).
    { unfold push in P. destruct (hget _ _); [|discriminate]. destruct (_ || _); [discriminate|]. destruct (alloc_spec a1) as [ea a3]. destruct (ok ea) eqn:O1; cbn [negb] in P; inversion P; subst; [|congruence].
      cbn. destruct (a_ready a3); cbn; eauto. }
    destruct RN as (x & t & RN). rewrite RN in H. apply go_keeps in H as (_ & _ & _ & ->). reflexivity. }
  assert (NO : ok e = false -> ok (fst o) = false) by (intros O; cbn [resume] in H; rewrite O in H; cbn [negb] in H; inversion H; subst; auto).
  assert (CRL : ok (fst o) = true -> CRel TR mem d a' (runner o) l').
  { intros O. constructor.
    - rewrite F1, O. auto.
    - rewrite F2, B, D. apply (cl_disc _ _ _ _ _ _ R).
    - intros d' x. rewrite F2, B, D. apply (cl_others _ _ _ _ _ _ R).
    - intros M. apply F4, E, AL, (cl_al _ _ _ _ _ _ R), M.
    - rewrite F3, C. auto. }
  destruct mem.
  - cbn [andb]. destruct (ok (fst o)) eqn:O; [|exact Logic.I]. cbn [negb orb andb]. destruct (made_is m m'); [|exact Logic.I]. cbn. auto.
  - cbn [andb]. assert (ok e = true) as OE by (rewrite N; [reflexivity|apply AL, (cl_al _ _ _ _ _ _ R); auto]). rewrite (OO OE). cbn [andb].
    assert (m = m') as ->. { rewrite <- (ME eq_refl). apply (app_inv_head (a_made a)). rewrite <- MM, RM, PM, OE, MA, app_assoc. reflexivity. }
    rewrite made_is_refl. cbn. auto.
Qed.
Lemma cond_find : forall T (ts : tops T) TR Q m l k, tab_ok ts TR Q -> cond_rel TR m l ->
  t_find ts (c_tree m) k = Some (match hget (c_conds m) k with Some _ => (STATUS_SUCCESS, k) | None => (ERROR_RBTREE_NOT_FOUND, 0) end).
Proof.
  intros T ts TR Q m l k OK R. destruct (cr_tree _ _ _ R) as (tl & T1 & _ & T2). rewrite (tb_find _ _ _ OK _ _ k T1). f_equal.
  destruct (hget (c_conds m) k) eqn:G.
  - apply hget_in, T2, zmem_in in G. rewrite G. auto.
  - apply hget_none in G. destruct (zmem k tl) eqn:Z0; auto. apply zmem_in, T2 in Z0. contradiction.
Qed.
Lemma wait_set : forall T (TR : T -> list Z -> Prop) m l k q, cond_rel TR m l ->
  cond_rel TR (set_wait k q m) (Waits (hset (k_waits l) k q) (k_next l)).
Proof.
  intros T TR m l k q R. destruct R. unfold set_wait. constructor; cbn [c_tree c_conds c_index k_waits k_next].
  - rewrite hset_addrs. auto.
  - apply hset_wf; auto.
  - rewrite cr_conds0. auto.
  - auto.
  - auto.
  - rewrite hset_addrs. auto.
Qed.
Lemma alloc_step : forall T V (TR : T -> list Z -> Prop) mem d (a : ast (cst T * V)) c l, CRel TR mem d a c l -> exists e a1,
  alloc_spec a = (e, a1) /\ CRel TR mem d a1 c l /\ a_user a1 = a_user a /\ a_discs a1 = a_discs a /\ a_cur a1 = a_cur a /\ (a_al a = [] -> a_al a1 = []) /\ (mem = false -> e = STATUS_SUCCESS) /\
  a_made a1 = a_made a.
Proof.
  intros T V TR mem d a c l R. pose proof (alloc_frame _ a) as A. pose proof (alloc_nil _ a) as N. pose proof (alloc_made _ a) as M. destruct (alloc_spec a) as [e a1]. destruct A as (A & B & C & D). cbn [snd] in *.
  exists e, a1. destruct R. split; [auto|]. split.
  - constructor; try congruence; auto. intros d' x. rewrite B. apply cl_others0.
  - do 4 (split; [auto|]). split; [|auto]. intros M0. specialize (N (cl_al0 M0)). inversion N; auto.
Qed.
Lemma waits_eta : forall l, Waits (k_waits l) (k_next l) = l.
Proof. intros []. auto. Qed.

Lemma create_step : forall T V (ts : tops T) (other : acts V) TR Q dels mem d a c l o a' m, tab_ok ts TR Q -> CRel TR mem d a c l ->
  astep dels (cond_acts ts other) (SYield d CY_CREATE 0) a = Some (o, a') -> steps_on TR mem d a' (cond_step mem d CCreate o m c l).
Proof.
  intros T V ts other TR Q dels mem d a c l o a' mm OK R H.
  rewrite (yield_cond _ _ _ _ _ _ _ FN_COND_CREATE _ _ (cl_disc _ _ _ _ _ _ R)) in H by (reflexivity || (unfold CY_CREATE; lia)).
  rewrite (cl_cur _ _ _ _ _ _ R) in H.
  change (cond_acts ts other FN_COND_CREATE COND_CTX c 0) with (@on_fst (cst T) V (create_cond ts COND_CTX c 0)) in H.
  unfold create_cond, on_cond in H. rewrite Z.eqb_refl in H. cbn [on_fst happly] in H.
  set (v := cond_step mem d CCreate o mm c l). unfold cond_step in v. destruct (2^64 <=? k_next l + 1) eqn:BD; [exact Logic.I|]. apply Z.leb_gt in BD.
  pose proof (cl_rel _ _ _ _ _ _ R) as BR. set (m := fst (a_user a)) in *.
  assert (W : wrap64 (c_index m + 1) = k_next l + 1).
  { rewrite (cr_index _ _ _ BR). pose proof (cr_range _ _ _ BR). unfold wrap64. apply Z.mod_small. lia. }
  rewrite W in H.
  assert (FAIL : forall a1 p, CRel TR mem d a1 c l -> mem = true -> resume (happly (on_fst (at_once c CR_CREATE_FAILURE p)) a1) = Some (o, a') -> steps_on TR mem d a' v).
  { intros a1 p R1 M J. eapply (answered _ _ _ _ _ a1 a1 c l l CR_CREATE_FAILURE); eauto; [apply (cl_rel _ _ _ _ _ _ R1)| |].
    - intros _ F. subst v. rewrite M, F. reflexivity.
    - intros -> _. subst v. rewrite M. cbn [fst]. rewrite refused_yes. reflexivity. }
  assert (KM : forall e, ok e = false -> (mem = false -> e = STATUS_SUCCESS) -> mem = true).
  { intros e F K. destruct mem; auto. rewrite K in F by auto. discriminate. }
  destruct (alloc_step _ _ _ _ _ _ _ _ R) as (e1 & a1 & E1 & R1 & U1 & D1 & C1 & L1 & M1 & _). rewrite E1 in H.
  destruct (ok e1) eqn:O1; cbn [negb on_fst happly] in H; [|eapply FAIL; eauto].
  destruct (alloc_step _ _ _ _ _ _ _ _ R1) as (e2 & a2 & E2 & R2 & U2 & D2 & C2 & L2 & M2 & _). rewrite E2 in H.
  destruct (ok e2) eqn:O2; cbn [negb on_fst happly] in H; [|eapply (FAIL a2); eauto].
  destruct (alloc_step _ _ _ _ _ _ _ _ R2) as (e4 & a4 & E4 & R4 & U4 & D4 & C4 & L4 & M4 & _). rewrite E4 in H.
  destruct (cr_tree _ _ _ BR) as (tl & T1 & T2 & T3). pose proof (cr_range _ _ _ BR) as RG.
  assert (NI : ~ In (k_next l + 1) (addrs (c_conds m))) by (intros K; apply (cr_keys _ _ _ BR) in K; lia).
  destruct (tb_insert _ _ _ OK e4 (c_tree m) tl (k_next l + 1) T1) as (t' & I1 & I2); [lia|]. rewrite I1 in H. cbn [need] in H.
  destruct (ok e4) eqn:O4.
  - change (negb (ok STATUS_SUCCESS)) with false in H. cbn [on_fst happly] in H.
    eapply (answered _ _ _ _ _ a _ c l (Waits (hadd (k_waits l) (k_next l + 1) []) (k_next l + 1)) _ _ _ _ _ R); [| | |exact H| |]; cbn [user_set a_discs a_cur a_al a_user fst].
    + congruence.
    + auto.
    + constructor; cbn [c_tree c_conds c_index k_waits k_next].
      * exists (zput (k_next l + 1) tl). split; [auto|]. split; [apply zput_nodup; auto; rewrite T3; auto|]. intros k. rewrite zput_in, T3. cbn [hadd addrs map fst In]. intuition congruence.
      * apply hadd_wf; [apply (cr_wf _ _ _ BR)|lia|apply hget_none; auto].
      * rewrite (cr_conds _ _ _ BR). reflexivity.
      * auto.
      * lia.
      * intros k [<-|K]; [cbn [fst]; lia|]. apply (cr_keys _ _ _ BR) in K. lia.
    + intros -> F. subst v. rewrite F. reflexivity.
    + intros -> _. subst v. cbn [fst]. rewrite refused_no by discriminate. rewrite told_same. destruct mem; reflexivity.
  - rewrite O4 in H. cbn [negb on_fst happly] in H. eapply (FAIL a4); eauto.
Qed.
Lemma close_step : forall T V (ts : tops T) (other : acts V) TR Q dels mem d a c l b o a' m, tab_ok ts TR Q -> Q (c_tree (fst (a_user a))) b -> CRel TR mem d a c l ->
  astep dels (cond_acts ts other) (SYield d CY_CLOSE b) a = Some (o, a') -> steps_on TR mem d a' (cond_step mem d (CClose b) o m c l).
Proof.
  intros T V ts other TR Q dels mem d a c l b o a' mm OK QB R H.
  rewrite (yield_cond _ _ _ _ _ _ _ FN_COND_CLOSE _ _ (cl_disc _ _ _ _ _ _ R)) in H by (reflexivity || (unfold CY_CLOSE; lia)).
  rewrite (cl_cur _ _ _ _ _ _ R) in H.
  change (cond_acts ts other FN_COND_CLOSE COND_CTX c b) with (@on_fst (cst T) V (close_cond ts COND_CTX c b)) in H.
  unfold close_cond, on_cond in H. rewrite Z.eqb_refl in H. cbn [on_fst happly] in H.
  pose proof (cl_rel _ _ _ _ _ _ R) as BR. set (m := fst (a_user a)) in *.
  destruct (cr_tree _ _ _ BR) as (tl & T1 & T2 & T3).
  destruct (tb_delete _ _ _ OK (c_tree m) tl b T1 QB) as (t' & D1 & D2). rewrite D1 in H. cbn [need] in H.
  unfold cond_step. rewrite (cr_conds _ _ _ BR). destruct (zmem b tl) eqn:Z0.
  - apply zmem_in in Z0. pose proof Z0 as Z1. apply T3 in Z1. destruct (hget (c_conds m) b) as [x|] eqn:G; [|apply hget_none in G; contradiction].
    change (negb (ok STATUS_SUCCESS)) with false in H. cbv iota zeta in H. cbn [c_conds] in H. rewrite G in H. cbn [need on_fst happly c_tree c_index] in H.
    eapply (answered _ _ _ _ _ a _ c l (Waits (hdel (c_conds m) b) (k_next l)) _ _ _ _ _ R); [| | |exact H| |]; cbn [user_set a_discs a_cur a_al a_user fst]; auto.
    + destruct BR. assert (DI : forall k, In k (addrs (hdel (c_conds m) b)) <-> k <> b /\ In k (addrs (c_conds m))).
      { intros k. split; [intros K; split; [|eapply hdel_in; eauto]|].
        - intros ->. apply hget_none in K; auto. apply hget_hdel_same; auto.
        - intros [K1 K2]. destruct (in_dec Z.eq_dec k (addrs (hdel (c_conds m) b))) as [|K3]; auto. apply hget_none in K3. rewrite hget_hdel_other in K3 by auto. apply hget_none in K3. contradiction. }
      constructor; cbn [c_tree c_conds c_index k_waits k_next]; auto.
      * exists (zdel b tl). split; [auto|]. split; [apply zdel_nodup; auto|]. intros k. rewrite zdel_in, DI, T3 by auto. tauto.
      * apply hdel_wf; auto.
      * intros k K. apply DI in K as [_ K]. auto.
    + intros -> F. rewrite F. reflexivity.
    + intros -> _. cbn [fst]. rewrite told_same. destruct mem; reflexivity.
  - apply zmem_not in Z0. assert (G : hget (c_conds m) b = None) by (apply hget_none; rewrite <- T3; auto). rewrite G.
    change (negb (ok ERROR_RBTREE_NOT_FOUND)) with true in H. cbv iota zeta in H. cbn [on_fst happly] in H.
    eapply (answered _ _ _ _ _ a _ c l l _ _ _ _ _ R); [| | |exact H| |]; cbn [user_set a_discs a_cur a_al a_user fst]; auto.
    + destruct BR. constructor; auto. cbn [c_tree]. exists tl. split; [|auto]. rewrite zdel_id in D2; auto.
    + intros -> F. rewrite F. reflexivity.
    + intros -> _. cbn [fst]. rewrite told_same. destruct mem; reflexivity.
Qed.
Lemma wait_step : forall T V (ts : tops T) (other : acts V) TR Q dels mem d a c l b o a' m, tab_ok ts TR Q -> CRel TR mem d a c l ->
  astep dels (cond_acts ts other) (SYield d CY_WAIT b) a = Some (o, a') -> a_made a' = a_made a ++ m -> steps_on TR mem d a' (cond_step mem d (CWait b) o m c l).
Proof.
  intros T V ts other TR Q dels mem d a c l b o a' mm OK R H MM.
  rewrite (yield_cond _ _ _ _ _ _ _ FN_COND_WAIT _ _ (cl_disc _ _ _ _ _ _ R)) in H by (reflexivity || (unfold CY_WAIT; lia)).
  rewrite (cl_cur _ _ _ _ _ _ R) in H.
  change (cond_acts ts other FN_COND_WAIT COND_CTX c b) with (@on_fst (cst T) V (wait_cond ts COND_CTX c b)) in H.
  unfold wait_cond, on_cond in H. rewrite Z.eqb_refl in H. cbn [on_fst happly] in H.
  pose proof (cl_rel _ _ _ _ _ _ R) as BR. set (m := fst (a_user a)) in *.
  rewrite (cond_find _ _ _ _ _ _ b OK BR) in H. unfold cond_step. rewrite (cr_conds _ _ _ BR). destruct (hget (c_conds m) b) as [q|] eqn:G; cbn [need] in H.
  2:{ change (negb (ok ERROR_RBTREE_NOT_FOUND)) with true in H. cbv iota in H. eapply (answered _ _ _ _ _ a a c l l _ _ _ _ _ R); [| | |exact H| |]; auto.
      - intros -> F. rewrite F. reflexivity.
      - intros -> _. cbn [fst]. rewrite told_same. destruct mem; reflexivity. }
  change (negb (ok STATUS_SUCCESS)) with false in H. cbv iota in H. rewrite G in H. cbn [need on_fst happly] in H.
  destruct (alloc_step _ _ _ _ _ _ _ _ R) as (e1 & a1 & E1 & R1 & U1 & D1 & C1 & L1 & M1 & MA). rewrite E1 in H.
  destruct (ok e1) eqn:O1; cbn [negb on_fst happly] in H.
  2:{ assert (mem = true) as -> by (destruct mem; auto; rewrite M1 in O1 by auto; discriminate).
      eapply (answered _ _ _ _ _ a1 a1 c l l _ _ _ _ _ R1); [| | |exact H| |]; auto.
      - apply (cl_rel _ _ _ _ _ _ R1).
      - intros _ F. rewrite F. reflexivity.
      - intros -> MG. cbn [fst]. rewrite refused_yes. rewrite MA, MM in MG. apply app_inv_head in MG. subst mm. reflexivity. }
  pose proof (resume_made _ _ _ _ _ H) as RM. cbn [user_set a_made] in RM.
  assert (mm = []) as -> by (apply (app_inv_head (a_made a)); rewrite <- MM, RM, MA, app_nil_r; auto).
  pose proof H as HH. apply resume_frame in HH. destruct HH as (F1 & F2 & F3 & F4). cbn [user_set a_discs a_cur a_al a_user fst] in *.
  assert (MR : CRel TR mem d a' (if negb (ok (fst o)) then c else runner o) (Waits (hset (c_conds m) b (q ++ [c])) (k_next l))).
  { constructor.
    - rewrite F1, C1, (cl_cur _ _ _ _ _ _ R). destruct (ok (fst o)); reflexivity.
    - rewrite F2, D1. apply (cl_disc _ _ _ _ _ _ R).
    - intros d' z. rewrite F2, D1. apply (cl_others _ _ _ _ _ _ R).
    - intros M. apply F4, L1, (cl_al _ _ _ _ _ _ R), M.
    - rewrite F3. cbn [fst]. rewrite <- (cr_conds _ _ _ BR). apply wait_set. auto. }
  cbn [made_is sure negb]. rewrite andb_false_r. destruct mem; [|exact MR]. destruct (negb (ok (fst o))) eqn:NO; [exact Logic.I|exact MR].
Qed.
Lemma notify_step : forall T V (ts : tops T) (other : acts V) TR Q dels mem d a c l b o a' m, tab_ok ts TR Q -> CRel TR mem d a c l ->
  astep dels (cond_acts ts other) (SYield d CY_NOTIFY_ONE b) a = Some (o, a') -> a_made a' = a_made a ++ m -> steps_on TR mem d a' (cond_step mem d (CNotify b) o m c l).
Proof.
  intros T V ts other TR Q dels mem d a c l b o a' mm OK R H MM.
  rewrite (yield_cond _ _ _ _ _ _ _ FN_COND_NOTIFY_ONE _ _ (cl_disc _ _ _ _ _ _ R)) in H by (reflexivity || (unfold CY_NOTIFY_ONE; lia)).
  rewrite (cl_cur _ _ _ _ _ _ R) in H.
  change (cond_acts ts other FN_COND_NOTIFY_ONE COND_CTX c b) with (@on_fst (cst T) V (notify_one ts COND_CTX c b)) in H.
  unfold notify_one, on_cond in H. rewrite Z.eqb_refl in H. cbn [on_fst happly] in H.
  pose proof (cl_rel _ _ _ _ _ _ R) as BR. set (m := fst (a_user a)) in *.
  rewrite (cond_find _ _ _ _ _ _ b OK BR) in H. unfold cond_step. rewrite (cr_conds _ _ _ BR). destruct (hget (c_conds m) b) as [q|] eqn:G; cbn [need] in H.
  2:{ change (negb (ok ERROR_RBTREE_NOT_FOUND)) with true in H. cbv iota in H.
      eapply (turned _ _ _ _ _ a a c l l _ _ _ _ _ [] _ R); [| | | | |exact H|exact MM]; auto. rewrite app_nil_r. auto. }
  change (negb (ok STATUS_SUCCESS)) with false in H. cbv iota in H. rewrite G in H. cbn [need] in H. destruct q as [|x q].
  - eapply (turned _ _ _ _ _ a a c l l _ _ _ _ _ [] _ R); [| | | | |exact H|exact MM]; auto. rewrite app_nil_r. auto.
  - unfold wake in H. cbn [on_fst happly] in H. change (negb (ok STATUS_SUCCESS)) with false in H. cbv iota in H. cbn [on_fst happly] in H.
    destruct (push false _ _) as [[e a1]|] eqn:P; [|discriminate]. pose proof (push_made _ _ _ _ _ _ P) as PM. pose proof (push_frame _ _ _ _ _ _ P) as ((A & B & C & E) & N).
    cbn [user_set a_made a_cur a_discs a_user a_al] in *.
    eapply (turned _ _ _ _ _ a a1 c l _ _ _ _ _ _ _ _ R); [| | |exact PM| |exact H|exact MM]; auto.
    + rewrite C. cbn [fst]. rewrite <- (cr_conds _ _ _ BR). apply wait_set. auto.
    + intros M. rewrite N by (apply (cl_al _ _ _ _ _ _ R); auto). reflexivity.
Qed.
Lemma wake_all_step : forall T V (TR : T -> list Z -> Prop) mem d (a : ast (cst T * V)) c l k o (a' : ast (cst T * V)) m m', CRel TR mem d a c l -> a_made a' = a_made a ++ m ->
  forall q e a1 m1 l1, (mem = false -> e = STATUS_SUCCESS) -> a_discs a1 = a_discs a -> (a_al a = [] -> a_al a1 = []) -> cond_rel TR (fst (a_user a1)) l1 -> hget (k_waits l1) k = Some q ->
  a_made a1 = a_made a ++ m1 -> (mem = false -> m1 ++ woken q c = m') ->
  resume (happly (on_fst (wake_all k q e (fun e => in_turn c CR_NOTIFY_SUCCESS e))) a1) = Some (o, a') ->
  steps_on TR mem d a' (if mem && (negb (ok (fst o)) || negb (made_is m m')) then Unsaid else sure (ok (fst o) && made_is m m') (Fine (runner o) (Waits (hset (k_waits l1) k []) (k_next l1)))).
Proof.
  intros T V TR mem d a c l k o a' m m' R MM. induction q as [|x q IH]; intros e a1 m1 l1 ES D AL CR G MA ME H; cbn [wake_all] in H.
  - eapply (turned _ _ _ _ _ a a1 c l _ _ _ _ _ _ m1 _ R); [| | |exact MA| |exact H|exact MM]; auto.
    + rewrite hset_id, waits_eta by auto. auto.
    + intros M. rewrite <- ME by auto. rewrite ES by auto. reflexivity.
  - unfold wake in H. cbn [on_fst happly] in H. change (negb (ok STATUS_SUCCESS)) with false in H. cbv iota in H. cbn [on_fst happly] in H.
    destruct (push false _ _) as [[e1 a2]|] eqn:P; [|discriminate]. pose proof (push_made _ _ _ _ _ _ P) as PM. pose proof (push_frame _ _ _ _ _ _ P) as ((A & B & C & E) & N).
    cbn [user_set a_made a_cur a_discs a_user a_al] in *.
    specialize (IH e1 a2 (m1 ++ (if ok e1 then [(false, (x, (CONDITION_ID, CR_WAIT_SUCCESS, STATUS_SUCCESS)))] else [])) (Waits (hset (k_waits l1) k q) (k_next l1))).
    cbn [k_waits k_next] in IH. rewrite hset_hset in IH. apply IH; clear IH.
    + intros M. apply N, AL, (cl_al _ _ _ _ _ _ R). auto.
    + congruence.
    + auto.
    + rewrite C. cbn [fst]. apply wait_set. auto.
    + rewrite hget_hset, Z.eqb_refl, G. auto.
    + rewrite PM, MA, app_assoc. auto.
    + intros M. rewrite N by (apply AL, (cl_al _ _ _ _ _ _ R); auto). rewrite <- app_assoc. rewrite <- (ME M). reflexivity.
    + exact H.
Qed.
Lemma notify_all_step : forall T V (ts : tops T) (other : acts V) TR Q dels mem d a c l b o a' m, tab_ok ts TR Q -> CRel TR mem d a c l ->
  astep dels (cond_acts ts other) (SYield d CY_NOTIFY_ALL b) a = Some (o, a') -> a_made a' = a_made a ++ m -> steps_on TR mem d a' (cond_step mem d (CNotifyAll b) o m c l).
Proof.
  intros T V ts other TR Q dels mem d a c l b o a' mm OK R H MM.
  rewrite (yield_cond _ _ _ _ _ _ _ FN_COND_NOTIFY_ALL _ _ (cl_disc _ _ _ _ _ _ R)) in H by (reflexivity || (unfold CY_NOTIFY_ALL; lia)).
  rewrite (cl_cur _ _ _ _ _ _ R) in H.
  change (cond_acts ts other FN_COND_NOTIFY_ALL COND_CTX c b) with (@on_fst (cst T) V (notify_all ts COND_CTX c b)) in H.
  unfold notify_all, on_cond in H. rewrite Z.eqb_refl in H. cbn [on_fst happly] in H.
  pose proof (cl_rel _ _ _ _ _ _ R) as BR. set (m := fst (a_user a)) in *.
  rewrite (cond_find _ _ _ _ _ _ b OK BR) in H. unfold cond_step. rewrite (cr_conds _ _ _ BR). destruct (hget (c_conds m) b) as [q|] eqn:G; cbn [need] in H.
  2:{ change (negb (ok ERROR_RBTREE_NOT_FOUND)) with true in H. cbv iota in H.
      eapply (turned _ _ _ _ _ a a c l l _ _ _ _ _ [] _ R); [| | | | |exact H|exact MM]; auto. rewrite app_nil_r. auto. }
  change (negb (ok STATUS_SUCCESS)) with false in H. cbv iota in H. rewrite G in H. cbn [need] in H.
  rewrite <- (cr_conds _ _ _ BR). eapply (wake_all_step _ _ _ _ _ a c l b o a' mm _ R MM q _ a [] l); [| | | | | | |exact H]; auto.
  - rewrite (cr_conds _ _ _ BR). auto.
  - rewrite app_nil_r. auto.
Qed.
Lemma made_by_concat : forall U dels (ac : acts U) h a os a', asteps dels ac h a = Some (os, a') ->
  a_made a' = a_made a ++ concat (made_by dels ac h a) /\ length (made_by dels ac h a) = length h /\ length os = length h.
Proof.
  induction h as [|p h IH]; intros a os a' H; cbn [asteps] in H; [inversion H; subst; cbn; rewrite app_nil_r; auto|].
  destruct (astep _ _ _ a) as [[o a1]|] eqn:S1; [|discriminate]. destruct (asteps _ _ _ a1) as [[os1 a2]|] eqn:S2; [|discriminate]. inversion H; subst.
  cbn [made_by]. rewrite S1. apply step_grows in S1 as [m M]. apply IH in S2 as (A & B & C). cbn [concat length]. rewrite A, M, skipn_app, skipn_all, Nat.sub_diag, app_assoc. cbn. auto.
Qed.
Lemma made_by_app : forall U dels (ac : acts U) h1 h2 a os a', asteps dels ac h1 a = Some (os, a') -> made_by dels ac (h1 ++ h2) a = made_by dels ac h1 a ++ made_by dels ac h2 a'.
Proof.
  induction h1 as [|p h1 IH]; intros h2 a os a' H; cbn [asteps] in H; [inversion H; subst; auto|].
  destruct (astep _ _ _ a) as [[o a1]|] eqn:S1; [|discriminate]. destruct (asteps _ _ _ a1) as [[os1 a2]|] eqn:S2; [|discriminate]. inversion H; subst.
  cbn [made_by app]. rewrite S1. erewrite IH by eauto. auto.
Qed.
Lemma asteps_split : forall U dels (ac : acts U) h1 h2 a os a', asteps dels ac (h1 ++ h2) a = Some (os, a') -> exists o1 o2 a1,
  asteps dels ac h1 a = Some (o1, a1) /\ asteps dels ac h2 a1 = Some (o2, a').
Proof.
  induction h1 as [|p h1 IH]; intros h2 a os a' H; [exists [], os, a; auto|]. cbn [app asteps] in H. destruct (astep _ _ _ a) as [[o b]|] eqn:S1; [|discriminate].
  destruct (asteps _ _ (h1 ++ h2) b) as [[l b']|] eqn:S2; [|discriminate]. inversion H; subst. apply IH in S2 as (o1 & o2 & a1 & E1 & E2). exists (o :: o1), o2, a1. cbn [asteps]. rewrite S1, E1. auto.
Qed.
Lemma asteps_join : forall U dels (ac : acts U) h1 h2 a o1 a1 o2 a2, asteps dels ac h1 a = Some (o1, a1) -> asteps dels ac h2 a1 = Some (o2, a2) ->
  asteps dels ac (h1 ++ h2) a = Some (o1 ++ o2, a2).
Proof.
  induction h1 as [|p h1 IH]; intros h2 a o1 a1 o2 a2 H H2; cbn [asteps app] in *; [inversion H; subst; auto|].
  destruct (astep _ _ _ a) as [[o b]|]; [|discriminate]. destruct (asteps _ _ h1 b) as [[l b']|] eqn:E; [|discriminate]. inversion H; subst. erewrite IH by eauto. reflexivity.
Qed.
Lemma closes_app : forall T V dels (ac : acts (cst T * V)) Q d pre t h a os a1, closes dels ac Q d pre (t ++ h) a -> asteps dels ac (pre ++ map (csop d) t) a = Some (os, a1) ->
  closes dels ac Q d [] h a1.
Proof.
  intros T V dels ac Q d pre t h a os a1 C H h1 b h2 o2 a2 -> H2. cbn [app] in H2. eapply (C (t ++ h1) b h2); [rewrite <- app_assoc; reflexivity|].
  rewrite map_app, app_assoc. eapply asteps_join; eauto.
Qed.
Lemma closes_none : forall T V dels (ac : acts (cst T * V)) Q d pre h a, no_cond_close h -> closes dels ac Q d pre h a.
Proof. intros T V dels ac Q d pre h a N h1 b h2 os a1 ->. exfalso. apply (N b), in_elt. Qed.
Lemma closes_all : forall T V dels (ac : acts (cst T * V)) d pre h a, closes dels ac (fun _ _ => True) d pre h a.
Proof. intros T V dels ac d pre h a h1 b h2 os a1 _ _. exact Logic.I. Qed.
(** A way to check it. *)
Fixpoint closesb {T V} (dels : bool) (ac : acts (cst T * V)) (qb : T -> Z -> bool) (d : Z) (h : list cop) (a : ast (cst T * V)) : bool :=
  match h with
  | [] => true
  | p :: h => match p with CClose k => qb (c_tree (fst (a_user a))) k | _ => true end &&
      match astep dels ac (csop d p) a with Some (_, a) => closesb dels ac qb d h a | None => true end
  end.
Lemma closesb_ok : forall T V dels (ac : acts (cst T * V)) qb (Q : T -> Z -> Prop) d pre h a os a1, (forall t k, qb t k = true -> Q t k) -> asteps dels ac pre a = Some (os, a1) -> closesb dels ac qb d h a1 = true ->
  closes dels ac Q d pre h a.
Proof.
  intros T V dels ac qb Q d pre h a os a1 QB P B h1 b h2 o2 a2 E H. apply asteps_split in H as (o3 & o4 & a3 & H1 & H2). rewrite P in H1. inversion H1; subst o3 a3; clear H1 P.
  revert h a1 o4 E H2 B. induction h1 as [|p h1 IH]; intros h a1 o4 E H B; subst h; cbn [app closesb map asteps] in *.
  - inversion H; subst. apply andb_prop in B as [B _]. auto.
  - destruct (astep _ _ _ a1) as [[o5 a5]|]; [|discriminate]. destruct (asteps _ _ _ a5) as [[o6 a6]|] eqn:H2; [|discriminate]. inversion H; subst. apply andb_prop in B as [_ B]. eapply IH; eauto.
Qed.
Lemma run_steps : forall T V (ts : tops T) (other : acts V) TR Q dels mem d h a c l os a', tab_ok ts TR Q -> closes dels (cond_acts ts other) Q d [] h a -> CRel TR mem d a c l ->
  asteps dels (cond_acts ts other) (map (csop d) h) a = Some (os, a') ->
  steps_on TR mem d a' (cond_run mem d h os (made_by dels (cond_acts ts other) (map (csop d) h) a) c l).
Proof.
  intros T V ts other TR Q dels mem d. induction h as [|p h IH]; intros a c l os a' OK CL R H.
  - cbn in H. inversion H; subst. cbn. auto.
  - cbn [map asteps] in H. cbn [map made_by]. destruct (astep _ _ _ a) as [[o a1]|] eqn:S1; [|discriminate]. destruct (asteps _ _ _ a1) as [[os1 a2]|] eqn:S2; [|discriminate]. inversion H; subst; clear H.
    pose proof (step_grows _ _ _ _ _ _ _ S1) as [m M].
    assert (ST : steps_on TR mem d a1 (cond_step mem d p o m c l)).
    { destruct p as [|k|k|k|k|q]; cbn [csop] in S1.
      - eapply create_step; eauto.
      - eapply close_step; eauto. eapply (CL [] k h); reflexivity.
      - eapply wait_step; eauto.
      - eapply notify_step; eauto.
      - eapply notify_all_step; eauto.
      - unfold cond_step. destruct (foreign cond_fn d q) eqn:F; [|exact Logic.I].
        eapply (step_frame _ (fun u => fst u = fst (a_user a)) cond_fn) in S1; eauto; [|intros; apply cond_foreign; auto|apply (cl_disc _ _ _ _ _ _ R)|reflexivity|apply (cl_others _ _ _ _ _ _ R)].
        destruct S1 as (S1 & S3 & S4 & S5 & S6). destruct R. subst c. constructor; auto. rewrite S5. auto. }
    rewrite M, skipn_app, skipn_all, Nat.sub_diag. cbn [app skipn cond_run].
    destruct (cond_step mem d p o m c l) as [c1 l1| |]; [|exact ST|exact ST].
    eapply IH; eauto. eapply (closes_app _ _ _ _ _ _ [] [p]); [exact CL|]. cbn [map app asteps]. rewrite S1. reflexivity.
Qed.
Lemma setup_rel : forall T V (ts : tops T) (other : acts V) TR Q dels (v : V) m al d junk os a mem, tab_ok ts TR Q -> (mem = false -> al = []) ->
  asteps dels (cond_acts ts other) (cond_setup junk d) (al_set al (ainit (cond_none ts, v) m)) = Some (os, a) -> os = [(STATUS_SUCCESS, nowhere); (STATUS_SUCCESS, nowhere)] ->
  CRel TR mem d a m no_waits /\ a_made a = [].
Proof.
  intros T V ts other TR Q dels v m al d junk os a mem OK ME H ->. unfold cond_setup in H. cbn [asteps] in H.
  destruct (astep _ _ (SDisc _ _ _ _ _) _) as [[o1 a1]|] eqn:S1; [|discriminate]. destruct (astep _ _ (SDiscAdd d) a1) as [[o2 a2]|] eqn:S2; [|discriminate].
  inversion H; subst; clear H. cbn [astep] in S1. destruct (_ || _) eqn:Q1; [discriminate|]. inversion S1; subst; clear S1.
  apply orb_false_iff in Q1 as [Q1 Q2]. apply zmem_not in Q2. cbn [al_set ainit a_discs addrs map fst] in Q2.
  assert (ND : MGMT_DISC <> d) by (intros E; apply Q2; left; exact E).
  cbn [astep] in S2. cbn [discs_set a_discs] in S2. rewrite hget_hadd_same in S2. cbn [dd_owned] in S2.
  destruct (existsb _ _); [inversion S2|].
  match type of S2 with context [alloc_spec ?b] => pose proof (alloc_frame _ b) as A1; pose proof (alloc_made _ b) as B1; destruct (alloc_spec b) as [e1 a1] end. cbn [snd] in A1, B1.
  destruct (ok e1) eqn:O1; cbn [negb] in S2; [|inversion S2; subst; discriminate].
  match type of S2 with context [alloc_spec ?b] => pose proof (alloc_frame _ b) as A2; pose proof (alloc_made _ b) as B2; destruct (alloc_spec b) as [e2 a2] end. cbn [snd] in A2, B2.
  destruct (ok e2) eqn:O2; cbn [negb] in S2; [|inversion S2; subst; discriminate].
  pose proof (alloc_frame _ a2) as A3. pose proof (alloc_made _ a2) as B3. destruct (alloc_spec a2) as [e3 a3]. cbn [snd] in A3, B3.
  destruct (ok e3) eqn:O3; cbn [negb] in S2; [|inversion S2; subst; discriminate].
  destruct (_ <? _); inversion S2; subst; clear S2.
  destruct A1 as (C1 & D1 & U1 & L1), A2 as (C2 & D2 & U2 & L2), A3 as (C3 & D3 & U3 & L3). cbn [discs_set al_set ainit a_cur a_discs a_user a_al a_made] in *.
  split; [|congruence].
  assert (DD1 : a_discs a3 = hadd [(MGMT_DISC, mgmt_dd)] d (DD false CONDITION_ID COND_CTX cond_cbs)) by (rewrite D3, D2, D1; reflexivity).
  constructor; cbn [discs_set a_cur a_discs a_user a_al].
  - congruence.
  - rewrite DD1. cbn [hadd hset]. rewrite Z.eqb_refl. cbn [hget]. rewrite Z.eqb_refl. reflexivity.
  - intros d' x G N. cbn [discs_set a_discs] in G. rewrite DD1 in G. cbn [hadd hset] in G. rewrite Z.eqb_refl in G. cbn [hget] in G.
    apply Z.eqb_neq in N. rewrite N in G. destruct (d' =? MGMT_DISC); inversion G; subst. reflexivity.
  - intros M. apply L3, L2, L1, ME, M.
  - rewrite U3, U2, U1. cbn [fst]. constructor; cbn [cond_none c_tree c_conds c_index no_waits k_waits k_next]; auto; try lia.
    + exists []. split; [apply (tb_empty _ _ _ OK)|]. split; [constructor|]. reflexivity.
    + split; cbn; [constructor|auto].
    + intros k [].
Qed.
