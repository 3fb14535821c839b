From Coq Require Import Permutation.
From Verif Require Import Base Status MemModel MemProofs Heap TabModel SchedModel SchedSpec SchedProofs SchedHist DiscFrame MsgModel MsgSpec CondModel CondSpec IoModel EventModel EventSpec.

(** ** The lists of fibers in heaps *)
Lemma hget_split : forall A (h : heap A) k v, hget h k = Some v ->
  exists l1 l2, h = l1 ++ (k, v) :: l2 /\ (forall v', hset h k v' = l1 ++ (k, v') :: l2) /\ hdel h k = l1 ++ l2.
Proof.
  induction h as [|[q w] h IH]; intros k v G; cbn [hget] in G; [discriminate|]. destruct (Z.eqb_spec k q) as [->|N].
  - inversion G; subst. exists [], h. cbn [hset hdel]. rewrite Z.eqb_refl. auto.
  - destruct (IH _ _ G) as (l1 & l2 & E & F & D). exists ((q, w) :: l1), l2. cbn [hset hdel app]. apply Z.eqb_neq in N. rewrite N. split; [congruence|]. split; [intros v'; rewrite F; auto|congruence].
Qed.
Lemma fm_perm : forall A B (F : Z * A -> list B) l1 x l2, Permutation (flat_map F (l1 ++ x :: l2)) (F x ++ flat_map F (l1 ++ l2)).
Proof.
  intros. rewrite !flat_map_app. cbn [flat_map]. rewrite !app_assoc. apply Permutation_app_tail. apply Permutation_app_comm.
Qed.
Lemma fm_heap : forall A B (F : A -> list B) (h : heap A) k v, hget h k = Some v -> exists R,
  Permutation (flat_map (fun x => F (snd x)) h) (F v ++ R) /\
  (forall v', Permutation (flat_map (fun x => F (snd x)) (hset h k v')) (F v' ++ R)) /\
  flat_map (fun x => F (snd x)) (hdel h k) = R.
Proof.
  intros A B F h k v G. destruct (hget_split _ _ _ _ G) as (l1 & l2 & E & S & D). exists (flat_map (fun x => F (snd x)) (l1 ++ l2)).
  split; [rewrite E; apply fm_perm|]. split; [intros v'; rewrite S; apply fm_perm|]. rewrite D. auto.
Qed.

(** ** Where the fibers are *)
Definition one_box (b : mbox) : list Z := if b_blocked b =? 0 then [] else [b_blocked b].
Definition in_boxes {T} (m : mst T) : list Z := flat_map (fun x => one_box (snd x)) (m_boxes m).
Definition in_conds {T} (m : cst T) : list Z := flat_map (fun x => snd x) (c_conds m).
Definition rfib (x : bool * entry) : Z := fst (snd x).
Definition res_of (x : entry) : EventModel.resume := let '(_, (d, e, p)) := x in Res d e p.
Record Mid (pn : heap want) (rd : list (bool * entry)) (bl wt : list Z) : Prop := MkMid
  { md_nd : NoDup (map rfib rd ++ bl ++ wt);
    md_rd : forall x, In x rd -> exists w, hget pn (rfib x) = Some w /\ fits w (res_of (snd x)) = true;
    md_bl : forall f, In f bl -> hget pn f = Some (WCall BReceive);
    md_wt : forall f, In f wt -> hget pn f = Some (WCall BCondWait) }.
Definition mid {T T2 V} (pn : heap want) (a : ast (mst T * (cst T2 * V))) : Prop :=
  Mid pn (a_ready a) (in_boxes (fst (a_user a))) (in_conds (fst (snd (a_user a)))).
Definition parts {T T2 V} (a : ast (mst T * (cst T2 * V))) : list Z :=
  map rfib (a_ready a) ++ in_boxes (fst (a_user a)) ++ in_conds (fst (snd (a_user a))).
Lemma Mid_perm : forall pn rd bl wt bl' wt', Mid pn rd bl wt -> Permutation bl bl' -> Permutation wt wt' -> Mid pn rd bl' wt'.
Proof.
  intros pn rd bl wt bl' wt' [A B C D] P Q. constructor.
  - eapply Permutation_NoDup; [|exact A]. apply Permutation_app_head. apply Permutation_app; auto.
  - auto.
  - intros f I. apply C. eapply Permutation_in; [apply Permutation_sym|]; eauto.
  - intros f I. apply D. eapply Permutation_in; [apply Permutation_sym|]; eauto.
Qed.
Lemma Mid_push : forall pn rd bl wt x (front : bool) w, Mid pn rd bl wt -> ~ In (rfib x) (map rfib rd ++ bl ++ wt) ->
  hget pn (rfib x) = Some w -> fits w (res_of (snd x)) = true -> Mid pn (if front then x :: rd else rd ++ [x]) bl wt.
Proof.
  intros pn rd bl wt x front w [A B C D] N G F. constructor; auto.
  - apply (Permutation_NoDup (l := rfib x :: map rfib rd ++ bl ++ wt)); [|constructor; auto].
    destruct front; [reflexivity|]. rewrite map_app. cbn [map]. rewrite <- app_assoc. cbn [app]. apply Permutation_middle.
  - intros y I. assert (I' : y = x \/ In y rd) by (destruct front; [destruct I; auto|apply in_app_or in I as [I|[I|[]]]; auto]).
    destruct I' as [->|I']; eauto.
Qed.
(** A blocked fiber becomes ready. *)
Lemma Mid_unblock : forall pn rd f bl wt, Mid pn rd (f :: bl) wt -> ~ In f (map rfib rd ++ bl ++ wt) /\ hget pn f = Some (WCall BReceive) /\ Mid pn rd bl wt.
Proof.
  intros pn rd f bl wt [A B C D].
  assert (P : Permutation (map rfib rd ++ (f :: bl) ++ wt) (f :: map rfib rd ++ bl ++ wt)) by (apply Permutation_sym, Permutation_middle).
  apply (Permutation_NoDup P) in A. inversion A; subst. split; auto. split; [apply C; left; auto|]. constructor; auto. intros x I. apply C. right. auto.
Qed.
Lemma Mid_unwait : forall pn rd f bl wt, Mid pn rd bl (f :: wt) -> ~ In f (map rfib rd ++ bl ++ wt) /\ hget pn f = Some (WCall BCondWait) /\ Mid pn rd bl wt.
Proof.
  intros pn rd f bl wt [A B C D].
  assert (P : Permutation (map rfib rd ++ bl ++ f :: wt) (f :: map rfib rd ++ bl ++ wt)).
  { rewrite !app_assoc. apply Permutation_sym, Permutation_middle. }
  apply (Permutation_NoDup P) in A. inversion A; subst. split; auto. split; [apply D; left; auto|]. constructor; auto. intros x I. apply D. right. auto.
Qed.
Lemma Mid_block : forall pn rd f bl wt, Mid pn rd bl wt -> ~ In f (map rfib rd ++ bl ++ wt) -> hget pn f = Some (WCall BReceive) -> Mid pn rd (f :: bl) wt.
Proof.
  intros pn rd f bl wt [A B C D] N G. constructor; auto.
  - apply (Permutation_NoDup (l := f :: map rfib rd ++ bl ++ wt)); [apply (Permutation_middle (map rfib rd) (bl ++ wt) f)|constructor; auto].
  - intros x [<-|I]; auto.
Qed.
Lemma Mid_wait : forall pn rd f bl wt, Mid pn rd bl wt -> ~ In f (map rfib rd ++ bl ++ wt) -> hget pn f = Some (WCall BCondWait) -> Mid pn rd bl (f :: wt).
Proof.
  intros pn rd f bl wt [A B C D] N G. constructor; auto.
  - apply (Permutation_NoDup (l := f :: map rfib rd ++ bl ++ wt)); [|constructor; auto]. rewrite !app_assoc. apply Permutation_middle.
  - intros x [<-|I]; auto.
Qed.
Lemma Mid_drop : forall pn rd bl wt x, Mid pn rd (x ++ bl) wt -> Mid pn rd bl wt.
Proof. induction x as [|f x IH]; intros M; auto. cbn [app] in M. apply Mid_unblock in M as (_ & _ & M). auto. Qed.
Lemma Mid_dropw : forall pn rd bl wt x, Mid pn rd bl (x ++ wt) -> Mid pn rd bl wt.
Proof. induction x as [|f x IH]; intros M; auto. cbn [app] in M. apply Mid_unwait in M as (_ & _ & M). auto. Qed.

(** ** What code of a discipline leaves alone *)
Definition keeps {U} (a a' : ast U) : Prop := a_cur a' = a_cur a /\ a_discs a' = a_discs a /\ a_idle a' = a_idle a /\ a_mgmt a' = a_mgmt a.
Lemma keeps_refl : forall U (a : ast U), keeps a a. Proof. repeat split. Qed.
Lemma keeps_trans : forall U (a b c : ast U), keeps a b -> keeps b c -> keeps a c.
Proof. intros U a b c (A & B & C & D) (E & F & G & H). repeat split; congruence. Qed.
Lemma alloc_keeps : forall U (a : ast U), keeps a (snd (alloc_spec a)) /\ a_ready (snd (alloc_spec a)) = a_ready a /\ a_user (snd (alloc_spec a)) = a_user a.
Proof. intros. unfold alloc_spec. destruct (a_al a); cbn; repeat split. Qed.
Lemma is_ready_in : forall U f (a : ast U), is_ready f a = false -> ~ In f (map rfib (a_ready a)).
Proof.
  intros U f a R I. apply in_map_iff in I as (x & E & I). assert (K : is_ready f a = true); [|congruence].
  apply existsb_exists. exists x. split; [exact I|]. cbn beta. rewrite <- E. apply Z.eqb_refl.
Qed.
Lemma push_keeps : forall U front x (a : ast U) e a', push front x a = Some (e, a') ->
  keeps a a' /\ a_user a' = a_user a /\ ~ In (fst x) (map rfib (a_ready a)) /\ a_ready a' = (if ok e then (if front then (front, x) :: a_ready a else a_ready a ++ [(front, x)]) else a_ready a).
Proof.
  intros U front x a e a' H. unfold push in H. destruct (hget _ _) as [s|]; [|discriminate]. destruct (_ || _) eqn:R; [discriminate|].
  apply orb_false_iff in R as [_ R]. apply is_ready_in in R. destruct (alloc_keeps _ a) as (K & L & M). destruct (alloc_spec a) as [ea a1]. cbn [snd] in *.
  destruct (ok ea) eqn:O; cbn [negb] in H; inversion H; subst; cbn [a_user a_ready].
  - split; [exact K|]. split; [auto|]. split; [auto|]. change (ok STATUS_SUCCESS) with true. cbv iota. rewrite L. reflexivity.
  - rewrite O. auto.
Qed.
Lemma happly_keeps : forall U (c : hprog U) (a : ast U) e a', happly c a = Some (e, a') -> keeps a a'.
Proof.
  induction c as [e0|front x k IH|k IH|k IH|k IH|u k IH|]; intros a e a' H; cbn [happly] in H.
  - inversion H; subst. apply keeps_refl.
  - destruct (push front x a) as [[st a1]|] eqn:P; [|discriminate]. apply push_keeps in P as (K & _). eapply keeps_trans; eauto.
  - destruct (alloc_keeps _ a) as (K & _). destruct (alloc_spec a) as [st a1]. eapply keeps_trans; eauto.
  - eauto.
  - eauto.
  - apply IH in H. exact H.
  - discriminate.
Qed.

(** ** Handlers *)
Section Handlers.
Context {T T2 V : Type}.
Implicit Types a : ast (mst T * (cst T2 * V)).
Lemma mid_push : forall pn front (x : entry) a e a' w, push front x a = Some (e, a') -> mid pn a -> ~ In (fst x) (in_boxes (fst (a_user a)) ++ in_conds (fst (snd (a_user a)))) ->
  hget pn (fst x) = Some w -> fits w (res_of x) = true -> mid pn a' /\ a_user a' = a_user a.
Proof.
  intros pn front x a e a' w P M N G F. apply push_keeps in P as (_ & U & R & L). split; auto. unfold mid in *. rewrite U, L.
  destruct (ok e); auto. destruct front.
  - apply (Mid_push _ _ _ _ (true, x) true w); auto. cbn [rfib fst snd]. intros I. apply in_app_or in I as [I|I]; auto.
  - apply (Mid_push _ _ _ _ (false, x) false w); auto. cbn [rfib fst snd]. intros I. apply in_app_or in I as [I|I]; auto.
Qed.
Lemma mid_alloc : forall pn a, mid pn a -> mid pn (snd (alloc_spec a)).
Proof. intros pn a M. destruct (alloc_keeps _ a) as (_ & R & U). unfold mid in *. rewrite R, U. auto. Qed.
Lemma parts_alloc : forall a, parts (snd (alloc_spec a)) = parts a.
Proof. intros a. destruct (alloc_keeps _ a) as (_ & R & U). unfold parts. rewrite R, U. auto. Qed.
Lemma user_alloc : forall a, a_user (snd (alloc_spec a)) = a_user a.
Proof. intros a. apply alloc_keeps. Qed.
Lemma parts_rest : forall f a, ~ In f (parts a) -> ~ In f (in_boxes (fst (a_user a)) ++ in_conds (fst (snd (a_user a)))).
Proof. intros f a N I. apply N, in_or_app. auto. Qed.

(** The yielding fiber is answered. *)
Lemma mid_answer : forall pn a yf ev p w e a', mid pn a -> ~ In yf (parts a) -> hget pn yf = Some w -> fits w (Res MESSAGE_ID ev p) = true ->
  happly (on_fst (answer yf ev p)) a = Some (e, a') -> mid pn a'.
Proof.
  intros pn a yf ev p w e a' M N G F H. unfold answer in H. cbn [on_fst happly] in H. destruct (push _ _ a) as [[st a1]|] eqn:P; [|discriminate].
  inversion H; subst. eapply mid_push; eauto. apply parts_rest; auto.
Qed.

Definition turn (pn : heap want) a yf (w : want) : Prop := mid pn a /\ ~ In yf (parts a) /\ hget pn yf = Some w.
Lemma turn_alloc : forall pn a yf w, turn pn a yf w -> turn pn (snd (alloc_spec a)) yf w /\ a_user (snd (alloc_spec a)) = a_user a.
Proof. intros pn a yf w (A & B & C). split; [|apply user_alloc]. split; [apply mid_alloc; auto|]. rewrite parts_alloc. auto. Qed.
(** The state changes, but not who waits. *)
Lemma turn_same : forall pn a yf w m c v, turn pn a yf w -> Permutation (in_boxes (fst (a_user a))) (in_boxes m) -> Permutation (in_conds (fst (snd (a_user a)))) (in_conds c) -> turn pn (user_set (m, (c, v)) a) yf w.
Proof.
  intros pn a yf w m c v (A & B & C) P Q. split; [|split; auto].
  - unfold mid in *. cbn [user_set a_ready a_user fst snd]. eapply Mid_perm; eauto.
  - intros I. apply B. unfold parts in *. cbn [user_set a_ready a_user fst snd] in I. apply in_app_or in I as [I|I]; apply in_or_app; [auto|right].
    apply in_app_or in I as [I|I]; apply in_or_app; [left|right]; (eapply Permutation_in; [apply Permutation_sym|]; eauto).
Qed.
Lemma turn_less : forall pn a yf w m c v x y, turn pn a yf w -> Permutation (in_boxes (fst (a_user a))) (x ++ in_boxes m) -> Permutation (in_conds (fst (snd (a_user a)))) (y ++ in_conds c) -> turn pn (user_set (m, (c, v)) a) yf w.
Proof.
  intros pn a yf w m c v x y (A & B & C) P Q. split; [|split; auto].
  - unfold mid in *. cbn [user_set a_ready a_user fst snd]. eapply Mid_drop, Mid_dropw, Mid_perm; eauto.
  - intros I. apply B. unfold parts in *. cbn [user_set a_ready a_user fst snd] in I. apply in_app_or in I as [I|I]; apply in_or_app; [auto|right].
    apply in_app_or in I as [I|I]; apply in_or_app; [left|right]; (eapply Permutation_in; [apply Permutation_sym; eauto|apply in_or_app; auto]).
Qed.
Lemma turn_answer : forall pn a yf w ev p e a', turn pn a yf w -> fits w (Res MESSAGE_ID ev p) = true -> happly (on_fst (answer yf ev p)) a = Some (e, a') -> mid pn a'.
Proof. intros pn a yf w ev p e a' (A & B & C) F H. eapply mid_answer; eauto. Qed.

Ltac malloc H R := match type of H with context [alloc_spec ?b] => let K := fresh in let U := fresh "U" in
  destruct (turn_alloc _ b _ _ R) as (K & U); destruct (alloc_spec b) as [? ?]; cbn [snd] in K, U; clear R; rename K into R end.

Lemma in_boxes_set : forall (m : mst T) k b b', hget (m_boxes m) k = Some b -> one_box b' = one_box b -> Permutation (in_boxes m) (in_boxes (set_box k b' m)).
Proof.
  intros m k b b' G E. destruct (fm_heap _ _ one_box _ _ _ G) as (R & P & S & _). unfold in_boxes, set_box. cbn [m_boxes]. rewrite P, S, E. reflexivity.
Qed.
Lemma create_mid : forall ts pn a yf cx p e a', turn pn a yf (WCall BMailboxCreate) -> happly (on_fst (create_box ts cx yf p)) a = Some (e, a') -> mid pn a'.
Proof.
  intros ts pn a yf cx p e a' R H. unfold create_box, on_msg in H. destruct (cx =? MSG_CTX); [|discriminate]. cbn [on_fst happly] in H.
  assert (FA : forall b x, turn pn b yf (WCall BMailboxCreate) -> happly (on_fst (answer yf MR_CREATE_FAILURE x)) b = Some (e, a') -> mid pn a') by (intros; eapply (turn_answer _ _ _ (WCall BMailboxCreate)); [eassumption| |eassumption]; reflexivity).
  malloc H R. destruct (ok z) eqn:O1; cbn [negb] in H; [|eauto]. cbn [on_fst happly] in H.
  malloc H R. destruct (ok z0) eqn:O2; cbn [negb] in H; [|cbn [on_fst happly] in H; eauto]. cbn [on_fst happly] in H.
  malloc H R. destruct (ok z1) eqn:O3; cbn [negb] in H; [|cbn [on_fst happly] in H; eauto]. cbn [on_fst happly] in H.
  malloc H R. unfold need in H. destruct (t_insert ts _ _ _) as [[ei t]|]; [|discriminate]. destruct (ok ei); cbn [negb] in H; cbn [on_fst happly] in H; [|eauto].
  eapply (turn_answer _ _ _ (WCall BMailboxCreate)); [| |exact H]; [|reflexivity].
  rewrite U2, U1, U0, U. destruct (a_user a) as [m [c v]] eqn:E. cbn [fst snd].
  apply turn_same; auto; rewrite U2, U1, U0, U; cbn [fst snd]; [|reflexivity]. unfold in_boxes. cbn [m_boxes hadd flat_map snd one_box b_blocked]. reflexivity.
Qed.
Lemma released_boxes : forall l (m m' : mst T), msgs_release l m = Some m' -> m_boxes m' = m_boxes m.
Proof.
  induction l as [|x l IH]; intros m m' H; cbn [msgs_release] in H; [inversion H; auto|]. unfold msg_release in H. destruct (hget _ x); [|discriminate].
  apply IH in H. auto.
Qed.
Lemma close_mid : forall ts pn a yf cx p e a', turn pn a yf (WCall BMailboxClose) -> happly (on_fst (close_box ts cx yf p)) a = Some (e, a') -> mid pn a'.
Proof.
  intros ts pn a yf cx p e a' R H. unfold close_box, on_msg in H. destruct (cx =? MSG_CTX); [|discriminate]. cbn [on_fst happly] in H.
  unfold need in H. destruct (t_delete ts _ _) as [[ed t]|]; [|discriminate]. cbn [m_boxes m_index m_msgs m_rel m_tree] in H.
  destruct (a_user a) as [m [c v]] eqn:E. cbn [fst snd] in H.
  destruct (ok ed); cbn [negb] in H; cbn [on_fst happly] in H.
  - destruct (hget (m_boxes m) p) as [b|] eqn:G; [|discriminate]. destruct (msgs_release _ _) as [m2|] eqn:MR; [|discriminate]. cbn [on_fst happly] in H.
    rewrite E in H. cbn [snd] in H. apply released_boxes in MR. cbn [m_boxes] in MR. destruct (fm_heap _ _ one_box _ _ _ G) as (Q & P & _ & D).
    eapply (turn_answer _ _ _ (WCall BMailboxClose)); [| |exact H]; [|reflexivity]. eapply (turn_less _ _ _ _ _ _ _ (one_box b) []); eauto; rewrite E; cbn [fst snd]; [|reflexivity].
    unfold in_boxes. cbn [m_boxes]. rewrite MR, D. exact P.
  - eapply (turn_answer _ _ _ (WCall BMailboxClose)); [| |exact H]; [|reflexivity]. rewrite E. cbn [snd]. apply turn_same; auto; rewrite E; reflexivity.
Qed.
Lemma send_mid : forall ts pn a yf cx p e a', turn pn a yf (WCall BSend) -> happly (on_fst (send ts cx yf p)) a = Some (e, a') -> mid pn a'.
Proof.
  intros ts pn a yf cx p e a' R H. unfold send, on_msg in H. destruct (cx =? MSG_CTX); [|discriminate]. cbn [on_fst happly] in H.
  assert (FA : forall b x, turn pn b yf (WCall BSend) -> happly (on_fst (answer yf MR_SEND_FAILURE x)) b = Some (e, a') -> mid pn a') by (intros; eapply (turn_answer _ _ _ (WCall BSend)); [eassumption| |eassumption]; reflexivity).
  destruct (a_user a) as [m [c v]] eqn:E. cbn [fst snd] in H. unfold need in H.
  destruct (hget (m_msgs m) p) as [g|]; [|discriminate]. destruct (t_find ts _ _) as [[ef k]|]; [|discriminate].
  destruct (ok ef); cbn [negb] in H; [|eauto]. destruct (hget (m_boxes m) k) as [b|] eqn:G; [|discriminate]. cbn [on_fst happly] in H.
  malloc H R. destruct (ok z) eqn:O1; cbn [negb] in H; [|eauto]. cbn [on_fst happly] in H. rewrite U in H. rewrite E in H. cbn [snd] in H.
  set (m1 := set_box k (Mbox (b_blocked b) (b_queue b ++ [p])) m) in *.
  assert (R1 : turn pn (user_set (m1, (c, v)) a0) yf (WCall BSend)).
  { apply turn_same; auto; rewrite U, E; cbn [fst snd]; [|reflexivity]. eapply in_boxes_set; eauto. }
  destruct (push _ _ _) as [[st a2]|] eqn:P; [|discriminate]. pose proof P as P'. destruct R1 as (R1 & R2 & R3).
  eapply mid_push in P; eauto; [|apply parts_rest; auto]. destruct P as (M2 & U2). cbn [user_set a_user] in U2.
  destruct (ok st); cbn [negb] in H; cbn [on_fst happly] in H; [|inversion H; subst; auto].
  destruct (b_blocked b =? 0) eqn:B0; cbn [negb] in H; [cbn [on_fst happly] in H; inversion H; subst; auto|].
  unfold pop_box in H. cbn [on_fst happly b_queue b_blocked] in H. destruct (b_queue b ++ [p]) as [|y q] eqn:EQ; [discriminate|]. cbn [on_fst happly] in H. change (ok STATUS_SUCCESS) with true in H. cbv iota in H. cbn [negb] in H.
  rewrite U2 in H. cbn [fst snd] in H.
  assert (G1 : hget (m_boxes m1) k = Some (Mbox (b_blocked b) (b_queue b ++ [p]))) by (unfold m1, set_box; cbn [m_boxes]; rewrite EQ; eapply hget_hset_same; eauto).
  destruct (fm_heap _ _ one_box _ _ _ G1) as (Q & PQ & SQ & _). specialize (SQ (Mbox 0 q)).
  unfold one_box at 2 in PQ. cbn [b_blocked] in PQ. rewrite B0 in PQ. cbn [app] in PQ. unfold one_box at 2 in SQ. cbn [b_blocked Z.eqb app] in SQ.
  unfold mid in M2. rewrite U2 in M2. cbn [fst snd] in M2. unfold in_boxes at 1 in M2. eapply Mid_perm in M2; [|exact PQ|reflexivity].
  apply Mid_unblock in M2 as (N2 & G2 & M2).
  eapply (mid_answer pn _ (b_blocked b)); [| |exact G2| |exact H]; [| |reflexivity].
  - unfold mid. cbn [user_set a_ready a_user fst snd]. eapply Mid_perm; [exact M2| |reflexivity]. unfold in_boxes, set_box. cbn [m_boxes]. apply Permutation_sym. exact SQ.
  - unfold parts. cbn [user_set a_ready a_user fst snd]. intros I. apply N2. apply in_app_or in I as [I|I]; apply in_or_app; auto. right.
    apply in_app_or in I as [I|I]; apply in_or_app; auto. left. unfold in_boxes, set_box in I. cbn [m_boxes] in I. eapply Permutation_in; [exact SQ|exact I].
Qed.
Lemma receive_mid : forall ts pn a yf cx p e a', turn pn a yf (WCall BReceive) -> happly (on_fst (receive ts cx yf p)) a = Some (e, a') -> mid pn a'.
Proof.
  intros ts pn a yf cx p e a' R H. unfold receive, on_msg in H. destruct (cx =? MSG_CTX); [|discriminate]. cbn [on_fst happly] in H.
  assert (FA : forall b x, turn pn b yf (WCall BReceive) -> happly (on_fst (answer yf MR_RECEIVE_FAILURE x)) b = Some (e, a') -> mid pn a') by (intros; eapply (turn_answer _ _ _ (WCall BReceive)); [eassumption| |eassumption]; reflexivity).
  destruct (a_user a) as [m [c v]] eqn:E. cbn [fst snd] in H. unfold need in H.
  destruct (t_find ts _ _) as [[ef k]|]; [|discriminate].
  destruct (ok ef); cbn [negb] in H; [|eauto]. destruct (hget (m_boxes m) k) as [b|] eqn:G; [|discriminate].
  destruct (b_queue b) as [|y q] eqn:BQ.
  - destruct (b_blocked b =? 0) eqn:B0; cbn [negb] in H; [|eauto]. cbn [on_fst happly] in H. inversion H; subst. rewrite E. cbn [snd].
    destruct R as (R1 & R2 & R3). unfold mid in *. cbn [user_set a_ready a_user fst snd]. rewrite E in R1. cbn [fst snd] in R1.
    unfold parts in R2. rewrite E in R2. cbn [fst snd] in R2.
    destruct (fm_heap _ _ one_box _ _ _ G) as (Q & PQ & SQ & _). specialize (SQ (Mbox yf [])). unfold one_box at 2 in PQ. rewrite B0 in PQ. cbn [app] in PQ.
    unfold one_box at 2 in SQ. cbn [b_blocked] in SQ.
    destruct (Z.eqb_spec yf 0) as [Y|Y].
    + eapply Mid_perm; [exact R1| |reflexivity]. unfold in_boxes, set_box. cbn [m_boxes]. rewrite PQ, SQ. reflexivity.
    + eapply Mid_perm; [apply (Mid_block _ _ yf _ _ R1 R2 R3)| |reflexivity]. unfold in_boxes, set_box. cbn [m_boxes]. rewrite PQ, SQ. reflexivity.
  - unfold pop_box in H. cbn [on_fst happly] in H. rewrite BQ in H. cbn [on_fst happly] in H. change (ok STATUS_SUCCESS) with true in H. cbv iota in H. cbn [negb] in H.
    eapply (turn_answer _ _ _ (WCall BReceive)); [| |exact H]; [|reflexivity]. rewrite E. cbn [fst snd]. apply turn_same; auto; rewrite E; cbn [fst snd]; [|reflexivity]. eapply in_boxes_set; eauto.
Qed.

(** Conditions. *)
Lemma mid_told : forall pn a yf front ev p w e a', mid pn a -> ~ In yf (parts a) -> hget pn yf = Some w -> fits w (Res CONDITION_ID ev p) = true ->
  happly (on_snd (on_fst (HReady front (yf, (CONDITION_ID, ev, p)) (fun e => HRet e)))) a = Some (e, a') -> mid pn a'.
Proof.
  intros pn a yf front ev p w e a' M N G F H. cbn [on_fst on_snd happly] in H. destruct (push _ _ a) as [[st a1]|] eqn:P; [|discriminate].
  inversion H; subst. eapply mid_push; eauto. apply parts_rest; auto.
Qed.
Lemma turn_told : forall pn a yf w front ev p e a', turn pn a yf w -> fits w (Res CONDITION_ID ev p) = true ->
  happly (on_snd (on_fst (HReady front (yf, (CONDITION_ID, ev, p)) (fun e => HRet e)))) a = Some (e, a') -> mid pn a'.
Proof. intros pn a yf w front ev p e a' (A & B & C) F H. eapply mid_told; eauto. Qed.
Lemma create_cond_mid : forall ts pn a yf cx p e a', turn pn a yf (WCall BCondCreate) -> happly (on_snd (on_fst (create_cond ts cx yf p))) a = Some (e, a') -> mid pn a'.
Proof.
  intros ts pn a yf cx p e a' R H. unfold create_cond, on_cond in H. destruct (cx =? COND_CTX); [|discriminate]. cbn [on_fst on_snd happly] in H.
  assert (FA : forall b x, turn pn b yf (WCall BCondCreate) -> happly (on_snd (on_fst (at_once yf CR_CREATE_FAILURE x))) b = Some (e, a') -> mid pn a')
    by (intros; eapply (turn_told _ _ _ (WCall BCondCreate)); [eassumption| |eassumption]; reflexivity).
  malloc H R. destruct (ok z) eqn:O1; cbn [negb] in H; [|eauto]. cbn [on_fst on_snd happly] in H.
  malloc H R. destruct (ok z0) eqn:O2; cbn [negb] in H; [|cbn [on_fst on_snd happly] in H; eauto]. cbn [on_fst on_snd happly] in H.
  malloc H R. unfold need in H. destruct (t_insert ts _ _ _) as [[ei t]|]; [|discriminate]. destruct (ok ei); cbn [negb] in H; [|cbn [on_fst on_snd happly] in H; eauto].
  cbn [on_fst on_snd happly] in H. eapply (turn_told _ _ _ (WCall BCondCreate)); [| |exact H]; [|reflexivity].
  rewrite U1, U0, U. destruct (a_user a) as [m [c v]] eqn:E. cbn [fst snd].
  apply turn_same; auto; rewrite U1, U0, U; cbn [fst snd]; [reflexivity|]. unfold in_conds. cbn [c_conds hadd flat_map snd]. reflexivity.
Qed.
Lemma close_cond_mid : forall ts pn a yf cx p e a', turn pn a yf (WCall BCondClose) -> happly (on_snd (on_fst (close_cond ts cx yf p))) a = Some (e, a') -> mid pn a'.
Proof.
  intros ts pn a yf cx p e a' R H. unfold close_cond, on_cond in H. destruct (cx =? COND_CTX); [|discriminate]. cbn [on_fst on_snd happly] in H.
  unfold need in H. destruct (t_delete ts _ _) as [[ed t]|]; [|discriminate]. cbn [c_conds c_index c_tree] in H.
  destruct (a_user a) as [m [c v]] eqn:E. cbn [fst snd] in H.
  destruct (ok ed); cbn [negb] in H; cbn [on_fst on_snd happly] in H.
  - destruct (hget (c_conds c) p) as [q|] eqn:G; [|discriminate]. cbn [on_fst on_snd happly] in H. rewrite E in H. cbn [fst snd] in H.
    destruct (fm_heap _ _ (fun q : list Z => q) _ _ _ G) as (Q & P & _ & D).
    eapply (turn_told _ _ _ (WCall BCondClose)); [| |exact H]; [|reflexivity].
    eapply (turn_less _ _ _ _ _ _ _ [] q); eauto; rewrite E; cbn [fst snd app]; [reflexivity|].
    unfold in_conds. cbn [c_conds]. rewrite P, <- D. reflexivity.
  - eapply (turn_told _ _ _ (WCall BCondClose)); [| |exact H]; [|reflexivity]. rewrite E. cbn [fst snd]. apply turn_same; auto; rewrite E; reflexivity.
Qed.
Lemma wait_mid : forall ts pn a yf cx p e a', turn pn a yf (WCall BCondWait) -> happly (on_snd (on_fst (wait_cond ts cx yf p))) a = Some (e, a') -> mid pn a'.
Proof.
  intros ts pn a yf cx p e a' R H. unfold wait_cond, on_cond in H. destruct (cx =? COND_CTX); [|discriminate]. cbn [on_fst on_snd happly] in H.
  assert (FA : forall b x, turn pn b yf (WCall BCondWait) -> happly (on_snd (on_fst (at_once yf CR_WAIT_FAILURE x))) b = Some (e, a') -> mid pn a')
    by (intros; eapply (turn_told _ _ _ (WCall BCondWait)); [eassumption| |eassumption]; reflexivity).
  destruct (a_user a) as [m [c v]] eqn:E. cbn [fst snd] in H. unfold need in H.
  destruct (t_find ts _ _) as [[ef k]|]; [|discriminate].
  destruct (ok ef); cbn [negb] in H; [|eauto]. destruct (hget (c_conds c) k) as [q|] eqn:G; [|discriminate]. cbn [on_fst on_snd happly] in H.
  malloc H R. destruct (ok z) eqn:O1; cbn [negb] in H; [|eauto]. cbn [on_fst on_snd happly] in H. rewrite U, E in H. cbn [fst snd] in H. inversion H; subst.
  destruct R as (R1 & R2 & R3). unfold mid in *. cbn [user_set a_ready a_user fst snd]. rewrite U, E in R1. cbn [fst snd] in R1.
  unfold parts in R2. rewrite U, E in R2. cbn [fst snd] in R2.
  destruct (fm_heap _ _ (fun q : list Z => q) _ _ _ G) as (Q & PQ & SQ & _). specialize (SQ (q ++ [yf])).
  eapply Mid_perm; [apply (Mid_wait _ _ yf _ _ R1 R2 R3)|reflexivity|]. unfold in_conds, set_wait. cbn [c_conds]. rewrite PQ, SQ, <- app_assoc. cbn [app]. apply Permutation_middle.
Qed.
(** One waiting fiber is made ready; the yielding fiber is not yet. *)
Lemma wake_turn : forall pn (a : ast (mst T * (cst T2 * V))) yf k x q c e a', turn pn a yf (WCall BCondNotify) ->
  hget (c_conds (fst (snd (a_user a)))) k = Some (x :: q) ->
  happly (on_snd (on_fst (wake k x q c))) a = Some (e, a') ->
  exists st b, turn pn b yf (WCall BCondNotify) /\ hget (c_conds (fst (snd (a_user b)))) k = Some q /\ happly (on_snd (on_fst (c st))) b = Some (e, a').
Proof.
  intros pn a yf k x q cc e a' R G H. unfold wake in H. cbn [on_fst on_snd happly] in H. change (ok STATUS_SUCCESS) with true in H. cbv iota in H. cbn [negb on_fst on_snd happly] in H.
  destruct (a_user a) as [m [c v]] eqn:E. cbn [fst snd] in H, G.
  destruct (push _ _ _) as [[st a2]|] eqn:P; [|discriminate]. exists st, a2.
  destruct (fm_heap _ _ (fun q : list Z => q) _ _ _ G) as (Q & PQ & SQ & _). specialize (SQ q). cbn [app] in PQ.
  destruct R as (R1 & R2 & R3). unfold mid in R1. rewrite E in R1. cbn [fst snd] in R1. unfold parts in R2. rewrite E in R2. cbn [fst snd] in R2.
  eapply Mid_perm in R1; [|reflexivity|exact PQ]. apply Mid_unwait in R1 as (N1 & G1 & M1).
  assert (Q2 : forall f, In f (in_conds (set_wait k q c)) <-> In f (q ++ Q)).
  { intros f. unfold in_conds, set_wait. cbn [c_conds]. split; apply Permutation_in; [exact SQ|apply Permutation_sym; exact SQ]. }
  assert (NY : yf <> x).
  { intros ->. apply R2. apply in_or_app. right. apply in_or_app. right. unfold in_conds. eapply Permutation_in; [apply Permutation_sym, PQ|]. left. auto. }
  apply push_keeps in P as P2. destruct P2 as (_ & U2 & N2 & L2). cbn [user_set a_user a_ready fst] in U2, N2, L2.
  assert (X := P). eapply (mid_push pn) in X; [| | |exact G1|reflexivity].
  - destruct X as (X1 & _). split; [|split; auto].
    + split; [exact X1|]. split; auto. unfold parts. rewrite U2, L2. cbn [fst snd]. intros I. apply R2. apply in_app_or in I as [I|I]; apply in_or_app.
      * left. destruct (ok st); auto. rewrite map_app in I. cbn [map] in I. apply in_app_or in I as [I|[I|[]]]; auto. cbn [rfib fst snd] in I. congruence.
      * right. apply in_app_or in I as [I|I]; apply in_or_app; auto. right. apply Q2 in I. unfold in_conds. eapply Permutation_in; [apply Permutation_sym, PQ|]. right. auto.
    + rewrite U2. cbn [fst snd]. unfold set_wait. cbn [c_conds]. eapply hget_hset_same; eauto.
  - unfold mid. cbn [user_set a_ready a_user fst snd]. eapply Mid_perm; [exact M1|reflexivity|]. unfold in_conds, set_wait. cbn [c_conds]. apply Permutation_sym. exact SQ.
  - cbn [user_set a_user fst snd]. intros I. apply N1. apply in_or_app. right. apply in_app_or in I as [I|I]; apply in_or_app; auto. right. apply Q2. auto.
Qed.
Lemma notify_one_mid : forall ts pn a yf cx p e a', turn pn a yf (WCall BCondNotify) -> happly (on_snd (on_fst (notify_one ts cx yf p))) a = Some (e, a') -> mid pn a'.
Proof.
  intros ts pn a yf cx p e a' R H. unfold notify_one, on_cond in H. destruct (cx =? COND_CTX); [|discriminate]. cbn [on_fst on_snd happly] in H.
  destruct (a_user a) as [m [c v]] eqn:E. cbn [fst snd] in H. unfold need in H.
  destruct (t_find ts _ _) as [[ef k]|]; [|discriminate].
  destruct (ok ef); cbn [negb] in H; [|eapply (turn_told _ _ _ (WCall BCondNotify)); [exact R| |exact H]; reflexivity].
  destruct (hget (c_conds c) k) as [[|x q]|] eqn:G; [| |discriminate].
  - eapply (turn_told _ _ _ (WCall BCondNotify)); [exact R| |exact H]; reflexivity.
  - eapply wake_turn in H; [|exact R|rewrite E; exact G]. destruct H as (st & b & R2 & _ & H).
    eapply (turn_told _ _ _ (WCall BCondNotify)); [exact R2| |exact H]; reflexivity.
Qed.
Lemma notify_all_mid : forall ts pn a yf cx p e a', turn pn a yf (WCall BCondNotify) -> happly (on_snd (on_fst (notify_all ts cx yf p))) a = Some (e, a') -> mid pn a'.
Proof.
  intros ts pn a yf cx p e a' R H. unfold notify_all, on_cond in H. destruct (cx =? COND_CTX); [|discriminate]. cbn [on_fst on_snd happly] in H.
  destruct (a_user a) as [m [c v]] eqn:E. cbn [fst snd] in H. unfold need in H.
  destruct (t_find ts _ _) as [[ef k]|]; [|discriminate].
  destruct (ok ef); cbn [negb] in H; [|eapply (turn_told _ _ _ (WCall BCondNotify)); [exact R| |exact H]; reflexivity].
  destruct (hget (c_conds c) k) as [q|] eqn:G; [|discriminate].
  assert (G' : hget (c_conds (fst (snd (a_user a)))) k = Some q) by (rewrite E; exact G). clear E G.
  revert a ef R H G'. induction q as [|x q IH]; intros a ef R H G; cbn [wake_all] in H.
  - eapply (turn_told _ _ _ (WCall BCondNotify)); [exact R| |exact H]; reflexivity.
  - eapply wake_turn in H; [|exact R|exact G]. destruct H as (st & b & R2 & G2 & H). eapply IH; eauto.
Qed.
End Handlers.

(** ** Histories *)
Definition msg_dd : dd := DD true MESSAGE_ID MSG_CTX [FN_MSG_CREATE; FN_MSG_CLOSE; FN_MSG_SEND; FN_MSG_RECEIVE].
Definition cond_dd : dd := DD true CONDITION_ID COND_CTX cond_cbs.
Record Inv {T T2 V} (dm dc : Z) (pn : heap want) (c : Z) (a : ast (mst T * (cst T2 * V))) : Prop := MkInv
  { iv_mid : mid pn a; iv_cur : a_cur a = c; iv_out : ~ In c (parts a); iv_idle : a_idle a = 0; iv_mgmt : a_mgmt a = 0;
    iv_dm : hget (a_discs a) dm = Some msg_dd; iv_dc : hget (a_discs a) dc = Some cond_dd }.
Lemma in_parts_pn : forall T T2 V pn (a : ast (mst T * (cst T2 * V))) f, mid pn a -> In f (parts a) -> exists w, hget pn f = Some w.
Proof.
  intros T T2 V pn a f [A B C D] I. unfold parts in I. apply in_app_or in I as [I|I].
  - apply in_map_iff in I as (x & <- & I). apply B in I as (w & G & _). eauto.
  - apply in_app_or in I as [I|I]; eauto.
Qed.
Lemma mid_more : forall T T2 V pn (a : ast (mst T * (cst T2 * V))) c w, mid pn a -> ~ In c (parts a) -> mid ((c, w) :: pn) a.
Proof.
  intros T T2 V pn a c w [A B C D] N. unfold mid, parts in *.
  assert (X : forall f, In f (map rfib (a_ready a) ++ in_boxes (fst (a_user a)) ++ in_conds (fst (snd (a_user a)))) -> hget ((c, w) :: pn) f = hget pn f).
  { intros f I. cbn [hget]. destruct (Z.eqb_spec f c) as [->|K]; auto. contradiction. }
  constructor; auto.
  - intros x I. rewrite X; auto. apply in_or_app. left. apply in_map. auto.
  - intros f I. rewrite X; auto. apply in_or_app. right. apply in_or_app. auto.
  - intros f I. rewrite X; auto. apply in_or_app. right. apply in_or_app. auto.
Qed.
Lemma turn_start : forall T T2 V pn (a : ast (mst T * (cst T2 * V))) c w, mid pn a -> ~ In c (parts a) -> turn ((c, w) :: pn) a c w.
Proof. intros. split; [apply mid_more; auto|]. split; auto. cbn [hget]. rewrite Z.eqb_refl. auto. Qed.
(** The first ready fiber gets what it waits for. *)
Lemma resume_step : forall T T2 V pn (a : ast (mst T * (cst T2 * V))) e o a' dm dc, SchedSpec.resume (Some (e, a)) = Some (o, a') -> mid pn a -> a_idle a = 0 -> a_mgmt a = 0 ->
  hget (a_discs a) dm = Some msg_dd -> hget (a_discs a) dc = Some cond_dd -> ok (fst o) = true ->
  let '(_, (f, d, ev, x)) := o in exists w, hget pn f = Some w /\ fits w (Res d ev x) = true /\ Inv dm dc pn f a'.
Proof.
  intros T T2 V pn a e o a' dm dc H M ID MG DM DC O. cbn [SchedSpec.resume] in H. destruct (ok e) eqn:OE; cbn [negb] in H; [|inversion H; subst; cbn [fst] in O; congruence].
  destruct (a_ready a) as [|[fr [f [[d ev] x]]] t] eqn:R.
  - rewrite ID in H. cbn [Z.eqb] in H. inversion H; subst. discriminate O.
  - cbn [snd] in H. unfold go in H. destruct (hget (a_life a) f) as [s|]; [|discriminate]. destruct (s =? STOPPED); [discriminate|]. inversion H; subst. clear H O.
    destruct M as [A B C D]. rewrite R in A, B. destruct (B (fr, (f, (d, ev, x))) (or_introl eq_refl)) as (w & G & F). exists w. split; [exact G|]. split; [exact F|].
    cbn [map app rfib fst snd] in A. inversion A; subst.
    constructor; cbn [a_cur a_idle a_mgmt a_discs]; auto.
    constructor; cbn [a_ready a_user]; auto. intros y I. apply B. right. auto.
Qed.
Lemma push_turn : forall T T2 V pn front x (a : ast (mst T * (cst T2 * V))) e a' w, push front x a = Some (e, a') -> turn pn a (fst x) w -> fits w (res_of x) = true -> mid pn a' /\ keeps a a'.
Proof.
  intros T T2 V pn front x a e a' w P (A & B & C) F. split; [eapply mid_push; eauto; apply parts_rest; auto|]. apply push_keeps in P. apply P.
Qed.
(** Functions of messages. *)
Lemma act_same : forall T T2 V (ts : tops T) (other : acts (cst T2 * V)) fn cx yf p (a : ast (mst T * (cst T2 * V))) e a',
  stays (SAct fn cx p) = true -> happly (msg_acts ts other fn cx yf p) a = Some (e, a') ->
  a_ready a' = a_ready a /\ in_boxes (fst (a_user a')) = in_boxes (fst (a_user a)) /\ snd (a_user a') = snd (a_user a) /\ keeps a a'.
Proof.
  intros T T2 V ts other fn cx yf p a e a' S H. pose proof (happly_keeps _ _ _ _ _ H) as K. cbn [stays] in S.
  assert (E : fn = 205 \/ fn = 206 \/ fn = 207 \/ fn = 208 \/ fn = 209) by (unfold FN_MESSAGE_CREATE, FN_MESSAGE_PAYLOAD in S; lia).
  destruct (a_user a) as [m u] eqn:U.
  destruct E as [->|[->|[->|[->| ->]]]].
  - change (msg_acts ts other 205 cx yf p) with (@on_fst (mst T) (cst T2 * V) (new_msg cx p)) in H. unfold new_msg in H. cbn [on_fst happly] in H.
    destruct (_ || _) in H; [discriminate|]. cbn [on_fst happly] in H. inversion H; subst. cbn [user_set a_ready a_user]. rewrite U. auto.
  - change (msg_acts ts other 206 cx yf p) with (@on_fst (mst T) (cst T2 * V) (set_address cx p)) in H. unfold set_address in H. cbn [on_fst happly] in H. unfold need in H.
    destruct (hget _ cx); [|discriminate]. cbn [on_fst happly] in H. inversion H; subst. cbn [user_set a_ready a_user]. rewrite U. auto.
  - change (msg_acts ts other 207 cx yf p) with (@on_fst (mst T) (cst T2 * V) (release_msg cx)) in H. unfold release_msg in H. cbn [on_fst happly] in H. unfold need, msg_release in H.
    destruct (hget _ cx); [|discriminate]. cbn [on_fst happly] in H. inversion H; subst. cbn [user_set a_ready a_user]. rewrite U. auto.
  - change (msg_acts ts other 208 cx yf p) with (@on_fst (mst T) (cst T2 * V) (HLoad (fun m => need (message_payload cx true m) (fun '(_, m) => HStore m (HRet STATUS_SUCCESS))))) in H.
    cbn [on_fst happly] in H. unfold need, message_payload in H. destruct (hget _ cx); [|discriminate]. cbn [on_fst happly] in H. inversion H; subst. cbn [user_set a_ready a_user]. rewrite U. auto.
  - change (msg_acts ts other 209 cx yf p) with (@on_fst (mst T) (cst T2 * V) (set_payload cx p)) in H. unfold set_payload in H. cbn [on_fst happly] in H. unfold need in H.
    destruct (hget _ cx); [|discriminate]. cbn [on_fst happly] in H. inversion H; subst. cbn [user_set a_ready a_user]. rewrite U. auto.
Qed.
Lemma inv_same : forall T T2 V dm dc pn c (a a' : ast (mst T * (cst T2 * V))), Inv dm dc pn c a -> keeps a a' -> a_ready a' = a_ready a ->
  in_boxes (fst (a_user a')) = in_boxes (fst (a_user a)) -> snd (a_user a') = snd (a_user a) -> Inv dm dc pn c a'.
Proof.
  intros T T2 V dm dc pn c a a' [A B C D E F G] (K1 & K2 & K3 & K4) R U1 U2. constructor; try congruence.
  - unfold mid in *. rewrite R, U1, U2. auto.
  - unfold parts in *. rewrite R, U1, U2. auto.
Qed.
Definition news (p : sop) : list (Z * want) := match p with SAdd f => [(f, WAdd)] | _ => [] end.
Lemma handled_step : forall T T2 V dm dc pn c w (a : ast (mst T * (cst T2 * V))) (x : option (Z * ast (mst T * (cst T2 * V)))) o a',
  Inv dm dc pn c a -> SchedSpec.resume x = Some (o, a') -> ok (fst o) = true ->
  (forall e a1, x = Some (e, a1) -> ok e = true -> mid ((c, w) :: pn) a1 /\ keeps a a1) ->
  let '(_, (f, d, ev, y)) := o in exists w', hget ((c, w) :: pn) f = Some w' /\ fits w' (Res d ev y) = true /\ Inv dm dc ((c, w) :: pn) f a'.
Proof.
  intros T T2 V dm dc pn c w a x o a' [A B C D E F G] H O X. destruct x as [[e a1]|]; [|discriminate].
  assert (OE : ok e = true).
  { destruct (ok e) eqn:K; auto. cbn [SchedSpec.resume] in H. rewrite K in H. cbn [negb] in H. inversion H; subst. cbn [fst] in O. congruence. }
  destruct (X e a1 eq_refl OE) as (M & K1 & K2 & K3 & K4). eapply (resume_step _ _ _ _ _ _ _ _ dm dc H); auto; congruence.
Qed.
Lemma move_step : forall T T2 V (ts : tops T) (ts2 : tops T2) (other : acts V) dels dm dc pn c p w a o a', dm <> dc -> Inv dm dc pn c a ->
  astep dels (msg_acts ts (cond_acts ts2 other)) p a = Some (o, a') -> wants dm dc p = Some w -> ok (fst o) = true ->
  (forall f, p = SAdd f -> hget pn f = None) ->
  let '(_, (f, d, ev, y)) := o in exists w', hget (news p ++ (c, w) :: pn) f = Some w' /\ fits w' (Res d ev y) = true /\ Inv dm dc (news p ++ (c, w) :: pn) f a'.
Proof.
  intros T T2 V ts ts2 other dels dm dc pn c p w a o a' ND I H W O FR. pose proof I as I0. destruct I0 as [M CU N ID MG DM DC].
  destruct p; try discriminate W; cbn [news app]; cbn [wants] in W.
  - (* SAdd *) inversion W; subst w; clear W. cbn [astep] in H. specialize (FR f eq_refl).
    destruct (join dels f a) as [[e a1]|] eqn:J; [|discriminate].
    assert (OE : ok e = true).
    { destruct (ok e) eqn:K; auto. cbn [SchedSpec.resume] in H. rewrite K in H. cbn [negb] in H. inversion H; subst. cbn [fst] in O. congruence. }
    unfold join in J. destruct (zmem f _); [discriminate|]. destruct (hget (a_life a) f); [|discriminate].
    destruct (alloc_keeps _ a) as (K0 & R0 & U0). destruct (alloc_spec a) as [e0 a0]. cbn [snd] in K0, R0, U0.
    destruct (ok e0) eqn:O0; cbn [negb] in J; [|inversion J; subst; congruence].
    destruct (push false _ _) as [[e1 a2]|] eqn:P1; [|discriminate]. destruct (ok e1) eqn:O1; cbn [negb] in J; [|destruct dels; inversion J; subst; congruence].
    destruct (push true _ a2) as [[e2 a3]|] eqn:P2; [|discriminate]. destruct (ok e2) eqn:O2; cbn [negb] in J; [|inversion J; subst; congruence].
    assert (NF : ~ In f (parts a)) by (intros K; destruct (in_parts_pn _ _ _ _ _ _ M K); congruence).
    assert (M2 : mid ((c, WAdd) :: pn) a) by (apply mid_more; auto).
    assert (M3 : mid ((f, WAdd) :: (c, WAdd) :: pn) a) by (apply mid_more; auto).
    assert (PB : parts (known_set (zput f (a_known a0)) a0) = parts a) by (unfold parts; cbn [known_set a_ready a_user]; rewrite R0, U0; auto).
    assert (T1 : turn ((f, WAdd) :: (c, WAdd) :: pn) (known_set (zput f (a_known a0)) a0) f WAdd).
    { split; [unfold mid in *; cbn [known_set a_ready a_user]; rewrite R0, U0; auto|]. rewrite PB. split; auto. cbn [hget]. rewrite Z.eqb_refl. auto. }
    pose proof P1 as P1'. eapply push_turn in P1 as (M4 & K4); [|exact T1|reflexivity]. apply push_keeps in P1' as (_ & U1 & _ & R1). rewrite O1 in R1.
    cbn [known_set a_ready a_user] in U1, R1.
    assert (KA : keeps a a2) by (eapply keeps_trans; [exact K0|exact K4]).
    assert (CF : a_cur a2 <> f).
    { intros E. apply push_keeps in P2 as (_ & _ & Q & _). apply Q. rewrite R1, map_app. cbn [fst map rfib snd]. apply in_or_app. right. left. auto. }
    assert (CE : a_cur a2 = c) by (destruct KA; congruence).
    assert (N2 : ~ In c (parts a2)).
    { unfold parts. rewrite U1, R1, U0, R0, map_app. cbn [map rfib snd fst]. intros K. apply N. unfold parts. apply in_app_or in K as [K|K]; apply in_or_app; auto.
      left. apply in_app_or in K as [K|[K|[]]]; auto. congruence. }
    assert (T2' : turn ((f, WAdd) :: (c, WAdd) :: pn) a2 c WAdd).
    { split; auto. split; auto. cbn [hget]. destruct (Z.eqb_spec c f) as [E|_]; [congruence|]. rewrite Z.eqb_refl. auto. }
    rewrite CE in P2. pose proof P2 as P2'. eapply push_turn in P2 as (M5 & K5); [|exact T2'|reflexivity].
    assert (KB : keeps a a3) by (eapply keeps_trans; eauto). destruct KB as (B1 & B2 & B3 & B4).
    unfold tell in J. rewrite B4, MG in J. cbn [Z.eqb] in J. inversion J; subst e a1.
    eapply (resume_step _ _ _ _ _ _ _ _ dm dc H); auto; congruence.
  - (* SRun *) inversion W; subst w; clear W. cbn [astep] in H. eapply handled_step; eauto. intros e a1 X OE.
    destruct (a_cur a =? a_idle a); [inversion X; subst; split; [apply mid_more; auto|apply keeps_refl]|]. rewrite CU in X. eapply push_turn in X; [eauto|apply turn_start; auto|reflexivity].
  - (* SStop *) inversion W; subst w; clear W. cbn [astep] in H. destruct (hget (a_life a) (a_cur a)); [|discriminate].
    unfold tell in H. cbn [life_set a_mgmt] in H. rewrite MG in H. cbn [Z.eqb] in H. destruct (SchedSpec.resume _) as [[o2 a2]|] eqn:RS; [|discriminate].
    destruct (ok (fst o2)) eqn:O2; [|discriminate]. inversion H; subst o2 a2.
    eapply (handled_step _ _ _ dm dc pn c WRun a); eauto. intros e a1 X OE. inversion X; subst. split; [apply mid_more; auto|repeat split; auto].
  - (* SMain *) inversion W; subst w; clear W. cbn [astep] in H. eapply handled_step; eauto. intros e a1 X OE. rewrite CU in X.
    eapply (push_turn _ _ _ ((c, WMain) :: pn)) in X; [|apply turn_start; auto|reflexivity]. destruct X as (X & K). split; auto.
  - (* SWake *) inversion W; subst w; clear W. cbn [astep] in H. eapply handled_step; eauto. intros e a1 X OE. rewrite CU in X.
    eapply (push_turn _ _ _ ((c, WWake) :: pn)) in X; [|apply turn_start; auto|reflexivity]. auto.
  - (* SYield *) cbn [astep] in H. assert (TS : forall w, turn ((c, w) :: pn) a c w) by (intros; apply turn_start; auto).
    destruct (Z.eqb_spec d dm) as [->|N1].
    + rewrite DM in H. destruct (_ || _) eqn:BB in H; [discriminate|]. destruct ((ev <? 0) || _) eqn:RG in H; [inversion H; subst; discriminate O|].
      cbn [dd_cbs msg_dd length] in *.
      assert (EV : ev = 0 \/ ev = 1 \/ ev = 2 \/ ev = 3) by (clear - BB RG; cbn in *; lia).
      destruct EV as [->|[->|[->| ->]]]; cbn [Z.to_nat Pos.to_nat Pos.iter_op Nat.add nth_error option_map] in W, H; change (Z.to_nat 1) with 1%nat in *; change (Z.to_nat 2) with 2%nat in *; change (Z.to_nat 3) with 3%nat in *; cbn [nth_error option_map] in W, H;
        inversion W; subst w; clear W; rewrite CU in H; apply (handled_step _ _ _ dm dc pn c _ a _ _ _ I H O); intros e a1 X OE; (split; [|eapply happly_keeps; eauto]).
      * eapply create_mid; [apply TS|exact X].
      * eapply close_mid; [apply TS|exact X].
      * eapply send_mid; [apply TS|exact X].
      * eapply receive_mid; [apply TS|exact X].
    + destruct (Z.eqb_spec d dc) as [->|N2]; [|discriminate]. rewrite DC in H. destruct (_ || _) eqn:BB in H; [discriminate|]. destruct ((ev <? 0) || _) eqn:RG in H; [inversion H; subst; discriminate O|].
      cbn [dd_cbs cond_dd cond_cbs length] in *.
      assert (EV : ev = 0 \/ ev = 1 \/ ev = 2 \/ ev = 3 \/ ev = 4) by (clear - BB RG; cbn in *; lia).
      destruct EV as [->|[->|[->|[->| ->]]]]; change (Z.to_nat 0) with 0%nat in *; change (Z.to_nat 1) with 1%nat in *; change (Z.to_nat 2) with 2%nat in *; change (Z.to_nat 3) with 3%nat in *; change (Z.to_nat 4) with 4%nat in *; cbn [nth_error option_map] in W, H;
        inversion W; subst w; clear W; rewrite CU in H; apply (handled_step _ _ _ dm dc pn c _ a _ _ _ I H O); intros e a1 X OE; (split; [|eapply happly_keeps; eauto]).
      * eapply create_cond_mid; [apply TS|exact X].
      * eapply close_cond_mid; [apply TS|exact X].
      * eapply wait_mid; [apply TS|exact X].
      * eapply notify_one_mid; [apply TS|exact X].
      * eapply notify_all_mid; [apply TS|exact X].
Qed.
Lemma own_steps : forall T T2 V (ts : tops T) (ts2 : tops T2) (other : acts V) dels dm dc h os pn c a a', dm <> dc -> Inv dm dc pn c a ->
  asteps dels (msg_acts ts (cond_acts ts2 other)) h a = Some (os, a') -> own_answers dm dc h os pn c = true.
Proof.
  intros T T2 V ts ts2 other dels dm dc. induction h as [|p h IH]; intros os pn c a a' ND I H; cbn [asteps] in H; [inversion H; subst; reflexivity|].
  destruct (astep _ _ p a) as [[o a1]|] eqn:S; [|discriminate]. destruct (asteps _ _ h a1) as [[l a2]|] eqn:SS; [|discriminate]. inversion H; subst; clear H.
  cbn [own_answers]. destruct (stays p) eqn:ST.
  - apply (IH l pn c a1 a'); auto. destruct p; try discriminate ST.
    + cbn [astep] in S. destruct (_ || _); inversion S; subst. eapply inv_same; eauto; repeat split.
    + cbn [astep] in S. destruct (find _ _); inversion S; subst; auto.
    + cbn [astep] in S. destruct (happly _ a) as [[e a3]|] eqn:HA; [|discriminate]. inversion S; subst. eapply act_same in HA as (R & U1 & U2 & K); eauto. eapply inv_same; eauto.
  - destruct (wants dm dc p) as [w|] eqn:W; [|auto]. destruct o as [e [[[f d] ev] x]]. destruct (ok e) eqn:O; cbn [negb]; [|auto].
    destruct (existsb _ _) eqn:EX; [auto|].
    assert (FR : forall f, p = SAdd f -> hget pn f = None).
    { intros f0 ->. cbn [existsb] in EX. rewrite orb_false_r in EX. apply TabProofs.zmem_not in EX. apply hget_none. auto. }
    pose proof (move_step _ _ _ _ _ _ _ _ _ _ _ _ _ _ _ _ ND I S W O FR) as X. cbv beta iota in X. destruct X as (w' & G & F & I2).
    replace (map (fun f => (f, WAdd)) (match p with SAdd f => [f] | _ => [] end)) with (news p) by (destruct p; reflexivity).
    rewrite G, F. cbn [andb]. eapply IH; eauto.
Qed.
Lemma setup_one : forall U dels (ac : acts U) junk d id ctx cbs (a a' : ast U),
  asteps dels ac [SDisc junk d id ctx cbs; SDiscAdd d] a = Some ([(STATUS_SUCCESS, nowhere); (STATUS_SUCCESS, nowhere)], a') ->
  a_ready a' = a_ready a /\ a_user a' = a_user a /\ a_cur a' = a_cur a /\ a_idle a' = a_idle a /\ a_mgmt a' = a_mgmt a /\
  hget (a_discs a) d = None /\ hget (a_discs a') d = Some (DD true id ctx cbs) /\ (forall d', d' <> d -> hget (a_discs a') d' = hget (a_discs a) d').
Proof.
  intros U dels ac junk d id ctx cbs a a' H. cbn [asteps] in H.
  destruct (astep _ _ (SDisc _ _ _ _ _) _) as [[o1 a1]|] eqn:S1; [|discriminate]. destruct (astep _ _ (SDiscAdd d) a1) as [[o2 a2]|] eqn:S2; [|discriminate].
  inversion H; subst; clear H. cbn [astep] in S1. destruct (_ || _) eqn:Q1; [discriminate|]. inversion S1; subst; clear S1.
  apply orb_false_iff in Q1 as [Q1 Q2]. apply TabProofs.zmem_not in Q2.
  cbn [astep] in S2. cbn [discs_set a_discs] in S2. rewrite hget_hadd_same in S2. cbn [dd_owned] in S2.
  destruct (existsb _ _); [inversion S2|].
  assert (AL : forall b : ast U, a_ready (snd (alloc_spec b)) = a_ready b /\ a_user (snd (alloc_spec b)) = a_user b /\ keeps b (snd (alloc_spec b))) by (intros b; destruct (alloc_keeps _ b) as (A1 & A2 & A3); auto).
  match type of S2 with context [alloc_spec ?b] => pose proof (AL b) as A1; destruct (alloc_spec b) as [e1 a1] end. cbn [snd] in A1.
  destruct (ok e1) eqn:O1; cbn [negb] in S2; [|inversion S2; subst; discriminate].
  match type of S2 with context [alloc_spec ?b] => pose proof (AL b) as A2; destruct (alloc_spec b) as [e2 a2] end. cbn [snd] in A2.
  destruct (ok e2) eqn:O2; cbn [negb] in S2; [|inversion S2; subst; discriminate].
  pose proof (AL a2) as A3. destruct (alloc_spec a2) as [e3 a3]. cbn [snd] in A3.
  destruct (ok e3) eqn:O3; cbn [negb] in S2; [|inversion S2; subst; discriminate].
  destruct (_ <? _); inversion S2; subst; clear S2.
  destruct A1 as (R1 & U1 & K1 & D1 & I1 & M1), A2 as (R2 & U2 & K2 & D2 & I2 & M2), A3 as (R3 & U3 & K3 & D3 & I3 & M3).
  cbn [discs_set a_cur a_discs a_user a_ready a_idle a_mgmt] in *. repeat (split; [congruence|]).
  split; [apply hget_none; auto|].
  assert (DD1 : a_discs a3 = hadd (a_discs a) d (DD false id ctx cbs)) by congruence. rewrite DD1. split.
  - eapply hget_hset_same. apply hget_hadd_same.
  - intros d' N. rewrite hget_hset_other by auto. apply hget_hadd_other. auto.
Qed.
Lemma inv_start : forall T T2 V (ts : tops T) (ts2 : tops T2) (other : acts V) dels junk junk2 dm dc v m al a,
  asteps dels (msg_acts ts (cond_acts ts2 other)) (msg_setup junk dm ++ cond_setup junk2 dc) (al_set al (ainit (msg_none ts, (cond_none ts2, v)) m)) =
    Some (repeat (STATUS_SUCCESS, nowhere) 4, a) -> dm <> dc /\ Inv dm dc [] m a.
Proof.
  intros T T2 V ts ts2 other dels junk junk2 dm dc v m al a H.
  assert (SP : forall U (ac : acts U) h1 h2 a0 os a', asteps dels ac (h1 ++ h2) a0 = Some (os, a') -> exists o1 o2 a1, asteps dels ac h1 a0 = Some (o1, a1) /\ asteps dels ac h2 a1 = Some (o2, a') /\ os = o1 ++ o2 /\ length o1 = length h1).
  { clear. induction h1 as [|p h1 IH]; intros h2 a0 os a' H.
    - exists [], os, a0. auto.
    - cbn [app asteps] in *. destruct (astep _ _ p a0) as [[o a1]|]; [|discriminate]. destruct (asteps _ _ (h1 ++ h2) a1) as [[l a2]|] eqn:E; [|discriminate].
      inversion H; subst. apply IH in E as (o1 & o2 & a3 & E1 & E2 & -> & L). exists (o :: o1), o2, a3. rewrite E1. cbn. auto. }
  apply SP in H as (o1 & o2 & a1 & H1 & H2 & E & L).
  destruct o1 as [|x1 [|x2 [|x3 o1]]]; try discriminate L. cbn [repeat app] in E. inversion E; subst x1 x2 o2; clear E L.
  apply setup_one in H1 as (A1 & A2 & A3 & A4 & A5 & A6 & A7 & A8). apply setup_one in H2 as (B1 & B2 & B3 & B4 & B5 & B6 & B7 & B8).
  cbn [al_set ainit a_ready a_user a_cur a_idle a_mgmt] in *.
  assert (ND : dm <> dc) by (intros ->; congruence). split; auto.
  assert (RD : a_ready a = []) by congruence. assert (US : a_user a = (msg_none ts, (cond_none ts2, v))) by congruence.
  constructor; try congruence.
  - unfold mid. rewrite RD, US. constructor; cbn; [constructor|intros x []|intros x []|intros x []].
  - unfold parts. rewrite RD, US. cbn. auto.
  - rewrite B8 by auto. exact A7.
  - exact B7.
Qed.
