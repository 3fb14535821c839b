(** What the verdict on a history means; addresses. *)
From Verif Require Import Base Status MemModel MemProofs Heap TabModel TabSpec TabProofs SchedModel SchedSpec SchedProofs SchedHist DiscFrame MsgModel MsgSpec MsgProofs.

Lemma setup_rel : forall T V (ts : tops T) (other : acts V) TR Q dels (v : V) m al d junk os a mem, tab_ok ts TR Q -> (mem = false -> al = []) ->
  asteps dels (msg_acts ts other) (msg_setup junk d) (al_set al (ainit (msg_none ts, v) m)) = Some (os, a) -> os = [(STATUS_SUCCESS, nowhere); (STATUS_SUCCESS, nowhere)] ->
  MRel TR mem d a m no_mail.
Proof.
  intros T V ts other TR Q dels v m al d junk os a mem OK ME H ->. unfold msg_setup in H. cbn [asteps] in H.
  destruct (astep _ _ (SDisc _ _ _ _ _) _) as [[o1 a1]|] eqn:S1; [|discriminate]. destruct (astep _ _ (SDiscAdd d) a1) as [[o2 a2]|] eqn:S2; [|discriminate].
  inversion H; subst; clear H. cbn [astep] in S1. destruct (_ || _) eqn:Q1; [discriminate|]. inversion S1; subst; clear S1.
  apply orb_false_iff in Q1 as [Q1 Q2]. apply zmem_not in Q2. cbn [al_set ainit a_discs addrs map fst] in Q2.
  assert (ND : MGMT_DISC <> d) by (intros E; apply Q2; left; exact E).
  cbn [astep] in S2. cbn [discs_set a_discs] in S2. rewrite hget_hadd_same in S2. cbn [dd_owned] in S2.
  destruct (existsb _ _); [inversion S2|].
  assert (CH : forall (x y : ast (mst T * V)), x = y -> x = y) by auto.
  match type of S2 with context [alloc_spec ?b] => pose proof (alloc_frame _ b) as A1; destruct (alloc_spec b) as [e1 a1] end. cbn [snd] in A1.
  destruct (ok e1) eqn:O1; cbn [negb] in S2; [|inversion S2; subst; discriminate].
  match type of S2 with context [alloc_spec ?b] => pose proof (alloc_frame _ b) as A2; destruct (alloc_spec b) as [e2 a2] end. cbn [snd] in A2.
  destruct (ok e2) eqn:O2; cbn [negb] in S2; [|inversion S2; subst; discriminate].
  pose proof (alloc_frame _ a2) as A3. destruct (alloc_spec a2) as [e3 a3]. cbn [snd] in A3.
  destruct (ok e3) eqn:O3; cbn [negb] in S2; [|inversion S2; subst; discriminate].
  destruct (_ <? _); inversion S2; subst; clear S2.
  destruct A1 as (C1 & D1 & U1 & L1), A2 as (C2 & D2 & U2 & L2), A3 as (C3 & D3 & U3 & L3). cbn [discs_set al_set ainit a_cur a_discs a_user a_al] in *.
  assert (DD1 : a_discs a3 = hadd [(MGMT_DISC, mgmt_dd)] d (DD false MESSAGE_ID MSG_CTX [FN_MSG_CREATE; FN_MSG_CLOSE; FN_MSG_SEND; FN_MSG_RECEIVE])) by (rewrite D3, D2, D1; reflexivity).
  constructor; cbn [discs_set a_cur a_discs a_user a_al].
  - congruence.
  - rewrite DD1. cbn [hadd hset]. rewrite Z.eqb_refl. cbn [hget]. rewrite Z.eqb_refl. reflexivity.
  - intros d' x G N. cbn [discs_set a_discs] in G. rewrite DD1 in G. cbn [hadd hset] in G. rewrite Z.eqb_refl in G. cbn [hget] in G.
    apply Z.eqb_neq in N. rewrite N in G. destruct (d' =? MGMT_DISC); inversion G; subst. reflexivity.
  - intros M. apply L3, L2, L1, ME, M.
  - rewrite U3, U2, U1. cbn [fst]. constructor; cbn [msg_none m_tree m_boxes m_index no_mail l_boxes l_next]; auto; try lia.
    + exists []. split; [apply (tb_empty _ _ _ OK)|]. split; [constructor|]. reflexivity.
    + split; cbn; [constructor|auto].
    + intros k [].
    + intros k x K. discriminate.
Qed.

(** ** First in, first out *)
Record mail_inv (l : mail) : Prop := MailInv
  { mi_wf : hwf (l_boxes l);
    mi_next : 0 <= l_next l;
    mi_keys : forall k, In k (addrs (l_boxes l)) -> k <= l_next l;
    mi_fresh : forall b, l_next l < b -> in_box b (l_sent l) = [] /\ in_box b (l_got l) = [];
    mi_all : forall b, exists q, in_box b (l_sent l) = in_box b (l_got l) ++ q;
    mi_open : forall b w q, hget (l_boxes l) b = Some (w, q) -> in_box b (l_sent l) = in_box b (l_got l) ++ q /\ (w <> 0 -> q = []) }.
Lemma in_box_app : forall b l l', in_box b (l ++ l') = in_box b l ++ in_box b l'.
Proof. intros. unfold in_box. rewrite filter_app, map_app. auto. Qed.
Lemma in_box_one : forall b x, in_box b [(b, x)] = [x].
Proof. intros. unfold in_box. cbn. rewrite Z.eqb_refl. auto. Qed.
Lemma in_box_no : forall b c x, b <> c -> in_box b [(c, x)] = [].
Proof. intros. unfold in_box. cbn. apply not_eq_sym, Z.eqb_neq in H. rewrite H. auto. Qed.
(** One mailbox changes, and what was sent to it or received from it. *)
Lemma inv_set : forall l b w q w' q' s g, mail_inv l -> hget (l_boxes l) b = Some (w, q) -> (w' <> 0 -> q' = []) ->
  in_box b (l_sent l) ++ s = in_box b (l_got l) ++ g ++ q' ->
  mail_inv (Mail (hset (l_boxes l) b (w', q')) (l_next l) (l_sent l ++ map (pair b) s) (l_got l ++ map (pair b) g)).
Proof.
  intros l b w q w' q' s g I G E1 E2. destruct I.
  assert (SAME : forall s, in_box b (map (pair b) s) = s).
  { induction s0 as [|x s0 IH]; [auto|]. unfold in_box in *. cbn. rewrite Z.eqb_refl. cbn. rewrite IH. auto. }
  assert (OTH : forall k s, k <> b -> in_box k (map (pair b) s) = []).
  { induction s0 as [|x s0 IH]; intros; [auto|]. unfold in_box in *. cbn. assert (F : (b =? k) = false) by (apply Z.eqb_neq; congruence). rewrite F. apply IH. auto. }
  assert (K : b <= l_next l) by (eapply mi_keys0, hget_in; eauto).
  constructor; cbn [l_boxes l_next l_sent l_got]; auto.
  - apply hset_wf. auto.
  - rewrite hset_addrs. auto.
  - intros k KL. rewrite !in_box_app, !OTH, !app_nil_r by lia. auto.
  - intros k. rewrite !in_box_app. destruct (Z.eq_dec k b) as [->|N].
    + rewrite !SAME. exists q'. rewrite <- app_assoc. auto.
    + rewrite !OTH, !app_nil_r by auto. auto.
  - intros k w1 q1. rewrite hget_hset, !in_box_app. destruct (Z.eqb_spec k b) as [->|N].
    + rewrite G. intros J. inversion J; subst. rewrite !SAME, <- app_assoc. auto.
    + rewrite !OTH, !app_nil_r by auto. apply mi_open0.
Qed.
Lemma step_inv : forall mem d p o c l c' l', mail_inv l -> mail_step mem d p o c l = Fine c' l' -> mail_inv l'.
Proof.
  intros mem d p o c l c' l' I H.
  assert (SU : forall b v, sure b v = Fine c' l' -> v = Fine c' l') by (intros []; cbn; intros; [auto|discriminate]).
  destruct p; unfold mail_step in H.
  - destruct (_ <=? _); [discriminate|]. destruct (mem && _); [discriminate|]. destruct (mem && _); [inversion H; subst; auto|]. apply SU in H. inversion H; subst. destruct I.
    constructor; cbn [l_boxes l_next l_sent l_got].
    + apply hadd_wf; auto; [lia|]. apply hget_none. intros K. apply mi_keys0 in K. lia.
    + lia.
    + intros k [<-|K]; [cbn; lia|]. apply mi_keys0 in K. lia.
    + intros b L. apply mi_fresh0. lia.
    + auto.
    + intros b w q. rewrite hget_hadd. destruct (Z.eqb_spec b (l_next l + 1)) as [->|N]; [|auto]. intros J. inversion J; subst. destruct (mi_fresh0 (l_next l + 1)) as [F1 F2]; [lia|]. rewrite F1, F2. auto.
  - destruct (mem && _); [discriminate|]. destruct (hget (l_boxes l) b); apply SU in H; inversion H; subst; auto. destruct I.
    constructor; cbn [l_boxes l_next l_sent l_got]; auto.
    + apply hdel_wf. auto.
    + intros k K. apply mi_keys0. eapply hdel_in; eauto.
    + intros k w q. rewrite hget_hdel by auto. destruct (k =? b); [discriminate|auto].
  - destruct (mem && _); [discriminate|]. destruct (hget (l_boxes l) b) as [[w q]|] eqn:G; [|apply SU in H; inversion H; subst; auto].
    destruct (mem && _); [inversion H; subst; auto|]. destruct (mi_open _ I _ _ _ G) as [E1 E2]. destruct (Z.eqb_spec w 0) as [->|N]; apply SU in H; inversion H; subst.
    + pose proof (inv_set l b _ _ 0 (q ++ [x]) [x] [] I G) as J. rewrite app_nil_r in J. apply J; [congruence|]. rewrite E1, <- app_assoc. auto.
    + pose proof (inv_set l b _ _ 0 [] [x] [x] I G) as J. apply J; [auto|]. rewrite E1, (E2 N), app_nil_r. auto.
  - destruct (mem && _); [discriminate|]. destruct (hget (l_boxes l) b) as [[w q]|] eqn:G; [|apply SU in H; inversion H; subst; auto].
    destruct (mi_open _ I _ _ _ G) as [E1 E2]. destruct q as [|x q].
    + destruct (w =? 0); [|apply SU in H; inversion H; subst; auto]. inversion H; subst.
      pose proof (inv_set l b _ _ c [] [] [] I G) as J. cbn [map] in J. rewrite !app_nil_r in J. apply J; auto. rewrite E1, app_nil_r. auto.
    + apply SU in H. inversion H; subst. pose proof (inv_set l b _ _ w q [] [x] I G) as J. rewrite !app_nil_r in J. apply J; auto. intros W. apply E2 in W. discriminate.
  - apply SU in H. inversion H; subst; auto.
  - apply SU in H. inversion H; subst; auto.
  - apply SU in H. inversion H; subst; auto.
  - destruct (foreign _ _ _); inversion H; subst; auto.
Qed.
Lemma run_inv : forall mem d h os c l c' l', mail_inv l -> mail_run mem d h os c l = Fine c' l' -> mail_inv l'.
Proof.
  induction h as [|p h IH]; intros os c l c' l' I H; cbn [mail_run] in H; [inversion H; subst; auto|].
  destruct (mail_step _ _ _ _ _ _) as [c1 l1| |] eqn:E; try discriminate. eapply IH; [eapply step_inv; eauto|eauto].
Qed.
Lemma inv_none : mail_inv no_mail.
Proof.
  constructor; cbn [no_mail l_boxes l_next l_sent l_got].
  - split; cbn; [constructor|auto].
  - lia.
  - intros k [].
  - auto.
  - intros b. exists []. auto.
  - intros b w q K. discriminate.
Qed.

(** ** Addresses *)
(** Each creation takes the next address, whatever fails. *)
Record ARel {T V} (d : Z) (a : ast (mst T * V)) (n : Z) : Prop := MkARel
  { ar_disc : hget (a_discs a) d = Some msg_dd;
    ar_others : others_foreign msg_fn d a;
    ar_index : m_index (fst (a_user a)) = n }.
Definition keeps_index {T} (n : Z) (c : hprog (mst T)) : Prop := safe (fun m => m_index m = n) c.
Lemma on_fst_safe : forall A B (P : A -> Prop) (c : hprog A), safe P c -> safe (fun u : A * B => P (fst u)) (on_fst c).
Proof. intros A B P c. induction c; cbn; intros K; auto. destruct K. auto. Qed.
Lemma release_index : forall T l (m m' : mst T), msgs_release l m = Some m' -> m_index m' = m_index m.
Proof. intros. apply release_boxes in H. tauto. Qed.
Lemma pop_safe : forall T n k b (c : Z -> Z -> hprog (mst T)), (forall e x, keeps_index n (c e x)) -> keeps_index n (pop_box k b c).
Proof.
  intros T n k b c H. unfold keeps_index, pop_box. cbn. intros m E. destruct (b_queue b) as [|x q]; cbn; [auto|]. split; [auto|]. intros e. destruct (ok e); [apply H|].
  cbn. intros m2 E2. unfold msg_release. destruct (hget _ _); cbn; auto. split; [auto|]. intros. apply H.
Qed.
Lemma handler_safe : forall T (ts : tops T) n cx yf p, keeps_index n (close_box ts cx yf p) /\ keeps_index n (send ts cx yf p) /\ keeps_index n (receive ts cx yf p).
Proof.
  intros T ts n cx yf p. unfold keeps_index, close_box, send, receive, on_msg, answer. destruct (cx =? MSG_CTX); cbn; [|auto]. split; [|split]; intros m E.
  - destruct (t_delete _ _ _) as [[e t]|]; cbn; [|auto]. destruct (ok e); cbn; [|auto]. destruct (hget _ _); cbn; [|auto].
    destruct (msgs_release _ _) eqn:R; cbn; [|auto]. apply release_index in R. cbn in R. split; [congruence|auto].
  - destruct (hget _ _); cbn; [|auto]. destruct (t_find _ _ _) as [[e t]|]; cbn; [|auto]. destruct (ok e); cbn; [|auto]. destruct (hget _ _) as [b|]; cbn; [|auto].
    intros e1. destruct (ok e1); cbn; [|auto]. split; [auto|]. intros e2. destruct (ok e2); cbn; [|auto]. destruct (b_blocked b =? 0); cbn [negb]; [exact Logic.I|].
    apply pop_safe. intros e3 x. unfold keeps_index, answer. destruct (ok e3); cbn; auto.
  - destruct (t_find _ _ _) as [[e t]|]; cbn; [|auto]. destruct (ok e); cbn; [|auto]. destruct (hget _ _) as [b|]; cbn; [|auto]. destruct (b_queue b).
    + destruct (b_blocked b =? 0); cbn; auto.
    + apply pop_safe. intros e3 x. unfold keeps_index, answer. destruct (ok e3); cbn; auto.
Qed.
Lemma act_safe : forall T n x p, keeps_index n (@new_msg T x p) /\ keeps_index n (@set_payload T x p) /\ keeps_index n (@set_address T x p) /\ keeps_index n (@release_msg T x) /\
  keeps_index n (HLoad (fun m : mst T => need (message_payload x true m) (fun '(_, m) => HStore m (HRet STATUS_SUCCESS)))).
Proof.
  intros T n x p. unfold keeps_index, new_msg, set_payload, set_address, release_msg, message_payload, msg_release. cbn.
  split; [|split; [|split; [|split]]]; intros m E; [destruct (_ || _); cbn; auto|..]; destruct (hget _ _); cbn; auto.
Qed.

Lemma switched_index : forall T V (ts : tops T) (other : acts V) dels d n ev fn p (a : ast (mst T * V)) o a' c, ARel d a n -> 0 <= ev -> nth_error (dd_cbs msg_dd) (Z.to_nat ev) = Some fn ->
  msg_acts ts other fn MSG_CTX (a_cur a) p = on_fst c -> keeps_index n c ->
  astep dels (msg_acts ts other) (SYield d ev p) a = Some (o, a') -> ARel d a' n.
Proof.
  intros T V ts other dels d n ev fn p a o a' c [A1 A2 A3] E N EQ K H. rewrite (yield_msg _ _ _ _ _ _ _ _ _ _ A1 E N), EQ in H.
  destruct (happly _ a) as [[e a1]|] eqn:J; [|discriminate]. apply (happly_safe _ (fun u => m_index (fst u) = n)) in J; [|apply (on_fst_safe (mst T) V (fun m => m_index m = n)); exact K|auto].
  apply resume_frame in H. destruct J as (J1 & J2 & J3 & J4), H as (H1 & H2 & H3 & H4). constructor.
  - congruence.
  - intros d' x. rewrite H2, J2. apply A2.
  - rewrite H3. auto.
Qed.
Lemma acted_index : forall T V (ts : tops T) (other : acts V) dels d n fn cx p (a : ast (mst T * V)) o a' c, ARel d a n ->
  msg_acts ts other fn cx (a_cur a) p = on_fst c -> keeps_index n c ->
  astep dels (msg_acts ts other) (SAct fn cx p) a = Some (o, a') -> ARel d a' n.
Proof.
  intros T V ts other dels d n fn cx p a o a' c [A1 A2 A3] EQ K H. cbn [astep] in H. rewrite EQ in H.
  destruct (happly _ a) as [[e a1]|] eqn:J; [|discriminate]. apply (happly_safe _ (fun u => m_index (fst u) = n)) in J; [|apply (on_fst_safe (mst T) V (fun m => m_index m = n)); exact K|auto].
  inversion H; subst. destruct J as (J1 & J2 & J3 & J4). constructor; [congruence|intros d' x; rewrite J2; apply A2|auto].
Qed.
(** The code of a creation. *)
Lemma create_index : forall T V (ts : tops T) (other : acts V) dels d n (a : ast (mst T * V)) o a', ARel d a n -> 0 <= n -> n + 1 < 2^64 ->
  astep dels (msg_acts ts other) (SYield d MY_CREATE 0) a = Some (o, a') ->
  (ARel d a' n /\ (ok (fst o) = true -> snd (fst (snd o)) = MR_CREATE_FAILURE)) \/
  (ARel d a' (n + 1) /\ (ok (fst o) = true -> snd (snd o) = n + 1)).
Proof.
  intros T V ts other dels d n a o a' [A1 A2 A3] N0 N1 H.
  rewrite (yield_msg _ _ _ _ _ _ _ FN_MSG_CREATE _ _ A1) in H by (reflexivity || (unfold MY_CREATE; lia)).
  change (msg_acts ts other FN_MSG_CREATE MSG_CTX (a_cur a) 0) with (@on_fst (mst T) V (create_box ts MSG_CTX (a_cur a) 0)) in H.
  unfold create_box, on_msg in H. rewrite Z.eqb_refl in H. cbn [on_fst happly] in H. set (c := a_cur a) in *.
  rewrite A3 in H. unfold wrap64 in H. rewrite Z.mod_small in H by lia.
  assert (FAIL : forall (a1 : ast (mst T * V)) p, frame a a1 -> resume (happly (on_fst (answer c MR_CREATE_FAILURE p)) a1) = Some (o, a') -> ARel d a' n /\ (ok (fst o) = true -> snd (fst (snd o)) = MR_CREATE_FAILURE)).
  { intros a1 p (F1 & F2 & F3 & F4) J. apply (ready_next _ c MESSAGE_ID MR_CREATE_FAILURE p) in J. destruct J as (J1 & J2 & J3 & J4). split.
    - constructor; [congruence|intros d' x; rewrite J2, F2; apply A2|congruence].
    - destruct J4 as [(F & _)|(-> & _)]; [congruence|reflexivity]. }
  pose proof (alloc_frame _ a) as B1. destruct (alloc_spec a) as [e1 a1]. cbn [snd] in B1. destruct (ok e1); cbn [negb on_fst happly] in H; [|left; eapply FAIL; eauto].
  pose proof (alloc_frame _ a1) as B2. destruct (alloc_spec a1) as [e2 a2]. cbn [snd] in B2. apply (frame_trans _ _ _ _ B1) in B2. destruct (ok e2); cbn [negb on_fst happly] in H; [|left; eapply (FAIL a2); eauto].
  pose proof (alloc_frame _ a2) as B3. destruct (alloc_spec a2) as [e3 a3]. cbn [snd] in B3. apply (frame_trans _ _ _ _ B2) in B3. destruct (ok e3); cbn [negb on_fst happly] in H; [|left; eapply (FAIL a3); eauto].
  pose proof (alloc_frame _ a3) as B4. destruct (alloc_spec a3) as [e4 a4]. cbn [snd] in B4. apply (frame_trans _ _ _ _ B3) in B4.
  destruct (t_insert _ _ _ _) as [[e5 t]|]; cbn [need on_fst happly] in H; [|discriminate]. destruct (ok e5); cbn [negb on_fst happly] in H; [|left; eapply (FAIL a4); eauto].
  right. apply (ready_next _ c MESSAGE_ID MR_CREATE_SUCCESS (n + 1)) in H. destruct B4 as (F1 & F2 & F3 & F4), H as (J1 & J2 & J3 & J4). cbn [user_set a_discs a_user] in *. split.
  - constructor; [congruence|intros d' x; rewrite J2, F2; apply A2|rewrite J1; reflexivity].
  - destruct J4 as [(F & _)|(-> & _)]; [congruence|reflexivity].
Qed.
Lemma one_index : forall T V (ts : tops T) (other : acts V) dels d n p (a : ast (mst T * V)) os a', ARel d a n -> p <> MCreate ->
  (forall q, p = MOther q -> foreign msg_fn d q = true) ->
  asteps dels (msg_acts ts other) (sops d p) a = Some (os, a') -> ARel d a' n.
Proof.
  intros T V ts other dels d n p a os a' R NC FO H.
  destruct p as [|b|b x|b|x ret pay|x|x|q]; [congruence|..]; cbn [sops asteps] in H; destruct (astep _ _ _ a) as [[o1 a1]|] eqn:S1; try discriminate;
    try (destruct (astep _ _ _ a1) as [[o2 a2]|] eqn:S2; [|discriminate]); inversion H; subst; clear H.
  - eapply (switched_index T V ts other dels d n MY_CLOSE FN_MSG_CLOSE b a o1 a' (close_box ts MSG_CTX (a_cur a) b) R ltac:(unfold MY_CLOSE; lia) eq_refl eq_refl); [apply handler_safe|exact S1].
  - apply (acted_index T V ts other dels d n FN_SET_ADDRESS x b a _ _ (set_address x b) R eq_refl) in S1; [|apply act_safe].
    eapply (switched_index T V ts other dels d n MY_SEND FN_MSG_SEND x a1 o2 a' (send ts MSG_CTX (a_cur a1) x) S1 ltac:(unfold MY_SEND; lia) eq_refl eq_refl); [apply handler_safe|exact S2].
  - eapply (switched_index T V ts other dels d n MY_RECEIVE FN_MSG_RECEIVE b a o1 a' (receive ts MSG_CTX (a_cur a) b) R ltac:(unfold MY_RECEIVE; lia) eq_refl eq_refl); [apply handler_safe|exact S1].
  - apply (acted_index T V ts other dels d n FN_MESSAGE_CREATE x ret a _ _ (new_msg x ret) R eq_refl) in S1; [|apply (act_safe T n x ret)].
    apply (acted_index T V ts other dels d n FN_MESSAGE_PAYLOAD x pay a1 _ _ (set_payload x pay) S1 eq_refl) in S2; [exact S2|apply (act_safe T n x pay)].
  - apply (acted_index T V ts other dels d n FN_MESSAGE_RELEASE x 0 a _ _ (release_msg x) R eq_refl) in S1; [exact S1|apply (act_safe T n x 0)].
  - apply (acted_index T V ts other dels d n FN_PAYLOAD_XFER x 0 a _ _ (HLoad (fun m : mst T => need (message_payload x true m) (fun '(_, m) => HStore m (HRet STATUS_SUCCESS)))) R eq_refl) in S1; [exact S1|apply (act_safe T n x 0)].
  - destruct R as [A1 A2 A3]. apply (step_frame _ (fun u => fst u = fst (a_user a)) msg_fn dels _ d msg_dd) in S1; auto; [|intros; apply msg_foreign; auto].
    destruct S1 as (S1 & S2 & S3 & S4 & S5). constructor; [auto|auto|rewrite S4; auto].
Qed.
Definition all_foreign (d : Z) (h : list mop) : Prop := forall q, In (MOther q) h -> foreign msg_fn d q = true.
Lemma created_index : forall T V (ts : tops T) (other : acts V) dels d h n (a : ast (mst T * V)) os a', ARel d a n -> 0 <= n -> n + Z.of_nat (length h) < 2^64 -> all_foreign d h ->
  asteps dels (msg_acts ts other) (flat_map (sops d) h) a = Some (os, a') -> (forall x, In x (created d h os) -> n < x) /\ NoDup (created d h os).
Proof.
  intros T V ts other dels d. induction h as [|p h IH]; intros n a os a' R N0 N1 AF H.
  - cbn. split; [intros x []|constructor].
  - cbn [flat_map] in H. apply asteps_app in H as (o1 & o2 & a1 & E1 & E2 & -> & L). cbn [created].
    rewrite <- L, firstn_app, Nat.sub_diag, firstn_all, firstn_O, app_nil_r, skipn_app, Nat.sub_diag, skipn_all. cbn [app skipn].
    assert (AF' : all_foreign d h) by (intros q K; apply AF; right; auto). cbn [length] in N1. rewrite Nat2Z.inj_succ in N1.
    destruct (last o1 (0, nowhere)) as [e [[[f i] ev] x]] eqn:LA.
    assert (REST : p <> MCreate -> (forall y, In y (created d h o2) -> n < y) /\ NoDup (created d h o2)).
    { intros NC. apply one_index with (n := n) in E1; auto; [|intros q ->; apply AF; left; auto]. eapply IH; eauto. lia. }
    destruct p; try (apply REST; discriminate). clear REST. cbn [sops asteps] in E1. destruct (astep _ _ _ a) as [[o a2]|] eqn:S1; [|discriminate]. inversion E1; subst; clear E1.
    cbn [last] in LA. subst o. apply (create_index _ _ _ _ _ _ n) in S1; auto; [|lia]. cbn [fst snd] in S1. destruct S1 as [[R1 F]|[R1 F]].
    + destruct (IH n _ o2 a' R1) as [I1 I2]; auto; [lia|]. destruct (ok e) eqn:O; cbn [andb]; [|auto]. rewrite F by auto. change (MR_CREATE_FAILURE =? MR_CREATE_SUCCESS) with false. rewrite andb_false_r. auto.
    + destruct (IH (n + 1) _ o2 a' R1) as [I1 I2]; auto; [lia|lia|]. destruct (ok e && _ && _) eqn:O.
      * apply andb_prop in O as [O _]. apply andb_prop in O as [O _]. rewrite F by auto. split; [intros y [<-|K]; [lia|apply I1 in K; lia]|]. constructor; auto. intros K. apply I1 in K. lia.
      * split; auto. intros y K. apply I1 in K. lia.
Qed.
