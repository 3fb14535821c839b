From Verif Require Import Base Status MemModel MemProofs Heap TabModel TabSpec TabProofs SchedModel SchedSpec SchedProofs SchedHist DiscFrame MsgModel MsgSpec.

Lemma on_snd_safe : forall A B (c : hprog B) (m : A), safe (fun u => fst u = m) (on_snd c).
Proof. intros A B c m. induction c; cbn; auto. Qed.
Lemma msg_foreign : forall T V (ts : tops T) (other : acts V) m fn cx yf y, msg_fn fn = false -> safe (fun u => fst u = m) (msg_acts ts other fn cx yf y).
Proof. intros. unfold msg_acts. rewrite H. cbn [negb]. apply on_snd_safe. Qed.

Definition msg_dd : dd := DD true MESSAGE_ID MSG_CTX [FN_MSG_CREATE; FN_MSG_CLOSE; FN_MSG_SEND; FN_MSG_RECEIVE].
Definition view (b : mbox) : Z * list Z := (b_blocked b, b_queue b).
Record box_rel {T} (TR : T -> list Z -> Prop) (m : mst T) (l : mail) : Prop := BoxRel
  { br_tree : exists tl, TR (m_tree m) tl /\ NoDup tl /\ (forall k, In k tl <-> In k (addrs (m_boxes m)));
    br_wf : hwf (m_boxes m);
    br_boxes : l_boxes l = hmap view (m_boxes m);
    br_index : m_index m = l_next l;
    br_range : 0 <= l_next l < 2^64;
    br_keys : forall k, In k (addrs (m_boxes m)) -> 0 < k <= l_next l;
    br_empty : forall k b, hget (m_boxes m) k = Some b -> b_blocked b <> 0 -> b_queue b = [] }.
Record MRel {T V} (TR : T -> list Z -> Prop) (mem : bool) (d : Z) (a : ast (mst T * V)) (c : Z) (l : mail) : Prop := MkMRel
  { mr_cur : a_cur a = c;
    mr_disc : hget (a_discs a) d = Some msg_dd;
    mr_others : others_foreign msg_fn d a;
    mr_al : mem = false -> a_al a = [];
    mr_box : box_rel TR (fst (a_user a)) l }.

Lemma yield_msg : forall T V (ts : tops T) (other : acts V) dels d ev fn p a, hget (a_discs a) d = Some msg_dd ->
  0 <= ev -> nth_error (dd_cbs msg_dd) (Z.to_nat ev) = Some fn ->
  astep dels (msg_acts ts other) (SYield d ev p) a = resume (happly (msg_acts ts other fn MSG_CTX (a_cur a) p) a).
Proof.
  intros T V ts other dels d ev fn p a D E NE. cbn [astep]. rewrite D.
  assert (L : (Z.to_nat ev < 4)%nat) by (change 4%nat with (length (dd_cbs msg_dd)); apply nth_error_Some; congruence). 
  assert (C : ev = 0 \/ ev = 1 \/ ev = 2 \/ ev = 3) by lia.
  destruct C as [->|[->|[->| ->]]]; cbn in NE; inversion NE; subst; reflexivity.
Qed.
Lemma resumes_same : forall f d ev p, resumes (STATUS_SUCCESS, (f, d, ev, p)) f d ev p = true.
Proof. intros. unfold resumes. rewrite !Z.eqb_refl. reflexivity. Qed.
Lemma refused_same : forall f ev p, refused (STATUS_SUCCESS, (f, MESSAGE_ID, ev, p)) f ev = true.
Proof. intros. unfold refused. rewrite !Z.eqb_refl. reflexivity. Qed.
Lemma refused_other : forall f ev ev' p, ev <> ev' -> refused (STATUS_SUCCESS, (f, MESSAGE_ID, ev', p)) f ev = false.
Proof. intros. unfold refused. rewrite !Z.eqb_refl. apply not_eq_sym, Z.eqb_neq in H. rewrite H. reflexivity. Qed.
(** The verdict, and the state goes on in step. *)
Definition steps_on {T V} (TR : T -> list Z -> Prop) mem d (a' : ast (mst T * V)) (v : verdict) : Prop :=
  match v with Fine c l => MRel TR mem d a' c l | Wrong => False | Unsaid => True end.

(** A handler that ends by answering the yielding fiber. *)
Lemma answered : forall T V (TR : T -> list Z -> Prop) mem d (a a1 : ast (mst T * V)) c f l l' ev p o a' v, MRel TR mem d a c l ->
  a_discs a1 = a_discs a -> (a_al a = [] -> a_al a1 = []) -> box_rel TR (fst (a_user a1)) l' ->
  resume (happly (on_fst (answer f ev p)) a1) = Some (o, a') ->
  (mem = true -> ok (fst o) = false -> v = Unsaid) ->
  (o = (STATUS_SUCCESS, (f, MESSAGE_ID, ev, p)) -> v = Fine f l') -> steps_on TR mem d a' v.
Proof.
  intros T V TR mem d a a1 c f l l' ev p o a' v R D AL BR H V1 V2.
  apply (ready_next _ f MESSAGE_ID ev p) in H. destruct H as (H1 & H2 & H3 & [(F & N & _)|(-> & C)]).
  - destruct mem; [rewrite V1 by auto; exact Logic.I|]. exfalso. apply N, AL, (mr_al _ _ _ _ _ _ R). auto.
  - rewrite V2 by auto. constructor.
    + auto.
    + rewrite H2, D. apply (mr_disc _ _ _ _ _ _ R).
    + intros d' x. rewrite H2, D. apply (mr_others _ _ _ _ _ _ R).
    + intros M. apply H3, AL, (mr_al _ _ _ _ _ _ R). auto.
    + rewrite H1. auto.
Qed.

Lemma box_get : forall T (TR : T -> list Z -> Prop) m l k, box_rel TR m l -> hget (l_boxes l) k = option_map view (hget (m_boxes m) k).
Proof. intros T TR m l k R. rewrite (br_boxes _ _ _ R). apply hmap_get. Qed.
Lemma box_find : forall T (ts : tops T) TR Q m l k, tab_ok ts TR Q -> box_rel TR m l ->
  t_find ts (m_tree m) k = Some (match hget (m_boxes m) k with Some _ => (STATUS_SUCCESS, k) | None => (ERROR_RBTREE_NOT_FOUND, 0) end).
Proof.
  intros T ts TR Q m l k OK R. destruct (br_tree _ _ _ R) as (tl & T1 & _ & T2). rewrite (tb_find _ _ _ OK _ _ k T1). f_equal.
  destruct (hget (m_boxes m) k) eqn:G.
  - apply hget_in, T2, zmem_in in G. rewrite G. auto.
  - apply hget_none in G. destruct (zmem k tl) eqn:Z0; auto. apply zmem_in, T2 in Z0. contradiction.
Qed.
(** A change of one mailbox. *)
Lemma box_set : forall T (TR : T -> list Z -> Prop) m l k b b' sent got, box_rel TR m l -> hget (m_boxes m) k = Some b -> (b_blocked b' <> 0 -> b_queue b' = []) ->
  box_rel TR (set_box k b' m) (Mail (hset (l_boxes l) k (view b')) (l_next l) sent got).
Proof.
  intros T TR m l k b b' sent got R G E. destruct R. unfold set_box. constructor; cbn [m_tree m_boxes m_index l_boxes l_next].
  - rewrite hset_addrs. auto.
  - apply hset_wf; auto.
  - rewrite br_boxes0, hmap_set. auto.
  - auto.
  - auto.
  - rewrite hset_addrs. auto.
  - intros k' x. rewrite hget_hset. destruct (k' =? k); [rewrite G; intros K; inversion K; subst; auto|eauto].
Qed.
(** The messages do not matter here. *)
Lemma box_msgs : forall T (TR : T -> list Z -> Prop) m l g r, box_rel TR m l -> box_rel TR (MS (m_tree m) (m_boxes m) (m_index m) g r) l.
Proof. intros T TR m l g r R. destruct R. constructor; auto. Qed.
Lemma mail_eta : forall l, Mail (l_boxes l) (l_next l) (l_sent l) (l_got l) = l.
Proof. intros []. auto. Qed.
Lemma release_boxes : forall T l (m m' : mst T), msgs_release l m = Some m' -> m_tree m' = m_tree m /\ m_boxes m' = m_boxes m /\ m_index m' = m_index m.
Proof.
  induction l as [|x l IH]; intros m m' H; cbn [msgs_release] in H; [inversion H; subst; auto|].
  unfold msg_release in H. destruct (hget _ _); [|discriminate]. apply IH in H. exact H.
Qed.
Lemma alloc_step : forall T V (TR : T -> list Z -> Prop) mem d (a : ast (mst T * V)) c l, MRel TR mem d a c l -> exists e a1,
  alloc_spec a = (e, a1) /\ MRel TR mem d a1 c l /\ a_user a1 = a_user a /\ a_discs a1 = a_discs a /\ a_cur a1 = a_cur a /\ (a_al a = [] -> a_al a1 = []) /\ (mem = false -> e = STATUS_SUCCESS).
Proof.
  intros T V TR mem d a c l R. pose proof (alloc_frame _ a) as A. pose proof (alloc_nil _ a) as N. destruct (alloc_spec a) as [e a1]. destruct A as (A & B & C & D). cbn [snd] in *.
  exists e, a1. destruct R. split; [auto|]. split.
  - constructor; try congruence; auto. intros d' x. rewrite B. apply mr_others0.
  - repeat (split; [auto|]). intros M. specialize (N (mr_al0 M)). inversion N; auto.
Qed.

Lemma create_step : forall T V (ts : tops T) (other : acts V) TR Q dels mem d a c l o a', tab_ok ts TR Q -> MRel TR mem d a c l ->
  astep dels (msg_acts ts other) (SYield d MY_CREATE 0) a = Some (o, a') -> steps_on TR mem d a' (mail_step mem d MCreate o c l).
Proof.
  intros T V ts other TR Q dels mem d a c l o a' OK R H.
  rewrite (yield_msg _ _ _ _ _ _ _ FN_MSG_CREATE _ _ (mr_disc _ _ _ _ _ _ R)) in H by (reflexivity || (unfold MY_CREATE; lia)).
  rewrite (mr_cur _ _ _ _ _ _ R) in H.
  change (msg_acts ts other FN_MSG_CREATE MSG_CTX c 0) with (@on_fst (mst T) V (create_box ts MSG_CTX c 0)) in H.
  unfold create_box, on_msg in H. rewrite Z.eqb_refl in H. cbn [on_fst happly] in H.
  set (v := mail_step mem d MCreate o c l). unfold mail_step in v. destruct (2^64 <=? l_next l + 1) eqn:BD; [exact Logic.I|]. apply Z.leb_gt in BD.
  pose proof (mr_box _ _ _ _ _ _ R) as BR. set (m := fst (a_user a)) in *.
  assert (W : wrap64 (m_index m + 1) = l_next l + 1).
  { rewrite (br_index _ _ _ BR). pose proof (br_range _ _ _ BR). unfold wrap64. apply Z.mod_small. lia. }
  rewrite W in H.
  assert (FAIL : forall a1 p, MRel TR mem d a1 c l -> mem = true -> resume (happly (on_fst (answer c MR_CREATE_FAILURE p)) a1) = Some (o, a') -> steps_on TR mem d a' v).
  { intros a1 p R1 M J. eapply (answered _ _ _ _ _ a1 a1 c c l l MR_CREATE_FAILURE); eauto; [apply (mr_box _ _ _ _ _ _ R1)| |].
    - intros _ F. subst v. rewrite M, F. reflexivity.
    - intros ->. subst v. rewrite M. cbn [fst]. rewrite refused_same. reflexivity. }
  assert (KM : forall e, ok e = false -> (mem = false -> e = STATUS_SUCCESS) -> mem = true).
  { intros e F K. destruct mem; auto. rewrite K in F by auto. discriminate. }
  destruct (alloc_step _ _ _ _ _ _ _ _ R) as (e1 & a1 & E1 & R1 & U1 & D1 & C1 & L1 & M1). rewrite E1 in H.
  destruct (ok e1) eqn:O1; cbn [negb on_fst happly] in H; [|eapply FAIL; eauto].
  destruct (alloc_step _ _ _ _ _ _ _ _ R1) as (e2 & a2 & E2 & R2 & U2 & D2 & C2 & L2 & M2). rewrite E2 in H.
  destruct (ok e2) eqn:O2; cbn [negb on_fst happly] in H; [|eapply (FAIL a2); eauto].
  destruct (alloc_step _ _ _ _ _ _ _ _ R2) as (e3 & a3 & E3 & R3 & U3 & D3 & C3 & L3 & M3). rewrite E3 in H.
  destruct (ok e3) eqn:O3; cbn [negb on_fst happly] in H; [|eapply (FAIL a3); eauto].
  destruct (alloc_step _ _ _ _ _ _ _ _ R3) as (e4 & a4 & E4 & R4 & U4 & D4 & C4 & L4 & M4). rewrite E4 in H.
  destruct (br_tree _ _ _ BR) as (tl & T1 & T2 & T3). pose proof (br_range _ _ _ BR) as RG.
  assert (NI : ~ In (l_next l + 1) (addrs (m_boxes m))) by (intros K; apply (br_keys _ _ _ BR) in K; lia).
  destruct (tb_insert _ _ _ OK e4 (m_tree m) tl (l_next l + 1) T1) as (t' & I1 & I2); [lia|]. rewrite I1 in H. cbn [need] in H.
  destruct (ok e4) eqn:O4.
  - change (negb (ok STATUS_SUCCESS)) with false in H. cbn [on_fst happly] in H.
    eapply (answered _ _ _ _ _ a _ c c l (Mail (hadd (l_boxes l) (l_next l + 1) (0, [])) (l_next l + 1) (l_sent l) (l_got l)) _ _ _ _ _ R); [| | |exact H| |]; cbn [user_set a_discs a_cur a_al a_user fst].
    + congruence.
    + auto.
    + constructor; cbn [m_tree m_boxes m_index l_boxes l_next].
      * exists (zput (l_next l + 1) tl). split; [auto|]. split; [apply zput_nodup; auto; rewrite T3; auto|]. intros k. rewrite zput_in, T3. cbn [hadd addrs map fst In]. intuition congruence.
      * apply hadd_wf; [apply (br_wf _ _ _ BR)|lia|apply hget_none; auto].
      * rewrite (br_boxes _ _ _ BR). reflexivity.
      * auto.
      * lia.
      * intros k [<-|K]; [cbn [fst]; lia|]. apply (br_keys _ _ _ BR) in K. lia.
      * intros k b. rewrite hget_hadd. destruct (k =? _); [intros K; inversion K; subst; auto|apply (br_empty _ _ _ BR)].
    + intros -> F. subst v. rewrite F. reflexivity.
    + intros ->. subst v. cbn [fst]. rewrite refused_other by discriminate. rewrite resumes_same. destruct mem; reflexivity.
  - rewrite O4 in H. cbn [negb on_fst happly] in H. eapply (FAIL a4); eauto.
Qed.

Lemma close_step : forall T V (ts : tops T) (other : acts V) TR Q dels mem d a c l b o a', tab_ok ts TR Q -> Q (m_tree (fst (a_user a))) b -> MRel TR mem d a c l ->
  astep dels (msg_acts ts other) (SYield d MY_CLOSE b) a = Some (o, a') -> steps_on TR mem d a' (mail_step mem d (MClose b) o c l).
Proof.
  intros T V ts other TR Q dels mem d a c l b o a' OK QB R H.
  rewrite (yield_msg _ _ _ _ _ _ _ FN_MSG_CLOSE _ _ (mr_disc _ _ _ _ _ _ R)) in H by (reflexivity || (unfold MY_CLOSE; lia)).
  rewrite (mr_cur _ _ _ _ _ _ R) in H.
  change (msg_acts ts other FN_MSG_CLOSE MSG_CTX c b) with (@on_fst (mst T) V (close_box ts MSG_CTX c b)) in H.
  unfold close_box, on_msg in H. rewrite Z.eqb_refl in H. cbn [on_fst happly] in H.
  pose proof (mr_box _ _ _ _ _ _ R) as BR. set (m := fst (a_user a)) in *.
  destruct (br_tree _ _ _ BR) as (tl & T1 & T2 & T3).
  destruct (tb_delete _ _ _ OK (m_tree m) tl b T1 QB) as (t' & D1 & D2). rewrite D1 in H. cbn [need] in H.
  pose proof (box_get _ _ _ _ b BR) as BG. unfold mail_step. rewrite BG. destruct (zmem b tl) eqn:Z0.
  - apply zmem_in in Z0. pose proof Z0 as Z1. apply T3 in Z1. destruct (hget (m_boxes m) b) as [x|] eqn:G; [|apply hget_none in G; contradiction].
    change (negb (ok STATUS_SUCCESS)) with false in H. cbn [m_boxes] in H. rewrite G in H. cbn [need option_map] in *. cbn [option_map].
    destruct (msgs_release _ _) as [m2|] eqn:MR; [|discriminate]. apply release_boxes in MR as (E1 & E2 & E3). cbn [m_tree m_boxes m_index] in *. cbn [need on_fst happly] in H.
    eapply (answered _ _ _ _ _ a _ c c l (Mail (hdel (l_boxes l) b) (l_next l) (l_sent l) (l_got l)) _ _ _ _ _ R); [| | |exact H| |]; cbn [user_set a_discs a_cur a_al a_user fst]; auto.
    + rewrite E1, E2, E3. destruct BR. assert (DI : forall k, In k (addrs (hdel (m_boxes m) b)) <-> k <> b /\ In k (addrs (m_boxes m))).
      { intros k. split; [intros K; split; [|eapply hdel_in; eauto]|].
        - intros ->. apply hget_none in K; auto. apply hget_hdel_same; auto.
        - intros [K1 K2]. destruct (in_dec Z.eq_dec k (addrs (hdel (m_boxes m) b))) as [|K3]; auto. apply hget_none in K3. rewrite hget_hdel_other in K3 by auto. apply hget_none in K3. contradiction. }
      constructor; cbn [m_tree m_boxes m_index l_boxes l_next]; auto.
      * exists (zdel b tl). split; [auto|]. split; [apply zdel_nodup; auto|]. intros k. rewrite zdel_in, DI, T3 by auto. tauto.
      * apply hdel_wf; auto.
      * rewrite br_boxes0, hmap_del. auto.
      * intros k K. apply DI in K as [_ K]. auto.
      * intros k y. rewrite hget_hdel by auto. destruct (k =? b); [discriminate|apply br_empty0].
    + intros -> F. rewrite F. reflexivity.
    + intros ->. cbn [fst]. rewrite resumes_same. destruct mem; reflexivity.
  - apply zmem_not in Z0. assert (G : hget (m_boxes m) b = None) by (apply hget_none; rewrite <- T3; auto). rewrite G. cbn [option_map].
    cbn in H. eapply (answered _ _ _ _ _ a _ c c l l _ _ _ _ _ R); [| | |exact H| |]; cbn [user_set a_discs a_cur a_al a_user fst]; auto.
    + destruct BR. constructor; auto. cbn [m_tree]. exists tl. split; [|auto]. rewrite zdel_id in D2; auto.
    + intros -> F. rewrite F. reflexivity.
    + intros ->. cbn [fst]. rewrite resumes_same. destruct mem; reflexivity.
Qed.

Lemma ready_ret : forall U x (a : ast U), happly (HReady true x (fun e => if negb (ok e) then HRet e else HRet STATUS_SUCCESS)) a = happly (HReady true x (fun e => HRet e)) a.
Proof.
  intros. cbn [happly]. destruct (push true x a) as [[e a1]|] eqn:P; auto. destruct (ok e) eqn:O; cbn [negb happly]; auto.
  rewrite (push_status _ _ _ _ _ _ P O). auto.
Qed.
Lemma send_step : forall T V (ts : tops T) (other : acts V) TR Q dels mem d a c l b x os a', tab_ok ts TR Q -> MRel TR mem d a c l ->
  asteps dels (msg_acts ts other) (sops d (MSend b x)) a = Some (os, a') -> steps_on TR mem d a' (mail_step mem d (MSend b x) (last os (0, nowhere)) c l).
Proof.
  intros T V ts other TR Q dels mem d a c l b x os a' OK R H. cbn [sops asteps] in H.
  destruct (astep _ _ _ a) as [[o1 a1]|] eqn:S1; [|discriminate]. destruct (astep _ _ _ a1) as [[o a2]|] eqn:S2; [|discriminate]. inversion H; subst os a2; clear H.
  change (last [o1; o] (0, nowhere)) with o.
  (* the address *)
  assert (A1 : exists g, hget (m_msgs (fst (a_user a1))) x = Some g /\ g_send g = b /\ MRel TR mem d a1 c l).
  { cbn [astep] in S1. change (msg_acts ts other FN_SET_ADDRESS x (a_cur a) b) with (@on_fst (mst T) V (set_address x b)) in S1. unfold set_address in S1. cbn [on_fst happly] in S1.
    destruct (hget _ x) as [g|] eqn:G; [|discriminate]. cbn [need on_fst happly] in S1. inversion S1; subst. cbn [user_set a_user fst m_msgs].
    eexists. split; [rewrite hget_hset, Z.eqb_refl, G; reflexivity|]. split; [reflexivity|]. destruct R. constructor; auto. apply box_msgs. auto. }
  destruct A1 as (g & G1 & G2 & R1). clear S1. rename S2 into H.
  rewrite (yield_msg _ _ _ _ _ _ _ FN_MSG_SEND _ _ (mr_disc _ _ _ _ _ _ R1)) in H by (reflexivity || (unfold MY_SEND; lia)).
  rewrite (mr_cur _ _ _ _ _ _ R1) in H.
  change (msg_acts ts other FN_MSG_SEND MSG_CTX c x) with (@on_fst (mst T) V (send ts MSG_CTX c x)) in H.
  unfold send, on_msg in H. rewrite Z.eqb_refl in H. cbn [on_fst happly] in H.
  pose proof (mr_box _ _ _ _ _ _ R1) as BR. set (m := fst (a_user a1)) in *. rewrite G1 in H. cbn [need] in H. rewrite G2 in H.
  rewrite (box_find _ _ _ _ _ _ b OK BR) in H. unfold mail_step. rewrite (box_get _ _ _ _ b BR). destruct (hget (m_boxes m) b) as [bx|] eqn:G; cbn [option_map need] in *.
  2:{ cbn in H. eapply (answered _ _ _ _ _ a1 a1 c c l l _ _ _ _ _ R1); [| | |exact H| |]; auto.
      - intros -> F. rewrite F. reflexivity.
      - intros ->. cbn [fst]. rewrite resumes_same. destruct mem; reflexivity. }
  change (negb (ok STATUS_SUCCESS)) with false in H. cbv iota in H. rewrite G in H. cbn [need on_fst happly] in H.
  destruct (alloc_step _ _ _ _ _ _ _ _ R1) as (e1 & a2 & E1 & R2 & U1 & D1 & C1 & L1 & M1). rewrite E1 in H.
  unfold view at 1. destruct (ok e1) eqn:O1; cbn [negb on_fst happly] in H.
  2:{ assert (mem = true) as -> by (destruct mem; auto; rewrite M1 in O1 by auto; discriminate).
      eapply (answered _ _ _ _ _ a2 a2 c c l l _ _ _ _ _ R2); [| | |exact H| |]; auto.
      - apply (mr_box _ _ _ _ _ _ R2).
      - intros _ F. rewrite F. reflexivity.
      - intros ->. cbn [fst]. rewrite refused_same. reflexivity. }
  destruct (b_blocked bx =? 0) eqn:BL.
  - cbn [negb] in H. change (on_fst (if negb false then ?p else ?q)) with (@on_fst (mst T) V q) in H.
    eapply (answered _ _ _ _ _ a1 (user_set (set_box b (Mbox (b_blocked bx) (b_queue bx ++ [x])) m, snd (a_user a2)) a2) c c l (Mail (hset (l_boxes l) b (0, b_queue bx ++ [x])) (l_next l) (l_sent l ++ [(b, x)]) (l_got l)) MR_SEND_SUCCESS 0 o _ _ R1); cbn [user_set a_discs a_cur a_al a_user fst]; auto.
    + apply Z.eqb_eq in BL. rewrite BL. change (0, b_queue bx ++ [x]) with (view (Mbox 0 (b_queue bx ++ [x]))). eapply box_set; eauto. cbn. congruence.
    + rewrite <- H. unfold answer. cbn [on_fst].
      match goal with |- _ = resume (match push true ?y ?z with _ => _ end) => transitivity (resume (happly (HReady true y (fun e => if negb (ok e) then HRet e else HRet STATUS_SUCCESS)) z)) end; [rewrite ready_ret; reflexivity|].
      cbn [happly]. destruct (push true _ _) as [[e9 a9]|]; [|reflexivity]. destruct (ok e9); reflexivity.
    + intros -> F. rewrite F. reflexivity.
    + intros ->. cbn [fst]. rewrite refused_other by discriminate. rewrite resumes_same. destruct mem; reflexivity.
  - assert (QE : b_queue bx = []) by (apply (br_empty _ _ _ BR _ _ G), Z.eqb_neq, BL). rewrite QE in H. cbn [app negb] in H.
    destruct (push true _ _) as [[e3 a3]|] eqn:P; [|discriminate]. apply push_frame in P as ((F1 & F2 & F3 & F4) & F5). cbn [user_set a_user a_discs a_cur a_al] in *.
    destruct (ok e3) eqn:O3; cbn [negb on_fst happly resume] in H.
    + unfold pop_box in H. cbn [on_fst happly b_queue b_blocked] in H. change (ok STATUS_SUCCESS) with true in H. cbv iota in H. cbn [negb] in H. rewrite F3 in H. cbn [fst snd] in H.
      eapply (answered _ _ _ _ _ a1 _ c (b_blocked bx) l (Mail (hset (l_boxes l) b (0, [])) (l_next l) (l_sent l ++ [(b, x)]) (l_got l ++ [(b, x)])) MR_RECEIVE_SUCCESS x o _ _ R1); [| | |exact H| |]; cbn [user_set a_discs a_cur a_al a_user fst].
      * congruence.
      * auto.
      * unfold set_box. cbn [m_tree m_boxes m_index m_msgs m_rel]. rewrite hset_hset. change (0, []) with (view (Mbox 0 [])). eapply box_set in BR; [exact BR|exact G|auto].
      * intros -> F. rewrite F. reflexivity.
      * intros ->. cbn [fst]. rewrite resumes_same.
        assert (RF : refused (STATUS_SUCCESS, (b_blocked bx, MESSAGE_ID, MR_RECEIVE_SUCCESS, x)) c MR_SEND_FAILURE = false) by (unfold refused; change (MR_RECEIVE_SUCCESS =? MR_SEND_FAILURE) with false; apply andb_false_r).
        rewrite RF. destruct mem; reflexivity.
    + cbn [resume] in H. rewrite O3 in H. cbn [negb] in H. inversion H; subst. cbn [fst]. rewrite O3. cbn [negb]. destruct mem; [exact Logic.I|]. exfalso. rewrite F5 in O3; [discriminate|]. apply L1, (mr_al _ _ _ _ _ _ R1). auto.
Qed.
Lemma receive_step : forall T V (ts : tops T) (other : acts V) TR Q dels mem d a c l b o a', tab_ok ts TR Q -> MRel TR mem d a c l ->
  astep dels (msg_acts ts other) (SYield d MY_RECEIVE b) a = Some (o, a') -> steps_on TR mem d a' (mail_step mem d (MReceive b) o c l).
Proof.
  intros T V ts other TR Q dels mem d a c l b o a' OK R H.
  rewrite (yield_msg _ _ _ _ _ _ _ FN_MSG_RECEIVE _ _ (mr_disc _ _ _ _ _ _ R)) in H by (reflexivity || (unfold MY_RECEIVE; lia)).
  rewrite (mr_cur _ _ _ _ _ _ R) in H.
  change (msg_acts ts other FN_MSG_RECEIVE MSG_CTX c b) with (@on_fst (mst T) V (receive ts MSG_CTX c b)) in H.
  unfold receive, on_msg in H. rewrite Z.eqb_refl in H. cbn [on_fst happly] in H.
  pose proof (mr_box _ _ _ _ _ _ R) as BR. set (m := fst (a_user a)) in *.
  rewrite (box_find _ _ _ _ _ _ b OK BR) in H. unfold mail_step. rewrite (box_get _ _ _ _ b BR). destruct (hget (m_boxes m) b) as [bx|] eqn:G; cbn [option_map need] in *.
  2:{ cbn in H. eapply (answered _ _ _ _ _ a a c c l l _ _ _ _ _ R); [| | |exact H| |]; auto.
      - intros -> F. rewrite F. reflexivity.
      - intros ->. cbn [fst]. rewrite resumes_same. destruct mem; reflexivity. }
  change (negb (ok STATUS_SUCCESS)) with false in H. cbv iota in H. rewrite G in H. cbn [need on_fst happly] in H.
  unfold view at 1. destruct (b_queue bx) as [|y q] eqn:QE.
  - destruct (b_blocked bx =? 0) eqn:BL; cbn [negb on_fst happly] in H.
    + pose proof H as HH. apply resume_frame in HH. destruct HH as (F1 & F2 & F3 & F4). cbn [user_set a_discs a_cur a_al a_user fst] in *.
      assert (MR : MRel TR mem d a' (if negb (ok (fst o)) then c else runner o) (Mail (hset (l_boxes l) b (c, [])) (l_next l) (l_sent l) (l_got l))).
      { constructor.
        - rewrite F1, (mr_cur _ _ _ _ _ _ R). destruct (ok (fst o)); reflexivity.
        - rewrite F2. apply (mr_disc _ _ _ _ _ _ R).
        - intros d' z. rewrite F2. apply (mr_others _ _ _ _ _ _ R).
        - intros M. apply F4, (mr_al _ _ _ _ _ _ R), M.
        - rewrite F3. cbn [fst]. change (c, []) with (view (Mbox c [])). eapply box_set; eauto. }
      destruct mem; [|exact MR]. destruct (negb (ok (fst o))) eqn:NO; [exact Logic.I|exact MR].
    + eapply (answered _ _ _ _ _ a a c c l l _ _ _ _ _ R); [| | |exact H| |]; auto.
      * intros -> F. rewrite F. reflexivity.
      * intros ->. cbn [fst]. rewrite resumes_same. destruct mem; reflexivity.
  - unfold pop_box in H. cbn [on_fst happly] in H. rewrite QE in H. cbn [on_fst happly] in H. change (ok STATUS_SUCCESS) with true in H. cbv iota in H. cbn [negb] in H.
    eapply (answered _ _ _ _ _ a _ c c l (Mail (hset (l_boxes l) b (b_blocked bx, q)) (l_next l) (l_sent l) (l_got l ++ [(b, y)])) MR_RECEIVE_SUCCESS y o _ _ R); [| | |exact H| |]; cbn [user_set a_discs a_cur a_al a_user fst]; auto.
    + change (b_blocked bx, q) with (view (Mbox (b_blocked bx) q)). eapply box_set; eauto. cbn [b_blocked b_queue]. intros N. pose proof (br_empty _ _ _ BR _ _ G N). congruence.
    + intros -> F. rewrite F. reflexivity.
    + intros ->. cbn [fst]. rewrite resumes_same. destruct mem; reflexivity.
Qed.

(** The calls on messages. *)
Lemma act_step : forall T V (TR : T -> list Z -> Prop) mem d (a a' : ast (mst T * V)) c l, MRel TR mem d a c l -> a_discs a' = a_discs a -> a_cur a' = a_cur a -> a_al a' = a_al a ->
  (exists g r, fst (a_user a') = MS (m_tree (fst (a_user a))) (m_boxes (fst (a_user a))) (m_index (fst (a_user a))) g r) -> MRel TR mem d a' c l.
Proof.
  intros T V TR mem d a a' c l R D C A (g & r & E). destruct R. constructor; try congruence.
  - intros d' x. rewrite D. apply mr_others0.
  - rewrite A. auto.
  - rewrite E. apply box_msgs. auto.
Qed.
Lemma one_step : forall T V (ts : tops T) (other : acts V) TR Q dels mem d a c l p os a', tab_ok ts TR Q ->
  (forall b, p = MClose b -> Q (m_tree (fst (a_user a))) b) -> MRel TR mem d a c l ->
  asteps dels (msg_acts ts other) (sops d p) a = Some (os, a') -> steps_on TR mem d a' (mail_step mem d p (last os (0, nowhere)) c l).
Proof.
  intros T V ts other TR Q dels mem d a c l p os a' OK CL R H.
  destruct p as [|b|b x|b|x ret pay|x|x|q]; [| |eapply send_step; eauto; fail| | | | |]; (cbn [sops asteps] in H; destruct (astep _ _ _ a) as [[o a1]|] eqn:S1; [|discriminate]).
  - inversion H; subst. eapply create_step; eauto.
  - inversion H; subst. eapply close_step; eauto.
  - inversion H; subst. eapply receive_step; eauto.
  - destruct (astep _ _ _ a1) as [[o2 a2]|] eqn:S2; [|discriminate]. inversion H; subst; clear H. cbn [last]. cbn [astep] in S1, S2.
    change (msg_acts ts other FN_MESSAGE_CREATE x (a_cur a) ret) with (@on_fst (mst T) V (new_msg x ret)) in S1.
    change (msg_acts ts other FN_MESSAGE_PAYLOAD x (a_cur a1) pay) with (@on_fst (mst T) V (set_payload x pay)) in S2.
    unfold new_msg, set_payload in *. cbn [on_fst happly] in S1, S2. destruct (_ || _) in S1; [discriminate|]. cbn [on_fst happly] in S1.
    inversion S1; subst; clear S1. destruct (hget _ x) in S2; [|discriminate]. cbn [need on_fst happly] in S2. inversion S2; subst; clear S2.
    change (MRel TR mem d (user_set (MS (m_tree (fst (a_user a))) (m_boxes (fst (a_user a))) (m_index (fst (a_user a))) (hset (hadd (m_msgs (fst (a_user a))) x (Msg ret 0 0)) x (Msg (g_return m) (g_send m) pay)) (m_rel (fst (a_user a))), snd (a_user a)) a) c l).
    eapply act_step; eauto. eexists. eexists. reflexivity.
  - inversion H; subst; clear H. cbn [last]. cbn [astep] in S1.
    change (msg_acts ts other FN_MESSAGE_RELEASE x (a_cur a) 0) with (@on_fst (mst T) V (release_msg x)) in S1.
    unfold release_msg, msg_release in S1. cbn [on_fst happly] in S1. destruct (hget _ x) in S1; [|discriminate]. cbn [need on_fst happly] in S1. inversion S1; subst; clear S1.
    cbn. eapply act_step; eauto. cbn. eauto.
  - inversion H; subst; clear H. cbn [last]. cbn [astep] in S1.
    change (msg_acts ts other FN_PAYLOAD_XFER x (a_cur a) 0) with (@on_fst (mst T) V (HLoad (fun m => need (message_payload x true m) (fun '(_, m) => HStore m (HRet STATUS_SUCCESS))))) in S1.
    unfold message_payload in S1. cbn [on_fst happly] in S1. destruct (hget _ x) in S1; [|discriminate]. cbn [need on_fst happly] in S1. inversion S1; subst; clear S1.
    cbn. eapply act_step; eauto. cbn. eauto.
  - inversion H; subst; clear H. cbn [last]. unfold mail_step. destruct (foreign msg_fn d q) eqn:F; [|exact Logic.I].
    eapply (step_frame _ (fun u => fst u = fst (a_user a)) msg_fn) in S1; eauto; [|intros; apply msg_foreign; auto|apply (mr_disc _ _ _ _ _ _ R)|reflexivity|apply (mr_others _ _ _ _ _ _ R)].
    destruct S1 as (S1 & S2 & S3 & S4 & S5). destruct R. subst c. constructor; auto. rewrite S4. auto.
Qed.
Lemma asteps_app : forall U dels (ac : acts U) h1 h2 a os a', asteps dels ac (h1 ++ h2) a = Some (os, a') -> exists o1 o2 a1,
  asteps dels ac h1 a = Some (o1, a1) /\ asteps dels ac h2 a1 = Some (o2, a') /\ os = o1 ++ o2 /\ length o1 = length h1.
Proof.
  induction h1 as [|p h1 IH]; intros h2 a os a' H.
  - exists [], os, a. cbn in *. auto.
  - cbn [app asteps] in H. destruct (astep _ _ _ a) as [[o b]|] eqn:S1; [|discriminate]. destruct (asteps _ _ (h1 ++ h2) b) as [[l b']|] eqn:S2; [|discriminate]. inversion H; subst.
    apply IH in S2 as (o1 & o2 & a1 & E1 & E2 & -> & L). exists (o :: o1), o2, a1. cbn [asteps app length]. rewrite S1, E1. auto.
Qed.
Lemma asteps_join : forall U dels (ac : acts U) h1 h2 a o1 a1 o2 a2, asteps dels ac h1 a = Some (o1, a1) -> asteps dels ac h2 a1 = Some (o2, a2) ->
  asteps dels ac (h1 ++ h2) a = Some (o1 ++ o2, a2).
Proof.
  induction h1 as [|p h1 IH]; intros h2 a o1 a1 o2 a2 H H2; cbn [asteps app] in *; [inversion H; subst; auto|].
  destruct (astep _ _ _ a) as [[o b]|]; [|discriminate]. destruct (asteps _ _ h1 b) as [[l b']|] eqn:E; [|discriminate]. inversion H; subst. erewrite IH by eauto. reflexivity.
Qed.
Lemma closes_app : forall T V dels (ac : acts (mst T * V)) Q d pre t h a os a1, closes dels ac Q d pre (t ++ h) a -> asteps dels ac (pre ++ flat_map (sops d) t) a = Some (os, a1) ->
  closes dels ac Q d [] h a1.
Proof.
  intros T V dels ac Q d pre t h a os a1 C H h1 b h2 o2 a2 -> H2. cbn [app] in H2. eapply (C (t ++ h1) b h2); [rewrite <- app_assoc; reflexivity|].
  rewrite flat_map_app, app_assoc. eapply asteps_join; eauto.
Qed.
Lemma closes_none : forall T V dels (ac : acts (mst T * V)) Q d pre h a, no_close h -> closes dels ac Q d pre h a.
Proof. intros T V dels ac Q d pre h a N h1 b h2 os a1 ->. exfalso. apply (N b), in_elt. Qed.
Lemma closes_all : forall T V dels (ac : acts (mst T * V)) d pre h a, closes dels ac (fun _ _ => True) d pre h a.
Proof. intros T V dels ac d pre h a h1 b h2 os a1 _ _. exact Logic.I. Qed.
(** A way to check it. *)
Fixpoint closesb {T V} (dels : bool) (ac : acts (mst T * V)) (qb : T -> Z -> bool) (d : Z) (h : list mop) (a : ast (mst T * V)) : bool :=
  match h with
  | [] => true
  | p :: h => match p with MClose b => qb (m_tree (fst (a_user a))) b | _ => true end &&
      match asteps dels ac (sops d p) a with Some (_, a) => closesb dels ac qb d h a | None => true end
  end.
Lemma closesb_ok : forall T V dels (ac : acts (mst T * V)) qb (Q : T -> Z -> Prop) d pre h a os a1, (forall t k, qb t k = true -> Q t k) -> asteps dels ac pre a = Some (os, a1) -> closesb dels ac qb d h a1 = true ->
  closes dels ac Q d pre h a.
Proof.
  intros T V dels ac qb Q d pre h a os a1 QB P B h1 b h2 o2 a2 E H. apply asteps_app in H as (o3 & o4 & a3 & H1 & H2 & _). rewrite P in H1. inversion H1; subst o3 a3; clear H1 P.
  revert h a1 o4 E H2 B. induction h1 as [|p h1 IH]; intros h a1 o4 E H B; subst h; cbn [app closesb flat_map asteps] in *.
  - inversion H; subst. apply andb_prop in B as [B _]. auto.
  - apply asteps_app in H as (o5 & o6 & a5 & H1 & H2 & _). rewrite H1 in B. apply andb_prop in B as [_ B]. eapply IH; eauto.
Qed.
Lemma run_steps : forall T V (ts : tops T) (other : acts V) TR Q dels mem d h a c l os a', tab_ok ts TR Q -> closes dels (msg_acts ts other) Q d [] h a -> MRel TR mem d a c l ->
  asteps dels (msg_acts ts other) (flat_map (sops d) h) a = Some (os, a') -> steps_on TR mem d a' (mail_run mem d h os c l).
Proof.
  intros T V ts other TR Q dels mem d. induction h as [|p h IH]; intros a c l os a' OK CL R H.
  - cbn in H. inversion H; subst. exact R.
  - cbn [flat_map] in H. apply asteps_app in H as (o1 & o2 & a1 & E1 & E2 & -> & L). cbn [mail_run].
    rewrite <- L, firstn_app, Nat.sub_diag, firstn_all, firstn_O, app_nil_r, skipn_app, Nat.sub_diag, skipn_all. cbn [app skipn].
    assert (ST : steps_on TR mem d a1 (mail_step mem d p (last o1 (0, nowhere)) c l)).
    { eapply one_step; eauto. intros b ->. eapply (CL [] b h); reflexivity. }
    destruct (mail_step mem d p _ c l) as [c1 l1| |]; [|exact ST|exact ST]. eapply IH; eauto. eapply (closes_app _ _ _ _ _ _ _ [p]); [exact CL|]. cbn [flat_map app]. rewrite app_nil_r. exact E1.
Qed.
