(** Many trees in one memory: the invariant and its preservation. *)
From Verif Require Import Base Status MemModel MemProofs Heap RbModel RbSpec RbProofs RbInsert RbDelete RbRemove.

(** ** Releasing nodes *)
Lemma first_error_app : forall a b, first_error (a ++ b) = if ok (first_error a) then first_error b else first_error a.
Proof.
  induction a as [|e a IH]; intros b; cbn [app first_error]; [reflexivity|].
  destruct (ok e) eqn:K; [apply IH|]. rewrite K. reflexivity.
Qed.
Lemma ok_success : forall e, ok e = true -> e = STATUS_SUCCESS.
Proof. intros e H. apply ok_true in H. exact H. Qed.
Lemma node_release_spec : forall v w a n, hwf (rw_nodes w) -> hget (rw_nodes w) a = Some n -> r_value n <> 0 ->
  exists w', node_release v w a = Some (drop_status v false (a, r_value n), w') /\
    rw_trees w' = rw_trees w /\ rw_rel w' = rw_rel w ++ [r_value n] /\ hwf (rw_nodes w') /\
    (forall b, b <> a -> hget (rw_nodes w') b = hget (rw_nodes w) b) /\
    (In a (addrs (rw_nodes w')) <-> ok (drop_status v false (a, r_value n)) = false).
Proof.
  intros v w a n W H NZ. unfold node_release. rewrite (va_eq _ _ _ H), (eqb_no _ _ NZ). cbn [negb].
  rewrite (setr_eq _ _ _ _ H). unfold release_value. rewrite (eqb_no _ _ NZ). cbn [rw_nodes rw_trees rw_rel].
  unfold drop_status. cbn [fst snd].
  assert (G : hget (hset (rw_nodes w) a (toV 0 n)) a = Some (toV 0 n)) by (apply hget_hset_same with (w := n); auto).
  destruct (ok (re_child v (r_value n))) eqn:C; cbn [negb].
  - rewrite G. destruct (ok (re_reclaim v a)) eqn:D.
    + rewrite (ok_success _ D). eexists. split; [reflexivity|]. cbn [rw_nodes rw_trees rw_rel]. split; [auto|]. split; [auto|].
      assert (W2 : hwf (hset (rw_nodes w) a (toV 0 n))) by (apply hset_wf; auto).
      split; [apply hdel_wf; auto|]. split; [intros b Hb; rewrite hget_hdel_other, hget_hset_other by auto; auto|].
      split; [|discriminate]. intros K. exfalso. pose proof (hget_hdel_same _ a W2) as X. apply hget_none in X. auto.
    + eexists. split; [reflexivity|]. cbn [rw_nodes rw_trees rw_rel]. split; [auto|]. split; [auto|].
      split; [apply hset_wf; auto|]. split; [intros b Hb; rewrite hget_hset_other by auto; auto|].
      split; [auto|]. intros _. eapply hget_in; eauto.
  - eexists. split; [reflexivity|]. cbn [rw_nodes rw_trees rw_rel]. split; [auto|]. split; [auto|].
    split; [apply hset_wf; auto|]. split; [intros b Hb; rewrite hget_hset_other by auto; auto|].
    split; [auto|]. intros _. eapply hget_in; eauto.
Qed.
(** A node whose resource was taken out. *)
Lemma node_release_kept : forall v w a n, hwf (rw_nodes w) -> hget (rw_nodes w) a = Some n -> r_value n = 0 ->
  exists w', node_release v w a = Some (re_reclaim v a, w') /\
    rw_trees w' = rw_trees w /\ rw_rel w' = rw_rel w /\ hwf (rw_nodes w') /\
    (forall b, b <> a -> hget (rw_nodes w') b = hget (rw_nodes w) b) /\
    (In a (addrs (rw_nodes w')) <-> ok (re_reclaim v a) = false).
Proof.
  intros v w a n W H NZ. unfold node_release. rewrite (va_eq _ _ _ H), NZ. cbn [Z.eqb negb]. change (negb (ok STATUS_SUCCESS)) with false. cbn iota.
  rewrite H. destruct (ok (re_reclaim v a)) eqn:D.
  - rewrite (ok_success _ D). eexists. split; [reflexivity|]. cbn [rw_nodes rw_trees rw_rel]. split; [auto|]. split; [auto|].
    split; [apply hdel_wf; auto|]. split; [intros b Hb; rewrite hget_hdel_other by auto; auto|].
    split; [|discriminate]. intros K. exfalso. pose proof (hget_hdel_same _ a W) as X. apply hget_none in X. auto.
  - eexists. split; [reflexivity|]. split; [auto|]. split; [auto|].
    split; [auto|]. split; [auto|]. split; [auto|]. intros _. eapply hget_in; eauto.
Qed.
Lemma rp_nz : forall nl c l a v r, (forall x, cnt x (nl :: ns (T c l a v r)) <= 1) -> (nl =? a) = false.
Proof. intros nl c l a v r D. apply eqb_no. nd D. Qed.

Lemma live_iff : forall A (h : heap A) a, In a (addrs h) <-> hget h a <> None.
Proof. intros. rewrite hget_none. split; [auto|]. intros H. destruct (in_dec Z.eq_dec a (addrs h)); tauto. Qed.

Lemma delete_nodes_spec : forall v t nl T0 par fuel w, T0 <> E -> hwf (rw_nodes w) -> nil_ w t = Some nl ->
  (forall x, cnt x (nl :: ns T0) <= 1) -> holds (rw_nodes w) (cells nl par T0) -> Forall (fun i => snd i <> 0) (items T0) ->
  (length (ns T0) <= fuel)%nat ->
  exists w', delete_nodes fuel v w t (rp nl T0) = Some (first_error (map (drop_status v false) (pst T0)), w') /\
    rw_trees w' = rw_trees w /\ rw_rel w' = rw_rel w ++ map snd (pst T0) /\ hwf (rw_nodes w') /\
    (forall a, cnt a (ns T0) = 0 -> hget (rw_nodes w') a = hget (rw_nodes w) a) /\
    (forall i, In i (items T0) -> (In (fst i) (addrs (rw_nodes w')) <-> ok (drop_status v false i) = false)).
Proof.
  intros v t nl T0. induction T0 as [|c l IHl a x r IHr]; intros par fuel w NE W HN D HH NZ FU; [congruence|].
  cbn [ns] in FU. rewrite app_length in FU. cbn [length] in FU. destruct fuel as [|fuel]; [lia|]. cbn [delete_nodes rp]. rewrite HN.
  cbn [cells] in HH. splitholds. rewrite (lf_eq _ _ _ H0). cbn [r_left].
  cbn [items] in NZ. apply Forall_app in NZ. destruct NZ as [NZl NZ]. inversion NZ as [|? ? NZa NZr]; subst. cbn [snd] in NZa.
  (* the left subtree *)
  assert (L : exists w', (if negb (nl =? rp nl l) then delete_nodes fuel v w t (rp nl l) else Some (STATUS_SUCCESS, w)) =
      Some (first_error (map (drop_status v false) (pst l)), w') /\
    rw_trees w' = rw_trees w /\ rw_rel w' = rw_rel w ++ map snd (pst l) /\ hwf (rw_nodes w') /\
    (forall a, cnt a (ns l) = 0 -> hget (rw_nodes w') a = hget (rw_nodes w) a) /\
    (forall i, In i (items l) -> (In (fst i) (addrs (rw_nodes w')) <-> ok (drop_status v false i) = false))).
  { destruct l as [|cl ll al vl rl].
    - cbn [rp]. rewrite Z.eqb_refl. cbn [negb]. exists w. cbn [pst map first_error]. rewrite app_nil_r. do 5 (split; [auto|]). intros i [].
    - assert (DL : forall y, cnt y (nl :: ns (T cl ll al vl rl)) <= 1).
      { intros y. specialize (D y). change (ns (T c (T cl ll al vl rl) a x r)) with (ns (T cl ll al vl rl) ++ a :: ns r) in D.
        repeat (rewrite ?cnt_app in D; rewrite ?cnt_cons in D). rewrite cnt_cons. cntpos. lia. }
      cbn [rp]. rewrite (rp_nz _ _ _ _ _ _ DL). cbn [negb]. eapply IHl; eauto; [discriminate|lia]. }
  destruct L as (w1 & E1 & T1 & Q1 & W1 & F1 & I1). rewrite E1. cbn [items].
  assert (FA : hget (rw_nodes w1) a = Some (RN par (rp nl l) (rp nl r) x c)) by (rewrite F1; [auto|cz]).
  rewrite (rg_eq _ _ _ FA). cbn [r_right].
  assert (HR : holds (rw_nodes w1) (cells nl a r)).
  { unfold holds in *. rewrite Forall_forall in *. intros y Y. rewrite F1; [auto|]. apply (in_map fst) in Y. rewrite cells_ns in Y.
    apply cnt_in in Y. specialize (D (fst y)). cbn [ns] in D. repeat (rewrite ?cnt_app in D; rewrite ?cnt_cons in D). cntpos. lia. }
  assert (HN1 : nil_ w1 t = Some nl) by (unfold nil_ in *; rewrite T1; exact HN).
  assert (R : exists w', (if negb (nl =? rp nl r) then delete_nodes fuel v w1 t (rp nl r) else Some (STATUS_SUCCESS, w1)) =
      Some (first_error (map (drop_status v false) (pst r)), w') /\
    rw_trees w' = rw_trees w1 /\ rw_rel w' = rw_rel w1 ++ map snd (pst r) /\ hwf (rw_nodes w') /\
    (forall a, cnt a (ns r) = 0 -> hget (rw_nodes w') a = hget (rw_nodes w1) a) /\
    (forall i, In i (items r) -> (In (fst i) (addrs (rw_nodes w')) <-> ok (drop_status v false i) = false))).
  { destruct r as [|cl ll al vl rl].
    - cbn [rp]. rewrite Z.eqb_refl. cbn [negb]. exists w1. cbn [pst map first_error]. rewrite app_nil_r. do 5 (split; [auto|]). intros i [].
    - assert (DL : forall y, cnt y (nl :: ns (T cl ll al vl rl)) <= 1).
      { intros y. specialize (D y). change (ns (T c l a x (T cl ll al vl rl))) with (ns l ++ a :: ns (T cl ll al vl rl)) in D.
        repeat (rewrite ?cnt_app in D; rewrite ?cnt_cons in D). rewrite cnt_cons. cntpos. lia. }
      cbn [rp]. rewrite (rp_nz _ _ _ _ _ _ DL). cbn [negb]. eapply IHr; eauto; [discriminate|lia]. }
  destruct R as (w2 & E2 & T2 & Q2 & W2 & F2 & I2). rewrite E2.
  assert (FA2 : hget (rw_nodes w2) a = Some (RN par (rp nl l) (rp nl r) x c)) by (rewrite F2; [auto|cz]).
  destruct (node_release_spec v w2 a _ W2 FA2 NZa) as (w3 & E3 & T3 & Q3 & W3 & F3 & I3). cbn [r_value] in *. rewrite E3.
  exists w3. split; [|split; [congruence|split; [|split; [exact W3|split]]]].
  - cbn [pst]. rewrite !map_app. cbn [map]. rewrite !first_error_app. cbn [first_error].
    destruct (ok (first_error (map (drop_status v false) (pst l)))); cbn [negb]; [|reflexivity].
    destruct (ok (first_error (map (drop_status v false) (pst r)))); cbn [negb]; [|reflexivity].
    destruct (ok (drop_status v false (a, x))); reflexivity.
  - rewrite Q3, Q2, Q1. cbn [pst]. rewrite !map_app, <- !app_assoc. reflexivity.
  - intros b B. cbn [ns] in B. rewrite cnt_app, cnt_cons in B. 
    assert (b <> a) by (intros ->; rewrite Z.eqb_refl in B; cbn [Z.b2z] in B; cntpos; lia).
    rewrite F3, F2, F1; auto; cntpos; lia.
  - assert (UNI : forall i, In i (items l) -> cnt (fst i) (ns r) = 0 /\ fst i <> a).
    { intros i I. apply (in_map fst) in I. rewrite items_ns in I. apply cnt_in in I. specialize (D (fst i)). cbn [ns] in D.
      repeat (rewrite ?cnt_app in D; rewrite ?cnt_cons in D). split; [cntpos; lia|]. intros K. rewrite <- K, Z.eqb_refl in D. cbn [Z.b2z] in D. cntpos; lia. }
    assert (UNR : forall i, In i (items r) -> fst i <> a).
    { intros i I. apply (in_map fst) in I. rewrite items_ns in I. apply cnt_in in I. specialize (D (fst i)). cbn [ns] in D.
      repeat (rewrite ?cnt_app in D; rewrite ?cnt_cons in D). intros K. rewrite <- K, Z.eqb_refl in D. cbn [Z.b2z] in D. cntpos; lia. }
    intros i I. apply in_app_iff in I. destruct I as [I|[<-|I]].
    + destruct (UNI i I) as [A B]. rewrite live_iff, F3, F2, <- live_iff by auto. auto.
    + exact I3.
    + rewrite live_iff, F3, <- live_iff by auto. auto.
Qed.

(** ** The invariant *)
Definition fl (g : ent -> list Z) (h : heap ent) : list Z := flat_map (fun c => g (snd c)) h.
Definition foot (e : ent) : list Z := e_nil e :: map fst (e_items e).
Definition tree_ok (bal : bool) (o : order) (w : rworld) (t : Z) (e : ent) : Prop :=
  exists T0, trep w t (e_nil e) (e_impl e) T0 (Z.of_nat (length (e_items e))) /\ items T0 = e_items e /\ nr true T0 /\
    in_order o (e_items e) /\ Forall (fun i => snd i <> 0) (e_items e) /\ (bal = true -> exists b, bh T0 b).
Record Inv (bal : bool) (o : order) (w : rworld) (s : rstate) : Prop := MkInv
  { i_wn : hwf (rw_nodes w); i_wt : hwf (rw_trees w); i_we : hwf (s_ents s); i_rel : rw_rel w = s_rel s;
    i_nd : forall x, cnt x (fl foot (s_ents s)) <= 1;
    i_im : forall x, cnt x (fl (fun e => [e_nil e]) (s_ents s)) = cnt x (fl (fun e => [e_impl e]) (s_ents s));
    i_tr : forall t e, hget (s_ents s) t = Some e -> tree_ok bal o w t e }.

Lemma fl_hset : forall g h t e e' x, hwf h -> hget h t = Some e ->
  cnt x (fl g (hset h t e')) = cnt x (fl g h) - cnt x (g e) + cnt x (g e').
Proof.
  intros g h t e e' x [ND _]. induction h as [|[u d] h IH]; cbn [hget hset]; [discriminate|]. inversion ND; subst.
  destruct (Z.eqb_spec t u) as [->|N]; intros H; unfold fl in *; cbn [flat_map snd].
  - inversion H; subst. rewrite !cnt_app. lia.
  - rewrite !cnt_app, IH by auto. lia.
Qed.
Lemma fl_hdel : forall g h t e x, hwf h -> hget h t = Some e -> cnt x (fl g (hdel h t)) = cnt x (fl g h) - cnt x (g e).
Proof.
  intros g h t e x [ND _]. induction h as [|[u d] h IH]; cbn [hget hdel]; [discriminate|]. inversion ND; subst.
  destruct (Z.eqb_spec t u) as [->|N]; intros H; unfold fl in *; cbn [flat_map snd].
  - inversion H; subst. rewrite !cnt_app. lia.
  - rewrite !cnt_app, IH by auto. lia.
Qed.
Lemma fl_one : forall g h t e x, hget h t = Some e -> cnt x (g e) <= cnt x (fl g h).
Proof.
  intros g h t e x. induction h as [|[u d] h IH]; cbn [hget]; [discriminate|]. unfold fl in *. cbn [flat_map snd]. rewrite cnt_app.
  pose proof (cnt_nonneg x (flat_map (fun c => g (snd c)) h)). pose proof (cnt_nonneg x (g d)).
  destruct (Z.eqb_spec t u) as [->|N]; intros H1; [inversion H1; subst|apply IH in H1]; lia.
Qed.
Lemma fl_two : forall g h t u e d x, hwf h -> t <> u -> hget h t = Some e -> hget h u = Some d -> cnt x (g e) + cnt x (g d) <= cnt x (fl g h).
Proof.
  intros g h t u e d x W N He Hd. pose proof (fl_hset g h t e e x W He). 
  assert (X : hget (hdel h t) u = Some d) by (rewrite hget_hdel_other; auto).
  apply (fl_one g _ _ _ x) in X. rewrite (fl_hdel g h t e x W He) in X. lia.
Qed.
Lemma fl_in : forall g h x, cnt x (fl g h) <> 0 -> exists t e, In (t, e) h /\ cnt x (g e) <> 0.
Proof.
  induction h as [|[t e] h IH]; unfold fl in *; cbn [flat_map snd]; intros x H; [cbn in H; lia|]. rewrite cnt_app in H.
  destruct (Z.eq_dec (cnt x (g e)) 0) as [Z0|Z0].
  - destruct (IH x) as (u & d & A & B); [lia|]. exists u, d. split; [right; auto|auto].
  - exists t, e. split; [left; auto|auto].
Qed.
Lemma in_hget : forall A (h : heap A) t e, hwf h -> In (t, e) h -> hget h t = Some e.
Proof.
  intros A h t e [ND _]. induction h as [|[u d] h IH]; intros I; [destruct I|]. cbn [addrs map fst] in ND. inversion ND; subst. cbn [hget].
  destruct I as [I|I]; [inversion I; subst; rewrite Z.eqb_refl; auto|].
  rewrite eqb_no; [auto|]. intros ->. apply H1. apply (in_map fst) in I. exact I.
Qed.
(** The sentinel inside a tree is live and black: it is the nil of some tree. *)
Lemma impl_black : forall bal o w s t e, Inv bal o w s -> hget (s_ents s) t = Some e ->
  exists u d, hget (s_ents s) u = Some d /\ e_nil d = e_impl e /\ exists k, hget (rw_nodes w) (e_impl e) = Some k /\ r_red k = false.
Proof.
  intros bal o w s t e I H. pose proof (fl_one (fun e => [e_impl e]) _ _ _ (e_impl e) H) as A. cbn [cnt] in A. rewrite Z.eqb_refl in A.
  rewrite <- (i_im _ _ _ _ I) in A. cbn [Z.b2z] in A.
  destruct (fl_in (fun e => [e_nil e]) (s_ents s) (e_impl e)) as (u & d & B & C); [lia|].
  apply in_hget in B; [|apply I]. exists u, d. split; [exact B|]. cbn [cnt] in C.
  destruct (Z.eqb_spec (e_nil d) (e_impl e)) as [K|K]; [|cbn in C; lia]. split; [exact K|].
  destruct (i_tr _ _ _ _ I _ _ B) as (T0 & (_ & _ & _ & k & K1 & K2) & _). exists k. rewrite <- K. auto.
Qed.
Lemma foot_ns : forall e T0, items T0 = e_items e -> foot e = e_nil e :: ns T0.
Proof. intros e T0 H. unfold foot. rewrite <- H, items_ns. reflexivity. Qed.
Lemma tree_ok_frame : forall bal o w w' t e, tree_ok bal o w t e ->
  (forall a, cnt a (foot e) <> 0 -> hget (rw_nodes w') a = hget (rw_nodes w) a) -> hget (rw_trees w') t = hget (rw_trees w) t ->
  tree_ok bal o w' t e.
Proof.
  intros bal o w w' t e (T0 & (HT & D & HH & k & K1 & K2) & IT & REST) FN FT. exists T0. split; [|auto].
  rewrite (foot_ns _ _ IT) in FN.
  split; [congruence|]. split; [exact D|]. split.
  - unfold holds in *. rewrite Forall_forall in *. intros c C. rewrite FN; [auto|]. apply (in_map fst) in C. rewrite cells_ns in C. apply cnt_in in C.
    rewrite cnt_cons. pose proof (b2z_nonneg (e_nil e =? fst c)). lia.
  - exists k. rewrite FN; [auto|]. rewrite cnt_cons, Z.eqb_refl. cbn [Z.b2z]. pose proof (cnt_nonneg (e_nil e) (ns T0)). lia.
Qed.
Lemma tree_ok_relax : forall bal o w t e, tree_ok bal o w t e -> tree_ok false o w t e.
Proof. intros bal o w t e (T0 & A & B & C & D & G & _). exists T0. do 5 (split; [auto|]). discriminate. Qed.
Lemma inv_relax : forall bal o w s, Inv bal o w s -> Inv false o w s.
Proof. intros bal o w s []. constructor; auto. intros. eapply tree_ok_relax; eauto. Qed.

(** One tree changes. *)
Lemma inv_set : forall bal bal' o w s w' t e e' rel, Inv bal o w s -> hget (s_ents s) t = Some e -> (bal' = true -> bal = true) ->
  hwf (rw_nodes w') -> hwf (rw_trees w') -> tree_ok bal' o w' t e' -> e_nil e' = e_nil e -> e_impl e' = e_impl e ->
  (forall a, cnt a (fl foot (s_ents s)) <> 0 -> cnt a (foot e) = 0 -> hget (rw_nodes w') a = hget (rw_nodes w) a) ->
  (forall u, u <> t -> hget (rw_trees w') u = hget (rw_trees w) u) ->
  (forall x, cnt x (fl foot (s_ents s)) - cnt x (foot e) + cnt x (foot e') <= 1) -> rw_rel w' = rel ->
  Inv bal' o w' (RS (hset (s_ents s) t e') rel).
Proof.
  intros bal bal' o w s w' t e e' rel I H BB WN WT OK NI IM FN FT ND RL.
  constructor; cbn [s_ents s_rel]; auto.
  - apply hset_wf. apply I.
  - intros x. rewrite (fl_hset foot _ _ e e' x (i_we _ _ _ _ I) H). auto.
  - intros x. rewrite !(fl_hset _ _ _ e e' x (i_we _ _ _ _ I) H), (i_im _ _ _ _ I), NI, IM. lia.
  - intros u d G. destruct (Z.eq_dec u t) as [->|N].
    + rewrite (hget_hset_same _ _ _ _ H) in G. inversion G; subst. exact OK.
    + rewrite hget_hset_other in G by auto. pose proof (i_tr _ _ _ _ I _ _ G) as OK2.
      assert (OK3 : tree_ok bal' o w u d).
      { destruct OK2 as (T0 & A & B & C & D & J & K). exists T0. do 5 (split; [auto|]). auto. }
      apply (tree_ok_frame _ _ w); auto. intros a A. apply FN.
      * pose proof (fl_one foot _ _ _ a G). pose proof (cnt_nonneg a (foot d)). lia.
      * assert (t <> u) by auto. pose proof (fl_two foot _ t u e d a (i_we _ _ _ _ I) H0 H G). pose proof (i_nd _ _ _ _ I a).
        pose proof (cnt_nonneg a (foot d)). pose proof (cnt_nonneg a (foot e)). lia.
Qed.
Lemma ent_some : forall s t, In t (addrs (s_ents s)) -> exists e, hget (s_ents s) t = Some e.
Proof. intros s t H. apply live_iff in H. destruct (hget (s_ents s) t); [eauto|congruence]. Qed.

(** ** Creation *)
Lemma create_ok : forall bal o v w s, Inv bal o w s -> allowed v w s OCreate ->
  exists e out w' s', rexec o v w OCreate = Some (e, out, w') /\ astep o v s OCreate e out s' /\ Inv bal o w' s'.
Proof.
  intros bal o v w s I (A1 & A2 & A3 & A4). cbn [rexec astep]. unfold rbtree_create.
  destruct (ok (re_alloc v)) eqn:K; cbn [negb]; [|do 4 eexists; split; [reflexivity|]; auto].
  do 4 eexists. split; [reflexivity|]. split; [split; [reflexivity|split; reflexivity]|].
  assert (NT : hget (s_ents s) (re_tree v) = None).
  { destruct (hget (s_ents s) (re_tree v)) eqn:G; auto. apply (i_tr _ _ _ _ I) in G. destruct G as (T0 & (HT & _) & _). apply hget_in in HT. contradiction. }
  assert (NF : forall x, cnt x (fl foot (s_ents s)) <> 0 -> x <> re_nil v).
  { intros x X ->. apply fl_in in X. destruct X as (t & e & B & C). apply in_hget in B; [|apply I].
    destruct (i_tr _ _ _ _ I _ _ B) as (T0 & (_ & _ & HH & k & K1 & _) & IT & _). rewrite (foot_ns _ _ IT) in C. apply A4.
    rewrite cnt_cons in C. destruct (Z.eqb_spec (e_nil e) (re_nil v)) as [Q|Q].
    - rewrite <- Q. eapply hget_in; eauto.
    - cbn [Z.b2z] in C. assert (Y : In (re_nil v) (ns T0)) by (destruct (in_dec Z.eq_dec (re_nil v) (ns T0)); auto; apply cnt_zero in n; lia).
      rewrite <- (cells_ns (e_nil e) T0 (e_nil e)) in Y. apply in_map_iff in Y. destruct Y as ([b m] & Y1 & Y2). cbn [fst] in Y1. subst b.
      unfold holds in HH. rewrite Forall_forall in HH. apply HH in Y2. eapply hget_in; eauto. }
  constructor; cbn [s_ents s_rel rw_nodes rw_trees rw_rel].
  - apply hadd_wf; [apply I|auto|]. apply hget_none; auto.
  - apply hadd_wf; [apply I|auto|]. apply hget_none; auto.
  - apply hadd_wf; [apply I|auto|auto].
  - apply I.
  - intros x. unfold fl, hadd. cbn [flat_map snd]. rewrite cnt_app. unfold foot at 1. cbn [e_nil e_items map cnt].
    pose proof (i_nd _ _ _ _ I x) as Y. unfold fl in Y. destruct (Z.eqb_spec (re_nil v) x) as [<-|Q]; cbn [Z.b2z]; [|lia].
    destruct (Z.eq_dec (cnt (re_nil v) (fl foot (s_ents s))) 0) as [Z0|Z0]; [unfold fl in Z0; lia|]. destruct (NF _ Z0 eq_refl).
  - intros x. unfold fl, hadd. cbn [flat_map snd app cnt e_nil e_impl]. pose proof (i_im _ _ _ _ I x) as Y. unfold fl in Y. lia.
  - intros t e G. rewrite hget_hadd in G. destruct (Z.eqb_spec t (re_tree v)) as [->|Q].
    + inversion G; subst. exists E. cbn [e_nil e_impl e_items items length]. split; [|split; [reflexivity|split; [exact Logic.I|split; [constructor|split; [constructor|]]]]].
      * split; [cbn [rw_trees rp]; apply hget_hadd_same|]. split; [intros x; cbn [ns]; cbn [cnt]; destruct (re_nil v =? x); cbn; lia|].
        split; [constructor|]. exists (RN (re_nil v) (re_nil v) (re_nil v) (re_nil v) false). split; [apply hget_hadd_same|reflexivity].
      * exists O. reflexivity.
    + apply (tree_ok_frame _ _ w); [apply I; auto| |cbn [rw_trees]; apply hget_hadd_other; auto].
      intros a A. cbn [rw_nodes]. apply hget_hadd_other. apply NF. pose proof (fl_one foot _ _ _ a G). pose proof (cnt_nonneg a (foot e)). lia.
Qed.

(** ** Insertion *)
Lemma insert_ok : forall bal o v w s t r, good_order o -> Inv bal o w s -> allowed v w s (OInsert t r) ->
  exists e out w' s', rexec o v w (OInsert t r) = Some (e, out, w') /\ astep o v s (OInsert t r) e out s' /\ Inv bal o w' s' /\
    addrs (rw_nodes w') = (if ok (re_alloc v) then [re_new v] else []) ++ addrs (rw_nodes w) /\ addrs (rw_trees w') = addrs (rw_trees w).
Proof.
  intros bal o v w s t r G I (A1 & A2 & A3 & A4). cbn [rexec astep]. unfold rbtree_insert.
  destruct (ent_some _ _ A1) as (e & HE). destruct (i_tr _ _ _ _ I _ _ HE) as (T0 & R & IT & NR & IO & NZ & BH).
  rewrite (rep_nil _ _ _ _ _ _ R).
  destruct (ok (re_alloc v)) eqn:K; cbn [negb]; [|do 4 eexists; split; [reflexivity|]; auto 10].
  set (z := re_new v) in *. set (nl := e_nil e) in *.
  set (w1 := RW (hadd (rw_nodes w) z (RN nl nl nl r false)) (rw_trees w) (rw_rel w)).
  assert (OLD : forall a, In a (addrs (rw_nodes w)) -> hget (rw_nodes w1) a = hget (rw_nodes w) a).
  { intros a A. cbn [w1 rw_nodes]. apply hget_hadd_other. intros ->. contradiction. }
  assert (LIVE : forall u d a, hget (s_ents s) u = Some d -> cnt a (foot d) <> 0 -> In a (addrs (rw_nodes w))).
  { intros u d a B C. destruct (i_tr _ _ _ _ I _ _ B) as (T1 & (_ & _ & HH & k & K1 & _) & IT1 & _). rewrite (foot_ns _ _ IT1) in C.
    rewrite cnt_cons in C. destruct (Z.eqb_spec (e_nil d) a) as [Q|Q].
    - rewrite <- Q. eapply hget_in; eauto.
    - cbn [Z.b2z] in C. assert (Y : In a (ns T1)) by (destruct (in_dec Z.eq_dec a (ns T1)); auto; apply cnt_zero in n; lia).
      rewrite <- (cells_ns (e_nil d) T1 (e_nil d)) in Y. apply in_map_iff in Y. destruct Y as ([b m] & Y1 & Y2). cbn [fst] in Y1. subst b.
      unfold holds in HH. rewrite Forall_forall in HH. apply HH in Y2. eapply hget_in; eauto. }
  assert (LIVE2 : forall a, cnt a (fl foot (s_ents s)) <> 0 -> In a (addrs (rw_nodes w))).
  { intros a A. apply fl_in in A. destruct A as (u & d & B & C). apply in_hget in B; [|apply I]. eauto. }
  assert (Z0 : cnt z (fl foot (s_ents s)) = 0). { destruct (Z.eq_dec (cnt z (fl foot (s_ents s))) 0); auto. apply LIVE2 in n. contradiction. }
  assert (ZE : cnt z (foot e) = 0). { pose proof (fl_one foot _ _ _ z HE). pose proof (cnt_nonneg z (foot e)). lia. }
  assert (OK1 : tree_ok bal o w1 t e).
  { apply (tree_ok_frame _ _ w); [apply I; auto| |reflexivity]. intros a A. apply OLD. eapply LIVE; eauto. }
  clear T0 R IT NR IO NZ BH. destruct OK1 as (T0 & R & IT & NR & IO & NZ & BH).
  destruct (insert_node_spec o w1 t nl (e_impl e) T0 _ z (RN nl nl nl r false) G R) as (w2 & T2 & E2 & R2 & I2 & NR2 & B2 & S2).
  { rewrite IT. exact IO. } { exact NR. } { apply hget_hadd_same. } { rewrite (foot_ns _ _ IT) in ZE. exact ZE. }
  cbn [r_value] in I2. rewrite E2. rewrite IT in I2.
  do 4 eexists. split; [reflexivity|]. split; [split; [reflexivity|]; split; [reflexivity|]; exists e; split; [exact HE|]; eexists; split; [exact HE|reflexivity]|].
  destruct S2 as (S2a & S2b & S2c & S2d & S2e).
  assert (PL : length (put o (z, r) (e_items e)) = S (length (e_items e))) by (rewrite (Permutation_length (put_perm o (z, r) (e_items e))); reflexivity).
  assert (PC : forall x, cnt x (map fst (put o (z, r) (e_items e))) = Z.b2z (z =? x) + cnt x (map fst (e_items e))).
  { intros x. rewrite (cnt_perm x _ _ (Permutation_map fst (put_perm o (z, r) (e_items e)))). reflexivity. }
  split; [|split; [rewrite S2b; reflexivity|rewrite S2d; reflexivity]].
  apply (inv_set bal bal o w s w2 t e (Ent (put o (z, r) (e_items e)) nl (e_impl e))); auto.
  - split; rewrite S2b; cbn [w1 rw_nodes hadd addrs map fst]; destruct (i_wn _ _ _ _ I) as [N1 N2].
    + constructor; auto.
    + intros [Q|Q]; auto.
  - split; rewrite S2d; apply (i_wt _ _ _ _ I).
  - exists T2. cbn [e_nil e_impl e_items]. split; [|split; [exact I2|split; [exact NR2|split; [apply put_order; auto|split]]]].
    + rewrite PL, Nat2Z.inj_succ. exact R2.
    + eapply Permutation_Forall; [symmetry; apply put_perm|]. constructor; auto.
    + intros Hb. destruct (BH Hb) as (b & Hbb). apply (B2 _ Hbb).
  - intros a A B. rewrite S2a; [apply OLD; apply LIVE2; auto|].
    rewrite (foot_ns _ _ IT) in B. fold nl in B. rewrite cnt_cons in *. rewrite cnt_cons.
    destruct (Z.eqb_spec z a) as [<-|Q]; [lia|]. cbn [Z.b2z]. cntpos. lia.
  - intros x. unfold foot at 3. cbn [e_nil e_items]. rewrite cnt_cons, PC.
    pose proof (i_nd _ _ _ _ I x). change (cnt x (foot e)) with (Z.b2z (nl =? x) + cnt x (map fst (e_items e))).
    destruct (Z.eqb_spec z x) as [<-|Q]; cbn [Z.b2z]; lia.
  - rewrite S2e. apply I.
Qed.

(** ** Deletion *)
Lemma trep_frame : forall w w' t nl im T0 n, trep w t nl im T0 n ->
  (forall a, cnt a (nl :: ns T0) <> 0 -> hget (rw_nodes w') a = hget (rw_nodes w) a) -> hget (rw_trees w') t = hget (rw_trees w) t ->
  trep w' t nl im T0 n.
Proof.
  intros w w' t nl im T0 n (HT & D & HH & k & K1 & K2) FN FT.
  split; [congruence|]. split; [exact D|]. split.
  - unfold holds in *. rewrite Forall_forall in *. intros c C. rewrite FN; [auto|]. apply (in_map fst) in C. rewrite cells_ns in C. apply cnt_in in C.
    rewrite cnt_cons. pose proof (b2z_nonneg (nl =? fst c)). lia.
  - exists k. rewrite FN; [auto|]. rewrite cnt_cons, Z.eqb_refl. cbn [Z.b2z]. pose proof (cnt_nonneg nl (ns T0)). lia.
Qed.
Lemma order_del : forall o l1 (i : Z * Z) l2, in_order o (l1 ++ i :: l2) -> in_order o (l1 ++ l2).
Proof.
  intros o l1 i l2 H. apply ss_app in H. destruct H as (A & B & C). inversion B; subst. apply ss_app. split; [auto|]. split; [auto|].
  rewrite Forall_forall in *. intros y Y. specialize (C y Y). inversion C; auto.
Qed.
Lemma delete_node_ok : forall bal o v w s keep t n x l1 l2 e, Inv bal o w s -> hget (s_ents s) t = Some e -> e_items e = l1 ++ (n, x) :: l2 ->
  sound_removal w t n ->
  exists w', delete_node v keep w t n = Some (drop_status v keep (n, x), if keep then x else 0, w') /\
    Inv false o w' (RS (hset (s_ents s) t (Ent (l1 ++ l2) (e_nil e) (e_impl e))) (if keep then s_rel s else s_rel s ++ [x])) /\
    (In n (addrs (rw_nodes w')) <-> ok (drop_status v keep (n, x)) = false) /\
    (forall a, a <> n -> (In a (addrs (rw_nodes w')) <-> In a (addrs (rw_nodes w)))) /\ addrs (rw_trees w') = addrs (rw_trees w).
Proof.
  intros bal o v w s keep t n x l1 l2 e I HE HI Q.
  destruct (i_tr _ _ _ _ I _ _ HE) as (T0 & R & IT & NR & IO & NZ & _). set (nl := e_nil e) in *.
  rewrite HI in IT. destruct (split_at _ _ _ _ _ IT) as (p & c & l & r & -> & L1 & L2).
  destruct (remove_spec _ _ _ _ _ _ _ _ _ _ _ R NR Q) as (w1 & T1 & E1 & R1 & I1 & NR1 & S1 & (zn & Z1 & Z2)).
  rewrite <- L1, <- L2 in I1. unfold delete_node. rewrite E1.
  assert (W1 : hwf (rw_nodes w1)). { destruct S1 as (_ & B & _). split; rewrite B; apply (i_wn _ _ _ _ I). }
  assert (NX : x <> 0). { rewrite HI in NZ. rewrite Forall_forall in NZ. apply (NZ (n, x)). apply in_elt. }
  assert (G : exists w', (do '(r, w) <- (if keep then do c <- va w1 n; do w <- setr w1 n (toV 0); Some (c, w) else Some (0, w1));
            do '(e, w) <- node_release v w n; Some (e, r, w)) = Some (drop_status v keep (n, x), if keep then x else 0, w') /\
       rw_trees w' = rw_trees w1 /\ rw_rel w' = (if keep then rw_rel w1 else rw_rel w1 ++ [x]) /\ hwf (rw_nodes w') /\
       (forall b, b <> n -> hget (rw_nodes w') b = hget (rw_nodes w1) b) /\
       (In n (addrs (rw_nodes w')) <-> ok (drop_status v keep (n, x)) = false)).
  { destruct keep.
    - rewrite (va_eq _ _ _ Z1), (setr_eq _ _ _ _ Z1), Z2.
      destruct (node_release_kept v (RW (hset (rw_nodes w1) n (toV 0 zn)) (rw_trees w1) (rw_rel w1)) n (toV 0 zn)) as (w2 & E2 & T2 & Q2 & W2 & F2 & I2).
      { apply hset_wf; auto. } { apply hget_hset_same with (w := zn); auto. } { reflexivity. }
      rewrite E2. exists w2. split; [reflexivity|]. cbn [rw_nodes rw_trees rw_rel] in *. do 3 (split; [auto|]). split; [|exact I2].
      intros b B. rewrite F2, hget_hset_other; auto.
    - rewrite <- Z2 in *. destruct (node_release_spec v w1 n zn W1 Z1 NX) as (w2 & E2 & T2 & Q2 & W2 & F2 & I2).
      rewrite E2. exists w2. split; [reflexivity|]. auto. }
  destruct G as (w2 & E2 & T2 & Q2 & W2 & F2 & I2). rewrite E2. exists w2. split; [reflexivity|].
  destruct S1 as (S1a & S1b & S1c & S1d & S1e).
  split; [|split; [exact I2|split; [|rewrite T2; exact S1d]]].
  2: { intros a A. rewrite live_iff, F2, <- live_iff, S1b by auto. reflexivity. }
  assert (LEN : Z.of_nat (length (l1 ++ l2)) = Z.of_nat (length (e_items e)) - 1) by (rewrite HI, !app_length; cbn [length]; lia).
  assert (FO : forall a, cnt a (foot e) = Z.b2z (n =? a) + cnt a (nl :: map fst (l1 ++ l2))).
  { intros a. unfold foot. fold nl. rewrite HI, !map_app. cbn [map fst]. rewrite !cnt_cons, !cnt_app, cnt_cons. lia. }
  assert (FO1 : nl :: ns T1 = nl :: map fst (l1 ++ l2)) by (rewrite <- items_ns, I1; reflexivity).
  assert (F1 : cnt n (foot e) = 1 /\ cnt n (nl :: map fst (l1 ++ l2)) = 0).
  { pose proof (FO n) as A. rewrite Z.eqb_refl in A. cbn [Z.b2z] in A. pose proof (cnt_nonneg n (nl :: map fst (l1 ++ l2))).
    pose proof (fl_one foot _ _ _ n HE). pose proof (i_nd _ _ _ _ I n). lia. }
  apply (inv_set bal false o w s w2 t e); auto.
  - discriminate.
  - split; rewrite T2, S1d; apply (i_wt _ _ _ _ I).
  - exists T1. cbn [e_nil e_impl e_items]. fold nl.
    split; [|split; [exact I1|split; [exact NR1|split; [eapply order_del; rewrite HI in IO; exact IO|split; [|discriminate]]]]].
    + rewrite LEN. apply (trep_frame w1); [exact R1| |rewrite T2; reflexivity]. intros a A. apply F2. intros ->. rewrite FO1 in A. lia.
    + rewrite HI in NZ. apply Forall_app in NZ. destruct NZ as [N1 N2]. inversion N2; subst. apply Forall_app; auto.
  - intros a A B. assert (a <> n) by (intros ->; lia). rewrite F2 by auto. apply S1a.
    rewrite cnt_cons, <- items_ns, IT, <- HI, <- cnt_cons. exact B.
  - intros u U. rewrite T2. apply S1c. exact U.
  - intros a. change (foot (Ent (l1 ++ l2) nl (e_impl e))) with (nl :: map fst (l1 ++ l2)). pose proof (FO a) as A.
    pose proof (i_nd _ _ _ _ I a). pose proof (b2z_nonneg (n =? a)). lia.
  - rewrite Q2, S1e, (i_rel _ _ _ _ I). reflexivity.
Qed.
Lemma in_split_items : forall (l : list (Z * Z)) n, In n (map fst l) -> exists l1 x l2, l = l1 ++ (n, x) :: l2.
Proof.
  intros l n H. apply in_map_iff in H. destruct H as ([m x] & E1 & E2). cbn [fst] in E1. subst m. apply in_split in E2.
  destruct E2 as (l1 & l2 & ->). eauto.
Qed.
Lemma delete_node_lost : forall bal o v w s keep t n x l1 l2 e y w1, Inv bal o w s -> hget (s_ents s) t = Some e -> e_items e = l1 ++ (n, x) :: l2 ->
  unlink w t n = Some (false, y, w1) -> only_child w1 t y ->
  exists w', delete_node v keep w t n = Some (drop_status v keep (n, x), if keep then x else 0, w') /\
    walk w' t = Some [] /\ rbtree_count w' t = Some (Z.of_nat (length (e_items e)) - 1) /\
    forall a, a <> n -> (In a (addrs (rw_nodes w')) <-> In a (addrs (rw_nodes w))).
Proof.
  intros bal o v w s keep t n x l1 l2 e y w1 I HE HI EU OC.
  destruct (i_tr _ _ _ _ I _ _ HE) as (T0 & R & IT & NR & IO & NZ & _). set (nl := e_nil e) in *.
  rewrite HI in IT. destruct (split_at _ _ _ _ _ IT) as (p & c & l & r & -> & L1 & L2).
  destruct (remove_lost _ _ _ _ _ _ _ _ _ _ _ _ _ R NR EU OC) as (w2 & E1 & R1 & A1 & S1 & (zn & Z1 & Z2)).
  unfold delete_node. rewrite E1.
  assert (W1 : hwf (rw_nodes w2)). { split; rewrite A1; apply (i_wn _ _ _ _ I). }
  assert (NX : x <> 0). { rewrite HI in NZ. rewrite Forall_forall in NZ. apply (NZ (n, x)). apply in_elt. }
  assert (G : exists w', (do '(r, w) <- (if keep then do c <- va w2 n; do w <- setr w2 n (toV 0); Some (c, w) else Some (0, w2));
            do '(e, w) <- node_release v w n; Some (e, r, w)) = Some (drop_status v keep (n, x), if keep then x else 0, w') /\
       rw_trees w' = rw_trees w2 /\ (forall b, b <> n -> hget (rw_nodes w') b = hget (rw_nodes w2) b)).
  { destruct keep.
    - rewrite (va_eq _ _ _ Z1), (setr_eq _ _ _ _ Z1), Z2.
      destruct (node_release_kept v (RW (hset (rw_nodes w2) n (toV 0 zn)) (rw_trees w2) (rw_rel w2)) n (toV 0 zn)) as (w3 & E2 & T2 & Q2 & W2 & F2 & I2).
      { apply hset_wf; auto. } { apply hget_hset_same with (w := zn); auto. } { reflexivity. }
      rewrite E2. exists w3. split; [reflexivity|]. cbn [rw_nodes rw_trees rw_rel] in *. split; [auto|].
      intros b B. rewrite F2, hget_hset_other; auto.
    - rewrite <- Z2 in *. destruct (node_release_spec v w2 n zn W1 Z1 NX) as (w3 & E2 & T2 & Q2 & W2 & F2 & I2).
      rewrite E2. exists w3. split; [reflexivity|]. auto. }
  destruct G as (w3 & E2 & T2 & F2). rewrite E2. exists w3. split; [reflexivity|].
  destruct R1 as (HT & _). rewrite <- T2 in HT.
  split; [unfold walk; rewrite (root_eq _ _ _ HT), (nil_eq _ _ _ HT); cbn [t_root t_nil rp]; rewrite Z.eqb_refl; reflexivity|].
  split; [unfold rbtree_count; rewrite HT; reflexivity|].
  intros a A. rewrite live_iff, F2, <- live_iff, A1 by auto. reflexivity.
Qed.
Lemma delete_node_step : forall bal o v w s keep t n, Inv bal o w s -> allowed v w s (ODeleteNode keep t n) -> quiet o w (ODeleteNode keep t n) ->
  exists e out w' s', rexec o v w (ODeleteNode keep t n) = Some (e, out, w') /\ astep o v s (ODeleteNode keep t n) e out s' /\ Inv false o w' s'.
Proof.
  intros bal o v w s keep t n I (e & HE & HI) Q. cbn [quiet] in Q. cbn [rexec astep].
  destruct (in_split_items _ _ HI) as (l1 & x & l2 & HL).
  destruct (delete_node_ok bal o v w s keep t n x l1 l2 e I HE HL Q) as (w' & E1 & I1 & _). rewrite E1.
  do 4 eexists. split; [reflexivity|]. split; [|exact I1]. exists e, l1, (n, x), l2. do 3 (split; [auto|]). do 2 (split; [reflexivity|]).
  exists e. split; [exact HE|reflexivity].
Qed.
Lemma delete_step : forall bal o v w s keep t k, good_order o -> Inv bal o w s -> allowed v w s (ODelete keep t k) -> quiet o w (ODelete keep t k) ->
  exists e out w' s', rexec o v w (ODelete keep t k) = Some (e, out, w') /\ astep o v s (ODelete keep t k) e out s' /\ Inv false o w' s'.
Proof.
  intros bal o v w s keep t k G I A Q. cbn [quiet allowed] in *. cbn [rexec astep]. destruct (ent_some _ _ A) as (e & HE).
  destruct (i_tr _ _ _ _ I _ _ HE) as (T0 & R & IT & NR & IO & NZ & _).
  unfold rbtree_delete. destruct (find_node_spec o k _ _ _ _ _ _ G R) as [(F1 & E1)|(l1 & n & x & l2 & F1 & K1 & E1)]; [rewrite IT; exact IO| |]; rewrite E1.
  - change (ok ERROR_RBTREE_NOT_FOUND) with false. cbn [negb]. rewrite IT in F1. do 4 eexists. split; [reflexivity|]. split; [|eapply inv_relax; eauto].
    exists e. split; [exact HE|]. left. auto.
  - change (ok STATUS_SUCCESS) with true. cbn [negb]. rewrite IT in F1.
    destruct (delete_node_ok bal o v w s keep t n x l1 l2 e I HE F1 (Q _ E1)) as (w' & E2 & I1 & _). rewrite E2.
    do 4 eexists. split; [reflexivity|]. split; [|exact I1]. exists e. split; [exact HE|]. right. exists l1, (n, x), l2. do 2 (split; [auto|]).
    do 2 (split; [reflexivity|]). exists e. split; [exact HE|reflexivity].
Qed.

(** ** Clearing and releasing *)
Lemma delete_all : forall bal o v w s t e, Inv bal o w s -> hget (s_ents s) t = Some e ->
  exists w' T0, trep w t (e_nil e) (e_impl e) T0 (Z.of_nat (length (e_items e))) /\ items T0 = e_items e /\
    (if negb (rp (e_nil e) T0 =? e_nil e) then delete_nodes (S (length (rw_nodes w))) v w t (rp (e_nil e) T0) else Some (STATUS_SUCCESS, w)) =
      Some (first_error (map (drop_status v false) (pst T0)), w') /\
    rw_trees w' = rw_trees w /\ rw_rel w' = rw_rel w ++ map snd (pst T0) /\ hwf (rw_nodes w') /\
    (forall a, cnt a (map fst (e_items e)) = 0 -> hget (rw_nodes w') a = hget (rw_nodes w) a) /\
    (forall i, In i (e_items e) -> (In (fst i) (addrs (rw_nodes w')) <-> ok (drop_status v false i) = false)).
Proof.
  intros bal o v w s t e I HE. destruct (i_tr _ _ _ _ I _ _ HE) as (T0 & R & IT & NR & IO & NZ & _).
  pose proof (root_is_nil _ _ _ _ _ _ R) as RN. pose proof (rep_len _ _ _ _ _ _ R) as LN. pose proof (rep_nil _ _ _ _ _ _ R) as HN.
  pose proof R as R0. destruct R0 as (_ & D & HH & _).
  rewrite <- IT in NZ. 
  destruct T0 as [|c l a x r].
  - exists w, E. split; [exact R|]. split; [auto|]. cbn [items] in IT. rewrite RN, <- IT. cbn [negb pst map first_error].
    rewrite app_nil_r. split; [auto|]. split; [auto|]. split; [auto|]. split; [apply I|]. split; [auto|]. intros i [].
  - destruct (delete_nodes_spec v t (e_nil e) (T c l a x r) (e_nil e) (S (length (rw_nodes w))) w) as (w' & A); auto.
    { discriminate. } { apply I. } { lia. }
    exists w', (T c l a x r). split; [exact R|]. split; [auto|]. rewrite RN, <- IT, items_ns. cbn [negb]. exact A.
Qed.
Lemma clear_ok : forall bal o v w s t e, Inv bal o w s -> hget (s_ents s) t = Some e ->
  exists w' ps, post w t = Some ps /\ rbtree_clear v w t = Some (first_error (map (drop_status v false) ps), w') /\
    Permutation ps (e_items e) /\ Inv bal o w' (RS (hset (s_ents s) t (Ent [] (e_nil e) (e_impl e))) (s_rel s ++ map snd ps)) /\
    (forall i, In i (e_items e) -> (In (fst i) (addrs (rw_nodes w')) <-> ok (drop_status v false i) = false)) /\
    (forall a, ~ In a (map fst (e_items e)) -> (In a (addrs (rw_nodes w')) <-> In a (addrs (rw_nodes w)))) /\ addrs (rw_trees w') = addrs (rw_trees w).
Proof.
  intros bal o v w s t e I HE. destruct (delete_all bal o v w s t e I HE) as (w1 & T0 & R & IT & E1 & T1 & Q1 & W1 & F1 & L1).
  destruct (post_spec _ _ _ _ _ _ R) as [PO _]. 
  unfold rbtree_clear. rewrite (rep_root _ _ _ _ _ _ R), (rep_nil _ _ _ _ _ _ R), E1. clear E1.
  pose proof R as R0. destruct R0 as (HT & D & HH & k & K1 & K2).
  assert (N0 : cnt (e_nil e) (map fst (e_items e)) = 0).
  { rewrite <- IT, items_ns. specialize (D (e_nil e)). rewrite cnt_cons, Z.eqb_refl in D. cbn [Z.b2z] in D. pose proof (cnt_nonneg (e_nil e) (ns T0)). lia. }
  rewrite <- T1 in HT. rewrite <- (F1 _ N0) in K1.
  erewrite sett_eq by exact HT. erewrite sett_eq by (cbn [rw_trees]; apply hget_hset_same with (1 := HT)). cbn [rw_nodes rw_trees rw_rel toRoot toCount t_root t_nil t_impl t_count].
  set (w2 := RW (rw_nodes w1) _ _).
  assert (R2 : trep w2 t (e_nil e) (e_impl e) E 0).
  { split. - cbn [w2 rw_trees rp]. apply hget_hset_same with (w := RT (e_nil e) (e_nil e) (e_impl e) (Z.of_nat (length (e_items e)))). apply hget_hset_same with (1 := HT).
    - split; [intros x; cbn; destruct (e_nil e =? x); cbn; lia|]. split; [constructor|]. exists k. auto. }
  destruct (reset_nil_spec _ _ _ _ _ _ R2) as (w3 & E3 & R3 & S3 & _). rewrite E3.
  exists w3, (pst T0). split; [exact PO|]. split; [reflexivity|]. split; [rewrite <- IT; apply pst_perm|].
  destruct S3 as (S3a & S3b & S3c & S3d & S3e). split; [|split; [|split]].
  - apply (inv_set bal bal o w s w3 t e); auto.
    + split; rewrite S3b; cbn [w2 rw_nodes]; apply W1.
    + split; rewrite S3d; cbn [w2 rw_trees]; rewrite !hset_addrs, T1; apply (i_wt _ _ _ _ I).
    + exists E. cbn [e_nil e_impl e_items length items]. split; [exact R3|]. split; [auto|]. split; [exact Logic.I|]. split; [constructor|]. split; [constructor|].
      exists O. reflexivity.
    + intros a A B. unfold foot in B. rewrite cnt_cons in B.
      assert (B1 : cnt a (map fst (e_items e)) = 0 /\ cnt a [e_nil e] = 0) by (cbn [cnt]; cntpos; lia). destruct B1 as [B1 B2].
      rewrite S3a by auto. cbn [w2 rw_nodes]. apply F1. auto.
    + intros u U. rewrite S3c by auto. cbn [w2 rw_trees]. rewrite !hget_hset_other, T1 by auto. reflexivity.
    + intros x. unfold foot at 2 3. cbn [e_nil e_items map]. rewrite !cnt_cons. cbn [cnt]. pose proof (i_nd _ _ _ _ I x). pose proof (cnt_nonneg x (map fst (e_items e))). lia.
    + rewrite S3e. cbn [w2 rw_rel]. rewrite Q1, (i_rel _ _ _ _ I). reflexivity.
  - intros i Hi. rewrite S3b. cbn [w2 rw_nodes]. auto.
  - intros a A. rewrite S3b. cbn [w2 rw_nodes]. apply cnt_zero in A. rewrite !live_iff, F1 by auto. reflexivity.
  - rewrite S3d. cbn [w2 rw_trees]. rewrite !hset_addrs, T1. reflexivity.
Qed.
Lemma release_ok : forall bal o v w s t e, Inv bal o w s -> hget (s_ents s) t = Some e -> e_nil e = e_impl e ->
  exists w' ps, post w t = Some ps /\
    rbtree_release v w t = Some (if ok (first_error (map (drop_status v false) ps)) then re_reclaimt v t else first_error (map (drop_status v false) ps), w') /\
    Permutation ps (e_items e) /\ Inv bal o w' (RS (hdel (s_ents s) t) (s_rel s ++ map snd ps)) /\
    (forall i, In i (e_items e) -> (In (fst i) (addrs (rw_nodes w')) <-> ok (drop_status v false i) = false)) /\
    (In t (addrs (rw_trees w')) <-> ok (re_reclaimt v t) = false) /\ (In (e_impl e) (addrs (rw_nodes w')) <-> ok (re_reclaimt v t) = false) /\
    (forall a, a <> e_impl e -> ~ In a (map fst (e_items e)) -> (In a (addrs (rw_nodes w')) <-> In a (addrs (rw_nodes w)))) /\
    (forall u, u <> t -> (In u (addrs (rw_trees w')) <-> In u (addrs (rw_trees w)))).
Proof.
  intros bal o v w s t e I HE NI. destruct (delete_all bal o v w s t e I HE) as (w1 & T0 & R & IT & E1 & T1 & Q1 & W1 & F1 & L1).
  destruct (post_spec _ _ _ _ _ _ R) as [PO _].
  pose proof R as R0. destruct R0 as (HT & D & HH & k & K1 & K2).
  unfold rbtree_release. rewrite HT. cbn [t_root t_nil t_impl]. rewrite E1. clear E1.
  assert (N0 : cnt (e_nil e) (map fst (e_items e)) = 0).
  { rewrite <- IT, items_ns. specialize (D (e_nil e)). rewrite cnt_cons, Z.eqb_refl in D. cbn [Z.b2z] in D. pose proof (cnt_nonneg (e_nil e) (ns T0)). lia. }
  rewrite <- (F1 _ N0) in K1. rewrite <- NI, K1.
  assert (INV : forall w', hwf (rw_nodes w') -> hwf (rw_trees w') -> rw_rel w' = rw_rel w1 ->
     (forall a, a <> e_nil e -> hget (rw_nodes w') a = hget (rw_nodes w1) a) -> (forall u, u <> t -> hget (rw_trees w') u = hget (rw_trees w1) u) ->
     Inv bal o w' (RS (hdel (s_ents s) t) (s_rel s ++ map snd (pst T0)))).
  { intros w' X1 X2 X3 X4 X5. constructor; cbn [s_ents s_rel]; auto.
    - apply hdel_wf. apply I.
    - rewrite X3, Q1, (i_rel _ _ _ _ I). reflexivity.
    - intros x. rewrite (fl_hdel foot _ _ e x (i_we _ _ _ _ I) HE). pose proof (i_nd _ _ _ _ I x). pose proof (cnt_nonneg x (foot e)). lia.
    - intros x. rewrite !(fl_hdel _ _ _ e x (i_we _ _ _ _ I) HE), (i_im _ _ _ _ I), NI. lia.
    - intros u d G. rewrite hget_hdel in G by apply I. destruct (Z.eqb_spec u t) as [->|N]; [discriminate|].
      apply (tree_ok_frame _ _ w); [apply I; auto| |rewrite X5, T1; auto].
      intros a A. assert (TU : t <> u) by auto. pose proof (fl_two foot _ t u e d a (i_we _ _ _ _ I) TU HE G) as P. pose proof (i_nd _ _ _ _ I a).
      pose proof (cnt_nonneg a (foot d)). pose proof (cnt_nonneg a (foot e)). assert (Z0 : cnt a (foot e) = 0) by lia.
      unfold foot in Z0. rewrite cnt_cons in Z0.
      assert (a <> e_nil e) by (intros ->; rewrite Z.eqb_refl in Z0; cbn [Z.b2z] in Z0; cntpos; lia).
      rewrite X4, F1; auto. cntpos. lia. }
  destruct (ok (re_reclaimt v t)) eqn:K.
  - exists (RW (hdel (rw_nodes w1) (e_nil e)) (hdel (rw_trees w1) t) (rw_rel w1)), (pst T0).
    split; [exact PO|]. split; [rewrite (ok_success _ K); destruct (ok (first_error _)) eqn:KE; [rewrite (ok_success _ KE); reflexivity|reflexivity]|].
    split; [rewrite <- IT; apply pst_perm|]. cbn [rw_nodes rw_trees].
    assert (WT1 : hwf (rw_trees w1)) by (rewrite T1; apply I).
    split; [|split; [|split; [|split; [|split]]]].
    + apply INV; cbn [rw_nodes rw_trees rw_rel]; auto; try (apply hdel_wf; auto); intros; apply hget_hdel_other; auto.
    + intros i Hi. rewrite live_iff, hget_hdel_other, <- live_iff; auto. intros Q. apply (in_map fst) in Hi. rewrite Q in Hi. apply cnt_in in Hi. lia.
    + rewrite live_iff, hget_hdel_same by auto. split; [congruence|discriminate].
    + rewrite live_iff, hget_hdel_same by auto. split; [congruence|discriminate].
    + intros a A1 A2. apply cnt_zero in A2. rewrite !live_iff, hget_hdel_other, F1 by auto. reflexivity.
    + intros u U. rewrite !live_iff, hget_hdel_other, T1 by auto. reflexivity.
  - exists w1, (pst T0). split; [exact PO|]. split; [destruct (ok (first_error _)); reflexivity|].
    split; [rewrite <- IT; apply pst_perm|].
    split; [|split; [|split; [|split; [|split]]]].
    + apply INV; auto. rewrite T1. apply I.
    + auto.
    + split; [auto|]. intros _. rewrite T1. eapply hget_in; eauto.
    + split; [auto|]. intros _. eapply hget_in; eauto.
    + intros a A1 A2. apply cnt_zero in A2. rewrite !live_iff, F1 by auto. reflexivity.
    + intros u U. rewrite T1. reflexivity.
Qed.
