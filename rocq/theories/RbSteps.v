(** Swapping, whole histories, and what a user observes of a tree. *)
From Verif Require Import Base Status MemModel MemProofs Heap RbModel RbSpec RbProofs RbInsert RbDelete RbRemove RbInv.

(** ** Swapping *)
Lemma tree_ok_move : forall bal o w w' t t' e im, tree_ok bal o w t e ->
  (forall a, cnt a (map fst (e_items e)) <> 0 -> hget (rw_nodes w') a = hget (rw_nodes w) a) ->
  (exists k, hget (rw_nodes w') (e_nil e) = Some k /\ r_red k = false) ->
  (forall h, hget (rw_trees w) t = Some h -> hget (rw_trees w') t' = Some (RT (t_root h) (t_nil h) im (t_count h))) ->
  tree_ok bal o w' t' (Ent (e_items e) (e_nil e) im).
Proof.
  intros bal o w w' t t' e im (T0 & (HT & D & HH & _) & IT & REST) FN K FT. exists T0. cbn [e_items e_nil e_impl]. split; [|auto].
  split; [apply FT in HT; exact HT|]. split; [exact D|]. split; [|exact K].
  unfold holds in *. rewrite Forall_forall in *. intros c C. rewrite FN; [auto|]. rewrite <- IT, items_ns.
  apply (in_map fst) in C. rewrite cells_ns in C. apply cnt_in in C. lia.
Qed.
Lemma nil_one : forall h x, cnt x (fl (fun e => [e_nil e]) h) + cnt x (fl (fun e => map fst (e_items e)) h) = cnt x (fl foot h).
Proof.
  induction h as [|[t e] h IH]; intros x; unfold fl in *; cbn [flat_map snd]; [reflexivity|]. rewrite !cnt_app, <- IH.
  unfold foot. cbn [app cnt]. lia.
Qed.
Lemma impl_apart : forall bal o w s a b x y, Inv bal o w s -> a <> b -> hget (s_ents s) a = Some x -> hget (s_ents s) b = Some y -> e_impl x <> e_impl y.
Proof.
  intros bal o w s a b x y I N A B Q. pose proof (fl_two (fun e => [e_impl e]) _ a b x y (e_impl x) (i_we _ _ _ _ I) N A B) as F.
  rewrite <- (i_im _ _ _ _ I) in F. pose proof (nil_one (s_ents s) (e_impl x)) as G. pose proof (i_nd _ _ _ _ I (e_impl x)).
  cbn [cnt] in F. rewrite <- Q, Z.eqb_refl in F. cbn [Z.b2z] in F. pose proof (cnt_nonneg (e_impl x) (fl (fun e => map fst (e_items e)) (s_ents s))). lia.
Qed.
Lemma impl_not_item : forall bal o w s a x u d, Inv bal o w s -> hget (s_ents s) a = Some x -> hget (s_ents s) u = Some d ->
  cnt (e_impl x) (map fst (e_items d)) = 0.
Proof.
  intros bal o w s a x u d I A U. pose proof (fl_one (fun e => [e_impl e]) _ _ _ (e_impl x) A) as F. cbn [cnt] in F. rewrite Z.eqb_refl in F. cbn [Z.b2z] in F.
  rewrite <- (i_im _ _ _ _ I) in F. pose proof (nil_one (s_ents s) (e_impl x)) as G. pose proof (i_nd _ _ _ _ I (e_impl x)).
  pose proof (fl_one (fun e => map fst (e_items e)) _ _ _ (e_impl x) U). pose proof (cnt_nonneg (e_impl x) (map fst (e_items d))). cbv beta in *. lia.
Qed.
Lemma swap_ok : forall bal o w s a b x y, Inv bal o w s -> a <> b -> hget (s_ents s) a = Some x -> hget (s_ents s) b = Some y ->
  exists w', rbtree_swap w a b = Some w' /\
    Inv bal o w' (RS (hset (hset (s_ents s) a (Ent (e_items y) (e_nil y) (e_impl x))) b (Ent (e_items x) (e_nil x) (e_impl y))) (s_rel s)) /\
    addrs (rw_nodes w') = addrs (rw_nodes w) /\ addrs (rw_trees w') = addrs (rw_trees w).
Proof.
  intros bal o w s a b x y I NAB HA HB.
  pose proof (i_tr _ _ _ _ I _ _ HA) as OA. pose proof (i_tr _ _ _ _ I _ _ HB) as OB.
  pose proof OA as OA'. pose proof OB as OB'. destruct OA' as (Tx & (TA & _) & _). destruct OB' as (Ty & (TB & _) & _).
  destruct (impl_black _ _ _ _ _ _ I HA) as (_ & _ & _ & _ & na & KA1 & KA2). destruct (impl_black _ _ _ _ _ _ I HB) as (_ & _ & _ & _ & nb & KB1 & KB2).
  pose proof (impl_apart _ _ _ _ _ _ _ _ I NAB HA HB) as NI.
  unfold rbtree_swap. rewrite TA, TB. cbn [t_impl t_root t_nil t_count]. rewrite KA1, KB1, (setr_eq _ _ _ _ KA1).
  erewrite setr_eq by (cbn [rw_nodes]; rewrite hget_hset_other by auto; exact KB1). cbn [rw_nodes rw_trees rw_rel].
  erewrite sett_eq by (cbn [rw_trees]; exact TA). cbn [rw_nodes rw_trees rw_rel].
  erewrite sett_eq by (cbn [rw_trees]; rewrite hget_hset_other by auto; exact TB). cbn [rw_nodes rw_trees rw_rel].
  eexists. split; [reflexivity|]. set (w' := RW _ _ _).
  assert (FN : forall c, c <> e_impl x -> c <> e_impl y -> hget (rw_nodes w') c = hget (rw_nodes w) c)
    by (intros c C1 C2; cbn [w' rw_nodes]; rewrite !hget_hset_other by auto; reflexivity).
  assert (FX : hget (rw_nodes w') (e_impl x) = Some nb) by (cbn [w' rw_nodes]; rewrite hget_hset_other by auto; apply hget_hset_same with (1 := KA1)).
  assert (FY : hget (rw_nodes w') (e_impl y) = Some na)
    by (cbn [w' rw_nodes]; apply hget_hset_same with (w := nb); rewrite hget_hset_other by auto; exact KB1).
  assert (FU : forall u, u <> a -> u <> b -> hget (rw_trees w') u = hget (rw_trees w) u)
    by (intros u U1 U2; cbn [w' rw_trees]; rewrite !hget_hset_other by auto; reflexivity).
  assert (FA : hget (rw_trees w') a = Some (RT (rp (e_nil y) Ty) (e_nil y) (e_impl x) (Z.of_nat (length (e_items y)))))
    by (cbn [w' rw_trees]; rewrite hget_hset_other by auto; apply hget_hset_same with (1 := TA)).
  assert (FB : hget (rw_trees w') b = Some (RT (rp (e_nil x) Tx) (e_nil x) (e_impl y) (Z.of_nat (length (e_items x)))))
    by (cbn [w' rw_trees]; eapply hget_hset_same; rewrite hget_hset_other by auto; exact TB).
  assert (IT : forall u d c, hget (s_ents s) u = Some d -> cnt c (map fst (e_items d)) <> 0 -> hget (rw_nodes w') c = hget (rw_nodes w) c).
  { intros u d c U C. apply FN; intros ->; apply C; [exact (impl_not_item _ _ _ _ _ _ _ _ I HA U)|exact (impl_not_item _ _ _ _ _ _ _ _ I HB U)]. }
  assert (NL : forall u d, hget (s_ents s) u = Some d -> exists k, hget (rw_nodes w') (e_nil d) = Some k /\ r_red k = false).
  { intros u d U. destruct (i_tr _ _ _ _ I _ _ U) as (Tu & (_ & _ & _ & k & K1 & K2) & _).
    destruct (Z.eq_dec (e_nil d) (e_impl x)) as [->|N1]; [eauto|]. destruct (Z.eq_dec (e_nil d) (e_impl y)) as [->|N2]; [eauto|].
    exists k. rewrite FN; auto. }
  assert (WN : hwf (rw_nodes w')) by (cbn [w' rw_nodes]; apply hset_wf, hset_wf, I).
  assert (WT : hwf (rw_trees w')) by (cbn [w' rw_trees]; apply hset_wf, hset_wf, I).
  assert (RL : rw_rel w' = s_rel s) by (cbn [w' rw_rel]; apply I).
  split; [|cbn [w' rw_nodes rw_trees]; rewrite !hset_addrs; auto]. clearbody w'.
  assert (HB' : forall z, hget (hset (s_ents s) a z) b = Some y) by (intros z; rewrite hget_hset_other by auto; exact HB).
  assert (CN : forall g z1 z2 c, cnt c (fl g (hset (hset (s_ents s) a z1) b z2)) =
                cnt c (fl g (s_ents s)) - cnt c (g x) + cnt c (g z1) - cnt c (g y) + cnt c (g z2)).
  { intros g z1 z2 c. rewrite (fl_hset g _ _ y z2 c (hset_wf _ _ _ (i_we _ _ _ _ I)) (HB' z1)), (fl_hset g _ _ x z1 c (i_we _ _ _ _ I) HA). lia. }
  constructor; cbn [s_ents s_rel]; auto.
  - apply hset_wf, hset_wf, I.
  - intros c. rewrite CN. change (foot (Ent (e_items y) (e_nil y) (e_impl x))) with (foot y).
    change (foot (Ent (e_items x) (e_nil x) (e_impl y))) with (foot x). pose proof (i_nd _ _ _ _ I c). lia.
  - intros c. rewrite !CN, (i_im _ _ _ _ I). cbn [e_nil e_impl]. lia.
  - intros u d U. destruct (Z.eq_dec u b) as [->|N1].
    + rewrite (hget_hset_same _ _ _ _ (HB' _)) in U. inversion U; subst d.
      apply (tree_ok_move bal o w w' a b x); auto; [intros c C; apply (IT _ _ _ HA C)|exact (NL _ _ HA)|]. intros h H. rewrite TA in H. inversion H; subst. exact FB.
    + rewrite hget_hset_other in U by auto. destruct (Z.eq_dec u a) as [->|N2].
      * rewrite (hget_hset_same _ _ _ _ HA) in U. inversion U; subst d.
        apply (tree_ok_move bal o w w' b a y); auto; [intros c C; apply (IT _ _ _ HB C)|exact (NL _ _ HB)|]. intros h H. rewrite TB in H. inversion H; subst. exact FA.
      * rewrite hget_hset_other in U by auto. pose proof (i_tr _ _ _ _ I _ _ U) as OU. pose proof OU as OU'. destruct OU' as (Tu & (TU & _) & _).
        replace d with (Ent (e_items d) (e_nil d) (e_impl d)) by (destruct d; reflexivity).
        apply (tree_ok_move bal o w w' u u d); auto; [intros c C; apply (IT _ _ _ U C)|exact (NL _ _ U)|].
        intros h H. rewrite FU, TU by auto. rewrite TU in H. inversion H; subst. reflexivity.
Qed.

(** ** Histories *)
Lemma rb_step : forall bal o v w s p, good_order o -> Inv bal o w s -> allowed v w s p -> quiet o w p ->
  exists e out w' s', rexec o v w p = Some (e, out, w') /\ astep o v s p e out s' /\ Inv false o w' s'.
Proof.
  intros bal o v w s p G I A Q. destruct p as [|t r|keep t k|keep t n|t|t|a b].
  - destruct (create_ok bal o v w s I A) as (e & out & w' & s' & B & C & D). exists e, out, w', s'. split; [auto|]. split; [auto|]. eapply inv_relax; eauto.
  - destruct (insert_ok bal o v w s t r G I A) as (e & out & w' & s' & B & C & D & _). exists e, out, w', s'. split; [auto|]. split; [auto|]. eapply inv_relax; eauto.
  - eapply delete_step; eauto.
  - eapply delete_node_step; eauto.
  - cbn [allowed] in A. destruct (ent_some _ _ A) as (e & HE). destruct (clear_ok bal o v w s t e I HE) as (w' & ps & B & C & D & F & _).
    cbn [rexec astep]. rewrite C. do 4 eexists. split; [reflexivity|]. split; [|eapply inv_relax; exact F].
    exists e, ps. do 4 (split; [auto|]). exists e. auto.
  - destruct A as (e & HE & NI). destruct (release_ok bal o v w s t e I HE NI) as (w' & ps & B & C & D & F & _).
    cbn [rexec astep]. rewrite C. do 4 eexists. split; [reflexivity|]. split; [|eapply inv_relax; exact F].
    exists e, ps. do 4 (split; [auto|]). auto.
  - destruct A as (N & A & B). destruct (ent_some _ _ A) as (x & HA). destruct (ent_some _ _ B) as (y & HB).
    destruct (swap_ok bal o w s a b x y I N HA HB) as (w' & C & D & _). cbn [rexec astep]. rewrite C.
    do 4 eexists. split; [reflexivity|]. split; [|eapply inv_relax; exact D]. exists x, y. auto.
Qed.
Lemma grow_step : forall bal o v w s p, good_order o -> Inv bal o w s -> allowed v w s p -> grows w p ->
  exists e out w' s', rexec o v w p = Some (e, out, w') /\ astep o v s p e out s' /\ Inv bal o w' s'.
Proof.
  intros bal o v w s p G I A Q. destruct p; cbn [grows] in Q; try contradiction.
  - apply create_ok; auto.
  - destruct (insert_ok bal o v w s t r G I A) as (e & out & w' & s' & B & C & D & _). eauto 10.
Qed.
Lemma inv_empty : forall o, Inv true o rempty sempty.
Proof.
  intros o. constructor; cbn [rempty sempty rw_nodes rw_trees s_ents s_rel rw_rel].
  1-3: split; [constructor|intros []].
  - reflexivity.
  - intros x. cbn. lia.
  - intros x. reflexivity.
  - intros t e H. discriminate H.
Qed.
Lemma inv_sees : forall bal o w s, Inv bal o w s -> sees w s.
Proof.
  intros bal o w s I. split; [apply I|]. intros t e H. destruct (i_tr _ _ _ _ I _ _ H) as (T0 & R & IT & _). rewrite <- IT. eapply walk_spec; eauto.
Qed.
Lemma has_not : forall o k l1 i l2, Forall (fun i => ~ has_key o k i) (l1 ++ i :: l2) -> ~ has_key o k i.
Proof. intros o k l1 i l2 H. rewrite Forall_forall in H. apply H. apply in_elt. Qed.
(** What a tree shows determines the state. *)
Lemma astep_det : forall o v w s p e out s1 s2, astep o v s p e out s1 -> astep o v s p e out s2 -> sees w s1 -> sees w s2 -> s1 = s2.
Proof.
  intros o v w s p e out s1 s2 A B [S1 W1] [S2 W2].
  assert (K : forall t x i1 i2 r1 r2, hget (s_ents s) t = Some x -> s1 = RS (hset (s_ents s) t (Ent i1 (e_nil x) (e_impl x))) r1 ->
    s2 = RS (hset (s_ents s) t (Ent i2 (e_nil x) (e_impl x))) r2 -> s1 = s2).
  { intros t x i1 i2 r1 r2 H -> ->. cbn [s_rel s_ents] in *. assert (r1 = r2) by congruence. subst r2.
    pose proof (W1 _ _ (hget_hset_same _ _ _ _ H)) as X1. pose proof (W2 _ _ (hget_hset_same _ _ _ _ H)) as X2. cbn [e_items] in *. congruence. }
  destruct p as [|t r|keep t k|keep t n|t|t|a b]; cbn [astep] in A, B.
  - destruct (ok (re_alloc v)); destruct A as (_ & _ & A), B as (_ & _ & B); congruence.
  - destruct A as (_ & A), B as (_ & B). destruct (ok (re_alloc v)); [|destruct A as [_ A], B as [_ B]; congruence].
    destruct A as (_ & x & Hx & y & Hy & A), B as (_ & x' & Hx' & y' & Hy' & B). assert (x' = x) by congruence. assert (y = x) by congruence. assert (y' = x) by congruence. subst. reflexivity.
  - destruct A as (x & Hx & A), B as (x' & Hx' & B). assert (x' = x) by congruence. subst x'.
    destruct A as [(A1 & _ & _ & A)|(l1 & i & l2 & A1 & A2 & _ & _ & y & Hy & A)], B as [(B1 & _ & _ & B)|(m1 & j & m2 & B1 & B2 & _ & _ & z & Hz & B)].
    + congruence.
    + rewrite B1 in A1. apply has_not in A1. contradiction.
    + rewrite A1 in B1. apply has_not in B1. contradiction.
    + assert (y = x) by congruence. assert (z = x) by congruence. subst y z. eapply K; eauto.
  - destruct A as (x & l1 & i & l2 & Hx & _ & _ & _ & _ & y & Hy & A), B as (x' & m1 & j & m2 & Hx' & _ & _ & _ & _ & z & Hz & B).
    assert (y = x) by congruence. assert (z = x) by congruence. subst y z. eapply K; eauto.
  - destruct A as (x & ps & Hx & _ & _ & _ & y & Hy & A), B as (x' & qs & Hx' & _ & _ & _ & z & Hz & B).
    assert (y = x) by congruence. assert (z = x) by congruence. subst y z. eapply K; eauto.
  - destruct A as (x & ps & Hx & _ & _ & _ & ->), B as (x' & qs & Hx' & _ & _ & _ & ->). cbn [s_rel] in *. congruence.
  - destruct A as (x & y & Hx & Hy & _ & _ & A), B as (x' & y' & Hx' & Hy' & _ & _ & B). assert (x' = x) by congruence. assert (y' = y) by congruence. subst. reflexivity.
Qed.
Lemma runs_inv : forall o w s l w' s', good_order o -> runs o (quiet o) w s l w' s' -> forall bal, Inv bal o w s -> Inv false o w' s'.
Proof.
  intros o w s l w' s' G R. induction R as [w s|w s l w1 s1 v p e out w2 s2 R IH A Q X Y Z]; intros bal I; [eapply inv_relax; eauto|].
  destruct (rb_step false o v w1 s1 p G (IH bal I) A Q) as (e1 & o1 & w3 & s3 & A1 & B1 & C1). rewrite A1 in X. inversion X; subst.
  rewrite (astep_det _ _ _ _ _ _ _ _ _ Y B1 Z (inv_sees _ _ _ _ C1)). exact C1.
Qed.
Lemma grows_inv : forall o w s l w' s', good_order o -> runs o grows w s l w' s' -> forall bal, Inv bal o w s -> Inv bal o w' s'.
Proof.
  intros o w s l w' s' G R. induction R as [w s|w s l w1 s1 v p e out w2 s2 R IH A Q X Y Z]; intros bal I; [auto|].
  destruct (grow_step bal o v w1 s1 p G (IH bal I) A Q) as (e1 & o1 & w3 & s3 & A1 & B1 & C1). rewrite A1 in X. inversion X; subst.
  rewrite (astep_det _ _ _ _ _ _ _ _ _ Y B1 Z (inv_sees _ _ _ _ C1)). exact C1.
Qed.

(** ** Observation *)
Definition nil_or (nl : Z) (l : list (Z * Z)) : Z := match l with [] => nl | i :: _ => fst i end.
Lemma first_nil_or : forall nl l, first nl l = nil_or nl l.
Proof. intros nl [|[a v] l]; reflexivity. Qed.
Lemma observe : forall bal o w s t e, good_order o -> Inv bal o w s -> hget (s_ents s) t = Some e ->
  walk w t = Some (e_items e) /\ walkback w t = Some (rev (e_items e)) /\ rbtree_count w t = Some (Z.of_nat (length (e_items e))) /\
  in_order o (e_items e) /\ Forall (fun i => snd i <> 0) (e_items e) /\ NoDup (map fst (e_items e)) /\
  nil_ w t = Some (e_nil e) /\
  (forall k, (Forall (fun i => ~ has_key o k i) (e_items e) /\ rbtree_find o w t k = Some (ERROR_RBTREE_NOT_FOUND, 0)) \/
             (exists i, In i (e_items e) /\ has_key o k i /\ rbtree_find o w t k = Some (STATUS_SUCCESS, snd i))) /\
  (forall l1 n x l2, e_items e = l1 ++ (n, x) :: l2 ->
     va w n = Some x /\ successor_node w t n = Some (nil_or (e_nil e) l2) /\ predecessor_node w t n = Some (nil_or (e_nil e) (rev l1))) /\
  (forall r, e_items e <> [] -> root w t = Some r ->
     minimum_node w t r = Some (nil_or (e_nil e) (e_items e)) /\ maximum_node w t r = Some (nil_or (e_nil e) (rev (e_items e)))).
Proof.
  intros bal o w s t e G I H. destruct (i_tr _ _ _ _ I _ _ H) as (T0 & R & IT & NR & IO & NZ & _).
  destruct (walk_spec _ _ _ _ _ _ R) as [W1 W2]. rewrite IT in W1, W2. split; [auto|]. split; [auto|].
  split. { destruct R as (HT & _). unfold rbtree_count. rewrite HT. reflexivity. }
  split; [auto|]. split; [auto|].
  split. { rewrite <- IT, items_ns. apply cnt_nodup. intros x. destruct R as (_ & D & _). specialize (D x). rewrite cnt_cons in D. pose proof (b2z_nonneg (e_nil e =? x)). lia. }
  split; [eapply rep_nil; eauto|].
  split. { intros k. unfold rbtree_find. destruct (find_node_spec o k _ _ _ _ _ _ G R) as [(F1 & E1)|(l1 & n & x & l2 & F1 & K1 & E1)]; [rewrite IT; exact IO| |]; rewrite E1.
    - left. rewrite IT in F1. split; [auto|reflexivity].
    - right. exists (n, x). split; [rewrite <- IT, F1; apply in_elt|]. split; [auto|]. change (ok STATUS_SUCCESS) with true. cbn [negb].
      destruct (split_at _ _ _ _ _ F1) as (p & c & l & r & -> & _ & _). rewrite (va_eq _ _ _ (look _ _ _ _ _ _ _ _ _ _ _ R)). reflexivity. }
  split. { intros l1 n x l2 E. rewrite <- IT in E. destruct (split_at _ _ _ _ _ E) as (p & c & l & r & -> & L1 & L2).
    split; [rewrite (va_eq _ _ _ (look _ _ _ _ _ _ _ _ _ _ _ R)); reflexivity|].
    split; [rewrite (successor_spec _ _ _ _ _ _ _ _ _ _ _ R), <- L2, first_nil_or; reflexivity|].
    rewrite (predecessor_spec _ _ _ _ _ _ _ _ _ _ _ R), <- L1. unfold final. rewrite first_nil_or. reflexivity. }
  intros r NE HR. rewrite (rep_root _ _ _ _ _ _ R) in HR. inversion HR; subst r. unfold minimum_node, maximum_node. rewrite (rep_nil _ _ _ _ _ _ R).
  assert (T0 <> E) by (intros ->; apply NE; rewrite <- IT; reflexivity).
  pose proof (rep_len _ _ _ _ _ _ R) as LN.
  rewrite (min_first w t (e_nil e) (e_impl e) (Z.of_nat (length (e_items e))) T0 []), (max_final w t (e_nil e) (e_impl e) (Z.of_nat (length (e_items e))) T0 []); auto; try lia.
  unfold final. rewrite IT, !first_nil_or. auto.
Qed.

(** ** Height *)
Lemma size_bh : forall T0 b, bh T0 b -> (2 ^ b <= length (items T0) + 1)%nat.
Proof.
  induction T0 as [|c l IHl a v r IHr]; intros b B; cbn [bh items] in *; [subst; cbn; lia|]. rewrite app_length. cbn [length].
  destruct c.
  - destruct B as [B1 B2]. specialize (IHl _ B1). lia.
  - destruct B as (m & -> & B1 & B2). specialize (IHl _ B1). specialize (IHr _ B2). rewrite Nat.pow_succ_r'. lia.
Qed.
Lemma hgt_bh : forall T0 b pc, bh T0 b -> nr pc T0 -> (hgt T0 <= 2 * b + if pc then 0 else 1)%nat.
Proof.
  induction T0 as [|c l IHl a v r IHr]; intros b pc B N; cbn [bh nr hgt] in *; [lia|]. destruct N as (N1 & N2 & N3).
  destruct c.
  - destruct pc; [specialize (N1 eq_refl); discriminate|]. destruct B as [B1 B2]. specialize (IHl _ _ B1 N2). specialize (IHr _ _ B2 N3). cbn iota in *. lia.
  - destruct B as (m & -> & B1 & B2). specialize (IHl _ _ B1 N2). specialize (IHr _ _ B2 N3). cbn iota in *. destruct pc; lia.
Qed.
Lemma height : forall o w s t e, Inv true o w s -> hget (s_ents s) t = Some e ->
  exists d, depth w t = Some d /\ (d <= 2 * Nat.log2 (length (e_items e) + 1))%nat.
Proof.
  intros o w s t e I H. destruct (i_tr _ _ _ _ I _ _ H) as (T0 & R & IT & NR & IO & NZ & BH). destruct (BH eq_refl) as (b & B).
  destruct (post_spec _ _ _ _ _ _ R) as [_ D]. exists (hgt T0). split; [auto|].
  pose proof (hgt_bh _ _ _ B NR) as A. pose proof (size_bh _ _ B) as S1. rewrite IT in S1. cbn iota in A.
  apply Nat.log2_le_mono in S1. rewrite Nat.log2_pow2 in S1 by lia. lia.
Qed.

(** ** A balanced tree never rebalances *)
Lemma balanced_quiet : forall o w s t e n, Inv true o w s -> hget (s_ents s) t = Some e -> In n (map fst (e_items e)) -> sound_removal w t n.
Proof.
  intros o w s t e n I H HI. destruct (i_tr _ _ _ _ I _ _ H) as (T0 & R & IT & NR & IO & NZ & BH).
  destruct (in_split_items _ _ HI) as (l1 & x & l2 & HL). rewrite HL in IT. destruct (split_at _ _ _ _ _ IT) as (p & c & l & r & -> & L1 & L2).
  eapply balanced_sound; eauto.
Qed.

(** ** Memory *)
(** Nothing fails to be released. *)
Definition kind (v : renv) : Prop := forall x, ok (re_child v x) = true /\ ok (re_reclaim v x) = true /\ ok (re_reclaimt v x) = true.
Definition Live (w : rworld) (s : rstate) : Prop :=
  (forall a, In a (addrs (rw_nodes w)) <-> cnt a (fl foot (s_ents s)) <> 0) /\
  (forall t, In t (addrs (rw_trees w)) <-> In t (addrs (s_ents s))).
Lemma kind_drop : forall v keep i, kind v -> ok (drop_status v keep i) = true.
Proof. intros v keep i K. destruct (K (snd i)) as (K1 & _), (K (fst i)) as (_ & K2 & _). unfold drop_status. destruct keep; auto. rewrite ?K1; auto. Qed.
Lemma cnt_in_iff : forall a l, In a l <-> cnt a l <> 0.
Proof. intros a l. split; intros H; [apply cnt_in in H; lia|]. destruct (in_dec Z.eq_dec a l); auto. apply cnt_zero in n. lia. Qed.
Lemma delete_live : forall bal o v w s keep t n x l1 l2 e rel w', Inv bal o w s -> hget (s_ents s) t = Some e -> e_items e = l1 ++ (n, x) :: l2 ->
  (In n (addrs (rw_nodes w')) <-> ok (drop_status v keep (n, x)) = false) ->
  (forall a, a <> n -> (In a (addrs (rw_nodes w')) <-> In a (addrs (rw_nodes w)))) -> addrs (rw_trees w') = addrs (rw_trees w) ->
  kind v -> Live w s -> Live w' (RS (hset (s_ents s) t (Ent (l1 ++ l2) (e_nil e) (e_impl e))) rel).
Proof.
  intros bal o v w s keep t n x l1 l2 e rel w' I HE HI A B C K [L1 L2]. split; cbn [s_ents].
  - intros a. rewrite (fl_hset foot _ _ _ _ a (i_we _ _ _ _ I) HE).
    assert (FO : cnt a (foot e) = Z.b2z (n =? a) + cnt a (foot (Ent (l1 ++ l2) (e_nil e) (e_impl e)))).
    { unfold foot. cbn [e_nil e_items]. rewrite HI, !map_app. cbn [map fst]. rewrite !cnt_cons, !cnt_app, cnt_cons. lia. }
    rewrite FO. pose proof (i_nd _ _ _ _ I a) as N1. pose proof (fl_one foot _ _ _ a HE) as N2. rewrite FO in N2.
    pose proof (cnt_nonneg a (foot (Ent (l1 ++ l2) (e_nil e) (e_impl e)))) as N3.
    destruct (Z.eqb_spec n a) as [->|N]; cbn [Z.b2z] in *.
    + rewrite A, (kind_drop _ _ _ K). split; [discriminate|lia].
    + rewrite B, L1 by auto. split; lia.
  - intros u. rewrite C, hset_addrs. apply L2.
Qed.
Lemma live_step : forall bal o v w s p e out w' s', good_order o -> Inv bal o w s -> allowed v w s p -> quiet o w p -> kind v -> Live w s ->
  rexec o v w p = Some (e, out, w') -> astep o v s p e out s' -> sees w' s' -> Live w' s'.
Proof.
  intros bal o v w s p e out w' s' G I A Q K L X Y SE.
  pose proof L as [L1 L2].
  destruct p as [|t r|keep t k|keep t n|t|t|a b].
  - destruct A as (A1 & A2 & A3 & A4). cbn [rexec astep] in *. unfold rbtree_create in X. destruct (ok (re_alloc v)); cbn [negb] in X; inversion X; subst.
    2: { destruct Y as (_ & _ & ->). exact L. }
    destruct Y as (_ & _ & ->). split; cbn [rw_nodes rw_trees s_ents].
    + intros a. unfold fl, hadd. cbn [flat_map snd]. rewrite cnt_app. cbn [addrs map fst In foot e_nil e_items cnt].
      pose proof (cnt_nonneg a (fl foot (s_ents s))) as N. specialize (L1 a). unfold fl, addrs in *.
      destruct (Z.eqb_spec (re_nil v) a); cbn [Z.b2z]; [split; [lia|auto]|]. rewrite L1. intuition lia.
    + intros t. unfold hadd. cbn [addrs map fst In]. specialize (L2 t). unfold addrs in *. rewrite L2. tauto.
  - destruct (insert_ok bal o v w s t r G I A) as (e1 & o1 & w1 & s1 & X1 & Y1 & I1 & N1 & N2). rewrite X1 in X. inversion X; subst.
    rewrite (astep_det _ _ _ _ _ _ _ _ _ Y Y1 SE (inv_sees _ _ _ _ I1)). clear Y SE. cbn [astep] in Y1.
    destruct (ok (re_alloc v)); destruct Y1 as (_ & _ & Y1).
    2: { subst s1. split; [rewrite N1|rewrite N2]; auto. }
    destruct Y1 as (x & Hx & y & Hy & ->). assert (y = x) by congruence. subst y. split; cbn [s_ents].
    + intros a. rewrite N1. cbn [app In]. rewrite (fl_hset foot _ _ _ _ a (i_we _ _ _ _ I) Hx).
      assert (FO : cnt a (foot (Ent (put o (re_new v, r) (e_items x)) (e_nil x) (e_impl x))) = Z.b2z (re_new v =? a) + cnt a (foot x)).
      { unfold foot. cbn [e_nil e_items]. rewrite !cnt_cons, (cnt_perm a _ _ (Permutation_map fst (put_perm o (re_new v, r) (e_items x)))). cbn [map fst]. rewrite cnt_cons. lia. }
      rewrite FO, L1. pose proof (cnt_nonneg a (fl foot (s_ents s))). destruct (Z.eqb_spec (re_new v) a); cbn [Z.b2z]; [split; [lia|auto]|]. intuition lia.
    + intros u. rewrite N2, hset_addrs. apply L2.
  - cbn [allowed quiet] in *. destruct (ent_some _ _ A) as (x & HE). cbn [rexec] in X. unfold rbtree_delete in X.
    destruct (i_tr _ _ _ _ I _ _ HE) as (T0 & R & IT & NR & IO & NZ & _).
    destruct (find_node_spec o k _ _ _ _ _ _ G R) as [(F1 & E1)|(l1 & n & y & l2 & F1 & K1 & E1)]; [rewrite IT; exact IO| |]; rewrite E1 in X.
    + change (ok ERROR_RBTREE_NOT_FOUND) with false in X. cbn [negb] in X. inversion X; subst. cbn [astep] in Y. destruct Y as (x' & Hx' & Y). rewrite IT in F1.
      assert (x' = x) by congruence. subst x'. destruct Y as [(_ & _ & _ & ->)|(l1 & i & l2 & A1 & A2 & _)]; [exact L|]. rewrite A1 in F1. apply has_not in F1. contradiction.
    + change (ok STATUS_SUCCESS) with true in X. cbn [negb] in X. rewrite IT in F1.
      destruct (delete_node_ok bal o v w s keep t n y l1 l2 x I HE F1 (Q _ E1)) as (w1 & E2 & I1 & D1 & D2 & D3). rewrite E2 in X. inversion X; subst.
      assert (ST : astep o v s (ODelete keep t k) (drop_status v keep (n, y)) (if keep then y else 0)
        (RS (hset (s_ents s) t (Ent (l1 ++ l2) (e_nil x) (e_impl x))) (if keep then s_rel s else s_rel s ++ [y]))).
      { exists x. split; [exact HE|]. right. exists l1, (n, y), l2. do 2 (split; [auto|]). do 2 (split; [reflexivity|]). exists x. split; [exact HE|reflexivity]. }
      rewrite (astep_det _ _ _ _ _ _ _ _ _ Y ST SE (inv_sees _ _ _ _ I1)).
      eapply delete_live; eauto.
  - destruct A as (x & HE & HI). cbn [quiet] in Q. cbn [rexec] in X. destruct (in_split_items _ _ HI) as (l1 & y & l2 & HL).
    destruct (delete_node_ok bal o v w s keep t n y l1 l2 x I HE HL Q) as (w1 & E2 & I1 & D1 & D2 & D3). rewrite E2 in X. inversion X; subst.
    assert (ST : astep o v s (ODeleteNode keep t n) (drop_status v keep (n, y)) (if keep then y else 0)
        (RS (hset (s_ents s) t (Ent (l1 ++ l2) (e_nil x) (e_impl x))) (if keep then s_rel s else s_rel s ++ [y]))).
    { exists x, l1, (n, y), l2. do 3 (split; [auto|]). do 2 (split; [reflexivity|]). exists x. split; [exact HE|reflexivity]. }
    rewrite (astep_det _ _ _ _ _ _ _ _ _ Y ST SE (inv_sees _ _ _ _ I1)).
    eapply delete_live; eauto.
  - cbn [allowed] in A. destruct (ent_some _ _ A) as (x & HE). destruct (clear_ok bal o v w s t x I HE) as (w1 & ps & B & C & D & F & H1 & H2 & H3).
    cbn [rexec astep] in *. rewrite C in X. inversion X; subst. destruct Y as (x' & qs & Hx' & _ & _ & _ & y & Hy & ->). assert (y = x) by congruence. subst y.
    split; cbn [s_ents].
    + intros a. rewrite (fl_hset foot _ _ _ _ a (i_we _ _ _ _ I) HE). unfold foot at 2 3. cbn [e_nil e_items map]. rewrite !cnt_cons. cbn [cnt].
      pose proof (i_nd _ _ _ _ I a) as N1. pose proof (fl_one foot _ _ _ a HE) as N2. unfold foot at 1 in N2. rewrite cnt_cons in N2.
      pose proof (b2z_nonneg (e_nil x =? a)) as N3. pose proof (cnt_nonneg a (map fst (e_items x))) as N4.
      destruct (in_dec Z.eq_dec a (map fst (e_items x))) as [N|N].
      * pose proof (cnt_in a _ N). apply in_map_iff in N. destruct N as (i & <- & N). rewrite (H1 i N), (kind_drop _ _ _ K). split; [discriminate|lia].
      * rewrite (H2 a N), L1. apply cnt_zero in N. split; lia.
    + intros u. rewrite H3, hset_addrs. apply L2.
  - destruct A as (x & HE & NI). destruct (release_ok bal o v w s t x I HE NI) as (w1 & ps & B & C & D & F & H1 & H2 & H3 & H4 & H5).
    cbn [rexec astep] in *. rewrite C in X. inversion X; subst. destruct Y as (x' & qs & Hx' & _ & _ & _ & ->).
    destruct (K t) as (_ & _ & K3). split; cbn [s_ents].
    + intros a. rewrite (fl_hdel foot _ _ _ a (i_we _ _ _ _ I) HE).
      pose proof (i_nd _ _ _ _ I a) as N1. pose proof (fl_one foot _ _ _ a HE) as N2. 
      assert (FO : cnt a (foot x) = Z.b2z (e_nil x =? a) + cnt a (map fst (e_items x))) by (unfold foot; rewrite cnt_cons; reflexivity).
      pose proof (b2z_nonneg (e_nil x =? a)) as N3. pose proof (cnt_nonneg a (map fst (e_items x))) as N4.
      destruct (Z.eq_dec a (e_impl x)) as [->|NA].
      { rewrite H3, K3. rewrite NI, Z.eqb_refl in FO. cbn [Z.b2z] in FO. split; [discriminate|lia]. }
      rewrite (proj2 (Z.eqb_neq _ _)) in FO by congruence. cbn [Z.b2z] in FO.
      destruct (in_dec Z.eq_dec a (map fst (e_items x))) as [N|N].
      * pose proof (cnt_in a _ N). apply in_map_iff in N. destruct N as (i & <- & N). rewrite (H1 i N), (kind_drop _ _ _ K). split; [discriminate|lia].
      * rewrite (H4 a NA N), L1. apply cnt_zero in N. split; lia.
    + intros u. destruct (Z.eq_dec u t) as [->|NU].
      * rewrite H2, K3, live_iff, hget_hdel_same by apply I. split; [discriminate|congruence].
      * rewrite (H5 u NU), L2, !live_iff. rewrite (hget_hdel_other (s_ents s)) by (auto; apply I). reflexivity.
  - destruct A as (N & A & B). destruct (ent_some _ _ A) as (x & HA). destruct (ent_some _ _ B) as (y & HB).
    destruct (swap_ok bal o w s a b x y I N HA HB) as (w1 & C & D & N1 & N2). cbn [rexec astep] in *. rewrite C in X. inversion X; subst.
    destruct Y as (x' & y' & Hx & Hy & _ & _ & ->). assert (x' = x) by congruence. assert (y' = y) by congruence. subst x' y'.
    split; cbn [s_ents].
    + intros c. assert (HB' : forall z, hget (hset (s_ents s) a z) b = Some y) by (intros z; rewrite hget_hset_other by auto; exact HB).
      rewrite (fl_hset foot _ _ y _ c (hset_wf _ _ _ (i_we _ _ _ _ I)) (HB' _)), (fl_hset foot _ _ x _ c (i_we _ _ _ _ I) HA).
      change (foot (Ent (e_items y) (e_nil y) (e_impl x))) with (foot y). change (foot (Ent (e_items x) (e_nil x) (e_impl y))) with (foot x).
      rewrite N1, L1. split; lia.
    + intros u. rewrite N2, !hset_addrs. apply L2.
Qed.
Lemma runs_live : forall o l w' s', good_order o -> runs o (quiet o) rempty sempty l w' s' -> Forall (fun x => kind (fst x)) l -> Live w' s'.
Proof.
  intros o l w' s' G R. remember rempty as w0 eqn:EW. remember sempty as s0 eqn:ES.
  induction R as [w s|w s l w1 s1 v p e out w2 s2 R IH A Q X Y Z]; intros K; subst.
  - split; cbn; intros; [split; [intros []|intros H; exfalso; apply H; reflexivity]|tauto].
  - apply Forall_app in K. destruct K as [K1 K2]. inversion K2; subst. cbn [fst] in *.
    pose proof (runs_inv _ _ _ _ _ _ G R true (inv_empty o)) as I. eapply live_step; eauto.
Qed.
