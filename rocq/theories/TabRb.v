(** The tree of src/rbtree does what TabSpec.v says, deletions as far as C30 goes. *)
From Verif Require Import Base Status MemModel Heap RbModel RbSpec RbInv RbSteps TabModel TabSpec.

Lemma num_good : good_order num_order.
Proof.
  unfold good_order, num_order, COMPARE_LT, COMPARE_EQ, COMPARE_GT. cbn [o_cmp]. split; [|split].
  - intros a b. destruct (a <? b), (b <? a); auto.
  - intros a b. destruct (Z.ltb_spec a b), (Z.ltb_spec b a); split; intros; try lia; discriminate.
  - intros a b c. destruct (Z.ltb_spec a b), (Z.ltb_spec b c), (Z.ltb_spec b a), (Z.ltb_spec c b), (Z.ltb_spec a c), (Z.ltb_spec c a); intros; try lia; congruence.
Qed.
Definition rb_holds (w : rworld) (l : list Z) : Prop :=
  exists s e, Inv false num_order w s /\ hget (s_ents s) 1 = Some e /\ map snd (e_items e) = l.
Definition rb_quiet (w : rworld) (k : Z) : Prop := quiet num_order w (ODelete true 1 k).
(** A way to check it. *)
Definition rb_quietb (w : rworld) (k : Z) : bool :=
  match find_node num_order w 1 k with
  | Some (0, n) => match unlink w 1 n with
                   | Some (red, x, w1) => red || match steady (S (length (rw_nodes w1))) w1 1 x with Some b => b | None => false end
                   | None => false
                   end
  | _ => true
  end.
Lemma rb_quietb_ok : forall w k, rb_quietb w k = true -> rb_quiet w k.
Proof.
  intros w k C n F. unfold rb_quietb in C. rewrite F in C. change STATUS_SUCCESS with 0 in C.
  destruct (unlink w 1 n) as [[[red x] w1]|] eqn:U; [|discriminate]. exists red, x, w1. split; [auto|]. intros ->. cbn [orb] in C.
  destruct (steady _ w1 1 x) as [[]|]; congruence.
Qed.
Lemma has_num : forall k i, has_key num_order k i <-> snd i = k.
Proof.
  intros k i. unfold has_key, num_order, COMPARE_LT, COMPARE_EQ, COMPARE_GT. cbn [o_cmp o_key].
  destruct (Z.ltb_spec k (snd i)), (Z.ltb_spec (snd i) k); split; intros; try lia; discriminate.
Qed.
Lemma put_num : forall n k l, map snd (put num_order (n, k) l) = zput k (map snd l).
Proof.
  assert (C : forall a b, (o_cmp num_order a b =? COMPARE_LT) = (a <? b)).
  { intros a b. unfold num_order, COMPARE_LT, COMPARE_GT, COMPARE_EQ. cbn [o_cmp]. destruct (a <? b); [reflexivity|]. destruct (b <? a); reflexivity. }
  induction l as [|[m j] l IH]; [reflexivity|]. cbn [put map snd zput]. rewrite C. change (o_key num_order k) with k. change (o_key num_order j) with j.
  destruct (k <? j); cbn [map snd]; [reflexivity|]. rewrite IH. reflexivity.
Qed.
Lemma order_num : forall l, in_order num_order l -> StronglySorted Z.le (map snd l).
Proof.
  intros l H. induction H as [|i l S1 IH F]; cbn [map]; constructor; auto. rewrite Forall_map. eapply Forall_impl; [|exact F].
  intros j. unfold item_le, num_order, COMPARE_LT, COMPARE_GT, COMPARE_EQ. cbn [o_cmp o_key]. destruct (Z.ltb_spec (snd i) (snd j)), (Z.ltb_spec (snd j) (snd i)); intros; try lia; try congruence.
Qed.
Lemma same_front : forall k a b, StronglySorted Z.le (k :: a ++ k :: b) -> a ++ k :: b = k :: a ++ b.
Proof.
  induction a as [|j a IH]; intros b H; [reflexivity|]. cbn [app] in *. inversion H as [|? ? S1 F]; subst. inversion S1 as [|? ? S2 F2]; subst.
  inversion F as [|? ? F3 _]; subst. rewrite Forall_forall in F2. specialize (F2 k (in_elt _ _ _)). assert (j = k) by lia. subst j.
  f_equal. apply IH. exact S1.
Qed.
Lemma zdel_mid : forall k a b, StronglySorted Z.le (a ++ k :: b) -> zdel k (a ++ k :: b) = a ++ b.
Proof.
  induction a as [|j a IH]; intros b H; cbn [app zdel] in *; [rewrite Z.eqb_refl; reflexivity|].
  destruct (Z.eqb_spec k j) as [->|N]; [apply same_front; auto|]. inversion H; subst. rewrite IH; auto.
Qed.
Lemma zdel_none : forall k l, ~ In k l -> zdel k l = l.
Proof. induction l as [|j l IH]; intros H; [auto|]. cbn. destruct (Z.eqb_spec k j) as [->|N]; [exfalso; apply H; left; auto|]. rewrite IH; auto. intros K. apply H. right. auto. Qed.
Lemma zmem_dec : forall k l, zmem k l = true <-> In k l.
Proof. intros. unfold zmem. rewrite existsb_exists. split; [intros (x & H & E); apply Z.eqb_eq in E; subst; auto|intros H; exists k; split; [auto|apply Z.eqb_refl]]. Qed.
Lemma in_live : forall s t e, hget (s_ents s) t = Some e -> In t (addrs (s_ents s)).
Proof. intros. eapply hget_in; eauto. Qed.

Theorem rb_tab_ok : forall pick, good_pick pick -> tab_ok (rb_tops pick) rb_holds rb_quiet.
Proof.
  intros pick GP. constructor.
  - (* empty *)
    destruct (grow_step true num_order (rb_env (fun _ => 1) 0 rempty) rempty sempty OCreate num_good (inv_empty _)) as (e & out & w' & s' & X & A & I).
    { cbn. repeat split; lia || tauto. } { exact Logic.I. }
    cbn in A. destruct A as (-> & -> & ->). cbn in X. inversion X; subst. exists (RS [(1, Ent [] 1 1)] []), (Ent [] 1 1).
    split; [eapply inv_relax; exact I|]. split; reflexivity.
  - (* insert *)
    intros a t l k (s & e & I & H & L) K.
    destruct (pick_fresh pick (rw_nodes t) GP) as (N0 & NF). apply hget_none in NF.
    destruct (rb_step false num_order (rb_env pick a t) t s (OInsert 1 k) num_good I) as (st & out & w' & s' & X & A & I').
    { cbn. split; [eapply in_live; eauto|]. auto. } { exact Logic.I. }
    cbn in X. destruct (rbtree_insert num_order (rb_env pick a t) t 1 k) as [[st1 w1]|] eqn:RI; [|discriminate]. inversion X; subst st1 out w1; clear X.
    cbn in A. destruct A as (_ & A). exists w'. cbn [t_insert rb_tops]. rewrite RI. destruct (ok a).
    + destruct A as (-> & x & HX & y & HY & ->). rewrite H in HX. inversion HX; subst x. rewrite H in HY. inversion HY; subst y. split; [auto|].
      eexists _, _. split; [exact I'|]. cbn [s_ents]. split; [eapply hget_hset_same; eauto|]. cbn [e_items]. rewrite put_num, L. auto.
    + destruct A as (-> & ->). split; [auto|]. exists s, e. auto.
  - (* find *)
    intros t l k (s & e & I & H & L). destruct (observe _ _ _ _ _ _ num_good I H) as (_ & _ & _ & _ & _ & _ & _ & F & _).
    cbn [t_find rb_tops]. destruct (F k) as [(A & B)|(i & A & B & C)].
    + rewrite B. replace (zmem k l) with false; auto. symmetry. destruct (zmem k l) eqn:Z0; auto. apply zmem_dec in Z0.
      rewrite <- L in Z0. apply in_map_iff in Z0 as (i & Ei & Hi). rewrite Forall_forall in A. exfalso. apply (A i Hi). apply has_num. auto.
    + rewrite C. apply has_num in B. replace (zmem k l) with true; [congruence|]. symmetry. apply zmem_dec. rewrite <- L, <- B. apply in_map. auto.
  - (* delete *)
    intros t l k (s & e & I & H & L) Q. destruct (observe _ _ _ _ _ _ num_good I H) as (_ & _ & _ & SO & _).
    destruct (rb_step false num_order (rb_env pick 0 t) t s (ODelete true 1 k) num_good I) as (st & out & w' & s' & X & A & I').
    { cbn. eapply in_live; eauto. } { exact Q. }
    cbn in X. cbn [t_delete rb_tops]. rewrite X. cbn in A. destruct A as (x & HX & A). rewrite H in HX. inversion HX; subst x; clear HX.
    exists w'. destruct A as [(F & -> & -> & ->)|(l1 & i & l2 & EI & HK & -> & -> & y & HY & ->)].
    + assert (N : ~ In k l).
      { rewrite <- L. intros Z0. apply in_map_iff in Z0 as (i & Ei & Hi). rewrite Forall_forall in F. apply (F i Hi). apply has_num. auto. }
      replace (zmem k l) with false by (symmetry; destruct (zmem k l) eqn:Z0; auto; apply zmem_dec in Z0; contradiction).
      rewrite zdel_none by auto. split; [auto|]. exists s, e. auto.
    + apply has_num in HK. assert (EL : l = map snd l1 ++ k :: map snd l2) by (rewrite <- L, EI, map_app; cbn [map]; rewrite HK; auto).
      replace (zmem k l) with true by (symmetry; apply zmem_dec; rewrite EL; apply in_elt).
      split; [cbn; auto|]. rewrite H in HY. inversion HY; subst y. eexists _, _. split; [exact I'|]. cbn [s_ents]. split; [eapply hget_hset_same; eauto|].
      cbn [e_items]. rewrite map_app, EL, zdel_mid; auto. rewrite <- EL, <- L. apply order_num. auto.
  - (* elems *)
    intros t l (s & e & I & H & L). destruct (observe _ _ _ _ _ _ num_good I H) as (W & _). cbn [t_elems rb_tops]. rewrite W, L. auto.
Qed.
Lemma tab_weaken : forall T (ts : tops T) TR (Q Q' : T -> Z -> Prop), (forall t k, Q' t k -> Q t k) -> tab_ok ts TR Q -> tab_ok ts TR Q'.
Proof. intros T ts TR Q Q' H O. destruct O. constructor; auto. Qed.
