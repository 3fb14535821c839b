(** Traversal, lookup and removal. *)
From Verif Require Import Base Status MemModel MemProofs Heap RbModel RbSpec RbProofs RbInsert.

(** ** Minimum and maximum *)
Lemma rp_ne_node : forall w t nl im p T0 n, trep w t nl im (plug p T0) n -> (rp nl T0 =? nl) = match T0 with E => true | _ => false end.
Proof.
  intros w t nl im p [|c l a v r] n R; cbn [rp]; [apply Z.eqb_refl|]. apply eqb_no. eapply rep_ne; eauto.
Qed.
Lemma min_spec : forall w t nl im n T0 p fuel, T0 <> E -> trep w t nl im (plug p T0) n -> (length (ns T0) < fuel)%nat ->
  exists q c a v r, T0 = plug q (T c E a v r) /\ Forall (fun f => f_d f = true) q /\ min_loop fuel w nl (rp nl T0) = Some a.
Proof.
  intros w t nl im n T0. induction T0 as [|c l IHl a v r IHr]; intros p fuel NE R FU; [congruence|].
  destruct fuel as [|fuel]; [lia|]. cbn [min_loop rp]. rewrite (lf_eq _ _ _ (look _ _ _ _ _ _ _ _ _ _ _ R)). cbn [r_left].
  rewrite (rp_ne_node w t nl im (F true c a v r :: p) l n R).
  destruct l as [|c1 l1 a1 v1 r1]; [exists [], c, a, v, r; auto|].
  cbn [ns] in FU. rewrite app_length in FU. cbn [length] in FU.
  destruct (IHl (F true c a v r :: p) fuel) as (q & c2 & a2 & v2 & r2 & E2 & F2 & M2); [discriminate|exact R|cbn [ns]; lia|].
  exists (q ++ [F true c a v r]), c2, a2, v2, r2. split; [|split; [apply Forall_app; auto|exact M2]].
  rewrite plug_app, <- E2. reflexivity.
Qed.
Lemma max_spec : forall w t nl im n T0 p fuel, T0 <> E -> trep w t nl im (plug p T0) n -> (length (ns T0) < fuel)%nat ->
  exists q c l a v, T0 = plug q (T c l a v E) /\ Forall (fun f => f_d f = false) q /\ max_loop fuel w nl (rp nl T0) = Some a.
Proof.
  intros w t nl im n T0. induction T0 as [|c l IHl a v r IHr]; intros p fuel NE R FU; [congruence|].
  destruct fuel as [|fuel]; [lia|]. cbn [max_loop rp]. rewrite (rg_eq _ _ _ (look _ _ _ _ _ _ _ _ _ _ _ R)). cbn [r_right].
  rewrite (rp_ne_node w t nl im (F false c a v l :: p) r n R).
  destruct r as [|c1 l1 a1 v1 r1]; [exists [], c, l, a, v; auto|].
  cbn [ns] in FU. rewrite app_length in FU. cbn [length] in FU.
  destruct (IHr (F false c a v l :: p) fuel) as (q & c2 & l2 & a2 & v2 & E2 & F2 & M2); [discriminate|exact R|cbn [ns length]; rewrite ?app_length in *; cbn [length] in *; lia|].
  exists (q ++ [F false c a v l]), c2, l2, a2, v2. split; [|split; [apply Forall_app; auto|exact M2]].
  rewrite plug_app, <- E2. reflexivity.
Qed.
Lemma lft_left : forall q, Forall (fun f => f_d f = true) q -> lft q = [].
Proof. induction q as [|f q IH]; intros H; [reflexivity|]. inversion H; subst. cbn [lft]. rewrite H2, IH by auto. reflexivity. Qed.
Lemma rgt_right : forall q, Forall (fun f => f_d f = false) q -> rgt q = [].
Proof. induction q as [|f q IH]; intros H; [reflexivity|]. inversion H; subst. cbn [rgt]. rewrite H2, IH by auto. reflexivity. Qed.

(** The address of the first item of a list, or the sentinel. *)
Definition first (nl : Z) (l : list (Z * Z)) : Z := match l with [] => nl | (a, _) :: _ => a end.
Definition final (nl : Z) (l : list (Z * Z)) : Z := first nl (rev l).
Lemma final_app : forall nl a i, final nl (a ++ [i]) = fst i.
Proof. intros nl a [x y]. unfold final. rewrite rev_app_distr. reflexivity. Qed.
Lemma min_first : forall w t nl im n T0 p fuel, T0 <> E -> trep w t nl im (plug p T0) n -> (length (ns T0) < fuel)%nat ->
  min_loop fuel w nl (rp nl T0) = Some (first nl (items T0)).
Proof.
  intros w t nl im n T0 p fuel NE R FU. destruct (min_spec _ _ _ _ _ _ _ _ NE R FU) as (q & c & a & v & r & E1 & F1 & M1).
  rewrite M1. rewrite E1, items_plug, (lft_left _ F1). reflexivity.
Qed.
Lemma max_final : forall w t nl im n T0 p fuel, T0 <> E -> trep w t nl im (plug p T0) n -> (length (ns T0) < fuel)%nat ->
  max_loop fuel w nl (rp nl T0) = Some (final nl (items T0)).
Proof.
  intros w t nl im n T0 p fuel NE R FU. destruct (max_spec _ _ _ _ _ _ _ _ NE R FU) as (q & c & l & a & v & E1 & F1 & M1).
  rewrite M1. rewrite E1, items_plug, (rgt_right _ F1), app_nil_r. cbn [items]. rewrite app_assoc, final_app. reflexivity.
Qed.

(** ** Successor and predecessor *)
Lemma rep_sib : forall w t nl im f p c l a v r n, trep w t nl im (plug (f :: p) (T c l a v r)) n -> a <> rp nl (f_s f).
Proof.
  intros w t nl im f p c l a v r n R. apply rp_ne; [eapply rep_ne; eauto|].
  destruct R as (_ & D & _). specialize (D a). rewrite cnt_cons, cnt_plug in D. cbn [pns ns] in D.
  repeat (rewrite ?cnt_app in D; rewrite ?cnt_cons in D). rewrite Z.eqb_refl in D. change (Z.b2z true) with 1 in D.
  cntpos. lia.
Qed.
Lemma look_top : forall w t nl im f p s n, trep w t nl im (plug (f :: p) s) n ->
  hget (rw_nodes w) (f_a f) = Some (RN (top nl p) (if f_d f then rp nl s else rp nl (f_s f)) (if f_d f then rp nl (f_s f) else rp nl s) (f_v f) (f_c f)).
Proof.
  intros w t nl im [[] c a v s0] p s n R; cbn [f_a f_d f_v f_c f_s].
  - apply (look w t nl im p c s a v s0 n R).
  - apply (look w t nl im p c s0 a v s n R).
Qed.
Lemma top_ne : forall w t nl im f p s n, trep w t nl im (plug (f :: p) s) n -> f_a f <> nl.
Proof.
  intros w t nl im [[] c a v s0] p s n R; cbn [f_a].
  - apply (rep_ne w t nl im p c s a v s0 n R).
  - apply (rep_ne w t nl im p c s0 a v s n R).
Qed.
Lemma succ_loop_spec : forall w t nl im n p s fuel, s <> E -> trep w t nl im (plug p s) n -> (length p < fuel)%nat ->
  succ_loop fuel w nl (rp nl s) (top nl p) = Some (first nl (rgt p)).
Proof.
  intros w t nl im n p. induction p as [|f p IH]; intros s fuel NE R FU; (destruct fuel as [|fuel]; [cbn in FU; lia|]); cbn [succ_loop top rgt].
  - rewrite Z.eqb_refl. reflexivity.
  - rewrite (eqb_no _ _ (top_ne _ _ _ _ _ _ _ _ R)). pose proof (look_top _ _ _ _ _ _ _ _ R) as LK.
    rewrite (rg_eq _ _ _ LK). cbn [r_right]. destruct s as [|c l a v r]; [congruence|].
    pose proof (rep_sib _ _ _ _ _ _ _ _ _ _ _ _ R) as SB. cbn [length] in FU.
    destruct (f_d f) eqn:FD; cbn [rp app].
    + rewrite (eqb_no _ _ SB). reflexivity.
    + rewrite Z.eqb_refl, (pa_eq _ _ _ LK). cbn [r_parent].
      rewrite <- (rp_fill nl f (T c l a v r)). apply IH; [destruct f as [[] ? ? ? ?]; discriminate|exact R|lia].
Qed.
Lemma pred_loop_spec : forall w t nl im n p s fuel, s <> E -> trep w t nl im (plug p s) n -> (length p < fuel)%nat ->
  pred_loop fuel w nl (rp nl s) (top nl p) = Some (final nl (lft p)).
Proof.
  intros w t nl im n p. induction p as [|f p IH]; intros s fuel NE R FU; (destruct fuel as [|fuel]; [cbn in FU; lia|]); cbn [pred_loop top lft].
  - rewrite Z.eqb_refl. reflexivity.
  - rewrite (eqb_no _ _ (top_ne _ _ _ _ _ _ _ _ R)). pose proof (look_top _ _ _ _ _ _ _ _ R) as LK.
    rewrite (lf_eq _ _ _ LK). cbn [r_left]. destruct s as [|c l a v r]; [congruence|].
    pose proof (rep_sib _ _ _ _ _ _ _ _ _ _ _ _ R) as SB. cbn [length] in FU.
    destruct (f_d f) eqn:FD; cbn [rp app].
    + rewrite Z.eqb_refl, (pa_eq _ _ _ LK), app_nil_r. cbn [r_parent].
      rewrite <- (rp_fill nl f (T c l a v r)). apply IH; [destruct f as [[] ? ? ? ?]; discriminate|exact R|lia].
    + rewrite (eqb_no _ _ SB). rewrite app_assoc, final_app. reflexivity.
Qed.
Lemma plug_depth : forall w t nl im n p s, trep w t nl im (plug p s) n -> (length p + length (ns s) < length (rw_nodes w))%nat.
Proof. intros w t nl im n p s R. pose proof (rep_len _ _ _ _ _ _ R). rewrite ns_plug_len in H. pose proof (pns_len p). lia. Qed.

Lemma successor_spec : forall w t nl im n p c l a v r, trep w t nl im (plug p (T c l a v r)) n ->
  successor_node w t a = Some (first nl (items r ++ rgt p)).
Proof.
  intros w t nl im n p c l a v r R. unfold successor_node, minimum_node. rewrite (rep_nil _ _ _ _ _ _ R).
  pose proof (look _ _ _ _ _ _ _ _ _ _ _ R) as LK. rewrite (rg_eq _ _ _ LK). cbn [r_right].
  rewrite (rp_ne_node w t nl im (F false c a v l :: p) r n R).
  pose proof (plug_depth _ _ _ _ _ _ _ R) as PD. cbn [ns] in PD. rewrite app_length in PD. cbn [length] in PD.
  destruct r as [|c1 l1 a1 v1 r1]; cbn [negb].
  - rewrite (pa_eq _ _ _ LK). cbn [r_parent items app]. apply (succ_loop_spec w t nl im n p (T c l a v E)); [discriminate|exact R|lia].
  - rewrite (min_first w t nl im n (T c1 l1 a1 v1 r1) (F false c a v l :: p)); [|discriminate|exact R|lia].
    cbn [items]. destruct (items l1); reflexivity.
Qed.
Lemma final_skip : forall nl a b, b <> [] -> final nl (a ++ b) = final nl b.
Proof.
  intros nl a b NE. destruct (exists_last NE) as (c & x & ->). rewrite app_assoc, !final_app. reflexivity.
Qed.
Lemma predecessor_spec : forall w t nl im n p c l a v r, trep w t nl im (plug p (T c l a v r)) n ->
  predecessor_node w t a = Some (final nl (lft p ++ items l)).
Proof.
  intros w t nl im n p c l a v r R. unfold predecessor_node, maximum_node. rewrite (rep_nil _ _ _ _ _ _ R).
  pose proof (look _ _ _ _ _ _ _ _ _ _ _ R) as LK. rewrite (lf_eq _ _ _ LK). cbn [r_left].
  rewrite (rp_ne_node w t nl im (F true c a v r :: p) l n R).
  pose proof (plug_depth _ _ _ _ _ _ _ R) as PD. cbn [ns] in PD. rewrite app_length in PD. cbn [length] in PD.
  destruct l as [|c1 l1 a1 v1 r1]; cbn [negb].
  - rewrite (pa_eq _ _ _ LK). cbn [r_parent items]. rewrite app_nil_r. apply (pred_loop_spec w t nl im n p (T c E a v r)); [discriminate|exact R|lia].
  - rewrite (max_final w t nl im n (T c1 l1 a1 v1 r1) (F true c a v r :: p)); [|discriminate|exact R|lia].
    rewrite final_skip; [reflexivity|]. cbn [items]. destruct (items l1); discriminate.
Qed.
(** From a position in the sequence to a position in the tree. *)
Lemma split_at : forall T0 l1 a v l2, items T0 = l1 ++ (a, v) :: l2 ->
  exists p c l r, T0 = plug p (T c l a v r) /\ l1 = lft p ++ items l /\ l2 = items r ++ rgt p.
Proof.
  induction T0 as [|c l IHl b x r IHr]; intros l1 a v l2 H; cbn [items] in H; [destruct l1; discriminate|].
  assert (Q : (exists m, items l = l1 ++ (a, v) :: m /\ l2 = m ++ (b, x) :: items r) \/
              (l1 = items l /\ (a, v) = (b, x) /\ l2 = items r) \/
              (exists m, items r = m ++ (a, v) :: l2 /\ l1 = items l ++ (b, x) :: m)).
  { revert H. generalize (items l), (items r). clear. intros L. revert l1. induction L as [|y L IH]; intros l1 R H; cbn [app] in H.
    - destruct l1 as [|z l1]; cbn [app] in H; inversion H; subst; [right; left; auto|right; right; exists l1; auto].
    - destruct l1 as [|z l1]; cbn [app] in H; inversion H; subst.
      + left. exists L. auto.
      + destruct (IH l1 R H2) as [(m & A & B)|[(A & B & C)|(m & A & B)]].
        * left. exists m. subst. auto.
        * right; left. subst. auto.
        * right; right. exists m. subst. auto. }
  destruct Q as [(m & A & ->)|[(-> & Q & ->)|(m & A & ->)]].
  - apply IHl in A. destruct A as (p & c1 & l3 & r3 & -> & -> & ->).
    exists (p ++ [F true c b x r]), c1, l3, r3. rewrite plug_app. split; [reflexivity|].
    assert (X : lft (p ++ [F true c b x r]) = lft p) by (clear; induction p as [|f p IH]; cbn [app lft f_d] in *; [reflexivity|]; rewrite IH; reflexivity).
    assert (Y : rgt (p ++ [F true c b x r]) = rgt p ++ (b, x) :: items r).
    { clear. induction p as [|f p IH]; cbn [app rgt f_d f_a f_v f_s] in *; [rewrite app_nil_r; reflexivity|]. rewrite IH, app_assoc. reflexivity. }
    rewrite X, Y, app_assoc. auto.
  - inversion Q; subst. exists [], c, l, r. cbn. rewrite app_nil_r. auto.
  - apply IHr in A. destruct A as (p & c1 & l3 & r3 & -> & -> & ->).
    exists (p ++ [F false c b x l]), c1, l3, r3. rewrite plug_app. split; [reflexivity|].
    assert (X : rgt (p ++ [F false c b x l]) = rgt p) by (clear; induction p as [|f p IH]; cbn [app rgt f_d] in *; [reflexivity|]; rewrite IH; reflexivity).
    assert (Y : lft (p ++ [F false c b x l]) = (items l ++ [(b, x)]) ++ lft p).
    { clear. induction p as [|f p IH]; cbn [app lft f_d f_a f_v f_s] in *; [rewrite app_nil_r; reflexivity|]. rewrite IH, <- app_assoc. reflexivity. }
    rewrite X, Y, <- !app_assoc. auto.
Qed.
Lemma succ_items : forall w t nl im n T0 l1 a v l2, trep w t nl im T0 n -> items T0 = l1 ++ (a, v) :: l2 ->
  successor_node w t a = Some (first nl l2) /\ predecessor_node w t a = Some (final nl l1) /\ va w a = Some v /\ a <> nl.
Proof.
  intros w t nl im n T0 l1 a v l2 R H. apply split_at in H. destruct H as (p & c & l & r & -> & -> & ->).
  split; [eapply successor_spec; eauto|]. split; [eapply predecessor_spec; eauto|].
  split; [apply (va_eq _ _ _ (look _ _ _ _ _ _ _ _ _ _ _ R))|eapply rep_ne; eauto].
Qed.

(** ** Walks *)
Lemma walk_from_spec : forall w t nl im n T0, trep w t nl im T0 n -> forall l2 l1 fuel, items T0 = l1 ++ l2 -> (length l2 < fuel)%nat ->
  walk_from fuel w t (first nl l2) = Some l2.
Proof.
  intros w t nl im n T0 R. induction l2 as [|[a v] l2 IH]; intros l1 fuel H FU; (destruct fuel as [|fuel]; [cbn in FU; lia|]); cbn [walk_from first];
    rewrite (rep_nil _ _ _ _ _ _ R).
  - rewrite Z.eqb_refl. reflexivity.
  - destruct (succ_items _ _ _ _ _ _ _ _ _ _ R H) as (A & _ & B & C). rewrite (eqb_no _ _ C), B, A.
    rewrite (IH (l1 ++ [(a, v)])); [reflexivity|rewrite <- app_assoc; exact H|cbn in FU; lia].
Qed.
Lemma walkback_from_spec : forall w t nl im n T0, trep w t nl im T0 n -> forall l1 l2 fuel, items T0 = rev l1 ++ l2 -> (length l1 < fuel)%nat ->
  walkback_from fuel w t (first nl l1) = Some l1.
Proof.
  intros w t nl im n T0 R. induction l1 as [|[a v] l1 IH]; intros l2 fuel H FU; (destruct fuel as [|fuel]; [cbn in FU; lia|]); cbn [walkback_from first];
    rewrite (rep_nil _ _ _ _ _ _ R).
  - rewrite Z.eqb_refl. reflexivity.
  - cbn [rev] in H. rewrite <- app_assoc in H. cbn [app] in H.
    destruct (succ_items _ _ _ _ _ _ _ _ _ _ R H) as (_ & A & B & C). rewrite (eqb_no _ _ C), B, A.
    unfold final. rewrite rev_involutive. rewrite (IH ((a, v) :: l2)); [reflexivity|exact H|cbn in FU; lia].
Qed.
Lemma items_len : forall T0, length (items T0) = length (ns T0).
Proof. intros. rewrite <- items_ns, map_length. reflexivity. Qed.
Lemma root_is_nil : forall w t nl im T0 n, trep w t nl im T0 n -> (rp nl T0 =? nl) = match T0 with E => true | _ => false end.
Proof. intros. apply (rp_ne_node w t nl im [] T0 n H). Qed.
Lemma walk_spec : forall w t nl im T0 n, trep w t nl im T0 n -> walk w t = Some (items T0) /\ walkback w t = Some (rev (items T0)).
Proof.
  intros w t nl im T0 n R. unfold walk, walkback, minimum_node, maximum_node.
  rewrite (rep_root _ _ _ _ _ _ R), (rep_nil _ _ _ _ _ _ R), (root_is_nil _ _ _ _ _ _ R).
  destruct T0 as [|c l a v r]; [auto|]. pose proof (rep_len _ _ _ _ _ _ R) as L. rewrite <- items_len in L.
  rewrite (min_first w t nl im n (T c l a v r) []); [|discriminate|exact R|rewrite items_len in L; lia].
  rewrite (max_final w t nl im n (T c l a v r) []); [|discriminate|exact R|rewrite items_len in L; lia].
  rewrite (walk_from_spec _ _ _ _ _ _ R _ []); [|reflexivity|lia]. unfold final.
  rewrite (walkback_from_spec _ _ _ _ _ _ R _ []); [auto|rewrite rev_involutive, app_nil_r; reflexivity|rewrite rev_length; lia].
Qed.

(** Post-order and depth. *)
Fixpoint pst (t : tr) : list (Z * Z) := match t with E => [] | T _ l a v r => pst l ++ pst r ++ [(a, v)] end.
Fixpoint hgt (t : tr) : nat := match t with E => O | T _ l _ _ r => S (Nat.max (hgt l) (hgt r)) end.
Lemma post_from_spec : forall w t nl im n T0 p fuel, trep w t nl im (plug p T0) n -> (length (ns T0) < fuel)%nat ->
  post_from fuel w t (rp nl T0) = Some (pst T0) /\ depth_from fuel w t (rp nl T0) = Some (hgt T0).
Proof.
  intros w t nl im n T0. induction T0 as [|c l IHl a v r IHr]; intros p fuel R FU; (destruct fuel as [|fuel]; [lia|]); cbn [post_from depth_from];
    rewrite (rep_nil _ _ _ _ _ _ R), (rp_ne_node _ _ _ _ _ _ _ R); [auto|].
  cbn [rp]. pose proof (look _ _ _ _ _ _ _ _ _ _ _ R) as LK. rewrite (lf_eq _ _ _ LK), (rg_eq _ _ _ LK), (va_eq _ _ _ LK). cbn [r_left r_right r_value].
  cbn [ns] in FU. rewrite app_length in FU. cbn [length] in FU.
  destruct (IHl (F true c a v r :: p) fuel) as [A1 A2]; [exact R|lia|]. destruct (IHr (F false c a v l :: p) fuel) as [B1 B2]; [exact R|lia|].
  rewrite A1, A2, B1, B2. auto.
Qed.
Lemma post_spec : forall w t nl im T0 n, trep w t nl im T0 n -> post w t = Some (pst T0) /\ depth w t = Some (hgt T0).
Proof.
  intros w t nl im T0 n R. unfold post, depth. rewrite (rep_root _ _ _ _ _ _ R). pose proof (rep_len _ _ _ _ _ _ R).
  apply (post_from_spec w t nl im n T0 []); [exact R|lia].
Qed.
Lemma pst_perm : forall t, Permutation (pst t) (items t).
Proof.
  induction t as [|c l IHl a v r IHr]; cbn [pst items]; [reflexivity|]. rewrite IHl, IHr. apply Permutation_app_head.
  symmetry. apply Permutation_cons_append.
Qed.

(** ** Lookup *)
Lemma find_spec : forall o k w t nl im n T0 p fuel, good_order o ->
  trep w t nl im (plug p T0) n -> in_order o (items T0) -> (length (ns T0) < fuel)%nat ->
  (Forall (fun i => ~ has_key o k i) (items T0) /\ find_loop fuel o w nl k (rp nl T0) = Some (ERROR_RBTREE_NOT_FOUND, 0)) \/
  (exists l1 a v l2, items T0 = l1 ++ (a, v) :: l2 /\ has_key o k (a, v) /\ find_loop fuel o w nl k (rp nl T0) = Some (STATUS_SUCCESS, a)).
Proof.
  intros o k w t nl im n T0. induction T0 as [|c l IHl a v r IHr]; intros p fuel G R IO FU; (destruct fuel as [|fuel]; [lia|]); cbn [find_loop].
  - left. split; [constructor|]. cbn [rp]. rewrite Z.eqb_refl. reflexivity.
  - rewrite (rp_ne_node _ _ _ _ _ _ _ R). cbn [rp]. pose proof (look _ _ _ _ _ _ _ _ _ _ _ R) as LK. rewrite (va_eq _ _ _ LK). cbn [r_value].
    cbn [ns] in FU. rewrite app_length in FU. cbn [length] in FU. cbn [items] in IO |- *.
    pose proof (ss_mid _ _ _ _ _ IO) as [IL IR]. apply ss_app in IO. destruct IO as (IOl & IOr & _). inversion IOr; subst.
    destruct (Z.eqb_spec (o_cmp o k (o_key o v)) COMPARE_EQ) as [Q|Q].
    + right. exists (items l), a, v, (items r). auto.
    + destruct (Z.eqb_spec (o_cmp o k (o_key o v)) COMPARE_LT) as [L|L].
      * rewrite (lf_eq _ _ _ LK). cbn [r_left].
        destruct (IHl (F true c a v r :: p) fuel G R IOl) as [(A & B)|(l1 & b & x & l2 & A & B & C)]; [lia| |].
        -- left. split; [|exact B]. apply Forall_app. split; [exact A|]. constructor; [exact Q|].
           rewrite Forall_forall in *. intros i I K. unfold has_key in K.
           pose proof (lt_le_trans o k (o_key o v) _ G L (IR i I)) as X. rewrite X in K. discriminate.
        -- right. exists l1, b, x, (l2 ++ (a, v) :: items r). rewrite A, <- app_assoc. auto.
      * rewrite (rg_eq _ _ _ LK). cbn [r_right].
        destruct (IHr (F false c a v l :: p) fuel G R H1) as [(A & B)|(l1 & b & x & l2 & A & B & C)]; [lia| |].
        -- left. split; [|exact B]. apply Forall_app. split; [|constructor; [exact Q|exact A]].
           rewrite Forall_forall in *. intros i I K. unfold has_key in K.
           assert (LT : o_cmp o (o_key o v) k = COMPARE_LT).
           { destruct G as (V & AN & _). destruct (V k (o_key o v)) as [X|[X|X]]; [contradiction|contradiction|]. apply AN. exact X. }
           pose proof (le_lt_trans o _ _ _ G (IL i I) LT) as X. apply cmp_sym in K; auto. rewrite X in K. discriminate.
        -- right. exists (items l ++ (a, v) :: l1), b, x, l2. rewrite A, <- app_assoc. auto.
Qed.
Lemma find_node_spec : forall o k w t nl im n T0, good_order o -> trep w t nl im T0 n -> in_order o (items T0) ->
  (Forall (fun i => ~ has_key o k i) (items T0) /\ find_node o w t k = Some (ERROR_RBTREE_NOT_FOUND, 0)) \/
  (exists l1 a v l2, items T0 = l1 ++ (a, v) :: l2 /\ has_key o k (a, v) /\ find_node o w t k = Some (STATUS_SUCCESS, a)).
Proof.
  intros o k w t nl im n T0 G R IO. unfold find_node. rewrite (rep_root _ _ _ _ _ _ R), (rep_nil _ _ _ _ _ _ R).
  pose proof (rep_len _ _ _ _ _ _ R). apply (find_spec o k w t nl im n T0 [] _ G R IO). lia.
Qed.
