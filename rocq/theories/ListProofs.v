(** Proofs about lists: the pointer programs refine the operations on sequences. *)
From Coq Require Import Permutation.
From Verif Require Import Base Status MemModel MemProofs Heap ListModel ListSpec.

(** ** Representation *)
Definition firstd (s : list el) (d : Z) : Z := match s with [] => d | e :: _ => el_addr e end.
Definition lastd (s : list el) (d : Z) : Z := last (map el_addr s) d.
Fixpoint lseg (dbl : bool) (ns : heap node) (prev : Z) (s : list el) (fol : Z) : Prop :=
  match s with
  | [] => True
  | e :: t =>
      hget ns (el_addr e) = Some (Node (el_parent e) (if dbl then prev else 0) (firstd t fol) (el_child e)) /\
      lseg dbl ns (el_addr e) t fol
  end.
Definition hd_of (s : list el) : hdr := Hdr (first s) (last_addr s) (Z.of_nat (length s)).

Record Inv (dbl : bool) (w : world) (a : astate) : Prop := MkInv
  { iv_nodes : hwf (w_nodes w);
    iv_hdrs : hwf (w_hdrs w);
    iv_addrs : addrs (w_hdrs w) = addrs (a_lists a);
    iv_lists : forall l s, hget (a_lists a) l = Some s ->
                 hget (w_hdrs w) l = Some (hd_of s) /\ lseg dbl (w_nodes w) 0 s 0;
    iv_perm : Permutation (addrs (w_nodes w)) (all_nodes (a_lists a) ++ a_leak a);
    iv_rel : w_rel w = a_rel a }.

(** ** Facts about heaps and permutations *)
Lemma addrs_hdel : forall A (h : heap A) p v, hget h p = Some v -> Permutation (addrs h) (p :: addrs (hdel h p)).
Proof.
  induction h as [|[q c] t IH]; cbn; intros p v H; [discriminate|].
  destruct (Z.eqb_spec p q) as [->|N]; [reflexivity|]. cbn. rewrite (IH _ _ H) at 1. constructor.
Qed.
Lemma all_split : forall aw l s, hget aw l = Some s -> Permutation (all_nodes aw) (map el_addr s ++ all_nodes (hdel aw l)).
Proof.
  unfold all_nodes. induction aw as [|[q c] t IH]; cbn; intros l s H; [discriminate|].
  destruct (Z.eqb_spec l q) as [->|N]; [inversion H; subst; reflexivity|]. cbn.
  rewrite (IH _ _ H). rewrite !app_assoc. apply Permutation_app_tail. apply Permutation_app_comm.
Qed.
Lemma hdel_hset : forall A (aw : heap A) l s, hdel (hset aw l s) l = hdel aw l.
Proof. induction aw as [|[q c] t IH]; cbn; intros; [auto|]. destruct (l =? q) eqn:E; cbn; rewrite E; [auto|]. f_equal. auto. Qed.
Lemma all_hset : forall aw l s s', hget aw l = Some s -> Permutation (all_nodes (hset aw l s')) (map el_addr s' ++ all_nodes (hdel aw l)).
Proof.
  intros. rewrite <- (hdel_hset _ aw l s'). apply all_split. eapply hget_hset_same; eauto.
Qed.
Lemma all_in : forall aw l s q, hget aw l = Some s -> In q (map el_addr s) -> In q (all_nodes aw).
Proof. intros. eapply Permutation_in; [symmetry; eapply all_split; eauto|]. apply in_or_app; auto. Qed.
Lemma hget_hset_hdel : forall A (aw : heap A) l x s, x <> l -> hget (hdel aw l) x = Some s -> hget aw x = Some s.
Proof.
  induction aw as [|[q c] t IH]; cbn; intros l x s N H; [discriminate|].
  destruct (Z.eqb_spec l q) as [->|M]; cbn in H.
  - destruct (Z.eqb_spec x q); [congruence|auto].
  - destruct (x =? q); eauto.
Qed.
Lemma hdel_keeps : forall A (aw : heap A) l x, x <> l -> hget (hdel aw l) x = hget aw x.
Proof.
  induction aw as [|[q c] t IH]; cbn; intros l x N; [auto|].
  destruct (Z.eqb_spec l q) as [->|M]; cbn.
  - destruct (Z.eqb_spec x q); [congruence|auto].
  - destruct (x =? q); auto.
Qed.

(** ** Segments *)
Lemma lseg_app : forall dbl ns a b p f,
  lseg dbl ns p (a ++ b) f <-> lseg dbl ns p a (firstd b f) /\ lseg dbl ns (lastd a p) b f.
Proof.
  induction a as [|e t IH]; cbn [app lseg]; intros b p f; [cbn; tauto|].
  rewrite IH. assert (E : firstd (t ++ b) f = firstd t (firstd b f)) by (destruct t; auto). rewrite E.
  assert (E2 : lastd (e :: t) p = lastd t (el_addr e)).
  { unfold lastd. cbn. destruct t; cbn; auto. clear. revert e0. induction t; cbn; auto. }
  rewrite E2. tauto.
Qed.
Lemma lseg_frame : forall dbl ns ns' s p f,
  (forall q, In q (map el_addr s) -> hget ns' q = hget ns q) -> lseg dbl ns p s f -> lseg dbl ns' p s f.
Proof.
  induction s as [|e t IH]; cbn; intros p f H L; auto. destruct L as [L1 L2]. split.
  - rewrite H; auto.
  - apply IH; auto.
Qed.
Lemma lseg_live : forall dbl ns s p f q, lseg dbl ns p s f -> In q (map el_addr s) -> exists n, hget ns q = Some n.
Proof. induction s as [|e t IH]; cbn; intros p f q L []; destruct L as [L1 L2]; [subst; eauto|eauto]. Qed.
Lemma lastd_snoc : forall a e d, lastd (a ++ [e]) d = el_addr e.
Proof. intros. unfold lastd. rewrite map_app. cbn. apply last_last. Qed.
Lemma lastd_app_cons : forall a e b d, lastd (a ++ e :: b) d = lastd b (el_addr e).
Proof.
  intros. unfold lastd. rewrite map_app. cbn. revert e. induction a as [|x a IH]; intros e; cbn [map app].
  - cbn. destruct (map el_addr b) eqn:E; auto. cbn. clear. revert z. induction l; cbn; auto.
  - rewrite <- (IH e). destruct (map el_addr a); reflexivity.
Qed.
Lemma last_addr_lastd : forall s, last_addr s = lastd s 0. Proof. reflexivity. Qed.
Lemma first_firstd : forall s, first s = firstd s 0. Proof. reflexivity. Qed.

(** ** Consequences of the invariant *)
Lemma inv_nodup : forall dbl w a, Inv dbl w a -> NoDup (all_nodes (a_lists a) ++ a_leak a).
Proof. intros dbl w a I. eapply Permutation_NoDup; [apply (iv_perm _ _ _ I)|]. apply (iv_nodes _ _ _ I). Qed.
Lemma inv_hwf : forall dbl w a, Inv dbl w a -> hwf (a_lists a).
Proof. intros dbl w a I. pose proof (iv_hdrs _ _ _ I) as H. unfold hwf in *. rewrite (iv_addrs _ _ _ I) in H. auto. Qed.
Lemma inv_list : forall dbl w a l s, Inv dbl w a -> hget (a_lists a) l = Some s ->
  hget (w_hdrs w) l = Some (hd_of s) /\ lseg dbl (w_nodes w) 0 s 0 /\
  NoDup (map el_addr s) /\ (forall q, In q (map el_addr s) -> q <> 0) /\
  (forall q, In q (all_nodes (hdel (a_lists a) l) ++ a_leak a) -> ~ In q (map el_addr s)) /\
  (forall q, In q (map el_addr s) -> exists n, hget (w_nodes w) q = Some n).
Proof.
  intros dbl w a l s I H. destruct (iv_lists _ _ _ I l s H) as [H1 H2].
  assert (ND : NoDup (map el_addr s ++ (all_nodes (hdel (a_lists a) l) ++ a_leak a))).
  { rewrite app_assoc. eapply Permutation_NoDup; [|eapply inv_nodup; eauto].
    apply Permutation_app_tail. apply all_split; auto. }
  assert (LV : forall q, In q (map el_addr s) -> exists n, hget (w_nodes w) q = Some n)
    by (intros; eapply lseg_live; eauto).
  split; [auto|]. split; [auto|]. split; [|split; [|split]]; auto.
  - clear - ND. induction (map el_addr s); [constructor|]. inversion ND; subst. constructor; auto.
    intro K. apply H1. apply in_or_app; auto.
  - intros q K ->. destruct (LV 0 K) as [n E]. rewrite hget_null in E by apply I. discriminate.
  - intros q K1 K2. clear - ND K1 K2. induction (map el_addr s); [auto|]. inversion ND; subst.
    destruct K2 as [->|K2]; [|auto]. apply H1. apply in_or_app; auto.
Qed.

(** One list changes. *)
Lemma inv_update : forall dbl w a l s s' lk rel ns' hs',
  Inv dbl w a -> hget (a_lists a) l = Some s ->
  hwf ns' -> addrs hs' = addrs (w_hdrs w) ->
  (forall x, hget hs' x = if x =? l then Some (hd_of s') else hget (w_hdrs w) x) ->
  lseg dbl ns' 0 s' 0 ->
  (forall q, ~ In q (map el_addr s) -> In q (addrs (w_nodes w)) -> hget ns' q = hget (w_nodes w) q) ->
  Permutation (addrs ns') (map el_addr s' ++ all_nodes (hdel (a_lists a) l) ++ lk) ->
  Inv dbl (World ns' hs' rel) (AState (hset (a_lists a) l s') lk rel).
Proof.
  intros dbl w a l s s' lk rel ns' hs' I H W AH HH LS FR PM.
  pose proof (inv_list _ _ _ _ _ I H) as (Q1 & Q2 & Q3 & Q4 & Q5 & Q6).
  split; cbn [w_nodes w_hdrs w_rel a_lists a_leak a_rel].
  - auto.
  - unfold hwf. rewrite AH. apply I.
  - rewrite AH, hset_addrs. apply I.
  - intros x s1 E. rewrite hget_hset, H in E. rewrite HH. destruct (Z.eqb_spec x l) as [->|N].
    + inversion E; subst. auto.
    + pose proof (iv_lists _ _ _ I _ _ E) as [R1 R2]. split; [auto|]. eapply lseg_frame; [|eauto].
      intros q K. apply FR.
      * apply Q5. apply in_or_app. left. eapply all_in; [|eauto]. rewrite hdel_keeps; eauto.
      * destruct (lseg_live _ _ _ _ _ _ R2 K) as [n En]. eapply hget_in; eauto.
  - rewrite PM, app_assoc. apply Permutation_app_tail. symmetry. eapply all_hset; eauto.
  - auto.
Qed.

(** ** Symbolic execution *)
Lemma setn_some : forall w p f n, hget (w_nodes w) p = Some n -> setn w p f = Some (World (hset (w_nodes w) p (f n)) (w_hdrs w) (w_rel w)).
Proof. intros. unfold setn. rewrite H. auto. Qed.
Lemma seth_some : forall w p f h, hget (w_hdrs w) p = Some h -> seth w p f = Some (World (w_nodes w) (hset (w_hdrs w) p (f h)) (w_rel w)).
Proof. intros. unfold seth. rewrite H. auto. Qed.
Lemma eqb_no : forall a b : Z, a <> b -> (a =? b) = false.
Proof. intros. apply Z.eqb_neq; auto. Qed.

(** Rewriting [hget] of an updated heap, with the disequalities in the context. *)
Ltac eqbs :=
  repeat match goal with
  | |- context [?x =? ?x] => rewrite (Z.eqb_refl x)
  | H : ?x <> ?y |- context [?x =? ?y] => rewrite (eqb_no x y H)
  | H : ?y <> ?x |- context [?x =? ?y] => rewrite (eqb_no x y (fun K => H (eq_sym K)))
  end.
Ltac hs := repeat (progress (cbn [w_nodes w_hdrs w_rel n_parent n_prev n_next n_child h_head h_tail h_count
                        to_parent to_prev to_next to_child to_head to_tail to_count];
                   rewrite ?hget_hset, ?hget_hadd; eqbs)).
Ltac known := hs; repeat match goal with H : hget _ _ = Some _ |- _ => rewrite H end; hs; reflexivity.
Ltac sn := erewrite setn_some by known.
Ltac sh := erewrite seth_some by known.

Lemma hdr_eq : forall a b c a' b' c', a = a' -> b = b' -> c = c' -> Some (Hdr a b c) = Some (Hdr a' b' c').
Proof. congruence. Qed.

Lemma fresh_new : forall dbl v w a, Inv dbl w a ->
  (e_new v =? 0) || existsb (Z.eqb (e_new v)) (all_nodes (a_lists a) ++ a_leak a) = false ->
  e_new v <> 0 /\ hget (w_nodes w) (e_new v) = None /\ ~ In (e_new v) (all_nodes (a_lists a) ++ a_leak a).
Proof.
  intros dbl v w a I E. apply orb_false_iff in E as [E1 E2]. apply Z.eqb_neq in E1.
  assert (N : ~ In (e_new v) (all_nodes (a_lists a) ++ a_leak a)).
  { intro K. assert (X : existsb (Z.eqb (e_new v)) (all_nodes (a_lists a) ++ a_leak a) = true).
    { apply existsb_exists. exists (e_new v). split; [auto|apply Z.eqb_refl]. } congruence. }
  split; [auto|]. split; [|auto]. apply hget_none. intro K. apply N.
  eapply Permutation_in; [apply (iv_perm _ _ _ I)|auto].
Qed.

Lemma put_eta : forall a l s, put a l s = AState (hset (a_lists a) l s) (a_leak a) (a_rel a).
Proof. reflexivity. Qed.

(** Adding: what is left to show about the resulting heaps. *)
Lemma adding_update : forall dbl v w a l s s' ns' hs',
  Inv dbl w a -> hget (a_lists a) l = Some s ->
  (e_new v =? 0) || existsb (Z.eqb (e_new v)) (all_nodes (a_lists a) ++ a_leak a) = false ->
  Permutation (map el_addr s') (e_new v :: map el_addr s) ->
  addrs ns' = e_new v :: addrs (w_nodes w) -> addrs hs' = addrs (w_hdrs w) ->
  (forall x, hget hs' x = if x =? l then Some (hd_of s') else hget (w_hdrs w) x) ->
  lseg dbl ns' 0 s' 0 ->
  (forall q, ~ In q (map el_addr s) -> q <> e_new v -> hget ns' q = hget (w_nodes w) q) ->
  Inv dbl (World ns' hs' (w_rel w)) (put a l s').
Proof.
  intros dbl v w a l s s' ns' hs' I H F P1 AN AH HH LS FR.
  pose proof (fresh_new _ _ _ _ I F) as (F1 & F2 & F3).
  unfold put. rewrite (iv_rel _ _ _ I). eapply inv_update; eauto.
  - destruct (iv_nodes _ _ _ I) as [W1 W2]. split; rewrite AN; [constructor; auto; apply hget_none; auto|].
    intros [K|K]; auto.
  - intros q K1 K2. apply FR; auto. intros ->. apply hget_none in F2. auto.
  - rewrite AN, P1. cbn. constructor. rewrite (iv_perm _ _ _ I), app_assoc.
    apply Permutation_app_tail. apply all_split; auto.
Qed.

Lemma not_in_new : forall dbl v w a l s, Inv dbl w a -> hget (a_lists a) l = Some s ->
  ~ In (e_new v) (all_nodes (a_lists a) ++ a_leak a) -> ~ In (e_new v) (map el_addr s).
Proof. intros dbl v w a l s I H N K. apply N. apply in_or_app. left. eapply all_in; eauto. Qed.

Ltac frame_in := let q := fresh "q" in let K := fresh "K" in intros q K;
  repeat match goal with
  | N : ~ In ?x ?X |- _ => lazymatch type of K with In q X =>
       lazymatch goal with D : q <> x |- _ => fail | _ => assert (q <> x) by (intros ->; exact (N K)) end end
  end; hs; auto.

(** ** Adding elements *)
Lemma app_last_case : forall (s : list el), s = [] \/ exists x e, s = x ++ [e].
Proof. intros s. destruct s using rev_ind; [auto|right; eauto]. Qed.

Lemma nd_split : forall (x y : list Z) a, NoDup (x ++ a :: y) -> ~ In a x /\ ~ In a y.
Proof. intros x y a H. apply NoDup_remove in H as [_ H]. split; intro K; apply H; apply in_or_app; auto. Qed.

Ltac adr := cbn [w_nodes w_hdrs w_rel]; rewrite ?hset_addrs; reflexivity.
Ltac hdr_pt := let x := fresh "x" in intros x; hs;
  match goal with |- context [x =? ?l] => destruct (Z.eqb_spec x l) as [->|?]; hs;
     repeat match goal with H : hget (w_hdrs _) _ = Some _ |- _ => rewrite H end; hs; auto end.

Lemma append_tail_ok : forall dbl v w a l c s, Inv dbl w a -> hget (a_lists a) l = Some s ->
  forall e x a', adding v a l (fun p => s ++ [El p l c]) = Some (e, x, a') ->
  exists w', (if dbl then list_append_tail v w l c else slist_append_tail v w l c) = Some (e, w') /\ x = 0 /\ Inv dbl w' a'.
Proof.
  intros dbl v w a l c s I H e x a' A. unfold adding in A.
  pose proof (inv_list _ _ _ _ _ I H) as (Q1 & Q2 & Q3 & Q4 & Q5 & Q6). unfold hd_of in Q1.
  unfold list_append_tail, slist_append_tail, node_create. rewrite Q1.
  destruct (ok (e_alloc v)) eqn:EA; cbn [negb] in *.
  2:{ inversion A; subst. rewrite EA. cbn [negb]. destruct dbl; eauto. }
  destruct (_ || _) eqn:F; [discriminate|]. inversion A; subst; clear A.
  pose proof (fresh_new _ _ _ _ I F) as (F1 & F2 & F3). pose proof (not_in_new _ _ _ _ _ _ I H F3) as F4.
  change (ok STATUS_SUCCESS) with true. cbn [negb]. hs. rewrite Q1. cbn [h_tail h_head h_count].
  destruct (app_last_case s) as [->|(y & e & ->)].
  - cbn [last_addr map last]. cbn [Z.eqb negb].
    assert (X : exists w', (do w2 <- (do w' <- seth (World (hadd (w_nodes w) (e_new v) (Node l 0 0 c)) (w_hdrs w) (w_rel w)) l (to_head (e_new v)); seth w' l (to_tail (e_new v)));
       do w3 <- seth w2 l (fun h => to_count (h_count h + 1) h); Some (STATUS_SUCCESS, w3)) = Some (STATUS_SUCCESS, w') /\ 0 = 0 /\ Inv dbl w' (put a l [El (e_new v) l c])).
    { sh. sh. sh. eexists. split; [reflexivity|]. split; [auto|].
      cbn [w_nodes w_hdrs w_rel]; eapply (adding_update _ v w); [exact I|exact H|exact F|reflexivity|adr|adr|..].
      + hdr_pt.
      + cbn [lseg firstd el_addr el_parent el_child]. split; [|exact Logic.I]. hs. destruct dbl; reflexivity.
      + intros q K1 K2. hs. auto. }
    destruct dbl; exact X.
  - rewrite (last_addr_lastd (y ++ [e])), lastd_snoc in *. rewrite (eqb_no (el_addr e) 0). 2:{ apply Q4. rewrite map_app. apply in_or_app; right; left; auto. }
    cbn [negb]. rewrite map_app in *. cbn [map] in *.
    pose proof (nd_split _ _ _ Q3) as [N1 _].
    assert (N2 : (e_new v) <> el_addr e) by (intro K; apply F4; apply in_or_app; right; left; auto).
    assert (N3 : ~ In (e_new v) (map el_addr y)) by (intro K; apply F4; apply in_or_app; left; auto).
    apply lseg_app in Q2 as [Q2a Q2b]. cbn [firstd lseg] in Q2a, Q2b. destruct Q2b as [Q2b _].
    assert (PM : Permutation (map el_addr ((y ++ [e]) ++ [El (e_new v) l c])) (e_new v :: map el_addr (y ++ [e]))).
    { rewrite map_app. cbn. symmetry. apply Permutation_cons_append. }
    assert (HP : Some (Hdr (first (y ++ [e])) (e_new v) (Z.of_nat (length (y ++ [e])) + 1)) = Some (hd_of ((y ++ [e]) ++ [El (e_new v) l c]))).
    { unfold hd_of. apply hdr_eq; [destruct y; auto| rewrite last_addr_lastd, lastd_snoc; auto| rewrite (app_length (y ++ [e])); cbn; lia]. }
    destruct dbl.
    + sn. sn. sh. sh. eexists. split; [reflexivity|]. split; [auto|].
      cbn [w_nodes w_hdrs w_rel]; eapply (adding_update _ v w); [exact I|exact H|exact F|exact PM|adr|adr|..].
      * hdr_pt. 
      * rewrite <- app_assoc. apply lseg_app. split.
        -- eapply lseg_frame; [|exact Q2a]. frame_in.
        -- cbn [app lseg firstd el_addr el_parent el_child]. hs. rewrite Q2b. hs. auto.
      * intros q K1 K2. rewrite map_app in K1. assert (q <> el_addr e) by (intros ->; apply K1; apply in_or_app; right; left; auto). hs. auto.
    + sn. sh. sh. eexists. split; [reflexivity|]. split; [auto|].
      cbn [w_nodes w_hdrs w_rel]; eapply (adding_update _ v w); [exact I|exact H|exact F|exact PM|adr|adr|..].
      * hdr_pt.
      * rewrite <- app_assoc. apply lseg_app. split.
        -- eapply lseg_frame; [|exact Q2a]. frame_in.
        -- cbn [app lseg firstd el_addr el_parent el_child]. hs. rewrite Q2b. hs. auto.
      * intros q K1 K2. rewrite map_app in K1. assert (q <> el_addr e) by (intros ->; apply K1; apply in_or_app; right; left; auto). hs. auto.
Qed.

Lemma last_addr_cons : forall e s, last_addr (e :: s) = lastd s (el_addr e).
Proof. intros. apply (lastd_app_cons [] e s 0). Qed.
Lemma lastd_in : forall s d, s <> [] -> In (lastd s d) (map el_addr s).
Proof.
  intros s d N. destruct (app_last_case s) as [->|(x & e & ->)]; [congruence|].
  rewrite lastd_snoc, map_app. apply in_or_app. right. left. auto.
Qed.
Lemma lastd_nonempty : forall s d d', s <> [] -> lastd s d = lastd s d'.
Proof. intros s d d' N. destruct (app_last_case s) as [->|(x & e & ->)]; [congruence|]. rewrite !lastd_snoc. auto. Qed.

Lemma insert_head_ok : forall dbl v w a l c s, Inv dbl w a -> hget (a_lists a) l = Some s ->
  forall e x a', adding v a l (fun p => El p l c :: s) = Some (e, x, a') ->
  exists w', (if dbl then list_insert_head v w l c else slist_insert_head v w l c) = Some (e, w') /\ x = 0 /\ Inv dbl w' a'.
Proof.
  intros dbl v w a l c s I H e x a' A. unfold adding in A.
  pose proof (inv_list _ _ _ _ _ I H) as (Q1 & Q2 & Q3 & Q4 & Q5 & Q6). unfold hd_of in Q1.
  unfold list_insert_head, slist_insert_head, node_create. rewrite Q1.
  destruct (ok (e_alloc v)) eqn:EA; cbn [negb] in *.
  2:{ inversion A; subst. rewrite EA. cbn [negb]. destruct dbl; eauto. }
  destruct (_ || _) eqn:F; [discriminate|]. inversion A; subst; clear A.
  pose proof (fresh_new _ _ _ _ I F) as (F1 & F2 & F3). pose proof (not_in_new _ _ _ _ _ _ I H F3) as F4.
  change (ok STATUS_SUCCESS) with true. cbn [negb]. hs. rewrite Q1. cbn [h_tail h_head h_count].
  assert (HP : Some (Hdr (e_new v) (if first s =? 0 then e_new v else last_addr s) (Z.of_nat (length s) + 1)) = Some (hd_of (El (e_new v) l c :: s))).
  { unfold hd_of. apply hdr_eq; [auto| |cbn [length]; lia]. rewrite last_addr_cons. cbn [el_addr].
    destruct s as [|e s]; [auto|]. cbn [first]. rewrite eqb_no by (apply Q4; left; auto). apply lastd_nonempty. discriminate. }
  destruct s as [|e s].
  - cbn [first] in *. cbn [Z.eqb negb].
    destruct dbl; repeat sn; repeat sh; (eexists; split; [reflexivity|]; split; [auto|]);
      (cbn [w_nodes w_hdrs w_rel]; eapply (adding_update _ v w); [exact I|exact H|exact F|reflexivity|adr|adr|..]);
      try (hdr_pt; fail);
      try (cbn [lseg firstd el_addr el_parent el_child]; split; [hs; reflexivity|exact Logic.I]);
      (intros q K1 K2; hs; auto).
  - cbn [first] in *. assert (N0 : el_addr e <> 0) by (apply Q4; left; auto).
    assert (N2 : e_new v <> el_addr e) by (intro K; apply F4; left; auto).
    assert (N3 : ~ In (e_new v) (map el_addr s)) by (intro K; apply F4; right; auto).
    assert (N4 : ~ In (el_addr e) (map el_addr s)) by (inversion Q3; auto).
    cbn [lseg] in Q2. destruct Q2 as [Q2a Q2b].
    rewrite (eqb_no _ _ N0) in *. cbn [negb].
    destruct dbl.
    + sn. sn. sh. hs. sn. sh. (eexists; split; [reflexivity|]; split; [auto|]).
      (cbn [w_nodes w_hdrs w_rel]; eapply (adding_update _ v w); [exact I|exact H|exact F|reflexivity|adr|adr|..]).
      * hdr_pt.
      * cbn [lseg firstd el_addr el_parent el_child]. split; [hs; reflexivity|].
        split; [hs; rewrite Q2a; reflexivity|]. eapply lseg_frame; [|exact Q2b]. frame_in.
      * intros q K1 K2. assert (q <> el_addr e) by (intros ->; apply K1; left; auto). hs. auto.
    + sn. sh. sh. (eexists; split; [reflexivity|]; split; [auto|]).
      (cbn [w_nodes w_hdrs w_rel]; eapply (adding_update _ v w); [exact I|exact H|exact F|reflexivity|adr|adr|..]).
      * hdr_pt.
      * cbn [lseg firstd el_addr el_parent el_child]. split; [hs; reflexivity|].
        split; [hs; rewrite Q2a; reflexivity|]. eapply lseg_frame; [|exact Q2b]. frame_in.
      * intros q K1 K2. assert (q <> el_addr e) by (intros ->; apply K1; left; auto). hs. auto.
Qed.

(** ** Nodes *)
Lemma split_at_spec : forall q s a e b, split_at q s = Some (a, e, b) -> s = a ++ e :: b /\ el_addr e = q.
Proof.
  induction s as [|h t IH]; cbn; intros a e b E; [discriminate|].
  destruct (Z.eqb_spec (el_addr h) q) as [K|K].
  - inversion E; subst. auto.
  - destruct (split_at q t) as [[[a' e'] b']|] eqn:E2; [|discriminate]. inversion E; subst.
    destruct (IH _ _ _ eq_refl) as [-> ?]. auto.
Qed.
Lemma locate_spec : forall q aw l a e b, NoDup (addrs aw) -> locate q aw = Some (l, (a, e, b)) ->
  hget aw l = Some (a ++ e :: b) /\ el_addr e = q.
Proof.
  induction aw as [|[x s] t IH]; cbn; intros l a e b ND E; [discriminate|]. inversion ND; subst.
  destruct (split_at q s) as [[[a' e'] b']|] eqn:E2.
  - inversion E; subst. rewrite Z.eqb_refl. apply split_at_spec in E2 as [-> ?]. auto.
  - destruct (IH _ _ _ _ H2 E) as [G ?]. rewrite eqb_no; [auto|]. intros ->. apply hget_in in G. auto.
Qed.
Lemma inv_node : forall dbl w a q l x e y, Inv dbl w a -> locate q (a_lists a) = Some (l, (x, e, y)) ->
  hget (a_lists a) l = Some (x ++ e :: y) /\ el_addr e = q /\
  hget (w_nodes w) q = Some (Node (el_parent e) (if dbl then lastd x 0 else 0) (first y) (el_child e)).
Proof.
  intros dbl w a q l x e y I E. pose proof (inv_hwf _ _ _ I) as [ND _].
  destruct (locate_spec _ _ _ _ _ _ ND E) as [G Eq]. split; [auto|]. split; [auto|].
  destruct (iv_lists _ _ _ I _ _ G) as [_ L]. apply lseg_app in L as [_ [L _]]. rewrite Eq in L. exact L.
Qed.

Lemma nd2 : forall (x y : list Z) a b, NoDup (x ++ a :: b :: y) ->
  ~ In a x /\ ~ In b x /\ a <> b /\ ~ In a y /\ ~ In b y.
Proof.
  intros x y a b H. pose proof (nd_split _ _ _ H) as [A1 A2].
  assert (H2 : NoDup ((x ++ [a]) ++ b :: y)) by (rewrite <- app_assoc; exact H).
  pose proof (nd_split _ _ _ H2) as [B1 B2].
  split; [auto|]. split; [intro K; apply B1; apply in_or_app; auto|].
  split; [intros ->; apply A2; left; auto|]. split; [intro K; apply A2; right; auto|auto].
Qed.

Lemma perm_ins : forall (x : list Z) a b y, Permutation (b :: x ++ a :: y) (x ++ a :: b :: y).
Proof.
  intros. change (x ++ a :: b :: y) with (x ++ [a] ++ b :: y). rewrite app_assoc.
  etransitivity; [|apply Permutation_middle]. rewrite <- app_assoc. reflexivity.
Qed.
Lemma append_ok : forall dbl v w a q l y e z c, Inv dbl w a -> hget (a_lists a) l = Some (y ++ e :: z) -> el_addr e = q ->
  el_parent e = l ->
  forall r x a', adding v a l (fun p => y ++ e :: El p l c :: z) = Some (r, x, a') ->
  exists w', (if dbl then list_append v w q c else slist_append v w q c) = Some (r, w') /\ x = 0 /\ Inv dbl w' a'.
Proof.
  intros dbl v w a q l y e z c I H Eq Ep r x a' A. unfold adding in A.
  pose proof (inv_list _ _ _ _ _ I H) as (Q1 & Q2 & Q3 & Q4 & Q5 & Q6). unfold hd_of in Q1.
  apply lseg_app in Q2 as [Q2a Q2b]. cbn [lseg] in Q2b. destruct Q2b as [Q2b Q2c]. rewrite Ep in Q2b. rewrite Eq in *.
  rewrite map_app in *. cbn [map] in *. rewrite Eq in *.
  unfold list_append, slist_append, node_create. rewrite Q2b. cbn [n_parent]. rewrite Q1.
  destruct (ok (e_alloc v)) eqn:EA; cbn [negb] in *.
  2:{ inversion A; subst. rewrite EA. cbn [negb]. destruct dbl; eauto. }
  destruct (_ || _) eqn:F; [discriminate|]. inversion A; subst; clear A.
  pose proof (fresh_new _ _ _ _ I F) as (F1 & F2 & F3). pose proof (not_in_new _ _ _ _ _ _ I H F3) as F4.
  rewrite map_app in F4. cbn [map] in F4.
  change (ok STATUS_SUCCESS) with true. cbn [negb]. hs. rewrite Q1. cbn [h_tail h_head h_count].
  set (q := el_addr e) in *. set (l := el_parent e) in *.
  assert (Nq : q <> 0) by (apply Q4; apply in_or_app; right; left; auto).
  assert (N2 : e_new v <> q) by (intro K; apply F4; apply in_or_app; right; left; auto).
  assert (N3 : ~ In (e_new v) (map el_addr y)) by (intro K; apply F4; apply in_or_app; left; auto).
  assert (N4 : ~ In (e_new v) (map el_addr z)) by (intro K; apply F4; apply in_or_app; right; right; auto).
  pose proof (nd_split _ _ _ Q3) as [N5 N6].
  assert (PM : Permutation (map el_addr (y ++ e :: El (e_new v) l c :: z)) (e_new v :: map el_addr (y ++ e :: z))).
  { rewrite !map_app. cbn [map el_addr]. symmetry.
    exact (perm_ins (map el_addr y) (el_addr e) (e_new v) (map el_addr z)). }
  assert (TL : last_addr (y ++ e :: z) = lastd z q) by (rewrite last_addr_lastd; apply lastd_app_cons).
  rewrite TL in *.
  assert (HP : Some (Hdr (first (y ++ e :: z)) (lastd z (e_new v)) (Z.of_nat (length (y ++ e :: z)) + 1)) = Some (hd_of (y ++ e :: El (e_new v) l c :: z))).
  { unfold hd_of. apply hdr_eq; [destruct y; auto| |rewrite !app_length; cbn [length]; lia].
    rewrite last_addr_lastd, lastd_app_cons. symmetry. exact (lastd_app_cons [] (El (e_new v) l c) z (el_addr e)). }
  destruct z as [|n z].
  - cbn [lastd map last firstd] in *. hs.
    destruct dbl.
    + sh. hs. rewrite Q2b. hs. sn. sn. hs. cbn [Z.eqb negb]. sn. sh.
      (eexists; split; [reflexivity|]; split; [auto|]).
      (cbn [w_nodes w_hdrs w_rel]; eapply (adding_update _ v w); [exact I|exact H|exact F|exact PM|adr|adr|..]).
      * hdr_pt.
      * apply lseg_app. split; [eapply lseg_frame; [|exact Q2a]; frame_in|].
        cbn [lseg firstd el_addr el_parent el_child]. fold q l. hs. rewrite Q2b. hs. auto.
      * intros x K1 K2. rewrite map_app in K1. assert (x <> q) by (intros ->; apply K1; apply in_or_app; right; left; auto). hs. auto.
    + sh. hs. rewrite Q2b. hs. sn. sn. sh.
      (eexists; split; [reflexivity|]; split; [auto|]).
      (cbn [w_nodes w_hdrs w_rel]; eapply (adding_update _ v w); [exact I|exact H|exact F|exact PM|adr|adr|..]).
      * hdr_pt.
      * apply lseg_app. split; [eapply lseg_frame; [|exact Q2a]; frame_in|].
        cbn [lseg firstd el_addr el_parent el_child]. fold q l. hs. rewrite Q2b. hs. auto.
      * intros x K1 K2. rewrite map_app in K1. assert (x <> q) by (intros ->; apply K1; apply in_or_app; right; left; auto). hs. auto.
  - assert (QT : q <> lastd (n :: z) q) by (intros K; apply N6; rewrite K at 1; apply lastd_in; discriminate).
    hs. cbn [map firstd] in *. cbn [map] in Q3.
    pose proof (nd2 _ _ _ _ Q3) as (M1 & M2 & M3 & M4 & M5).
    assert (M6 : e_new v <> el_addr n) by (intro K; apply N4; left; auto).
    assert (M7 : ~ In (e_new v) (map el_addr z)) by (intro K; apply N4; right; auto).
    assert (M8 : el_addr n <> 0) by (apply Q4; apply in_or_app; right; right; left; auto).
    cbn [lseg] in Q2c. destruct Q2c as [Q2c Q2d]. rewrite (lastd_nonempty _ _ (e_new v)) in Q1, QT by discriminate.
    destruct dbl.
    + hs. rewrite Q2b. hs. sn. sn. hs. cbn [negb]. sn. sn. sh.
      (eexists; split; [reflexivity|]; split; [auto|]).
      (cbn [w_nodes w_hdrs w_rel]; eapply (adding_update _ v w); [exact I|exact H|exact F|exact PM|adr|adr|..]).
      * hdr_pt.
      * apply lseg_app. split; [eapply lseg_frame; [|exact Q2a]; frame_in|].
        cbn [lseg firstd el_addr el_parent el_child]. fold q l. hs. rewrite Q2b, Q2c. hs. split; [auto|]. split; [auto|]. split; [auto|].
        eapply lseg_frame; [|exact Q2d]. frame_in.
      * intros x K1 K2. rewrite map_app in K1. assert (x <> q) by (intros ->; apply K1; apply in_or_app; right; left; auto).
        assert (x <> el_addr n) by (intros ->; apply K1; apply in_or_app; right; right; left; auto). hs. auto.
    + hs. rewrite Q2b. hs. sn. sn. sh.
      (eexists; split; [reflexivity|]; split; [auto|]).
      (cbn [w_nodes w_hdrs w_rel]; eapply (adding_update _ v w); [exact I|exact H|exact F|exact PM|adr|adr|..]).
      * hdr_pt.
      * apply lseg_app. split; [eapply lseg_frame; [|exact Q2a]; frame_in|].
        cbn [lseg firstd el_addr el_parent el_child]. fold q l. hs. rewrite Q2b, Q2c. hs. split; [auto|]. split; [auto|]. split; [auto|].
        eapply lseg_frame; [|exact Q2d]. frame_in.
      * intros x K1 K2. rewrite map_app in K1. assert (x <> q) by (intros ->; apply K1; apply in_or_app; right; left; auto). hs. auto.
Qed.

Lemma adding_ext : forall v a l f g, f (e_new v) = g (e_new v) -> adding v a l f = adding v a l g.
Proof. intros v a l f g E. unfold adding. rewrite E. auto. Qed.
Lemma insert_ok : forall v w a q l y e z c, Inv true w a -> locate q (a_lists a) = Some (l, (y, e, z)) ->
  el_parent (last y e) = l ->
  forall r x a', adding v a l (fun p => y ++ El p l c :: e :: z) = Some (r, x, a') ->
  exists w', list_insert v w q c = Some (r, w') /\ x = 0 /\ Inv true w' a'.
Proof.
  intros v w a q l y e z c I E P r x a' A.
  destruct (inv_node _ _ _ _ _ _ _ _ I E) as (G & Eq & N). unfold list_insert. rewrite N. cbn [n_prev n_parent].
  destruct (app_last_case y) as [->|(y' & m & ->)].
  - cbn [lastd map last] in *. cbn [Z.eqb negb]. rewrite P.
    apply (insert_head_ok true v w a l c _ I G _ _ _ A).
  - rewrite lastd_snoc. rewrite last_last in P. rewrite <- app_assoc in G. cbn [app] in G.
    rewrite (adding_ext v a l _ (fun p => y' ++ m :: El p l c :: e :: z)) in A by (rewrite <- app_assoc; reflexivity).
    pose proof (inv_list _ _ _ _ _ I G) as (_ & _ & _ & Q4 & _).
    rewrite eqb_no; [cbn [negb]|apply Q4; rewrite map_app; apply in_or_app; right; left; auto].
    apply (append_ok true v w a (el_addr m) l y' m (e :: z) c I G eq_refl P _ _ _ A).
Qed.

(** ** Taking elements out *)
Lemma taking_update : forall dbl v w a l s s' t w6,
  Inv dbl w a -> hget (a_lists a) l = Some s ->
  Permutation (map el_addr s) (el_addr t :: map el_addr s') ->
  addrs (w_nodes w6) = addrs (w_nodes w) -> addrs (w_hdrs w6) = addrs (w_hdrs w) -> w_rel w6 = w_rel w ->
  (forall x, hget (w_hdrs w6) x = if x =? l then Some (hd_of s') else hget (w_hdrs w) x) ->
  (exists n, hget (w_nodes w6) (el_addr t) = Some n /\ n_child n = 0) ->
  lseg dbl (w_nodes w6) 0 s' 0 ->
  (forall q, ~ In q (map el_addr s) -> hget (w_nodes w6) q = hget (w_nodes w) q) ->
  forall r x a', taking v a l t s' = Some (r, x, a') ->
  exists w', pop_finish v w6 (el_addr t) (el_child t) = Some (r, x, w') /\ Inv dbl w' a'.
Proof.
  intros dbl v w a l s s' t w6 I H PM AN AH RL HH (n & Hn & Hc) LS FR r x a' T.
  pose proof (inv_list _ _ _ _ _ I H) as (Q1 & Q2 & Q3 & Q4 & Q5 & Q6).
  assert (ND : NoDup (el_addr t :: map el_addr s')) by (eapply Permutation_NoDup; eauto).
  assert (Nt : ~ In (el_addr t) (map el_addr s')) by (inversion ND; auto).
  assert (W : hwf (w_nodes w6)) by (unfold hwf; rewrite AN; apply I).
  assert (It : In (el_addr t) (map el_addr s)) by (eapply Permutation_in; [symmetry; exact PM|left; auto]).
  assert (PA : Permutation (addrs (w_nodes w6)) ((el_addr t :: map el_addr s') ++ all_nodes (hdel (a_lists a) l) ++ a_leak a)).
  { rewrite AN, (iv_perm _ _ _ I), app_assoc. apply Permutation_app_tail. rewrite <- PM. apply all_split; auto. }
  unfold pop_finish, node_release, reclaim_node. rewrite Hn, Hc. cbn [Z.eqb negb].
  unfold taking in T. destruct (ok (e_reclaim v (el_addr t))) eqn:OK.
  - inversion T; subst. change (ok STATUS_SUCCESS) with true. cbn [negb]. eexists. split; [reflexivity|].
    unfold put. rewrite RL, (iv_rel _ _ _ I). eapply inv_update; eauto.
    + apply hdel_wf; auto.
    + eapply lseg_frame; [|exact LS]. intros q K. apply hget_hdel_other; auto. intros ->; auto.
    + intros q K1 K2. rewrite hget_hdel_other; auto. intros ->; auto.
    + apply (Permutation_cons_inv (a := el_addr t)). rewrite <- (addrs_hdel _ _ _ _ Hn). exact PA.
  - rewrite OK. cbn [negb]. unfold release_child. destruct (el_child t =? 0); [discriminate|].
    inversion T; subst. eexists. split; [reflexivity|]. rewrite RL, (iv_rel _ _ _ I).
    eapply inv_update; eauto. rewrite PA. cbn [app]. rewrite app_assoc, Permutation_middle, <- app_assoc. reflexivity.
Qed.

Ltac killc := repeat match goal with |- context [match ?n with Some _ => _ | None => None end] => fail 1 | _ => idtac end.
Ltac exnode := eexists; split; [hs; repeat match goal with H : hget _ _ = Some _ |- _ => rewrite H end; hs; reflexivity|reflexivity].

Lemma pop_ok : forall dbl v w a l t s, Inv dbl w a -> hget (a_lists a) l = Some (t :: s) ->
  forall r x a', taking v a l t s = Some (r, x, a') ->
  exists w', (if dbl then list_pop v w l else slist_pop v w l) = Some (r, x, w') /\ Inv dbl w' a'.
Proof.
  intros dbl v w a l t s I H r x a' T.
  pose proof (inv_list _ _ _ _ _ I H) as (Q1 & Q2 & Q3 & Q4 & Q5 & Q6). unfold hd_of in Q1.
  cbn [lseg] in Q2. destruct Q2 as [Q2a Q2b].
  assert (Nt : el_addr t <> 0) by (apply Q4; left; auto).
  assert (Nt2 : ~ In (el_addr t) (map el_addr s)) by (inversion Q3; auto).
  unfold list_pop, slist_pop. rewrite Q1. cbn [h_head h_tail first]. rewrite (eqb_no _ _ Nt). cbn [negb].
  rewrite last_addr_cons in *.
  assert (TL : (el_addr t =? lastd s (el_addr t)) = match s with [] => true | _ => false end).
  { destruct s as [|n s]; [apply Z.eqb_refl|]. apply eqb_no. intros K. apply Nt2. rewrite K. apply lastd_in. discriminate. }
  rewrite TL. cbn [first] in Q1.
  assert (HP : Some (Hdr (first s) (match s with [] => 0 | _ => lastd s (el_addr t) end) (Z.of_nat (length (t :: s)) - 1)) = Some (hd_of s)).
  { unfold hd_of. apply hdr_eq; [auto| |cbn [length]; lia]. destruct s; [auto|]. rewrite last_addr_lastd. apply lastd_nonempty. discriminate. }
  destruct s as [|n s].
  - cbn [firstd] in *. destruct dbl.
    + sh. hs. rewrite Q2a. hs. sn. sh. cbn [Z.eqb negb]. sn. sn. sh.
      eapply (taking_update true v w a l [t] [] t); [exact I|exact H|reflexivity|adr|adr|reflexivity|..|exact T].
      * hdr_pt.
      * exnode.
      * exact Logic.I.
      * intros q K. assert (q <> el_addr t) by (intros ->; apply K; left; auto). hs. auto.
    + sh. hs. rewrite Q2a. hs. sn. sh. sn. sn. sh.
      eapply (taking_update false v w a l [t] [] t); [exact I|exact H|reflexivity|adr|adr|reflexivity|..|exact T].
      * hdr_pt.
      * exnode.
      * exact Logic.I.
      * intros q K. assert (q <> el_addr t) by (intros ->; apply K; left; auto). hs. auto.
  - cbn [firstd first] in *. assert (Nn : el_addr n <> 0) by (apply Q4; right; left; auto).
    assert (Ntn : el_addr t <> el_addr n) by (intros K; apply Nt2; left; auto).
    assert (Nt3 : ~ In (el_addr t) (map el_addr s)) by (intros K; apply Nt2; right; auto).
    assert (Nn2 : ~ In (el_addr n) (map el_addr s)) by (inversion Q3 as [|? ? ? Q3']; inversion Q3'; auto).
    cbn [lseg] in Q2b. destruct Q2b as [Q2b Q2c].
    destruct dbl.
    + hs. rewrite Q2a. hs. sn. sh. hs. cbn [negb]. sn. sn. sn. sh.
      eapply (taking_update true v w a l (t :: n :: s) (n :: s) t); [exact I|exact H|reflexivity|adr|adr|reflexivity|..|exact T].
      * hdr_pt.
      * exnode.
      * cbn [lseg]. split; [hs; rewrite Q2b; hs; auto|]. eapply lseg_frame; [|exact Q2c]. frame_in.
      * intros q K. assert (q <> el_addr t) by (intros ->; apply K; left; auto).
        assert (q <> el_addr n) by (intros ->; apply K; right; left; auto). hs. auto.
    + hs. rewrite Q2a. hs. sn. sh. sn. sn. sh.
      eapply (taking_update false v w a l (t :: n :: s) (n :: s) t); [exact I|exact H|reflexivity|adr|adr|reflexivity|..|exact T].
      * hdr_pt.
      * exnode.
      * cbn [lseg]. split; [hs; rewrite Q2b; hs; auto|]. eapply lseg_frame; [|exact Q2c]. frame_in.
      * intros q K. assert (q <> el_addr t) by (intros ->; apply K; left; auto). hs. auto.
Qed.

Lemma next_pop_ok : forall v w a q l y e t z, Inv false w a -> hget (a_lists a) l = Some (y ++ e :: t :: z) ->
  el_addr e = q -> el_parent e = l ->
  forall r x a', taking v a l t (y ++ e :: z) = Some (r, x, a') ->
  exists w', slist_node_next_pop v w q = Some (r, x, w') /\ Inv false w' a'.
Proof.
  intros v w a q l y e t z I H Eq Ep r x a' T. subst q l.
  pose proof (inv_list _ _ _ _ _ I H) as (Q1 & Q2 & Q3 & Q4 & Q5 & Q6). unfold hd_of in Q1.
  apply lseg_app in Q2 as [Q2a Q2b]. cbn [lseg firstd] in Q2a, Q2b. destruct Q2b as (Q2b & Q2c & Q2d).
  rewrite map_app in *. cbn [map] in *. pose proof (nd2 _ _ _ _ Q3) as (M1 & M2 & M3 & M4 & M5).
  assert (Nt : el_addr t <> 0) by (apply Q4; apply in_or_app; right; right; left; auto).
  unfold slist_node_next_pop. rewrite Q2b. hs. cbn [negb]. rewrite Q1. hs.
  rewrite last_addr_lastd, lastd_app_cons in *. 
  assert (LC : lastd (t :: z) (el_addr e) = lastd z (el_addr t)) by exact (lastd_app_cons [] t z (el_addr e)). rewrite LC in *.
  assert (TL : (el_addr t =? lastd z (el_addr t)) = match z with [] => true | _ => false end).
  { destruct z as [|n z]; [apply Z.eqb_refl|]. apply eqb_no. intros K. apply M5. rewrite K. apply lastd_in. discriminate. }
  rewrite TL.
  assert (HP : Some (Hdr (first (y ++ e :: t :: z)) (match z with [] => el_addr e | _ => lastd z (el_addr t) end) (Z.of_nat (length (y ++ e :: t :: z)) - 1)) = Some (hd_of (y ++ e :: z))).
  { unfold hd_of. apply hdr_eq; [destruct y; auto| |rewrite !app_length; cbn [length]; lia].
    rewrite last_addr_lastd, lastd_app_cons. destruct z; [auto|]. apply lastd_nonempty. discriminate. }
  assert (PM : Permutation (map el_addr (y ++ e :: t :: z)) (el_addr t :: map el_addr (y ++ e :: z))).
  { rewrite !map_app. cbn [map]. symmetry. apply perm_ins. }
  destruct z as [|n z].
  - sh. hs. rewrite Q2c. hs. sn. sn. sn. sn. sh.
    eapply (taking_update false v w); [exact I|exact H|exact PM|adr|adr|reflexivity|..|exact T].
    + hdr_pt.
    + exnode.
    + apply lseg_app. split; [eapply lseg_frame; [|exact Q2a]; frame_in|]. cbn [lseg firstd]. split; [|exact Logic.I].
      hs. rewrite Q2b. hs. auto.
    + intros q K. rewrite map_app in K. assert (q <> el_addr t) by (intros ->; apply K; apply in_or_app; right; right; left; auto).
      assert (q <> el_addr e) by (intros ->; apply K; apply in_or_app; right; left; auto). hs. auto.
  - hs. rewrite Q2c. hs. sn. sn. sn. sn. sh.
    eapply (taking_update false v w); [exact I|exact H|exact PM|adr|adr|reflexivity|..|exact T].
    + hdr_pt.
    + exnode.
    + apply lseg_app. split; [eapply lseg_frame; [|exact Q2a]; frame_in|]. cbn [lseg firstd] in *. destruct Q2d as [Q2d Q2e].
      cbn [map] in M4, M5.
      assert (el_addr n <> el_addr t) by (intros K; apply M5; left; auto).
      assert (el_addr n <> el_addr e) by (intros K; apply M4; left; auto).
      split; [hs; rewrite Q2b; hs; auto|]. split; [hs; rewrite Q2d; auto|].
      assert (~ In (el_addr e) (map el_addr z)) by (intros K; apply M4; right; auto).
      assert (~ In (el_addr t) (map el_addr z)) by (intros K; apply M5; right; auto).
      eapply lseg_frame; [|exact Q2e]. frame_in.
    + intros q K. rewrite map_app in K. assert (q <> el_addr t) by (intros ->; apply K; apply in_or_app; right; right; left; auto).
      assert (q <> el_addr e) by (intros ->; apply K; apply in_or_app; right; left; auto). hs. auto.
Qed.

(** ** Clearing *)
Lemma clearing_ok : forall v s st r k rest, clearing v s = (st, r, k, rest) -> ok st = true ->
  st = STATUS_SUCCESS /\ k = [] /\ rest = [].
Proof.
  induction s as [|e t IH]; cbn; intros st r k rest E O; [inversion E; auto|].
  destruct (negb (el_child e =? 0) && negb (ok (e_child v (el_child e)))) eqn:B1.
  - inversion E; subst. rewrite O in B1. rewrite andb_false_r in B1. discriminate.
  - destruct (ok (e_reclaim v (el_addr e))) eqn:B2; cbn [negb] in E.
    + destruct (clearing v t) as [[[st' r'] k'] rest']. inversion E; subst. eapply IH; eauto.
    + inversion E; subst. congruence.
Qed.
Lemma clearing_suffix : forall v s st r k rest, clearing v s = (st, r, k, rest) -> exists pre, s = pre ++ rest.
Proof.
  induction s as [|e t IH]; cbn; intros st r k rest E; [inversion E; exists []; auto|].
  destruct (negb (el_child e =? 0) && negb (ok (e_child v (el_child e)))).
  - inversion E; subst. exists [e]; auto.
  - destruct (negb (ok (e_reclaim v (el_addr e)))).
    + inversion E; subst. exists [e]; auto.
    + destruct (clearing v t) as [[[st' r'] k'] rest'] eqn:C. inversion E; subst.
      destruct (IH _ _ _ _ eq_refl) as [pre ->]. exists (e :: pre). auto.
Qed.
Lemma lseg_prev : forall ns s p p' f, lseg false ns p s f -> lseg false ns p' s f.
Proof. intros ns s p p' f. destruct s; cbn; auto. Qed.
Lemma hdel_hset_addrs : forall A (h : heap A) p v, addrs (hdel (hset h p v) p) = addrs (hdel h p).
Proof. intros. rewrite hdel_hset. auto. Qed.

Lemma hdel_addrs_eq : forall A (h h' : heap A) p, addrs h = addrs h' -> addrs (hdel h p) = addrs (hdel h' p).
Proof.
  induction h as [|[q c] t IH]; intros [|[q' c'] t'] p E; cbn in *; try discriminate; auto.
  inversion E; subst. destruct (p =? q'); cbn; auto. f_equal. apply IH. auto.
Qed.
Lemma node_release_spec : forall v w p n, hwf (w_nodes w) -> hget (w_nodes w) p = Some n ->
  let c := n_child n in
  let cs := if c =? 0 then [] else [c] in
  exists st w', node_release v w p = Some (st, w') /\
    w_hdrs w' = w_hdrs w /\ w_rel w' = w_rel w ++ cs /\ hwf (w_nodes w') /\
    (forall q, q <> p -> hget (w_nodes w') q = hget (w_nodes w) q) /\
    if negb (c =? 0) && negb (ok (e_child v c)) then st = e_child v c /\ addrs (w_nodes w') = addrs (w_nodes w)
    else if negb (ok (e_reclaim v p)) then st = e_reclaim v p /\ addrs (w_nodes w') = addrs (w_nodes w)
    else st = STATUS_SUCCESS /\ addrs (w_nodes w') = addrs (hdel (w_nodes w) p).
Proof.
  intros v w p n W H c cs. unfold node_release, release_child, reclaim_node. rewrite H. fold c. subst cs.
  destruct (c =? 0) eqn:Ec; cbn [negb andb].
  - destruct (ok (e_reclaim v p)); cbn [negb]; eexists; eexists; (split; [reflexivity|]).
    + cbn [w_nodes w_hdrs w_rel]. split; [auto|]. split; [rewrite app_nil_r; auto|]. split; [apply hdel_wf; auto|].
      split; [intros; apply hget_hdel_other; auto|auto].
    + split; [auto|]. split; [rewrite app_nil_r; auto|]. auto.
  - erewrite setn_some by eauto.  cbn [w_nodes w_hdrs w_rel].
    destruct (ok (e_child v c)); cbn [negb].
    + rewrite hget_hset, Z.eqb_refl, H. destruct (ok (e_reclaim v p)); cbn [negb]; eexists; eexists; (split; [reflexivity|]); cbn [w_nodes w_hdrs w_rel].
      * split; [auto|]. split; [auto|]. split; [apply hdel_wf, hset_wf; auto|].
        split; [intros; rewrite hget_hdel_other, hget_hset_other; auto; apply hset_wf; auto|].
        split; [auto|]. rewrite hdel_hset. auto.
      * split; [auto|]. split; [auto|]. split; [apply hset_wf; auto|].
        split; [intros; rewrite hget_hset_other; auto|]. rewrite hset_addrs. auto.
    + eexists; eexists; (split; [reflexivity|]); cbn [w_nodes w_hdrs w_rel].
      split; [auto|]. split; [auto|]. split; [apply hset_wf; auto|].
      split; [intros; rewrite hget_hset_other; auto|]. rewrite hset_addrs. auto.
Qed.

Lemma clear_loop_ok : forall dbl v l s fuel w T prev X,
  (length s < fuel)%nat ->
  hget (w_hdrs w) l = Some (Hdr (first s) T (Z.of_nat (length s))) ->
  hwf (w_nodes w) -> lseg dbl (w_nodes w) prev s 0 -> NoDup (map el_addr s) ->
  Permutation (addrs (w_nodes w)) (map el_addr s ++ X) ->
  forall st r k rest, clearing v s = (st, r, k, rest) ->
  exists w' prev', clear_loop fuel dbl v w l = Some (st, w') /\ w_rel w' = w_rel w ++ r /\
    addrs (w_hdrs w') = addrs (w_hdrs w) /\
    (forall x, hget (w_hdrs w') x = if x =? l then Some (Hdr (first rest) T (Z.of_nat (length rest))) else hget (w_hdrs w) x) /\
    hwf (w_nodes w') /\ lseg dbl (w_nodes w') prev' rest 0 /\
    (forall q, ~ In q (map el_addr s) -> hget (w_nodes w') q = hget (w_nodes w) q) /\
    Permutation (addrs (w_nodes w')) (map el_addr rest ++ k ++ X).
Proof.
  intros dbl v l. induction s as [|e t IH]; intros fuel w T prev X FU Hh W LS ND PM st r k rest C.
  - destruct fuel as [|f]; [lia|]. cbn in C. inversion C; subst. cbn [clear_loop]. rewrite Hh. cbn [h_head first Z.eqb].
    exists w, prev. split; [auto|]. split; [rewrite app_nil_r; auto|]. split; [auto|]. split.
    { intros x. destruct (Z.eqb_spec x l) as [->|]; auto. }
    split; [auto|]. split; [auto|]. split; [auto|]. exact PM.
  - destruct fuel as [|f]; [cbn in FU; lia|]. cbn [clear_loop]. rewrite Hh. cbn [h_head first].
    cbn [lseg] in LS. destruct LS as [L1 L2].
    assert (N0 : el_addr e <> 0) by (eapply hget_nonnull; eauto). rewrite (eqb_no _ _ N0). rewrite L1. cbn [n_next].
    inversion ND as [|? ? N1 ND']; subst.
    assert (STEP : forall w5 n5, n_child n5 = el_child e ->
      hget (w_nodes w5) (el_addr e) = Some n5 -> addrs (w_nodes w5) = addrs (w_nodes w) ->
      (forall q, q <> el_addr e -> hget (w_nodes w5) q = hget (w_nodes w) q) -> w_rel w5 = w_rel w ->
      addrs (w_hdrs w5) = addrs (w_hdrs w) ->
      (forall x, hget (w_hdrs w5) x = if x =? l then Some (Hdr (first t) T (Z.of_nat (length t))) else hget (w_hdrs w) x) ->
      exists w' prev', (do '(e, w6) <- node_release v w5 (el_addr e); if negb (ok e) then Some (e, w6) else clear_loop f dbl v w6 l) = Some (st, w') /\ w_rel w' = w_rel w ++ r /\
        addrs (w_hdrs w') = addrs (w_hdrs w) /\
        (forall x, hget (w_hdrs w') x = if x =? l then Some (Hdr (first rest) T (Z.of_nat (length rest))) else hget (w_hdrs w) x) /\
        hwf (w_nodes w') /\ lseg dbl (w_nodes w') prev' rest 0 /\
        (forall q, ~ In q (map el_addr (e :: t)) -> hget (w_nodes w') q = hget (w_nodes w) q) /\
        Permutation (addrs (w_nodes w')) (map el_addr rest ++ k ++ X)).
    { intros w5 n5 Ec G5 A5 F5 R5 AH5 H5.
      assert (W5 : hwf (w_nodes w5)) by (unfold hwf; rewrite A5; exact W).
      destruct (node_release_spec v w5 (el_addr e) n5 W5 G5) as (st1 & w6 & E6 & S1 & S2 & S3 & S4 & S5).
      rewrite E6. rewrite Ec in *. cbn [clearing] in C.
      assert (FRt : forall q, In q (map el_addr t) -> hget (w_nodes w6) q = hget (w_nodes w) q).
      { intros q K. rewrite S4, F5; auto; intros ->; auto. }
      assert (FRq : forall q, ~ In q (map el_addr (e :: t)) -> hget (w_nodes w6) q = hget (w_nodes w) q).
      { intros q K. cbn in K. rewrite S4, F5; auto. }
      assert (FAIL : forall c0, (st1, c0, [el_addr e], t) = (st, r, k, rest) -> c0 = (if el_child e =? 0 then [] else [el_child e]) ->
         ok st1 = false -> addrs (w_nodes w6) = addrs (w_nodes w5) ->
         exists w' prev', (if negb (ok st1) then Some (st1, w6) else clear_loop f dbl v w6 l) = Some (st, w') /\ w_rel w' = w_rel w ++ r /\
        addrs (w_hdrs w') = addrs (w_hdrs w) /\
        (forall x, hget (w_hdrs w') x = if x =? l then Some (Hdr (first rest) T (Z.of_nat (length rest))) else hget (w_hdrs w) x) /\
        hwf (w_nodes w') /\ lseg dbl (w_nodes w') prev' rest 0 /\
        (forall q, ~ In q (map el_addr (e :: t)) -> hget (w_nodes w') q = hget (w_nodes w) q) /\
        Permutation (addrs (w_nodes w')) (map el_addr rest ++ k ++ X)).
      { intros c0 EE Ec0 O AA. inversion EE; subst. rewrite O. cbn [negb]. exists w6, (el_addr e).
        split; [auto|]. split; [rewrite S2, R5; auto|]. split; [rewrite S1; auto|]. split; [intros; rewrite S1; auto|].
        split; [auto|]. split; [eapply lseg_frame; [|exact L2]; auto|]. split; [auto|].
        rewrite AA, A5, PM. cbn [map app]. apply Permutation_middle. }
      destruct (negb (el_child e =? 0) && negb (ok (e_child v (el_child e)))) eqn:B1.
      - destruct S5 as [-> S5]. apply andb_true_iff in B1 as [_ B1]. apply negb_true_iff in B1. eapply FAIL; eauto.
      - destruct (ok (e_reclaim v (el_addr e))) eqn:B2; cbn [negb] in *.
        + destruct S5 as [-> S5]. change (ok STATUS_SUCCESS) with true. cbn [negb].
          destruct (clearing v t) as [[[st' r'] k'] rest'] eqn:C'. inversion C; subst.
          destruct (IH f w6 T (el_addr e) X ltac:(cbn in FU; lia)) with (st := st) (r := r') (k := k) (rest := rest) as (w' & prev' & D1 & D2 & D3 & D4 & D5 & D6 & D7 & D8); auto.
          * rewrite S1, H5, Z.eqb_refl. auto.
          * eapply lseg_frame; [|exact L2]; auto.
          * apply (Permutation_cons_inv (a := el_addr e)). rewrite S5, <- (addrs_hdel _ _ _ _ G5), A5. exact PM.
          * exists w', prev'. split; [auto|]. split; [rewrite D2, S2, R5, app_assoc; auto|]. split; [rewrite D3, S1; auto|].
            split; [intros x; rewrite D4, S1, H5; destruct (x =? l); auto|]. split; [auto|]. split; [auto|]. split; [|auto].
            intros q K. rewrite D7 by (intro; apply K; right; auto). auto.
        + destruct S5 as [-> S5]. eapply FAIL; eauto. }
    sh. sh. sn. sn. destruct dbl.
    + sn. eapply STEP; [| |adr| |adr|adr|]; cbn [w_nodes w_hdrs w_rel].
      2:{ hs. rewrite L1. hs. reflexivity. }
      * reflexivity.
      * intros q K. hs. auto.
      * intros x. hs. destruct (Z.eqb_spec x l) as [->|Nx]; hs; auto. rewrite Hh. cbn [to_head to_count h_head h_tail h_count].
        apply hdr_eq; auto. cbn [length]; lia.
    + eapply STEP; [| |adr| |adr|adr|]; cbn [w_nodes w_hdrs w_rel].
      2:{ hs. rewrite L1. hs. reflexivity. }
      * reflexivity.
      * intros q K. hs. auto.
      * intros x. hs. destruct (Z.eqb_spec x l) as [->|Nx]; hs; auto. rewrite Hh. cbn [to_head to_count h_head h_tail h_count].
        apply hdr_eq; auto. cbn [length]; lia.
Qed.

(** The whole of clear, in any case. *)
Lemma clear_any : forall dbl v w a l s, Inv dbl w a -> hget (a_lists a) l = Some s ->
  forall st r k rest, clearing v s = (st, r, k, rest) ->
  exists w' prev', clear dbl v w l = Some (st, w') /\ w_rel w' = w_rel w ++ r /\
    addrs (w_hdrs w') = addrs (w_hdrs w) /\
    (forall x, hget (w_hdrs w') x = if x =? l then Some (Hdr (first rest) (if ok st then 0 else last_addr s) (Z.of_nat (length rest))) else hget (w_hdrs w) x) /\
    hwf (w_nodes w') /\ lseg dbl (w_nodes w') prev' rest 0 /\
    (forall q, ~ In q (map el_addr s) -> hget (w_nodes w') q = hget (w_nodes w) q) /\
    Permutation (addrs (w_nodes w')) (map el_addr rest ++ k ++ all_nodes (hdel (a_lists a) l) ++ a_leak a).
Proof.
  intros dbl v w a l s I H st r k rest C.
  pose proof (inv_list _ _ _ _ _ I H) as (Q1 & Q2 & Q3 & Q4 & Q5 & Q6). unfold hd_of in Q1.
  assert (LEN : (length s < S (length (w_nodes w)))%nat).
  { rewrite <- (map_length el_addr s), <- (map_length fst (w_nodes w)). apply Nat.lt_succ_r. apply NoDup_incl_length; auto.
    intros q K. destruct (Q6 q K). eapply hget_in; eauto. }
  assert (PM : Permutation (addrs (w_nodes w)) (map el_addr s ++ all_nodes (hdel (a_lists a) l) ++ a_leak a)).
  { rewrite (iv_perm _ _ _ I), app_assoc. apply Permutation_app_tail. apply all_split; auto. }
  destruct (clear_loop_ok dbl v l s _ w _ 0 _ LEN Q1 (iv_nodes _ _ _ I) Q2 Q3 PM _ _ _ _ C)
    as (w1 & prev' & D1 & D2 & D3 & D4 & D5 & D6 & D7 & D8).
  unfold clear. rewrite D1. destruct (ok st) eqn:O; cbn [negb].
  - destruct (clearing_ok _ _ _ _ _ _ C O) as (-> & -> & ->).
    assert (Hl : hget (w_hdrs w1) l = Some (Hdr 0 (last_addr s) 0)) by (rewrite D4, Z.eqb_refl; auto).
    erewrite seth_some by eauto. erewrite seth_some by (hs; rewrite Hl; reflexivity).
    eexists. exists prev'. split; [reflexivity|]. cbn [w_nodes w_hdrs w_rel].
    split; [auto|]. split; [rewrite !hset_addrs; auto|]. split; [|split; [auto|]; split; [auto|]; split; auto].
    intros x. destruct (Z.eqb_spec x l) as [->|Nx]; hs; [rewrite Hl; reflexivity|]. rewrite D4. hs. auto.
  - exists w1, prev'. auto 10.
Qed.

Lemma clear_ok : forall dbl v w a l s, Inv dbl w a -> hget (a_lists a) l = Some s ->
  forall st r k rest, clearing v s = (st, r, k, rest) ->
  ok st || (negb dbl && negb (first rest =? 0)) = true ->
  exists w', clear dbl v w l = Some (st, w') /\ Inv dbl w' (AState (hset (a_lists a) l rest) (k ++ a_leak a) (a_rel a ++ r)).
Proof.
  intros dbl v w a l s I H st r k rest C B.
  destruct (clear_any _ _ _ _ _ _ I H _ _ _ _ C) as (w' & prev' & D1 & D2 & D3 & D4 & D5 & D6 & D7 & D8).
  exists w'. split; [auto|]. rewrite <- (iv_rel _ _ _ I), <- D2. destruct w' as [ns' hs' rl']. cbn [w_nodes w_hdrs w_rel] in *.
  assert (HD : Hdr (first rest) (if ok st then 0 else last_addr s) (Z.of_nat (length rest)) = hd_of rest /\ lseg dbl ns' 0 rest 0).
  { destruct (ok st) eqn:O.
    - destruct (clearing_ok _ _ _ _ _ _ C O) as (-> & -> & ->). split; [reflexivity|exact Logic.I].
    - cbn [orb] in B. apply andb_true_iff in B as [B1 B2]. destruct dbl; [discriminate|].
      split; [|eapply lseg_prev; eauto]. unfold hd_of. f_equal. destruct (clearing_suffix _ _ _ _ _ _ C) as [pre ->].
      destruct rest as [|n rest]; [discriminate|]. rewrite last_addr_lastd, lastd_app_cons, last_addr_cons. auto. }
  destruct HD as [HD LS]. rewrite HD in D4.
  eapply inv_update; eauto.
  rewrite D8. apply Permutation_app_head. rewrite app_assoc, (Permutation_app_comm k), <- app_assoc. reflexivity.
Qed.

Lemma hdel_addrs_same : forall A B (h : heap A) (g : heap B) p, addrs h = addrs g -> addrs (hdel h p) = addrs (hdel g p).
Proof.
  induction h as [|[q c] t IH]; intros [|[q' c'] t'] p E; cbn in *; try discriminate; auto.
  inversion E; subst. destruct (p =? q'); cbn; auto. f_equal. apply IH. auto.
Qed.
Lemma release_ok : forall dbl v w a l s, Inv dbl w a -> hget (a_lists a) l = Some s ->
  forall e x a', astep dbl v a (ORelease l) = Some (e, x, a') ->
  exists w', release dbl v w l = Some (e, w') /\ x = 0 /\ Inv dbl w' a'.
Proof.
  intros dbl v w a l s I H e x a' A. cbn in A. rewrite H in A. unfold release.
  destruct (clearing v s) as [[[st r] k] rest] eqn:C.
  destruct (ok st) eqn:O.
  - destruct (clearing_ok _ _ _ _ _ _ C O) as (-> & -> & ->).
    destruct (clear_ok _ _ _ _ _ _ I H _ _ _ _ C ltac:(rewrite O; auto)) as (w' & D1 & D2).
    rewrite D1. cbn [app] in D2. rewrite O. cbn [negb].
    assert (Hl : hget (hset (a_lists a) l []) l = Some []) by (eapply hget_hset_same; eauto).
    destruct (iv_lists _ _ _ D2 l [] Hl) as [E1 _]. rewrite E1.
    inversion A; subst; clear A. destruct (ok (e_reclaimh v l)) eqn:O2.
    + apply ok_true in O2. rewrite O2. eexists. split; [reflexivity|]. split; [auto|].
      pose proof (inv_hwf _ _ _ D2) as HW. pose proof D2 as [V1 V2 V3 V4 V5 V6]. cbn [a_lists a_leak a_rel] in *.
      split; cbn [w_nodes w_hdrs w_rel a_lists a_leak a_rel].
      * auto.
      * apply hdel_wf; auto.
      * rewrite (hdel_addrs_same _ _ _ _ l V3), hdel_hset. auto.
      * intros y s' G. assert (Ny : y <> l).
        { intros ->. assert (hget (hdel (hset (a_lists a) l []) l) l = None) by (apply hget_hdel_same; auto). rewrite hdel_hset in H0. congruence. }
        rewrite hget_hdel_other by auto. apply V4. rewrite hget_hset_other by auto. rewrite hdel_keeps in G; auto.
      * rewrite V5. apply Permutation_app_tail. etransitivity; [eapply all_hset; eauto|]. reflexivity.
      * auto.
    + eexists. split; [reflexivity|]. split; [auto|]. exact D2.
  - unfold only in A. destruct (negb dbl && negb (first rest =? 0)) eqn:B; [|discriminate]. inversion A; subst.
    destruct (clear_ok _ _ _ _ _ _ I H _ _ _ _ C ltac:(rewrite O; auto)) as (w' & D1 & D2).
    rewrite D1, O. cbn [negb]. eauto.
Qed.

(** ** The other operations *)
Lemma swap_ok : forall dbl w a l r s t, Inv dbl w a -> hget (a_lists a) l = Some s -> hget (a_lists a) r = Some t -> l <> r ->
  exists w', list_swap w l r = Some w' /\ Inv dbl w' (put (put a l t) r s).
Proof.
  intros dbl w a l r s t I Hl Hr N. pose proof I as [V1 V2 V3 V4 V5 V6].
  destruct (V4 _ _ Hl) as [L1 L2]. destruct (V4 _ _ Hr) as [R1 R2].
  unfold list_swap. rewrite L1, R1. sh. sh. eexists. split; [reflexivity|].
  split; cbn [w_nodes w_hdrs w_rel put a_lists a_leak a_rel].
  - auto.
  - apply hset_wf, hset_wf; auto.
  - rewrite !hset_addrs. auto.
  - intros x u G. rewrite !hget_hset in *. rewrite Hl, Hr in G. rewrite L1, R1.
    destruct (Z.eqb_spec x r) as [->|Nx].
    + rewrite (eqb_no r l) in * by auto. inversion G; subst. auto.
    + destruct (Z.eqb_spec x l) as [->|Nl].
      * inversion G; subst. auto.
      * auto.
  - rewrite V5. apply Permutation_app_tail.
    assert (Hr' : hget (hset (a_lists a) l t) r = Some t) by (rewrite hget_hset_other by auto; auto).
    rewrite (all_hset _ r t s Hr').
    rewrite (all_split _ l s Hl). apply Permutation_app_head.
    assert (P1 : Permutation (all_nodes (hset (a_lists a) l t)) (map el_addr t ++ all_nodes (hdel (a_lists a) l))) by (eapply all_hset; eauto).
    rewrite (all_split _ r t Hr') in P1. apply Permutation_app_inv_l in P1. symmetry; auto.
  - auto.
Qed.

Lemma child_swap_ok : forall dbl w a q c l y e z, Inv dbl w a -> locate q (a_lists a) = Some (l, (y, e, z)) ->
  exists w', node_child_swap w q c = Some (el_child e, w') /\ Inv dbl w' (put a l (y ++ El (el_addr e) (el_parent e) c :: z)).
Proof.
  intros dbl w a q c l y e z I E. destruct (inv_node _ _ _ _ _ _ _ _ I E) as (G & Eq & N). subst q.
  pose proof (inv_list _ _ _ _ _ I G) as (Q1 & Q2 & Q3 & Q4 & Q5 & Q6).
  apply lseg_app in Q2 as [Q2a Q2b]. cbn [lseg firstd] in Q2a, Q2b. destruct Q2b as (Q2b & Q2c).
  rewrite map_app in *. cbn [map] in *. pose proof (nd_split _ _ _ Q3) as [M1 M2].
  unfold node_child_swap. rewrite N. sn. cbn [n_child]. eexists. split; [reflexivity|].
  unfold put. rewrite (iv_rel _ _ _ I).
  assert (MA : map el_addr (y ++ El (el_addr e) (el_parent e) c :: z) = map el_addr (y ++ e :: z)) by (rewrite !map_app; auto).
  assert (HD : hd_of (y ++ El (el_addr e) (el_parent e) c :: z) = hd_of (y ++ e :: z)).
  { unfold hd_of, last_addr. rewrite MA, !app_length. cbn [length]. f_equal. destruct y; auto. }
  eapply inv_update; eauto.
  - apply hset_wf, (iv_nodes _ _ _ I).
  - intros x. rewrite HD. destruct (Z.eqb_spec x l) as [->|]; auto.
  - apply lseg_app. split; [eapply lseg_frame; [|exact Q2a]; frame_in|]. cbn [lseg el_addr el_parent el_child].
    split; [hs; rewrite N; hs; auto|]. eapply lseg_frame; [|exact Q2c]; frame_in.
  - intros x K1 K2. rewrite map_app in K1. assert (x <> el_addr e) by (intros ->; apply K1; apply in_or_app; right; left; auto). hs. auto.
  - rewrite hset_addrs, MA, (iv_perm _ _ _ I), app_assoc. apply Permutation_app_tail. apply all_split. auto.
Qed.

Lemma create_ok : forall dbl v w a, Inv dbl w a -> forall e x a', astep dbl v a OCreate = Some (e, x, a') ->
  exists w', exec dbl v w OCreate = Some (e, x, w') /\ Inv dbl w' a'.
Proof.
  intros dbl v w a I e x a' A. cbn in A. cbn [exec]. unfold list_create.
  destruct (ok (e_alloc v)) eqn:O; cbn [negb] in *; [|inversion A; subst; eauto].
  destruct (_ || _) eqn:F; [discriminate|]. inversion A; subst; clear A. eexists. split; [reflexivity|].
  apply orb_false_iff in F as [F1 F2]. apply Z.eqb_neq in F1.
  assert (NI : ~ In (e_newh v) (addrs (a_lists a))).
  { intro K. assert (X : existsb (Z.eqb (e_newh v)) (addrs (a_lists a)) = true) by (apply existsb_exists; exists (e_newh v); split; [auto|apply Z.eqb_refl]). congruence. }
  pose proof I as [V1 V2 V3 V4 V5 V6].
  split; cbn [w_nodes w_hdrs w_rel a_lists a_leak a_rel].
  - auto.
  - apply hadd_wf; auto. apply hget_none. rewrite V3. auto.
  - cbn. f_equal. exact V3.
  - intros l s G. rewrite hget_hadd in G. rewrite hget_hadd. destruct (l =? e_newh v); [inversion G; subst; split; [reflexivity|exact Logic.I]|auto].
  - cbn. auto.
  - auto.
Qed.

(** Every operation is its abstract counterpart. *)
Theorem step_refines : forall dbl v w a o e x a', Inv dbl w a -> astep dbl v a o = Some (e, x, a') ->
  exists w', exec dbl v w o = Some (e, x, w') /\ Inv dbl w' a'.
Proof.
  intros dbl v w a o e x a' I A. destruct o; try (eapply create_ok; eauto; fail); cbn [astep] in A; cbn [exec].
  - destruct (hget (a_lists a) l) as [s|] eqn:H; [|discriminate].
    destruct (insert_head_ok _ v _ _ _ c _ I H _ _ _ A) as (w' & E & -> & I'). exists w'. unfold sts. destruct dbl; rewrite E; auto.
  - destruct (hget (a_lists a) l) as [s|] eqn:H; [|discriminate].
    destruct (append_tail_ok _ v _ _ _ c _ I H _ _ _ A) as (w' & E & -> & I'). exists w'. unfold sts. destruct dbl; rewrite E; auto.
  - destruct (locate q (a_lists a)) as [[l [[y n] z]]|] eqn:H; [|discriminate]. unfold only in A.
    destruct (Z.eqb_spec (el_parent n) l) as [P|]; [|discriminate]. destruct (inv_node _ _ _ _ _ _ _ _ I H) as (G & Eq & _).
    destruct (append_ok _ v _ _ _ _ _ _ _ c I G Eq P _ _ _ A) as (w' & E & -> & I'). exists w'. unfold sts. destruct dbl; rewrite E; auto.
  - destruct (locate q (a_lists a)) as [[l [[y n] z]]|] eqn:H; [|discriminate]. unfold only in *.
    destruct dbl; [cbn [andb] in A|discriminate].
    destruct (Z.eqb_spec (el_parent (last y n)) l) as [P|]; [|discriminate].
    destruct (insert_ok v _ _ _ _ _ _ _ c I H P _ _ _ A) as (w' & E & -> & I'). exists w'. unfold sts. rewrite E; auto.
  - destruct (hget (a_lists a) l) as [[|t s]|] eqn:H; [| |discriminate].
    + inversion A; subst. exists w. destruct (iv_lists _ _ _ I _ _ H) as [E _].
      destruct dbl; unfold list_pop, slist_pop; rewrite E; auto.
    + eapply pop_ok; eauto.
  - destruct (locate q (a_lists a)) as [[l [[y n] z]]|] eqn:H; [|discriminate]. unfold only in *.
    destruct (inv_node _ _ _ _ _ _ _ _ I H) as (G & Eq & N).
    destruct z as [|m z].
    + destruct dbl; [discriminate|]. cbn [negb] in *. inversion A; subst. exists w. split; [|auto].
      unfold slist_node_next_pop. rewrite N. reflexivity.
    + destruct dbl; [discriminate|]. cbn [negb andb] in *. destruct (Z.eqb_spec (el_parent n) l) as [P|]; [|discriminate].
      eapply next_pop_ok; eauto.
  - destruct (hget (a_lists a) l) as [s|] eqn:H; [|discriminate]. destruct (clearing v s) as [[[st r] k] rest] eqn:C.
    unfold only in A. destruct (ok st || _) eqn:B; [|discriminate]. inversion A; subst.
    destruct (clear_ok _ _ _ _ _ _ I H _ _ _ _ C B) as (w' & E & I'). exists w'. unfold sts, list_clear, slist_clear.
    destruct dbl; rewrite E; auto.
  - destruct (hget (a_lists a) l) as [s|] eqn:H; [|discriminate].
    destruct (release_ok dbl v w a l s I H e x a') as (w' & E & -> & I').
    { cbn [astep]. rewrite H. exact A. }
    exists w'. unfold sts, list_release, slist_release. destruct dbl; rewrite E; auto.
  - destruct (hget (a_lists a) l) as [s|] eqn:H; [|discriminate]. destruct (hget (a_lists a) r) as [t|] eqn:H2; [|discriminate].
    unfold only in A. destruct (Z.eqb_spec l r) as [|N]; [discriminate|]. cbn [negb] in A. inversion A; subst.
    destruct (swap_ok _ _ _ _ _ _ _ I H H2 N) as (w' & E & I'). exists w'. rewrite E. auto.
  - destruct (locate q (a_lists a)) as [[l [[y n] z]]|] eqn:H; [|discriminate]. inversion A; subst.
    destruct (child_swap_ok _ _ _ _ c _ _ _ _ I H) as (w' & E & I'). exists w'. rewrite E. auto.
  - destruct (hget (a_lists a) l) as [s|] eqn:H; [|discriminate]. inversion A; subst. exists w. split; [|auto].
    destruct (iv_lists _ _ _ I _ _ H) as [E _]. unfold qry, list_head. rewrite E. auto.
  - destruct (hget (a_lists a) l) as [s|] eqn:H; [|discriminate]. inversion A; subst. exists w. split; [|auto].
    destruct (iv_lists _ _ _ I _ _ H) as [E _]. unfold qry, list_tail. rewrite E. auto.
  - destruct (hget (a_lists a) l) as [s|] eqn:H; [|discriminate]. inversion A; subst. exists w. split; [|auto].
    destruct (iv_lists _ _ _ I _ _ H) as [E _]. unfold qry, list_count. rewrite E. auto.
  - destruct (locate q (a_lists a)) as [[l [[y n] z]]|] eqn:H; [|discriminate]. inversion A; subst. exists w. split; [|auto].
    destruct (inv_node _ _ _ _ _ _ _ _ I H) as (G & Eq & N). unfold qry, node_next. rewrite N. auto.
  - destruct (locate q (a_lists a)) as [[l [[y n] z]]|] eqn:H; [|discriminate]. unfold only in *. destruct dbl; [|discriminate].
    inversion A; subst. exists w. split; [|auto].
    destruct (inv_node _ _ _ _ _ _ _ _ I H) as (G & Eq & N). unfold qry, node_prev. rewrite N. auto.
  - destruct (locate q (a_lists a)) as [[l [[y n] z]]|] eqn:H; [|discriminate]. inversion A; subst. exists w. split; [|auto].
    destruct (inv_node _ _ _ _ _ _ _ _ I H) as (G & Eq & N). unfold qry, node_child. rewrite N. auto.
Qed.

Theorem steps_refine : forall dbl h w a outs a', Inv dbl w a -> asteps dbl a h = Some (outs, a') ->
  exists w', execs dbl w h = Some (outs, w') /\ Inv dbl w' a'.
Proof.
  induction h as [|[v o] t IH]; cbn [asteps execs]; intros w a outs a' I A; [inversion A; subst; eauto|].
  destruct (astep dbl v a o) as [[[e x] a1]|] eqn:E; [|discriminate].
  destruct (asteps dbl a1 t) as [[os a2]|] eqn:E2; [|discriminate]. inversion A; subst.
  destruct (step_refines _ _ _ _ _ _ _ _ I E) as (w1 & X1 & I1). rewrite X1.
  destruct (IH _ _ _ _ I1 E2) as (w2 & X2 & I2). rewrite X2. eauto.
Qed.

Lemma inv0 : forall dbl, Inv dbl world0 astate0.
Proof. intros. split; cbn; auto; try (split; [constructor|auto]); intros; discriminate. Qed.

(** ** Walking *)
Lemma walk_fwd : forall dbl w s p, lseg dbl (w_nodes w) p s 0 -> hwf (w_nodes w) ->
  walk (length s) node_next w (first s) = Some (map el_child s).
Proof.
  induction s as [|e t IH]; cbn [lseg]; intros p L W; [reflexivity|]. destruct L as [L1 L2].
  cbn [walk length first map]. rewrite (eqb_no (el_addr e) 0) by (eapply hget_nonnull; eauto).
  assert (E1 : node_child w (el_addr e) = Some (el_child e)) by (unfold node_child; rewrite L1; auto).
  assert (E2 : node_next w (el_addr e) = Some (firstd t 0)) by (unfold node_next; rewrite L1; auto).
  rewrite E1, E2. change (firstd t 0) with (first t). erewrite IH by eauto. reflexivity.
Qed.
Lemma walk_bwd : forall w s, lseg true (w_nodes w) 0 s 0 -> hwf (w_nodes w) ->
  walk (length s) node_prev w (last_addr s) = Some (rev (map el_child s)).
Proof.
  intros w s L W. assert (G : forall s fol, lseg true (w_nodes w) 0 s fol -> walk (length s) node_prev w (last_addr s) = Some (rev (map el_child s))); [|eauto].
  clear s L. induction s as [|e s IH] using rev_ind; intros fol L; [reflexivity|].
  apply lseg_app in L as [L1 [L2 _]]. rewrite app_length. cbn [length]. rewrite Nat.add_1_r. cbn [walk].
  rewrite last_addr_lastd, lastd_snoc. rewrite (eqb_no (el_addr e) 0) by (eapply hget_nonnull; eauto).
  assert (E1 : node_child w (el_addr e) = Some (el_child e)) by (unfold node_child; rewrite L2; auto).
  assert (E2 : node_prev w (el_addr e) = Some (lastd s 0)) by (unfold node_prev; rewrite L2; auto).
  rewrite E1, E2. change (lastd s 0) with (last_addr s). erewrite IH by eauto. rewrite map_app, rev_app_distr. reflexivity.
Qed.

(** ** Queues *)
Lemma fresh_pick : forall w a dbl pick, Inv dbl w a -> good_pick pick ->
  (pick (addrs (w_nodes w)) =? 0) || existsb (Z.eqb (pick (addrs (w_nodes w)))) (all_nodes (a_lists a) ++ a_leak a) = false.
Proof.
  intros w a dbl pick I G. destruct (G (addrs (w_nodes w))) as [G1 G2]. apply orb_false_iff. split; [apply eqb_no; auto|].
  apply not_true_is_false. intros K. apply existsb_exists in K as (x & K1 & K2). apply Z.eqb_eq in K2. subst x.
  apply G2. eapply Permutation_in; [symmetry; apply (iv_perm _ _ _ I)|auto].
Qed.
Lemma queue_step : forall pick qs w a q l s v o, good_pick pick -> hget qs q = Some l -> Inv false w a ->
  hget (a_lists a) l = Some s -> Forall (fun e => el_child e <> 0) s -> qop_nonnull o ->
  exists w' a' s', qexec pick v qs w q o = Some (fst (qspec v (map el_child s) o), w') /\ Inv false w' a' /\
    hget (a_lists a') l = Some s' /\ Forall (fun e => el_child e <> 0) s' /\ map el_child s' = snd (qspec v (map el_child s) o).
Proof.
  intros pick qs w a q l s v o G Hq I H NZ NO.
  assert (LIFT : forall op e x a', astep false (qenv_of pick w v) a op = Some (e, x, a') ->
     exec false (qenv_of pick w v) w op = qexec pick v qs w q o ->
     forall s', hget (a_lists a') l = Some s' -> Forall (fun e => el_child e <> 0) s' -> (e, x, map el_child s') = qspec v (map el_child s) o ->
     exists w' a' s', qexec pick v qs w q o = Some (fst (qspec v (map el_child s) o), w') /\ Inv false w' a' /\
    hget (a_lists a') l = Some s' /\ Forall (fun e => el_child e <> 0) s' /\ map el_child s' = snd (qspec v (map el_child s) o)).
  { intros op e x a' A EX s' H' NZ' Q. destruct (step_refines _ _ _ _ _ _ _ _ I A) as (w' & X & I').
    exists w', a', s'. rewrite <- EX, X, <- Q. auto. }
  pose proof (fresh_pick _ _ _ _ I G) as FR.
  destruct o as [c|c| |]; cbn [qop_nonnull] in NO.
  - destruct (ok (q_alloc v)) eqn:O.
    + eapply (LIFT (OAppendTail l c)).
      * cbn [astep]. rewrite H. unfold adding, qenv_of. cbn [e_alloc e_new]. rewrite O. cbn [negb]. rewrite FR. reflexivity.
      * cbn [exec qexec]. unfold queue_append. rewrite Hq. auto.
      * cbn [put a_lists]. eapply hget_hset_same; eauto.
      * apply Forall_app. split; auto.
      * cbn [qspec]. rewrite O, map_app. auto.
    + eapply (LIFT (OAppendTail l c)).
      * cbn [astep]. rewrite H. unfold adding, qenv_of. cbn [e_alloc e_new]. rewrite O. reflexivity.
      * cbn [exec qexec]. unfold queue_append. rewrite Hq. auto.
      * exact H.
      * auto.
      * cbn [qspec]. rewrite O. auto.
  - destruct (ok (q_alloc v)) eqn:O.
    + eapply (LIFT (OInsertHead l c)).
      * cbn [astep]. rewrite H. unfold adding, qenv_of. cbn [e_alloc e_new]. rewrite O. cbn [negb]. rewrite FR. reflexivity.
      * cbn [exec qexec]. unfold queue_insert. rewrite Hq. auto.
      * cbn [put a_lists]. eapply hget_hset_same; eauto.
      * constructor; auto.
      * cbn [qspec]. rewrite O. auto.
    + eapply (LIFT (OInsertHead l c)).
      * cbn [astep]. rewrite H. unfold adding, qenv_of. cbn [e_alloc e_new]. rewrite O. reflexivity.
      * cbn [exec qexec]. unfold queue_insert. rewrite Hq. auto.
      * exact H.
      * auto.
      * cbn [qspec]. rewrite O. auto.
  - destruct s as [|t s].
    + eapply (LIFT (OPop l)).
      * cbn [astep]. rewrite H. reflexivity.
      * cbn [exec qexec]. unfold queue_pop. rewrite Hq. auto.
      * exact H.
      * auto.
      * auto.
    + inversion NZ; subst. destruct (ok (q_reclaim v)) eqn:O.
      * eapply (LIFT (OPop l)).
        -- cbn [astep]. rewrite H. unfold taking, qenv_of. cbn [e_reclaim]. rewrite O. reflexivity.
        -- cbn [exec qexec]. unfold queue_pop. rewrite Hq. auto.
        -- cbn [put a_lists]. eapply hget_hset_same; eauto.
        -- auto.
        -- cbn [qspec map]. rewrite O. auto.
      * eapply (LIFT (OPop l)).
        -- cbn [astep]. rewrite H. unfold taking, qenv_of. cbn [e_reclaim e_child]. rewrite O. rewrite eqb_no by auto. reflexivity.
        -- cbn [exec qexec]. unfold queue_pop. rewrite Hq. auto.
        -- cbn [put a_lists]. eapply hget_hset_same; eauto.
        -- auto.
        -- cbn [qspec map]. rewrite O. auto.
  - eapply (LIFT (OCount l)).
    + cbn [astep]. rewrite H. reflexivity.
    + cbn [exec qexec]. unfold queue_count. rewrite Hq. auto.
    + exact H.
    + auto.
    + cbn [qspec]. rewrite map_length. auto.
Qed.
Lemma queue_steps : forall pick qs q l h w a s, good_pick pick -> hget qs q = Some l -> Inv false w a ->
  hget (a_lists a) l = Some s -> Forall (fun e => el_child e <> 0) s -> Forall (fun x => qop_nonnull (snd x)) h ->
  exists w' a' s', qexecs pick qs w q h = Some (fst (qspecs (map el_child s) h), w') /\ Inv false w' a' /\
    hget (a_lists a') l = Some s' /\ map el_child s' = snd (qspecs (map el_child s) h).
Proof.
  intros pick qs q l. induction h as [|[v o] t IH]; intros w a s G Hq I H NZ NN.
  - cbn. exists w, a, s. auto.
  - inversion NN; subst. cbn [snd] in *.
    destruct (queue_step pick qs w a q l s v o G Hq I H NZ H2) as (w1 & a1 & s1 & E1 & I1 & H1 & NZ1 & M1).
    destruct (IH w1 a1 s1 G Hq I1 H1 NZ1 H3) as (w2 & a2 & s2 & E2 & I2 & H2' & M2).
    exists w2, a2, s2. cbn [qexecs qspecs]. rewrite E1.
    destruct (qspec v (map el_child s) o) as [[e x] s1'] eqn:Q. cbn [fst snd] in *. subst s1'. rewrite E2.
    destruct (qspecs (map el_child s1) t) as [outs s3]. cbn [fst snd] in *. auto.
Qed.

(** ** Reachable states *)
Lemma reaches_inv : forall dbl w a, reaches dbl w a -> Inv dbl w a.
Proof.
  intros dbl w a (h & outs & A & E). destruct (steps_refine _ _ _ _ _ _ (inv0 dbl) A) as (w' & E' & I).
  rewrite E in E'. inversion E'; subst. auto.
Qed.
Lemma asteps_app : forall dbl h1 h2 a o1 a1, asteps dbl a h1 = Some (o1, a1) ->
  asteps dbl a (h1 ++ h2) = do '(o2, a2) <- asteps dbl a1 h2; Some (o1 ++ o2, a2).
Proof.
  induction h1 as [|[v o] t IH]; cbn [app asteps]; intros h2 a o1 a1 E.
  - inversion E; subst. destruct (asteps dbl a1 h2) as [[? ?]|]; auto.
  - destruct (astep dbl v a o) as [[[e x] a']|]; [|discriminate].
    destruct (asteps dbl a' t) as [[os a2]|] eqn:E2; [|discriminate]. inversion E; subst.
    rewrite (IH h2 _ _ _ E2). destruct (asteps dbl a1 h2) as [[? ?]|]; auto.
Qed.
Lemma execs_app : forall dbl h1 h2 a o1 a1, execs dbl a h1 = Some (o1, a1) ->
  execs dbl a (h1 ++ h2) = do '(o2, a2) <- execs dbl a1 h2; Some (o1 ++ o2, a2).
Proof.
  induction h1 as [|[v o] t IH]; cbn [app execs]; intros h2 a o1 a1 E.
  - inversion E; subst. destruct (execs dbl a1 h2) as [[? ?]|]; auto.
  - destruct (exec dbl v a o) as [[[e x] a']|]; [|discriminate].
    destruct (execs dbl a' t) as [[os a2]|] eqn:E2; [|discriminate]. inversion E; subst.
    rewrite (IH h2 _ _ _ E2). destruct (execs dbl a1 h2) as [[? ?]|]; auto.
Qed.
Theorem reach_steps : forall dbl w a, reaches dbl w a -> forall h outs a', asteps dbl a h = Some (outs, a') ->
  exists w', execs dbl w h = Some (outs, w') /\ reaches dbl w' a'.
Proof.
  intros dbl w a R h outs a' A. pose proof (reaches_inv _ _ _ R) as I. destruct R as (h0 & o0 & A0 & E0).
  destruct (steps_refine _ _ _ _ _ _ I A) as (w' & E & _). exists w'. split; [auto|].
  exists (h0 ++ h), (o0 ++ outs). rewrite (asteps_app _ _ _ _ _ _ A0), A, (execs_app _ _ _ _ _ _ E0), E. auto.
Qed.
Theorem reach_step : forall dbl w a, reaches dbl w a -> forall v o e x a', astep dbl v a o = Some (e, x, a') ->
  exists w', exec dbl v w o = Some (e, x, w') /\ reaches dbl w' a'.
Proof.
  intros dbl w a R v o e x a' A. destruct (reach_steps _ _ _ R [(v, o)] [(e, x)] a') as (w' & E & R').
  { cbn. rewrite A. auto. }
  cbn in E. destruct (exec dbl v w o) as [[[e1 x1] w1]|]; [|discriminate]. inversion E; subst. eauto.
Qed.
Lemma clearing_split : forall v s st r k rest, clearing v s = (st, r, k, rest) ->
  r ++ nonnull (map el_child rest) = nonnull (map el_child s).
Proof.
  unfold nonnull. induction s as [|e t IH]; intros st r k rest C; cbn [clearing] in C; [inversion C; auto|].
  cbn [map filter].
  destruct (negb (el_child e =? 0) && negb (ok (e_child v (el_child e)))).
  - inversion C; subst. destruct (el_child e =? 0); auto.
  - destruct (negb (ok (e_reclaim v (el_addr e)))).
    + inversion C; subst. destruct (el_child e =? 0); auto.
    + destruct (clearing v t) as [[[st' r'] k'] rest'] eqn:C'. inversion C; subst.
      rewrite <- (IH _ _ _ _ eq_refl). destruct (el_child e =? 0); auto.
Qed.
Lemma clearing_all_ok : forall v s, (forall e, In e s -> el_child e <> 0 -> e_child v (el_child e) = STATUS_SUCCESS) ->
  (forall e, In e s -> e_reclaim v (el_addr e) = STATUS_SUCCESS) ->
  clearing v s = (STATUS_SUCCESS, nonnull (map el_child s), [], []).
Proof.
  induction s as [|e t IH]; cbn [clearing]; intros H1 H2; [auto|].
  rewrite IH by (intros; auto with datatypes). rewrite H2 by (left; auto). change (ok STATUS_SUCCESS) with true. cbn [negb].
  unfold nonnull. cbn [map filter]. destruct (Z.eqb_spec (el_child e) 0) as [K|K]; cbn [negb andb]; [auto|].
  rewrite H1 by (auto; left; auto). change (ok STATUS_SUCCESS) with true. cbn [negb]. auto.
Qed.

(** ** What a pop leaves of a node that cannot be reclaimed *)
Definition loose (w : world) (t : Z) := exists n, hget (w_nodes w) t = Some n /\ n_parent n = 0 /\ n_next n = 0 /\ n_child n = 0.
Lemma pop_finish_loose : forall v w t c e r w', e_reclaim v t <> STATUS_SUCCESS -> loose w t ->
  pop_finish v w t c = Some (e, r, w') -> r = 0 /\ loose w' t.
Proof.
  intros v w t c e r w' R (n & E & P & N & C) H. unfold pop_finish, node_release in H. rewrite E in H. cbn beta iota in H.
  rewrite C in H. change (negb (0 =? 0)) with false in H. cbv iota in H. unfold reclaim_node in H. rewrite E in H. cbn beta iota in H.
  assert (K: ok (e_reclaim v t) = false) by (unfold ok; apply Z.eqb_neq; exact R). rewrite K in H. cbn beta iota in H. rewrite K in H.
  cbn [negb] in H. unfold release_child in H. destruct (c =? 0); [discriminate|]. cbn beta iota in H. inversion H; subst.
  split; [reflexivity|]. exists n. auto.
Qed.
Lemma setn_get : forall w p f w' x, setn w p f = Some w' ->
  hget (w_nodes w') x = (if x =? p then match hget (w_nodes w) p with Some n => Some (f n) | None => None end else hget (w_nodes w) x) /\ w_hdrs w' = w_hdrs w.
Proof.
  intros w p f w' x H. unfold setn in H. destruct (hget (w_nodes w) p) as [n|] eqn:E; [|discriminate]. cbn beta iota in H. inversion H; subst. cbn [w_nodes w_hdrs].
  split; [|reflexivity]. rewrite hget_hset, E. reflexivity.
Qed.
Lemma seth_get : forall w l f w', seth w l f = Some w' -> w_nodes w' = w_nodes w.
Proof. intros w l f w' H. unfold seth in H. destruct (hget (w_hdrs w) l); [|discriminate]. cbn beta iota in H. inversion H; reflexivity. Qed.
Ltac opened H :=
  repeat match type of H with
  | match ?x with _ => _ end = Some _ =>
      let a' := fresh "a" in let E := fresh "E" in destruct x as [a'|] eqn:E; [|discriminate H]; cbv beta iota in H
  end.
Lemma pop_unlinks : forall (dbl : bool) v w l h e r w', hget (w_hdrs w) l = Some h -> h_head h <> 0 ->
  e_reclaim v (h_head h) <> STATUS_SUCCESS ->
  (if dbl then list_pop v w l else slist_pop v w l) = Some (e, r, w') ->
  r = 0 /\ loose w' (h_head h).
Proof.
  intros dbl v w l h e r w' Hh N R H.
  destruct dbl; [unfold list_pop in H|unfold slist_pop in H]; rewrite Hh in H; cbv beta iota in H; rewrite (proj2 (Z.eqb_neq _ _) N) in H; cbn [negb] in H; cbv zeta in H; opened H;
    (eapply pop_finish_loose; [exact R| |exact H]).
  - assert (K: forall x, hget (w_nodes a1) x = if x =? h_head h then Some (to_child 0 a0) else hget (w_nodes a) x).
    { intros x. destruct (setn_get _ _ _ _ x E1) as (K & _). rewrite E0 in K. exact K. }
    assert (K3: exists n, hget (w_nodes a3) (h_head h) = Some n /\ n_child n = 0).
    { pose proof (seth_get _ _ _ _ E2) as K2. destruct (n_next a0 =? 0); cbn [negb] in E3.
      - inversion E3; subst a3. rewrite K2, K, Z.eqb_refl. eexists; split; [reflexivity|reflexivity].
      - destruct (setn_get _ _ _ _ (h_head h) E3) as (K4 & _). rewrite K4, K2. rewrite !K, Z.eqb_refl.
        destruct (h_head h =? n_next a0) eqn:Q; [apply Z.eqb_eq in Q; rewrite <- Q, Z.eqb_refl|]; eexists; split; reflexivity. }
    destruct K3 as (n & K3 & C). destruct (setn_get _ _ _ _ (h_head h) E4) as (K4 & _). destruct (setn_get _ _ _ _ (h_head h) E5) as (K5 & _).
    rewrite Z.eqb_refl in K4, K5. rewrite K3 in K4. rewrite K4 in K5. pose proof (seth_get _ _ _ _ E6) as K6.
    exists (to_next 0 (to_parent 0 n)). rewrite K6. split; [exact K5|]. cbn. auto.
  - destruct (setn_get _ _ _ _ (h_head h) E1) as (K1 & _). rewrite E0 in K1. pose proof (seth_get _ _ _ _ E2) as K2.
    destruct (setn_get _ _ _ _ (h_head h) E3) as (K3 & _). destruct (setn_get _ _ _ _ (h_head h) E4) as (K4 & _). pose proof (seth_get _ _ _ _ E5) as K5.
    rewrite Z.eqb_refl in K1, K3, K4. rewrite K2, K1 in K3. rewrite K3 in K4. exists (to_next 0 (to_parent 0 (to_child 0 a0))). rewrite K5. split; [exact K4|]. cbn. auto.
Qed.
Lemma next_pop_unlinks : forall v w q m e r w', hget (w_nodes w) q = Some m -> n_next m <> 0 -> n_next m <> q ->
  e_reclaim v (n_next m) <> STATUS_SUCCESS ->
  slist_node_next_pop v w q = Some (e, r, w') -> r = 0 /\ loose w' (n_next m).
Proof.
  intros v w q m e r w' Hq N D R H. unfold slist_node_next_pop in H. rewrite Hq in H. cbv beta iota in H. cbv zeta in H. rewrite (proj2 (Z.eqb_neq _ _) N) in H. cbn [negb] in H.
  opened H. eapply pop_finish_loose; [exact R| |exact H].
  destruct (setn_get _ _ _ _ (n_next m) E2) as (K2 & _). rewrite E1, Z.eqb_refl in K2.
  destruct (setn_get _ _ _ _ (n_next m) E3) as (K3 & _). rewrite (proj2 (Z.eqb_neq _ _) D), K2 in K3.
  destruct (setn_get _ _ _ _ (n_next m) E4) as (K4 & _). rewrite Z.eqb_refl, K3 in K4.
  destruct (setn_get _ _ _ _ (n_next m) E5) as (K5 & _). rewrite Z.eqb_refl, K4 in K5. pose proof (seth_get _ _ _ _ E6) as K6.
  exists (to_next 0 (to_parent 0 (to_child 0 a1))). rewrite K6. split; [exact K5|]. cbn. auto.
Qed.
