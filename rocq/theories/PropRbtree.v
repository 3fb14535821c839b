(** C28 - C31, C48: red-black trees. *)
From Verif Require Import Base Status MemModel MemProofs Heap RbModel RbSpec RbProofs RbInsert RbDelete RbRemove RbInv RbSteps.

(** Resources ordered as integers; an environment in which everything works. *)
Definition zorder : order := Order (fun r => r) (fun a b => if a <? b then COMPARE_LT else if a =? b then COMPARE_EQ else COMPARE_GT).
Definition okenv (a : Z) : renv := REnv 0 a a (a + 1) (fun _ => 0) (fun _ => 0) (fun _ => 0).
Lemma zorder_good : good_order zorder.
Proof.
  unfold good_order, zorder, COMPARE_LT, COMPARE_EQ, COMPARE_GT. cbn [o_cmp]. split; [|split].
  - intros a b. destruct (a <? b), (a =? b); auto.
  - intros a b. destruct (Z.ltb_spec a b), (Z.ltb_spec b a), (Z.eqb_spec a b), (Z.eqb_spec b a); split; intros; try lia; discriminate.
  - intros a b c. destruct (Z.ltb_spec a b), (Z.ltb_spec b c), (Z.eqb_spec a b), (Z.eqb_spec b c), (Z.ltb_spec a c), (Z.eqb_spec a c); intros; try lia; congruence.
Qed.
(** A history on tree 1000: [true]: insert, [false]: delete by key. *)
Definition script (l : list (bool * Z)) : list (renv * rop) :=
  (okenv 1000, OCreate) :: map (fun x : bool * Z => (okenv (10 * snd x), if fst x then OInsert 1000 (snd x) else ODelete false 1000 (snd x))) l.

(** A way to check that a script meets the hypotheses of the theorems about histories. *)
Definition quietb (w : rworld) (k : Z) : bool :=
  match find_node zorder w 1000 k with
  | Some (0, n) => match unlink w 1000 n with
                   | Some (red, x, w1) => red || match steady (S (length (rw_nodes w1))) w1 1000 x with Some b => b | None => false end
                   | None => false
                   end
  | _ => true
  end.
Definition one (x : bool * Z) : renv * rop := (okenv (10 * snd x), if fst x then OInsert 1000 (snd x) else ODelete false 1000 (snd x)).
Fixpoint plays (w : rworld) (l : list (bool * Z)) : option rworld :=
  match l with
  | [] => Some w
  | x :: t => if (if fst x then negb (snd x =? 0) && negb (existsb (Z.eqb (10 * snd x)) (addrs (rw_nodes w))) else quietb w (snd x))
              then do '(_, _, w) <- rexec zorder (fst (one x)) w (snd (one x)); plays w t else None
  end.
Lemma plays_runs : forall m l w s w', runs zorder (quiet zorder) rempty sempty l w s -> In 1000 (addrs (s_ents s)) -> plays w m = Some w' ->
  exists s', runs zorder (quiet zorder) rempty sempty (l ++ map one m) w' s' /\ In 1000 (addrs (s_ents s')).
Proof.
  induction m as [|[b k] m IH]; intros l w s w' R IN P; cbn [plays map fst snd] in *.
  { inversion P; subst. rewrite app_nil_r. eauto. }
  match type of P with (if ?c then _ else _) = _ => destruct c eqn:C end; [|discriminate].
  assert (A : allowed (fst (one (b, k))) w s (snd (one (b, k))) /\ quiet zorder w (snd (one (b, k)))).
  { destruct b; cbn [one fst snd allowed quiet okenv re_new].
    - apply andb_true_iff in C. destruct C as (C1 & C2). rewrite negb_true_iff in C1, C2. apply Z.eqb_neq in C1.
      split; [|exact Logic.I]. split; [auto|]. split; [auto|]. split; [lia|]. intros I. assert (existsb (Z.eqb (10 * k)) (addrs (rw_nodes w)) = true); [|congruence].
      apply existsb_exists. exists (10 * k). split; [exact I|apply Z.eqb_refl].
    - split; [auto|]. intros n F. unfold quietb in C. rewrite F in C. change STATUS_SUCCESS with 0 in C.
      destruct (unlink w 1000 n) as [[[red x] w1]|] eqn:U; [|discriminate]. exists red, x, w1. split; [auto|]. intros ->. cbn [orb] in C.
      destruct (steady _ w1 1000 x) as [[]|]; congruence. }
  destruct A as (A & Q). pose proof (runs_inv _ _ _ _ _ _ zorder_good R true (inv_empty zorder)) as I.
  destruct (rb_step false zorder _ w s _ zorder_good I A Q) as (e & out & w1 & s1 & X & S1 & I1). rewrite X in P.
  destruct (IH (l ++ [one (b, k)]) w1 s1 w') as (s' & R' & IN'); auto.
  - change (one (b, k)) with (fst (one (b, k)), snd (one (b, k))). eapply runs_snoc; eauto. eapply inv_sees; eauto.
  - destruct b; cbn [one fst snd astep] in S1.
    + destruct S1 as (_ & S1). destruct (ok (re_alloc (okenv (10 * k)))) eqn:K; [|discriminate]. destruct S1 as (_ & x & _ & y & _ & ->). cbn [s_ents]. rewrite hset_addrs. auto.
    + destruct S1 as (x & _ & [(_ & _ & _ & ->)|(l1 & i & l2 & _ & _ & _ & _ & y & _ & ->)]); [auto|]. cbn [s_ents]. rewrite hset_addrs. auto.
  - exists s'. split; [|auto]. rewrite <- app_assoc in R'. exact R'.
Qed.
Lemma script_runs : forall m w, plays (RW [(1001, RN 1001 1001 1001 1001 false)] [(1000, RT 1001 1001 1001 0)] []) m = Some w ->
  exists s, runs zorder (quiet zorder) rempty sempty (script m) w s /\ In 1000 (addrs (s_ents s)).
Proof.
  intros m w P. destruct (plays_runs m [(okenv 1000, OCreate)] (RW [(1001, RN 1001 1001 1001 1001 false)] [(1000, RT 1001 1001 1001 0)] []) (RS (hadd [] 1000 (Ent [] 1001 1001)) []) w) as (s & R & I); auto.
  - change [(okenv 1000, OCreate)] with ([] ++ [(okenv 1000, OCreate)]). eapply runs_snoc; [constructor|..].
    + cbn. intuition lia.
    + exact Logic.I.
    + reflexivity.
    + cbn. auto.
    + split; [reflexivity|]. intros t e H. cbn in H. destruct (t =? 1000) eqn:T1; [|discriminate]. apply Z.eqb_eq in T1. inversion H; subst. vm_compute. reflexivity.
  - left. reflexivity.
  - exists s. split; auto.
Qed.

(** ** C28 *)
(** [put] inserts: same elements plus the new one, still in key order, after those with
    an equal key. *)
Theorem C28_put_sorted : forall o i l, good_order o -> in_order o l ->
  in_order o (put o i l) /\ Permutation (put o i l) (i :: l) /\
  exists a b, l = a ++ b /\ put o i l = a ++ i :: b /\ Forall (fun j => item_le o j i) a /\
    Forall (fun j => o_cmp o (o_key o (snd i)) (o_key o (snd j)) = COMPARE_LT) b.
Proof.
  intros o i l G H. split; [apply put_order; auto|]. split; [apply put_perm|].
  induction l as [|j l IH]; [exists [], []; auto|]. inversion H; subst. cbn [put].
  destruct (Z.eqb_spec (o_cmp o (o_key o (snd i)) (o_key o (snd j))) COMPARE_LT) as [L|L].
  - exists [], (j :: l). do 3 (split; [auto|]). constructor; [auto|]. rewrite Forall_forall in *. intros k K. eapply lt_le_trans; eauto. apply H3. auto.
  - destruct (IH H2) as (a & b & -> & E & A & B). exists (j :: a), b. rewrite E. do 2 (split; [auto|]). split; [|auto]. constructor; [|auto].
    apply not_lt_ge; auto.
Qed.
(** Any history of creations and insertions, on any number of trees and with any
    allocation failures, can be continued: the next call is free of undefined behaviour
    and does what the specification says, which is what the tree then shows. *)
Theorem C28_insert_refines : forall o l w s v p, good_order o -> runs o grows rempty sempty l w s -> allowed v w s p -> grows w p ->
  exists e out w' s', rexec o v w p = Some (e, out, w') /\ astep o v s p e out s' /\ sees w' s' /\ runs o grows rempty sempty (l ++ [(v, p)]) w' s'.
Proof.
  intros o l w s v p G R A Q. pose proof (grows_inv _ _ _ _ _ _ G R true (inv_empty o)) as I.
  destruct (grow_step true o v w s p G I A Q) as (e & out & w' & s' & B & C & D). exists e, out, w', s'. do 2 (split; [auto|]).
  split; [eapply inv_sees; eauto|]. eapply runs_snoc; eauto. eapply inv_sees; eauto.
Qed.
(** After it, every tree is a sorted sequence to its user: minimum and successor visit
    the elements in key order, maximum and predecessor in reverse order, the count is
    their number, and find returns a resource with the key iff there is one. *)
Theorem C28_contents : forall o l w s t e, good_order o -> runs o grows rempty sempty l w s -> hget (s_ents s) t = Some e ->
  walk w t = Some (e_items e) /\ walkback w t = Some (rev (e_items e)) /\ rbtree_count w t = Some (Z.of_nat (length (e_items e))) /\
  in_order o (e_items e) /\ NoDup (map fst (e_items e)) /\
  (forall k, (Forall (fun i => ~ has_key o k i) (e_items e) /\ rbtree_find o w t k = Some (ERROR_RBTREE_NOT_FOUND, 0)) \/
             (exists i, In i (e_items e) /\ has_key o k i /\ rbtree_find o w t k = Some (STATUS_SUCCESS, snd i))).
Proof.
  intros o l w s t e G R H. pose proof (grows_inv _ _ _ _ _ _ G R true (inv_empty o)) as I.
  destruct (observe _ _ _ _ _ _ G I H) as (A & B & C & D & _ & F & _ & K & _). auto 10.
Qed.
(** Node by node: the neighbours of an element are its successor and predecessor, the nil
    node at the ends. *)
Theorem C28_neighbours : forall o l w s t e, good_order o -> runs o grows rempty sempty l w s -> hget (s_ents s) t = Some e ->
  nil_ w t = Some (e_nil e) /\
  (forall l1 n x l2, e_items e = l1 ++ (n, x) :: l2 ->
     va w n = Some x /\ successor_node w t n = Some (nil_or (e_nil e) l2) /\ predecessor_node w t n = Some (nil_or (e_nil e) (rev l1))) /\
  (forall r, e_items e <> [] -> root w t = Some r ->
     minimum_node w t r = Some (nil_or (e_nil e) (e_items e)) /\ maximum_node w t r = Some (nil_or (e_nil e) (rev (e_items e)))).
Proof.
  intros o l w s t e G R H. pose proof (grows_inv _ _ _ _ _ _ G R true (inv_empty o)) as I.
  destruct (observe _ _ _ _ _ _ G I H) as (_ & _ & _ & _ & _ & _ & A & _ & B & C). auto.
Qed.

(** Inserting a list of resources into a fresh tree, with everything succeeding. *)
Fixpoint put_all (o : order) (l : list (Z * Z)) (acc : list (Z * Z)) : list (Z * Z) :=
  match l with [] => acc | i :: t => put_all o t (put o i acc) end.
Lemma put_all_perm : forall o l acc, Permutation (put_all o l acc) (l ++ acc).
Proof.
  induction l as [|i l IH]; intros acc; cbn [put_all app]; [apply Permutation_refl|]. rewrite IH, put_perm. symmetry. apply Permutation_middle.
Qed.
Theorem C28_insert_all : forall o v t nl l, good_order o -> 
  re_alloc v = STATUS_SUCCESS -> re_tree v = t -> re_nil v = nl -> t <> 0 -> nl <> 0 ->
  NoDup (nl :: map fst l) -> Forall (fun i => fst i <> 0 /\ snd i <> 0) l ->
  exists w, rexecs o rempty ((v, OCreate) :: map (fun i : Z * Z => (okenv (fst i), OInsert t (snd i))) l) = Some w /\
    walk w t = Some (put_all o l []) /\ rbtree_count w t = Some (Z.of_nat (length l)) /\ in_order o (put_all o l []) /\
    Permutation (put_all o l []) l.
Proof.
  intros o v t nl l G AL T0 N0 NT NN ND NZ.
  assert (STEP : forall l acc w, Inv true o w (RS [(t, Ent acc nl nl)] []) -> (forall a, In a (map fst l) -> ~ In a (addrs (rw_nodes w))) ->
     NoDup (map fst l) -> Forall (fun i : Z * Z => fst i <> 0 /\ snd i <> 0) l ->
     exists w', rexecs o w (map (fun i : Z * Z => (okenv (fst i), OInsert t (snd i))) l) = Some w' /\ Inv true o w' (RS [(t, Ent (put_all o l acc) nl nl)] [])).
  { clear l ND NZ. induction l as [|[a x] l IH]; intros acc w I F ND NZ; cbn [map rexecs put_all]; [exists w; auto|].
    cbn [map fst snd] in *. inversion ND; subst. inversion NZ as [|? ? [Z1 Z2] NZ']; subst. cbn [fst snd] in *.
    destruct (insert_ok true o (okenv a) w _ (re_tree v) x G I) as (e & out & w1 & s1 & A & B & C & D & _).
    { cbn [allowed okenv re_new s_ents addrs map fst]. do 2 (split; [cbn; auto|]). split; [auto|]. apply F. cbn. auto. }
    rewrite A. cbn [astep] in B. change (ok (re_alloc (okenv a))) with true in *. cbn iota in B, D.
    destruct B as (_ & _ & y & Hy & y' & Hy' & ->). cbn [s_ents hget] in Hy, Hy'. rewrite Z.eqb_refl in Hy, Hy'. inversion Hy; inversion Hy'; subst y y'.
    cbn [s_ents hset e_items e_nil e_impl s_rel okenv re_new] in C, D. rewrite Z.eqb_refl in C.
    apply (IH _ _ C); auto. intros b Hb. rewrite D. cbn [app]. intros [->|Hi]; [contradiction|]. apply (F b); cbn; auto. }
  inversion ND; subst. cbn [rexecs]. 
  destruct (create_ok true o v rempty sempty (inv_empty o)) as (e & out & w1 & s1 & A & B & C).
  { cbn. auto. }
  rewrite A. cbn [astep rexec] in A, B. unfold rbtree_create in A. rewrite AL in A, B. change (ok STATUS_SUCCESS) with true in *. cbn [negb] in A. cbn iota in B.
  destruct B as (_ & _ & ->). inversion A; subst. cbn [sempty s_ents s_rel hadd] in C.
  destruct (STEP l [] _ C) as (w' & E1 & I1); auto.
  { cbn [rw_nodes rempty hadd addrs map fst]. intros a Ha [<-|[]]. contradiction. }
  rewrite E1. exists w'. split; [reflexivity|].
  destruct (observe _ _ _ _ (re_tree v) (Ent (put_all o l []) (re_nil v) (re_nil v)) G I1) as (W & _ & CT & IO & _); [cbn; rewrite Z.eqb_refl; reflexivity|].
  cbn [e_items] in *. pose proof (put_all_perm o l []) as P. rewrite app_nil_r in P. rewrite (Permutation_length P) in CT. auto.
Qed.
Definition grown : list (renv * rop) := (okenv 1, OCreate) :: map (fun i : Z * Z => (okenv (fst i), OInsert 1 (snd i))) [(10, 5); (11, 3); (12, 8); (13, 5); (14, 1)].
Example C28_insert_all_example : good_order zorder /\ exists w, rexecs zorder rempty grown = Some w /\
  walk w 1 = Some [(14, 1); (11, 3); (10, 5); (13, 5); (12, 8)] /\ rbtree_count w 1 = Some 5 /\
  rbtree_find zorder w 1 8 = Some (0, 8) /\ rbtree_find zorder w 1 4 = Some (ERROR_RBTREE_NOT_FOUND, 0).
Proof. split; [apply zorder_good|]. eexists. split; [vm_compute; reflexivity|]. vm_compute. auto. Qed.

(** A history meeting the hypotheses of the theorems about [runs]. *)
Example C28_runs_example : exists w s, runs zorder grows rempty sempty ([] ++ [(okenv 1, OCreate)] ++ [(okenv 10, OInsert 1 5)] ++ [(okenv 11, OInsert 1 3)]) w s /\
  hget (s_ents s) 1 = Some (Ent [(11, 3); (10, 5)] 2 2).
Proof.
  rewrite !app_assoc. eexists; eexists. split.
  - eapply runs_snoc; [eapply runs_snoc; [eapply runs_snoc; [apply runs_nil|..]|..]|..]; try exact Logic.I; try (vm_compute; reflexivity).
    + cbn. intuition lia.
    + vm_compute. auto.
    + split; [reflexivity|]. intros t e H. cbn in H. destruct (t =? 1) eqn:T1; [|discriminate]. apply Z.eqb_eq in T1. inversion H; subst. vm_compute. reflexivity.
    + cbn. intuition lia.
    + cbn. do 2 (split; [reflexivity|]). eexists. split; [reflexivity|]. eexists. split; reflexivity.
    + split; [reflexivity|]. intros t e H. cbn in H. destruct (t =? 1) eqn:T1; [|discriminate]. apply Z.eqb_eq in T1. inversion H; subst. vm_compute. reflexivity.
    + cbn. intuition lia.
    + cbn. do 2 (split; [reflexivity|]). eexists. split; [reflexivity|]. eexists. split; reflexivity.
    + split; [reflexivity|]. intros t e H. cbn in H. destruct (t =? 1) eqn:T1; [|discriminate]. apply Z.eqb_eq in T1. inversion H; subst. vm_compute. reflexivity.
  - reflexivity.
Qed.

(** ** C29 *)
Theorem C29_height : forall o l w s t e, good_order o -> runs o grows rempty sempty l w s -> hget (s_ents s) t = Some e ->
  exists d, depth w t = Some d /\ (d <= 2 * Nat.log2 (length (e_items e) + 1))%nat.
Proof.
  intros o l w s t e G R H. pose proof (grows_inv _ _ _ _ _ _ G R true (inv_empty o)) as I. eapply height; eauto.
Qed.
(** Seven increasing keys: height 4, where a search tree without rotations has 7. *)
Example C29_example : exists w, rexecs zorder rempty (script (map (pair true) [1; 2; 3; 4; 5; 6; 7])) = Some w /\ depth w 1000 = Some 4%nat.
Proof. eexists. split; vm_compute; reflexivity. Qed.

(** ** C30 *)
(** False as stated: on a tree holding 1, 5 and 6, reached by twelve calls all of which
    succeeded, deleting 5 empties the tree; 1 and 6 are lost, the count is 2. *)
Definition before_loss : list (renv * rop) :=
  script [(true, 1); (true, 2); (true, 3); (true, 4); (false, 3); (false, 4); (true, 5); (true, 6); (true, 7); (false, 2); (false, 7)].
Theorem C30_delete_refuted : exists w w', rexecs zorder rempty before_loss = Some w /\
  walk w 1000 = Some [(10, 1); (50, 5); (60, 6)] /\ rbtree_count w 1000 = Some 3 /\
  rexec zorder (okenv 0) w (ODelete false 1000 5) = Some (STATUS_SUCCESS, 0, w') /\
  walk w' 1000 = Some [] /\ rbtree_find zorder w' 1000 1 = Some (ERROR_RBTREE_NOT_FOUND, 0) /\
  rbtree_find zorder w' 1000 6 = Some (ERROR_RBTREE_NOT_FOUND, 0) /\ rbtree_count w' 1000 = Some 2 /\ rw_rel w' = [3; 4; 2; 7; 5].
Proof. eexists; eexists. split; [vm_compute; reflexivity|]. do 2 (split; [vm_compute; reflexivity|]). split; [vm_compute; reflexivity|]. vm_compute. auto 10. Qed.
(** It also happens when all insertions come before all deletions. *)
Definition before_loss2 : list (renv * rop) :=
  script (map (pair true) [7; 9; 10; 8; 6; 5; 1; 4; 3; 2] ++ map (pair false) [4; 5; 9; 6; 8; 7]).
Theorem C30_delete_only_refuted : exists w w', rexecs zorder rempty before_loss2 = Some w /\
  walk w 1000 = Some [(10, 1); (20, 2); (30, 3); (100, 10)] /\
  rexec zorder (okenv 0) w (ODelete false 1000 3) = Some (STATUS_SUCCESS, 0, w') /\ walk w' 1000 = Some [] /\ rbtree_count w' 1000 = Some 3.
Proof. eexists; eexists. split; [vm_compute; reflexivity|]. split; [vm_compute; reflexivity|]. split; [vm_compute; reflexivity|]. vm_compute. auto 10. Qed.
(** It happens after every history whenever the loop is to start at an only child of the
    root: the deletion reports success and leaves a tree with no elements, whose count is
    one less than before; the nodes of the elements are still allocated. *)
Theorem C30_lost_refuted : forall o l w s v keep t e n y x w1, good_order o -> runs o (quiet o) rempty sempty l w s ->
  hget (s_ents s) t = Some e -> In (n, y) (e_items e) -> unlink w t n = Some (false, x, w1) -> only_child w1 t x ->
  exists w', rexec o v w (ODeleteNode keep t n) = Some (drop_status v keep (n, y), if keep then y else 0, w') /\
    walk w' t = Some [] /\ rbtree_count w' t = Some (Z.of_nat (length (e_items e)) - 1) /\
    forall a, a <> n -> (In a (addrs (rw_nodes w')) <-> In a (addrs (rw_nodes w))).
Proof.
  intros o l w s v keep t e n y x w1 G R HE HI EU OC. pose proof (runs_inv _ _ _ _ _ _ G R true (inv_empty o)) as I.
  apply in_split in HI. destruct HI as (l1 & l2 & HI). cbn [rexec]. eapply delete_node_lost; eauto.
Qed.
Example C30_lost_example : exists w s x w1, runs zorder (quiet zorder) rempty sempty before_loss w s /\
  walk w 1000 = Some [(10, 1); (50, 5); (60, 6)] /\ unlink w 1000 50 = Some (false, x, w1) /\ only_child w1 1000 x.
Proof.
  edestruct (script_runs [(true, 1); (true, 2); (true, 3); (true, 4); (false, 3); (false, 4); (true, 5); (true, 6); (true, 7); (false, 2); (false, 7)]) as (s & R & _); [vm_compute; reflexivity|].
  eexists; exists s; eexists; eexists. split; [exact R|]. split; [vm_compute; reflexivity|]. split; [vm_compute; reflexivity|].
  eexists; eexists. do 2 (split; [vm_compute; reflexivity|]). split; [discriminate|]. do 2 (split; [vm_compute; reflexivity|]).
  split; [|split; [|split]; vm_compute; reflexivity]. (left; split; vm_compute; reflexivity) || (right; split; vm_compute; reflexivity).
Qed.
(** True of every history of calls in which the loop finds siblings to work with: the next
    such call, with any failures of the environment, does what the specification says. *)
Theorem C30_delete_partial : forall o l w s v p, good_order o -> runs o (quiet o) rempty sempty l w s -> allowed v w s p -> quiet o w p ->
  exists e out w' s', rexec o v w p = Some (e, out, w') /\ astep o v s p e out s' /\ sees w' s' /\ runs o (quiet o) rempty sempty (l ++ [(v, p)]) w' s'.
Proof.
  intros o l w s v p G R A Q. pose proof (runs_inv _ _ _ _ _ _ G R true (inv_empty o)) as I.
  destruct (rb_step false o v w s p G I A Q) as (e & out & w' & s' & B & C & D). exists e, out, w', s'. do 2 (split; [auto|]).
  split; [eapply inv_sees; eauto|]. eapply runs_snoc; eauto. eapply inv_sees; eauto.
Qed.
Theorem C30_contents_partial : forall o l w s t e, good_order o -> runs o (quiet o) rempty sempty l w s -> hget (s_ents s) t = Some e ->
  walk w t = Some (e_items e) /\ walkback w t = Some (rev (e_items e)) /\ rbtree_count w t = Some (Z.of_nat (length (e_items e))) /\
  in_order o (e_items e) /\ NoDup (map fst (e_items e)) /\
  (forall k, (Forall (fun i => ~ has_key o k i) (e_items e) /\ rbtree_find o w t k = Some (ERROR_RBTREE_NOT_FOUND, 0)) \/
             (exists i, In i (e_items e) /\ has_key o k i /\ rbtree_find o w t k = Some (STATUS_SUCCESS, snd i))).
Proof.
  intros o l w s t e G R H. pose proof (runs_inv _ _ _ _ _ _ G R true (inv_empty o)) as I.
  destruct (observe _ _ _ _ _ _ G I H) as (A & B & C & D & _ & F & _ & K & _). auto 10.
Qed.
(** Right after any history of insertions, no deletion makes the loop run. *)
Theorem C30_first_delete_partial : forall o l w s v p, good_order o -> runs o grows rempty sempty l w s -> allowed v w s p ->
  exists e out w' s', rexec o v w p = Some (e, out, w') /\ astep o v s p e out s' /\ sees w' s'.
Proof.
  intros o l w s v p G R A. pose proof (grows_inv _ _ _ _ _ _ G R true (inv_empty o)) as I.
  destruct (rb_step true o v w s p G I A) as (e & out & w' & s' & B & C & D); [|exists e, out, w', s'; do 2 (split; [auto|]); eapply inv_sees; eauto].
  destruct p; cbn [quiet allowed] in *; auto.
  - intros n F. destruct (ent_some _ _ A) as (x & HE). destruct (i_tr _ _ _ _ I _ _ HE) as (T0 & R0 & IT & _ & IO & _).
    destruct (find_node_spec o k _ _ _ _ _ _ G R0) as [(F1 & E1)|(l1 & m & y & l2 & F1 & K1 & E1)]; [rewrite IT; exact IO| |]; rewrite E1 in F; inversion F; subst.
    eapply balanced_quiet; eauto. rewrite <- IT, F1. change n with (fst (n, y)). apply in_map. apply in_elt.
  - destruct A as (x & HE & HI). eapply balanced_quiet; eauto.
Qed.
(** Clearing and releasing hand every resource back exactly once, children first; the
    status is the first failure in that order; a node is freed unless its release failed. *)
Theorem C30_clear : forall o l w s v t e, good_order o -> runs o (quiet o) rempty sempty l w s -> hget (s_ents s) t = Some e ->
  exists w' ps, post w t = Some ps /\ Permutation ps (e_items e) /\ rbtree_clear v w t = Some (first_error (map (drop_status v false) ps), w') /\
    walk w' t = Some [] /\ rbtree_count w' t = Some 0 /\ rw_rel w' = rw_rel w ++ map snd ps /\
    (forall i, In i (e_items e) -> (In (fst i) (addrs (rw_nodes w')) <-> ok (drop_status v false i) = false)).
Proof.
  intros o l w s v t e G R H. pose proof (runs_inv _ _ _ _ _ _ G R true (inv_empty o)) as I.
  destruct (clear_ok false o v w s t e I H) as (w' & ps & A & B & C & D & F & _). exists w', ps. do 3 (split; [auto|]).
  destruct (observe _ _ _ _ t (Ent [] (e_nil e) (e_impl e)) G D) as (O1 & _ & O3 & _); [cbn [s_ents]; eapply hget_hset_same; eauto|].
  do 2 (split; [auto|]). split; [rewrite (i_rel _ _ _ _ D), (i_rel _ _ _ _ I); reflexivity|auto].
Qed.
Theorem C30_release : forall o l w s v t e, good_order o -> runs o (quiet o) rempty sempty l w s -> hget (s_ents s) t = Some e -> e_nil e = e_impl e ->
  exists w' ps, post w t = Some ps /\ Permutation ps (e_items e) /\
    rbtree_release v w t = Some (if ok (first_error (map (drop_status v false) ps)) then re_reclaimt v t else first_error (map (drop_status v false) ps), w') /\
    rw_rel w' = rw_rel w ++ map snd ps /\
    (forall i, In i (e_items e) -> (In (fst i) (addrs (rw_nodes w')) <-> ok (drop_status v false i) = false)) /\
    (In t (addrs (rw_trees w')) <-> ok (re_reclaimt v t) = false).
Proof.
  intros o l w s v t e G R H N. pose proof (runs_inv _ _ _ _ _ _ G R true (inv_empty o)) as I.
  destruct (release_ok false o v w s t e I H N) as (w' & ps & A & B & C & D & F & F2 & _). exists w', ps. do 3 (split; [auto|]).
  split; [rewrite (i_rel _ _ _ _ D), (i_rel _ _ _ _ I); reflexivity|auto].
Qed.
(** A history with deletions meeting the hypotheses: delete 3 and then 5 from 1..8. *)
Example C30_example : exists w, rexecs zorder rempty (script (map (pair true) [1; 2; 3; 4; 5; 6; 7; 8] ++ [(false, 3)])) = Some w /\
  quiet zorder w (ODelete false 1000 5) /\
  exists w', rexec zorder (okenv 0) w (ODelete false 1000 5) = Some (0, 0, w') /\
  walk w' 1000 = Some [(10, 1); (20, 2); (40, 4); (60, 6); (70, 7); (80, 8)].
Proof.
  eexists. split; [vm_compute; reflexivity|]. split; [intros n H; vm_compute in H; inversion H; subst; do 3 eexists; split; [vm_compute; reflexivity|]; intros _; vm_compute; reflexivity|].
  eexists. split; vm_compute; reflexivity.
Qed.
(** Histories in which the loop runs: from a left child, from a right child, and from a
    node with no sibling under a red parent. *)
Definition starts_at (w : rworld) (k x : Z) : Prop :=
  exists n w1 nl, find_node zorder w 1000 k = Some (STATUS_SUCCESS, n) /\ unlink w 1000 n = Some (false, x, w1) /\ nil_ w1 1000 = Some nl /\
    x <> nl /\ co w1 x = Some false.
Ltac starts := do 3 eexists; split; [vm_compute; reflexivity|]; split; [vm_compute; reflexivity|]; split; [vm_compute; reflexivity|]; split; [discriminate|vm_compute; reflexivity].
Example C30_loop_example :
  (exists w s w' s', runs zorder (quiet zorder) rempty sempty (script [(true, 5); (true, 1); (true, 2); (true, 9); (false, 5); (false, 9); (true, 7); (true, 3); (true, 4)]) w s /\
     starts_at w 2 10 /\ runs zorder (quiet zorder) rempty sempty (script [(true, 5); (true, 1); (true, 2); (true, 9); (false, 5); (false, 9); (true, 7); (true, 3); (true, 4); (false, 2)]) w' s' /\
     walk w' 1000 = Some [(10, 1); (30, 3); (40, 4); (70, 7)]) /\
  (exists w s w' s', runs zorder (quiet zorder) rempty sempty (script [(true, 9); (true, 5); (true, 8); (true, 7); (false, 5); (false, 7); (true, 7); (true, 1); (true, 4); (false, 4)]) w s /\
     starts_at w 7 90 /\ runs zorder (quiet zorder) rempty sempty (script [(true, 9); (true, 5); (true, 8); (true, 7); (false, 5); (false, 7); (true, 7); (true, 1); (true, 4); (false, 4); (false, 7)]) w' s' /\
     walk w' 1000 = Some [(10, 1); (80, 8); (90, 9)]) /\
  (exists w s w' s', runs zorder (quiet zorder) rempty sempty (script [(true, 5); (true, 7); (true, 2); (true, 4); (false, 7)]) w s /\
     starts_at w 5 20 /\ runs zorder (quiet zorder) rempty sempty (script [(true, 5); (true, 7); (true, 2); (true, 4); (false, 7); (false, 5)]) w' s' /\
     walk w' 1000 = Some [(20, 2); (40, 4)]).
Proof.
  split; [|split].
  - edestruct (script_runs [(true, 5); (true, 1); (true, 2); (true, 9); (false, 5); (false, 9); (true, 7); (true, 3); (true, 4)]) as (s & R & _); [vm_compute; reflexivity|].
    edestruct (script_runs [(true, 5); (true, 1); (true, 2); (true, 9); (false, 5); (false, 9); (true, 7); (true, 3); (true, 4); (false, 2)]) as (s' & R' & _); [vm_compute; reflexivity|].
    eexists; exists s; eexists; exists s'. split; [exact R|]. split; [starts|]. split; [exact R'|vm_compute; reflexivity].
  - edestruct (script_runs [(true, 9); (true, 5); (true, 8); (true, 7); (false, 5); (false, 7); (true, 7); (true, 1); (true, 4); (false, 4)]) as (s & R & _); [vm_compute; reflexivity|].
    edestruct (script_runs [(true, 9); (true, 5); (true, 8); (true, 7); (false, 5); (false, 7); (true, 7); (true, 1); (true, 4); (false, 4); (false, 7)]) as (s' & R' & _); [vm_compute; reflexivity|].
    eexists; exists s; eexists; exists s'. split; [exact R|]. split; [starts|]. split; [exact R'|vm_compute; reflexivity].
  - edestruct (script_runs [(true, 5); (true, 7); (true, 2); (true, 4); (false, 7)]) as (s & R & _); [vm_compute; reflexivity|].
    edestruct (script_runs [(true, 5); (true, 7); (true, 2); (true, 4); (false, 7); (false, 5)]) as (s' & R' & _); [vm_compute; reflexivity|].
    eexists; exists s; eexists; exists s'. split; [exact R|]. split; [starts|]. split; [exact R'|vm_compute; reflexivity].
Qed.

(** ** C31 *)
(** Swapping exchanges the contents (this is a step of [C30_delete_partial] too). *)
Theorem C31_swap_partial : forall o l w s a b x y, good_order o -> runs o (quiet o) rempty sempty l w s -> a <> b ->
  hget (s_ents s) a = Some x -> hget (s_ents s) b = Some y ->
  exists w', rbtree_swap w a b = Some w' /\ walk w' a = Some (e_items y) /\ walk w' b = Some (e_items x) /\
    rbtree_count w' a = rbtree_count w b /\ rbtree_count w' b = rbtree_count w a /\ addrs (rw_nodes w') = addrs (rw_nodes w) /\
    addrs (rw_trees w') = addrs (rw_trees w) /\ rw_rel w' = rw_rel w /\
    forall c z, c <> a -> c <> b -> hget (s_ents s) c = Some z -> walk w' c = Some (e_items z).
Proof.
  intros o l w s a b x y G R N HA HB. pose proof (runs_inv _ _ _ _ _ _ G R true (inv_empty o)) as I.
  destruct (swap_ok false o w s a b x y I N HA HB) as (w' & A & D & E1 & E2). exists w'. split; [auto|].
  assert (SB : forall z, hget (hset (s_ents s) a z) b = Some y) by (intros z; rewrite hget_hset_other by auto; exact HB).
  destruct (observe _ _ _ _ a (Ent (e_items y) (e_nil y) (e_impl x)) G D) as (A1 & _ & A3 & _); [cbn [s_ents]; rewrite hget_hset_other by auto; eapply hget_hset_same; eauto|].
  destruct (observe _ _ _ _ b (Ent (e_items x) (e_nil x) (e_impl y)) G D) as (B1 & _ & B3 & _); [cbn [s_ents]; eapply hget_hset_same; apply SB|].
  destruct (observe _ _ _ _ _ _ G I HA) as (_ & _ & C1 & _). destruct (observe _ _ _ _ _ _ G I HB) as (_ & _ & C2 & _).
  cbn [e_items] in *. do 2 (split; [auto|]). split; [congruence|]. split; [congruence|]. do 2 (split; [auto|]).
  split; [rewrite (i_rel _ _ _ _ D), (i_rel _ _ _ _ I); reflexivity|].
  intros c z N1 N2 HC. destruct (observe _ _ _ _ c z G D) as (A5 & _); [cbn [s_ents]; rewrite !hget_hset_other by auto; exact HC|exact A5].
Qed.
(** But the trees are not independent: each keeps using the sentinel inside the other.
    Releasing one makes the next insertion into the other a use of freed memory. *)
Definition two_swapped : list (renv * rop) := [(okenv 1, OCreate); (okenv 3, OCreate); (okenv 10, OInsert 1 5); (okenv 0, OSwap 1 3)].
Theorem C31_independent_refuted : exists w w', rexecs zorder rempty two_swapped = Some w /\
  walk w 1 = Some [] /\ walk w 3 = Some [(10, 5)] /\
  rexec zorder (okenv 0) w (ORelease 1) = Some (STATUS_SUCCESS, 0, w') /\
  rexec zorder (okenv 20) w' (OInsert 3 9) = None /\ rexec zorder (okenv 20) w (OInsert 3 9) <> None.
Proof.
  eexists; eexists. split; [vm_compute; reflexivity|]. do 2 (split; [vm_compute; reflexivity|]). split; [vm_compute; reflexivity|].
  split; [vm_compute; reflexivity|vm_compute; discriminate].
Qed.
(** And the minimum of an empty swapped tree is not its nil node. *)
Theorem C31_minimum_refuted : exists w r, rexecs zorder rempty two_swapped = Some w /\ walk w 1 = Some [] /\
  root w 1 = Some r /\ nil_ w 1 = Some r /\ minimum_node w 1 r <> Some r.
Proof. eexists; eexists. split; [vm_compute; reflexivity|]. do 3 (split; [vm_compute; reflexivity|]). vm_compute. discriminate. Qed.
Example C31_example : exists w, rexecs zorder rempty (two_swapped ++ [(okenv 11, OInsert 3 4); (okenv 12, OInsert 1 6); (okenv 0, OSwap 1 3); (okenv 0, ORelease 3); (okenv 13, OInsert 1 3)]) = Some w /\
  walk w 1 = Some [(13, 3); (11, 4); (10, 5)].
Proof. eexists. split; vm_compute; reflexivity. Qed.

(** ** C48 *)
Theorem C48_rbtree_create : forall v w, rbtree_create v w =
  if ok (re_alloc v) then (STATUS_SUCCESS, Some (re_tree v),
    RW ((re_nil v, RN (re_nil v) (re_nil v) (re_nil v) (re_nil v) false) :: rw_nodes w)
       ((re_tree v, RT (re_nil v) (re_nil v) (re_nil v) 0) :: rw_trees w) (rw_rel w))
  else (ERROR_GENERAL_OUT_OF_MEMORY, None, w).
Proof. intros. unfold rbtree_create. destruct (ok (re_alloc v)); reflexivity. Qed.
(** When nothing fails to be released, live memory is exactly that of the live trees:
    their headers, their sentinels and the nodes of their elements. *)
Theorem C48_rbtree_memory : forall o l w s, good_order o -> runs o (quiet o) rempty sempty l w s ->
  Forall (fun x => forall c, ok (re_child (fst x) c) = true /\ ok (re_reclaim (fst x) c) = true /\ ok (re_reclaimt (fst x) c) = true) l ->
  (forall t, In t (addrs (rw_trees w)) <-> exists e, hget (s_ents s) t = Some e) /\
  (forall a, In a (addrs (rw_nodes w)) <-> exists t e, hget (s_ents s) t = Some e /\ (a = e_nil e \/ In a (map fst (e_items e)))).
Proof.
  intros o l w s G R K. pose proof (runs_inv _ _ _ _ _ _ G R true (inv_empty o)) as I. destruct (runs_live o l w s G R K) as [L1 L2]. split.
  - intros t. rewrite L2, live_iff. destruct (hget (s_ents s) t); split; eauto; [discriminate|congruence|intros [? ?]; discriminate].
  - intros a. rewrite L1. split.
    + intros H. apply fl_in in H. destruct H as (t & e & A & B). apply in_hget in A; [|apply I]. exists t, e. split; [auto|].
      unfold foot in B. apply cnt_in_iff in B. destruct B as [B|B]; auto.
    + intros (t & e & A & B). pose proof (fl_one foot _ _ _ a A) as F. assert (C : cnt a (foot e) <> 0). { apply cnt_in_iff. unfold foot. destruct B as [->|B]; cbn; auto. }
      pose proof (cnt_nonneg a (foot e)). lia.
Qed.
Theorem C48_rbtree_insert : forall o v w t r h, hget (rw_trees w) t = Some h -> ok (re_alloc v) = false -> rbtree_insert o v w t r = Some (re_alloc v, w).
Proof. intros o v w t r h H K. unfold rbtree_insert, nil_. rewrite H, K. reflexivity. Qed.

Print Assumptions C28_put_sorted.
Print Assumptions C28_insert_refines.
Print Assumptions C28_contents.
Print Assumptions C28_neighbours.
Print Assumptions C28_insert_all.
Print Assumptions C29_height.
Print Assumptions C30_delete_refuted.
Print Assumptions C30_delete_only_refuted.
Print Assumptions C30_lost_refuted.
Print Assumptions C30_delete_partial.
Print Assumptions C30_contents_partial.
Print Assumptions C30_first_delete_partial.
Print Assumptions C30_clear.
Print Assumptions C30_release.
Print Assumptions C31_swap_partial.
Print Assumptions C31_independent_refuted.
Print Assumptions C31_minimum_refuted.
Print Assumptions C48_rbtree_create.
Print Assumptions C48_rbtree_memory.
Print Assumptions C48_rbtree_insert.
