(** Proofs about releases that may fail in part. *)
From Verif Require Import Base Status MemModel Heap RelModel RelSpec.

Lemma ok_true : forall e, ok e = true -> e = STATUS_SUCCESS.
Proof. intros e H. unfold ok in H. apply Z.eqb_eq in H. exact H. Qed.
Lemma ok_false : forall e, ok e = false -> e <> STATUS_SUCCESS.
Proof. intros e H K. subst e. discriminate. Qed.
Lemma ok_neq : forall e, e <> STATUS_SUCCESS -> ok e = false.
Proof. intros e H. destruct (ok e) eqn:E; [apply ok_true in E; congruence|reflexivity]. Qed.

Lemma owns_head : forall h p l, owns h p l -> exists t, l = p :: t.
Proof. intros h p l H. inversion H; subst. eauto. Qed.
Lemma owns_in : forall h qs ls q, Forall2 (owns h) qs ls -> In q qs -> In q (concat ls).
Proof.
  intros h qs ls q H. induction H as [|x l qs ls O _ IH]; intros I; [destruct I|]. cbn. apply in_or_app.
  destruct I as [->|I]; [left|right; auto]. apply owns_head in O. destruct O as [t ->]. left. reflexivity.
Qed.
Lemma some_in : forall x, x <> 0 -> some x = [x].
Proof. intros x H. unfold some. destruct (Z.eqb_spec x 0); [congruence|reflexivity]. Qed.
Lemma children_holds : forall b q, In q (children b) -> In q (holds b).
Proof. intros b q H. destruct b; cbn in *; auto; repeat rewrite in_app_iff; auto; tauto. Qed.
Lemma fits_frame : forall h h' b, fits h b -> (forall q, In q (holds b) -> hget h' q = hget h q) -> fits h' b.
Proof.
  intros h h' b F E. destruct b; cbn in *; auto;
    repeat match goal with
    | H : _ /\ _ |- _ => destruct H
    | |- _ /\ _ => split
    | |- _ -> _ => intro
    end;
    (rewrite E; [auto|]); rewrite ?in_app_iff; unfold some in *;
    try (destruct (Z.eqb_spec i 0)); try (destruct (Z.eqb_spec o 0)); cbn; auto; try tauto;
    repeat match goal with |- context [?x =? 0] => destruct (Z.eqb_spec x 0) end; cbn; auto; try tauto; try congruence.
Qed.
Lemma owns_frame_n : forall n h h' p l, (length l <= n)%nat -> owns h p l -> (forall q, In q l -> hget h' q = hget h q) -> owns h' p l.
Proof.
  induction n as [|n IH]; intros h h' p l L O E; inversion O as [p' b ls B F R A]; subst; cbn in L; [lia|].
  assert (I : forall q, In q (holds b) -> hget h' q = hget h q) by (intros q I; apply E; right; eapply owns_in; eauto).
  apply Owns with (b := b).
  - rewrite E; [exact B|left; reflexivity].
  - eapply fits_frame; eauto.
  - intros q c Q C. rewrite I in C by (apply children_holds; exact Q). eapply R; eauto.
  - assert (E2 : forall q, In q (concat ls) -> hget h' q = hget h q) by (intros q Q; apply E; right; exact Q).
    assert (L2 : (length (concat ls) <= n)%nat) by lia. clear -A E2 L2 IH.
    induction A as [|x l qs ls O A IHA]; constructor.
    + eapply IH; [|exact O|]; [cbn in L2; rewrite app_length in L2; lia|]. intros q Q. apply E2. cbn. apply in_or_app. auto.
    + apply IHA; [intros q Q; apply E2; cbn; apply in_or_app; auto|cbn in L2; rewrite app_length in L2; lia].
Qed.
Lemma owns_frame : forall h h' p l, owns h p l -> (forall q, In q l -> hget h' q = hget h q) -> owns h' p l.
Proof. intros. eapply owns_frame_n; eauto. Qed.
Lemma owns_live_n : forall n h p l q, (length l <= n)%nat -> owns h p l -> In q l -> hget h q <> None.
Proof.
  induction n as [|n IH]; intros h p l q L O I; inversion O as [p' b ls B F R A]; subst; cbn in L; [lia|].
  destruct I as [<-|I]; [congruence|].
  assert (L2 : (length (concat ls) <= n)%nat) by lia. clear -A L2 IH I.
  induction A as [|x l qs ls O A IHA]; [destruct I|]. cbn in *. rewrite app_length in L2. apply in_app_or in I.
  destruct I as [I|I]; [eapply (IH h x l); eauto; lia|apply IHA; auto; lia].
Qed.
Lemma owns_live : forall h p l q, owns h p l -> In q l -> hget h q <> None.
Proof. intros. eapply owns_live_n; eauto. Qed.

(** What a piece of a release that is responsible for the blocks [X] does; [C]: no thread's error is in the way. *)
Definition does (v : renv) (c : rel Z) (s : rs) (X : list Z) (C : Prop) : Prop :=
  exists e s', c s = Some (e, s') /\ hwf (r_h s') /\ same_but (r_h s) (r_h s') X /\ (r_n s <= r_n s')%nat /\
    (e = STATUS_SUCCESS -> forall q, In q X -> hget (r_h s') q = None \/ hget (r_h s) q = Some Fd) /\
    (C -> taken v s -> gone (r_h s') X) /\
    (C -> gone (r_h s') X -> e = STATUS_SUCCESS).

Lemma give_does : forall v q s f C, hwf (r_h s) -> hget (r_h s) q <> None ->
  (f STATUS_SUCCESS <> STATUS_SUCCESS -> ~ C) -> (forall a, ok a = false -> f a <> STATUS_SUCCESS) ->
  does v (do! a <- give v q; rret (f a)) s [q] C.
Proof.
  intros v q s f C W L G B. unfold does, rbind, give. destruct (hget (r_h s) q) as [b|] eqn:E; [|congruence]. clear L.
  destruct (ok (r_an v (r_n s))) eqn:K; unfold rret.
  - pose proof (ok_true _ K) as K2. exists (f STATUS_SUCCESS), (RS (hdel (r_h s) q) (S (r_n s))). rewrite K2. refine (conj eq_refl (conj _ (conj _ (conj _ (conj _ (conj _ _)))))); cbn.
    + apply hdel_wf; exact W.
    + intros x N. rewrite hget_hdel by exact W. destruct (Z.eqb_spec x q) as [->|]; [exfalso; apply N; left; reflexivity|reflexivity].
    + lia.
    + intros _ x [<-|[]]. left. rewrite hget_hdel, Z.eqb_refl by exact W. reflexivity.
    + intros _ _ x [<-|[]]. rewrite hget_hdel, Z.eqb_refl by exact W. reflexivity.
    + intros CC _. destruct (Z.eq_dec (f STATUS_SUCCESS) STATUS_SUCCESS) as [|N]; [assumption|exfalso; exact (G N CC)].
  - exists (f (r_an v (r_n s))), (RS (r_h s) (S (r_n s))). refine (conj eq_refl (conj _ (conj _ (conj _ (conj _ (conj _ _)))))); cbn.
    + exact W.
    + intros x _. reflexivity.
    + lia.
    + intros S. exfalso. exact (B _ K S).
    + intros _ T. specialize (T (r_n s) (le_n _)). rewrite T in K. discriminate.
    + intros _ H. specialize (H q (or_introl eq_refl)). congruence.
Qed.
Lemma close_does : forall v q s C, hwf (r_h s) -> hget (r_h s) q = Some Fd -> does v (do! _ <- give v q; rret STATUS_SUCCESS) s [q] C.
Proof.
  intros v q s C W E. unfold does, rbind, give, rret. rewrite E.
  exists STATUS_SUCCESS, (RS (if ok (r_an v (r_n s)) then hdel (r_h s) q else r_h s) (S (r_n s))). refine (conj eq_refl (conj _ (conj _ (conj _ (conj _ (conj _ _)))))); cbn.
  - destruct (ok _); [apply hdel_wf; exact W|exact W].
  - intros x N. destruct (ok _); [|reflexivity]. rewrite hget_hdel by exact W. destruct (Z.eqb_spec x q) as [->|]; [exfalso; apply N; left; reflexivity|reflexivity].
  - lia.
  - intros _ x [<-|[]]. right. exact E.
  - intros _ T x [<-|[]]. rewrite (T (r_n s) (le_n _)). change (ok STATUS_SUCCESS) with true. cbn iota. rewrite hget_hdel, Z.eqb_refl by exact W. reflexivity.
  - reflexivity.
Qed.

(** What a step is responsible for. *)
Definition part (h : heap blk) (x : step) (l : list Z) : Prop :=
  match x with
  | Rel q => owns h q l /\ exists b, hget h q = Some b /\ resource b
  | Give q o => l = [q] /\ hget h q <> None /\ o <> Some STATUS_SUCCESS
  | Join q _ => l = [q] /\ hget h q <> None
  | Close q => l = [q] /\ hget h q = Some Fd
  | Put _ => l = []
  | Pops _ ns => l = [] /\ ns = []
  | Drain _ _ _ => False
  end.
Definition calm (x : step) : Prop := match x with Join _ c => c = STATUS_SUCCESS | _ => True end.
Definition is_put (x : step) : bool := match x with Put _ => true | _ => false end.
Fixpoint final (b : blk) (l : list step) : blk :=
  match l with [] => b | Put c :: t => final c t | _ :: t => final b t end.

Lemma part_frame : forall h h' x l, part h x l -> (forall q, In q l -> hget h' q = hget h q) -> part h' x l.
Proof.
  intros h h' x l P E. destruct x; cbn in *; auto.
  - destruct P as (O & b & B & R). split; [eapply owns_frame; eauto|]. exists b. rewrite E; [auto|]. apply owns_head in O. destruct O as [t ->]. left. reflexivity.
  - destruct P as (-> & H & H2). rewrite E by (left; reflexivity). auto.
  - destruct P as (-> & H). rewrite E by (left; reflexivity). auto.
  - destruct P as (-> & H). rewrite E by (left; reflexivity). auto.
Qed.
Lemma parts_frame : forall h h' body ls, Forall2 (part h) body ls -> (forall q, In q (concat ls) -> hget h' q = hget h q) -> Forall2 (part h') body ls.
Proof.
  intros h h' body ls A. induction A as [|x l body ls P A IH]; intros E; constructor.
  - eapply part_frame; [exact P|]. intros q Q. apply E. cbn. apply in_or_app. auto.
  - apply IH. intros q Q. apply E. cbn. apply in_or_app. auto.
Qed.
Lemma step_does : forall v n p x l s, hwf (r_h s) -> part (r_h s) x l -> is_put x = false -> NoDup l -> (length l <= n)%nat ->
  (forall s q l, hwf (r_h s) -> whole (r_h s) q l -> (length l <= n)%nat -> does v (release_at v n q) s l (no_errors (r_h s) l)) ->
  does v (run1 v (release_at v n) p x) s l (calm x /\ no_errors (r_h s) l).
Proof.
  intros v n p x l s W P U ND L IH. destruct x; cbn in *; try discriminate.
  - destruct P as (O & B). destruct (IH s q l W (conj O (conj ND B)) L) as (e & s' & A1 & A2 & A3 & A4 & A5 & A6 & A7).
    exists e, s'. repeat split; try assumption; try apply A2; tauto.
  - destruct P as (-> & H & N). apply give_does; [exact W|exact H|intros K; exfalso; apply K; reflexivity|]. intros a A. rewrite A. apply ok_false in A. destruct e; congruence.
  - destruct P as (-> & H). apply give_does; [exact W|exact H|cbn; tauto|]. intros a A. rewrite A. discriminate.
  - destruct P as (-> & H). apply close_does; auto.
  - destruct P as (-> & ->). exists STATUS_SUCCESS, s. repeat split; auto; try apply W; intros; try contradiction. intros q [].
  - destruct P.
Qed.

Lemma nodup_app : forall (a b : list Z), NoDup (a ++ b) -> NoDup a /\ NoDup b /\ forall x, In x a -> ~ In x b.
Proof.
  induction a as [|y a IH]; cbn; intros b H; [repeat split; auto; constructor|]. inversion H; subst.
  destruct (IH b H3) as (A & B & C). repeat split; auto; [constructor; auto; intro; apply H2; apply in_or_app; auto|].
  intros x [<-|I] K; [apply H2; apply in_or_app; auto|eapply C; eauto].
Qed.

Lemma run_does : forall v n p m o, o <> Some STATUS_SUCCESS ->
  (forall s q l, hwf (r_h s) -> whole (r_h s) q l -> (length l <= n)%nat -> does v (release_at v n q) s l (no_errors (r_h s) l)) ->
  forall body ls s acc b0, hwf (r_h s) -> Forall2 (part (r_h s)) body ls -> NoDup (concat ls) -> ~ In p (concat ls) -> hget (r_h s) p = Some b0 -> b0 <> Fd ->
  (forall c, In (Put c) body -> c <> Fd) ->
  (length (concat ls) <= n)%nat -> (m = Stop -> acc = STATUS_SUCCESS) ->
  exists e s', run v (release_at v n) p m acc (body ++ [Give p o]) s = Some (e, s') /\ hwf (r_h s') /\ same_but (r_h s) (r_h s') (p :: concat ls) /\ (r_n s <= r_n s')%nat /\
    (e = STATUS_SUCCESS -> acc = STATUS_SUCCESS /\ forall q, In q (p :: concat ls) -> hget (r_h s') q = None \/ hget (r_h s) q = Some Fd) /\
    (Forall calm body /\ no_errors (r_h s) (concat ls) -> taken v s -> gone (r_h s') (p :: concat ls)) /\
    (acc = STATUS_SUCCESS -> Forall calm body /\ no_errors (r_h s) (concat ls) -> gone (r_h s') (p :: concat ls) -> e = STATUS_SUCCESS) /\
    (m <> Stop -> hget (r_h s') p = None \/ hget (r_h s') p = Some (final b0 body)).
Proof.
  intros v n p m o O IH. induction body as [|x body IHb]; intros ls s acc b0 W A ND NP B BF PF L ST.
  - inversion A; subst. cbn [app run concat].
    assert (D : does v (run1 v (release_at v n) p (Give p o)) s [p] True).
    { apply give_does; [exact W|congruence|intros K; exfalso; apply K; reflexivity|]. intros a K. rewrite K. apply ok_false in K. destruct o; congruence. }
    destruct D as (e & s' & D1 & D2 & D3 & D4 & D5 & D6 & D7).
    assert (SP : hget (r_h s') p = None \/ hget (r_h s') p = Some b0).
    { clear - D1 B W. unfold run1, rbind, give, rret in D1. rewrite B in D1. inversion D1; subst. destruct (ok (r_an v (r_n s))); cbn; [left; rewrite hget_hdel, Z.eqb_refl by exact W; reflexivity|right; exact B]. }
    cbn [run]. unfold rbind at 1. rewrite D1. cbn [final].
    exists (match m with Stop => if ok e then acc else e | First => if ok acc then e else acc | Last => if ok e then acc else e end), s'.
    split; [destruct m; [destruct (ok e)|..]; reflexivity|]. split; [exact D2|]. split; [exact D3|]. split; [exact D4|]. split; [|split; [|split]].
    + destruct m.
      * destruct (ok e) eqn:K; intros S; [split; [exact S|apply D5; apply ok_true; exact K]|]. apply ok_false in K. congruence.
      * destruct (ok acc) eqn:K; intros S; [split; [apply ok_true; exact K|apply D5; exact S]|]. apply ok_false in K. congruence.
      * destruct (ok e) eqn:K; intros S; [split; [exact S|apply D5; apply ok_true; exact K]|]. apply ok_false in K. congruence.
    + intros _. apply D6. exact I.
    + intros -> _ G. rewrite (D7 I G). destruct m; reflexivity.
    + intros _. exact SP.
  - inversion A as [|x' l body' ls' P A']; subst. cbn [concat] in *. apply nodup_app in ND. destruct ND as (ND1 & ND2 & DJ). rewrite in_app_iff in NP. rewrite app_length in L.
    destruct (is_put x) eqn:U.
    { destruct x; try discriminate. cbn in P. subst l. cbn [app run concat].
      unfold rbind at 1. unfold run1 at 1, rbind at 1, put, rret. rewrite B. cbn [app] in *.
      set (s1 := RS (hset (r_h s) p b) (r_n s)).
      assert (B1 : hget (r_h s1) p = Some b) by (cbn; eapply hget_hset_same; eauto).
      assert (E1 : forall q, q <> p -> hget (r_h s1) q = hget (r_h s) q) by (intros q N; cbn; apply hget_hset_other; exact N).
      assert (E2 : forall q, In q (concat ls') -> hget (r_h s1) q = hget (r_h s) q) by (intros q Q; apply E1; intros ->; tauto).
      assert (ST1 : m = Stop -> acc = STATUS_SUCCESS) by exact ST.
      assert (BF1 : b <> Fd) by (apply PF; left; reflexivity).
      destruct (IHb ls' s1 acc b) as (e & s' & R1 & R2 & R3 & R4 & R5 & R6 & R7 & R8); auto.
      { cbn. apply hset_wf; exact W. } { eapply parts_frame; eauto. } { intros c I. apply PF. right. exact I. }
      exists e, s'. split.
      { destruct m; cbn [ok]; [exact R1| |exact R1]. destruct (ok acc) eqn:K; [|exact R1]. apply ok_true in K. subst acc. exact R1. }
      split; [exact R2|]. split; [intros q Q; rewrite R3 by exact Q; apply E1; intros ->; apply Q; left; reflexivity|]. split; [exact R4|]. split; [|split; [|split]].
      - intros S. destruct (R5 S) as [S1 S2]. split; [exact S1|]. intros q Q. destruct (S2 q Q) as [H|H]; [left; exact H|].
        destruct Q as [<-|Q]; [congruence|]. right. rewrite <- E2 by exact Q. exact H.
      - intros [C1 C2] T. apply R6; [|exact T]. split; [inversion C1; assumption|]. intros q t c Q H. rewrite E2 in H by exact Q. eapply C2; eauto.
      - intros S [C1 C2]. apply R7; [exact S|]. split; [inversion C1; assumption|]. intros q t c Q H. rewrite E2 in H by exact Q. eapply C2; eauto.
      - cbn [final]. exact R8. }
    destruct (step_does v n p x l s W P U ND1 ltac:(lia) IH) as (e1 & s1 & D1 & D2 & D3 & D4 & D5 & D6 & D7).
    cbn [app run]. unfold rbind at 1. rewrite D1.
    assert (E2 : forall q, In q (concat ls') -> hget (r_h s1) q = hget (r_h s) q) by (intros q Q; apply D3; intro K; exact (DJ q K Q)).
    assert (B1 : hget (r_h s1) p = Some b0) by (rewrite D3; [exact B|tauto]).
    assert (FB : final b0 (x :: body) = final b0 body) by (destruct x; try discriminate; reflexivity).
    assert (NX : forall q, In q l -> ~ In q (p :: concat ls')) by (intros q Q [<-|K]; [tauto|exact (DJ q Q K)]).
    set (acc1 := match m with Stop => acc | First => if ok acc then e1 else acc | Last => if ok e1 then acc else e1 end).
    destruct (match m with Stop => ok e1 | _ => true end) eqn:GO.
    { destruct (IHb ls' s1 acc1 b0) as (e & s' & R1 & R2 & R3 & R4 & R5 & R6 & R7 & R8); auto; try tauto.
      { eapply parts_frame; eauto. } { intros c I. apply PF. right. exact I. } { lia. } { intros ->. apply ST. reflexivity. }
      assert (AC : acc1 = STATUS_SUCCESS -> acc = STATUS_SUCCESS /\ e1 = STATUS_SUCCESS).
      { unfold acc1. destruct m; [intros ->; split; [reflexivity|apply ok_true; exact GO]| |].
        - destruct (ok acc) eqn:K; intros S; [split; [apply ok_true; exact K|exact S]|]. apply ok_false in K. congruence.
        - destruct (ok e1) eqn:K; intros S; [split; [exact S|apply ok_true; exact K]|]. apply ok_false in K. congruence. }
      assert (CA : acc = STATUS_SUCCESS -> e1 = STATUS_SUCCESS -> acc1 = STATUS_SUCCESS) by (unfold acc1; intros -> ->; destruct m; reflexivity).
      assert (EX : forall q, In q l -> hget (r_h s') q = hget (r_h s1) q) by (intros q Q; apply R3; apply NX; exact Q).
      exists e, s'. split; [unfold acc1 in R1; destruct m; [rewrite GO|..]; exact R1|]. split; [exact R2|]. split.
      { intros q Q. rewrite R3, D3; [reflexivity| |]; intro K; apply Q; cbn in *; rewrite in_app_iff; tauto. }
      split; [lia|]. rewrite FB. split; [|split; [|split; [|exact R8]]].
      - intros S. destruct (R5 S) as [S1 S2]. destruct (AC S1) as [S3 S4]. split; [exact S3|]. intros q Q. cbn in Q. rewrite in_app_iff in Q.
        destruct Q as [<-|[Q|Q]].
        + destruct (S2 p (or_introl eq_refl)) as [H|H]; [left; exact H|congruence].
        + rewrite EX by exact Q. apply D5; auto.
        + rewrite <- (E2 q Q). apply S2. right. exact Q.
      - intros [C1 C2] T q Q. inversion C1; subst. cbn in Q. rewrite in_app_iff in Q.
        assert (Hl : gone (r_h s1) l) by (apply D6; [split; [assumption|]|exact T]; intros q' t c Q'; apply C2; apply in_or_app; auto).
        assert (Hr : gone (r_h s') (p :: concat ls')).
        { apply R6; [split; [assumption|]|].
          - intros q' t c Q' H'. rewrite E2 in H' by exact Q'. apply (C2 q' t c); [apply in_or_app; auto|exact H'].
          - intros k K. apply T. lia. }
        destruct Q as [<-|[Q|Q]]; [apply Hr; left; reflexivity|rewrite EX by exact Q; apply Hl; exact Q|apply Hr; right; exact Q].
      - intros S [C1 C2] G. inversion C1; subst. apply R7.
        + apply CA; [reflexivity|]. apply D7; [split; [assumption|]; intros q' t c Q'; apply C2; apply in_or_app; auto|].
          intros q Q. rewrite <- EX by exact Q. apply G. cbn. rewrite in_app_iff. auto.
        + split; [assumption|]. intros q' t c Q' H'. rewrite E2 in H' by exact Q'. apply (C2 q' t c); [apply in_or_app; auto|exact H'].
        + intros q Q. apply G. cbn in *. rewrite in_app_iff. tauto. }
    destruct m; try discriminate. exists e1, s1. rewrite GO. split; [reflexivity|]. split; [exact D2|]. split.
    { intros q Q. apply D3. intro K. apply Q. cbn. rewrite in_app_iff. auto. }
    split; [exact D4|]. apply ok_false in GO. split; [intros S; congruence|]. split; [|split; [|congruence]].
    + intros [C1 C2] T. exfalso. apply GO. inversion C1; subst. assert (C : calm x /\ no_errors (r_h s) l) by (split; [assumption|]; intros q' t c Q'; apply C2; apply in_or_app; auto).
      apply D7; [exact C|]. apply D6; assumption.
    + intros S [C1 C2] G. apply D7; [|intros q Q; apply G; cbn; rewrite in_app_iff; auto]. inversion C1; subst. split; [assumption|]. intros q' t c Q'; apply C2; apply in_or_app; auto.
Qed.

From Coq Require Import Sorting.Permutation.
Lemma owns_leaf : forall h x l b, owns h x l -> hget h x = Some b -> holds b = [] -> l = [x].
Proof. intros h x l b O B H. inversion O as [p' b' ls B' F R A]; subst. rewrite B in B'. injection B' as <-. rewrite H in A. inversion A. reflexivity. Qed.
(** The steps of a release function but the last, which gives back the struct, and what they are responsible for. *)
Definition shaped (h : heap blk) (p : Z) (b : blk) (ls : list (list Z)) : Prop := exists m body o ls',
  release_fn h p b = Some (m, body ++ [Give p o]) /\ o <> Some STATUS_SUCCESS /\ Forall2 (part h) body ls' /\ Permutation (concat ls') (concat ls) /\
  (forall c, In (Put c) body -> c <> Fd) /\ ((forall t c, b = Thread t c -> c = STATUS_SUCCESS) -> Forall calm body).
Lemma rel_part : forall h x l, owns h x l -> (forall c, hget h x = Some c -> resource c) -> part h (Rel x) l.
Proof. intros h x l O R. cbn. split; [exact O|]. inversion O as [p' b ls B F R' A]; subst. eauto. Qed.
Lemma clear_parts : forall h l ls, Forall2 (owns h) l ls -> (forall q c, In q l -> hget h q = Some c -> resource c) ->
  exists ls', Forall2 (part h) (clear l) ls' /\ concat ls' = concat ls.
Proof.
  intros h l ls A. induction A as [|x k l ls O A IH]; intros R; [exists []; split; [constructor|reflexivity]|].
  destruct IH as (ls' & P & E); [intros q c Q; apply R; right; exact Q|]. exists ([] :: k :: ls'). split; [|cbn; rewrite E; reflexivity].
  cbn [clear]. constructor; [reflexivity|]. constructor; [|exact P]. apply rel_part; [exact O|]. intros c. apply R. left. reflexivity.
Qed.
Lemma rels_parts : forall h l ls, Forall2 (owns h) l ls -> (forall q c, In q l -> hget h q = Some c -> resource c) -> Forall2 (part h) (map Rel l) ls.
Proof.
  intros h l ls A. induction A as [|x k l ls O A IH]; intros R; cbn; constructor.
  - apply rel_part; [exact O|]. intros c. apply R. left. reflexivity.
  - apply IH. intros q c Q. apply R. right. exact Q.
Qed.
Lemma some_parts : forall h x ls f, Forall2 (owns h) (some x) ls -> (forall l, x <> 0 -> owns h x l -> part h (f x) l) -> Forall2 (part h) (opt f x) ls.
Proof.
  intros h x ls f A P. unfold some, opt in *. destruct (Z.eqb_spec x 0) as [|N]; [inversion A; constructor|].
  inversion A as [|x' l t' ls' O A']; subst. inversion A'; subst. constructor; [auto|constructor].
Qed.
Lemma leaf_part : forall h x l b o, owns h x l -> hget h x = Some b -> holds b = [] -> o <> Some STATUS_SUCCESS -> part h (Give x o) l.
Proof. intros h x l b o O B H N. cbn. rewrite (owns_leaf h x l b O B H). split; [reflexivity|]. split; [congruence|exact N]. Qed.
Lemma in_opt_put : forall f x c, (forall q, f q <> Put c) -> ~ In (Put c) (opt f x).
Proof. intros f x c F. unfold opt. destruct (x =? 0); intros K; [destruct K|]. destruct K as [K|[]]. exact (F _ K). Qed.
Lemma calm_opt : forall f x, (forall q, calm (f q)) -> Forall calm (opt f x).
Proof. intros f x F. unfold opt. destruct (x =? 0); constructor; auto. Qed.
Lemma put_clear : forall l c, In (Put c) (clear l) -> c <> Fd.
Proof. induction l as [|x l IH]; cbn; intros c H; [destruct H|]. destruct H as [H|[H|H]]; [injection H as <-; discriminate|discriminate|auto]. Qed.
Lemma calm_clear : forall l, Forall calm (clear l).
Proof. induction l; cbn; repeat constructor; auto. Qed.

Ltac one A l := let x := fresh "x" in let O := fresh "O" in let A' := fresh "A" in
  inversion A as [|x l ? ? O A']; subst; clear A; inversion A'; subst; clear A'.
Ltac puts := let c := fresh "c" in let K := fresh "K" in intros c K; repeat rewrite in_app_iff in K; cbn in K;
  repeat match goal with H : _ \/ _ |- _ => destruct H | H : False |- _ => destruct H | H : Put _ = Put _ |- _ => injection H as <-; discriminate | H : _ = Put _ |- _ => discriminate H
         | H : In (Put _) (opt _ _) |- _ => exfalso; revert H; apply in_opt_put; intros; discriminate end.
Ltac calms := intros _; repeat (apply Forall_app; split); repeat first [apply calm_opt; intros; exact I | constructor | exact I].

Lemma release_shape : forall h p b ls, fits h b -> resource b -> (forall q c, In q (children b) -> hget h q = Some c -> resource c) ->
  Forall2 (owns h) (holds b) ls -> shaped h p b ls.
Proof.
  intros h p b ls F R C A. unfold shaped. destruct b; cbn [fits resource children holds] in *; try contradiction.
  - inversion A; subst. exists Stop, [], None, []. repeat split; try discriminate; try constructor. intros c [].
  - one A l. exists Stop, [Give region (Some ERROR_STACK_UNMAP); Put Zero], None, [l; []]. cbn [app release_fn concat]. repeat split; try discriminate; try (rewrite ?app_nil_r; apply Permutation_refl); try puts; try calms.
    constructor; [|repeat constructor]. eapply leaf_part; eauto; discriminate.
  - exists Last, (opt Rel st ++ [Put Zero]), None, (ls ++ [[]]). rewrite <- app_assoc. repeat split; try discriminate; try puts; try calms.
    + apply Forall2_app; [|repeat constructor]. apply some_parts; [exact A|]. intros l N O. apply rel_part; [exact O|]. intros c. apply C. rewrite some_in by exact N. left. reflexivity.
    + rewrite concat_app. cbn. rewrite app_nil_r. apply Permutation_refl.
  - unfold some in *. cbn [release_fn]. destruct (Z.eqb_spec value 0) as [|N].
    + inversion A; subst. exists Stop, [], None, []. repeat split; try discriminate; try constructor. intros c [].
    + one A l. exists Stop, [Put (Node 0); Rel value], None, [[]; l]. cbn [app concat]. repeat split; try discriminate; try (rewrite ?app_nil_r; apply Permutation_refl); try puts; try calms.
      constructor; [reflexivity|]. constructor; [|constructor]. apply rel_part; [exact O|]. intros c. apply C. left. reflexivity.
  - exists First, (map Rel nodes ++ [Put Zero]), None, (ls ++ [[]]). rewrite <- app_assoc. repeat split; try discriminate.
    + apply Forall2_app; [|repeat constructor]. apply rels_parts; auto.
    + rewrite concat_app. cbn. rewrite app_nil_r. apply Permutation_refl.
    + intros c K. rewrite in_app_iff, in_map_iff in K. destruct K as [(q & K & _)|[K|[]]]; [discriminate|injection K as <-; discriminate].
    + intros _. apply Forall_app. split; [|repeat constructor]. clear. induction nodes; cbn; constructor; auto. exact I.
  - destruct (clear_parts h nodes ls A C) as (ls' & P & E). exists Stop, (clear nodes), None, ls'. repeat split; try discriminate; auto.
    + rewrite E. apply Permutation_refl.
    + apply put_clear.
    + intros _. apply calm_clear.
  - subst. inversion A; subst. exists Stop, [], None, []. repeat split; try discriminate; try constructor. intros c [].
  - one A l. exists Last, [Rel list], None, [l]. cbn [app release_fn concat]. repeat split; try discriminate; try (apply Permutation_refl); try puts; try calms.
    constructor; [|constructor]. apply rel_part; [exact O|]. intros c. apply C. left. reflexivity.
  - destruct F as [F1 F2]. inversion A as [|x1 l1 t1 k1 O1 A1]; subst. inversion A1 as [|x2 l2 t2 k2 O2 A2]; subst. clear A A1.
    exists First, ((if ctx =? 0 then [] else [Put (Disc cbv codes 0); Rel ctx]) ++ [Give cbv None; Give codes None]), None, ((if ctx =? 0 then [] else [[]; concat k2]) ++ [l1; l2]).
    unfold some in *. cbn [release_fn]. rewrite <- app_assoc. split; [reflexivity|]. split; [discriminate|]. split; [|split; [|split]].
    + apply Forall2_app; [|constructor; [eapply leaf_part; eauto; discriminate|constructor; [eapply leaf_part; eauto; discriminate|constructor]]].
      destruct (ctx =? 0); [constructor|]. one A2 l. cbn [concat]. rewrite app_nil_r. constructor; [reflexivity|]. constructor; [|constructor]. apply rel_part; [exact O|]. intros c. apply C. left. reflexivity.
    + rewrite concat_app. cbn [concat app]. destruct (ctx =? 0).
      * inversion A2; subst. apply Permutation_refl.
      * one A2 l. cbn [concat app]. rewrite !app_nil_r. rewrite (app_assoc l1 l2 l). apply Permutation_app_comm.
    + destruct (ctx =? 0); puts.
    + intros _. destruct (ctx =? 0); repeat constructor.
  - exists First, (opt Rel payload), None, ls. repeat split; try discriminate; try puts; try calms.
    + apply some_parts; [exact A|]. intros l N O. apply rel_part; [exact O|]. intros c. apply C. rewrite some_in by exact N. left. reflexivity.
    + apply Permutation_refl.
  - one A l. exists First, [Rel q], None, [l]. cbn [app release_fn concat]. repeat split; try discriminate; try (apply Permutation_refl); try puts; try calms.
    constructor; [|constructor]. apply rel_part; [exact O|]. intros c. apply C. left. reflexivity.
  - one A l. exists First, [Rel tree; Put Zero], None, [l; []]. cbn [app release_fn concat]. repeat split; try discriminate; try (rewrite ?app_nil_r; apply Permutation_refl); try puts; try calms.
    constructor; [|repeat constructor]. apply rel_part; [exact O|]. intros c. apply C. left. reflexivity.
  - one A l. exists First, [Pops waits []; Rel waits], None, [[]; l]. cbn [app release_fn concat]. rewrite F. repeat split; try discriminate; try (apply Permutation_refl); try puts; try calms.
    constructor; [split; reflexivity|]. constructor; [|constructor]. apply rel_part; [exact O|]. intros c. apply C. left. reflexivity.
  - destruct F as [F1 F2]. inversion A as [|x1 l1 t1 k1 O1 A1]; subst. inversion A1 as [|x2 l2 t2 k2 O2 A2]; subst. inversion A2; subst.
    exists First, [Give events None; Give fibers None; Put Zero], None, [l1; l2; []]. cbn [app release_fn concat]. repeat split; try discriminate; try (rewrite ?app_nil_r; apply Permutation_refl); try puts; try calms.
    constructor; [eapply leaf_part; eauto; discriminate|constructor; [eapply leaf_part; eauto; discriminate|repeat constructor]].
  - one A l. exists First, [Close ep; Put Zero], None, [l; []]. cbn [app release_fn concat]. repeat split; try discriminate; try (rewrite ?app_nil_r; apply Permutation_refl); try puts; try calms.
    repeat constructor; [eapply owns_leaf; eauto|exact F].
  - one A l. exists First, [Rel child], None, [l]. cbn [app release_fn concat]. repeat split; try discriminate; try (apply Permutation_refl); try puts; try calms.
    constructor; [|constructor]. apply rel_part; [exact O|]. intros c. apply C. left. reflexivity.
  - one A l. exists First, [Close fd; Put Zero], None, [l; []]. cbn [app release_fn concat]. repeat split; try discriminate; try (rewrite ?app_nil_r; apply Permutation_refl); try puts; try calms.
    repeat constructor; [eapply owns_leaf; eauto|exact F].
  - exists First, (opt (fun q => Give q None) buffer ++ [Put Zero]), None, (ls ++ [[]]). rewrite <- app_assoc. repeat split; try discriminate; try puts; try calms.
    + apply Forall2_app; [|repeat constructor]. apply some_parts; [exact A|]. intros l N O. eapply leaf_part; eauto; discriminate.
    + rewrite concat_app. cbn. rewrite app_nil_r. apply Permutation_refl.
  - destruct F as [F1 F2]. apply Forall2_app_inv_l in A. destruct A as (k1 & k2 & A1 & A2 & ->). apply Forall2_app_inv_l in A2. destruct A2 as (k3 & k4 & A3 & A4 & ->).
    exists First, (opt (fun q => Give q None) input ++ opt (fun q => Give q None) output ++ opt Rel queue ++ [Put Zero]), None, (k1 ++ k3 ++ k4 ++ [[]]).
    split; [cbn [release_fn]; rewrite <- !app_assoc; reflexivity|]. split; [discriminate|]. split; [|split; [|split; [puts|calms]]].
    + repeat apply Forall2_app; try (repeat constructor); (apply some_parts; [assumption|]); intros l N O; try (eapply leaf_part; eauto; discriminate).
      apply rel_part; [exact O|]. intros c. apply C. rewrite some_in by exact N. left. reflexivity.
    + rewrite !concat_app. cbn. rewrite app_nil_r. apply Permutation_refl.
  - exists First, (opt (fun q => Give q None) buffer), None, ls. repeat split; try discriminate; try puts; try calms.
    + apply some_parts; [exact A|]. intros l N O. eapply leaf_part; eauto; discriminate.
    + apply Permutation_refl.
  - exists Last, (opt (fun q => Give q None) context ++ [Put Zero]), None, (ls ++ [[]]). rewrite <- app_assoc. repeat split; try discriminate; try puts; try calms.
    + apply Forall2_app; [|repeat constructor]. apply some_parts; [exact A|]. intros l N O. eapply leaf_part; eauto; discriminate.
    + rewrite concat_app. cbn. rewrite app_nil_r. apply Permutation_refl.
  - one A l. exists Last, [Give array None], None, [l]. cbn [app release_fn concat]. repeat split; try discriminate; try (apply Permutation_refl); try puts; try calms.
    constructor; [|constructor]. eapply leaf_part; eauto; discriminate.
  - inversion A; subst. exists First, [Put Zero], None, [[]]. repeat split; try discriminate; try puts; try calms; repeat constructor.
  - one A l. exists Last, [Give sys (Some ERROR_THREAD_MUTEX_DESTROY); Put Zero], None, [l; []]. cbn [app release_fn concat]. repeat split; try discriminate; try (rewrite ?app_nil_r; apply Permutation_refl); try puts; try calms.
    constructor; [|repeat constructor]. eapply leaf_part; eauto; discriminate.
  - one A l. exists Last, [Give sys (Some ERROR_THREAD_COND_DESTROY); Put Zero], None, [l; []]. cbn [app release_fn concat]. repeat split; try discriminate; try (rewrite ?app_nil_r; apply Permutation_refl); try puts; try calms.
    constructor; [|repeat constructor]. eapply leaf_part; eauto; discriminate.
  - one A l. exists Last, [Join sys code; Put Zero], None, [l; []]. cbn [app release_fn concat]. repeat split; try discriminate; try (rewrite ?app_nil_r; apply Permutation_refl); try puts.
    + constructor; [|repeat constructor]. cbn. rewrite (owns_leaf h sys l Sys O F eq_refl). split; [reflexivity|congruence].
    + intros K. constructor; [cbn; eapply K; reflexivity|repeat constructor].
  - inversion A; subst. exists Stop, [], (Some ERROR_THREAD_MUTEX_UNLOCK), []. repeat split; try discriminate; try constructor. intros c [].
Qed.

Lemma release_does : forall v n s p l, hwf (r_h s) -> whole (r_h s) p l -> (length l <= n)%nat -> does v (release_at v n p) s l (no_errors (r_h s) l).
Proof.
  intros v n. induction n as [|n IH]; intros s p l W (O & ND & b & B & R) L; inversion O as [p' b' ls B' F C A]; subst; cbn in L; [lia|].
  rewrite B in B'. injection B' as <-.
  destruct (release_shape (r_h s) p b ls F R C A) as (m & body & o & ls' & E & NO & P & PM & PF & CM).
  inversion ND as [|? ? NP ND']; subst.
  assert (IFF : forall q, In q (concat ls') <-> In q (concat ls)) by (intros q; split; apply Permutation_in; [exact PM|apply Permutation_sym; exact PM]).
  destruct (run_does v n p m o NO IH body ls' s STATUS_SUCCESS b) as (e & s' & R1 & R2 & R3 & R4 & R5 & R6 & R7 & R8); auto.
  - eapply Permutation_NoDup; [apply Permutation_sym; exact PM|exact ND'].
  - intros K. apply NP. apply IFF. exact K.
  - intros ->. exact R.
  - rewrite (Permutation_length PM). lia.
  - assert (CC : no_errors (r_h s) (p :: concat ls) -> Forall calm body /\ no_errors (r_h s) (concat ls')).
    { intros N. split; [apply CM; intros t c ->; eapply (N p); [left; reflexivity|exact B]|]. intros q t c Q. apply N. right. apply IFF. exact Q. }
    assert (II : forall q, In q (p :: concat ls') <-> In q (p :: concat ls)) by (intros q; cbn; rewrite IFF; tauto).
    exists e, s'. split; [|split; [exact R2|split; [|split; [exact R4|split; [|split]]]]].
    + cbn [release_at]. rewrite B. destruct b; try (rewrite E; exact R1); cbn in F; contradiction.
    + intros q Q. apply R3. rewrite II. exact Q.
    + intros S q Q. apply R5; [exact S|]. apply II. exact Q.
    + intros N T q Q. apply R6; [apply CC; exact N|exact T|]. apply II. exact Q.
    + intros N G. apply R7; [reflexivity|apply CC; exact N|]. intros q Q. apply G. apply II. exact Q.
Qed.

(** What the release of a struct uses first *)
Definition touch (b : blk) : option Z :=
  match b with
  | Queue x | Mailbox x | Wrap x | Barrier x | Bigint x => Some x
  | Disc x _ c => if c =? 0 then Some x else None
  | Msg x | Obuf x => if x =? 0 then None else Some x
  | _ => None
  end.
Lemma touch_dead : forall v n s p b q, hget (r_h s) p = Some b -> touch b = Some q -> hget (r_h s) q = None -> release_at v n p s = None.
Proof.
  intros v n s p b q B T Q. destruct n as [|n]; [reflexivity|]. cbn [release_at]. rewrite B.
  destruct b; try discriminate; cbn in T; cbn [release_fn]; unfold opt;
    repeat match goal with H : (if ?c then _ else _) = Some _ |- _ => destruct c; try discriminate end; injection T as ->;
    try (cbn [app run]; unfold rbind at 1; cbn [run1]; destruct n; cbn [release_at]; [reflexivity|rewrite Q; reflexivity]);
    try (cbn [app run run1]; unfold rbind, give; rewrite Q; reflexivity).
Qed.
Lemma final_put : forall l b c, final b (l ++ [Put c]) = c.
Proof. induction l as [|x l IH]; intros b c; [reflexivity|]. cbn. destruct x; apply IH. Qed.
Lemma spent_shape : forall h p b m body o, spent b = true -> release_fn h p b = Some (m, body ++ [Give p o]) ->
  m <> Stop /\ (final b body = Zero \/ exists q, touch (final b body) = Some q /\ In q (holds b) /\ cleared b = false).
Proof.
  intros h p b m body o S E. destruct b; try discriminate; cbn in S; cbn [release_fn] in E;
  try match type of E with match ?g with _ => _ end = _ => destruct g as [[]|]; try discriminate end;
  injection E as <- E;
  (split; [discriminate|]);
  try (match type of E with ?l = _ => match l with
    | [?a; ?b; ?c; Give p None] => change l with ([a; b; c] ++ [Give p None]) in E
    | [?a; ?b; Give p None] => change l with ([a; b] ++ [Give p None]) in E
    | [?a; Give p None] => change l with ([a] ++ [Give p None]) in E
    | opt ?f ?x ++ [Put Zero; Give p None] => change l with (opt f x ++ [Put Zero] ++ [Give p None]) in E; rewrite app_assoc in E
    | map ?f ?x ++ [Put Zero; Give p None] => change l with (map f x ++ [Put Zero] ++ [Give p None]) in E; rewrite app_assoc in E
    end end); try (apply app_inj_tail in E; destruct E as [<- _]); try (left; reflexivity); try (left; apply final_put);
    try (right; cbn; eexists; split; [reflexivity|split; [left; reflexivity|reflexivity]]).
  - assert (K : (if ctx =? 0 then [] else [Put (Disc cbv codes 0); Rel ctx]) ++ [Give cbv None; Give codes None; Give p None]
        = ((if ctx =? 0 then [] else [Put (Disc cbv codes 0); Rel ctx]) ++ [Give cbv None; Give codes None]) ++ [Give p None]) by (rewrite <- app_assoc; reflexivity).
    rewrite K in E. apply app_inj_tail in E. destruct E as [<- _]. right. exists cbv. split; [|split; [left; reflexivity|reflexivity]].
    destruct (ctx =? 0) eqn:Z0; cbn; rewrite ?Z0; reflexivity.
  - unfold opt, some, touch in *. cbn [holds]. unfold some. destruct (payload =? 0) eqn:Z0; [discriminate|]. right. exists payload. cbn. rewrite Z0. split; [reflexivity|split; [left; reflexivity|reflexivity]].
  - left. rewrite <- (final_put (opt (fun q => Give q None) input ++ opt (fun q => Give q None) output ++ opt Rel queue) (Bsock input output queue) Zero). f_equal.
    assert (K : opt (fun q => Give q None) input ++ opt (fun q => Give q None) output ++ opt Rel queue ++ [Put Zero; Give p None]
        = ((opt (fun q => Give q None) input ++ opt (fun q => Give q None) output ++ opt Rel queue) ++ [Put Zero]) ++ [Give p None]) by (rewrite <- !app_assoc; reflexivity).
    rewrite K in E. apply app_inj_tail in E. destruct E as [<- _]. reflexivity.
  - unfold opt, some, touch in *. cbn [holds]. unfold some. destruct (buffer =? 0) eqn:Z0; [discriminate|]. right. exists buffer. cbn. rewrite Z0. split; [reflexivity|split; [left; reflexivity|reflexivity]].
Qed.
Lemma release_self : forall v n s p l b, hwf (r_h s) -> whole (r_h s) p l -> (length l <= n)%nat -> hget (r_h s) p = Some b -> spent b = true ->
  forall e s', release_at v n p s = Some (e, s') -> hget (r_h s') p = None \/ hget (r_h s') p = Some Zero \/
    exists c q, hget (r_h s') p = Some c /\ touch c = Some q /\ In q (holds b) /\ cleared b = false.
Proof.
  intros v n s p l b W (O & ND & b1 & B1 & R) L B SP e s' RR. rewrite B in B1. injection B1 as <-. inversion O as [p' b' ls B' F C A]; subst. rewrite B in B'. injection B' as <-.
  destruct n as [|n]; [cbn in L; lia|]. cbn in L.
  destruct (release_shape (r_h s) p b ls F R C A) as (m & body & o & ls' & E & NO & P & PM & PF & CM).
  inversion ND as [|? ? NP ND']; subst.
  destruct (run_does v n p m o NO (fun s q l W' H L' => release_does v n s q l W' H L') body ls' s STATUS_SUCCESS b) as (e1 & s1 & R1 & _ & _ & _ & _ & _ & _ & R8); auto.
  - eapply Permutation_NoDup; [apply Permutation_sym; exact PM|exact ND'].
  - intros K. apply NP. eapply Permutation_in; [exact PM|exact K].
  - intros ->. exact R.
  - rewrite (Permutation_length PM). lia.
  - assert (X : release_at v (S n) p s = Some (e1, s1)) by (cbn [release_at]; rewrite B; destruct b; try (rewrite E; exact R1); cbn in F; contradiction).
    rewrite X in RR. injection RR as <- <-.
    destruct (spent_shape _ _ _ _ _ _ SP E) as [M D]. destruct (R8 M) as [H|H]; [left; exact H|]. right. destruct D as [D|(q & D1 & D2 & D3)]; [left; rewrite H, D; reflexivity|].
    right. exists (final b body), q. auto.
Qed.
Lemma spent_futile : forall v v' n s p l b e s', hwf (r_h s) -> whole (r_h s) p l -> (length l <= n)%nat -> hget (r_h s) p = Some b -> spent b = true ->
  release_at v n p s = Some (e, s') -> hget (r_h s') p = None \/ gone (r_h s') (holds b) \/ cleared b = true -> futile v' p s'.
Proof.
  intros v v' n s p l b e s' W H L B S RR D. unfold futile, release.
  destruct (release_self v n s p l b W H L B S e s' RR) as [K|[K|(c & q & K & T & I & CL)]].
  - left. destruct (r_fuel v'); cbn [release_at]; [reflexivity|rewrite K; reflexivity].
  - destruct (r_fuel v'); cbn [release_at]; [left; reflexivity|rewrite K]. destruct (r_zero v'); [right; eauto|left; reflexivity].
  - left. destruct D as [D|[D|D]]; [congruence| |congruence]. eapply touch_dead; eauto.
Qed.

(** Lists keep what they have not released. *)
Lemma list_keeps : forall v n p, forall l ls s, hwf (r_h s) -> hget (r_h s) p = Some (List l) -> Forall2 (owns (r_h s)) l ls ->
  (forall q c, In q l -> hget (r_h s) q = Some c -> resource c) -> NoDup (p :: concat ls) -> (length (concat ls) <= n)%nat ->
  forall e s', run v (release_at v n) p Stop STATUS_SUCCESS (clear l ++ [Give p None]) s = Some (e, s') -> e <> STATUS_SUCCESS ->
  exists l', whole (r_h s') p l' /\ incl l' (p :: concat ls) /\ (forall q, In q l' -> q <> p -> hget (r_h s') q = hget (r_h s) q) /\ forall t c, hget (r_h s') p <> Some (Thread t c).
Proof.
  intros v n p. induction l as [|x l IH]; intros ls s W B A R ND L e s' RR NE.
  - inversion A; subst. cbn [clear app run] in RR. unfold rbind at 1 in RR. unfold run1, rbind, give, rret in RR. rewrite B in RR.
    destruct (ok (r_an v (r_n s))) eqn:K.
    + rewrite K in RR. injection RR as <- _. congruence.
    + rewrite K in RR. injection RR as <- <-. exists [p]. cbn. split; [|split; [intros y Y; exact Y|split; [intros q _ _; reflexivity|congruence]]].
      split; [|split; [exact ND|exists (List []); split; [exact B|exact I]]]. change [p] with (p :: concat []). eapply Owns; [exact B|exact I|intros q c []|constructor].
  - inversion A as [|? k ? ls0 O A']; subst. cbn [clear app run] in RR. unfold rbind at 1 in RR. unfold run1 at 1, rbind at 1, put, rret in RR. rewrite B in RR. cbn [ok] in RR. change (ok STATUS_SUCCESS) with true in RR. cbn iota in RR.
    set (s1 := RS (hset (r_h s) p (List l)) (r_n s)) in *. unfold rbind at 1 in RR. cbn [run1] in RR. cbn [concat] in *.
    inversion ND as [|? ? NP ND']; subst. apply nodup_app in ND'. destruct ND' as (ND1 & ND2 & DJ). rewrite in_app_iff in NP. rewrite app_length in L.
    assert (B1 : hget (r_h s1) p = Some (List l)) by (cbn; eapply hget_hset_same; eauto).
    assert (W1 : hwf (r_h s1)) by (cbn; apply hset_wf; exact W).
    assert (E1 : forall q, q <> p -> hget (r_h s1) q = hget (r_h s) q) by (intros q N; cbn; apply hget_hset_other; exact N).
    assert (Hx : In x k) by (apply owns_head in O; destruct O as [t ->]; left; reflexivity).
    assert (H : whole (r_h s1) x k).
    { split; [eapply owns_frame; [exact O|]; intros q Q; apply E1; intros ->; tauto|]. split; [exact ND1|].
      inversion O as [p' b' ls' B' F' C' A'']; subst. exists b'. rewrite E1 by (intros ->; tauto). split; [exact B'|]. eapply R; [left; reflexivity|exact B']. }
    destruct (release_does v n s1 x k W1 H ltac:(lia)) as (e1 & s2 & D1 & D2 & D3 & D4 & _). rewrite D1 in RR.
    assert (E2 : forall q, ~ In q k -> q <> p -> hget (r_h s2) q = hget (r_h s) q) by (intros q Q N; rewrite D3 by exact Q; apply E1; exact N).
    assert (B2 : hget (r_h s2) p = Some (List l)) by (rewrite D3 by tauto; exact B1).
    assert (A2 : Forall2 (owns (r_h s2)) l ls0).
    { assert (Q : forall q, In q (concat ls0) -> hget (r_h s2) q = hget (r_h s) q) by (intros q Q; apply E2; [intros K; exact (DJ q K Q)|intros ->; tauto]).
      clear -A' Q. induction A' as [|y m l ls O A IHA]; constructor; [eapply owns_frame; [exact O|]|apply IHA]; intros q K; apply Q; cbn; apply in_or_app; auto. }
    assert (NDp : NoDup (p :: concat ls0)) by (constructor; tauto).
    assert (R2 : forall q c, In q l -> hget (r_h s2) q = Some c -> resource c).
    { intros q c Q C. assert (QQ : In q (concat ls0)) by (eapply owns_in; eauto). rewrite E2 in C; [eapply R; [right; exact Q|exact C]|intros K; exact (DJ q K QQ)|intros ->; tauto]. }
    destruct (ok e1) eqn:K.
    + destruct (IH ls0 s2 D2 B2 A2 R2 NDp ltac:(lia) e s' RR NE) as (l' & I1 & I2 & I3 & I4). exists l'. split; [exact I1|]. split; [|split; [|exact I4]].
      * intros q Q. specialize (I2 q Q). cbn in *. rewrite in_app_iff. tauto.
      * intros q Q N. rewrite I3 by assumption. apply E2; [|exact N]. intros KK. specialize (I2 q Q). cbn in I2. destruct I2 as [<-|I2]; [congruence|exact (DJ q KK I2)].
    + injection RR as <- <-. exists (p :: concat ls0). split; [|split; [|split; [|congruence]]].
      * split; [|split; [exact NDp|exists (List l); split; [exact B2|exact I]]]. eapply Owns; [exact B2|exact I|exact R2|exact A2].
      * intros q Q. cbn in *. rewrite in_app_iff. tauto.
      * intros q Q N. cbn in Q. destruct Q as [<-|Q]; [congruence|]. apply E2; [intros KK; exact (DJ q KK Q)|exact N].
Qed.
Lemma single_keeps : forall v s p o e s', hget (r_h s) p <> None -> o <> Some STATUS_SUCCESS ->
  forall m r, run v r p m STATUS_SUCCESS [Give p o] s = Some (e, s') -> e <> STATUS_SUCCESS -> r_h s' = r_h s.
Proof.
  intros v s p o e s' B O m r RR NE. cbn [run] in RR. unfold rbind at 1 in RR. unfold run1, rbind, give, rret in RR.
  destruct (hget (r_h s) p); [|congruence]. destruct (ok (r_an v (r_n s))) eqn:K.
  - try rewrite K in RR. apply ok_true in K. rewrite K in RR. change (ok STATUS_SUCCESS) with true in RR. destruct m; injection RR as <- _; congruence.
  - try rewrite K in RR. destruct m; [|change (ok STATUS_SUCCESS) with true in RR; injection RR as _ <-; reflexivity|].
    + destruct (ok _) in RR; injection RR as _ <-; reflexivity.
    + injection RR as _ <-; reflexivity.
Qed.
Lemma keeps_whole : forall v n s p l b, hwf (r_h s) -> whole (r_h s) p l -> (length l <= n)%nat -> hget (r_h s) p = Some b -> keeps b ->
  forall e s', release_at v n p s = Some (e, s') -> e <> STATUS_SUCCESS ->
  exists l', whole (r_h s') p l' /\ incl l' l /\ (forall q, In q l' -> q <> p -> hget (r_h s') q = hget (r_h s) q) /\ forall t c, hget (r_h s') p <> Some (Thread t c).
Proof.
  intros v n s p l b W H L B K e s' RR NE. assert (H2 := H). destruct H2 as (O & ND & _). destruct n as [|n]; [inversion O; subst; cbn in L; lia|].
  cbn [release_at] in RR. rewrite B in RR.
  assert (SG : forall o m, o <> Some STATUS_SUCCESS -> run v (release_at v n) p m STATUS_SUCCESS [Give p o] s = Some (e, s') ->
    exists l', whole (r_h s') p l' /\ incl l' l /\ (forall q, In q l' -> q <> p -> hget (r_h s') q = hget (r_h s) q) /\ forall t c, hget (r_h s') p <> Some (Thread t c)).
  { intros o m NO E. rewrite (single_keeps v s p o e s' ltac:(congruence) NO m (release_at v n) E NE). exists l. split; [exact H|]. split; [intros q Q; exact Q|split; [reflexivity|]]. intros t c. rewrite B. destruct b; cbn in K; try contradiction; discriminate. }
  destruct b; cbn in K; try contradiction; cbn [release_fn] in RR.
  - eapply SG; [|exact RR]. discriminate.
  - inversion O as [p' b' ls B' F C A]; subst. rewrite B in B'. injection B' as <-. cbn [length] in L. exact (list_keeps v n p nodes ls s W B A C ND ltac:(lia) e s' RR NE).
  - subst payload. exact (SG None First ltac:(discriminate) RR).
  - subst buffer. exact (SG None First ltac:(discriminate) RR).
  - eapply SG; [|exact RR]. discriminate.
Qed.
Lemma stack_at : forall v n s p r, hget (r_h s) p = Some (Stack r) -> hget (r_h s) r = Some Sys -> r_an v (r_n s) <> STATUS_SUCCESS -> (1 <= n)%nat ->
  release_at v n p s = Some (ERROR_STACK_UNMAP, RS (r_h s) (S (r_n s))).
Proof.
  intros v n s p r B R N F. destruct n as [|n]; [lia|]. cbn [release_at]. rewrite B. cbn [release_fn run].
  unfold rbind at 1. unfold run1 at 1, rbind at 1, give. rewrite R. cbv zeta. rewrite !(ok_neq _ N). unfold rret. rewrite ?(ok_neq _ N). reflexivity.
Qed.

(** A wait list whose nodes are all taken back. *)
Lemma pops_taken : forall v m l ns s, hwf (r_h s) -> hget (r_h s) l = Some (Waits ns) -> (forall n, In n ns -> exists f, hget (r_h s) n = Some (Wnode f)) -> NoDup ns -> taken v s ->
  exists s', pops v (release_at v (S m)) l STATUS_SUCCESS ns s = Some (STATUS_SUCCESS, s') /\ hwf (r_h s') /\ hget (r_h s') l = Some (Waits []) /\ gone (r_h s') ns /\
    same_but (r_h s) (r_h s') (l :: ns) /\ (r_n s <= r_n s')%nat.
Proof.
  intros v m l. induction ns as [|n t IH]; intros s W B N ND T.
  - exists s. split; [reflexivity|]. split; [exact W|]. split; [exact B|]. split; [intros q []|]. split; [intros q _; reflexivity|lia].
  - destruct (N n (or_introl eq_refl)) as [f F]. inversion ND as [|? ? NI ND']; subst.
    assert (NL : n <> l) by congruence.
    cbn [pops]. rewrite F. unfold rbind at 1. unfold put at 1. rewrite F. unfold rbind at 1. unfold put at 1. cbn [r_h r_n].
    rewrite (hget_hset_other (r_h s) n) by congruence. rewrite B. unfold rbind at 1. cbn [release_at r_h].
    set (h1 := hset (hset (r_h s) n (Wnode 0)) l (Waits t)).
    assert (W1 : hwf h1) by (apply hset_wf, hset_wf; exact W).
    assert (F1 : hget h1 n = Some (Wnode 0)) by (unfold h1; rewrite hget_hset_other by exact NL; eapply hget_hset_same; exact F).
    rewrite F1. cbn [release_fn run]. change (0 =? 0) with true. cbn iota. cbn [run run1]. unfold rbind at 1. unfold rbind at 1. unfold give. cbn [r_h r_n]. rewrite F1, (T (r_n s) (le_n _)). change (ok STATUS_SUCCESS) with true. cbn iota.
    unfold rret at 1. change (ok STATUS_SUCCESS) with true. cbn iota. unfold rret at 1. unfold rbind at 1. change (ok STATUS_SUCCESS) with true. cbn iota. unfold rret at 1.
    assert (G : forall q, q <> n -> q <> l -> hget (hdel h1 n) q = hget (r_h s) q).
    { intros q Q1 Q2. rewrite hget_hdel by exact W1. rewrite (proj2 (Z.eqb_neq _ _) Q1). unfold h1. rewrite !hget_hset_other by assumption. reflexivity. }
    destruct (IH (RS (hdel h1 n) (S (r_n s)))) as (s' & A1 & A2 & A3 & A4 & A5 & A6); cbn [r_h r_n].
    + apply hdel_wf; exact W1.
    + rewrite hget_hdel by exact W1. rewrite (proj2 (Z.eqb_neq l n)) by congruence. unfold h1. eapply hget_hset_same. rewrite hget_hset_other by congruence. exact B.
    + intros q Q. destruct (N q (or_intror Q)) as [g E]. exists g. rewrite G; [exact E|intros ->; contradiction|congruence].
    + exact ND'.
    + intros k K. apply T. cbn in K. lia.
    + exists s'. split; [exact A1|]. split; [exact A2|]. split; [exact A3|]. split.
      * intros q [<-|Q]; [|apply A4; exact Q]. rewrite A5 by (intros [<-|K]; [congruence|contradiction]). cbn. rewrite hget_hdel, Z.eqb_refl by exact W1. reflexivity.
      * split; [|cbn in A6; lia]. intros q Q. cbn in Q. rewrite A5 by (intros [<-|K]; tauto). cbn. apply G; intros ->; tauto.
Qed.
Lemma condition_taken : forall v n s p l ns, hwf (r_h s) -> hget (r_h s) p = Some (Barrier l) -> hget (r_h s) l = Some (Waits ns) ->
  (forall n, In n ns -> exists f, hget (r_h s) n = Some (Wnode f)) -> NoDup ns -> taken v s -> (2 <= n)%nat ->
  exists s', release_at v n p s = Some (STATUS_SUCCESS, s') /\ gone (r_h s') (p :: l :: ns) /\ same_but (r_h s) (r_h s') (p :: l :: ns).
Proof.
  intros v n s p l ns W P B N ND T L. destruct n as [|[|n]]; try lia. cbn [release_at]. rewrite P. cbn [release_fn]. rewrite B. cbn [run run1].
  destruct (pops_taken v n l ns s W B N ND T) as (s1 & A1 & A2 & A3 & A4 & A5 & A6). unfold rbind at 1. cbn [release_at] in A1. rewrite A1. change (ok STATUS_SUCCESS) with true. cbn iota.
  unfold rbind at 1. rewrite A3. cbn [release_fn run run1]. unfold rbind at 1. unfold rbind at 1. unfold give. rewrite A3, (T (r_n s1) A6). change (ok STATUS_SUCCESS) with true. cbn iota. unfold rret at 1.
  change (ok STATUS_SUCCESS) with true. cbn iota. unfold rret at 1. change (ok STATUS_SUCCESS) with true. cbn iota.
  assert (PL : p <> l) by congruence. assert (PN : ~ In p ns) by (intros K; destruct (N p K); congruence). assert (LN : ~ In l ns) by (intros K; destruct (N l K); congruence).
  assert (P1 : hget (hdel (r_h s1) l) p = Some (Barrier l)).
  { rewrite hget_hdel by exact A2. rewrite (proj2 (Z.eqb_neq _ _) PL), A5 by (intros [K|K]; [congruence|contradiction]). exact P. }
  unfold rbind, give. cbn [r_h r_n]. rewrite P1, (T (S (r_n s1))) by lia. change (ok STATUS_SUCCESS) with true. cbn iota. unfold rret. change (ok STATUS_SUCCESS) with true. cbn iota.
  eexists. split; [reflexivity|]. cbn [r_h]. assert (W2 : hwf (hdel (r_h s1) l)) by (apply hdel_wf; exact A2). split.
  - intros q [<-|[<-|Q]].
    + rewrite hget_hdel, Z.eqb_refl by exact W2. reflexivity.
    + rewrite hget_hdel by exact W2. rewrite (proj2 (Z.eqb_neq l p)) by congruence. rewrite hget_hdel, Z.eqb_refl by exact A2. reflexivity.
    + rewrite hget_hdel by exact W2. destruct (q =? p); [reflexivity|]. rewrite hget_hdel by exact A2. destruct (q =? l); [reflexivity|]. apply A4; exact Q.
  - intros q Q. cbn in Q. rewrite hget_hdel by exact W2. destruct (Z.eqb_spec q p) as [->|]; [tauto|]. rewrite hget_hdel by exact A2. destruct (Z.eqb_spec q l) as [->|]; [tauto|].
    apply A5. intros [K|K]; [congruence|tauto].
Qed.

(** ** Releases in which everything is taken *)
(** A step that gives back the blocks [l], which are as in [h]. *)
Definition piece (v : renv) (r : Z -> rel Z) (p : Z) (h : heap blk) (x : step) (l : list Z) : Prop :=
  forall s, hwf (r_h s) -> (forall q, In q l -> hget (r_h s) q = hget h q) -> taken v s ->
  exists s', run1 v r p x s = Some (STATUS_SUCCESS, s') /\ hwf (r_h s') /\ gone (r_h s') l /\ same_but (r_h s) (r_h s') l /\ (r_n s <= r_n s')%nat.
Lemma taken_le : forall v s s', taken v s -> (r_n s <= r_n s')%nat -> taken v s'.
Proof. intros v s s' T L k K. apply T. lia. Qed.
Lemma run_pieces : forall v r p m h body ls, Forall2 (piece v r p h) body ls -> NoDup (concat ls) -> forall s rest, hwf (r_h s) -> (forall q, In q (concat ls) -> hget (r_h s) q = hget h q) -> taken v s ->
  exists s', run v r p m STATUS_SUCCESS (body ++ rest) s = run v r p m STATUS_SUCCESS rest s' /\ hwf (r_h s') /\ gone (r_h s') (concat ls) /\ same_but (r_h s) (r_h s') (concat ls) /\ (r_n s <= r_n s')%nat.
Proof.
  intros v r p m h body ls A. induction A as [|x l body ls P A IH]; intros ND s rest W E T.
  - exists s. split; [reflexivity|]. split; [exact W|]. split; [intros q []|]. split; [intros q _; reflexivity|lia].
  - cbn [concat] in *. apply nodup_app in ND. destruct ND as (N1 & N2 & DJ).
    destruct (P s W) as (s1 & A1 & A2 & A3 & A4 & A5); [intros q Q; apply E; apply in_or_app; auto|exact T|].
    destruct (IH N2 s1 rest A2) as (s2 & B1 & B2 & B3 & B4 & B5).
    + intros q Q. rewrite A4 by (intros K; exact (DJ q K Q)). apply E. apply in_or_app. auto.
    + eapply taken_le; eassumption.
    + exists s2. split.
      * cbn [app run]. unfold rbind at 1. rewrite A1. change (ok STATUS_SUCCESS) with true. cbn iota. destruct m; exact B1.
      * split; [exact B2|]. split; [|split; [|lia]].
        -- intros q Q. apply in_app_or in Q. destruct Q as [Q|Q]; [|apply B3; exact Q]. rewrite B4 by (intros K; exact (DJ q Q K)). apply A3; exact Q.
        -- intros q Q. rewrite in_app_iff in Q. rewrite B4 by tauto. apply A4. tauto.
Qed.
Lemma piece_rel : forall v n p h q l, whole h q l -> no_errors h l -> (length l <= n)%nat -> piece v (release_at v n) p h (Rel q) l.
Proof.
  intros v n p h q l (O & ND & b & B & R) NE L s W E T.
  assert (Q : In q l) by (apply owns_head in O; destruct O as [t ->]; left; reflexivity).
  assert (H : whole (r_h s) q l) by (split; [eapply owns_frame; [exact O|exact E]|split; [exact ND|exists b; rewrite E by exact Q; auto]]).
  assert (NE' : no_errors (r_h s) l) by (intros x t c X K; rewrite E in K by exact X; eapply NE; eassumption).
  destruct (release_does v n s q l W H L) as (e & s' & A1 & A2 & A3 & A4 & _ & A6 & A7). exists s'. cbn [run1].
  rewrite A1, (A7 NE' (A6 NE' T)). split; [reflexivity|]. split; [exact A2|]. split; [exact (A6 NE' T)|]. split; [exact A3|exact A4].
Qed.
Lemma piece_give : forall v r p h q, hget h q <> None -> piece v r p h (Give q None) [q].
Proof.
  intros v r p h q H s W E T. cbn [run1]. unfold rbind, give. rewrite E by (left; reflexivity). destruct (hget h q); [|congruence]. rewrite (T (r_n s) (le_n _)). change (ok STATUS_SUCCESS) with true. cbn iota.
  eexists. split; [reflexivity|]. cbn. split; [apply hdel_wf; exact W|]. split; [intros x [<-|[]]; rewrite hget_hdel, Z.eqb_refl by exact W; reflexivity|].
  split; [|lia]. intros x X. rewrite hget_hdel by exact W. destruct (Z.eqb_spec x q) as [->|]; [exfalso; apply X; left; reflexivity|reflexivity].
Qed.
Lemma piece_drain : forall v n p h q l ns, hget h q = Some (Queue l) -> hget h l = Some (Waits ns) -> (forall n, In n ns -> exists k, hget h n = Some (Wnode k)) -> NoDup ns -> (2 <= n)%nat ->
  piece v (release_at v n) p h (Drain q l ns) (q :: l :: ns).
Proof.
  intros v n p h q l ns HQ B0 N0 ND L s W E T. destruct n as [|[|n]]; try lia.
  assert (P : hget (r_h s) q = Some (Queue l)) by (rewrite E by (left; reflexivity); exact HQ).
  assert (B : hget (r_h s) l = Some (Waits ns)) by (rewrite E by (right; left; reflexivity); exact B0).
  assert (N : forall n, In n ns -> exists k, hget (r_h s) n = Some (Wnode k)) by (intros k K; rewrite E by (right; right; exact K); apply N0; exact K).
  destruct (pops_taken v (S n) l ns s W B N ND T) as (s1 & A1 & A2 & A3 & A4 & A5 & A6). cbn [run1]. unfold rbind at 1. rewrite A1. clear A1.
  assert (PL : q <> l) by congruence. assert (PN : ~ In q ns) by (intros K; destruct (N q K); congruence).
  assert (P0 : hget (r_h s1) q = Some (Queue l)) by (rewrite A5 by (intros [K|K]; [congruence|contradiction]); exact P).
  assert (P1 : hget (hdel (r_h s1) l) q = Some (Queue l)) by (rewrite hget_hdel by exact A2; rewrite (proj2 (Z.eqb_neq _ _) PL); exact P0).
  assert (X : release_at v (S (S n)) q s1 = Some (STATUS_SUCCESS, RS (hdel (hdel (r_h s1) l) q) (S (S (r_n s1))))).
  { cbn [release_at]. rewrite P0. cbn [release_fn run run1 release_at]. unfold rbind at 1. rewrite A3. cbn [release_fn run run1]. unfold rbind at 1. unfold rbind at 1. unfold give. rewrite A3, (T (r_n s1) A6).
    change (ok STATUS_SUCCESS) with true. cbn iota. unfold rret at 1. change (ok STATUS_SUCCESS) with true. cbn iota. unfold rret at 1. change (ok STATUS_SUCCESS) with true. cbn iota.
    unfold rbind, give. cbn [r_h r_n]. rewrite P1, (T (S (r_n s1))) by lia. reflexivity. }
  unfold rbind at 1. rewrite X. change (ok STATUS_SUCCESS) with true. cbn iota. unfold rret. assert (W2 : hwf (hdel (r_h s1) l)) by (apply hdel_wf; exact A2).
  eexists. split; [reflexivity|]. cbn [r_h r_n]. split; [apply hdel_wf; exact W2|]. split; [|split; [|lia]].
  - intros x K. rewrite !hget_hdel by assumption. destruct (x =? q) eqn:E1; [reflexivity|]. destruct (x =? l) eqn:E2; [reflexivity|]. apply Z.eqb_neq in E1, E2. destruct K as [K|[K|K]]; [congruence|congruence|]. apply A4; exact K.
  - intros x K. cbn in K. rewrite !hget_hdel by assumption. destruct (Z.eqb_spec x q) as [->|]; [tauto|]. destruct (Z.eqb_spec x l) as [->|]; [tauto|]. apply A5. intros [Q|Q]; [congruence|tauto].
Qed.
Lemma pieces_opt : forall v r p h f x l, (x = 0 /\ l = [] \/ x <> 0 /\ piece v r p h (f x) l) -> exists ls, Forall2 (piece v r p h) (opt f x) ls /\ concat ls = l.
Proof.
  intros v r p h f x l [[-> ->]|[N P]]; unfold opt.
  - exists []. split; [constructor|reflexivity].
  - rewrite (proj2 (Z.eqb_neq _ _) N). exists [l]. split; [repeat constructor; exact P|cbn; apply app_nil_r].
Qed.
Lemma scheduler_taken : forall v n s p c l, hwf (r_h s) -> scheduled (r_h s) p c l -> NoDup (c :: l) -> no_errors (r_h s) l -> taken v s -> (2 + length l <= n)%nat ->
  exists s', release_at v n p s = Some (STATUS_SUCCESS, s') /\ gone (r_h s') l /\ same_but (r_h s) (r_h s') l.
Proof.
  intros v n s p c all W H ND NE T L. destruct H as [m f d q i x y l ns lm lf ld li P C M F D HQ HL N I X Y].
  set (parts := concat [lf; ld; q :: l :: ns; li; some x; some y]) in *.
  inversion ND as [|? ? NC ND1]; subst. inversion ND1 as [|? ? NP ND2]; subst. pose proof ND2 as ND3. apply nodup_app in ND3. destruct ND3 as (NM & NR & DJ).
  rewrite in_app_iff in NP. cbn [length] in L. rewrite app_length in L.
  assert (PC : p <> c) by (intros ->; apply NC; left; reflexivity).
  assert (CM : ~ In c lm) by (intros K; apply NC; right; apply in_or_app; auto).
  destruct n as [|[|n]]; try lia. 
  assert (SUB : forall k, incl k parts -> NoDup k -> (length k <= n)%nat) by (intros k K KN; pose proof (NoDup_incl_length KN K); lia).
  assert (NEP : forall k, incl k parts -> no_errors (r_h s) k) by (intros k K z t e Z1 Z2; eapply NE; [right; apply in_or_app; right; apply K; exact Z1|exact Z2]).
  assert (I1 : incl lf parts) by (intros z Z1; unfold parts; cbn [concat]; rewrite !in_app_iff; tauto).
  assert (I2 : incl ld parts) by (intros z Z1; unfold parts; cbn [concat]; rewrite !in_app_iff; tauto).
  assert (I3 : incl (q :: l :: ns) parts) by (intros z Z1; unfold parts; cbn [concat]; rewrite !in_app_iff; tauto).
  assert (I4 : incl li parts) by (intros z Z1; unfold parts; cbn [concat]; rewrite !in_app_iff; tauto).
  assert (NQ : NoDup (q :: l :: ns)).
  { unfold parts in NR. cbn [concat] in NR. apply nodup_app in NR. destruct NR as (_ & NR & _). apply nodup_app in NR. destruct NR as (_ & NR & _). apply nodup_app in NR. apply NR. }
  assert (Lq : (2 <= n)%nat) by (pose proof (SUB _ I3 NQ) as K; cbn in K; lia).
  (* the main fiber *)
  destruct (pieces_opt v (release_at v (S n)) p (r_h s) Rel m lm) as (ls & A & <-).
  { destruct M as [M|[M1 M2]]; [left; exact M|right]. split; [exact M1|]. apply piece_rel; [exact M2| |lia]. intros z t e Z1. apply NE. right. apply in_or_app. auto. }
  destruct (run_pieces v (release_at v (S n)) p Last (r_h s) _ _ A NM s [Put Zero; Give p None; Rel c] W (fun _ _ => eq_refl) T) as (s1 & A1 & A2 & A3 & A4 & A5).
  cbn [release_at]. rewrite P. cbn [release_fn]. cbn [release_at] in A1. rewrite A1. clear A1.
  (* the scheduler *)
  assert (P1 : hget (r_h s1) p = Some (Sched m c)) by (rewrite A4 by tauto; exact P).
  cbn [run run1]. unfold rbind at 1. unfold rbind at 1. unfold put. rewrite P1. unfold rret at 1. change (ok STATUS_SUCCESS) with true. cbn iota.
  unfold rbind at 1. unfold rbind at 1. unfold give. cbn [r_h r_n]. rewrite (hget_hset_same _ _ Zero _ P1), (T (r_n s1) A5). change (ok STATUS_SUCCESS) with true. cbn iota. unfold rret at 1. change (ok STATUS_SUCCESS) with true. cbn iota.
  set (h2 := hdel (hset (r_h s1) p Zero) p). assert (W2 : hwf h2) by (apply hdel_wf, hset_wf; exact A2).
  assert (G : forall z, z <> p -> ~ In z (concat ls) -> hget h2 z = hget (r_h s) z).
  { intros z Z1 Z2. unfold h2. rewrite hget_hdel by (apply hset_wf; exact A2). rewrite (proj2 (Z.eqb_neq _ _) Z1), hget_hset_other by exact Z1. apply A4; exact Z2. }
  assert (GP : forall z, In z parts -> hget h2 z = hget (r_h s) z) by (intros z Z1; apply G; [intros ->; tauto|intros K; exact (DJ z K Z1)]).
  (* the context *)
  unfold rbind at 1. cbn [r_h]. rewrite (G c) by (auto; congruence). rewrite C. cbn [release_fn]. rewrite (GP q), HQ, (GP l), HL by (apply I3; cbn; auto).
  destruct (pieces_opt v (release_at v n) c (r_h s) Rel i li) as (l1 & B1 & C1).
  { destruct I as [I|[J1 J2]]; [left; exact I|right]. split; [exact J1|]. apply piece_rel; [exact J2|apply NEP; exact I4|]. apply SUB; [exact I4|apply J2]. }
  assert (OPT : forall z, (z <> 0 -> hget (r_h s) z = Some Mem) -> exists k, Forall2 (piece v (release_at v n) c (r_h s)) (opt (fun q => Give q None) z) k /\ concat k = some z).
  { intros z Z1. apply pieces_opt. unfold some. destruct (Z.eqb_spec z 0) as [Z0|Z0]; [left; auto|right]. split; [exact Z0|]. apply piece_give. rewrite Z1 by exact Z0. discriminate. }
  destruct (OPT x X) as (l2 & B2 & C2). destruct (OPT y Y) as (l3 & B3 & C3).
  assert (B : Forall2 (piece v (release_at v n) c (r_h s)) ([Rel f; Rel d; Drain q l ns] ++ opt Rel i ++ opt (fun q => Give q None) x ++ opt (fun q => Give q None) y) ([lf; ld; q :: l :: ns] ++ l1 ++ l2 ++ l3)).
  { repeat apply Forall2_app; [|exact B1|exact B2|exact B3]. constructor; [|constructor; [|constructor; [|constructor]]].
    - apply piece_rel; [exact F|apply NEP; exact I1|]. apply SUB; [exact I1|apply F].
    - apply piece_rel; [exact D|apply NEP; exact I2|]. apply SUB; [exact I2|apply D].
    - apply piece_drain; auto. inversion NQ as [|? ? _ K]; subst. inversion K; assumption. }
  assert (CC : concat ([lf; ld; q :: l :: ns] ++ l1 ++ l2 ++ l3) = parts).
  { unfold parts. rewrite !concat_app, C1, C2, C3. cbn [concat]. rewrite !app_nil_r, <- !app_assoc. reflexivity. }
  destruct (run_pieces v (release_at v n) c First (r_h s) _ _ B) with (s := RS h2 (S (r_n s1))) (rest := @nil step) as (s3 & D1 & D2 & D3 & D4 & D5); rewrite ?CC in *; auto.
  { intros k K. apply T. cbn in K. lia. }
  rewrite app_nil_r in D1. rewrite D1. cbn [run]. unfold rret. change (ok STATUS_SUCCESS) with true. cbn iota.
  eexists. split; [reflexivity|]. split.
  - intros z Z1. destruct (in_dec Z.eq_dec z parts) as [K|K]; [apply D3; exact K|]. rewrite D4 by exact K. cbn [r_h]. unfold h2. rewrite hget_hdel by (apply hset_wf; exact A2).
    destruct (Z.eqb_spec z p) as [|Z2]; [reflexivity|]. rewrite hget_hset_other by exact Z2. apply A3. destruct Z1 as [Z1|Z1]; [congruence|]. apply in_app_or in Z1. tauto.
  - intros z Z1. cbn [In] in Z1. rewrite in_app_iff in Z1. rewrite D4 by tauto. cbn [r_h]. apply G; [intros ->; tauto|tauto].
Qed.

(** A condition on which fibers wait, when the first node is not taken back and all else is. *)
Lemma waiter_lost : forall v n s p l w t f lf, hwf (r_h s) -> hget (r_h s) p = Some (Barrier l) -> hget (r_h s) l = Some (Waits (w :: t)) -> hget (r_h s) w = Some (Wnode f) ->
  (forall k, In k t -> exists g, hget (r_h s) k = Some (Wnode g)) -> NoDup (w :: t) -> whole (r_h s) f lf -> no_errors (r_h s) lf -> (forall q, In q lf -> ~ In q (p :: l :: w :: t)) ->
  r_an v (r_n s) <> STATUS_SUCCESS -> (forall k, (r_n s < k)%nat -> r_an v k = STATUS_SUCCESS) -> (2 + length lf <= n)%nat ->
  exists s', release_at v n p s = Some (STATUS_SUCCESS, s') /\ gone (r_h s') (p :: l :: t ++ lf) /\ hget (r_h s') w = Some (Wnode 0).
Proof.
  intros v n s p l w t f lf W P B F N ND H NE DJ A T L. destruct n as [|[|n]]; try lia.
  inversion ND as [|? ? NW ND']; subst. assert (WL : w <> l) by congruence. assert (PL : p <> l) by congruence. assert (PW : p <> w) by congruence.
  assert (PN : ~ In p t) by (intros K; destruct (N p K); congruence). assert (LN : ~ In l t) by (intros K; destruct (N l K); congruence).
  set (h1 := hset (hset (r_h s) w (Wnode 0)) l (Waits t)).
  assert (W1 : hwf h1) by (apply hset_wf, hset_wf; exact W).
  assert (F1 : hget h1 w = Some (Wnode 0)) by (unfold h1; rewrite hget_hset_other by exact WL; eapply hget_hset_same; exact F).
  assert (L1 : hget h1 l = Some (Waits t)) by (unfold h1; eapply hget_hset_same; rewrite hget_hset_other by congruence; exact B).
  assert (G : forall q, q <> w -> q <> l -> hget h1 q = hget (r_h s) q) by (intros q Q1 Q2; unfold h1; rewrite !hget_hset_other by assumption; reflexivity).
  set (s1 := RS h1 (S (r_n s))).
  assert (T1 : taken v s1) by (intros k K; apply T; cbn in K; lia).
  destruct (piece_rel v (S n) 0 (r_h s) f lf H NE ltac:(lia) s1 W1) as (s2 & A1 & A2 & A3 & A4 & A5).
  { intros q Q. cbn. apply G; intros ->; apply (DJ _ Q); cbn; auto. }
  { exact T1. }
  cbn [run1] in A1. assert (T2 : taken v s2) by (eapply taken_le; eassumption).
  assert (E2 : forall q, In q (p :: l :: w :: t) -> hget (r_h s2) q = hget h1 q) by (intros q Q; apply A4; intros K; exact (DJ q K Q)).
  destruct (pops_taken v n l t s2 A2) as (s3 & B1 & B2 & B3 & B4 & B5 & B6).
  { rewrite E2 by (cbn; auto). exact L1. }
  { intros k K. rewrite E2 by (cbn; auto). rewrite G; [apply N; exact K|congruence|congruence]. }
  { exact ND'. } { exact T2. }
  assert (X : pops v (release_at v (S n)) l STATUS_SUCCESS (w :: t) s = Some (STATUS_SUCCESS, s3)).
  { cbn [pops]. rewrite F. unfold rbind at 1. unfold put at 1. rewrite F. unfold rbind at 1. unfold put at 1. cbn [r_h r_n]. rewrite (hget_hset_other (r_h s) w) by congruence. rewrite B. fold h1.
    assert (Y : release_at v (S n) w (RS h1 (r_n s)) = Some (r_an v (r_n s), s1)).
    { cbn [release_at r_h]. rewrite F1. cbn [release_fn]. change (0 =? 0) with true. cbn iota. cbn [run run1]. unfold rbind at 1. unfold rbind at 1. unfold give. cbn [r_h r_n]. rewrite F1, (ok_neq _ A). unfold rret. rewrite (ok_neq _ A). reflexivity. }
    unfold rbind at 1. rewrite Y. rewrite (ok_neq _ A). unfold rbind at 1. rewrite A1. change (ok STATUS_SUCCESS) with true. cbn iota. exact B1. }
  assert (T3 : taken v s3) by (eapply taken_le; eassumption).
  assert (P3 : hget (r_h s3) p = Some (Barrier l)) by (rewrite B5 by (intros [K|K]; [congruence|contradiction]); rewrite E2 by (left; reflexivity); rewrite G by assumption; exact P).
  assert (P4 : hget (hdel (r_h s3) l) p = Some (Barrier l)) by (rewrite hget_hdel by exact B2; rewrite (proj2 (Z.eqb_neq _ _) PL); exact P3).
  assert (W4 : hwf (hdel (r_h s3) l)) by (apply hdel_wf; exact B2).
  exists (RS (hdel (hdel (r_h s3) l) p) (S (S (r_n s3)))). split.
  - cbn [release_at]. rewrite P. cbn [release_fn]. rewrite B. cbn [run run1]. unfold rbind at 1. cbn [release_at] in X. rewrite X. change (ok STATUS_SUCCESS) with true. cbn iota.
    unfold rbind at 1. rewrite B3. cbn [release_fn run run1]. unfold rbind at 1. unfold rbind at 1. unfold give. rewrite B3, (T3 (r_n s3) (le_n _)). change (ok STATUS_SUCCESS) with true. cbn iota. unfold rret at 1.
    change (ok STATUS_SUCCESS) with true. cbn iota. unfold rret at 1. change (ok STATUS_SUCCESS) with true. cbn iota.
    unfold rbind, give. cbn [r_h r_n]. rewrite P4, (T3 (S (r_n s3))) by lia. reflexivity.
  - cbn [r_h]. assert (Z0 : forall q, q <> p -> q <> l -> hget (hdel (hdel (r_h s3) l) p) q = hget (r_h s3) q).
    { intros q Q1 Q2. rewrite !hget_hdel by assumption. rewrite (proj2 (Z.eqb_neq _ _) Q1), (proj2 (Z.eqb_neq _ _) Q2). reflexivity. }
    split.
    + intros q Q. destruct (Z.eq_dec q p) as [->|Q1]; [rewrite hget_hdel, Z.eqb_refl by exact W4; reflexivity|].
      destruct (Z.eq_dec q l) as [->|Q2]; [rewrite !hget_hdel by assumption; rewrite Z.eqb_refl; destruct (l =? p); reflexivity|].
      rewrite Z0 by assumption. destruct Q as [Q|[Q|Q]]; [congruence|congruence|]. destruct (in_dec Z.eq_dec q t) as [K|K]; [apply B4; exact K|].
      apply in_app_or in Q. destruct Q as [Q|Q]; [contradiction|]. rewrite B5 by (intros [J|J]; [congruence|contradiction]). apply A3; exact Q.
    + rewrite Z0 by congruence. rewrite B5 by (intros [J|J]; [congruence|contradiction]). rewrite E2 by (cbn; auto). exact F1.
Qed.

(** ** What a release does depends only on the answers that it gets *)
Definition local {A} (v v' : renv) (c c' : rel A) : Prop := forall s e s', c s = Some (e, s') ->
  (r_n s <= r_n s')%nat /\ ((forall k, (r_n s <= k < r_n s')%nat -> r_an v' k = r_an v k) -> c' s = Some (e, s')).
Lemma local_ret : forall {A} v v' (x : A), local v v' (rret x) (rret x).
Proof. intros A v v' x s e s' H. injection H as <- <-. split; [lia|reflexivity]. Qed.
Lemma local_bind : forall {A B} v v' (f f' : rel A) (g g' : A -> rel B), local v v' f f' -> (forall a, local v v' (g a) (g' a)) -> local v v' (rbind f g) (rbind f' g').
Proof.
  intros A B v v' f f' g g' F G s e s' H. unfold rbind in *. destruct (f s) as [[a s1]|] eqn:E; [|discriminate].
  destruct (F _ _ _ E) as [F1 F2]. destruct (G _ _ _ _ H) as [G1 G2]. split; [lia|]. intros K. rewrite F2 by (intros k Q; apply K; lia). apply G2. intros k Q. apply K. lia.
Qed.
Lemma local_give : forall v v' q, local v v' (give v q) (give v' q).
Proof.
  intros v v' q s e s' H. unfold give in *. destruct (hget (r_h s) q); [|discriminate]. injection H as <- <-. cbn. split; [lia|]. intros K. rewrite (K (r_n s)) by lia. reflexivity.
Qed.
Lemma local_put : forall v v' p b, local v v' (put p b) (put p b).
Proof. intros v v' p b s e s' H. split; [|intros _; exact H]. unfold put in H. destruct (hget (r_h s) p); [|discriminate]. injection H as <- <-. cbn. lia. Qed.
Lemma local_pops : forall v v' r r' q, (forall x, local v v' (r x) (r' x)) -> forall ns acc, local v v' (pops v r q acc ns) (pops v' r' q acc ns).
Proof.
  intros v v' r r' q R. induction ns as [|n t IH]; intros acc; [apply local_ret|].
  intros s e s' H. cbn [pops] in *. destruct (hget (r_h s) n) as [[]|]; try discriminate. revert H.
  apply (local_bind v v' (put n (Wnode 0)) (put n (Wnode 0))); [apply local_put|]. intros _. apply local_bind; [apply local_put|]. intros _. apply local_bind; [apply R|]. intros a. apply local_bind; [destruct (ok a); [apply local_ret|apply R]|].
  intros b. apply IH.
Qed.
Lemma local_run1 : forall v v' r r' p x, (forall x, local v v' (r x) (r' x)) -> local v v' (run1 v r p x) (run1 v' r' p x).
Proof.
  intros v v' r r' p x R. destruct x; cbn [run1]; try (apply local_bind; [first [apply local_give|apply local_put]|intros; apply local_ret]).
  - apply R.
  - apply local_pops; exact R.
  - apply local_bind; [apply local_pops; exact R|]. intros a. apply local_bind; [apply R|]. intros b. apply local_ret.
Qed.
Lemma local_run : forall v v' r r' p m, (forall x, local v v' (r x) (r' x)) -> forall l acc, local v v' (run v r p m acc l) (run v' r' p m acc l).
Proof.
  intros v v' r r' p m R. induction l as [|x l IH]; intros acc; cbn [run]; [apply local_ret|]. apply local_bind; [apply local_run1; exact R|]. intros e. destruct m; [destruct (ok e); [apply IH|apply local_ret]|apply IH|apply IH].
Qed.
Lemma local_release : forall v v' n p, r_zero v' = r_zero v -> local v v' (release_at v n p) (release_at v' n p).
Proof.
  intros v v' n p Z. revert p. induction n as [|n IH]; intros p s e s' H; cbn [release_at] in *; [discriminate|]. destruct (hget (r_h s) p) as [b|]; [|discriminate].
  assert (X : match release_fn (r_h s) p b with Some (m, l) => run v (release_at v n) p m STATUS_SUCCESS l s | None => None end = Some (e, s') ->
    (r_n s <= r_n s')%nat /\ ((forall k, (r_n s <= k < r_n s')%nat -> r_an v' k = r_an v k) ->
      match release_fn (r_h s) p b with Some (m, l) => run v' (release_at v' n) p m STATUS_SUCCESS l s | None => None end = Some (e, s'))).
  { destruct (release_fn (r_h s) p b) as [[m l]|]; [|discriminate]. apply local_run. exact IH. }
  destruct b; try (apply X; exact H). rewrite Z. destruct (r_zero v); [|discriminate]. injection H as <- <-. split; [lia|reflexivity].
Qed.
Lemma run_app : forall v r p m a b acc s, m <> Stop -> run v r p m acc (a ++ b) s = match run v r p m acc a s with Some (e, s1) => run v r p m e b s1 | None => None end.
Proof.
  intros v r p m a b acc s M. revert acc s. induction a as [|x a IH]; intros acc s; [reflexivity|]. cbn [app run]. unfold rbind. destruct (run1 v r p x s) as [[e s1]|]; [|reflexivity]. destruct m; [congruence|apply IH|apply IH].
Qed.
Lemma dead : forall v n q s, hget (r_h s) q = None -> release_at v n q s = None.
Proof. intros v [|n] q s H; cbn; [reflexivity|rewrite H; reflexivity]. Qed.

(** The run queue of a scheduler whose first node is not taken back. *)
Lemma released_twice : forall s p c m fs d q i x y l w t f lm lf ld, hwf (r_h s) -> hget (r_h s) p = Some (Sched m c) -> hget (r_h s) c = Some (Sctx fs d q i x y) ->
  maybe (r_h s) m lm -> whole (r_h s) fs lf -> whole (r_h s) d ld -> hget (r_h s) q = Some (Queue l) -> hget (r_h s) l = Some (Waits (w :: t)) -> hget (r_h s) w = Some (Wnode f) -> In f lf ->
  NoDup (c :: p :: lm ++ lf ++ ld ++ [q; l; w]) -> no_errors (r_h s) (lm ++ lf ++ ld) -> forall z n e, (3 + length (lm ++ lf ++ ld) <= n)%nat -> e <> STATUS_SUCCESS ->
  exists k, forall N, release_at (RE (fun j => if Nat.eqb j k then e else STATUS_SUCCESS) z N) n p s = None.
Proof.
  intros s p c m fs d q i x y l w t f lm lf ld W P C M F D HQ HL HW IN ND NE z n e L NZ. destruct n as [|[|[|n]]]; try lia.
  set (v := RE (fun _ => STATUS_SUCCESS) z O). assert (T : forall s, taken v s) by (intros s0 k _; reflexivity).
  inversion ND as [|? ? NC ND1]; subst. inversion ND1 as [|? ? NP ND2]; subst. apply nodup_app in ND2. destruct ND2 as (NM & NR & DJ). pose proof NR as NR0. rewrite app_assoc in NR0. apply nodup_app in NR0. destruct NR0 as (NFD & NQ & DQ).
  rewrite !app_length in L. assert (PC : p <> c) by (intros ->; apply NC; left; reflexivity).
  rewrite !in_app_iff in NP. cbn [In] in NC. rewrite !in_app_iff in NC.
  destruct (pieces_opt v (release_at v (S (S n))) p (r_h s) Rel m lm) as (ls & A & <-).
  { destruct M as [M|[M1 M2]]; [left; exact M|right]. split; [exact M1|]. apply piece_rel; [exact M2| |lia]. intros a b g K. apply NE. apply in_or_app. auto. }
  destruct (run_pieces v (release_at v (S (S n))) p Last (r_h s) _ _ A NM s [] W (fun _ _ => eq_refl) (T s)) as (s1 & A1 & A2 & A3 & A4 & A5). rewrite app_nil_r in A1. cbn [run] in A1. unfold rret in A1.
  assert (P1 : hget (r_h s1) p = Some (Sched m c)) by (rewrite A4 by tauto; exact P).
  set (h2 := hdel (hset (r_h s1) p Zero) p). assert (W2 : hwf h2) by (apply hdel_wf, hset_wf; exact A2).
  assert (G : forall a, a <> p -> ~ In a (concat ls) -> hget h2 a = hget (r_h s) a).
  { intros a Z1 Z2. unfold h2. rewrite hget_hdel by (apply hset_wf; exact A2). rewrite (proj2 (Z.eqb_neq _ _) Z1), hget_hset_other by exact Z1. apply A4; exact Z2. }
  assert (GP : forall a, In a (lf ++ ld ++ [q; l; w]) -> hget h2 a = hget (r_h s) a).
  { intros a Z1. apply G; [intros ->; rewrite !in_app_iff in Z1; tauto|intros K; exact (DJ a K Z1)]. }
  set (s2 := RS h2 (S (r_n s1))).
  assert (B : Forall2 (piece v (release_at v (S n)) c (r_h s)) [Rel fs; Rel d] [lf; ld]).
  { constructor; [|constructor; [|constructor]]; (apply piece_rel; [assumption| |lia]); intros a b g K; apply NE; rewrite !in_app_iff; auto. }
  destruct (run_pieces v (release_at v (S n)) c First (r_h s) _ _ B) with (s := s2) (rest := @nil step) as (s3 & D1 & D2 & D3 & D4 & D5); cbn [concat] in *; rewrite ?app_nil_r in *; auto.
  { intros a Z1. cbn. apply GP. rewrite !in_app_iff in *. tauto. }
  change (run v (release_at v (S n)) c First STATUS_SUCCESS [Rel fs; Rel d] s2 = Some (STATUS_SUCCESS, s3)) in D1. cbn in D5.
  assert (E3 : forall a, In a [q; l; w] -> hget (r_h s3) a = hget (r_h s) a).
  { intros a Z1. rewrite D4 by (intros K; exact (DQ a K Z1)). apply GP. apply in_or_app. right. apply in_or_app. auto. }
  assert (F3 : hget (r_h s3) f = None) by (apply D3; apply in_or_app; auto).
  exists (r_n s3). intros N. set (v' := RE (fun j => if Nat.eqb j (r_n s3) then e else STATUS_SUCCESS) z N).
  assert (V : forall k, (k < r_n s3)%nat -> r_an v' k = r_an v k) by (intros k K; cbn; destruct (Nat.eqb_spec k (r_n s3)); [lia|reflexivity]).
  assert (R : forall a, local v v' (release_at v (S (S n)) a) (release_at v' (S (S n)) a)) by (intros a; apply local_release; reflexivity).
  assert (R' : forall a, local v v' (release_at v (S n) a) (release_at v' (S n) a)) by (intros a; apply local_release; reflexivity).
  pose proof (proj2 (local_run v v' _ _ p Last R _ _ _ _ _ A1) ltac:(intros k K; apply V; lia)) as X1.
  pose proof (proj2 (local_run v v' _ _ c First R' _ _ _ _ _ D1) ltac:(intros k K; apply V; lia)) as X2.
  assert (Y : release_at v' (S (S n)) c s2 = None).
  { cbn [release_at]. cbn [r_h s2]. unfold s2 at 1. cbn [r_h]. rewrite (G c) by (first [congruence|tauto]). rewrite C. cbn [release_fn]. change (r_h s2) with h2. rewrite (GP q), HQ, (GP l), HL by (rewrite !in_app_iff; cbn; auto).
    change ([Rel fs; Rel d; Drain q l (w :: t)] ++ opt Rel i ++ opt (fun q0 => Give q0 None) x ++ opt (fun q1 => Give q1 None) y) with ([Rel fs; Rel d] ++ Drain q l (w :: t) :: opt Rel i ++ opt (fun q0 => Give q0 None) x ++ opt (fun q1 => Give q1 None) y).
    change (run v' (release_at v' (S n)) c First STATUS_SUCCESS ([Rel fs; Rel d] ++ Drain q l (w :: t) :: opt Rel i ++ opt (fun q0 => Give q0 None) x ++ opt (fun q1 => Give q1 None) y) s2 = None).
    rewrite run_app by discriminate. rewrite X2. cbn [run]. unfold rbind at 1. cbn [run1 pops].
    assert (WL : w <> l) by congruence. assert (HW3 : hget (r_h s3) w = Some (Wnode f)) by (rewrite E3 by (cbn; auto); exact HW). assert (HL3 : hget (r_h s3) l = Some (Waits (w :: t))) by (rewrite E3 by (cbn; auto); exact HL).
    unfold rbind at 1. rewrite HW3. unfold rbind at 1. unfold put at 1. rewrite HW3. unfold rbind at 1. unfold put at 1. cbn [r_h r_n]. rewrite (hget_hset_other (r_h s3) w) by congruence. rewrite HL3.
    set (h4 := hset (hset (r_h s3) w (Wnode 0)) l (Waits t)).
    assert (F4 : hget h4 w = Some (Wnode 0)) by (unfold h4; rewrite hget_hset_other by exact WL; eapply hget_hset_same; exact HW3).
    assert (U : release_at v' (S n) w (RS h4 (r_n s3)) = Some (e, RS h4 (S (r_n s3)))).
    { cbn [release_at r_h]. rewrite F4. cbn [release_fn]. change (0 =? 0) with true. cbn iota. cbn [run run1]. unfold rbind at 1. unfold rbind at 1. unfold give. cbn [r_h r_n]. rewrite F4.
      assert (AN : r_an v' (r_n s3) = e) by (cbn; rewrite Nat.eqb_refl; reflexivity). rewrite AN, (ok_neq _ NZ). unfold rret. rewrite (ok_neq _ NZ). reflexivity. }
    unfold rbind at 1. rewrite U. rewrite (ok_neq _ NZ). unfold rbind at 1. rewrite dead; [reflexivity|]. cbn [r_h]. unfold h4. rewrite !hget_hset_other; [exact F3|congruence|congruence]. }
  cbn [release_at]. rewrite P. cbn [release_fn].
  change (run v' (release_at v' (S (S n))) p Last STATUS_SUCCESS (opt Rel m ++ [Put Zero; Give p None; Rel c]) s = None).
  rewrite run_app by discriminate. rewrite X1. cbn [run run1]. unfold rbind at 1. unfold rbind at 1. unfold put. rewrite P1. unfold rret at 1. change (ok STATUS_SUCCESS) with true. cbn iota.
  unfold rbind at 1. unfold rbind at 1. unfold give. cbn [r_h r_n]. rewrite (hget_hset_same _ _ Zero _ P1), (V (r_n s1)) by lia. change (ok (r_an v (r_n s1))) with true. cbn iota. unfold rret at 1. change (ok (r_an v (r_n s1))) with true. cbn iota.
  unfold rbind at 1. fold h2. fold s2. rewrite Y. reflexivity.
Qed.
