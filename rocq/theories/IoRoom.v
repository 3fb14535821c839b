(** C45: the arrays of the poll discipline always have room. *)
From Verif Require Import Base Status MemModel MemProofs Heap TabModel TabProofs SchedModel SchedSpec SchedProofs DiscFrame MsgModel IoModel IoSpec.

(** A step does to the disciplines' state nothing, or what a program of theirs does. *)
Lemma step_user : forall U dels (ac : acts U) p (a : ast U) o a', astep dels ac p a = Some (o, a') ->
  a_user a' = a_user a \/ exists fn cx yf y e a1, happly (ac fn cx yf y) a = Some (e, a1) /\ a_user a' = a_user a1.
Proof.
  intros U dels ac p a o a' H.
  assert (RS : forall b X, (forall e a1, X = Some (e, a1) -> frame a a1) -> resume X = Some (o, b) -> a_user b = a_user a).
  { intros b [[e a1]|] K1 K2; [|discriminate]. apply resume_frame in K2. destruct K2 as (_ & _ & K & _). destruct (K1 _ _ eq_refl) as (_ & _ & K3 & _). congruence. }
  destruct p; cbn [astep] in H.
  - destruct (_ || _); inversion H; subst. left. reflexivity.
  - left. apply RS in H; auto. intros e a1. apply join_frame.
  - left. apply RS in H; auto. intros e a1. destruct (_ =? _); [intros K; inversion K; subst; apply frame_refl|apply push_frame].
  - destruct (hget (a_life a) _); [|discriminate]. destruct (resume _) as [[o1 a1]|] eqn:R1; [|discriminate]. destruct (ok (fst o1)); inversion H; subst.
    left. apply RS in R1; auto. intros e a2 K. apply tell_frame in K. exact K.
  - left. apply RS in H; auto. intros e a1 K. apply push_frame in K as [K _]. exact K.
  - left. apply RS in H; auto. intros e a1 K. apply push_frame in K as [K _]. exact K.
  - left. apply RS in H; auto. intros e a1 K. inversion K; subst. repeat split; auto.
  - destruct (hget (a_life a) _); [|discriminate]. left. apply RS in H; auto. intros e a1. destruct (_ =? RUNNING); [apply pushes_frame|intros K; apply push_frame in K as [K _]; exact K].
  - destruct (forallb _ _); [|discriminate]. left. apply RS in H; auto. intros e a1. apply pushes_frame.
  - destruct dels; inversion H; subst. left. reflexivity.
  - destruct (_ || _); inversion H; subst. left. reflexivity.
  - inversion H; subst. left. reflexivity.
  - destruct (_ || _); inversion H; subst. left. reflexivity.
  - left. destruct (hget (a_discs a) d) as [y|]; [|discriminate]. destruct (dd_owned y); [inversion H; subst; auto|]. destruct (existsb _ _); [inversion H; subst; auto|].
    pose proof (alloc_frame U a) as A1. destruct (alloc_spec a) as [e1 a1]. cbn [snd] in A1.
    destruct (ok e1); cbn [negb] in H; [|inversion H; subst; apply A1].
    match type of H with context [alloc_spec ?b] => pose proof (alloc_frame U b) as A2; destruct (alloc_spec b) as [e2 a2] end.
    cbn [snd] in A2. assert (B2 : frame a a2) by (eapply frame_trans; [exact A1|exact A2]). destruct (ok e2); cbn [negb] in H; [|inversion H; subst; apply B2].
    pose proof (alloc_frame U a2) as A3. destruct (alloc_spec a2) as [e3 a3]. cbn [snd] in A3.
    assert (B3 : frame a a3) by (eapply frame_trans; [exact B2|exact A3]).
    destruct (ok e3); cbn [negb] in H; [|inversion H; subst; apply B3]. destruct (_ <? _); inversion H; subst. apply B3.
  - destruct (find _ _); inversion H; subst; auto.
  - destruct (hget (a_discs a) d) as [y|]; [|discriminate]. destruct (_ || _ || _ || _); [discriminate|].
    destruct (_ || _); [inversion H; subst; auto|].
    destruct (nth_error _ _) as [fn|]; [|discriminate]. destruct (negb (user_fn fn)); [discriminate|].
    destruct (happly _ a) as [[e a1]|] eqn:J; [|discriminate]. apply resume_frame in H. destruct H as (_ & _ & H & _). right. eauto 10.
  - destruct (happly _ a) as [[e a1]|] eqn:J; [|discriminate]. inversion H; subst. right. eauto 10.
Qed.

(** At most [poll_max] entries are in use, and the arrays grow by whole increments. *)
Definition room (m : iost pst) : Prop := Z.of_nat (length (p_list (io_k m))) <= p_max (io_k m) /\ exists n, 1 <= n /\ p_max (io_k m) = n * POLL_EVENT_SIZE_INCREMENT.
Lemma safe_on_fst : forall A B (P : A -> Prop) (c : hprog A), safe P c -> safe (fun u : A * B => P (fst u)) (on_fst c).
Proof.
  intros A B P. induction c; cbn [on_fst safe]; intros; auto; try (intros; eauto; fail).
  match goal with H : _ /\ _ |- _ => destruct H end. cbn [fst]. split; auto.
Qed.
Lemma safe_on_snd : forall A B (x : A) (c : hprog B), safe (fun u : A * B => fst u = x) (on_snd c).
Proof. intros A B x. induction c; cbn [on_snd safe]; intros; auto. Qed.
Lemma safe_need : forall A B (P : A -> Prop) (x : option B) (k : B -> hprog A), (forall y, x = Some y -> safe P (k y)) -> safe P (need x k).
Proof. intros A B P [x|] k H; cbn [need safe]; auto. Qed.
Lemma safe_hseq : forall A (P : A -> Prop) (c : hprog A) k, safe P c -> (forall e, safe P (k e)) -> safe P (hseq c k).
Proof. intros A P. induction c; cbn [hseq safe]; intros; auto. destruct H. split; auto. Qed.
Lemma room_sock : forall s b m, room m -> room (set_sock s b m). Proof. auto. Qed.
Lemma room_sock_inv : forall x m, room m -> room (IO x (io_k m)). Proof. auto. Qed.
Lemma wait_room : forall wr yf s, safe room (poll_wait wr yf s).
Proof.
  intros wr yf s. unfold poll_wait. cbn [safe]. intros m (R1 & n & R2 & R3). apply safe_need. intros b _.
  destruct (Z.eqb_spec (Z.of_nat (length (p_list (io_k m)))) (p_max (io_k m))) as [E|E]; cbn [safe].
  - intros e. destruct (ok e); cbn [negb safe]; auto. intros e'. destruct (ok e'); cbn [negb safe]; auto. split; auto.
    unfold room. cbn [set_k io_k p_list p_max]. rewrite app_length. cbn [length]. unfold POLL_EVENT_SIZE_INCREMENT in *. split; [lia|]. exists (n + 1). lia.
  - split; auto. unfold room. cbn [set_k io_k p_list p_max]. rewrite app_length. cbn [length]. split; [lia|eauto].
Qed.
Lemma serve_room : forall M l kept, Z.of_nat (length kept + length l) <= M ->
  safe (fun m : iost pst => p_max (io_k m) = M /\ Z.of_nat (length (p_list (io_k m))) <= M) (poll_serve kept l).
Proof.
  intros M. induction l as [|x l IH]; intros kept L; cbn [poll_serve safe].
  - intros m [A B]. cbn [safe set_k io_k p_list p_max]. rewrite Nat.add_0_r in L. auto.
  - cbn [length] in L. destruct (poll_event x =? -1); cbn [negb safe].
    + apply IH. rewrite app_length. cbn [length]. lia.
    + intros e. destruct (ok e); cbn [negb safe]; [apply IH; lia|]. intros m [A B]. cbn [safe set_k io_k p_list p_max]. split; auto. split; auto. rewrite app_length, skipn_length. lia.
Qed.
Lemma round_room : forall V q (a : ast (iost pst * V)) e a1, room (fst (a_user a)) -> happly (on_fst (poll_round q)) a = Some (e, a1) -> room (fst (a_user a1)).
Proof.
  intros V [|[er|r] q] a e a1 R H; cbn [poll_round on_fst happly] in H; [discriminate|inversion H; subst; auto|]. destruct R as (R1 & n & R2).
  match type of H with happly (on_fst (poll_serve [] ?l)) ?b = _ => pose proof (serve_room (p_max (io_k (fst (a_user a)))) l []) as S0; set (b0 := b) in H end.
  destruct (happly_safe _ _ _ b0 e a1 (safe_on_fst _ V _ _ (S0 ltac:(cbn [length]; rewrite map_length; auto))) ltac:(cbn [b0 user_set a_user fst set_k io_k p_max p_list]; rewrite map_length; auto) H) as (_ & _ & (K1 & K2) & _).
  unfold room. rewrite K1. eauto.
Qed.
Lemma acts_room : forall V ans (other : acts V) fn cx yf y (a : ast (iost pst * V)) e a1, room (fst (a_user a)) ->
  happly (io_acts poll_plat ans other fn cx yf y) a = Some (e, a1) -> room (fst (a_user a1)).
Proof.
  intros V ans other fn cx yf y a e a1 R H. unfold io_acts in H. destruct (io_fn fn); cbn [negb] in H.
  2:{ apply (happly_safe _ _ _ _ _ _ (safe_on_snd _ _ (fst (a_user a)) _) eq_refl) in H. destruct H as (_ & _ & H & _). rewrite H. auto. }
  assert (G : forall c, safe room c -> happly (on_fst c) a = Some (e, a1) -> room (fst (a_user a1))).
  { intros c SC HC. apply (happly_safe _ _ _ _ _ _ (safe_on_fst _ V _ _ SC) R) in HC. apply HC. }
  assert (GB : forall wr, safe room (block poll_wait wr cx yf y)).
  { intros wr. unfold block. destruct (negb _); cbn [safe]; auto. intros m RM. apply safe_need. intros b _. destruct (negb _); cbn [safe]; auto. split; auto. apply safe_hseq; [apply wait_room|].
    intros st. destruct (ok st); cbn [safe]; auto. intros m1 R1. apply safe_need. intros b1 _. cbn [safe]. auto. }
  assert (GK : forall wr, safe room (back wr y)).
  { intros wr. unfold back. cbn [safe]. intros m RM. apply safe_need. intros b _. cbn [safe]. auto. }
  repeat match type of H with happly (on_fst (if ?b then _ else _)) _ = _ => destruct b end; cbn [poll_plat pl_wait pl_round pl_release] in H; try exact (G _ (GB _) H); try exact (G _ (GK _) H).
  - eapply round_room; [exact R|exact H].
  - eapply G; [|exact H]. unfold new_sock. cbn [safe]. intros m RM. destruct (_ || _); cbn [safe]; auto.
  - eapply G; [|exact H]. unfold poll_release. cbn [safe]. intros m RM. apply safe_need. intros b _. cbn [safe]. auto.
Qed.
Lemma room_steps : forall V dels ans (other : acts V) h (a : ast (iost pst * V)) os a', room (fst (a_user a)) ->
  asteps dels (io_acts poll_plat ans other) h a = Some (os, a') -> room (fst (a_user a')).
Proof.
  intros V dels ans other. induction h as [|p h IH]; intros a os a' R H; cbn [asteps] in H; [inversion H; subst; auto|].
  destruct (astep _ _ p a) as [[o a1]|] eqn:E; [|discriminate]. destruct (asteps _ _ h a1) as [[l a2]|] eqn:E2; [|discriminate]. inversion H; subst.
  eapply IH; [|exact E2]. apply step_user in E as [E|(fn & cx & yf & y & e & a3 & E & ->)]; [rewrite E; auto|]. eapply acts_room; eauto.
Qed.
