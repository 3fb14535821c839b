(** C60: histories of calls with kqueue, and the room in its arrays. *)
From Verif Require Import Base Status MemModel MemProofs Heap TabModel TabProofs SchedModel SchedSpec SchedProofs SchedHist DiscFrame MsgModel CondSpec CondProofs IoModel IoSpec IoProofs IoRound IoRoom KqModel KqSpec KqProofs.

Lemma kq_other_step : forall V ans (other : acts V) dels sys mem d q (a : ast (iost kqst * V)) c l o a' m, IRel (kq_rel sys) mem d a c l ->
  astep dels (io_acts kq_plat ans other) q a = Some (o, a') -> goes (kq_rel sys) mem d a' (kq_step mem sys ans d (IOther q) o m c l).
Proof.
  intros V ans other dels sys mem d q a c l o a' m R S1. cbn [kq_step]. destruct (existsb (by_fiber c) _); [exact Logic.I|]. destruct (foreign io_fn d q) eqn:F; [|exact Logic.I].
  pose proof (step_sound _ _ _ _ _ _ _ S1 (il_sound _ _ _ _ _ _ R)) as SO.
  eapply (step_frame _ (fun u => fst u = fst (a_user a)) io_fn) in S1; eauto; [|intros; apply io_foreign; auto|apply (il_disc _ _ _ _ _ _ R)|reflexivity|apply (il_others _ _ _ _ _ _ R)].
  destruct S1 as (S1 & S3 & S4 & S5 & S6). destruct R. subst c. constructor; auto; rewrite S5; auto.
Qed.
Lemma kq_steps : forall V ans (other : acts V) dels sys mem d h (a : ast (iost kqst * V)) c l os a', IRel (kq_rel sys) mem d a c l ->
  asteps dels (io_acts kq_plat ans other) (map (isop d) h) a = Some (os, a') ->
  goes (kq_rel sys) mem d a' (kq_run mem sys ans d h os (made_by dels (io_acts kq_plat ans other) (map (isop d) h) a) c l).
Proof.
  intros V ans other dels sys mem d. induction h as [|p h IH]; intros a c l os a' R H.
  - cbn in H. inversion H; subst. exact R.
  - cbn [map asteps] in H. cbn [map made_by]. destruct (astep _ _ _ a) as [[o a1]|] eqn:S1; [|discriminate]. destruct (asteps _ _ _ a1) as [[os1 a2]|] eqn:S2; [|discriminate]. inversion H; subst; clear H.
    pose proof (step_grows _ _ _ _ _ _ _ S1) as [m M].
    assert (S3 : goes (kq_rel sys) mem d a1 (kq_step mem sys ans d p o m c l)).
    { destruct p as [fd s|s|wr s|wr s|q|p]; cbn [isop] in S1.
      - eapply kq_socket_step; eauto.
      - eapply kq_release_step; eauto.
      - eapply kq_wait_step; eauto.
      - eapply kq_back_step; eauto.
      - eapply kq_round_step; eauto.
      - eapply kq_other_step; eauto. }
    rewrite M, skipn_app, skipn_all, Nat.sub_diag. cbn [app skipn kq_run].
    destruct (kq_step mem sys ans d p o m c l) as [c1 l1| |]; [|exact S3|exact S3]. eapply IH; eauto.
Qed.

(** ** Room *)
Definition krange (m : iost kqst) : Prop := Z.of_nat (length (kq_inputs (io_k m))) < MAX_KEVENT_INPUTS.
Lemma kq_wait_range : forall wr yf s, safe krange (kq_wait wr yf s).
Proof.
  intros wr yf s. unfold kq_wait. cbn [safe]. intros m R. apply safe_need. intros b _. unfold krange in R.
  destruct (_ <=? _); cbn [safe]; auto. set (l := _ ++ _). assert (L : Z.of_nat (length l) <= MAX_KEVENT_INPUTS) by (unfold l; rewrite app_length; cbn [length]; lia).
  destruct (Z.eqb_spec (Z.of_nat (length l)) MAX_KEVENT_INPUTS) as [E|E].
  - destruct (kq_changes _ _ _ _ _) as [[bad notes] ctl]. cbn [safe]. split; [reflexivity|destruct bad; exact Logic.I].
  - cbn [safe]. split; [|exact Logic.I]. unfold krange. cbn [set_k io_k kq_inputs]. lia.
Qed.
Lemma kq_serve_range : forall l, safe krange (kq_serve l).
Proof. induction l as [|x l IH]; cbn [kq_serve safe]; auto. intros e. destruct (ok e); cbn [negb safe]; auto. Qed.
Lemma kq_round_range : forall q, safe krange (kq_round q).
Proof.
  intros [|k q]; cbn [kq_round safe]; auto. intros m R. destruct (match k with KErr e => negb (e =? EINTR) | KReady _ => false end); cbn [safe]; auto.
  destruct (kq_changes _ _ _ _ _) as [[bad notes] ctl]. destruct bad as [|x bad]; [destruct k as [e|r]|]; [| |destruct k].
  - cbn [safe]. split; auto.
  - destruct (kq_scan _ _ _) as [o n2]. cbn [safe]. split; [reflexivity|apply kq_serve_range].
  - cbn [safe]. split; [reflexivity|apply kq_serve_range].
  - cbn [safe]. split; [reflexivity|apply kq_serve_range].
Qed.
Lemma kq_acts_range : forall V ans (other : acts V) fn cx yf y (a : ast (iost kqst * V)) e a1, krange (fst (a_user a)) ->
  happly (io_acts kq_plat ans other fn cx yf y) a = Some (e, a1) -> krange (fst (a_user a1)).
Proof.
  intros V ans other fn cx yf y a e a1 R H. unfold io_acts in H. destruct (io_fn fn); cbn [negb] in H.
  2:{ apply (happly_safe _ _ _ _ _ _ (safe_on_snd _ _ (fst (a_user a)) _) eq_refl) in H. destruct H as (_ & _ & H & _). rewrite H. auto. }
  assert (G : forall c, safe krange c -> happly (on_fst c) a = Some (e, a1) -> krange (fst (a_user a1))).
  { intros c SC HC. apply (happly_safe _ _ _ _ _ _ (safe_on_fst _ V _ _ SC) R) in HC. apply HC. }
  assert (GB : forall wr, safe krange (block kq_wait wr cx yf y)).
  { intros wr. unfold block. destruct (negb _); cbn [safe]; auto. intros m RM. apply safe_need. intros b _. destruct (negb _); cbn [safe]; auto. split; auto. apply safe_hseq; [apply kq_wait_range|].
    intros st. destruct (ok st); cbn [safe]; auto. intros m1 R1. apply safe_need. intros b1 _. cbn [safe]. auto. }
  assert (GK : forall wr, safe krange (back wr y)).
  { intros wr. unfold back. cbn [safe]. intros m RM. apply safe_need. intros b _. cbn [safe]. auto. }
  repeat match type of H with happly (on_fst (if ?b then _ else _)) _ = _ => destruct b end; cbn [kq_plat pl_wait pl_round pl_release] in H; try exact (G _ (GB _) H); try exact (G _ (GK _) H).
  - exact (G _ (kq_round_range _) H).
  - eapply G; [|exact H]. unfold new_sock. cbn [safe]. intros m RM. destruct (_ || _); cbn [safe]; auto.
  - eapply G; [|exact H]. unfold kq_release. cbn [safe]. intros m RM. apply safe_need. intros b _. cbn [safe]. auto.
Qed.
Lemma kq_range_steps : forall V dels ans (other : acts V) h (a : ast (iost kqst * V)) os a', krange (fst (a_user a)) ->
  asteps dels (io_acts kq_plat ans other) h a = Some (os, a') -> krange (fst (a_user a')).
Proof.
  intros V dels ans other. induction h as [|p h IH]; intros a os a' R H; cbn [asteps] in H; [inversion H; subst; auto|].
  destruct (astep _ _ p a) as [[o a1]|] eqn:E; [|discriminate]. destruct (asteps _ _ h a1) as [[l a2]|] eqn:E2; [|discriminate]. inversion H; subst.
  eapply IH; [|exact E2]. apply step_user in E as [E|(fn & cx & yf & y & e & a3 & E & ->)]; [rewrite E; auto|]. eapply kq_acts_range; eauto.
Qed.
