(** Proofs about the scheduler with disciplines on the code that switches stacks. *)
From Verif Require Import Base Status MemModel Heap TabModel SchedModel SchedSpec UsrModel UsrSpec UsrProofs TurnModel TurnSpec.

Definition st_of {T U} (w : sw T U) (f : Z) : option Z := option_map f_state (hget (w_fibs w) f).
(** Handlers change no fiber's state, nor which fiber runs. *)
Record keeps {T U} (w w1 : sw T U) : Prop := K {
  k_cur : w_cur w1 = w_cur w;
  k_wf : hwf (w_fibs w) -> hwf (w_fibs w1);
  k_st : forall f, st_of w1 f = st_of w f }.
Lemma keeps_refl : forall T U (w : sw T U), keeps w w.
Proof. intros. constructor; auto. Qed.
Lemma keeps_trans : forall T U (a b c : sw T U), keeps a b -> keeps b c -> keeps a c.
Proof. intros T U a b c [A1 A2 A3] [B1 B2 B3]. constructor; [congruence|auto|]. intros. rewrite B3; auto. Qed.
Lemma same_fibs_keeps : forall T U (w w1 : sw T U), w_fibs w1 = w_fibs w -> w_cur w1 = w_cur w -> keeps w w1.
Proof. intros. constructor; auto; unfold st_of; rewrite H; auto. Qed.
Lemma allocation_keeps : forall T U (w w1 : sw T U) e, allocation w = (e, w1) -> keeps w w1.
Proof. intros T U w w1 e. unfold allocation. destruct (w_al w); intros H; inversion H; subst; apply same_fibs_keeps; auto. Qed.
Lemma reclaim_keeps : forall T U (w w1 : sw T U) e, reclaim w = (e, w1) -> keeps w w1.
Proof. intros T U w w1 e. unfold reclaim. destruct (w_rc w); intros H; inversion H; subst; apply same_fibs_keeps; auto. Qed.
Lemma set_restore_keeps : forall T U f d e p (w w1 : sw T U), set_restore f d e p w = Some w1 -> keeps w w1.
Proof.
  unfold set_restore. intros T U f d e p w w1 H. destruct (hget (w_fibs w) f) as [b|] eqn:G; [|discriminate]. inversion H; subst.
  constructor; auto; [intros; apply hset_wf; auto|]. intros g. unfold st_of. cbn [set_fibs w_fibs]. rewrite hget_hset, G.
  destruct (Z.eqb_spec g f) as [->|]; auto. rewrite G. auto.
Qed.
Lemma queue_keeps : forall T U f d e p (w w2 : sw T U) st, add_to_run_queue f d e p w = Some (st, w2) -> keeps w w2.
Proof.
  unfold add_to_run_queue. intros T U f d e p w w2 st H. destruct (set_restore f d e p w) as [w1|] eqn:E; [|discriminate].
  destruct (allocation w1) as [a w3] eqn:A. apply set_restore_keeps in E. apply allocation_keeps in A.
  destruct (ok a); inversion H; subst; [|eapply keeps_trans; eauto].
  eapply keeps_trans; [eauto|]. eapply keeps_trans; [eauto|]. apply same_fibs_keeps; auto.
Qed.
Lemma next_keeps : forall T U f d e p (w w2 : sw T U) st, set_next f d e p w = Some (st, w2) -> keeps w w2.
Proof.
  unfold set_next. intros T U f d e p w w2 st H. destruct (set_restore f d e p w) as [w1|] eqn:E; [|discriminate].
  destruct (allocation w1) as [a w3] eqn:A. apply set_restore_keeps in E. apply allocation_keeps in A.
  destruct (ok a); inversion H; subst; [|eapply keeps_trans; eauto].
  eapply keeps_trans; [eauto|]. eapply keeps_trans; [eauto|]. apply same_fibs_keeps; auto.
Qed.
Lemma set_same : forall T U (w : sw T U) x, keeps w (set_tab x w).
Proof. intros. apply same_fibs_keeps; auto. Qed.
Ltac kp :=
  match goal with
  | H : Some _ = Some _ |- _ => inversion H; subst; clear H
  | H : None = Some _ |- _ => discriminate H
  | |- keeps ?w ?w => apply keeps_refl
  | H : add_to_run_queue _ _ _ _ ?w = Some (_, ?w1) |- keeps _ ?w1 => eapply keeps_trans; [|eapply queue_keeps; exact H]; clear H
  | H : set_next _ _ _ _ ?w = Some (_, ?w1) |- keeps _ ?w1 => eapply keeps_trans; [|eapply next_keeps; exact H]; clear H
  | H : allocation ?w = (_, ?w1) |- keeps _ ?w1 => eapply keeps_trans; [|eapply allocation_keeps; exact H]; clear H
  | H : reclaim ?w = (_, ?w1) |- keeps _ ?w1 => eapply keeps_trans; [|eapply reclaim_keeps; exact H]; clear H
  | |- keeps _ (set_tab ?x ?w) => apply (keeps_trans _ _ _ w); [|apply same_fibs_keeps; reflexivity]
  | |- keeps _ (set_mgmt ?x ?w) => apply (keeps_trans _ _ _ w); [|apply same_fibs_keeps; reflexivity]
  | |- keeps _ (set_main ?x ?w) => apply (keeps_trans _ _ _ w); [|apply same_fibs_keeps; reflexivity]
  | |- keeps _ (set_user ?x ?w) => apply (keeps_trans _ _ _ w); [|apply same_fibs_keeps; reflexivity]
  | |- keeps _ (set_rq ?x ?w) => apply (keeps_trans _ _ _ w); [|apply same_fibs_keeps; reflexivity]
  | H : (let '(_, _) := ?x in _) = Some _ |- _ => destruct x as [? ?] eqn:?; cbv zeta in H
  | H : (match ?x with Some _ => _ | None => None end) = Some _ |- _ => destruct x as [?|] eqn:?; [|discriminate H]
  | H : (if ?x then _ else _) = Some _ |- _ => destruct x eqn:?
  end.
Lemma hrun_keeps : forall T U (c : hprog U) (w w1 : sw T U) e, hrun c w = Some (e, w1) -> keeps w w1.
Proof.
  induction c as [e|b [f [[d ev] p]] k IH|k IH|k IH|k IH|u k IH|]; intros w w1 e' H; cbn in H.
  - kp. kp.
  - destruct b; repeat kp; apply IH in H; (eapply keeps_trans; [|exact H]); repeat kp.
  - repeat kp; apply IH in H; (eapply keeps_trans; [|exact H]); repeat kp.
  - repeat kp; apply IH in H; (eapply keeps_trans; [|exact H]); repeat kp.
  - eapply IH; eauto.
  - apply IHk in H || apply IH in H. eapply keeps_trans; [|exact H]. repeat kp.
  - discriminate.
Qed.
Lemma request_loop_keeps : forall T U req yf fs (w w1 : sw T U) e, request_loop req yf fs w = Some (e, w1) -> keeps w w1.
Proof.
  induction fs as [|f t IH]; intros w w1 e H; cbn in H; [repeat kp|].
  repeat kp; try (apply IH in H; eapply keeps_trans; [|exact H]); repeat kp.
Qed.
Lemma call_keeps : forall T U (ts : tops T) (ac : acts U) fn cx yf ev p (w w1 : sw T U) e,
  call ts (ext_of ac) fn cx yf ev p w = Some (e, w1) -> keeps w w1.
Proof.
  intros T U ts ac fn cx yf ev p w w1 e H. unfold call in H.
  repeat match type of H with (if ?b then _ else _) _ _ _ _ _ = _ => destruct b eqn:? end;
    try (eapply hrun_keeps; exact H);
    unfold run_handler, main_handler, add_fiber_handler, stop_handler, resource_release_handler, receive_handler, request_handler, request_all_handler, on_ctx in H;
    (destruct (cx =? SCHED_CTX); [|discriminate]); repeat kp.
  all: try (match goal with H : request_loop _ _ _ _ = Some _ |- _ => apply request_loop_keeps in H; eapply keeps_trans; [exact H|] end); repeat kp.
Qed.

(** What the callback leaves of the fibers: all if it succeeds. *)
Lemma pick_keeps : forall T U (w w1 : sw T U) e r, pick_next w = Some (e, r, w1) ->
  w_cur w1 = w_cur w /\ (hwf (w_fibs w) -> hwf (w_fibs w1) /\ (forall f, st_of w1 f = st_of w f \/ st_of w1 f = None)) /\ (ok e = true -> keeps w w1).
Proof.
  intros T U w w1 e r H. unfold pick_next in H. destruct (w_rq w) as [|f t].
  - destruct (negb (w_idle w =? 0)); inversion H; subst; (split; [auto|]; split; [auto|]); intros; apply keeps_refl.
  - destruct (reclaim (set_rq t w)) as [a w2] eqn:R. apply reclaim_keeps in R.
    assert (K2 : keeps w w2) by (eapply keeps_trans; [|exact R]; apply same_fibs_keeps; auto). clear R.
    destruct (ok a).
    + destruct (hget (w_fibs w2) f); [|discriminate]. inversion H; subst. pose proof K2 as [A B C].
      split; [auto|]. split; [intros Wf; split; [auto|intros; left; auto]|]. auto.
    + destruct (hget (w_fibs w2) f); [|discriminate].
      destruct (reclaim (set_fibs (hdel (w_fibs w2) f) w2)) as [a' w3] eqn:R. apply reclaim_keeps in R.
      destruct (ok a') eqn:Ok; [discriminate|]. inversion H; subst. destruct K2 as [A B C], R as [A' B' C'].
      split; [rewrite A'; auto|]. split; [|rewrite Ok; discriminate]. intros Wf. split; [apply B', hdel_wf; auto|].
      intros g. rewrite C', <- C. unfold st_of. cbn [set_fibs w_fibs]. rewrite hget_hdel by auto. destruct (g =? f); auto.
Qed.
Lemma callback_keeps : forall T U (ts : tops T) (ac : acts U) yf ev p (w w1 : sw T U) e r,
  sched_callback (call ts (ext_of ac)) yf ev p w = Some (e, r, w1) ->
  w_cur w1 = w_cur w /\ (hwf (w_fibs w) -> hwf (w_fibs w1) /\ (forall f, st_of w1 f = st_of w f \/ st_of w1 f = None)) /\ (ok e = true -> keeps w w1).
Proof.
  intros T U ts ac yf ev p w w1 e r H. unfold sched_callback in H.
  destruct (_ <=? _). { inversion H; subst. split; [auto|]. split; [auto|]. intros; apply keeps_refl. }
  destruct (nth_error (g_cbs (w_reg w)) (Z.to_nat ev)) as [fn|]; [|discriminate].
  destruct (nth_error (g_ctxs (w_reg w)) (Z.to_nat ev)) as [cx|]; [|discriminate].
  destruct (call ts (ext_of ac) fn cx yf ev p w) as [[e1 w2]|] eqn:E; [|discriminate]. apply call_keeps in E.
  destruct E as [A B C]. destruct (negb (ok e1)) eqn:O1.
  - inversion H; subst. split; [auto|]. split; [auto|]. intros; constructor; auto.
  - destruct (pick_keeps _ _ _ _ _ _ H) as (P1 & P2 & P3). split; [congruence|]. split.
    + intros Wf. destruct (P2 (B Wf)) as [Q1 Q2]. split; auto. intros f. rewrite <- C. auto.
    + intros O. eapply keeps_trans; [constructor; eauto|auto].
Qed.

Lemma released_ok : forall main l (m : Z -> option phase), NoDup l -> (forall f, In f l -> m f <> None /\ f <> main) ->
  exists m', released main l m = Some m' /\ forall g, m' g = if in_dec Z.eq_dec g l then None else m g.
Proof.
  induction l as [|f l IH]; intros m N A.
  - exists m. split; auto.
  - inversion N as [|? ? N1 N2]; subst. destruct (A f (or_introl eq_refl)) as [A1 A2]. cbn [released].
    destruct (m f) as [ph|] eqn:E; [|congruence]. destruct (Z.eqb_spec f main); [congruence|].
    destruct (IH (upd m f None) N2) as (m' & R & Q).
    { intros g G. rewrite upd_other by congruence. apply A. right; auto. }
    exists m'. split; auto. intros g. rewrite Q. destruct (in_dec Z.eq_dec g l) as [I|I], (in_dec Z.eq_dec g (f :: l)) as [I'|I']; auto.
    + exfalso. apply I'. right. auto.
    + destruct I' as [->|I']; [apply upd_same|tauto].
    + apply upd_other. intros ->. apply I'. left. auto.
Qed.

(** The scheduler's state is that of the fibers. *)
Record rel {T U} (st : Z) (ph : Z -> phase) (y : sys (sw T U)) (w : sw T U) : Prop := REL {
  rl_run : running y = w_cur w;
  rl_ctx : context y = w;
  rl_wf : hwf (w_fibs w);
  rl_st : forall f, st_of w f = if f =? running y then Some st else option_map phase_state (parked y f);
  rl_none : parked y (running y) = None;
  rl_ph : forall f x, parked y f = Some x -> ph f = x }.

Lemma in_st : forall T U (w : sw T U) f, In f (addrs (w_fibs w)) <-> st_of w f <> None.
Proof.
  intros. unfold st_of. split; intros H.
  - destruct (hget (w_fibs w) f) eqn:E; [discriminate|]. apply hget_none in E. tauto.
  - destruct (hget (w_fibs w) f) eqn:E; [|cbn in H; congruence]. eapply hget_in; eauto.
Qed.
Lemma gone_in : forall T U (w w1 : sw T U) f, In f (gone w w1) <-> st_of w f <> None /\ st_of w1 f = None.
Proof.
  intros. unfold gone. rewrite filter_In, in_st. unfold st_of. destruct (hget (w_fibs w1) f); cbn; intuition congruence.
Qed.
Lemma gone_nodup : forall T U (w w1 : sw T U), hwf (w_fibs w) -> NoDup (gone w w1).
Proof. intros. apply NoDup_filter. apply H. Qed.

Definition shifted (run : Z) (why : phase) (ph : Z -> phase) : Z -> phase := fun g => if g =? run then why else ph g.

Lemma ask_turn : forall T U (ts : tops T) (ac : acts U) s m st ph why ev p (y : sys (sw T U)) w e w',
  rel st ph y w -> st = phase_state why -> why <> Unbegun ->
  yield (call ts (ext_of ac)) ev p w = Some (e, w') ->
  In (w_cur w) (addrs (w_fibs w')) -> In m (addrs (w_fibs w')) ->
  exists o y', ask (disc_cb (call ts (ext_of ac))) s m why ev p 0 0 y = Some (o, y') /\
    if e =? 0 then
      exists f d e' p', SchedSpec.running w' = Some (f, d, e', p') /\
        o = sees (shifted (w_cur w) why ph f) d e' p' /\ o <> Dies /\ (forall x, o <> Fails x) /\
        rel RUNNING (shifted (w_cur w) why ph) y' w' /\ f = w_cur w'
    else o = Fails e /\ rel st ph y' w' /\ w_cur w' = w_cur w.
Proof.
  intros T U ts ac s m st ph why ev p y w e w' [Rr Rc Rw Rs Rn Rp] St Nu Y Lc Lm.
  unfold yield in Y. unfold ask. rewrite Rc, Rr.
  set (a := disc_cb (call ts (ext_of ac)) s w (w_cur w) ev p). assert (Ea : a = disc_cb (call ts (ext_of ac)) s w (w_cur w) ev p) by reflexivity. clearbody a. unfold disc_cb in Ea.
  destruct (sched_callback (call ts (ext_of ac)) (w_cur w) ev p w) as [[[e1 [[[f d] e2] p2]] w1]|] eqn:E; [|discriminate].
  destruct (callback_keeps _ _ _ _ _ _ _ _ _ _ _ E) as (C1 & C2 & C3). destruct (C2 Rw) as [Wf1 D1].
  destruct (ok e1) eqn:O; cbn [negb] in Y; rewrite Ea.
  - destruct (C3 eq_refl) as [K1 K2 K3]. destruct (switch_to f d e2 p2 w1) as [w2|] eqn:Sw; [|discriminate]. inversion Y; subst e w'; clear Y.
    cbn [a_freed a_status a_fib a_disc a_event a_param a_ctx].
    assert (G0 : gone w w1 = []).
    { destruct (gone w w1) as [|g l] eqn:G; auto. assert (I : In g (gone w w1)) by (rewrite G; left; auto).
      apply gone_in in I. destruct I as [I1 I2]. rewrite K3 in I2. congruence. }
    rewrite G0. cbn [released]. apply Z.eqb_eq in O. change STATUS_SUCCESS with 0 in O. subst e1. cbn [Z.eqb]. unfold or_else.
    unfold switch_to in Sw. destruct (hget (w_fibs w1) f) as [b|] eqn:Gf; [|discriminate].
    destruct (Z.eqb_spec (f_state b) STOPPED) as [|Ns]; [discriminate|]. inversion Sw; subst w2; clear Sw.
    assert (Sf : st_of w f = Some (f_state b)) by (rewrite <- K3; unfold st_of; rewrite Gf; auto).
    rewrite Rs, Rr in Sf.
    set (m' := upd (parked y) (w_cur w) (Some why)).
    assert (Pf : exists x, m' f = Some x /\ shifted (w_cur w) why ph f = x /\ f_state b = phase_state x).
    { unfold m', shifted. destruct (Z.eqb_spec f (w_cur w)) as [->|D].
      - rewrite upd_same. exists why. split; auto. split; auto. congruence.
      - rewrite upd_other by auto. destruct (parked y f) as [x|] eqn:Px; [|discriminate]. exists x. split; auto. split; [apply Rp; auto|].
        cbn in Sf. congruence. }
    destruct Pf as (x & P1 & P2 & P3). rewrite P1. eexists. eexists. split; [reflexivity|].
    cbn [Z.eqb STATUS_SUCCESS]. change (STATUS_SUCCESS =? 0) with true. cbn match.
    exists f, d, e2, p2. unfold SchedSpec.running. cbn [set_cur set_fibs w_cur w_fibs]. erewrite hget_hset_same by eauto.
    cbn [f_disc f_event f_param]. split; auto. rewrite P2. split; auto.
    assert (Nx : x <> Returned) by (intros ->; cbn in P3; congruence).
    split; [destruct x; cbn; congruence|]. split; [destruct x; cbn; congruence|]. split; [|auto].
    constructor; cbn [running context parked set_cur set_fibs w_cur w_fibs]; auto.
    + apply hset_wf; auto.
    + intros g. unfold st_of. cbn [set_cur set_fibs w_fibs]. rewrite hget_hset, Gf. destruct (Z.eqb_spec g f) as [->|Dg].
      * cbn. destruct x; cbn in P3; try congruence; rewrite P3; reflexivity.
      * change (st_of w1 g = option_map phase_state (upd m' f None g)). rewrite upd_other by auto. rewrite K3, Rs, Rr. unfold m'.
        destruct (Z.eqb_spec g (w_cur w)) as [->|Dc]; [rewrite upd_same; subst st; auto|rewrite upd_other; auto].
    + apply upd_same.
    + intros g z Hz. destruct (Z.eq_dec g f) as [->|Dg]; [rewrite upd_same in Hz; discriminate|]. rewrite upd_other in Hz by auto.
      unfold m' in Hz. unfold shifted. destruct (Z.eqb_spec g (w_cur w)) as [->|Dc]; [rewrite upd_same in Hz; congruence|].
      rewrite upd_other in Hz by auto. auto.
  - inversion Y; subst e1 w1; clear Y. cbn [a_freed a_status a_fib a_disc a_event a_param a_ctx].
    assert (Z0 : (e =? 0) = false) by exact O. rewrite Z0.
    destruct (released_ok m (gone w w') (parked y) (gone_nodup _ _ _ _ Rw)) as (m' & Rl & Q).
    { intros g Hg. apply gone_in in Hg. destruct Hg as [G1 G2]. rewrite Rs in G1. split.
      - destruct (Z.eqb_spec g (running y)) as [E0|]; [|destruct (parked y g); cbn in G1; congruence].
        rewrite E0, Rr in G2. apply in_st in Lc. congruence.
      - intros E0. rewrite E0 in G2. apply in_st in Lm. congruence. }
    rewrite Rl. eexists. eexists. split; [reflexivity|]. split; auto. split; [|exact C1].
    assert (Sg : forall g, parked y g = None \/ g = w_cur w -> m' g = parked y g).
    { intros g Hg. rewrite Q. destruct (in_dec Z.eq_dec g (gone w w')) as [I|I]; auto. destruct Hg as [Hg|Hg]; auto.
      rewrite Hg, <- Rr. auto. }
    constructor; cbn [running context parked]; auto.
    + intros g. destruct (Z.eqb_spec g (w_cur w)) as [->|Dg].
      * destruct (D1 (w_cur w)) as [D|D]; [rewrite D, Rs, Rr, Z.eqb_refl; auto|]. apply in_st in Lc. congruence.
      * rewrite Q. assert (Sg' : st_of w g = option_map phase_state (parked y g)).
        { rewrite Rs. destruct (Z.eqb_spec g (running y)); congruence. }
        destruct (in_dec Z.eq_dec g (gone w w')) as [I|I]; [apply gone_in in I; cbn; apply I|].
        destruct (D1 g) as [D|D]; [congruence|]. rewrite D, <- Sg'. destruct (st_of w g) eqn:X; auto. exfalso. apply I. apply gone_in. split; congruence.
    + rewrite Sg by auto. rewrite <- Rr. auto.
    + intros g x Hx. rewrite Q in Hx. destruct (in_dec Z.eq_dec g (gone w w')); [discriminate|auto].
Qed.

Definition with_ctx {C} (x : C) (y : sys C) : sys C := Sys (running y) (parked y) x (told y).
Lemma ctx_ok : forall C s m st base (y : sys C) j, sys_ok s m st base y j -> ctx_of s j = Some (context y).
Proof. intros C s m st base y j [H _ _ _]. unfold ctx_of. rewrite H. auto. Qed.
Lemma edit_ok : forall C s m st base x (y : sys C) j, sys_ok s m st base y j ->
  exists j1, edit s x j = Some j1 /\ sys_ok s m st base (with_ctx x y) j1.
Proof.
  intros C s m st base x y j [H1 H2 H3 H4]. unfold edit. rewrite H1. eexists. split; [reflexivity|].
  constructor; cbn; auto. erewrite hget_hset_same by eauto. auto.
Qed.
Lemma with_ctx_same : forall C (y : sys C), with_ctx (context y) y = y.
Proof. intros C []. auto. Qed.

(** What a call that may switch makes of a fiber that runs. *)
Definition fits {T U} (why : phase) (e : Z) (ph : Z -> phase) (w : sw T U) (o : outcome) (y' : sys (sw T U)) (w' : sw T U) : Prop :=
  if e =? 0 then
    exists f d e' p', SchedSpec.running w' = Some (f, d, e', p') /\
      o = sees (shifted (w_cur w) why ph f) d e' p' /\ o <> Dies /\ rel RUNNING (shifted (w_cur w) why ph) y' w' /\ f = w_cur w'
  else o = Fails e /\ rel RUNNING ph y' w' /\ w_cur w' = w_cur w.
Lemma call_turn : forall T U (ts : tops T) (ac : acts U) s m base ph why ev p c (y : sys (sw T U)) j w e w',
  sys_ok s m RUNNING base y j -> rel RUNNING ph y w -> (why = Yielding \/ why = Adding) ->
  does (disc_cb (call ts (ext_of ac))) s m c y =
    (match ask (disc_cb (call ts (ext_of ac))) s m why ev p 0 0 y with Some (o, y') => Some (Sees o, y') | None => None end) ->
  yield (call ts (ext_of ac)) ev p w = Some (e, w') ->
  In (w_cur w) (addrs (w_fibs w')) -> In m (addrs (w_fibs w')) ->
  exists o y' j', do_call (disc_cb (call ts (ext_of ac))) c j = Some (Sees o, j') /\ sys_ok s m RUNNING base y' j' /\ fits why e ph w o y' w'.
Proof.
  intros T U ts ac s m base ph why ev p c y j w e w' S R Y D E L1 L2.
  assert (W1 : RUNNING = phase_state why) by (destruct Y; subst; auto). assert (W2 : why <> Unbegun) by (destruct Y; subst; discriminate).
  destruct (ask_turn _ _ _ _ s m _ _ _ _ _ _ _ _ _ R W1 W2 E L1 L2) as (o & y' & A & F).
  rewrite A in D. destruct (does_ok _ _ _ _ _ _ _ _ _ _ S D) as (j' & J & _ & S').
  exists o, y', j'. split; auto. unfold fits. destruct (e =? 0).
  - destruct F as (f & d & e' & p' & F1 & F2 & F3 & F4 & F5 & F6). split; [destruct o; auto; congruence|].
    exists f, d, e', p'. tauto.
  - destruct F as [-> F]. split; auto.
Qed.
Lemma switched_inv : forall T U (x : option (Z * sw T U)) o w', switched x = Some (o, w') ->
  exists e, x = Some (e, w') /\ if e =? 0 then exists r, SchedSpec.running w' = Some r /\ o = (e, r) else o = (e, nowhere).
Proof.
  intros T U x o w' H. unfold switched in H. destruct x as [[e w1]|]; [|discriminate]. exists e.
  unfold ok in H. change STATUS_SUCCESS with 0 in H. destruct (e =? 0); cbn [negb] in H.
  - destruct (SchedSpec.running w1) as [r|] eqn:E; [|discriminate]. inversion H; subst. split; auto. eauto.
  - inversion H; subst. auto.
Qed.
Lemma fits_plays : forall T U op why e ph (w : sw T U) x y' w' o,
  may_switch op = true -> leaves op = why -> fits why e ph w x y' w' ->
  (if e =? 0 then exists r, SchedSpec.running w' = Some r /\ o = (e, r) else o = (e, nowhere)) ->
  exists ph', rel RUNNING ph' y' w' /\ Saw x <> Saw Dies /\ forall h os, plays (op :: h) (o :: os) (w_cur w) ph = Saw x :: plays h os (w_cur w') ph'.
Proof.
  intros T U op why e ph w x y' w' o M L F O. unfold fits in F. destruct (Z.eqb_spec e 0) as [->|Ne].
  - destruct F as (f & d & e' & p' & F1 & F2 & F3 & F4 & F5). destruct O as (r & O1 & ->).
    rewrite O1 in F1. inversion F1; subst r. exists (shifted (w_cur w) why ph). split; auto. split; [congruence|].
    intros h os. cbn [plays]. rewrite M, Z.eqb_refl, L. fold (shifted (w_cur w) why ph). rewrite F2, F5. auto.
  - destruct F as (-> & F & C). subst o. exists ph. split; auto. split; [congruence|]. intros h os. cbn [plays]. rewrite M. unfold nowhere.
    destruct (Z.eqb_spec e 0); [congruence|]. rewrite C; auto.
Qed.

(** Changes of the context alone. *)
Lemma ctx_turn : forall T U s m base ph (y : sys (sw T U)) j w w1,
  sys_ok s m RUNNING base y j -> rel RUNNING ph y w -> keeps w w1 ->
  exists j1, edit s w1 j = Some j1 /\ sys_ok s m RUNNING base (with_ctx w1 y) j1 /\ rel RUNNING ph (with_ctx w1 y) w1.
Proof.
  intros T U s m base ph y j w w1 S [Rr Rc Rw Rs Rn Rp] [K1 K2 K3]. destruct (edit_ok _ _ _ _ _ w1 _ _ S) as (j1 & E & S1).
  exists j1. split; auto. split; auto. constructor; cbn [with_ctx running context parked]; auto; [congruence|].
  intros f. rewrite K3. auto.
Qed.
Lemma discipline_turn : forall T U (ts : tops T) (ac : acts U) s m base ph d ev p (y : sys (sw T U)) j w e w',
  sys_ok s m RUNNING base y j -> rel RUNNING ph y w ->
  discipline_yield (call ts (ext_of ac)) d ev p w = Some (e, w') ->
  In (w_cur w) (addrs (w_fibs w')) -> In m (addrs (w_fibs w')) ->
  exists o y' j', turn_discipline (call ts (ext_of ac)) s d ev p j = Some (o, j') /\ sys_ok s m RUNNING base y' j' /\ fits Yielding e ph w o y' w'.
Proof.
  intros T U ts ac s m base ph d ev p y j w e w' S R H L1 L2. unfold discipline_yield in H. unfold turn_discipline.
  rewrite (ctx_ok _ _ _ _ _ _ _ S), (rl_ctx _ _ _ _ R).
  destruct (hget (g_heap (w_reg w)) d) as [x|]; [|discriminate].
  destruct (_ <? to_size ev).
  { inversion H; subst. exists (Fails ERROR_FIBER_SCHEDULER_BAD_YIELD_EVENT), y, j. split; auto. split; auto. split; auto. }
  destruct (nth_error (d_codes x) (Z.to_nat ev)) as [code|]; [|discriminate]. destruct (d_owned x); [|discriminate].
  destruct (call_turn _ _ ts ac s m base ph Yielding (to_int code) p (CYield s (to_int code) p 0 0) y j w e w' S R (or_introl eq_refl)) as (o & y' & j' & D & S' & F); auto.
  { cbn [does]. rewrite Z.eqb_refl. auto. }
  exists o, y', j'. split; auto. cbn [do_call] in D. destruct (usr_yield _ _ _ _ _ _ _) as [[o1 j1]|]; inversion D; subst; auto.
Qed.
Lemma look_call : forall C (x : option (outcome * world C)) o j', (do '(o, w') <- x; Some (Sees o, w')) = Some (Sees o, j') -> look x = Some (Saw o, j').
Proof. intros C x o j' H. unfold look. destruct x as [[o1 j1]|]; inversion H; subst; auto. Qed.

Lemma turn_ok : forall T U (ts : tops T) (ac : acts U) s m base ph op (y : sys (sw T U)) j w o w',
  sys_ok s m RUNNING base y j -> rel RUNNING ph y w ->
  match op with SNew f => f <> 0 /\ ~ In f (addrs (w_fibs w)) | SAdd f => In f (addrs (w_fibs w)) | SStop => w_cur w <> m | _ => True end ->
  sexec ts ac op w = Some (o, w') ->
  In (w_cur w) (addrs (w_fibs w')) -> In m (addrs (w_fibs w')) ->
  exists x y' j' ph', turn ts ac s op j = Some (x, j') /\ sys_ok s m RUNNING base y' j' /\ rel RUNNING ph' y' w' /\ x <> Saw Dies /\
    forall h os, plays (op :: h) (o :: os) (w_cur w) ph = x :: plays h os (w_cur w') ph'.
Proof.
  intros T U ts ac s m base ph op y j w o w' S R Pre E L1 L2.
  assert (Ctx : ctx_of s j = Some w) by (rewrite (ctx_ok _ _ _ _ _ _ _ S), (rl_ctx _ _ _ _ R); auto).
  assert (Same : forall w1, keeps w w1 -> o = o -> w' = w1 -> may_switch op = false -> (forall f, op <> SNew f) ->
    exists x y' j' ph', (do j1 <- edit s w1 j; Some (Stayed o, j1)) = Some (x, j') /\ sys_ok s m RUNNING base y' j' /\ rel RUNNING ph' y' w' /\ x <> Saw Dies /\
      forall h os, plays (op :: h) (o :: os) (w_cur w) ph = x :: plays h os (w_cur w') ph').
  { intros w1 Kp _ -> Ms Nn. destruct (ctx_turn _ _ _ _ _ _ _ _ _ _ S R Kp) as (j1 & J & S1 & R1).
    rewrite J. do 4 eexists. split; [reflexivity|]. split; [exact S1|]. split; [exact R1|]. split; [discriminate|].
    intros h os. cbn [plays]. rewrite Ms, (k_cur _ _ Kp). destruct op; auto. exfalso. eapply Nn; eauto. }
  assert (Dy : forall d ev p, switched (discipline_yield (call ts (ext_of ac)) d ev p w) = Some (o, w') -> may_switch op = true -> leaves op = Yielding ->
    exists x y' j' ph', look (turn_discipline (call ts (ext_of ac)) s d ev p j) = Some (x, j') /\ sys_ok s m RUNNING base y' j' /\ rel RUNNING ph' y' w' /\ x <> Saw Dies /\
      forall h os, plays (op :: h) (o :: os) (w_cur w) ph = x :: plays h os (w_cur w') ph').
  { intros d ev p H M Lv. destruct (switched_inv _ _ _ _ _ H) as (e & E1 & E2).
    destruct (discipline_turn _ _ _ _ _ _ _ _ _ _ _ _ _ _ _ _ S R E1 L1 L2) as (x & y' & j' & D & S' & F).
    destruct (fits_plays _ _ op _ _ _ _ _ _ _ o M Lv F E2) as (ph' & R' & Nd & Pl).
    exists (Saw x), y', j', ph'. unfold look. rewrite D. auto. }
  assert (Cy : forall why ev p c v, switched (yield (call ts (ext_of ac)) ev p w) = Some (o, w') -> may_switch op = true -> leaves op = why ->
    (why = Yielding \/ why = Adding) ->
    does (disc_cb (call ts (ext_of ac))) s m c y =
      (match ask (disc_cb (call ts (ext_of ac))) s m why ev p 0 0 y with Some (o, y') => Some (Sees o, y') | None => None end) ->
    do_call (disc_cb (call ts (ext_of ac))) c j = (do '(o, w') <- v; Some (Sees o, w')) ->
    exists x y' j' ph', look v = Some (x, j') /\ sys_ok s m RUNNING base y' j' /\ rel RUNNING ph' y' w' /\ x <> Saw Dies /\
      forall h os, plays (op :: h) (o :: os) (w_cur w) ph = x :: plays h os (w_cur w') ph').
  { intros why ev p c v H M Lv Wh D V. destruct (switched_inv _ _ _ _ _ H) as (e & E1 & E2).
    destruct (call_turn _ _ _ _ _ _ _ _ _ _ _ _ _ _ _ _ _ S R Wh D E1 L1 L2) as (x & y' & j' & Dc & S' & F).
    destruct (fits_plays _ _ op _ _ _ _ _ _ _ o M Lv F E2) as (ph' & R' & Nd & Pl).
    exists (Saw x), y', j', ph'. split; [apply look_call; rewrite <- V; auto|auto]. }
  destruct op as [f|f| | | | | |t f|t|f|f|f|jk d id cx cbs|d|id|d ev p|fn cx p]; cbn [turn].
  - (* SNew *)
    destruct Pre as [N0 Nf]. rewrite Ctx. cbn [sexec stayed] in E. inversion E; subst o w'; clear E.
    pose proof R as [Rr Rc Rw Rs Rn Rp].
    assert (Hf : hget (w_fibs w) f = None) by (apply hget_none; auto).
    assert (Sf : st_of w f = None) by (unfold st_of; rewrite Hf; auto). rewrite Rs in Sf.
    assert (Kf : f <> running y /\ parked y f = None).
    { destruct (Z.eqb_spec f (running y)); [discriminate|]. destruct (parked y f); [discriminate|auto]. }
    destruct Kf as [Kf1 Kf2].
    destruct (does_ok _ (disc_cb (call ts (ext_of ac))) s m base (CFiber s f) y j Created (Sys (running y) (upd (parked y) f (Some Unbegun)) (context y) (told y)) S) as (j1 & J & _ & S1).
    { cbn [does]. rewrite Z.eqb_refl. destruct (Z.eqb_spec f 0); [congruence|]. unfold known. destruct (Z.eqb_spec f (running y)); [congruence|].
      rewrite Kf2. auto. }
    cbn [do_call] in J. inversion J; subst j1. destruct (edit_ok _ _ _ _ _ (new_fiber f w) _ _ S1) as (j2 & E2 & S2). rewrite E2.
    exists (Stayed (STATUS_SUCCESS, nowhere)), (with_ctx (new_fiber f w) (Sys (running y) (upd (parked y) f (Some Unbegun)) (context y) (told y))), j2, (fun g => if g =? f then Unbegun else ph g).
    split; auto. split; auto. split; [|split; [discriminate|auto]].
    constructor; cbn [with_ctx running context parked new_fiber w_fibs set_fibs w_cur]; auto.
    + apply hadd_wf; auto.
    + intros g. unfold st_of. cbn [new_fiber w_fibs set_fibs]. rewrite hget_hadd. destruct (Z.eqb_spec g f) as [->|Dg].
      * rewrite upd_same. destruct (Z.eqb_spec f (running y)); [congruence|auto].
      * rewrite upd_other by auto. apply Rs.
    + rewrite upd_other; auto.
    + intros g x Hx. destruct (Z.eqb_spec g f) as [->|Dg]; [rewrite upd_same in Hx; congruence|]. rewrite upd_other in Hx by auto. auto.
  - eapply (Cy Adding YIELD_ADD_FIBER f (CAdd s f 0 0)); auto. cbn [does]. rewrite Z.eqb_refl.
    replace (known f y) with true; auto. unfold known. apply in_st in Pre. rewrite (rl_st _ _ _ _ R) in Pre.
    destruct (f =? running y); auto. destruct (parked y f); auto. cbn in Pre. congruence.
  - eapply (Cy Yielding YIELD_RUN 0 (CRun s 0 0)); auto. cbn [does]. rewrite Z.eqb_refl. auto.
  - (* SStop *)
    destruct (switched_inv _ _ _ _ _ E) as (e & E1 & E2). unfold fiber_stop in E1.
    destruct (hget (w_fibs w) (w_cur w)) as [b|] eqn:Gb; [|discriminate].
    set (w1 := set_fibs (hset (w_fibs w) (w_cur w) (Fib STOPPED (f_disc b) (f_event b) (f_param b))) w) in *.
    assert (Sw : stopped w = Some w1) by (unfold stopped; rewrite Gb; auto).
    destruct (yield (call ts (ext_of ac)) YIELD_STOP 0 w1) as [[e1 w2]|] eqn:Y; [|discriminate].
    destruct (ok e1) eqn:Ok; cbn [negb] in E1; [|discriminate]. inversion E1; subst e1 w2; clear E1.
    unfold turn_return. rewrite Ctx, Sw. destruct (edit_ok _ _ _ _ _ w1 _ _ S) as (j1 & J1 & S1). rewrite J1.
    pose proof R as [Rr Rc Rw Rs Rn Rp].
    assert (R1 : rel STOPPED ph (with_ctx w1 y) w1).
    { constructor; cbn [with_ctx running context parked]; auto.
      - apply hset_wf; auto.
      - intros g. unfold st_of, w1. cbn [set_fibs w_fibs]. rewrite hget_hset, Gb, Rr. destruct (Z.eqb_spec g (w_cur w)); auto.
        change (st_of w g = option_map phase_state (parked y g)). rewrite Rs, Rr. destruct (Z.eqb_spec g (w_cur w)); congruence. }
    destruct (ask_turn _ _ _ _ s m _ _ Returned YIELD_STOP 0 _ _ _ _ R1 eq_refl (ltac:(discriminate)) Y L1 L2) as (x & y' & A & F).
    unfold ok in Ok. change STATUS_SUCCESS with 0 in Ok. rewrite Ok in F, E2.
    destruct F as (f & d & e' & p' & F1 & F2 & F3 & F4 & F5 & F6).
    destruct (does_ok _ (disc_cb (call ts (ext_of ac))) s m base (CReturn 0 0 0) _ _ (Sees x) y' S1) as (j' & J & _ & S').
    { cbn [does]. cbn [with_ctx running]. rewrite Rr. destruct (Z.eqb_spec (w_cur w) m); [congruence|]. rewrite A.
      destruct x; auto. exfalso. eapply F4; eauto. }
    assert (Ft : fits Returned e ph w x y' w').
    { unfold fits. rewrite Ok. exists f, d, e', p'. auto. }
    assert (E3 : if e =? 0 then exists r, SchedSpec.running w' = Some r /\ o = (e, r) else o = (e, nowhere)) by (rewrite Ok; auto).
    destruct (fits_plays _ _ SStop _ _ _ _ _ _ _ o eq_refl eq_refl Ft E3) as (ph' & R' & Nd & Pl).
    exists (Saw x), y', j', ph'. split; [apply look_call; exact J|].
    split; [destruct x; auto; congruence|auto].
  - eapply (Cy Yielding YIELD_MAIN 0 (CYield s YIELD_MAIN 0 0 0)); auto. cbn [does]. rewrite Z.eqb_refl. auto.
  - eapply (Cy Yielding YIELD_RESOURCE_RELEASE 0 (CYield s YIELD_RESOURCE_RELEASE 0 0 0)); auto. cbn [does]. rewrite Z.eqb_refl. auto.
  - apply Dy; auto.
  - apply Dy; auto. cbn [sexec] in E. destruct t; exact E.
  - apply Dy; auto. cbn [sexec] in E. destruct t; exact E.
  - rewrite Ctx, E. apply Same; auto; [|discriminate]. cbn [sexec stayed] in E. unfold remove_fiber in E.
    destruct (t_delete ts (w_tab w) f) as [[e t]|]; [|discriminate]. inversion E; subst. apply same_fibs_keeps; auto.
  - (* SFree *)
    rewrite Ctx. cbn [sexec stayed] in E. destruct (release_fiber f w) as [w1|] eqn:Rf; [|discriminate]. inversion E; subst o w1; clear E.
    unfold release_fiber in Rf. destruct (hget (w_fibs w) f) as [b|] eqn:Gf; [|discriminate]. inversion Rf; subst w'; clear Rf.
    pose proof R as [Rr Rc Rw Rs Rn Rp]. cbn [set_fibs w_fibs] in L1, L2.
    assert (Nc : f <> w_cur w) by (intros ->; apply (hget_none (hdel (w_fibs w) (w_cur w)) (w_cur w)) in L1; auto; apply hget_hdel_same; auto).
    assert (Nm : f <> m) by (intros ->; apply (hget_none (hdel (w_fibs w) m) m) in L2; auto; apply hget_hdel_same; auto).
    assert (Sf : st_of w f = Some (f_state b)) by (unfold st_of; rewrite Gf; auto). rewrite Rs, Rr in Sf.
    destruct (Z.eqb_spec f (w_cur w)); [congruence|]. destruct (parked y f) as [x|] eqn:Px; [|discriminate].
    destruct S as [H1 H2 H3 H4].
    destruct (free_ok s m (running y) RUNNING [f] (parked y) (upd (parked y) f None) (w_ufs j) H4) as (h' & Fr & H4').
    { cbn. rewrite Px. destruct (Z.eqb_spec f m); [congruence|auto]. }
    cbn [free_all] in Fr. destruct (hfree (w_ufs j) f) as [h1|]; [|discriminate]. inversion Fr; subst h1.
    assert (S1 : sys_ok s m RUNNING base (Sys (running y) (upd (parked y) f None) (context y) (told y)) (W (w_schs j) h' (w_run j) (w_calls j))).
    { constructor; cbn; auto. }
    destruct (edit_ok _ _ _ _ _ (set_fibs (hdel (w_fibs w) f) w) _ _ S1) as (j2 & E2 & S2). rewrite E2.
    exists (Stayed (STATUS_SUCCESS, nowhere)). eexists. exists j2, ph. split; [reflexivity|]. split; [exact S2|].
    split; [|split; [discriminate|auto]].
    constructor; cbn [with_ctx running context parked set_fibs w_fibs w_cur]; auto.
    + apply hdel_wf; auto.
    + intros g. unfold st_of. cbn [w_fibs set_fibs]. rewrite hget_hdel by auto. rewrite Rr. destruct (Z.eqb_spec g f) as [->|Dg].
      * rewrite upd_same. destruct (Z.eqb_spec f (w_cur w)); [congruence|auto].
      * rewrite upd_other by auto. change (st_of w g = if g =? w_cur w then Some RUNNING else option_map phase_state (parked y g)). rewrite Rs, Rr. auto.
    + rewrite upd_other; auto. congruence.
    + intros g z Hz. destruct (Z.eq_dec g f) as [->|Dg]; [rewrite upd_same in Hz; congruence|]. rewrite upd_other in Hz by auto. auto.
  - rewrite Ctx, E. apply Same; auto; [|discriminate]. cbn in E. inversion E; subst. apply same_fibs_keeps; auto.
  - rewrite Ctx, E. apply Same; auto; [|discriminate]. cbn in E. inversion E; subst. apply same_fibs_keeps; auto.
  - rewrite Ctx, E. apply Same; auto; [|discriminate]. cbn [sexec stayed] in E. unfold discipline_add in E.
    destruct (hget (g_heap (w_reg w)) d); [|discriminate].
    repeat match type of E with context [if ?b then _ else _] => destruct b end;
    repeat match type of E with context [allocation ?v] => let A := fresh "A" in destruct (allocation v) as [? ?] eqn:A; apply allocation_keeps in A end;
    repeat match type of E with context [if ?b then _ else _] => destruct b end;
    inversion E; subst; repeat match goal with
      | A : keeps ?a ?b |- keeps _ ?b => eapply keeps_trans; [|exact A]; clear A
      | |- keeps ?a ?a => apply keeps_refl
      | |- keeps _ (set_reg ?x ?v) => apply (keeps_trans _ _ _ v); [|apply same_fibs_keeps; reflexivity]
      end.
  - rewrite Ctx, E. apply Same; auto; [|discriminate]. cbn [sexec] in E. destruct (discipline_find id w). inversion E; subst. apply keeps_refl.
  - apply Dy; auto.
  - rewrite Ctx, E. apply Same; auto; [|discriminate]. cbn [sexec stayed] in E. destruct (hrun (ac fn cx (w_cur w) p) w) as [[e w1]|] eqn:Hr; [|discriminate].
    inversion E; subst. eapply hrun_keeps; eauto.
Qed.
Lemma turns_ok : forall T U (ts : tops T) (ac : acts U) s m base h ph (y : sys (sw T U)) j w os w',
  sys_ok s m RUNNING base y j -> rel RUNNING ph y w -> careful ts ac m h w -> sexecs ts ac h w = Some (os, w') ->
  exists xs y' j' ph', turns ts ac s h j = Some (xs, j') /\ sys_ok s m RUNNING base y' j' /\ rel RUNNING ph' y' w' /\ xs = plays h os (w_cur w) ph.
Proof.
  induction h as [|op h IH]; intros ph y j w os w' S R Ca E; cbn [sexecs] in E.
  - inversion E; subst. exists [], y, j, ph. auto.
  - destruct (sexec ts ac op w) as [[o w1]|] eqn:E1; [|discriminate]. destruct (sexecs ts ac h w1) as [[l w2]|] eqn:E2; [|discriminate].
    inversion E; subst; clear E. destruct Ca as [Pre Ca]. rewrite E1 in Ca. destruct Ca as (L1 & L2 & Ca1).
    destruct (turn_ok _ _ _ _ _ _ _ _ _ _ _ _ _ _ S R Pre E1 L1 L2) as (x & y1 & j1 & ph1 & T1 & S1 & R1 & Nd & Pl).
    destruct (IH _ _ _ _ _ _ S1 R1 Ca1 E2) as (xs & y' & j' & ph' & T2 & S2 & R2 & ->).
    exists (x :: plays h l (w_cur w1) ph1), y', j', ph'. cbn [turns]. rewrite T1.
    split; [|auto]. destruct x as [ov|[]]; try (rewrite T2; auto). congruence.
Qed.

Lemma create_turn : forall T U (ts : tops T) (ac : acts U) junk u s m w0, m <> 0 ->
  sched_create ts (ext_of ac) junk u m = Some (STATUS_SUCCESS, w0) ->
  exists j y, turn_create ts ac junk u s m = Some j /\ sys_ok s m RUNNING [(s, m, YIELD_MAIN, 0)] y j /\ rel RUNNING (fun _ => Yielding) y w0 /\ running y = m.
Proof.
  intros T U ts ac junk u s m w0 Nm H.
  set (w1 := set_cur m (set_fibs [(m, Fib RUNNING INTERNAL_ID RESUME_MAIN 0)] (set_main m (sched_blank ts u m)))).
  assert (Cb : sched_callback (call ts (ext_of ac)) m YIELD_MAIN 0 (sched_blank ts u m) =
    Some (STATUS_SUCCESS, (m, INTERNAL_ID, RESUME_MAIN, 0), set_cur 0 w1)).
  { unfold sched_callback, call, main_handler, on_ctx, set_next, set_restore, pick_next, allocation, reclaim. cbn. change (Pos.to_nat 1) with 1%nat. cbn.
    rewrite !Z.eqb_refl. cbn. rewrite !Z.eqb_refl. reflexivity. }
  unfold sched_create in H. rewrite Cb in H.
  change (ok STATUS_SUCCESS) with true in H. cbn [negb] in H. rewrite !Z.eqb_refl in H. cbn [negb orb] in H.
  change (set_cur m (set_cur 0 w1)) with w1 in H.
  assert (Sw : switch_to m INTERNAL_ID RESUME_MAIN 0 (set_cur 0 w1) = Some w1).
  { unfold switch_to, w1. cbn. rewrite !Z.eqb_refl. reflexivity. }
  assert (Gn : gone (sched_blank ts u m) (set_cur 0 w1) = []).
  { unfold gone, w1. cbn. rewrite Z.eqb_refl. auto. }
  unfold turn_create, usr_create. change (negb (ok STATUS_SUCCESS)) with false. cbn match.
  unfold disc_cb. rewrite Cb, Sw, Gn. change (ok STATUS_SUCCESS) with true. cbn [a_freed a_status a_fib a_event a_ctx free_all].
  change (ok STATUS_SUCCESS) with true. cbn [negb]. rewrite Z.eqb_refl. unfold or_junk. change (RESUME_MAIN =? RESUME_MAIN) with true. cbn [negb orb].
  change (ok STATUS_SUCCESS) with true. cbn [negb].
  set (j0 := W _ _ _ _).
  assert (S0 : sys_ok s m RUNNING [(s, m, YIELD_MAIN, 0)] (fresh m w1) j0).
  { unfold j0. constructor; cbn; auto; try (rewrite Z.eqb_refl; auto).
    - unfold own. rewrite Z.eqb_refl. auto.
    - unfold calls_ok. reflexivity.
    - constructor; cbn; auto.
      + split; cbn; [repeat constructor; auto|]. intros [Q|[]]; auto.
      + rewrite Z.eqb_refl. unfold entry_of. rewrite Z.eqb_refl. eauto.
      + discriminate.
      + intros f _ D. destruct (Z.eqb_spec f m); congruence. }
  rewrite (ctx_ok _ _ _ _ _ _ _ S0). cbn [context fresh].
  match type of H with discipline_add MGMT_DISC ?v = _ => assert (Kv : w_fibs v = w_fibs w1 /\ w_cur v = m) by (split; reflexivity); set (v1 := v) in * end.
  assert (Kp : keeps v1 w0).
  { clearbody v1. unfold discipline_add in H. destruct (hget (g_heap (w_reg v1)) MGMT_DISC); [|discriminate].
    repeat match type of H with context [if ?b then _ else _] => destruct b end; try discriminate;
    repeat match type of H with context [allocation ?v] => let A := fresh "A" in destruct (allocation v) as [? ?] eqn:A; apply allocation_keeps in A end;
    repeat match type of H with context [if ?b then _ else _] => destruct b end;
    inversion H; subst; repeat match goal with
      | A : keeps ?a ?b |- keeps _ ?b => eapply keeps_trans; [|exact A]; clear A
      | |- keeps ?a ?a => apply keeps_refl
      | |- keeps _ (set_reg ?x ?v) => apply (keeps_trans _ _ _ v); [|apply same_fibs_keeps; reflexivity]
      end. }
  rewrite H. change (ok STATUS_SUCCESS) with true. cbn [negb].
  destruct (edit_ok _ _ _ _ _ w0 _ _ S0) as (j1 & E1 & S1). rewrite E1. exists j1, (with_ctx w0 (fresh m w1)).
  split; auto. split; auto. split; [|reflexivity]. destruct Kv as [V1 V2]. destruct Kp as [K1 K2 K3].
  constructor; cbn [with_ctx fresh running context parked]; auto; [| |discriminate].
  - apply K2. rewrite V1. split; cbn; [repeat constructor; auto|]. intros [Q|[]]; auto.
  - intros f. rewrite K3. unfold st_of. rewrite V1. cbn. destruct (f =? m); auto.
Qed.
