From Verif Require Import Base Status MemModel TriggerModel TriggerSpec.

(** The trigger's fields agree with the history. *)
Definition agrees (t : trig) (tr : list trig_event) : Prop :=
  t_triggered t = signalled tr /\
  registered tr = match t_callback t with Some cb => Some (cb, t_context t) | None => None end.

Lemma already_ne : (ERROR_AUTO_RESET_TRIGGER_LISTENER_ALREADY_REGISTERED =? STATUS_SUCCESS) = false.
Proof. reflexivity. Qed.

Lemma settled_other : forall e tr, e <> EStep -> settled (e :: tr).
Proof. intros e tr N p E. inversion E. congruence. Qed.

(** One registration or signal. *)
Lemma legal_register : forall t tr cb ctx e t', legal tr -> settled tr -> agrees t tr ->
  trigger_register t cb ctx = (e, t') ->
  legal (ERegister cb ctx e :: tr) /\ agrees t' (ERegister cb ctx e :: tr) /\
  (registered tr <> None -> t' = t /\ registered (ERegister cb ctx e :: tr) = registered tr) /\
  (registrations (ERegister cb ctx e :: tr) = registrations tr + match registered tr with None => 1 | _ => 0 end)%nat.
Proof.
  intros t tr cb ctx e t' L St [A1 A2] E. unfold trigger_register in E.
  assert (Q : forall p c x, tr = EStep :: p -> due p = Some (c, x) -> False).
  { intros p c x P D. rewrite (St p P) in D. discriminate. }
  destruct (t_callback t) as [c|] eqn:C; inversion E; subst e t'; clear E; cbn [legal registered signalled registrations].
  - rewrite already_ne. split; [|split; [|split]].
    + split; [auto|]. split; [intros ? ? ? K; inversion K; rewrite A2; auto|]. split; [discriminate|].
      intros. exfalso; eauto.
    + split; auto. cbn. rewrite C, A2. auto.
    + auto.
    + rewrite A2. unfold registrations. cbn. lia.
  - change (STATUS_SUCCESS =? STATUS_SUCCESS) with true. cbn iota. split; [|split; [|split]].
    + split; [auto|]. split; [intros ? ? ? K; inversion K; rewrite A2; auto|]. split; [discriminate|].
      intros. exfalso; eauto.
    + split; auto.
    + congruence.
    + rewrite A2. unfold registrations. cbn. lia.
Qed.

Lemma legal_signal : forall t tr, legal tr -> settled tr -> agrees t tr ->
  legal (ESignal :: tr) /\ agrees (trigger_signal t) (ESignal :: tr) /\ registered (ESignal :: tr) = registered tr /\
  registrations (ESignal :: tr) = registrations tr.
Proof.
  intros t tr L St [A1 A2]. cbn [legal registered]. split; [|split; [split; [reflexivity|exact A2]|split; reflexivity]].
  split; [auto|]. split; [discriminate|]. split; [discriminate|].
  intros p c x P D. rewrite (St p P) in D. discriminate.
Qed.

(** Inside a callback that does not step. *)
Lemma run_inside : forall beh ops, ~ In TStep ops -> forall t tr,
  legal tr -> settled tr -> agrees t tr -> registered tr <> None ->
  exists t' tr', (forall fuel, (length ops < fuel)%nat -> trig_run fuel beh ops t tr = Some (t', tr')) /\
    legal tr' /\ settled tr' /\ agrees t' tr' /\ registered tr' = registered tr /\ calls tr' = calls tr /\
    registrations tr' = registrations tr.
Proof.
  intros beh. induction ops as [|o ops IH]; intros NI t tr L St A R.
  - exists t, tr. split; [intros [|f] F; [cbn in F; lia|reflexivity]|]. repeat (split; [auto; fail|]). auto.
  - assert (NI' : ~ In TStep ops) by (intro; apply NI; right; auto).
    destruct o as [cb ctx| |]; [| |exfalso; apply NI; left; auto].
    + destruct (trigger_register t cb ctx) as [e t1] eqn:E.
      destruct (legal_register t tr cb ctx e t1 L St A E) as (L1 & A1 & R1 & G1). destruct (R1 R) as [-> R1'].
      destruct (IH NI' t (ERegister cb ctx e :: tr)) as (t' & tr' & X & Y); auto.
      { apply settled_other. discriminate. } { rewrite R1'. auto. }
      destruct Y as (Y1 & Y2 & Y3 & Y4 & Y5 & Y6). exists t', tr'. split.
      { intros [|f] F; [cbn in F; lia|]. cbn [trig_run]. rewrite E. apply X. cbn in F. lia. }
      split; [exact Y1|]. split; [exact Y2|]. split; [exact Y3|]. split; [congruence|]. split; [rewrite Y5; reflexivity|].
      rewrite Y6, G1. destruct (registered tr); [lia|congruence].
    + destruct (legal_signal t tr L St A) as (L1 & A1 & R1 & G1).
      destruct (IH NI' (trigger_signal t) (ESignal :: tr)) as (t' & tr' & X & Y); auto.
      { apply settled_other. discriminate. }
      destruct Y as (Y1 & Y2 & Y3 & Y4 & Y5 & Y6). exists t', tr'. split.
      { intros [|f] F; [cbn in F; lia|]. cbn [trig_run]. apply X. cbn in F. lia. }
      split; [exact Y1|]. split; [exact Y2|]. split; [exact Y3|]. split; [congruence|]. split; [rewrite Y5; reflexivity|].
      rewrite Y6, G1. reflexivity.
Qed.

Definition pending (tr : list trig_event) : nat := match registered tr with Some _ => 1%nat | None => 0%nat end.

Lemma run_outside : forall beh, step_free beh -> forall ops t tr,
  legal tr -> settled tr -> agrees t tr -> (registrations tr = calls tr + pending tr)%nat ->
  exists t' tr' f0, (forall fuel, (f0 <= fuel)%nat -> trig_run fuel beh ops t tr = Some (t', tr')) /\
    legal tr' /\ settled tr' /\ agrees t' tr' /\ (registrations tr' = calls tr' + pending tr')%nat.
Proof.
  intros beh SF. induction ops as [|o ops IH]; intros t tr L St A C.
  - exists t, tr, 1%nat. split; [intros [|f] F; [lia|reflexivity]|]. repeat (split; auto).
  - destruct o as [cb ctx| |].
    + destruct (trigger_register t cb ctx) as [e t1] eqn:E.
      destruct (legal_register t tr cb ctx e t1 L St A E) as (L1 & A1 & R1 & G1).
      destruct (IH t1 (ERegister cb ctx e :: tr)) as (t' & tr' & f0 & X & Y); auto.
      { apply settled_other. discriminate. }
      { rewrite G1. unfold pending in *. destruct A as [_ A]. cbn [registered]. change (calls (ERegister cb ctx e :: tr)) with (calls tr).
        unfold trigger_register in E. destruct (t_callback t); inversion E; subst e; rewrite A in *; cbn; lia. }
      exists t', tr', (S f0). split; [|exact Y]. intros [|f] F; [lia|]. cbn [trig_run]. rewrite E. apply X. lia.
    + destruct (legal_signal t tr L St A) as (L1 & A1 & R1 & G1).
      destruct (IH (trigger_signal t) (ESignal :: tr)) as (t' & tr' & f0 & X & Y); auto.
      { apply settled_other. discriminate. }
      exists t', tr', (S f0). split; [|exact Y]. intros [|f] F; [lia|]. cbn [trig_run]. apply X. lia.
    + (* step *)
      assert (LS : legal (EStep :: tr)).
      { cbn [legal]. split; [auto|]. split; [discriminate|]. split; [discriminate|].
        intros p c x P D. rewrite (St p P) in D. discriminate. }
      destruct A as [A1 A2]. destruct (t_triggered t) eqn:T; [destruct (t_callback t) as [cb|] eqn:CB|].
      * set (ctx := t_context t) in *.
        assert (D : due tr = Some (cb, ctx)) by (unfold due; rewrite <- A1; exact A2).
        assert (LC : legal (ECall cb ctx :: EStep :: tr)).
        { cbn [legal]. split; [exact LS|]. split; [discriminate|]. split.
          - intros c x K. inversion K; subst. exists tr. auto.
          - intros p c x K1 K2. inversion K1; subst. congruence. }
        destruct (run_inside beh (beh (calls tr) cb ctx) (SF _ _ _) t (ECall cb ctx :: EStep :: tr)) as (t1 & tr1 & X1 & L1 & S1 & A1' & R1 & C1 & G1); auto.
        { apply settled_other. discriminate. }
        { split; [cbn; congruence|]. cbn. rewrite CB. exact A2. }
        { cbn. rewrite A2. discriminate. }
        destruct (IH (Trig false None 0) (EReturn :: tr1)) as (t' & tr' & f0 & X & Y).
        { cbn [legal]. split; [auto|]. split; [discriminate|]. split; [discriminate|].
          intros p c x P Dp. rewrite (S1 p P) in Dp. discriminate. }
        { apply settled_other. discriminate. }
        { split; reflexivity. }
        { change (registrations (EReturn :: tr1)) with (registrations tr1). change (calls (EReturn :: tr1)) with (calls tr1).
          rewrite G1, C1. unfold pending in *. rewrite A2 in C. cbn [registered].
          change (registrations (ECall cb ctx :: EStep :: tr)) with (registrations tr).
          change (calls (ECall cb ctx :: EStep :: tr)) with (S (calls tr)). lia. }
        exists t', tr', (S (f0 + length (beh (calls tr) cb ctx) + 1)). split; [|exact Y].
        intros [|f] F; [lia|]. cbn [trig_run]. rewrite T, CB. rewrite X1 by lia. apply X. lia.
      * destruct (IH t (EStep :: tr)) as (t' & tr' & f0 & X & Y); auto.
        { intros p K. inversion K; subst p. unfold due. rewrite A2. destruct (signalled tr); auto. }
        { split; [cbn; congruence|]. cbn. rewrite CB. exact A2. }
        exists t', tr', (S f0). split; [|exact Y]. intros [|f] F; [lia|]. cbn [trig_run]. rewrite T, CB. apply X. lia.
      * destruct (IH t (EStep :: tr)) as (t' & tr' & f0 & X & Y); auto.
        { intros p K. inversion K; subst p. unfold due. rewrite <- A1. auto. }
        { split; [cbn; congruence|]. cbn. exact A2. }
        exists t', tr', (S f0). split; [|exact Y]. intros [|f] F; [lia|]. cbn [trig_run]. rewrite T. apply X. lia.
Qed.

Lemma trigger_history : forall beh ops t, step_free beh -> ct_obj (trigger_create STATUS_SUCCESS) = Some t ->
  exists t' tr' f0, (forall fuel, (f0 <= fuel)%nat -> trig_run fuel beh ops t [] = Some (t', tr')) /\
    legal tr' /\ settled tr' /\ (calls tr' <= registrations tr')%nat.
Proof.
  intros beh ops t SF C. inversion C; subst t.
  destruct (run_outside beh SF ops (Trig false None 0) []) as (t' & tr' & f0 & X & L & St & A & G).
  { exact I. } { intros p K. discriminate. } { split; reflexivity. } { reflexivity. }
  exists t', tr', f0. split; [auto|]. split; [auto|]. split; [auto|]. lia.
Qed.
