(** Lemmas for C65: the start of main reaches the invariant, and the states of the server keep
    it. *)
From Verif Require Import Base Status MemModel MemProofs Heap TabModel TabSpec TabProofs SchedModel SchedSpec SchedProofs SchedHist MsgModel CondSpec IoModel IoSpec IoProofs ServModel ServSpec ServInv ServSwitch ServSteps ServCalls ServWaits ServRound.

Lemma asteps_cons : forall U dels (ac : acts U) p h a o a1 os a', astep dels ac p a = Some (o, a1) -> asteps dels ac h a1 = Some (os, a') -> asteps dels ac (p :: h) a = Some (o :: os, a').
Proof. intros U dels ac p h a o a1 os a' A B. cbn [asteps]. rewrite A, B. reflexivity. Qed.
(** Adding a fiber while nothing waits for management events. *)
Lemma add_early : forall U dels (ac : acts U) g (a : ast U), a_al a = [] -> a_mgmt a = 0 -> ~ In g (a_known a) -> hget (a_life a) g = Some CREATED -> hget (a_life a) (a_cur a) = Some RUNNING ->
  ~ In g (map who (a_ready a)) -> ~ In (a_cur a) (map who (a_ready a)) -> g <> a_cur a ->
  exists o a', astep dels ac (SAdd g) a = Some (o, a') /\ a_ready a' = a_ready a ++ [(false, (g, (INTERNAL_ID, RESUME_ADD_FIBER, 0)))] /\ a_life a' = a_life a /\ a_known a' = zput g (a_known a) /\
    a_idle a' = a_idle a /\ a_mgmt a' = 0 /\ a_cur a' = a_cur a /\ a_discs a' = a_discs a /\ a_ids a' = a_ids a /\ a_total a' = a_total a /\ a_al a' = [] /\ a_user a' = a_user a.
Proof.
  intros U dels ac g a AL MG NK LG LC NG NC GC. cbn [astep]. unfold join. rewrite (proj2 (zmem_not _ _)) by auto. rewrite LG. unfold alloc_spec at 1. rewrite AL. change (negb (ok STATUS_SUCCESS)) with false. cbv iota.
  unfold push at 1. unfold known_set at 1. cbn [fst a_life]. rewrite LG. change (CREATED =? STOPPED) with false. cbn [orb].
  rewrite (proj2 (is_ready_not _ _ _)) by exact NG. unfold alloc_spec, known_set. cbn [a_al]. rewrite AL. change (negb (ok STATUS_SUCCESS)) with false. cbv iota.
  unfold push. cbn [fst a_life a_cur]. rewrite LC. change (RUNNING =? STOPPED) with false. cbn [orb]. rewrite (proj2 (is_ready_not _ _ _)).
  2: { cbn [a_ready]. rewrite map_app. intros X. apply in_app_or in X as [X|[X|[]]]; [auto|]. cbn in X. congruence. }
  unfold alloc_spec. cbn [a_al]. change (negb (ok STATUS_SUCCESS)) with false. cbv iota. change (negb (ok STATUS_SUCCESS)) with false. cbv iota.
  unfold tell. cbn [a_mgmt]. rewrite MG. cbn [Z.eqb]. unfold resume. change (negb (ok STATUS_SUCCESS)) with false. cbv iota. cbn [a_ready snd]. unfold go. cbn [a_life]. rewrite LC. change (RUNNING =? STOPPED) with false. change (RUNNING =? CREATED) with false. cbv iota.
  do 2 eexists. split; [reflexivity|]. cbn [a_ready a_life a_known a_idle a_main a_mgmt a_cur a_discs a_ids a_total a_al a_user]. rewrite hset_id by auto. auto 12.
Qed.
Lemma startup_ok : forall dels ans ctl c junk, good_conf c -> exists os a, asteps dels (lib ans) (startup c junk) (ainit (epoll_none ctl, tt) (c_main c)) = Some (os, a) /\ Inv c (serving c) a.
Proof.
  intros dels ans ctl c junk CF. eqbs c CF. destruct CF as (ND & D0 & DM & SG0).
  unfold startup, io_setup. cbn [app].
  set (b0 := ainit (epoll_none ctl, tt) (c_main c)).
  assert (B1 : astep dels (lib ans) (SNew (c_mgr c)) b0 = Some ((STATUS_SUCCESS, nowhere), life_set (hadd (a_life b0) (c_mgr c) CREATED) b0)).
  { cbn [astep]. rewrite (proj2 (Z.eqb_neq (c_mgr c) 0)) by auto. rewrite (proj2 (zmem_not _ _)); [reflexivity|]. cbn. intros [X|[]]; congruence. }
  set (b1 := life_set (hadd (a_life b0) (c_mgr c) CREATED) b0) in *.
  destruct (add_early _ dels (lib ans) (c_mgr c) b1) as (o2 & b2 & B2 & R2 & L2 & K2 & I2 & M2 & C2 & D2 & Y2 & T2 & A2 & U2); auto.
  { cbn. rewrite Z.eqb_refl. auto. }
  { cbn. rewrite (proj2 (Z.eqb_neq (c_main c) (c_mgr c))), Z.eqb_refl by auto. auto. }
  assert (B3 : astep dels (lib ans) (SNew (c_lis c)) b2 = Some ((STATUS_SUCCESS, nowhere), life_set (hadd (a_life b2) (c_lis c) CREATED) b2)).
  { cbn [astep]. rewrite (proj2 (Z.eqb_neq (c_lis c) 0)) by auto. rewrite (proj2 (zmem_not _ _)); [reflexivity|]. rewrite L2. cbn. intros [X|[X|[]]]; congruence. }
  set (b3 := life_set (hadd (a_life b2) (c_lis c) CREATED) b2) in *.
  destruct (add_early _ dels (lib ans) (c_lis c) b3) as (o4 & b4 & B4 & R4 & L4 & K4 & I4 & M4 & C4 & D4 & Y4 & T4 & A4 & U4); auto.
  { cbn [b3 life_set a_known]. rewrite K2. cbn. intros [X|[]]. congruence. }
  { cbn [b3 life_set a_life]. rewrite hget_hadd_same. auto. }
  { cbn [b3 life_set a_life a_cur]. rewrite C2, L2. cbn. rewrite (proj2 (Z.eqb_neq (c_main c) (c_lis c))), (proj2 (Z.eqb_neq (c_main c) (c_mgr c))), Z.eqb_refl by auto. auto. }
  { cbn [b3 life_set a_ready]. rewrite R2. cbn. intros [X|[]]. congruence. }
  { cbn [b3 life_set a_ready a_cur]. rewrite R2, C2. cbn. intros [X|[]]. congruence. }
  { cbn [b3 life_set a_cur]. rewrite C2. cbn. congruence. }
  assert (B5 : astep dels (lib ans) (SDisc junk (c_disc c) IO_ID IO_CTX io_cbs) b4 = Some ((STATUS_SUCCESS, nowhere), discs_set (hadd (a_discs b4) (c_disc c) (DD false IO_ID IO_CTX io_cbs)) (a_ids b4) (a_total b4) b4)).
  { cbn [astep]. rewrite (proj2 (Z.eqb_neq (c_disc c) 0)) by auto. rewrite (proj2 (zmem_not _ _)); [reflexivity|]. rewrite D4. cbn [b3 life_set a_discs]. rewrite D2. cbn [b1 life_set a_discs b0 ainit addrs map fst In]. intros [X|[]]. congruence. }
  set (b5 := discs_set (hadd (a_discs b4) (c_disc c) (DD false IO_ID IO_CTX io_cbs)) (a_ids b4) (a_total b4) b4) in *.
  assert (Y5 : a_ids b5 = [(MANAGEMENT_ID, MGMT_DISC)]) by (cbn [b5 discs_set a_ids]; rewrite Y4; cbn [b3 life_set a_ids]; rewrite Y2; reflexivity).
  assert (T5 : a_total b5 = 10) by (cbn [b5 discs_set a_total]; rewrite T4; cbn [b3 life_set a_total]; rewrite T2; reflexivity).
  assert (A5 : a_al b5 = []) by exact A4.
  assert (D5 : hget (a_discs b5) (c_disc c) = Some (DD false IO_ID IO_CTX io_cbs)) by (cbn [b5 discs_set a_discs]; apply hget_hadd_same).
  assert (B6 : astep dels (lib ans) (SDiscAdd (c_disc c)) b5 = Some ((STATUS_SUCCESS, nowhere), discs_set (hset (a_discs b5) (c_disc c) io_dd) ((IO_ID, c_disc c) :: a_ids b5) 12 b5)).
  { cbn [astep]. rewrite D5. cbn [dd_owned dd_id]. replace (existsb _ (a_ids b5)) with false by (rewrite Y5; reflexivity).
    unfold alloc_spec. rewrite ?A5. change (negb (ok STATUS_SUCCESS)) with false. cbv iota. cbn [discs_set a_al a_total a_discs]. rewrite ?A5. change (negb (ok STATUS_SUCCESS)) with false. cbv iota. cbn [a_al a_total a_discs]. rewrite ?A5. change (negb (ok STATUS_SUCCESS)) with false. cbv iota. cbn [a_al a_total a_discs a_ids]. rewrite T5. cbn [dd_cbs io_cbs length dd_ctx dd_id].
    change (10 + Z.of_nat 2) with 12. change (12 <? 2 ^ 31) with true. cbv iota. unfold discs_set. cbn [a_ready a_life a_known a_idle a_main a_mgmt a_cur a_al a_user a_made a_ran]. rewrite ?A5. reflexivity. }
  set (b6 := discs_set (hset (a_discs b5) (c_disc c) io_dd) ((IO_ID, c_disc c) :: a_ids b5) 12 b5) in *.
  assert (LL : a_life b6 = [(c_lis c, CREATED); (c_mgr c, CREATED); (c_main c, RUNNING)]) by (cbn [b6 b5 discs_set a_life]; rewrite L4; cbn [b3 life_set a_life]; rewrite L2; reflexivity).
  assert (B7 : astep dels (lib ans) (SNew (c_idle c)) b6 = Some ((STATUS_SUCCESS, nowhere), life_set (hadd (a_life b6) (c_idle c) CREATED) b6)).
  { cbn [astep]. rewrite (proj2 (Z.eqb_neq (c_idle c) 0)) by auto. rewrite (proj2 (zmem_not _ _)); [reflexivity|]. rewrite LL. cbn. intros [X|[X|[X|[]]]]; congruence. }
  set (b7 := life_set (hadd (a_life b6) (c_idle c) CREATED) b6) in *. set (b8 := idle_set (c_idle c) b7).
  assert (B8 : astep dels (lib ans) (SIdle (c_idle c)) b7 = Some ((STATUS_SUCCESS, nowhere), b8)) by reflexivity.
  assert (U8 : a_user b8 = (epoll_none ctl, tt)) by (cbn [b8 b7 b6 b5 idle_set life_set discs_set a_user]; rewrite U4; cbn [b3 life_set a_user]; rewrite U2; reflexivity).
  assert (B9 : astep dels (lib ans) (isop (c_disc c) (ISocket (c_sigfd c) (c_sig c))) b8 = Some ((STATUS_SUCCESS, nowhere), user_set (IO [(c_sig c, WS (c_sigfd c) 0 0)] (EP [] ctl), tt) b8)).
  { cbn [isop]. change (astep dels (lib ans) (SAct FN_IO_SOCKET (c_sigfd c) (c_sig c)) b8) with (astep true (lib ans) (SAct FN_IO_SOCKET (c_sigfd c) (c_sig c)) b8). rewrite new_sock_act; auto; rewrite U8; reflexivity. }
  do 2 eexists. split.
  - eapply asteps_cons; [exact B1|]. eapply asteps_cons; [exact B2|]. eapply asteps_cons; [exact B3|]. eapply asteps_cons; [exact B4|]. eapply asteps_cons; [exact B5|]. eapply asteps_cons; [exact B6|]. eapply asteps_cons; [exact B7|]. eapply asteps_cons; [exact B8|]. eapply asteps_cons; [exact B9|]. reflexivity.
  - set (P := fun f => if f =? c_main c then Some Run else if f =? c_mgr c then Some (At UStart) else if f =? c_lis c then Some (At UStart) else if f =? c_idle c then Some (At UStart) else None).
    assert (PM : P (c_main c) = Some Run) by (unfold P; rewrite Z.eqb_refl; auto).
    assert (PG : P (c_mgr c) = Some (At UStart)) by (unfold P; rewrite (proj2 (Z.eqb_neq (c_mgr c) (c_main c))), Z.eqb_refl by auto; auto).
    assert (PL : P (c_lis c) = Some (At UStart)) by (unfold P; rewrite (proj2 (Z.eqb_neq (c_lis c) (c_main c))), (proj2 (Z.eqb_neq (c_lis c) (c_mgr c))), Z.eqb_refl by auto; auto).
    assert (PI : P (c_idle c) = Some (At UStart)) by (unfold P; rewrite (proj2 (Z.eqb_neq (c_idle c) (c_main c))), (proj2 (Z.eqb_neq (c_idle c) (c_mgr c))), (proj2 (Z.eqb_neq (c_idle c) (c_lis c))), Z.eqb_refl by auto; auto).
    assert (PC : forall f, conn_of c f -> P f = None). { intros f (X1 & X2 & X3 & X4). unfold P. rewrite (proj2 (Z.eqb_neq f (c_main c))), (proj2 (Z.eqb_neq f (c_mgr c))), (proj2 (Z.eqb_neq f (c_lis c))), (proj2 (Z.eqb_neq f (c_idle c))) by auto. auto. }
    assert (ALL : forall X : Z -> Prop, X (c_main c) -> X (c_mgr c) -> X (c_lis c) -> X (c_idle c) -> (forall f, conn_of c f -> X f) -> forall f, X f). { intros X X1 X2 X3 X4 X5 f. destruct (who_is c f) as [->|[->|[->|[->|]]]]; auto. }
    assert (CRO : forall f, conn_of c f -> (f =? c_main c) = false /\ (f =? c_mgr c) = false /\ (f =? c_lis c) = false /\ (f =? c_idle c) = false). { intros f (X1 & X2 & X3 & X4). rewrite !Z.eqb_neq. auto. }
    assert (RD : a_ready b8 = [(false, (c_mgr c, (INTERNAL_ID, RESUME_ADD_FIBER, 0))); (false, (c_lis c, (INTERNAL_ID, RESUME_ADD_FIBER, 0)))]) by (cbn [b8 b7 b6 b5 idle_set life_set discs_set a_ready]; rewrite R4; cbn [b3 life_set a_ready]; rewrite R2; reflexivity).
    assert (L8 : a_life b8 = [(c_idle c, CREATED); (c_lis c, CREATED); (c_mgr c, CREATED); (c_main c, RUNNING)]) by (cbn [b8 b7 idle_set life_set a_life]; rewrite LL; reflexivity).
    assert (K8 : a_known b8 = zput (c_lis c) (zput (c_mgr c) [])) by (cbn [b8 b7 b6 b5 idle_set life_set discs_set a_known]; rewrite K4; cbn [b3 life_set a_known]; rewrite K2; reflexivity).
    assert (C8 : a_cur b8 = c_main c) by (cbn [b8 b7 b6 b5 idle_set life_set discs_set a_cur]; rewrite C4; cbn [b3 life_set a_cur]; rewrite C2; reflexivity).
    exists P, None. cbn [serving v_cur v_socks v_quiesce v_stage back_of user_set a_cur a_user fst].
    split; [|split; [auto|]; split; [|split]].
    + split; cbn [serving v_sus].
      * intros f. pattern f. apply ALL; cbn [hget].
        -- rewrite (proj2 (Z.eqb_neq (c_main c) (c_mgr c))), (proj2 (Z.eqb_neq (c_main c) (c_lis c))), (proj2 (Z.eqb_neq (c_main c) (c_idle c))), PM by auto. auto.
        -- rewrite Z.eqb_refl, PG. auto.
        -- rewrite (proj2 (Z.eqb_neq (c_lis c) (c_mgr c))), Z.eqb_refl, PL by auto. auto.
        -- rewrite (proj2 (Z.eqb_neq (c_idle c) (c_mgr c))), (proj2 (Z.eqb_neq (c_idle c) (c_lis c))), Z.eqb_refl, PI by auto. auto.
        -- intros g CN. rewrite (PC g CN). destruct (CRO g CN) as (X1 & X2 & X3 & X4). rewrite X2, X3, X4. auto.
      * split; cbn [addrs map fst].
        -- repeat (constructor; [cbn [In]; intuition congruence|]). constructor.
        -- cbn [In]. intuition congruence.
    + constructor; unfold user_set; cbn [a_ready a_life a_known a_idle a_mgmt a_al a_discs a_user fst]; auto.
      * repeat split; auto.
      * rewrite L8. intros f. pattern f. apply ALL; cbn [hget].
        -- rewrite (proj2 (Z.eqb_neq (c_main c) (c_mgr c))), (proj2 (Z.eqb_neq (c_main c) (c_lis c))), (proj2 (Z.eqb_neq (c_main c) (c_idle c))), Z.eqb_refl, PM by auto. auto.
        -- rewrite (proj2 (Z.eqb_neq (c_mgr c) (c_idle c))), (proj2 (Z.eqb_neq (c_mgr c) (c_lis c))), Z.eqb_refl, PG by auto. auto.
        -- rewrite (proj2 (Z.eqb_neq (c_lis c) (c_idle c))), Z.eqb_refl, PL by auto. auto.
        -- rewrite Z.eqb_refl, PI. auto.
        -- intros g CN. rewrite (PC g CN). destruct (CRO g CN) as (X1 & X2 & X3 & X4). rewrite X1, X2, X3, X4. auto.
      * rewrite L8. split; cbn [addrs map fst].
        -- repeat (constructor; [cbn [In]; intuition congruence|]). constructor.
        -- cbn [In]. intuition congruence.
      * rewrite K8. intros f. rewrite !zput_in. cbn [In]. pattern f. apply ALL.
        -- intuition congruence.
        -- rewrite PG. cbn. intuition congruence.
        -- rewrite PL. cbn. intuition congruence.
        -- intuition congruence.
        -- intros g CN. rewrite (PC g CN). destruct CN as (X1 & X2 & X3 & X4). cbn. intuition congruence.
      * rewrite K8. apply zput_nodup; [apply zput_nodup; [constructor|cbn; auto]|]. rewrite zput_in. cbn. intuition congruence.
      * rewrite PG. cbn [b8 b7 b6 b5 idle_set life_set discs_set a_mgmt]. auto.
      * cbn [b8 b7 b6 idle_set life_set discs_set a_discs]. rewrite hget_hset, Z.eqb_refl. cbn [b5 discs_set a_discs]. rewrite hget_hadd_same. auto.
      * intros f. pattern f. apply ALL.
        -- rewrite PM. apply role_run. auto.
        -- rewrite PG. unfold role. rewrite (proj2 (Z.eqb_neq (c_mgr c) (c_main c))), Z.eqb_refl by auto. auto.
        -- rewrite PL. unfold role. rewrite (proj2 (Z.eqb_neq (c_lis c) (c_main c))), (proj2 (Z.eqb_neq (c_lis c) (c_mgr c))), (proj2 (Z.eqb_neq (c_lis c) (c_idle c))), Z.eqb_refl by auto. auto.
        -- rewrite PI. unfold role. rewrite (proj2 (Z.eqb_neq (c_idle c) (c_main c))), (proj2 (Z.eqb_neq (c_idle c) (c_mgr c))), Z.eqb_refl by auto. auto.
        -- intros g CN. rewrite (PC g CN). unfold role. destruct (CRO g CN) as (X1 & X2 & X3 & X4). rewrite X1, X2, X3, X4. auto.
      * rewrite RD. cbn [map who fst snd]. repeat (constructor; [cbn [In]; intuition congruence|]). constructor.
      * rewrite RD. split; [|split].
        -- intros b f d e p [X|[X|[]]]; inversion X; subst; [rewrite PG|rewrite PL]; auto.
        -- intros f. cbn [map who fst snd In]. pattern f. apply ALL; auto; [congruence|]. intros g CN. rewrite (PC g CN). discriminate.
        -- intros f. pattern f. apply ALL; try congruence. intros g CN. rewrite (PC g CN). discriminate.
      * intros f. pattern f. apply ALL.
        -- rewrite PM. exact Logic.I.
        -- rewrite PG. cbn. rewrite (proj2 (Z.eqb_neq (c_mgr c) (c_lis c))) by auto. intros (_ & X & _). congruence.
        -- rewrite PL. cbn. rewrite Z.eqb_refl, (proj2 (Z.eqb_neq (c_lis c) (c_main c))) by auto. auto.
        -- rewrite PI. cbn. rewrite (proj2 (Z.eqb_neq (c_idle c) (c_lis c))) by auto. intros (_ & _ & _ & X). congruence.
        -- intros g CN. rewrite (PC g CN). destruct (CRO g CN) as (X1 & X2 & X3 & X4). cbn. rewrite X1. auto.
      * cbn [hget]. rewrite Z.eqb_refl, (proj2 (Z.eqb_neq (c_mgr c) (c_main c))), (proj2 (Z.eqb_neq (c_idle c) (c_main c))) by auto. auto.
      * assert (SI : forall s b, hget [(c_sig c, WS (c_sigfd c) 0 0)] s = Some b -> s = c_sig c /\ b = WS (c_sigfd c) 0 0). { intros s b. cbn [hget]. destruct (Z.eqb_spec s (c_sig c)); [|discriminate]. intros X. inversion X. auto. }
        assert (SK : forall f s, hget [(c_main c, c_sig c)] f = Some s -> f = c_main c /\ s = c_sig c). { intros f s. cbn [hget]. destruct (Z.eqb_spec f (c_main c)); [|discriminate]. intros X. inversion X. auto. }
        constructor; cbn [io_socks io_k ep_set].
        -- split; cbn [addrs map fst In]; [repeat constructor; intros []|intuition congruence].
        -- split; cbn [addrs map fst In]; [repeat constructor; intros []|intuition congruence].
        -- intros f s X. apply SK in X as [-> ->]. exists (WS (c_sigfd c) 0 0). cbn [hget]. rewrite Z.eqb_refl. split; [auto|]. intros []; auto.
        -- intros s b X. apply SI in X as [-> ->]. exists (c_main c). cbn [hget]. rewrite Z.eqb_refl. auto.
        -- intros f g s X Y. apply SK in X as [-> _]. apply SK in Y as [-> _]. auto.
        -- intros s t b b' X Y _. apply SI in X as [-> _]. apply SI in Y as [-> _]. auto.
        -- constructor.
        -- intros fd i X. discriminate.
      * rewrite RD. auto.
    + split; [auto|]. split; [|split; [|split; [|split]]]; cbn [made_of ended_of unlinked_of].
      * intros f. pattern f. apply ALL; try congruence. intros g CN. rewrite (PC g CN). discriminate.
      * intros f. split; [|discriminate]. pattern f. apply ALL; try congruence. intros g CN. rewrite (PC g CN). discriminate.
      * intros f. split; [|discriminate]. pattern f. apply ALL; try congruence. intros g CN. rewrite (PC g CN). discriminate.
      * intros f. split; [|discriminate]. pattern f. apply ALL; try congruence. intros g CN. rewrite (PC g CN). discriminate.
      * cbn [stage_at]. split; [auto|]. split; [split; congruence|]. cbn [hget]. rewrite Z.eqb_refl. discriminate.
    + split; [exact Logic.I|]. split; [discriminate|]. intros [].
Qed.

(** The states of the server. *)
Lemma rel_seen : forall T TR (w : sw T (iost ep * unit)) a, Rel TR w a -> seen w = aview a.
Proof. intros T TR w a R. unfold seen, aview. rewrite (r_rq _ _ _ R), (r_life _ _ _ R), hmap_addrs, (r_user _ _ _ R). reflexivity. Qed.
Lemma step_rel : forall T (ts : tops T) TR Q ans c x v w a v' a', tab_ok ts TR Q -> Rel TR w a -> a_al a = [] -> unlinks Q x v (w_tab w) -> step (astep true (lib ans)) c x (v, a) = Some (v', a') ->
  exists w', step (sexec ts (lib ans)) c x (v, w) = Some (v', w') /\ Rel TR w' a'.
Proof.
  intros T ts TR Q ans c x v w a v' a' PT R AL UL H. unfold step in *. cbn [fst snd] in *. destruct (decide c x v) as [[v1|p k]|] eqn:D; [|  |discriminate].
  - inversion H; subst. eauto.
  - destruct (astep true (lib ans) p a) as [[o a1]|] eqn:A; [|discriminate]. destruct (step_sim_q _ _ ts TR true Q (lib ans) w a p o a1 PT) as (w1 & W1 & R1); auto.
    + intros _. destruct p; cbn [removal]; auto; [left; rewrite (r_al _ _ _ R); auto|]. unfold decide in D. unfold unlinks in UL.
      destruct (v_stage v), x; try discriminate; repeat match type of D with
        | context [match ?e with _ => _ end] => destruct e; try discriminate
        end; inversion D; subst; auto.
    + rewrite W1. destruct (k o) as [v2|]; [|discriminate]. inversion H; subst. eauto.
Qed.
Lemma serves_inv : forall T (ts : tops T) TR Q ans ctl c s, tab_ok ts TR Q -> good_conf c -> serves true ts Q ans ctl c s -> exists a, Rel TR (snd s) a /\ Inv c (fst s) a.
Proof.
  intros T ts TR Q ans ctl c s PT CF S. induction S as [junk junk2 w0 os w C E|x v w s' S IH AL UL E].
  - eqbs c CF. destruct (create_sim _ _ ts TR Q (ext_of (lib ans)) junk (epoll_none ctl, tt) (c_main c) PT) as (w0' & C' & R0); auto. rewrite C in C'. inversion C'; subst w0'.
    destruct (startup_ok false ans ctl c junk2 CF) as (os' & a & A & IV). destruct (steps_sim_q _ _ ts TR false Q (lib ans) (startup c junk2) w0 _ os' a PT ltac:(discriminate) R0 A) as (w' & E' & R).
    rewrite E in E'. inversion E'; subst. exists a. auto.
  - destruct IH as (a & R & IV). cbn [fst snd] in *. destruct (decide c x v) eqn:D; [|unfold step in E; cbn [fst] in E; rewrite D in E; discriminate].
    destruct (step_inv ans c x v a) as (v' & a' & E1 & IV'); auto; [rewrite <- (rel_seen _ _ _ _ R); auto|congruence|].
    assert (AE : a_al a = []) by (destruct IV as (P & md & _ & _ & K & _); apply (k_al _ _ _ _ _ _ _ K)).
    destruct (step_rel _ ts TR Q ans c x v w a v' a' PT R AE UL E1) as (w' & E2 & R'). rewrite E in E2. inversion E2; subst. exists a'. auto.
Qed.
Lemma serves_step : forall T (ts : tops T) TR Q ans ctl c x v w, tab_ok ts TR Q -> good_conf c -> serves true ts Q ans ctl c (v, w) -> allowed true ans x v (seen w) -> unlinks Q x v (w_tab w) -> decide c x v <> None ->
  exists s', step (sexec ts (lib ans)) c x (v, w) = Some s' /\ serves true ts Q ans ctl c s'.
Proof.
  intros T ts TR Q ans ctl c x v w PT CF S AL UL D. destruct (serves_inv _ _ _ _ _ _ _ _ PT CF S) as (a & R & IV). cbn [fst snd] in *.
  destruct (step_inv ans c x v a) as (v' & a' & E1 & IV'); auto; [rewrite <- (rel_seen _ _ _ _ R); auto|].
  assert (AE : a_al a = []) by (destruct IV as (P & md & _ & _ & K & _); apply (k_al _ _ _ _ _ _ _ K)).
  destruct (step_rel _ ts TR Q ans c x v w a v' a' PT R AE UL E1) as (w' & E2 & R'). exists (v', w'). split; [auto|]. eapply goes_on; eauto.
Qed.
Lemma serves_begins : forall T (ts : tops T) TR Q ans ctl c junk junk2, tab_ok ts TR Q -> good_conf c ->
  exists w0 os w, sched_create ts (ext_of (lib ans)) junk (epoll_none ctl, tt) (c_main c) = Some (STATUS_SUCCESS, w0) /\ sexecs ts (lib ans) (startup c junk2) w0 = Some (os, w) /\ serves true ts Q ans ctl c (serving c, w).
Proof.
  intros T ts TR Q ans ctl c junk junk2 PT CF. eqbs c CF. destruct (create_sim _ _ ts TR Q (ext_of (lib ans)) junk (epoll_none ctl, tt) (c_main c) PT) as (w0 & C & R0); auto.
  destruct (startup_ok false ans ctl c junk2 CF) as (os & a & A & IV). destruct (steps_sim_q _ _ ts TR false Q (lib ans) (startup c junk2) w0 _ os a PT ltac:(discriminate) R0 A) as (w & E & R).
  exists w0, os, w. do 2 (split; [auto|]). eapply begins; eauto.
Qed.
