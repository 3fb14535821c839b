(** Lemmas for C65: a switch of fibers keeps the server's invariant. *)
From Verif Require Import Base Status MemModel MemProofs Heap TabModel TabSpec TabProofs SchedModel SchedSpec SchedProofs SchedHist MsgModel CondSpec IoModel IoSpec IoProofs ServModel ServSpec ServInv.

Ltac upds := unfold upd in *; repeat match goal with
  | H : context [?x =? ?y] |- _ => destruct (Z.eqb_spec x y); [subst|]
  | |- context [?x =? ?y] => destruct (Z.eqb_spec x y); [subst|] end.
Lemma live_nonnull : forall c P sk qz md bk a f, core c P sk qz md bk a -> P f <> None -> f <> 0.
Proof. intros c P sk qz md bk a f K N ->. apply N. pose proof (k_life _ _ _ _ _ _ _ K 0) as L. rewrite (hget_null _ (k_lwf _ _ _ _ _ _ _ K)) in L. destruct (P 0) as [[[]| | | |]|]; cbn in L; congruence. Qed.
Lemma role_run : forall c md f, (f = c_main c -> md = None) -> role c md f (Some Run).
Proof. intros c md f H. unfold role. destruct (Z.eqb_spec f (c_main c)); [auto|]. destruct (f =? c_mgr c), (f =? c_idle c), (f =? c_lis c); auto. Qed.
Lemma role_other : forall c md md' f p, f <> c_main c -> (p = Some (At UStart) -> f = c_mgr c -> md' = None) -> role c md f p -> role c md' f p.
Proof.
  intros c md md' f p N H. unfold role. destruct (Z.eqb_spec f (c_main c)); [congruence|]. destruct (Z.eqb_spec f (c_mgr c)); [|auto].
  destruct p as [[[|[]|t| | |]| | | |]|]; auto.
Qed.
Definition moved (f mg : Z) (r ran : list (bool * entry)) (a : ast (iost ep * unit)) : ast (iost ep * unit) :=
  AS r (hset (a_life a) f RUNNING) (a_known a) (a_idle a) (a_main a) mg f (a_discs a) (a_ids a) (a_total a) (a_al a) (a_user a) (a_made a) ran.
Lemma core_moved : forall c P sk qz md md' bk' a f q mg r ran, core c P sk qz md None a -> P f = Some (At q) ->
  NoDup (map who r) -> ready_ok c (upd P f (Some Run)) sk qz md' (fst (a_user a)) r ->
  mg = (if f =? c_mgr c then 0 else a_mgmt a) -> (forall wr, q = UWait wr -> bk' = Some wr) ->
  (f = c_main c -> md' = None) -> (f <> c_main c -> md' = md) -> (P (c_mgr c) = Some (At UStart) -> f = c_mgr c) ->
  core c (upd P f (Some Run)) sk qz md' bk' (moved f mg r ran a).
Proof.
  intros c P sk qz md md' bk' a f q mg r ran K PF RN RO MG BK M1 M2 BT. pose proof (k_conf _ _ _ _ _ _ _ K) as CF. eqbs c CF.
  assert (LF : exists s, hget (a_life a) f = Some s) by (rewrite (k_life _ _ _ _ _ _ _ K), PF; destruct q; cbn; eauto). destruct LF as [s LF].
  destruct K. constructor; cbn [moved a_ready a_life a_known a_idle a_mgmt a_al a_discs a_user]; auto using hset_wf.
  - intros g. rewrite hget_hset, LF. unfold upd. destruct (g =? f); cbn; auto.
  - intros g. rewrite k_known. unfold upd. destruct (Z.eqb_spec g f) as [->|]; [|tauto]. rewrite PF. cbn. tauto.
  - unfold upd. rewrite MG. destruct (Z.eqb_spec f (c_mgr c)) as [->|]; [rewrite Z.eqb_refl; auto|]. rewrite (proj2 (Z.eqb_neq (c_mgr c) f)) by auto. auto.
  - intros g. unfold upd. destruct (Z.eqb_spec g f) as [->|]; [apply role_run; auto|]. destruct (Z.eq_dec f (c_main c)) as [->|FM].
    + rewrite (M1 eq_refl). eapply role_other; eauto.
    + rewrite M2 by auto. auto.
  - intros g. unfold upd. destruct (Z.eqb_spec g f) as [->|]; cbn; auto.
  - eapply io_weaken; [eauto|]. intros g wr [W|[W1 W2]]; [|congruence]. unfold waits, upd. destruct (Z.eqb_spec g f) as [->|]; [|auto]. right. split; [auto|]. apply BK. congruence.
  - unfold upd. destruct (Z.eqb_spec (c_mgr c) f) as [|N]; [discriminate|]. intros B. exfalso. apply N. symmetry. auto.
Qed.
Lemma go_moved : forall c P sk qz md a f q d e p r ran, core c P sk qz md None a -> P f = Some (At q) ->
  go (f, (d, e, p)) r ran a = Some ((STATUS_SUCCESS, (f, d, e, p)), moved f (a_mgmt a) r ran a).
Proof.
  intros c P sk qz md a f q d e p r ran K PF. unfold go. rewrite (k_life _ _ _ _ _ _ _ K), PF. destruct q; reflexivity.
Qed.
Definition still (P : pmap) : Prop := forall f, P f <> Some Run /\ P f <> Some Made /\ P f <> Some Ended /\ P f <> Some Unlinked.
Lemma still_not : forall P f x, still P -> P f = Some x -> match x with At _ => True | _ => False end.
Proof. intros P f x S E. destruct (S f) as (A & B & C & D). destruct x; auto; congruence. Qed.
Ltac moving := exfalso; match goal with S : still ?P, H : ?P _ = Some _ |- _ => exact (still_not _ _ _ S H) end.
Lemma stage_simple : forall c P sk qz md m f st, still P -> made_of st = None -> ended_of st = None -> unlinked_of st = None ->
  stage_at c (upd P f (Some Run)) sk qz md m f st -> stage_ok c (upd P f (Some Run)) sk qz md m f st.
Proof.
  intros c P sk qz md m f st S E1 E2 E3 H. unfold stage_ok. rewrite E1, E2, E3.
  split; [apply upd_same|]. split; [|split; [|split; [|split; [|exact H]]]].
  - intros g. unfold upd. destruct (Z.eqb_spec g f); [auto|]. intros K. moving.
  - intros g. unfold upd. destruct (Z.eqb_spec g f); split; intros K; try discriminate. moving.
  - intros g. unfold upd. destruct (Z.eqb_spec g f); split; intros K; try discriminate. moving.
  - intros g. unfold upd. destruct (Z.eqb_spec g f); split; intros K; try discriminate. moving.
Qed.
Definition quiet_now (c : conf) (P : pmap) (qz : bool) (t : bool) : Prop :=
  (forall f, conn_of c f -> P f = None) /\ (P (c_lis c) <> None -> t = false /\ qz = true).
(** No fiber runs: the next one is resumed. *)
Lemma switch : forall c P sk qz md a, core c P sk qz md None a -> still P ->
  exists f q d e p a' md', resume (Some (STATUS_SUCCESS, a)) = Some ((STATUS_SUCCESS, (f, d, e, p)), a') /\ P f = Some (At q) /\ a_cur a' = f /\ a_user a' = a_user a /\
    core c (upd P f (Some Run)) sk qz md' (back_of (wake c f q d e p)) a' /\ stage_ok c (upd P f (Some Run)) sk qz md' (fst (a_user a')) f (wake c f q d e p) /\
    (md' = md \/ exists t, md = Some t /\ md' = None /\ f = c_main c /\ quiet_now c P qz t).
Proof.
  intros c P sk qz md a K S. pose proof (k_conf _ _ _ _ _ _ _ K) as CF. eqbs c CF.
  pose proof (k_ready _ _ _ _ _ _ _ K) as RO. pose proof (k_rnd _ _ _ _ _ _ _ K) as RN. unfold resume. change (negb (ok STATUS_SUCCESS)) with false. cbv iota.
  destruct (a_ready a) as [|[b [f [[d e] p]]] r] eqn:RD.
  - (* the idle fiber *)
    rewrite (k_idle _ _ _ _ _ _ _ K). destruct (Z.eqb_spec (c_idle c) 0); [congruence|].
    assert (exists q, P (c_idle c) = Some (At q) /\ forall d e p, wake c (c_idle c) q d e p = PRound) as (q & PI & WK).
    { destruct (role_idle _ _ _ CF (k_role _ _ _ _ _ _ _ K (c_idle c))) as [E|[E|E]]; [moving| |]; rewrite E; eexists; (split; [reflexivity|]); intros; cbn [wake]; auto.
      destruct (Z.eqb_spec (c_idle c) (c_mgr c)); [congruence|]. destruct (Z.eqb_spec (c_idle c) (c_lis c)); [congruence|]. rewrite Z.eqb_refl. auto. }
    assert (MD : md = None). { destruct md as [t|]; [|auto]. destruct RO as (l & E & _). destruct l; discriminate. } subst md.
    exists (c_idle c), q, INTERNAL_ID, RESUME_IDLE, 0, (moved (c_idle c) (a_mgmt a) [] (a_ran a) a), None.
    split; [eapply go_moved; eauto|]. split; [auto|]. split; [reflexivity|]. split; [reflexivity|]. rewrite WK. split; [|split; [|auto]].
    + destruct RO as (R1 & R2 & R3). eapply (core_moved _ _ _ _ None); eauto.
      * split; [intros ? ? ? ? ? []|]. cbn [map In]. split; intros g; unfold upd; destruct (Z.eqb_spec g (c_idle c)); try discriminate; auto; intros G; exfalso; [destruct (R2 _ G); auto|eapply R3; eauto].
      * destruct (Z.eqb_spec (c_idle c) (c_mgr c)); [congruence|auto].
      * intros wr ->. exfalso. pose proof (k_role _ _ _ _ _ _ _ K (c_idle c)) as R. rewrite PI in R. apply role_idle in R; auto. destruct R as [|[|]]; discriminate.
      * intros B. destruct (k_boot _ _ _ _ _ _ _ K B) as (E & _). rewrite RD in E. discriminate.
    + apply stage_simple; auto; cbn [stage_at]; auto.
  - cbn [map] in RN. change (who (b, (f, (d, e, p)))) with f in RN. inversion RN as [|? ? NI RN']; subst. cbn [snd].
    destruct md as [t|].
    + (* the main fiber is asking *)
      destruct RO as (l & E & L1 & L2 & L3 & L4). destruct l as [|g l]; cbn [map app] in E.
      * inversion E; subst. clear E. assert (PM : P (c_main c) = Some (At (UReq t))).
        { destruct (role_main _ _ _ (k_role _ _ _ _ _ _ _ K (c_main c))) as [[_ X]|[[_ X]|(t' & X & Y)]]; try discriminate. inversion Y; subst. auto. }
        assert (QN : quiet_now c P qz t).
        { split.
          - intros f CN. pose proof (role_conn _ _ _ _ (k_role _ _ _ _ _ _ _ K f) CN) as R. destruct (P f) as [[[|w|t'| | |]| | | |]|] eqn:PF; auto; try (moving; fail); try contradiction.
            + exfalso. destruct CN as (_ & _ & _ & C4). apply C4. auto.
            + exfalso. destruct CN as (_ & _ & C3 & _). destruct (L4 _ _ PF) as [[]|(C & _)]. auto.
          - intros PL. destruct (role_lis _ _ _ CF (k_role _ _ _ _ _ _ _ K (c_lis c))) as [X|[X|[X|[X|[X|[X|X]]]]]]; try (moving; fail); try congruence.
            + apply L2 in X. congruence.
            + destruct (L4 _ _ X) as [[]|]. tauto. }
        exists (c_main c), (UReq t), MANAGEMENT_ID, MGMT_RESULT, STATUS_SUCCESS, (moved (c_main c) (a_mgmt a) [] (a_ran a ++ [(false, (c_main c, (MANAGEMENT_ID, MGMT_RESULT, STATUS_SUCCESS)))]) a), None.
        split; [eapply go_moved; eauto|]. split; [auto|]. split; [reflexivity|]. split; [reflexivity|].
        assert (WK : wake c (c_main c) (UReq t) MANAGEMENT_ID MGMT_RESULT STATUS_SUCCESS = if t then PLeft STATUS_SUCCESS else PRead) by reflexivity. rewrite WK.
        split; [|split].
        -- eapply (core_moved _ _ _ _ (Some t)); eauto.
           ++ split; [intros ? ? ? ? ? []|]. split; intros g; unfold upd; destruct (Z.eqb_spec g (c_main c)); try discriminate; intros G; [left; auto|exfalso; eapply L3; eauto].
           ++ destruct (Z.eqb_spec (c_main c) (c_mgr c)); [congruence|auto].
           ++ intros; discriminate.
           ++ congruence.
           ++ intros B. exfalso. destruct (k_boot _ _ _ _ _ _ _ K B) as (X & _). rewrite RD in X. discriminate.
        -- destruct t; apply stage_simple; auto; cbn [stage_at].
           ++ split; [auto|]. intros _ g G. unfold upd in G. destruct (Z.eqb_spec g (c_main c)); [auto|]. destruct (who_is c g) as [|[|[|[->|CN]]]]; auto; exfalso; [|apply G, QN; auto].
              destruct QN as [_ QN]. destruct (QN G) as [X _]. discriminate.
           ++ split; [auto|]. split; [split; congruence|]. rewrite (proj1 (k_own _ _ _ _ _ _ _ K)). discriminate.
        -- right. exists t. auto.
      * inversion E; subst. clear E. destruct (L1 g (or_introl eq_refl)) as (GM & wr & PG).
        exists g, (UWait wr), MANAGEMENT_ID, (request_event t), 0, (moved g (a_mgmt a) (map (told t) l ++ [answered c]) (a_ran a ++ [(false, (g, (MANAGEMENT_ID, request_event t, 0)))]) a), (Some t).
        split; [eapply go_moved; eauto|]. split; [auto|]. split; [reflexivity|]. split; [reflexivity|]. cbn [wake back_of].
        assert (GG : g <> c_mgr c /\ g <> c_idle c).
        { split; intros ->; [destruct (role_mgr _ _ _ CF (k_role _ _ _ _ _ _ _ K (c_mgr c))) as [X|[X|[X _]]]|destruct (role_idle _ _ _ CF (k_role _ _ _ _ _ _ _ K (c_idle c))) as [X|[X|X]]]; congruence. }
        split; [|split; [|auto]].
        -- eapply (core_moved _ _ _ _ (Some t)); eauto.
           ++ exists l. split; [auto|]. split; [|split; [|split]].
              ** intros h IH. destruct (L1 h (or_intror IH)) as [A1 A2]. split; [auto|]. rewrite upd_other; [auto|]. intros ->. apply NI. rewrite map_app, map_map. apply in_or_app. left. apply in_map_iff. exists g. auto.
              ** intros h. unfold upd. destruct (h =? g); [discriminate|auto].
              ** intros h. unfold upd. destruct (h =? g); [discriminate|auto].
              ** intros h w. unfold upd. destruct (Z.eqb_spec h g); [discriminate|]. intros X. destruct (L4 _ _ X) as [[|]|]; [congruence|auto|auto].
           ++ destruct (Z.eqb_spec g (c_mgr c)); [tauto|auto].
           ++ intros w X. inversion X. auto.
           ++ congruence.
           ++ intros B. destruct (role_mgr _ _ _ CF (k_role _ _ _ _ _ _ _ K (c_mgr c))) as [X|[X|[X Y]]]; congruence.
        -- apply stage_simple; auto. cbn [stage_at]. split; [right; exists t; auto|]. split; [auto|]. split.
           ++ pose proof (k_has _ _ _ _ _ _ _ K g) as X. rewrite PG in X. exact X.
           ++ intros [->| ->]; [congruence|]. destruct (role_lis _ _ _ CF (k_role _ _ _ _ _ _ _ K (c_lis c))) as [X|[X|[X|[X|[X|[X|X]]]]]]; congruence.
    + (* a ready fiber *)
      destruct RO as (R1 & R2 & R3). destruct (R1 _ _ _ _ _ (or_introl eq_refl)) as (FI & R). destruct (P f) as [[q| | | |]|] eqn:PF; try contradiction.
      exists f, q, d, e, p, (moved f (a_mgmt a) r (a_ran a ++ [(b, (f, (d, e, p)))]) a), None.
      split; [eapply go_moved; eauto|]. split; [auto|]. split; [reflexivity|]. split; [reflexivity|].
      assert (BT : P (c_mgr c) = Some (At UStart) -> f = c_mgr c). { intros B. destruct (k_boot _ _ _ _ _ _ _ K B) as (X & _). rewrite RD in X. cbn [map] in X. inversion X. auto. }
      assert (RO' : ready_ok c (upd P f (Some Run)) sk qz None (fst (a_user a)) r).
      { split; [|split].
        - intros b' g d' e' p' IN. destruct (R1 b' g d' e' p' (or_intror IN)) as [X1 X2]. split; [auto|]. rewrite upd_other; [auto|]. intros ->. apply NI. apply in_map_iff. exists (b', (f, (d', e', p'))). auto.
        - intros g. unfold upd. destruct (Z.eqb_spec g f); [discriminate|]. intros G. destruct (R2 _ G) as [|[X|]]; auto. exfalso. cbn in X. congruence.
        - intros g. unfold upd. destruct (Z.eqb_spec g f); [discriminate|]. intros G. destruct (R3 _ G) as [X|]; auto. exfalso. cbn in X. congruence. }
      assert (MM : f = c_mgr c -> q = UStart). { intros ->. destruct (role_mgr _ _ _ CF (k_role _ _ _ _ _ _ _ K (c_mgr c))) as [X|[X|[X Y]]]; rewrite PF in X; inversion X; subst; auto; contradiction. }
      assert (HG : a_mgmt a = (if f =? c_mgr c then 0 else a_mgmt a)). { destruct (Z.eqb_spec f (c_mgr c)) as [FG|]; [|auto]. rewrite (k_mgmt _ _ _ _ _ _ _ K), <- FG, PF, (MM FG). auto. }
      pose proof (k_has _ _ _ _ _ _ _ K f) as HS. rewrite PF in HS.
      split; [|split; [|auto]].
      * eapply (core_moved _ _ _ _ None); eauto. intros wr ->. reflexivity.
      * destruct q; try contradiction.
        -- cbn [wake]. destruct (Z.eqb_spec f (c_mgr c)) as [->|FG]; [apply stage_simple; auto; cbn [stage_at]; auto|]. destruct (Z.eqb_spec f (c_lis c)) as [->|FL].
           ++ apply stage_simple; auto. cbn [stage_at]. split; [auto|]. split; [auto|]. cbn in HS. rewrite Z.eqb_refl in HS. auto.
           ++ destruct (Z.eqb_spec f (c_idle c)); [congruence|]. apply stage_simple; auto. cbn [stage_at]. split; [auto|]. split; [auto|].
              cbn in HS. destruct (Z.eqb_spec f (c_lis c)); [congruence|]. apply HS. split; [|auto]. intros ->.
              destruct (role_main _ _ _ (k_role _ _ _ _ _ _ _ K (c_main c))) as [[X _]|[[X _]|(t' & X & Y)]]; congruence.
        -- destruct R as [-> UB]. cbn [wake]. apply stage_simple; auto. cbn [stage_at]. split; [auto|]. split; [|split; [exact HS|]].
           ++ split; [|auto]. intros FG. specialize (MM FG). discriminate.
           ++ intros [->| ->].
              ** destruct (role_main _ _ _ (k_role _ _ _ _ _ _ _ K (c_main c))) as [[X _]|[[X _]|(t' & X & Y)]]; congruence.
              ** destruct (role_lis _ _ _ CF (k_role _ _ _ _ _ _ _ K (c_lis c))) as [X|[X|[X|[X|[X|[X|X]]]]]]; congruence.
        -- cbn [wake]. apply stage_simple; auto. cbn [stage_at]. split; [auto|]. split; [|exact HS]. split; [|auto]. intros FG. specialize (MM FG). discriminate.
Qed.
Lemma core_ext : forall c P sk qz md bk a a', core c P sk qz md bk a -> a_ready a' = a_ready a -> a_life a' = a_life a -> a_known a' = a_known a -> a_idle a' = a_idle a ->
  a_mgmt a' = a_mgmt a -> a_al a' = a_al a -> a_discs a' = a_discs a -> a_user a' = a_user a -> core c P sk qz md bk a'.
Proof. intros c P sk qz md bk a a' K E1 E2 E3 E4 E5 E6 E7 E8. destruct K. constructor; rewrite ?E1, ?E2, ?E3, ?E4, ?E5, ?E6, ?E7, ?E8; auto. Qed.
Lemma sus_run : forall P v f q st, sus_ok P v -> P f = Some (At q) ->
  hget (v_sus v) f = Some q /\ sus_ok (upd P f (Some Run)) (Serv f st (hdel (v_sus v) f) (v_socks v) (v_quiesce v) (v_thr v) (v_chan v)).
Proof.
  intros P v f q st [S1 S2] PF. rewrite S1, PF. split; [auto|]. split; cbn [v_sus]; [|apply hdel_wf; auto].
  intros g. rewrite hget_hdel by auto. unfold upd. destruct (g =? f); [auto|apply S1].
Qed.
Lemma hist_same : forall c P md v v', hist c P md v -> v_thr v' = v_thr v -> v_chan v' = v_chan v -> v_quiesce v' = v_quiesce v -> hist c P md v'.
Proof. intros c P md v v' H E1 E2 E3. unfold hist, read_first, read_second in *. rewrite E1, E2, E3. auto. Qed.
Lemma hist_place : forall c P P' md v, hist c P md v -> (forall g, P' g <> None -> P g <> None) -> hist c P' md v.
Proof.
  intros c P P' md v (A & B & C) N. split; [auto|]. split; [auto|]. intros R M. destruct (C R M) as [C1 C2]. split.
  - intros f CN. destruct (P' f) eqn:E; [|auto]. exfalso. apply (N f); [congruence|auto].
  - intros E. apply C2, N, E.
Qed.
Lemma inv_switch : forall c P v md a, sus_ok P v -> core c P (v_socks v) (v_quiesce v) md None a -> still P -> hist c P md v ->
  exists o v' a', resume (Some (STATUS_SUCCESS, a)) = Some (o, a') /\ ok (fst o) = true /\ resumed c o v = Some v' /\ Inv c v' a'.
Proof.
  intros c P v md a S K ST HI. destruct (switch _ _ _ _ _ _ K ST) as (f & q & d & e & p & a' & md' & RS & PF & CU & UE & K' & SG & MD).
  destruct (sus_run P v f q (wake c f q d e p) S PF) as [SF S'].
  exists (STATUS_SUCCESS, (f, d, e, p)). do 2 eexists. split; [exact RS|]. split; [reflexivity|]. unfold resumed. rewrite SF. split; [reflexivity|].
  exists (upd P f (Some Run)), md'. cbn [v_cur v_socks v_quiesce v_stage]. do 4 (split; [auto|]).
  assert (PN : forall g, upd P f (Some Run) g <> None -> P g <> None). { intros g. unfold upd. destruct (Z.eqb_spec g f); subst; congruence. }
  destruct MD as [->|(t & -> & -> & -> & Q1 & Q2)].
  - eapply hist_same; [eapply hist_place; eauto|auto|auto|auto].
  - eapply hist_same; [|reflexivity|reflexivity|reflexivity]. destruct HI as (A & B & C). split; [auto|]. split; [discriminate|]. intros R _. split.
    + intros g CN. destruct (upd P _ _ g) eqn:E; [|auto]. exfalso. apply (PN g); [congruence|auto].
    + intros L. apply PN in L. destruct (Q2 L). auto.
Qed.
Lemma mgr_not_ready : forall c P sk qz md bk a, core c P sk qz md bk a -> P (c_mgr c) = Some (At URecv) -> ~ In (c_mgr c) (map who (a_ready a)).
Proof.
  intros c P sk qz md bk a K PG IN. pose proof (k_conf _ _ _ _ _ _ _ K) as CF. eqbs c CF. pose proof (k_ready _ _ _ _ _ _ _ K) as RO. apply in_map_iff in IN as ([b [f [[d e] p]]] & E & IN). cbn in E. subst f. destruct md as [t|].
  - destruct RO as (l & E & L1 & _). rewrite E in IN. apply in_app_or in IN as [IN|[IN|[]]]; [|inversion IN; congruence]. apply in_map_iff in IN as (g & E' & IN). inversion E'; subst. destruct (L1 _ IN) as (_ & wr & X). congruence.
  - destruct RO as (R1 & _). destruct (R1 _ _ _ _ _ IN) as [_ X]. rewrite PG in X. auto.
Qed.
Lemma ready_upd : forall c P sk qz md m r f x, (md <> None -> f <> c_main c) -> ready_ok c P sk qz md m r -> ~ In f (map who r) -> (forall q, x = Some (At q) -> q = URecv \/ q = UIdle) ->
  ready_ok c (upd P f x) sk qz md m r.
Proof.
  intros c P sk qz md m r f x FM RO NI NX. destruct md as [t|].
  - destruct RO as (l & E & L1 & L2 & L3 & L4). exists l. split; [auto|]. split; [|split; [|split]].
    + intros g IN. destruct (L1 _ IN) as (A & wr & B). split; [auto|]. exists wr. rewrite upd_other; [auto|]. intros ->. apply NI. rewrite E, map_app, map_map. apply in_or_app. left. apply in_map_iff. exists f. auto.
    + intros g. unfold upd. destruct (Z.eqb_spec g f); [|auto]. intros X. destruct (NX _ X); discriminate.
    + intros g. unfold upd. destruct (Z.eqb_spec g f); [|auto]. intros X. destruct (NX _ X); discriminate.
    + intros g wr. unfold upd. destruct (Z.eqb_spec g f); [|eauto]. intros X. destruct (NX _ X); discriminate.
  - destruct RO as (R1 & R2 & R3). split; [|split].
    + intros b g d e p IN. rewrite upd_other; [eauto|]. intros ->. apply NI. apply in_map_iff. exists (b, (f, (d, e, p))). auto.
    + intros g. unfold upd. destruct (Z.eqb_spec g f); [|auto]. intros X. destruct (NX _ X); discriminate.
    + intros g. unfold upd. destruct (Z.eqb_spec g f); [|auto]. intros X. destruct (NX _ X); discriminate.
Qed.
Lemma inv_tell : forall c P v md a ev g, sus_ok P v -> core c P (v_socks v) (v_quiesce v) md None a -> P (c_mgr c) = Some (At URecv) ->
  (forall f, P f <> Some Run /\ P f <> Some Made /\ P f <> Some Unlinked) -> ev = MGMT_FIBER_ADD \/ ev = MGMT_FIBER_STOP -> (forall f, P f = Some Ended <-> ev = MGMT_FIBER_STOP /\ f = g) -> hist c P md v ->
  exists o v' a', resume (tell ev g a) = Some (o, a') /\ ok (fst o) = true /\ resumed c o v = Some v' /\ Inv c v' a'.
Proof.
  intros c P v md a ev g S K PG ST EV EN HI. pose proof (k_conf _ _ _ _ _ _ _ K) as CF. eqbs c CF. pose proof (mgr_not_ready _ _ _ _ _ _ _ K PG) as NR.
  unfold tell. rewrite (k_mgmt _ _ _ _ _ _ _ K), PG. rewrite (proj2 (Z.eqb_neq (c_mgr c) 0)) by auto.
  unfold push. cbn [fst]. rewrite (k_life _ _ _ _ _ _ _ K), PG. cbn [life_at]. change (RUNNING =? STOPPED) with false. cbn [orb].
  rewrite (proj2 (is_ready_not _ _ _)) by auto. unfold alloc_spec. rewrite (k_al _ _ _ _ _ _ _ K). change (negb (ok STATUS_SUCCESS)) with false. cbv iota. change (ok STATUS_SUCCESS) with true. cbv iota.
  unfold resume, mgmt_set. cbn [a_ready a_life a_known a_idle a_main a_mgmt a_cur a_discs a_ids a_total a_al a_user a_made a_ran]. change (negb (ok STATUS_SUCCESS)) with false. cbv iota. cbn [snd]. unfold go. cbn [a_ready a_life a_known a_idle a_main a_mgmt a_cur a_discs a_ids a_total a_al a_user a_made a_ran].
  rewrite (k_life _ _ _ _ _ _ _ K), PG. cbn [life_at]. change (RUNNING =? STOPPED) with false. cbv iota.
  destruct (sus_run P v (c_mgr c) URecv (PEvent MANAGEMENT_ID ev g) S PG) as [SF S'].
  do 3 eexists. split; [reflexivity|]. split; [reflexivity|]. unfold resumed. rewrite SF. split; [reflexivity|]. cbn [wake].
  exists (upd P (c_mgr c) (Some Run)), md. cbn [v_cur v_socks v_quiesce v_stage a_cur back_of a_user]. split; [exact S'|]. split; [reflexivity|]. split; [|split].
  - eapply core_ext; [eapply (core_moved c P (v_socks v) (v_quiesce v) md md None a (c_mgr c) URecv 0 (a_ready a) []); eauto|..]; try reflexivity.
    + apply (k_rnd _ _ _ _ _ _ _ K).
    + apply ready_upd; auto; [apply (k_ready _ _ _ _ _ _ _ K)|discriminate].
    + rewrite Z.eqb_refl. auto.
    + discriminate.
    + congruence.
  - split; [apply upd_same|]. split; [|split; [|split; [|split]]].
    + intros f. unfold upd. destruct (Z.eqb_spec f (c_mgr c)); [auto|]. intros X. exfalso. destruct (ST f) as (A & B & C). auto.
    + intros f. cbn [made_of]. unfold upd. destruct (Z.eqb_spec f (c_mgr c)); split; intros X; try discriminate. exfalso. destruct (ST f) as (A & B & C). auto.
    + intros f. cbn [ended_of]. rewrite Z.eqb_refl. cbn [andb]. unfold upd. destruct (Z.eqb_spec f (c_mgr c)) as [->|FG].
      * split; [discriminate|]. destruct (Z.eqb_spec ev MGMT_FIBER_STOP); [|discriminate]. intros X. exfalso. inversion X; subst. assert (Y : P (c_mgr c) = Some Ended) by (apply EN; auto). congruence.
      * rewrite EN. destruct (Z.eqb_spec ev MGMT_FIBER_STOP) as [->|]; split.
        -- intros [_ ->]. auto.
        -- intros X. inversion X. auto.
        -- intros [X _]. congruence.
        -- discriminate.
    + intros f. cbn [unlinked_of]. unfold upd. destruct (Z.eqb_spec f (c_mgr c)); split; intros X; try discriminate. exfalso. destruct (ST f) as (A & B & C). auto.
    + cbn [stage_at]. auto.
  - eapply hist_same; [eapply hist_place; [exact HI|]|auto|auto|auto]. intros f. unfold upd. destruct (Z.eqb_spec f (c_mgr c)); subst; congruence.
Qed.
