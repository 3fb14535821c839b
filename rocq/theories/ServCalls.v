(** Lemmas for C65: the steps of the listener and of connections keep the invariant. *)
From Verif Require Import Base Status MemModel MemProofs Heap TabModel TabSpec TabProofs SchedModel SchedSpec SchedProofs SchedHist MsgModel CondSpec IoModel IoSpec IoProofs ServModel ServSpec ServInv ServSwitch ServSteps.

(** Changes to the set of fibers that are not in the tree. *)
Lemma ready_at : forall c P sk qz md bk a f, core c P sk qz md bk a -> In f (map who (a_ready a)) -> exists q, P f = Some (At q).
Proof.
  intros c P sk qz md bk a f K IN. pose proof (k_ready _ _ _ _ _ _ _ K) as RO. apply in_map_iff in IN as ([b [g [[d e] p]]] & E & IN). cbn in E. subst g. destruct md as [t|].
  - destruct RO as (l & E & L1 & _). rewrite E in IN. apply in_app_or in IN as [IN|[IN|[]]].
    + apply in_map_iff in IN as (g & E' & IN). inversion E'; subst. destruct (L1 _ IN) as (_ & wr & X). eauto.
    + inversion IN; subst. destruct (role_main _ _ _ (k_role _ _ _ _ _ _ _ K (c_main c))) as [[X Y]|[[X Y]|(t' & X & Y)]]; try congruence. eauto.
  - destruct RO as (R1 & _). destruct (R1 _ _ _ _ _ IN) as [_ X]. destruct (P f) as [[]|]; try contradiction. eauto.
Qed.
Lemma not_ready : forall c P sk qz md bk a f, core c P sk qz md bk a -> match P f with Some (At _) => False | _ => True end -> ~ In f (map who (a_ready a)).
Proof. intros c P sk qz md bk a f K H IN. destruct (ready_at _ _ _ _ _ _ _ _ K IN) as [q E]. rewrite E in H. auto. Qed.
Lemma core_place : forall c P sk qz md bk a a' f x, core c P sk qz md bk a -> match P f with Some (At _) | Some Run => False | _ => True end -> match x with Some (At _) | Some Run => False | _ => True end ->
  conn_of c f \/ f = c_lis c /\ x <> Some Made -> has_sock c sk f x -> (P (c_mgr c) <> Some (At UStart)) ->
  (forall g, hget (a_life a') g = if g =? f then life_at x else hget (a_life a) g) -> hwf (a_life a') ->
  (forall g, In g (a_known a') <-> if g =? f then linked x = true else In g (a_known a)) -> NoDup (a_known a') ->
  a_ready a' = a_ready a -> a_idle a' = a_idle a -> a_mgmt a' = a_mgmt a -> a_al a' = a_al a -> a_discs a' = a_discs a -> a_user a' = a_user a ->
  core c (upd P f x) sk qz md bk a'.
Proof.
  intros c P sk qz md bk a a' f x K PF XF CN HS BT LI LW KN ND E1 E2 E3 E4 E5 E6. pose proof (k_conf _ _ _ _ _ _ _ K) as CF. eqbs c CF.
  assert (NR : ~ In f (map who (a_ready a))) by (eapply not_ready; eauto; destruct (P f) as [[]|]; auto).
  assert (FF : f <> c_main c /\ f <> c_mgr c /\ f <> c_idle c) by (destruct CN as [(A & B & C & D)|[-> _]]; auto). destruct FF as (F1 & F2 & F3).
  assert (UX : forall g y, (exists q, y = At q) \/ y = Run -> upd P f x g = Some y <-> P g = Some y).
  { intros g y Y. unfold upd. destruct (Z.eqb_spec g f) as [->|]; [|tauto]. destruct Y as [[q ->]| ->]; destruct x as [[]|], (P f) as [[]|]; try contradiction; split; discriminate. }
  destruct K. constructor; rewrite ?E1, ?E2, ?E3, ?E4, ?E5, ?E6; auto.
  - intros g. rewrite LI. unfold upd. destruct (g =? f); auto.
  - intros g. rewrite KN. unfold upd. destruct (Z.eqb_spec g f) as [->|]; [|apply k_known]. tauto.
  - rewrite upd_other by auto. auto.
  - intros g. unfold upd. destruct (Z.eqb_spec g f) as [->|]; [|auto]. unfold role. rewrite (proj2 (Z.eqb_neq f (c_main c))), (proj2 (Z.eqb_neq f (c_mgr c))), (proj2 (Z.eqb_neq f (c_idle c))) by auto.
    destruct (Z.eqb_spec f (c_lis c)); destruct x as [[]|]; auto; try contradiction. destruct CN as [(A & B & C & D)|[_ X]]; congruence.
  - apply ready_upd; auto. intros q ->. contradiction.
  - intros g. unfold upd. destruct (Z.eqb_spec g f) as [->|]; auto.
  - eapply io_weaken; [eauto|]. intros g wr [W|[W1 W2]]; [left|right; split; [|auto]]; apply UX; eauto.
  - rewrite upd_other by auto. intros B. congruence.
Qed.
Lemma lis_up : forall c P sk qz md bk a f, core c P sk qz md bk a -> P f = Some Run -> f <> c_main c -> f <> c_mgr c -> (forall g, P g = Some Run -> g = f) -> P (c_mgr c) = Some (At URecv).
Proof.
  intros c P sk qz md bk a f K PF F1 F2 U. destruct (role_mgr _ _ _ (k_conf _ _ _ _ _ _ _ K) (k_role _ _ _ _ _ _ _ K (c_mgr c))) as [X|[X|[X _]]]; auto.
  - apply U in X. congruence.
  - exfalso. destruct (k_boot _ _ _ _ _ _ _ K X) as (_ & B1 & B2 & B3). destruct (who_is c f) as [|[|[->|[->|CN]]]]; try congruence. rewrite (B3 _ CN) in PF. discriminate.
Qed.
Lemma not_first : forall c P md v, hist c P md v -> md = None -> P (c_lis c) <> None -> v_quiesce v = false -> ~ read_first v.
Proof. intros c P md v (_ & _ & H) M L Q R. destruct (H R M) as [_ X]. specialize (X L). congruence. Qed.
Lemma hist_early : forall c P P' v, hist c P None v -> ~ read_first v -> hist c P' None v.
Proof. intros c P P' v (A & B & _) N. split; [auto|]. split; [discriminate|]. intros R. contradiction. Qed.
Lemma is_conn : forall c P sk qz md bk a g, core c P sk qz md bk a -> P g = None -> P (c_lis c) <> None -> conn_of c g.
Proof.
  intros c P sk qz md bk a g K PG L. pose proof (k_conf _ _ _ _ _ _ _ K) as CF. destruct (who_is c g) as [->|[->|[->|[->|]]]]; auto; exfalso; try congruence.
  - destruct (role_main _ _ _ (k_role _ _ _ _ _ _ _ K (c_main c))) as [[X _]|[[X _]|(t & X & _)]]; congruence.
  - destruct (role_mgr _ _ _ CF (k_role _ _ _ _ _ _ _ K (c_mgr c))) as [X|[X|[X _]]]; congruence.
  - destruct (role_idle _ _ _ CF (k_role _ _ _ _ _ _ _ K (c_idle c))) as [X|[X|X]]; congruence.
Qed.
(** Making a fiber. *)
Lemma make_inv : forall ans c v a fd s g, Inv c v a -> v_stage v = PMake fd s g -> does ans c XCode v a.
Proof.
  intros ans c v a fd s g (P & md & S & CU & K & ST & HI) SG. rewrite SG in *. destruct ST as (S1 & S2 & S3 & S4 & S5 & ST). cbn [stage_at made_of ended_of unlinked_of back_of] in *.
  destruct ST as (-> & FL & SK & QZ & G0 & PG & FR). rewrite FL in *. assert (CN : conn_of c g) by (eapply is_conn; eauto; congruence).
  eqbs c (k_conf _ _ _ _ _ _ _ K). pose proof (lis_up _ _ _ _ _ _ _ _ K S1 ltac:(congruence) ltac:(congruence) S2) as PM.
  assert (GA : hget (a_life a) g = None) by (rewrite (k_life _ _ _ _ _ _ _ K), PG; auto).
  eapply does_call; [unfold decide; rewrite SG; reflexivity|cbn [astep]|reflexivity|].
  { rewrite (proj2 (Z.eqb_neq g 0)) by auto. rewrite (proj2 (zmem_not _ _)) by (apply hget_none; auto). reflexivity. }
  exists (upd P g (Some Made)), None. cbn [at_stage v_cur v_socks v_quiesce v_stage back_of life_set a_cur a_user]. rewrite FL. split; [|split; [auto|]; split; [|split]].
  - destruct S as [SA SB]. split; [|auto]. intros h. cbn [v_sus]. rewrite SA. unfold upd. destruct (Z.eqb_spec h g) as [->|]; [|auto]. rewrite PG. auto.
  - eapply (core_place c P (v_socks v)); try reflexivity; eauto; cbn [life_set a_life a_known]; cbn; auto.
    + rewrite PG. exact Logic.I.
    + congruence.
    + apply hadd_wf; auto. apply (k_lwf _ _ _ _ _ _ _ K).
    + intros h. destruct (Z.eqb_spec h g) as [->|]; [|tauto]. rewrite (k_known _ _ _ _ _ _ _ K), PG. cbn. split; [tauto|discriminate].
    + apply (k_nd _ _ _ _ _ _ _ K).
  - assert (LG : c_lis c <> g) by (destruct CN as (_ & _ & X & _); congruence). split; [rewrite upd_other; auto|]. split; [|split; [|split; [|split]]]; cbn [made_of ended_of unlinked_of].
    + intros h. unfold upd. destruct (h =? g); [discriminate|auto].
    + intros h. unfold upd. destruct (Z.eqb_spec h g) as [->|]; [split; auto|]. rewrite S3. split; [discriminate|congruence].
    + intros h. unfold upd. destruct (Z.eqb_spec h g) as [->|]; [split; discriminate|]. apply S4.
    + intros h. unfold upd. destruct (Z.eqb_spec h g) as [->|]; [split; discriminate|]. apply S5.
    + cbn [stage_at]. do 4 (split; [auto|]). split; [|exact FR]. pose proof (k_has _ _ _ _ _ _ _ K g) as HS. rewrite PG in HS. exact HS.
  - eapply hist_same; [eapply hist_early; [exact HI|]|auto|auto|auto]. eapply not_first; eauto. congruence.
Qed.
(** A socket for a fiber. *)
Lemma core_socket : forall c P sk qz bk a fd s f, core c P sk qz None bk a -> s <> 0 -> hget (io_socks (fst (a_user a))) s = None -> (forall t b, hget (io_socks (fst (a_user a))) t = Some b -> ws_fd b <> fd) ->
  P f = Some Run \/ P f = Some Made -> hget sk f = None -> f <> c_main c /\ f <> c_mgr c /\ f <> c_idle c ->
  core c P (hadd sk f s) qz None bk (user_set (IO (hadd (io_socks (fst (a_user a))) s (WS fd 0 0)) (io_k (fst (a_user a))), tt) a).
Proof.
  intros c P sk qz bk a fd s f K S0 SN FD PF FN (F1 & F2 & F3). assert (F0 : f <> 0) by (eapply live_nonnull; eauto; destruct PF; congruence).
  pose proof (io_new _ _ _ fd s f (k_io _ _ _ _ _ _ _ K) S0 SN FD F0 FN) as IO'. eapply core_io; eauto.
  - eapply ready_io; [apply (k_ready _ _ _ _ _ _ _ K)|]. intros g wr PG _ UB t b. rewrite hget_hadd. destruct (Z.eqb_spec g f) as [->|]; [destruct PF; congruence|]. cbn [io_socks]. intros GT. rewrite hget_hadd.
    destruct (Z.eqb_spec t s) as [->|]; [|eauto]. intros X. inversion X. destruct wr; auto.
  - intros g. pose proof (k_has _ _ _ _ _ _ _ K g) as X. destruct (Z.eqb_spec g f) as [->|G].
    + destruct PF as [-> | ->]; exact Logic.I.
    + unfold has_sock in *. rewrite hget_hadd_other by auto. auto.
  - rewrite !hget_hadd_other by auto. apply (k_own _ _ _ _ _ _ _ K).
Qed.
Lemma new_sock_act : forall ans fd s (a : ast (iost ep * unit)), s <> 0 -> hget (io_socks (fst (a_user a))) s = None ->
  astep true (lib ans) (SAct FN_IO_SOCKET fd s) a = Some ((STATUS_SUCCESS, nowhere), user_set (IO (hadd (io_socks (fst (a_user a))) s (WS fd 0 0)) (io_k (fst (a_user a))), tt) a).
Proof.
  intros ans fd s a S0 SN. cbn [astep]. change (lib ans FN_IO_SOCKET fd (a_cur a) s) with (@on_fst (iost ep) unit (new_sock fd s)). unfold new_sock. cbn [on_fst happly].
  rewrite (proj2 (Z.eqb_neq s 0)) by auto. rewrite (proj2 (zmem_not _ _)) by (apply hget_none; auto). cbn [orb on_fst happly]. destruct (a_user a) as [m []]. reflexivity.
Qed.
Lemma wrap_inv : forall ans c v a fd s g, Inv c v a -> v_stage v = PWrap fd s g -> does ans c XCode v a.
Proof.
  intros ans c v a fd s g (P & md & S & CU & K & ST & HI) SG. rewrite SG in *. destruct ST as (S1 & S2 & S3 & S4 & S5 & ST). cbn [stage_at made_of ended_of unlinked_of back_of] in *.
  destruct ST as (-> & FL & SK & QZ & GN & F0 & F1 & F2). eqbs c (k_conf _ _ _ _ _ _ _ K). assert (PG : P g = Some Made) by (apply S3; auto).
  assert (GG : g <> c_main c /\ g <> c_mgr c /\ g <> c_idle c).
  { split; [|split]; intros ->; [destruct (role_main _ _ _ (k_role _ _ _ _ _ _ _ K (c_main c))) as [[X _]|[[X _]|(t & X & _)]]|destruct (role_mgr _ _ _ (k_conf _ _ _ _ _ _ _ K) (k_role _ _ _ _ _ _ _ K (c_mgr c))) as [X|[X|[X _]]]|destruct (role_idle _ _ _ (k_conf _ _ _ _ _ _ _ K) (k_role _ _ _ _ _ _ _ K (c_idle c))) as [X|[X|X]]]; congruence. }
  eapply does_call; [unfold decide; rewrite SG; reflexivity|apply new_sock_act; auto|reflexivity|].
  exists P, None. cbn [at_stage with_sock v_cur v_socks v_quiesce v_stage back_of user_set a_cur a_user fst]. split; [|split; [auto|]; split; [|split]].
  - eapply sus_same; [eauto|auto].
  - apply core_socket; auto.
  - split; [auto|]. do 4 (split; [auto|]). cbn [stage_at]. do 2 (split; [auto|]). split; [|split; [auto|]].
    + rewrite hget_hadd. destruct (v_cur v =? g); [discriminate|auto].
    + rewrite hget_hadd_same. discriminate.
  - eapply hist_same; eauto.
Qed.
Lemma listen_inv : forall ans c v a fd s, Inv c v a -> v_stage v = POpen -> allowed true ans (XOpen fd s) v (aview a) -> does ans c (XOpen fd s) v a.
Proof.
  intros ans c v a fd s (P & md & S & CU & K & ST & HI) SG AL. unfold allowed in AL. rewrite SG in *. destruct ST as (S1 & S2 & S3 & S4 & S5 & ST). cbn [stage_at made_of ended_of unlinked_of back_of] in *.
  destruct ST as (-> & FL & GN). apply aview_sock in AL as (F0 & F1 & F2). eqbs c (k_conf _ _ _ _ _ _ _ K).
  eapply does_call; [unfold decide; rewrite SG; reflexivity|apply new_sock_act; auto|reflexivity|].
  exists P, None. cbn [at_stage with_sock v_cur v_socks v_quiesce v_stage back_of user_set a_cur a_user fst]. split; [|split; [auto|]; split; [|split]].
  - eapply sus_same; [eauto|auto].
  - apply core_socket; auto. rewrite FL. auto.
  - split; [auto|]. do 4 (split; [auto|]). cbn [stage_at]. split; [auto|]. split; [split; congruence|]. rewrite hget_hadd_same. discriminate.
  - eapply hist_same; eauto.
Qed.
(** The manager takes an ended fiber out of the tree and releases it. *)
Lemma ended_who : forall c P sk qz md bk a f, core c P sk qz md bk a -> P f = Some Ended \/ P f = Some Unlinked -> conn_of c f \/ f = c_lis c.
Proof.
  intros c P sk qz md bk a f K PF. pose proof (k_conf _ _ _ _ _ _ _ K) as CF. destruct (who_is c f) as [->|[->|[->|[->|]]]]; auto; exfalso.
  - destruct (role_main _ _ _ (k_role _ _ _ _ _ _ _ K (c_main c))) as [[X _]|[[X _]|(t & X & _)]]; destruct PF; congruence.
  - destruct (role_mgr _ _ _ CF (k_role _ _ _ _ _ _ _ K (c_mgr c))) as [X|[X|[X _]]]; destruct PF; congruence.
  - destruct (role_idle _ _ _ CF (k_role _ _ _ _ _ _ _ K (c_idle c))) as [X|[X|X]]; destruct PF; congruence.
Qed.
Lemma remove_inv : forall ans c v a d ev p, Inv c v a -> v_stage v = PEvent d ev p -> (d =? MANAGEMENT_ID) && (ev =? MGMT_FIBER_STOP) = true -> does ans c XCode v a.
Proof.
  intros ans c v a d ev p (P & md & S & CU & K & ST & HI) SG E. rewrite SG in *. destruct ST as (S1 & S2 & S3 & S4 & S5 & ST). cbn [stage_at made_of ended_of unlinked_of back_of] in *.
  rewrite E in S4. destruct ST as (FG & _). assert (PP : P p = Some Ended) by (apply S4; auto). pose proof (ended_who _ _ _ _ _ _ _ _ K (or_introl PP)) as CN.
  eqbs c (k_conf _ _ _ _ _ _ _ K). assert (PC : p <> c_main c /\ p <> c_mgr c /\ p <> c_idle c) by (destruct CN as [(? & ? & ? & ?)| ->]; auto). destruct PC as (P1 & P2 & P3).
  assert (IN : In p (a_known a)) by (apply (k_known _ _ _ _ _ _ _ K); rewrite PP; auto).
  eapply does_call; [unfold decide; rewrite SG, E; reflexivity|cbn [astep]; rewrite (proj2 (zmem_in _ _)) by auto; reflexivity|reflexivity|].
  exists (upd P p (Some Unlinked)), md. cbn [fst]. change (negb (ok STATUS_SUCCESS)) with false. cbv iota. cbn [at_stage v_cur v_socks v_quiesce v_stage back_of known_set a_cur a_user]. split; [|split; [auto|]; split; [|split]].
  - destruct S as [SA SB]. split; [|auto]. intros h. cbn [v_sus]. rewrite SA. unfold upd. destruct (Z.eqb_spec h p) as [->|]; [|auto]. rewrite PP. auto.
  - eapply (core_place c P (v_socks v) (v_quiesce v) md None a); try reflexivity; [exact K|..]; cbn [known_set a_life a_known].
    + rewrite PP. exact Logic.I.
    + destruct CN; [auto|]. right. split; [auto|discriminate].
    + pose proof (k_has _ _ _ _ _ _ _ K p) as HS. rewrite PP in HS. exact HS.
    + rewrite <- FG, S1. discriminate.
    + intros h. destruct (Z.eqb_spec h p) as [->|]; [|auto]. rewrite (k_life _ _ _ _ _ _ _ K), PP. auto.
    + apply (k_lwf _ _ _ _ _ _ _ K).
    + intros h. rewrite (zdel_in _ _ _ (k_nd _ _ _ _ _ _ _ K)). destruct (Z.eqb_spec h p) as [->|]; [cbn; split; [tauto|discriminate]|tauto].
    + apply zdel_nodup, (k_nd _ _ _ _ _ _ _ K).
  - split; [rewrite upd_other; [auto|congruence]|]. split; [|split; [|split; [|split]]]; cbn [made_of ended_of unlinked_of].
    + intros h. unfold upd. destruct (h =? p); [discriminate|auto].
    + intros h. unfold upd. destruct (Z.eqb_spec h p) as [->|]; [split; discriminate|apply S3].
    + intros h. unfold upd. destruct (Z.eqb_spec h p) as [->|]; [split; discriminate|rewrite S4; split; [congruence|discriminate]].
    + intros h. unfold upd. destruct (Z.eqb_spec h p) as [->|]; [split; auto|rewrite S5; split; [discriminate|congruence]].
    + cbn [stage_at]. auto.
  - eapply hist_same; [eapply hist_place; [exact HI|]|auto|auto|auto]. intros h. unfold upd. destruct (Z.eqb_spec h p); subst; congruence.
Qed.
Lemma free_inv : forall ans c v a p, Inv c v a -> v_stage v = PFree p -> does ans c XCode v a.
Proof.
  intros ans c v a p (P & md & S & CU & K & ST & HI) SG. rewrite SG in *. destruct ST as (S1 & S2 & S3 & S4 & S5 & ST). cbn [stage_at made_of ended_of unlinked_of back_of] in *.
  assert (PP : P p = Some Unlinked) by (apply S5; auto). pose proof (ended_who _ _ _ _ _ _ _ _ K (or_intror PP)) as CN.
  eqbs c (k_conf _ _ _ _ _ _ _ K). assert (PC : p <> c_main c /\ p <> c_mgr c /\ p <> c_idle c) by (destruct CN as [(? & ? & ? & ?)| ->]; auto). destruct PC as (P1 & P2 & P3).
  assert (LP : hget (a_life a) p = Some STOPPED) by (rewrite (k_life _ _ _ _ _ _ _ K), PP; auto).
  eapply does_call; [unfold decide; rewrite SG; reflexivity|cbn [astep]|reflexivity|].
  { rewrite (proj2 (is_ready_not _ _ _)) by (eapply not_ready; eauto; rewrite PP; exact Logic.I). rewrite (proj2 (zmem_in _ _)) by (eapply hget_in; eauto). reflexivity. }
  exists (upd P p None), md. cbn [at_stage v_cur v_socks v_quiesce v_stage back_of life_set a_cur a_user]. split; [|split; [auto|]; split; [|split]].
  - destruct S as [SA SB]. split; [|auto]. intros h. cbn [v_sus]. rewrite SA. unfold upd. destruct (Z.eqb_spec h p) as [->|]; [|auto]. rewrite PP. auto.
  - eapply (core_place c P (v_socks v) (v_quiesce v) md None a); try reflexivity; [exact K|..]; cbn [life_set a_life a_known].
    + rewrite PP. exact Logic.I.
    + destruct CN; [auto|]. right. split; [auto|discriminate].
    + pose proof (k_has _ _ _ _ _ _ _ K p) as HS. rewrite PP in HS. exact HS.
    + rewrite <- ST, S1. discriminate.
    + intros h. rewrite hget_hdel by apply (k_lwf _ _ _ _ _ _ _ K). destruct (h =? p); auto.
    + apply hdel_wf, (k_lwf _ _ _ _ _ _ _ K).
    + intros h. destruct (Z.eqb_spec h p) as [->|]; [|tauto]. rewrite (k_known _ _ _ _ _ _ _ K), PP. cbn. split; [tauto|discriminate].
    + apply (k_nd _ _ _ _ _ _ _ K).
  - split; [rewrite upd_other; [auto|congruence]|]. split; [|split; [|split; [|split]]]; cbn [made_of ended_of unlinked_of].
    + intros h. unfold upd. destruct (h =? p); [discriminate|auto].
    + intros h. unfold upd. destruct (Z.eqb_spec h p) as [->|]; [split; discriminate|apply S3].
    + intros h. unfold upd. destruct (Z.eqb_spec h p) as [->|]; [split; discriminate|apply S4].
    + intros h. unfold upd. destruct (Z.eqb_spec h p) as [->|]; [split; discriminate|rewrite S5; split; [congruence|discriminate]].
    + cbn [stage_at]. auto.
  - eapply hist_same; [eapply hist_place; [exact HI|]|auto|auto|auto]. intros h. unfold upd. destruct (Z.eqb_spec h p); subst; congruence.
Qed.
(** A fiber closes its socket. *)
Lemma sock_of : forall c P sk qz md bk a f, core c P sk qz md bk a -> hget sk f <> None -> exists s b, hget sk f = Some s /\ hget (io_socks (fst (a_user a))) s = Some b /\ forall wr, ws_fib wr b = 0 \/ ws_fib wr b = f /\ waits P bk f wr.
Proof. intros c P sk qz md bk a f K N. destruct (hget sk f) as [s|] eqn:E; [|congruence]. destruct (n_sock _ _ _ (k_io _ _ _ _ _ _ _ K) _ _ E) as (b & B1 & B2). eauto. Qed.
Lemma close_inv : forall ans c v a, Inv c v a -> v_stage v = PClose -> does ans c XCode v a.
Proof.
  intros ans c v a (P & md & S & CU & K & ST & HI) SG. rewrite SG in *. destruct ST as (S1 & S2 & S3 & S4 & S5 & ST). cbn [stage_at made_of ended_of unlinked_of back_of] in *.
  destruct ST as ((U1 & U2) & FM & SK). destruct (sock_of _ _ _ _ _ _ _ _ K SK) as (s & b & SF & SB & WF). pose proof (k_io _ _ _ _ _ _ _ K) as KI.
  eapply does_call; [unfold decide; rewrite SG, SF; reflexivity| |reflexivity|].
  { cbn [isop astep]. change (lib ans FN_IO_RELEASE 0 (a_cur a) s) with (@on_fst (iost ep) unit (epoll_release s)). unfold epoll_release. cbn [on_fst happly]. rewrite SB. cbn [need on_fst happly]. reflexivity. }
  pose proof (io_del _ _ _ _ _ _ KI SF SB) as IO'. exists P, md. cbn [at_stage no_sock v_cur v_socks v_quiesce v_stage back_of user_set a_cur a_user fst]. split; [|split; [auto|]; split; [|split]].
  - eapply sus_same; eauto.
  - replace (snd (a_user a)) with tt by (destruct (snd (a_user a)); auto). eapply core_io; eauto.
    + eapply ready_io; [apply (k_ready _ _ _ _ _ _ _ K)|]. intros g wr PG _ UB t b'. rewrite hget_hdel by apply (n_swf _ _ _ KI). destruct (g =? v_cur v); [discriminate|]. cbn [io_socks]. intros GT.
      rewrite hget_hdel by apply (n_iwf _ _ _ KI). destruct (t =? s); [discriminate|]. eauto.
    + intros g. pose proof (k_has _ _ _ _ _ _ _ K g) as X. destruct (Z.eqb_spec g (v_cur v)) as [->|G].
      * rewrite S1. exact Logic.I.
      * unfold has_sock in *. rewrite hget_hdel_other by auto using (n_swf _ _ _ KI). auto.
    + rewrite !hget_hdel_other by auto using (n_swf _ _ _ KI). apply (k_own _ _ _ _ _ _ _ K).
  - do 5 (split; [auto|]). cbn [stage_at]. split; [auto|]. split; [auto|]. rewrite hget_hdel by apply (n_swf _ _ _ KI). rewrite Z.eqb_refl. auto.
  - eapply hist_same; eauto.
Qed.
(** A fiber ends. *)
Lemma stop_inv : forall ans c v a, Inv c v a -> v_stage v = PReturn -> does ans c XCode v a.
Proof.
  intros ans c v a (P & md & S & CU & K & ST & HI) SG. rewrite SG in *. destruct ST as (S1 & S2 & S3 & S4 & S5 & ST). cbn [stage_at made_of ended_of unlinked_of back_of] in *.
  destruct ST as ((U1 & U2) & FM & SK). pose proof (lis_up _ _ _ _ _ _ _ _ K S1 FM U1 S2) as PM. remember (v_cur v) as f eqn:Ef. pose proof (k_conf _ _ _ _ _ _ _ K) as CF. eqbs c CF.
  assert (NR : ~ In f (map who (a_ready a))) by (eapply not_ready; eauto; rewrite S1; exact Logic.I).
  assert (LF : hget (a_life a) f = Some RUNNING) by (rewrite (k_life _ _ _ _ _ _ _ K), S1; auto).
  assert (K' : core c (upd P f (Some Ended)) (v_socks v) (v_quiesce v) md None (life_set (hset (a_life a) f STOPPED) a)).
  { destruct K. constructor; cbn [life_set a_ready a_life a_known a_idle a_mgmt a_al a_discs a_user]; auto using hset_wf.
    - intros g. rewrite hget_hset, LF. unfold upd. destruct (g =? f); auto.
    - intros g. rewrite k_known. unfold upd. destruct (Z.eqb_spec g f) as [->|]; [|tauto]. rewrite S1. cbn. tauto.
    - rewrite upd_other by auto. auto.
    - intros g. unfold upd. destruct (Z.eqb_spec g f) as [->|]; [|auto]. unfold role. rewrite (proj2 (Z.eqb_neq f (c_main c))), (proj2 (Z.eqb_neq f (c_mgr c))), (proj2 (Z.eqb_neq f (c_idle c))) by auto. destruct (f =? c_lis c); auto.
    - apply ready_upd; auto. discriminate.
    - intros g. unfold upd. destruct (Z.eqb_spec g f) as [->|]; auto.
    - eapply io_weaken; [eauto|]. intros g wr [W|[W1 W2]]; [left|discriminate]. unfold upd. destruct (Z.eqb_spec g f) as [->|]; congruence.
    - rewrite upd_other by auto. congruence. }
  assert (SU : sus_ok (upd P f (Some Ended)) v).
  { destruct S as [SA SB]. split; [|auto]. intros h. rewrite SA. unfold upd. destruct (Z.eqb_spec h f) as [->|]; [|auto]. rewrite S1. auto. }
  destruct (inv_tell c (upd P f (Some Ended)) v md _ MGMT_FIBER_STOP f SU K') as (o & v' & a' & RS & OK & RE & IV).
  - rewrite upd_other by auto. auto.
  - intros g. unfold upd. destruct (Z.eqb_spec g f) as [->|]; [repeat split; discriminate|]. repeat split; intros X; [apply S2 in X; congruence|apply S3 in X; discriminate|apply S5 in X; discriminate].
  - auto.
  - intros g. unfold upd. destruct (Z.eqb_spec g f) as [->|]; [tauto|]. rewrite S4. split; [discriminate|tauto].
  - eapply hist_place; [exact HI|]. intros h. unfold upd. destruct (Z.eqb_spec h f); subst; congruence.
  - eapply does_call; [unfold decide; rewrite SG; reflexivity| | |exact IV].
    + cbn [astep]. rewrite CU, LF. rewrite RS. rewrite OK. reflexivity.
    + cbn beta. rewrite OK. exact RE.
Qed.
(** The listener adds a connection's fiber. *)
Lemma add_inv : forall ans c v a g, Inv c v a -> v_stage v = PAdd g -> does ans c XCode v a.
Proof.
  intros ans c v a g (P & md & S & CU & K & ST & HI) SG. rewrite SG in *. destruct ST as (S1 & S2 & S3 & S4 & S5 & ST). cbn [stage_at made_of ended_of unlinked_of back_of] in *.
  destruct ST as (-> & FL & SK & QZ & SKG). assert (PG : P g = Some Made) by (apply S3; auto). pose proof (k_conf _ _ _ _ _ _ _ K) as CF. eqbs c CF. rewrite FL in *.
  pose proof (lis_up _ _ _ _ _ _ _ _ K S1 ltac:(congruence) ltac:(congruence) S2) as PM.
  assert (CN : conn_of c g).
  { destruct (who_is c g) as [->|[->|[->|[->|]]]]; auto; exfalso; [destruct (role_main _ _ _ (k_role _ _ _ _ _ _ _ K (c_main c))) as [[X _]|[[X _]|(t & X & _)]]| |destruct (role_idle _ _ _ CF (k_role _ _ _ _ _ _ _ K (c_idle c))) as [X|[X|X]]|]; congruence. }
  destruct CN as (C1 & C2 & C3 & C4).
  assert (NRG : ~ In g (map who (a_ready a))) by (eapply not_ready; eauto; rewrite PG; exact Logic.I).
  assert (NRL : ~ In (c_lis c) (map who (a_ready a))) by (eapply not_ready; eauto; rewrite S1; exact Logic.I).
  assert (LG : hget (a_life a) g = Some CREATED) by (rewrite (k_life _ _ _ _ _ _ _ K), PG; auto).
  assert (LL : hget (a_life a) (c_lis c) = Some RUNNING) by (rewrite (k_life _ _ _ _ _ _ _ K), S1; auto).
  assert (NK : ~ In g (a_known a)) by (rewrite (k_known _ _ _ _ _ _ _ K), PG; cbn; intros (_ & _ & X); discriminate).
  set (P' := upd (upd P g (Some (At UStart))) (c_lis c) (Some (At UAdd))).
  set (R' := (true, (c_lis c, (INTERNAL_ID, RESUME_ADD_FIBER, 0))) :: a_ready a ++ [(false, (g, (INTERNAL_ID, RESUME_ADD_FIBER, 0)))]).
  assert (PO : forall h, h <> g -> h <> c_lis c -> P' h = P h) by (intros; unfold P'; rewrite !upd_other; auto).
  assert (PG' : P' g = Some (At UStart)) by (unfold P'; rewrite upd_other by auto; apply upd_same).
  assert (PL' : P' (c_lis c) = Some (At UAdd)) by (unfold P'; apply upd_same).
  assert (J : exists a2, join true g a = tell MGMT_FIBER_ADD g a2 /\ a_ready a2 = R' /\ a_life a2 = a_life a /\ a_known a2 = zput g (a_known a) /\ a_idle a2 = a_idle a /\ a_mgmt a2 = a_mgmt a /\ a_al a2 = a_al a /\ a_discs a2 = a_discs a /\ a_user a2 = a_user a).
  { unfold join. rewrite (proj2 (zmem_not _ _)) by auto. rewrite LG. unfold alloc_spec at 1. rewrite (k_al _ _ _ _ _ _ _ K). change (negb (ok STATUS_SUCCESS)) with false. cbv iota.
    unfold push at 1. unfold known_set at 1. cbn [fst a_life]. rewrite LG. change (CREATED =? STOPPED) with false. cbn [orb].
    rewrite (proj2 (is_ready_not _ _ _)) by exact NRG. unfold alloc_spec, known_set. cbn [a_al]. rewrite (k_al _ _ _ _ _ _ _ K). change (negb (ok STATUS_SUCCESS)) with false. cbv iota.
    unfold push. cbn [fst a_life a_cur]. rewrite CU, LL. change (RUNNING =? STOPPED) with false. cbn [orb].
    rewrite (proj2 (is_ready_not _ _ _)).
    2: { cbn [a_ready]. rewrite map_app. intros X. apply in_app_or in X as [X|[X|[]]]; [auto|]. cbn in X. congruence. }
    unfold alloc_spec. cbn [a_al]. change (negb (ok STATUS_SUCCESS)) with false. cbv iota. change (negb (ok STATUS_SUCCESS)) with false. cbv iota.
    eexists. split; [reflexivity|]. cbn [a_ready a_life a_known a_idle a_mgmt a_al a_discs a_user]. auto 9. }
  destruct J as (a2 & J & E1 & E2 & E3 & E4 & E5 & E6 & E7 & E8).
  assert (WR : map who R' = c_lis c :: map who (a_ready a) ++ [g]) by (unfold R'; cbn [map]; rewrite map_app; reflexivity).
  assert (K' : core c P' (v_socks v) (v_quiesce v) None None a2).
  { destruct K. constructor; rewrite ?E1, ?E2, ?E3, ?E4, ?E5, ?E6, ?E7, ?E8; auto.
    - intros h. rewrite k_life. unfold P', upd. destruct (Z.eqb_spec h (c_lis c)) as [->|]; [rewrite S1; auto|]. destruct (Z.eqb_spec h g) as [->|]; [rewrite PG; auto|auto].
    - intros h. rewrite zput_in, k_known. unfold P', upd. destruct (Z.eqb_spec h (c_lis c)) as [->|]; [rewrite S1; cbn; split; [intros [X|X]; [congruence|tauto]|tauto]|].
      destruct (Z.eqb_spec h g) as [->|]; [cbn; tauto|tauto].
    - apply zput_nodup; auto.
    - rewrite PO by auto. auto.
    - intros h. destruct (Z.eqb_spec h g) as [->|HG]; [rewrite PG'; unfold role; rewrite (proj2 (Z.eqb_neq g (c_main c))), (proj2 (Z.eqb_neq g (c_mgr c))), (proj2 (Z.eqb_neq g (c_idle c))), (proj2 (Z.eqb_neq g (c_lis c))) by auto; auto|].
      destruct (Z.eqb_spec h (c_lis c)) as [->|HL]; [rewrite PL'; unfold role; rewrite (proj2 (Z.eqb_neq (c_lis c) (c_main c))), (proj2 (Z.eqb_neq (c_lis c) (c_mgr c))), (proj2 (Z.eqb_neq (c_lis c) (c_idle c))), Z.eqb_refl by auto; auto|].
      rewrite PO by auto. auto.
    - rewrite WR. constructor; [|apply nodup_snoc; auto]. intros X. apply in_app_or in X as [X|[X|[]]]; [auto|congruence].
    - destruct k_ready as (R1 & R2 & R3). split; [|split].
      + intros b h d e p [X|X]; [inversion X; subst; rewrite PL'; auto|]. apply in_app_or in X as [X|[X|[]]]; [|inversion X; subst; rewrite PG'; auto].
        assert (HI' : In h (map who (a_ready a))) by (apply in_map_iff; exists (b, (h, (d, e, p))); auto). rewrite PO; [eauto|congruence|congruence].
      + intros h PH. rewrite WR. destruct (Z.eqb_spec h g) as [->|]; [right; right; apply in_or_app; right; left; auto|]. destruct (Z.eqb_spec h (c_lis c)) as [->|]; [right; left; auto|]. rewrite PO in PH by auto.
        destruct (R2 _ PH); [auto|]. right. right. apply in_or_app. auto.
      + intros h PH. rewrite WR. destruct (Z.eqb_spec h g) as [->|]; [congruence|]. destruct (Z.eqb_spec h (c_lis c)) as [->|]; [left; auto|]. rewrite PO in PH by auto. right. apply in_or_app. auto.
    - intros h. destruct (Z.eqb_spec h g) as [->|]; [rewrite PG'; cbn; rewrite (proj2 (Z.eqb_neq g (c_lis c))) by auto; auto|]. destruct (Z.eqb_spec h (c_lis c)) as [->|]; [rewrite PL'; exact SK|]. rewrite PO by auto. auto.
    - eapply io_weaken; [eauto|]. intros h wr [W|[W1 W2]]; [left|discriminate]. destruct (Z.eqb_spec h g) as [->|]; [congruence|]. destruct (Z.eqb_spec h (c_lis c)) as [->|]; [congruence|]. rewrite PO; auto.
    - rewrite PO by auto. congruence. }
  assert (SU : sus_ok P' (suspended (v_cur v) UAdd (suspended g UStart v))).
  { rewrite FL. apply sus_add; [apply sus_add; auto|left; rewrite upd_other by auto; auto|auto]. intros ->. eapply live_nonnull; [exact K|rewrite PG; discriminate|auto]. }
  destruct (inv_tell c P' (suspended (v_cur v) UAdd (suspended g UStart v)) None a2 MGMT_FIBER_ADD g SU K') as (o & v' & a' & RS & OK & RE & IV).
  - rewrite PO by auto. auto.
  - intros h. destruct (Z.eqb_spec h g) as [->|]; [rewrite PG'; repeat split; discriminate|]. destruct (Z.eqb_spec h (c_lis c)) as [->|]; [rewrite PL'; repeat split; discriminate|]. rewrite PO by auto.
    repeat split; intros X; [apply S2 in X; congruence|apply S3 in X; congruence|apply S5 in X; discriminate].
  - auto.
  - intros h. split; [|intros [X _]; discriminate]. destruct (Z.eqb_spec h g) as [->|]; [rewrite PG'; discriminate|]. destruct (Z.eqb_spec h (c_lis c)) as [->|]; [rewrite PL'; discriminate|]. rewrite PO by auto. intros X. apply S4 in X. discriminate.
  - eapply hist_same; [eapply hist_early; [exact HI|]|auto|auto|auto]. eapply not_first; eauto. congruence.
  - eapply does_call; [unfold decide; rewrite SG; reflexivity| | |exact IV].
    + cbn [astep]. rewrite J. exact RS.
    + cbn beta. rewrite OK. cbn [negb]. unfold yields. rewrite OK. cbn [negb]. exact RE.
Qed.
