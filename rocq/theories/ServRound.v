(** Lemmas for C65: asking the kernel and asking all fibers keep the invariant; together, every
    step does. *)
From Verif Require Import Base Status MemModel MemProofs Heap TabModel TabSpec TabProofs SchedModel SchedSpec SchedProofs SchedHist MsgModel CondSpec IoModel IoSpec IoProofs ServModel ServSpec ServInv ServSwitch ServSteps ServCalls ServWaits.

(** ** The idle fiber *)
Lemma unblocked_zero : forall sk W m s b wr g w, io_inv sk W m -> hget (io_socks m) s = Some b -> unblocked sk m g w -> unblocked sk (set_sock s (ws_set wr 0 b) m) g w.
Proof.
  intros sk W m s b wr g w IO B U t b' GT. cbn [set_sock io_socks]. rewrite hget_hset. destruct (Z.eqb_spec t s) as [->|]; [|eauto]. rewrite B. intros X. inversion X; subst b'. rewrite ws_fib_set. destruct (Bool.eqb w wr); [auto|]. eapply U; eauto.
Qed.
Lemma wake_ok : forall c P sk qz a wr filter ps k b, core c P sk qz None None a -> P (c_idle c) = Some Run -> hget (io_socks (fst (a_user a))) ps = Some b ->
  exists a', happly (on_fst (epoll_wake wr filter ps k)) a = happly (on_fst k) a' /\ core c P sk qz None None a' /\ a_cur a' = a_cur a /\ addrs (io_socks (fst (a_user a'))) = addrs (io_socks (fst (a_user a))).
Proof.
  intros c P sk qz a wr filter ps k b K PI B. pose proof (k_conf _ _ _ _ _ _ _ K) as CF. eqbs c CF. pose proof (k_io _ _ _ _ _ _ _ K) as KI. unfold epoll_wake. cbn [on_fst happly]. rewrite B. cbn [need].
  destruct (has filter (if wr then OUT else IN)); cbn [andb]; [|eexists; split; [reflexivity|auto]].
  destruct (Z.eqb_spec (ws_fib wr b) 0) as [Z0|NZ]; cbn [negb]; [eexists; split; [reflexivity|auto]|].
  destruct (n_owner _ _ _ KI _ _ B) as (f & F). destruct (n_sock _ _ _ KI _ _ F) as (b' & B' & WF). rewrite B in B'. inversion B'; subst b'. clear B'.
  destruct (WF wr) as [|[FF [PF|[_ X]]]]; [congruence| |discriminate]. cbn [on_fst happly]. rewrite FF.
  assert (NR : ~ In f (map who (a_ready a))).
  { intros X. apply in_map_iff in X as ([b0 [g [[d e] p]]] & E & X). cbn in E. subst g. destruct (k_ready _ _ _ _ _ _ _ K) as (R1 & _). destruct (R1 _ _ _ _ _ X) as [_ Y]. rewrite PF in Y. destruct Y as [_ Y]. apply NZ. exact (Y _ _ F B). }
  unfold push. cbn [fst]. rewrite (k_life _ _ _ _ _ _ _ K), PF. cbn [life_at]. change (RUNNING =? STOPPED) with false. cbn [orb]. rewrite (proj2 (is_ready_not _ _ _)) by auto.
  unfold alloc_spec. rewrite (k_al _ _ _ _ _ _ _ K). change (negb (ok STATUS_SUCCESS)) with false. cbv iota. cbn [on_fst happly a_user fst snd].
  eexists. split; [reflexivity|]. unfold user_set. cbn [a_ready a_life a_known a_idle a_main a_mgmt a_cur a_discs a_ids a_total a_al a_user a_made a_ran fst]. split; [|split; [auto|cbn [set_sock io_socks]; apply hset_addrs]].
  assert (IO' : io_inv sk (waits P None) (set_sock ps (ws_set wr 0 b) (fst (a_user a)))).
  { eapply io_note; eauto; [apply ws_fd_set|]. intros w. rewrite ws_fib_set. destruct (Bool.eqb w wr); auto. }
  destruct K. constructor; cbn [a_ready a_life a_known a_idle a_main a_mgmt a_cur a_discs a_ids a_total a_al a_user a_made a_ran fst]; auto.
  - rewrite map_app. apply nodup_snoc; auto.
  - destruct k_ready as (R1 & R2 & R3). split; [|split].
    + intros b0 g d e p IN. apply in_app_or in IN as [IN|[IN|[]]].
      * destruct (R1 _ _ _ _ _ IN) as [X Y]. split; [auto|]. destruct (P g) as [[[]| | | |]|]; auto. destruct Y as [Y1 Y2]. split; [auto|]. eapply unblocked_zero; eauto.
      * inversion IN; subst. rewrite PF. split; [congruence|]. split; [auto|]. intros t b1 GT. rewrite F in GT. inversion GT; subst t. cbn [set_sock io_socks]. rewrite hget_hset, Z.eqb_refl, B. intros X. inversion X. rewrite ws_fib_set, Bool.eqb_reflx. auto.
    + intros g PG. rewrite map_app. destruct (R2 _ PG); [auto|]. right. apply in_or_app. auto.
    + intros g PG. rewrite map_app. apply in_or_app. auto.
  - intros X. destruct (k_boot X) as (_ & _ & Y & _). congruence.
Qed.
Lemma core_armed : forall c P sk qz a s b k, core c P sk qz None None a -> hget (io_socks (fst (a_user a))) s = Some b -> same_set s (ws_fd b) (io_k (fst (a_user a))) k ->
  core c P sk qz None None (user_set (set_k k (fst (a_user a)), tt) a).
Proof.
  intros c P sk qz a s b k K B S. eapply core_io; eauto.
  - eapply io_set; eauto. apply (k_io _ _ _ _ _ _ _ K).
  - eapply ready_io; [apply (k_ready _ _ _ _ _ _ _ K)|]. auto.
  - apply (k_has _ _ _ _ _ _ _ K).
  - apply (k_own _ _ _ _ _ _ _ K).
Qed.
Lemma addr_get : forall A (h : heap A) p, In p (addrs h) -> exists v, hget h p = Some v.
Proof. intros A h p IN. destruct (hget h p) eqn:E; [eauto|]. apply hget_none in E. contradiction. Qed.
Lemma serve_ok : forall c P sk qz l a, core c P sk qz None None a -> P (c_idle c) = Some Run -> (forall x, In x l -> In (snd x) (addrs (io_socks (fst (a_user a))))) ->
  exists a', happly (on_fst (epoll_serve l)) a = Some (STATUS_SUCCESS, a') /\ core c P sk qz None None a' /\ a_cur a' = a_cur a.
Proof.
  intros c P sk qz. induction l as [|[filter ps] l IH]; intros a K PI L; cbn [epoll_serve].
  - exists a. cbn [on_fst happly]. auto.
  - destruct (addr_get _ _ _ (L _ (or_introl eq_refl))) as [b B]. cbn [snd] in B.
    destruct (wake_ok c P sk qz a false filter ps (epoll_wake true filter ps (HLoad (fun m => need (hget (io_socks m) ps) (fun b =>
      if negb (ws_r b =? 0) || negb (ws_w b =? 0) then HStore (set_k (snd (arm ps b (io_k m))) m) (epoll_serve l) else epoll_serve l)))) b K PI B) as (a1 & E1 & K1 & C1 & D1). rewrite E1. clear E1.
    destruct (addr_get _ (io_socks (fst (a_user a1))) ps) as [b1 B1]. { rewrite D1. eapply hget_in; eauto. }
    destruct (wake_ok c P sk qz a1 true filter ps (HLoad (fun m => need (hget (io_socks m) ps) (fun b =>
      if negb (ws_r b =? 0) || negb (ws_w b =? 0) then HStore (set_k (snd (arm ps b (io_k m))) m) (epoll_serve l) else epoll_serve l))) b1 K1 PI B1) as (a2 & E2 & K2 & C2 & D2). rewrite E2. clear E2.
    destruct (addr_get _ (io_socks (fst (a_user a2))) ps) as [b2 B2]. { rewrite D2. eapply hget_in; eauto. }
    cbn [on_fst happly]. rewrite B2. cbn [need]. destruct (negb (ws_r b2 =? 0) || negb (ws_w b2 =? 0)).
    + cbn [on_fst happly]. replace (snd (a_user a2)) with tt by (destruct (snd (a_user a2)); auto).
      pose proof (core_armed _ _ _ _ _ _ _ _ K2 B2 (arm_set ps b2 (io_k (fst (a_user a2))))) as K3. destruct (IH _ K3 PI) as (a' & E & K' & C').
      * intros x IN. cbn [user_set a_user fst set_k io_socks]. rewrite D2, D1. apply L. right. auto.
      * exists a'. split; [exact E|]. split; [auto|]. rewrite C'. cbn [user_set a_cur]. congruence.
    + destruct (IH _ K2 PI) as (a' & E & K' & C').
      * intros x IN. rewrite D2, D1. apply L. right. auto.
      * exists a'. split; [exact E|]. split; [auto|]. congruence.
Qed.
Lemma round_ok : forall c P sk qz l r a, core c P sk qz None None a -> P (c_idle c) = Some Run -> settled Epoll l = Some (KReady r) ->
  exists a', happly (on_fst (epoll_round l)) a = Some (STATUS_SUCCESS, a') /\ core c P sk qz None None a' /\ a_cur a' = a_cur a.
Proof.
  intros c P sk qz. induction l as [|[e|r'] l IH]; intros r a K PI S; cbn [settled] in S; [discriminate| |].
  - destruct (e =? EINTR) eqn:E; [|discriminate]. cbn [epoll_round]. rewrite E. eauto.
  - inversion S; subst r'. cbn [epoll_round on_fst happly]. pose proof (k_io _ _ _ _ _ _ _ K) as KI. destruct (epoll_outputs _ r (ep_set (io_k (fst (a_user a))))) as [x h'] eqn:E.
    destruct (outputs_set _ _ _ _ _ E) as (A1 & A2 & A3). cbn [on_fst happly]. replace (snd (a_user a)) with tt by (destruct (snd (a_user a)); auto).
    assert (K1 : core c P sk qz None None (user_set (set_k (EP h' (ep_ctl (io_k (fst (a_user a))))) (fst (a_user a)), tt) a)).
    { eapply core_io; eauto; [|eapply ready_io; [apply (k_ready _ _ _ _ _ _ _ K)|auto]|apply (k_has _ _ _ _ _ _ _ K)|apply (k_own _ _ _ _ _ _ _ K)].
      destruct KI. constructor; cbn [set_k io_socks io_k ep_set]; auto.
      - rewrite A1. auto.
      - intros fd i G. destruct (A2 _ _ G) as (j & J1 & J2). rewrite <- J2. eauto. }
    destruct (serve_ok c P sk qz x _ K1 PI) as (a' & E' & K' & C').
    + intros y IN. cbn [user_set a_user fst set_k io_socks]. destruct (A3 _ IN) as (fd & i & J1 & J2). rewrite <- J2. destruct (n_set _ _ _ KI _ _ J1) as (b & B & _). eapply hget_in; eauto.
    + exists a'. auto.
Qed.
Lemma round_inv : forall ans c v a q, Inv c v a -> v_stage v = PRound -> allowed true ans (XRound q) v (aview a) -> does ans c (XRound q) v a.
Proof.
  intros ans c v a q (P & md & S & CU & K & ST & HI) SG AL. unfold allowed in AL. rewrite SG in *. destruct AL as [r AL]. pose proof ST as (S1 & S2 & S3 & S4 & S5 & SA). cbn [stage_at made_of ended_of unlinked_of back_of] in *.
  destruct SA as [-> FI]. assert (PI : P (c_idle c) = Some Run) by congruence. destruct (round_ok _ _ _ _ _ _ _ K PI AL) as (a' & E & K' & C').
  eapply does_call; [unfold decide; rewrite SG; reflexivity| |reflexivity|].
  - cbn [isop astep]. change (lib ans FN_IO_ROUND IO_CTX (a_cur a) q) with (@on_fst (iost ep) unit (epoll_round (ans q))). rewrite E. reflexivity.
  - cbn [fst]. change (negb (ok STATUS_SUCCESS)) with false. cbv iota. exists P, None. cbn [at_stage v_cur v_socks v_quiesce v_stage back_of]. split; [exact S|]. split; [congruence|]. split; [auto|]. split; [|eapply hist_same; eauto].
    do 5 (split; [auto|]). cbn [stage_at]. auto.
Qed.

(** ** Asking all fibers *)
Lemma pushes_ok : forall l (a : ast (iost ep * unit)), a_al a = [] -> (forall x, In x l -> fst x = false /\ exists s, hget (a_life a) (who x) = Some s /\ s <> STOPPED) -> NoDup (map who (a_ready a ++ l)) ->
  exists a', pushes l a = Some (STATUS_SUCCESS, a') /\ a_ready a' = a_ready a ++ l /\ a_life a' = a_life a /\ a_known a' = a_known a /\ a_idle a' = a_idle a /\ a_mgmt a' = a_mgmt a /\ a_al a' = a_al a /\ a_discs a' = a_discs a /\ a_user a' = a_user a.
Proof.
  induction l as [|[fr x] l IH]; intros a AL L N; cbn [pushes].
  - exists a. rewrite app_nil_r. auto 9.
  - destruct (L _ (or_introl eq_refl)) as (F & s & LS & NS). cbn [fst] in F. subst fr. unfold push. change (who (false, x)) with (fst x) in *. rewrite LS. rewrite (proj2 (Z.eqb_neq s STOPPED)) by auto. cbn [orb].
    rewrite map_app in N. cbn [map] in N. change (who (false, x)) with (fst x) in N. rewrite (proj2 (is_ready_not _ _ _)).
    2: { intros X. apply NoDup_remove_2 in N. apply N. apply in_or_app. auto. }
    unfold alloc_spec. rewrite AL. change (negb (ok STATUS_SUCCESS)) with false. cbv iota. change (negb (ok STATUS_SUCCESS)) with false. cbv iota.
    match goal with |- exists a', pushes l ?b = _ /\ _ => destruct (IH b) as (a' & E & E1 & E2 & E3 & E4 & E5 & E6 & E7 & E8) end; cbn [a_al a_life a_ready]; auto.
    + intros y IN. apply L. right. auto.
    + rewrite <- app_assoc. cbn [app]. rewrite map_app. exact N.
    + exists a'. split; [exact E|]. cbn [a_ready a_life a_known a_idle a_mgmt a_al a_discs a_user] in *. rewrite <- app_assoc in E1. rewrite E6. auto 9.
Qed.
Lemma ask_inv : forall ans c v a m t, Inv c v a -> v_stage v = PRead -> v_cur v = c_main c -> v_chan v = m :: t -> a_ready a = [] -> does ans c XCode v a.
Proof.
  intros ans c v a m t (P & md & S & CU & K & ST & HI) SG CM CH RD. rewrite SG in *. set (tm := match m with Quiesce => false | Terminate => true end).
  pose proof (still_upd _ _ _ _ _ _ _ _ (UReq tm) ST eq_refl eq_refl eq_refl) as STL. pose proof ST as (S1 & S2 & S3 & S4 & S5 & SA). cbn [stage_at made_of ended_of unlinked_of back_of] in *.
  destruct SA as (-> & _ & _). pose proof (k_conf _ _ _ _ _ _ _ K) as CF. eqbs c CF. rewrite CM in *.
  assert (NB : P (c_mgr c) <> Some (At UStart)). { intros B. destruct (k_boot _ _ _ _ _ _ _ K B) as (X & _). rewrite RD in X. discriminate. }
  pose proof (k_ready _ _ _ _ _ _ _ K) as (_ & R2 & R3). rewrite RD in R2, R3. cbn [map In] in R2, R3.
  assert (TG : forall f, In f (targets a) <-> f <> c_main c /\ exists wr, P f = Some (At (UWait wr))).
  { intros f. unfold targets. rewrite filter_In, !andb_true_iff, !negb_true_iff, !Z.eqb_neq, (k_known _ _ _ _ _ _ _ K), (k_life _ _ _ _ _ _ _ K), CU. split.
    - intros ((F1 & F2 & F3) & (F4 & F5) & F6). split; [auto|]. pose proof (k_role _ _ _ _ _ _ _ K f) as R. rewrite (k_mgmt _ _ _ _ _ _ _ K) in F6. destruct (P f) as [[[|w|t'| | |]| | | |]|] eqn:PF; try discriminate; eauto; exfalso.
      + unfold role in R. rewrite (proj2 (Z.eqb_neq f (c_main c))), (proj2 (Z.eqb_neq f (c_idle c))) in R by auto. destruct (f =? c_mgr c), (f =? c_lis c); auto.
      + exact (R3 _ PF).
      + destruct (Z.eqb_spec f (c_mgr c)) as [->|FG]; [rewrite PF in F6; congruence|]. unfold role in R. rewrite (proj2 (Z.eqb_neq f (c_main c))), (proj2 (Z.eqb_neq f (c_idle c))), (proj2 (Z.eqb_neq f (c_mgr c))) in R by auto. destruct (f =? c_lis c); auto.
      + unfold role in R. rewrite (proj2 (Z.eqb_neq f (c_main c))), (proj2 (Z.eqb_neq f (c_idle c))) in R by auto. destruct (f =? c_mgr c), (f =? c_lis c); auto.
      + apply F5. apply S2 in PF. auto.
    - intros (F1 & wr & PF). rewrite PF. cbn [linked life_at]. assert (F0 : f <> 0) by (eapply live_nonnull; [exact K|congruence]).
      assert (FI : f <> c_idle c) by (intros ->; destruct (role_idle _ _ _ CF (k_role _ _ _ _ _ _ _ K (c_idle c))) as [X|[X|X]]; congruence).
      assert (FG : f <> c_mgr c) by (intros ->; destruct (role_mgr _ _ _ CF (k_role _ _ _ _ _ _ _ K (c_mgr c))) as [X|[X|[X _]]]; congruence).
      split; [auto|]. split; [auto|]. rewrite (k_mgmt _ _ _ _ _ _ _ K). destruct (P (c_mgr c)) as [[[]| | | |]|]; auto. }
  set (L := map (told tm) (targets a) ++ [answered c]).
  assert (WL : map who L = targets a ++ [c_main c]) by (unfold L; rewrite map_app, map_map; cbn [told answered map who fst snd]; rewrite map_id; auto).
  assert (NDL : NoDup (map who L)). { rewrite WL. apply nodup_snoc; [apply NoDup_filter, (k_nd _ _ _ _ _ _ _ K)|]. rewrite TG. tauto. }
  destruct (pushes_ok L a) as (a1 & PE & E1 & E2 & E3 & E4 & E5 & E6 & E7 & E8).
  - apply (k_al _ _ _ _ _ _ _ K).
  - intros x IN. unfold L in IN. apply in_app_or in IN as [IN|[<-|[]]].
    + apply in_map_iff in IN as (f & <- & IN). split; [auto|]. apply TG in IN as (_ & wr & PF). exists RUNNING. change (who (told tm f)) with f. rewrite (k_life _ _ _ _ _ _ _ K), PF. split; [auto|discriminate].
    + split; [auto|]. exists RUNNING. change (who (answered c)) with (c_main c). rewrite (k_life _ _ _ _ _ _ _ K), S1. split; [auto|discriminate].
  - rewrite RD. exact NDL.
  - rewrite RD in E1. cbn [app] in E1.
    eapply (does_switch _ _ _ _ _ _ _ (UReq tm) (upd P (c_main c) (Some (At (UReq tm)))) (Some tm) a1 (with_chan (v_thr v) t v)).
    + unfold decide. rewrite SG, CM, Z.eqb_refl, CH. cbn [negb]. fold tm. reflexivity.
    + cbn [astep]. replace (forallb _ (a_known a)) with true.
      * rewrite CU. change (resume (pushes L a) = resume (Some (STATUS_SUCCESS, a1))). rewrite PE. reflexivity.
      * symmetry. apply forallb_forall. intros f IN. apply (k_known _ _ _ _ _ _ _ K) in IN as (F1 & F2 & F3). apply andb_true_iff. split.
        -- apply zmem_in. destruct (hget (a_life a) f) eqn:X; [eapply hget_in; eauto|]. rewrite (k_life _ _ _ _ _ _ _ K) in X. destruct (P f) as [[[]| | | |]|]; discriminate.
        -- apply negb_true_iff, Z.eqb_neq. eapply live_nonnull; [exact K|]. intros X. rewrite X in F3. discriminate.
    + intros o OK. unfold yields. rewrite OK. cbn [negb with_chan v_cur]. reflexivity.
    + rewrite CM. apply (sus_add P (with_chan (v_thr v) t v)); auto. 
    + cbn [with_chan v_socks v_quiesce]. eapply (core_suspend c P (v_socks v) (v_quiesce v) None (Some tm) None a); auto; try discriminate.
      * unfold role. rewrite Z.eqb_refl. auto.
      * congruence.
      * exact Logic.I.
      * rewrite E1. exact NDL.
      * rewrite E1, E8. exists (targets a). split; [reflexivity|]. split; [|split; [|split]].
        -- intros f IN. apply TG in IN as (F1 & wr & PF). split; [auto|]. exists wr. rewrite upd_other; auto.
        -- intros f. unfold upd. destruct (f =? c_main c); [discriminate|]. intros PF. destruct (R2 _ PF) as [|[]]; auto.
        -- intros f. unfold upd. destruct (f =? c_main c); [discriminate|]. intros PF. exact (R3 _ PF).
        -- intros f wr. unfold upd. destruct (Z.eqb_spec f (c_main c)); [discriminate|]. intros PF. left. apply TG. eauto.
      * rewrite (proj2 (Z.eqb_neq (c_main c) (c_mgr c))) by auto. auto.
      * rewrite E8. eapply io_weaken; [apply (k_io _ _ _ _ _ _ _ K)|]. intros g wr [W|[_ W]]; [|discriminate]. left. unfold upd. destruct (Z.eqb_spec g (c_main c)); congruence.
      * congruence.
    + exact STL.
    + destruct HI as (A & B & C). unfold hist, read_first, read_second in *. cbn [with_chan v_thr v_chan v_quiesce]. rewrite CH in *. unfold tm.
      destruct (v_thr v), m, t as [|[] [|]]; try contradiction; (split; [exact Logic.I|]); (split; [|discriminate]); intros t' X; inversion X; subst; (split; [exact Logic.I|]); auto; discriminate.
Qed.

(** ** Every step *)
Lemma step_inv : forall ans c x v a, Inv c v a -> allowed true ans x v (aview a) -> decide c x v <> None -> does ans c x v a.
Proof.
  intros ans c x v a IV AL D. destruct x as [|r|fd s|q|].
  - destruct (v_stage v) eqn:SG; try (unfold decide in D; rewrite SG in D; congruence); eauto using make_inv, wrap_inv, add_inv, block_inv, back_inv, receive_inv, free_inv, idle_inv, close_inv, stop_inv.
    + unfold decide in D. rewrite SG in D. destruct (Z.eqb_spec (v_cur v) (c_main c)) as [CM|]; [|cbn [negb] in D; congruence]. destruct (v_chan v) as [|m t] eqn:CH; [apply calm_inv; auto|].
      unfold allowed in AL. rewrite SG, CH in AL. eapply ask_inv; eauto. assert (X : map who (a_ready a) = []) by (apply AL; [auto|discriminate]). destruct (a_ready a); [auto|discriminate].
    + destruct ((d =? MANAGEMENT_ID) && (ev =? MGMT_FIBER_STOP)) eqn:E; [eapply remove_inv|eapply event_inv]; eauto.
    + exfalso. destruct IV as (P & md & _ & _ & _ & ST & _). rewrite SG in ST. destruct ST as (_ & _ & _ & _ & _ & []).
  - destruct (v_stage v) eqn:SG; try (unfold decide in D; rewrite SG in D; congruence); eauto using read_inv, write_inv.
    unfold decide in D. rewrite SG in D. destruct r; try congruence. apply open_inv; auto.
  - destruct (v_stage v) eqn:SG; try (unfold decide in D; rewrite SG in D; congruence). apply listen_inv; auto.
  - destruct (v_stage v) eqn:SG; try (unfold decide in D; rewrite SG in D; congruence). apply round_inv; auto.
  - apply thread_inv; auto.
Qed.
