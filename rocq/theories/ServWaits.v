(** Lemmas for C65: waiting, being resumed, asking the kernel and asking all fibers keep the
    invariant. *)
From Verif Require Import Base Status MemModel MemProofs Heap TabModel TabSpec TabProofs SchedModel SchedSpec SchedProofs SchedHist MsgModel CondSpec IoModel IoSpec IoProofs ServModel ServSpec ServInv ServSwitch ServSteps ServCalls.

Lemma does_switch : forall ans c x v a p k q P md a1 v1, decide c x v = Some (Call p k) -> astep true (lib ans) p a = resume (Some (STATUS_SUCCESS, a1)) ->
  (forall o, ok (fst o) = true -> k o = resumed c o (suspended (v_cur v) q v1)) ->
  sus_ok P (suspended (v_cur v) q v1) -> core c P (v_socks v1) (v_quiesce v1) md None a1 -> still P -> hist c P md v1 -> does ans c x v a.
Proof.
  intros ans c x v a p k q P md a1 v1 D A KO S K ST HI. destruct (inv_switch c P (suspended (v_cur v) q v1) md a1 S K ST HI) as (o & v' & a' & RS & OK & RE & IV).
  eapply does_call; [exact D|rewrite A; exact RS| |exact IV]. rewrite KO; auto.
Qed.
Lemma hist_still : forall c P md v f x, hist c P md v -> P f <> None -> hist c (upd P f x) md v.
Proof. intros c P md v f x H PF. eapply hist_place; [exact H|]. intros h. unfold upd. destruct (Z.eqb_spec h f); subst; auto. Qed.
(** The manager receives. *)
Lemma receive_inv : forall ans c v a, Inv c v a -> v_stage v = PReceive -> does ans c XCode v a.
Proof.
  intros ans c v a (P & md & S & CU & K & ST & HI) SG. rewrite SG in *. pose proof (still_upd _ _ _ _ _ _ _ _ URecv ST eq_refl eq_refl eq_refl) as STL. destruct ST as (S1 & S2 & S3 & S4 & S5 & ST). cbn [stage_at made_of ended_of unlinked_of back_of] in *.
  rewrite ST in *. pose proof (k_conf _ _ _ _ _ _ _ K) as CF. eqbs c CF.
  eapply (does_switch _ _ _ _ _ _ _ URecv (upd P (c_mgr c) (Some (At URecv))) md (mgmt_set (c_mgr c) a) v); rewrite ?ST; auto.
  - unfold decide. rewrite SG. reflexivity.
  - cbn [astep]. rewrite CU. reflexivity.
  - intros o OK. unfold yields. rewrite OK, ST. reflexivity.
  - apply sus_add; auto.
  - eapply (core_suspend c P (v_socks v) (v_quiesce v) md md None a); try reflexivity; auto; cbn [mgmt_set a_ready a_user a_mgmt]; try discriminate.
    + unfold role. rewrite (proj2 (Z.eqb_neq (c_mgr c) (c_main c))), Z.eqb_refl by auto. auto.
    + apply (k_rnd _ _ _ _ _ _ _ K).
    + apply ready_upd; auto; [apply (k_ready _ _ _ _ _ _ _ K)|eapply run_not_ready; eauto|]. intros q X. inversion X. auto.
    + rewrite Z.eqb_refl. auto.
    + eapply io_weaken; [apply (k_io _ _ _ _ _ _ _ K)|]. intros g wr [W|[_ W]]; [|discriminate]. left. unfold upd. destruct (Z.eqb_spec g (c_mgr c)); congruence.
    + congruence.
  - apply hist_still; [auto|congruence].
Qed.
(** The idle fiber yields. *)
Lemma not_boot : forall c P sk qz md bk a f, core c P sk qz md bk a -> P f = Some Run -> f <> c_main c -> P (c_mgr c) <> Some (At UStart).
Proof.
  intros c P sk qz md bk a f K PF FM B. destruct (k_boot _ _ _ _ _ _ _ K B) as (_ & B1 & B2 & B3). destruct (who_is c f) as [|[->|[->|[->|CN]]]]; try congruence. rewrite (B3 _ CN) in PF. discriminate.
Qed.
Lemma idle_inv : forall ans c v a, Inv c v a -> v_stage v = PIdle -> does ans c XCode v a.
Proof.
  intros ans c v a (P & md & S & CU & K & ST & HI) SG. rewrite SG in *. pose proof (still_upd _ _ _ _ _ _ _ _ UIdle ST eq_refl eq_refl eq_refl) as STL. destruct ST as (S1 & S2 & S3 & S4 & S5 & ST). cbn [stage_at made_of ended_of unlinked_of back_of] in *.
  destruct ST as [-> ST]. rewrite ST in *. pose proof (k_conf _ _ _ _ _ _ _ K) as CF. eqbs c CF.
  eapply (does_switch _ _ _ _ _ _ _ UIdle (upd P (c_idle c) (Some (At UIdle))) None a v); rewrite ?ST; auto.
  - unfold decide. rewrite SG. reflexivity.
  - cbn [astep]. rewrite CU, (k_idle _ _ _ _ _ _ _ K), Z.eqb_refl. reflexivity.
  - intros o OK. unfold yields. rewrite OK, ST. reflexivity.
  - apply sus_add; auto.
  - eapply (core_suspend c P (v_socks v) (v_quiesce v) None None None a); try reflexivity; auto; try discriminate.
    + unfold role. rewrite (proj2 (Z.eqb_neq (c_idle c) (c_main c))), (proj2 (Z.eqb_neq (c_idle c) (c_mgr c))), Z.eqb_refl by auto. auto.
    + apply (k_rnd _ _ _ _ _ _ _ K).
    + apply ready_upd; auto; [apply (k_ready _ _ _ _ _ _ _ K)|eapply run_not_ready; eauto|]. intros q X. inversion X. auto.
    + rewrite (proj2 (Z.eqb_neq (c_idle c) (c_mgr c))) by auto. auto.
    + eapply io_weaken; [apply (k_io _ _ _ _ _ _ _ K)|]. intros g wr [W|[_ W]]; [|discriminate]. left. unfold upd. destruct (Z.eqb_spec g (c_idle c)); congruence.
    + intros B. exfalso. eapply not_boot; eauto.
  - apply hist_still; [auto|congruence].
Qed.
(** A fiber waits. *)
Lemma unblocked_other : forall sk W m f s b' g wr, io_inv sk W m -> hget sk f = Some s -> g <> f -> unblocked sk m g wr -> unblocked sk (set_sock s b' m) g wr.
Proof.
  intros sk W m f s b' g wr IO F G U t b GT. cbn [set_sock io_socks]. rewrite hget_hset. destruct (Z.eqb_spec t s) as [->|]; [|eauto]. exfalso. apply G. eapply (n_inj _ _ _ IO); eauto.
Qed.
Lemma ready_wait : forall c P sk qz md m m' r f wr, ready_ok c P sk qz md m r -> P f = Some Run -> ~ In f (map who r) -> (forall g wr, g <> f -> unblocked sk m g wr -> unblocked sk m' g wr) ->
  (md = None \/ f = c_lis c /\ md = Some false /\ qz = true) -> ready_ok c (upd P f (Some (At (UWait wr)))) sk qz md m' r.
Proof.
  intros c P sk qz md m m' r f wr RO PF NI UB MD. destruct md as [t|].
  - destruct MD as [|(FL & T & Q)]; [discriminate|]. inversion T; subst t. destruct RO as (l & E & L1 & L2 & L3 & L4). exists l. split; [auto|]. split; [|split; [|split]].
    + intros g IN. destruct (L1 _ IN) as (A & w & B). split; [auto|]. exists w. rewrite upd_other; [auto|]. congruence.
    + intros g. unfold upd. destruct (g =? f); [discriminate|auto].
    + intros g. unfold upd. destruct (g =? f); [discriminate|auto].
    + intros g w. unfold upd. destruct (Z.eqb_spec g f) as [->|]; [auto|eauto].
  - destruct RO as (R1 & R2 & R3). split; [|split].
    + intros b g d e p IN. assert (G : g <> f). { intros ->. apply NI. apply in_map_iff. exists (b, (f, (d, e, p))). auto. }
      destruct (R1 _ _ _ _ _ IN) as [X Y]. split; [auto|]. rewrite upd_other by auto. destruct (P g) as [[[]| | | |]|]; auto. destruct Y. split; auto.
    + intros g. unfold upd. destruct (g =? f); [discriminate|auto].
    + intros g. unfold upd. destruct (g =? f); [discriminate|auto].
Qed.
Lemma wait_act : forall wr s b (a : ast (iost ep * unit)) f, hget (io_socks (fst (a_user a))) s = Some b -> ws_fib wr b = 0 ->
  let b1 := ws_set wr f b in let m1 := set_sock s b1 (fst (a_user a)) in let k := snd (arm s b1 (io_k m1)) in
  happly (on_fst (block epoll_block wr IO_CTX f s)) a =
  Some (if fst (arm s b1 (io_k m1)) =? 0 then (STATUS_SUCCESS, user_set (set_k k m1, tt) a)
        else (ERROR_PSOCK_EPOLL_CTL_FAILED, user_set (set_sock s (ws_set wr 0 b1) (set_k k m1), tt) a)).
Proof.
  intros wr s b a f G N b1 m1 k. unfold block. rewrite Z.eqb_refl. cbn [negb on_fst happly]. rewrite G. cbn [need]. rewrite N. cbn [Z.eqb negb on_fst happly]. rewrite happly_seq. unfold epoll_block. cbn [on_fst happly user_set a_user fst]. cbn [set_sock io_socks].
  rewrite hget_hset, Z.eqb_refl, G. cbn [need io_k]. fold b1. subst k m1. cbn [set_sock io_k]. destruct (arm s b1 (io_k (fst (a_user a)))) as [e k] eqn:AR. cbn [fst snd on_fst happly user_set a_user].
  destruct (Z.eqb_spec e 0); cbn [negb].
  - change (ok STATUS_SUCCESS) with true. cbv iota. cbn [on_fst happly]. destruct (a_user a) as [m []]. reflexivity.
  - change (ok ERROR_PSOCK_EPOLL_CTL_FAILED) with false. cbv iota. cbn [on_fst happly user_set a_user fst set_k io_socks]. cbn [set_sock io_socks]. rewrite hget_hset, Z.eqb_refl, G. cbn [need on_fst happly user_set]. destruct (a_user a) as [m []]. reflexivity.
Qed.
Lemma block_inv : forall ans c v a wr, Inv c v a -> v_stage v = PBlock wr -> does ans c XCode v a.
Proof.
  intros ans c v a wr (P & md & S & CU & K & ST & HI) SG. rewrite SG in *. pose proof (still_upd _ _ _ _ _ _ _ _ (UWait wr) ST eq_refl eq_refl eq_refl) as STL. pose proof ST as (S1 & S2 & S3 & S4 & S5 & SA). cbn [stage_at made_of ended_of unlinked_of back_of] in *.
  destruct SA as (MD & (U1 & U2) & SK & WR). pose proof (k_conf _ _ _ _ _ _ _ K) as CF. eqbs c CF. destruct (sock_of _ _ _ _ _ _ _ _ K SK) as (s & b & SF & SB & WF). pose proof (k_io _ _ _ _ _ _ _ K) as KI.
  assert (W0 : forall w, ws_fib w b = 0). { intros w. destruct (WF w) as [|[_ [W|[_ W]]]]; [auto|congruence|discriminate]. }
  pose proof (run_not_ready _ _ _ _ _ _ _ _ K S1) as NR. set (f := v_cur v) in *.
  set (b1 := ws_set wr f b). set (m1 := set_sock s b1 (fst (a_user a))). set (k := snd (arm s b1 (io_k m1))).
  assert (UO : forall g w, g <> f -> unblocked (v_socks v) (fst (a_user a)) g w -> unblocked (v_socks v) m1 g w) by (intros; eapply unblocked_other; eauto).
  assert (I1 : forall W' : Z -> bool -> Prop, W' f wr -> (forall g w, g <> f -> waits P None g w -> W' g w) -> io_inv (v_socks v) W' (set_k k m1)).
  { intros W' X Y. eapply (io_set _ _ m1 s b1).
    - eapply (io_note _ _ W' _ f s b b1); eauto; [apply ws_fd_set|]. intros w. unfold b1. rewrite ws_fib_set. destruct (Bool.eqb w wr) eqn:E; [|auto]. apply Bool.eqb_prop in E. subst w. auto.
    - unfold m1. cbn [set_sock io_socks]. rewrite hget_hset, Z.eqb_refl, SB. auto.
    - apply arm_set. }
  assert (AS : astep true (lib ans) (isop (c_disc c) (IWait wr s)) a = resume (Some (if fst (arm s b1 (io_k m1)) =? 0 then (STATUS_SUCCESS, user_set (set_k k m1, tt) a)
        else (ERROR_PSOCK_EPOLL_CTL_FAILED, user_set (set_sock s (ws_set wr 0 b1) (set_k k m1), tt) a)))).
  { cbn [isop]. unfold lib. rewrite yield_io by apply (k_disc _ _ _ _ _ _ _ K). cbn [pl_wait epoll_plat]. rewrite CU. fold f. rewrite (wait_act wr s b) by auto. reflexivity. }
  assert (F0 : f <> 0) by (eapply live_nonnull; [exact K|congruence]).
  destruct (fst (arm s b1 (io_k m1)) =? 0).
  - eapply (does_switch _ _ _ _ _ _ _ (UWait wr) (upd P f (Some (At (UWait wr)))) md _ v); [|exact AS| | | | |].
    + unfold decide. rewrite SG. fold f. rewrite SF. reflexivity.
    + intros o OK. unfold yields. rewrite OK. reflexivity.
    + apply sus_add; auto.
    + eapply (core_suspend c P (v_socks v) (v_quiesce v) md md None a); try reflexivity; auto; cbn [user_set a_ready a_user a_mgmt fst]; try discriminate.
      * unfold role. destruct (Z.eqb_spec f (c_main c)) as [FM|FM]; [rewrite WR by auto; destruct MD as [|(X & _)]; [auto|congruence]|]. rewrite (proj2 (Z.eqb_neq f (c_mgr c))), (proj2 (Z.eqb_neq f (c_idle c))) by auto.
        destruct (Z.eqb_spec f (c_lis c)); [rewrite WR by auto; auto|auto].
      * intros FM. right. destruct MD as [|(X & _)]; [auto|congruence].
      * apply (k_rnd _ _ _ _ _ _ _ K).
      * eapply ready_wait; eauto. apply (k_ready _ _ _ _ _ _ _ K).
      * rewrite (proj2 (Z.eqb_neq f (c_mgr c))) by auto. auto.
      * apply I1; [left; apply upd_same|]. intros g w G [W|[_ W]]; [|discriminate]. left. rewrite upd_other; auto.
      * intros B. apply (k_boot _ _ _ _ _ _ _ K B).
    + exact STL.
    + apply hist_still; [auto|congruence].
  - eapply does_call; [unfold decide; rewrite SG; fold f; rewrite SF; reflexivity|rewrite AS; reflexivity|reflexivity|].
    cbn [fst]. exists P, md. cbn [at_stage v_cur v_socks v_quiesce v_stage user_set a_cur a_user fst]. fold f.
    assert (BK : back_of (failed c f ERROR_PSOCK_EPOLL_CTL_FAILED) = None) by (unfold failed; destruct (f =? c_main c); auto).
    rewrite BK. split; [exact S|]. split; [auto|]. split; [|split].
    + assert (SB2 : hget (io_socks (set_k k m1)) s = Some b1) by (unfold m1; cbn [set_k set_sock io_socks]; rewrite hget_hset, Z.eqb_refl, SB; auto).
      assert (I2 : io_inv (v_socks v) (fun g w => waits P None g w \/ g = f) (set_k k m1)) by (apply I1; auto).
      apply (core_io c P (v_socks v) _ (v_quiesce v) md None None a); auto; [| |apply (k_has _ _ _ _ _ _ _ K)|apply (k_own _ _ _ _ _ _ _ K)].
      * eapply io_note; eauto; [rewrite ws_fd_set; auto| |intros g w G [|]; [auto|congruence]]. unfold b1. rewrite ws_set_undo by auto. auto.
      * eapply ready_io; [apply (k_ready _ _ _ _ _ _ _ K)|]. intros g w PG _ UB. assert (G : g <> f) by congruence. eapply unblocked_other; eauto.
    + split; [auto|]. split; [auto|]. unfold failed in *. destruct (Z.eqb_spec f (c_main c)) as [FM|FM]; do 3 (split; [auto|]); cbn [stage_at].
      * split; [auto|]. discriminate.
      * auto.
    + eapply hist_same; eauto.
Qed.
(** A fiber goes on after its wait. *)
Lemma core_quiesce : forall c P sk qz md bk a, core c P sk qz md bk a -> core c P sk true md bk a.
Proof.
  intros c P sk qz md bk a K. destruct K. constructor; auto. destruct md as [t|]; [|exact k_ready]. destruct k_ready as (l & E & L1 & L2 & L3 & L4). exists l. do 4 (split; [auto|]). intros f wr PF. destruct (L4 _ _ PF) as [|(A & B & C)]; auto.
Qed.
Lemma back_inv : forall ans c v a wr d ev, Inv c v a -> v_stage v = PBack wr d ev -> does ans c XCode v a.
Proof.
  intros ans c v a wr d ev (P & md & S & CU & K & ST & HI) SG. rewrite SG in *. pose proof ST as (S1 & S2 & S3 & S4 & S5 & SA). cbn [stage_at made_of ended_of unlinked_of back_of] in *.
  destruct SA as (MD & (U1 & U2) & SK & WR). pose proof (k_conf _ _ _ _ _ _ _ K) as CF. eqbs c CF. destruct (sock_of _ _ _ _ _ _ _ _ K SK) as (s & b & SF & SB & WF). pose proof (k_io _ _ _ _ _ _ _ K) as KI.
  set (f := v_cur v) in *. set (m1 := set_sock s (ws_set wr 0 b) (fst (a_user a))).
  assert (K' : core c P (v_socks v) (v_quiesce v) md None (user_set (m1, tt) a)).
  { eapply (core_io c P (v_socks v) _ (v_quiesce v) md (Some wr) None a); auto; [| |apply (k_has _ _ _ _ _ _ _ K)|apply (k_own _ _ _ _ _ _ _ K)].
    - eapply io_note; eauto; [apply ws_fd_set| |].
      + intros w. rewrite ws_fib_set. destruct (Bool.eqb w wr) eqn:E; [auto|]. destruct (WF w) as [|[_ [W|[_ W]]]]; [auto|congruence|]. inversion W; subst. rewrite Bool.eqb_reflx in E. discriminate.
      + intros g w G [W|[W _]]; [left; auto|]. apply S2 in W. congruence.
    - eapply ready_io; [apply (k_ready _ _ _ _ _ _ _ K)|]. intros g w PG _ UB. eapply unblocked_other; eauto. congruence. }
  assert (AS : astep true (lib ans) (isop (c_disc c) (IBack wr s)) a = Some ((STATUS_SUCCESS, nowhere), user_set (m1, tt) a)).
  { cbn [isop astep]. replace (lib ans (if wr then FN_IO_WRITE_BACK else FN_IO_READ_BACK) 0 (a_cur a) s) with (@on_fst (iost ep) unit (back wr s)) by (destruct wr; reflexivity).
    unfold back. cbn [on_fst happly]. rewrite SB. cbn [need on_fst happly]. fold m1. destruct (a_user a) as [m []]. reflexivity. }
  eapply does_call; [unfold decide; rewrite SG; fold f; rewrite SF; reflexivity|exact AS|reflexivity|].
  unfold block_result. destruct MD as [[-> ->]|(t & -> & -> & ->)].
  - rewrite Z.eqb_refl. change (negb (ok STATUS_SUCCESS)) with false. cbv iota. exists P, None. cbn [at_stage v_cur v_socks v_quiesce v_stage user_set a_cur a_user fst]. fold f.
    destruct wr; cbn [back_of]; (split; [exact S|]; split; [auto|]; split; [auto|]; split; [|eapply hist_same; eauto]); (do 5 (split; [auto|])); cbn [stage_at].
    + split; [auto|]. split; [|auto]. unfold conn_of. repeat split; auto; intros X; [assert (true = false) by auto|assert (true = false) by auto]; discriminate.
    + auto.
  - assert (FM : f <> c_main c). { intros FM. pose proof (k_role _ _ _ _ _ _ _ K f) as R. rewrite S1, FM in R. unfold role in R. rewrite Z.eqb_refl in R. discriminate. }
    change (MANAGEMENT_ID =? IO_ID) with false. cbv iota.
    assert (CL : forall e, ok e = false -> Inv c (at_stage (if negb (ok e) then failed c f e else if wr then PWrite else PRead) v) (user_set (m1, tt) a)).
    { intros e OK. rewrite OK. cbn [negb]. unfold failed. rewrite (proj2 (Z.eqb_neq f (c_main c))) by auto. exists P, (Some t). cbn [at_stage v_cur v_socks v_quiesce v_stage user_set a_cur a_user fst back_of]. fold f.
      split; [exact S|]. split; [auto|]. split; [auto|]. split; [|eapply hist_same; eauto]. do 5 (split; [auto|]). cbn [stage_at]. auto. }
    unfold unexpected. destruct (Z.eqb_spec f (c_lis c)) as [FL|FL].
    + destruct t.
      * change ((MANAGEMENT_ID =? MANAGEMENT_ID) && (request_event true =? MGMT_QUIESCE)) with false. cbv iota. change (ok ERROR_FIBER_INVALID_STATE) with false. cbv iota. apply CL. reflexivity.
      * change ((MANAGEMENT_ID =? MANAGEMENT_ID) && (request_event false =? MGMT_QUIESCE)) with true. cbv iota. change (ok STATUS_SUCCESS) with true. cbv iota.
        exists P, (Some false). cbn [at_stage quiesced v_cur v_socks v_quiesce v_stage user_set a_cur a_user fst back_of]. fold f. split; [exact S|]. split; [auto|]. split; [eapply core_quiesce; exact K'|]. split.
        -- do 5 (split; [auto|]). cbn [stage_at]. auto 8.
        -- destruct HI as (A & B & C). split; [auto|]. split; [auto|]. intros R M. discriminate.
    + change (ok ERROR_FIBER_NO_UNEXPECTED_HANDLER) with false. cbv iota. apply CL. reflexivity.
Qed.
