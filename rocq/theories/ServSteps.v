(** Lemmas for C65: every step keeps the server's invariant. *)
From Verif Require Import Base Status MemModel MemProofs Heap TabModel TabSpec TabProofs SchedModel SchedSpec SchedProofs SchedHist MsgModel CondSpec IoModel IoSpec IoProofs ServModel ServSpec ServInv ServSwitch.

Definition aview (a : ast (iost ep * unit)) : view := View (map who (a_ready a)) (addrs (a_life a)) (io_socks (fst (a_user a))).
Lemma ready_io : forall c P sk sk' qz md m m' r, ready_ok c P sk qz md m r ->
  (forall f wr, P f = Some (At (UWait wr)) -> In f (map who r) -> unblocked sk m f wr -> unblocked sk' m' f wr) -> ready_ok c P sk' qz md m' r.
Proof.
  intros c P sk sk' qz md m m' r RO H. destruct md as [t|]; [exact RO|]. destruct RO as (R1 & R2 & R3). split; [|auto].
  intros b f d e p IN. destruct (R1 _ _ _ _ _ IN) as [X Y]. split; [auto|]. destruct (P f) as [[[]| | | |]|] eqn:PF; auto. destruct Y as [Y1 Y2]. split; [auto|]. apply H; auto. apply in_map_iff. exists (b, (f, (d, e, p))). auto.
Qed.
Lemma core_io : forall c P sk sk' qz md bk bk' a m', core c P sk qz md bk a -> io_inv sk' (waits P bk') m' -> ready_ok c P sk' qz md m' (a_ready a) ->
  (forall f, has_sock c sk' f (P f)) -> hget sk' (c_main c) = Some (c_sig c) /\ hget sk' (c_mgr c) = None /\ hget sk' (c_idle c) = None -> core c P sk' qz md bk' (user_set (m', tt) a).
Proof. intros c P sk sk' qz md bk bk' a m' K I R H O. destruct K. constructor; unfold user_set; cbn [a_ready a_life a_known a_idle a_mgmt a_al a_discs a_user fst]; auto. Qed.
Lemma run_not_ready : forall c P sk qz md bk a f, core c P sk qz md bk a -> P f = Some Run -> ~ In f (map who (a_ready a)).
Proof.
  intros c P sk qz md bk a f K PG IN. pose proof (k_ready _ _ _ _ _ _ _ K) as RO. apply in_map_iff in IN as ([b [g [[d e] p]]] & E & IN). cbn in E. subst g. destruct md as [t|].
  - destruct RO as (l & E & L1 & _). rewrite E in IN. apply in_app_or in IN as [IN|[IN|[]]].
    + apply in_map_iff in IN as (g & E' & IN). inversion E'; subst. destruct (L1 _ IN) as (_ & wr & X). congruence.
    + inversion IN; subst. destruct (role_main _ _ _ (k_role _ _ _ _ _ _ _ K (c_main c))) as [[X Y]|[[X Y]|(t' & X & Y)]]; congruence.
  - destruct RO as (R1 & _). destruct (R1 _ _ _ _ _ IN) as [_ X]. rewrite PG in X. auto.
Qed.
(** The running fiber [f] is suspended. *)
Lemma core_suspend : forall c P sk qz md md' bk a a' f q, core c P sk qz md bk a -> P f = Some Run -> q <> UStart ->
  role c md' f (Some (At q)) -> (f = c_main c -> P (c_mgr c) <> Some (At UStart) \/ md' = None) -> (f <> c_main c -> md' = md) -> has_sock c sk f (Some (At q)) ->
  NoDup (map who (a_ready a')) -> ready_ok c (upd P f (Some (At q))) sk qz md' (fst (a_user a')) (a_ready a') ->
  a_mgmt a' = (if f =? c_mgr c then match q with URecv => c_mgr c | _ => 0 end else a_mgmt a) ->
  io_inv sk (waits (upd P f (Some (At q))) None) (fst (a_user a')) ->
  (P (c_mgr c) = Some (At UStart) -> map who (a_ready a') = [c_mgr c; c_lis c]) ->
  a_life a' = a_life a -> a_known a' = a_known a -> a_idle a' = a_idle a -> a_al a' = a_al a -> a_discs a' = a_discs a ->
  core c (upd P f (Some (At q))) sk qz md' None a'.
Proof.
  intros c P sk qz md md' bk a a' f q K PF QS RL RM RO1 HS RN RO MG IO BT E1 E2 E3 E4 E5. pose proof (k_conf _ _ _ _ _ _ _ K) as CF. eqbs c CF.
  destruct K. constructor; rewrite ?E1, ?E2, ?E3, ?E4, ?E5; auto.
  - intros g. rewrite k_life. unfold upd. destruct (Z.eqb_spec g f) as [->|]; [|auto]. rewrite PF. destruct q; auto; congruence.
  - intros g. rewrite k_known. unfold upd. destruct (Z.eqb_spec g f) as [->|]; [|tauto]. rewrite PF. cbn. tauto.
  - rewrite MG. unfold upd. destruct (Z.eqb_spec f (c_mgr c)) as [->|]; [rewrite Z.eqb_refl; destruct q; auto|]. rewrite (proj2 (Z.eqb_neq (c_mgr c) f)) by auto. auto.
  - intros g. unfold upd. destruct (Z.eqb_spec g f) as [->|]; [auto|]. destruct (Z.eq_dec f (c_main c)) as [FM|FM].
    + eapply role_other; [congruence| |eauto]. intros X ->. destruct (RM FM); [congruence|auto].
    + rewrite RO1 by auto. auto.
  - intros g. unfold upd. destruct (Z.eqb_spec g f) as [->|]; [exact HS|auto].
  - unfold upd. destruct (Z.eqb_spec (c_mgr c) f) as [->|N]; [congruence|]. intros B. destruct (k_boot B) as (B1 & B2 & B3 & B4). split; [auto|].
    destruct (Z.eqb_spec (c_lis c) f) as [<-|]; [congruence|]. destruct (Z.eqb_spec (c_idle c) f) as [<-|]; [congruence|]. do 2 (split; [auto|]). intros g CN. destruct (Z.eqb_spec g f) as [->|]; [|auto]. rewrite (B4 f CN) in PF. discriminate.
Qed.
Lemma sus_add : forall P v f q, sus_ok P v -> P f = Some Run \/ P f = Some Made -> f <> 0 -> sus_ok (upd P f (Some (At q))) (suspended f q v).
Proof.
  intros P v f q [S1 S2] PF F0. split; cbn [suspended v_sus].
  - intros g. rewrite hget_hadd. unfold upd. destruct (g =? f); [reflexivity|apply S1].
  - apply hadd_wf; auto. rewrite S1. destruct PF as [-> | ->]; reflexivity.
Qed.
Lemma sus_same : forall P v v', sus_ok P v -> v_sus v' = v_sus v -> sus_ok P v'.
Proof. intros P v v' [S1 S2] E. split; rewrite E; auto. Qed.
(** While [f] runs and no fiber is made or ended, all other places are still. *)
Lemma still_upd : forall c P sk qz md m f st q, stage_ok c P sk qz md m f st -> made_of st = None -> ended_of st = None -> unlinked_of st = None -> still (upd P f (Some (At q))).
Proof.
  intros c P sk qz md m f st q (A & B & C & D & E & _) E1 E2 E3 g. unfold upd. destruct (Z.eqb_spec g f) as [->|N]; [repeat split; discriminate|].
  rewrite E1 in C. rewrite E2 in D. rewrite E3 in E. repeat split; intros X; [apply B in X; auto|apply C in X; discriminate|apply D in X; discriminate|apply E in X; discriminate].
Qed.
(** Steps of the fiber's own. *)
Lemma restage : forall c v a st', Inv c v a -> back_of (v_stage v) = None -> back_of st' = None ->
  made_of (v_stage v) = made_of st' -> ended_of (v_stage v) = ended_of st' -> unlinked_of (v_stage v) = unlinked_of st' ->
  (forall P md, core c P (v_socks v) (v_quiesce v) md None a -> stage_ok c P (v_socks v) (v_quiesce v) md (fst (a_user a)) (v_cur v) (v_stage v) -> hist c P md v -> stage_at c P (v_socks v) (v_quiesce v) md (fst (a_user a)) (v_cur v) st') -> Inv c (at_stage st' v) a.
Proof.
  intros c v a st' (P & md & S & CU & K & ST & HI) B1 B2 E1 E2 E3 H. rewrite B1 in K. specialize (H P md K ST HI). exists P, md. cbn [at_stage v_cur v_socks v_quiesce v_stage]. rewrite B2.
  split; [exact S|]. split; [auto|]. split; [auto|]. split; [|exact HI]. destruct ST as (A & B & C & D & E & _). unfold stage_ok. rewrite <- E1, <- E2, <- E3. auto 6.
Qed.

(** ** Steps without a call *)
Definition does (ans : Z -> list kans) (c : conf) (x : input) (v : serv) (a : ast (iost ep * unit)) : Prop :=
  exists v' a', step (astep true (lib ans)) c x (v, a) = Some (v', a') /\ Inv c v' a'.
Lemma does_own : forall ans c x v a v', decide c x v = Some (Own v') -> Inv c v' a -> does ans c x v a.
Proof. intros ans c x v a v' D I. exists v', a. unfold step. cbn [fst snd]. rewrite D. auto. Qed.
Lemma does_call : forall ans c x v a p k o a' v', decide c x v = Some (Call p k) -> astep true (lib ans) p a = Some (o, a') -> k o = Some v' -> Inv c v' a' -> does ans c x v a.
Proof. intros ans c x v a p k o a' v' D A K I. exists v', a'. unfold step. cbn [fst snd]. rewrite D, A, K. auto. Qed.
Lemma thread_inv : forall ans c v a, Inv c v a -> decide c XThread v <> None -> does ans c XThread v a.
Proof.
  intros ans c v a (P & md & S & CU & K & ST & HI) D.
  assert (E : decide c XThread v = match v_thr v with TWait => Some (Own (with_chan TSleep (v_chan v ++ [Quiesce]) v)) | TSleep => Some (Own (with_chan TEnd (v_chan v ++ [Terminate]) v)) | TEnd => None end) by (unfold decide; destruct (v_stage v); reflexivity).
  rewrite E in D. destruct (v_thr v) eqn:TH; [| |congruence]; (eapply does_own; [exact E|]); exists P, md; (split; [exact S|]); (split; [exact CU|]); (split; [exact K|]); (split; [exact ST|]);
    destruct HI as (A & B & C); unfold hist, read_first, read_second in *; cbn [with_chan v_thr v_chan v_quiesce]; rewrite TH in *; destruct (v_chan v) as [|[] [|[] l]]; try contradiction; cbn [app]; (split; [exact Logic.I|]).
  - split; [|intros []]. intros t M. destruct (B t M) as [[] _].
  - split; [|auto]. intros t M. split; [auto|]. intros T. destruct (B t M) as [_ X]. destruct (X T). discriminate.
  - split; [|intros []]. intros t M. destruct (B t M) as [[] _].
Qed.
Lemma aview_sock : forall a fd s, fresh_sock fd s (aview a) -> s <> 0 /\ hget (io_socks (fst (a_user a))) s = None /\ (forall t b, hget (io_socks (fst (a_user a))) t = Some b -> ws_fd b <> fd).
Proof. intros a fd s (A & B & C). split; [auto|]. split; [apply hget_none; exact B|exact C]. Qed.
Lemma run_user : forall c P f, (forall g, P g = Some Run -> g = f) -> P f = Some Run -> f <> c_mgr c /\ f <> c_idle c -> f = c_main c \/ f = c_lis c \/ conn_of c f.
Proof. intros c P f U R [A B]. destruct (who_is c f) as [|[|[|[|]]]]; tauto. Qed.
Lemma read_inv : forall ans c v a r, Inv c v a -> v_stage v = PRead -> allowed true ans (XAnswer r) v (aview a) -> decide c (XAnswer r) v <> None -> does ans c (XAnswer r) v a.
Proof.
  intros ans c v a r IN SG AL D. unfold decide in D. rewrite SG in D. unfold allowed in AL. rewrite SG in AL.
  assert (E : decide c (XAnswer r) v = match v_stage v with PRead => if v_cur v =? c_main c then None else if v_cur v =? c_lis c then
      match r with Again => Some (Own (at_stage (PBlock false) v)) | Gone => Some (Own (at_stage PClose v)) | Conn fd s g => Some (Own (if v_quiesce v then v else at_stage (PMake fd s g) v)) | Done => None end
    else match r with Again => Some (Own (at_stage (PBlock false) v)) | Done => Some (Own (at_stage PWrite v)) | Gone => Some (Own (at_stage PClose v)) | Conn _ _ _ => None end | _ => None end) by (unfold decide; rewrite SG; reflexivity).
  rewrite SG in E. destruct (Z.eqb_spec (v_cur v) (c_main c)) as [|FM]; [congruence|]. destruct (Z.eqb_spec (v_cur v) (c_lis c)) as [FL|FL]; destruct r; try congruence; (eapply does_own; [exact E|]).
  - apply restage; rewrite ?SG; auto. intros P md K (_ & _ & _ & _ & _ & ST) _. cbn [stage_at] in *. tauto.
  - apply restage; rewrite ?SG; auto. intros P md K (_ & _ & _ & _ & _ & ST) _. cbn [stage_at] in *. tauto.
  - destruct (v_quiesce v) eqn:Q; [auto|]. apply restage; rewrite ?SG; auto. intros P md K (_ & _ & _ & _ & _ & ST) _. cbn [stage_at] in *. destruct AL as (AL & F0 & FN).
    destruct ST as (S1 & S2 & S3). split; [auto|]. split; [auto|]. split; [auto|]. split; [auto|]. split; [auto|]. split; [|apply aview_sock; auto].
    pose proof (k_life _ _ _ _ _ _ _ K f) as L. cbn [aview i_fibs] in FN. rewrite (proj2 (hget_none _ _) FN) in L. destruct (P f) as [[[]| | | |]|]; cbn in L; auto; discriminate.
  - apply restage; rewrite ?SG; auto. intros P md K (_ & _ & _ & _ & _ & ST) _. cbn [stage_at] in *. tauto.
  - apply restage; rewrite ?SG; auto. intros P md K (_ & _ & _ & _ & _ & ST) _. cbn [stage_at] in *. unfold conn_of. tauto.
  - apply restage; rewrite ?SG; auto. intros P md K (_ & _ & _ & _ & _ & ST) _. cbn [stage_at] in *. tauto.
Qed.
Lemma write_inv : forall ans c v a r, Inv c v a -> v_stage v = PWrite -> decide c (XAnswer r) v <> None -> does ans c (XAnswer r) v a.
Proof.
  intros ans c v a r IN SG D. destruct (decide c (XAnswer r) v) as [y|] eqn:E; [|congruence]. unfold decide in E. rewrite SG in E. 
  destruct r; inversion E; subst; (eapply does_own; [unfold decide; rewrite SG; reflexivity|]); apply restage; rewrite ?SG; auto; intros P md K (_ & _ & _ & _ & _ & ST) _; cbn [stage_at] in *; unfold conn_of in *; tauto.
Qed.
Lemma open_inv : forall ans c v a, Inv c v a -> v_stage v = POpen -> does ans c (XAnswer Gone) v a.
Proof.
  intros ans c v a IN SG. eapply does_own; [unfold decide; rewrite SG; reflexivity|]. apply restage; rewrite ?SG; auto. intros P md K (_ & _ & _ & _ & _ & ST) _. cbn [stage_at] in *.
  eqbs c (k_conf _ _ _ _ _ _ _ K). destruct ST as (S1 & S2 & S3). rewrite S2 in *. auto.
Qed.
Lemma event_inv : forall ans c v a d ev p, Inv c v a -> v_stage v = PEvent d ev p -> (d =? MANAGEMENT_ID) && (ev =? MGMT_FIBER_STOP) = false -> does ans c XCode v a.
Proof.
  intros ans c v a d ev p IN SG E. eapply does_own; [unfold decide; rewrite SG, E; reflexivity|]. apply restage; rewrite ?SG; auto; [cbn [ended_of]; rewrite E; auto|].
  intros P md K (_ & _ & _ & _ & _ & ST) _. cbn [stage_at] in *. tauto.
Qed.
Lemma calm_inv : forall ans c v a, Inv c v a -> v_stage v = PRead -> v_cur v = c_main c -> v_chan v = [] -> does ans c XCode v a.
Proof.
  intros ans c v a IN SG CU CH. eapply does_own; [unfold decide; rewrite SG, CU, CH, Z.eqb_refl; reflexivity|]. apply restage; rewrite ?SG; auto.
  intros P md K (_ & _ & _ & _ & _ & ST) _. cbn [stage_at] in *. tauto.
Qed.
