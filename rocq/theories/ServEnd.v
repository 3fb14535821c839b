(** Lemmas for C65: what the invariant says once a message was read, and how many steps a request
    to all fibers takes. *)
From Verif Require Import Base Status MemModel MemProofs Heap TabModel TabSpec TabProofs SchedModel SchedSpec SchedProofs SchedHist MsgModel CondSpec IoModel IoSpec IoProofs ServModel ServSpec ServInv ServSwitch ServSteps ServCalls ServWaits ServRound ServReach.

(** ** What is left *)
Lemma live_at : forall c P sk qz md bk a f, core c P sk qz md bk a -> In f (addrs (a_life a)) -> P f <> None.
Proof. intros c P sk qz md bk a f K I. destruct (addr_get _ _ _ I) as (x & X). rewrite (k_life _ _ _ _ _ _ _ K) in X. intros E. rewrite E in X. discriminate. Qed.
Lemma at_live : forall c P sk qz md bk a f, core c P sk qz md bk a -> P f <> None -> In f (addrs (a_life a)).
Proof. intros c P sk qz md bk a f K I. pose proof (k_life _ _ _ _ _ _ _ K f) as L. destruct (P f) as [[[]| | | |]|]; try congruence; cbn in L; eapply hget_in; eauto. Qed.
Lemma sock_owner : forall c P sk qz md bk a s, core c P sk qz md bk a -> In s (addrs (io_socks (fst (a_user a)))) -> exists f, hget sk f = Some s /\ P f <> None.
Proof.
  intros c P sk qz md bk a s K I. destruct (addr_get _ _ _ I) as (b & B). destruct (n_owner _ _ _ (k_io _ _ _ _ _ _ _ K) _ _ B) as (f & F). exists f. split; [auto|].
  intros E. pose proof (k_has _ _ _ _ _ _ _ K f) as H. rewrite E in H. cbn in H. congruence.
Qed.
Lemma not_asking : forall c P v md sk qz bk a, core c P sk qz md bk a -> sus_ok P v -> ~ asking c v -> md = None.
Proof.
  intros c P v md sk qz bk a K [S _] N. pose proof (k_role _ _ _ _ _ _ _ K (c_main c)) as R. apply role_main in R as [[_ R]|[[_ R]|(t & R & _)]]; auto. exfalso. apply N. exists t. rewrite S, R. auto.
Qed.
Lemma is_asking : forall c P v md sk qz bk a, core c P sk qz md bk a -> sus_ok P v -> asking c v -> exists t, md = Some t /\ P (c_main c) = Some (At (UReq t)).
Proof.
  intros c P v md sk qz bk a K [S _] (t & N). rewrite S in N. exists t. pose proof (k_role _ _ _ _ _ _ _ K (c_main c)) as R. apply role_main in R as [[R _]|[[R _]|(t' & R & M)]]; rewrite R in N; cbn in N; try discriminate. inversion N; subst. auto.
Qed.
Lemma inv_quiesced : forall c v a, Inv c v a -> read_first v -> ~ asking c v ->
  (forall f, In f (i_fibs (aview a)) -> f = c_main c \/ f = c_mgr c \/ f = c_lis c \/ f = c_idle c) /\
  (forall s, In s (addrs (i_socks (aview a))) -> s = c_sig c \/ hget (v_socks v) (c_lis c) = Some s) /\
  (In (c_lis c) (i_fibs (aview a)) -> v_quiesce v = true).
Proof.
  intros c v a (P & md & S & CU & K & ST & HI) RF NA. pose proof (not_asking _ _ _ _ _ _ _ _ K S NA) as ->. destruct HI as (_ & _ & HI). destruct (HI RF eq_refl) as [H1 H2].
  assert (A : forall f, P f <> None -> f = c_main c \/ f = c_mgr c \/ f = c_lis c \/ f = c_idle c). { intros f F. destruct (who_is c f) as [|[|[|[|CN]]]]; auto. exfalso. apply F. auto. }
  split; [|split].
  - intros f F. apply A. eapply live_at; eauto.
  - intros s I. destruct (sock_owner _ _ _ _ _ _ _ _ K I) as (f & F & PF). destruct (k_own _ _ _ _ _ _ _ K) as (O1 & O2 & O3). destruct (A _ PF) as [->|[->|[->| ->]]]; [left|..]; try congruence. auto.
  - intros L. apply H2. eapply live_at; eauto.
Qed.
Lemma inv_left : forall c v a, Inv c v a -> v_stage v = PLeft STATUS_SUCCESS ->
  (forall f, In f (i_fibs (aview a)) <-> f = c_main c \/ f = c_mgr c \/ f = c_idle c) /\ (forall s, In s (addrs (i_socks (aview a))) <-> s = c_sig c) /\ a_known a = [c_mgr c].
Proof.
  intros c v a (P & md & S & CU & K & ST & HI) SG. rewrite SG in *. destruct ST as (_ & _ & _ & _ & _ & ST). cbn [stage_at] in ST. destruct ST as [_ ST]. specialize (ST eq_refl).
  pose proof (k_conf _ _ _ _ _ _ _ K) as CF. eqbs c CF. pose proof (k_role _ _ _ _ _ _ _ K) as R.
  assert (PM : P (c_main c) <> None) by (destruct (role_main _ _ _ (R (c_main c))) as [[-> _]|[[-> _]|(t & -> & _)]]; discriminate).
  assert (PG : P (c_mgr c) = Some Run \/ exists q, P (c_mgr c) = Some (At q)) by (destruct (role_mgr _ _ _ CF (R (c_mgr c))) as [->|[->|[-> _]]]; eauto).
  assert (PI : P (c_idle c) <> None) by (destruct (role_idle _ _ _ CF (R (c_idle c))) as [->|[->| ->]]; discriminate).
  destruct (k_own _ _ _ _ _ _ _ K) as (O1 & O2 & O3). split; [|split].
  - intros f. split; [intros I; apply ST; eapply live_at; eauto|]. intros [->|[->| ->]]; eapply at_live; eauto. destruct PG as [->|(q & ->)]; discriminate.
  - intros s. split.
    + intros I. destruct (sock_owner _ _ _ _ _ _ _ _ K I) as (f & F & PF). destruct (ST _ PF) as [->|[->| ->]]; congruence.
    + intros ->. destruct (n_sock _ _ _ (k_io _ _ _ _ _ _ _ K) _ _ O1) as (b & B & _). eapply hget_in; eauto.
  - pose proof (k_known _ _ _ _ _ _ _ K) as KN. pose proof (k_nd _ _ _ _ _ _ _ K) as ND.
    assert (U : forall f, In f (a_known a) -> f = c_mgr c). { intros f F. apply KN in F as (F1 & F2 & F3). destruct (ST f) as [|[|]]; try congruence. intros E. rewrite E in F3. discriminate. }
    assert (IG : In (c_mgr c) (a_known a)) by (apply KN; repeat split; auto; destruct PG as [->|(q & ->)]; auto).
    destruct (a_known a) as [|x [|y t]]; [destruct IG|rewrite (U x); cbn; auto|]. exfalso. inversion ND as [|? ? N _]; subst. apply N. rewrite (U x), (U y) by (cbn; auto). left. auto.
Qed.
Lemma inv_told : forall c v a wr d ev, Inv c v a -> v_stage v = PBack wr d ev -> d <> IO_ID -> d = MANAGEMENT_ID /\ v_cur v <> c_main c /\ (ev = MGMT_QUIESCE /\ read_first v \/ ev = MGMT_TERMINATE /\ read_second v).
Proof.
  intros c v a wr d ev (P & md & S & CU & K & ST & HI) SG ND. rewrite SG in *. destruct ST as (S1 & _ & _ & _ & _ & ST). cbn [stage_at] in ST. destruct ST as ([[_ E]|(t & -> & -> & ->)] & _); [congruence|]. split; [auto|]. split.
  - intros FM. pose proof (k_role _ _ _ _ _ _ _ K (v_cur v)) as R. rewrite S1, FM in R. unfold role in R. rewrite Z.eqb_refl in R. discriminate.
  - destruct HI as (_ & HI & _). destruct (HI t eq_refl) as [H1 H2]. destruct t; [right|left]; auto.
Qed.

(** The main fiber leaves its loop well only after the second message. *)
Definition told_first (v : serv) : Prop := (forall f, In (f, UReq true) (v_sus v) -> read_second v) /\ (v_stage v = PLeft STATUS_SUCCESS -> read_second v).
Definition msgs_ok (v : serv) : Prop := match v_thr v, v_chan v with TWait, [] | TSleep, [Quiesce] | TSleep, [] | TEnd, [Quiesce; Terminate] | TEnd, [Terminate] | TEnd, [] => True | _, _ => False end.
Lemma inv_msgs : forall c v a, Inv c v a -> msgs_ok v.
Proof. intros c v a (P & md & _ & _ & _ & _ & HI). apply HI. Qed.
Lemma in_hdel : forall A (h : heap A) p x, In x (hdel h p) -> In x h.
Proof. induction h as [|[y z] t IH]; cbn [hdel]; intros p x H; [auto|]. destruct (p =? y); [right; auto|]. destruct H as [<-|H]; [left; auto|right; eauto]. Qed.
Lemma hget_pair : forall A (h : heap A) p x, hget h p = Some x -> In (p, x) h.
Proof. induction h as [|[y z] t IH]; cbn [hget]; intros p x H; [discriminate|]. destruct (Z.eqb_spec p y) as [->|]; [inversion H; left; auto|right; auto]. Qed.
Lemma told_resumed : forall c o v v', (forall f, In (f, UReq true) (v_sus v) -> read_second v) -> resumed c o v = Some v' -> told_first v'.
Proof.
  intros c [e [[[f d] ev] p]] v v' H E. unfold resumed in E. destruct (hget (v_sus v) f) as [q|] eqn:G; [|discriminate]. inversion E; subst. clear E. split; cbn [v_sus v_stage].
  - intros g I. exact (H g (in_hdel _ _ _ _ I)).
  - destruct q; cbn [wake]; try discriminate.
    + destruct (f =? c_mgr c), (f =? c_lis c), (f =? c_idle c); discriminate.
    + destruct (ok (request_result d ev p)) eqn:OK; cbn [negb].
      * destruct term; [intros _; exact (H f (hget_pair _ _ _ _ G))|discriminate].
      * intros X. inversion X as [Y]. rewrite Y in OK. discriminate.
Qed.
Lemma told_yields : forall c q p o v v', told_first v -> (forall e, p e = PLeft e \/ forall e', p e <> PLeft e') -> (q = UReq true -> read_second v) -> yields c q p o v = Some v' -> told_first v'.
Proof.
  intros c q p o v v' [H1 H2] HP HQ E. unfold yields in E. destruct (ok (fst o)) eqn:OK; cbn [negb] in E.
  - eapply told_resumed; [|exact E]. cbn [suspended v_sus]. intros f [X|X]; [inversion X; auto|exact (H1 f X)].
  - inversion E; subst. split; [exact H1|]. cbn [at_stage v_stage]. destruct (HP (fst o)) as [X|X]; [|intros Y; exfalso; eapply X; exact Y]. rewrite X. intros Y. inversion Y as [Z]. rewrite Z in OK. discriminate.
Qed.
Lemma told_at : forall v v', told_first v -> v_sus v' = v_sus v -> v_thr v' = v_thr v -> v_chan v' = v_chan v -> v_stage v' <> PLeft STATUS_SUCCESS -> told_first v'.
Proof. intros v v' [H1 H2] E1 E2 E3 E4. split; [|congruence]. unfold read_second in *. rewrite E1, E2, E3. auto. Qed.
Lemma told_step : forall W (ex : sop -> W -> option (out * W)) c x v w v' w', msgs_ok v -> told_first v -> step ex c x (v, w) = Some (v', w') -> told_first v'.
Proof.
  intros W ex c x v w v' w' M H E. unfold step in E. cbn [fst snd] in E. destruct (decide c x v) as [d|] eqn:D; [|discriminate].
  assert (TH : forall t l, x = XThread -> d = Own (with_chan t l v) -> v_thr v <> TEnd -> told_first v').
  { intros t l -> -> N. inversion E; subst. destruct H as [H1 H2]. split; cbn [with_chan v_sus v_stage]; [intros f I; destruct (H1 f I)|intros I; destruct (H2 I)]; congruence. }
  destruct x; [| | | |].
  5: { unfold decide in D. destruct (v_stage v), (v_thr v) eqn:T; inversion D; subst; eapply TH; eauto; congruence. }
  all: clear TH; unfold decide in D; destruct (v_stage v) eqn:SG; try discriminate; cbv zeta in D.
  Ltac own D E H := inversion D; subst; inversion E; subst; eapply told_at; [exact H|reflexivity|reflexivity|reflexivity|cbn; discriminate].
  Ltac call D E := inversion D; subst; match type of E with context [match ?e with Some _ => _ | None => _ end] => destruct e as [[o w1]|]; [|discriminate] end.
  Ltac calls D E H := call D E; inversion E; subst; eapply told_at; [exact H|reflexivity|reflexivity|reflexivity|cbn].
  Ltac yld E EE := match type of E with context [yields ?c ?q ?p ?o ?v] => destruct (yields c q p o v) eqn:EE; [|discriminate] end; inversion E; subst.
  - destruct (negb _); [discriminate|]. destruct (v_chan v) as [|m t] eqn:CH; [own D E H|]. call D E. yld E EE.
    set (v1 := with_chan (v_thr v) t v) in *.
    assert (X : forall P : Prop, (read_second v -> P)) by (intros P [_ R]; congruence).
    eapply (told_yields c _ _ o v1); [| |  |exact EE].
    + destruct H as [H1 H2]. split; [intros f I; apply (X _ (H1 f I))|]. intros I. apply (X _ (H2 I)).
    + auto.
    + destruct m; [discriminate|]. intros _. unfold read_second, v1. cbn [with_chan v_thr v_chan]. unfold msgs_ok in M. rewrite CH in M. destruct (v_thr v), t as [|[] [|]]; try contradiction; auto.
  - destruct (hget _ _); [|discriminate]. call D E. yld E EE. eapply told_yields; [exact H| | |exact EE]; [|discriminate]. intros e. unfold failed. destruct (_ =? _); [auto|right; intros e' X; discriminate X].
  - destruct (hget _ _); [|discriminate]. call D E. destruct (block_result _ _) as [e|].
    + inversion E; subst. destruct (ok e) eqn:OK; cbn [negb].
      * eapply told_at; [exact H|reflexivity|reflexivity|reflexivity|]. cbn. destruct wr; discriminate.
      * eapply told_at; [exact H|reflexivity|reflexivity|reflexivity|]. cbn. unfold failed. destruct (_ =? _); [|discriminate]. intros X. inversion X as [Y]. rewrite Y in OK. discriminate.
    + inversion E; subst. eapply told_at; [exact H|reflexivity|reflexivity|reflexivity|cbn; discriminate].
  - calls D E H. discriminate.
  - calls D E H. discriminate.
  - call D E. destruct (negb _); [discriminate|]. yld E EE. eapply told_yields; [| | |exact EE]; [|auto|discriminate]. destruct H as [H1 H2]. split; [|exact H2]. intros g [X|X]; [discriminate|exact (H1 g X)].
  - call D E. yld E EE. eapply told_yields; [exact H| | |exact EE]; [|discriminate]. right. intros e' X. discriminate X.
  - destruct (_ && _); [|own D E H]. calls D E H. destruct (negb _); discriminate.
  - calls D E H. discriminate.
  - call D E. yld E EE. eapply told_yields; [exact H| | |exact EE]; [|discriminate]. right. intros e' X. discriminate X.
  - calls D E H. discriminate.
  - destruct (hget _ _); [|discriminate]. calls D E H. discriminate.
  - call D E. destruct (negb _); [discriminate|]. destruct (resumed c o v) eqn:EE; [|discriminate]. inversion E; subst. eapply told_resumed; [|exact EE]. apply H.
  - destruct (_ =? _); [discriminate|]. destruct (_ =? _); destruct r; try discriminate; try (own D E H; fail). inversion D; subst; inversion E; subst. destruct (v_quiesce v); [exact H|]. eapply told_at; [exact H|reflexivity|reflexivity|reflexivity|cbn; discriminate].
  - destruct r; try discriminate; own D E H.
  - destruct r; try discriminate; own D E H.
  - calls D E H. discriminate.
  - calls D E H. destruct (negb _); discriminate.
Qed.
Lemma serves_told : forall T (ts : tops T) TR Q ans ctl c s, tab_ok ts TR Q -> good_conf c -> serves true ts Q ans ctl c s -> told_first (fst s).
Proof.
  intros T ts TR Q ans ctl c s PT CF S. induction S as [junk junk2 w0 os w C E|x v w [v' w'] S IH AL UL E].
  - split; [|discriminate]. cbn [fst serving v_sus]. intros f [X|[X|[X|[]]]]; discriminate.
  - destruct (serves_inv _ _ _ _ _ _ _ _ PT CF S) as (a & _ & IV). eapply told_step; [exact (inv_msgs _ _ _ IV)|exact IH|exact E].
Qed.

(** ** A request to all fibers comes back *)
Definition rank (p : stage) : nat := match p with PBack _ _ _ => 7 | PBlock _ => 6 | PClose => 5 | PReturn => 4 | PEvent _ _ _ => 3 | PFree _ => 2 | _ => 1 end.
Definition weight (v : serv) (a : ast (iost ep * unit)) : nat := 7 * length (a_ready a) + rank (v_stage v).
Definition back_in_main (c : conf) (v : serv) : Prop := v_cur v = c_main c /\ (v_stage v = PRead \/ v_stage v = PLeft STATUS_SUCCESS).
Lemma next_asked : forall c v (a : ast (iost ep * unit)) l t o v' a', a_ready a = map (told t) l ++ [answered c] -> hget (v_sus v) (c_main c) = Some (UReq t) -> (forall f, In f l -> f <> c_main c /\ exists wr, hget (v_sus v) f = Some (UWait wr)) -> hwf (v_sus v) ->
  resume (Some (STATUS_SUCCESS, a)) = Some (o, a') -> resumed c o v = Some v' -> back_in_main c v' \/ hget (v_sus v') (c_main c) = Some (UReq t) /\ length (a_ready a) = S (length (a_ready a')) /\ rank (v_stage v') = 7%nat.
Proof.
  intros c v a l t o v' a' R M L WF RS RE. unfold resume in RS. cbn in RS. rewrite R in RS. destruct l as [|f l]; cbn [map app] in RS.
  - left. unfold answered, go in RS. cbn [snd] in RS. destruct (hget (a_life a) (c_main c)); [|discriminate]. destruct (_ =? STOPPED); [discriminate|]. inversion RS; subst. unfold resumed in RE. rewrite M in RE. inversion RE; subst.
    split; [auto|]. cbn [v_stage wake]. change (request_result MANAGEMENT_ID MGMT_RESULT STATUS_SUCCESS) with STATUS_SUCCESS. change (negb (ok STATUS_SUCCESS)) with false. cbv iota zeta. destruct t; auto.
  - right. unfold told at 1, go in RS. cbn [snd] in RS. destruct (hget (a_life a) f); [|discriminate]. destruct (_ =? STOPPED); [discriminate|]. inversion RS; subst. destruct (L f) as (NM & wr & SF); [left; auto|].
    unfold resumed in RE. rewrite SF in RE. inversion RE; subst. cbn [v_sus v_stage wake rank a_ready]. rewrite R. cbn [map app length]. rewrite hget_hdel_other by auto. auto.
Qed.
Lemma asked : forall c P sk qz t bk a v, core c P sk qz (Some t) bk a -> sus_ok P v -> exists l, a_ready a = map (told t) l ++ [answered c] /\ hget (v_sus v) (c_main c) = Some (UReq t) /\ (forall f, In f l -> f <> c_main c /\ exists wr, hget (v_sus v) f = Some (UWait wr)) /\ hwf (v_sus v).
Proof.
  intros c P sk qz t bk a v K [S1 S2]. destruct (k_ready _ _ _ _ _ _ _ K) as (l & R & L & _). exists l. split; [auto|]. split; [|split; [|auto]].
  - rewrite S1. pose proof (k_role _ _ _ _ _ _ _ K (c_main c)) as X. apply role_main in X as [[_ X]|[[_ X]|(t' & X & Y)]]; try discriminate. inversion Y; subst. rewrite X. auto.
  - intros f I. destruct (L f I) as (N & wr & W). split; [auto|]. exists wr. rewrite S1, W. auto.
Qed.
Lemma resume_ok : forall U (a : ast U) o a', a_ready a <> [] -> resume (Some (STATUS_SUCCESS, a)) = Some (o, a') -> ok (fst o) = true.
Proof.
  intros U a o a' N RS. unfold resume in RS. change (negb (ok STATUS_SUCCESS)) with false in RS. cbv iota in RS. destruct (a_ready a) as [|[b [f [[d e] p]]] t]; [congruence|]. unfold go in RS. cbn [snd] in RS.
  destruct (hget (a_life a) f); [|discriminate]. destruct (_ =? STOPPED); [discriminate|]. inversion RS. reflexivity.
Qed.
Lemma ask_step : forall ans c v a, Inv c v a -> asking c v -> decide c XCode v <> None /\ (forall i, allowed true ans XCode v i) /\
  forall v' a', step (astep true (lib ans)) c XCode (v, a) = Some (v', a') -> back_in_main c v' \/ asking c v' /\ (weight v' a' < weight v a)%nat.
Proof.
  intros ans c v a IV AK. pose proof IV as (P & md & S & CU & K & ST & HI). destruct (is_asking _ _ _ _ _ _ _ _ K S AK) as (t & -> & PM). destruct (asked _ _ _ _ _ _ _ v K S) as (l & R & SM & L & WF).
  pose proof (k_conf _ _ _ _ _ _ _ K) as CF. eqbs c CF. pose proof ST as (S1 & S2 & _ & _ & _ & SA).
  assert (NEXT : forall a1 q o v' a', a_ready a1 = a_ready a -> v_cur v <> c_main c -> v_cur v <> 0 -> q <> UReq t -> rank (v_stage v) <> 0%nat ->
    resume (Some (STATUS_SUCCESS, a1)) = Some (o, a') -> resumed c o (suspended (v_cur v) q v) = Some v' -> back_in_main c v' \/ asking c v' /\ (weight v' a' < weight v a)%nat).
  { intros a1 q o v' a' RA NM N0 NQ RK RS RE. assert (NS : hget (v_sus v) (v_cur v) = None) by (destruct S as [SX _]; rewrite SX, S1; auto).
    destruct (next_asked c (suspended (v_cur v) q v) a1 l t o v' a') as [B|(B1 & B2 & B3)]; auto; cbn [suspended v_sus].
    - rewrite RA. auto.
    - rewrite hget_hadd_other; auto.
    - intros f I. destruct (L f I) as (X & wr & W). split; [auto|]. exists wr. rewrite hget_hadd_other; auto. congruence.
    - apply hadd_wf; auto.
    - right. split; [exists t; auto|]. unfold weight. rewrite B3. rewrite RA in B2. rewrite B2. lia. }
  assert (SAME : forall st v' (a' : ast (iost ep * unit)), v_sus v' = v_sus v -> a_ready a' = a_ready a -> v_stage v' = st -> (rank st < rank (v_stage v))%nat -> back_in_main c v' \/ asking c v' /\ (weight v' a' < weight v a)%nat).
  { intros st v' a' E1 E2 E3 E4. right. split; [exists t; rewrite E1; auto|]. unfold weight. rewrite E2, E3. lia. }
  assert (MN : v_cur v <> c_main c) by (intros X; rewrite X, PM in S1; discriminate).
  assert (F0 : v_cur v <> 0) by (eapply live_nonnull; [exact K|congruence]).
  assert (RN : forall a1 : ast (iost ep * unit), a_ready a1 = a_ready a -> a_ready a1 <> []) by (intros a1 X; rewrite X, R; destruct l; discriminate).
  unfold step, decide, allowed. cbn [fst snd]. destruct (v_stage v) as [| |wr|wr d ev| | | |g| |d ev p|g| | | | | |e] eqn:SG; cbn [stage_at] in SA; try contradiction.
  - exfalso. destruct SA as [X _]. discriminate X.
  - exfalso. destruct SA as [X _]. discriminate X.
  - destruct SA as (_ & _ & SK & _). destruct (sock_of _ _ _ _ _ _ _ _ K SK) as (s & b & SF & SB & WB). rewrite SF. split; [discriminate|]. split; [auto|]. intros v' a'.
    assert (W0 : ws_fib wr b = 0). { destruct (WB wr) as [|[_ [W|[_ W]]]]; [auto|congruence|discriminate]. }
    cbn [isop]. unfold lib. rewrite yield_io by apply (k_disc _ _ _ _ _ _ _ K). cbn [pl_wait epoll_plat]. rewrite CU, (wait_act wr s b) by auto. destruct (_ =? 0).
    + match goal with |- context [resume (Some (STATUS_SUCCESS, ?x))] => set (a1 := x) end. destruct (resume (Some (STATUS_SUCCESS, a1))) as [[o a2]|] eqn:RS; [|discriminate]. unfold yields.
      pose proof (resume_ok _ _ _ _ (RN a1 eq_refl) RS) as OK.
      rewrite OK. cbn [negb]. destruct (resumed _ _ _) as [v1|] eqn:RE; [|discriminate]. intros X. inversion X; subst. eapply (NEXT a1 (UWait wr)); eauto; discriminate.
    + cbn [resume]. intros X. inversion X; subst. unfold failed. rewrite (proj2 (Z.eqb_neq _ _) MN). eapply (SAME PClose); reflexivity || (cbn; lia).
  - destruct SA as (MD & _ & SK & _). destruct (sock_of _ _ _ _ _ _ _ _ K SK) as (s & b & SF & SB & _). rewrite SF. split; [discriminate|]. split; [auto|]. intros v' a'.
    destruct MD as [[X _]|(t' & X & -> & ->)]; [discriminate|]. inversion X; subst t'.
    assert (AS : astep true (lib ans) (isop (c_disc c) (IBack wr s)) a = Some ((STATUS_SUCCESS, nowhere), user_set (set_sock s (ws_set wr 0 b) (fst (a_user a)), tt) a)).
    { cbn [isop astep]. replace (lib ans (if wr then FN_IO_WRITE_BACK else FN_IO_READ_BACK) 0 (a_cur a) s) with (@on_fst (iost ep) unit (back wr s)) by (destruct wr; reflexivity).
      unfold back. cbn [on_fst happly]. rewrite SB. cbn [need on_fst happly]. destruct (a_user a) as [m []]. reflexivity. }
    rewrite AS. unfold block_result. change (MANAGEMENT_ID =? IO_ID) with false. cbv iota. intros Y. inversion Y; subst.
    destruct (ok (unexpected _ _ _ _)) eqn:OK; cbn [negb].
    + eapply (SAME (PBlock wr)); reflexivity || (cbn; lia).
    + unfold failed. rewrite (proj2 (Z.eqb_neq _ _) MN), OK. eapply (SAME PClose); reflexivity || (cbn; lia).
  - exfalso. destruct SA as [X _]. discriminate X.
  - exfalso. destruct SA as [X _]. discriminate X.
  - exfalso. destruct SA as [X _]. discriminate X.
  - exfalso. destruct SA as [X _]. discriminate X.
  - split; [discriminate|]. split; [auto|]. intros v' a'. cbn [astep]. match goal with |- context [resume (Some (STATUS_SUCCESS, ?x))] => set (a1 := x) end. destruct (resume (Some (STATUS_SUCCESS, a1))) as [[o a2]|] eqn:RS; [|discriminate]. unfold yields.
    pose proof (resume_ok _ _ _ _ (RN a1 eq_refl) RS) as OK.
    rewrite OK. cbn [negb]. destruct (resumed _ _ _) as [v1|] eqn:RE; [|discriminate]. intros X. inversion X; subst. eapply (NEXT a1 URecv); eauto; discriminate.
  - destruct (_ && _); (split; [discriminate|]; split; [auto|]); intros v' a' X.
    + cbn [astep] in X. inversion X; subst. cbn [fst]. destruct (ok _); cbn [negb]; [eapply (SAME (PFree p))|eapply (SAME PReceive)]; reflexivity || (cbn; lia).
    + inversion X; subst. eapply (SAME PReceive); reflexivity || (cbn; lia).
  - split; [discriminate|]. split; [auto|]. intros v' a' X. cbn [astep] in X. destruct (_ || _); [discriminate|]. inversion X; subst. eapply (SAME PReceive); reflexivity || (cbn; lia).
  - exfalso. destruct SA as [X _]. discriminate X.
  - exfalso. destruct SA as [X _]. discriminate X.
  - destruct SA as (_ & _ & SK). destruct (sock_of _ _ _ _ _ _ _ _ K SK) as (s & b & SF & SB & _). rewrite SF. split; [discriminate|]. split; [auto|]. intros v' a' X.
    cbn [isop astep] in X. change (lib ans FN_IO_RELEASE 0 (a_cur a) s) with (@on_fst (iost ep) unit (epoll_release s)) in X. unfold epoll_release in X. cbn [on_fst happly] in X. rewrite SB in X. cbn [need on_fst happly] in X. inversion X; subst.
    eapply (SAME PReturn); reflexivity || (cbn; lia).
  - split; [discriminate|]. split; [auto|]. intros v' a' X. destruct SA as ((U1 & U2) & FM & SK). pose proof (lis_up _ _ _ _ _ _ _ _ K S1 FM U1 S2) as PU.
    assert (LF : hget (a_life a) (v_cur v) = Some RUNNING) by (rewrite (k_life _ _ _ _ _ _ _ K), S1; auto).
    cbn [astep] in X. rewrite CU, LF in X. unfold tell in X. cbn [life_set a_mgmt] in X. rewrite (k_mgmt _ _ _ _ _ _ _ K), PU in X. rewrite (proj2 (Z.eqb_neq (c_mgr c) 0)) in X by auto.
    unfold push in X. cbn [life_set a_life fst] in X.
    rewrite hget_hset, (proj2 (Z.eqb_neq (c_mgr c) (v_cur v))) in X by auto. rewrite (k_life _ _ _ _ _ _ _ K), PU in X. cbn [life_at] in X.
    change (RUNNING =? STOPPED) with false in X. cbn [orb] in X. rewrite (proj2 (is_ready_not _ _ _)) in X by exact (mgr_not_ready _ _ _ _ _ _ _ K PU).
    unfold alloc_spec in X. cbn [life_set a_al] in X. rewrite (k_al _ _ _ _ _ _ _ K) in X. change (negb (ok STATUS_SUCCESS)) with false in X. cbv iota in X. change (ok STATUS_SUCCESS) with true in X. cbv iota in X.
    unfold resume, mgmt_set, life_set in X. cbn [a_ready a_life a_known a_idle a_main a_mgmt a_cur a_discs a_ids a_total a_al a_user a_made a_ran] in X. change (negb (ok STATUS_SUCCESS)) with false in X. cbv iota in X. cbn [snd] in X. unfold go in X.
    cbn [a_ready a_life a_known a_idle a_main a_mgmt a_cur a_discs a_ids a_total a_al a_user a_made a_ran] in X. rewrite hget_hset, (proj2 (Z.eqb_neq (c_mgr c) (v_cur v))) in X by auto. rewrite (k_life _ _ _ _ _ _ _ K), PU in X. cbn [life_at] in X.
    change (RUNNING =? STOPPED) with false in X. cbv iota in X. cbn [fst] in X. change (ok STATUS_SUCCESS) with true in X. cbv iota in X. cbn [fst negb] in X. change (ok STATUS_SUCCESS) with true in X. cbn [negb] in X. cbv iota in X.
    unfold resumed in X. pose proof (proj1 S (c_mgr c)) as SG'. rewrite PU in SG'. cbn [susp_at] in SG'. rewrite SG' in X. inversion X; subst. right. split.
    + exists t. cbn [v_sus]. rewrite hget_hdel_other by auto. auto.
    + unfold weight. rewrite SG. cbn [a_ready v_stage wake rank]. lia.
  - exfalso. destruct SA as [X _]. congruence.
Qed.
Lemma ask_ends : forall T (ts : tops T) TR ans ctl c n v w a, perfect ts TR -> good_conf c -> serves true ts (fun _ _ => True) ans ctl c (v, w) -> Rel TR w a -> Inv c v a -> asking c v -> (weight v a <= n)%nat ->
  exists m v' w', (m <= n)%nat /\ steps (sexec ts (lib ans)) c (repeat XCode m) (v, w) = Some (v', w') /\ serves true ts (fun _ _ => True) ans ctl c (v', w') /\ back_in_main c v'.
Proof.
  intros T ts TR ans ctl c. induction n as [|n IH]; intros v w a PT CF S R IV AK LE.
  - exfalso. assert (rank (v_stage v) <> 0%nat) by (destruct (v_stage v); discriminate). unfold weight in LE. lia.
  - destruct (ask_step ans c v a IV AK) as (D & AL & ST). destruct (step_inv ans c XCode v a IV (AL _) D) as (v1 & a1 & E1 & IV1).
    assert (AE : a_al a = []) by (destruct IV as (P & md & _ & _ & K & _); apply (k_al _ _ _ _ _ _ _ K)).
    assert (UL : unlinks (fun (_ : T) (_ : Z) => True) XCode v (w_tab w)) by (unfold unlinks; destruct (v_stage v); exact Logic.I).
    destruct (step_rel _ ts TR _ ans c XCode v w a v1 a1 PT R AE UL E1) as (w1 & E2 & R1). pose proof (goes_on _ _ _ _ _ _ _ _ _ _ S (AL _) UL E2) as S1.
    destruct (ST _ _ E1) as [B|[AK1 LT]].
    + exists 1%nat, v1, w1. split; [lia|]. cbn [repeat steps]. rewrite E2. auto.
    + destruct (IH v1 w1 a1 PT CF S1 R1 IV1 AK1) as (m & v' & w' & M & E & S' & B); [lia|]. exists (1 + m)%nat, v', w'. split; [lia|]. cbn [repeat steps Nat.add]. rewrite E2. auto.
Qed.
Lemma inv_weight : forall T TR (w : sw T (iost ep * unit)) v a, Rel TR w a -> (weight v a <= 7 * (1 + length (i_ready (seen w))))%nat.
Proof. intros T TR w v a R. rewrite (rel_seen _ _ _ _ R). unfold weight, aview. cbn [i_ready]. rewrite map_length. destruct (v_stage v); cbn [rank]; lia. Qed.

(** ** Histories by computation *)
Definition freshb (fd s : Z) (i : view) : bool := negb (s =? 0) && negb (zmem s (addrs (i_socks i))) && forallb (fun x => negb (ws_fd (snd x) =? fd)) (i_socks i).
Definition allowedb (calm : bool) (ans : Z -> list kans) (x : input) (v : serv) (i : view) : bool :=
  match v_stage v, x with
  | PRead, XAnswer (Conn fd s f) => freshb fd s i && negb (f =? 0) && negb (zmem f (i_fibs i))
  | POpen, XOpen fd s => freshb fd s i
  | PRead, XCode => negb calm || match v_chan v, i_ready i with [], _ | _, [] => true | _, _ => false end
  | PRound, XRound q => match settled Epoll (ans q) with Some (KReady _) => true | _ => false end
  | _, _ => true
  end.
Lemma freshb_ok : forall fd s i, freshb fd s i = true -> fresh_sock fd s i.
Proof.
  intros fd s i H. unfold freshb in H. apply andb_prop in H as [H H3]. apply andb_prop in H as [H1 H2]. apply negb_true_iff in H1, H2. split; [apply Z.eqb_neq; auto|]. split; [apply zmem_not; auto|].
  intros t b G. rewrite forallb_forall in H3. specialize (H3 _ (hget_pair _ _ _ _ G)). cbn [snd] in H3. apply negb_true_iff, Z.eqb_neq in H3. auto.
Qed.
Lemma allowedb_ok : forall calm ans x v i, allowedb calm ans x v i = true -> allowed calm ans x v i.
Proof.
  intros calm ans x v i H. unfold allowedb, allowed in *. destruct x as [|[| | |fd s f]|fd s|q|], (v_stage v); auto.
  - intros -> N. cbn [negb orb] in H. destruct (v_chan v), (i_ready i); congruence.
  - apply andb_prop in H as [H H3]. apply andb_prop in H as [H1 H2]. apply negb_true_iff in H2, H3. split; [apply freshb_ok; auto|]. split; [apply Z.eqb_neq; auto|]. apply zmem_not; auto.
  - apply freshb_ok; auto.
  - destruct (settled Epoll (ans q)) as [[|r]|]; try discriminate. eauto.
Qed.
Fixpoint plays (calm : bool) (ans : Z -> list kans) (c : conf) (xs : list input) (s : serv * sw (list Z) (iost ep * unit)) : option (serv * sw (list Z) (iost ep * unit)) :=
  match xs with
  | [] => Some s
  | x :: t => if allowedb calm ans x (fst s) (seen (snd s)) then do s <- step (sexec list_tops (lib ans)) c x s; plays calm ans c t s else None
  end.
Definition plays_from (calm : bool) (ans : Z -> list kans) (c : conf) (xs : list input) : option (serv * sw (list Z) (iost ep * unit)) :=
  match sched_create list_tops (ext_of (lib ans)) [] (epoll_none [], tt) (c_main c) with
  | Some (e, w0) => if ok e then match sexecs list_tops (lib ans) (startup c []) w0 with Some (_, w) => plays calm ans c xs (serving c, w) | None => None end else None
  | None => None
  end.
Lemma plays_serves : forall calm ans c xs s s', serves calm list_tops (fun _ _ => True) ans [] c s -> plays calm ans c xs s = Some s' -> serves calm list_tops (fun _ _ => True) ans [] c s'.
Proof.
  intros calm ans c. induction xs as [|x xs IH]; intros [v w] s' S H; cbn [plays] in H; [inversion H; subst; auto|]. cbn [fst snd] in H. destruct (allowedb _ _ _ _ _) eqn:AL; [|discriminate].
  destruct (step _ _ _ _) as [s1|] eqn:E; [|discriminate]. eapply IH; [|exact H]. apply (goes_on _ _ _ _ _ _ x v w s1 S (allowedb_ok _ _ _ _ _ AL)); [|exact E]. unfold unlinks. destruct (v_stage v), x; exact Logic.I.
Qed.
Lemma plays_from_serves : forall calm ans c xs s, plays_from calm ans c xs = Some s -> serves calm list_tops (fun _ _ => True) ans [] c s.
Proof.
  intros calm ans c xs s H. unfold plays_from in H. destruct (sched_create _ _ _ _ _) as [[e w0]|] eqn:C; [|discriminate]. destruct (ok e) eqn:OK; [|discriminate]. apply Z.eqb_eq in OK. subst e.
  destruct (sexecs _ _ _ _) as [[os w]|] eqn:E; [|discriminate]. eapply plays_serves; [|exact H]. eapply begins; eauto.
Qed.
