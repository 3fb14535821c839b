From Verif Require Import Base Status MemModel MemProofs Heap ThreadModel ThreadSpec ThreadProofs MandModel MandSpec MandProofs MandInv MandStep MandLive MandSafe.

(** ** Nobody waits when the first frame starts *)
Definition NA (c : conf) (s : mst) : Prop := s_main s = MFrame 0 /\ s_files s = [] /\ pd s 1 = Some (PdWait (f_mc c) (f_mu c)) /\ forall t, ~ active c s t.
Lemma tran_NA : forall c s s' x, Inv c s -> tran c s s' x -> prompt x -> NA c s -> NA c s'.
Proof.
  intros c s s' x (L0 & T & L) TR P (M & F & P1 & A). assert (N1 : forall t, s_wk s t <> None -> t <> 1) by (intros t K ->; destruct K; apply (T_wk1 _ _ _ _ _ _ T)).
  assert (AT : forall t v, s_wk s' = upd (s_wk s) t v -> others t s s' -> ~ active c s' t -> forall u, ~ active c s' u).
  { intros t v E O NT u AC. destruct (Z.eq_dec u t) as [->|N]; [auto|]. apply (A u). unfold active in *. rewrite E, upd_get, (proj2 (Z.eqb_neq u t) N), (O u N) in AC. exact AC. }
  destruct TR; try congruence.
  - assert (N := N1 t ltac:(congruence)). split; [congruence|]. split; [congruence|]. split; [rewrite (H5 1) by auto; auto|]. apply (AT t _ H4 H5). unfold active. rewrite H4, upd_get, Z.eqb_refl. cbn. intros [[K _]|[l K]]; discriminate.
  - assert (N := N1 t ltac:(congruence)). split; [congruence|]. split; [congruence|]. split; [rewrite (H6 1) by auto; auto|]. apply (AT t _ H4 H6). unfold active. rewrite H4, upd_get, Z.eqb_refl, H5. cbn. intros [[_ K]|[l K]]; discriminate.
  - destruct (A t). right. exists l. rewrite H. auto.
  - destruct (A t). left. auto.
  - destruct (A t). right. exists l. rewrite H. auto.
  - destruct (A t). right. exists l. rewrite H. auto.
  - destruct P.
Qed.
Lemma runs_NA : forall c l s s', Inv c s -> NA c s -> Forall prompt l -> mruns c s l = MGo s' -> NA c s'.
Proof.
  intros c l. induction l as [|x l IH]; intros s s' I A C H; cbn [mruns] in H; [inversion H; subst; auto|]. inversion C; subst. assert (CA : calm x) by (destruct x; auto; contradiction). destruct (step_all c s x I CA) as [_ B]. destruct (mstep c s x) as [| |s1] eqn:E; try discriminate. destruct (B s1 eq_refl) as [TR I1]. exact (IH _ _ I1 (tran_NA _ _ _ _ I TR H2 A) H3 H).
Qed.
Lemma first_NA : forall c s s' r, Inv c s -> s_main s = MLock -> (forall t, s_wk s t <> Some WWait) -> 0 < f_frames c -> works r -> mstep c s (Resume 1 r) = MGo s' -> Inv c s' /\ NA c s'.
Proof.
  intros c s s' r I M NW F W H. destruct (step_all c s (Resume 1 r) I W) as [_ B]. destruct (B _ H) as [TR I']. split; [auto|]. destruct I as (L0 & T & L). unfold LI in L. rewrite M in L. destruct L as (_ & FS & _ & ID). inversion TR; subst; try congruence; try (rewrite (T_wk1 _ _ _ _ _ _ T) in *; discriminate).
  destruct H5 as [(_ & E1 & E2 & E3 & E4)|(K & _)]; [|lia]. split; [auto|]. split; [congruence|]. split; [auto|]. intros t [[K _]|[l K]]; rewrite H4 in K; [destruct (NW t); auto|]. rewrite ID in K. discriminate.
Qed.

(** ** The main thread locks the mutex that it holds *)
Definition SJ (c : conf) (code : Z) (F : list (Z * list cell)) (s : mst) : Prop :=
  WF (s_tw s) /\ w_mu (s_tw s) (f_mu c) = Some (Some 1) /\ hget (w_pend (s_tw s)) 1 = Some (PdLock (f_mu c)) /\ s_main s = MClean code /\ s_files s = F /\ s_wk s 1 = None.
Definition other (x : tev) : Prop :=
  match x with
  | ThReturn t _ | LkRelease t _ _ | CoWait t _ _ _ | MuAcquire t _ | ThEnter t | MuLocked t _ | CoBack t | CoSignal t _ _ _ _ => t <> 1
  | CoWake _ => True
  | _ => False
  end.
Lemma other_kept : forall w x w' o m, tstep w x = Go w' o -> WF w -> other x -> w_mu w m = Some (Some 1) -> hget (w_pend w) 1 = Some (PdLock m) ->
  w_mu w' m = Some (Some 1) /\ hget (w_pend w') 1 = Some (PdLock m).
Proof.
  intros w x w' o m H [W Z0] O M P.
  assert (ADD : forall t p, t <> 1 -> hget ((t, p) :: w_pend w) 1 = Some (PdLock m)) by (intros t p N; change (hget (hadd (w_pend w) t p) 1 = Some (PdLock m)); rewrite hget_hadd, (proj2 (Z.eqb_neq 1 t)) by auto; auto).
  assert (DEL : forall t, t <> 1 -> hget (hdel (w_pend w) t) 1 = Some (PdLock m)) by (intros t N; rewrite hget_hdel, (proj2 (Z.eqb_neq 1 t)) by auto; auto).
  assert (MU : forall l v h, w_mu w l = Some (Some h) -> h <> 1 -> upd (w_mu w) l v m = Some (Some 1)) by (intros l v h E N; rewrite upd_get; destruct (Z.eqb_spec m l); [subst; rewrite M in E; inversion E; subst; congruence|auto]).
  destruct x; cbn [other] in O; try contradiction; cbn [tstep] in H; unfold call in H;
  repeat match type of H with
  | (if ?b then _ else _) = _ => destruct b eqn:?; try discriminate
  | match ?b with _ => _ end = _ => destruct b eqn:?; try discriminate
  end; inversion H; subst; clear H; cbn [set_th set_pc set_pend set_mu set_co w_th w_pc w_pend w_mu w_co];
  repeat match goal with
  | H : _ || _ = false |- _ => apply orb_false_elim in H as [? ?]
  | H : negb _ = false |- _ => apply negb_false_iff in H
  | H : (_ =? _) = true |- _ => apply Z.eqb_eq in H; subst
  end; (split; [auto; try (eapply MU; [eassumption|lia])|auto]).
  - destruct (Z.eq_dec t 1) as [->|N]; [congruence|]. rewrite hget_hset_other by auto. auto.
  - rewrite hget_map by (intros; apply (sig_fst (fun y => existsb (Z.eqb (fst y)) _))). rewrite P. cbn [option_map fst]. destruct (existsb (Z.eqb 1) woken); reflexivity.
Qed.
Lemma lib_J : forall c code F x s k, SJ c code F s -> other x -> (forall w o, SJ c code F (set_tw w s) -> holds (SJ c code F) (k o (set_tw w s))) -> holds (SJ c code F) (lib x s k).
Proof.
  intros c code F x s k (W & M & P & J) O K s' H. unfold lib in H. destruct (tstep (s_tw s) x) as [| |w o] eqn:E; try discriminate. refine (K w o _ s' H). destruct (other_kept _ _ _ _ _ E W O M P). split; [exact (tstep_WF _ _ _ _ E W)|]. auto.
Qed.
Lemma J_wk : forall c code F t v s, SJ c code F s -> t <> 1 -> SJ c code F (set_wk t v s).
Proof. intros c code F t v s (A & B & C & D & E & G) N. repeat split; auto; try apply A. cbn. rewrite upd_get, (proj2 (Z.eqb_neq 1 t)) by auto. auto. Qed.
Lemma J_done : forall c code F t st s, SJ c code F s -> t <> 1 -> holds (SJ c code F) (worker_done t st s).
Proof. intros c code F t st s J N. eapply lib_J; [exact J|exact N|]. intros w o J1. apply go_holds, J_wk; auto. Qed.
Lemma J_cleanup : forall c code F r t st s, SJ c code F s -> t <> 1 -> holds (SJ c code F) (worker_cleanup c r t st s).
Proof. intros c code F r t st s J N. eapply lib_J; [exact J|exact N|]. intros w o J1. apply J_done; auto. Qed.
Lemma J_wait : forall c code F r t s, SJ c code F s -> t <> 1 -> holds (SJ c code F) (worker_wait c r t s).
Proof. intros c code F r t s J N. eapply lib_J; [exact J|exact N|]. intros w o J1. destruct o; try (apply go_holds, J_wk; auto). apply J_cleanup; auto. Qed.
Lemma J_loop : forall c code F r t s, SJ c code F s -> t <> 1 -> holds (SJ c code F) (worker_loop c r t s).
Proof.
  intros c code F r t s J N. unfold worker_loop. destruct (i_done _); [apply J_wait; auto|]. destruct (_ <? _); [|apply J_wait; auto]. eapply lib_J; [exact J|exact N|]. intros w o J1. destruct (negb _); [apply J_done; auto|]. apply go_holds, J_wk; auto.
Qed.
Lemma J_save : forall c code F r t l f s, SJ c code F s -> t <> 1 -> holds (SJ c code F) (worker_save c r t l f s).
Proof.
  intros c code F r t l f s J N. unfold worker_save. destruct (l <? 0); [apply bad_holds; auto|]. destruct (store _ _ _); [|apply bad_holds; auto]. cbv zeta. destruct (_ =? _); [|apply J_loop; auto]. eapply lib_J; [exact J|exact N|]. intros w o J1. destruct (negb _); [apply J_cleanup; auto|apply J_loop; auto].
Qed.
Lemma J_step : forall c code F s x, SJ c code F s -> holds (SJ c code F) (mstep c s x).
Proof.
  intros c code F s x J. pose proof J as (_ & _ & _ & M & _ & W1). destruct x as [t|t|t r|t]; cbn [mstep]; rewrite ?M.
  - destruct (Z.eqb_spec t 1) as [->|N]; [apply bad_holds; auto|]. destruct (s_wk s t) as [[]|]; try (apply bad_holds; auto; fail). eapply lib_J; [exact J|exact N|]. intros w o J1. eapply lib_J; [exact J1|exact N|]. intros w2 o2 J2. apply go_holds, J_wk; auto.
  - destruct (Z.eq_dec t 1) as [->|N]; [rewrite W1; apply bad_holds; auto|]. destruct (s_wk s t) as [[]|]; try (apply bad_holds; auto; fail). destruct (negb _); [apply bad_holds; auto|]. eapply lib_J; [exact J|exact N|]. intros w o J1. apply go_holds, J_wk; auto.
  - destruct (Z.eqb_spec t 1) as [->|N]; [apply bad_holds; auto|]. destruct (s_wk s t) as [[]|]; try (apply bad_holds; auto; fail); (eapply lib_J; [exact J|exact N|]); intros w o J1.
    + destruct (negb _); [apply J_done; auto|apply J_wait; auto].
    + destruct (i_quiesce _); [apply J_cleanup; auto|apply J_loop; auto].
    + destruct (negb _); [apply J_done; auto|apply J_save; auto].
  - eapply lib_J; [exact J|exact Logic.I|]. intros w o J1. apply go_holds. auto.
Qed.
Lemma J_runs : forall c code F l s s', SJ c code F s -> mruns c s l = MGo s' -> SJ c code F s'.
Proof.
  intros c code F l. induction l as [|x l IH]; intros s s' J H; cbn [mruns] in H; [inversion H; subst; auto|]. destruct (mstep c s x) as [| |s1] eqn:E; try discriminate. eapply IH; [|exact H]. exact (J_step _ _ _ _ _ J _ E).
Qed.
Lemma J_stuck : forall c code F s, SJ c code F s -> tstep (s_tw s) (MuLocked 1 0) = Stuck.
Proof. intros c code F s (_ & M & P & _). cbn [tstep]. rewrite P, M. reflexivity. Qed.
(** The main thread fails in a frame while it holds the lock. *)
Lemma frame_fails : forall c r i s, TI c (s_tw s) (s_main s) (s_wk s) (Some 1) 1 -> w_pc (s_tw s) 0 = None -> i < f_frames c -> r_signal r <> 0 \/ r_wait r <> 0 ->
  exists s', main_frame c r i s = MGo s' /\ SJ c (if r_signal r =? 0 then 12 else 10) (s_files s) s'.
Proof.
  intros c r i s T Z0 L E. unfold main_frame. rewrite (proj2 (Z.ltb_lt _ _) L).
  assert (CL : forall w s1 code, TI c w (s_main s) (s_wk s) (Some 1) 1 -> w_pc w 0 = None -> s_tw s1 = w -> s_wk s1 = s_wk s -> s_files s1 = s_files s -> exists s', main_clean c code s1 = MGo s' /\ SJ c code (s_files s) s').
  { intros w s1 code Tw Zw <- E1 E2. pose proof (T_run _ _ _ _ _ _ Tw 1 eq_refl) as P. unfold main_clean, lib. cbn [quiesce set_info s_tw tstep]. unfold call. rewrite (user_main _ _ _ _ _ _ Tw P), (T_mu _ _ _ _ _ _ Tw). eexists. split; [reflexivity|].
    unfold SJ, WF. cbn [set_main set_tw quiesce set_info set_pend s_tw s_main s_files s_wk w_pend w_pc w_mu]. split; [split; [apply cons_wf; [apply Tw|auto|lia]|auto]|]. split; [apply Tw|]. split; [reflexivity|]. split; [auto|]. split; [auto|]. rewrite E1. apply Tw. }
  destruct (Z.eqb_spec (r_signal r) 0) as [S0|S0].
  - destruct (t_signal_all _ _ _ _ T) as (w2 & S1 & T2 & P2). rewrite S0. erewrite lib_go by exact S1. cbn [status_of]. change (ok STATUS_SUCCESS) with true. cbn [negb].
    unfold lib at 1. cbn [set_tw set_info s_tw tstep]. pose proof (T_run _ _ _ _ _ _ T2 1 eq_refl) as H. unfold call. rewrite (user_main _ _ _ _ _ _ T2 H), (T_mu _ _ _ _ _ _ T2), (T_mc _ _ _ _ _ _ T2). change (1 =? 1) with true. rewrite (waits_mu _ _ _ _ _ _ _ T2). cbn [negb orb].
    destruct (Z.eqb_spec (r_wait r) 0) as [R0|R0]; [lia|]. cbn [negb]. eapply CL; [exact T2| |reflexivity|reflexivity|reflexivity]. refine (proj2 (tstep_WF _ _ _ _ S1 (conj _ _))); [apply T|auto].
  - unfold lib at 1. cbn [set_info s_tw tstep]. pose proof (T_run _ _ _ _ _ _ T 1 eq_refl) as H. unfold call. rewrite (user_main _ _ _ _ _ _ T H), (T_wc _ _ _ _ _ _ T). rewrite (proj2 (Z.eqb_neq _ _) S0). cbn [negb status_of]. unfold ok. change STATUS_SUCCESS with 0. rewrite (proj2 (Z.eqb_neq _ _) S0). cbn [negb]. eapply CL; [exact T|auto|reflexivity|reflexivity|reflexivity].
Qed.

(** ** Workers that fail *)
Lemma done_ends : forall c t st s m wk x h, TI c (s_tw s) m wk x h -> infn (wk t) -> hget (w_pend (s_tw s)) t = None ->
  exists s', worker_done t st s = MGo s' /\ ended c s s' t st (s_info s) (s_bufs s) h.
Proof.
  intros c t st s m wk x h T I P. unfold worker_done, lib. cbn [tstep]. unfold call. rewrite (user_worker _ _ _ _ _ _ _ T I P). pose proof (T_pc _ _ _ _ _ _ T t) as PC.
  assert (E : exists p, w_pc (s_tw s) t = Some (PcFn p)) by (destruct (wk t) as [[]|]; cbn in *; try contradiction; auto). destruct E as [p ->]. eexists. split; [reflexivity|]. unfold ended. cbn [set_wk set_tw s_wk s_info s_bufs s_files s_main s_tw set_pc w_mu].
  split; [rewrite upd_get, Z.eqb_refl; auto|]. split; [intros u U; rewrite upd_get, (proj2 (Z.eqb_neq u t) U); auto|]. do 4 (split; [auto|]). apply T.
Qed.
Lemma cleanup_ends : forall c r t st s m wk, TI c (s_tw s) m wk (Some t) t -> infn (wk t) ->
  exists s', worker_cleanup c r t st s = MGo s' /\ ended c s s' t (rel_status r st) (s_info s) (s_bufs s) (if r_clean r =? 0 then 0 else t).
Proof.
  intros c r t st s m wk T I. pose proof (T_run _ _ _ _ _ _ T t eq_refl) as P. unfold rel_status. destruct (Z.eqb_spec (r_clean r) 0) as [R|R].
  - destruct (t_unlock c (s_tw s) m wk t 0 true T I) as (w' & S1 & T' & PE). unfold worker_cleanup. rewrite R. erewrite lib_go by exact S1. cbn [status_of]. change (ok STATUS_SUCCESS) with true. cbn [negb]. cbv zeta.
    destruct (done_ends c t st (set_tw w' s) m _ None 0 T') as (s' & E & D); [rewrite upd_get, Z.eqb_refl; exact Logic.I|cbn [set_tw s_tw]; rewrite PE; auto|]. exists s'. split; [exact E|]. exact D.
  - unfold worker_cleanup, lib at 1. cbn [tstep]. unfold call. rewrite (user_worker _ _ _ _ _ _ _ T I P), (T_mu _ _ _ _ _ _ T). rewrite (proj2 (Z.eqb_neq _ _) R). cbn [negb status_of]. change (ok ERROR_THREAD_MUTEX_UNLOCK) with false. cbn [negb]. cbv zeta.
    destruct (done_ends c t (if negb (ok st) then ERROR_THREAD_MUTEX_UNLOCK else st) (set_tw (s_tw s) s) m wk (Some t) t T I P) as (s' & E & D). exists s'. split; [exact E|]. destruct (ok st); exact D.
Qed.
Lemma wait_fails : forall c r t s m wk, TI c (s_tw s) m wk (Some t) t -> infn (wk t) -> r_wait r <> 0 ->
  exists s', worker_wait c r t s = MGo s' /\ ended c s s' t (rel_status r ERROR_THREAD_COND_WAIT) (i_stop (s_info s)) (s_bufs s) (if r_clean r =? 0 then 0 else t).
Proof.
  intros c r t s m wk T I R. pose proof (T_run _ _ _ _ _ _ T t eq_refl) as P. unfold worker_wait, lib at 1. cbn [tstep]. unfold call. rewrite (user_worker _ _ _ _ _ _ _ T I P), (T_mu _ _ _ _ _ _ T), (T_wc _ _ _ _ _ _ T), (Z.eqb_refl t), (waits_mu _ _ _ _ _ _ _ T), (proj2 (Z.eqb_neq _ _) R). cbn [negb orb].
  destruct (cleanup_ends c r t ERROR_THREAD_COND_WAIT (quiesce (set_tw (s_tw s) s)) m wk T I) as (s' & E & D). exists s'. split; [exact E|exact D].
Qed.
Lemma lock_fails : forall c s t r, Inv c s -> r_lock r <> 0 -> s_wk s t = Some WLock \/ (exists l f, s_wk s t = Some (WSave l f)) ->
  exists s', mstep c s (Resume t r) = MGo s' /\ ended c s s' t ERROR_THREAD_MUTEX_LOCK (i_stop (s_info s)) (s_bufs s - match s_wk s t with Some WLock => 0 | _ => 1 end) (held_by (s_main s)).
Proof.
  intros c s t r (L0 & T & L) R K. unfold Th in T. assert (I : infn (s_wk s t)) by (destruct K as [-> |(l & f & ->)]; exact Logic.I). destruct (infn_t _ _ _ _ _ _ _ T I) as [N1 N0].
  assert (X : holder (s_main s) <> Some t) by (destruct (s_main s); cbn; congruence). pose proof (T_pd _ _ _ _ _ _ T t X) as P. unfold pdspec in P. rewrite (proj2 (Z.eqb_neq t 1) N1) in P.
  assert (PL : hget (w_pend (s_tw s)) t = Some (PdLock (f_mu c))) by (destruct K as [K|(l & f & K)]; rewrite K in P; auto).
  set (w := set_pend (hdel (w_pend (s_tw s)) t) (s_tw s)).
  assert (S1 : tstep (s_tw s) (MuLocked t (r_lock r)) = Go w (Ret ERROR_THREAD_MUTEX_LOCK None)) by (cbn [tstep]; rewrite PL, (T_mu _ _ _ _ _ _ T), (proj2 (Z.eqb_neq _ _) R); reflexivity).
  assert (U : hget (w_pend w) t = None) by (apply hget_hdel_same; apply T).
  assert (DE : forall s1, s_tw s1 = w -> exists s', worker_done t ERROR_THREAD_MUTEX_LOCK s1 = MGo s' /\ ended c s1 s' t ERROR_THREAD_MUTEX_LOCK (s_info s1) (s_bufs s1) (held_by (s_main s))).
  { intros s1 E1. assert (Tw : TI c w (s_main s) (upd (s_wk s) t (Some (WDraw 0 true))) (holder (s_main s)) (held_by (s_main s))).
    { destruct T as [W M C1 C2 NE PP RR MA K1 K0 PC]. constructor; cbn [w set_pend w_th w_pc w_pend w_mu w_co]; auto.
      - apply hdel_wf; auto.
      - intros u U1. destruct (Z.eq_dec u t) as [->|NU]; [rewrite (hget_hdel_same _ _ W); unfold pdspec; rewrite (proj2 (Z.eqb_neq t 1) N1), upd_get, Z.eqb_refl; auto|]. rewrite hget_hdel_other by auto. apply pdspec_upd; auto.
      - intros u U1. rewrite hget_hdel_other by (auto; intros ->; congruence). auto.
      - rewrite upd_get, (proj2 (Z.eqb_neq 1 t)) by auto. auto.
      - rewrite upd_get, (proj2 (Z.eqb_neq 0 t)) by auto. auto.
      - apply pcspec_upd; [exact PC|]. specialize (PC t). destruct (s_wk s t) as [[]|]; cbn in *; auto; contradiction. }
    rewrite <- E1 in Tw, U. eapply done_ends; [exact Tw|rewrite upd_get, Z.eqb_refl; exact Logic.I|exact U]. }
  cbn [mstep]. rewrite (proj2 (Z.eqb_neq t 1) N1). destruct K as [K|(l & f & K)]; rewrite K; (erewrite lib_go by exact S1); cbn [status_of]; change (ok ERROR_THREAD_MUTEX_LOCK) with false; cbn [negb].
  - destruct (DE (quiesce (set_tw w s)) eq_refl) as (s' & E & D). exists s'. split; [exact E|]. unfold ended in *. cbn [quiesce set_info set_tw set_bufs s_wk s_info s_bufs s_files s_main] in D. rewrite Z.sub_0_r. exact D.
  - destruct (DE (set_bufs (s_bufs (set_tw w s) - 1) (quiesce (set_tw w s))) eq_refl) as (s' & E & D). exists s'. split; [exact E|]. exact D.
Qed.
Lemma enter_fails : forall c s t r, Inv c s -> r_lock r = 0 -> r_wait r <> 0 -> holder (s_main s) = None -> s_wk s t = Some WLock ->
  exists s', mstep c s (Resume t r) = MGo s' /\ ended c s s' t (rel_status r ERROR_THREAD_COND_WAIT) (i_stop (s_info s)) (s_bufs s) (if r_clean r =? 0 then 0 else t).
Proof.
  intros c s t r (L0 & T & L) RL R H K. unfold Th in T. rewrite H in T. replace (held_by (s_main s)) with 0 in T by (destruct (s_main s); auto; discriminate). assert (I : infn (s_wk s t)) by (rewrite K; exact Logic.I). destruct (infn_t _ _ _ _ _ _ _ T I) as [N1 N0].
  pose proof (T_pd _ _ _ _ _ _ T t ltac:(discriminate)) as P. unfold pdspec in P. rewrite (proj2 (Z.eqb_neq t 1) N1), K in P. destruct (t_locked _ _ _ _ _ T P N0) as (w & S1 & T1 & P1).
  cbn [mstep]. rewrite (proj2 (Z.eqb_neq t 1) N1), K, RL. erewrite lib_go by exact S1. cbn [status_of]. change (ok STATUS_SUCCESS) with true. cbn [negb]. destruct (wait_fails c r t (set_tw w s) _ _ T1 I R) as (s' & E & D). exists s'. split; [exact E|exact D].
Qed.
Lemma woken_back : forall c s t, Inv c s -> holder (s_main s) = None -> s_wk s t = Some WWait -> pd s t = Some (PdBack (f_mu c)) -> t <> 1 /\ infn (s_wk s t) /\ exists w, tstep (s_tw s) (CoBack t) = Go w (Ret STATUS_SUCCESS (Some (f_mu c))) /\ TI c w (s_main s) (s_wk s) (Some t) t.
Proof.
  intros c s t (L0 & T & L) H K PB. unfold Th in T. rewrite H in T. replace (held_by (s_main s)) with 0 in T by (destruct (s_main s); auto; discriminate). assert (I : infn (s_wk s t)) by (rewrite K; exact Logic.I). destruct (infn_t _ _ _ _ _ _ _ T I) as [N1 N0].
  split; [auto|]. split; [auto|]. destruct (t_back _ _ _ _ _ T PB N0) as (w & S1 & T1 & _). eauto.
Qed.
Lemma unlock_fails : forall c s t r, Inv c s -> r_unlock r <> 0 -> holder (s_main s) = None -> s_wk s t = Some WWait -> pd s t = Some (PdBack (f_mu c)) -> i_quiesce (s_info s) = false -> i_done (s_info s) = false -> i_curr (s_info s) < f_lines c ->
  exists s', mstep c s (Resume t r) = MGo s' /\ ended c s s' t ERROR_THREAD_MUTEX_UNLOCK (i_stop (taken (s_info s))) (s_bufs s) t.
Proof.
  intros c s t r I0 R H K PB Q D L. destruct (woken_back _ _ _ I0 H K PB) as (N1 & I & w & S1 & T1). pose proof (T_run _ _ _ _ _ _ T1 t eq_refl) as P.
  cbn [mstep]. rewrite (proj2 (Z.eqb_neq t 1) N1), K. erewrite lib_go by exact S1. cbn [set_tw s_info]. rewrite Q. unfold worker_loop. cbn [set_tw s_info]. rewrite D, (proj2 (Z.ltb_lt _ _) L).
  unfold lib at 1. cbn [set_bufs set_info set_tw s_tw tstep]. unfold call. rewrite (user_worker _ _ _ _ _ _ _ T1 I P), (T_mu _ _ _ _ _ _ T1), (proj2 (Z.eqb_neq _ _) R). cbn [negb status_of]. change (ok ERROR_THREAD_MUTEX_UNLOCK) with false. cbn [negb].
  match goal with |- exists s', worker_done _ _ ?x = _ /\ _ => destruct (done_ends c t ERROR_THREAD_MUTEX_UNLOCK x _ _ _ _ T1 I P) as (s' & E & DD) end. exists s'. split; [exact E|]. unfold ended in *. cbn [set_bufs set_info set_tw quiesce i_stop s_info s_bufs s_files s_main s_wk i_curr i_written i_quiesce i_done i_frame i_array] in DD. unfold taken, i_stop. cbn [i_curr i_written i_done i_frame i_array]. rewrite D.
  replace (s_bufs s + (if r_malloc r then 1 else 0) - (if r_malloc r then 1 else 0)) with (s_bufs s) in DD by lia. exact DD.
Qed.
Lemma malloc_fails : forall c s t r, Inv c s -> r_unlock r = 0 -> r_malloc r = false -> holder (s_main s) = None -> s_wk s t = Some WWait -> pd s t = Some (PdBack (f_mu c)) -> i_quiesce (s_info s) = false -> i_done (s_info s) = false -> i_curr (s_info s) < f_lines c ->
  exists s', mstep c s (Resume t r) = MGo s' /\ s_wk s' t = Some (WDraw (i_curr (s_info s)) false) /\ s_bufs s' = s_bufs s /\ mstep c s' (Draw t) = MUndef.
Proof.
  intros c s t r I0 R RM H K PB Q D L. destruct (woken_back _ _ _ I0 H K PB) as (N1 & I & w & S1 & T1).
  cbn [mstep]. rewrite (proj2 (Z.eqb_neq t 1) N1), K. erewrite lib_go by exact S1. cbn [set_tw s_info]. rewrite Q. unfold worker_loop. cbn [set_tw s_info]. rewrite D, (proj2 (Z.ltb_lt _ _) L), RM, R.
  destruct (t_unlock _ _ _ _ _ (i_curr (s_info s)) true T1 I) as (w' & S2 & T' & P). erewrite lib_go by exact S2. cbn [status_of]. change (ok STATUS_SUCCESS) with true. cbn [negb]. eexists. split; [reflexivity|]. cbn [set_wk set_tw set_bufs set_info s_wk s_bufs]. rewrite upd_get, Z.eqb_refl. split; [auto|]. split; [lia|]. cbn [negb]. reflexivity.
Qed.
Lemma told_to_stop : forall c s t r, Inv c s -> holder (s_main s) = None -> s_wk s t = Some WWait -> pd s t = Some (PdBack (f_mu c)) ->
  exists s', mstep c (quiesce s) (Resume t r) = MGo s' /\ ended c s s' t STATUS_SUCCESS (i_stop (s_info s)) (s_bufs s) (if r_clean r =? 0 then 0 else t).
Proof.
  intros c s t r I0 H K PB. destruct (woken_back _ _ _ I0 H K PB) as (N1 & I & w & S1 & T1).
  cbn [mstep]. rewrite (proj2 (Z.eqb_neq t 1) N1). cbn [quiesce set_info s_wk]. rewrite K. erewrite lib_go by exact S1. cbn [set_tw s_info quiesce set_info i_stop i_quiesce].
  match goal with |- exists s', worker_cleanup _ _ _ _ ?x = _ /\ _ => destruct (cleanup_ends c r t STATUS_SUCCESS x _ _ T1 I) as (s' & E & DD) end. exists s'. split; [exact E|]. unfold rel_status in DD. change (ok STATUS_SUCCESS) with true in DD. destruct (r_clean r =? 0); exact DD.
Qed.
Lemma rest_fails : forall c s t r, Inv c s -> r_wait r <> 0 -> holder (s_main s) = None -> s_wk s t = Some WWait -> pd s t = Some (PdBack (f_mu c)) -> i_quiesce (s_info s) = false -> i_done (s_info s) = true \/ f_lines c <= i_curr (s_info s) ->
  exists s', mstep c s (Resume t r) = MGo s' /\ ended c s s' t (rel_status r ERROR_THREAD_COND_WAIT) (i_stop (i_finish (s_info s))) (s_bufs s) (if r_clean r =? 0 then 0 else t).
Proof.
  intros c s t r I0 R H K PB Q D. destruct (woken_back _ _ _ I0 H K PB) as (N1 & I & w & S1 & T1).
  cbn [mstep]. rewrite (proj2 (Z.eqb_neq t 1) N1), K. erewrite lib_go by exact S1. cbn [set_tw s_info]. rewrite Q. unfold worker_loop. cbn [set_tw s_info]. destruct (i_done (s_info s)) eqn:DN.
  - destruct (wait_fails c r t (set_tw w s) _ _ T1 I R) as (s' & E & DD). exists s'. split; [exact E|]. replace (i_finish (s_info s)) with (s_info s) by (destruct (s_info s); cbn in *; subst; auto). exact DD.
  - destruct D as [D|D]; [discriminate|]. rewrite (proj2 (Z.ltb_ge _ _) D). destruct (wait_fails c r t (finish (set_tw w s)) _ _ T1 I R) as (s' & E & DD). exists s'. split; [exact E|exact DD].
Qed.
Lemma signal_fails : forall c s t r l i, Inv c s -> s_main s = MFrame i -> s_wk s t = Some (WSave l i) -> r_lock r = 0 -> r_signal r <> 0 -> i_written (s_info s) + 1 = f_lines c ->
  exists s', mstep c s (Resume t r) = MGo s' /\ ended c s s' t (rel_status r (r_signal r)) (Info (i_curr (s_info s)) (f_lines c) true true i (picture i (f_lines c))) (s_bufs s) (if r_clean r =? 0 then 0 else t).
Proof.
  intros c s t r l i (L0 & T & L) M K RL R W. unfold Th in T. rewrite M in T. cbn [holder held_by] in T. assert (I : infn (s_wk s t)) by (rewrite K; exact Logic.I). destruct (infn_t _ _ _ _ _ _ _ T I) as [N1 N0].
  pose proof (T_pd _ _ _ _ _ _ T t ltac:(discriminate)) as P. unfold pdspec in P. rewrite (proj2 (Z.eqb_neq t 1) N1), K in P. destruct (t_locked _ _ _ _ _ T P N0) as (w & S1 & T1 & P1).
  unfold LI in L. rewrite M in L. destruct L as (_ & _ & D & _). destruct (DI_save _ _ _ _ _ _ _ D K) as (a & ST & L1 & D'). destruct (DI_full _ _ _ _ _ D') as (A & _ & _); [cbn; auto|]. cbn [saved i_array] in A. pose proof (D_frame _ _ _ _ _ D) as FR.
  cbn [mstep]. rewrite (proj2 (Z.eqb_neq t 1) N1), K, RL. erewrite lib_go by exact S1. cbn [status_of]. change (ok STATUS_SUCCESS) with true. cbn [negb]. unfold worker_save. cbn [set_tw s_info]. rewrite (proj2 (Z.ltb_ge _ _) L1), ST. cbv zeta. rewrite W, Z.eqb_refl.
  pose proof (T_run _ _ _ _ _ _ T1 t eq_refl) as U. unfold lib at 1. cbn [finish set_info set_tw s_tw tstep]. unfold call. rewrite (user_worker _ _ _ _ _ _ _ T1 I U), (T_mc _ _ _ _ _ _ T1), (proj2 (Z.eqb_neq _ _) R). cbn [negb status_of]. unfold ok at 1. change STATUS_SUCCESS with 0. rewrite (proj2 (Z.eqb_neq _ _) R). cbn [negb].
  match goal with |- exists s', worker_cleanup _ _ _ _ ?x = _ /\ _ => destruct (cleanup_ends c r t (r_signal r) x _ _ T1 I) as (s' & E & DD) end. exists s'. split; [exact E|]. unfold ended in *. cbn [quiesce finish set_info set_tw i_stop i_finish s_info s_bufs s_files s_main s_wk i_curr i_written i_quiesce i_done i_frame i_array] in DD. rewrite FR, A in DD. exact DD.
Qed.

(** ** The main thread is woken without a signal *)
Lemma early : forall c s r i, Inv c s -> s_main s = MFrame i -> i_written (s_info s) < f_lines c -> works r ->
  if i =? 0 then mruns c s [Spurious 1; Resume 1 r] = MUndef
  else exists s' ls, mruns c s [Spurious 1; Resume 1 r] = MGo s' /\ s_files s' = animation i (f_lines c) ++ [(i, ls)] /\ Z.of_nat (length ls) = i_written (s_info s).
Proof.
  intros c s r i (L0 & T & L) M W R. assert (T0 := T). unfold Th in T. rewrite M in T. cbn [holder held_by] in T. unfold LI in L. rewrite M in L. destruct L as (B & F & D & Z0 & P1 & P2).
  pose proof (T_pd _ _ _ _ _ _ T 1 ltac:(discriminate)) as P. destruct P as [P|P]; [|destruct (P2 P); lia].
  destruct (t_wake _ _ _ _ _ _ _ _ _ T P) as (w1 & S1 & T1 & Q1 & _). destruct (t_back _ _ _ _ _ T1 Q1 ltac:(discriminate)) as (w2 & S2 & T2 & _).
  cbn [mruns mstep]. erewrite lib_go by exact S1. change (1 =? 1) with true. cbv iota. cbn [set_tw s_main]. rewrite M. erewrite lib_go by exact S2. unfold main_write. cbn [set_tw s_info s_files s_bufs].
  assert (NF : exists x, In x (i_array (s_info s)) /\ is_line x = false).
  { destruct (existsb (fun x => negb (is_line x)) (i_array (s_info s))) eqn:E; [apply existsb_exists in E as (x & X1 & X2); exists x; split; [auto|]; destruct (is_line x); auto; discriminate|]. exfalso.
    assert (filter is_line (i_array (s_info s)) = i_array (s_info s)) by (apply filter_same; intros x X; destruct (is_line x) eqn:K; auto; assert (existsb (fun x => negb (is_line x)) (i_array (s_info s)) = true) by (apply existsb_exists; exists x; rewrite K; auto); congruence).
    pose proof (D_wr _ _ _ _ _ D) as WR. rewrite H, (D_len _ _ _ _ _ D) in WR. lia. }
  destruct NF as (x & X1 & X2). pose proof (D_junk _ _ _ _ _ D x X1 X2) as XJ. destruct (Z.eqb_spec i 0) as [E|E].
  - replace (existsb is_junk (i_array (s_info s))) with true; [reflexivity|]. symmetry. apply existsb_exists. exists x. split; [auto|]. subst x. auto.
  - replace (existsb is_junk (i_array (s_info s))) with false by (symmetry; destruct (existsb _ _) eqn:J; [|auto]; apply existsb_exists in J as (y & Y1 & Y2); destruct (is_line y) eqn:K; [destruct y; discriminate|]; pose proof (D_junk _ _ _ _ _ D y Y1 K) as YJ; rewrite (proj2 (Z.eqb_neq i 0) E) in YJ; subst y; discriminate).
    match goal with |- context [main_frame c r (i + 1) ?z] => destruct (frame_goes c r (i + 1) z z w2 R) as (s' & G1 & _ & G2 & _) end; [cbn [set_info set_bufs set_files set_tw s_main s_wk]; rewrite M; exact T2|reflexivity|reflexivity|].
    rewrite G1. exists s', (filter is_line (i_array (s_info s))). split; [reflexivity|]. split; [rewrite G2; cbn [set_info set_bufs set_files set_tw s_files]; rewrite F; auto|]. symmetry. apply D.
Qed.
