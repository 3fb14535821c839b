From Verif Require Import Base Status MemModel MemProofs Heap ThreadModel ThreadSpec ThreadProofs MandModel MandSpec MandProofs MandInv.

Definition goes (c : conf) (s : mst) (x : mev) : Prop := exists s', mstep c s x = MGo s' /\ tran c s s' x /\ Th c s'.
Lemma lib_go : forall x s k w o, tstep (s_tw s) x = Go w o -> lib x s k = k o (set_tw w s).
Proof. intros x s k w o H. unfold lib. rewrite H. auto. Qed.
Lemma works_e : forall r, works r -> r_lock r = 0 /\ r_unlock r = 0 /\ r_wait r = 0 /\ r_signal r = 0 /\ r_malloc r = true. Proof. auto. Qed.

(** The loop of a worker that holds the lock. *)
Lemma loop_goes : forall c r t s0 s w1, works r -> TI c w1 (s_main s) (s_wk s) (Some t) t -> infn (s_wk s t) -> s_tw s = w1 -> s_wk s = s_wk s0 ->
  exists s', worker_loop c r t s = MGo s' /\ TI c (s_tw s') (s_main s) (s_wk s') None 0 /\ s_main s' = s_main s /\ s_files s' = s_files s /\
    (forall u, u <> t -> pd s' u = hget (w_pend w1) u) /\ turn c t (s_info s) (s_bufs s) s0 s'.
Proof.
  intros c r t s0 s w1 (RL & RU & RW & RS & RM) T I <- E0. unfold worker_loop. destruct (i_done (s_info s)) eqn:DN.
  - destruct (t_wait _ _ _ _ _ T I) as (w' & S1 & T' & P1 & P2). unfold worker_wait. rewrite RW. erewrite lib_go by exact S1. cbv beta iota. eexists. split; [reflexivity|]. cbn [set_wk set_tw s_tw s_main s_wk s_files]. split; [exact T'|]. split; [auto|]. split; [auto|]. split; [exact P2|].
    left. split; [auto|]. cbn [set_wk set_tw s_info s_bufs s_wk]. split; [destruct (s_info s); cbn in *; subst; auto|]. split; [auto|]. split; [rewrite E0; auto|]. exact P1.
  - destruct (Z.ltb_spec (i_curr (s_info s)) (f_lines c)) as [LT|GE].
    + rewrite RM, RU. destruct (t_unlock _ _ _ _ _ (i_curr (s_info s)) true T I) as (w' & S1 & T' & P). erewrite lib_go by exact S1. cbv beta iota. cbn [status_of]. change (ok STATUS_SUCCESS) with true. cbn [negb].
      eexists. split; [reflexivity|]. cbn [set_wk set_tw set_bufs set_info s_tw s_main s_wk s_files]. split; [exact T'|]. split; [auto|]. split; [auto|]. unfold pd. cbn [set_wk set_tw set_bufs set_info s_tw]. split; [intros u _; rewrite P; auto|].
      right. split; [auto|]. split; [auto|]. cbn [set_wk set_tw set_bufs set_info s_info s_bufs s_wk]. split; [unfold taken; rewrite DN; auto|]. split; [auto|]. split; [rewrite E0; auto|]. unfold pd. cbn. rewrite P. apply (T_run _ _ _ _ _ _ T t eq_refl).
    + destruct (t_wait _ _ _ _ _ T I) as (w' & S1 & T' & P1 & P2). unfold worker_wait. rewrite RW. erewrite lib_go by exact S1. cbv beta iota. eexists. split; [reflexivity|]. cbn [finish set_info set_wk set_tw s_tw s_main s_wk s_files]. split; [exact T'|]. split; [auto|]. split; [auto|]. split; [exact P2|].
      left. split; [auto|]. cbn [finish set_info set_wk set_tw s_info s_bufs s_wk]. split; [auto|]. split; [auto|]. split; [rewrite E0; auto|]. exact P1.
Qed.
(** A frame of the main thread, which holds the lock. *)
Lemma frame_goes : forall c r i s0 s w1, works r -> TI c w1 (s_main s) (s_wk s) (Some 1) 1 -> s_tw s = w1 -> (forall u, u <> 1 -> hget (w_pend w1) u = pd s0 u) ->
  exists s', main_frame c r i s = MGo s' /\ Th c s' /\ s_files s' = s_files s /\ s_bufs s' = s_bufs s /\ s_wk s' = s_wk s /\ fresh c i (s_info s) s0 s'.
Proof.
  intros c r i s0 s w1 (RL & RU & RW & RS & RM) T <- P0. unfold main_frame. destruct (Z.ltb_spec i (f_frames c)) as [LT|GE].
  - destruct (t_signal_all _ _ _ _ T) as (w2 & S1 & T2 & P2). destruct (t_mwait _ _ _ _ i T2) as (w3 & S2 & T3 & P3 & P4). rewrite RS, RW. erewrite lib_go by exact S1. cbn [status_of]. change (ok STATUS_SUCCESS) with true. cbn [negb].
    erewrite lib_go by exact S2. cbv beta iota. eexists. split; [reflexivity|]. unfold Th. cbn [set_main set_tw set_info s_tw s_main s_wk s_files s_bufs holder held_by]. split; [exact T3|]. do 3 (split; [auto|]). left. split; [auto|]. split; [auto|]. split; [auto|]. split; [exact P3|].
    intros u U. unfold pd at 1. cbn [set_main set_tw set_info s_tw]. rewrite P4, P2, P0; auto.
  - eexists. split; [reflexivity|]. unfold Th. cbn [set_main s_tw s_main s_wk s_files s_bufs holder held_by]. split.
    { destruct T as [W M C1 C2 NE P R MA K1 K0 PC]. constructor; auto. intros u X. specialize (P u X). unfold pdspec in P |- *. destruct (Z.eqb_spec u 1) as [E|N]; [destruct X; rewrite E; reflexivity|exact P]. }
    do 3 (split; [auto|]). right. split; [auto|]. split; [auto|]. split; [auto|]. intros u U. unfold pd at 1. cbn [set_main s_tw]. auto.
Qed.

Lemma step_begin : forall c s t, Th c s -> s_wk s t = Some WBegin -> goes c s (Begin t).
Proof.
  intros c s t T B. unfold Th in T. assert (N : t <> 1) by (intros ->; rewrite (T_wk1 _ _ _ _ _ _ T) in B; discriminate).
  assert (X : holder (s_main s) <> Some t) by (destruct (s_main s); cbn; congruence).
  destruct (t_begin _ _ _ _ _ _ _ T X B) as (w1 & o & w' & S1 & S2 & T' & P). unfold goes. cbn [mstep]. rewrite (proj2 (Z.eqb_neq t 1) N), B. erewrite lib_go by exact S1. erewrite lib_go by exact S2. cbv beta. eexists. split; [reflexivity|]. split; [|exact T'].
  apply tr_begin; auto.
Qed.
Lemma step_mbegin : forall c s, Th c s -> s_main s = MStart -> goes c s (Begin 1).
Proof.
  intros c s T M. unfold Th in T. rewrite M in T. destruct (t_mbegin _ _ _ T) as (w' & S1 & T' & P). unfold goes. cbn [mstep]. change (1 =? 1) with true. cbv iota. rewrite M. erewrite lib_go by exact S1. eexists. split; [reflexivity|]. split; [|exact T']. apply tr_mbegin; auto.
Qed.
Lemma step_draw : forall c s t l, Th c s -> s_wk s t = Some (WDraw l true) -> goes c s (Draw t).
Proof.
  intros c s t l T B. unfold Th in T. assert (N : t <> 1) by (intros ->; rewrite (T_wk1 _ _ _ _ _ _ T) in B; discriminate).
  assert (X : holder (s_main s) <> Some t) by (destruct (s_main s); cbn; congruence).
  destruct (t_draw _ _ _ _ _ _ _ _ _ (i_frame (s_info s)) T X B) as (w' & S1 & T' & P). unfold goes. cbn [mstep]. rewrite B. cbn [negb]. erewrite lib_go by exact S1. cbv beta. eexists. split; [reflexivity|]. split; [|exact T'].
  eapply tr_draw; eauto.
Qed.
Lemma step_enter : forall c s t r, Th c s -> works r -> holder (s_main s) = None -> s_wk s t = Some WLock -> goes c s (Resume t r).
Proof.
  intros c s t r T (RL & RU & RW & RS & RM) NE B. unfold Th in T. rewrite NE in T. assert (HB : held_by (s_main s) = 0) by (destruct (s_main s); auto; discriminate). rewrite HB in T. assert (I : infn (s_wk s t)) by (rewrite B; exact Logic.I). destruct (infn_t _ _ _ _ _ _ _ T I) as [N N0].
  pose proof (T_pd _ _ _ _ _ _ T t ltac:(discriminate)) as PD. unfold pdspec in PD. rewrite (proj2 (Z.eqb_neq t 1) N), B in PD.
  destruct (t_locked _ _ _ _ _ T PD N0) as (w1 & S1 & T1 & P1). destruct (t_wait _ _ _ _ _ T1 I) as (w2 & S2 & T2 & P2 & P3). unfold goes. cbn [mstep]. rewrite (proj2 (Z.eqb_neq t 1) N), B, RL. erewrite lib_go by exact S1. cbn [status_of]. change (ok STATUS_SUCCESS) with true. cbn [negb].
  unfold worker_wait. rewrite RW. erewrite lib_go by exact S2. cbv beta iota. eexists. split; [reflexivity|]. unfold Th. cbn [set_wk set_tw s_tw s_main s_wk]. rewrite NE, HB. split; [|exact T2].
  apply tr_enter; auto. intros u U. unfold pd. cbn [set_wk set_tw s_tw]. rewrite P3, P1; auto.
Qed.
Lemma step_turn : forall c s t r, Th c s -> works r -> holder (s_main s) = None -> i_quiesce (s_info s) = false -> s_wk s t = Some WWait -> pd s t = Some (PdBack (f_mu c)) -> goes c s (Resume t r).
Proof.
  intros c s t r T R NE Q B PD. unfold Th in T. rewrite NE in T. assert (HB : held_by (s_main s) = 0) by (destruct (s_main s); auto; discriminate). rewrite HB in T. assert (I : infn (s_wk s t)) by (rewrite B; exact Logic.I). destruct (infn_t _ _ _ _ _ _ _ T I) as [N N0].
  destruct (t_back _ _ _ _ _ T PD N0) as (w1 & S1 & T1 & P1). unfold goes. cbn [mstep]. rewrite (proj2 (Z.eqb_neq t 1) N), B. erewrite lib_go by exact S1. cbn [set_tw s_info]. rewrite Q.
  destruct (loop_goes c r t s (set_tw w1 s) w1 R T1 I eq_refl eq_refl) as (s' & E & T2 & M' & F' & P2 & TU). exists s'. split; [exact E|]. cbn [set_tw s_main s_files s_info s_bufs] in *. split; [|unfold Th; rewrite M', NE, HB; exact T2].
  apply tr_turn; auto. intros u U. rewrite P2, P1; auto.
Qed.
Lemma step_save : forall c s t r l i, Th c s -> works r -> s_main s = MFrame i -> DI c i (s_info s) (s_wk s) (s_bufs s) -> s_wk s t = Some (WSave l i) ->
  (i_written (s_info s) + 1 = f_lines c -> pd s 1 = Some (PdWait (f_mc c) (f_mu c))) ->
  mstep c s (Resume t r) <> MUndef /\ (forall s', mstep c s (Resume t r) = MGo s' -> tran c s s' (Resume t r) /\ Th c s') /\
  (r_woken r = [1] -> goes c s (Resume t r)).
Proof.
  intros c s t r l i T R M D B W1. unfold Th in T. rewrite M in T. cbn [holder held_by] in T. assert (I : infn (s_wk s t)) by (rewrite B; exact Logic.I). destruct (infn_t _ _ _ _ _ _ _ T I) as [N N0].
  pose proof (T_pd _ _ _ _ _ _ T t ltac:(discriminate)) as PD. unfold pdspec in PD. rewrite (proj2 (Z.eqb_neq t 1) N), B in PD.
  destruct (t_locked _ _ _ _ _ T PD N0) as (w1 & S1 & T1 & P1). destruct (DI_save _ _ _ _ _ _ _ D B) as (a & E & L0 & D').
  unfold goes. cbn [mstep]. rewrite (proj2 (Z.eqb_neq t 1) N), B. rewrite (proj1 R). erewrite lib_go by exact S1. cbn [status_of]. change (ok STATUS_SUCCESS) with true. cbn [negb]. unfold worker_save. cbn [set_tw s_info].
  rewrite (proj2 (Z.ltb_ge l 0) L0), E. destruct (Z.eqb_spec (i_written (s_info s) + 1) (f_lines c)) as [EQ|NQ].
  - assert (H1 : hget (w_pend w1) 1 = Some (PdWait (f_mc c) (f_mu c))) by (rewrite P1 by auto; apply W1; auto).
    destruct (t_signal _ _ _ _ _ (r_woken r) T1 I H1) as (U1 & U2 & U3). destruct R as (RL & RU & RW & RS & RM). rewrite RS. unfold lib. cbn [finish set_info set_tw s_tw].
    destruct (tstep w1 (CoSignal t (f_mu c) (f_mc c) 0 (r_woken r))) as [| |w2 o] eqn:SG; [congruence| |].
    { split; [discriminate|]. split; [discriminate|]. intros K. destruct (U2 K eq_refl). }
    destruct (U3 w2 o eq_refl) as (-> & T2 & Q1 & Q2). cbn [status_of]. change (ok STATUS_SUCCESS) with true. cbn [negb].
    match goal with |- context [worker_loop c r t ?x] => set (s2 := x) end.
    destruct (loop_goes c r t s s2 w2) as (s' & E' & T3 & M' & F' & P3 & TU); [repeat split; auto|change (s_main s2) with (s_main s); change (s_wk s2) with (s_wk s); rewrite M; exact T2|exact I|reflexivity|reflexivity|].
    change (s_main s2) with (s_main s) in M', T3. change (s_files s2) with (s_files s) in F'. change (s_bufs s2) with (s_bufs s) in TU. rewrite M in M'.
    assert (G : tran c s s' (Resume t r) /\ Th c s').
    { split; [|unfold Th; rewrite M'; cbn [holder held_by]; rewrite M in T3; exact T3]. eapply (tr_last c s s' t r l i a); eauto.
      - rewrite P3 by auto. auto.
      - intros u U U'. rewrite P3, Q2, P1; auto. }
    rewrite E'. split; [discriminate|]. split; [intros s'' [= <-]; exact G|]. intros _. exists s'. split; [reflexivity|exact G].
  - match goal with |- context [worker_loop c r t ?x] => set (s2 := x) end.
    destruct (loop_goes c r t s s2 w1) as (s' & E' & T3 & M' & F' & P3 & TU); [auto|change (s_main s2) with (s_main s); change (s_wk s2) with (s_wk s); rewrite M; exact T1|exact I|reflexivity|reflexivity|].
    change (s_main s2) with (s_main s) in M', T3. change (s_files s2) with (s_files s) in F'. change (s_bufs s2) with (s_bufs s) in TU. rewrite M in M'.
    assert (G : tran c s s' (Resume t r) /\ Th c s').
    { split; [|unfold Th; rewrite M'; cbn [holder held_by]; rewrite M in T3; exact T3]. eapply (tr_save c s s' t r l i a); eauto. intros u U. rewrite P3, P1; auto. }
    rewrite E'. split; [discriminate|]. split; [intros s'' [= <-]; exact G|]. intros _. exists s'. split; [reflexivity|exact G].
Qed.
Lemma step_first : forall c s r, Th c s -> works r -> s_main s = MLock -> goes c s (Resume 1 r).
Proof.
  intros c s r T R M. unfold Th in T. rewrite M in T. cbn [holder held_by] in T. pose proof (T_pd _ _ _ _ _ _ T 1 ltac:(discriminate)) as PD. change (pdspec c MLock (s_wk s) 1 (hget (w_pend (s_tw s)) 1)) with (hget (w_pend (s_tw s)) 1 = Some (PdLock (f_mu c))) in PD.
  destruct (t_locked _ _ _ _ _ T PD ltac:(discriminate)) as (w1 & S1 & T1 & P1). unfold goes. cbn [mstep]. change (1 =? 1) with true. cbv iota. rewrite M, (proj1 R). erewrite lib_go by exact S1. cbn [status_of]. change (ok STATUS_SUCCESS) with true. cbn [negb].
  destruct (frame_goes c r 0 s (set_tw w1 s) w1 R) as (s' & E & T2 & F & B & K & FR); [cbn [set_tw s_main s_wk]; rewrite M; exact T1|reflexivity|intros u U; rewrite P1 by auto; reflexivity|].
  exists s'. split; [exact E|]. split; [|exact T2]. apply tr_first; auto.
Qed.
Lemma step_next : forall c s r i, Th c s -> works r -> s_main s = MFrame i -> DI c i (s_info s) (s_wk s) (s_bufs s) -> pd s 1 = Some (PdBack (f_mu c)) -> i_written (s_info s) = f_lines c -> goes c s (Resume 1 r).
Proof.
  intros c s r i T R M D PD W. unfold Th in T. rewrite M in T. cbn [holder held_by] in T. destruct (t_back _ _ _ _ _ T PD ltac:(discriminate)) as (w1 & S1 & T1 & P1).
  unfold goes. cbn [mstep]. change (1 =? 1) with true. cbv iota. rewrite M. erewrite lib_go by exact S1.
  destruct (write_full c i s D W) as (s1 & E & E1 & E2 & E3 & E4 & E5 & E6). destruct (write_full c i (set_tw w1 s) D W) as (s2 & E' & E1' & E2' & E3' & E4' & E5' & E6'). rewrite E'.
  destruct (frame_goes c r (i + 1) s s2 w1 R) as (s' & EE & T2 & F & B & K & FR); [rewrite E5', E6'; cbn [set_tw s_main s_wk]; rewrite M; exact T1|exact E4'|intros u U; rewrite P1 by auto; reflexivity|].
  exists s'. split; [exact EE|]. split; [|exact T2]. eapply (tr_next c s s' r i s1); auto.
  - rewrite F, E1', E1. reflexivity.
  - rewrite B, E2', E2. reflexivity.
  - rewrite K, E6'. reflexivity.
  - rewrite E3. rewrite E3' in FR. exact FR.
Qed.
Lemma step_wake : forall c s t d l, Th c s -> pd s t = Some (PdWait d l) -> goes c s (Spurious t).
Proof.
  intros c s t d l T PD. unfold Th in T. destruct (t_wake _ _ _ _ _ _ _ _ _ T PD) as (w' & S1 & T' & P1 & P2). unfold goes. cbn [mstep]. erewrite lib_go by exact S1. eexists. split; [reflexivity|]. split; [|exact T'].
  assert (l = f_mu c) as ->. { assert (X : holder (s_main s) <> Some t) by (intros K; unfold pd in PD; rewrite (T_run _ _ _ _ _ _ T t K) in PD; discriminate). pose proof (T_pd _ _ _ _ _ _ T t X) as Q. unfold pd in PD. rewrite PD in Q. apply pd_wait in Q as [-> _]. auto. }
  eapply (tr_wake c s (set_tw w' s) t d); auto.
Qed.

(** Every calm step is a transition. *)
Lemma step_all : forall c s x, Inv c s -> calm x -> mstep c s x <> MUndef /\ forall s', mstep c s x = MGo s' -> tran c s s' x /\ Inv c s'.
Proof.
  intros c s x (L0 & T & L) C.
  assert (SP : forall t, x = Spurious t -> t <> 1) by (intros t ->; exact C).
  assert (GO : goes c s x -> mstep c s x <> MUndef /\ forall s', mstep c s x = MGo s' -> tran c s s' x /\ Inv c s').
  { intros (s1 & E & TR & T'). rewrite E. split; [discriminate|]. intros s' K. inversion K; subst s'. split; [exact TR|]. split; [exact L0|]. split; [exact T'|]. exact (tran_LI c s s1 x L0 T L TR SP). }
  assert (ST : mstep c s x = MStuck -> mstep c s x <> MUndef /\ forall s', mstep c s x = MGo s' -> tran c s s' x /\ Inv c s') by (intros ->; split; discriminate).
  destruct x as [t|t|t r|t].
  - destruct (Z.eqb_spec t 1) as [->|N].
    + destruct (s_main s) eqn:M; try (apply ST; cbn [mstep]; change (1 =? 1) with true; cbv iota; rewrite M; reflexivity). apply GO, step_mbegin; auto.
    + destruct (s_wk s t) as [[]|] eqn:B; try (apply ST; cbn [mstep]; rewrite (proj2 (Z.eqb_neq t 1) N), B; reflexivity). apply GO, step_begin; auto.
  - destruct (s_wk s t) as [[| | |l b| |]|] eqn:B; try (apply ST; cbn [mstep]; rewrite B; reflexivity).
    assert (A : at_line (s_wk s t) = Some l) by (rewrite B; auto). assert (b = true) as ->.
    { unfold LI, idle in L. destruct (s_main s); [destruct L as (_ & _ & _ & I); rewrite I in A; discriminate A|destruct L as (_ & _ & _ & I); rewrite I in A; discriminate A| |destruct L|destruct L as (_ & _ & _ & I & _); rewrite I in A; discriminate A].
      destruct L as (_ & _ & D & _). pose proof (D_kind _ _ _ _ _ D t) as K. rewrite B in K. exact K. }
    apply GO. eapply step_draw; eauto.
  - cbn [calm] in C. destruct (Z.eqb_spec t 1) as [->|N].
    + destruct (s_main s) as [| |i| |] eqn:M; try (apply ST; cbn [mstep]; change (1 =? 1) with true; cbv iota; rewrite M; reflexivity).
      * apply GO, step_first; auto.
      * unfold LI in L. rewrite M in L. destruct L as (? & ? & D & _ & P1 & P2). pose proof T as T0. unfold Th in T0. rewrite M in T0. cbn [holder held_by] in T0. pose proof (T_pd _ _ _ _ _ _ T0 1 ltac:(discriminate)) as PD.
        destruct PD as [PD|PD].
        -- apply ST. cbn [mstep]. change (1 =? 1) with true. cbv iota. rewrite M. unfold lib. cbn [tstep]. rewrite PD. reflexivity.
        -- apply GO. eapply step_next; eauto. apply P2; auto.
    + assert (HH : holder (s_main s) = None \/ s_main s = MEnd 0).
      { unfold LI in L. destruct (s_main s); auto. destruct L as (-> & _). auto. }
      assert (ENDED : s_main s = MEnd 0 -> w_mu (s_tw s) (f_mu c) = Some (Some 1)) by (intros M; pose proof T as T0; unfold Th in T0; rewrite M in T0; apply T0).
      assert (X : holder (s_main s) <> Some t) by (destruct (s_main s); cbn; congruence). pose proof (T_pd _ _ _ _ _ _ T t X) as PD. unfold pdspec in PD. rewrite (proj2 (Z.eqb_neq t 1) N) in PD.
      destruct (s_wk s t) as [[| | |l b|l f|e]|] eqn:B; try (apply ST; cbn [mstep]; rewrite (proj2 (Z.eqb_neq t 1) N), B; reflexivity).
      * destruct HH as [NE|M]; [apply GO, step_enter; auto|]. apply ST. cbn [mstep]. rewrite (proj2 (Z.eqb_neq t 1) N), B. unfold lib. cbn [tstep]. rewrite PD, (ENDED M), (proj1 C). reflexivity.
      * destruct PD as [PD|PD].
        -- apply ST. cbn [mstep]. rewrite (proj2 (Z.eqb_neq t 1) N), B. unfold lib. cbn [tstep]. rewrite PD. reflexivity.
        -- destruct HH as [NE|M].
           ++ apply GO, step_turn; auto. unfold LI in L. destruct (s_main s); [destruct L as (-> & _); auto|destruct L as (-> & _); auto| |destruct L|discriminate]. destruct L as (_ & _ & D & _). apply D.
           ++ apply ST. cbn [mstep]. rewrite (proj2 (Z.eqb_neq t 1) N), B. unfold lib. cbn [tstep]. rewrite PD, (ENDED M). reflexivity.
      * assert (A : at_line (s_wk s t) = Some l) by (rewrite B; auto).
        destruct (s_main s) as [| |i| |] eqn:M; try (unfold LI, idle in L; rewrite M in L; exfalso; destruct L as (_ & _ & _ & I); rewrite I in A; discriminate A); try (unfold LI, idle in L; rewrite M in L; exfalso; destruct L as (_ & _ & _ & I & _); rewrite I in A; discriminate A); [|unfold LI in L; rewrite M in L; destruct L].
        pose proof L as L'. unfold LI in L'. rewrite M in L'. destruct L' as (? & ? & D & _ & P1 & P2). pose proof (D_kind _ _ _ _ _ D t) as K. rewrite B in K. subst f.
        assert (W1 : i_written (s_info s) + 1 = f_lines c -> pd s 1 = Some (PdWait (f_mc c) (f_mu c))).
        { intros W. unfold Th in T. rewrite M in T. cbn [holder held_by] in T. destruct (T_pd _ _ _ _ _ _ T 1 ltac:(discriminate)) as [PP|PP]; [exact PP|]. destruct (P2 PP). lia. }
        destruct (step_save c s t r l i T C M D B W1) as (U1 & U2 & _). split; [exact U1|]. intros s' E. destruct (U2 s' E) as [TR T']. split; [exact TR|]. split; [exact L0|]. split; [exact T'|]. exact (tran_LI c s s' _ L0 T L TR SP).
  - cbn [calm] in C. destruct (pd s t) as [[|d l| |]|] eqn:PD; try (apply ST; cbn [mstep]; unfold lib; cbn [tstep]; unfold pd in PD; rewrite PD; reflexivity). apply GO. eapply step_wake; eauto.
Qed.
