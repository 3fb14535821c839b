From Verif Require Import Base Status MemModel MemProofs Heap TabModel TabSpec TabProofs SchedModel SchedSpec.

Definition drop_codes (x : disc) : dd := DD (d_owned x) (d_id x) (d_ctx x) (d_cbs x).
Definition internals : list Z := [FN_RUN; FN_MAIN; FN_ADD_FIBER; FN_STOP; FN_RESOURCE_RELEASE].
Definition mgmt_dd : dd := DD true MANAGEMENT_ID SCHED_CTX [FN_RECEIVE; FN_QUIESCE; FN_TERMINATE; FN_QUIESCE_ALL; FN_TERMINATE_ALL].
(** An owned discipline's codes lead to its callbacks and its context. *)
Definition placed (g : reg) (x : disc) : Prop :=
  exists off, d_codes x = map (fun i => Z.of_nat (off + i)) (seq 0 (length (d_cbs x))) /\
    forall i fn, nth_error (d_cbs x) i = Some fn ->
      nth_error (g_cbs g) (off + i) = Some fn /\ nth_error (g_ctxs g) (off + i) = Some (d_ctx x).
Record reg_rel (g : reg) (ds : heap dd) (ids : list (Z * Z)) (n : Z) : Prop := RegRel
  { g_ids : g_discs g = ids;
    g_dd : ds = hmap drop_codes (g_heap g);
    g_wf : hwf (g_heap g);
    g_n : n = Z.of_nat (length (g_cbs g));
    g_small : n < 2^31;
    g_len : length (g_ctxs g) = length (g_cbs g);
    g_int : exists t u, g_cbs g = internals ++ t /\ g_ctxs g = repeat SCHED_CTX 5 ++ u;
    g_placed : forall d x, hget (g_heap g) d = Some x -> d_owned x = true -> placed g x;
    g_mgmt : hget ds MGMT_DISC = Some mgmt_dd }.
Definition who (x : bool * entry) : Z := fst (snd x).
Record Rel {T U} (TR : T -> list Z -> Prop) (w : sw T U) (a : ast U) : Prop := MkRel
  { r_rq : w_rq w = map who (a_ready a);
    r_nodup : NoDup (map who (a_ready a));
    r_ent : forall f d e p, In (f, (d, e, p)) (map snd (a_ready a)) -> exists b, hget (w_fibs w) f = Some b /\ f_disc b = d /\ f_event b = e /\ f_param b = p;
    r_life : a_life a = hmap f_state (w_fibs w);
    r_wf : hwf (w_fibs w);
    r_tab : TR (w_tab w) (a_known a);
    r_idle : w_idle w = a_idle a; r_main : w_main w = a_main a; r_mgmt : w_mgmt w = a_mgmt a; r_cur : w_cur w = a_cur a;
    r_al : w_al w = a_al a; r_rc : w_rc w = []; r_user : w_user w = a_user a;
    r_reg : reg_rel (w_reg w) (a_discs a) (a_ids a) (a_total a) }.

Ltac unset := unfold set_fibs, set_tab, set_reg, set_rq, set_idle, set_main, set_mgmt, set_cur, set_al, set_rc, set_user in *;
  cbn [w_fibs w_tab w_reg w_rq w_idle w_main w_mgmt w_cur w_al w_rc w_user] in *.
Ltac aunset := unfold al_set, life_set, known_set, idle_set, main_set, mgmt_set, user_set, discs_set in *;
  cbn [a_ready a_life a_known a_idle a_main a_mgmt a_cur a_discs a_ids a_total a_al a_user a_made a_ran] in *.

Lemma in_who : forall f x (l : list (bool * entry)), In (f, x) (map snd l) -> In f (map who l).
Proof. intros f x l H. apply in_map_iff in H as (y & E & H). apply in_map_iff. exists y. split; [unfold who; rewrite E; auto|auto]. Qed.
Lemma is_ready_in : forall U f (a : ast U), is_ready f a = true <-> In f (map who (a_ready a)).
Proof.
  intros. unfold is_ready. rewrite existsb_exists, in_map_iff. split.
  - intros (x & H & E). apply Z.eqb_eq in E. eauto.
  - intros (x & E & H). exists x. split; [auto|apply Z.eqb_eq; auto].
Qed.
Lemma is_ready_not : forall U f (a : ast U), is_ready f a = false <-> ~ In f (map who (a_ready a)).
Proof. intros. rewrite <- is_ready_in. destruct (is_ready f a); split; intros; congruence. Qed.
Lemma life_get : forall T U TR (w : sw T U) a f, Rel TR w a -> hget (a_life a) f = option_map f_state (hget (w_fibs w) f).
Proof. intros. rewrite (r_life _ _ _ H). apply hmap_get. Qed.
Lemma life_some : forall T U TR (w : sw T U) a f s, Rel TR w a -> hget (a_life a) f = Some s -> exists b, hget (w_fibs w) f = Some b /\ f_state b = s.
Proof. intros T U TR w a f s R H. rewrite (life_get _ _ _ _ _ _ R) in H. destruct (hget (w_fibs w) f) as [b|]; [|discriminate]. inversion H. eauto. Qed.

Lemma alloc_sim : forall T U TR (w : sw T U) a, Rel TR w a ->
  exists w', allocation w = (fst (alloc_spec a), w') /\ Rel TR w' (snd (alloc_spec a)).
Proof.
  intros T U TR w a R. unfold allocation, alloc_spec. rewrite (r_al _ _ _ R). destruct (a_al a) as [|e t]; cbn [fst snd]; [eauto|].
  eexists. split; [reflexivity|]. destruct R. constructor; unset; aunset; auto.
Qed.

Lemma set_restore_sim : forall T U TR (w : sw T U) a f b d e p, Rel TR w a -> hget (w_fibs w) f = Some b -> ~ In f (map who (a_ready a)) ->
  exists w', set_restore f d e p w = Some w' /\ Rel TR w' a /\ exists b', hget (w_fibs w') f = Some b' /\ f_disc b' = d /\ f_event b' = e /\ f_param b' = p.
Proof.
  intros T U TR w a f b d e p R B NI. unfold set_restore. rewrite B. eexists. split; [reflexivity|]. split.
  - destruct R. constructor; unset; auto.
    + intros g d' e' p' H. destruct (Z.eq_dec g f) as [->|N]; [exfalso; apply NI; eapply in_who; eauto|].
      rewrite hget_hset_other by auto. auto.
    + rewrite hmap_set. cbn [f_state]. rewrite r_life0. symmetry. apply hset_id. rewrite hmap_get, B. auto.
    + apply hset_wf. auto.
  - unset. exists (Fib (f_state b) d e p). split; [eapply hget_hset_same; eauto|auto].
Qed.
Lemma nodup_snoc : forall (l : list Z) x, NoDup l -> ~ In x l -> NoDup (l ++ [x]).
Proof.
  intros. rewrite <- (rev_involutive (l ++ [x])). apply NoDup_rev. rewrite rev_app_distr. cbn [rev app].
  constructor; [rewrite <- in_rev; auto|apply NoDup_rev; auto].
Qed.
Lemma push_sim : forall T U TR (w : sw T U) a front f d e p st a', Rel TR w a -> push front (f, (d, e, p)) a = Some (st, a') ->
  exists w', (if front then set_next f d e p w else add_to_run_queue f d e p w) = Some (st, w') /\ Rel TR w' a'.
Proof.
  intros T U TR w a front f d e p st a' R P. unfold push in P. cbn [fst] in P.
  destruct (hget (a_life a) f) as [s|] eqn:L; [|discriminate].
  destruct (life_some _ _ _ _ _ _ _ R L) as (b & B & Sb).
  destruct (s =? STOPPED) eqn:Es; [discriminate|]. destruct (is_ready f a) eqn:Er; [discriminate|]. cbn [orb] in P.
  apply is_ready_not in Er.
  destruct (set_restore_sim _ _ _ _ _ _ _ d e p R B Er) as (w1 & S1 & R1 & b1 & B1 & E1).
  destruct (alloc_sim _ _ _ _ _ R1) as (w2 & A2 & R2).
  assert (Hf : w_fibs w2 = w_fibs w1).
  { unfold allocation in A2. destruct (w_al w1); inversion A2; subst; unset; auto. }
  assert (Hr : a_ready (snd (alloc_spec a)) = a_ready a).
  { unfold alloc_spec. destruct (a_al a); auto. }
  unfold set_next, add_to_run_queue. rewrite S1, A2.
  destruct (alloc_spec a) as [ea a2] eqn:Ea. cbn [fst snd] in *.
  destruct (ok ea) eqn:O; cbn [negb] in P; inversion P; subst; clear P.
  - exists (set_rq (if front then f :: w_rq w2 else w_rq w2 ++ [f]) w2). split; [destruct front; auto|].
    destruct R2. constructor; unset; cbn [a_ready a_life a_known a_idle a_main a_mgmt a_cur a_discs a_ids a_total a_al a_user]; auto.
    + rewrite r_rq0. destruct front; cbn [map who fst snd]; [auto|]. rewrite map_app. auto.
    + rewrite Hr in r_nodup0 |- *. destruct front; cbn [map who fst snd]; [constructor; auto|]. rewrite map_app. cbn [map who fst snd]. apply nodup_snoc; auto.
    + intros g d' e' p' H. assert (K : (g, (d', e', p')) = (f, (d, e, p)) \/ In (g, (d', e', p')) (map snd (a_ready a2))).
      { destruct front; [destruct H; auto|]. rewrite map_app in H. apply in_app_iff in H as [H|[H|[]]]; auto. }
      destruct K as [K|K]; [|auto]. inversion K; subst. rewrite Hf. exists b1. auto.
  - exists w2. destruct front; auto.
Qed.
(** Several calls, up to the first failure. *)
Fixpoint perform {T U} (l : list (bool * entry)) (w : sw T U) : option (Z * sw T U) :=
  match l with
  | [] => Some (STATUS_SUCCESS, w)
  | (front, (f, (d, e, p))) :: t =>
      do '(st, w) <- (if front then set_next f d e p w else add_to_run_queue f d e p w);
      if negb (ok st) then Some (st, w) else perform t w
  end.
Lemma pushes_sim : forall T U TR l (w : sw T U) a st a', Rel TR w a -> pushes l a = Some (st, a') ->
  exists w', perform l w = Some (st, w') /\ Rel TR w' a'.
Proof.
  induction l as [|[front [f [[d e] p]]] l IH]; intros w a st a' R P; cbn [pushes perform] in *.
  { inversion P; subst. eauto. }
  destruct (push front (f, (d, e, p)) a) as [[e1 a1]|] eqn:E1; [|discriminate].
  destruct (push_sim _ _ _ _ _ _ _ _ _ _ _ _ R E1) as (w1 & W1 & R1). rewrite W1.
  destruct (ok e1) eqn:O; cbn [negb] in *; [eauto|]. inversion P; subst. eauto.
Qed.
(** Nothing that becomes ready changes the running fiber. *)
Lemma alloc_cur : forall U (a : ast U), a_cur (snd (alloc_spec a)) = a_cur a /\ a_mgmt (snd (alloc_spec a)) = a_mgmt a /\ a_known (snd (alloc_spec a)) = a_known a /\ a_life (snd (alloc_spec a)) = a_life a.
Proof. intros. unfold alloc_spec. destruct (a_al a); auto. Qed.
Lemma push_keeps : forall U front x (a : ast U) e a', push front x a = Some (e, a') ->
  a_cur a' = a_cur a /\ a_mgmt a' = a_mgmt a /\ a_known a' = a_known a /\ a_life a' = a_life a.
Proof.
  intros U front x a e a' P. unfold push in P. destruct (hget _ _); [|discriminate]. destruct (_ || _); [discriminate|].
  pose proof (alloc_cur U a) as C. destruct (alloc_spec a) as [ea a2]. cbn [snd] in C. destruct (ok ea); cbn [negb] in P; inversion P; subst; cbn; auto.
Qed.

Lemma go_sim : forall T U TR (w : sw T U) a f d e p ready ran o a', Rel TR w a -> go (f, (d, e, p)) ready ran a = Some (o, a') ->
  ~ In f (map who ready) -> NoDup (map who ready) -> (forall x, In x ready -> In x (a_ready a)) ->
  exists w', switch_to f d e p (set_rq (map who ready) w) = Some w' /\ running w' = Some (snd o) /\ fst o = STATUS_SUCCESS /\ Rel TR w' a'.
Proof.
  intros T U TR w a f d e p ready ran o a' R G NI ND IN. unfold go in G.
  destruct (hget (a_life a) f) as [s|] eqn:L; [|discriminate]. destruct (life_some _ _ _ _ _ _ _ R L) as (b & B & <-).
  unfold switch_to. unset. rewrite B. destruct (f_state b =? STOPPED); [discriminate|]. inversion G; subst; clear G.
  eexists. split; [reflexivity|]. unfold running. unset. rewrite (hget_hset_same _ _ _ _ B). cbn [f_disc f_event f_param fst snd].
  do 2 (split; [auto|]). destruct R. constructor; unset; cbn [a_ready a_life a_known a_idle a_main a_mgmt a_cur a_discs a_ids a_total a_al a_user]; auto.
  - intros g d' e' p' H. destruct (Z.eq_dec g f) as [->|N]; [exfalso; apply NI; eapply in_who; eauto|].
    rewrite hget_hset_other by auto. apply r_ent0. apply in_map_iff in H as (y & E & H). apply in_map_iff. eauto.
  - rewrite hmap_set, r_life0. auto.
  - apply hset_wf. auto.
Qed.

Lemma yield_sim : forall T U TR cl (w w1 : sw T U) a1 ev p fn cx e o a', 
  0 <= ev -> Z.of_nat (length (g_cbs (w_reg w))) < 2^64 ->
  nth_error (g_cbs (w_reg w)) (Z.to_nat ev) = Some fn -> nth_error (g_ctxs (w_reg w)) (Z.to_nat ev) = Some cx ->
  cl fn cx (w_cur w) ev p w = Some (e, w1) -> Rel TR w1 a1 -> resume (Some (e, a1)) = Some (o, a') ->
  exists w', switched (yield cl ev p w) = Some (o, w') /\ Rel TR w' a' /\ exists e', yield cl ev p w = Some (e', w') /\ ok e' = ok (fst o).
Proof.
  intros T U TR cl w w1 a1 ev p fn cx e o a' P0 PL N1 N2 C R G. unfold yield, sched_callback.
  assert (H : (Z.to_nat ev < length (g_cbs (w_reg w)))%nat) by (apply nth_error_Some; congruence).
  assert (Hs : to_size ev = ev) by (unfold to_size, wrap64; apply Z.mod_small; lia).
  rewrite Hs. replace (Z.of_nat (length (g_cbs (w_reg w))) <=? ev) with false by (symmetry; apply Z.leb_gt; lia).
  rewrite N1, N2, C. unfold resume in G. destruct (ok e) eqn:O; cbn [negb] in *.
  2:{ rewrite O. cbn [negb switched]. rewrite O. cbn [negb]. inversion G; subst. exists w1. split; [auto|]. split; [auto|]. exists e. auto. }
  unfold pick_next. rewrite (r_rq _ _ _ R). destruct (a_ready a1) as [|[fr [f [[d e'] p']]] t] eqn:Er; cbn [map who fst snd].
  - rewrite (r_idle _ _ _ R). destruct (a_idle a1 =? 0); cbn [negb].
    + cbn [ok]. change (ok ERROR_FIBER_SCHEDULER_EXHAUSTED) with false. cbn [negb switched].
      change (ok ERROR_FIBER_SCHEDULER_EXHAUSTED) with false. cbn [negb]. inversion G; subst. exists w1. split; [auto|]. split; [auto|]. exists ERROR_FIBER_SCHEDULER_EXHAUSTED. auto.
    + change (ok STATUS_SUCCESS) with true. cbn [negb].
      destruct (go_sim _ _ _ _ _ _ _ _ _ _ _ _ _ R G) as (w' & S1 & S2 & S3 & S4); cbn; auto; [constructor|tauto|].
      cbn [map] in S1. assert (Hw : set_rq [] w1 = w1).
      { pose proof (r_rq _ _ _ R) as Q. rewrite Er in Q. cbn in Q. destruct w1. unset. congruence. }
      rewrite Hw in S1. rewrite S1. cbn [switched]. change (ok STATUS_SUCCESS) with true. cbn [negb]. rewrite S2.
      exists w'. destruct o as [o1 o2]. cbn [fst snd] in *. subst o1. split; [auto|]. split; [auto|]. exists STATUS_SUCCESS. auto.
  - assert (Hrc : reclaim (set_rq (map who t) w1) = (STATUS_SUCCESS, set_rq (map who t) w1)).
    { unfold reclaim. unset. rewrite (r_rc _ _ _ R). auto. }
    rewrite Hrc. change (ok STATUS_SUCCESS) with true. cbn iota.
    destruct (r_ent _ _ _ R f d e' p') as (b & B & <- & <- & <-); [rewrite Er; left; auto|]. unset. rewrite B.
    change (ok STATUS_SUCCESS) with true. cbn [negb].
    pose proof (r_nodup _ _ _ R) as ND. rewrite Er in ND. cbn [map who fst snd] in ND. inversion ND; subst.
    destruct (go_sim _ _ _ _ _ _ _ _ _ _ _ _ _ R G) as (w' & S1 & S2 & S3 & S4); auto; [rewrite Er; right; auto|].
    unset. rewrite S1. cbn [switched]. change (ok STATUS_SUCCESS) with true. cbn [negb]. rewrite S2.
    exists w'. destruct o as [o1 o2]. cbn [fst snd] in *. subst o1. split; [auto|]. split; [auto|]. exists STATUS_SUCCESS. auto.
Qed.

Lemma push_status : forall U front x (a : ast U) e a', push front x a = Some (e, a') -> ok e = true -> e = STATUS_SUCCESS.
Proof. intros. apply ok_true in H0. auto. Qed.
Lemma tell_sim : forall T U TR (w : sw T U) a ev f e a', Rel TR w a -> tell ev f a = Some (e, a') -> exists w',
  (if negb (w_mgmt w =? 0) then
     do '(e, w) <- set_next (w_mgmt w) MANAGEMENT_ID ev f w;
     if negb (ok e) then Some (e, w) else Some (STATUS_SUCCESS, set_mgmt 0 w)
   else Some (STATUS_SUCCESS, w)) = Some (e, w') /\ Rel TR w' a'.
Proof.
  intros T U TR w a ev f e a' R H. unfold tell in H. rewrite (r_mgmt _ _ _ R). destruct (a_mgmt a =? 0); cbn [negb].
  { inversion H; subst. eauto. }
  destruct (push true _ a) as [[e1 a1]|] eqn:P; [|discriminate].
  destruct (push_sim _ _ _ _ _ _ _ _ _ _ _ _ R P) as (w1 & W & R1). rewrite W.
  destruct (ok e1) eqn:O; cbn [negb]; inversion H; subst; [|eauto].
  apply ok_true in O. subst. eexists. split; [reflexivity|]. destruct R1. constructor; unset; aunset; auto.
Qed.
Lemma allocation_tab : forall T U (w : sw T U), w_tab (snd (allocation w)) = w_tab w /\ (w_al w = [] -> w_al (snd (allocation w)) = []).
Proof. intros T U w. unfold allocation. destruct (w_al w) eqn:E; cbn [snd]; auto. split; [reflexivity|discriminate]. Qed.
Lemma queue_tab : forall T U f d e p (w : sw T U) st w', add_to_run_queue f d e p w = Some (st, w') -> w_tab w' = w_tab w /\ (w_al w = [] -> st = STATUS_SUCCESS).
Proof.
  intros T U f d e p w st w' H. unfold add_to_run_queue, set_restore, allocation in H. destruct (hget (w_fibs w) f); [|discriminate].
  cbn [set_fibs w_al] in H. destruct (w_al w) as [|x l] eqn:E; cbn iota beta in H.
  - inversion H; subst. auto.
  - destruct (ok x); inversion H; subst; (split; [reflexivity|discriminate]).
Qed.
Lemma join_sim : forall T U (ts : tops T) TR dels Q (w : sw T U) a f ev e a', tab_ok ts TR Q -> (dels = true -> removal ts Q (SAdd f) w) -> Rel TR w a -> join dels f a = Some (e, a') ->
  exists w', add_fiber_handler ts SCHED_CTX (w_cur w) ev f w = Some (e, w') /\ Rel TR w' a'.
Proof.
  intros T U ts TR dels Q w a f ev e a' PT RM R H. unfold join in H. destruct (zmem f (a_known a)) eqn:Z0; [discriminate|].
  destruct (hget (a_life a) f) as [s|] eqn:L; [|discriminate].
  destruct (life_some _ _ _ _ _ _ _ R L) as (b & B & Sb).
  assert (F0 : f <> 0).
  { eapply hget_nonnull; [apply (r_wf _ _ _ R)|exact B]. }
  unfold add_fiber_handler, on_ctx. rewrite Z.eqb_refl, B. clear B b Sb.
  destruct (alloc_sim _ _ _ _ _ R) as (w1 & A1 & R1). rewrite A1.
  assert (Hc : w_cur w = a_cur a) by apply (r_cur _ _ _ R).
  pose proof (alloc_cur U a) as (C1 & C2 & C3 & C4).
  destruct (alloc_spec a) as [ea a1]. cbn [fst snd] in *.
  destruct (tb_insert _ _ _ PT ea _ _ f (r_tab _ _ _ R1) F0) as (t1 & I1 & T1). rewrite I1.
  destruct (ok ea) eqn:O1; cbn [negb] in H.
  2:{ rewrite O1. cbn [negb]. inversion H; subst. eexists. split; [reflexivity|]. destruct R1. constructor; unset; auto. }
  change (ok STATUS_SUCCESS) with true. cbn [negb].
  assert (R2 : Rel TR (set_tab t1 w1) (known_set (zput f (a_known a1)) a1)).
  { destruct R1. constructor; unset; aunset; auto. }
  destruct (push false _ _) as [[e2 a2]|] eqn:P2; [|discriminate].
  destruct (push_sim _ _ _ _ _ _ _ _ _ _ _ _ R2 P2) as (w2 & W2 & R3). rewrite W2.
  destruct (push_keeps _ _ _ _ _ _ P2) as (K1 & K2 & K3 & K4). aunset.
  destruct (ok e2) eqn:O2; cbn [negb] in *.
  2:{ destruct dels; [|discriminate].
      apply queue_tab in W2 as [TB1 TB2]. pose proof (allocation_tab _ _ w) as (TB3 & TB4). rewrite A1 in TB3, TB4. cbn [fst snd] in *. cbn [set_tab w_tab w_al] in TB1, TB2.
      assert (Q3 : Q (w_tab w2) f).
      { rewrite TB1. destruct (RM eq_refl) as [AL|RM']; [|rewrite TB3 in I1; eapply RM'; exact I1]. exfalso. rewrite TB2 in O2 by auto. discriminate. }
      destruct (tb_delete _ _ _ PT _ _ f (r_tab _ _ _ R3) Q3) as (t3 & D3 & T3). rewrite D3.
      assert (M : zmem f (a_known a2) = true).
      { rewrite K3. apply zmem_in, zput_in. auto. }
      rewrite M. change (ok STATUS_SUCCESS) with true. cbn [negb]. inversion H; subst.
      eexists. split; [reflexivity|]. destruct R3. constructor; unset; aunset; auto. }
  destruct (push true (a_cur a2, _) a2) as [[e3 a3]|] eqn:P3; [|discriminate].
  destruct (push_sim _ _ _ _ _ _ _ _ _ _ _ _ R3 P3) as (w3 & W3 & R4).
  replace (w_cur w) with (a_cur a2) by congruence. rewrite W3.
  destruct (ok e3) eqn:O3; cbn [negb] in *; [|inversion H; subst; eauto].
  apply (tell_sim _ _ _ _ _ _ _ _ _ R4 H).
Qed.
Lemma request_loop_sim : forall T U TR req tl fs (w : sw T U) a e a', Rel TR w a ->
  (forall f, In f fs -> f <> 0 /\ In f (addrs (a_life a))) ->
  pushes (map (fun f => (false, (f, (MANAGEMENT_ID, req, 0))))
    (filter (fun f => match hget (a_life a) f with Some s => s =? RUNNING | None => false end && negb (f =? a_cur a) && negb (f =? a_mgmt a)) fs) ++ tl) a = Some (e, a') ->
  exists w', (do '(e, w1) <- request_loop req (w_cur w) fs w; if negb (ok e) then Some (e, w1) else perform tl w1) = Some (e, w') /\ Rel TR w' a'.
Proof.
  induction fs as [|f fs IH]; intros w a e a' R A P; cbn [request_loop filter] in *.
  { change (ok STATUS_SUCCESS) with true. cbn [negb map app] in *. apply (pushes_sim _ _ _ _ _ _ _ _ R P). }
  destruct (A f) as (F0 & FL); [left; auto|].
  assert (A' : forall g, In g fs -> g <> 0 /\ In g (addrs (a_life a))) by (intros; apply A; right; auto).
  apply Z.eqb_neq in F0. rewrite F0. cbn [negb andb].
  destruct (hget (a_life a) f) as [s|] eqn:L; [|exfalso; apply hget_none in L; auto].
  destruct (life_some _ _ _ _ _ _ _ R L) as (b & B & Sb). rewrite B, Sb.
  rewrite (r_cur _ _ _ R), (r_mgmt _ _ _ R), (Z.eqb_sym (a_cur a) f), (Z.eqb_sym (a_mgmt a) f).
  destruct (s =? RUNNING) eqn:Rn; cbn [andb] in P.
  2:{ destruct (negb (f =? a_cur a) && negb (f =? a_mgmt a)); rewrite <- (r_cur _ _ _ R); apply (IH w a); auto. }
  destruct (f =? a_cur a); cbn [negb andb] in *; [rewrite <- (r_cur _ _ _ R); apply (IH w a); auto|].
  destruct (f =? a_mgmt a); cbn [negb andb] in *; [rewrite <- (r_cur _ _ _ R); apply (IH w a); auto|].
  cbn [map app pushes] in P. destruct (push false _ a) as [[e1 a1]|] eqn:P1; [|discriminate].
  destruct (push_sim _ _ _ _ _ _ _ _ _ _ _ _ R P1) as (w1 & W1 & R1). rewrite W1.
  destruct (push_keeps _ _ _ _ _ _ P1) as (K1 & K2 & K3 & K4).
  destruct (ok e1) eqn:O1; cbn [negb] in *.
  2:{ rewrite O1. cbn [negb]. inversion P; subst. eauto. }
  rewrite <- K1, <- (r_cur _ _ _ R1). apply (IH w1 a1); auto; [rewrite K4; auto|]. rewrite K1, K2, K4. auto.
Qed.

Lemma rel_reg : forall T U TR (w : sw T U) a, Rel TR w a -> Z.of_nat (length (g_cbs (w_reg w))) < 2^31.
Proof. intros T U TR w a R. pose proof (r_reg _ _ _ R) as G. rewrite <- (g_n _ _ _ _ G). apply (g_small _ _ _ _ G). Qed.
Lemma internal_sim : forall T U TR cl (w w1 : sw T U) a a1 ev p e o a', Rel TR w a -> (ev < 5)%nat ->
  cl (nth ev internals 0) SCHED_CTX (w_cur w) (Z.of_nat ev) p w = Some (e, w1) -> Rel TR w1 a1 -> resume (Some (e, a1)) = Some (o, a') ->
  exists w', switched (yield cl (Z.of_nat ev) p w) = Some (o, w') /\ Rel TR w' a' /\ exists e', yield cl (Z.of_nat ev) p w = Some (e', w') /\ ok e' = ok (fst o).
Proof.
  intros T U TR cl w w1 a a1 ev p e o a' R E C R1 H.
  pose proof (rel_reg _ _ _ _ _ R) as S0. destruct (g_int _ _ _ _ (r_reg _ _ _ R)) as (t & u & G1 & G2).
  eapply (yield_sim _ _ _ _ w w1 a1 (Z.of_nat ev) p (nth ev internals 0) SCHED_CTX e o a'); auto; [lia|lia| |]; rewrite Nat2Z.id.
  - rewrite G1, nth_error_app1 by (cbn; lia). apply nth_error_nth'. cbn. lia.
  - rewrite G2, nth_error_app1 by (cbn; lia). do 5 (destruct ev as [|ev]; [reflexivity|]). lia.
Qed.
Lemma placed_len : forall g y, placed g y -> (length (d_cbs y) <= length (g_cbs g))%nat.
Proof.
  intros g y (off & _ & Pl). destruct (Nat.le_gt_cases (length (d_cbs y)) (length (g_cbs g))) as [K|K]; auto.
  destruct (nth_error (d_cbs y) (length (g_cbs g))) as [f|] eqn:K2; [|apply nth_error_None in K2; lia].
  destruct (Pl _ _ K2) as (K3 & _). assert (off + length (g_cbs g) < length (g_cbs g))%nat by (apply nth_error_Some; congruence). lia.
Qed.
Lemma dyield_eq : forall T U TR cl (w : sw T U) a d x ev p fn, Rel TR w a -> hget (a_discs a) d = Some x -> dd_owned x = true ->
  0 <= ev -> nth_error (dd_cbs x) (Z.to_nat ev) = Some fn ->
  exists c, 0 <= c /\ discipline_yield cl d ev p w = yield cl c p w /\
    nth_error (g_cbs (w_reg w)) (Z.to_nat c) = Some fn /\ nth_error (g_ctxs (w_reg w)) (Z.to_nat c) = Some (dd_ctx x).
Proof.
  intros T U TR cl w a d x ev p fn R X Ow P0 N. pose proof (r_reg _ _ _ R) as G. pose proof (rel_reg _ _ _ _ _ R) as S0.
  rewrite (g_dd _ _ _ _ G), hmap_get in X. destruct (hget (g_heap (w_reg w)) d) as [y|] eqn:Y; [|discriminate].
  cbn [option_map] in X. inversion X; subst; clear X. cbn [dd_owned dd_cbs dd_ctx drop_codes] in *.
  destruct (g_placed _ _ _ _ G _ _ Y Ow) as (off & Co & Pl). destruct (Pl _ _ N) as (N1 & N2).
  assert (L1 : (off + Z.to_nat ev < length (g_cbs (w_reg w)))%nat) by (apply nth_error_Some; congruence).
  assert (L2 : (Z.to_nat ev < length (d_cbs y))%nat) by (apply nth_error_Some; congruence).
  exists (Z.of_nat (off + Z.to_nat ev)). split; [lia|]. rewrite Nat2Z.id. split; [|auto].
  unfold discipline_yield. rewrite Y, Ow, Co.
  assert (D : length (d_cbs y) = length (d_codes y)) by (rewrite Co, map_length, seq_length; auto).
  assert (E : nth_error (map (fun i => Z.of_nat (off + i)) (seq 0 (length (d_cbs y)))) (Z.to_nat ev) = Some (Z.of_nat (off + Z.to_nat ev))).
  { rewrite nth_error_map. rewrite (nth_error_nth' (seq 0 (length (d_cbs y))) 0%nat) by (rewrite seq_length; auto).
    rewrite seq_nth by auto. auto. }
  rewrite E.
  assert (B1 : (length (d_cbs y) <= length (g_cbs (w_reg w)))%nat) by (apply placed_len; exists off; auto).
  unfold to_size, to_int, wrap64. rewrite Z.mod_small by lia.
  replace (Z.of_nat (length (d_cbs y)) <? ev) with false by (symmetry; apply Z.ltb_ge; lia).
  replace (Z.of_nat (off + Z.to_nat ev) <? 2^31) with true by (symmetry; apply Z.ltb_lt; lia). auto.
Qed.
Lemma dyield_sim : forall T U TR cl (w w1 : sw T U) a a1 d x ev p fn e o a', Rel TR w a -> hget (a_discs a) d = Some x -> dd_owned x = true ->
  0 <= ev -> nth_error (dd_cbs x) (Z.to_nat ev) = Some fn ->
  (forall c, cl fn (dd_ctx x) (w_cur w) c p w = Some (e, w1)) -> Rel TR w1 a1 -> resume (Some (e, a1)) = Some (o, a') ->
  exists w', switched (discipline_yield cl d ev p w) = Some (o, w') /\ Rel TR w' a'.
Proof.
  intros T U TR cl w w1 a a1 d x ev p fn e o a' R X Ow P0 N C R1 H. pose proof (rel_reg _ _ _ _ _ R) as S0.
  destruct (dyield_eq _ _ _ cl _ _ _ _ _ p _ R X Ow P0 N) as (c & C0 & C1 & C2 & C3). rewrite C1.
  destruct (yield_sim _ _ TR cl w w1 a1 c p fn (dd_ctx x) e o a') as (w' & A & B & _); auto; [lia|]. eauto.
Qed.
Lemma mgmt_sim : forall T U TR (ts : tops T) ext (w w1 : sw T U) a a1 ev p fn e o a', Rel TR w a -> 0 <= ev ->
  nth_error (dd_cbs mgmt_dd) (Z.to_nat ev) = Some fn ->
  (forall c, call ts ext fn SCHED_CTX (w_cur w) c p w = Some (e, w1)) -> Rel TR w1 a1 -> resume (Some (e, a1)) = Some (o, a') ->
  exists w', switched (discipline_yield (call ts ext) MGMT_DISC ev p w) = Some (o, w') /\ Rel TR w' a'.
Proof.
  intros. pose proof (g_mgmt _ _ _ _ (r_reg _ _ _ H)) as M.
  apply (dyield_sim _ _ TR _ w w1 a a1 MGMT_DISC mgmt_dd ev p fn e o a'); auto.
Qed.
Lemma call_user : forall T U (ts : tops T) (ext : Z -> handler T U) fn, user_fn fn = true -> call ts ext fn = ext fn.
Proof.
  intros T U ts ext fn H. unfold user_fn, FN_RUN, FN_TERMINATE_ALL in H. unfold call.
  unfold FN_RUN, FN_MAIN, FN_ADD_FIBER, FN_STOP, FN_RESOURCE_RELEASE, FN_RECEIVE, FN_QUIESCE, FN_TERMINATE, FN_QUIESCE_ALL, FN_TERMINATE_ALL.
  apply orb_true_iff in H. rewrite !Z.ltb_lt in H.
  repeat (match goal with |- context [fn =? ?k] => replace (fn =? k) with false by (symmetry; apply Z.eqb_neq; lia) end). auto.
Qed.
Lemma rel_user : forall T U TR (w : sw T U) a u, Rel TR w a -> Rel TR (set_user u w) (user_set u a).
Proof. intros T U TR w a u R. destruct R. constructor; unset; aunset; auto. Qed.

Lemma placed_mono : forall g y ds h t u, placed g y -> placed (Reg ds h (g_cbs g ++ t) (g_ctxs g ++ u)) y.
Proof.
  intros g y ds h t u (off & C & Pl). exists off. split; [auto|]. intros i fn N. destruct (Pl _ _ N) as (A & B). cbn [g_cbs g_ctxs].
  split; rewrite nth_error_app1; auto; apply nth_error_Some; congruence.
Qed.
Lemma disc_add_sim : forall T U TR (w : sw T U) a d o a', Rel TR w a ->
  astep true (fun _ _ _ _ => HRet 0) (SDiscAdd d) a = Some (o, a') -> exists w', stayed (discipline_add d w) = Some (o, w') /\ Rel TR w' a'.
Proof.
  intros T U TR w a d o a' R H. cbn [astep] in H. unfold discipline_add.
  destruct (hget (a_discs a) d) as [x|] eqn:X; [|discriminate].
  pose proof (r_reg _ _ _ R) as G. pose proof X as X'. rewrite (g_dd _ _ _ _ G), hmap_get in X'.
  destruct (hget (g_heap (w_reg w)) d) as [y|] eqn:Y; [|discriminate]. cbn [option_map] in X'. inversion X'; subst x; clear X'.
  cbn [dd_owned dd_id dd_ctx dd_cbs drop_codes] in *. rewrite (g_ids _ _ _ _ G).
  destruct (d_owned y) eqn:Ow; [inversion H; subst; eexists; split; [reflexivity|auto]|].
  destruct (existsb _ _); [inversion H; subst; eexists; split; [reflexivity|auto]|].
  destruct (alloc_sim _ _ _ _ _ R) as (w1 & A1 & R1). rewrite A1.
  assert (Q1 : w_reg w1 = w_reg w) by (unfold allocation in A1; destruct (w_al w); inversion A1; subst; auto).
  assert (D1 : a_discs (snd (alloc_spec a)) = a_discs a) by (unfold alloc_spec; destruct (a_al a); auto).
  destruct (alloc_spec a) as [e1 a1]. cbn [fst snd] in *.
  destruct (ok e1); cbn [negb] in *; [|inversion H; subst; eexists; split; [reflexivity|auto]].
  set (w2 := set_reg _ w1). set (a2 := discs_set _ _ _ a1) in H.
  assert (R2 : Rel TR w2 a2).
  { unfold w2, a2. destruct R1. constructor; unset; aunset; auto. destruct r_reg0. constructor; cbn [g_discs g_heap g_cbs g_ctxs]; auto; congruence. }
  destruct (alloc_sim _ _ _ _ _ R2) as (w3 & A3 & R3). rewrite A3.
  assert (Q3 : w_reg w3 = w_reg w2) by (unfold allocation in A3; destruct (w_al w2); inversion A3; subst; auto).
  assert (D3 : a_discs (snd (alloc_spec a2)) = a_discs a2) by (unfold alloc_spec; destruct (a_al a2); auto).
  destruct (alloc_spec a2) as [e3 a3]. cbn [fst snd] in *.
  destruct (ok e3); cbn [negb] in *; [|inversion H; subst; eexists; split; [reflexivity|auto]].
  destruct (alloc_sim _ _ _ _ _ R3) as (w4 & A4 & R4). rewrite A4.
  assert (Q4 : w_reg w4 = w_reg w3) by (unfold allocation in A4; destruct (w_al w3); inversion A4; subst; auto).
  assert (D4 : a_discs (snd (alloc_spec a3)) = a_discs a3) by (unfold alloc_spec; destruct (a_al a3); auto).
  destruct (alloc_spec a3) as [e4 a4]. cbn [fst snd] in *.
  destruct (ok e4); cbn [negb] in *; [|inversion H; subst; eexists; split; [reflexivity|auto]].
  destruct (a_total a4 + Z.of_nat (length (d_cbs y)) <? 2^31) eqn:Sm; [|discriminate]. apply Z.ltb_lt in Sm. inversion H; subst; clear H.
  eexists. split; [reflexivity|].
  assert (Y4 : hget (g_heap (w_reg w4)) d = Some y) by (rewrite Q4, Q3; unfold w2; unset; cbn [g_heap]; rewrite Q1; auto).
  destruct R4. constructor; unset; aunset; auto. destruct r_reg0. constructor; cbn [g_discs g_heap g_cbs g_ctxs]; auto.
  - rewrite hmap_set, g_dd0. auto.
  - apply hset_wf. auto.
  - rewrite app_length. lia.
  - rewrite !app_length, map_length. lia.
  - destruct g_int0 as (t & u & I1 & I2). rewrite I1, I2, <- !app_assoc. eauto.
  - intros d' x. rewrite hget_hset, Y4. destruct (Z.eqb_spec d' d) as [->|N]; [|intros K1 K2; apply placed_mono; eauto].
    intros K _. inversion K; subst. exists (length (g_cbs (w_reg w4))). cbn [d_codes d_cbs g_cbs g_ctxs d_ctx]. split.
    + apply map_ext_in. intros i Hi. apply in_seq in Hi. unfold wrap32. rewrite Z.mod_small by lia. lia.
    + intros i fn Hn. rewrite <- g_len0 at 2. rewrite !nth_error_app2 by lia.
      replace (length (g_cbs (w_reg w4)) + i - length (g_cbs (w_reg w4)))%nat with i by lia.
      replace (length (g_ctxs (w_reg w4)) + i - length (g_ctxs (w_reg w4)))%nat with i by lia. split; [auto|].
      rewrite nth_error_map, Hn. auto.
  - rewrite hget_hset_other; auto. intros E. subst d.
    rewrite g_dd0, hmap_get, Y4 in g_mgmt0. cbn in g_mgmt0. inversion g_mgmt0. congruence.
Qed.
(** One call of the running fiber. *)
Lemma happly_sim : forall T U TR (c : hprog U) (w : sw T U) a e a', Rel TR w a -> happly c a = Some (e, a') ->
  exists w', hrun c w = Some (e, w') /\ Rel TR w' a'.
Proof.
  intros T U TR. induction c as [e|front [f [[d ev] p]] k IH|k IH|k IH|k IH|u k IH|]; intros w a st a' R P; cbn [happly hrun] in *.
  - inversion P; subst. eauto.
  - destruct (push front (f, (d, ev, p)) a) as [[e1 a1]|] eqn:E1; [|discriminate].
    destruct (push_sim _ _ _ _ _ _ _ _ _ _ _ _ R E1) as (w1 & W1 & R1). rewrite W1. eauto.
  - pose proof (alloc_sim _ _ _ _ _ R) as A. destruct (alloc_spec a) as [e1 a1]. cbn [fst snd] in A. destruct A as (w1 & W1 & R1). rewrite W1. eauto.
  - unfold reclaim. rewrite (r_rc _ _ _ R). eauto.
  - rewrite (r_user _ _ _ R). eauto.
  - eapply IH; [|eauto]. apply rel_user. auto.
  - discriminate.
Qed.
Lemma step_sim_q : forall T U (ts : tops T) TR dels Q ac (w : sw T U) a p o a', tab_ok ts TR Q -> (dels = true -> removal ts Q p w) -> Rel TR w a -> astep dels ac p a = Some (o, a') ->
  exists w', sexec ts ac p w = Some (o, w') /\ Rel TR w' a'.
Proof.
  intros T U ts TR dels Q ac w a p o a' PT RM R H. pose proof (r_cur _ _ _ R) as Hc. destruct p; cbn [astep sexec] in *.
  - (* SNew *) destruct ((f =? 0) || zmem f (addrs (a_life a))) eqn:E; [discriminate|]. inversion H; subst; clear H.
    apply orb_false_iff in E as [E1 E2]. apply Z.eqb_neq in E1. apply zmem_not in E2.
    rewrite (r_life _ _ _ R), hmap_addrs in E2. apply hget_none in E2.
    eexists. split; [reflexivity|]. unfold new_fiber. destruct R. constructor; unset; aunset; auto.
    + intros g d e q H. destruct (r_ent0 _ _ _ _ H) as (b & B & X). exists b. split; [|auto].
      rewrite hget_hadd_other; auto. intros ->. congruence.
    + rewrite r_life0. reflexivity.
    + apply hadd_wf; auto.
  - (* SAdd *) destruct (join dels f a) as [[e a1]|] eqn:J; [|discriminate].
    destruct (join_sim _ _ _ _ _ _ _ _ _ YIELD_ADD_FIBER _ _ PT RM R J) as (w1 & W1 & R1).
    destruct (internal_sim _ _ TR (call ts (ext_of ac)) w w1 a a1 2%nat f e o a' R) as (w' & A & B & _); auto; eauto.
  - (* SRun *) destruct (if a_cur a =? a_idle a then _ else _) as [[e a1]|] eqn:J; [|discriminate].
    assert (K : exists w1, run_handler SCHED_CTX (w_cur w) 0 0 w = Some (e, w1) /\ Rel TR w1 a1).
    { unfold run_handler, on_ctx. rewrite Z.eqb_refl, Hc, (r_idle _ _ _ R). destruct (a_cur a =? a_idle a); [inversion J; subst; eauto|].
      apply (push_sim _ _ _ _ _ false _ _ _ _ _ _ R J). }
    destruct K as (w1 & W1 & R1).
    destruct (internal_sim _ _ TR (call ts (ext_of ac)) w w1 a a1 0%nat 0 e o a' R) as (w' & A & B & _); auto; try lia; eauto.
  - (* SStop *) destruct (hget (a_life a) (a_cur a)) as [s|] eqn:L; [|discriminate].
    destruct (life_some _ _ _ _ _ _ _ R L) as (b & B & Sb).
    unfold fiber_stop. rewrite Hc, B.
    set (w0 := set_fibs _ w).
    assert (R0 : Rel TR w0 (life_set (hset (a_life a) (a_cur a) STOPPED) a)).
    { unfold w0. destruct R. constructor; unset; aunset; auto.
      - intros g d e q K. destruct (r_ent0 _ _ _ _ K) as (b' & B' & X1 & X2 & X3). rewrite hget_hset. destruct (Z.eqb_spec g (a_cur a)) as [->|N].
        + rewrite B in *. inversion B'; subst b'. eexists. split; [reflexivity|auto].
        + eauto.
      - rewrite r_life0, hmap_set. auto.
      - apply hset_wf. auto. }
    destruct (tell MGMT_FIBER_STOP (a_cur a) _) as [[e a1]|] eqn:J; [|discriminate].
    destruct (tell_sim _ _ _ _ _ _ _ _ _ R0 J) as (w1 & W1 & R1).
    destruct (resume (Some (e, a1))) as [[o1 a2]|] eqn:Rs; [|discriminate].
    assert (Hc0 : w_cur w0 = a_cur a) by (unfold w0; unset; auto).
    destruct (internal_sim _ _ TR (call ts (ext_of ac)) w0 w1 _ a1 3%nat 0 e o1 a2 R0) as (w' & A & Bw & e' & Ye & Oe); auto.
    { cbn [nth internals]. change (call ts (ext_of ac) FN_STOP) with (@stop_handler T U). unfold stop_handler, on_ctx. rewrite Z.eqb_refl, Hc0. auto. }
    change YIELD_STOP with (Z.of_nat 3). rewrite Ye. destruct (ok (fst o1)) eqn:O1; [|discriminate]. inversion H; subst. rewrite Oe. cbn [negb].
    exists w'. split; [|auto]. rewrite Ye in A. auto.
  - (* SMain *) destruct (push true _ _) as [[e a1]|] eqn:J; [|discriminate].
    assert (R0 : Rel TR (set_main (a_cur a) w) (main_set (a_cur a) a)).
    { destruct R. constructor; unset; aunset; auto. }
    destruct (push_sim _ _ _ _ _ true _ _ _ _ _ _ R0 J) as (w1 & W1 & R1).
    destruct (internal_sim _ _ TR (call ts (ext_of ac)) w w1 a a1 1%nat 0 e o a' R) as (w' & A & B & _); auto; try lia; [|exists w'; split; [exact A|exact B]].
    cbn [nth internals]. change (call ts (ext_of ac) FN_MAIN) with (@main_handler T U). unfold main_handler, on_ctx. rewrite Z.eqb_refl, Hc. auto.
  - (* SWake *) destruct (push true _ _) as [[e a1]|] eqn:J; [|discriminate].
    destruct (push_sim _ _ _ _ _ true _ _ _ _ _ _ R J) as (w1 & W1 & R1).
    destruct (internal_sim _ _ TR (call ts (ext_of ac)) w w1 a a1 4%nat 0 e o a' R) as (w' & A & B & _); auto; try lia; [|exists w'; split; [exact A|exact B]].
    cbn [nth internals]. change (call ts (ext_of ac) FN_RESOURCE_RELEASE) with (@resource_release_handler T U). unfold resource_release_handler, on_ctx. rewrite Z.eqb_refl, Hc. auto.
  - (* SReceive *)
    apply (mgmt_sim _ _ TR ts (ext_of ac) w (set_mgmt (a_cur a) w) a (mgmt_set (a_cur a) a) 0 0 FN_RECEIVE STATUS_SUCCESS o a' R); auto; [lia| |].
    + intros c. change (call ts (ext_of ac) FN_RECEIVE) with (@receive_handler T U). unfold receive_handler, on_ctx. rewrite Z.eqb_refl, Hc. auto.
    + destruct R. constructor; unset; aunset; auto.
  - (* SRequest *)
    destruct (hget (a_life a) f) as [s|] eqn:L; [|discriminate]. destruct (life_some _ _ _ _ _ _ _ R L) as (b & B & Sb).
    destruct (if s =? RUNNING then _ else _) as [[e a1]|] eqn:J; [|discriminate].
    assert (K : exists w1, (forall c, request_handler (request_event term) SCHED_CTX (w_cur w) c f w = Some (e, w1)) /\ Rel TR w1 a1).
    { unfold request_handler, on_ctx. rewrite Z.eqb_refl, B, Sb. destruct (s =? RUNNING); cbn [negb].
      - destruct (pushes_sim _ _ _ _ _ _ _ _ R J) as (w1 & W1 & R1). cbn [perform] in W1. exists w1. split; [intros _|auto].
        rewrite Hc. destruct (set_next (a_cur a) _ _ _ w) as [[e2 w2]|]; [|discriminate]. destruct (negb (ok e2)); [auto|].
        destruct (set_next f _ _ _ w2) as [[e3 w3]|]; [|discriminate]. auto.
      - destruct (push_sim _ _ _ _ _ true _ _ _ _ _ _ R J) as (w1 & W1 & R1). exists w1. split; [intros _|auto].
        rewrite Hc, W1. destruct (ok e) eqn:O; cbn [negb]; auto. apply ok_true in O. subst. auto. }
    destruct K as (w1 & W1 & R1). destruct term.
    + apply (mgmt_sim _ _ TR ts (ext_of ac) w w1 a a1 2 f FN_TERMINATE e o a' R); auto; lia.
    + apply (mgmt_sim _ _ TR ts (ext_of ac) w w1 a a1 1 f FN_QUIESCE e o a' R); auto; lia.
  - (* SRequestAll *)
    destruct (forallb _ (a_known a)) eqn:A; [|discriminate]. rewrite forallb_forall in A.
    destruct (pushes _ a) as [[e a1]|] eqn:J; [|discriminate].
    assert (K : exists w1, (forall c, request_all_handler ts (request_event term) SCHED_CTX (w_cur w) c 0 w = Some (e, w1)) /\ Rel TR w1 a1).
    { unfold targets in J. apply (request_loop_sim _ _ _ _ _ _ _ _ _ _ R) in J.
      2:{ intros f F. specialize (A f F). apply andb_true_iff in A as [A1 A2]. apply zmem_in in A1. apply negb_true_iff, Z.eqb_neq in A2. auto. }
      destruct J as (w1 & W1 & R1). exists w1. split; [intros c|auto]. unfold request_all_handler, on_ctx. rewrite Z.eqb_refl.
      rewrite (tb_elems _ _ _ PT _ _ (r_tab _ _ _ R)).
      destruct (request_loop _ _ _ w) as [[e2 w2]|]; [|discriminate]. destruct (negb (ok e2)); [auto|].
      cbn [perform] in W1. rewrite Hc. destruct (add_to_run_queue (a_cur a) _ _ _ w2) as [[e3 w3]|]; [|discriminate].
      destruct (ok e3) eqn:O; cbn [negb] in W1; auto. apply ok_true in O. subst. auto. }
    destruct K as (w1 & W1 & R1). destruct term.
    + apply (mgmt_sim _ _ TR ts (ext_of ac) w w1 a a1 4 0 FN_TERMINATE_ALL e o a' R); auto; lia.
    + apply (mgmt_sim _ _ TR ts (ext_of ac) w w1 a a1 3 0 FN_QUIESCE_ALL e o a' R); auto; lia.
  - (* SRemove *) destruct dels; [|discriminate]. inversion H; subst; clear H. unfold remove_fiber.
    destruct (tb_delete _ _ _ PT _ _ f (r_tab _ _ _ R) (RM eq_refl)) as (t & D & T1). rewrite D. eexists. split; [reflexivity|].
    destruct R. constructor; unset; aunset; auto.
  - (* SFree *) destruct (is_ready f a || _) eqn:E; [discriminate|]. inversion H; subst; clear H.
    apply orb_false_iff in E as [E1 E2]. apply is_ready_not in E1. apply negb_false_iff, zmem_in in E2.
    destruct (hget (a_life a) f) as [s|] eqn:L; [|apply hget_none in L; contradiction].
    destruct (life_some _ _ _ _ _ _ _ R L) as (b & B & _). unfold release_fiber. rewrite B. eexists. split; [reflexivity|].
    destruct R. constructor; unset; aunset; auto.
    + intros g d e q H. destruct (r_ent0 _ _ _ _ H) as (b' & B' & X). exists b'. split; [|auto]. rewrite hget_hdel_other; auto.
      intros ->. apply E1. eapply in_who; eauto.
    + rewrite r_life0, hmap_del. auto.
    + apply hdel_wf. auto.
  - (* SIdle *) inversion H; subst. eexists. split; [reflexivity|]. destruct R. constructor; unset; aunset; auto.
  - (* SDisc *) destruct (_ || _) eqn:E; [discriminate|]. inversion H; subst; clear H.
    apply orb_false_iff in E as [E1 E2]. apply Z.eqb_neq in E1. apply zmem_not in E2.
    rewrite (g_dd _ _ _ _ (r_reg _ _ _ R)), hmap_addrs in E2. apply hget_none in E2.
    eexists. split; [reflexivity|]. destruct R. constructor; unset; aunset; auto.
    destruct r_reg0. constructor; cbn [g_discs g_heap g_cbs g_ctxs]; auto.
    + rewrite g_dd0. reflexivity.
    + apply hadd_wf; auto.
    + intros d' x. rewrite hget_hadd. destruct (d' =? d); [intros X; inversion X; subst; discriminate|]. apply g_placed0.
    + rewrite hget_hadd_other; auto. intros K. subst d. rewrite g_dd0, hmap_get, E2 in g_mgmt0. discriminate.
  - (* SDiscAdd *) apply (disc_add_sim _ _ _ _ _ _ _ _ R H).
  - (* SDiscFind *) unfold discipline_find. rewrite (g_ids _ _ _ _ (r_reg _ _ _ R)). destruct (find _ (a_ids a)); inversion H; subst; eauto.
  - (* SYield *)
    destruct (hget (a_discs a) d) as [x|] eqn:X; [|discriminate].
    destruct (_ || _) eqn:E in H; [discriminate|].
    apply orb_false_iff in E as [E E4]. apply orb_false_iff in E as [E E3]. apply orb_false_iff in E as [E1 E2].
    apply Z.ltb_ge in E1. apply Z.leb_gt in E2. apply Z.eqb_neq in E3. apply negb_false_iff in E4.
    pose proof (rel_reg _ _ _ _ _ R) as S0.
    destruct ((ev <? 0) || _) eqn:E5.
    + inversion H; subst; clear H. exists w. split; [|auto]. unfold discipline_yield.
      pose proof X as X'. rewrite (g_dd _ _ _ _ (r_reg _ _ _ R)), hmap_get in X'. destruct (hget (g_heap (w_reg w)) d) as [y|] eqn:Y; [|discriminate].
      cbn [option_map] in X'. inversion X'; subst; clear X'. cbn [dd_owned dd_cbs dd_ctx drop_codes] in *.
      replace (Z.of_nat (length (d_cbs y)) <? to_size ev) with true; [auto|]. symmetry. apply Z.ltb_lt. unfold to_size, wrap64.
      apply orb_true_iff in E5. rewrite !Z.ltb_lt in E5. destruct (Z.lt_ge_cases ev 0) as [K|K].
      * rewrite <- (Z.mod_unique ev (2^64) (-1) (ev + 2^64)) by lia.
        pose proof (placed_len _ _ (g_placed _ _ _ _ (r_reg _ _ _ R) _ _ Y E4)). lia.
      * rewrite Z.mod_small by lia. lia.
    + apply orb_false_iff in E5 as [E5 E6]. apply Z.ltb_ge in E5. 
      destruct (nth_error (dd_cbs x) (Z.to_nat ev)) as [fn|] eqn:N; [|discriminate].
      destruct (user_fn fn) eqn:F; [|discriminate]. cbn [negb] in H.
      destruct (happly (ac fn (dd_ctx x) (a_cur a) p) a) as [[e a1]|] eqn:J; [|discriminate].
      destruct (happly_sim _ _ _ _ _ _ _ _ R J) as (w1 & W1 & R1).
      apply (dyield_sim _ _ TR _ w w1 a a1 d x ev p fn e o a'); auto.
      intros c. rewrite call_user by auto. unfold ext_of. rewrite Hc. auto.
  - destruct (happly (ac fn cx (a_cur a) p) a) as [[e a1]|] eqn:J; [|discriminate].
    destruct (happly_sim _ _ _ _ _ _ _ _ R J) as (w1 & W1 & R1). inversion H; subst.
    exists w1. rewrite Hc, W1. split; [reflexivity|auto].
Qed.
Lemma step_sim : forall T U (ts : tops T) TR dels ac (w : sw T U) a p o a', tab_ok ts TR (fun _ _ => dels = true) -> Rel TR w a -> astep dels ac p a = Some (o, a') ->
  exists w', sexec ts ac p w = Some (o, w') /\ Rel TR w' a'.
Proof. intros T U ts TR dels ac w a p o a' PT R H. eapply step_sim_q; eauto. intros E. destruct p; cbn [removal]; auto. Qed.

