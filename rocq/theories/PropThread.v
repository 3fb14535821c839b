(** C47, C56: threads, locks and conditions. *)
From Verif Require Import Base Status MemModel MemSpec MemProofs Heap ThreadModel ThreadSpec ThreadProofs.

(** Releasing a thread returns what its function returned, which it did before, or the
    error of the join, or that of the reclaim. *)
Theorem C47_status : forall es t jn rc os w, truns tw0 (es ++ [ThJoined t jn rc]) = Some (os, w) ->
  exists os1 e, os = os1 ++ [Ret e None] /\ let tr := combine es os1 in
  exists p pid, releasing tr t = Some p /\ created_at tr p = Some pid /\
    (rc <> STATUS_SUCCESS -> e = rc) /\ (rc = STATUS_SUCCESS -> jn <> 0 -> e = ERROR_THREAD_JOIN) /\
    (jn = 0 -> exited tr pid = true /\ exists v, returned tr pid = [v] /\ (rc = STATUS_SUCCESS -> e = v)).
Proof.
  intros es t jn rc os w H. apply truns_snoc in H as (os1 & w1 & o & A & B & ->). apply run_rel in A as [(W & T & _) _].
  cbn [tstep] in B. destruct (hget (w_pend w1) t) as [[| | |p pid]|] eqn:G; try discriminate. destruct (_ && _) eqn:D; [discriminate|]. destruct (w_th w1 p) as [s|] eqn:TH0; [|discriminate]. inversion B; subst; clear B.
  exists os1, (thread_status jn (t_exit s) rc). split; [auto|]. cbv zeta. assert (JG : jv (hget (w_pend w1) t) = Some (p, pid)) by (rewrite G; auto).
  destruct (R_joins _ _ _ T _ _ _ JG) as (PN & s' & E1 & E2). assert (s' = s) as -> by congruence. destruct (R_th _ _ _ T _ _ TH0 ltac:(congruence)) as (C1 & pc & C2 & C3 & C4 & C5).
  exists p, pid. split; [rewrite (R_join _ _ _ T), JG; auto|]. split; [congruence|]. unfold thread_status. split; [intros K; apply ok_false in K; rewrite K; auto|].
  split; [intros -> K; apply Z.eqb_neq in K; rewrite K; reflexivity|]. intros ->. cbn [Z.eqb andb] in D. rewrite E2 in C2, C4. rewrite (R_done _ _ _ T), C2 in *. destruct pc; try discriminate D. split; [auto|]. exists (t_exit s). split; [exact C4|]. intros ->. reflexivity.
Qed.
(** It waits for the thread, and no longer: a join without error ends exactly if the thread
    has ended. *)
Theorem C47_waits : forall es os w t p pid rc, truns tw0 es = Some (os, w) -> let tr := combine es os in
  releasing tr t = Some p -> created_at tr p = Some pid ->
  (exited tr pid = false -> tstep w (ThJoined t 0 rc) = Stuck) /\ (exited tr pid = true -> exists w' e, tstep w (ThJoined t 0 rc) = Go w' (Ret e None)) /\
  (forall jn, jn <> 0 -> exists w' e, tstep w (ThJoined t jn rc) = Go w' (Ret e None)).
Proof.
  intros es os w t p pid rc H tr A B. apply run_rel in H as [(W & T & _) _]. fold tr in T. rewrite (R_join _ _ _ T) in A. destruct (hget (w_pend w) t) as [[| | |q d]|] eqn:G; try discriminate. cbn in A. inversion A; subst q; clear A.
  assert (JG : jv (hget (w_pend w) t) = Some (p, d)) by (rewrite G; auto). destruct (R_joins _ _ _ T _ _ _ JG) as (PN & s & E1 & E2). destruct (R_th _ _ _ T _ _ E1 ltac:(congruence)) as (C1 & _). assert (d = pid) as -> by congruence.
  rewrite (R_done _ _ _ T). cbn [tstep]. rewrite G, E1. cbn [Z.eqb andb]. split; [intros ->; reflexivity|]. split; [intros ->; cbn [negb]; eauto|]. intros jn J. apply Z.eqb_neq in J. rewrite J. cbn [andb]. eauto.
Qed.
(** The thread calls the function it was created with, with its context, and once. *)
Theorem C47_runs : forall es os w t, truns tw0 es = Some (os, w) -> let tr := combine es os in
  begun tr t = [] \/ begun tr t = orders tr t /\ length (orders tr t) = 1%nat.
Proof.
  intros es os w t H tr. apply run_rel in H as [(W & T & _) _]. pose proof (R_pc _ _ _ T t) as K. fold tr in K. destruct (w_pc w t) as [[]|]; destruct K as (K1 & K2); auto; left; tauto.
Qed.
(** The library's own code in the thread only touches memory of the thread's struct while it
    is allocated, if joins do not fail. *)
Theorem C47_memory : forall es os w t, truns tw0 es = Some (os, w) -> joins_work es ->
  tstep w (ThEnter t) <> Undef /\ (forall v, tstep w (ThReturn t v) <> Undef) /\ tstep w (ThStore t) <> Undef /\ tstep w (ThStop t) <> Undef /\ tstep w (ThExit t) <> Undef.
Proof.
  intros es os w t H J. apply run_rel_joins in H as (W & T & _); auto. pose proof (R_own _ _ _ T eq_refl t) as K. cbn [tstep]. unfold call.
  split; [|split; [|split; [|split]]]; [| intros v; destruct (in_user t w); [|discriminate] | | |]; destruct (w_pc w t) as [[]|] eqn:E; try discriminate;
    (destruct (K _ _ eq_refl eq_refl) as [s O]; rewrite O; discriminate).
Qed.
(** If a join fails the struct is given back though the thread still uses it. *)
Theorem C47_join_failure : forall jn v ctx fn, jn <> 0 ->
  exists os w, truns tw0 [ThCreate 1 0 0 0 0 0 100 2 fn ctx; ThEnter 2; ThReturn 2 v; ThRelease 1 100; ThJoined 1 jn 0] = Some (os, w) /\ nth 4 os Quiet = Ret ERROR_THREAD_JOIN None /\ tstep w (ThStore 2) = Undef.
Proof.
  intros jn v ctx fn J. apply Z.eqb_neq in J. eexists. eexists. split.
  - cbn. rewrite J. cbn. reflexivity.
  - split; [|reflexivity]. cbn [nth]. reflexivity.
Qed.

(** No two threads hold a lock. *)
Theorem C47_exclusive : forall es os w, truns tw0 es = Some (os, w) -> NoDup (map snd (held (combine es os))).
Proof.
  intros es os w H. apply run_rel in H as [(_ & _ & L) _]. pose proof (R_held _ _ L) as K. revert K. generalize (held (combine es os)). intros h K.
  assert (K' : forall m, (length (of_lock m h) <= 1)%nat) by (intros m; rewrite K; destruct (w_mu w m) as [[x|]|]; cbn; auto; destruct (x =? 0); cbn; auto).
  clear K L. induction h as [|[t m] h IH]; cbn [map]; [constructor|]. constructor.
  - intros I0. apply in_map_iff in I0 as ([u q] & E & I1). cbn [snd] in *. subst q. specialize (K' m). unfold of_lock in K'. cbn [filter snd] in K'. rewrite Z.eqb_refl in K'. apply in_of_lock in I1. unfold of_lock in I1. destruct (filter _ h); [destruct I1|]. cbn [length] in K'. lia.
  - apply IH. intros q. specialize (K' q). unfold of_lock in *. cbn [filter snd] in K'. destruct (m =? q); cbn [length] in K'; lia.
Qed.
(** An acquisition returns the lock of its mutex as soon as nobody holds it, and not
    earlier, unless pthreads reports an error. *)
Theorem C47_acquires : forall es os w t l, truns tw0 es = Some (os, w) -> let tr := combine es os in acquiring tr t = Some l ->
  ((exists u, In (u, l) (held tr)) -> tstep w (MuLocked t 0) = Stuck) /\
  ((forall u, ~ In (u, l) (held tr)) -> exists w', tstep w (MuLocked t 0) = Go w' (Ret STATUS_SUCCESS (Some l))) /\
  (forall e, e <> 0 -> exists w', tstep w (MuLocked t e) = Go w' (Ret ERROR_THREAD_MUTEX_LOCK None)).
Proof.
  intros es os w t l H tr A. apply run_rel in H as [(W & T & L) _]. fold tr in L. rewrite (R_acq _ _ L) in A. cbn [tstep]. destruct (hget (w_pend w) t) as [[q| | |]|] eqn:G; try discriminate. inversion A; subst q; clear A.
  destruct (R_live _ _ L _ _ l G) as [h E]; [unfold uses; cbn [snd]; apply Z.eqb_refl|]. rewrite E. pose proof (R_held _ _ L l) as K. rewrite E in K. cbn [Z.eqb negb]. split; [|split].
  - intros [u I0]. apply in_of_lock in I0. rewrite K in I0. destruct (h =? 0); [destruct I0|reflexivity].
  - intros N. destruct (h =? 0) eqn:Z0; cbn [negb]; [eauto|]. destruct (N h). apply in_of_lock. rewrite K. left. auto.
  - intros e J. apply Z.eqb_neq in J. rewrite J. cbn [negb]. eauto.
Qed.
(** The holder can release it; if pthreads reports an error it still holds it. *)
Theorem C47_unlocks : forall es os w t l e, truns tw0 es = Some (os, w) -> let tr := combine es os in In (t, l) (held tr) -> tstep w (LkRelease t l e) <> Stuck ->
  exists w' r, tstep w (LkRelease t l e) = Go w' (Ret r None) /\ (e = 0 -> r = STATUS_SUCCESS) /\ (e <> 0 -> r = ERROR_THREAD_MUTEX_UNLOCK) /\
    forall u, In (u, l) (held (tr ++ [(LkRelease t l e, Ret r None)])) <-> e <> 0 /\ u = t.
Proof.
  intros es os w t l e H tr A NS. apply run_rel in H as [R _]. fold tr in R. pose proof R as (W & T & L). apply in_of_lock in A. pose proof (R_held _ _ L l) as K. rewrite K in A.
  assert (ST : exists w' o, tstep w (LkRelease t l e) = Go w' o /\ o = Ret (if e =? 0 then STATUS_SUCCESS else ERROR_THREAD_MUTEX_UNLOCK) None).
  { cbn [tstep] in *. unfold call in *. destruct (in_user t w); [|destruct NS; reflexivity]. destruct (w_mu w l) as [[h|]|]; try (destruct A; fail). destruct (h =? 0); [destruct A|]. destruct A as [A|[]]. inversion A; subst h. rewrite Z.eqb_refl. destruct (e =? 0); cbn [negb]; eauto. }
  destruct ST as (w' & o & S1 & ->). exists w', (if e =? 0 then STATUS_SUCCESS else ERROR_THREAD_MUTEX_UNLOCK). split; [exact S1|]. split; [intros ->; auto|]. split; [intros J; apply Z.eqb_neq in J; rewrite J; auto|].
  intros u. clear S1. rewrite held_snoc. cbn iota beta. destruct (Z.eqb_spec e 0) as [->|N].
  - change (ok STATUS_SUCCESS) with true. cbv iota. rewrite in_of_lock, drop_mine; [cbn; tauto|]. rewrite K. destruct (w_mu w l) as [[h|]|]; try (destruct A; fail). destruct (h =? 0); [destruct A|]. destruct A as [A|[]]. inversion A; subst. reflexivity.
  - change (ok ERROR_THREAD_MUTEX_UNLOCK) with false. cbv iota. rewrite in_of_lock, K. destruct (w_mu w l) as [[h|]|]; try (destruct A; fail). destruct (h =? 0); [destruct A|]. destruct A as [A|[]]. inversion A; subst. cbn [In]. split; [intros [E|[]]; inversion E; auto|intros [_ ->]; auto].
Qed.
(** What the creation of a thread, and the releases of mutexes and conditions, return. *)
Theorem C47_creates : forall w t ai ss al cr rc p pid fn ctx w' o, tstep w (ThCreate t ai ss al cr rc p pid fn ctx) = Go w' o ->
  exists e q, o = Ret e q /\ (q = Some p <-> ai = 0 /\ ss = 0 /\ al = STATUS_SUCCESS /\ cr = 0) /\ (q = None -> rc = STATUS_SUCCESS -> e <> STATUS_SUCCESS) /\ (q <> None -> q = Some p /\ e = STATUS_SUCCESS).
Proof.
  intros w t ai ss al cr rc p pid fn ctx w' o H. cbn [tstep] in H. unfold call, thread_create in H. destruct (in_user t w); [|discriminate].
  destruct (Z.eqb_spec ai 0); cbn [negb ct_obj ct_status] in H; [|inversion H; do 2 eexists; repeat split; try discriminate; try tauto; intros []; auto].
  destruct (Z.eqb_spec ss 0); cbn [negb ct_obj ct_status] in H; [|inversion H; do 2 eexists; repeat split; try discriminate; try tauto; intros []; auto].
  destruct (ok al) eqn:A; cbn [negb ct_obj ct_status] in H; [|inversion H; apply ok_false in A; do 2 eexists; repeat split; try discriminate; try tauto; intros []; auto].
  destruct (Z.eqb_spec cr 0); cbn [negb ct_obj ct_status] in H.
  - destruct (_ || _); inversion H. apply ok_true in A. do 2 eexists. repeat split; auto; discriminate.
  - inversion H. do 2 eexists. split; [reflexivity|]. split; [split; [discriminate|tauto]|]. split; [|congruence]. intros _ ->. change (ok STATUS_SUCCESS) with true. cbn [negb]. discriminate.
Qed.
Theorem C47_destroys : forall w t ds rc p w' o, tstep w (MuRelease t ds rc p) = Go w' o ->
  exists e, o = Ret e None /\ (rc <> STATUS_SUCCESS -> e = rc) /\ (rc = STATUS_SUCCESS -> ds <> 0 -> e = ERROR_THREAD_MUTEX_DESTROY) /\ (rc = STATUS_SUCCESS -> ds = 0 -> e = STATUS_SUCCESS) /\
  (rc = STATUS_SUCCESS -> unused p w' = true \/ w_th w p <> None \/ w_co w p <> None \/ p = 0).
Proof.
  intros w t ds rc p w' o H. cbn [tstep] in H. unfold call in H. destruct (in_user t w); [|discriminate]. destruct (w_mu w p) as [[h|]|] eqn:M; try discriminate. destruct (_ || _); inversion H; subst. eexists. split; [reflexivity|]. unfold destroy_status.
  split; [intros K; apply ok_false in K; rewrite K; auto|]. split; [intros -> K; apply Z.eqb_neq in K; rewrite K; auto|]. split; [intros -> ->; auto|]. intros ->. unfold unused. cbn [set_mu w_th w_mu w_co]. unfold upd. rewrite Z.eqb_refl. change (ok STATUS_SUCCESS) with true. cbv iota.
  destruct (w_th w p); [right; left; discriminate|]. destruct (w_co w p); [right; right; left; discriminate|]. destruct (Z.eqb_spec p 0); auto.
Qed.
Theorem C56_destroys : forall w t ds rc c w' o, tstep w (CoRelease t ds rc c) = Go w' o ->
  exists e, o = Ret e None /\ (rc <> STATUS_SUCCESS -> e = rc) /\ (rc = STATUS_SUCCESS -> ds <> 0 -> e = ERROR_THREAD_COND_DESTROY) /\ (rc = STATUS_SUCCESS -> ds = 0 -> e = STATUS_SUCCESS).
Proof.
  intros w t ds rc p w' o H. cbn [tstep] in H. unfold call in H. destruct (in_user t w); [|discriminate]. destruct (w_co w p) as [[]|] eqn:M; try discriminate. destruct (existsb _ _); inversion H; subst. eexists. split; [reflexivity|]. unfold destroy_status.
  split; [intros K; apply ok_false in K; rewrite K; auto|]. split; [intros -> K; apply Z.eqb_neq in K; rewrite K; auto|]. intros -> ->; auto.
Qed.
(** A condition may be destroyed if and only if it exists and no thread waits for it. *)
Theorem C56_destroyable : forall es os w t ds rc c, truns tw0 es = Some (os, w) -> let tr := combine es os in in_user t w = true ->
  tstep w (CoRelease t ds rc c) <> Undef <-> w_co w c = Some true /\ waiting tr c = [].
Proof.
  intros es os w t ds rc c H tr U. apply run_rel in H as [(W & T & L) _]. fold tr in L. cbn [tstep]. unfold call. rewrite U.
  assert (K : existsb (waits c) (w_pend w) = true <-> waiting tr c <> []).
  { rewrite (R_wait _ _ L). unfold waiters. clear. induction (w_pend w) as [|[v x] l IH]; cbn [existsb flat_map]; [split; [discriminate|congruence]|].
    destruct x as [|d| |]; unfold waits at 1; cbn [snd fst orb app]; auto. destruct (d =? c); cbn [orb app]; [split; [discriminate|auto]|auto]. }
  destruct (w_co w c) as [[]|]; [|split; [congruence|intros [? _]; discriminate]|split; [congruence|intros [? _]; discriminate]].
  destruct (existsb (waits c) (w_pend w)).
  - split; [congruence|]. intros [_ E]. exfalso. apply (proj1 K); auto.
  - split; [|discriminate]. intros _. split; [auto|]. destruct (waiting tr c); [auto|]. exfalso. assert (false = true) by (apply K; discriminate). discriminate.
Qed.
(** Two threads increment under a lock; the first thread joins the second, whose function
    returns 42. *)
Definition h47 : list tev :=
  [MuCreate 1 0 0 0 200; ThCreate 1 0 0 0 0 0 100 2 7 9; MuAcquire 1 200; ThEnter 2; MuAcquire 2 200; MuLocked 2 0; LkRelease 2 200 0; MuLocked 1 0; ThReturn 2 42;
   LkRelease 1 200 0; ThStore 2; ThRelease 1 100; ThStop 2; ThExit 2].
Example C47_example : exists os w, truns tw0 (h47 ++ [ThJoined 1 0 0]) = Some (os, w) /\ joins_work (h47 ++ [ThJoined 1 0 0]) /\
  let tr := combine h47 os in releasing tr 1 = Some 100 /\ created_at tr 100 = Some 2 /\ exited tr 2 = true /\ begun tr 2 = [(7, 9)] /\ held (firstn 6 tr) = [(2, 200)] /\ acquiring (firstn 6 tr) 1 = Some 200 /\ held (firstn 8 tr) = [(1, 200)] /\ last os Quiet = Ret 42 None.
Proof.
  do 2 eexists. split; [reflexivity|]. split; [|repeat split]. intros t jn rc H. cbn [app h47 In] in H. repeat (destruct H as [H|H]; [try discriminate H|]); [|destruct H]. inversion H. auto.
Qed.

(** C56: a wait gives up the lock; it returns with the same lock, when nobody else holds it
    and after it was woken. *)
Theorem C56_wait : forall es os w t l c e, truns tw0 es = Some (os, w) -> let tr := combine es os in In (t, l) (held tr) -> forall w' o, tstep w (CoWait t l c e) = Go w' o ->
  (e <> 0 -> o = Ret ERROR_THREAD_COND_WAIT (Some l) /\ In (t, l) (held (tr ++ [(CoWait t l c e, o)])) /\ waiting (tr ++ [(CoWait t l c e, o)]) c = waiting tr c) /\
  (e = 0 -> o = Quiet /\ waiting (tr ++ [(CoWait t l c e, o)]) c = (t, l) :: waiting tr c /\ forall u, ~ In (u, l) (held (tr ++ [(CoWait t l c e, o)]))).
Proof.
  intros es os w t l c e H tr A w' o S1. apply run_rel in H as [(W & T & L) _]. fold tr in L. pose proof (R_held _ _ L l) as K. cbn [tstep] in S1. unfold call in S1. destruct (in_user t w); [|discriminate]. destruct (w_mu w l) as [[h|]|]; try discriminate. destruct (w_co w c) as [[]|]; try discriminate.
  destruct (h =? t) eqn:EQ; cbn [negb orb] in S1; [|discriminate]. apply Z.eqb_eq in EQ. subst h. destruct (existsb _ _); [discriminate|]. split.
  - intros J. apply Z.eqb_neq in J. rewrite J in S1. cbn [negb] in S1. inversion S1; subst. rewrite held_snoc, waiting_snoc. auto.
  - intros ->. cbn [Z.eqb negb] in S1. inversion S1; subst. rewrite held_snoc, waiting_snoc, Z.eqb_refl. cbn iota beta. split; [auto|]. split; [auto|]. intros u. rewrite in_of_lock, drop_mine; [cbn; auto|]. apply in_of_lock in A. rewrite K in A |- *. destruct (t =? 0); [destruct A|auto].
Qed.
Theorem C56_back : forall es os w t w' o, truns tw0 es = Some (os, w) -> let tr := combine es os in tstep w (CoBack t) = Go w' o ->
  exists l, waited_with tr t = Some l /\ (forall c, ~ In t (map fst (waiting tr c))) /\ o = Ret STATUS_SUCCESS (Some l) /\ (forall u, ~ In (u, l) (held tr)) /\ forall u, In (u, l) (held (tr ++ [(CoBack t, o)])) <-> u = t.
Proof.
  intros es os w t w' o H tr S1. apply run_rel in H as [(W & T & L) _]. fold tr in L. cbn [tstep] in S1. destruct (hget (w_pend w) t) as [[| |l|]|] eqn:G; try discriminate. destruct (w_mu w l) as [[h|]|] eqn:MU; try discriminate.
  destruct (h =? 0) eqn:EQ; cbn [negb] in S1; [|discriminate]. apply Z.eqb_eq in EQ. subst h. inversion S1; subst; clear S1. exists l. pose proof (R_with _ _ L t) as K. rewrite G in K. split; [exact K|].
  pose proof (R_held _ _ L l) as KH. rewrite MU in KH. cbn [Z.eqb] in KH. split.
  - intros c I0. rewrite (R_wait _ _ L) in I0. apply in_map_iff in I0 as ([u q] & E & I0). cbn [fst] in E. subst u. unfold waiters in I0. apply in_flat_map in I0 as ([v x] & I1 & I2). cbn [fst snd] in I2. destruct x; try (destruct I2; fail). destruct (_ =? c); [|destruct I2]. destruct I2 as [E|[]]. inversion E; subst.
    apply in_hget in I1; [congruence|apply W].
  - split; [auto|]. assert (N : forall u, ~ In (u, l) (held tr)) by (intros u I0; apply in_of_lock in I0; rewrite KH in I0; destruct I0). split; [exact N|].
    intros u. rewrite held_snoc. cbn iota beta. change (ok STATUS_SUCCESS) with true. cbv iota. cbn [In]. split; [intros [E|E]; [inversion E; auto|destruct (N _ E)]|intros ->; auto].
Qed.
(** A signal wakes a thread at least, if one waits. *)
Theorem C56_signal : forall es os w t l c e woken w' o, truns tw0 es = Some (os, w) -> let tr := combine es os in tstep w (CoSignal t l c e woken) = Go w' o ->
  let tr' := tr ++ [(CoSignal t l c e woken, o)] in o = Ret e None /\ held tr' = held tr /\ (forall d, d <> c -> waiting tr' d = waiting tr d) /\
  (e <> 0 -> waiting tr' c = waiting tr c) /\ (e = 0 -> waiting tr c <> [] -> (length (waiting tr' c) < length (waiting tr c))%nat).
Proof.
  intros es os w t l c e woken w' o H tr S1. apply run_rel in H as [R _]. fold tr in R. pose proof R as (W & T & L). cbn [tstep] in S1. unfold call in S1. destruct (in_user t w); [|discriminate]. destruct (w_co w c) as [[]|]; try discriminate.
  assert (O : o = Ret e None). { destruct (Z.eqb_spec e 0) as [->|]; cbn [negb] in S1; [|inversion S1; auto]. destruct (_ && _); inversion S1; auto. }
  subst o. cbv zeta. rewrite held_snoc. split; [auto|]. split; [auto|]. split; [intros d N; rewrite waiting_snoc, (proj2 (Z.eqb_neq c d)) by auto; reflexivity|].
  split; [intros J; rewrite waiting_snoc; apply ok_false in J; rewrite J, andb_false_r; auto|]. intros -> NE. rewrite waiting_snoc. change (ok 0) with true. rewrite Z.eqb_refl. cbn [andb]. cbn [Z.eqb negb] in S1.
  destruct (forallb _ woken) eqn:FA; [|discriminate]. cbn [andb] in S1. destruct (existsb (waits c) (w_pend w)) eqn:EX; cbn [negb orb] in S1.
  - destruct woken as [|u woken]; [discriminate|]. cbn [forallb] in FA. apply andb_true_iff in FA as [FA _]. destruct (hget (w_pend w) u) as [x|] eqn:G; [|discriminate]. unfold waits in FA. cbn [snd] in FA. destruct x; try discriminate. apply Z.eqb_eq in FA. subst c0.
    assert (I0 : In (u, m) (waiting tr c)). { rewrite (R_wait _ _ L). unfold waiters. apply in_flat_map. exists (u, PdWait c m). split; [apply hget_some_in; auto|]. cbn [fst snd]. rewrite Z.eqb_refl. left. auto. }
    assert (LE : forall f (l0 : list (Z * Z)) x, In x l0 -> f x = false -> (length (filter f l0) < length l0)%nat).
    { intros f. induction l0 as [|y l0 IH]; cbn [filter]; intros x B C; [destruct B|]; destruct B as [->|B]; cbn [length].
      - rewrite C. clear. induction l0 as [|z l0 IH]; cbn [filter length]; [lia|]. destruct (f z); cbn [length]; lia.
      - specialize (IH _ B C). destruct (f y); cbn [length]; lia. }
    apply (LE _ _ (u, m)); auto. cbn [fst existsb]. rewrite Z.eqb_refl. reflexivity.
  - exfalso. apply NE. rewrite (R_wait _ _ L). unfold waiters. clear - EX. induction (w_pend w) as [|[q x] h IH]; [reflexivity|]. cbn [existsb flat_map] in *. apply orb_false_iff in EX as [E1 E2]. rewrite IH by auto. unfold waits in E1. cbn [fst snd] in *. destruct x; auto. rewrite E1. reflexivity.
Qed.
Theorem C56_signal_all : forall es os w t l c e w' o, truns tw0 es = Some (os, w) -> let tr := combine es os in tstep w (CoSignalAll t l c e) = Go w' o ->
  let tr' := tr ++ [(CoSignalAll t l c e, o)] in o = Ret e None /\ held tr' = held tr /\ (forall d, d <> c -> waiting tr' d = waiting tr d) /\ waiting tr' c = if e =? 0 then [] else waiting tr c.
Proof.
  intros es os w t l c e w' o H tr S1. cbn [tstep] in S1. unfold call in S1. destruct (in_user t w); [|discriminate]. destruct (w_co w c) as [[]|]; try discriminate.
  assert (O : o = Ret e None) by (destruct (Z.eqb_spec e 0) as [->|]; cbn [negb] in S1; inversion S1; auto).
  subst o. cbv zeta. rewrite held_snoc. split; [auto|]. split; [auto|]. split; [intros d N; rewrite waiting_snoc, (proj2 (Z.eqb_neq c d)) by auto; reflexivity|].
  rewrite waiting_snoc, Z.eqb_refl. reflexivity.
Qed.
(** A woken thread is not lost: it waits for the lock, and returns as soon as it is free. *)
Theorem C56_returns : forall es os w t l, truns tw0 es = Some (os, w) -> let tr := combine es os in waited_with tr t = Some l -> (forall c, ~ In t (map fst (waiting tr c))) ->
  ((exists u, In (u, l) (held tr)) -> tstep w (CoBack t) = Stuck) /\ ((forall u, ~ In (u, l) (held tr)) -> exists w', tstep w (CoBack t) = Go w' (Ret STATUS_SUCCESS (Some l))).
Proof.
  intros es os w t l H tr G0 NW. apply run_rel in H as [(W & T & L) _]. fold tr in L. rewrite (R_with _ _ L) in G0. assert (G : hget (w_pend w) t = Some (PdBack l)).
  { destruct (hget (w_pend w) t) as [[|c m|m|]|] eqn:G; try discriminate; inversion G0; subst; auto. destruct (NW c). rewrite (R_wait _ _ L). apply in_map_iff. exists (t, l). split; [auto|]. unfold waiters. apply in_flat_map. exists (t, PdWait c l). split; [apply hget_some_in; auto|]. cbn [fst snd]. rewrite Z.eqb_refl. left. auto. }
  clear G0 NW. cbn [tstep]. rewrite G. destruct (R_live _ _ L _ _ l G) as [h E]; [unfold uses; cbn [snd]; apply Z.eqb_refl|]. rewrite E. pose proof (R_held _ _ L l) as K. rewrite E in K. split.
  - intros [u I0]. apply in_of_lock in I0. rewrite K in I0. destruct (h =? 0); [destruct I0|reflexivity].
  - intros N. destruct (h =? 0) eqn:Z0; cbn [negb]; [eauto|]. destruct (N h). apply in_of_lock. rewrite K. left. auto.
Qed.
(** A failing signal reports the number of the system's error, which is no status of the
    library. *)
Theorem C56_errno : forall errno, errno <> 0 -> exists os w, truns tw0 [CoCreate 1 0 0 0 300; CoSignal 1 200 300 errno []; CoSignalAll 1 200 300 errno] = Some (os, w) /\ skipn 1 os = [Ret errno None; Ret errno None].
Proof. intros e E. apply Z.eqb_neq in E. cbn. rewrite E. cbn. eauto. Qed.
Definition h56 : list tev :=
  [MuCreate 1 0 0 0 200; CoCreate 1 0 0 0 300; ThCreate 1 0 0 0 0 0 100 2 7 9; ThEnter 2; MuAcquire 2 200; MuLocked 2 0; CoWait 2 200 300 0; MuAcquire 1 200; MuLocked 1 0; CoSignal 1 200 300 0 [2]; LkRelease 1 200 0].
Example C56_example : exists os w, truns tw0 h56 = Some (os, w) /\ let tr := combine h56 os in
  In (2, 200) (held (firstn 6 tr)) /\ waiting (firstn 9 tr) 300 = [(2, 200)] /\ waiting tr 300 = [] /\ waited_with tr 2 = Some 200 /\ held tr = [] /\ exists w', tstep w (CoBack 2) = Go w' (Ret STATUS_SUCCESS (Some 200)).
Proof. do 2 eexists. split; [reflexivity|]. cbn. repeat split; eauto. Qed.
Example C56_destroyable_example : exists os w, truns tw0 h56 = Some (os, w) /\ in_user 1 w = true /\ tstep w (CoRelease 1 0 0 300) <> Undef /\
  exists os w, truns tw0 (firstn 9 h56) = Some (os, w) /\ in_user 1 w = true /\ tstep w (CoRelease 1 0 0 300) = Undef.
Proof. do 2 eexists. do 2 (split; [reflexivity|]). split; [discriminate|]. do 2 eexists. do 2 (split; [reflexivity|]). reflexivity. Qed.

(** C48: the constructors. *)
Theorem C48_thread_create : forall ai ss al cr rc pid fn ctx, let c := thread_create ai ss al cr rc pid fn ctx in
  (rc = STATUS_SUCCESS -> no_leak (fun _ => 1) c) /\
  (ai = 0 -> ss = 0 -> al = STATUS_SUCCESS -> cr = 0 -> ct_status c = STATUS_SUCCESS /\ ct_obj c = Some (TH pid ctx fn true 0)) /\
  (ai <> 0 -> ct_status c = ERROR_THREAD_ATTRIBUTE_INIT) /\ (ai = 0 -> ss <> 0 -> ct_status c = ERROR_THREAD_ATTRIBUTE_SETSTACKSIZE) /\
  (ai = 0 -> ss = 0 -> al <> STATUS_SUCCESS -> ct_status c = ERROR_GENERAL_OUT_OF_MEMORY) /\
  (ai = 0 -> ss = 0 -> al = STATUS_SUCCESS -> cr <> 0 -> ct_obj c = None /\ ct_status c = if ok rc then ERROR_THREAD_CREATE else rc).
Proof.
  intros ai ss al cr rc pid fn ctx c. unfold c, thread_create. repeat split; intros; subst; change (ok STATUS_SUCCESS) with true; cbn [negb Z.eqb ct_status ct_obj]; auto;
    repeat match goal with H : ?x <> 0 |- _ => apply Z.eqb_neq in H; rewrite H end; cbn [negb ct_status ct_obj]; auto.
  - unfold no_leak. destruct (ai =? 0); cbn [negb ct_status ct_obj ct_net]; [|right; repeat split; discriminate]. destruct (ss =? 0); cbn [negb ct_status ct_obj ct_net]; [|right; repeat split; discriminate].
    destruct (ok al); cbn [negb ct_status ct_obj ct_net]; [|right; repeat split; discriminate]. destruct (cr =? 0); cbn [negb ct_status ct_obj ct_net]; [left; eauto|right; repeat split; discriminate].
  - apply ok_false in H1. rewrite H1. reflexivity.
  - destruct (ok rc); reflexivity.
Qed.
Theorem C48_mutex_create : forall al it rc, let c := mutex_create al it rc in
  (rc = STATUS_SUCCESS -> no_leak (fun _ => 1) c) /\ (al = STATUS_SUCCESS -> it = 0 -> ct_status c = STATUS_SUCCESS /\ ct_obj c = Some 0) /\
  (al <> STATUS_SUCCESS -> ct_status c = ERROR_GENERAL_OUT_OF_MEMORY) /\ (al = STATUS_SUCCESS -> it <> 0 -> ct_obj c = None /\ ct_status c = if ok rc then ERROR_THREAD_MUTEX_INIT else rc).
Proof.
  intros al it rc c. unfold c, mutex_create. repeat split; intros; subst; change (ok STATUS_SUCCESS) with true; cbn [negb Z.eqb ct_status ct_obj]; auto;
    repeat match goal with H : ?x <> 0 |- _ => apply Z.eqb_neq in H; rewrite H end; cbn [negb ct_status ct_obj]; auto.
  - unfold no_leak. destruct (ok al); cbn [negb ct_status ct_obj ct_net]; [|right; repeat split; discriminate]. destruct (it =? 0); cbn [negb ct_status ct_obj ct_net]; [left; eauto|right; repeat split; discriminate].
  - apply ok_false in H. rewrite H. reflexivity.
  - destruct (ok rc); reflexivity.
Qed.
Theorem C48_cond_create : forall al it rc, let c := cond_create al it rc in
  (rc = STATUS_SUCCESS -> no_leak (fun _ => 1) c) /\ (al = STATUS_SUCCESS -> it = 0 -> ct_status c = STATUS_SUCCESS /\ ct_obj c = Some true) /\
  (al <> STATUS_SUCCESS -> ct_status c = ERROR_GENERAL_OUT_OF_MEMORY) /\ (al = STATUS_SUCCESS -> it <> 0 -> ct_obj c = None /\ ct_status c = if ok rc then ERROR_THREAD_COND_INIT else rc).
Proof.
  intros al it rc c. unfold c, cond_create. repeat split; intros; subst; change (ok STATUS_SUCCESS) with true; cbn [negb Z.eqb ct_status ct_obj]; auto;
    repeat match goal with H : ?x <> 0 |- _ => apply Z.eqb_neq in H; rewrite H end; cbn [negb ct_status ct_obj]; auto.
  - unfold no_leak. destruct (ok al); cbn [negb ct_status ct_obj ct_net]; [|right; repeat split; discriminate]. destruct (it =? 0); cbn [negb ct_status ct_obj ct_net]; [left; eauto|right; repeat split; discriminate].
  - apply ok_false in H. rewrite H. reflexivity.
  - destruct (ok rc); reflexivity.
Qed.

Print Assumptions C47_status.
Print Assumptions C47_waits.
Print Assumptions C47_runs.
Print Assumptions C47_memory.
Print Assumptions C47_join_failure.
Print Assumptions C47_exclusive.
Print Assumptions C47_acquires.
Print Assumptions C47_unlocks.
Print Assumptions C47_creates.
Print Assumptions C47_destroys.
Print Assumptions C56_destroys.
Print Assumptions C56_destroyable.
Print Assumptions C56_wait.
Print Assumptions C56_back.
Print Assumptions C56_signal.
Print Assumptions C56_signal_all.
Print Assumptions C56_returns.
Print Assumptions C56_errno.
Print Assumptions C48_thread_create.
Print Assumptions C48_mutex_create.
Print Assumptions C48_cond_create.
