From Verif Require Import Base Status MemModel MemProofs Heap TabModel TabProofs ThreadModel ThreadSpec.

Definition of_lock (m : Z) (h : list (Z * Z)) : list (Z * Z) := filter (fun y => snd y =? m) h.
Definition waiters (c : Z) (l : heap pend) : list (Z * Z) := flat_map (fun x => match snd x with PdWait d m => if d =? c then [(fst x, m)] else [] | _ => [] end) l.
Definition placed (pc : tpc) (p : Z) : Prop := match pc with PcStart q | PcFn q | PcRet q _ | PcStored q => q = p | PcUser => False | PcStopped | PcDone => True end.
Definition said (pc : tpc) (l : list Z) (s : tstruct) : Prop :=
  match pc with PcUser => False | PcStart _ | PcFn _ => l = [] | PcRet _ v => l = [v] | _ => l = [t_exit s] end.
Definition at_struct (pc : tpc) : option Z := match pc with PcStart q | PcFn q | PcRet q _ | PcStored q => Some q | _ => None end.

Lemma upd_get : forall A (f : Z -> option A) k v x, upd f k v x = if x =? k then v else f x. Proof. reflexivity. Qed.
Lemma hget_some_in : forall A (h : heap A) k v, hget h k = Some v -> In (k, v) h.
Proof. induction h as [|[q w] h IH]; cbn [hget]; intros k v H; [discriminate|]. destruct (Z.eqb_spec k q) as [->|]; [inversion H; left; auto|right; auto]. Qed.

Definition jv (x : option pend) : option (Z * Z) := match x with Some (PdJoin p q) => Some (p, q) | _ => None end.
Definition lv (x : option pend) : option pend := match x with Some (PdJoin _ _) => None | _ => x end.
(** Threads. *)
Record RT (jok : bool) (tr : trace) (w : tw) : Prop := MkRT
  { R_zero : w_pc w 0 = None;
    R_th : forall p s, w_th w p = Some s -> t_pid s <> 0 -> created_at tr p = Some (t_pid s) /\
             exists pc, w_pc w (t_pid s) = Some pc /\ placed pc p /\ said pc (returned tr (t_pid s)) s /\ orders tr (t_pid s) = [(t_fn s, t_ctx s)];
    R_same : forall p q s t, w_th w p = Some s -> w_th w q = Some t -> t_pid s = t_pid t -> t_pid s <> 0 -> p = q;
    R_pc : forall t, match w_pc w t with
             | None => orders tr t = [] /\ begun tr t = [] /\ returned tr t = []
             | Some PcUser => t = 1 /\ begun tr t = []
             | Some (PcStart _) => begun tr t = [] /\ length (orders tr t) = 1%nat
             | Some _ => begun tr t = orders tr t /\ length (orders tr t) = 1%nat
             end;
    R_done : forall t, exited tr t = match w_pc w t with Some PcDone => true | _ => false end;
    R_own : jok = true -> forall t pc p, w_pc w t = Some pc -> at_struct pc = Some p -> exists s, own p t w = Some s;
    R_join : forall t, releasing tr t = option_map fst (jv (hget (w_pend w) t));
    R_joins : forall t p pid, jv (hget (w_pend w) t) = Some (p, pid) -> pid <> 0 /\ exists s, w_th w p = Some s /\ t_pid s = pid;
    R_one : forall t u p q pid, jv (hget (w_pend w) t) = Some (p, pid) -> jv (hget (w_pend w) u) = Some (q, pid) -> t = u }.
(** Locks and conditions. *)
Record RL (tr : trace) (w : tw) : Prop := MkRL
  { R_held : forall m, of_lock m (held tr) = match w_mu w m with Some (Some h) => if h =? 0 then [] else [(h, m)] | _ => [] end;
    R_acq : forall t, acquiring tr t = match hget (w_pend w) t with Some (PdLock m) => Some m | _ => None end;
    R_live : forall t x m, hget (w_pend w) t = Some x -> uses m (t, x) = true -> exists h, w_mu w m = Some (Some h);
    R_wait : forall c, waiting tr c = waiters c (w_pend w);
    R_with : forall t, waited_with tr t = match hget (w_pend w) t with Some (PdWait _ m) | Some (PdBack m) => Some m | _ => None end }.
Definition Rel (jok : bool) (tr : trace) (w : tw) : Prop := hwf (w_pend w) /\ RT jok tr w /\ RL tr w.

Lemma init_rel : Rel true [] tw0.
Proof.
  split; [split; [constructor|auto]|]. split; constructor; cbn; try (intros; try discriminate; auto; fail); auto.
  - intros t. unfold upd. destruct (Z.eqb_spec t 1); auto.
  - intros t. unfold upd. destruct (t =? 1); auto.
  - unfold upd. intros _ t pc p. destruct (t =? 1); [|discriminate]. intros K. inversion K; subst. discriminate.
Qed.

(** One more item of a trace. *)
Lemma created_snoc : forall tr x p, created_at (tr ++ [x]) p = match x with (ThCreate _ _ _ _ _ _ _ pid _ _, Ret e (Some q)) => if ok e && (q =? p) then Some pid else created_at tr p | _ => created_at tr p end.
Proof. intros. unfold created_at. rewrite fold_left_app. reflexivity. Qed.
Lemma returned_snoc : forall tr x t, returned (tr ++ [x]) t = returned tr t ++ match x with (ThReturn u v, _) => if u =? t then [v] else [] | _ => [] end.
Proof. intros. unfold returned. rewrite flat_map_app. cbn [flat_map]. rewrite app_nil_r. reflexivity. Qed.
Lemma orders_snoc : forall tr x t, orders (tr ++ [x]) t = orders tr t ++ match x with (ThCreate _ _ _ _ _ _ _ pid fn ctx, Ret e _) => if ok e && (pid =? t) then [(fn, ctx)] else [] | _ => [] end.
Proof. intros. unfold orders. rewrite flat_map_app. cbn [flat_map]. rewrite app_nil_r. reflexivity. Qed.
Lemma begun_snoc : forall tr x t, begun (tr ++ [x]) t = begun tr t ++ match x with (ThEnter u, Calls fn ctx) => if u =? t then [(fn, ctx)] else [] | _ => [] end.
Proof. intros. unfold begun. rewrite flat_map_app. cbn [flat_map]. rewrite app_nil_r. reflexivity. Qed.
Lemma releasing_snoc : forall tr x t, releasing (tr ++ [x]) t = match x with (ThRelease u p, _) => if u =? t then Some p else releasing tr t | (ThJoined u _ _, _) => if u =? t then None else releasing tr t | _ => releasing tr t end.
Proof. intros. unfold releasing. rewrite fold_left_app. reflexivity. Qed.
Lemma held_snoc : forall tr x, held (tr ++ [x]) = match x with
    | (MuLocked t _, Ret e (Some l)) => if ok e then (t, l) :: held tr else held tr
    | (CoBack t, Ret e (Some l)) => if ok e then (t, l) :: held tr else held tr
    | (LkRelease t l _, Ret e _) => if ok e then drop t l (held tr) else held tr
    | (CoWait t l _ _, Quiet) => drop t l (held tr)
    | _ => held tr
    end.
Proof. intros. unfold held. rewrite fold_left_app. reflexivity. Qed.
Lemma acquiring_snoc : forall tr x t, acquiring (tr ++ [x]) t = match x with (MuAcquire u l, _) => if u =? t then Some l else acquiring tr t | (MuLocked u _, _) => if u =? t then None else acquiring tr t | _ => acquiring tr t end.
Proof. intros. unfold acquiring. rewrite fold_left_app. reflexivity. Qed.
Lemma waiting_snoc : forall tr x c, waiting (tr ++ [x]) c = match x with
    | (CoWait t l d _, Quiet) => if d =? c then (t, l) :: waiting tr c else waiting tr c
    | (CoWake t, _) => filter (fun y => negb (fst y =? t)) (waiting tr c)
    | (CoSignal _ _ d _ woken, Ret e _) => if (d =? c) && ok e then filter (fun y => negb (existsb (Z.eqb (fst y)) woken)) (waiting tr c) else waiting tr c
    | (CoSignalAll _ _ d _, Ret e _) => if (d =? c) && ok e then [] else waiting tr c
    | _ => waiting tr c
    end.
Proof. intros. unfold waiting. rewrite fold_left_app. reflexivity. Qed.
Lemma with_snoc : forall tr x t, waited_with (tr ++ [x]) t = match x with (CoWait u l _ _, Quiet) => if u =? t then Some l else waited_with tr t | (CoBack u, _) => if u =? t then None else waited_with tr t | _ => waited_with tr t end.
Proof. intros. unfold waited_with. rewrite fold_left_app. reflexivity. Qed.
Lemma exited_snoc : forall tr x t, exited (tr ++ [x]) t = exited tr t || match x with (ThExit u, _) => u =? t | _ => false end.
Proof. intros. unfold exited. rewrite existsb_app. cbn [existsb]. rewrite orb_false_r. reflexivity. Qed.
Ltac snoc := rewrite ?created_snoc, ?returned_snoc, ?orders_snoc, ?begun_snoc, ?releasing_snoc, ?held_snoc, ?acquiring_snoc, ?waiting_snoc, ?with_snoc, ?exited_snoc;
  cbn iota beta; rewrite ?app_nil_r, ?orb_false_r.


Lemma in_user_no : forall t w, in_user t w = true -> hget (w_pend w) t = None /\ exists pc, w_pc w t = Some pc /\ (pc = PcUser \/ exists p, pc = PcFn p).
Proof.
  intros t w H. unfold in_user in H. destruct (w_pc w t) as [[| | | | | |]|]; try discriminate; destruct (hget _ t); try discriminate; split; auto; eexists; split; eauto.
Qed.

(** What does not concern threads. *)
Definition no_thread_item (x : tev * tout) : Prop :=
  match x with
  | (ThCreate _ _ _ _ _ _ _ _ _ _, Ret e _) => ok e = false
  | (ThCreate _ _ _ _ _ _ _ _ _ _, _) | (ThRelease _ _, _) | (ThJoined _ _ _, _) | (ThEnter _, _) | (ThReturn _ _, _) | (ThExit _, _) => False
  | _ => True
  end.
Lemma RT_other : forall jok tr w x w', RT jok tr w -> no_thread_item x -> w_th w' = w_th w -> w_pc w' = w_pc w -> (forall t, jv (hget (w_pend w') t) = jv (hget (w_pend w) t)) ->
  RT jok (tr ++ [x]) w'.
Proof.
  intros jok tr w x w' [A1 A2 A3 A4 A5 A7 A8 A9 A10] N E1 E2 E3.
  assert (F : (forall p, created_at (tr ++ [x]) p = created_at tr p) /\ (forall t, returned (tr ++ [x]) t = returned tr t) /\ (forall t, orders (tr ++ [x]) t = orders tr t) /\
    (forall t, begun (tr ++ [x]) t = begun tr t) /\ (forall t, exited (tr ++ [x]) t = exited tr t) /\ (forall t, releasing (tr ++ [x]) t = releasing tr t)).
  { destruct x as [x o]. repeat split; intros; snoc; destruct x; cbn in N |- *; try contradiction; rewrite ?app_nil_r, ?orb_false_r; auto; destruct o as [|?e [?q|]|]; cbn in *; try contradiction; rewrite ?N, ?app_nil_r; auto. }
  destruct F as (F1 & F2 & F3 & F4 & F5 & F6).
  constructor; rewrite ?E1, ?E2; auto.
  - intros p s B C. rewrite F1, F2, F3. auto.
  - intros t. rewrite F2, F3, F4. apply A4.
  - intros t. rewrite F5. auto.
  - intros J t pc p B C. unfold own. rewrite E1. apply (A7 J t pc p B C).
  - intros t. rewrite F6, E3. auto.
  - intros t p pid. rewrite E3. apply A9.
  - intros t u p q pid. rewrite !E3. apply A10.
Qed.
(** What does not concern locks. *)
Definition no_lock_item (x : tev * tout) : Prop :=
  match x with
  | (MuAcquire _ _, _) | (MuLocked _ _, _) | (CoBack _, _) | (CoWake _, _) | (CoWait _ _ _ _, Quiet) => False
  | (LkRelease _ _ _, Ret e _) => ok e = false
  | (CoSignal _ _ _ _ _, Ret e _) | (CoSignalAll _ _ _ _, Ret e _) => ok e = false
  | _ => True
  end.
Lemma RL_other : forall tr w x w', RL tr w -> no_lock_item x -> (forall m, (w_mu w' m = w_mu w m \/ (w_mu w m = None \/ w_mu w m = Some (Some 0)) /\ (w_mu w' m = None \/ w_mu w' m = Some None \/ w_mu w' m = Some (Some 0)) /\ (existsb (uses m) (w_pend w) = true -> w_mu w m <> None -> w_mu w' m = Some (Some 0)))) ->
  (forall t, lv (hget (w_pend w') t) = lv (hget (w_pend w) t)) -> (forall c, waiters c (w_pend w') = waiters c (w_pend w)) ->
  RL (tr ++ [x]) w'.
Proof.
  intros tr w x w' [A1 A2 A3 A4 A5] N E1 E2 E3.
  assert (F : held (tr ++ [x]) = held tr /\ (forall t, acquiring (tr ++ [x]) t = acquiring tr t) /\ (forall t, waited_with (tr ++ [x]) t = waited_with tr t) /\ (forall c, waiting (tr ++ [x]) c = waiting tr c)).
  { destruct x as [x o]. repeat split; intros; snoc; destruct x; cbn in N |- *; try contradiction; auto; destruct o as [|?e [?q|]|]; cbn in *; try contradiction; rewrite ?N, ?andb_false_r; auto. }
  destruct F as (F1 & F2 & F3 & F4).
  constructor.
  - intros m. rewrite F1, A1. destruct (E1 m) as [E|([E|E] & [K|[K|K]] & _)]; rewrite ?E, ?K; reflexivity.
  - intros t. rewrite F2, A2. specialize (E2 t). destruct (hget (w_pend w') t) as [[]|], (hget (w_pend w) t) as [[]|]; cbn in E2; congruence.
  - intros t y m G U. specialize (E2 t). rewrite G in E2. destruct y; try discriminate; cbn [lv] in E2;
      (destruct (hget (w_pend w) t) as [[]|] eqn:G2; try discriminate; inversion E2; subst; destruct (A3 _ _ _ G2 U) as [h H]; destruct (E1 m) as [E|(_ & _ & E)]; [rewrite E; eauto|rewrite E; eauto; [|congruence]];
       apply existsb_exists; eexists; split; [apply (hget_some_in _ _ _ _ G2)|exact U]).
  - intros c. rewrite F4, E3. auto.
  - intros t. rewrite F3. specialize (E2 t). specialize (A5 t). destruct (hget (w_pend w') t) as [[]|], (hget (w_pend w) t) as [[]|]; cbn in E2; try congruence; auto; inversion E2; subst; auto.
Qed.

(** ** Blocking calls *)
Lemma cons_wf : forall (h : heap pend) t x, hwf h -> hget h t = None -> t <> 0 -> hwf ((t, x) :: h).
Proof. intros h t x [A B] G N. apply hget_none in G. split; cbn [addrs map fst]; [constructor; auto|]. intros [K|K]; [congruence|auto]. Qed.
Lemma waiters_cons : forall c (h : heap pend) t x, waiters c ((t, x) :: h) = match x with PdWait d m => if d =? c then [(t, m)] else [] | _ => [] end ++ waiters c h.
Proof. reflexivity. Qed.
Lemma waiters_hdel : forall c (h : heap pend) t x, hget h t = Some x -> match x with PdWait _ _ => False | _ => True end -> waiters c (hdel h t) = waiters c h.
Proof.
  induction h as [|[q y] h IH]; cbn [hget hdel]; intros t x G N; [discriminate|]. destruct (t =? q) eqn:E.
  - inversion G; subst. rewrite waiters_cons. destruct x; try contradiction; reflexivity.
  - rewrite !waiters_cons, (IH _ _ G N). reflexivity.
Qed.
Lemma waiters_fst : forall c (h : heap pend) y, In y (waiters c h) -> In (fst y) (addrs h).
Proof.
  intros c h y. unfold waiters. rewrite in_flat_map. intros ([t x] & A & B). cbn [fst snd] in B. destruct x; try (destruct B; fail). destruct (_ =? c); [|destruct B]. destruct B as [<-|[]]. cbn [fst]. apply in_map_iff. eexists. split; [|exact A]. reflexivity.
Qed.
Lemma filter_all : forall A (f : A -> bool) l, (forall x, In x l -> f x = true) -> filter f l = l.
Proof. induction l as [|x l IH]; cbn [filter]; intros H; [auto|]. rewrite (H x) by (left; auto). f_equal. apply IH. intros. apply H. right. auto. Qed.
Lemma waiters_wake : forall c (h : heap pend) t d m, hwf h -> hget h t = Some (PdWait d m) -> waiters c (hset h t (PdBack m)) = filter (fun y => negb (fst y =? t)) (waiters c h).
Proof.
  intros c h t d m [W _]. induction h as [|[q y] h IH]; cbn [hget hset]; intros G; [discriminate|]. cbn [addrs map fst] in W. inversion W as [|? ? W1 W2]; subst.
  destruct (Z.eqb_spec t q) as [->|N].
  - inversion G; subst. rewrite !waiters_cons. cbn [app]. rewrite filter_app.
    replace (filter _ (if d =? c then _ else _)) with (@nil (Z * Z)) by (destruct (d =? c); cbn [filter fst]; rewrite ?Z.eqb_refl; reflexivity). cbn [app].
    symmetry. apply filter_all. intros z Iz. apply waiters_fst in Iz. apply negb_true_iff, Z.eqb_neq. intros K. rewrite K in Iz. auto.
  - rewrite !waiters_cons, filter_app, IH by auto. f_equal. symmetry. apply filter_all. intros z Iz. destruct y; try (destruct Iz; fail). destruct (_ =? c); [|destruct Iz]. destruct Iz as [<-|[]]. cbn [fst]. apply negb_true_iff, Z.eqb_neq. auto.
Qed.
Lemma hget_map : forall (f : Z * pend -> Z * pend), (forall x, fst (f x) = fst x) -> forall (h : heap pend) t, hget (map f h) t = option_map (fun v => snd (f (t, v))) (hget h t).
Proof.
  intros f F. induction h as [|[q y] h IH]; cbn [map hget]; intros t; [auto|]. pose proof (F (q, y)) as E. destruct (f (q, y)) as [q' y'] eqn:E2. cbn [fst] in E. subst q'. destruct (Z.eqb_spec t q) as [->|]; [|apply IH]. cbn [option_map]. rewrite E2. reflexivity.
Qed.
Lemma addrs_map : forall (f : Z * pend -> Z * pend), (forall x, fst (f x) = fst x) -> forall (h : heap pend), addrs (map f h) = addrs h.
Proof. intros f F h. unfold addrs. rewrite map_map. apply map_ext. auto. Qed.
Lemma awake_fst : forall x, fst (awake x) = fst x. Proof. intros [t []]; reflexivity. Qed.

(** ** Locks *)
Lemma drop_other : forall m t l h, m <> l -> of_lock m (drop t l h) = of_lock m h.
Proof.
  intros m t l h N. unfold of_lock, drop. induction h as [|y h IH]; cbn [filter]; [auto|]. destruct (Z.eqb_spec (snd y) l) as [E|E].
  - assert (K : (snd y =? m) = false) by (apply Z.eqb_neq; congruence). destruct (fst y =? t); cbn [andb negb filter]; rewrite K; auto.
  - rewrite andb_false_r. cbn [negb filter]. destruct (snd y =? m); rewrite IH; auto.
Qed.
Lemma drop_mine : forall t l h, of_lock l h = [(t, l)] -> of_lock l (drop t l h) = [].
Proof.
  intros t l h. unfold of_lock, drop. induction h as [|y h IH]; cbn [filter]; [auto|]. intros H. destruct (Z.eqb_spec (snd y) l) as [E|E].
  - inversion H as [[A B]]. cbn [fst]. rewrite Z.eqb_refl. cbn [andb negb]. rewrite B in *. clear - B. induction h as [|z h IH]; cbn [filter] in *; [auto|]. destruct (Z.eqb_spec (snd z) l) as [E|E]; [discriminate|]. rewrite andb_false_r. cbn [negb filter]. rewrite (proj2 (Z.eqb_neq _ _) E). auto.
  - rewrite andb_false_r. cbn [negb filter]. rewrite (proj2 (Z.eqb_neq _ _) E). auto.
Qed.
Lemma user_pc : forall jok tr w t, RT jok tr w -> in_user t w = true -> t <> 0.
Proof. intros jok tr w t R U ->. apply in_user_no in U as (_ & pc & P & _). rewrite (R_zero _ _ _ R) in P. discriminate. Qed.

Lemma RL_thread : forall tr w x w', RL tr w -> no_lock_item x -> w_mu w' = w_mu w -> w_pend w' = w_pend w -> RL (tr ++ [x]) w'.
Proof. intros tr w x w' R N E1 E2. eapply RL_other; eauto; rewrite ?E1, ?E2; auto. Qed.
Lemma own_some : forall p t w s, own p t w = Some s -> w_th w p = Some s /\ t_pid s = t.
Proof. intros p t w s. unfold own. destruct (w_th w p) as [s'|]; [|discriminate]. destruct (Z.eqb_spec (t_pid s') t); [|discriminate]. intros K. inversion K; subst; auto. Qed.
Lemma own_is : forall p w s, w_th w p = Some s -> own p (t_pid s) w = Some s.
Proof. intros p w s H. unfold own. rewrite H, Z.eqb_refl. auto. Qed.

Lemma create_rel : forall jok tr w t ai ss al cr rc p pid fn ctx w' o, Rel jok tr w -> tstep w (ThCreate t ai ss al cr rc p pid fn ctx) = Go w' o -> Rel jok (tr ++ [(ThCreate t ai ss al cr rc p pid fn ctx, o)]) w'.
Proof.
  intros jok tr w t ai ss al cr rc p pid fn ctx w' o (W & T & L) H. cbn [tstep] in H. unfold call in H. destruct (in_user t w) eqn:U; [|discriminate]. unfold thread_create in H.
  assert (BAD : forall e n, ok e = false -> Go w (Ret e n) = Go w' o -> Rel jok (tr ++ [(ThCreate t ai ss al cr rc p pid fn ctx, o)]) w').
  { intros e n E K. inversion K; subst. split; [auto|]. split; [eapply RT_other; cbn [no_thread_item]; eauto|eapply RL_thread; cbn [no_lock_item]; eauto]. }
  destruct (ai =? 0); cbn [negb ct_obj ct_status] in H; [|eapply BAD; [|exact H]; reflexivity].
  destruct (ss =? 0); cbn [negb ct_obj ct_status] in H; [|eapply BAD; [|exact H]; reflexivity].
  destruct (ok al); cbn [negb ct_obj ct_status] in H; [|eapply BAD; [|exact H]; reflexivity].
  destruct (cr =? 0); cbn [negb ct_obj ct_status] in H; [|eapply BAD; [|exact H]; destruct (ok rc) eqn:O; cbn [negb]; [reflexivity|exact O]].
  destruct (unused p w) eqn:UN; cbn [negb orb] in H; [|discriminate]. destruct (Z.eqb_spec pid 0) as [|PN]; cbn [orb] in H; [discriminate|]. destruct (w_pc w pid) eqn:PC; cbn [negb] in H; [discriminate|]. inversion H; subst; clear H.
  unfold unused in UN. apply andb_true_iff in UN as [UN1 UN2]. destruct (w_th w p) eqn:TH0; [discriminate|]. clear UN2.
  split; [exact W|]. split; [|eapply RL_thread; cbn [no_lock_item]; eauto].
  destruct T as [A1 A2 A3 A4 A5 A7 A8 A9 A10].
  assert (NP : forall q s, w_th w q = Some s -> t_pid s <> 0 -> t_pid s <> pid). { intros q s B C D. destruct (A2 _ _ B C) as (_ & pc & E & _). congruence. }
  constructor; cbn [set_pc set_th w_pc w_th w_pend].
  - rewrite upd_get, (proj2 (Z.eqb_neq 0 pid)); auto.
  - intros q s. rewrite upd_get. destruct (Z.eqb_spec q p) as [->|N]; intros B C.
    + inversion B; subst s; clear B. cbn [t_pid t_fn t_ctx] in *. rewrite upd_get, Z.eqb_refl. snoc. change (ok STATUS_SUCCESS) with true. rewrite !Z.eqb_refl. cbn [andb]. split; [auto|]. exists (PcStart p). specialize (A4 pid). rewrite PC in A4. destruct A4 as (B1 & B2 & B3).
      cbn [placed said]. rewrite B1, B3. repeat split.
    + destruct (A2 _ _ B C) as (D & pc & E & F & G & I0). rewrite upd_get, (proj2 (Z.eqb_neq _ _) (NP _ _ B C)). snoc. rewrite (proj2 (Z.eqb_neq p q)) by auto. rewrite andb_false_r. split; [auto|]. exists pc. do 3 (split; [auto|]).
      rewrite (proj2 (Z.eqb_neq pid (t_pid s))) by (intros K; apply (NP _ _ B C); auto). rewrite andb_false_r, app_nil_r. auto.
  - intros q1 q2 s1 s2. rewrite !upd_get. destruct (Z.eqb_spec q1 p) as [->|N1], (Z.eqb_spec q2 p) as [->|N2]; auto; intros B C D E.
    + inversion B; subst s1. cbn [t_pid] in *. exfalso. apply (NP _ _ C); congruence.
    + inversion C; subst s2. cbn [t_pid] in *. exfalso. apply (NP _ _ B); auto.
    + eapply A3; eauto.
  - intros u. rewrite upd_get. snoc. change (ok STATUS_SUCCESS) with true. cbn [andb]. specialize (A4 u). destruct (Z.eqb_spec u pid) as [->|N].
    + rewrite PC in A4. destruct A4 as (B1 & B2 & B3). rewrite B1, Z.eqb_refl. auto.
    + rewrite (proj2 (Z.eqb_neq pid u)) by auto. rewrite app_nil_r. exact A4.
  - intros u. snoc. rewrite upd_get. rewrite A5. destruct (Z.eqb_spec u pid) as [->|]; [rewrite PC|]; auto.
  - intros J u pc q. rewrite upd_get. destruct (Z.eqb_spec u pid) as [->|N]; intros B C.
    + inversion B; subst. cbn [at_struct] in C. inversion C; subst. unfold own. cbn [set_pc set_th w_th]. rewrite upd_get, Z.eqb_refl. cbn [t_pid]. rewrite Z.eqb_refl. eauto.
    + destruct (A7 J _ _ _ B C) as [s S0]. exists s. apply own_some in S0 as [S1 S2]. unfold own. cbn [set_th set_pc w_th]. rewrite upd_get. destruct (Z.eqb_spec q p) as [->|]; [congruence|]. rewrite S1, S2, Z.eqb_refl. auto.
  - intros u. snoc. auto.
  - intros u q d B. destruct (A9 _ _ _ B) as (C & s & D & E). split; [auto|]. exists s. rewrite upd_get. destruct (Z.eqb_spec q p) as [->|]; [congruence|auto].
  - exact A10.
Qed.
Lemma release_rel : forall jok tr w t p w' o, Rel jok tr w -> tstep w (ThRelease t p) = Go w' o -> Rel jok (tr ++ [(ThRelease t p, o)]) w'.
Proof.
  intros jok tr w t p w' o (W & T & L) H. cbn [tstep] in H. unfold call in H. destruct (in_user t w) eqn:U; [|discriminate]. destruct (w_th w p) as [s|] eqn:TH0; [|discriminate].
  destruct (Z.eqb_spec (t_pid s) 0) as [|PN]; cbn [orb] in H; [discriminate|]. destruct (existsb _ _) eqn:EX; [discriminate|]. inversion H; subst; clear H.
  pose proof (user_pc _ _ _ _ T U) as TN. apply in_user_no in U as [G _].
  split; [apply cons_wf; auto|]. split.
  2:{ eapply RL_other; cbn [no_lock_item set_pend w_mu w_pend]; eauto. intros u. cbn [hget]. destruct (Z.eqb_spec u t) as [->|]; [rewrite G; auto|auto]. }
  destruct T as [A1 A2 A3 A4 A5 A7 A8 A9 A10].
  assert (NO : forall u q, jv (hget (w_pend w) u) <> Some (q, t_pid s)).
  { intros u q K. destruct (hget (w_pend w) u) as [[]|] eqn:E; try discriminate. cbn [jv] in K. inversion K; subst. apply hget_some_in in E. assert (X : existsb (joins (t_pid s)) (w_pend w) = true) by (apply existsb_exists; eexists; split; [exact E|]; unfold joins; cbn [snd]; rewrite Z.eqb_refl; auto). congruence. }
  constructor; cbn [set_pend w_pc w_th w_pend]; auto.
  - intros q x B C. snoc. auto.
  - intros u. snoc. apply A4.
  - intros u. snoc. auto.
  - intros u. snoc. cbn [hget]. rewrite (Z.eqb_sym u t). destruct (t =? u); [auto|apply A8].
  - intros u q d. cbn [hget]. destruct (Z.eqb_spec u t) as [->|]; [intros K; inversion K; subst; eauto|apply A9].
  - intros u v q1 q2 d. cbn [hget]. destruct (Z.eqb_spec u t) as [->|], (Z.eqb_spec v t) as [->|]; auto; intros B C.
    + inversion B; subst. destruct (NO _ _ C).
    + inversion C; subst. destruct (NO _ _ B).
    + eapply A10; eauto.
Qed.
Lemma joined_rel : forall jok tr w t jn rc w' o, Rel jok tr w -> (jok = true -> jn = 0) -> tstep w (ThJoined t jn rc) = Go w' o -> Rel jok (tr ++ [(ThJoined t jn rc, o)]) w'.
Proof.
  intros jok tr w t jn rc w' o (W & T & L) JO H. cbn [tstep] in H. destruct (hget (w_pend w) t) as [[| | |p pid]|] eqn:G; try discriminate.
  destruct (_ && _) eqn:DN; [discriminate|]. destruct (w_th w p) as [s|] eqn:TH0; [|discriminate]. inversion H; subst; clear H.
  split; [apply hdel_wf; auto|]. split.
  2:{ eapply RL_other; cbn [no_lock_item set_pend set_th w_mu w_pend]; eauto; [intros u; rewrite hget_hdel by auto; destruct (Z.eqb_spec u t) as [->|]; [rewrite G; auto|auto]|intros c; eapply waiters_hdel; [exact G|exact Logic.I]]. }
  destruct T as [A1 A2 A3 A4 A5 A7 A8 A9 A10]. assert (JG : jv (hget (w_pend w) t) = Some (p, pid)) by (rewrite G; auto).
  destruct (A9 _ _ _ JG) as (PN & s' & E1 & E2). assert (s' = s) as -> by congruence.
  assert (TH' : forall q x, upd (w_th w) p (if ok rc then None else Some no_thread) q = Some x -> t_pid x <> 0 -> w_th w q = Some x /\ q <> p).
  { intros q x. rewrite upd_get. destruct (Z.eqb_spec q p) as [->|N]; [|auto]. destruct (ok rc); [discriminate|]. intros K X. inversion K; subst. cbn in X. congruence. }
  constructor; cbn [set_pend set_th w_pc w_th w_pend]; auto.
  - intros q x B C. destruct (TH' _ _ B C) as [B' _]. snoc. auto.
  - intros q1 q2 x y B C D E. destruct (TH' _ _ B E) as [B' _]. destruct (TH' _ _ C ltac:(congruence)) as [C' _]. eapply A3; eauto.
  - intros u. snoc. apply A4.
  - intros u. snoc. auto.
  - intros J u pc q B C. specialize (JO J). subst jn. cbn [Z.eqb andb] in DN. destruct (A7 J _ _ _ B C) as [x X]. apply own_some in X as [X1 X2]. exists x. unfold own. cbn [w_th set_pend set_th]. rewrite upd_get. destruct (Z.eqb_spec q p) as [->|].
    + assert (x = s) as -> by congruence. rewrite E2 in X2. subst u. rewrite B in DN. destruct pc; try discriminate DN. discriminate C.
    + rewrite X1, X2, Z.eqb_refl. auto.
  - intros u. snoc. rewrite hget_hdel by auto. rewrite (Z.eqb_sym u t). destruct (t =? u); [auto|apply A8].
  - intros u q d. rewrite hget_hdel by auto. destruct (Z.eqb_spec u t) as [->|N]; [discriminate|]. intros B. destruct (A9 _ _ _ B) as (C & x & D & E). split; [auto|]. exists x. rewrite upd_get. destruct (Z.eqb_spec q p) as [->|]; [|auto].
    exfalso. apply N. assert (x = s) as -> by congruence. apply (A10 u t p p pid); auto. rewrite E2 in E. subst d. auto.
  - intros u v q1 q2 d. rewrite !hget_hdel by auto. destruct (u =? t); [discriminate|]. destruct (v =? t); [discriminate|]. apply A10.
Qed.
(** A step of a thread. *)
Lemma pc_rel : forall jok tr w t pc pc' p s' x w', Rel jok tr w -> w_pc w t = Some pc ->
  match x with (ThEnter u, Calls _ _) | (ThReturn u _, Quiet) | (ThExit u, Quiet) | (ThStore u, Quiet) | (ThStop u, Quiet) => u = t | _ => False end ->
  w_pc w' = upd (w_pc w) t (Some pc') -> (pc' <> PcUser /\ forall q, pc' <> PcStart q) ->
  ((w_th w' = w_th w) \/ (own p t w = Some s' /\ exists r e, w_th w' = upd (w_th w) p (Some (TH t (t_ctx s') (t_fn s') r e)))) ->
  w_mu w' = w_mu w -> w_pend w' = w_pend w -> no_lock_item x ->
  (forall q s, w_th w q = Some s -> t_pid s = t -> t <> 0 -> placed pc q -> said pc (returned tr t) s -> orders tr t = [(t_fn s, t_ctx s)] ->
     exists s1, w_th w' q = Some s1 /\ placed pc' q /\ said pc' (returned (tr ++ [x]) t) s1) ->
  (length (orders tr t) = 1%nat -> match pc with PcStart _ => begun tr t = [] | _ => begun tr t = orders tr t end -> begun (tr ++ [x]) t = orders tr t) ->
  exited (tr ++ [x]) t = match pc' with PcDone => true | _ => false end ->
  (forall q, at_struct pc' = Some q -> at_struct pc = Some q) -> pc <> PcUser -> Rel jok (tr ++ [x]) w'.
Proof.
  intros jok tr w t pc pc' p s' x w' (W & T & L) PC X EP (PU & PS) ET EM EN NL HS HB HE HA PU0.
  split; [rewrite EN; auto|]. split; [|eapply RL_thread; eauto].
  destruct T as [A1 A2 A3 A4 A5 A7 A8 A9 A10].
  assert (TN : t <> 0) by (intros ->; congruence).
  assert (F : (forall q, created_at (tr ++ [x]) q = created_at tr q) /\ (forall u, u <> t -> returned (tr ++ [x]) u = returned tr u) /\ (forall u, orders (tr ++ [x]) u = orders tr u) /\
    (forall u, u <> t -> begun (tr ++ [x]) u = begun tr u) /\ (forall u, u <> t -> exited (tr ++ [x]) u = exited tr u) /\ (forall u, releasing (tr ++ [x]) u = releasing tr u)).
  { destruct x as [x o]. repeat split; intros; snoc; destruct x; try contradiction; auto; destruct o; try contradiction; cbn in X; subst; rewrite ?app_nil_r, ?orb_false_r; auto;
      rewrite (proj2 (Z.eqb_neq t u)) by auto; rewrite ?app_nil_r, ?orb_false_r; auto. }
  destruct F as (F1 & F2 & F3 & F4 & F5 & F6).
  assert (OLD : forall q s1, w_th w' q = Some s1 -> exists s, w_th w q = Some s /\ t_pid s = t_pid s1 /\ t_fn s = t_fn s1 /\ t_ctx s = t_ctx s1 /\ (t_pid s1 <> t -> s1 = s)).
  { intros q s1. destruct ET as [->|(OW & r & e & ->)]; [eauto 10|]. rewrite upd_get. destruct (Z.eqb_spec q p) as [->|]; [|eauto 10]. intros K. inversion K; subst. apply own_some in OW as [O1 O2]. exists s'. cbn. repeat split; auto. congruence. }
  assert (NEW : forall q s, w_th w q = Some s -> exists s1, w_th w' q = Some s1 /\ t_pid s = t_pid s1).
  { intros q s B. destruct ET as [->|(OW & r & e & ->)]; [eauto|]. rewrite upd_get. destruct (Z.eqb_spec q p) as [->|]; [|eauto]. apply own_some in OW as [O1 O2]. eexists. split; [reflexivity|]. cbn. congruence. }
  constructor; rewrite ?EP, ?EN; auto.
  - rewrite upd_get, (proj2 (Z.eqb_neq 0 t)); auto.
  - intros q s1 B C. destruct (OLD _ _ B) as (s & B1 & B2 & B3 & B4 & B5). destruct (A2 _ _ B1 ltac:(congruence)) as (D & pc0 & E & E1 & E2 & E3). rewrite F1, F3. rewrite <- B2, <- B3, <- B4. split; [auto|]. rewrite upd_get.
    destruct (Z.eqb_spec (t_pid s) t) as [K|K].
    + rewrite K in *. rewrite PC in E. inversion E; subst pc0. destruct (HS _ _ B1 K TN E1 E2 E3) as (s2 & S1 & S2 & S3). assert (s2 = s1) as -> by congruence. exists pc'. auto.
    + rewrite (B5 ltac:(congruence)) in *. rewrite F2 by auto. exists pc0. auto.
  - intros q1 q2 x1 x2 B C D E. destruct (OLD _ _ B) as (y1 & B1 & B2 & _). destruct (OLD _ _ C) as (y2 & C1 & C2 & _). eapply A3; eauto; congruence.
  - intros u. rewrite upd_get. rewrite F3. specialize (A4 u). destruct (Z.eqb_spec u t) as [->|N].
    + rewrite PC in A4. assert (K : begun (tr ++ [x]) t = orders tr t /\ length (orders tr t) = 1%nat).
      { destruct pc; try (destruct A4 as [K1 K2]; split; auto; fail). congruence. }
      destruct pc'; auto; exfalso; eauto; eapply PS; eauto.
    + rewrite F2, F4 by auto. exact A4.
  - intros u. rewrite upd_get. destruct (Z.eqb_spec u t) as [->|N]; [auto|rewrite F5 by auto; auto].
  - intros J u pc0 q. rewrite upd_get. intros B C. assert (exists s, own q u w = Some s) as [s S0].
    { destruct (Z.eqb_spec u t) as [->|N]; [|eapply A7; eauto]. inversion B; subst pc0. eapply A7; eauto. }
    apply own_some in S0 as [S1 S2]. destruct (NEW _ _ S1) as (s1 & S3 & S4). exists s1. unfold own. rewrite S3, <- S4, S2, Z.eqb_refl. auto.
  - intros u. rewrite F6. auto.
  - intros u q d B. destruct (A9 _ _ _ B) as (C & s & D & E). split; [auto|]. destruct (NEW _ _ D) as (s1 & S3 & S4). exists s1. split; congruence.
Qed.

Lemma enter_rel : forall jok tr w t w' o, Rel jok tr w -> tstep w (ThEnter t) = Go w' o -> Rel jok (tr ++ [(ThEnter t, o)]) w'.
Proof.
  intros jok tr w t w' o R H. cbn [tstep] in H. destruct (w_pc w t) as [[|p| | | | |]|] eqn:PC; try discriminate. destruct (own p t w) as [s|] eqn:OW; inversion H; subst; clear H.
  apply (pc_rel _ _ w t (PcStart p) (PcFn p) p s); cbn; auto.
  - split; [discriminate|]. intros q. discriminate.
  - intros q s0 A B TN C D E. exists s0. snoc. auto.
  - intros A B. snoc. rewrite B, Z.eqb_refl. cbn [app]. apply own_some in OW as [O1 O2]. destruct R as (_ & T & _).
    assert (TN : t <> 0) by (intros ->; rewrite (R_zero _ _ _ T) in PC; discriminate). destruct (R_th _ _ _ T _ _ O1 ltac:(congruence)) as (_ & pc & _ & _ & _ & K). rewrite O2 in K. auto.
  - snoc. destruct R as (_ & T & _). rewrite (R_done _ _ _ T), PC. auto.
  - discriminate.
Qed.
Lemma return_rel : forall jok tr w t v w' o, Rel jok tr w -> tstep w (ThReturn t v) = Go w' o -> Rel jok (tr ++ [(ThReturn t v, o)]) w'.
Proof.
  intros jok tr w t v w' o R H. cbn [tstep] in H. unfold call in H. destruct (in_user t w) eqn:U; [|discriminate]. destruct (w_pc w t) as [[| |p| | | |]|] eqn:PC; try discriminate. inversion H; subst; clear H.
  apply (pc_rel _ _ w t (PcFn p) (PcRet p v) p no_thread); cbn; auto.
  - split; [discriminate|]. intros q. discriminate.
  - intros q s0 A B TN C D E. exists s0. snoc. rewrite D, Z.eqb_refl. auto.
  - intros A B. snoc. auto.
  - snoc. destruct R as (_ & T & _). rewrite (R_done _ _ _ T), PC. auto.
  - discriminate.
Qed.
Lemma store_rel : forall jok tr w t w' o, Rel jok tr w -> tstep w (ThStore t) = Go w' o -> Rel jok (tr ++ [(ThStore t, o)]) w'.
Proof.
  intros jok tr w t w' o R H. cbn [tstep] in H. destruct (w_pc w t) as [[| | |p v| | |]|] eqn:PC; try discriminate. destruct (own p t w) as [s|] eqn:OW; [|discriminate]. destruct (own_some _ _ _ _ OW) as [O1 O2]. rewrite O2 in H. inversion H; subst w' o; clear H.
  apply (pc_rel _ _ w t (PcRet p v) (PcStored p) p s); cbn; auto.
  - split; [discriminate|]. intros q. discriminate.
  - right. split; [auto|]. eauto.
  - intros q s0 A B TN C D E. subst q. rewrite upd_get, Z.eqb_refl. eexists. split; [reflexivity|]. snoc. rewrite D. auto.
  - intros A B. snoc. auto.
  - snoc. destruct R as (_ & T & _). rewrite (R_done _ _ _ T), PC. auto.
  - discriminate.
Qed.
Lemma stop_rel : forall jok tr w t w' o, Rel jok tr w -> tstep w (ThStop t) = Go w' o -> Rel jok (tr ++ [(ThStop t, o)]) w'.
Proof.
  intros jok tr w t w' o R H. cbn [tstep] in H. destruct (w_pc w t) as [[| | | |p| |]|] eqn:PC; try discriminate. destruct (own p t w) as [s|] eqn:OW; [|discriminate]. destruct (own_some _ _ _ _ OW) as [O1 O2]. rewrite O2 in H. inversion H; subst w' o; clear H.
  apply (pc_rel _ _ w t (PcStored p) PcStopped p s); cbn; auto.
  - split; [discriminate|]. intros q. discriminate.
  - right. split; [auto|]. eauto.
  - intros q s0 A B TN C D E. subst q. rewrite upd_get, Z.eqb_refl. eexists. split; [reflexivity|]. snoc. rewrite D. cbn [t_exit]. assert (s0 = s) as -> by congruence. auto.
  - intros A B. snoc. auto.
  - snoc. destruct R as (_ & T & _). rewrite (R_done _ _ _ T), PC. auto.
  - discriminate.
  - discriminate.
Qed.
Lemma exit_rel : forall jok tr w t w' o, Rel jok tr w -> tstep w (ThExit t) = Go w' o -> Rel jok (tr ++ [(ThExit t, o)]) w'.
Proof.
  intros jok tr w t w' o R H. cbn [tstep] in H. destruct (w_pc w t) as [[| | | | | |]|] eqn:PC; try discriminate. inversion H; subst; clear H.
  apply (pc_rel _ _ w t PcStopped PcDone 0 no_thread); cbn; auto.
  - split; [discriminate|]. intros q. discriminate.
  - intros q s0 A B TN C D E. exists s0. snoc. auto.
  - intros A B. snoc. auto.
  - snoc. rewrite Z.eqb_refl, orb_true_r. auto.
  - discriminate.
Qed.

(** ** Mutexes *)
Lemma mu_new : forall jok tr w x o w' p, Rel jok tr w -> no_thread_item (x, o) -> no_lock_item (x, o) -> w_th w' = w_th w -> w_pc w' = w_pc w -> w_pend w' = w_pend w ->
  (forall m, m <> p -> w_mu w' m = w_mu w m) -> (w_mu w p = None \/ w_mu w p = Some (Some 0)) -> (w_mu w' p = None \/ w_mu w' p = Some None \/ w_mu w' p = Some (Some 0)) ->
  (existsb (uses p) (w_pend w) = true -> w_mu w p <> None -> w_mu w' p = Some (Some 0)) -> Rel jok (tr ++ [(x, o)]) w'.
Proof.
  intros jok tr w x o w' p (W & T & L) N1 N2 E1 E2 E3 E4 E5 E6 E7. split; [rewrite E3; auto|]. split; [eapply RT_other; eauto; rewrite E3; auto|].
  eapply RL_other; eauto; rewrite ?E3; auto. intros m. destruct (Z.eq_dec m p) as [->|N]; [right; auto|left; auto].
Qed.
Lemma same_rel : forall jok tr w x o, Rel jok tr w -> no_thread_item (x, o) -> no_lock_item (x, o) -> Rel jok (tr ++ [(x, o)]) w.
Proof. intros jok tr w x o (W & T & L) N1 N2. split; [auto|]. split; [eapply RT_other; eauto|eapply RL_thread; eauto]. Qed.
Lemma mcreate_rel : forall jok tr w t al it rc p w' o, Rel jok tr w -> tstep w (MuCreate t al it rc p) = Go w' o -> Rel jok (tr ++ [(MuCreate t al it rc p, o)]) w'.
Proof.
  intros jok tr w t al it rc p w' o R H. cbn [tstep] in H. unfold call in H. destruct (in_user t w) eqn:U; [|discriminate]. unfold mutex_create in H.
  destruct (ok al); cbn [negb ct_obj ct_status] in H; [|inversion H; subst; apply same_rel; cbn; auto]. destruct (it =? 0); cbn [negb ct_obj ct_status] in H; [|inversion H; subst; apply same_rel; cbn; auto].
  destruct (unused p w) eqn:UN; cbn [negb] in H; [|discriminate]. inversion H; subst; clear H. unfold unused in UN. apply andb_true_iff in UN as [_ UN]. destruct (w_th w p); [discriminate|]. destruct (w_mu w p) eqn:MU; [discriminate|].
  apply (mu_new _ _ w _ _ _ p); cbn; auto; rewrite ?upd_get, ?Z.eqb_refl; auto. intros m N. rewrite upd_get, (proj2 (Z.eqb_neq _ _) N). auto.
Qed.
Lemma mrelease_rel : forall jok tr w t ds rc p w' o, Rel jok tr w -> tstep w (MuRelease t ds rc p) = Go w' o -> Rel jok (tr ++ [(MuRelease t ds rc p, o)]) w'.
Proof.
  intros jok tr w t ds rc p w' o R H. cbn [tstep] in H. unfold call in H. destruct (in_user t w) eqn:U; [|discriminate]. destruct (w_mu w p) as [[h|]|] eqn:MU; try discriminate.
  destruct (Z.eqb_spec h 0) as [->|]; cbn [negb orb] in H; [|discriminate]. destruct (existsb _ _) eqn:EX; [discriminate|]. inversion H; subst; clear H.
  apply (mu_new _ _ w _ _ _ p); cbn; auto; rewrite ?upd_get, ?Z.eqb_refl; auto; [intros m N; rewrite upd_get, (proj2 (Z.eqb_neq _ _) N); auto|destruct (ok rc); auto|congruence].
Qed.
Lemma acquire_rel : forall jok tr w t m w' o, Rel jok tr w -> tstep w (MuAcquire t m) = Go w' o -> Rel jok (tr ++ [(MuAcquire t m, o)]) w'.
Proof.
  intros jok tr w t m w' o (W & T & L) H. cbn [tstep] in H. unfold call in H. destruct (in_user t w) eqn:U; [|discriminate]. destruct (w_mu w m) as [[h|]|] eqn:MU; try discriminate. inversion H; subst; clear H.
  pose proof (user_pc _ _ _ _ T U) as TN. apply in_user_no in U as [G _]. split; [apply cons_wf; auto|]. split.
  { eapply RT_other; cbn [no_thread_item set_pend w_pend]; eauto. intros u. cbn [hget]. destruct (Z.eqb_spec u t) as [->|]; [rewrite G; auto|auto]. }
  destruct L as [A1 A2 A3 A4 A5]. constructor; cbn [set_pend w_mu w_pend].
  - intros q. snoc. auto.
  - intros u. snoc. cbn [hget]. rewrite (Z.eqb_sym u t). destruct (t =? u); [auto|apply A2].
  - intros u y q. cbn [hget]. destruct (u =? t); [|apply A3]. intros K. inversion K; subst. cbn [uses snd]. intros E. apply Z.eqb_eq in E. subst. eauto.
  - intros c. snoc. rewrite waiters_cons. apply A4.
  - intros u. snoc. cbn [hget]. destruct (Z.eqb_spec u t) as [EQ|]; [subst u; rewrite A5, G; auto|apply A5].
Qed.
(** A thread gets the lock, or not, and its blocking call ends. *)
Lemma got_rel : forall jok tr w t x y m o w', Rel jok tr w -> hget (w_pend w) t = Some y -> match y with PdLock q | PdBack q => q = m | _ => False end -> w_pend w' = hdel (w_pend w) t -> w_th w' = w_th w -> w_pc w' = w_pc w ->
  (x = CoBack t \/ exists e, x = MuLocked t e) -> match y with PdLock _ => x <> CoBack t | _ => x = CoBack t end ->
  (w_mu w m = Some (Some 0) /\ w_mu w' = upd (w_mu w) m (Some (Some t)) /\ o = Ret STATUS_SUCCESS (Some m) \/ w_mu w' = w_mu w /\ exists e, o = Ret e None) ->
  Rel jok (tr ++ [(x, o)]) w'.
Proof.
  intros jok tr w t x y m o w' (W & T & L) G Y E1 E2 E3 X XY O.
  assert (TN : t <> 0) by (intros ->; destruct W as [_ W]; apply W; eapply hget_in; eauto).
  split; [rewrite E1; apply hdel_wf; auto|]. split.
  { eapply RT_other; eauto; [destruct X as [->|[e ->]]; cbn; auto|]. intros u. rewrite E1, hget_hdel by auto. destruct (Z.eqb_spec u t) as [->|]; [rewrite G; destruct y; try contradiction; auto|auto]. }
  destruct L as [A1 A2 A3 A4 A5].
  assert (LM : exists h, w_mu w m = Some (Some h)) by (apply (A3 _ _ m G); unfold uses; cbn [snd]; destruct y; try contradiction; subst; apply Z.eqb_refl).
  constructor.
  - intros q. assert (HH : held (tr ++ [(x, o)]) = match o with Ret e (Some l) => if ok e then (t, l) :: held tr else held tr | _ => held tr end) by (destruct X as [->|[e ->]]; snoc; destruct o as [|? []|]; auto).
    rewrite HH. destruct O as [(O1 & O2 & ->)|(O1 & e & ->)]; [|rewrite O1; auto]. change (ok STATUS_SUCCESS) with true. cbv iota. cbn [of_lock filter snd]. rewrite O2, upd_get, (Z.eqb_sym q m). specialize (A1 q). unfold of_lock in A1 |- *. cbn [filter snd].
    destruct (Z.eqb_spec m q) as [->|]; [|auto]. rewrite A1, O1, (proj2 (Z.eqb_neq t 0) TN). auto.
  - intros u. rewrite E1, hget_hdel by auto. assert (AQ : acquiring (tr ++ [(x, o)]) u = if (match y with PdLock _ => true | _ => false end) && (t =? u) then None else acquiring tr u).
    { destruct X as [->|[e ->]]; snoc; destruct y; try contradiction; cbn [andb]; try congruence; try discriminate XY; auto. }
    rewrite AQ, A2, (Z.eqb_sym u t). destruct (Z.eqb_spec t u) as [EQ|]; [|rewrite andb_false_r; auto]. subst u. rewrite G. destruct y; auto; contradiction.
  - intros u z q. rewrite E1, hget_hdel by auto. destruct (u =? t); [discriminate|]. intros B C. destruct (A3 _ _ _ B C) as [h H]. destruct O as [(_ & O2 & _)|(O1 & _)]; [rewrite O2, upd_get; destruct (q =? m); eauto|rewrite O1; eauto].
  - intros c. rewrite E1, (waiters_hdel c _ _ _ G) by (destruct y; auto). destruct X as [->|[e ->]]; snoc; auto.
  - intros u. rewrite E1, hget_hdel by auto. assert (AQ : waited_with (tr ++ [(x, o)]) u = if (match y with PdLock _ => false | _ => true end) && (t =? u) then None else waited_with tr u).
    { destruct X as [->|[e ->]]; snoc; destruct y; try contradiction; cbn [andb]; try congruence; try discriminate XY; auto. }
    rewrite AQ, A5, (Z.eqb_sym u t). destruct (Z.eqb_spec t u) as [EQ|]; [|rewrite andb_false_r; auto]. subst u. rewrite G. destruct y; auto; contradiction.
Qed.
Lemma locked_rel : forall jok tr w t e w' o, Rel jok tr w -> tstep w (MuLocked t e) = Go w' o -> Rel jok (tr ++ [(MuLocked t e, o)]) w'.
Proof.
  intros jok tr w t e w' o R H. cbn [tstep] in H. destruct (hget (w_pend w) t) as [[m| | |]|] eqn:G; try discriminate. destruct (w_mu w m) as [[h|]|] eqn:MU; try discriminate.
  destruct (e =? 0) eqn:E; cbn [negb] in H.
  - destruct (Z.eqb_spec h 0) as [->|]; cbn [negb] in H; [|discriminate]. inversion H; subst; clear H. eapply got_rel; try exact G; cbn; eauto. discriminate.
  - inversion H; subst; clear H. eapply got_rel; try exact G; cbn; eauto. discriminate.
Qed.
Lemma back_rel : forall jok tr w t w' o, Rel jok tr w -> tstep w (CoBack t) = Go w' o -> Rel jok (tr ++ [(CoBack t, o)]) w'.
Proof.
  intros jok tr w t w' o R H. cbn [tstep] in H. destruct (hget (w_pend w) t) as [[| |m|]|] eqn:G; try discriminate. destruct (w_mu w m) as [[h|]|] eqn:MU; try discriminate.
  destruct (Z.eqb_spec h 0) as [->|]; cbn [negb] in H; [|discriminate]. inversion H; subst; clear H. eapply got_rel; try exact G; cbn; eauto.
Qed.
Lemma unlock_rel : forall jok tr w t l e w' o, Rel jok tr w -> tstep w (LkRelease t l e) = Go w' o -> Rel jok (tr ++ [(LkRelease t l e, o)]) w'.
Proof.
  intros jok tr w t l e w' o R H. cbn [tstep] in H. unfold call in H. destruct (in_user t w) eqn:U; [|discriminate]. destruct (w_mu w l) as [[h|]|] eqn:MU; try discriminate.
  destruct (e =? 0) eqn:E; cbn [negb] in H; [|inversion H; subst; apply same_rel; cbn; auto]. destruct (Z.eqb_spec h t) as [->|]; cbn [negb] in H; [|discriminate]. inversion H; subst; clear H.
  destruct R as (W & T & L). pose proof (user_pc _ _ _ _ T U) as TN. split; [auto|]. split; [eapply RT_other; cbn [no_thread_item]; eauto|].
  destruct L as [A1 A2 A3 A4 A5]. constructor; cbn [set_mu w_mu w_pend].
  - intros q. snoc. change (ok STATUS_SUCCESS) with true. cbv iota. rewrite upd_get. destruct (Z.eqb_spec q l) as [->|N]; [|rewrite drop_other; auto]. apply drop_mine. rewrite A1, MU, (proj2 (Z.eqb_neq t 0) TN). auto.
  - intros u. snoc. auto.
  - intros u y q B C. destruct (A3 _ _ _ B C). rewrite upd_get. destruct (q =? l); eauto.
  - intros c. snoc. auto.
  - intros u. snoc. apply A5.
Qed.

(** ** Conditions *)
Lemma ccreate_rel : forall jok tr w t al it rc p w' o, Rel jok tr w -> tstep w (CoCreate t al it rc p) = Go w' o -> Rel jok (tr ++ [(CoCreate t al it rc p, o)]) w'.
Proof.
  intros jok tr w t al it rc p w' o R H. cbn [tstep] in H. unfold call in H. destruct (in_user t w) eqn:U; [|discriminate]. destruct (ct_obj _); [destruct (negb _); [discriminate|]|]; inversion H; subst; clear H;
    destruct R as (W & T & L); (split; [auto|]); (split; [eapply RT_other; cbn; eauto|eapply RL_thread; cbn; eauto]).
Qed.
Lemma crelease_rel : forall jok tr w t ds rc p w' o, Rel jok tr w -> tstep w (CoRelease t ds rc p) = Go w' o -> Rel jok (tr ++ [(CoRelease t ds rc p, o)]) w'.
Proof.
  intros jok tr w t ds rc p w' o R H. cbn [tstep] in H. unfold call in H. destruct (in_user t w) eqn:U; [|discriminate]. destruct (w_co w p) as [[]|]; try discriminate. destruct (existsb _ _); inversion H; subst; clear H;
    destruct R as (W & T & L); (split; [auto|]); (split; [eapply RT_other; cbn; eauto|eapply RL_thread; cbn; eauto]).
Qed.
Lemma wait_rel : forall jok tr w t l c e w' o, Rel jok tr w -> tstep w (CoWait t l c e) = Go w' o -> Rel jok (tr ++ [(CoWait t l c e, o)]) w'.
Proof.
  intros jok tr w t l c e w' o R H. cbn [tstep] in H. unfold call in H. destruct (in_user t w) eqn:U; [|discriminate]. destruct (w_mu w l) as [[h|]|] eqn:MU; try discriminate. destruct (w_co w c) as [[]|]; try discriminate.
  destruct (Z.eqb_spec h t) as [->|]; cbn [negb orb] in H; [|discriminate]. destruct (existsb _ _); [discriminate|]. destruct (e =? 0) eqn:E; cbn [negb] in H; [|inversion H; subst; apply same_rel; cbn; auto]. inversion H; subst; clear H.
  destruct R as (W & T & L). pose proof (user_pc _ _ _ _ T U) as TN. apply in_user_no in U as [G _]. split; [apply cons_wf; auto|]. split.
  { eapply RT_other; cbn [no_thread_item set_pend set_mu w_pend]; eauto. intros u. cbn [hget]. destruct (Z.eqb_spec u t) as [->|]; [rewrite G; auto|auto]. }
  destruct L as [A1 A2 A3 A4 A5]. constructor; cbn [set_pend set_mu w_mu w_pend].
  - intros q. snoc. rewrite upd_get. destruct (Z.eqb_spec q l) as [->|N]; [|rewrite drop_other; auto]. apply drop_mine. rewrite A1, MU, (proj2 (Z.eqb_neq t 0) TN). auto.
  - intros u. snoc. cbn [hget]. destruct (Z.eqb_spec u t) as [->|]; [rewrite A2, G; auto|apply A2].
  - intros u y q. cbn [hget]. rewrite upd_get. destruct (Z.eqb_spec u t) as [->|].
    + intros K. inversion K; subst. cbn [uses snd]. rewrite Z.eqb_sym. intros ->. eauto.
    + intros B C. destruct (A3 _ _ _ B C). destruct (q =? l); eauto.
  - intros d. snoc. rewrite waiters_cons, <- A4. destruct (c =? d); auto.
  - intros u. snoc. cbn [hget]. rewrite (Z.eqb_sym u t). destruct (Z.eqb_spec t u) as [<-|]; [auto|apply A5].
Qed.
Lemma wake_rel : forall jok tr w t w' o, Rel jok tr w -> tstep w (CoWake t) = Go w' o -> Rel jok (tr ++ [(CoWake t, o)]) w'.
Proof.
  intros jok tr w t w' o (W & T & L) H. cbn [tstep] in H. destruct (hget (w_pend w) t) as [[|c m| |]|] eqn:G; try discriminate. inversion H; subst; clear H.
  split; [apply hset_wf; auto|]. split.
  { eapply RT_other; cbn [no_thread_item set_pend w_pend]; eauto. intros u. rewrite hget_hset. destruct (Z.eqb_spec u t) as [->|]; [rewrite G; auto|auto]. }
  destruct L as [A1 A2 A3 A4 A5]. constructor; cbn [set_pend w_mu w_pend].
  - intros q. snoc. auto.
  - intros u. snoc. rewrite hget_hset, A2. destruct (Z.eqb_spec u t) as [->|]; [rewrite G; auto|auto].
  - intros u y q. rewrite hget_hset, G. destruct (Z.eqb_spec u t) as [->|]; [|apply A3]. intros K. inversion K; subst. intros X. eapply A3; eauto.
  - intros d. snoc. rewrite A4. symmetry. eapply waiters_wake; eauto.
  - intros u. snoc. rewrite hget_hset, G. specialize (A5 u). destruct (Z.eqb_spec u t) as [->|]; [rewrite G in A5; auto|auto].
Qed.
(** Some of the threads that wait on [c] are woken. *)
Lemma woken_rel : forall jok tr w x o f, Rel jok tr w -> no_thread_item (x, o) ->
  (forall y, f y = y \/ (f y = awake y /\ exists d m, snd y = PdWait d m)) ->
  held (tr ++ [(x, o)]) = held tr -> (forall t, acquiring (tr ++ [(x, o)]) t = acquiring tr t) -> (forall t, waited_with (tr ++ [(x, o)]) t = waited_with tr t) ->
  (forall d, waiting (tr ++ [(x, o)]) d = waiters d (map f (w_pend w))) ->
  Rel jok (tr ++ [(x, o)]) (set_pend (map f (w_pend w)) w).
Proof.
  intros jok tr w x o f (W & T & L) N F H1 H2 H3 H4. assert (FF : forall y, fst (f y) = fst y) by (intros y; destruct (F y) as [->|[-> _]]; [auto|apply awake_fst]).
  split; [unfold hwf; cbn [set_pend w_pend]; rewrite addrs_map by auto; exact W|]. split.
  { eapply RT_other; eauto. intros u. cbn [set_pend w_pend]. rewrite hget_map by auto. destruct (hget (w_pend w) u) as [y|]; [|auto]. cbn [option_map]. destruct (F (u, y)) as [->|(-> & d & m & E)]; [auto|]. cbn [snd] in E. subst. auto. }
  destruct L as [A1 A2 A3 A4 A5]. constructor; cbn [set_pend w_mu w_pend].
  - intros q. rewrite H1. auto.
  - intros u. rewrite H2, hget_map by auto. rewrite A2. destruct (hget (w_pend w) u) as [y|]; [|auto]. cbn [option_map]. destruct (F (u, y)) as [->|(-> & d & m & E)]; [auto|]. cbn [snd] in E. subst. auto.
  - intros u y q. rewrite hget_map by auto. destruct (hget (w_pend w) u) as [z|] eqn:G; [|discriminate]. cbn [option_map]. intros K X. inversion K; subst. eapply A3; [exact G|]. destruct (F (u, z)) as [E|(E & d & m & E2)]; rewrite E in X; [exact X|]. cbn [snd] in E2. subst. exact X.
  - exact H4.
  - intros u. rewrite H3, hget_map by auto. specialize (A5 u). destruct (hget (w_pend w) u) as [y|]; [|auto]. cbn [option_map]. destruct (F (u, y)) as [->|(-> & d & m & E)]; [auto|]. cbn [snd] in E. subst. auto.
Qed.
Lemma in_hget : forall A (h : heap A) k v, NoDup (addrs h) -> In (k, v) h -> hget h k = Some v.
Proof.
  induction h as [|[q w] h IH]; cbn [hget addrs map fst]; intros k v N H; [destruct H|]. inversion N as [|? ? N1 N2]; subst. destruct H as [H|H]; [inversion H; subst; rewrite Z.eqb_refl; auto|].
  destruct (Z.eqb_spec k q) as [->|]; [|auto]. exfalso. apply N1. apply (in_map fst) in H. exact H.
Qed.
Lemma waiters_signal : forall d c woken (h : heap pend), (forall u x, In (u, x) h -> existsb (Z.eqb u) woken = true -> waits c (u, x) = true) ->
  waiters d (map (fun x => if existsb (Z.eqb (fst x)) woken then awake x else x) h) = if c =? d then filter (fun y => negb (existsb (Z.eqb (fst y)) woken)) (waiters d h) else waiters d h.
Proof.
  intros d c woken. induction h as [|[q y] h IH]; intros H; [destruct (c =? d); reflexivity|]. cbn [map fst]. rewrite waiters_cons. specialize (IH ltac:(intros; apply H; [right; auto|auto])).
  destruct (existsb (Z.eqb q) woken) eqn:E.
  - pose proof (H q y ltac:(left; auto) E) as K. unfold waits in K. cbn [snd] in K. destruct y; try discriminate. apply Z.eqb_eq in K. subst c0. cbn [awake]. rewrite waiters_cons, IH. cbn [app]. destruct (c =? d); [|reflexivity]. cbn [app filter fst]. rewrite E. reflexivity.
  - rewrite waiters_cons, IH. destruct (c =? d); [|reflexivity]. rewrite filter_app. f_equal. symmetry. apply filter_all. intros z Z0. destruct y; try (destruct Z0; fail). destruct (_ =? d); [|destruct Z0]. destruct Z0 as [<-|[]]. cbn [fst]. rewrite E. reflexivity.
Qed.
Lemma waiters_signal_all : forall d c (h : heap pend), waiters d (map (fun x => if waits c x then awake x else x) h) = if c =? d then [] else waiters d h.
Proof.
  intros d c. induction h as [|[q y] h IH]; [destruct (c =? d); reflexivity|]. cbn [map]. rewrite waiters_cons. unfold waits at 1. cbn [snd].
  destruct y; cbn [awake]; try (rewrite waiters_cons; exact IH). destruct (Z.eqb_spec c0 c) as [->|N]; rewrite waiters_cons, IH.
  - cbn [app]. destruct (c =? d); reflexivity.
  - destruct (Z.eqb_spec c d) as [->|]; [|reflexivity]. rewrite (proj2 (Z.eqb_neq _ _) N). reflexivity.
Qed.
Lemma signal_rel : forall jok tr w t l c e woken w' o, Rel jok tr w -> tstep w (CoSignal t l c e woken) = Go w' o -> Rel jok (tr ++ [(CoSignal t l c e woken, o)]) w'.
Proof.
  intros jok tr w t l c e woken w' o R H. cbn [tstep] in H. unfold call in H. destruct (in_user t w) eqn:U; [|discriminate]. destruct (w_co w c) as [[]|]; try discriminate.
  destruct (Z.eqb_spec e 0) as [->|E]; cbn [negb] in H; [|inversion H; subst; apply same_rel; cbn; auto; apply ok_false; auto].
  destruct (forallb _ woken) eqn:FA; cbn [andb] in H; [|discriminate]. destruct (_ || _); [|discriminate]. inversion H; subst; clear H.
  apply woken_rel; auto; try (intros; snoc; auto; fail); [exact Logic.I| |].
  - intros [u y]. cbn [fst]. destruct (existsb _ woken); [|auto]. destruct y; auto. right. split; [auto|]. cbn [snd]. eauto.
  - intros d. snoc. change (ok STATUS_SUCCESS) with true. rewrite andb_true_r. destruct R as ((W & _) & _ & L). rewrite (waiters_signal d c).
    + rewrite (R_wait _ _ L). reflexivity.
    + intros u x A B. apply existsb_exists in B as (v & B & C). apply Z.eqb_eq in C. subst v. rewrite forallb_forall in FA. apply FA in B. rewrite (in_hget _ _ _ _ W A) in B. exact B.
Qed.
Lemma signal_all_rel : forall jok tr w t l c e w' o, Rel jok tr w -> tstep w (CoSignalAll t l c e) = Go w' o -> Rel jok (tr ++ [(CoSignalAll t l c e, o)]) w'.
Proof.
  intros jok tr w t l c e w' o R H. cbn [tstep] in H. unfold call in H. destruct (in_user t w) eqn:U; [|discriminate]. destruct (w_co w c) as [[]|]; try discriminate.
  destruct (Z.eqb_spec e 0) as [->|E]; cbn [negb] in H; [|inversion H; subst; apply same_rel; cbn; auto; apply ok_false; auto]. inversion H; subst; clear H.
  apply woken_rel; auto; try (intros; snoc; auto; fail); [exact Logic.I| |].
  - intros [u y]. unfold waits. cbn [snd]. destruct y; auto. destruct (_ =? c); eauto 10.
  - intros d. snoc. change (ok STATUS_SUCCESS) with true. rewrite andb_true_r. destruct R as (_ & _ & L). rewrite waiters_signal_all, (R_wait _ _ L). reflexivity.
Qed.

Lemma step_rel : forall jok tr w x w' o, Rel jok tr w -> (jok = true -> match x with ThJoined _ jn _ => jn = 0 | _ => True end) -> tstep w x = Go w' o -> Rel jok (tr ++ [(x, o)]) w'.
Proof.
  intros jok tr w x w' o R J H. destruct x; eauto using create_rel, release_rel, joined_rel, enter_rel, return_rel, store_rel, stop_rel, exit_rel, mcreate_rel, mrelease_rel, acquire_rel, locked_rel, unlock_rel, ccreate_rel, crelease_rel, wait_rel, wake_rel, back_rel, signal_rel, signal_all_rel.
Qed.
Lemma runs_rel : forall jok es tr w os w', Rel jok tr w -> (jok = true -> joins_work es) -> truns w es = Some (os, w') -> Rel jok (tr ++ combine es os) w' /\ length os = length es.
Proof.
  intros jok. induction es as [|x es IH]; intros tr w os w' R J H; cbn [truns] in H; [inversion H; subst; rewrite app_nil_r; auto|].
  destruct (tstep w x) as [| |w1 o] eqn:S1; try discriminate. destruct (truns w1 es) as [[os1 w2]|] eqn:S2; [|discriminate]. inversion H; subst; clear H. cbn [combine].
  apply step_rel with (jok := jok) (tr := tr) in S1; auto.
  - destruct (IH _ _ _ _ S1 ltac:(intros K t jn rc I0; apply (J K t jn rc); right; auto) S2) as [A B]. rewrite <- app_assoc in A. split; [exact A|]. cbn [length]. auto.
  - intros K. destruct x; auto. apply (J K t jn rc). left. auto.
Qed.
Lemma rel_false : forall jok tr w, Rel jok tr w -> Rel false tr w.
Proof. intros jok tr w (A & [] & C). split; [auto|]. split; [|auto]. constructor; auto. discriminate. Qed.
Lemma run_rel : forall es os w, truns tw0 es = Some (os, w) -> Rel false (combine es os) w /\ length os = length es.
Proof. intros es os w H. apply (runs_rel false es [] tw0); auto; [apply (rel_false true), init_rel|discriminate]. Qed.
Lemma run_rel_joins : forall es os w, joins_work es -> truns tw0 es = Some (os, w) -> Rel true (combine es os) w.
Proof. intros es os w J H. apply (runs_rel true es [] tw0) in H as [H _]; auto. apply init_rel. Qed.
Lemma truns_snoc : forall es x w os w', truns w (es ++ [x]) = Some (os, w') -> exists os1 w1 o, truns w es = Some (os1, w1) /\ tstep w1 x = Go w' o /\ os = os1 ++ [o].
Proof.
  induction es as [|y es IH]; intros x w os w' H; cbn [truns app] in H.
  - destruct (tstep w x) as [| |w1 o] eqn:S1; try discriminate. inversion H; subst. exists [], w, o. auto.
  - destruct (tstep w y) as [| |w1 o] eqn:S1; try discriminate. destruct (truns w1 (es ++ [x])) as [[os1 w2]|] eqn:S2; [|discriminate]. inversion H; subst. apply IH in S2 as (os2 & w3 & o2 & A & B & C). exists (o :: os2), w3, o2. cbn [truns]. rewrite S1, A. subst. auto.
Qed.
Lemma in_of_lock : forall t m h, In (t, m) h <-> In (t, m) (of_lock m h).
Proof. intros. unfold of_lock. rewrite filter_In. cbn [snd]. rewrite Z.eqb_refl. tauto. Qed.
