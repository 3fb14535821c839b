From Verif Require Import Base Status MemModel MemProofs Heap TabModel TabProofs SchedModel SchedSpec SchedProofs SchedHist DiscFrame MsgModel CondSpec CondProofs IoModel IoSpec.

(** ** No fiber is NULL *)
Definition sound {U} (a : ast U) : Prop := hget (a_life a) 0 = None /\ a_cur a <> 0.
Lemma alloc_life : forall U (a : ast U), a_life (snd (alloc_spec a)) = a_life a.
Proof. intros. unfold alloc_spec. destruct (a_al a); reflexivity. Qed.
Lemma push_life : forall U front x (a : ast U) e a', push front x a = Some (e, a') -> a_life a' = a_life a.
Proof.
  intros U front x a e a' P. unfold push in P. destruct (hget _ _); [|discriminate]. destruct (_ || _); [discriminate|].
  pose proof (alloc_life U a) as A. destruct (alloc_spec a) as [ea a1]. cbn [snd] in A. destruct (ok ea); cbn [negb] in P; inversion P; subst; auto.
Qed.
Lemma pushes_life : forall U l (a : ast U) e a', pushes l a = Some (e, a') -> a_life a' = a_life a.
Proof.
  induction l as [|[front x] l IH]; intros a e a' P; cbn [pushes] in P; [inversion P; subst; auto|].
  destruct (push front x a) as [[e1 a1]|] eqn:E; [|discriminate]. apply push_life in E. destruct (ok e1); cbn [negb] in P; [|inversion P; subst; auto].
  apply IH in P. congruence.
Qed.
Lemma happly_life : forall U (c : hprog U) (a : ast U) e a', happly c a = Some (e, a') -> a_life a' = a_life a.
Proof.
  intros U. induction c as [e|front x k IH|k IH|k IH|k IH|u k IH|]; intros a st a' H; cbn [happly] in *; try discriminate; eauto.
  - inversion H; subst. auto.
  - destruct (push front x a) as [[e1 a1]|] eqn:E; [|discriminate]. apply push_life in E. apply IH in H. congruence.
  - pose proof (alloc_life U a) as A. destruct (alloc_spec a) as [ea a1]. cbn [snd] in A. apply IH in H. congruence.
  - apply IH in H. exact H.
Qed.
Lemma tell_life : forall U ev f (a : ast U) e a', tell ev f a = Some (e, a') -> a_life a' = a_life a.
Proof.
  intros U ev f a e a' P. unfold tell in P. destruct (_ =? 0); [inversion P; subst; auto|].
  destruct (push _ _ a) as [[e1 a1]|] eqn:E; [|discriminate]. apply push_life in E. destruct (ok e1); inversion P; subst; auto.
Qed.
Lemma join_life : forall U dels f (a : ast U) e a', join dels f a = Some (e, a') -> a_life a' = a_life a.
Proof.
  intros U dels f a e a' P. unfold join in P. destruct (zmem _ _); [discriminate|]. destruct (hget _ _); [|discriminate].
  pose proof (alloc_life U a) as A. destruct (alloc_spec a) as [ea a1]. cbn [snd] in A.
  destruct (ok ea); cbn [negb] in P; [|inversion P; subst; auto].
  destruct (push false _ _) as [[e2 a2]|] eqn:E2; [|discriminate]. apply push_life in E2. cbn [known_set a_life] in E2.
  destruct (ok e2); cbn [negb] in P; [|destruct dels; [|discriminate]; inversion P; subst; cbn; congruence].
  destruct (push true _ _) as [[e3 a3]|] eqn:E3; [|discriminate]. apply push_life in E3.
  destruct (ok e3); cbn [negb] in P; [|inversion P; subst; congruence]. apply tell_life in P. congruence.
Qed.
Lemma hset_null : forall A (h : heap A) p v, hget h 0 = None -> hget (hset h p v) 0 = None.
Proof. intros A h p v H. rewrite hget_hset. destruct (Z.eqb_spec 0 p) as [<-|]; [rewrite H|]; auto. Qed.
Lemma resume_sound : forall U e (a : ast U) o a', resume (Some (e, a)) = Some (o, a') -> sound a -> sound a'.
Proof.
  intros U e a o a' H [S1 S2]. cbn [resume] in H. destruct (ok e) eqn:O; cbn [negb] in H; [|inversion H; subst; split; auto].
  assert (G : forall x r n, go x r n a = Some (o, a') -> sound a').
  { intros [f [[d ev] p]] r n K. unfold go in K. destruct (hget (a_life a) f) eqn:E; [|discriminate]. destruct (_ =? STOPPED); inversion K; subst. split; cbn [a_life a_cur]; [apply hset_null; auto|congruence]. }
  destruct (a_ready a); [destruct (_ =? 0); [inversion H; subst; split; auto|]|]; eapply G; eauto.
Qed.
Lemma step_sound : forall U dels (ac : acts U) p (a : ast U) o a', astep dels ac p a = Some (o, a') -> sound a -> sound a'.
Proof.
  intros U dels ac p a o a' H SO.
  assert (RS : forall (b : ast U) X o, (forall e (a1 : ast U), X = Some (e, a1) -> sound a1) -> resume X = Some (o, b) -> sound b).
  { intros b [[e a1]|] o1 K1 K2; [|discriminate]. apply resume_sound in K2; eauto. }
  assert (SM : forall b : ast U, a_life b = a_life a -> a_cur b = a_cur a -> sound b) by (intros b E1 E2; unfold sound; rewrite E1, E2; exact SO).
  assert (SW : forall b : ast U, a_life b = a_life a -> frame a b -> sound b) by (intros b E1 (E2 & _); apply SM; auto).
  pose proof SO as [S1 S2].
  destruct p; cbn [astep] in *.
  - destruct (_ || _) eqn:Q; inversion H; subst. apply orb_false_iff in Q as [Q _]. apply Z.eqb_neq in Q. split; [|exact S2]. cbn [life_set a_life]. rewrite hget_hadd. destruct (Z.eqb_spec 0 f); [congruence|]. auto.
  - eapply RS; [|exact H]. intros e a1 K. apply SW; [eapply join_life; eauto|eapply join_frame; eauto].
  - eapply RS; [|exact H]. intros e a1. destruct (_ =? _); intros K; [inversion K; subst; auto|]. apply SW; [eapply push_life; eauto|eapply push_frame; eauto].
  - destruct (hget (a_life a) _) eqn:G; [|discriminate]. destruct (resume _) as [[o1 a1]|] eqn:R1; [|discriminate]. destruct (ok (fst o1)); inversion H; subst.
    eapply RS; [|exact R1]. intros e a2 K. pose proof (tell_frame _ _ _ _ _ _ K) as (K1 & _). apply tell_life in K. unfold sound. rewrite K, K1. cbn [life_set a_life a_cur]. split; [apply hset_null; auto|auto].
  - eapply RS; [|exact H]. intros e a1 K. apply SM; [eapply (push_life _ _ _ (main_set (a_cur a) a)); eauto|]. apply push_frame in K as ((K & _) & _). exact K.
  - eapply RS; [|exact H]. intros e a1 K. apply SW; [eapply push_life; eauto|eapply push_frame; eauto].
  - eapply RS; [|exact H]. intros e a1 K. inversion K; subst. apply SM; auto.
  - destruct (hget (a_life a) _); [|discriminate]. eapply RS; [|exact H]. intros e a1. destruct (_ =? RUNNING); intros K; apply SW; eauto using push_life, pushes_life, pushes_frame. eapply push_frame; eauto.
  - destruct (forallb _ _); [|discriminate]. eapply RS; [|exact H]. intros e a1 K. apply SW; eauto using pushes_life, pushes_frame.
  - destruct dels; inversion H; subst. apply SM; auto.
  - destruct (_ || _); inversion H; subst. split; [|exact S2]. cbn [life_set a_life]. apply hget_none. apply hget_none in S1. intros K. apply S1. eapply hdel_in; eauto.
  - inversion H; subst. apply SM; auto.
  - destruct (_ || _) eqn:Q; inversion H; subst. apply SM; auto.
  - destruct (hget (a_discs a) d) as [y|] eqn:Y; [|discriminate]. destruct (dd_owned y) eqn:OY; [inversion H; subst; auto|].
    destruct (existsb _ _); [inversion H; subst; auto|].
    pose proof (alloc_life U a) as A1. pose proof (alloc_frame U a) as (B1 & _). destruct (alloc_spec a) as [e1 a1]. cbn [snd] in A1, B1.
    destruct (ok e1); cbn [negb] in H; [|inversion H; subst; apply SM; auto].
    match type of H with context [alloc_spec ?b] => pose proof (alloc_life U b) as A2; pose proof (alloc_frame U b) as (B2 & _); destruct (alloc_spec b) as [e2 a2] end.
    cbn [snd discs_set a_life a_cur] in A2, B2. destruct (ok e2); cbn [negb] in H; [|inversion H; subst; apply SM; congruence].
    pose proof (alloc_life U a2) as A3. pose proof (alloc_frame U a2) as (B3 & _). destruct (alloc_spec a2) as [e3 a3]. cbn [snd] in A3, B3.
    destruct (ok e3); cbn [negb] in H; [|inversion H; subst; apply SM; congruence]. destruct (_ <? _); inversion H; subst. apply SM; cbn; congruence.
  - destruct (find _ _); inversion H; subst; auto.
  - destruct (hget (a_discs a) d) as [y|] eqn:Y; [|discriminate]. destruct (_ || _ || _ || _); [discriminate|].
    destruct (_ || _); [inversion H; subst; auto|].
    destruct (nth_error _ _) as [fn|] eqn:NE; [|discriminate]. destruct (negb (user_fn fn)); [discriminate|].
    eapply RS; [|exact H]. intros e a1 K. apply SM; [eapply happly_life; eauto|]. eapply (happly_safe _ (fun _ => True)) in K as (K & _); auto. clear. generalize (ac fn (dd_ctx y) (a_cur a) p). induction h; cbn; auto.
  - destruct (happly _ a) as [[e a1]|] eqn:J; [|discriminate]. inversion H; subst. apply SM; [eapply happly_life; eauto|]. eapply (happly_safe _ (fun _ => True)) in J as (K & _); auto. clear. generalize (ac fn cx (a_cur a) p). induction h; cbn; auto.
Qed.

(** ** The relation common to both platforms *)
Lemma io_foreign : forall K V (pl : plat K) ans (other : acts V) m fn cx yf y, io_fn fn = false -> safe (fun u => fst u = m) (io_acts pl ans other fn cx yf y).
Proof. intros. unfold io_acts. rewrite H. cbn [negb]. induction (other fn cx yf y); cbn; auto. Qed.
Definition io_dd : dd := DD true IO_ID IO_CTX io_cbs.
Record io_common {K} (m : iost K) (l : world) : Prop := IoCommon
  { ic_wf : hwf (io_socks m);
    ic_fds : forall s, option_map ws_fd (hget (io_socks m) s) = fd_of (wo_socks l) s;
    ic_distinct : NoDup (map snd (wo_socks l));
    ic_in : NoDup (map fst (wo_in l));
    ic_wait : NoDup (map fst (wo_wait l));
    ic_nonnull : forall x, In x (wo_in l) -> fst x <> 0;
    ic_incl : incl (wo_wait l) (wo_in l);
    ic_live : forall x, In x (wo_in l) -> exists b, hget (io_socks m) (snd (snd x)) = Some b }.
Record IRel {K V} (KR : iost K -> world -> Prop) (mem : bool) (d : Z) (a : ast (iost K * V)) (c : Z) (l : world) : Prop := MkIRel
  { il_cur : a_cur a = c;
    il_disc : hget (a_discs a) d = Some io_dd;
    il_others : others_foreign io_fn d a;
    il_al : mem = false -> a_al a = [];
    il_sound : sound a;
    il_common : io_common (fst (a_user a)) l;
    il_rel : KR (fst (a_user a)) l }.
Definition goes {K V} (KR : iost K -> world -> Prop) mem d (a' : ast (iost K * V)) (v : judgement) : Prop :=
  match v with Good c l => IRel KR mem d a' c l | Bad => False | Open => True end.
Lemma yield_io : forall K V (pl : plat K) ans (other : acts V) dels d (wr : bool) p (a : ast (iost K * V)), hget (a_discs a) d = Some io_dd ->
  astep dels (io_acts pl ans other) (SYield d (if wr then IY_WAIT_WRITE else IY_WAIT_READ) p) a = resume (happly (on_fst (block (pl_wait pl) wr IO_CTX (a_cur a) p)) a).
Proof. intros K V pl ans other dels d wr p a D. cbn [astep]. rewrite D. destruct wr; reflexivity. Qed.
(** Code that makes nothing ready and allocates nothing. *)
Lemma plain_same : forall e, plain (e, nowhere) e = true.
Proof. intros. unfold plain, nowhere. rewrite !Z.eqb_refl. reflexivity. Qed.
Lemma keep_rel : forall K V (KR : iost K -> world -> Prop) mem d (a a' : ast (iost K * V)) c c' l l', IRel KR mem d a c l ->
  a_cur a' = c' -> a_discs a' = a_discs a -> (a_al a = [] -> a_al a' = []) -> sound a' -> io_common (fst (a_user a')) l' -> KR (fst (a_user a')) l' -> IRel KR mem d a' c' l'.
Proof.
  intros K V KR mem d a a' c c' l l' R C D A SO IC KK. destruct R. constructor; auto.
  - rewrite D. auto.
  - intros d' x. rewrite D. apply il_others0.
Qed.

(** ** Reading the specification *)
Lemma on_sock_true : forall wr s x, on_sock wr s x = true <-> snd x = (wr, s).
Proof.
  intros wr s [f [wr' s']]. unfold on_sock. cbn [fst snd]. rewrite andb_true_iff, Bool.eqb_true_iff, Z.eqb_eq. split; [intros [-> ->]; auto|]. intros H. inversion H. auto.
Qed.
Lemma waits_for : forall wr s l, existsb (on_sock wr s) l = true <-> exists f, In (f, (wr, s)) l.
Proof.
  intros wr s l. rewrite existsb_exists. split.
  - intros ([f y] & I0 & O). apply on_sock_true in O. cbn [snd] in O. subst. eauto.
  - intros (f & I0). exists (f, (wr, s)). split; auto. apply on_sock_true. auto.
Qed.
Lemma existsb_false : forall A (f : A -> bool) l, existsb f l = false <-> forall x, In x l -> f x = false.
Proof.
  intros A f l. split.
  - intros E x I0. destruct (f x) eqn:F; auto. assert (existsb f l = true) by (apply existsb_exists; eauto). congruence.
  - intros H. destruct (existsb f l) eqn:E; auto. apply existsb_exists in E as (x & I0 & F). rewrite H in F by auto. discriminate.
Qed.
Lemma fd_of_cons : forall s fd socks t, fd_of ((s, fd) :: socks) t = if t =? s then Some fd else fd_of socks t.
Proof. intros. unfold fd_of. cbn [find fst]. rewrite (Z.eqb_sym s t). destruct (t =? s); reflexivity. Qed.
Lemma fd_of_filter : forall s socks t, fd_of (filter (fun y => negb (fst y =? s)) socks) t = if t =? s then None else fd_of socks t.
Proof.
  intros s socks t. induction socks as [|[u fd] socks IH]; [destruct (t =? s); reflexivity|]. cbn [filter fst]. destruct (Z.eqb_spec u s) as [->|N]; cbn [negb].
  - rewrite IH, fd_of_cons. destruct (t =? s); reflexivity.
  - rewrite !fd_of_cons, IH. destruct (Z.eqb_spec t u) as [->|]; [|reflexivity]. destruct (Z.eqb_spec u s); [congruence|reflexivity].
Qed.
Lemma ws_fib_set : forall wr wr' f b, ws_fib wr' (ws_set wr f b) = if Bool.eqb wr' wr then f else ws_fib wr' b.
Proof. intros [] [] f b; reflexivity. Qed.
Lemma ws_fd_set : forall wr f b, ws_fd (ws_set wr f b) = ws_fd b.
Proof. intros []; reflexivity. Qed.
Lemma ws_set_undo : forall wr f b, ws_fib wr b = 0 -> ws_set wr 0 (ws_set wr f b) = b.
Proof. intros [] f [fd r w] E; cbn in *; rewrite E; reflexivity. Qed.
(** The fibers in a wait: a fiber is in one wait. *)
Lemma nodup_fst : forall (l : list waiter) f y z, NoDup (map fst l) -> In (f, y) l -> In (f, z) l -> y = z.
Proof.
  induction l as [|[g u] l IH]; intros f y z N I1 I2; [destruct I1|]. cbn [map fst] in N. inversion N as [|? ? N1 N2]; subst.
  assert (Q : forall q, In (g, q) l -> False) by (intros q K; apply N1; change g with (fst (g, q)); apply in_map; auto).
  destruct I1 as [E1|I1], I2 as [E2|I2].
  - congruence.
  - inversion E1; subst. exfalso. eauto.
  - inversion E2; subst. exfalso. eauto.
  - eauto.
Qed.
Lemma nodup_map_filter : forall A B (g : A -> B) f l, NoDup (map g l) -> NoDup (map g (filter f l)).
Proof.
  induction l as [|x l IH]; intros N; [constructor|]. cbn [map] in N. inversion N as [|? ? N1 N2]; subst. cbn [filter]. destruct (f x); auto. cbn [map]. constructor; auto.
  intros K. apply N1. apply in_map_iff in K as (y & E & K). apply filter_In in K as [K _]. rewrite <- E. apply in_map. auto.
Qed.
Lemma nodup_snoc : forall A (l : list A) x, NoDup l -> ~ In x l -> NoDup (l ++ [x]).
Proof. intros. rewrite <- rev_involutive, rev_app_distr. apply NoDup_rev. cbn. constructor; [rewrite <- in_rev; auto|apply NoDup_rev; auto]. Qed.
Lemma within_not : forall c (l : list waiter), existsb (by_fiber c) l = false <-> ~ In c (map fst l).
Proof.
  intros c l. rewrite existsb_false. unfold by_fiber. split.
  - intros H K. apply in_map_iff in K as (x & <- & I0). apply H in I0. rewrite Z.eqb_refl in I0. discriminate.
  - intros H x I0. apply Z.eqb_neq. intros <-. apply H. apply in_map. auto.
Qed.
Lemma mine_true : forall c wr s (x : waiter), by_fiber c x && on_sock wr s x = true <-> x = (c, (wr, s)).
Proof.
  intros c wr s [f y]. rewrite andb_true_iff, on_sock_true. unfold by_fiber. cbn [fst snd]. rewrite Z.eqb_eq. split; [intros [-> ->]; auto|]. intros E. inversion E. auto.
Qed.
Lemma not_mine : forall c wr s (l : list waiter) x, In x (filter (fun x => negb (by_fiber c x && on_sock wr s x)) l) <-> In x l /\ x <> (c, (wr, s)).
Proof.
  intros c wr s l x. rewrite filter_In, negb_true_iff. split; intros [A B]; split; auto.
  - intros ->. assert (by_fiber c (c, (wr, s)) && on_sock wr s (c, (wr, s)) = true) by (apply mine_true; auto). congruence.
  - destruct (_ && _) eqn:E; auto. apply mine_true in E. contradiction.
Qed.

(** ** Steps that both platforms share *)
(** [R] is the list of the fibers that sockets remember. *)
Definition fibs {K} (m : iost K) (R : list waiter) : Prop :=
  forall s b wr f, hget (io_socks m) s = Some b -> f <> 0 -> (ws_fib wr b = f <-> In (f, (wr, s)) R).
Lemma common_socket : forall K (m : iost K) l fd s, io_common m l -> s <> 0 -> hget (io_socks m) s = None -> ~ In fd (map snd (wo_socks l)) ->
  io_common (IO (hadd (io_socks m) s (WS fd 0 0)) (io_k m)) (World ((s, fd) :: wo_socks l) (wo_wait l) (wo_in l)).
Proof.
  intros K m l fd s IC S0 F N. destruct IC. constructor; cbn [io_socks wo_socks wo_wait wo_in]; auto.
  - apply hadd_wf; auto.
  - intros t. rewrite fd_of_cons, hget_hadd. destruct (t =? s); auto.
  - cbn [map snd]. constructor; auto.
  - intros x I0. destruct (ic_live0 x I0) as [b B]. rewrite hget_hadd. destruct (_ =? s); eauto.
Qed.
Lemma fibs_socket : forall K (m : iost K) R fd s, fibs m R -> hget (io_socks m) s = None -> (forall x, In x R -> exists b, hget (io_socks m) (snd (snd x)) = Some b) ->
  fibs (IO (hadd (io_socks m) s (WS fd 0 0)) (io_k m)) R.
Proof.
  intros K m R fd s F N LV t b wr f. cbn [io_socks]. rewrite hget_hadd. destruct (Z.eqb_spec t s) as [->|NE]; [|apply F].
  intros E F0. inversion E; subst. split; [destruct wr; cbn; congruence|]. intros I0. apply LV in I0 as [b B]. cbn [snd] in B. congruence.
Qed.
Lemma common_release : forall K (m : iost K) (k : K) l s, io_common m l -> (forall x, In x (wo_in l) -> snd (snd x) <> s) ->
  io_common (IO (hdel (io_socks m) s) k) (World (filter (fun y => negb (fst y =? s)) (wo_socks l)) (wo_wait l) (wo_in l)).
Proof.
  intros K m k l s IC N. destruct IC. constructor; cbn [io_socks wo_socks wo_wait wo_in]; auto.
  - apply hdel_wf; auto.
  - intros t. rewrite fd_of_filter, hget_hdel by auto. destruct (t =? s); auto.
  - apply nodup_map_filter; auto.
  - intros x I0. destruct (ic_live0 x I0) as [b B]. rewrite hget_hdel by auto. apply N in I0. apply Z.eqb_neq in I0. rewrite I0. eauto.
Qed.
Lemma fibs_release : forall K (m : iost K) (k : K) R s, hwf (io_socks m) -> fibs m R -> fibs (IO (hdel (io_socks m) s) k) R.
Proof. intros K m k R s W F t b wr f. cbn [io_socks]. rewrite hget_hdel by auto. destruct (t =? s); [discriminate|]. apply F. Qed.
Lemma common_wait : forall K (m : iost K) (k : K) l s b wr c, io_common m l -> hget (io_socks m) s = Some b -> c <> 0 -> ~ In c (map fst (wo_in l)) ->
  io_common (IO (hset (io_socks m) s (ws_set wr c b)) k) (World (wo_socks l) (wo_wait l ++ [(c, (wr, s))]) (wo_in l ++ [(c, (wr, s))])).
Proof.
  intros K m k l s b wr c IC G C N. destruct IC. constructor; cbn [io_socks wo_socks wo_wait wo_in]; auto.
  - apply hset_wf; auto.
  - intros t. rewrite hget_hset, G, <- ic_fds0. destruct (Z.eqb_spec t s) as [->|]; [rewrite G; cbn; rewrite ws_fd_set|]; auto.
  - rewrite map_app. cbn [map fst]. apply nodup_snoc; auto.
  - rewrite map_app. cbn [map fst]. apply nodup_snoc; auto. intros I0. apply N. apply in_map_iff in I0 as (x & <- & I0). apply in_map. auto.
  - intros x I0. apply in_app_or in I0 as [I0|[<-|[]]]; auto.
  - intros x I0. apply in_or_app. apply in_app_or in I0 as [I0|I0]; auto.
  - intros x I0. rewrite hget_hset, G. destruct (Z.eqb_spec (snd (snd x)) s) as [E|E]; [eauto|]. apply in_app_or in I0 as [I0|[<-|[]]]; [auto|]. cbn [snd] in E. congruence.
Qed.
Lemma fibs_wait : forall K (m : iost K) (k : K) R s b wr c, fibs m R -> hget (io_socks m) s = Some b -> c <> 0 -> ws_fib wr b = 0 ->
  fibs (IO (hset (io_socks m) s (ws_set wr c b)) k) (R ++ [(c, (wr, s))]).
Proof.
  intros K m k R s b wr c F G C E t b' wr' f. cbn [io_socks]. rewrite hget_hset, G. intros H F0. rewrite in_app_iff. cbn [In].
  destruct (Z.eqb_spec t s) as [->|NE].
  - inversion H; subst b'. rewrite ws_fib_set. rewrite <- (F s b wr' f G F0). destruct (Bool.eqb wr' wr) eqn:W.
    + apply Bool.eqb_prop in W. subst wr'. split; [intros ->; auto|]. intros [K1|[K1|[]]]; [congruence|]. inversion K1; auto.
    + split; [auto|]. intros [K1|[K1|[]]]; [auto|]. inversion K1; subst. rewrite Bool.eqb_reflx in W. discriminate.
  - rewrite (F t b' wr' f H F0). split; [auto|]. intros [K1|[K1|[]]]; [auto|]. inversion K1; subst. congruence.
Qed.
Lemma common_back : forall K (m : iost K) (k : K) l s b wr c W, io_common m l -> hget (io_socks m) s = Some b -> incl W (wo_wait l) -> NoDup (map fst W) -> ~ In (c, (wr, s)) W ->
  io_common (IO (hset (io_socks m) s (ws_set wr 0 b)) k) (World (wo_socks l) W (filter (fun x => negb (by_fiber c x && on_sock wr s x)) (wo_in l))).
Proof.
  intros K m k l s b wr c W IC G I1 ND NI. destruct IC. constructor; cbn [io_socks wo_socks wo_wait wo_in]; auto.
  - apply hset_wf; auto.
  - intros t. rewrite hget_hset, G, <- ic_fds0. destruct (Z.eqb_spec t s) as [->|]; [rewrite G; cbn; rewrite ws_fd_set|]; auto.
  - apply nodup_map_filter; auto.
  - intros x I0. apply not_mine in I0 as [I0 _]. auto.
  - intros x I0. apply not_mine. split; [auto|]. intros ->. auto.
  - intros x I0. apply not_mine in I0 as [I0 _]. rewrite hget_hset, G. destruct (_ =? s); eauto.
Qed.
Lemma fibs_back : forall K (m : iost K) (k : K) R s b wr c, fibs m R -> hget (io_socks m) s = Some b -> (forall f, f <> 0 -> In (f, (wr, s)) R -> f = c) ->
  fibs (IO (hset (io_socks m) s (ws_set wr 0 b)) k) (filter (fun x => negb (by_fiber c x && on_sock wr s x)) R).
Proof.
  intros K m k R s b wr c F G U t b' wr' f. cbn [io_socks]. rewrite hget_hset, G. intros H F0. rewrite not_mine.
  destruct (Z.eqb_spec t s) as [->|NE].
  - inversion H; subst b'. rewrite ws_fib_set. rewrite <- (F s b wr' f G F0). destruct (Bool.eqb wr' wr) eqn:W.
    + apply Bool.eqb_prop in W. subst wr'. split; [congruence|]. intros [K1 K2]. exfalso. apply K2. rewrite (U f); auto. apply (F s b wr f G F0). auto.
    + split; [|tauto]. intros K1. split; [auto|]. intros K2. inversion K2; subst. rewrite Bool.eqb_reflx in W. discriminate.
  - rewrite (F t b' wr' f H F0). split; [|tauto]. intros K1. split; [auto|]. intros K2. inversion K2; subst. congruence.
Qed.
Lemma busy_iff : forall K (m : iost K) R s b wr, fibs m R -> (forall x, In x R -> fst x <> 0) -> hget (io_socks m) s = Some b ->
  existsb (on_sock wr s) R = negb (ws_fib wr b =? 0).
Proof.
  intros K m R s b wr F N G. apply eq_true_iff_eq. rewrite waits_for, negb_true_iff, Z.eqb_neq. split.
  - intros (f & I0). pose proof (N _ I0) as F0. cbn [fst] in F0. apply (F s b wr f G F0) in I0. congruence.
  - intros NE. exists (ws_fib wr b). apply (F s b wr _ G NE). auto.
Qed.
Lemma happly_seq : forall K V (c : hprog (iost K)) k (a : ast (iost K * V)),
  happly (on_fst (hseq c k)) a = match happly (on_fst c) a with Some (e, a1) => happly (on_fst (k e)) a1 | None => None end.
Proof.
  intros K V. induction c as [e|front x c IH|c IH|c IH|c IH|u c IH|]; intros k a; cbn [hseq on_fst happly]; auto.
  - destruct (push front x a) as [[e1 a1]|]; auto.
  - destruct (alloc_spec a). auto.
Qed.
(** Code that makes nothing ready leaves all but the state of the discipline. *)
Definition calm {U} (a a1 : ast U) : Prop :=
  a_cur a1 = a_cur a /\ a_discs a1 = a_discs a /\ a_life a1 = a_life a /\ a_made a1 = a_made a /\ (a_al a = [] -> a_al a1 = []).
Lemma calm_refl : forall U (a : ast U) u, calm a (user_set u a).
Proof. intros. repeat split; auto. Qed.
Lemma calm_trans : forall U (a b c : ast U), calm a b -> calm b c -> calm a c.
Proof. intros U a b c (A & B & C & D & E) (F & G & H & J & L). repeat split; try congruence; auto. Qed.
Lemma calm_alloc : forall U (a : ast U), calm a (snd (alloc_spec a)).
Proof. intros. pose proof (alloc_frame U a) as (A & B & C & D). repeat split; auto using alloc_life, alloc_made. Qed.
Lemma alloc_user : forall U (a : ast U), a_user (snd (alloc_spec a)) = a_user a.
Proof. intros. pose proof (alloc_frame U a) as (A & B & C & D). auto. Qed.
Lemma alloc_fails : forall U (a : ast U), ok (fst (alloc_spec a)) = false -> a_al a <> [].
Proof. intros U a O E. rewrite alloc_nil in O by auto. discriminate. Qed.
(** A step that succeeds or fails at once. *)
Lemma acted : forall K V (KR : iost K -> world -> Prop) (pl : plat K) ans (other : acts V) dels mem d fn cx p (a : ast (iost K * V)) c l m' l' e o a' mm, IRel KR mem d a c l ->
  astep dels (io_acts pl ans other) (SAct fn cx p) a = Some (o, a') -> a_made a' = a_made a ++ mm ->
  (forall x, happly (io_acts pl ans other fn cx (a_cur a) p) a = Some x -> x = (e, user_set (m', snd (a_user a)) a)) ->
  (happly (io_acts pl ans other fn cx (a_cur a) p) a <> None -> io_common m' l' /\ KR m' l') -> goes KR mem d a' (judge (plain o e && made_is mm []) (Good c l')).
Proof.
  intros K V KR pl ans other dels mem d fn cx p a c l m' l' e o a' mm R H MM HX KK. pose proof (step_sound _ _ _ _ _ _ _ H (il_sound _ _ _ _ _ _ R)) as SO.
  cbn [astep] in H. destruct (happly _ a) as [x|] eqn:HA; [|discriminate]. rewrite (HX x eq_refl) in H. inversion H; subst; clear H.
  assert (mm = []) as -> by (apply (app_inv_head (a_made a)); rewrite <- MM, app_nil_r; reflexivity).
  rewrite plain_same. cbn [made_is andb judge goes]. destruct KK as [K1 K2]; [discriminate|].
  eapply keep_rel; eauto. apply (il_cur _ _ _ _ _ _ R).
Qed.
(** A wait: [W] is what the handler of the platform does. *)
Lemma waited : forall K V (KR : iost K -> world -> Prop) (pl : plat K) ans (other : acts V) dels mem d (wr : bool) s (a : ast (iost K * V)) c l R b o a' mm, IRel KR mem d a c l ->
  astep dels (io_acts pl ans other) (SYield d (if wr then IY_WAIT_WRITE else IY_WAIT_READ) s) a = Some (o, a') -> a_made a' = a_made a ++ mm ->
  fibs (fst (a_user a)) R -> (forall x, In x R -> fst x <> 0) -> hget (io_socks (fst (a_user a))) s = Some b ->
  (existsb (on_sock wr s) R = true -> mm = [] /\ o = (ERROR_PSOCK_DOUBLE_BLOCK_UNSUPPORTED, nowhere) /\ IRel KR mem d a' c l) /\
  (existsb (on_sock wr s) R = false -> ws_fib wr b = 0 /\ exists e a1,
     happly (on_fst (hseq (pl_wait pl wr c s) (fun e => if ok e then HRet e else
       HLoad (fun m => need (hget (io_socks m) s) (fun b => HStore (set_sock s (ws_set wr 0 b) m) (HRet e))))))
       (user_set (set_sock s (ws_set wr c b) (fst (a_user a)), snd (a_user a)) a) = Some (e, a1) /\ resume (Some (e, a1)) = Some (o, a')).
Proof.
  intros K V KR pl ans other dels mem d wr s a c l R b o a' mm RR H MM F NN G.
  pose proof (step_sound _ _ _ _ _ _ _ H (il_sound _ _ _ _ _ _ RR)) as SO.
  rewrite (yield_io _ _ _ _ _ _ _ _ _ _ (il_disc _ _ _ _ _ _ RR)), (il_cur _ _ _ _ _ _ RR) in H.
  unfold block in H. rewrite Z.eqb_refl in H. cbn [negb on_fst happly] in H. rewrite G in H. cbn [need] in H. rewrite (busy_iff _ _ _ _ _ wr F NN G).
  destruct (ws_fib wr b =? 0) eqn:W; cbn [negb] in *.
  - split; [discriminate|]. intros _. split; [apply Z.eqb_eq; auto|]. cbn [on_fst happly] in H. destruct (happly _ (user_set _ a)) as [[e a1]|] eqn:HA; [|discriminate]. eauto.
  - split; [|discriminate]. intros _. cbn [on_fst happly] in H. pose proof (resume_made _ _ _ _ _ H) as RM. cbn [resume] in H. change (negb (ok _)) with true in H. cbv iota in H. inversion H; subst.
    split; [apply (app_inv_head (a_made a')); rewrite <- MM, app_nil_r; auto|]. auto.
Qed.

(** ** poll *)
Record poll_rel (m : iost pst) (l : world) : Prop := PollRel
  { pr_fib : fibs m (wo_in l);
    pr_list : Forall2 (fun e (x : waiter) => fd_of (wo_socks l) (snd (snd x)) = Some (pe_fd e) /\ pe_events e = (if fst (snd x) then OUT else IN) /\ pe_fib e = fst x) (p_list (io_k m)) (wo_wait l) }.
Lemma Forall2_imp : forall A B (P Q : A -> B -> Prop) l m, Forall2 P l m -> (forall x y, In y m -> P x y -> Q x y) -> Forall2 Q l m.
Proof. induction 1; intros H1; constructor; [apply H1; cbn; auto|]. apply IHForall2. intros. apply H1; cbn; auto. Qed.
Lemma poll_wait_ok : forall V (wr : bool) yf s b (a : ast (iost pst * V)) e a1, hget (io_socks (fst (a_user a))) s = Some b ->
  happly (on_fst (poll_wait wr yf s)) a = Some (e, a1) -> calm a a1 /\ snd (a_user a1) = snd (a_user a) /\
  ((ok e = true /\ exists n, fst (a_user a1) = set_k (PS n (p_list (io_k (fst (a_user a))) ++ [PE (ws_fd b) (if wr then OUT else IN) 0 yf])) (fst (a_user a))) \/
   ok e = false /\ a_al a <> [] /\ fst (a_user a1) = fst (a_user a)).
Proof.
  intros V wr yf s b a e a1 G H. unfold poll_wait in H. cbn [on_fst happly] in H. rewrite G in H. cbn [need] in H. destruct (_ =? _).
  - cbn [on_fst happly] in H. pose proof (calm_alloc _ a) as C1. pose proof (alloc_user _ a) as U1. pose proof (alloc_fails _ a) as F1. destruct (alloc_spec a) as [e1 b1]. cbn [fst snd] in *.
    destruct (ok e1) eqn:O1; cbn [negb] in H.
    2:{ cbn [on_fst happly] in H. inversion H; subst. rewrite U1. split; [auto|]. split; [auto|]. right. auto. }
    cbn [on_fst happly] in H. pose proof (calm_alloc _ b1) as C2. pose proof (alloc_user _ b1) as U2. pose proof (alloc_fails _ b1) as F2. destruct (alloc_spec b1) as [e2 b2]. cbn [fst snd] in *.
    assert (C3 : calm a b2) by (eapply calm_trans; eauto).
    destruct (ok e2) eqn:O2; cbn [negb] in H; cbn [on_fst happly] in H; inversion H; subst.
    + split; [eapply calm_trans; [exact C3|apply calm_refl]|]. cbn [user_set a_user fst snd]. rewrite U2, U1. split; [auto|]. left. split; [reflexivity|]. eauto.
    + rewrite U2, U1. split; [auto|]. split; [auto|]. right. split; [auto|]. split; [|auto]. intros E. apply F2; auto. apply C1. auto.
  - cbn [on_fst happly] in H. inversion H; subst. split; [apply calm_refl|]. split; [reflexivity|]. left. split; [reflexivity|]. cbn [user_set a_user fst]. eauto.
Qed.
Lemma poll_socket_step : forall V ans (other : acts V) dels sys mem d fd s (a : ast (iost pst * V)) c l o a' m, IRel poll_rel mem d a c l ->
  astep dels (io_acts poll_plat ans other) (SAct FN_IO_SOCKET fd s) a = Some (o, a') -> a_made a' = a_made a ++ m -> goes poll_rel mem d a' (io_step Poll mem sys ans d (ISocket fd s) o m c l).
Proof.
  intros V ans other dels sys mem d fd s a c l o a' m R H MM. cbn [io_step]. destruct (existsb (by_fiber c) _); [exact Logic.I|]. destruct (existsb _ (wo_socks l)) eqn:FD; [exact Logic.I|].
  pose proof (il_common _ _ _ _ _ _ R) as IC. pose proof (il_rel _ _ _ _ _ _ R) as PR.
  change (io_acts poll_plat ans other FN_IO_SOCKET fd (a_cur a) s) with (@on_fst (iost pst) V (new_sock fd s)) in *.
  eapply (acted _ _ _ _ _ _ _ _ _ _ _ _ _ _ _ _ _ _ _ _ _ R H MM).
  - intros x. change (io_acts poll_plat ans other FN_IO_SOCKET fd (a_cur a) s) with (@on_fst (iost pst) V (new_sock fd s)). unfold new_sock. cbn [on_fst happly]. destruct (_ || _); cbn [on_fst happly]; [discriminate|]. intros E. inversion E. reflexivity.
  - change (io_acts poll_plat ans other FN_IO_SOCKET fd (a_cur a) s) with (@on_fst (iost pst) V (new_sock fd s)). unfold new_sock. cbn [on_fst happly]. destruct (_ || _) eqn:Q; [cbn; congruence|]. intros _.
    apply orb_false_iff in Q as [Q1 Q2]. apply Z.eqb_neq in Q1. apply zmem_not in Q2.
    assert (G : hget (io_socks (fst (a_user a))) s = None) by (apply hget_none; auto).
    rewrite existsb_false in FD. split.
    + apply common_socket; auto. intros I0. apply in_map_iff in I0 as (y & E & I0). apply FD in I0. rewrite E, Z.eqb_refl in I0. discriminate.
    + constructor; cbn [wo_in wo_wait wo_socks io_k].
      * apply fibs_socket; [apply (pr_fib _ _ PR)|auto|apply (ic_live _ _ IC)].
      * eapply Forall2_imp; [apply (pr_list _ _ PR)|]. cbn. intros e x I0 (E1 & E2 & E3). split; [|auto]. rewrite fd_of_cons.
        destruct (Z.eqb_spec (snd (snd x)) s) as [E|]; [|auto]. exfalso. apply (ic_incl _ _ IC) in I0. apply (ic_live _ _ IC) in I0 as [b B]. congruence.
Qed.
Lemma poll_release_step : forall V ans (other : acts V) dels sys mem d s (a : ast (iost pst * V)) c l o a' m, IRel poll_rel mem d a c l ->
  astep dels (io_acts poll_plat ans other) (SAct FN_IO_RELEASE 0 s) a = Some (o, a') -> a_made a' = a_made a ++ m -> goes poll_rel mem d a' (io_step Poll mem sys ans d (IRelease s) o m c l).
Proof.
  intros V ans other dels sys mem d s a c l o a' m R H MM. cbn [io_step]. destruct (existsb (by_fiber c) _); [exact Logic.I|]. destruct (existsb (fun x => snd (snd x) =? s) (wo_in l)) eqn:FD; [exact Logic.I|].
  pose proof (il_common _ _ _ _ _ _ R) as IC. pose proof (il_rel _ _ _ _ _ _ R) as PR. rewrite existsb_false in FD.
  eapply (acted _ _ _ _ _ _ _ _ _ _ _ _ _ _ _ _ _ _ _ _ _ R H MM).
  - intros x. change (io_acts poll_plat ans other FN_IO_RELEASE 0 (a_cur a) s) with (@on_fst (iost pst) V (poll_release s)). unfold poll_release. cbn [on_fst happly]. destruct (hget _ s); cbn [need on_fst happly]; [|discriminate]. intros E. inversion E. reflexivity.
  - intros _. split.
    + apply common_release; auto. intros x I0 E. apply FD in I0. apply Z.eqb_neq in I0. auto.
    + constructor; cbn [wo_in wo_wait wo_socks io_k].
      * apply fibs_release; [apply (ic_wf _ _ IC)|apply (pr_fib _ _ PR)].
      * eapply Forall2_imp; [apply (pr_list _ _ PR)|]. cbn. intros e x I0 (E1 & E2 & E3). split; [|auto]. rewrite fd_of_filter. apply (ic_incl _ _ IC), FD in I0. rewrite I0. auto.
Qed.
Lemma poll_back_step : forall V ans (other : acts V) dels sys mem d (wr : bool) s (a : ast (iost pst * V)) c l o a' m, IRel poll_rel mem d a c l ->
  astep dels (io_acts poll_plat ans other) (SAct (if wr then FN_IO_WRITE_BACK else FN_IO_READ_BACK) 0 s) a = Some (o, a') -> a_made a' = a_made a ++ m ->
  goes poll_rel mem d a' (io_step Poll mem sys ans d (IBack wr s) o m c l).
Proof.
  intros V ans other dels sys mem d wr s a c l o a' m R H MM. cbn [io_step]. destruct (existsb (fun x => by_fiber c x && on_sock wr s x) (wo_in l)) eqn:MI; [|exact Logic.I]. cbn [negb].
  destruct (existsb (by_fiber c) (wo_wait l)) eqn:NW; [exact Logic.I|].
  pose proof (il_common _ _ _ _ _ _ R) as IC. pose proof (il_rel _ _ _ _ _ _ R) as PR.
  apply existsb_exists in MI as (x & I0 & MI). apply mine_true in MI. subst x. destruct (ic_live _ _ IC _ I0) as [b B]. cbn [snd] in B. apply within_not in NW.
  assert (HB : io_acts poll_plat ans other (if wr then FN_IO_WRITE_BACK else FN_IO_READ_BACK) 0 (a_cur a) s = @on_fst (iost pst) V (back wr s)) by (destruct wr; reflexivity).
  eapply (acted _ _ _ _ _ _ _ _ _ _ _ _ _ _ _ _ _ _ _ _ _ R H MM); rewrite HB; unfold back; cbn [on_fst happly]; rewrite B; cbn [need on_fst happly].
  - intros x E. inversion E. reflexivity.
  - intros _. unfold set_sock. split.
    + apply common_back; auto; [intros x; auto|apply (ic_wait _ _ IC)|]. intros K1. apply NW. change c with (fst (c, (wr, s))). apply in_map. auto.
    + constructor; cbn [wo_in wo_wait wo_socks io_k].
      * apply fibs_back; [apply (pr_fib _ _ PR)|auto|]. intros f F0 I1. apply (pr_fib _ _ PR s b wr f B F0) in I1. pose proof (ic_nonnull _ _ IC _ I0) as C0. cbn [fst] in C0.
        apply (pr_fib _ _ PR s b wr c B C0) in I0. congruence.
      * apply (pr_list _ _ PR).
Qed.
Lemma exhausted : forall U e (a : ast U) o a', resume (Some (e, a)) = Some (o, a') -> ok e = true -> ok (fst o) = false -> o = (ERROR_FIBER_SCHEDULER_EXHAUSTED, nowhere).
Proof.
  intros U e a o a' H O F. cbn [resume] in H. rewrite O in H. cbn [negb] in H.
  assert (G : forall x r n, go x r n a = Some (o, a') -> False).
  { intros [f [[d ev] p]] r n K. unfold go in K. destruct (hget _ _); [|discriminate]. destruct (_ =? STOPPED); inversion K; subst. discriminate. }
  destruct (a_ready a); [destruct (_ =? 0); [inversion H; subst; auto|]|]; exfalso; eapply G; eauto.
Qed.
Lemma resume_fails : forall U e (a : ast U) o a', resume (Some (e, a)) = Some (o, a') -> ok e = false -> o = (e, nowhere) /\ a' = a.
Proof. intros U e a o a' H O. cbn [resume] in H. rewrite O in H. inversion H. auto. Qed.
Lemma world_eta : forall l, World (wo_socks l) (wo_wait l) (wo_in l) = l.
Proof. intros []. reflexivity. Qed.
Lemma iost_eta : forall K (m : iost K), IO (io_socks m) (io_k m) = m.
Proof. intros K []. reflexivity. Qed.
Lemma poll_wait_step : forall V ans (other : acts V) dels sys mem d (wr : bool) s (a : ast (iost pst * V)) c l o a' m, IRel poll_rel mem d a c l ->
  astep dels (io_acts poll_plat ans other) (SYield d (if wr then IY_WAIT_WRITE else IY_WAIT_READ) s) a = Some (o, a') -> a_made a' = a_made a ++ m ->
  goes poll_rel mem d a' (io_step Poll mem sys ans d (IWait wr s) o m c l).
Proof.
  intros V ans other dels sys mem d wr s a c l o a' m R H MM. cbn [io_step]. destruct (existsb (by_fiber c) _) eqn:WI; [exact Logic.I|].
  pose proof (il_common _ _ _ _ _ _ R) as IC. pose proof (il_rel _ _ _ _ _ _ R) as PR. apply within_not in WI.
  pose proof (step_sound _ _ _ _ _ _ _ H (il_sound _ _ _ _ _ _ R)) as SO.
  assert (G : exists b, hget (io_socks (fst (a_user a))) s = Some b).
  { rewrite (yield_io _ _ _ _ _ _ _ _ _ _ (il_disc _ _ _ _ _ _ R)) in H. unfold block in H. rewrite Z.eqb_refl in H. cbn [negb on_fst happly] in H. destruct (hget _ s); [eauto|discriminate]. }
  destruct G as [b G].
  destruct (waited _ _ _ _ _ _ _ _ _ _ _ _ _ _ _ _ _ _ _ R H MM (pr_fib _ _ PR) (ic_nonnull _ _ IC) G) as [WB WF].
  destruct (existsb (on_sock wr s) (wo_in l)) eqn:BU.
  { destruct WB as (-> & -> & K1); auto. }
  destruct WF as (W0 & e & a1 & HA & RS); auto. clear WB H. rewrite happly_seq in HA.
  set (a0 := user_set (set_sock s (ws_set wr c b) (fst (a_user a)), snd (a_user a)) a) in *.
  assert (G0 : hget (io_socks (fst (a_user a0))) s = Some (ws_set wr c b)) by (cbn [a0 user_set a_user fst set_sock io_socks]; rewrite hget_hset, Z.eqb_refl, G; auto).
  assert (C0 : c <> 0) by (rewrite <- (il_cur _ _ _ _ _ _ R); apply (il_sound _ _ _ _ _ _ R)).
  destruct (happly (on_fst (pl_wait poll_plat wr c s)) a0) as [[e1 a2]|] eqn:HP; [|discriminate].
  destruct (poll_wait_ok _ _ _ _ _ _ _ _ G0 HP) as (CA & US & CASE).
  assert (CB : calm a a2) by (eapply calm_trans; [apply calm_refl|exact CA]). rewrite ws_fd_set in CASE. destruct CASE as [(OE & n & U1)|(OE & AL & U1)].
  - rewrite OE in HA. cbn [on_fst happly] in HA. inversion HA; subst e1 a2; clear HA.
    pose proof (resume_made _ _ _ _ _ RS) as RM. destruct CB as (B1 & B2 & B3 & B4 & B5).
    assert (m = []) as -> by (apply (app_inv_head (a_made a)); rewrite <- MM, RM, B4, app_nil_r; auto).
    pose proof (resume_frame _ _ _ _ _ RS) as (F1 & F2 & F3 & F4).
    assert (RR : IRel poll_rel mem d a' (if ok (fst o) then runner o else c) (World (wo_socks l) (wo_wait l ++ [(c, (wr, s))]) (wo_in l ++ [(c, (wr, s))]))).
    { apply (keep_rel _ _ _ _ _ a a' c _ l _ R); auto; try congruence.
      - rewrite F1, B1, (il_cur _ _ _ _ _ _ R). auto.
      - rewrite F3, U1. cbn. apply common_wait; auto.
      - rewrite F3, U1. constructor; cbn [wo_in wo_wait wo_socks io_k set_k a0 user_set a_user fst set_sock p_list].
        + apply fibs_wait; auto. apply (pr_fib _ _ PR).
        + apply Forall2_app; [apply (pr_list _ _ PR)|]. constructor; [|constructor]. cbn [fst snd pe_fd pe_events pe_fib]. split; [|auto]. rewrite <- (ic_fds _ _ IC), G. reflexivity. }
    destruct (ok (fst o)) eqn:OO; [exact RR|]. rewrite (exhausted _ _ _ _ _ RS OE OO) in *. cbn [fst]. rewrite Z.eqb_refl. destruct mem; [exact Logic.I|]. rewrite plain_same. exact RR.
  - rewrite OE in HA. cbn [on_fst happly] in HA. rewrite U1, G0 in HA. cbn [need on_fst happly] in HA. inversion HA; subst e1; clear HA.
    apply resume_fails in RS as [-> ->]; [|auto]. cbn [fst]. rewrite OE.
    assert (ML : mem = true) by (destruct mem; auto; exfalso; apply AL; apply (il_al _ _ _ _ _ _ R); auto). subst mem.
    destruct (e =? ERROR_FIBER_SCHEDULER_EXHAUSTED); [exact Logic.I|]. rewrite plain_same.
    assert (m = []) as ->. { apply (app_inv_head (a_made a)). destruct CB as (_ & _ & _ & B4 & _). rewrite <- MM, app_nil_r, <- B4. subst a1. reflexivity. }
    cbn [made_is andb judge goes]. subst a1. destruct CB as (B1 & B2 & B3 & B4 & B5). cbn [user_set a_cur a_discs a_al a_user a_made fst] in *.
    assert (UU : set_sock s (ws_set wr 0 (ws_set wr c b)) (fst (a_user a0)) = fst (a_user a)).
    { cbn [a0 user_set a_user fst]. unfold set_sock. cbn [io_socks io_k]. rewrite hset_hset, ws_set_undo, hset_id by auto. apply iost_eta. }
    apply (keep_rel _ _ _ _ _ a _ c _ l _ R); cbn [user_set a_cur a_discs a_al a_user a_made fst]; auto.
    + rewrite B1. apply (il_cur _ _ _ _ _ _ R).
    + replace (set_sock _ _ _) with (fst (a_user a)); auto.
    + replace (set_sock _ _ _) with (fst (a_user a)); auto.
Qed.
(** Bits. *)
Lemma has_bit : forall m k, 0 <= k -> has m (2 ^ k) = Z.testbit m k.
Proof.
  intros m k K. unfold has. destruct (Z.testbit m k) eqn:T.
  - apply negb_true_iff, Z.eqb_neq. intros E. assert (Z.testbit (Z.land m (2 ^ k)) k = true) by (rewrite Z.land_spec, T, Z.pow2_bits_true by lia; auto). rewrite E, Z.bits_0 in H. discriminate.
  - apply negb_false_iff, Z.eqb_eq. apply Z.bits_inj'. intros n N. rewrite Z.land_spec, Z.bits_0, Z.pow2_bits_eqb by lia. destruct (Z.eqb_spec k n) as [->|]; [rewrite T; auto|apply andb_false_r].
Qed.
Lemma has_in : forall m, has m IN = Z.testbit m 0. Proof. intros. apply (has_bit m 0). lia. Qed.
Lemma has_out : forall m, has m OUT = Z.testbit m 2. Proof. intros. apply (has_bit m 2). lia. Qed.
Lemma has_err : forall m, has m ERR = Z.testbit m 3. Proof. intros. apply (has_bit m 3). lia. Qed.
Lemma has_hup : forall m, has m HUP = Z.testbit m 4. Proof. intros. apply (has_bit m 4). lia. Qed.
Lemma has_rdhup : forall m, has m RDHUP = Z.testbit m 13. Proof. intros. apply (has_bit m 13). lia. Qed.
Lemma has_oneshot : forall m, has m ONESHOT = Z.testbit m 30. Proof. intros. apply (has_bit m 30). lia. Qed.
Lemma flags : forall b c : bool, Z.lor (if b then IO_FLAG_ERROR else 0) (if c then IO_FLAG_EOF else 0) = (if b then IO_FLAG_ERROR else 0) + (if c then IO_FLAG_EOF else 0).
Proof. intros [] []; reflexivity. Qed.
(** One entry. *)
Lemma poll_one : forall fd (wr : bool) r f, let x := polled r (PE fd (if wr then OUT else IN) 0 f) in let m := ready_for r fd in
  (poll_event x =? -1) = negb (roused Poll wr m) /\
  (roused Poll wr m = true -> forall s, (false, (pe_fib x, (IO_ID, poll_event x, poll_param x))) = rousing m (f, (wr, s))).
Proof.
  intros fd wr r f x m. unfold poll_event, poll_param, roused, ready_bit, rousing. subst x. cbn [polled pe_revents pe_events pe_fib pe_fd fst snd]. fold m.
  rewrite has_in, !has_out, has_err, !has_hup, has_in. rewrite !Z.land_spec. rewrite flags.
  destruct wr; idtac; 
  destruct (Z.testbit m 0), (Z.testbit m 2), (Z.testbit m 4), (Z.testbit m 3); vm_compute; split; try reflexivity; discriminate.
Qed.
Definition entry_of (socks : list (Z * Z)) (e : pent) (x : waiter) : Prop :=
  fd_of socks (snd (snd x)) = Some (pe_fd e) /\ pe_events e = (if fst (snd x) then OUT else IN) /\ pe_fib e = fst x.
Lemma poll_serve_ok : forall V r socks l W kept KW (a : ast (iost pst * V)) e a1, Forall2 (entry_of socks) l W -> Forall2 (entry_of socks) kept KW ->
  happly (on_fst (poll_serve kept (map (polled r) l))) a = Some (e, a1) ->
  a_cur a1 = a_cur a /\ a_discs a1 = a_discs a /\ (a_al a = [] -> a_al a1 = []) /\ exists m, a_made a1 = a_made a ++ m /\
  ((e = STATUS_SUCCESS /\ m = due Poll r socks W /\ io_socks (fst (a_user a1)) = io_socks (fst (a_user a)) /\
    Forall2 (entry_of socks) (p_list (io_k (fst (a_user a1)))) (KW ++ filter (fun x => negb (roused Poll (fst (snd x)) (said r socks x))) W)) \/
   (ok e = false /\ a_al a <> [] /\ (length m < length (due Poll r socks W))%nat)).
Proof.
  intros V r socks. induction l as [|x l IH]; intros W kept KW a e a1 F FK H; inversion F as [|? y ? W' F1 F2]; subst; clear F.
  - cbn [map poll_serve on_fst happly] in H. inversion H; subst; clear H. cbn [user_set a_cur a_discs a_al a_user a_made fst set_k io_socks io_k p_list].
    do 2 (split; [reflexivity|]). split; [auto|]. exists []. rewrite app_nil_r. split; [auto|]. left. cbn [filter]. rewrite app_nil_r. auto.
  - destruct F1 as (E1 & E2 & E3). destruct x as [fd ev rv f], y as [g [wr s]]. cbn [fst snd pe_fd pe_events pe_fib] in E1, E2, E3. subst ev g.
    assert (SD : said r socks (f, (wr, s)) = ready_for r fd) by (unfold said, ready_for; cbn [snd]; rewrite E1; reflexivity).
    destruct (poll_one fd wr r f) as [P1 P2].
    change (polled r (PE fd (if wr then OUT else IN) 0 f)) with (polled r (PE fd (if wr then OUT else IN) rv f)) in P1, P2.
    cbn [map poll_serve] in H. rewrite P1, negb_involutive in H.
    unfold due. cbn [filter fst snd]. rewrite SD. destruct (roused Poll wr (ready_for r fd)) eqn:RO.
    + cbn [on_fst happly] in H. specialize (P2 eq_refl s). destruct (push false _ a) as [[e1 a2]|] eqn:PU; [|discriminate].
      pose proof (push_made _ _ _ _ _ _ PU) as PM. destruct (push_frame _ _ _ _ _ _ PU) as ((A1 & A2 & A3 & A4) & A5).
      destruct (ok e1) eqn:O1; cbn [negb] in H.
      * destruct (IH W' kept KW a2 e a1 F2 FK H) as (B1 & B2 & B3 & m & B4 & B5). split; [congruence|]. split; [congruence|]. split; [auto|].
        exists (rousing (ready_for r fd) (f, (wr, s)) :: m). rewrite B4, PM, <- P2, <- app_assoc. split; [reflexivity|]. cbn [map negb]. rewrite SD, <- P2. destruct B5 as [(C1 & C2 & C3 & C4)|(C1 & C2 & C3)].
        -- left. split; [auto|]. split; [rewrite C2; reflexivity|]. split; [congruence|]. exact C4.
        -- right. split; [auto|]. split; [auto|]. cbn [length]. unfold due in C3. lia.
      * cbn [on_fst happly] in H. inversion H; subst; clear H. cbn [user_set a_cur a_discs a_al a_made]. split; [auto|]. split; [auto|]. split; [auto|]. exists []. split; [auto|]. right.
        split; [auto|]. split; [|cbn; lia]. intros E. rewrite A5 in O1 by auto. discriminate.
    + cbn [negb] in *. destruct (IH W' (kept ++ [polled r (PE fd (if wr then OUT else IN) rv f)]) (KW ++ [(f, (wr, s))]) a e a1 F2) as (B1 & B2 & B3 & m & B4 & B5); [|exact H|].
      { apply Forall2_app; auto. constructor; [|constructor]. repeat split; auto. }
      do 3 (split; [auto|]). exists m. split; [auto|]. destruct B5 as [(C1 & C2 & C3 & C4)|C]; [|right; exact C]. left. do 3 (split; [auto|]). rewrite <- app_assoc in C4. exact C4.
Qed.
Lemma made_is_len : forall m l, made_is m l = true -> length m = length l.
Proof. intros m l H. apply made_is_eq in H. congruence. Qed.
Lemma common_round : forall K (m m' : iost K) l W, io_common m l -> hwf (io_socks m') -> (forall s, option_map ws_fd (hget (io_socks m') s) = option_map ws_fd (hget (io_socks m) s)) -> incl W (wo_wait l) -> NoDup (map fst W) ->
  io_common m' (World (wo_socks l) W (wo_in l)).
Proof.
  intros K m m' l W IC WF E I1 N. destruct IC. constructor; cbn [wo_socks wo_wait wo_in]; auto.
  - intros s. rewrite E. auto.
  - intros x I0. auto.
  - intros x I0. destruct (ic_live0 x I0) as [b B]. specialize (E (snd (snd x))). rewrite B in E. cbn in E. destruct (hget (io_socks m') _); [eauto|discriminate].
Qed.
Lemma poll_round_step : forall V ans (other : acts V) dels sys mem d q (a : ast (iost pst * V)) c l o a' m, IRel poll_rel mem d a c l ->
  astep dels (io_acts poll_plat ans other) (SAct FN_IO_ROUND IO_CTX q) a = Some (o, a') -> a_made a' = a_made a ++ m -> goes poll_rel mem d a' (io_step Poll mem sys ans d (IRound q) o m c l).
Proof.
  intros V ans other dels sys mem d q a c l o a' m R H MM. cbn [io_step]. destruct (existsb (by_fiber c) _); [exact Logic.I|].
  pose proof (il_common _ _ _ _ _ _ R) as IC. pose proof (il_rel _ _ _ _ _ _ R) as PR.
  pose proof (step_sound _ _ _ _ _ _ _ H (il_sound _ _ _ _ _ _ R)) as SO.
  assert (HB : io_acts poll_plat ans other FN_IO_ROUND IO_CTX (a_cur a) q = @on_fst (iost pst) V (poll_round (ans q))) by reflexivity.
  destruct (ans q) as [|[er|r] t] eqn:AQ; cbn [settled]; [exact Logic.I| |].
  - replace l with (World (wo_socks l) (wo_wait l) (wo_in l)) at 1 by apply world_eta. rewrite world_eta.
    cbn [astep] in H. rewrite HB in H. cbn [poll_round on_fst happly] in H. inversion H; subst; clear H.
    assert (m = []) as -> by (apply (app_inv_head (a_made a')); rewrite <- MM, app_nil_r; auto).
    cbn [round_error]. rewrite plain_same. exact R.
  - rewrite orb_false_r. destruct (distinct (map fst r)); [|exact Logic.I]. cbn [negb].
    destruct (existsb (fun x => negb _ && over _) _); [exact Logic.I|].
    cbn [astep] in H. rewrite HB in H. cbn [poll_round on_fst happly] in H.
    destruct (happly _ (user_set _ a)) as [[e a1]|] eqn:HA; [|discriminate]. inversion H; subst o a'; clear H.
    destruct (poll_serve_ok _ _ (wo_socks l) _ (wo_wait l) [] [] _ _ _ (pr_list _ _ PR) ltac:(constructor) HA) as (B1 & B2 & B3 & m1 & B4 & B5).
    cbn [user_set a_cur a_discs a_al a_made a_user fst set_k io_socks io_k] in *.
    assert (m1 = m) as -> by (apply (app_inv_head (a_made a)); congruence).
    destruct B5 as [(-> & -> & C3 & C4)|(C1 & C2 & C3)].
    + rewrite made_is_refl. cbn [negb]. rewrite andb_false_r. destruct (sys && _); [exact Logic.I|]. rewrite plain_same. cbn [andb judge goes].
      apply (keep_rel _ _ _ _ _ a a1 c _ l _ R); auto.
      * rewrite B1. apply (il_cur _ _ _ _ _ _ R).
      * apply (common_round _ (fst (a_user a))); auto.
        -- rewrite C3. apply (ic_wf _ _ IC).
        -- intros s. rewrite C3. auto.
        -- intros x I0. apply filter_In in I0. tauto.
        -- apply nodup_map_filter, (ic_wait _ _ IC).
      * constructor; cbn [wo_in wo_wait wo_socks].
        -- intros s b wr f. rewrite C3. apply (pr_fib _ _ PR).
        -- exact C4.
    + assert (mem = true) as -> by (destruct mem; auto; exfalso; apply C2, (il_al _ _ _ _ _ _ R); auto).
      destruct (made_is m _) eqn:MI; [|exact Logic.I]. apply made_is_len in MI. lia.
Qed.

(** ** epoll *)
Definition bit (wr : bool) : Z := if wr then 2 else 0.
Record epoll_rel (sys : bool) (m : iost ep) (l : world) : Prop := EpollRel
  { er_fib : fibs m (wo_wait l);
    er_nodup : NoDup (addrs (ep_set (io_k m)));
    er_ptr : forall fd i, hget (ep_set (io_k m)) fd = Some i -> Z.testbit (it_ev i) 30 = true /\ Z.testbit (it_ev i) 13 = false /\ fd_of (wo_socks l) (it_ptr i) = Some fd;
    er_on : forall x fd, In x (wo_wait l) -> fd_of (wo_socks l) (snd (snd x)) = Some fd ->
      exists i, hget (ep_set (io_k m)) fd = Some i /\ it_on i = true /\ Z.testbit (it_ev i) (bit (fst (snd x))) = true;
    er_ctl : sys = false -> ep_ctl (io_k m) = [] }.
Lemma hget_hdel_nodup : forall A (h : heap A) p q, NoDup (addrs h) -> hget (hdel h p) q = if q =? p then None else hget h q.
Proof.
  intros A h p q H1. induction h as [|[x c] t IH]; cbn; [destruct (q =? p); auto|]. inversion H1; subst.
  destruct (Z.eqb_spec p x) as [->|N].
  - destruct (Z.eqb_spec q x) as [->|M]; auto. apply hget_none. auto.
  - cbn. rewrite IH by auto. destruct (Z.eqb_spec q x) as [->|M]; auto.
    destruct (Z.eqb_spec x p); [congruence|auto].
Qed.
Lemma hdel_nodup : forall A (h : heap A) s, NoDup (addrs h) -> NoDup (addrs (hdel h s)).
Proof.
  intros A h s. induction h as [|[u x] h IH]; intros N; [constructor|]. cbn [addrs map fst] in N. inversion N as [|? ? N1 N2]; subst. cbn [hdel]. destruct (s =? u); auto.
  cbn [addrs map fst]. constructor; [|apply IH; auto]. intros K. apply N1. eapply hdel_in; exact K.
Qed.
Definition wanted (b : wsock) : Z := Z.lor ONESHOT (Z.lor (if negb (ws_r b =? 0) then IN else 0) (if negb (ws_w b =? 0) then OUT else 0)).
Lemma wanted_bits : forall b, Z.testbit (wanted b) 30 = true /\ Z.testbit (wanted b) 13 = false /\ forall wr, Z.testbit (wanted b) (bit wr) = negb (ws_fib wr b =? 0).
Proof.
  intros b. unfold wanted, ws_fib. split; [|split]; [destruct (ws_r b =? 0), (ws_w b =? 0); reflexivity..|]. intros []; destruct (ws_r b =? 0), (ws_w b =? 0); reflexivity.
Qed.
Lemma epoll_ctl_ok : forall add fd i k e k', epoll_ctl add fd i k = (e, k') -> NoDup (addrs (ep_set k)) -> NoDup (addrs (ep_set k')) /\ (ep_ctl k = [] -> ep_ctl k' = []) /\
  ((e = 0 /\ forall t, hget (ep_set k') t = if t =? fd then Some i else hget (ep_set k) t) \/
   (e <> 0 /\ ep_set k' = ep_set k /\ (ep_ctl k = [] -> if add then hget (ep_set k) fd <> None else e = ENOENT /\ hget (ep_set k) fd = None))).
Proof.
  intros add fd i k e k' H N. unfold epoll_ctl in H. destruct (Z.eqb_spec (hd 0 (ep_ctl k)) 0) as [E0|E0]; cbn [negb] in H.
  - destruct (hget (ep_set k) fd) as [j|] eqn:G; destruct add; inversion H; subst; clear H; cbn [ep_set ep_ctl].
    + split; [auto|]. split; [intros ->; auto|]. right. split; [discriminate|]. split; [auto|]. intros _. congruence.
    + split; [rewrite hset_addrs; auto|]. split; [intros ->; auto|]. left. split; [auto|]. intros t. rewrite hget_hset, G. auto.
    + split; [cbn; constructor; auto; apply hget_none; auto|]. split; [intros ->; auto|]. left. split; [auto|]. intros t. apply hget_hadd.
    + split; [auto|]. split; [intros ->; auto|]. right. split; [discriminate|]. split; [auto|]. intros _. auto.
  - inversion H; subst; clear H. cbn [ep_set ep_ctl]. split; [auto|]. split; [intros ->; auto|]. right. split; [auto|]. split; [auto|]. intros K. rewrite K in E0. cbn in E0. lia.
Qed.
Lemma arm_ok : forall s b k e k', arm s b k = (e, k') -> NoDup (addrs (ep_set k)) -> NoDup (addrs (ep_set k')) /\ (ep_ctl k = [] -> ep_ctl k' = [] /\ e = 0) /\
  ((e = 0 /\ forall t, hget (ep_set k') t = if t =? ws_fd b then Some (It (wanted b) s true) else hget (ep_set k) t) \/ (e <> 0 /\ ep_set k' = ep_set k)).
Proof.
  intros s b k e k' H N. unfold arm in H. fold (wanted b) in H. destruct (epoll_ctl false _ _ k) as [e1 k1] eqn:C1. destruct (epoll_ctl_ok _ _ _ _ _ _ C1 N) as (N1 & L1 & K1).
  destruct (Z.eqb_spec e1 ENOENT) as [->|NE].
  - destruct K1 as [[K1 _]|(_ & K1 & K2)]; [discriminate|]. destruct (epoll_ctl_ok _ _ _ _ _ _ H N1) as (N2 & L2 & K3). rewrite K1 in K3. split; [auto|]. split.
    + intros E. split; [auto|]. destruct K3 as [[-> _]|(_ & _ & K3)]; [auto|]. destruct (K2 E) as [_ K4]. exfalso. apply K3; auto.
    + destruct K3 as [K3|(K3 & K4 & _)]; [left; exact K3|right; split; congruence].
  - inversion H; subst. split; [auto|]. split.
    + intros E. split; [auto|]. destruct K1 as [[-> _]|(_ & _ & K2)]; [auto|]. destruct (K2 E). congruence.
    + destruct K1 as [K1|(K1 & K2 & _)]; auto.
Qed.
Lemma epoll_socket_step : forall V ans (other : acts V) dels sys mem d fd s (a : ast (iost ep * V)) c l o a' m, IRel (epoll_rel sys) mem d a c l ->
  astep dels (io_acts epoll_plat ans other) (SAct FN_IO_SOCKET fd s) a = Some (o, a') -> a_made a' = a_made a ++ m -> goes (epoll_rel sys) mem d a' (io_step Epoll mem sys ans d (ISocket fd s) o m c l).
Proof.
  intros V ans other dels sys mem d fd s a c l o a' m R H MM. cbn [io_step]. destruct (existsb (by_fiber c) _); [exact Logic.I|]. destruct (existsb _ (wo_socks l)) eqn:FD; [exact Logic.I|].
  pose proof (il_common _ _ _ _ _ _ R) as IC. pose proof (il_rel _ _ _ _ _ _ R) as PR.
  eapply (acted _ _ _ _ _ _ _ _ _ _ _ _ _ _ _ _ _ _ _ _ _ R H MM).
  - intros x. change (io_acts epoll_plat ans other FN_IO_SOCKET fd (a_cur a) s) with (@on_fst (iost ep) V (new_sock fd s)). unfold new_sock. cbn [on_fst happly]. destruct (_ || _); cbn [on_fst happly]; [discriminate|]. intros E. inversion E. reflexivity.
  - change (io_acts epoll_plat ans other FN_IO_SOCKET fd (a_cur a) s) with (@on_fst (iost ep) V (new_sock fd s)). unfold new_sock. cbn [on_fst happly]. destruct (_ || _) eqn:Q; [cbn; congruence|]. intros _.
    apply orb_false_iff in Q as [Q1 Q2]. apply Z.eqb_neq in Q1. apply zmem_not in Q2.
    assert (G : hget (io_socks (fst (a_user a))) s = None) by (apply hget_none; auto).
    assert (GF : fd_of (wo_socks l) s = None) by (rewrite <- (ic_fds _ _ IC), G; auto).
    rewrite existsb_false in FD. split.
    + apply common_socket; auto. intros I0. apply in_map_iff in I0 as (y & E & I0). apply FD in I0. rewrite E, Z.eqb_refl in I0. discriminate.
    + destruct PR. constructor; cbn [wo_in wo_wait wo_socks io_k]; auto.
      * apply fibs_socket; auto. intros x I0. apply (ic_live _ _ IC), (ic_incl _ _ IC), I0.
      * intros t i E. rewrite fd_of_cons. destruct (er_ptr0 t i E) as (A & B & C). destruct (Z.eqb_spec (it_ptr i) s) as [E1|]; [congruence|auto].
      * intros x t I0. rewrite fd_of_cons. destruct (Z.eqb_spec (snd (snd x)) s) as [E1|]; [|apply er_on0; auto].
        apply (ic_incl _ _ IC) in I0. apply (ic_live _ _ IC) in I0 as [b B]. congruence.
Qed.
Lemma fd_inj : forall socks s t fd, NoDup (map snd socks) -> fd_of socks s = Some fd -> fd_of socks t = Some fd -> s = t.
Proof.
  induction socks as [|[u g] socks IH]; intros s t fd N E1 E2; [discriminate|]. cbn [map snd] in N. inversion N as [|? ? N1 N2]; subst. rewrite fd_of_cons in E1, E2.
  assert (Q : forall z, fd_of socks z = Some g -> False).
  { intros z K. unfold fd_of in K. destruct (find _ socks) as [y|] eqn:F; [|discriminate]. apply find_some in F as [F _]. cbn in K. inversion K. apply N1. rewrite <- H0. apply in_map. auto. }
  destruct (Z.eqb_spec s u), (Z.eqb_spec t u); try congruence.
  eapply IH; eauto.
Qed.
Lemma epoll_release_step : forall V ans (other : acts V) dels sys mem d s (a : ast (iost ep * V)) c l o a' m, IRel (epoll_rel sys) mem d a c l ->
  astep dels (io_acts epoll_plat ans other) (SAct FN_IO_RELEASE 0 s) a = Some (o, a') -> a_made a' = a_made a ++ m -> goes (epoll_rel sys) mem d a' (io_step Epoll mem sys ans d (IRelease s) o m c l).
Proof.
  intros V ans other dels sys mem d s a c l o a' m R H MM. cbn [io_step]. destruct (existsb (by_fiber c) _); [exact Logic.I|]. destruct (existsb (fun x => snd (snd x) =? s) (wo_in l)) eqn:FD; [exact Logic.I|].
  pose proof (il_common _ _ _ _ _ _ R) as IC. pose proof (il_rel _ _ _ _ _ _ R) as PR. rewrite existsb_false in FD.
  assert (HB : io_acts epoll_plat ans other FN_IO_RELEASE 0 (a_cur a) s = @on_fst (iost ep) V (epoll_release s)) by reflexivity.
  destruct (hget (io_socks (fst (a_user a))) s) as [b|] eqn:G.
  2:{ cbn [astep] in H. rewrite HB in H. unfold epoll_release in H. cbn [on_fst happly] in H. rewrite G in H. discriminate. }
  assert (GF : fd_of (wo_socks l) s = Some (ws_fd b)) by (rewrite <- (ic_fds _ _ IC), G; auto).
  eapply (acted _ _ _ _ _ _ _ _ _ _ _ _ _ _ _ _ _ _ _ _ _ R H MM); rewrite HB; unfold epoll_release; cbn [on_fst happly]; rewrite G; cbn [need on_fst happly].
  - intros x E. inversion E. reflexivity.
  - intros _. split.
    + apply common_release; auto. intros x I0 E. apply FD in I0. apply Z.eqb_neq in I0. auto.
    + destruct PR. constructor; cbn [wo_in wo_wait wo_socks io_k ep_set ep_ctl]; auto.
      * apply fibs_release; [apply (ic_wf _ _ IC)|auto].
      * apply hdel_nodup; auto.
      * intros t i. rewrite hget_hdel_nodup by auto. destruct (Z.eqb_spec t (ws_fd b)) as [|NE]; [discriminate|]. intros E. destruct (er_ptr0 t i E) as (A & B & C). rewrite fd_of_filter.
        destruct (Z.eqb_spec (it_ptr i) s) as [E1|]; [congruence|auto].
      * intros x t I0. rewrite fd_of_filter. destruct (Z.eqb_spec (snd (snd x)) s) as [E1|NE]; [discriminate|]. intros E. rewrite hget_hdel_nodup by auto.
        destruct (Z.eqb_spec t (ws_fd b)) as [->|]; [|eauto]. exfalso. apply NE. eapply fd_inj; eauto. apply (ic_distinct _ _ IC).
Qed.
Lemma epoll_back_step : forall V ans (other : acts V) dels sys mem d (wr : bool) s (a : ast (iost ep * V)) c l o a' m, IRel (epoll_rel sys) mem d a c l ->
  astep dels (io_acts epoll_plat ans other) (SAct (if wr then FN_IO_WRITE_BACK else FN_IO_READ_BACK) 0 s) a = Some (o, a') -> a_made a' = a_made a ++ m ->
  goes (epoll_rel sys) mem d a' (io_step Epoll mem sys ans d (IBack wr s) o m c l).
Proof.
  intros V ans other dels sys mem d wr s a c l o a' m R H MM. cbn [io_step]. destruct (existsb (fun x => by_fiber c x && on_sock wr s x) (wo_in l)) eqn:MI; [|exact Logic.I]. cbn [negb].
  destruct (existsb (fun x => negb (by_fiber c x) && on_sock wr s x) (wo_wait l)) eqn:NW; [exact Logic.I|].
  pose proof (il_common _ _ _ _ _ _ R) as IC. pose proof (il_rel _ _ _ _ _ _ R) as PR.
  apply existsb_exists in MI as (x & I0 & MI). apply mine_true in MI. subst x. destruct (ic_live _ _ IC _ I0) as [b B]. cbn [snd] in B. rewrite existsb_false in NW.
  assert (HB : io_acts epoll_plat ans other (if wr then FN_IO_WRITE_BACK else FN_IO_READ_BACK) 0 (a_cur a) s = @on_fst (iost ep) V (back wr s)) by (destruct wr; reflexivity).
  eapply (acted _ _ _ _ _ _ _ _ _ _ _ _ _ _ _ _ _ _ _ _ _ R H MM); rewrite HB; unfold back; cbn [on_fst happly]; rewrite B; cbn [need on_fst happly].
  - intros x E. inversion E. reflexivity.
  - intros _. unfold set_sock. split.
    + apply common_back; auto.
      * intros x K1. apply not_mine in K1. tauto.
      * apply nodup_map_filter, (ic_wait _ _ IC).
      * rewrite not_mine. tauto.
    + destruct PR. constructor; cbn [wo_in wo_wait wo_socks io_k]; auto.
      * apply fibs_back; auto. intros f F0 I1. apply NW in I1 as K1. unfold by_fiber in K1. cbn [fst] in K1. destruct (Z.eqb_spec f c); auto. cbn [negb andb] in K1.
        assert (on_sock wr s (f, (wr, s)) = true) by (apply on_sock_true; auto). congruence.
      * intros x fd I1. apply not_mine in I1 as [I1 _]. apply er_on0. auto.
Qed.
Lemma epoll_wait_step : forall V ans (other : acts V) dels sys mem d (wr : bool) s (a : ast (iost ep * V)) c l o a' m, IRel (epoll_rel sys) mem d a c l ->
  astep dels (io_acts epoll_plat ans other) (SYield d (if wr then IY_WAIT_WRITE else IY_WAIT_READ) s) a = Some (o, a') -> a_made a' = a_made a ++ m ->
  goes (epoll_rel sys) mem d a' (io_step Epoll mem sys ans d (IWait wr s) o m c l).
Proof.
  intros V ans other dels sys mem d wr s a c l o a' m R H MM. cbn [io_step]. destruct (existsb (by_fiber c) _) eqn:WI; [exact Logic.I|].
  pose proof (il_common _ _ _ _ _ _ R) as IC. pose proof (il_rel _ _ _ _ _ _ R) as PR. apply within_not in WI.
  pose proof (step_sound _ _ _ _ _ _ _ H (il_sound _ _ _ _ _ _ R)) as SO.
  assert (G : exists b, hget (io_socks (fst (a_user a))) s = Some b).
  { rewrite (yield_io _ _ _ _ _ _ _ _ _ _ (il_disc _ _ _ _ _ _ R)) in H. unfold block in H. rewrite Z.eqb_refl in H. cbn [negb on_fst happly] in H. destruct (hget _ s); [eauto|discriminate]. }
  destruct G as [b G].
  assert (NN : forall x, In x (wo_wait l) -> fst x <> 0) by (intros x I0; apply (ic_nonnull _ _ IC), (ic_incl _ _ IC), I0).
  destruct (waited _ _ _ _ _ _ _ _ _ _ _ _ _ _ _ _ _ _ _ R H MM (er_fib _ _ _ PR) NN G) as [WB WF].
  destruct (existsb (on_sock wr s) (wo_wait l)) eqn:BU.
  { destruct WB as (-> & -> & K1); auto. }
  destruct WF as (W0 & e & a1 & HA & RS); auto. clear WB H. rewrite happly_seq in HA.
  set (a0 := user_set (set_sock s (ws_set wr c b) (fst (a_user a)), snd (a_user a)) a) in *.
  assert (G0 : hget (io_socks (fst (a_user a0))) s = Some (ws_set wr c b)) by (cbn [a0 user_set a_user fst set_sock io_socks]; rewrite hget_hset, Z.eqb_refl, G; auto).
  assert (C0 : c <> 0) by (rewrite <- (il_cur _ _ _ _ _ _ R); apply (il_sound _ _ _ _ _ _ R)).
  assert (GF : fd_of (wo_socks l) s = Some (ws_fd b)) by (rewrite <- (ic_fds _ _ IC), G; auto).
  cbn [pl_wait epoll_plat] in HA. unfold epoll_block in HA. cbn [on_fst happly] in HA. rewrite G0 in HA. cbn [need] in HA.
  destruct (arm s (ws_set wr c b) (io_k (fst (a_user a0)))) as [e1 k1] eqn:AR. cbn [on_fst happly] in HA.
  destruct (arm_ok _ _ _ _ _ AR (er_nodup _ _ _ PR)) as (N1 & L1 & K1). rewrite ws_fd_set in K1. cbn [a0 user_set a_user fst set_sock io_k] in L1, K1.
  destruct (wanted_bits (ws_set wr c b)) as (WB1 & WB2 & WB3).
  destruct K1 as [(-> & K1)|(NE & K1)].
  - cbn [Z.eqb negb] in HA. change (ok STATUS_SUCCESS) with true in HA. cbn [on_fst happly] in HA. inversion HA; subst e; clear HA.
    pose proof (resume_made _ _ _ _ _ RS) as RM. subst a1. cbn [user_set a_made] in RM.
    assert (m = []) as -> by (apply (app_inv_head (a_made a)); rewrite <- MM, RM, app_nil_r; auto).
    pose proof (resume_frame _ _ _ _ _ RS) as (F1 & F2 & F3 & F4). cbn [user_set a_cur a_discs a_user a_al a0 fst snd] in F1, F2, F3, F4.
    assert (RR : IRel (epoll_rel sys) mem d a' (if ok (fst o) then runner o else c) (World (wo_socks l) (wo_wait l ++ [(c, (wr, s))]) (wo_in l ++ [(c, (wr, s))]))).
    { apply (keep_rel _ _ _ _ _ a a' c _ l _ R); auto; try congruence.
      - rewrite F1, (il_cur _ _ _ _ _ _ R). auto.
      - rewrite F3. cbn. apply common_wait; auto.
      - rewrite F3. destruct PR. constructor; cbn [wo_in wo_wait wo_socks io_k set_k fst set_sock].
        + apply fibs_wait; auto.
        + auto.
        + intros t i. rewrite K1. destruct (Z.eqb_spec t (ws_fd b)) as [->|]; [|apply er_ptr0]. intros E. inversion E; subst. cbn [it_ev it_ptr]. auto.
        + intros x t I0 E. rewrite K1. destruct (Z.eqb_spec t (ws_fd b)) as [->|NT].
          * eexists. split; [reflexivity|]. cbn [it_on it_ev]. split; [auto|]. rewrite WB3, ws_fib_set. apply in_app_or in I0 as [I0|[<-|[]]].
            -- assert (snd (snd x) = s) as ES by (eapply fd_inj; eauto; apply (ic_distinct _ _ IC)). destruct x as [f [wr' s']]. cbn [fst snd] in *. subst s'. apply NN in I0 as F0. cbn [fst] in F0.
               destruct (Bool.eqb_spec wr' wr) as [->|]; [apply Z.eqb_neq in C0; rewrite C0; auto|]. apply (er_fib0 s b wr' f G F0) in I0. rewrite I0. apply Z.eqb_neq in F0. rewrite F0. auto.
            -- cbn [fst snd]. rewrite Bool.eqb_reflx. apply Z.eqb_neq in C0. rewrite C0. auto.
          * apply in_app_or in I0 as [I0|[<-|[]]]; [auto|]. cbn [snd] in E. congruence.
        + intros SY. apply L1. auto. }
    destruct (ok (fst o)) eqn:OO; [exact RR|]. rewrite (exhausted _ _ _ _ _ RS eq_refl OO) in *. cbn [fst]. rewrite Z.eqb_refl. rewrite plain_same. exact RR.
  - apply Z.eqb_neq in NE as NE1. rewrite NE1 in HA. cbn [negb] in HA. change (ok ERROR_PSOCK_EPOLL_CTL_FAILED) with false in HA. cbn [on_fst happly] in HA.
    cbn [user_set a_user fst set_k io_socks] in HA. rewrite G0 in HA. cbn [need on_fst happly] in HA. inversion HA; subst e; clear HA.
    apply resume_fails in RS as [-> ->]; [|auto]. cbn [fst]. change (ok ERROR_PSOCK_EPOLL_CTL_FAILED) with false. cbv iota. change (ERROR_PSOCK_EPOLL_CTL_FAILED =? ERROR_FIBER_SCHEDULER_EXHAUSTED) with false. cbv iota.
    rewrite plain_same, Z.eqb_refl.
    assert (SY : sys = true). { destruct sys; auto. exfalso. apply NE. apply L1. apply (er_ctl _ _ _ PR). auto. }
    assert (m = []) as -> by (apply (app_inv_head (a_made a)); rewrite <- MM, app_nil_r; subst a1; reflexivity).
    subst sys. cbn [made_is andb judge goes]. subst a1.
    apply (keep_rel _ _ _ _ _ a _ c _ l _ R); cbn [user_set a_cur a_discs a_al a_user a_made fst a0]; auto.
    + apply (il_cur _ _ _ _ _ _ R).
    + unfold set_sock, set_k. cbn [io_socks io_k]. rewrite hset_hset, ws_set_undo, hset_id by auto. rewrite <- (world_eta l).
      apply (common_round _ (fst (a_user a))); auto; [apply (ic_wf _ _ IC)|intros x; auto|apply (ic_wait _ _ IC)].
    + unfold set_sock, set_k. cbn [io_socks io_k]. rewrite hset_hset, ws_set_undo, hset_id by auto. destruct PR. constructor; cbn [io_k]; auto.
      * intros t i. rewrite K1. apply er_ptr0.
      * intros x t. rewrite K1. apply er_on0.
      * intros E. apply L1. auto.
Qed.
