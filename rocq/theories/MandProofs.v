From Verif Require Import Base Status MemModel MemProofs Heap ThreadModel ThreadSpec ThreadProofs MandModel MandSpec.

(** ** Threads *)
Definition pdspec (c : conf) (m : mpc) (wk : Z -> option wpc) (t : Z) (o : option pend) : Prop :=
  if t =? 1 then
    match m with
    | MStart | MEnd _ => o = None
    | MLock => o = Some (PdLock (f_mu c))
    | MFrame _ => o = Some (PdWait (f_mc c) (f_mu c)) \/ o = Some (PdBack (f_mu c))
    | MClean _ => False
    end
  else match wk t with
  | None | Some WBegin | Some (WDraw _ _) => o = None
  | Some WLock | Some (WSave _ _) => o = Some (PdLock (f_mu c))
  | Some WWait => o = Some (PdWait (f_wc c) (f_mu c)) \/ o = Some (PdBack (f_mu c))
  | Some (WEnd _) => False
  end.
Definition pcspec (w : tw) (t : Z) (o : option wpc) : Prop :=
  match o with
  | None => True
  | Some WBegin => exists p st, w_pc w t = Some (PcStart p) /\ own p t w = Some st
  | Some (WEnd _) => False
  | Some _ => exists p, w_pc w t = Some (PcFn p)
  end.
Record TI (c : conf) (w : tw) (m : mpc) (wk : Z -> option wpc) (x : option Z) (h : Z) : Prop := {
  T_wf : hwf (w_pend w);
  T_mu : w_mu w (f_mu c) = Some (Some h);
  T_wc : w_co w (f_wc c) = Some true;
  T_mc : w_co w (f_mc c) = Some true;
  T_ne : f_wc c <> f_mc c;
  T_pd : forall t, x <> Some t -> pdspec c m wk t (hget (w_pend w) t);
  T_run : forall t, x = Some t -> hget (w_pend w) t = None;
  T_main : w_pc w 1 = Some PcUser;
  T_wk1 : wk 1 = None;
  T_wk0 : wk 0 = None;
  T_pc : forall t, pcspec w t (wk t) }.

Lemma pd_wait : forall c m wk t d l, pdspec c m wk t (Some (PdWait d l)) -> l = f_mu c /\ (t = 1 /\ d = f_mc c \/ t <> 1 /\ d = f_wc c /\ wk t = Some WWait).
Proof.
  unfold pdspec. intros c m wk t d l H. destruct (Z.eqb_spec t 1) as [E|N].
  - destruct m; try discriminate; try contradiction. destruct H as [H|H]; inversion H; auto.
  - destruct (wk t) as [[]|]; try discriminate; try contradiction. destruct H as [H|H]; inversion H; auto 6.
Qed.
Lemma user_main : forall c w m wk x h, TI c w m wk x h -> hget (w_pend w) 1 = None -> in_user 1 w = true.
Proof. intros c w m wk x h T H. unfold in_user. rewrite (T_main _ _ _ _ _ _ T), H. auto. Qed.
Definition infn (o : option wpc) : Prop := match o with Some WBegin | Some (WEnd _) | None => False | _ => True end.
Lemma user_worker : forall c w m wk x h t, TI c w m wk x h -> infn (wk t) -> hget (w_pend w) t = None -> in_user t w = true.
Proof.
  intros c w m wk x h t T I H. pose proof (T_pc _ _ _ _ _ _ T t) as P. unfold in_user. rewrite H. destruct (wk t) as [[]|]; cbn in *; try contradiction; destruct P as [p P]; rewrite P; auto.
Qed.
Lemma infn_t : forall c w m wk x h t, TI c w m wk x h -> infn (wk t) -> t <> 1 /\ t <> 0.
Proof. intros c w m wk x h t T I. split; intros ->; [rewrite (T_wk1 _ _ _ _ _ _ T) in I|rewrite (T_wk0 _ _ _ _ _ _ T) in I]; destruct I. Qed.
Lemma pcspec_ext : forall w w' t o, w_pc w' t = w_pc w t -> w_th w' = w_th w -> pcspec w t o -> pcspec w' t o.
Proof. intros w w' t o E F H. unfold pcspec, own in *. rewrite E, F. auto. Qed.
Lemma pdspec_upd : forall c m wk t u v o, u <> t -> pdspec c m wk u o -> pdspec c m (upd wk t v) u o.
Proof. intros c m wk t u v o N H. unfold pdspec in *. rewrite upd_get. rewrite (proj2 (Z.eqb_neq u t) N). auto. Qed.
Lemma pcspec_upd : forall w (wk : Z -> option wpc) t v, (forall u, pcspec w u (wk u)) -> pcspec w t v -> forall u, pcspec w u (upd wk t v u).
Proof. intros w wk t v H K u. rewrite upd_get. destruct (Z.eqb_spec u t) as [->|N]; auto. Qed.

(** The lock that a thread waited for, in a lock or after a wait. *)
Lemma t_got : forall c w m wk t pd w', TI c w m wk None 0 -> hget (w_pend w) t = Some pd -> t <> 0 -> w' = set_pend (hdel (w_pend w) t) (set_mu (upd (w_mu w) (f_mu c) (Some (Some t))) w) ->
  TI c w' m wk (Some t) t /\ forall u, u <> t -> hget (w_pend w') u = hget (w_pend w) u.
Proof.
  intros c w m wk t pd w' [W M C1 C2 NE P R MA K1 K0 PC] H N0 ->. assert (O : forall u, u <> t -> hget (hdel (w_pend w) t) u = hget (w_pend w) u) by (intros; apply hget_hdel_other; auto).
  split; [|exact O]. constructor; cbn [set_pend set_mu w_th w_pc w_pend w_mu w_co]; auto.
  - apply hdel_wf; auto.
  - rewrite upd_get, Z.eqb_refl. auto.
  - intros u U. rewrite O by congruence. apply P. discriminate.
  - intros u [= <-]. apply hget_hdel_same; auto.
Qed.
Lemma t_locked : forall c w m wk t, TI c w m wk None 0 -> hget (w_pend w) t = Some (PdLock (f_mu c)) -> t <> 0 ->
  exists w', tstep w (MuLocked t 0) = Go w' (Ret STATUS_SUCCESS (Some (f_mu c))) /\ TI c w' m wk (Some t) t /\ forall u, u <> t -> hget (w_pend w') u = hget (w_pend w) u.
Proof.
  intros c w m wk t T H N. cbn [tstep]. rewrite H, (T_mu _ _ _ _ _ _ T). cbn [Z.eqb negb]. eexists. split; [reflexivity|]. eapply t_got; eauto.
Qed.
Lemma t_back : forall c w m wk t, TI c w m wk None 0 -> hget (w_pend w) t = Some (PdBack (f_mu c)) -> t <> 0 ->
  exists w', tstep w (CoBack t) = Go w' (Ret STATUS_SUCCESS (Some (f_mu c))) /\ TI c w' m wk (Some t) t /\ forall u, u <> t -> hget (w_pend w') u = hget (w_pend w) u.
Proof.
  intros c w m wk t T H N. cbn [tstep]. rewrite H, (T_mu _ _ _ _ _ _ T). cbn [Z.eqb negb]. eexists. split; [reflexivity|]. eapply t_got; eauto.
Qed.
Lemma waits_mu : forall c w m wk x h d, TI c w m wk x h -> existsb (fun y => waits d y && negb (uses (f_mu c) y)) (w_pend w) = false.
Proof.
  intros c w m wk x h d T. destruct (existsb _ _) eqn:E; [|auto]. exfalso. apply existsb_exists in E as ([t pd] & I & H). apply andb_prop in H as [H1 H2].
  unfold waits in H1. cbn [snd] in H1. destruct pd as [|d' l| |]; try discriminate. apply (in_hget _ _ _ _ (proj1 (T_wf _ _ _ _ _ _ T))) in I.
  assert (X : x <> Some t) by (intros ->; rewrite (T_run _ _ _ _ _ _ T t eq_refl) in I; discriminate).
  pose proof (T_pd _ _ _ _ _ _ T t X) as P. rewrite I in P. apply pd_wait in P as [-> _]. unfold uses in H2. cbn [snd] in H2. rewrite Z.eqb_refl in H2. discriminate.
Qed.
(** A wait that begins. *)
Lemma t_waits : forall c w m wk t d w' m' wk', TI c w m wk (Some t) t -> t <> 0 -> w' = set_pend ((t, PdWait d (f_mu c)) :: w_pend w) (set_mu (upd (w_mu w) (f_mu c) (Some (Some 0))) w) ->
  (forall u o, u <> t -> pdspec c m wk u o -> pdspec c m' wk' u o) -> pdspec c m' wk' t (Some (PdWait d (f_mu c))) -> wk' 1 = None -> wk' 0 = None -> (forall u, pcspec w u (wk' u)) ->
  TI c w' m' wk' None 0 /\ hget (w_pend w') t = Some (PdWait d (f_mu c)) /\ forall u, u <> t -> hget (w_pend w') u = hget (w_pend w) u.
Proof.
  intros c w m wk t d w' m' wk' [W M C1 C2 NE P R MA K1 K0 PC] N0 -> PO PT Q1 Q0 QC. set (h' := (t, PdWait d (f_mu c)) :: w_pend w).
  assert (O : forall u, u <> t -> hget h' u = hget (w_pend w) u) by (intros; apply hget_hadd_other; auto).
  assert (Sm : hget h' t = Some (PdWait d (f_mu c))) by apply hget_hadd_same.
  split; [|split; [exact Sm|exact O]]. constructor; cbn [set_pend set_mu w_th w_pc w_pend w_mu w_co]; auto.
  - apply hadd_wf; auto.
  - rewrite upd_get, Z.eqb_refl. auto.
  - intros u _. fold h'. destruct (Z.eq_dec u t) as [->|NU]; [rewrite Sm; auto|]. rewrite O by auto. apply PO; auto. apply P. congruence.
  - discriminate.
Qed.
Lemma t_wait : forall c w m wk t, TI c w m wk (Some t) t -> infn (wk t) ->
  exists w', tstep w (CoWait t (f_mu c) (f_wc c) 0) = Go w' Quiet /\ TI c w' m (upd wk t (Some WWait)) None 0 /\ hget (w_pend w') t = Some (PdWait (f_wc c) (f_mu c)) /\
    forall u, u <> t -> hget (w_pend w') u = hget (w_pend w) u.
Proof.
  intros c w m wk t T I. destruct (infn_t _ _ _ _ _ _ _ T I) as [N1 N0]. pose proof (T_run _ _ _ _ _ _ T t eq_refl) as H. cbn [tstep]. unfold call. rewrite (user_worker _ _ _ _ _ _ _ T I H), (T_mu _ _ _ _ _ _ T), (T_wc _ _ _ _ _ _ T), Z.eqb_refl, (waits_mu _ _ _ _ _ _ _ T). cbn [negb orb Z.eqb].
  eexists. split; [reflexivity|]. eapply t_waits; eauto.
  - intros u o U. apply pdspec_upd; auto.
  - unfold pdspec. rewrite (proj2 (Z.eqb_neq t 1) N1), upd_get, Z.eqb_refl. auto.
  - rewrite upd_get, (proj2 (Z.eqb_neq 1 t)) by auto. apply T.
  - rewrite upd_get, (proj2 (Z.eqb_neq 0 t)) by auto. apply T.
  - apply pcspec_upd; [apply T|]. pose proof (T_pc _ _ _ _ _ _ T t) as P. destruct (wk t) as [[]|]; cbn in *; auto; contradiction.
Qed.
Lemma t_mwait : forall c w m wk i, TI c w m wk (Some 1) 1 ->
  exists w', tstep w (CoWait 1 (f_mu c) (f_mc c) 0) = Go w' Quiet /\ TI c w' (MFrame i) wk None 0 /\ hget (w_pend w') 1 = Some (PdWait (f_mc c) (f_mu c)) /\
    forall u, u <> 1 -> hget (w_pend w') u = hget (w_pend w) u.
Proof.
  intros c w m wk i T. pose proof (T_run _ _ _ _ _ _ T 1 eq_refl) as H. cbn [tstep]. unfold call. rewrite (user_main _ _ _ _ _ _ T H), (T_mu _ _ _ _ _ _ T), (T_mc _ _ _ _ _ _ T), Z.eqb_refl, (waits_mu _ _ _ _ _ _ _ T). cbn [negb orb Z.eqb].
  eexists. split; [reflexivity|]. eapply t_waits; [exact T|discriminate|reflexivity|..]; try apply T.
  - intros u o U Q. unfold pdspec in *. rewrite (proj2 (Z.eqb_neq u 1) U) in *. auto.
  - left. reflexivity.
Qed.
(** The lock is released to draw a line. *)
Lemma t_unlock : forall c w m wk t l b, TI c w m wk (Some t) t -> infn (wk t) ->
  exists w', tstep w (LkRelease t (f_mu c) 0) = Go w' (Ret STATUS_SUCCESS None) /\ TI c w' m (upd wk t (Some (WDraw l b))) None 0 /\ w_pend w' = w_pend w.
Proof.
  intros c w m wk t l b T I. destruct (infn_t _ _ _ _ _ _ _ T I) as [N1 N0]. pose proof (T_run _ _ _ _ _ _ T t eq_refl) as H. cbn [tstep]. unfold call. rewrite (user_worker _ _ _ _ _ _ _ T I H), (T_mu _ _ _ _ _ _ T), (Z.eqb_refl t). cbn [negb Z.eqb].
  eexists. split; [reflexivity|]. split; [|reflexivity]. destruct T as [W M C1 C2 NE P R MA K1 K0 PC]. constructor; cbn [set_pend set_mu w_th w_pc w_pend w_mu w_co]; auto.
  - rewrite upd_get, Z.eqb_refl. auto.
  - intros u _. destruct (Z.eq_dec u t) as [->|NU].
    + rewrite H. unfold pdspec. rewrite (proj2 (Z.eqb_neq t 1) N1), upd_get, Z.eqb_refl. auto.
    + apply pdspec_upd; auto. apply P. congruence.
  - discriminate.
  - rewrite upd_get, (proj2 (Z.eqb_neq 1 t)) by auto. auto.
  - rewrite upd_get, (proj2 (Z.eqb_neq 0 t)) by auto. auto.
  - apply pcspec_upd; [exact PC|]. specialize (PC t). destruct (wk t) as [[]|]; cbn in *; auto; contradiction.
Qed.
(** Waking threads up *)
Lemma t_woken : forall c w m wk x h (f : Z * pend -> Z * pend), TI c w m wk x h -> (forall y, f y = y \/ f y = awake y) ->
  TI c (set_pend (map f (w_pend w)) w) m wk x h.
Proof.
  intros c w m wk x h f [W M C1 C2 NE P R MA K1 K0 PC] F. assert (Ff : forall y, fst (f y) = fst y) by (intros y; destruct (F y) as [->| ->]; auto; apply awake_fst).
  constructor; cbn [set_pend w_th w_pc w_pend w_mu w_co]; auto.
  - unfold hwf. rewrite addrs_map by auto. exact W.
  - intros t X. specialize (P t X). rewrite hget_map by auto. destruct (hget (w_pend w) t) as [pd|]; [|exact P]. cbn [option_map]. destruct (F (t, pd)) as [->| ->]; [exact P|]. unfold awake. destruct pd as [|d l| |]; cbn [snd]; auto.
    destruct (pd_wait _ _ _ _ _ _ P) as [-> _]. unfold pdspec in *. destruct (t =? 1).
    + destruct m; try discriminate; try contradiction. auto.
    + destruct (wk t) as [[]|]; try discriminate; try contradiction. auto.
  - intros t X. rewrite hget_map by auto. rewrite (R t X). auto.
Qed.
Lemma t_signal : forall c w i wk t woken, TI c w (MFrame i) wk (Some t) t -> infn (wk t) -> hget (w_pend w) 1 = Some (PdWait (f_mc c) (f_mu c)) ->
  tstep w (CoSignal t (f_mu c) (f_mc c) 0 woken) <> Undef /\ (woken = [1] -> tstep w (CoSignal t (f_mu c) (f_mc c) 0 woken) <> Stuck) /\
  forall w' o, tstep w (CoSignal t (f_mu c) (f_mc c) 0 woken) = Go w' o ->
    o = Ret STATUS_SUCCESS None /\ TI c w' (MFrame i) wk (Some t) t /\ hget (w_pend w') 1 = Some (PdBack (f_mu c)) /\ forall u, u <> 1 -> hget (w_pend w') u = hget (w_pend w) u.
Proof.
  intros c w i wk t woken T I H1. destruct (infn_t _ _ _ _ _ _ _ T I) as [N1 N0]. pose proof (T_run _ _ _ _ _ _ T t eq_refl) as H. cbn [tstep]. unfold call. rewrite (user_worker _ _ _ _ _ _ _ T I H), (T_mc _ _ _ _ _ _ T). cbn [negb Z.eqb].
  assert (EX : existsb (waits (f_mc c)) (w_pend w) = true) by (apply existsb_exists; exists (1, PdWait (f_mc c) (f_mu c)); split; [apply hget_some_in; auto|unfold waits; cbn; apply Z.eqb_refl]).
  rewrite EX. cbn [negb orb]. set (b := forallb _ woken && _). split; [destruct b; discriminate|]. split.
  { intros ->. unfold b. cbn [forallb length Nat.eqb negb]. rewrite H1. unfold waits. cbn [snd]. rewrite Z.eqb_refl. discriminate. }
  destruct b eqn:B; [|discriminate]. intros w' o [= <- <-]. unfold b in B. apply andb_prop in B as [B1 B2]. rewrite forallb_forall in B1.
  assert (ONE : forall u, In u woken -> u = 1).
  { intros u U. specialize (B1 u U). cbv beta in B1. destruct (hget (w_pend w) u) as [pd|] eqn:G; [|discriminate]. unfold waits in B1. cbn [snd] in B1. destruct pd as [|d l| |]; try discriminate. apply Z.eqb_eq in B1. subst d.
    assert (X : Some t <> Some u) by (intros K; inversion K; subst; congruence). pose proof (T_pd _ _ _ _ _ _ T u X) as P. rewrite G in P. apply pd_wait in P as [_ [[K _]|(_ & K & _)]]; [auto|]. destruct (T_ne _ _ _ _ _ _ T). auto. }
  assert (IN : In 1 woken) by (destruct woken as [|u woken]; [discriminate|left; apply ONE; left; auto]).
  set (f := fun x => if existsb (Z.eqb (fst x)) woken then awake x else x).
  assert (F : forall y, f y = y \/ f y = awake y) by (intros y; unfold f; destruct (existsb (Z.eqb (fst y)) woken); auto).
  assert (Ff : forall y, fst (f y) = fst y) by (intros y; destruct (F y) as [->| ->]; auto; apply awake_fst).
  split; [auto|]. split; [apply t_woken; auto|]. cbn [set_pend w_pend]. split.
  - rewrite hget_map by auto. rewrite H1. unfold f. cbn [option_map fst]. replace (existsb (Z.eqb 1) woken) with true by (symmetry; apply existsb_exists; exists 1; auto). reflexivity.
  - intros u U. rewrite hget_map by auto. destruct (hget (w_pend w) u) as [pd|]; [|auto]. unfold f. cbn [option_map fst]. destruct (existsb (Z.eqb u) woken) eqn:E; [|auto]. apply existsb_exists in E as (v & V & E). apply Z.eqb_eq in E. subst v. destruct U. auto.
Qed.
Definition woke (c : conf) (o : option pend) : option pend := match o with Some (PdWait d m) => if d =? f_wc c then Some (PdBack m) else o | _ => o end.
Lemma t_signal_all : forall c w m wk, TI c w m wk (Some 1) 1 ->
  exists w', tstep w (CoSignalAll 1 (f_mu c) (f_wc c) 0) = Go w' (Ret STATUS_SUCCESS None) /\ TI c w' m wk (Some 1) 1 /\ forall u, hget (w_pend w') u = woke c (hget (w_pend w) u).
Proof.
  intros c w m wk T. pose proof (T_run _ _ _ _ _ _ T 1 eq_refl) as H. cbn [tstep]. unfold call. rewrite (user_main _ _ _ _ _ _ T H), (T_wc _ _ _ _ _ _ T). cbn [negb Z.eqb]. eexists. split; [reflexivity|].
  set (f := fun x => if waits (f_wc c) x then awake x else x). assert (F : forall y, f y = y \/ f y = awake y) by (intros y; unfold f; destruct (waits _ y); auto).
  assert (Ff : forall y, fst (f y) = fst y) by (intros y; destruct (F y) as [->| ->]; auto; apply awake_fst).
  split; [apply t_woken; auto|]. intros u. cbn [set_pend w_pend]. rewrite hget_map by auto. destruct (hget (w_pend w) u) as [pd|]; [|auto]. cbn [option_map]. unfold f, waits. cbn [snd]. destruct pd as [|d l| |]; cbn [snd woke]; auto. destruct (d =? f_wc c); auto.
Qed.
(** A lock that begins. *)
Lemma t_acquires : forall c w m wk x h t m' wk', TI c w m wk x h -> x <> Some t -> t <> 0 -> hget (w_pend w) t = None ->
  (forall u o, u <> t -> pdspec c m wk u o -> pdspec c m' wk' u o) -> pdspec c m' wk' t (Some (PdLock (f_mu c))) -> wk' 1 = None -> wk' 0 = None -> (forall u, pcspec w u (wk' u)) ->
  let w' := set_pend ((t, PdLock (f_mu c)) :: w_pend w) w in
  TI c w' m' wk' x h /\ forall u, u <> t -> hget (w_pend w') u = hget (w_pend w) u.
Proof.
  intros c w m wk x h t m' wk' [W M C1 C2 NE P R MA K1 K0 PC] X N0 H PO PT Q1 Q0 QC. cbv zeta. set (h' := (t, PdLock (f_mu c)) :: w_pend w).
  assert (O : forall u, u <> t -> hget h' u = hget (w_pend w) u) by (intros; apply hget_hadd_other; auto).
  assert (Sm : hget h' t = Some (PdLock (f_mu c))) by apply hget_hadd_same.
  split; [|exact O]. constructor; cbn [set_pend w_th w_pc w_pend w_mu w_co]; auto.
  - apply hadd_wf; auto.
  - intros u U. destruct (Z.eq_dec u t) as [->|NU]; [rewrite Sm; auto|]. rewrite O by auto. apply PO; auto.
  - intros u ->. rewrite O by congruence. auto.
Qed.
Lemma t_mbegin : forall c w wk, TI c w MStart wk None 0 ->
  exists w', tstep w (MuAcquire 1 (f_mu c)) = Go w' Quiet /\ TI c w' MLock wk None 0 /\ forall u, u <> 1 -> hget (w_pend w') u = hget (w_pend w) u.
Proof.
  intros c w wk T. assert (X : None <> Some 1) by discriminate. pose proof (T_pd _ _ _ _ _ _ T 1 X) as H. change (hget (w_pend w) 1 = None) in H. cbn [tstep]. unfold call. rewrite (user_main _ _ _ _ _ _ T H), (T_mu _ _ _ _ _ _ T). eexists. split; [reflexivity|].
  eapply t_acquires; eauto; try apply T; try discriminate.
  - intros u o U Q. unfold pdspec in *. rewrite (proj2 (Z.eqb_neq u 1) U) in *. auto.
  - reflexivity.
Qed.
Lemma t_begin : forall c w m wk x h t, TI c w m wk x h -> x <> Some t -> wk t = Some WBegin ->
  exists w1 o w', tstep w (ThEnter t) = Go w1 o /\ tstep w1 (MuAcquire t (f_mu c)) = Go w' Quiet /\ TI c w' m (upd wk t (Some WLock)) x h /\ forall u, u <> t -> hget (w_pend w') u = hget (w_pend w) u.
Proof.
  intros c w m wk x h t T X B. assert (N1 : t <> 1) by (intros ->; rewrite (T_wk1 _ _ _ _ _ _ T) in B; discriminate). assert (N0 : t <> 0) by (intros ->; rewrite (T_wk0 _ _ _ _ _ _ T) in B; discriminate).
  pose proof (T_pd _ _ _ _ _ _ T t X) as H. unfold pdspec in H. rewrite (proj2 (Z.eqb_neq t 1) N1), B in H. pose proof (T_pc _ _ _ _ _ _ T t) as P. rewrite B in P. destruct P as (p & st & P1 & P2).
  cbn [tstep]. rewrite P1, P2. do 2 eexists.
  set (w1 := set_pc (upd (w_pc w) t (Some (PcFn p))) w).
  assert (T1 : TI c w1 m (upd wk t (Some (WDraw 0 true))) x h).
  { destruct T as [W M C1 C2 NE P R MA K1 K0 PC]. constructor; cbn [w1 set_pc w_th w_pc w_pend w_mu w_co]; auto.
    - intros u U. destruct (Z.eq_dec u t) as [->|NU]; [|apply pdspec_upd; auto]. rewrite H. unfold pdspec. rewrite (proj2 (Z.eqb_neq t 1) N1), upd_get, Z.eqb_refl. auto.
    - rewrite upd_get, (proj2 (Z.eqb_neq 1 t)) by auto. auto.
    - rewrite upd_get, (proj2 (Z.eqb_neq 1 t)) by auto. auto.
    - rewrite upd_get, (proj2 (Z.eqb_neq 0 t)) by auto. auto.
    - intros u. rewrite upd_get. destruct (Z.eqb_spec u t) as [->|NU].
      + cbn. exists p. rewrite upd_get, Z.eqb_refl. auto.
      + eapply pcspec_ext; [| |apply PC]; cbn; auto. rewrite upd_get, (proj2 (Z.eqb_neq u t) NU). auto. }
  eexists. split; [reflexivity|]. fold w1. assert (H' : hget (w_pend w1) t = None) by exact H. unfold call.
  assert (I : infn (upd wk t (Some (WDraw 0 true)) t)) by (rewrite upd_get, Z.eqb_refl; exact Logic.I). rewrite (user_worker _ _ _ _ _ _ _ T1 I H'), (T_mu _ _ _ _ _ _ T1). split; [reflexivity|].
  destruct (t_acquires c w1 m _ x h t m (upd wk t (Some WLock)) T1 X N0 H') as [Q1 Q2]; [..|split; [exact Q1|exact Q2]].
  - intros u o U Q. unfold pdspec in *. rewrite upd_get in *. rewrite (proj2 (Z.eqb_neq u t) U) in *. auto.
  - unfold pdspec. rewrite (proj2 (Z.eqb_neq t 1) N1), upd_get, Z.eqb_refl. auto.
  - rewrite upd_get, (proj2 (Z.eqb_neq 1 t)) by auto. apply T.
  - rewrite upd_get, (proj2 (Z.eqb_neq 0 t)) by auto. apply T.
  - intros u. pose proof (T_pc _ _ _ _ _ _ T1 u) as P. rewrite upd_get in *. destruct (u =? t); auto.
Qed.
Lemma t_draw : forall c w m wk x h t l b f, TI c w m wk x h -> x <> Some t -> wk t = Some (WDraw l b) ->
  exists w', tstep w (MuAcquire t (f_mu c)) = Go w' Quiet /\ TI c w' m (upd wk t (Some (WSave l f))) x h /\ forall u, u <> t -> hget (w_pend w') u = hget (w_pend w) u.
Proof.
  intros c w m wk x h t l b f T X B. assert (I : infn (wk t)) by (rewrite B; exact Logic.I). destruct (infn_t _ _ _ _ _ _ _ T I) as [N1 N0].
  pose proof (T_pd _ _ _ _ _ _ T t X) as H. unfold pdspec in H. rewrite (proj2 (Z.eqb_neq t 1) N1), B in H. cbn [tstep]. unfold call. rewrite (user_worker _ _ _ _ _ _ _ T I H), (T_mu _ _ _ _ _ _ T). eexists. split; [reflexivity|].
  eapply t_acquires; [exact T|auto|auto|auto|..].
  - intros u o U. apply pdspec_upd. auto.
  - unfold pdspec. rewrite (proj2 (Z.eqb_neq t 1) N1), upd_get, Z.eqb_refl. auto.
  - rewrite upd_get, (proj2 (Z.eqb_neq 1 t)) by auto. apply T.
  - rewrite upd_get, (proj2 (Z.eqb_neq 0 t)) by auto. apply T.
  - apply pcspec_upd; [apply T|]. pose proof (T_pc _ _ _ _ _ _ T t) as P. rewrite B in P. exact P.
Qed.
Lemma t_wake : forall c w m wk x h t d l, TI c w m wk x h -> hget (w_pend w) t = Some (PdWait d l) ->
  exists w', tstep w (CoWake t) = Go w' Quiet /\ TI c w' m wk x h /\ hget (w_pend w') t = Some (PdBack (f_mu c)) /\ forall u, u <> t -> hget (w_pend w') u = hget (w_pend w) u.
Proof.
  intros c w m wk x h t d l T H. cbn [tstep]. rewrite H. eexists. split; [reflexivity|].
  assert (X : x <> Some t) by (intros ->; rewrite (T_run _ _ _ _ _ _ T t eq_refl) in H; discriminate). pose proof (T_pd _ _ _ _ _ _ T t X) as P. rewrite H in P. destruct (pd_wait _ _ _ _ _ _ P) as [-> _].
  assert (Sm : hget (hset (w_pend w) t (PdBack (f_mu c))) t = Some (PdBack (f_mu c))) by (eapply hget_hset_same; eauto).
  assert (O : forall u, u <> t -> hget (hset (w_pend w) t (PdBack (f_mu c))) u = hget (w_pend w) u) by (intros; apply hget_hset_other; auto).
  split; [|split; [exact Sm|exact O]]. destruct T as [W M C1 C2 NE P' R MA K1 K0 PC]. constructor; cbn [set_pend w_th w_pc w_pend w_mu w_co]; auto.
  - apply hset_wf; auto.
  - intros u U. destruct (Z.eq_dec u t) as [->|NU]; [|rewrite O by auto; auto]. rewrite Sm. unfold pdspec in *. destruct (t =? 1).
    + destruct m; try discriminate; try contradiction. auto.
    + destruct (wk t) as [[]|]; try discriminate; try contradiction. auto.
  - intros u U. rewrite O; auto. congruence.
Qed.
