(** Proofs for C57. *)
From Verif Require Import Base Status MemModel MemProofs Heap FdModel SockModel SockSpec.
From Coq Require Import Permutation.

Definition fits_in (w : world) (all : list (Z * Z)) (st : list Z) : Prop :=
  NoDup (map fst all) /\ (forall fd obj, w_t w fd = Some obj <-> In (fd, obj) all) /\
  NoDup st /\ (forall p, (exists s, hget (w_h w) p = Some s /\ s <> SDead) <-> In p st).
Lemma matches_fits : forall w v, matches w v <-> fits_in w (mine v ++ flat_map fds (socks v)) (flat_map structs (socks v)).
Proof. intros. reflexivity. Qed.
Lemma fits_perm : forall w all st all' st', fits_in w all st -> Permutation all all' -> Permutation st st' -> fits_in w all' st'.
Proof.
  intros w all st all' st' (N1 & E1 & N2 & E2) P1 P2. split; [eapply Permutation_NoDup; [apply Permutation_map; exact P1|auto]|]. split; [intros fd obj; rewrite E1; split; apply Permutation_in; auto; apply Permutation_sym; auto|].
  split; [eapply Permutation_NoDup; [exact P2|auto]|]. intros p. rewrite E2. split; apply Permutation_in; auto; apply Permutation_sym; auto.
Qed.
Lemma fits_log : forall t h l l' all st, fits_in (W t h l) all st -> fits_in (W t h l') all st.
Proof. auto. Qed.
Lemma fits_open : forall t h l all st fd obj, fits_in (W t h l) all st -> t fd = None -> fits_in (W (fd_put t fd (Some obj)) h l) ((fd, obj) :: all) st.
Proof.
  intros t h l all st fd obj (N1 & E1 & N2 & E2) F. cbn [w_t w_h] in *. assert (~ In fd (map fst all)).
  { intros K. apply in_map_iff in K. destruct K as ((fd', o) & E & K). cbn in E. subst fd'. apply E1 in K. congruence. }
  split; [cbn; constructor; auto|]. split; [|auto]. intros fd' o. cbn [w_t]. unfold fd_put. destruct (Z.eqb_spec fd' fd) as [->|NE].
  - split; [intros K; inversion K; left; auto|]. intros [K|K]; [inversion K; auto|]. exfalso. apply H. apply (in_map fst) in K. auto.
  - rewrite E1. split; [right; auto|]. intros [K|K]; [inversion K; congruence|auto].
Qed.
Lemma fits_close : forall t h l all st fd obj, fits_in (W t h l) ((fd, obj) :: all) st -> fits_in (W (fd_close t fd) h l) all st.
Proof.
  intros t h l all st fd obj (N1 & E1 & N2 & E2). cbn [w_t w_h map fst] in *. inversion N1; subst. split; [auto|]. split; [|auto]. intros fd' o. cbn [w_t]. unfold fd_close, fd_put. destruct (Z.eqb_spec fd' fd) as [->|NE].
  - split; [discriminate|]. intros K. exfalso. apply H1. apply (in_map fst) in K. auto.
  - rewrite E1. split; [intros [K|K]; [inversion K; congruence|auto]|right; auto].
Qed.
Lemma fits_make : forall t h l all st p s, fits_in (W t h l) all st -> hwf h -> ~ In p (addrs h) -> s <> SDead -> fits_in (W t (hadd h p s) l) all (p :: st).
Proof.
  intros t h l all st p s (N1 & E1 & N2 & E2) WF F D. cbn [w_t w_h] in *. assert (~ In p st) by (intros K; apply E2 in K; destruct K as (x & K & _); apply hget_in in K; auto).
  split; [auto|]. split; [auto|]. split; [constructor; auto|]. intros q. cbn [w_h hadd hget]. destruct (Z.eqb_spec q p) as [->|NE].
  - split; [left; auto|]. intros _. exists s. auto.
  - rewrite E2. split; [right; auto|]. intros [K|K]; [congruence|auto].
Qed.
Lemma fits_reclaim : forall t h l all st p a k, fits_in (W t h l) all (p :: st) -> hwf h -> fits_in (reclaimed a k p (W t h l)) all st /\ hwf (w_h (reclaimed a k p (W t h l))) /\ (forall q, q <> p -> hget (w_h (reclaimed a k p (W t h l))) q = hget h q).
Proof.
  intros t h l all st p a k (N1 & E1 & N2 & E2) WF. unfold reclaimed. cbn [w_t w_h w_log] in *. inversion N2; subst. destruct (proj2 (E2 p) (or_introl eq_refl)) as (s & G & _).
  destruct (ok (a_rc a k)).
  - assert (X : forall q, q <> p -> hget (hdel h p) q = hget h q) by (intros q Q; apply hget_hdel_other; auto). split; [|split; [apply hdel_wf; auto|auto]]. split; [auto|]. split; [auto|]. split; [auto|]. intros q. cbn [w_h]. destruct (Z.eq_dec q p) as [->|NE].
    + rewrite hget_hdel_same by auto. split; [intros (x & K & _); discriminate|intros K; contradiction].
    + rewrite X by auto. rewrite E2. split; [intros [K|K]; [congruence|auto]|right; auto].
  - assert (X : forall q, q <> p -> hget (hset h p SDead) q = hget h q) by (intros q Q; apply hget_hset_other; auto). split; [|split; [apply hset_wf; auto|auto]]. split; [auto|]. split; [auto|]. split; [auto|]. intros q. cbn [w_h]. destruct (Z.eq_dec q p) as [->|NE].
    + rewrite (hget_hset_same h p SDead s G). split; [intros (x & K & D); congruence|intros K; contradiction].
    + rewrite X by auto. rewrite E2. split; [intros [K|K]; [congruence|auto]|right; auto].
Qed.

Definition entry_ok (h : heap sock) (x : held) : Prop :=
  (exists p fd obj ty, x = Held [p] [(fd, obj)] /\ hget h p = Some (SDesc fd ty)) \/
  (exists p s, x = Held [p] [] /\ hget h p = Some s /\ match s with SUser _ _ | SBuf => True | _ => False end) \/
  (exists p c fd obj ty, x = Held [p; c] [(fd, obj)] /\ hget h p = Some (SWrap c ty) /\ hget h c = Some (SDesc fd ty)).
Lemma entry_frame : forall h h' x, entry_ok h x -> (forall q, In q (structs x) -> hget h' q = hget h q) -> entry_ok h' x.
Proof.
  intros h h' x [(p & fd & obj & ty & -> & G)|[(p & s & -> & G & M)|(p & c & fd & obj & ty & -> & G & G2)]] F; cbn [structs] in F.
  - left. exists p, fd, obj, ty. rewrite F by (left; auto). auto.
  - right. left. exists p, s. rewrite F by (left; auto). auto.
  - right. right. exists p, c, fd, obj, ty. rewrite !F by (cbn; auto). auto.
Qed.
Definition inv (w : world) (v : view) : Prop := hwf (w_h w) /\ matches w v /\ Forall (entry_ok (w_h w)) (socks v).

Lemma nodup_app_r : forall A (l1 l2 : list A), NoDup (l1 ++ l2) -> NoDup l2.
Proof. intros A l1 l2. induction l1; cbn; intros H; [auto|]. inversion H; auto. Qed.
Lemma nodup_app_l : forall A (l1 l2 : list A), NoDup (l1 ++ l2) -> NoDup l1.
Proof. intros A l1 l2 H. apply (nodup_app_r _ l2 l1). eapply Permutation_NoDup; [apply Permutation_app_comm|auto]. Qed.
Lemma holding_split : forall p v x, holding p v = Some x -> NoDup (flat_map structs (socks v)) ->
  exists l1 l2 t, socks v = l1 ++ x :: l2 /\ drop p (socks v) = l1 ++ l2 /\ structs x = p :: t.
Proof.
  intros p [m ss] x. unfold holding. cbn [socks]. induction ss as [|y ss IH]; cbn [find flat_map drop filter]; intros H N; [discriminate|]. destruct (is p y) eqn:I.
  - inversion H; subst y. unfold is in I. destruct (structs x) as [|q t] eqn:S; [discriminate|]. apply Z.eqb_eq in I. subst q. exists [], ss, t. split; [auto|]. split; [|auto]. cbn [negb app]. clear H IH. cbn [app] in N. inversion N as [|? ? NI N']; subst.
    assert (forall y, In y ss -> is p y = false).
    { intros y Y. destruct (is p y) eqn:I2; [|auto]. exfalso. apply NI. apply in_or_app. right. apply in_flat_map. exists y. split; [auto|]. unfold is in I2. destruct (structs y); [discriminate|]. apply Z.eqb_eq in I2. left. auto. }
    clear - H. induction ss; cbn; [auto|]. rewrite (H a) by (left; auto). cbn. rewrite IHss by (intros; apply H; right; auto). auto.
  - destruct IH as (l1 & l2 & t & E1 & E2 & E3); [auto|eapply nodup_app_r; eauto|]. exists (y :: l1), l2, t. cbn [negb app]. fold (drop p ss). rewrite E1 at 1. rewrite E2. auto.
Qed.
Lemma object_split : forall fd v d, object fd v = Some d -> NoDup (map fst (mine v)) -> exists l1 l2 obj, mine v = l1 ++ d :: l2 /\ dropfd fd (mine v) = l1 ++ l2 /\ d = (fd, obj).
Proof.
  intros fd [m ss] d. unfold object. cbn [mine]. induction m as [|y m IH]; cbn [find map dropfd filter]; intros H N; [discriminate|]. inversion N as [|? ? NI N']; subst. destruct (Z.eqb_spec (fst y) fd) as [E|NE].
  - inversion H; subst y. exists [], m, (snd d). destruct d as [f o]. cbn in E. subst f. split; [auto|]. split; [|auto]. cbn [negb app fst] in *. clear H IH N N'.
    induction m as [|[f2 o2] m IH]; cbn; [auto|]. destruct (Z.eqb_spec f2 fd); [exfalso; apply NI; left; auto|]. cbn. rewrite IH; [auto|]. intros K. apply NI. right. auto.
  - destruct IH as (l1 & l2 & obj & E1 & E2 & E3); auto. exists (y :: l1), l2, obj. cbn [negb app]. fold (dropfd fd m). rewrite E1 at 1. rewrite E2. auto.
Qed.

(** A new struct *)
Lemma made_ok : forall a s w all st, fits_in w all st -> hwf (w_h w) -> good_pick (a_pick a) -> s <> SDead ->
  exists e p w', made a s w = (e, p, w') /\ hwf (w_h w') /\ w_t w' = w_t w /\
    ((ok e = true /\ fits_in w' all (p :: st) /\ hget (w_h w') p = Some s /\ hget (w_h w) p = None /\ forall q, q <> p -> hget (w_h w') q = hget (w_h w) q) \/
     (ok e = false /\ w' = w)).
Proof.
  intros a s [t h l] all st F WF G D. unfold made. cbn [w_t w_h w_log] in *. destruct (ok (a_al a)) eqn:K; cbn [negb].
  - destruct (pick_fresh _ h G) as [NZ FR]. do 3 eexists. split; [reflexivity|]. cbn [w_h w_t]. split; [apply hadd_wf; auto|]. split; [auto|]. left. split; [reflexivity|]. split; [apply fits_make; auto; apply hget_none; auto|]. split; [apply hget_hadd_same|]. split; [auto|]. intros q Q. apply hget_hadd_other. auto.
  - do 3 eexists. split; [reflexivity|]. split; [auto|]. split; [auto|]. right. auto.
Qed.
(** A new socket with a new descriptor *)
Definition new_sock (a : ans) (w : world) all st (r : Z * Z * world) : Prop :=
  exists e p w', r = (e, p, w') /\ hwf (w_h w') /\
    ((ok e = true /\ fits_in w' ((a_fd a, a_obj a) :: all) (p :: st) /\ (exists ty, hget (w_h w') p = Some (SDesc (a_fd a) ty)) /\ hget (w_h w) p = None /\ forall q, q <> p -> hget (w_h w') q = hget (w_h w) q) \/
     (ok e = false /\ fits_in w' all st /\ w_h w' = w_h w)).
Lemma from_desc_ok : forall a w all st l, fits_in w all st -> hwf (w_h w) -> fair a w -> (0 <= a_fd a) ->
  new_sock a w all st (let '(e, p, w) := from_descriptor a (a_fd a) (W (w_t (opened a w)) (w_h w) l) in if negb (ok e) then (e, 0, closed (a_fd a) w) else (STATUS_SUCCESS, p, w)).
Proof.
  intros a [t h lg] all st l F WF (G & FD & _) NN. cbn [w_t w_h opened] in *. destruct FD as [FD|FD]; [lia|]. pose proof (fits_open _ _ _ _ _ _ (a_obj a) F FD) as F1. apply (fits_log _ _ _ l) in F1.
  destruct (made_ok a (SDesc (a_fd a) (socket_type (a_type a))) _ _ _ F1 WF G) as (e & p & w' & E & WF' & T & [(K & F2 & GP & GN & FRM)|(K & ->)]); [discriminate| |]; unfold from_descriptor; rewrite E; rewrite K; cbn [negb].
  - exists STATUS_SUCCESS, p, w'. split; [auto|]. split; [auto|]. left. cbn [w_h] in *. split; [auto|]. split; [auto|]. split; [eauto|]. auto.
  - do 3 eexists. split; [reflexivity|]. cbn [w_h] in *. split; [auto|]. right. split; [auto|]. split; [|auto]. unfold closed. cbn [w_t w_h w_log]. eapply fits_log, fits_close. exact F1.
Qed.
Ltac opened_fails F FD := do 3 eexists; split; [reflexivity|]; cbn [closed opened logged w_t w_h w_log]; split; [auto|]; right; split; [|split; [|auto]].
Lemma listen_ok : forall a name w all st, fits_in w all st -> hwf (w_h w) -> fair a w -> new_sock a w all st (from_listen_address a name w).
Proof.
  intros a name w all st F WF FR. unfold from_listen_address. destruct (Z.ltb_spec (a_fd a) 0) as [L|L].
  { destruct w as [t h l]. do 3 eexists. split; [reflexivity|]. cbn [logged w_h] in *. split; [auto|]. right. split; [auto|]. split; [eapply fits_log; eauto|auto]. }
  assert (CL : forall e lg, ok e = false -> new_sock a w all st (if a_close a <? 0 then ERROR_PSOCK_CREATE_FROM_ADDRESS_CLOSE else e, 0, W (fd_close (w_t (opened a w)) (a_fd a)) (w_h w) lg)).
  { intros e lg K. destruct FR as (G & FD & _). destruct FD as [FD|FD]; [lia|]. destruct w as [t h l]. cbn [w_t w_h opened] in *. do 3 eexists. split; [reflexivity|]. cbn [w_h]. split; [auto|]. right. split; [destruct (a_close a <? 0); auto|]. split; [|auto]. eapply fits_close. eapply fits_log. eapply fits_open; eauto. }
  destruct (a_bind a <? 0). { exact (CL ERROR_PSOCK_CREATE_FROM_ADDRESS_BIND _ eq_refl). }
  destruct (a_listen a <? 0). { exact (CL ERROR_PSOCK_CREATE_FROM_ADDRESS_LISTEN _ eq_refl). }
  pose proof (from_desc_ok a w all st (w_log (logged (CListen (a_fd a) 32) (logged (CBind (a_fd a) name) (opened a (logged (CSocket AF_INET SOCK_STREAM) w))))) F WF FR L) as X. cbn [logged opened w_t w_h w_log] in *.
  destruct (from_descriptor _ _ _) as [[e p] w'] eqn:E. destruct (ok e) eqn:K; cbn [negb] in *; [exact X|]. unfold from_descriptor, made in E. cbn [w_h w_t w_log] in E. destruct (ok (a_al a)) eqn:K2; cbn [negb] in E; inversion E; subst; [discriminate K|]. exact (CL (a_al a) _ K2).
Qed.
Lemma connect_ok : forall a port w all st, fits_in w all st -> hwf (w_h w) -> fair a w -> new_sock a w all st (from_hostname_and_port a port w).
Proof.
  intros a port w all st F WF FR. unfold from_hostname_and_port. cbv zeta.
  assert (X : forall family addr, new_sock a w all st (if a_fd a <? 0 then (ERROR_PSOCK_SOCKET_CREATE, 0, logged (CSocket family SOCK_STREAM) w) else if a_connect a <? 0 then (ERROR_PSOCK_CONNECTION_REFUSED, 0, closed (a_fd a) (logged (CConnect (a_fd a) family addr (port mod 2 ^ 16)) (opened a (logged (CSocket family SOCK_STREAM) w)))) else let '(e, p, w) := from_descriptor a (a_fd a) (logged (CConnect (a_fd a) family addr (port mod 2 ^ 16)) (opened a (logged (CSocket family SOCK_STREAM) w))) in if negb (ok e) then (e, 0, closed (a_fd a) w) else (STATUS_SUCCESS, p, w))).
  { intros family addr. destruct (Z.ltb_spec (a_fd a) 0) as [L|L].
    { destruct w as [t h l]. do 3 eexists. split; [reflexivity|]. cbn [logged w_h] in *. split; [auto|]. right. split; [auto|]. split; [eapply fits_log; eauto|auto]. }
    destruct (a_connect a <? 0).
    - destruct FR as (G & FD & _). destruct FD as [FD|FD]; [lia|]. destruct w as [t h l]. cbn [logged closed w_t w_h w_log opened] in *. do 3 eexists. split; [reflexivity|]. cbn [w_h]. split; [auto|]. right. split; [auto|]. split; [|auto]. eapply fits_close. eapply fits_log. eapply fits_open; eauto.
    - exact (from_desc_ok a w all st _ F WF FR L). }
  destruct (a_h4 a) as [ad|]; [apply X|]. destruct (a_h6 a) as [ad|]; [apply X|]. do 3 eexists. split; [reflexivity|]. split; [auto|]. right. auto.
Qed.

Lemma entries_frame : forall h h' l, Forall (entry_ok h) l -> (forall q, In q (flat_map structs l) -> hget h' q = hget h q) -> Forall (entry_ok h') l.
Proof.
  intros h h' l F. induction F; intros E; [constructor|]. cbn [flat_map] in E. constructor; [eapply entry_frame; [eauto|]; intros q Q; apply E; apply in_or_app; auto|]. apply IHF. intros q Q. apply E. apply in_or_app. auto.
Qed.
Lemma live_struct : forall w all st q, fits_in w all st -> In q st -> hget (w_h w) q <> None.
Proof. intros w all st q (_ & _ & _ & E) Q. apply E in Q. destruct Q as (s & G & _). congruence. Qed.
Lemma entries_new : forall w w' l p all, fits_in w all (flat_map structs l) -> Forall (entry_ok (w_h w)) l -> hget (w_h w) p = None -> (forall q, q <> p -> hget (w_h w') q = hget (w_h w) q) -> Forall (entry_ok (w_h w')) l.
Proof. intros w w' l p all F E N X. eapply entries_frame; [exact E|]. intros q Q. apply X. intros ->. apply (live_struct _ _ _ _ F Q). auto. Qed.

Definition steps_to (o : op) (a : ans) (w : world) (v : view) : Prop := exists e x w', exec o a w = Some ((e, x), w') /\ inv w' (after o a e x v).
Ltac mid := rewrite <- ?app_assoc; cbn [app]; first [apply Permutation_refl|apply Permutation_middle|apply Permutation_sym, Permutation_middle].
Lemma step_open : forall a w v, inv w v -> fair a w -> steps_to OOpen a w v.
Proof.
  intros a w v (WF & M & E) (G & FD & _). unfold steps_to. cbn [exec after]. destruct (Z.ltb_spec (a_fd a) 0) as [L|L].
  - do 3 eexists. split; [reflexivity|]. split; auto.
  - destruct FD as [FD|FD]; [lia|]. destruct w as [t h l]. do 3 eexists. split; [reflexivity|]. cbn [negb ok]. split; [auto|]. split; [|auto]. apply matches_fits. apply fits_open; auto.
Qed.
Lemma step_close : forall fd a w v, inv w v -> object fd v <> None -> steps_to (OClose fd) a w v.
Proof.
  intros fd a w v (WF & M & E) A. destruct (object fd v) as [d|] eqn:O; [|congruence]. pose proof M as (N1 & _). cbn zeta in N1. rewrite map_app in N1. apply nodup_app_l in N1. destruct (object_split _ _ _ O N1) as (l1 & l2 & obj & E1 & E2 & ->).
  unfold steps_to. do 3 eexists. split; [reflexivity|]. cbn [after]. split; [auto|]. split; [|auto]. apply matches_fits. cbn [mine socks]. rewrite E2. destruct w as [t h l]. eapply fits_close. eapply fits_perm; [apply matches_fits; exact M| |apply Permutation_refl]. rewrite E1. mid.
Qed.
Lemma step_new : forall o a w v, inv w v -> fair a w -> match o with OListen _ | OConnect _ => True | _ => False end -> steps_to o a w v.
Proof.
  intros o a w v (WF & M & E) FR C. assert (X : exists r, exec o a w = Some r /\ new_sock a w (mine v ++ flat_map fds (socks v)) (flat_map structs (socks v)) r).
  { destruct o; try contradiction; eexists; (split; [reflexivity|]); [apply listen_ok|apply connect_ok]; auto. }
  destruct X as (r & ER & e & p & w' & -> & WF' & [(K & F & (ty & GP) & GN & FRM)|(K & F & H)]); exists e, p, w'; (split; [exact ER|]).
  - assert (after o a e p v = View (mine v) (Held [p] [(a_fd a, a_obj a)] :: socks v)) as -> by (destruct o; try contradiction; cbn [after]; rewrite K; reflexivity).
    split; [auto|]. split.
    + apply matches_fits. cbn [mine socks flat_map fds structs app]. eapply fits_perm; [exact F|mid|apply Permutation_refl].
    + cbn [socks]. constructor; [left; exists p, (a_fd a), (a_obj a), ty; auto|]. eapply entries_new; [apply matches_fits; exact M|auto|exact GN|auto].
  - assert (after o a e p v = v) as -> by (destruct o; try contradiction; cbn [after]; rewrite K; reflexivity). split; [auto|]. split; [apply matches_fits; auto|]. rewrite H. auto.
Qed.
Lemma step_from : forall fd a w v, inv w v -> fair a w -> object fd v <> None -> steps_to (OFromDescriptor fd) a w v.
Proof.
  intros fd a w v (WF & M & E) FR A. destruct (object fd v) as [d|] eqn:O; [|congruence]. pose proof M as (N1 & _). cbn zeta in N1. rewrite map_app in N1. apply nodup_app_l in N1. destruct (object_split _ _ _ O N1) as (l1 & l2 & obj & E1 & E2 & ->).
  destruct (made_ok a (SDesc fd (socket_type (a_type a))) w _ _ (proj1 (matches_fits _ _) M) WF (proj1 FR)) as (e & p & w' & EX & WF' & T & [(K & F & GP & GN & FRM)|(K & ->)]); [discriminate| |]; unfold steps_to; exists e, p.
  - exists w'. split; [unfold exec, from_descriptor; rewrite EX; reflexivity|]. cbn [after]. rewrite K. cbn [negb]. rewrite O, E2. split; [auto|]. split.
    + apply matches_fits. cbn [mine socks flat_map fds structs app]. eapply fits_perm; [exact F| |apply Permutation_refl]. rewrite E1. rewrite <- !app_assoc. cbn [app]. apply Permutation_app_head. apply Permutation_middle.
    + cbn [socks]. constructor; [left; exists p, fd, obj, (socket_type (a_type a)); auto|]. eapply entries_new; [apply matches_fits; exact M|auto|exact GN|auto].
  - exists w. split; [unfold exec, from_descriptor; rewrite EX; reflexivity|]. cbn [after]. rewrite K. cbn [negb]. split; auto.
Qed.
Lemma step_plain : forall o a w v, inv w v -> fair a w -> match o with OUser _ _ | OBuffer => True | _ => False end -> steps_to o a w v.
Proof.
  intros o a w v (WF & M & E) FR C. assert (X : exists s, match s with SUser _ _ | SBuf => True | _ => False end /\ exec o a w = Some (made a s w)) by (destruct o; try contradiction; eexists; (split; [|reflexivity]); exact Logic.I).
  destruct X as (s & S & EX). destruct (made_ok a s w _ _ (proj1 (matches_fits _ _) M) WF (proj1 FR)) as (e & p & w' & EM & WF' & T & [(K & F & GP & GN & FRM)|(K & ->)]); [intros ->; contradiction| |]; rewrite EM in EX; exists e, p.
  - exists w'. split; [exact EX|]. assert (after o a e p v = View (mine v) (Held [p] [] :: socks v)) as -> by (destruct o; try contradiction; cbn [after]; rewrite K; reflexivity).
    split; [auto|]. split; [apply matches_fits; exact F|]. cbn [socks]. constructor; [right; left; exists p, s; auto|]. eapply entries_new; [apply matches_fits; exact M|auto|exact GN|auto].
  - exists w. split; [exact EX|]. assert (after o a e p v = v) as -> by (destruct o; try contradiction; cbn [after]; rewrite K; reflexivity). split; auto.
Qed.
Lemma entry_at : forall w v p, inv w v -> holding p v <> None -> exists x l1 l2 t, holding p v = Some x /\ socks v = l1 ++ x :: l2 /\ drop p (socks v) = l1 ++ l2 /\ structs x = p :: t /\ entry_ok (w_h w) x.
Proof.
  intros w v p (WF & M & E) A. destruct (holding p v) as [x|] eqn:H; [|congruence]. destruct (holding_split _ _ _ H) as (l1 & l2 & t & E1 & E2 & E3); [apply M|]. exists x, l1, l2, t. repeat (split; [auto|]). rewrite E1 in E. apply Forall_app in E. destruct E as [_ E]. inversion E; auto.
Qed.
Lemma step_wrap : forall p a w v, inv w v -> fair a w -> holding p v <> None -> steps_to (OWrap p) a w v.
Proof.
  intros p a w v IV FR A. destruct (entry_at _ _ _ IV A) as (x & l1 & l2 & t & H & E1 & E2 & E3 & EO). destruct IV as (WF & M & E). unfold steps_to. cbn [exec].
  assert (SAME : forall e q, ok e = false -> inv w (after (OWrap p) a e q v)) by (intros e q K; cbn [after]; rewrite K; split; auto).
  destruct EO as [(p' & fd & obj & ty & -> & GP)|[(p' & s & -> & GP & S)|(p' & c & fd & obj & ty & -> & GP & GC)]]; cbn [structs] in E3; inversion E3; subst p' t; unfold wrap_async; rewrite GP.
  2:{ destruct s; try contradiction; do 3 eexists; (split; [reflexivity|]); apply SAME; reflexivity. }
  2:{ do 3 eexists. split; [reflexivity|]. apply SAME. reflexivity. }
  destruct (ok (a_disc a)) eqn:KD; cbn [negb]; [|do 3 eexists; split; [reflexivity|]; apply SAME; auto].
  destruct (made_ok a (SWrap p ty) w _ _ (proj1 (matches_fits _ _) M) WF (proj1 FR)) as (e & q & w' & EX & WF' & T & [(K & F & GQ & GN & FRM)|(K & ->)]); [discriminate| |]; rewrite EX, K; cbn [negb].
  2:{ do 3 eexists. split; [reflexivity|]. apply SAME. auto. }
  destruct w' as [t' h' l']. cbn [w_h w_t logged] in *. destruct (ok (a_nb a)) eqn:KN; cbn [negb].
  - do 3 eexists. split; [reflexivity|]. cbn [after ok negb Z.eqb]. change (ok STATUS_SUCCESS) with true. cbn [negb]. rewrite H, E2. cbn [structs fds]. split; [auto|]. split.
    + apply matches_fits. cbn [mine socks flat_map fds structs]. eapply fits_log. eapply fits_perm; [exact F| |]; rewrite E1, !flat_map_app; cbn [flat_map fds structs app]; [apply Permutation_app_head, Permutation_sym, Permutation_middle|]. apply perm_skip, Permutation_sym, Permutation_middle.
    + cbn [socks w_h]. assert (NE : p <> q) by (intros ->; congruence). constructor; [right; right; exists q, p, fd, obj, ty; split; [auto|]; split; [auto|]; rewrite FRM; auto|].
      apply (entries_frame (w_h w)); [rewrite E1 in E; apply Forall_app in E; destruct E as [Ea Eb]; inversion Eb; apply Forall_app; split; auto|]. intros r R. apply FRM. intros ->. apply (live_struct _ _ _ q (proj1 (matches_fits _ _) M)); [|auto]. rewrite E1, flat_map_app in *. apply in_app_or in R. apply in_or_app. cbn [flat_map]. destruct R; [auto|right; apply in_or_app; auto].
  - destruct (fits_reclaim t' h' (CNonblock fd :: l') _ _ q a 0 F WF') as (F2 & WF2 & FR2). do 3 eexists. split; [reflexivity|].
    cbn [after]. replace (ok (if negb (ok (a_rc a 0)) then a_rc a 0%nat else a_nb a)) with false by (destruct (ok (a_rc a 0)) eqn:?; cbn; auto). cbn [negb]. split; [exact WF2|]. split; [apply matches_fits; exact F2|]. eapply entries_new; [apply matches_fits; exact M|auto|exact GN|]. intros r R. rewrite FR2 by auto. apply FRM. auto.
Qed.
Lemma hget_len : forall (h : heap sock) p s, hget h p = Some s -> exists n, length h = S n.
Proof. intros [|x h] p s G; [discriminate|]. cbn. eauto. Qed.
(** What a release does with the socket [x], given the rest *)
Lemma release_entry : forall w x a t p all st, entry_ok (w_h w) x -> structs x = p :: t -> hwf (w_h w) -> fits_in w (fds x ++ all) (structs x ++ st) ->
  exists e w', release (depth w) a 0 p w = Some (e, w') /\ hwf (w_h w') /\ fits_in w' all st /\ forall q, ~ In q (structs x) -> hget (w_h w') q = hget (w_h w) q.
Proof.
  intros [t0 h l] x a t p all st EO E3 WF F. unfold depth. cbn [w_h] in *. destruct EO as [(p' & fd & obj & ty & -> & GP)|[(p' & s & -> & GP & S)|(p' & c & fd & obj & ty & -> & GP & GC)]]; cbn [structs fds app] in *; inversion E3; subst p' t; cbn [release w_h]; rewrite GP.
  - apply fits_close in F. destruct (fits_reclaim _ _ (CClose fd :: l) _ _ p a 0 F WF) as (F2 & WF2 & FR2). do 2 eexists. split; [reflexivity|]. split; [exact WF2|]. split; [exact F2|]. intros q Q. apply FR2. intros ->. apply Q. left. auto.
  - destruct s; try contradiction.
    + destruct (vt_release vt =? 0); cbv iota beta zeta; match goal with |- context [reclaimed a 0 p ?w] => set (w1 := w) end; (assert (F1 : fits_in w1 all (p :: st)) by exact F); destruct (fits_reclaim _ _ (w_log w1) _ _ p a 0 F1 WF) as (F2 & WF2 & FR2); do 2 eexists; (split; [reflexivity|]); (split; [exact WF2|]); (split; [exact F2|]); intros q Q; apply FR2; intros ->; apply Q; left; auto.
    + destruct (fits_reclaim _ _ l _ _ p a 0 F WF) as (F2 & WF2 & FR2). do 2 eexists. split; [reflexivity|]. split; [exact WF2|]. split; [exact F2|]. intros q Q. apply FR2. intros ->. apply Q. left. auto.
  - destruct (hget_len _ _ _ GP) as (n & LN). rewrite LN. cbn [release w_h]. rewrite GC. apply fits_close in F. assert (NE : p <> c) by (destruct F as (_ & _ & N & _); inversion N; subst; intros ->; apply H1; left; auto).
    assert (F' : fits_in (W (fd_close t0 fd) h l) all (c :: p :: st)) by (eapply fits_perm; [exact F|apply Permutation_refl|apply perm_swap]).
    destruct (fits_reclaim _ _ (CClose fd :: l) _ _ c a 1 F' WF) as (F2 & WF2 & FR2). unfold closed. cbn [w_t w_h w_log] in *. remember (reclaimed a 1 c (W (fd_close t0 fd) h (CClose fd :: l))) as w2 eqn:E2. destruct w2 as [t2 h2 l2]. cbn [w_h] in *.
    rewrite (FR2 p) by auto. rewrite GP. destruct (fits_reclaim _ _ l2 _ _ p a 0 F2 WF2) as (F4 & WF4 & FR4). do 2 eexists. split; [reflexivity|]. split; [exact WF4|]. split; [exact F4|]. intros q Q. rewrite FR4 by (intros ->; apply Q; left; auto). apply FR2. intros ->. apply Q. right. left. auto.
Qed.
Lemma step_release : forall p a w v, inv w v -> holding p v <> None -> steps_to (ORelease p) a w v.
Proof.
  intros p a w v IV A. destruct (entry_at _ _ _ IV A) as (x & l1 & l2 & t & H & E1 & E2 & E3 & EO). destruct IV as (WF & M & E).
  destruct (release_entry w x a t p (mine v ++ flat_map fds (l1 ++ l2)) (flat_map structs (l1 ++ l2)) EO E3 WF) as (e & w' & R & WF' & F' & FRM).
  { eapply fits_perm; [apply matches_fits; exact M| |]; rewrite E1, !flat_map_app; cbn [flat_map].
    - rewrite !app_assoc. apply Permutation_app_tail. rewrite <- (app_assoc (fds x)). apply Permutation_app_comm.
    - rewrite !app_assoc. apply Permutation_app_tail. apply Permutation_app_comm. }
  exists e, 0, w'. cbn [exec]. rewrite R. split; [reflexivity|]. cbn [after]. rewrite E2. split; [auto|]. split; [apply matches_fits; exact F'|]. cbn [socks]. apply (entries_frame (w_h w)); [rewrite E1 in E; apply Forall_app in E; destruct E as [Ea Eb]; inversion Eb; apply Forall_app; split; auto|].
  intros q Q. apply FRM. intros K. destruct M as (_ & _ & N & _). rewrite E1, flat_map_app in N. cbn [flat_map] in N. rewrite flat_map_app in Q. apply (Permutation_NoDup (l' := structs x ++ flat_map structs l1 ++ flat_map structs l2)) in N; [|rewrite !app_assoc; apply Permutation_app_tail; apply Permutation_app_comm].
  clear - N K Q. induction (structs x) as [|y s IH]; [destruct K|]. cbn [app] in N. inversion N; subst. destruct K as [->|K]; [apply H1; apply in_or_app; auto|auto].
Qed.
Lemma accept_dest : forall w x p t, entry_ok (w_h w) x -> structs x = p :: t -> exists d, method (depth w) (w_h w) p MAccept = Some d /\ match d with Refused e => ok e = false | _ => True end.
Proof.
  intros w x p t EO E3. unfold depth. destruct EO as [(p' & fd & obj & ty & -> & GP)|[(p' & s & -> & GP & S)|(p' & c & fd & obj & ty & -> & GP & GC)]]; cbn [structs] in E3; inversion E3; subst p' t; cbn [method]; rewrite GP.
  - eexists. split; [reflexivity|exact Logic.I].
  - destruct s; try contradiction; eexists; (split; [reflexivity|]); [destruct (vt_fn vt MAccept =? 0); [reflexivity|exact Logic.I]|reflexivity].
  - destruct (hget_len _ _ _ GP) as (n & ->). cbn [method]. rewrite GC. eexists. split; [reflexivity|exact Logic.I].
Qed.
Lemma step_accept : forall p a w v, inv w v -> fair a w -> holding p v <> None -> steps_to (OAccept p) a w v.
Proof.
  intros p a w v IV FR A. destruct (entry_at _ _ _ IV A) as (x & l1 & l2 & t & H & E1 & E2 & E3 & EO). destruct (accept_dest _ _ _ _ EO E3) as (d & MD & D). unfold steps_to. cbn [exec]. rewrite MD.
  assert (X : steps_to OOpen a w v) by (apply step_open; auto). destruct X as (e & q & w' & EX & IV'). cbn [exec] in EX.
  destruct d; [| | | |do 3 eexists; split; [reflexivity|]; cbn [after]; rewrite D; exact IV]; (destruct (a_fd a <? 0) eqn:L; [do 3 eexists; split; [reflexivity|]; cbn [after]; destruct (ok (a_ret a)) eqn:KR; [|rewrite KR]; exact IV|]); inversion EX; subst; do 3 eexists; (split; [reflexivity|]); exact IV'.
Qed.
Lemma entry_type : forall h x p t, entry_ok h x -> structs x = p :: t -> exists s ty, hget h p = Some s /\ type_of s = Some ty.
Proof.
  intros h x p t EO E3. destruct EO as [(p' & fd & obj & ty & -> & GP)|[(p' & s & -> & GP & S)|(p' & c & fd & obj & ty & -> & GP & GC)]]; cbn [structs] in E3; inversion E3; subst p' t; rewrite GP; do 2 eexists; (split; [reflexivity|]); try reflexivity. destruct s; try contradiction; reflexivity.
Qed.
Lemma step_send : forall p fd a w v, inv w v -> holding p v <> None -> steps_to (OSend p fd) a w v.
Proof.
  intros p fd a w v IV A. destruct (entry_at _ _ _ IV A) as (x & l1 & l2 & t & H & E1 & E2 & E3 & EO). destruct (entry_type _ _ _ _ EO E3) as (s & ty & G & T). unfold steps_to. cbn [exec]. unfold send_descriptor. rewrite G, T.
  destruct (_ || _); do 3 eexists; (split; [reflexivity|]); cbn [after]; [|destruct (ok (a_ret a)) eqn:K; cbn [negb]; rewrite ?K]; exact IV.
Qed.
Lemma step_receive : forall p a w v, inv w v -> fair a w -> holding p v <> None -> steps_to (OReceive p) a w v.
Proof.
  intros p a w v IV FR A. destruct (entry_at _ _ _ IV A) as (x & l1 & l2 & t & H & E1 & E2 & E3 & EO). destruct (entry_type _ _ _ _ EO E3) as (s & ty & G & T). unfold steps_to. cbn [exec]. unfold receive_descriptor. rewrite G, T.
  destruct (_ || _). { do 3 eexists. split; [reflexivity|]. exact IV. }
  destruct (ok (a_ret a)) eqn:K; cbn [negb]. 2:{ do 3 eexists. split; [reflexivity|]. cbn [after]. rewrite K. exact IV. }
  destruct FR as (_ & _ & [EC|(fd & obj & EC & P & N)]); rewrite EC.
  - do 3 eexists. split; [reflexivity|]. exact IV.
  - cbn [map fst snd first_rights]. rewrite !Z.eqb_refl. cbn [andb]. destruct (Z.ltb_spec fd 0); [lia|]. do 3 eexists. split; [reflexivity|]. cbn [after]. change (ok STATUS_SUCCESS) with true. cbn [negb]. rewrite EC. unfold rights. cbn [flat_map]. rewrite !Z.eqb_refl. cbn [andb app install]. destruct IV as (WF & M & E). destruct w as [t0 h l]. split; [auto|]. split; [|auto]. apply matches_fits. apply fits_open; auto.
Qed.
Theorem step_ok : forall o a w v, inv w v -> allowed o v -> fair a w -> steps_to o a w v.
Proof.
  intros o a w v IV [A B] FR. destruct o; try (apply step_new; auto; exact Logic.I); try (apply step_plain; auto; exact Logic.I).
  - apply step_open; auto.
  - apply step_close; auto.
  - apply step_from; auto.
  - apply step_wrap; auto.
  - apply step_release; auto.
  - apply step_accept; auto.
  - apply step_send; auto.
  - apply step_receive; auto.
Qed.
