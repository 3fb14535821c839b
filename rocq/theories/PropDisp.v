(** C63: the echo server's connections and their descriptors. *)
From Verif Require Import Base Status MemModel MemProofs Heap FdModel SockModel SockSpec SockProofs EchoModel DispModel DispSpec DispProofs.

(** ** C63 *)
(** In every history of connections that are accepted, refused while quiescing, refused for lack
    of memory for their socket, served and ended: every connection being served has its own
    descriptor, open; no other is open; every other accepted descriptor was closed, once.
    Missing: the later failures of dispatch, for which this is false (below). *)
Theorem C63_connections_partial : forall evs t log own, NoDup (map fst own) -> (forall fd obj, t fd = Some obj <-> In (fd, obj) own) ->
  benigns evs (W t [] log) [] ->
  exists w conns, happen evs (W t [] log) [] = Some (w, conns) /\ served own w conns /\
    (closes (w_log w) + length conns = closes log + accepted evs)%nat.
Proof.
  intros evs t log own N E B. assert (G : ginv own (W t [] log) []).
  { exists []. split; [|split; [constructor|reflexivity]]. split; [split; [constructor|intros []]|]. split; [|constructor]. split; [cbn; rewrite app_nil_r; auto|]. split; [intros fd obj; cbn; rewrite app_nil_r; auto|]. split; [constructor|]. intros p. cbn. split; [intros (s & K & _); discriminate|intros []]. }
  destruct (history_ok own evs _ _ G B) as (w & conns & H & G' & C). exists w, conns. split; [auto|]. split; [apply ginv_served; auto|]. cbn [w_log length] in C. lia.
Qed.

(** One accepted descriptor: closed once while quiescing and if no socket can be made for it;
    left open and handed to a new fiber if everything works. *)
Theorem C63_served_partial : forall d fd w,
  (exists r, serve true d fd w = Some r /\ s_status r = STATUS_SUCCESS /\ s_world r = closed fd w /\ s_conn r = None /\ s_ctx r = false /\ s_fiber r = false) /\
  (a_al (d_sock d) <> STATUS_SUCCESS -> exists r, serve false d fd w = Some r /\ s_status r = a_al (d_sock d) /\
     s_world r = closed fd w /\ s_conn r = None /\ s_ctx r = false /\ s_fiber r = false) /\
  (a_al (d_sock d) = STATUS_SUCCESS -> d_ctx d = STATUS_SUCCESS -> d_fiber d = STATUS_SUCCESS -> d_add d = STATUS_SUCCESS ->
   a_disc (d_wrap d) = STATUS_SUCCESS -> a_al (d_wrap d) = STATUS_SUCCESS -> a_nb (d_wrap d) = STATUS_SUCCESS ->
   hwf (w_h w) -> good_pick (a_pick (d_sock d)) -> good_pick (a_pick (d_wrap d)) ->
   exists r q c ty, serve false d fd w = Some r /\ s_status r = STATUS_SUCCESS /\ s_conn r = Some q /\ s_ctx r = true /\ s_fiber r = true /\
     w_t (s_world r) = w_t w /\ w_log (s_world r) = CNonblock fd :: w_log w /\
     hget (w_h (s_world r)) q = Some (SWrap c ty) /\ hget (w_h (s_world r)) c = Some (SDesc fd ty)).
Proof.
  intros d fd w. split; [|split].
  - eexists. split; [reflexivity|]. auto.
  - intros A. apply ok_false in A. unfold serve, dispatch, from_descriptor, made. rewrite A. cbn [negb]. rewrite A. cbn [negb s_status]. rewrite A. cbn [negb]. eexists. split; [reflexivity|]. auto.
  - intros A1 D1 D2 D3 W1 W2 W3 WF G1 G2. unfold serve, dispatch, from_descriptor, made. rewrite A1, D1, D2, D3. change (negb (ok STATUS_SUCCESS)) with false. cbv iota beta zeta.
    set (p := a_pick (d_sock d) (addrs (w_h w))). change (negb (ok STATUS_SUCCESS)) with false. cbv iota. unfold wrap_async. cbn [w_h]. rewrite hget_hadd_same. cbn beta iota. rewrite W1. change (negb (ok STATUS_SUCCESS)) with false. cbv iota.
    unfold made. rewrite W2, W3. change (negb (ok STATUS_SUCCESS)) with false. cbv iota beta zeta. change (negb (ok STATUS_SUCCESS)) with false. cbv iota beta zeta. change (negb (ok STATUS_SUCCESS)) with false. cbv iota.
    cbn [w_h s_status]. change (negb (ok STATUS_SUCCESS)) with false. cbv iota. do 4 eexists. split; [reflexivity|]. cbn [s_status s_conn s_ctx s_fiber s_world logged w_t w_log w_h]. do 6 (split; [reflexivity|]).
    rewrite hget_hadd_same. split; [reflexivity|]. rewrite hget_hadd_other; [apply hget_hadd_same|]. intros K. apply (proj2 (G2 (addrs (hadd (w_h w) p (SDesc fd (socket_type (a_type (d_sock d)))))))). rewrite <- K. left. reflexivity.
Qed.

(** Without memory for the context the descriptor is closed twice: with its socket, and again. *)
Theorem C63_context_refuted : forall d fd w, a_al (d_sock d) = STATUS_SUCCESS -> d_ctx d <> STATUS_SUCCESS ->
  exists r, serve false d fd w = Some r /\ w_log (s_world r) = CClose fd :: CClose fd :: w_log w /\
    s_status r = (if ok (a_rc (d_rel d) 0) then d_ctx d else a_rc (d_rel d) 0%nat) /\ s_conn r = None /\ s_ctx r = false /\ s_fiber r = false.
Proof.
  intros d fd w A D. apply ok_false in D. unfold serve, dispatch, from_descriptor, made. rewrite A. change (negb (ok STATUS_SUCCESS)) with false. cbv iota beta zeta. change (negb (ok STATUS_SUCCESS)) with false. cbv iota.
  rewrite D. cbn [negb]. cbn [w_h release]. rewrite hget_hadd_same. cbn beta iota. cbn [s_status].
  destruct (ok (a_rc (d_rel d) 0)) eqn:K; cbn [negb]; rewrite ?K, ?D; cbn [negb]; eexists; (split; [reflexivity|]); cbn [s_world s_status s_conn s_ctx s_fiber closed reclaimed w_log]; auto 10.
Qed.
(** If the fiber cannot be made, or the socket not be wrapped, the context is released before it
    has a socket: a null pointer is used. *)
Theorem C63_fiber_refuted : forall d fd w, a_al (d_sock d) = STATUS_SUCCESS -> d_ctx d = STATUS_SUCCESS -> d_fiber d <> STATUS_SUCCESS ->
  serve false d fd w = None.
Proof.
  intros d fd w A D F. apply ok_false in F. unfold serve, dispatch, from_descriptor, made. rewrite A. change (negb (ok STATUS_SUCCESS)) with false. cbv iota beta zeta. change (negb (ok STATUS_SUCCESS)) with false. cbv iota.
  rewrite D. change (negb (ok STATUS_SUCCESS)) with false. cbv iota. rewrite F. reflexivity.
Qed.
Theorem C63_wrap_refuted : forall d fd w, a_al (d_sock d) = STATUS_SUCCESS -> d_ctx d = STATUS_SUCCESS -> d_fiber d = STATUS_SUCCESS ->
  a_disc (d_wrap d) <> STATUS_SUCCESS \/ a_al (d_wrap d) <> STATUS_SUCCESS \/ a_nb (d_wrap d) <> STATUS_SUCCESS ->
  serve false d fd w = None.
Proof.
  intros d fd w A D F W. unfold serve, dispatch, from_descriptor, made. rewrite A. change (negb (ok STATUS_SUCCESS)) with false. cbv iota beta zeta. change (negb (ok STATUS_SUCCESS)) with false. cbv iota.
  rewrite D, F. change (negb (ok STATUS_SUCCESS)) with false. cbv iota. unfold wrap_async. cbn [w_h]. rewrite hget_hadd_same. cbn beta iota.
  destruct (ok (a_disc (d_wrap d))) eqn:W1; cbn [negb].
  2:{ rewrite W1. reflexivity. }
  unfold made. destruct (ok (a_al (d_wrap d))) eqn:W2; cbn [negb].
  2:{ rewrite W2. cbn [negb]. rewrite W2. reflexivity. }
  change (negb (ok STATUS_SUCCESS)) with false. cbv iota. destruct (ok (a_nb (d_wrap d))) eqn:W3; cbn [negb].
  { apply ok_true in W1, W2, W3. destruct W as [W|[W|W]]; congruence. }
  destruct (ok (a_rc (d_wrap d) 0)) eqn:W4; cbn [negb]; rewrite ?W3, ?W4; reflexivity.
Qed.
(** If the fiber cannot be added to the scheduler, the descriptor is closed twice. *)
Theorem C63_add_refuted : forall d fd w, hwf (w_h w) -> good_pick (a_pick (d_sock d)) -> good_pick (a_pick (d_wrap d)) ->
  a_al (d_sock d) = STATUS_SUCCESS -> d_ctx d = STATUS_SUCCESS -> d_fiber d = STATUS_SUCCESS ->
  a_disc (d_wrap d) = STATUS_SUCCESS -> a_al (d_wrap d) = STATUS_SUCCESS -> a_nb (d_wrap d) = STATUS_SUCCESS -> d_add d <> STATUS_SUCCESS ->
  exists r, serve false d fd w = Some r /\ w_log (s_world r) = CClose fd :: CClose fd :: CNonblock fd :: w_log w /\ s_conn r = None /\
    s_status r = (if negb (ok (a_rc (d_rel d) 1)) then a_rc (d_rel d) 1%nat else if negb (ok (a_rc (d_rel d) 0)) then a_rc (d_rel d) 0%nat else
                  if negb (ok (d_crc d)) then d_crc d else if negb (ok (d_frel d)) then d_frel d else d_add d) /\
    s_ctx r = negb (ok (d_crc d)) /\ s_fiber r = negb (ok (d_frel d)).
Proof.
  intros d fd w WF G1 G2 A D F W1 W2 W3 AD. apply ok_false in AD. unfold serve, dispatch, from_descriptor, made. rewrite A. change (negb (ok STATUS_SUCCESS)) with false. cbv iota beta zeta. change (negb (ok STATUS_SUCCESS)) with false. cbv iota.
  rewrite D, F. change (negb (ok STATUS_SUCCESS)) with false. cbv iota. unfold wrap_async. cbn [w_h]. rewrite hget_hadd_same. cbn beta iota. rewrite W1. change (negb (ok STATUS_SUCCESS)) with false. cbv iota.
  unfold made. rewrite W2, W3. change (negb (ok STATUS_SUCCESS)) with false. cbv iota beta zeta. change (negb (ok STATUS_SUCCESS)) with false. cbv iota beta zeta. change (negb (ok STATUS_SUCCESS)) with false. cbv iota.
  rewrite AD. cbn [negb]. set (p := a_pick (d_sock d) (addrs (w_h w))). cbn [w_h].
  set (ty := socket_type (a_type (d_sock d))). set (h1 := hadd (w_h w) p (SDesc fd ty)). set (q := a_pick (d_wrap d) (addrs h1)).
  assert (NE : p <> q) by (intros K; apply (proj2 (G2 (addrs h1))); fold q; rewrite <- K; left; reflexivity).
  assert (WF1 : hwf h1) by (apply hadd_wf; auto; destruct (G1 (addrs (w_h w))); auto; apply hget_none; auto).
  assert (WF2 : hwf (hadd h1 q (SWrap p ty))) by (apply hadd_wf; auto; destruct (G2 (addrs h1)); auto; apply hget_none; auto).
  assert (GP : hget (hadd h1 q (SWrap p ty)) p = Some (SDesc fd ty)) by (rewrite hget_hadd_other by auto; apply hget_hadd_same).
  unfold release_context. cbn beta iota. cbn [logged w_h].
  change (length (hadd h1 q (SWrap p ty))) with (S (S (length (w_h w)))). cbn [release w_h logged w_t w_log]. rewrite hget_hadd_same. cbn beta iota.
  rewrite GP. cbn beta iota.
  match goal with |- context [hget (w_h ?x) q] => assert (GQ : hget (w_h x) q = Some (SWrap p ty)) end.
  { unfold reclaimed, closed. cbn [w_h]. destruct (ok (a_rc (d_rel d) 1)); [rewrite hget_hdel_other by auto|rewrite hget_hset_other by auto]; apply hget_hadd_same. }
  rewrite GQ. cbn beta iota. unfold context_release.
  destruct (ok (a_rc (d_rel d) 1)) eqn:K1; cbn [negb]; rewrite ?K1; cbn [negb];
  [destruct (ok (a_rc (d_rel d) 0)) eqn:K0; cbn [negb]; rewrite ?K0; cbn [negb];
   [destruct (ok (d_crc d)) eqn:K2; cbn [negb]; rewrite ?K2; cbn [negb]; change (ok STATUS_SUCCESS) with true; cbn [negb];
    [destruct (ok (d_frel d)) eqn:K3; cbn [negb]|]|]|];
  cbn [s_status]; rewrite ?K1, ?K0, ?K2, ?K3, ?AD; cbn [negb]; eexists; (split; [reflexivity|]); cbn [s_world s_status s_conn s_ctx s_fiber closed reclaimed w_log w_t]; rewrite ?K1, ?K0, ?K2, ?K3; auto 10.
Qed.

(** The listening descriptor is closed, once, whatever fails before the loop or ends it; the
    status is then that of the last failure, and never success. *)
Theorem C63_listening : forall a aw rel name ctxr w, w_t w (a_fd a) = None -> hwf (w_h w) -> good_pick (a_pick a) -> good_pick (a_pick aw) ->
  exists e q w', listen_start a aw rel name ctxr w = Some (e, q, w') /\
  match q with
  | None => (forall fd, w_t w' fd = w_t w fd) /\ (e = STATUS_SUCCESS -> False) /\
            closes (w_log w') = (closes (w_log w) + (if (a_fd a <? 0)%Z then 0 else 1))%nat
  | Some q => e = STATUS_SUCCESS /\ closes (w_log w') = closes (w_log w) /\
      forall erel stop ctxr', stop <> STATUS_SUCCESS -> exists e2 w2, listen_stop erel ctxr' stop q w' = Some (e2, w2) /\
        e2 = (if negb (ok ctxr') then ctxr' else if negb (ok (a_rc erel 1)) then a_rc erel 1%nat else if negb (ok (a_rc erel 0)) then a_rc erel 0%nat else stop) /\
        e2 <> STATUS_SUCCESS /\ (forall fd, w_t w2 fd = w_t w fd) /\ closes (w_log w2) = S (closes (w_log w'))
  end.
Proof.
  intros a aw rel name ctxr w T WF G1 G2.
  assert (FIN : forall e, e <> STATUS_SUCCESS -> (if negb (ok ctxr) then ctxr else e) <> STATUS_SUCCESS).
  { intros e N. destruct (ok ctxr) eqn:K; cbn [negb]; [auto|]. apply ok_false; auto. }
  unfold listen_start, from_listen_address. destruct (Z.ltb_spec (a_fd a) 0) as [L|L].
  { change (negb (ok ERROR_PSOCK_CREATE_FROM_ADDRESS_SOCKET_CREATE)) with true. cbv iota. do 3 eexists. split; [reflexivity|]. cbn beta iota. split; [auto|]. split; [apply FIN; discriminate|]. cbn [logged w_log]. unfold closes. cbn. lia. }
  assert (CL : forall e lg, e <> STATUS_SUCCESS -> closes lg = closes (w_log w) ->
    let r := (if a_close a <? 0 then ERROR_PSOCK_CREATE_FROM_ADDRESS_CLOSE else e, 0, closed (a_fd a) (W (fd_put (w_t w) (a_fd a) (Some (a_obj a))) (w_h w) lg)) in
    exists e' q w', (let '(e, p, w) := r in if negb (ok e) then Some (if negb (ok ctxr) then ctxr else e, @None Z, w) else
        do '(e, q, w) <- wrap_async aw p w;
        if negb (ok e) then do '(r, w) <- release (S (length (w_h w))) rel 0 p w; Some (if negb (ok ctxr) then ctxr else if negb (ok r) then r else e, @None Z, w)
        else Some (STATUS_SUCCESS, Some q, w)) = Some (e', q, w') /\ q = None /\ (forall fd, w_t w' fd = w_t w fd) /\ (e' = STATUS_SUCCESS -> False) /\ closes (w_log w') = (closes (w_log w) + 1)%nat).
  { intros e lg N C r. unfold r. set (e1 := if a_close a <? 0 then ERROR_PSOCK_CREATE_FROM_ADDRESS_CLOSE else e).
    assert (N1 : e1 <> STATUS_SUCCESS) by (unfold e1; destruct (a_close a <? 0); [discriminate|auto]). rewrite (proj2 (ok_false _) N1). cbn [negb]. do 3 eexists. split; [reflexivity|]. split; [reflexivity|].
    split; [|split; [apply FIN; auto|]].
    - intros fd. unfold closed. cbn [w_t]. unfold fd_close, fd_put. destruct (Z.eqb_spec fd (a_fd a)) as [->|]; auto.
    - unfold closed. cbn [w_log]. unfold closes in *. cbn. lia. }
  destruct (a_bind a <? 0).
  { destruct (CL ERROR_PSOCK_CREATE_FROM_ADDRESS_BIND (CBind (a_fd a) name :: CSocket AF_INET SOCK_STREAM :: w_log w) ltac:(discriminate) eq_refl) as (e & q & w' & E & -> & R). exists e, None, w'. split; [exact E|exact R]. }
  destruct (a_listen a <? 0).
  { destruct (CL ERROR_PSOCK_CREATE_FROM_ADDRESS_LISTEN (CListen (a_fd a) 32 :: CBind (a_fd a) name :: CSocket AF_INET SOCK_STREAM :: w_log w) ltac:(discriminate) eq_refl) as (e & q & w' & E & -> & R). exists e, None, w'. split; [exact E|exact R]. }
  unfold from_descriptor, made. destruct (ok (a_al a)) eqn:A; cbn [negb].
  2:{ rewrite A. cbn [negb]. apply ok_false in A. destruct (CL (a_al a) (CListen (a_fd a) 32 :: CBind (a_fd a) name :: CSocket AF_INET SOCK_STREAM :: w_log w) A eq_refl) as (e & q & w' & E & -> & R). exists e, None, w'. split; [exact E|exact R]. }
  clear CL. change (negb (ok STATUS_SUCCESS)) with false. cbv iota beta zeta. cbn [logged opened w_h w_t w_log]. change (negb (ok STATUS_SUCCESS)) with false. cbv iota.
  set (p := a_pick a (addrs (w_h w))). set (ty := socket_type (a_type a)). set (h1 := hadd (w_h w) p (SDesc (a_fd a) ty)).
  set (lg := CListen (a_fd a) 32 :: CBind (a_fd a) name :: CSocket AF_INET SOCK_STREAM :: w_log w).
  set (t1 := fd_put (w_t w) (a_fd a) (Some (a_obj a))).
  assert (CLO : forall fd, fd_close t1 (a_fd a) fd = w_t w fd).
  { intros fd. unfold t1, fd_close, fd_put. destruct (Z.eqb_spec fd (a_fd a)) as [->|]; auto. }
  assert (GP1 : hget h1 p = Some (SDesc (a_fd a) ty)) by apply hget_hadd_same.
  assert (LG : closes lg = closes (w_log w)) by reflexivity.
  assert (WF1 : hwf h1) by (apply hadd_wf; auto; destruct (G1 (addrs (w_h w))); auto; apply hget_none; auto).
  pose proof (G2 (addrs h1)) as (Q0 & QF). set (q := a_pick aw (addrs h1)) in *.
  assert (NE : p <> q) by (intros K; apply QF; rewrite <- K; left; reflexivity).
  assert (WF2 : hwf (hadd h1 q (SWrap p ty))) by (apply hadd_wf; auto; apply hget_none; auto).
  (* the wrapper fails: the plain socket is released *)
  assert (REL : forall e h lg', e <> STATUS_SUCCESS -> hget h p = Some (SDesc (a_fd a) ty) -> closes lg' = closes (w_log w) ->
    exists e' w', (do '(r, w) <- release (S (length h)) rel 0 p (W t1 h lg'); Some (if negb (ok ctxr) then ctxr else if negb (ok r) then r else e, @None Z, w)) = Some (e', None, w') /\
      (forall fd, w_t w' fd = w_t w fd) /\ (e' = STATUS_SUCCESS -> False) /\ closes (w_log w') = (closes (w_log w) + 1)%nat).
  { intros e h lg' N GH C. cbn [release w_h]. rewrite GH. do 2 eexists. split; [reflexivity|]. cbn [reclaimed closed w_t w_log]. split; [auto|]. split.
    - apply FIN. destruct (ok (a_rc rel 0)) eqn:K; cbn [negb]; [auto|apply ok_false; auto].
    - unfold closes in *. cbn. lia. }
  unfold wrap_async. cbn [w_h]. rewrite GP1. cbn beta iota. destruct (ok (a_disc aw)) eqn:W1; cbn [negb].
  2:{ rewrite W1. cbn [negb w_h]. apply ok_false in W1. destruct (REL _ h1 lg W1 GP1 LG) as (e & w' & E & R). exists e, None, w'. split; [exact E|exact R]. }
  unfold made. cbn [w_t w_h w_log]. destruct (ok (a_al aw)) eqn:W2; cbn [negb].
  2:{ rewrite W2. cbn [negb]. rewrite W2. cbn [negb w_h]. apply ok_false in W2. destruct (REL _ h1 lg W2 GP1 LG) as (e & w' & E & R). exists e, None, w'. split; [exact E|exact R]. }
  change (negb (ok STATUS_SUCCESS)) with false. cbv iota. fold q. destruct (ok (a_nb aw)) eqn:W3; cbn [negb].
  2:{ set (e := if negb (ok (a_rc aw 0)) then a_rc aw 0%nat else a_nb aw).
      assert (NEe : e <> STATUS_SUCCESS) by (unfold e; destruct (ok (a_rc aw 0)) eqn:K; cbn [negb]; apply ok_false; auto).
      rewrite (proj2 (ok_false _) NEe). cbn [negb]. unfold reclaimed. cbn [logged w_t w_h w_log].
      destruct (REL e (if ok (a_rc aw 0) then hdel (hadd h1 q (SWrap p ty)) q else hset (hadd h1 q (SWrap p ty)) q SDead) (CNonblock (a_fd a) :: lg) NEe) as (e' & w' & E & R).
      - destruct (ok (a_rc aw 0)); [rewrite (hget_hdel_other _ q p WF2) by exact NE|rewrite (hget_hset_other _ q p) by exact NE]; rewrite (hget_hadd_other h1 q p) by exact NE; exact GP1.
      - exact LG.
      - exists e', None, w'. split; [exact E|exact R]. }
  change (negb (ok STATUS_SUCCESS)) with false. cbv iota. do 3 eexists. split; [reflexivity|]. cbn beta iota. split; [reflexivity|]. split; [exact LG|].
  intros erel stop ctxr' NS. unfold listen_stop. cbn [logged w_h].
  change (length (hadd h1 q (SWrap p ty))) with (S (S (length (w_h w)))). cbn [release w_h w_t w_log logged]. rewrite hget_hadd_same. cbn beta iota.
  rewrite (hget_hadd_other h1 q p (SWrap p ty)) by auto. rewrite GP1. cbn beta iota.
  match goal with |- context [hget (w_h ?x) q] => assert (GQ : hget (w_h x) q = Some (SWrap p ty)) end.
  { unfold reclaimed, closed. cbn [w_h]. destruct (ok (a_rc erel 1)); [rewrite hget_hdel_other by auto|rewrite hget_hset_other by auto]; apply hget_hadd_same. }
  rewrite GQ. cbn beta iota. do 2 eexists. split; [reflexivity|]. cbn [reclaimed closed w_t w_log]. split; [destruct (ok (a_rc erel 1)) eqn:K1; cbn [negb]; rewrite ?K1; reflexivity|]. split; [|split; [auto|]].
  - destruct (ok ctxr') eqn:K; cbn [negb]; [|apply ok_false; auto]. match goal with |- (if negb (ok ?r) then _ else _) <> _ => destruct (ok r) eqn:K2; cbn [negb]; [auto|apply ok_false; auto] end.
  - reflexivity.
Qed.

(** Two connections and one without memory; the first ends; one arrives while quiescing, on a
    descriptor that was used before. *)
Definition aans (fd obj al : Z) : ans := An fd obj 0 0 0 0 None None (Some 1) 0 0 al pick_max (fun _ => 0) 0 0 [].
Definition dans0 : dans := DA (aans (-1) 0 0) 0 0 (aans (-1) 0 0) 0 0 (aans (-1) 0 0) 0.
Definition dans1 : dans := DA (aans (-1) 0 1) 0 0 (aans (-1) 0 0) 0 0 (aans (-1) 0 0) 0.
Definition h63 : list event :=
  [Incoming (aans 5 50 0) false dans0; Incoming (aans 6 60 0) false dans0; Incoming (aans 7 70 0) false dans1; Finished 2 (aans (-1) 0 0) 0; Incoming (aans 5 51 0) true dans0].
Definition t63 : fdt := fun x => if x =? 3 then Some 30 else None.
Example C63_history_example :
  NoDup (map fst [(3, 30)]) /\ (forall fd obj, t63 fd = Some obj <-> In (fd, obj) [(3, 30)]) /\ benigns h63 (W t63 [] []) [] /\
  match happen h63 (W t63 [] []) [] with
  | Some (w, conns) => conns = [4] /\ w_log w = [CClose 5; CClose 5; CClose 7; CNonblock 6; CNonblock 5] /\ w_t w 6 = Some 60 /\ w_t w 5 = None /\ w_t w 7 = None
  | None => False
  end.
Proof.
  split; [repeat constructor; intros []|]. split.
  { intros fd obj. unfold t63. destruct (Z.eqb_spec fd 3) as [->|N]; cbn; split; intros H.
    - left. congruence.
    - destruct H as [H|[]]. congruence.
    - discriminate.
    - destruct H as [H|[]]. congruence. }
  split.
  { unfold h63. cbn [benigns].
    assert (ON : forall al, opens_nothing (aans (-1) 0 al)) by (intros al; split; [apply pick_max_good|split; [reflexivity|reflexivity]]).
    repeat match goal with
    | |- _ /\ _ => split
    | |- match happens ?e ?w ?c with _ => _ end => let x := eval vm_compute in (happens e w c) in change (happens e w c) with x; cbn beta iota
    | |- benign _ _ _ => cbn [benign]
    | |- True => exact Logic.I
    end. all: try (exact (ON 0)); try (exact (ON 1)); try (apply pick_max_good); try (vm_compute; reflexivity); try (vm_compute; discriminate); try (right; right; repeat split; reflexivity).
    cbn. auto. }
  vm_compute. auto.
Qed.
(** The failures of the later steps are possible. *)
Example C63_failures_example :
  let w := W (fd_put t63 5 (Some 50)) [] [] in
  (exists r, serve false (DA (aans (-1) 0 0) 9 0 (aans (-1) 0 0) 0 0 (aans (-1) 0 0) 0) 5 w = Some r /\ w_log (s_world r) = [CClose 5; CClose 5] /\ s_status r = 9) /\
  serve false (DA (aans (-1) 0 0) 0 9 (aans (-1) 0 0) 0 0 (aans (-1) 0 0) 0) 5 w = None /\
  serve false (DA (aans (-1) 0 0) 0 0 (aans (-1) 0 9) 0 0 (aans (-1) 0 0) 0) 5 w = None /\
  (exists r, serve false (DA (aans (-1) 0 0) 0 0 (aans (-1) 0 0) 9 0 (aans (-1) 0 0) 0) 5 w = Some r /\ w_log (s_world r) = [CClose 5; CClose 5; CNonblock 5] /\ s_status r = 9).
Proof.
  cbv zeta. split; [eexists; split; [vm_compute; reflexivity|split; reflexivity]|]. split; [vm_compute; reflexivity|]. split; [vm_compute; reflexivity|].
  eexists. split; [vm_compute; reflexivity|split; reflexivity].
Qed.
Example C63_listening_example : exists q w', listen_start (aans 4 40 0) (aans (-1) 0 0) (aans (-1) 0 0) 77 0 (W t63 [] []) = Some (STATUS_SUCCESS, Some q, w') /\ w_t w' 4 = Some 40.
Proof. do 2 eexists. split; vm_compute; reflexivity. Qed.

Print Assumptions C63_connections_partial.
Print Assumptions C63_served_partial.
Print Assumptions C63_context_refuted.
Print Assumptions C63_fiber_refuted.
Print Assumptions C63_wrap_refuted.
Print Assumptions C63_add_refuted.
Print Assumptions C63_listening.
