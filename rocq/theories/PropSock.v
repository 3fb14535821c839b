(** C57, C58: descriptors of sockets, and what serves their methods. *)
From Verif Require Import Base Status MemModel MemProofs Heap FdModel SockModel SockSpec SockProofs.

(** In every history of calls, the descriptors that are open are those that the program and its
    sockets hold, each held once, and the structs in use are those of its sockets. *)
Theorem C57_history_partial : forall os t log own, NoDup (map fst own) -> (forall fd obj, t fd = Some obj <-> In (fd, obj) own) ->
  let w := W t [] log in let v := View own [] in proper os w v ->
  exists rs w', run os w = Some (rs, w') /\ length rs = length os /\ matches w' (afters os rs v).
Proof.
  intros os t log own N E w v P. assert (IV : inv w v).
  { split; [split; [constructor|intros []]|]. split; [|constructor]. split; [cbn; rewrite app_nil_r; auto|]. split; [intros fd obj; cbn; rewrite app_nil_r; auto|]. split; [constructor|]. intros p. cbn. split; [intros (s & K & _); discriminate|intros []]. }
  clearbody w v. clear N E. revert w v P IV. induction os as [|[o a] os IH]; intros w v P IV.
  - exists [], w. split; [reflexivity|]. split; [reflexivity|]. apply IV.
  - cbn [proper] in P. destruct P as (A & FR & P). destruct (step_ok o a w v IV A FR) as (e & x & w1 & EX & IV1). rewrite EX in P.
    destruct (IH _ _ P IV1) as (rs & w' & R & L & M). exists ((e, x) :: rs), w'. cbn [run]. rewrite EX, R. split; [reflexivity|]. split; [cbn; auto|]. exact M.
Qed.
(** Once everything is released and closed, nothing is open. *)
Theorem C57_nothing_left : forall w v, matches w v -> mine v = [] -> socks v = [] -> (forall fd, w_t w fd = None) /\ forall p s, hget (w_h w) p = Some s -> s = SDead.
Proof.
  intros w v (_ & E1 & _ & E2) M S. rewrite M, S in *. cbn in *. split.
  - intros fd. destruct (w_t w fd) eqn:K; auto. apply E1 in K. destruct K.
  - intros p s G. destruct s; auto; exfalso; apply (E2 p); eexists; (split; [exact G|discriminate]).
Qed.

Definition same_table (w w' : world) : Prop := forall fd, w_t w' fd = w_t w fd.
Definition added_struct (a : ans) (s : sock) (w w' : world) (p : Z) : Prop := p = a_pick a (addrs (w_h w)) /\ hget (w_h w') p = Some s /\ forall q, q <> p -> hget (w_h w') q = hget (w_h w) q.
(** The struct at [p] is gone, the others are unchanged *)
Definition gone (a : ans) (k : nat) (p : Z) (h h' : heap sock) : Prop := hget h' p = (if ok (a_rc a k) then None else Some SDead) /\ forall q, q <> p -> hget h' q = hget h q.

Lemma made_fails : forall a s w, a_al a <> STATUS_SUCCESS -> made a s w = (a_al a, 0, w).
Proof. intros a s w H. unfold made. apply ok_false in H. rewrite H. reflexivity. Qed.
Lemma made_works : forall a s w, a_al a = STATUS_SUCCESS -> exists p w', made a s w = (STATUS_SUCCESS, p, w') /\ w_t w' = w_t w /\ w_log w' = w_log w /\ added_struct a s w w' p.
Proof.
  intros a s w H. unfold made. rewrite H. change (ok STATUS_SUCCESS) with true. cbn [negb]. do 2 eexists. split; [reflexivity|]. cbn [w_t w_h w_log]. split; [auto|]. split; [auto|]. split; [auto|]. cbn [w_h].
  split; [apply hget_hadd_same|intros q Q; apply hget_hadd_other; auto].
Qed.
(** psock_create_from_descriptor leaves the descriptor alone; the type is what the kernel says. *)
Theorem C57_from_descriptor : forall a fd w,
  (a_al a <> STATUS_SUCCESS -> from_descriptor a fd w = (a_al a, 0, w)) /\
  (a_al a = STATUS_SUCCESS -> exists p w', from_descriptor a fd w = (STATUS_SUCCESS, p, w') /\ w_t w' = w_t w /\ w_log w' = w_log w /\
    exists ty, added_struct a (SDesc fd ty) w w' p /\
      (a_type a = Some 1 -> ty = PSOCK_SOCKET_TYPE_STREAM) /\ (a_type a = Some 2 -> ty = PSOCK_SOCKET_TYPE_DATAGRAM) /\ (a_type a <> Some 1 -> a_type a <> Some 2 -> ty = PSOCK_SOCKET_TYPE_OTHER)).
Proof.
  intros a fd w. split; [intros H; apply made_fails; auto|]. intros H. destruct (made_works a (SDesc fd (socket_type (a_type a))) w H) as (p & w' & E & T & L & A). exists p, w'. split; [exact E|]. split; [auto|]. split; [auto|]. eexists. split; [exact A|].
  split; [intros ->; reflexivity|]. split; [intros ->; reflexivity|]. intros N1 N2. unfold socket_type, SOCK_STREAM, SOCK_DGRAM. destruct (a_type a) as [t|]; [|reflexivity]. destruct (Z.eqb_spec t 1); [congruence|]. destruct (Z.eqb_spec t 2); [congruence|]. reflexivity.
Qed.
Lemma same_closed : forall t fd o, t fd = None -> forall x, fd_close (fd_put t fd o) fd x = t x.
Proof. intros t fd o H x. unfold fd_close, fd_put. destruct (Z.eqb_spec x fd); [subst; auto|auto]. Qed.
(** psock_create_from_listen_address: on failure the descriptor it opened is closed; the status
    says what failed, or that closing failed. *)
Theorem C57_listen : forall a name w,
  let fd := a_fd a in let failed e := if a_close a <? 0 then ERROR_PSOCK_CREATE_FROM_ADDRESS_CLOSE else e in
  (fd < 0 -> exists w', from_listen_address a name w = (ERROR_PSOCK_CREATE_FROM_ADDRESS_SOCKET_CREATE, 0, w') /\ w_t w' = w_t w /\ w_h w' = w_h w /\ w_log w' = CSocket 2 1 :: w_log w) /\
  (0 <= fd -> w_t w fd = None -> a_bind a < 0 -> exists w', from_listen_address a name w = (failed ERROR_PSOCK_CREATE_FROM_ADDRESS_BIND, 0, w') /\ same_table w w' /\ w_h w' = w_h w /\ w_log w' = [CClose fd; CBind fd name; CSocket 2 1] ++ w_log w) /\
  (0 <= fd -> w_t w fd = None -> 0 <= a_bind a -> a_listen a < 0 -> exists w', from_listen_address a name w = (failed ERROR_PSOCK_CREATE_FROM_ADDRESS_LISTEN, 0, w') /\ same_table w w' /\ w_h w' = w_h w /\ w_log w' = [CClose fd; CListen fd 32; CBind fd name; CSocket 2 1] ++ w_log w) /\
  (0 <= fd -> w_t w fd = None -> 0 <= a_bind a -> 0 <= a_listen a -> a_al a <> STATUS_SUCCESS -> exists w', from_listen_address a name w = (failed (a_al a), 0, w') /\ same_table w w' /\ w_h w' = w_h w /\ w_log w' = [CClose fd; CListen fd 32; CBind fd name; CSocket 2 1] ++ w_log w) /\
  (0 <= fd -> 0 <= a_bind a -> 0 <= a_listen a -> a_al a = STATUS_SUCCESS -> exists p w', from_listen_address a name w = (STATUS_SUCCESS, p, w') /\
    added_struct a (SDesc fd (socket_type (a_type a))) w w' p /\ w_t w' fd = Some (a_obj a) /\ (forall x, x <> fd -> w_t w' x = w_t w x) /\ w_log w' = [CListen fd 32; CBind fd name; CSocket 2 1] ++ w_log w).
Proof.
  intros a name [t h l] fd failed. subst fd failed. unfold from_listen_address, same_table, from_descriptor. cbn [w_t w_h w_log].
  split. { intros H. apply Z.ltb_lt in H. rewrite H. eexists. split; [reflexivity|]. auto. }
  split. { intros H F B. apply Z.ltb_ge in H. apply Z.ltb_lt in B. rewrite H, B. eexists. split; [reflexivity|]. split; [apply same_closed; auto|]. auto. }
  split. { intros H F B C. apply Z.ltb_ge in H. apply Z.ltb_ge in B. apply Z.ltb_lt in C. rewrite H, B, C. eexists. split; [reflexivity|]. split; [apply same_closed; auto|]. auto. }
  split. { intros H F B C D. apply Z.ltb_ge in H. apply Z.ltb_ge in B. apply Z.ltb_ge in C. rewrite H, B, C, made_fails by auto. apply ok_false in D. rewrite D. cbn [negb]. eexists. split; [reflexivity|]. split; [apply same_closed; auto|]. auto. }
  intros H B C D. apply Z.ltb_ge in H. apply Z.ltb_ge in B. apply Z.ltb_ge in C. rewrite H, B, C. match goal with |- context [made a ?s ?w] => destruct (made_works a s w D) as (p & w' & -> & T & L & AS) end.
  change (ok STATUS_SUCCESS) with true. cbn [negb]. exists p, w'. split; [reflexivity|]. split; [exact AS|]. rewrite T, L. cbn [logged opened w_t w_log]. unfold fd_put. rewrite Z.eqb_refl. split; [auto|]. split; [|auto]. intros x X. apply Z.eqb_neq in X. rewrite X. auto.
Qed.
(** psock_create_from_hostname_and_port connects to the host's IPv4 address if it has one, else
    to its IPv6 address; on failure the descriptor it opened is closed. *)
Theorem C57_connect : forall a port w, let fd := a_fd a in
  (a_h4 a = None -> a_h6 a = None -> from_hostname_and_port a port w = (ERROR_PSOCK_HOSTNAME_LOOKUP_FAILURE, 0, w)) /\
  forall family addr, (a_h4 a = Some addr /\ family = 2) \/ (a_h4 a = None /\ a_h6 a = Some addr /\ family = 10) ->
  let conn := CConnect fd family addr (port mod 65536) in
  (fd < 0 -> exists w', from_hostname_and_port a port w = (ERROR_PSOCK_SOCKET_CREATE, 0, w') /\ w_t w' = w_t w /\ w_h w' = w_h w /\ w_log w' = CSocket family 1 :: w_log w) /\
  (0 <= fd -> w_t w fd = None -> a_connect a < 0 -> exists w', from_hostname_and_port a port w = (ERROR_PSOCK_CONNECTION_REFUSED, 0, w') /\ same_table w w' /\ w_h w' = w_h w /\ w_log w' = [CClose fd; conn; CSocket family 1] ++ w_log w) /\
  (0 <= fd -> w_t w fd = None -> 0 <= a_connect a -> a_al a <> STATUS_SUCCESS -> exists w', from_hostname_and_port a port w = (a_al a, 0, w') /\ same_table w w' /\ w_h w' = w_h w /\ w_log w' = [CClose fd; conn; CSocket family 1] ++ w_log w) /\
  (0 <= fd -> 0 <= a_connect a -> a_al a = STATUS_SUCCESS -> exists p w', from_hostname_and_port a port w = (STATUS_SUCCESS, p, w') /\
    added_struct a (SDesc fd (socket_type (a_type a))) w w' p /\ w_t w' fd = Some (a_obj a) /\ (forall x, x <> fd -> w_t w' x = w_t w x) /\ w_log w' = [conn; CSocket family 1] ++ w_log w).
Proof.
  intros a port [t h l] fd. subst fd. split. { intros E4 E6. unfold from_hostname_and_port. rewrite E4, E6. auto. }
  intros family addr E conn. subst conn. unfold from_hostname_and_port, same_table, from_descriptor. cbn [w_t w_h w_log]. change (2 ^ 16) with 65536. unfold AF_INET, AF_INET6.
  assert (X : exists x y, (a_h4 a, a_h6 a) = (x, y) /\ match x with Some ad => ad = addr /\ family = 2 | None => y = Some addr /\ family = 10 end).
  { destruct E as [(-> & ->)|(-> & -> & ->)]; do 2 eexists; (split; [reflexivity|]); split; reflexivity. }
  destruct X as (x & y & EQ & X). inversion EQ as [[E4 E6]]. rewrite E4, E6. clear E EQ E4 E6.
  assert (Z : match x with Some ad => ad = addr /\ family = 2 | None => y = Some addr /\ family = 10 end) by exact X. clear X.
  split. { intros H. apply Z.ltb_lt in H. destruct x as [ad|]; destruct Z as [-> ->]; rewrite H; eexists; (split; [reflexivity|]); auto. }
  split. { intros H F B. apply Z.ltb_ge in H. apply Z.ltb_lt in B. destruct x as [ad|]; destruct Z as [-> ->]; rewrite H, B; eexists; (split; [reflexivity|]); (split; [apply same_closed; auto|]); auto. }
  split. { intros H F B D. apply Z.ltb_ge in H. apply Z.ltb_ge in B. destruct x as [ad|]; destruct Z as [-> ->]; rewrite H, B, made_fails by auto; apply ok_false in D; rewrite D; cbn [negb]; eexists; (split; [reflexivity|]); (split; [apply same_closed; auto|]); auto. }
  intros H B D. apply Z.ltb_ge in H. apply Z.ltb_ge in B. destruct x as [ad|]; destruct Z as [-> ->]; rewrite H, B; (match goal with |- context [made a ?s ?w] => destruct (made_works a s w D) as (p & w' & -> & T & L & AS) end);
  change (ok STATUS_SUCCESS) with true; cbn [negb]; exists p, w'; (split; [reflexivity|]); (split; [exact AS|]); rewrite T, L; cbn [logged opened w_t w_log]; unfold fd_put; rewrite Z.eqb_refl; (split; [auto|]); (split; [|auto]); intros z Q; apply Z.eqb_neq in Q; rewrite Q; auto.
Qed.
(** The port is an unsigned int but only its low 16 bits are used: a port of 65536 or more
    connects to another one. *)
Theorem C57_port_refuted : forall a port addr w, 65536 <= port < 2 ^ 32 -> 0 <= a_fd a -> 0 <= a_connect a -> a_al a = STATUS_SUCCESS -> a_h4 a = Some addr ->
  exists p w' other, from_hostname_and_port a port w = (STATUS_SUCCESS, p, w') /\ hd_error (w_log w') = Some (CConnect (a_fd a) AF_INET addr other) /\ other <> port.
Proof.
  intros a port addr w P F C A H. destruct (C57_connect a port w) as (_ & K). destruct (K AF_INET addr (or_introl (conj H eq_refl))) as (_ & _ & _ & K4). destruct (K4 F C A) as (p & w' & E & _ & _ & _ & L). exists p, w', (port mod 65536). split; [exact E|]. rewrite L. split; [reflexivity|].
  pose proof (Z.mod_pos_bound port 65536 eq_refl). lia.
Qed.
(** The other constructors open nothing *)
Theorem C57_plain : forall a w s, s = (fun p => SBr p) \/ (exists ctx vt, s = fun _ => SUser ctx vt) \/ s = (fun _ => SBuf) -> forall wrapped,
  let make := match s wrapped with SUser ctx vt => from_user_methods a ctx vt w | SBr p => buffered a p w | _ => from_buffer a w end in
  (a_al a <> STATUS_SUCCESS -> make = (a_al a, 0, w)) /\
  (a_al a = STATUS_SUCCESS -> exists p w', make = (STATUS_SUCCESS, p, w') /\ w_t w' = w_t w /\ w_log w' = w_log w /\ added_struct a (s wrapped) w w' p).
Proof. intros a w s [-> |[(ctx & vt & ->)| ->]] wrapped; (split; [intros H; apply made_fails; auto|intros H; apply made_works; auto]). Qed.
(** psock_create_wrap_async *)
Theorem C57_wrap : forall a p w s, hget (w_h w) p = Some s -> s <> SDead -> hwf (w_h w) -> good_pick (a_pick a) ->
  ((forall fd ty, s <> SDesc fd ty) -> wrap_async a p w = Some (ERROR_PSOCK_UNSUPPORTED_TYPE, 0, w)) /\
  forall fd ty, s = SDesc fd ty ->
  (a_disc a <> STATUS_SUCCESS -> wrap_async a p w = Some (a_disc a, 0, w)) /\
  (a_disc a = STATUS_SUCCESS -> a_al a <> STATUS_SUCCESS -> wrap_async a p w = Some (a_al a, 0, w)) /\
  (a_disc a = STATUS_SUCCESS -> a_al a = STATUS_SUCCESS -> a_nb a <> STATUS_SUCCESS -> exists w', wrap_async a p w = Some (if ok (a_rc a 0) then a_nb a else a_rc a 0%nat, 0, w') /\
     w_t w' = w_t w /\ w_log w' = CNonblock fd :: w_log w /\ gone a 0 (a_pick a (addrs (w_h w))) (w_h w) (w_h w')) /\
  (a_disc a = STATUS_SUCCESS -> a_al a = STATUS_SUCCESS -> a_nb a = STATUS_SUCCESS -> exists q w', wrap_async a p w = Some (STATUS_SUCCESS, q, w') /\
     w_t w' = w_t w /\ w_log w' = CNonblock fd :: w_log w /\ added_struct a (SWrap p ty) w w' q).
Proof.
  intros a p w s G D WF GP. unfold wrap_async. rewrite G. split. { intros N. destruct s; try reflexivity; [exfalso; eapply N; reflexivity|congruence]. }
  intros fd ty ->. split. { intros H. apply ok_false in H. rewrite H. reflexivity. }
  split. { intros -> H. rewrite made_fails by auto. apply ok_false in H. rewrite H. reflexivity. }
  destruct w as [t h l]. cbn [w_t w_h w_log] in *. destruct (GP (addrs h)) as [P0 P1]. set (q := a_pick a (addrs h)) in *. split.
  - intros HD HA H. unfold made. rewrite HD, HA. cbn [w_h w_t w_log]. fold q. apply ok_false in H. change (ok STATUS_SUCCESS) with true. cbn [negb]. rewrite H. cbn [negb logged w_h w_t w_log]. destruct (ok (a_rc a 0)) eqn:K; cbn [negb]; eexists; (split; [reflexivity|]); (split; [reflexivity|]); (split; [reflexivity|]); unfold reclaimed, gone; cbn [w_h]; rewrite K.
    + assert (hwf (hadd h q (SWrap p ty))) by (apply hadd_wf; auto; apply hget_none; auto). split; [apply hget_hdel_same; auto|]. intros x X. rewrite hget_hdel_other by auto. apply hget_hadd_other; auto.
    + split; [apply (hget_hset_same _ _ _ (SWrap p ty)); apply hget_hadd_same|]. intros x X. rewrite hget_hset_other by auto. apply hget_hadd_other; auto.
  - intros HD H HN. rewrite HD, HN. destruct (made_works a (SWrap p ty) (W t h l) H) as (q' & w' & -> & T & L & AS). change (ok STATUS_SUCCESS) with true. cbn [negb]. exists q', (logged (CNonblock fd) w'). split; [reflexivity|]. cbn [logged w_t w_log]. rewrite T, L. split; [auto|]. split; [auto|]. exact AS.
Qed.
Lemma reclaimed_gone : forall a k p w s, hwf (w_h w) -> hget (w_h w) p = Some s -> gone a k p (w_h w) (w_h (reclaimed a k p w)) /\ hwf (w_h (reclaimed a k p w)).
Proof.
  intros a k p [t h l] s WF G. unfold reclaimed, gone. cbn [w_h] in *. destruct (ok (a_rc a k)).
  - split; [|apply hdel_wf; auto]. split; [apply hget_hdel_same; auto|]. intros q Q. apply hget_hdel_other; auto.
  - split; [|apply hset_wf; auto]. split; [apply (hget_hset_same _ _ _ _ G)|]. intros q Q. apply hget_hset_other; auto.
Qed.
(** Releasing a socket closes its descriptor, once, and calls the user's release function, once,
    with the user's context; a buffered socket leaves what it reads from alone. *)
Theorem C57_release : forall a n p w s, hget (w_h w) p = Some s -> hwf (w_h w) ->
  (forall fd ty, s = SDesc fd ty -> exists w', release (S n) a 0 p w = Some (a_rc a 0%nat, w') /\ w_log w' = CClose fd :: w_log w /\ w_t w' fd = None /\ (forall x, x <> fd -> w_t w' x = w_t w x) /\ gone a 0 p (w_h w) (w_h w')) /\
  (forall ctx vt, s = SUser ctx vt -> exists w', release (S n) a 0 p w = Some (if negb (ok (a_rc a 0)) then a_rc a 0%nat else if vt_release vt =? 0 then STATUS_SUCCESS else a_user a, w') /\
     w_log w' = (if vt_release vt =? 0 then [] else [CRelease (vt_release vt) ctx]) ++ w_log w /\ w_t w' = w_t w /\ gone a 0 p (w_h w) (w_h w')) /\
  (s = SBuf \/ (exists c, s = SBr c) -> exists w', release (S n) a 0 p w = Some (a_rc a 0%nat, w') /\ w_log w' = w_log w /\ w_t w' = w_t w /\ gone a 0 p (w_h w) (w_h w')) /\
  (forall c ty fd ty', s = SWrap c ty -> hget (w_h w) c = Some (SDesc fd ty') -> exists h1 w', release (S (S n)) a 0 p w = Some (if ok (a_rc a 1) then a_rc a 0%nat else a_rc a 1%nat, w') /\
     w_log w' = CClose fd :: w_log w /\ w_t w' fd = None /\ (forall x, x <> fd -> w_t w' x = w_t w x) /\ gone a 1 c (w_h w) h1 /\ gone a 0 p h1 (w_h w')).
Proof.
  intros a n p w s G WF. cbn [release]. rewrite G. split.
  { intros fd ty ->. eexists. split; [reflexivity|]. destruct w as [t h l]. cbn [w_h w_t w_log] in *. split; [reflexivity|]. cbn [reclaimed closed w_t]. unfold fd_close, fd_put. rewrite Z.eqb_refl. split; [auto|]. split. { intros x X. apply Z.eqb_neq in X. rewrite X. auto. } apply (reclaimed_gone a 0 p (closed fd (W t h l)) _ WF G). }
  split. { intros ctx vt ->. destruct w as [t h l]. destruct (vt_release vt =? 0); eexists; (split; [reflexivity|]); (split; [reflexivity|]); (split; [reflexivity|]); [apply (reclaimed_gone a 0 p (W t h l) _ WF G)|apply (reclaimed_gone a 0 p (logged (CRelease (vt_release vt) ctx) (W t h l)) _ WF G)]. }
  split. { intros [->|(c & ->)]; eexists; (split; [reflexivity|]); (split; [reflexivity|]); (split; [reflexivity|]); apply (reclaimed_gone a 0 p w _ WF G). }
  intros c ty fd ty' -> GC. rewrite GC. destruct w as [t h l]. cbn [w_h w_t w_log] in *. assert (NE : p <> c) by (intros ->; rewrite G in GC; discriminate).
  destruct (reclaimed_gone a 1 c (closed fd (W t h l)) _ WF GC) as [G1 WF1]. assert (GP : hget (w_h (reclaimed a 1 c (closed fd (W t h l)))) p = Some (SWrap c ty)) by (rewrite (proj2 G1 p NE); exact G). rewrite GP.
  destruct (reclaimed_gone a 0 p _ _ WF1 GP) as [G2 _]. do 2 eexists. split. { destruct (ok (a_rc a 1)); reflexivity. } split; [reflexivity|]. cbn [reclaimed closed w_t]. unfold fd_close, fd_put. rewrite Z.eqb_refl. split; [auto|]. split. { intros x X. apply Z.eqb_neq in X. rewrite X. auto. } split; [exact G1|exact G2].
Qed.
(** psock_write_raw_descriptor sends the one descriptor on datagram sockets; the descriptor is
    still the caller's. *)
Definition datagram (h : heap sock) (p : Z) : Prop := (exists fd, hget h p = Some (SDesc fd 2)) \/ exists c, hget h p = Some (SWrap c 2).
Theorem C57_send : forall h p fd e s, hget h p = Some s -> s <> SDead ->
  (datagram h p -> send_descriptor h p fd e = Some (e, [((SOL_SOCKET, SCM_RIGHTS), [fd])])) /\
  (~ datagram h p -> send_descriptor h p fd e = Some (ERROR_PSOCK_UNSUPPORTED_TYPE, [])).
Proof.
  intros h p fd e s G D. unfold send_descriptor, datagram. rewrite G. split.
  - intros [(x & H)|(x & H)]; inversion H; subst; cbn; destruct (ok e) eqn:K; auto; cbn; apply ok_true in K; subst; auto.
  - intros N. destruct s as [x ty|x vt|c ty| |c|]; cbn; try reflexivity; [| |congruence]; (destruct (ty =? 2) eqn:T; [|unfold PSOCK_SOCKET_TYPE_DATAGRAM; rewrite T; reflexivity]); apply Z.eqb_eq in T; subst; exfalso; apply N; [left|right]; eauto.
Qed.
Definition right (m : Z * Z * list Z) : Prop := fst m = (SOL_SOCKET, SCM_RIGHTS).
(** psock_read_raw_descriptor returns the first descriptor that comes with rights. *)
Theorem C57_receive : forall h p e cs s, hget h p = Some s -> s <> SDead ->
  (~ datagram h p -> receive_descriptor h p e cs = Some (ERROR_PSOCK_UNSUPPORTED_TYPE, None)) /\
  (datagram h p -> e <> STATUS_SUCCESS -> receive_descriptor h p e cs = Some (e, Some (-1))) /\
  (datagram h p -> e = STATUS_SUCCESS -> Forall (fun m => ~ right m) cs -> receive_descriptor h p e cs = Some (ERROR_PSOCK_READ_GENERAL, Some (-1))) /\
  (datagram h p -> e = STATUS_SUCCESS -> forall c1 m fd fs c2, cs = c1 ++ (m, fd :: fs) :: c2 -> Forall (fun m => ~ right m) c1 -> m = (SOL_SOCKET, SCM_RIGHTS) -> 0 <= fd ->
     receive_descriptor h p e cs = Some (STATUS_SUCCESS, Some fd)).
Proof.
  intros h p e cs s G D. unfold receive_descriptor. rewrite G.
  assert (SKIP : forall c1 c2, Forall (fun m => ~ right m) c1 -> first_rights (c1 ++ c2) = first_rights c2).
  { induction c1 as [|[[le ty] fs] c1 IH]; intros c2 F; [auto|]. inversion F as [|? ? H1 H2]; subst. cbn [app first_rights]. destruct (Z.eqb_spec le SOL_SOCKET); destruct (Z.eqb_spec ty SCM_RIGHTS); cbn [andb]; auto. subst. exfalso. apply H1. reflexivity. }
  assert (DG : datagram h p -> exists ty, type_of s = Some ty /\ negb (ty =? PSOCK_SOCKET_TYPE_DATAGRAM) || negb (has_msg s) = false).
  { intros [(x & H)|(x & H)]; rewrite G in H; inversion H; subst; eexists; (split; [reflexivity|]); reflexivity. }
  split. { intros N. unfold datagram in N. rewrite G in N. destruct s as [x ty|x vt|c ty| |c|]; cbn; try reflexivity; [| |congruence]; (destruct (ty =? 2) eqn:T; [|unfold PSOCK_SOCKET_TYPE_DATAGRAM; rewrite T; reflexivity]); apply Z.eqb_eq in T; subst; exfalso; apply N; [left|right]; eauto. }
  split. { intros DD H. destruct (DG DD) as (ty & -> & ->). apply ok_false in H. rewrite H. reflexivity. }
  split. { intros DD -> F. destruct (DG DD) as (ty & -> & ->). change (ok STATUS_SUCCESS) with true. cbn [negb]. rewrite <- (app_nil_r cs), SKIP by auto. reflexivity. }
  intros DD -> c1 m fd fs c2 -> F -> P. destruct (DG DD) as (ty & -> & ->). change (ok STATUS_SUCCESS) with true. cbn [negb]. rewrite SKIP by auto. cbn [first_rights]. rewrite !Z.eqb_refl. cbn [andb]. destruct (Z.ltb_spec fd 0); [lia|]. reflexivity.
Qed.
(** But the room for control messages holds two descriptors: of a message with two, the second
    stays open and nobody is told of it. *)
Theorem C57_receive_refuted : forall a p w v fd1 o1 fd2 o2, matches w v -> datagram (w_h w) p -> a_ret a = STATUS_SUCCESS ->
  a_cms a = [((SOL_SOCKET, SCM_RIGHTS), [(fd1, o1); (fd2, o2)])] -> cmsg_len (4 * 2) <= descriptor_room /\
  (0 <= fd1 -> fd2 <> fd1 -> w_t w fd1 = None -> w_t w fd2 = None ->
   exists w', exec (OReceive p) a w = Some ((STATUS_SUCCESS, fd1), w') /\ w_t w' fd2 = Some o2 /\ ~ matches w' (View ((fd1, o1) :: mine v) (socks v))).
Proof.
  intros a p w v fd1 o1 fd2 o2 M DG R C. split; [vm_compute; discriminate|]. intros P NE F1 F2.
  assert (X : exists s, hget (w_h w) p = Some s /\ s <> SDead) by (destruct DG as [(x & H)|(x & H)]; eexists; (split; [exact H|discriminate])). destruct X as (s & G & D).
  destruct (C57_receive (w_h w) p (a_ret a) [((SOL_SOCKET, SCM_RIGHTS), [fd1; fd2])] s G D) as (_ & _ & _ & K). eexists. split.
  - cbn [exec]. rewrite C. cbn [map fst snd]. rewrite (K DG R [] _ fd1 [fd2] [] eq_refl (Forall_nil _) eq_refl P). change (ok STATUS_SUCCESS) with true. reflexivity.
  - unfold rights. cbn [flat_map]. rewrite !Z.eqb_refl. cbn [andb app install w_t]. assert (T2 : fd_put (fd_put (w_t w) fd1 (Some o1)) fd2 (Some o2) fd2 = Some o2) by (unfold fd_put; rewrite Z.eqb_refl; auto). split; [exact T2|].
    intros (_ & E & _). apply E in T2. cbn [mine socks app] in T2. destruct T2 as [K2|K2]; [inversion K2; congruence|]. destruct M as (_ & E0 & _). apply E0 in K2. congruence.
Qed.
(** psock_socket_type answers one of the documented values, except for a buffered socket. *)
Theorem C57_type_partial : forall a fd s, s = SDesc fd (socket_type (a_type a)) \/ (exists ctx vt, s = SUser ctx vt) \/ s = SBuf \/ (exists c, s = SWrap c (socket_type (a_type a))) -> exists ty, type_of s = Some ty /\ (ty = 1 \/ ty = 2 \/ ty = 3).
Proof.
  intros a fd s [->|[(ctx & vt & ->)|[->|(c & ->)]]]; cbn [type_of]; eexists; (split; [reflexivity|]); unfold socket_type; repeat (match goal with |- context [match ?x with _ => _ end] => destruct x end); auto.
Qed.
Theorem C57_type_refuted : forall c, type_of (SBr c) = Some 0.
Proof. reflexivity. Qed.

(** ** C58 *)
(** A method's call is served by what the specification says, and by nothing else. *)
Theorem C58_sound_partial : forall n h p m d, method n h p m = Some d -> serves h m p d.
Proof.
  induction n as [|n IH]; intros h p m d H; [discriminate|]. cbn [method] in H. destruct (hget h p) as [s|] eqn:G; [|discriminate].
  assert (O1 : optional MAccept) by (left; auto). assert (O2 : optional MSendmsg) by (right; left; auto). assert (O3 : optional MRecvmsg) by (right; right; auto).
  destruct s as [fd ty|ctx vt|c ty| |c|], m; try discriminate; unfold undefined_method in H;
    try (destruct (Z.eqb_spec (vt_fn vt MRead) 0); try discriminate); try (destruct (Z.eqb_spec (vt_fn vt MWrite) 0); try discriminate);
    try (destruct (Z.eqb_spec (vt_fn vt MAccept) 0)); try (destruct (Z.eqb_spec (vt_fn vt MSendmsg) 0)); try (destruct (Z.eqb_spec (vt_fn vt MRecvmsg) 0));
    try (inversion H; subst; clear H);
    first [ eapply s_desc; eassumption | eapply s_user; eauto; discriminate | eapply s_user_null; eassumption | eapply s_user_option; eauto; fail
          | eapply s_wrap; eauto; discriminate | eapply s_wrap_option; eauto; fail | eapply s_br_read; eauto; fail | eapply s_br_option; eauto; fail | eapply s_br; eauto; fail
          | eapply s_buf; auto; fail | eapply s_buf_accept; auto; fail | eapply s_buf_none; auto; fail ].
Qed.
Theorem C58_complete_partial : forall h m p d, serves h m p d -> exists N, forall n, (N <= n)%nat -> method n h p m = Some d.
Proof.
  intros h m p d X. induction X.
  all: try (destruct IHX as (N & IH); exists (S N); intros n L; destruct n as [|n]; [lia|]; cbn [method]; rewrite H; assert (L' : (N <= n)%nat) by lia; specialize (IH _ L')).
  all: try (exists 1%nat; intros n L; destruct n as [|n]; [lia|]; cbn [method]; rewrite H).
  - reflexivity.
  - apply Z.eqb_neq in H1. destruct m; rewrite ?H1; try reflexivity. congruence.
  - apply Z.eqb_eq in H1. destruct H0 as [->|[->| ->]]; rewrite H1; reflexivity.
  - subst. reflexivity.
  - destruct m; auto. congruence.
  - subst. reflexivity.
  - subst. reflexivity.
  - destruct H0 as [->|[->|[->| ->]]]; auto.
  - subst. reflexivity.
  - destruct H0 as [->| ->]; reflexivity.
  - subst. reflexivity.
  - destruct H0 as [->|[->| ->]]; reflexivity.
Qed.
(** So the methods that a user supplies are called with the user's context, *)
Theorem C58_user_partial : forall a ctx vt w p w', from_user_methods a ctx vt w = (STATUS_SUCCESS, p, w') -> forall n, let call m := method (S n) (w_h w') p m in
  (forall m, m <> MSetsockopt -> vt_fn vt m <> 0 -> call m = Some (ToUser (vt_fn vt m) ctx)) /\
  (forall m, optional m -> vt_fn vt m = 0 -> call m = Some (Refused ERROR_PSOCK_METHOD_UNDEFINED)).
Proof.
  intros a ctx vt w p w' H n call. unfold from_user_methods, made in H. destruct (ok (a_al a)) eqn:K; cbn [negb] in H; [|inversion H as [[E1 E2 E3]]; rewrite E1 in K; discriminate]. inversion H; subst. unfold call. cbn [w_h method]. rewrite hget_hadd_same. split.
  - intros m N X. apply Z.eqb_neq in X. destruct m; rewrite ?X; try reflexivity. congruence.
  - intros m [->|[->| ->]] X; apply Z.eqb_eq in X; rewrite X; reflexivity.
Qed.
(** except the one for socket options, which is never called; and a table without a function to
    read or to write is not refused: reading or writing is undefined. *)
Theorem C58_user_refuted : forall a ctx vt w p w', from_user_methods a ctx vt w = (STATUS_SUCCESS, p, w') -> forall n, let call m := method (S n) (w_h w') p m in
  call MSetsockopt = Some (Refused ERROR_PSOCK_METHOD_UNDEFINED) /\ (vt_fn vt MRead = 0 -> call MRead = None) /\ (vt_fn vt MWrite = 0 -> call MWrite = None).
Proof.
  intros a ctx vt w p w' H n call. unfold from_user_methods, made in H. destruct (ok (a_al a)) eqn:K; cbn [negb] in H; [|inversion H as [[E1 E2 E3]]; rewrite E1 in K; discriminate]. inversion H; subst. unfold call. cbn [w_h method]. rewrite hget_hadd_same. split; [reflexivity|]. split; intros ->; reflexivity.
Qed.
(** Wrapping a descriptor for asynchronous use keeps its methods, but for socket options *)
Theorem C58_wrapped_refuted : forall a c fd ty w p w', hwf (w_h w) -> hget (w_h w) c = Some (SDesc fd ty) -> good_pick (a_pick a) -> wrap_async a c w = Some (STATUS_SUCCESS, p, w') -> forall n,
  (forall m, method (S n) (w_h w) c m = Some (ToKernel fd)) /\
  (forall m, m <> MSetsockopt -> method (S (S n)) (w_h w') p m = Some (ToKernel fd)) /\
  method (S (S n)) (w_h w') p MSetsockopt = Some (Refused ERROR_PSOCK_METHOD_UNDEFINED).
Proof.
  intros a c fd ty w p w' WF G GP H n. assert (ND : SDesc fd ty <> SDead) by discriminate. destruct (C57_wrap a c w _ G ND WF GP) as (_ & K). destruct (K _ _ eq_refl) as (K1 & K2 & K3 & K4). split. { intros m. cbn [method]. rewrite G. destruct m; reflexivity. }
  destruct (Z.eq_dec (a_disc a) STATUS_SUCCESS) as [D|D]. 2:{ rewrite (K1 D) in H. inversion H. congruence. }
  destruct (Z.eq_dec (a_al a) STATUS_SUCCESS) as [A|A]. 2:{ rewrite (K2 D A) in H. inversion H. congruence. }
  destruct (Z.eq_dec (a_nb a) STATUS_SUCCESS) as [B|B].
  2:{ destruct (K3 D A B) as (w2 & E & _). rewrite E in H. destruct (ok (a_rc a 0)) eqn:R; inversion H as [[E1 E2 E3]]; [congruence|rewrite E1 in R; discriminate]. }
  destruct (K4 D A B) as (q & w2 & E & _ & _ & P & GW & FR). rewrite E in H. injection H as -> ->. cbn [method]. rewrite GW. assert (NE : c <> p). { intros ->. apply (proj2 (GP (addrs (w_h w)))). rewrite <- P. eapply hget_in; exact G. }
  split; [|reflexivity]. intros m N. rewrite (FR c NE), G. destruct m; try reflexivity. congruence.
Qed.

(** A history: listen, wrap, accept a descriptor, make a socket of it, release all, with a socket
    of user methods and one that fails on the way. *)
Definition base_ans : ans := An (-1) 0 0 0 0 0 None None (Some 1) STATUS_SUCCESS STATUS_SUCCESS STATUS_SUCCESS pick_max (fun _ => STATUS_SUCCESS) STATUS_SUCCESS STATUS_SUCCESS [].
Definition with_fd (fd obj : Z) (a : ans) : ans := An fd obj (a_bind a) (a_listen a) (a_connect a) (a_close a) (a_h4 a) (a_h6 a) (a_type a) (a_disc a) (a_nb a) (a_al a) (a_pick a) (a_rc a) (a_user a) (a_ret a) (a_cms a).
Definition with_alloc (e : Z) (a : ans) : ans := An (a_fd a) (a_obj a) (a_bind a) (a_listen a) (a_connect a) (a_close a) (a_h4 a) (a_h6 a) (a_type a) (a_disc a) (a_nb a) e (a_pick a) (a_rc a) (a_user a) (a_ret a) (a_cms a).
Definition with_rights (fd obj : Z) (a : ans) : ans := An (a_fd a) (a_obj a) (a_bind a) (a_listen a) (a_connect a) (a_close a) (a_h4 a) (a_h6 a) (Some 2) (a_disc a) (a_nb a) (a_al a) (a_pick a) (a_rc a) (a_user a) (a_ret a) [((SOL_SOCKET, SCM_RIGHTS), [(fd, obj)])].
Definition user_table : vtable := VT (fun m => match m with MRead => 501 | MWrite => 502 | _ => 0 end) 509.
Definition day : list (op * ans) :=
  [ (OListen 80, with_alloc ERROR_GENERAL_OUT_OF_MEMORY (with_fd 3 30 base_ans)); (OListen 80, with_fd 3 31 base_ans); (OWrap 1, base_ans); (OAccept 2, with_fd 4 41 base_ans); (OFromDescriptor 4, base_ans);
    (OUser 77 user_table, base_ans); (OOpen, with_fd 5 51 base_ans); (OFromDescriptor 5, with_rights 6 61 base_ans); (OReceive 5, with_rights 6 61 base_ans); (OSend 5 6, base_ans); (OClose 6, base_ans);
    (ORelease 4, base_ans); (ORelease 3, base_ans); (ORelease 2, base_ans); (ORelease 5, base_ans) ].
Example ex_C57_proper : proper day (W (fun _ => None) [] []) (View [] []).
Proof.
  unfold day. cbn -[fair]. repeat match goal with
  | |- _ /\ _ => split
  | |- fair _ _ => split; [exact pick_max_good|]; split; [first [left; reflexivity|right; reflexivity]|first [left; reflexivity|right; do 2 eexists; split; [reflexivity|]; split; [discriminate|reflexivity]]]
  | |- allowed _ _ => split
  | |- object _ _ <> None => discriminate
  | |- holding _ _ <> None => discriminate
  | |- True => exact Logic.I
  | |- _ <> _ => discriminate
  end.
Qed.
Example ex_C57_day : match run day (W (fun _ => None) [] []) with
  | Some (rs, w) => rs = [(ERROR_GENERAL_OUT_OF_MEMORY, 0); (0, 1); (0, 2); (0, 4); (0, 3); (0, 4); (0, 5); (0, 5); (0, 6); (0, 0); (0, 0); (0, 0); (0, 0); (0, 0); (0, 0)] /\ w_h w = [] /\ w_t w 3 = None /\
      w_log w = [CClose 5; CClose 3; CClose 4; CRelease 509 77; CNonblock 3; CListen 3 32; CBind 3 80; CSocket 2 1; CClose 3; CListen 3 32; CBind 3 80; CSocket 2 1] /\ afters day rs (View [] []) = View [] []
  | None => False end.
Proof. vm_compute. auto. Qed.
Example ex_C57_connect : exists p w, from_hostname_and_port (with_fd 3 30 (An 0 0 0 0 0 0 None (Some 99) (Some 1) 0 0 0 pick_max (fun _ => 0) 0 0 [])) 70000 (W (fun _ => None) [] []) = (STATUS_SUCCESS, p, w) /\ w_log w = [CConnect 3 10 99 4464; CSocket 10 1].
Proof. do 2 eexists. split; reflexivity. Qed.
Example ex_C57_two : datagram [(1, SDesc 3 2)] 1 /\ matches (W (fun x => if x =? 3 then Some 30 else None) [(1, SDesc 3 2)] []) (View [] [Held [1] [(3, 30)]]).
Proof.
  split; [left; eexists; reflexivity|]. cbn. split; [repeat constructor; intros []|]. split; [|split; [repeat constructor; intros []|]].
  - intros fd obj. cbn [w_t In mine socks flat_map fds app]. destruct (Z.eqb_spec fd 3) as [E|E]; split; [intros H; inversion H; subst; auto|intros [H|[]]; inversion H; subst; auto|discriminate|intros [H|[]]; inversion H; subst; congruence].
  - intros p. cbn [w_h In mine socks flat_map structs app hget]. destruct (Z.eqb_spec p 1) as [E|E]; split; [auto|intros _; eexists; split; [reflexivity|discriminate]|intros (s & H & _); discriminate|intros [H|[]]; congruence].
Qed.
Example ex_C58 : let h := [(1, SDesc 3 1); (2, SWrap 1 1); (3, SBr 2); (4, SUser 77 user_table); (5, SBr 4); (6, SBuf)] in
  map (method 7 h 3) [MRead; MWrite; MAccept; MSetsockopt] = [Some (ToBuffer 3); Some (ToKernel 3); Some (ToKernel 3); Some undefined_method] /\
  map (method 7 h 5) [MRead; MWrite; MAccept; MSetsockopt] = [Some (ToBuffer 5); Some (ToUser 502 77); Some undefined_method; Some undefined_method] /\
  method 7 h 6 MRead = Some (ToMemory 6) /\ serves h MWrite 3 (ToKernel 3).
Proof. split; [reflexivity|]. split; [reflexivity|]. split; [reflexivity|]. apply (C58_sound_partial 7). reflexivity. Qed.

Print Assumptions C57_history_partial.
Print Assumptions C57_nothing_left.
Print Assumptions C57_from_descriptor.
Print Assumptions C57_listen.
Print Assumptions C57_connect.
Print Assumptions C57_port_refuted.
Print Assumptions C57_plain.
Print Assumptions C57_wrap.
Print Assumptions C57_release.
Print Assumptions C57_send.
Print Assumptions C57_receive.
Print Assumptions C57_receive_refuted.
Print Assumptions C57_type_partial.
Print Assumptions C57_type_refuted.
Print Assumptions C58_sound_partial.
Print Assumptions C58_complete_partial.
Print Assumptions C58_user_partial.
Print Assumptions C58_user_refuted.
Print Assumptions C58_wrapped_refuted.
