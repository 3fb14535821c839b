(** Lemmas for C65: the invariant of the echo server, and the part of it about sockets. *)
From Verif Require Import Base Status MemModel MemProofs Heap TabModel TabSpec TabProofs SchedModel SchedSpec SchedProofs SchedHist MsgModel CondSpec IoModel IoSpec IoProofs ServModel ServSpec.

(** ** Places *)
(** A fiber: suspended, running, made but not yet added, ended, and taken out of the tree. *)
Inductive place := At (q : susp) | Run | Made | Ended | Unlinked.
Definition pmap := Z -> option place.
Definition upd (P : pmap) (f : Z) (x : option place) : pmap := fun g => if g =? f then x else P g.
Lemma upd_same : forall P f x, upd P f x f = x.
Proof. intros. unfold upd. rewrite Z.eqb_refl. auto. Qed.
Lemma upd_other : forall P f x g, g <> f -> upd P f x g = P g.
Proof. intros. unfold upd. destruct (Z.eqb_spec g f); [congruence|auto]. Qed.
Definition life_at (p : option place) : option Z :=
  match p with
  | None => None | Some (At UStart) | Some Made => Some CREATED
  | Some (At _) | Some Run => Some RUNNING | Some Ended | Some Unlinked => Some STOPPED
  end.
Definition linked (p : option place) : bool := match p with Some (At _) | Some Run | Some Ended => true | _ => false end.

(** ** Sockets *)
(** The sockets [sk] of the fibers: each is live with its own descriptor, and notes as blocked at
    most its fiber where [W] allows that; the kernel's interest list points to them. *)
Record io_inv (sk : heap Z) (W : Z -> bool -> Prop) (m : iost ep) : Prop := IoInv
  { n_swf : hwf sk;
    n_iwf : hwf (io_socks m);
    n_sock : forall f s, hget sk f = Some s -> exists b, hget (io_socks m) s = Some b /\ forall wr, ws_fib wr b = 0 \/ ws_fib wr b = f /\ W f wr;
    n_owner : forall s b, hget (io_socks m) s = Some b -> exists f, hget sk f = Some s;
    n_inj : forall f g s, hget sk f = Some s -> hget sk g = Some s -> f = g;
    n_fd : forall s t b b', hget (io_socks m) s = Some b -> hget (io_socks m) t = Some b' -> ws_fd b = ws_fd b' -> s = t;
    n_nodup : NoDup (addrs (ep_set (io_k m)));
    n_set : forall fd i, hget (ep_set (io_k m)) fd = Some i -> exists b, hget (io_socks m) (it_ptr i) = Some b /\ ws_fd b = fd }.
Lemma io_weaken : forall sk (W W' : Z -> bool -> Prop) m, io_inv sk W m -> (forall f wr, W f wr -> W' f wr) -> io_inv sk W' m.
Proof. intros sk W W' m H K. destruct H. constructor; auto. intros f s E. destruct (n_sock0 _ _ E) as (b & B & F). exists b. split; [auto|]. intros wr. destruct (F wr) as [|[]]; auto. Qed.
Lemma hget_hdel_nd : forall A (h : heap A) p q v, NoDup (addrs h) -> hget (hdel h p) q = Some v -> q <> p /\ hget h q = Some v.
Proof.
  intros A h p q v. induction h as [|[x y] t IH]; cbn [hdel hget addrs map fst]; intros N H; [discriminate|]. inversion N; subst.
  destruct (Z.eqb_spec p x) as [->|E].
  - destruct (Z.eqb_spec q x) as [->|E']; [|auto]. exfalso. apply H2. eapply hget_in; eauto.
  - cbn [hget] in H. destruct (Z.eqb_spec q x) as [->|E']; [split; [congruence|auto]|auto].
Qed.
Lemma hdel_nd : forall A (h : heap A) p, NoDup (addrs h) -> NoDup (addrs (hdel h p)).
Proof.
  intros A h p. induction h as [|[x y] t IH]; cbn [hdel addrs map fst]; intros N; [auto|]. inversion N; subst. destruct (p =? x); [auto|]. cbn [addrs map fst]. constructor; [|auto].
  intros K. apply H1. eapply hdel_in; eauto.
Qed.
Lemma io_new : forall sk W m fd s f, io_inv sk W m -> s <> 0 -> hget (io_socks m) s = None -> (forall t b, hget (io_socks m) t = Some b -> ws_fd b <> fd) -> f <> 0 -> hget sk f = None ->
  io_inv (hadd sk f s) W (IO (hadd (io_socks m) s (WS fd 0 0)) (io_k m)).
Proof.
  intros sk W m fd s f H S N FD F0 FN. destruct H. constructor; cbn [io_socks io_k]; auto using hadd_wf.
  - intros g t E. rewrite hget_hadd in E. rewrite hget_hadd. destruct (Z.eqb_spec g f) as [->|G].
    + inversion E; subst t. rewrite Z.eqb_refl. eexists. split; [reflexivity|]. intros []; left; reflexivity.
    + destruct (n_sock0 _ _ E) as (b & B & FF). destruct (Z.eqb_spec t s) as [->|]; [congruence|]. eauto.
  - intros t b. rewrite hget_hadd. destruct (Z.eqb_spec t s) as [->|T]; intros E.
    + exists f. apply hget_hadd_same.
    + destruct (n_owner0 _ _ E) as (g & G). exists g. rewrite hget_hadd_other; [auto|]. intros ->. congruence.
  - intros g h t. rewrite !hget_hadd. assert (X : forall g, hget sk g <> Some s). { intros g' K. destruct (n_sock0 _ _ K) as (b & B & _). congruence. }
    destruct (Z.eqb_spec g f), (Z.eqb_spec h f); intros E1 E2; subst; auto.
    + inversion E1; subst. exfalso. eapply X; eauto.
    + inversion E2; subst. exfalso. eapply X; eauto.
    + eauto.
  - intros t u b b'. rewrite !hget_hadd. destruct (Z.eqb_spec t s), (Z.eqb_spec u s); intros E1 E2 E3; subst; auto.
    + inversion E1; subst. exfalso. eapply (FD u b'); eauto.
    + inversion E2; subst. exfalso. eapply (FD t b); eauto.
    + eauto.
  - intros g i E. destruct (n_set0 _ _ E) as (b & B1 & B2). exists b. rewrite hget_hadd_other; [auto|]. intros K. rewrite K in B1. congruence.
Qed.
Lemma io_del : forall sk W m f s b, io_inv sk W m -> hget sk f = Some s -> hget (io_socks m) s = Some b ->
  io_inv (hdel sk f) W (IO (hdel (io_socks m) s) (EP (hdel (ep_set (io_k m)) (ws_fd b)) (ep_ctl (io_k m)))).
Proof.
  intros sk W m f s b H F B. destruct H. constructor; cbn [io_socks io_k ep_set]; auto using hdel_wf, hdel_nd.
  - intros g t E. rewrite hget_hdel in E by auto. destruct (Z.eqb_spec g f) as [|G]; [discriminate|]. destruct (n_sock0 _ _ E) as (b' & B' & FF). exists b'. split; [|auto].
    rewrite hget_hdel_other; auto. intros ->. apply G. eauto.
  - intros t b'. rewrite hget_hdel by auto. destruct (Z.eqb_spec t s) as [|T]; [discriminate|]. intros E. destruct (n_owner0 _ _ E) as (g & G). exists g. rewrite hget_hdel_other; auto. intros ->. congruence.
  - intros g h t. rewrite !hget_hdel by auto. destruct (g =? f), (h =? f); try discriminate. eauto.
  - intros t u b1 b2. rewrite !hget_hdel by auto. destruct (t =? s), (u =? s); try discriminate. eauto.
  - intros fd i E. apply hget_hdel_nd in E as [E1 E2]; auto. destruct (n_set0 _ _ E2) as (b' & B1 & B2). exists b'. split; [|auto]. rewrite hget_hdel_other; auto. intros K. rewrite K in B1. congruence.
Qed.
(** What is noted in a socket changes. *)
Lemma io_note : forall sk (W W' : Z -> bool -> Prop) m f s b b', io_inv sk W m -> hget sk f = Some s -> hget (io_socks m) s = Some b -> ws_fd b' = ws_fd b ->
  (forall wr, ws_fib wr b' = 0 \/ ws_fib wr b' = f /\ W' f wr) -> (forall g wr, g <> f -> W g wr -> W' g wr) -> io_inv sk W' (set_sock s b' m).
Proof.
  intros sk W W' m f s b b' H F B FD N K. destruct H. constructor; cbn [set_sock io_socks io_k]; auto using hset_wf.
  - intros g t E. destruct (n_sock0 _ _ E) as (b1 & B1 & FF). rewrite hget_hset. destruct (Z.eqb_spec t s) as [->|T].
    + rewrite B. exists b'. split; [auto|]. rewrite (n_inj0 g f s); auto.
    + exists b1. split; [auto|]. intros wr. destruct (FF wr) as [|[]]; [auto|]. right. split; [auto|]. apply K; [|auto]. intros ->. congruence.
  - intros t b1. rewrite hget_hset. destruct (Z.eqb_spec t s) as [->|T]; [intros _; eauto|]. eauto.
  - intros t u b1 b2. rewrite !hget_hset. rewrite B. destruct (Z.eqb_spec t s), (Z.eqb_spec u s); intros E1 E2 E3; subst; auto.
    + inversion E1; subst. eapply (n_fd0 s u); eauto. congruence.
    + inversion E2; subst. eapply (n_fd0 t s); eauto. congruence.
    + eauto.
  - intros fd i E. destruct (n_set0 _ _ E) as (b1 & B1 & B2). rewrite hget_hset. destruct (Z.eqb_spec (it_ptr i) s) as [K1|]; [|eauto].
    rewrite B. exists b'. split; [auto|]. rewrite K1 in B1. congruence.
Qed.
(** The kernel's interest changes. *)
Definition same_set (s : Z) (fd : Z) (k k' : ep) : Prop :=
  NoDup (addrs (ep_set k)) -> NoDup (addrs (ep_set k')) /\ forall fd' i, hget (ep_set k') fd' = Some i -> hget (ep_set k) fd' = Some i \/ fd' = fd /\ it_ptr i = s.
Lemma ctl_set : forall add fd i k e k', epoll_ctl add fd i k = (e, k') -> same_set (it_ptr i) fd k k'.
Proof.
  intros add fd i k e k' H N. unfold epoll_ctl in H. destruct (negb _); [inversion H; subst; auto|].
  destruct (hget (ep_set k) fd) eqn:G; destruct add; inversion H; subst; cbn [ep_set]; auto.
  - rewrite hset_addrs. split; [auto|]. intros fd' j. rewrite hget_hset. destruct (Z.eqb_spec fd' fd) as [->|]; [|auto]. rewrite G. intros E; inversion E; auto.
  - split; [cbn; constructor; [apply hget_none; auto|auto]|]. intros fd' j. rewrite hget_hadd. destruct (Z.eqb_spec fd' fd) as [->|]; [|auto]. intros E; inversion E; auto.
Qed.
Lemma arm_set : forall s b k, same_set s (ws_fd b) k (snd (arm s b k)).
Proof.
  intros s b k. unfold arm. destruct (epoll_ctl false _ _ k) as [e k1] eqn:E1. pose proof (ctl_set _ _ _ _ _ _ E1) as C1. cbn [it_ptr] in C1.
  destruct (e =? ENOENT); [|exact C1]. destruct (epoll_ctl true _ _ k1) as [e2 k2] eqn:E2. pose proof (ctl_set _ _ _ _ _ _ E2) as C2. cbn [it_ptr snd] in *.
  intros N. destruct (C1 N) as [N1 D1]. destruct (C2 N1) as [N2 D2]. split; [auto|]. intros fd i H. destruct (D2 _ _ H) as [H2|H2]; auto.
Qed.
Lemma io_set : forall sk W m s b k, io_inv sk W m -> hget (io_socks m) s = Some b -> same_set s (ws_fd b) (io_k m) k -> io_inv sk W (set_k k m).
Proof.
  intros sk W m s b k H B S. destruct H. destruct (S n_nodup0) as [N1 N2]. constructor; cbn [set_k io_socks io_k]; auto.
  intros fd i E. destruct (N2 _ _ E) as [E'|[-> ->]]; eauto.
Qed.
Lemma outputs_set : forall n r h l h', epoll_outputs n r h = (l, h') -> addrs h' = addrs h /\
  (forall fd i, hget h' fd = Some i -> exists j, hget h fd = Some j /\ it_ptr j = it_ptr i) /\ (forall x, In x l -> exists fd i, hget h fd = Some i /\ it_ptr i = snd x).
Proof.
  intros n r. revert n. induction r as [|[fd m] r IH]; intros n h l h' H; destruct n as [|n]; cbn [epoll_outputs] in H; try (inversion H; subst; split; [auto|]; split; [eauto|intros x []]).
  destruct (hget h fd) as [i|] eqn:G; [|eauto]. destruct (it_on i && _); [|eauto].
  destruct (epoll_outputs n r _) as [l1 h1] eqn:E. inversion H; subst. destruct (IH _ _ _ _ E) as (A1 & A2 & A3). rewrite hset_addrs in A1. split; [auto|].
  assert (BK : forall fd' j, hget (hset h fd (It (it_ev i) (it_ptr i) (negb (has (it_ev i) ONESHOT)))) fd' = Some j -> exists j', hget h fd' = Some j' /\ it_ptr j' = it_ptr j).
  { intros fd' j K. rewrite hget_hset in K. destruct (Z.eqb_spec fd' fd) as [->|]; [|eauto]. rewrite G in K. inversion K. eauto. }
  split.
  - intros fd' j K. destruct (A2 _ _ K) as (j1 & J1 & J2). destruct (BK _ _ J1) as (j2 & J3 & J4). exists j2. split; [auto|congruence].
  - intros x [<-|K]; [cbn [snd]; eauto|]. destruct (A3 _ K) as (fd' & j & J1 & J2). destruct (BK _ _ J1) as (j2 & J3 & J4). exists fd', j2. split; [auto|congruence].
Qed.

(** ** The invariant *)
Definition conn_of (c : conf) (f : Z) : Prop := f <> c_main c /\ f <> c_mgr c /\ f <> c_lis c /\ f <> c_idle c.
(** Where a fiber can be; [md] is what the main fiber is asking of all fibers. *)
Definition role (c : conf) (md : option bool) (f : Z) (p : option place) : Prop :=
  if f =? c_main c then match p with Some Run | Some (At (UWait false)) => md = None | Some (At (UReq t)) => md = Some t | _ => False end
  else if f =? c_mgr c then match p with Some Run | Some (At URecv) => True | Some (At UStart) => md = None | _ => False end
  else if f =? c_idle c then match p with Some Run | Some (At UStart) | Some (At UIdle) => True | _ => False end
  else if f =? c_lis c then match p with None | Some Run | Some (At UStart) | Some (At (UWait false)) | Some (At UAdd) | Some Ended | Some Unlinked => True | _ => False end
  else match p with Some (At UAdd) | Some (At (UReq _)) | Some (At URecv) | Some (At UIdle) => False | _ => True end.
Definition waits (P : pmap) (bk : option bool) (f : Z) (wr : bool) : Prop := P f = Some (At (UWait wr)) \/ P f = Some Run /\ bk = Some wr.
Definition has_sock (c : conf) (sk : heap Z) (f : Z) (p : option place) : Prop :=
  match p with
  | Some (At (UWait _)) | Some (At UAdd) => hget sk f <> None
  | Some (At UStart) => if f =? c_lis c then hget sk f = None else conn_of c f -> hget sk f <> None
  | None | Some Ended | Some Unlinked => hget sk f = None
  | _ => True
  end.
Definition unblocked (sk : heap Z) (m : iost ep) (f : Z) (wr : bool) : Prop := forall s b, hget sk f = Some s -> hget (io_socks m) s = Some b -> ws_fib wr b = 0.
Definition told (t : bool) (f : Z) : bool * entry := (false, (f, (MANAGEMENT_ID, request_event t, 0))).
Definition answered (c : conf) : bool * entry := (false, (c_main c, (MANAGEMENT_ID, MGMT_RESULT, STATUS_SUCCESS))).
Definition ready_ok (c : conf) (P : pmap) (sk : heap Z) (qz : bool) (md : option bool) (m : iost ep) (r : list (bool * entry)) : Prop :=
  match md with
  | None =>
      (forall b f d e p, In (b, (f, (d, e, p))) r -> f <> c_idle c /\
         match P f with Some (At UStart) | Some (At UAdd) => True | Some (At (UWait wr)) => d = IO_ID /\ unblocked sk m f wr | _ => False end) /\
      (forall f, P f = Some (At UStart) -> f = c_idle c \/ In f (map who r)) /\ (forall f, P f = Some (At UAdd) -> In f (map who r))
  | Some t =>
      exists l, r = map (told t) l ++ [answered c] /\ (forall f, In f l -> f <> c_main c /\ exists wr, P f = Some (At (UWait wr))) /\
        (forall f, P f = Some (At UStart) -> f = c_idle c) /\ (forall f, P f <> Some (At UAdd)) /\
        (forall f wr, P f = Some (At (UWait wr)) -> In f l \/ f = c_lis c /\ t = false /\ qz = true)
  end.
Record core (c : conf) (P : pmap) (sk : heap Z) (qz : bool) (md : option bool) (bk : option bool) (a : ast (iost ep * unit)) : Prop := Core
  { k_conf : good_conf c;
    k_life : forall f, hget (a_life a) f = life_at (P f);
    k_lwf : hwf (a_life a);
    k_known : forall f, In f (a_known a) <-> f <> c_main c /\ f <> c_idle c /\ linked (P f) = true;
    k_nd : NoDup (a_known a);
    k_idle : a_idle a = c_idle c;
    k_mgmt : a_mgmt a = match P (c_mgr c) with Some (At URecv) => c_mgr c | _ => 0 end;
    k_al : a_al a = [];
    k_disc : hget (a_discs a) (c_disc c) = Some io_dd;
    k_role : forall f, role c md f (P f);
    k_rnd : NoDup (map who (a_ready a));
    k_ready : ready_ok c P sk qz md (fst (a_user a)) (a_ready a);
    k_has : forall f, has_sock c sk f (P f);
    k_own : hget sk (c_main c) = Some (c_sig c) /\ hget sk (c_mgr c) = None /\ hget sk (c_idle c) = None;
    k_io : io_inv sk (waits P bk) (fst (a_user a));
    k_boot : P (c_mgr c) = Some (At UStart) -> map who (a_ready a) = [c_mgr c; c_lis c] /\ P (c_lis c) = Some (At UStart) /\ P (c_idle c) = Some (At UStart) /\ forall f, conn_of c f -> P f = None }.
Definition back_of (st : stage) : option bool := match st with PBack wr _ _ => Some wr | _ => None end.
Definition made_of (st : stage) : option Z := match st with PWrap _ _ g | PAdd g => Some g | _ => None end.
Definition ended_of (st : stage) : option Z := match st with PEvent d ev p => if (d =? MANAGEMENT_ID) && (ev =? MGMT_FIBER_STOP) then Some p else None | _ => None end.
Definition unlinked_of (st : stage) : option Z := match st with PFree g => Some g | _ => None end.
Definition stage_at (c : conf) (P : pmap) (sk : heap Z) (qz : bool) (md : option bool) (m : iost ep) (f : Z) (st : stage) : Prop :=
  let user := f <> c_mgr c /\ f <> c_idle c in
  let sock := hget sk f <> None in
  let fresh fd s := s <> 0 /\ hget (io_socks m) s = None /\ (forall t b, hget (io_socks m) t = Some b -> ws_fd b <> fd) in
  match st with
  | PRead => md = None /\ user /\ sock
  | PWrite => md = None /\ conn_of c f /\ sock
  | PBlock wr => (md = None \/ f = c_lis c /\ md = Some false /\ qz = true) /\ user /\ sock /\ (f = c_main c \/ f = c_lis c -> wr = false)
  | PBack wr d ev => (md = None /\ d = IO_ID \/ exists t, md = Some t /\ d = MANAGEMENT_ID /\ ev = request_event t) /\ user /\ sock /\ (f = c_main c \/ f = c_lis c -> wr = false)
  | POpen => md = None /\ f = c_lis c /\ hget sk f = None
  | PMake fd s g => md = None /\ f = c_lis c /\ sock /\ qz = false /\ g <> 0 /\ P g = None /\ fresh fd s
  | PWrap fd s g => md = None /\ f = c_lis c /\ sock /\ qz = false /\ hget sk g = None /\ fresh fd s
  | PAdd g => md = None /\ f = c_lis c /\ sock /\ qz = false /\ hget sk g <> None
  | PReceive => f = c_mgr c
  | PEvent d ev p => f = c_mgr c /\ d = MANAGEMENT_ID /\ (ev = MGMT_FIBER_ADD \/ ev = MGMT_FIBER_STOP)
  | PFree g => f = c_mgr c
  | PRound | PIdle => md = None /\ f = c_idle c
  | PUnidle => False
  | PClose => user /\ f <> c_main c /\ sock
  | PReturn => user /\ f <> c_main c /\ hget sk f = None
  | PLeft e => f = c_main c /\ (e = STATUS_SUCCESS -> forall g, P g <> None -> g = c_main c \/ g = c_mgr c \/ g = c_idle c)
  end.
Definition stage_ok (c : conf) (P : pmap) (sk : heap Z) (qz : bool) (md : option bool) (m : iost ep) (f : Z) (st : stage) : Prop :=
  P f = Some Run /\ (forall g, P g = Some Run -> g = f) /\
  (forall g, P g = Some Made <-> made_of st = Some g) /\ (forall g, P g = Some Ended <-> ended_of st = Some g) /\ (forall g, P g = Some Unlinked <-> unlinked_of st = Some g) /\
  stage_at c P sk qz md m f st.
Definition hist (c : conf) (P : pmap) (md : option bool) (v : serv) : Prop :=
  match v_thr v, v_chan v with TWait, [] | TSleep, [Quiesce] | TSleep, [] | TEnd, [Quiesce; Terminate] | TEnd, [Terminate] | TEnd, [] => True | _, _ => False end /\
  (forall t, md = Some t -> read_first v /\ (t = true -> read_second v)) /\
  (read_first v -> md = None -> (forall f, conn_of c f -> P f = None) /\ (P (c_lis c) <> None -> v_quiesce v = true)).
Definition susp_at (p : option place) : option susp := match p with Some (At q) => Some q | _ => None end.
Definition sus_ok (P : pmap) (v : serv) : Prop := (forall f, hget (v_sus v) f = susp_at (P f)) /\ hwf (v_sus v).
Definition Inv (c : conf) (v : serv) (a : ast (iost ep * unit)) : Prop :=
  exists P md, sus_ok P v /\ a_cur a = v_cur v /\ core c P (v_socks v) (v_quiesce v) md (back_of (v_stage v)) a /\
    stage_ok c P (v_socks v) (v_quiesce v) md (fst (a_user a)) (v_cur v) (v_stage v) /\ hist c P md v.

Lemma conf_facts : forall c, good_conf c -> c_main c <> c_mgr c /\ c_main c <> c_lis c /\ c_main c <> c_idle c /\ c_mgr c <> c_lis c /\ c_mgr c <> c_idle c /\ c_lis c <> c_idle c /\
  c_main c <> 0 /\ c_mgr c <> 0 /\ c_lis c <> 0 /\ c_idle c <> 0.
Proof.
  intros c (N & _). repeat match goal with H : NoDup (_ :: _) |- _ => inversion H; clear H; subst end. cbn [In] in *.
  repeat split; intros E; rewrite ?E in *; intuition.
Qed.
Ltac eqbs c CF := let a := fresh in let b := fresh in let d := fresh in let e := fresh in let f := fresh in let g := fresh in let h := fresh in let i := fresh in let j := fresh in let k := fresh in
  destruct (conf_facts c CF) as (a & b & d & e & f & g & h & i & j & k).
(** The roles, one by one. *)
Lemma role_main : forall c md p, role c md (c_main c) p -> p = Some Run /\ md = None \/ p = Some (At (UWait false)) /\ md = None \/ exists t, p = Some (At (UReq t)) /\ md = Some t.
Proof. intros c md p. unfold role. rewrite Z.eqb_refl. destruct p as [[[|[]|t| | |]| | | |]|]; intros H; try contradiction; eauto 6. Qed.
Lemma role_mgr : forall c md p, good_conf c -> role c md (c_mgr c) p -> p = Some Run \/ p = Some (At URecv) \/ p = Some (At UStart) /\ md = None.
Proof. intros c md p CF. eqbs c CF. unfold role. destruct (Z.eqb_spec (c_mgr c) (c_main c)); [congruence|]. rewrite Z.eqb_refl. destruct p as [[[|[]|t| | |]| | | |]|]; intros K; try contradiction; auto. Qed.
Lemma role_idle : forall c md p, good_conf c -> role c md (c_idle c) p -> p = Some Run \/ p = Some (At UStart) \/ p = Some (At UIdle).
Proof. intros c md p CF. eqbs c CF. unfold role. destruct (Z.eqb_spec (c_idle c) (c_main c)); [congruence|]. destruct (Z.eqb_spec (c_idle c) (c_mgr c)); [congruence|]. rewrite Z.eqb_refl. destruct p as [[[|[]|t| | |]| | | |]|]; intros K; try contradiction; auto. Qed.
Lemma role_lis : forall c md p, good_conf c -> role c md (c_lis c) p -> p = None \/ p = Some Run \/ p = Some (At UStart) \/ p = Some (At (UWait false)) \/ p = Some (At UAdd) \/ p = Some Ended \/ p = Some Unlinked.
Proof. intros c md p CF. eqbs c CF. unfold role. destruct (Z.eqb_spec (c_lis c) (c_main c)); [congruence|]. destruct (Z.eqb_spec (c_lis c) (c_mgr c)); [congruence|]. destruct (Z.eqb_spec (c_lis c) (c_idle c)); [congruence|]. rewrite Z.eqb_refl. destruct p as [[[|[]|t| | |]| | | |]|]; intros K; try contradiction; tauto. Qed.
Lemma role_conn : forall c md f p, role c md f p -> conn_of c f -> match p with Some (At UAdd) | Some (At (UReq _)) | Some (At URecv) | Some (At UIdle) => False | _ => True end.
Proof. intros c md f p. unfold role, conn_of. intros H (A & B & C & D). repeat match type of H with if ?x =? ?y then _ else _ => destruct (Z.eqb_spec x y); [congruence|] end. auto. Qed.
Lemma who_is : forall c f, f = c_main c \/ f = c_mgr c \/ f = c_idle c \/ f = c_lis c \/ conn_of c f.
Proof. intros c f. unfold conn_of. destruct (Z.eq_dec f (c_main c)), (Z.eq_dec f (c_mgr c)), (Z.eq_dec f (c_idle c)), (Z.eq_dec f (c_lis c)); tauto. Qed.
