From Verif Require Import Base Status MemModel MemProofs Heap TabModel TabProofs SchedModel SchedSpec SchedProofs SchedHist DiscFrame MsgModel CondSpec CondProofs IoModel IoSpec IoProofs.

(** ** What epoll_wait(2) answers *)
Definition seen (i : interest) (mask : Z) : Z := Z.land mask (Z.lor (Z.ldiff (it_ev i) ONESHOT) (Z.lor ERR HUP)).
Definition out_of (set : heap interest) (y : Z * Z) : list (Z * Z) :=
  match hget set (fst y) with Some i => if it_on i && negb (seen i (snd y) =? 0) then [(seen i (snd y), it_ptr i)] else [] | None => [] end.
Lemma flat_map_same : forall A B (f g : A -> list B) l, (forall x, In x l -> f x = g x) -> flat_map f l = flat_map g l.
Proof. intros. rewrite !flat_map_concat_map. f_equal. apply map_ext_in. auto. Qed.
Lemma epoll_outputs_ok : forall r n set, NoDup (map fst r) -> (length r <= n)%nat -> NoDup (addrs set) ->
  fst (epoll_outputs n r set) = flat_map (out_of set) r /\ NoDup (addrs (snd (epoll_outputs n r set))) /\
  forall fd, (hget (snd (epoll_outputs n r set)) fd = hget set fd \/
    exists i on mask, hget set fd = Some i /\ hget (snd (epoll_outputs n r set)) fd = Some (It (it_ev i) (it_ptr i) on) /\ In (fd, mask) r /\ out_of set (fd, mask) <> []).
Proof.
  induction r as [|[fd mask] r IH]; intros n set N L NS.
  - destruct n; cbn [epoll_outputs fst snd flat_map]; (split; [auto|split; [auto|]]); intros; left; auto.
  - cbn [map fst length] in *. inversion N as [|? ? N1 N2]; subst. destruct n as [|n]; [lia|]. cbn [epoll_outputs flat_map]. unfold out_of at 1. cbn [fst snd].
    destruct (hget set fd) as [i|] eqn:G.
    2:{ destruct (IH (S n) set N2 ltac:(lia) NS) as (A & B & C). cbn [app]. split; [auto|]. split; [auto|]. intros t. destruct (C t) as [D|(j & on & k & D1 & D2 & D3 & D4)]; [auto|]. right. exists j, on, k. repeat split; auto. right. auto. }
    change (Z.land mask (Z.lor (Z.ldiff (it_ev i) ONESHOT) (Z.lor ERR HUP))) with (seen i mask). destruct (it_on i && negb (seen i mask =? 0)) eqn:Q.
    2:{ destruct (IH (S n) set N2 ltac:(lia) NS) as (A & B & C). cbn [app]. split; [auto|]. split; [auto|]. intros t. destruct (C t) as [D|(j & on & k & D1 & D2 & D3 & D4)]; [auto|]. right. exists j, on, k. repeat split; auto. right. auto. }
    set (off := It (it_ev i) (it_ptr i) (negb (has (it_ev i) ONESHOT))) in *.
    destruct (IH n (hset set fd off) N2 ltac:(lia) ltac:(rewrite hset_addrs; auto)) as (A & B & C). destruct (epoll_outputs n r (hset set fd off)) as [l s] eqn:E. cbn [fst snd app] in *.
    assert (OF : forall y, In y r -> out_of (hset set fd off) y = out_of set y).
    { intros y I0. unfold out_of. rewrite hget_hset. destruct (Z.eqb_spec (fst y) fd) as [E1|]; auto. exfalso. apply N1. rewrite <- E1. apply in_map. auto. }
    split; [rewrite A, (flat_map_same _ _ _ _ _ OF); auto|]. split; [auto|]. intros t. destruct (C t) as [D|(j & on & k & D1 & D2 & D3 & D4)].
    + rewrite D, hget_hset. destruct (Z.eqb_spec t fd) as [->|]; [|auto]. rewrite G. right. exists i, (it_on off), mask. split; [auto|]. split; [reflexivity|]. split; [left; auto|]. unfold out_of. cbn [fst snd]. rewrite G, Q. discriminate.
    + assert (NT : t <> fd) by (intros ->; apply N1; change fd with (fst (fd, k)); apply in_map; auto). rewrite hget_hset in D1. apply Z.eqb_neq in NT. rewrite NT in D1.
      right. exists j, on, k. split; [auto|]. split; [auto|]. split; [right; auto|]. rewrite <- OF by auto. auto.
Qed.

(** ** Waiting fibers by descriptor *)
Definition on_fd (socks : list (Z * Z)) (fd : Z) (x : waiter) : bool := match fd_of socks (snd (snd x)) with Some g => fd =? g | None => false end.
Definition hit (socks : list (Z * Z)) (y : Z * Z) (x : waiter) : bool := on_fd socks (fst y) x && ready_bit (fst (snd x)) (snd y).
Definition awakens (socks r : list (Z * Z)) (x : waiter) : bool := existsb (fun y => hit socks y x) r.
Definition rise (socks : list (Z * Z)) (W : list waiter) (y : Z * Z) : list (bool * entry) :=
  flat_map (fun wr => map (rousing (snd y)) (filter (fun x => on_fd socks (fst y) x && Bool.eqb (fst (snd x)) wr && ready_bit wr (snd y)) W)) [false; true].
Lemma filter_filter : forall A (f g : A -> bool) l, filter f (filter g l) = filter (fun x => g x && f x) l.
Proof. induction l as [|x l IH]; [reflexivity|]. cbn [filter]. destruct (g x); cbn [filter andb]; [destruct (f x); rewrite IH; auto|auto]. Qed.
Lemma filter_one : forall (W : list waiter) f x, NoDup (map fst W) -> In x W -> (forall y, In y W -> f y = true <-> y = x) -> filter f W = [x].
Proof.
  induction W as [|y W IH]; intros f x N I0 H; [destruct I0|]. cbn [map] in N. inversion N as [|? ? N1 N2]; subst. cbn [filter]. destruct (f y) eqn:F.
  - apply H in F; [|left; auto]. subst y. f_equal. destruct (filter f W) as [|z t] eqn:E; auto. exfalso. assert (K : In z (filter f W)) by (rewrite E; left; auto). apply filter_In in K as [K1 K2].
    apply H in K2; [|right; auto]. subst z. apply N1. apply in_map. auto.
  - apply IH; auto. + destruct I0 as [->|]; auto. assert (f x = true) by (apply H; [left|]; auto). congruence. + intros z K. apply H. right. auto.
Qed.
Lemma filter_none : forall A (f : A -> bool) l, (forall x, In x l -> f x = false) -> filter f l = [].
Proof. induction l as [|x l IH]; intros H; auto. cbn [filter]. rewrite H by (left; auto). apply IH. intros. apply H. right. auto. Qed.
Lemma filter_all : forall A (f : A -> bool) l, (forall x, In x l -> f x = true) -> filter f l = l.
Proof. induction l as [|x l IH]; intros H; auto. cbn [filter]. rewrite H by (left; auto). f_equal. apply IH. intros. apply H. right. auto. Qed.

(** ** Serving what epoll_wait(2) answers *)
Record mid (sys : bool) (socks : list (Z * Z)) (set0 : heap interest) (W : list waiter) (r : list (Z * Z)) (m : iost ep) : Prop := Mid
  { md_wf : hwf (io_socks m);
    md_fds : forall s, option_map ws_fd (hget (io_socks m) s) = fd_of socks s;
    md_fib : fibs m W;
    md_nodup : NoDup (addrs (ep_set (io_k m)));
    md_ptr : forall fd i, hget (ep_set (io_k m)) fd = Some i -> Z.testbit (it_ev i) 30 = true /\ Z.testbit (it_ev i) 13 = false /\ fd_of socks (it_ptr i) = Some fd;
    md_on : forall x fd, In x W -> fd_of socks (snd (snd x)) = Some fd ->
      (exists i, hget (ep_set (io_k m)) fd = Some i /\ it_on i = true /\ Z.testbit (it_ev i) (bit (fst (snd x))) = true) \/ (exists y, In y r /\ fst y = fd /\ out_of set0 y <> []);
    md_ctl : sys = false -> ep_ctl (io_k m) = [] }.
Record good_out (sys : bool) (socks : list (Z * Z)) (set0 : heap interest) (W : list waiter) (y : Z * Z) : Prop := GoodOut
  { go_none : out_of set0 y = [] -> forall x, In x W -> on_fd socks (fst y) x = true -> ready_bit (fst (snd x)) (snd y) = false;
    go_some : forall ev p t, out_of set0 y = (ev, p) :: t -> t = [] /\ fd_of socks p = Some (fst y) /\ Z.testbit ev 3 = Z.testbit (snd y) 3 /\ Z.testbit ev 4 = Z.testbit (snd y) 4 /\ Z.testbit ev 13 = false /\
      (forall x, In x W -> on_fd socks (fst y) x = true -> Z.testbit ev (bit (fst (snd x))) = ready_bit (fst (snd x)) (snd y)) /\
      (sys = true -> forall x, In x W -> on_fd socks (fst y) x = true -> ready_bit (fst (snd x)) (snd y) = true) }.
Lemma good_out_incl : forall sys socks set0 W W' y, good_out sys socks set0 W y -> incl W' W -> good_out sys socks set0 W' y.
Proof.
  intros sys socks set0 W W' y [A B] I0. constructor; [auto|]. intros ev p t E. destruct (B ev p t E) as (C1 & C2 & C3 & C4 & C5 & C6 & C7). repeat (split; [auto|]); auto.
Qed.
(** What an output says is done: the status of one of the two wakings. *)
Lemma wake_ok : forall V (wr : bool) ev s b k (a : ast (iost ep * V)) e a1, hget (io_socks (fst (a_user a))) s = Some b ->
  happly (on_fst (epoll_wake wr ev s k)) a = Some (e, a1) ->
  let go := Z.testbit ev (bit wr) && negb (ws_fib wr b =? 0) in
  (exists a2, happly (on_fst k) a2 = Some (e, a1) /\ a_cur a2 = a_cur a /\ a_discs a2 = a_discs a /\ (a_al a = [] -> a_al a2 = []) /\
     a_made a2 = a_made a ++ (if go then [(false, (ws_fib wr b, (IO_ID, if wr then IR_WRITE else IR_READ, epoll_param wr ev)))] else []) /\
     fst (a_user a2) = set_sock s (if go then ws_set wr 0 b else b) (fst (a_user a))) \/
  (go = true /\ ok e = false /\ a_al a <> [] /\ a_cur a1 = a_cur a /\ a_discs a1 = a_discs a /\ (a_al a = [] -> a_al a1 = []) /\ a_made a1 = a_made a).
Proof.
  intros V wr ev s b k a e a1 G H go. unfold epoll_wake in H. cbn [on_fst happly] in H. rewrite G in H. cbn [need] in H.
  assert (HH : has ev (if wr then OUT else IN) = Z.testbit ev (bit wr)) by (destruct wr; [apply has_out|apply has_in]). rewrite HH in H. fold go in H.
  destruct go eqn:GO.
  - cbn [on_fst happly] in H. destruct (push false _ a) as [[e1 a2]|] eqn:PU; [|discriminate]. pose proof (push_made _ _ _ _ _ _ PU) as PM. destruct (push_frame _ _ _ _ _ _ PU) as ((A1 & A2 & A3 & A4) & A5).
    destruct (ok e1) eqn:O1; cbn [negb] in H.
    + cbn [on_fst happly] in H. left. eexists. split; [exact H|]. cbn [user_set a_cur a_discs a_al a_made a_user fst]. rewrite A3. auto.
    + cbn [on_fst happly] in H. inversion H; subst. right. rewrite app_nil_r in PM. repeat (split; [auto|]); auto. intros E. rewrite A5 in O1 by auto. discriminate.
  - left. exists a. rewrite app_nil_r. repeat (split; [auto|]). unfold set_sock. rewrite hset_id by auto. symmetry. apply iost_eta.
Qed.
Lemma epoll_param_ok : forall (wr : bool) ev mask f s, Z.testbit ev 3 = Z.testbit mask 3 -> Z.testbit ev 4 = Z.testbit mask 4 -> Z.testbit ev 13 = false ->
  (false, (f, (IO_ID, if wr then IR_WRITE else IR_READ, epoll_param wr ev))) = rousing mask (f, (wr, s)).
Proof.
  intros wr ev mask f s E3 E4 E13. unfold rousing, epoll_param. cbn [fst snd]. rewrite has_err, has_hup, has_rdhup, E3, E4, E13, andb_false_r, orb_false_r, flags. reflexivity.
Qed.
Lemma on_fd_true : forall socks fd x, on_fd socks fd x = true <-> fd_of socks (snd (snd x)) = Some fd.
Proof. intros. unfold on_fd. destruct (fd_of _ _) as [g|]; [rewrite Z.eqb_eq; split; intros E; inversion E; auto|split; discriminate]. Qed.
Lemma the_waiter : forall socks fd (W : list waiter) (m : iost ep) p b wr t, NoDup (map snd socks) -> NoDup (map fst W) -> (forall x, In x W -> fst x <> 0) -> fibs m W ->
  hget (io_socks m) p = Some b -> fd_of socks p = Some fd -> 
  filter (fun x => on_fd socks fd x && Bool.eqb (fst (snd x)) wr && t) W = if t && negb (ws_fib wr b =? 0) then [(ws_fib wr b, (wr, p))] else [].
Proof.
  intros socks fd W m p b wr t NS NW NN F G E. destruct t; cbn [andb].
  2:{ apply filter_none. intros. apply andb_false_r. }
  destruct (Z.eqb_spec (ws_fib wr b) 0) as [Z0|NZ]; cbn [negb].
  - apply filter_none. intros [f [wr' s]] I0. rewrite andb_true_r. destruct (on_fd _ _ _) eqn:O; auto. apply on_fd_true in O. cbn [fst snd] in *. assert (s = p) as -> by (eapply fd_inj; eauto).
    destruct (Bool.eqb_spec wr' wr) as [->|]; auto. apply NN in I0 as F0. cbn [fst] in F0. apply (F p b wr f G F0) in I0. congruence.
  - apply filter_one; auto.
    + apply (F p b wr _ G NZ). auto.
    + intros [f [wr' s]] I0. rewrite andb_true_r, andb_true_iff, on_fd_true, Bool.eqb_true_iff. cbn [fst snd]. split.
      * intros [O ->]. assert (s = p) as -> by (eapply fd_inj; eauto). apply NN in I0 as F0. cbn [fst] in F0. apply (F p b wr f G F0) in I0. congruence.
      * intros K. inversion K; subst. auto.
Qed.
Lemma awake_fibs : forall socks fd mask ev (W : list waiter) (m : iost ep) (k : ep) p b b2, NoDup (map snd socks) -> (forall x, In x W -> fst x <> 0) -> fibs m W ->
  hget (io_socks m) p = Some b -> fd_of socks p = Some fd ->
  (forall x, In x W -> on_fd socks fd x = true -> Z.testbit ev (bit (fst (snd x))) = ready_bit (fst (snd x)) mask) ->
  (forall wr, ws_fib wr b2 = if Z.testbit ev (bit wr) && negb (ws_fib wr b =? 0) then 0 else ws_fib wr b) ->
  fibs (IO (hset (io_socks m) p b2) k) (filter (fun x => negb (hit socks (fd, mask) x)) W).
Proof.
  intros socks fd mask ev W m k p b b2 NS NN F G E BE B2 t b' wr f. cbn [io_socks]. rewrite hget_hset, G. intros H F0. rewrite filter_In. destruct (Z.eqb_spec t p) as [->|NE].
  - inversion H; subst b'. rewrite B2, <- (F p b wr f G F0). unfold hit. cbn [fst snd].
    assert (O : on_fd socks fd (f, (wr, p)) = true) by (apply on_fd_true; auto). rewrite O. cbn [andb]. split.
    + destruct (Z.testbit ev (bit wr) && negb (ws_fib wr b =? 0)) eqn:T; [congruence|]. intros K. split; [auto|]. apply (F p b wr f G F0) in K as I0. specialize (BE _ I0 O). cbn [fst snd] in BE. rewrite <- BE.
      apply Z.eqb_neq in F0. rewrite K, F0, andb_true_r in T. rewrite T. auto.
    + intros [K T]. apply (F p b wr f G F0) in K as I0. specialize (BE _ I0 O). cbn [fst snd] in BE. rewrite <- BE in T. apply negb_true_iff in T. rewrite T. auto.
  - rewrite (F t b' wr f H F0). split; [|tauto]. intros I0. split; [auto|]. unfold hit. cbn [fst snd]. destruct (on_fd _ _ _) eqn:O; auto. apply on_fd_true in O. cbn [snd] in O. exfalso. apply NE. eapply fd_inj; eauto.
Qed.
Lemma epoll_serve_ok : forall V sys socks set0 r W (a : ast (iost ep * V)) e a1, NoDup (map fst r) -> NoDup (map snd socks) -> NoDup (map fst W) -> (forall x, In x W -> fst x <> 0) ->
  mid sys socks set0 W r (fst (a_user a)) -> (forall y, In y r -> good_out sys socks set0 W y) ->
  happly (on_fst (epoll_serve (flat_map (out_of set0) r))) a = Some (e, a1) ->
  a_cur a1 = a_cur a /\ a_discs a1 = a_discs a /\ (a_al a = [] -> a_al a1 = []) /\ exists m, a_made a1 = a_made a ++ m /\
  ((e = STATUS_SUCCESS /\ m = flat_map (rise socks W) r /\ mid sys socks set0 (filter (fun x => negb (awakens socks r x)) W) [] (fst (a_user a1))) \/
   (ok e = false /\ a_al a <> [] /\ (length m < length (flat_map (rise socks W) r))%nat)).
Proof.
  intros V sys socks set0. induction r as [|y r IH]; intros W a e a1 NR NS NW NN MD GO H.
  - cbn [flat_map epoll_serve on_fst happly] in H. inversion H; subst. do 2 (split; [auto|]). split; [auto|]. exists []. rewrite app_nil_r. split; [auto|]. left. split; [auto|]. split; [auto|].
    rewrite filter_all by auto. exact MD.
  - cbn [map] in NR. inversion NR as [|? ? N1 N2]; subst. pose proof (GO y ltac:(left; auto)) as [GN GS].
    set (W1 := filter (fun x => negb (hit socks y x)) W).
    assert (FW : filter (fun x => negb (awakens socks (y :: r) x)) W = filter (fun x => negb (awakens socks r x)) W1).
    { unfold W1. rewrite filter_filter. apply filter_ext. intros x. unfold awakens. cbn [existsb]. apply negb_orb. }
    assert (FR : flat_map (rise socks W) r = flat_map (rise socks W1) r).
    { apply flat_map_same. intros y' I0. unfold rise. apply flat_map_same. intros wr _. f_equal. unfold W1. rewrite filter_filter. apply filter_ext. intros x. unfold hit.
      destruct (on_fd socks (fst y') x) eqn:O1; [|cbn [andb]; rewrite andb_false_r; auto]. destruct (on_fd socks (fst y) x) eqn:O2; [|reflexivity].
      exfalso. apply on_fd_true in O1, O2. apply N1. replace (fst y) with (fst y') by congruence. apply in_map. auto. }
    assert (I1 : incl W1 W) by (intros x K; apply filter_In in K; tauto).
    assert (NW1 : NoDup (map fst W1)) by (apply nodup_map_filter; auto).
    assert (GO1 : forall y', In y' r -> good_out sys socks set0 W1 y') by (intros y' K; eapply good_out_incl; [apply GO; right; auto|auto]).
    cbn [flat_map] in H |- *. rewrite FW, FR. destruct (out_of set0 y) as [|[ev p] t] eqn:OY.
    + assert (EW : W1 = W). { apply filter_all. intros x K. unfold hit. destruct (on_fd socks (fst y) x) eqn:O; auto. rewrite GN; auto. }
      assert (ER : rise socks W y = []).
      { unfold rise. cbn [flat_map]. rewrite !filter_none; [reflexivity| |]; intros x K; destruct (on_fd socks (fst y) x) eqn:O; auto; cbn [andb]; pose proof (GN eq_refl x K O) as Q; destruct (fst (snd x)); cbn [Bool.eqb andb]; auto. }
      rewrite ER, EW. cbn [app] in *. apply IH; auto; [|rewrite <- EW; auto]. destruct MD. constructor; auto. intros x fd K E. destruct (md_on0 x fd K E) as [Q|(y' & [<-|Q1] & Q2 & Q3)]; [auto|congruence|]. right. eauto.
    + destruct (GS ev p t eq_refl) as (-> & FP & E3 & E4 & E13 & BE & SY). cbn [app] in H. cbn [epoll_serve] in H.
      assert (G : exists b, hget (io_socks (fst (a_user a))) p = Some b /\ ws_fd b = fst y).
      { pose proof (md_fds _ _ _ _ _ _ MD p) as K. rewrite FP in K. destruct (hget _ p) as [b|]; [|discriminate]. inversion K. eauto. }
      destruct G as (b & G & FB). pose proof (md_fib _ _ _ _ _ _ MD) as FI.
      assert (RI : forall wr, map (rousing (snd y)) (filter (fun x => on_fd socks (fst y) x && Bool.eqb (fst (snd x)) wr && ready_bit wr (snd y)) W) =
                   if Z.testbit ev (bit wr) && negb (ws_fib wr b =? 0) then [rousing (snd y) (ws_fib wr b, (wr, p))] else []).
      { intros wr. rewrite (the_waiter _ _ _ _ _ _ _ _ NS NW NN FI G FP). destruct (Z.eqb_spec (ws_fib wr b) 0) as [Z0|NZ]; cbn [negb]; [rewrite !andb_false_r; reflexivity|]. rewrite !andb_true_r.
        assert (K : In (ws_fib wr b, (wr, p)) W) by (apply (FI p b wr _ G NZ); auto). pose proof (BE _ K ltac:(apply on_fd_true; auto)) as BE1. cbn [fst snd] in BE1. rewrite <- BE1. destruct (Z.testbit ev (bit wr)); reflexivity. }
      assert (RY : rise socks W y = (if Z.testbit ev (bit false) && negb (ws_fib false b =? 0) then [rousing (snd y) (ws_fib false b, (false, p))] else []) ++
                                    (if Z.testbit ev (bit true) && negb (ws_fib true b =? 0) then [rousing (snd y) (ws_fib true b, (true, p))] else [])).
      { unfold rise. cbn [flat_map]. rewrite !RI, app_nil_r. reflexivity. }
      rewrite RY. clear RI.
      destruct (wake_ok _ _ _ _ _ _ _ _ _ G H) as [(a2 & H2 & A1 & A2 & A3 & A4 & A5)|(F1 & F2 & F3 & F4 & F5 & F6 & F7)].
      2:{ do 3 (split; [auto|]). exists []. rewrite app_nil_r. split; [auto|]. right. rewrite F1. split; [auto|]. split; [auto|]. cbn [app length]. rewrite !app_length. cbn. lia. }
      set (b1 := if Z.testbit ev (bit false) && negb (ws_fib false b =? 0) then ws_set false 0 b else b) in *.
      assert (G1 : hget (io_socks (fst (a_user a2))) p = Some b1) by (rewrite A5; cbn [set_sock io_socks]; rewrite hget_hset, Z.eqb_refl, G; auto).
      assert (B1 : ws_fib true b1 = ws_fib true b) by (unfold b1; destruct (_ && _); reflexivity).
      destruct (wake_ok _ _ _ _ _ _ _ _ _ G1 H2) as [(a3 & H3 & C1 & C2 & C3 & C4 & C5)|(F1 & F2 & F3 & F4 & F5 & F6 & F7)].
      2:{ split; [congruence|]. split; [congruence|]. split; [auto|]. eexists. rewrite F7, A4. split; [reflexivity|]. right. rewrite B1 in F1. rewrite F1. split; [auto|]. split; [auto|].
          rewrite !app_length. destruct (_ && negb (ws_fib false b =? 0)); cbn; lia. }
      rewrite B1 in *. set (b2 := if Z.testbit ev (bit true) && negb (ws_fib true b =? 0) then ws_set true 0 b1 else b1) in *.
      assert (B2 : forall wr, ws_fib wr b2 = if Z.testbit ev (bit wr) && negb (ws_fib wr b =? 0) then 0 else ws_fib wr b).
      { intros wr. unfold b2, b1. destruct wr; destruct (Z.testbit ev (bit true) && negb (ws_fib true b =? 0)), (Z.testbit ev (bit false) && negb (ws_fib false b =? 0)); reflexivity. }
      assert (D2 : ws_fd b2 = fst y) by (rewrite <- FB; unfold b2, b1; destruct (_ && _), (_ && _); reflexivity).
      assert (U3 : fst (a_user a3) = IO (hset (io_socks (fst (a_user a))) p b2) (io_k (fst (a_user a)))) by (rewrite C5, A5; unfold set_sock; cbn [io_socks io_k]; rewrite hset_hset; auto).
      assert (G3 : hget (io_socks (fst (a_user a3))) p = Some b2) by (rewrite U3; cbn [io_socks]; rewrite hget_hset, Z.eqb_refl, G; auto).
      cbn [on_fst happly] in H3. rewrite G3 in H3. cbn [need] in H3.
      assert (FB2 : forall k : ep, fibs (IO (hset (io_socks (fst (a_user a))) p b2) k) W1).
      { intros k. destruct y as [fd mask]. apply (awake_fibs socks fd mask ev W _ k p b b2); auto. }
      assert (PEND : forall k, NoDup (addrs (ep_set k)) -> (sys = false -> ep_ctl k = []) ->
        ((forall wr, ws_fib wr b2 = 0) /\ ep_set k = ep_set (io_k (fst (a_user a))) \/
         (sys = true /\ ep_set k = ep_set (io_k (fst (a_user a)))) \/
         (forall t, hget (ep_set k) t = if t =? ws_fd b2 then Some (It (wanted b2) p true) else hget (ep_set (io_k (fst (a_user a)))) t)) ->
        mid sys socks set0 W1 r (IO (hset (io_socks (fst (a_user a))) p b2) k)).
      { intros k NK LK CS. destruct (wanted_bits b2) as (WB1 & WB2 & WB3).
        assert (OTHER : forall x fd, In x W1 -> fd_of socks (snd (snd x)) = Some fd -> fd <> fst y ->
          (exists i, hget (ep_set (io_k (fst (a_user a)))) fd = Some i /\ it_on i = true /\ Z.testbit (it_ev i) (bit (fst (snd x))) = true) \/ (exists y', In y' r /\ fst y' = fd /\ out_of set0 y' <> [])).
        { intros x fd K E NE. destruct (md_on _ _ _ _ _ _ MD x fd (I1 _ K) E) as [Q|(y' & [<-|Q1] & Q2 & Q3)]; [auto|congruence|]. right. eauto. }
        assert (MINE : forall x, In x W1 -> fd_of socks (snd (snd x)) = Some (fst y) -> ws_fib (fst (snd x)) b2 <> 0 /\ sys = false).
        { intros [f [wr s]] K E. cbn [fst snd] in *. assert (s = p) as -> by (eapply fd_inj; eauto). apply I1 in K as K2. apply NN in K2 as F0. cbn [fst] in F0.
          apply filter_In in K as [_ K]. apply negb_true_iff in K. unfold hit in K. assert (O : on_fd socks (fst y) (f, (wr, p)) = true) by (apply on_fd_true; auto). rewrite O in K. cbn [andb fst snd] in K.
          pose proof (BE _ K2 O) as BE1. cbn [fst snd] in BE1. rewrite K in BE1. split.
          - rewrite B2, BE1. cbn [andb]. apply (FI p b wr f G F0) in K2. congruence.
          - destruct sys; auto. specialize (SY eq_refl _ K2 O). cbn [fst snd] in SY. congruence. }
        pose proof (md_ptr _ _ _ _ _ _ MD) as MP. constructor; cbn [io_socks io_k]; auto.
        - apply hset_wf. apply (md_wf _ _ _ _ _ _ MD).
        - intros s. rewrite hget_hset, G, <- (md_fds _ _ _ _ _ _ MD s). destruct (Z.eqb_spec s p) as [->|]; [rewrite G; cbn; congruence|auto].
        - intros fd i. destruct CS as [(_ & ->)|[(_ & ->)|CS]]; auto. rewrite CS. destruct (Z.eqb_spec fd (ws_fd b2)) as [->|]; [|auto]. intros E. inversion E; subst. cbn [it_ev it_ptr]. rewrite D2. auto.
        - intros x fd K E. destruct (Z.eq_dec fd (fst y)) as [->|NE].
          + destruct (MINE x K E) as [M1 M2]. destruct CS as [(CZ & _)|[(CZ & _)|CS]]; [exfalso; apply M1; auto|congruence|]. left. rewrite CS, D2, Z.eqb_refl. eexists. split; [reflexivity|]. cbn [it_on it_ev].
            split; [auto|]. rewrite WB3. apply Z.eqb_neq in M1. rewrite M1. auto.
          + destruct (OTHER x fd K E NE) as [(i & Q)|Q]; [left|auto]. exists i. destruct CS as [(_ & ->)|[(_ & ->)|CS]]; auto. rewrite CS, D2. apply Z.eqb_neq in NE. rewrite NE. auto. }
      assert (FIN : exists a4, happly (on_fst (epoll_serve (flat_map (out_of set0) r))) a4 = Some (e, a1) /\ a_cur a4 = a_cur a3 /\ a_discs a4 = a_discs a3 /\ a_al a4 = a_al a3 /\ a_made a4 = a_made a3 /\
        mid sys socks set0 W1 r (fst (a_user a4))).
      { destruct (negb (ws_r b2 =? 0) || negb (ws_w b2 =? 0)) eqn:Q.
        - cbn [on_fst happly] in H3. eexists. split; [exact H3|]. do 4 (split; [reflexivity|]). cbn [user_set a_user fst]. rewrite U3. unfold set_k. cbn [io_socks io_k].
          destruct (arm p b2 (io_k (fst (a_user a)))) as [e1 k1] eqn:AR. destruct (arm_ok _ _ _ _ _ AR (md_nodup _ _ _ _ _ _ MD)) as (N3 & L3 & K3). cbn [snd].
          pose proof (md_ctl _ _ _ _ _ _ MD) as MC. apply PEND; [auto|intros SS; apply L3; auto|]. destruct K3 as [[_ K3]|[K3 K4]]; [auto|]. right. left. split; [|auto]. destruct sys; auto. exfalso. apply K3, L3; auto.
        - exists a3. split; [exact H3|]. do 4 (split; [reflexivity|]). rewrite U3. apply PEND; [apply (md_nodup _ _ _ _ _ _ MD)|apply (md_ctl _ _ _ _ _ _ MD)|]. left. split; [|auto].
          apply orb_false_iff in Q as [Q1 Q2]. apply negb_false_iff, Z.eqb_eq in Q1, Q2. intros []; auto. }
      destruct FIN as (a4 & H4 & D3 & D4 & D5 & D6 & D7).
      destruct (IH W1 a4 e a1 N2 NS NW1 ltac:(auto) D7 GO1 H4) as (E1 & E2 & E5 & m & E6 & E7).
      split; [congruence|]. split; [congruence|]. split; [intros AL; apply E5; rewrite D5; auto|].
      assert (RO : forall (wr : bool) f, (false, (f, (IO_ID, if wr then IR_WRITE else IR_READ, epoll_param wr ev))) = rousing (snd y) (f, (wr, p))) by (intros; apply epoll_param_ok; auto).
      rewrite (RO true) in C4. rewrite (RO false) in A4.
      eexists. rewrite E6, D6, C4, A4, <- !app_assoc. split; [reflexivity|]. destruct E7 as [(X1 & X2 & X3)|(X1 & X2 & X3)].
      * left. split; [auto|]. split; [rewrite X2; reflexivity|]. exact X3.
      * right. split; [auto|]. split; [rewrite D5 in X2; auto|]. rewrite !app_length. do 2 apply Nat.add_lt_mono_l. exact X3.
Qed.
Lemma distinct_nodup : forall l, distinct l = true <-> NoDup l.
Proof.
  induction l as [|x l IH]; cbn [distinct]; [split; auto; constructor|]. rewrite andb_true_iff, IH, negb_true_iff, existsb_false. split.
  - intros [A B]. constructor; auto. intros K. apply A in K. rewrite Z.eqb_refl in K. discriminate.
  - intros N. inversion N as [|? ? N1 N2]; subst. split; auto. intros y K. apply Z.eqb_neq. intros <-. auto.
Qed.
Lemma said_of : forall r socks x y, NoDup (map fst r) -> In y r -> on_fd socks (fst y) x = true -> said r socks x = snd y.
Proof.
  intros r socks x y N I0 O. apply on_fd_true in O. unfold said. rewrite O. clear O. induction r as [|z r IH]; [destruct I0|]. cbn [map] in N. inversion N as [|? ? N1 N2]; subst. cbn [find].
  destruct I0 as [->|I0]; [rewrite Z.eqb_refl; auto|]. destruct (Z.eqb_spec (fst z) (fst y)) as [E|]; [|auto]. exfalso. apply N1. rewrite E. apply in_map. auto.
Qed.
Lemma said_in : forall r socks x fd, fd_of socks (snd (snd x)) = Some fd -> said r socks x <> 0 -> exists y, In y r /\ fst y = fd /\ snd y = said r socks x.
Proof.
  intros r socks x fd E. unfold said. rewrite E. destruct (find _ r) as [y|] eqn:F; [|congruence]. apply find_some in F as [F1 F2]. apply Z.eqb_eq in F2. intros _. eauto.
Qed.
Lemma awakens_said : forall r socks x fd, NoDup (map fst r) -> fd_of socks (snd (snd x)) = Some fd -> awakens socks r x = roused Epoll (fst (snd x)) (said r socks x).
Proof.
  intros r socks x fd N E. unfold roused. rewrite orb_false_r. apply eq_true_iff_eq. unfold awakens. rewrite existsb_exists. unfold hit. split.
  - intros (y & I0 & H). apply andb_true_iff in H as [H1 H2]. rewrite (said_of _ _ _ _ N I0 H1). auto.
  - intros H. destruct (said_in r socks x fd E) as (y & I0 & Y1 & Y2); [intros K; rewrite K in H; destruct (fst (snd x)); discriminate|]. exists y. split; [auto|]. rewrite Y2, H, andb_true_r. apply on_fd_true. congruence.
Qed.
Lemma due_rise : forall r socks W, NoDup (map fst r) -> due Epoll r socks W = flat_map (rise socks W) r.
Proof.
  intros r socks W N. unfold due, rise. apply flat_map_same. intros y I0. apply flat_map_same. intros wr _. f_equal. apply filter_ext. intros x. unfold roused. rewrite orb_false_r.
  fold (on_fd socks (fst y) x). destruct (on_fd socks (fst y) x) eqn:O; [|rewrite andb_false_r; reflexivity]. rewrite (said_of _ _ _ _ N I0 O), andb_true_r. cbn [andb].
  destruct (Bool.eqb_spec (fst (snd x)) wr) as [->|]; [rewrite andb_true_r|rewrite andb_false_r]; reflexivity.
Qed.
Lemma seen_bits : forall i mask, Z.testbit (it_ev i) 30 = true -> Z.testbit (it_ev i) 13 = false ->
  Z.testbit (seen i mask) 3 = Z.testbit mask 3 /\ Z.testbit (seen i mask) 4 = Z.testbit mask 4 /\ Z.testbit (seen i mask) 13 = false /\
  forall wr, Z.testbit (it_ev i) (bit wr) = true -> Z.testbit (seen i mask) (bit wr) = ready_bit wr mask.
Proof.
  intros i mask E30 E13. unfold seen. rewrite !Z.land_spec, !Z.lor_spec. rewrite (Z.ldiff_spec _ _ 13), E13. change (Z.testbit ERR 3) with true. change (Z.testbit HUP 4) with true. change (Z.testbit ERR 13) with false. change (Z.testbit HUP 13) with false.
  rewrite !orb_true_r, !andb_true_r. cbn [orb andb]. rewrite andb_false_r. do 3 (split; [reflexivity|]). intros wr E. rewrite Z.land_spec, Z.lor_spec, Z.ldiff_spec, E. destruct wr; cbn [bit]; unfold ready_bit; [change (Z.testbit ONESHOT 2) with false|change (Z.testbit ONESHOT 0) with false]; cbn [negb andb orb]; rewrite andb_true_r; reflexivity.
Qed.
Lemma epoll_round_answer : forall V q (a : ast (iost ep * V)) x, happly (on_fst (epoll_round q)) a = Some x ->
  match settled Epoll q with
  | None => False
  | Some (KErr _) => x = (ERROR_PSOCK_EPOLL_WAIT_FAILED, a)
  | Some (KReady r) => happly (on_fst (epoll_round [KReady r])) a = Some x
  end.
Proof.
  intros V q a x. induction q as [|[er|r] t IH]; cbn [settled]; intros H; [discriminate H| |exact H]. cbn [epoll_round] in H. destruct (er =? EINTR); [apply IH; exact H|]. cbn [on_fst happly] in H. inversion H. reflexivity.
Qed.
Lemma epoll_round_step : forall V ans (other : acts V) dels sys mem d q (a : ast (iost ep * V)) c l o a' m, IRel (epoll_rel sys) mem d a c l ->
  astep dels (io_acts epoll_plat ans other) (SAct FN_IO_ROUND IO_CTX q) a = Some (o, a') -> a_made a' = a_made a ++ m -> goes (epoll_rel sys) mem d a' (io_step Epoll mem sys ans d (IRound q) o m c l).
Proof.
  intros V ans other dels sys mem d q a c l o a' m R H MM. cbn [io_step]. destruct (existsb (by_fiber c) _); [exact Logic.I|].
  pose proof (il_common _ _ _ _ _ _ R) as IC. pose proof (il_rel _ _ _ _ _ _ R) as PR.
  pose proof (step_sound _ _ _ _ _ _ _ H (il_sound _ _ _ _ _ _ R)) as SO.
  assert (HB : io_acts epoll_plat ans other FN_IO_ROUND IO_CTX (a_cur a) q = @on_fst (iost ep) V (epoll_round (ans q))) by reflexivity.
  cbn [astep] in H. rewrite HB in H. clear HB. destruct (happly _ a) as [[e a1]|] eqn:HA; [|discriminate]. inversion H; subst o a1; clear H.
  apply epoll_round_answer in HA. destruct (settled Epoll (ans q)) as [[er|r]|]; [| |exact Logic.I].
  - inversion HA; subst. assert (m = []) as -> by (apply (app_inv_head (a_made a)); rewrite <- MM, app_nil_r; auto). cbn [round_error]. rewrite plain_same. exact R.
  - destruct (distinct (map fst r)) eqn:DI; [|exact Logic.I]. cbn [negb orb]. destruct (MAX_EPOLL_OUTPUTS <? Z.of_nat (length r)) eqn:LE; [exact Logic.I|].
    apply distinct_nodup in DI. apply Z.ltb_ge in LE.
    destruct (existsb (fun x => negb _ && over _) _); [exact Logic.I|].
    cbn [epoll_round on_fst happly] in HA. set (m0 := fst (a_user a)) in *.
    destruct (epoll_outputs_ok r (Z.to_nat MAX_EPOLL_OUTPUTS) (ep_set (io_k m0)) DI ltac:(lia) (er_nodup _ _ _ PR)) as (OA & OB & OC).
    destruct (epoll_outputs _ r _) as [outs set1]. cbn [fst snd] in OA, OB, OC. subst outs. cbn [on_fst happly] in HA.
    assert (NN : forall x, In x (wo_wait l) -> fst x <> 0) by (intros x I0; apply (ic_nonnull _ _ IC), (ic_incl _ _ IC), I0).
    assert (FDS : forall x, In x (wo_wait l) -> exists fd, fd_of (wo_socks l) (snd (snd x)) = Some fd).
    { intros x I0. apply (ic_incl _ _ IC) in I0. apply (ic_live _ _ IC) in I0 as [b B]. rewrite <- (ic_fds _ _ IC), B. cbn. eauto. }
    destruct (sys && existsb (fun x => negb (roused Epoll (fst (snd x)) (said r (wo_socks l) x)) && negb (said r (wo_socks l) x =? 0)) (wo_wait l)) eqn:SQ.
    { destruct (mem && _); exact Logic.I. }
    assert (GO : forall y, In y r -> good_out sys (wo_socks l) (ep_set (io_k m0)) (wo_wait l) y).
    { intros y I0. constructor.
      - intros OY x I1 O. apply on_fd_true in O. destruct (er_on _ _ _ PR x _ I1 O) as (i & G1 & G2 & G3). destruct (er_ptr _ _ _ PR _ _ G1) as (P1 & P2 & P3). destruct (seen_bits i (snd y) P1 P2) as (_ & _ & _ & SB).
        unfold out_of in OY. rewrite G1, G2 in OY. cbn [andb] in OY. destruct (Z.eqb_spec (seen i (snd y)) 0) as [E|]; [|discriminate]. rewrite <- SB by auto. rewrite E. apply Z.bits_0.
      - intros ev p t OY. unfold out_of in OY. destruct (hget (ep_set (io_k m0)) (fst y)) as [i|] eqn:G; [|discriminate]. destruct (it_on i && negb (seen i (snd y) =? 0)) eqn:Q; [|discriminate].
        inversion OY; subst ev p t; clear OY. destruct (er_ptr _ _ _ PR _ _ G) as (P1 & P2 & P3). destruct (seen_bits i (snd y) P1 P2) as (S1 & S2 & S3 & SB).
        do 5 (split; [auto|]). split.
        + intros x I1 O. apply SB. apply on_fd_true in O. destruct (er_on _ _ _ PR x _ I1 O) as (j & G1 & G2 & G3). congruence.
        + intros SY x I1 O. subst sys. cbn [andb] in SQ. rewrite existsb_false in SQ. specialize (SQ x I1). rewrite (said_of _ _ _ _ DI I0 O) in SQ. unfold roused in SQ. rewrite orb_false_r in SQ.
          destruct (ready_bit _ _); auto. cbn [negb andb] in SQ. apply negb_false_iff, Z.eqb_eq in SQ. apply andb_true_iff in Q as [_ Q]. unfold seen in Q. rewrite SQ, Z.land_0_l in Q. discriminate. }
    assert (MD : mid sys (wo_socks l) (ep_set (io_k m0)) (wo_wait l) r (set_k (EP set1 (ep_ctl (io_k m0))) m0)).
    { destruct PR. destruct IC. constructor; unfold set_k; cbn [io_socks io_k ep_set ep_ctl]; auto.
      - intros fd i G. destruct (OC fd) as [E|(j & on & mask & E1 & E2 & _)]; [rewrite E in G; auto|]. rewrite E2 in G. inversion G; subst. cbn [it_ev it_ptr]. auto.
      - intros x fd I0 E. destruct (OC fd) as [E0|(j & on & mask & E1 & E2 & E3 & E4)]; [rewrite E0; left; auto|]. right. exists (fd, mask). auto. }
    assert (HS : happly (on_fst (epoll_serve (flat_map (out_of (ep_set (io_k m0))) r))) (user_set (set_k (EP set1 (ep_ctl (io_k m0))) m0, snd (a_user a)) a) = Some (e, a')) by exact HA.
    destruct (epoll_serve_ok _ sys (wo_socks l) _ r (wo_wait l) (user_set (set_k (EP set1 (ep_ctl (io_k m0))) m0, snd (a_user a)) a) e a' DI (ic_distinct _ _ IC) (ic_wait _ _ IC) NN MD GO HS) as (B1 & B2 & B3 & m1 & B4 & B5).
    cbn [user_set a_cur a_discs a_al a_made] in *. assert (m1 = m) as -> by (apply (app_inv_head (a_made a)); congruence). rewrite due_rise by auto.
    assert (AW : filter (fun x => negb (awakens (wo_socks l) r x)) (wo_wait l) = filter (fun x => negb (roused Epoll (fst (snd x)) (said r (wo_socks l) x))) (wo_wait l)).
    { apply filter_ext_in. intros x I0. destruct (FDS x I0) as [fd E]. rewrite (awakens_said _ _ _ _ DI E). auto. }
    rewrite AW in B5. destruct B5 as [(-> & -> & C4)|(C1 & C2 & C3)].
    + rewrite made_is_refl. cbn [negb]. rewrite andb_false_r. rewrite plain_same. cbn [andb judge goes].
      apply (keep_rel _ _ _ _ _ a a' c _ l _ R); auto.
      * rewrite B1. apply (il_cur _ _ _ _ _ _ R).
      * apply (common_round _ m0); auto.
        -- apply (md_wf _ _ _ _ _ _ C4).
        -- intros s. rewrite (md_fds _ _ _ _ _ _ C4). symmetry. apply (ic_fds _ _ IC).
        -- intros x I0. apply filter_In in I0. tauto.
        -- apply nodup_map_filter, (ic_wait _ _ IC).
      * destruct C4. constructor; cbn [wo_wait wo_socks]; auto. intros x fd I0 E. destruct (md_on0 x fd I0 E) as [Q|(y & [] & _)]. exact Q.
    + assert (mem = true) as -> by (destruct mem; auto; exfalso; apply C2, (il_al _ _ _ _ _ _ R); auto).
      destruct (made_is m _) eqn:MI; [|exact Logic.I]. apply made_is_len in MI. rewrite MI in C3. exfalso. eapply Nat.lt_irrefl. exact C3.
Qed.

(** ** Histories *)
Lemma other_step : forall K V (KR : iost K -> world -> Prop) (pl : plat K) ans (other : acts V) kd dels sys mem d q (a : ast (iost K * V)) c l o a' m, IRel KR mem d a c l ->
  astep dels (io_acts pl ans other) q a = Some (o, a') -> goes KR mem d a' (io_step kd mem sys ans d (IOther q) o m c l).
Proof.
  intros K V KR pl ans other kd dels sys mem d q a c l o a' m R S1. cbn [io_step]. destruct (existsb (by_fiber c) _); [exact Logic.I|]. destruct (foreign io_fn d q) eqn:F; [|exact Logic.I].
  pose proof (step_sound _ _ _ _ _ _ _ S1 (il_sound _ _ _ _ _ _ R)) as SO.
  eapply (step_frame _ (fun u => fst u = fst (a_user a)) io_fn) in S1; eauto; [|intros; apply io_foreign; auto|apply (il_disc _ _ _ _ _ _ R)|reflexivity|apply (il_others _ _ _ _ _ _ R)].
  destruct S1 as (S1 & S3 & S4 & S5 & S6). destruct R. subst c. constructor; auto; rewrite S5; auto.
Qed.
Lemma run_steps : forall K V (KR : iost K -> world -> Prop) (pl : plat K) ans (other : acts V) kd dels sys mem d,
  (forall p (a : ast (iost K * V)) c l o a' m, IRel KR mem d a c l -> astep dels (io_acts pl ans other) (isop d p) a = Some (o, a') -> a_made a' = a_made a ++ m -> goes KR mem d a' (io_step kd mem sys ans d p o m c l)) ->
  forall h (a : ast (iost K * V)) c l os a', IRel KR mem d a c l ->
  asteps dels (io_acts pl ans other) (map (isop d) h) a = Some (os, a') ->
  goes KR mem d a' (io_run kd mem sys ans d h os (made_by dels (io_acts pl ans other) (map (isop d) h) a) c l).
Proof.
  intros K V KR pl ans other kd dels sys mem d ST. induction h as [|p h IH]; intros a c l os a' R H.
  - cbn in H. inversion H; subst. exact R.
  - cbn [map asteps] in H. cbn [map made_by]. destruct (astep _ _ _ a) as [[o a1]|] eqn:S1; [|discriminate]. destruct (asteps _ _ _ a1) as [[os1 a2]|] eqn:S2; [|discriminate]. inversion H; subst; clear H.
    pose proof (step_grows _ _ _ _ _ _ _ S1) as [m M]. pose proof (ST p _ _ _ _ _ _ R S1 M) as S3.
    rewrite M, skipn_app, skipn_all, Nat.sub_diag. cbn [app skipn io_run].
    destruct (io_step kd mem sys ans d p o m c l) as [c1 l1| |]; [|exact S3|exact S3]. eapply IH; eauto.
Qed.
Lemma poll_steps : forall V ans (other : acts V) dels sys mem d h (a : ast (iost pst * V)) c l os a', IRel poll_rel mem d a c l ->
  asteps dels (io_acts poll_plat ans other) (map (isop d) h) a = Some (os, a') ->
  goes poll_rel mem d a' (io_run Poll mem sys ans d h os (made_by dels (io_acts poll_plat ans other) (map (isop d) h) a) c l).
Proof.
  intros V ans other dels sys mem d. apply run_steps. intros p a c l o a' m R H M. destruct p as [fd s|s|wr s|wr s|q|p]; cbn [isop] in H.
  - eapply poll_socket_step; eauto.
  - eapply poll_release_step; eauto.
  - eapply poll_wait_step; eauto.
  - eapply poll_back_step; eauto.
  - eapply poll_round_step; eauto.
  - eapply other_step; eauto.
Qed.
Lemma epoll_steps : forall V ans (other : acts V) dels sys mem d h (a : ast (iost ep * V)) c l os a', IRel (epoll_rel sys) mem d a c l ->
  asteps dels (io_acts epoll_plat ans other) (map (isop d) h) a = Some (os, a') ->
  goes (epoll_rel sys) mem d a' (io_run Epoll mem sys ans d h os (made_by dels (io_acts epoll_plat ans other) (map (isop d) h) a) c l).
Proof.
  intros V ans other dels sys mem d. apply run_steps. intros p a c l o a' m R H M. destruct p as [fd s|s|wr s|wr s|q|p]; cbn [isop] in H.
  - eapply epoll_socket_step; eauto.
  - eapply epoll_release_step; eauto.
  - eapply epoll_wait_step; eauto.
  - eapply epoll_back_step; eauto.
  - eapply epoll_round_step; eauto.
  - eapply other_step; eauto.
Qed.
Lemma setup_rel : forall K V (KR : iost K -> world -> Prop) (pl : plat K) ans (other : acts V) dels u (v : V) m al d junk os a mem, io_common u no_world -> KR u no_world -> m <> 0 -> (mem = false -> al = []) ->
  asteps dels (io_acts pl ans other) (io_setup junk d) (al_set al (ainit (u, v) m)) = Some (os, a) -> os = [(STATUS_SUCCESS, nowhere); (STATUS_SUCCESS, nowhere)] ->
  IRel KR mem d a m no_world /\ a_made a = [].
Proof.
  intros K V KR pl ans other dels u v m al d junk os a mem IC KK NM ME H ->. unfold io_setup in H. cbn [asteps] in H.
  destruct (astep _ _ (SDisc _ _ _ _ _) _) as [[o1 a1]|] eqn:S1; [|discriminate]. destruct (astep _ _ (SDiscAdd d) a1) as [[o2 a2]|] eqn:S2; [|discriminate].
  inversion H; subst; clear H.
  assert (SO : sound a).
  { eapply step_sound; [exact S2|]. eapply step_sound; [exact S1|]. split; [|exact NM]. cbn. destruct m; [congruence|reflexivity..]. }
  cbn [astep] in S1. destruct (_ || _) eqn:Q1; [discriminate|]. inversion S1; subst; clear S1.
  apply orb_false_iff in Q1 as [Q1 Q2]. apply zmem_not in Q2. cbn [al_set ainit a_discs addrs map fst] in Q2.
  assert (ND : MGMT_DISC <> d) by (intros E; apply Q2; left; exact E).
  cbn [astep] in S2. cbn [discs_set a_discs] in S2. rewrite hget_hadd_same in S2. cbn [dd_owned] in S2.
  destruct (existsb _ _); [inversion S2|].
  match type of S2 with context [alloc_spec ?b] => pose proof (alloc_frame _ b) as A1; pose proof (alloc_made _ b) as B1; destruct (alloc_spec b) as [e1 a1] end. cbn [snd] in A1, B1.
  destruct (ok e1) eqn:O1; cbn [negb] in S2; [|inversion S2; subst; discriminate].
  match type of S2 with context [alloc_spec ?b] => pose proof (alloc_frame _ b) as A2; pose proof (alloc_made _ b) as B2; destruct (alloc_spec b) as [e2 a2] end. cbn [snd] in A2, B2.
  destruct (ok e2) eqn:O2; cbn [negb] in S2; [|inversion S2; subst; discriminate].
  pose proof (alloc_frame _ a2) as A3. pose proof (alloc_made _ a2) as B3. destruct (alloc_spec a2) as [e3 a3]. cbn [snd] in A3, B3.
  destruct (ok e3) eqn:O3; cbn [negb] in S2; [|inversion S2; subst; discriminate].
  destruct (_ <? _); inversion S2; subst; clear S2.
  destruct A1 as (C1 & D1 & U1 & L1), A2 as (C2 & D2 & U2 & L2), A3 as (C3 & D3 & U3 & L3). cbn [discs_set al_set ainit a_cur a_discs a_user a_al a_made] in *.
  split; [|congruence].
  assert (DD1 : a_discs a3 = hadd [(MGMT_DISC, mgmt_dd)] d (DD false IO_ID IO_CTX io_cbs)) by (rewrite D3, D2, D1; reflexivity).
  constructor; cbn [discs_set a_cur a_discs a_user a_al].
  - congruence.
  - rewrite DD1. cbn [hadd hset]. rewrite Z.eqb_refl. cbn [hget]. rewrite Z.eqb_refl. reflexivity.
  - intros d' x G N. cbn [discs_set a_discs] in G. rewrite DD1 in G. cbn [hadd hset] in G. rewrite Z.eqb_refl in G. cbn [hget] in G.
    apply Z.eqb_neq in N. rewrite N in G. destruct (d' =? MGMT_DISC); inversion G; subst. reflexivity.
  - intros M. apply L3, L2, L1, ME, M.
  - exact SO.
  - rewrite U3, U2, U1. exact IC.
  - rewrite U3, U2, U1. exact KK.
Qed.
Lemma none_common : forall K (k : K), io_common (IO [] k) no_world.
Proof. intros. constructor; cbn; try constructor; auto; try (intros x []); constructor. Qed.
Lemma poll_none_rel : poll_rel poll_none no_world.
Proof. constructor; cbn; [intros s b wr f E; discriminate|constructor]. Qed.
Lemma epoll_none_rel : forall sys ctl, (sys = false -> ctl = []) -> epoll_rel sys (epoll_none ctl) no_world.
Proof. intros. constructor; cbn; auto; try constructor; try (intros; discriminate); try discriminate; try (intros x fd []). Qed.
