From Verif Require Import Base Status MemModel MemProofs Heap TabModel TabProofs SchedModel SchedSpec SchedProofs SchedHist DiscFrame MsgModel CondSpec CondProofs IoModel IoSpec IoProofs IoRound KqModel KqSpec.

(** ** The kernel's events *)
Definition filt (wr : bool) : Z := if wr then EVFILT_WRITE else EVFILT_READ.
Lemma filt_inj : forall a b, filt a = filt b -> a = b. Proof. intros [] []; auto; discriminate. Qed.
Lemma note_is_true : forall fd f x, note_is fd f x = true <-> kv_fd x = fd /\ kv_filter x = f.
Proof. intros. unfold note_is. rewrite andb_true_iff, !Z.eqb_eq. tauto. Qed.
Lemma note_of_key : forall l fd f e, note_of l fd f = Some e -> kv_fd e = fd /\ kv_filter e = f.
Proof. intros l fd f e H. apply find_some in H as [_ H]. apply note_is_true in H. auto. Qed.
Lemma note_of_del : forall l fd f fd' f', note_of (note_del l fd f) fd' f' = if (fd' =? fd) && (f' =? f) then None else note_of l fd' f'.
Proof.
  intros l fd f fd' f'. induction l as [|x l IH]; cbn [note_del List.filter]; [destruct (_ && _); reflexivity|]. fold (note_del l fd f). destruct (note_is fd f x) eqn:N; cbn [negb].
  - rewrite IH. unfold note_of at 2. cbn [find]. fold (note_of l fd' f'). apply note_is_true in N as [N1 N2]. unfold note_is. rewrite N1, N2, (Z.eqb_sym fd fd'), (Z.eqb_sym f f'). destruct (_ && _); reflexivity.
  - unfold note_of. cbn [find]. fold (note_of (note_del l fd f) fd' f'). fold (note_of l fd' f'). rewrite IH. destruct ((fd' =? fd) && (f' =? f)) eqn:E; [|reflexivity].
    apply andb_true_iff in E as [E1 E2]. apply Z.eqb_eq in E1, E2. subst. rewrite N. reflexivity.
Qed.
Lemma note_of_cons : forall x l fd f, note_of (x :: l) fd f = if (fd =? kv_fd x) && (f =? kv_filter x) then Some x else note_of l fd f.
Proof. intros. unfold note_of. cbn [find]. unfold note_is at 1. rewrite (Z.eqb_sym (kv_fd x)), (Z.eqb_sym (kv_filter x)). reflexivity. Qed.
Definition FL : Z := Z.lor EV_ONESHOT (Z.lor EV_ADD EV_ENABLE).
Definition stored (fd : Z) (x : waiter) : kevent := KV fd (filt (fst (snd x))) EV_ONESHOT (fst x).
Lemma change_ok : forall open fd x l ctl e l' ctl', kq_change open (KV fd (filt (fst (snd x))) FL (fst x)) l ctl = (e, l', ctl') -> open fd = true ->
  (ctl = [] -> ctl' = [] /\ e = 0) /\
  ((e = 0 /\ forall fd' f', note_of l' fd' f' = if (fd' =? fd) && (f' =? filt (fst (snd x))) then Some (stored fd x) else note_of l fd' f') \/ (e <> 0 /\ l' = l)).
Proof.
  intros open fd x l ctl e l' ctl' H O. unfold kq_change in H. cbn [kv_fd kv_filter kv_flags kv_udata] in H. rewrite O in H. cbn [negb] in H.
  change (has FL EV_ADD) with true in H. change (Z.ldiff FL (Z.lor EV_ADD EV_ENABLE)) with EV_ONESHOT in H. cbv iota in H.
  destruct (Z.eqb_spec (hd 0 ctl) 0) as [E0|E0]; cbn [negb] in H.
  - destruct (note_of l fd (filt (fst (snd x)))) as [y|] eqn:N; inversion H; subst; clear H; (split; [intros ->; auto|]); left; (split; [auto|]); intros fd' f'; rewrite note_of_cons; unfold stored; cbn [kv_fd kv_filter]; [|reflexivity].
    rewrite note_of_del. destruct (_ && _); reflexivity.
  - inversion H; subst; clear H. split; [intros ->; cbn in E0; lia|]. right. auto.
Qed.
Definition asks (socks : list (Z * Z)) (e : kevent) (x : waiter) : Prop := exists fd, fd_of socks (snd (snd x)) = Some fd /\ e = KV fd (filt (fst (snd x))) FL (fst x).
Definition failure (socks : list (Z * Z)) (e : kevent) (x : waiter) : Prop := exists fd, fd_of socks (snd (snd x)) = Some fd /\ e = KV fd (filt (fst (snd x))) EV_ERROR (fst x).
Definition noted (socks : list (Z * Z)) (notes : list kevent) (x : waiter) : Prop := exists fd, fd_of socks (snd (snd x)) = Some fd /\ note_of notes fd (filt (fst (snd x))) = Some (stored fd x).
Definition keyed (socks : list (Z * Z)) (fd f : Z) (x : waiter) : Prop := fd_of socks (snd (snd x)) = Some fd /\ filt (fst (snd x)) = f.
Definition apart (socks : list (Z * Z)) (W : list waiter) : Prop := forall x y fd f, In x W -> In y W -> keyed socks fd f x -> keyed socks fd f y -> x = y.
Inductive sub {A} : list A -> list A -> Prop := sub_nil : sub [] [] | sub_skip x l m : sub l m -> sub l (x :: m) | sub_take x l m : sub l m -> sub (x :: l) (x :: m).
Lemma sub_in : forall A (l m : list A) x, sub l m -> In x l -> In x m.
Proof. induction 1; cbn; intros; intuition. Qed.
Lemma sub_app : forall A (l m k : list A), sub l m -> sub l (k ++ m).
Proof. induction k; cbn; auto. intros. apply sub_skip. auto. Qed.
Lemma sub_none : forall A (m : list A), sub [] m. Proof. induction m; constructor; auto. Qed.
Lemma key_eqb : forall fd f fd' f', (fd =? fd') && (f =? f') = true <-> fd = fd' /\ f = f'.
Proof. intros. rewrite andb_true_iff, !Z.eqb_eq. tauto. Qed.
Lemma changes_ok : forall open socks room xs W, Forall2 (asks socks) xs W -> (forall x fd, In x W -> fd_of socks (snd (snd x)) = Some fd -> open fd = true) -> apart socks W -> NoDup W ->
  forall l ctl bad l' ctl', kq_changes open room xs l ctl = (bad, l', ctl') ->
  (ctl = [] -> ctl' = [] /\ bad = []) /\
  (room = true \/ bad = [] -> exists fs, sub fs W /\ Forall2 (failure socks) bad fs /\ (forall x, In x W -> ~ In x fs -> noted socks l' x) /\
     (forall fd f, (forall x, In x W -> ~ keyed socks fd f x) -> note_of l' fd f = note_of l fd f) /\
     (forall x fd f, In x fs -> keyed socks fd f x -> note_of l' fd f = note_of l fd f)).
Proof.
  intros open socks room. induction 1 as [|e x xs W (fd & F & ->) A IH]; intros OP AP ND l ctl bad l' ctl' H; cbn [kq_changes] in H.
  - inversion H; subst; clear H. split; [auto|]. intros _. exists []. split; [constructor|]. split; [constructor|]. split; [intros x []|]. split; [auto|]. intros x fd f [].
  - inversion ND as [|? ? N1 N2]; subst. destruct (kq_change open _ l ctl) as [[e l1] ctl1] eqn:C.
    destruct (change_ok _ _ _ _ _ _ _ _ C (OP x fd ltac:(left; auto) F)) as [C1 C2].
    assert (OP1 : forall y fd0, In y W -> fd_of socks (snd (snd y)) = Some fd0 -> open fd0 = true) by (intros; eapply OP; eauto; right; auto).
    assert (AP1 : apart socks W) by (intros y z g k I1 I2; apply AP; right; auto).
    specialize (IH OP1 AP1 N2).
    assert (NK : forall y, In y W -> ~ keyed socks fd (filt (fst (snd x))) y).
    { intros y I1 K. apply N1. rewrite (AP x y fd (filt (fst (snd x)))); auto; [left; auto|right; auto|split; auto]. }
    destruct C2 as [(-> & C2)|(NE & ->)].
    + rewrite Z.eqb_refl in H. destruct (IH _ _ _ _ _ H) as [D1 D2]. split; [intros E; apply D1, C1, E|]. intros R. destruct (D2 R) as (fs & S1 & S2 & S3 & S4 & S5). exists fs.
      split; [apply sub_skip; auto|]. split; [auto|]. split; [|split].
      * intros y [<-|I1] NI; [|auto]. exists fd. split; [auto|]. rewrite S4 by exact NK. rewrite C2, !Z.eqb_refl. reflexivity.
      * intros g f NO. rewrite S4 by (intros y I1; apply NO; right; auto). rewrite C2. destruct (_ && _) eqn:E; [|reflexivity]. apply key_eqb in E as [-> ->]. exfalso. apply (NO x); [left; auto|split; auto].
      * intros y g f I1 K. rewrite (S5 y g f I1 K), C2. destruct (_ && _) eqn:E; [|reflexivity]. apply key_eqb in E as [-> ->]. exfalso. apply (NK y); auto. eapply sub_in; eauto.
    + apply Z.eqb_neq in NE as NE1. rewrite NE1 in H. assert (CN : ctl = [] -> False) by (intros E; apply NE, C1, E). destruct room; cbn [negb] in H.
      * destruct (kq_changes open true xs l ctl1) as [[f l2] ctl2] eqn:Q. inversion H; subst; clear H. destruct (IH _ _ _ _ _ Q) as [_ D2]. split; [intros E; destruct (CN E)|]. intros _.
        destruct D2 as (fs & S1 & S2 & S3 & S4 & S5); [auto|]. exists (x :: fs). split; [apply sub_take; auto|]. split; [constructor; [exists fd; auto|auto]|]. split; [|split].
        -- intros y [<-|I1] NI; [exfalso; apply NI; left; auto|]. apply S3; auto. intros K. apply NI. right. auto.
        -- intros g k NO. apply S4. intros y I1. apply NO. right. auto.
        -- intros y g k [<-|I1] K; [|eauto]. apply S4. destruct K as [K1 K2]. intros z I1 [K3 K4]. apply (NK z I1). split; congruence.
      * inversion H; subst; clear H. split; [intros E; destruct (CN E)|]. intros [|]; discriminate.
Qed.

(** ** What is due *)
Definition fd_is (socks : list (Z * Z)) (fd : Z) (x : waiter) : bool := match fd_of socks (snd (snd x)) with Some g => fd =? g | None => false end.
Definition hit (socks : list (Z * Z)) (W : list waiter) (t : Z * Z * Z) : list (waiter * Z) :=
  let '(fd, f, mask) := t in map (fun x => (x, mask)) (filter (fun x => kq_ready f mask && (filt (fst (snd x)) =? f) && fd_is socks fd x) W).
Lemma fd_is_true : forall socks fd x, fd_is socks fd x = true <-> fd_of socks (snd (snd x)) = Some fd.
Proof. intros. unfold fd_is. destruct (fd_of _ _); [|split; discriminate]. rewrite Z.eqb_eq. split; [intros ->; auto|]. intros E. inversion E. auto. Qed.
Lemma ready_roused : forall wr mask, kq_ready (filt wr) mask = kq_roused wr mask.
Proof.
  intros wr mask. unfold kq_ready, kq_roused, ready_bit. rewrite has_err, has_hup, has_in, has_rdhup, has_out. destruct wr; cbn [filt negb andb].
  - change (EVFILT_WRITE =? EVFILT_READ) with false. cbv iota. destruct (Z.testbit mask 2), (Z.testbit mask 3), (Z.testbit mask 4); reflexivity.
  - change (EVFILT_READ =? EVFILT_READ) with true. cbv iota. destruct (Z.testbit mask 0), (Z.testbit mask 3), (Z.testbit mask 4), (Z.testbit mask 13); reflexivity.
Qed.
Lemma due_hits : forall r socks W, kq_due r socks W = flat_map (hit socks W) (kq_said r).
Proof.
  intros r socks W. unfold kq_due, kq_said. induction r as [|[fd mask] r IH]; [reflexivity|]. cbn [flat_map fst snd] in IH |- *. rewrite IH. cbn [app flat_map]. rewrite app_nil_r, app_assoc. f_equal.
  unfold hit. assert (Q : forall wr, filter (fun x : waiter => kq_roused wr mask && Bool.eqb (fst (snd x)) wr && match fd_of socks (snd (snd x)) with Some fd0 => fd =? fd0 | None => false end) W =
    filter (fun x => kq_ready (filt wr) mask && (filt (fst (snd x)) =? filt wr) && fd_is socks fd x) W).
  { intros wr. apply filter_ext. intros x. rewrite ready_roused. unfold fd_is. f_equal. f_equal. destruct (fst (snd x)), wr; reflexivity. }
  rewrite !Q. reflexivity.
Qed.
Lemma only : forall A (P : A -> bool) x W, In x W -> NoDup W -> P x = true -> (forall y, In y W -> P y = true -> y = x) -> filter P W = [x].
Proof.
  intros A P x W I1 ND PX U. induction W as [|z W IH]; [destruct I1|]. inversion ND as [|? ? N1 N2]; subst. cbn [filter]. destruct (P z) eqn:PZ.
  - assert (z = x) as -> by (apply U; [left|]; auto). f_equal. destruct (filter P W) as [|y t] eqn:F; [reflexivity|]. exfalso. assert (Q : In y (filter P W)) by (rewrite F; left; auto). apply filter_In in Q as [Q1 Q2].
    apply N1. rewrite <- (U y); [auto|right; auto|auto].
  - destruct I1 as [->|I1]; [congruence|]. apply IH; auto. intros y I2. apply U. right. auto.
Qed.
Lemma nothing : forall A (P : A -> bool) W, (forall y, In y W -> P y = false) -> filter P W = [].
Proof. induction W as [|z W IH]; intros H; [reflexivity|]. cbn [filter]. rewrite (H z) by (left; auto). apply IH. intros y I0. apply H. right. auto. Qed.
Definition told (e : kevent) : bool * entry := (false, (kv_udata e, (IO_ID, kq_event e, kq_param e))).
Lemma told_rousing : forall fd x mask, told (KV fd (filt (fst (snd x))) (Z.lor EV_ONESHOT (if kq_eof (filt (fst (snd x))) mask then EV_EOF else 0)) (fst x)) = kq_rousing (x, mask).
Proof.
  intros fd [f [wr s]] mask. unfold told, kq_rousing, resumed, kq_event, kq_param, kq_eof, at_eof. cbn [kv_udata kv_filter kv_flags fst snd]. rewrite has_hup, has_rdhup.
  destruct wr, (Z.testbit mask 4), (Z.testbit mask 13); reflexivity.
Qed.
Lemma told_failing : forall socks e x, failure socks e x -> told e = kq_failing x.
Proof. intros socks e [f [wr s]] (fd & _ & ->). destruct wr; reflexivity. Qed.
Lemma in_firstn : forall A n (l : list A) x, In x (firstn n l) -> In x l.
Proof. induction n as [|n IH]; intros [|y l] x H; cbn in *; auto; [destruct H|]. destruct H; auto. Qed.
Lemma scan_ok : forall socks W, apart socks W -> NoDup W -> forall t, NoDup (map fst t) -> forall n l,
  (forall fd f mask x, In (fd, f, mask) t -> In x W -> keyed socks fd f x -> note_of l fd f = Some (stored fd x)) ->
  (forall fd f mask e, In (fd, f, mask) t -> note_of l fd f = Some e -> exists x, In x W /\ keyed socks fd f x) ->
  let D := firstn n (flat_map (hit socks W) t) in
  map told (fst (kq_scan n t l)) = map kq_rousing D /\
  (forall x mask fd f, In (x, mask) D -> keyed socks fd f x -> note_of (snd (kq_scan n t l)) fd f = None) /\
  (forall fd f, (forall x mask, In (x, mask) D -> ~ keyed socks fd f x) -> note_of (snd (kq_scan n t l)) fd f = note_of l fd f).
Proof.
  intros socks W AP ND. induction t as [|[[fd f] mask] t IH]; intros NT n l L1 L2 D.
  - subst D. destruct n; cbn [kq_scan fst snd map flat_map firstn]; (split; [auto|split; [intros x m g k []|auto]]).
  - destruct n as [|n]; [subst D; cbn [kq_scan fst snd map firstn]; split; [auto|split; [intros x m g k []|auto]]|].
    inversion NT as [|? ? N1 N2]; subst. cbn [fst] in N1.
    assert (NK : forall m2, ~ In (fd, f, m2) t) by (intros m2 K; apply N1; change (fd, f) with (fst (fd, f, m2)); apply in_map; auto).
    assert (IHL : forall m, let E := firstn m (flat_map (hit socks W) t) in
      map told (fst (kq_scan m t l)) = map kq_rousing E /\
      (forall x mask0 fd0 f0, In (x, mask0) E -> keyed socks fd0 f0 x -> note_of (snd (kq_scan m t l)) fd0 f0 = None) /\
      (forall fd0 f0, (forall x mask0, In (x, mask0) E -> ~ keyed socks fd0 f0 x) -> note_of (snd (kq_scan m t l)) fd0 f0 = note_of l fd0 f0)).
    { intros m. apply (IH N2 m l); [intros; eapply L1; eauto; right; eauto|intros; eapply L2; eauto; right; eauto]. }
    cbn [kq_scan]. subst D. cbn [flat_map].
    assert (HIT : forall x, In x W -> keyed socks fd f x -> hit socks W (fd, f, mask) = if kq_ready f mask then [(x, mask)] else []).
    { intros x I1 [K1 K2]. unfold hit. destruct (kq_ready f mask) eqn:Q.
      - rewrite (only _ _ x); auto.
        + cbn [andb]. apply fd_is_true in K1. rewrite K1, K2, Z.eqb_refl. reflexivity.
        + intros y I2 P. cbn [andb] in P. apply andb_true_iff in P as [P1 P2]. apply Z.eqb_eq in P1. apply fd_is_true in P2. apply (AP y x fd f); auto; split; auto.
      - rewrite nothing; [reflexivity|]. intros y I2. reflexivity. }
    destruct (note_of l fd f) as [e|] eqn:NO.
    + destruct (L2 fd f mask e ltac:(left; auto) NO) as (x & X1 & X2).
      pose proof (L1 fd f mask x ltac:(left; auto) X1 X2) as X3. rewrite NO in X3. inversion X3; subst e; clear X3. rewrite (HIT x X1 X2).
      destruct (kq_ready f mask) eqn:RD; [|apply (IHL (S n))].
      cbn [stored kv_flags kv_udata]. change (has EV_ONESHOT EV_ONESHOT) with true. cbv iota.
      destruct (IH N2 n (note_del l fd f)) as (A1 & A2 & A3).
      { intros g k m y I1 I2 K. rewrite note_of_del. destruct (_ && _) eqn:E; [|eapply L1; eauto; right; eauto]. apply key_eqb in E as [-> ->]. exfalso. eapply NK; eauto. }
      { intros g k m y I1 E. rewrite note_of_del in E. destruct (_ && _); [discriminate|]. eapply L2; eauto. right. eauto. }
      destruct (kq_scan n t (note_del l fd f)) as [o l1]. cbn [fst snd] in *. cbn [app firstn map]. split; [|split].
      * f_equal; [|exact A1]. destruct X2 as [_ <-]. apply told_rousing.
      * intros y m g k [E|I1] K; [|eauto]. inversion E; subst. assert (E1 : g = fd /\ k = f) by (destruct X2, K; split; congruence). destruct E1 as [-> ->].
        destruct (note_of l1 fd f) eqn:Q; [|reflexivity]. exfalso. rewrite A3 in Q; [rewrite note_of_del, !Z.eqb_refl in Q; discriminate|].
        intros z m2 I1 K2. assert (z = y). { assert (IW : In z W). { eapply in_firstn in I1 as I2. apply in_flat_map in I2 as ([[g2 k2] m3] & J1 & J2). unfold hit in J2. apply in_map_iff in J2 as (z' & J3 & J4). inversion J3; subst. apply filter_In in J4. tauto. }
          apply (AP z y fd f); auto. }
        subst z. apply in_firstn in I1. apply in_flat_map in I1 as ([[g2 k2] m3] & J1 & J2). unfold hit in J2. apply in_map_iff in J2 as (z' & J3 & J4). inversion J3; subst. apply filter_In in J4 as [_ J4].
        apply andb_true_iff in J4 as [J4 J5]. apply andb_true_iff in J4 as [_ J4]. apply Z.eqb_eq in J4. apply fd_is_true in J5. destruct K2 as [K2 K3]. assert (g2 = fd) by congruence. assert (k2 = f) by congruence. subst. eapply NK; eauto.
      * intros g k NN. rewrite A3 by (intros y m I1; apply NN with m; right; auto). rewrite note_of_del. destruct (_ && _) eqn:E; [|reflexivity]. apply key_eqb in E as [-> ->]. exfalso. apply (NN x mask); [left; auto|auto].
    + replace (hit socks W (fd, f, mask)) with (@nil (waiter * Z)); [apply (IHL (S n))|]. unfold hit. rewrite nothing; [reflexivity|]. intros y I1. destruct (kq_ready f mask && _ && _) eqn:E; [|reflexivity]. exfalso.
      apply andb_true_iff in E as [E1 E2]. apply andb_true_iff in E1 as [_ E1]. apply Z.eqb_eq in E1. apply fd_is_true in E2. rewrite (L1 fd f mask y) in NO; [discriminate|left; auto|auto|split; auto].
Qed.

Lemma hget_pair : forall A (h : heap A) p v, hget h p = Some v -> In (p, v) h.
Proof. induction h as [|[q c] t IH]; intros p v H; cbn [hget] in H; [discriminate|]. destruct (Z.eqb_spec p q) as [->|]; [inversion H; left; auto|right; auto]. Qed.
Lemma nodup_later : forall A (l m : list A), NoDup (l ++ m) -> NoDup m.
Proof. induction l as [|x l IH]; intros m H; [auto|]. cbn [app] in H. inversion H; auto. Qed.
Lemma nodup_both : forall A (l m : list A) x, NoDup (l ++ m) -> In x l -> In x m -> False.
Proof. induction l as [|y l IH]; intros m x H I1 I2; [destruct I1|]. cbn [app] in H. inversion H as [|? ? N1 N2]; subst. destruct I1 as [->|I1]; [apply N1, in_or_app; auto|eauto]. Qed.

(** ** The relation *)
Record kq_rel (sys : bool) (m : iost kqst) (l : world) : Prop := KqRel
  { kr_fib : fibs m (wo_in l);
    kr_ctl : sys = false -> kq_ctl (io_k m) = [];
    kr_room : Z.of_nat (length (kq_inputs (io_k m))) < MAX_KEVENT_INPUTS;
    kr_notes : exists W1 W2, wo_wait l = W1 ++ W2 /\ Forall2 (asks (wo_socks l)) (kq_inputs (io_k m)) W2 /\
      (forall x, In x W1 -> noted (wo_socks l) (kq_notes (io_k m)) x) /\
      (forall fd f e, note_of (kq_notes (io_k m)) fd f = Some e -> exists x, In x (wo_wait l) /\ keyed (wo_socks l) fd f x /\ e = stored fd x) /\
      (sys = true -> forall x fd f, In x W2 -> keyed (wo_socks l) fd f x -> note_of (kq_notes (io_k m)) fd f = None) }.
Lemma apart_wait : forall (m : iost kqst) l, io_common m l -> fibs m (wo_in l) -> apart (wo_socks l) (wo_wait l) /\ NoDup (wo_wait l).
Proof.
  intros m l IC F. split.
  - intros [f [wr s]] [g [wr' s']] fd k I1 I2 [K1 K2] [K3 K4]. cbn [fst snd] in *. assert (s' = s) as -> by (eapply fd_inj; eauto; apply (ic_distinct _ _ IC)).
    assert (wr' = wr) as -> by (apply filt_inj; congruence). apply (ic_incl _ _ IC) in I1, I2. destruct (ic_live _ _ IC _ I1) as [b B]. cbn [snd] in B.
    pose proof (ic_nonnull _ _ IC _ I1) as F1. pose proof (ic_nonnull _ _ IC _ I2) as F2. cbn [fst] in F1, F2.
    apply (F s b wr f B F1) in I1. apply (F s b wr g B F2) in I2. congruence.
  - pose proof (ic_wait _ _ IC) as N. eapply NoDup_map_inv. exact N.
Qed.
Lemma open_wait : forall (m : iost kqst) l x fd, io_common m l -> In x (wo_wait l) -> fd_of (wo_socks l) (snd (snd x)) = Some fd -> kq_open m fd = true.
Proof.
  intros m l x fd IC I1 E. rewrite <- (ic_fds _ _ IC) in E. destruct (hget (io_socks m) (snd (snd x))) as [b|] eqn:B; [|discriminate]. cbn in E. inversion E; subst.
  unfold kq_open. apply existsb_exists. exists (snd (snd x), b). split; [apply hget_pair; auto|]. cbn [snd]. apply Z.eqb_refl.
Qed.
Lemma kq_none_rel : forall sys ctl, (sys = false -> ctl = []) -> kq_rel sys (kq_none ctl) no_world.
Proof.
  intros sys ctl H. constructor; [intros s b wr f E; discriminate|exact H|reflexivity|]. exists [], []. split; [auto|]. split; [constructor|]. split; [intros x []|]. split; [discriminate|]. intros _ x fd f [].
Qed.
(** A change of the sockets that does not concern those that are waited for. *)
Lemma rel_socks : forall sys (m m' : iost kqst) l socks, kq_rel sys m l -> io_k m' = io_k m -> fibs m' (wo_in l) -> (forall x, In x (wo_wait l) -> fd_of socks (snd (snd x)) = fd_of (wo_socks l) (snd (snd x))) ->
  kq_rel sys m' (World socks (wo_wait l) (wo_in l)).
Proof.
  intros sys m m' l socks R K F E. destruct R as [_ R2 R3 (W1 & W2 & A1 & A2 & A3 & A4 & A5)]. constructor; cbn [wo_in wo_wait wo_socks]; auto; try (rewrite K; auto).
  assert (I1 : forall x, In x W1 -> In x (wo_wait l)) by (intros; rewrite A1; apply in_or_app; auto).
  assert (I2 : forall x, In x W2 -> In x (wo_wait l)) by (intros; rewrite A1; apply in_or_app; auto).
  exists W1, W2. split; [auto|]. split; [|split; [|split]].
  - eapply Forall2_imp; [exact A2|]. intros e x I0 (fd & Q1 & Q2). exists fd. rewrite E by auto. auto.
  - intros x I0. destruct (A3 x I0) as (fd & Q1 & Q2). exists fd. rewrite E by auto. auto.
  - intros fd f e N. destruct (A4 fd f e N) as (x & Q1 & [Q2 Q4] & Q3). exists x. split; [auto|]. split; [|auto]. split; [rewrite E; auto|auto].
  - intros S x fd f I0 [Q1 Q2]. apply (A5 S x); auto. split; auto. rewrite <- E; auto.
Qed.
Section Steps.
  Context {V : Type} (ans : Z -> list kans) (other : acts V) (dels sys mem : bool) (d : Z).
  Notation ac := (io_acts kq_plat ans other).
  Notation Rel := (IRel (kq_rel sys) mem d).
  Notation Goes := (goes (kq_rel sys) mem d).
  Lemma kq_socket_step : forall fd s (a : ast (iost kqst * V)) c l o a' m, Rel a c l ->
    astep dels ac (SAct FN_IO_SOCKET fd s) a = Some (o, a') -> a_made a' = a_made a ++ m -> Goes a' (kq_step mem sys ans d (ISocket fd s) o m c l).
  Proof.
    intros fd s a c l o a' m R H MM. cbn [kq_step]. destruct (existsb (by_fiber c) _); [exact Logic.I|]. destruct (existsb _ (wo_socks l)) eqn:FD; [exact Logic.I|].
    pose proof (il_common _ _ _ _ _ _ R) as IC. pose proof (il_rel _ _ _ _ _ _ R) as PR.
    eapply (acted _ _ _ _ _ _ _ _ _ _ _ _ _ _ _ _ _ _ _ _ _ R H MM).
    - intros x. change (ac FN_IO_SOCKET fd (a_cur a) s) with (@on_fst (iost kqst) V (new_sock fd s)). unfold new_sock. cbn [on_fst happly]. destruct (_ || _); cbn [on_fst happly]; [discriminate|]. intros E. inversion E. reflexivity.
    - change (ac FN_IO_SOCKET fd (a_cur a) s) with (@on_fst (iost kqst) V (new_sock fd s)). unfold new_sock. cbn [on_fst happly]. destruct (_ || _) eqn:Q; [cbn; congruence|]. intros _.
      apply orb_false_iff in Q as [Q1 Q2]. apply Z.eqb_neq in Q1. apply zmem_not in Q2.
      assert (G : hget (io_socks (fst (a_user a))) s = None) by (apply hget_none; auto).
      rewrite existsb_false in FD. split.
      + apply common_socket; auto. intros I0. apply in_map_iff in I0 as (y & E & I0). apply FD in I0. rewrite E, Z.eqb_refl in I0. discriminate.
      + eapply rel_socks; [exact PR|reflexivity| |].
        * apply fibs_socket; [apply (kr_fib _ _ _ PR)|auto|apply (ic_live _ _ IC)].
        * intros x I0. rewrite fd_of_cons. destruct (Z.eqb_spec (snd (snd x)) s) as [E|]; [|auto]. exfalso. apply (ic_incl _ _ IC) in I0. apply (ic_live _ _ IC) in I0 as [b B]. congruence.
  Qed.
  Lemma note_of_closed : forall l fd fd' f, note_of (List.filter (fun x => negb (kv_fd x =? fd)) l) fd' f = if fd' =? fd then None else note_of l fd' f.
  Proof.
    induction l as [|x l IH]; intros fd fd' f; cbn [List.filter]; [destruct (_ =? _); reflexivity|]. destruct (Z.eqb_spec (kv_fd x) fd) as [E|E]; cbn [negb].
    - rewrite IH, note_of_cons, E. destruct (fd' =? fd); reflexivity.
    - rewrite !note_of_cons, IH. destruct (Z.eqb_spec fd' fd) as [->|]; [|reflexivity]. destruct (Z.eqb_spec fd (kv_fd x)); [congruence|reflexivity].
  Qed.
  Lemma kq_release_step : forall s (a : ast (iost kqst * V)) c l o a' m, Rel a c l ->
    astep dels ac (SAct FN_IO_RELEASE 0 s) a = Some (o, a') -> a_made a' = a_made a ++ m -> Goes a' (kq_step mem sys ans d (IRelease s) o m c l).
  Proof.
    intros s a c l o a' m R H MM. cbn [kq_step]. destruct (existsb (by_fiber c) _); [exact Logic.I|]. destruct (existsb (fun x => snd (snd x) =? s) (wo_in l)) eqn:FD; [exact Logic.I|].
    pose proof (il_common _ _ _ _ _ _ R) as IC. pose proof (il_rel _ _ _ _ _ _ R) as PR. rewrite existsb_false in FD.
    assert (HB : ac FN_IO_RELEASE 0 (a_cur a) s = @on_fst (iost kqst) V (kq_release s)) by reflexivity.
    destruct (hget (io_socks (fst (a_user a))) s) as [b|] eqn:G.
    2:{ cbn [astep] in H. rewrite HB in H. unfold kq_release in H. cbn [on_fst happly] in H. rewrite G in H. discriminate. }
    assert (GF : fd_of (wo_socks l) s = Some (ws_fd b)) by (rewrite <- (ic_fds _ _ IC), G; auto).
    eapply (acted _ _ _ _ _ _ _ _ _ _ _ _ _ _ _ _ _ _ _ _ _ R H MM); rewrite HB; unfold kq_release; cbn [on_fst happly]; rewrite G; cbn [need on_fst happly].
    - intros x E. inversion E. reflexivity.
    - intros _. split.
      + apply common_release; auto. intros x I0 E. apply FD in I0. apply Z.eqb_neq in I0. auto.
      + set (m0 := fst (a_user a)) in *.
        assert (NS : forall x, In x (wo_wait l) -> snd (snd x) <> s) by (intros x I0; apply (ic_incl _ _ IC), FD in I0; apply Z.eqb_neq; auto).
        assert (NF : forall x fd f, In x (wo_wait l) -> keyed (wo_socks l) fd f x -> fd <> ws_fd b) by (intros x fd f I0 [K1 _] ->; apply (NS x I0); eapply fd_inj; eauto; apply (ic_distinct _ _ IC)).
        assert (PQ : kq_rel sys (IO (io_socks m0) (KQ (kq_inputs (io_k m0)) (List.filter (fun x => negb (kv_fd x =? ws_fd b)) (kq_notes (io_k m0))) (kq_ctl (io_k m0)))) l).
        { destruct PR as [R1 R2 R3 (W1 & W2 & A1 & A2 & A3 & A4 & A5)]. constructor; cbn [io_k kq_inputs kq_notes kq_ctl]; auto.
          assert (I1 : forall x, In x W1 -> In x (wo_wait l)) by (intros; rewrite A1; apply in_or_app; auto).
          exists W1, W2. do 2 (split; [auto|]). split; [|split].
          - intros x I0. destruct (A3 x I0) as (fd & Q1 & Q2). exists fd. split; [auto|]. rewrite note_of_closed. destruct (Z.eqb_spec fd (ws_fd b)) as [E|]; [|auto]. exfalso. eapply NF; [apply I1, I0| |exact E]. split; [exact Q1|reflexivity].
          - intros fd f e. rewrite note_of_closed. destruct (_ =? _); [discriminate|]. apply A4.
          - intros S x fd f I0 K. rewrite note_of_closed. destruct (_ =? _); [auto|]. eauto. }
        eapply rel_socks; [exact PQ|reflexivity| |].
        * apply (fibs_release _ (IO (io_socks m0) (io_k m0))); [apply (ic_wf _ _ IC)|apply (kr_fib _ _ _ PR)].
        * intros x I0. rewrite fd_of_filter. apply NS in I0. apply Z.eqb_neq in I0. rewrite I0. auto.
  Qed.
  Lemma kq_back_step : forall (wr : bool) s (a : ast (iost kqst * V)) c l o a' m, Rel a c l ->
    astep dels ac (SAct (if wr then FN_IO_WRITE_BACK else FN_IO_READ_BACK) 0 s) a = Some (o, a') -> a_made a' = a_made a ++ m -> Goes a' (kq_step mem sys ans d (IBack wr s) o m c l).
  Proof.
    intros wr s a c l o a' m R H MM. cbn [kq_step]. destruct (existsb (fun x => by_fiber c x && on_sock wr s x) (wo_in l)) eqn:MI; [|exact Logic.I]. cbn [negb orb].
    destruct (existsb (by_fiber c) (wo_wait l)) eqn:NW; [exact Logic.I|].
    pose proof (il_common _ _ _ _ _ _ R) as IC. pose proof (il_rel _ _ _ _ _ _ R) as PR.
    apply existsb_exists in MI as (x & I0 & MI). apply mine_true in MI. subst x. destruct (ic_live _ _ IC _ I0) as [b B]. cbn [snd] in B. apply within_not in NW.
    assert (HB : ac (if wr then FN_IO_WRITE_BACK else FN_IO_READ_BACK) 0 (a_cur a) s = @on_fst (iost kqst) V (back wr s)) by (destruct wr; reflexivity).
    eapply (acted _ _ _ _ _ _ _ _ _ _ _ _ _ _ _ _ _ _ _ _ _ R H MM); rewrite HB; unfold back; cbn [on_fst happly]; rewrite B; cbn [need on_fst happly].
    - intros x E. inversion E. reflexivity.
    - intros _. unfold set_sock. split.
      + apply common_back; auto; [intros x; auto|apply (ic_wait _ _ IC)|]. intros K1. apply NW. change c with (fst (c, (wr, s))). apply in_map. auto.
      + assert (F : fibs (IO (hset (io_socks (fst (a_user a))) s (ws_set wr 0 b)) (io_k (fst (a_user a)))) (filter (fun x => negb (by_fiber c x && on_sock wr s x)) (wo_in l))).
        { apply fibs_back; [apply (kr_fib _ _ _ PR)|auto|]. intros f F0 I1. apply (kr_fib _ _ _ PR s b wr f B F0) in I1. pose proof (ic_nonnull _ _ IC _ I0) as C0. cbn [fst] in C0.
          apply (kr_fib _ _ _ PR s b wr c B C0) in I0. congruence. }
        destruct PR as [R1 R2 R3 R4]. constructor; cbn [wo_in wo_wait wo_socks io_k]; auto.
  Qed.
  Lemma length_snoc : forall A (l : list A) x, Z.of_nat (length (l ++ [x])) = Z.of_nat (length l) + 1.
  Proof. intros. rewrite app_length. cbn [length]. lia. Qed.
  Lemma kq_wait_step : forall (wr : bool) s (a : ast (iost kqst * V)) c l o a' m, Rel a c l ->
    astep dels ac (SYield d (if wr then IY_WAIT_WRITE else IY_WAIT_READ) s) a = Some (o, a') -> a_made a' = a_made a ++ m -> Goes a' (kq_step mem sys ans d (IWait wr s) o m c l).
  Proof.
    intros wr s a c l o a' m R H MM. cbn [kq_step]. destruct (existsb (by_fiber c) _) eqn:WI; [exact Logic.I|].
    pose proof (il_common _ _ _ _ _ _ R) as IC. pose proof (il_rel _ _ _ _ _ _ R) as PR. apply within_not in WI.
    pose proof (step_sound _ _ _ _ _ _ _ H (il_sound _ _ _ _ _ _ R)) as SO.
    assert (G : exists b, hget (io_socks (fst (a_user a))) s = Some b).
    { rewrite (yield_io _ _ _ _ _ _ _ _ _ _ (il_disc _ _ _ _ _ _ R)) in H. unfold block in H. rewrite Z.eqb_refl in H. cbn [negb on_fst happly] in H. destruct (hget _ s); [eauto|discriminate]. }
    destruct G as [b G].
    destruct (waited _ _ _ _ _ _ _ _ _ _ _ _ _ _ _ _ _ _ _ R H MM (kr_fib _ _ _ PR) (ic_nonnull _ _ IC) G) as [WB WF].
    destruct (existsb (on_sock wr s) (wo_in l)) eqn:BU.
    { destruct WB as (-> & -> & K1); auto. }
    destruct WF as (W0 & e & a1 & HA & RS); auto. clear WB H. rewrite happly_seq in HA.
    set (a0 := user_set (set_sock s (ws_set wr c b) (fst (a_user a)), snd (a_user a)) a) in *.
    assert (G0 : hget (io_socks (fst (a_user a0))) s = Some (ws_set wr c b)) by (cbn [a0 user_set a_user fst set_sock io_socks]; rewrite hget_hset, Z.eqb_refl, G; auto).
    assert (C0 : c <> 0) by (rewrite <- (il_cur _ _ _ _ _ _ R); apply (il_sound _ _ _ _ _ _ R)).
    assert (GF : fd_of (wo_socks l) s = Some (ws_fd b)) by (rewrite <- (ic_fds _ _ IC), G; auto).
    set (l1 := World (wo_socks l) (wo_wait l ++ [(c, (wr, s))]) (wo_in l ++ [(c, (wr, s))])).
    assert (IC1 : io_common (fst (a_user a0)) l1) by (apply common_wait; auto).
    assert (FB1 : fibs (fst (a_user a0)) (wo_in l1)) by (apply fibs_wait; auto; apply (kr_fib _ _ _ PR)).
    destruct (apart_wait _ _ IC1 FB1) as [AP1 ND1].
    (* what the handler leaves *)
    assert (HP : exists e1 k1, happly (on_fst (pl_wait kq_plat wr c s)) a0 = Some (e1, user_set (set_k k1 (fst (a_user a0)), snd (a_user a0)) a0) /\
      (e1 = STATUS_SUCCESS /\ kq_rel sys (set_k k1 (fst (a_user a0))) l1 \/ e1 = ERROR_PSOCK_KEVENT_FAILED /\ sys = true)).
    { cbn [pl_wait kq_plat]. unfold kq_wait. cbn [on_fst happly]. rewrite G0. cbn [need]. rewrite ws_fd_set.
      change (io_k (fst (a_user a0))) with (io_k (fst (a_user a))). set (k := io_k (fst (a_user a))).
      destruct PR as [R1 R2 R3 (W1 & W2 & A1 & A2 & A3 & A4 & A5)]. fold k in R2, R3, A2, A3, A4, A5.
      destruct (Z.leb_spec MAX_KEVENT_INPUTS (Z.of_nat (length (kq_inputs k)))); [lia|].
      change (KV (ws_fd b) (if wr then EVFILT_WRITE else EVFILT_READ) (Z.lor EV_ONESHOT (Z.lor EV_ADD EV_ENABLE)) c) with (KV (ws_fd b) (filt (fst (snd (c, (wr, s))))) FL (fst (c, (wr, s)))).
      set (x := (c, (wr, s))) in *. set (e0 := KV (ws_fd b) (filt (fst (snd x))) FL (fst x)).
      assert (A2' : Forall2 (asks (wo_socks l1)) (kq_inputs k ++ [e0]) (W2 ++ [x])) by (apply Forall2_app; [exact A2|]; constructor; [exists (ws_fd b); split; [exact GF|reflexivity]|constructor]).
      assert (A1' : wo_wait l1 = W1 ++ (W2 ++ [x])) by (cbn [l1 wo_wait]; rewrite A1, app_assoc; auto).
      assert (XN : forall y, In y (wo_wait l) -> y <> x) by (intros y I0 ->; apply WI; apply (ic_incl _ _ IC) in I0; change c with (fst x); apply in_map; auto).
      assert (XI : In x (wo_wait l1)) by (cbn [l1 wo_wait]; apply in_or_app; right; left; auto).
      assert (LI : forall y, In y (wo_wait l) -> In y (wo_wait l1)) by (intros y I0; cbn [l1 wo_wait]; apply in_or_app; auto).
      destruct (Z.eqb_spec (Z.of_nat (length (kq_inputs k ++ [e0]))) MAX_KEVENT_INPUTS) as [LL|LL].
      - destruct (kq_changes _ false _ _ _) as [[bad notes] ctl] eqn:CH.
        assert (I2 : forall y, In y (W2 ++ [x]) -> In y (wo_wait l1)) by (intros y I0; rewrite A1'; apply in_or_app; auto).
        assert (AP2 : apart (wo_socks l1) (W2 ++ [x])) by (intros y z fd f J1 J2; apply AP1; auto).
        assert (ND2 : NoDup (W2 ++ [x])) by (rewrite A1' in ND1; eapply nodup_later; eauto).
        destruct (changes_ok (kq_open (fst (a_user a0))) (wo_socks l1) false _ _ A2' (fun y fd J1 J2 => open_wait _ l1 y fd IC1 (I2 y J1) J2) AP2 ND2 _ _ _ _ _ CH) as [D1 D2].
        exists (match bad with [] => STATUS_SUCCESS | _ => ERROR_PSOCK_KEVENT_FAILED end), (KQ [] notes ctl). cbn [on_fst happly]. split; [reflexivity|]. destruct bad as [|z bad].
        + left. split; [reflexivity|]. destruct D2 as (fs & S1 & S2 & S3 & S4 & S5); [auto|]. inversion S2; subst fs.
          constructor; cbn [set_k io_k kq_inputs kq_notes kq_ctl length]; [exact FB1|intros SY; apply D1; auto|reflexivity|].
          exists (wo_wait l1), []. rewrite app_nil_r. split; [auto|]. split; [constructor|]. split; [|split].
          * intros y I0. rewrite A1' in I0. apply in_app_or in I0 as [I0|I0]; [|apply S3; auto]. destruct (A3 y I0) as (fd & Q1 & Q2). exists fd. split; [auto|].
            rewrite S4; [exact Q2|]. intros z J1 K. assert (z = y). { apply (AP1 z y fd (filt (fst (snd y)))); auto; [rewrite A1'; apply in_or_app; auto|split; auto]. } subst z.
            rewrite A1' in ND1. exact (nodup_both _ _ _ y ND1 I0 J1).
          * intros fd f e1 N. destruct (existsb (fun y => fd_is (wo_socks l1) fd y && (filt (fst (snd y)) =? f)) (W2 ++ [x])) eqn:EX.
            -- apply existsb_exists in EX as (y & J1 & J2). apply andb_true_iff in J2 as [J2 J3]. apply fd_is_true in J2. apply Z.eqb_eq in J3. destruct (S3 y J1 ltac:(auto)) as (fd' & Q1 & Q2).
               assert (fd' = fd) by congruence. subst fd' f. rewrite Q2 in N. inversion N. exists y. split; [auto|]. split; [split; auto|auto].
            -- rewrite existsb_false in EX. rewrite S4 in N.
               ++ destruct (A4 fd f e1 N) as (y & J1 & J2 & J3). exists y. auto.
               ++ intros y J1 [K1 K2]. apply EX in J1. apply fd_is_true in K1. rewrite K1, K2, Z.eqb_refl in J1. discriminate.
          * intros _ y fd f [].
        + right. split; [reflexivity|]. destruct sys; [auto|]. destruct D1 as [_ D1]; [auto|discriminate].
      - exists STATUS_SUCCESS, (KQ (kq_inputs k ++ [e0]) (kq_notes k) (kq_ctl k)). cbn [on_fst happly]. split; [reflexivity|]. left. split; [reflexivity|].
        constructor; cbn [set_k io_k kq_inputs kq_notes kq_ctl]; [exact FB1|auto|rewrite length_snoc in *; lia|]. exists W1, (W2 ++ [x]). do 3 (split; [auto|]). split.
        + intros fd f e1 N. destruct (A4 fd f e1 N) as (y & J1 & J2 & J3). exists y. auto.
        + intros SY y fd f I0 K. apply in_app_or in I0 as [I0|[<-|[]]]; [apply (A5 SY y fd f I0 K)|]. destruct (note_of (kq_notes k) fd f) as [e1|] eqn:N; [|reflexivity]. exfalso.
          destruct (A4 fd f e1 N) as (y & J1 & J2 & _). apply (XN y J1). apply (AP1 y x fd f); auto. }
    destruct HP as (e1 & k1 & HP & CASE). rewrite HP in HA. destruct CASE as [[-> KR]|[-> ->]].
    - change (ok STATUS_SUCCESS) with true in HA. cbn [on_fst happly] in HA. inversion HA; subst e a1; clear HA.
      pose proof (resume_made _ _ _ _ _ RS) as RM. cbn [user_set a_made a0] in RM.
      assert (m = []) as -> by (apply (app_inv_head (a_made a)); rewrite <- MM, RM, app_nil_r; auto).
      pose proof (resume_frame _ _ _ _ _ RS) as (F1 & F2 & F3 & F4). cbn [user_set a_cur a_discs a_user a_al a0 fst snd] in F1, F2, F3, F4.
      assert (RR : Rel a' (if ok (fst o) then runner o else c) l1).
      { apply (keep_rel _ _ _ _ _ a a' c _ l _ R); auto; try congruence.
        - rewrite F1, (il_cur _ _ _ _ _ _ R). auto.
        - rewrite F3. exact (common_wait _ _ k1 _ _ _ wr c IC G C0 WI).
        - rewrite F3. exact KR. }
      destruct (ok (fst o)) eqn:OO; [exact RR|]. rewrite (exhausted _ _ _ _ _ RS eq_refl OO) in *. cbn [fst]. rewrite Z.eqb_refl, plain_same. exact RR.
    - change (ok ERROR_PSOCK_KEVENT_FAILED) with false in HA. cbn [on_fst happly] in HA. cbn [user_set a_user fst set_k io_socks] in HA. rewrite G0 in HA. cbn [need on_fst happly] in HA.
      inversion HA; subst e a1; clear HA. pose proof (resume_made _ _ _ _ _ RS) as RM. cbn [user_set a_made a0] in RM.
      assert (m = []) as -> by (apply (app_inv_head (a_made a)); rewrite <- MM, RM, app_nil_r; auto).
      apply resume_fails in RS as [-> ->]; [|auto]. cbn [fst]. change (ok ERROR_PSOCK_KEVENT_FAILED) with false. cbv iota. change (ERROR_PSOCK_KEVENT_FAILED =? ERROR_FIBER_SCHEDULER_EXHAUSTED) with false. cbv iota.
      rewrite plain_same. exact Logic.I.
  Qed.
  Lemma serve_ok : forall l (a : ast (iost kqst * V)) e a1, happly (on_fst (kq_serve l)) a = Some (e, a1) ->
    a_cur a1 = a_cur a /\ a_discs a1 = a_discs a /\ a_user a1 = a_user a /\ (a_al a = [] -> a_al a1 = []) /\ exists m, a_made a1 = a_made a ++ m /\
    ((e = STATUS_SUCCESS /\ m = map told l) \/ (ok e = false /\ a_al a <> [] /\ (length m < length (map told l))%nat)).
  Proof.
    induction l as [|x l IH]; intros a e a1 H; cbn [kq_serve on_fst happly] in H.
    - inversion H; subst. do 3 (split; [auto|]). split; [auto|]. exists []. rewrite app_nil_r. auto.
    - destruct (push false _ a) as [[e1 a2]|] eqn:PU; [|discriminate]. pose proof (push_made _ _ _ _ _ _ PU) as PM. destruct (push_frame _ _ _ _ _ _ PU) as ((A1 & A2 & A3 & A4) & A5). destruct (ok e1) eqn:O1; cbn [negb] in H.
      + destruct (IH _ _ _ H) as (B1 & B2 & B3 & B4 & m & B5 & B6). split; [congruence|]. split; [congruence|]. split; [congruence|]. split; [auto|]. exists (told x :: m). rewrite B5, PM, <- app_assoc. split; [reflexivity|].
        cbn [map length]. destruct B6 as [(-> & ->)|(C1 & C2 & C3)]; [auto|right]. split; [auto|]. split; [auto|]. lia.
      + cbn [on_fst happly] in H. inversion H; subst. do 3 (split; [auto|]). split; [auto|]. exists []. split; [auto|]. right. split; [auto|]. split; [intros E; rewrite A5 in O1 by auto; discriminate|]. cbn [map length]. lia.
  Qed.
  Lemma sub_filter : forall (fs W : list waiter), sub fs W -> NoDup (map fst W) -> filter (fun x => existsb (Z.eqb (fst x)) (map fst fs)) W = fs.
  Proof.
    induction 1 as [|x fs W S IH|x fs W S IH]; intros N; [reflexivity|..]; cbn [map] in N; inversion N as [|? ? N1 N2]; subst; cbn [filter].
    - destruct (existsb _ (map fst fs)) eqn:E; [|auto]. exfalso. apply existsb_exists in E as (g & E1 & E2). apply Z.eqb_eq in E2. subst g. apply N1. apply in_map_iff in E1 as (y & E1 & E2). rewrite <- E1. apply in_map. eapply sub_in; eauto.
    - cbn [map existsb]. rewrite Z.eqb_refl. cbn [orb]. apply (f_equal (cons x)). etransitivity; [|exact (IH N2)]. apply filter_ext_in. intros y I0. destruct (Z.eqb_spec (fst y) (fst x)) as [E|]; [|reflexivity]. exfalso. apply N1. rewrite <- E. apply in_map. auto.
  Qed.
  Lemma without_in : forall fs l x, In x (without fs l) <-> In x l /\ ~ In (fst x) fs.
  Proof.
    intros fs l x. unfold without. rewrite filter_In, negb_true_iff, existsb_false. split; intros [A B]; split; auto.
    - intros K. apply B in K. rewrite Z.eqb_refl in K. discriminate.
    - intros g K. apply Z.eqb_neq. intros <-. auto.
  Qed.
  Lemma nodup_without : forall fs l, NoDup (map fst l) -> NoDup (map fst (without fs l)).
  Proof. intros. apply nodup_map_filter. auto. Qed.
  Lemma made_for_failing : forall fs, made_for (map kq_failing fs) = map fst fs.
  Proof. intros. unfold made_for. rewrite map_map. apply map_ext. intros [f [wr s]]. reflexivity. Qed.
  Lemma made_for_rousing : forall D, made_for (map kq_rousing D) = map (fun y => fst (fst y)) D.
  Proof. intros. unfold made_for. rewrite map_map. apply map_ext. intros [[f [wr s]] mask]. reflexivity. Qed.
  Lemma same_fiber : forall (W : list waiter) x y, NoDup (map fst W) -> In x W -> In y W -> fst x = fst y -> x = y.
  Proof. intros W [f x] [g y] N I1 I2 E. cbn [fst] in E. subst g. f_equal. eapply nodup_fst; eauto. Qed.
  Lemma hit_in : forall socks W t x mask, In (x, mask) (flat_map (hit socks W) t) -> In x W.
  Proof. intros socks W t x mask H. apply in_flat_map in H as ([[fd f] m] & _ & H). unfold hit in H. apply in_map_iff in H as (y & E & H). inversion E; subst. apply filter_In in H. tauto. Qed.
  Lemma said_nodup : forall r, NoDup (map fst r) -> NoDup (map fst (kq_said r)).
  Proof.
    induction r as [|[fd mask] r IH]; intros N; [constructor|]. cbn [map fst] in N. inversion N as [|? ? N1 N2]; subst. unfold kq_said. cbn [flat_map fst snd app map]. fold (kq_said r).
    assert (Q : forall f, ~ In (fd, f) (map fst (kq_said r))).
    { intros f K. apply in_map_iff in K as ([[g h] m] & E & K). cbn [fst] in E. inversion E; subst. unfold kq_said in K. apply in_flat_map in K as (y & K1 & K2). apply N1. cbn [In] in K2.
      destruct K2 as [K2|[K2|[]]]; inversion K2; subst; apply in_map; auto. }
    constructor; [|constructor; auto]. cbn [In]. intros [K|K]; [inversion K|]. eapply Q; eauto.
  Qed.
  Lemma kq_round_step : forall q (a : ast (iost kqst * V)) c l o a' m, Rel a c l ->
    astep dels ac (SAct FN_IO_ROUND IO_CTX q) a = Some (o, a') -> a_made a' = a_made a ++ m -> Goes a' (kq_step mem sys ans d (IRound q) o m c l).
  Proof.
    intros q a c l o a' m R H MM. cbn [kq_step]. destruct (existsb (by_fiber c) _); [exact Logic.I|].
    pose proof (il_common _ _ _ _ _ _ R) as IC. pose proof (il_rel _ _ _ _ _ _ R) as PR.
    pose proof (step_sound _ _ _ _ _ _ _ H (il_sound _ _ _ _ _ _ R)) as SO.
    assert (HB : ac FN_IO_ROUND IO_CTX (a_cur a) q = @on_fst (iost kqst) V (kq_round (ans q))) by reflexivity.
    cbn [astep] in H. rewrite HB in H. clear HB. destruct (ans q) as [|k t]; [exact Logic.I|]. cbn [kq_round on_fst happly] in H.
    set (m0 := fst (a_user a)) in *.
    assert (QUIET : forall e m1, (forall e' b, Some (e', b) = Some (o, a') -> True) -> o = (e, nowhere) -> a' = user_set (m1, snd (a_user a)) a -> m = []).
    { intros e m1 _ _ E. apply (app_inv_head (a_made a)). rewrite <- MM, app_nil_r, E. reflexivity. }
    destruct (match k with KErr e => negb (e =? EINTR) | KReady _ => false end) eqn:HARD.
    { (* the call fails as a whole *)
      destruct k as [er|r]; [|discriminate]. cbn [on_fst happly] in H. inversion H; subst o a'; clear H QUIET.
      assert (m = []) as -> by (apply (app_inv_head (a_made a)); rewrite <- MM, app_nil_r; auto).
      cbn [fst refused existsb]. change (ok ERROR_PSOCK_KEVENT_FAILED) with false. cbn [negb]. rewrite andb_true_r, andb_false_r. destruct (sys && mem); [exact Logic.I|]. rewrite plain_same. cbn [made_is andb judge]. destruct sys; [exact Logic.I|exact R]. }
    destruct (apart_wait _ _ IC (kr_fib _ _ _ PR)) as [AP ND].
    destruct PR as [R1 R2 R3 (W1 & W2 & A1 & A2 & A3 & A4 & A5)].
    assert (I1 : forall y, In y W1 -> In y (wo_wait l)) by (intros y I0; rewrite A1; apply in_or_app; auto).
    assert (I2 : forall y, In y W2 -> In y (wo_wait l)) by (intros y I0; rewrite A1; apply in_or_app; auto).
    assert (AP2 : apart (wo_socks l) W2) by (intros y z fd f J1 J2; apply AP; auto).
    assert (ND2 : NoDup W2) by (rewrite A1 in ND; eapply nodup_later; eauto).
    destruct (kq_changes _ true _ _ _) as [[bad notes] ctl] eqn:CH.
    destruct (changes_ok (kq_open m0) (wo_socks l) true _ _ A2 (fun y fd J1 J2 => open_wait _ l y fd IC (I2 y J1) J2) AP2 ND2 _ _ _ _ _ CH) as [D1 D2].
    destruct D2 as (fs & S1 & S2 & S3 & S4 & S5); [auto|].
    assert (FS : sub fs (wo_wait l)) by (rewrite A1; apply sub_app; auto).
    (* the events that are registered now *)
    assert (N1 : forall x, In x (wo_wait l) -> ~ In x fs -> noted (wo_socks l) notes x).
    { intros x I0 NF. rewrite A1 in I0. apply in_app_or in I0 as [I0|I0]; [|auto]. destruct (A3 x I0) as (fd & Q1 & Q2). exists fd. split; [auto|]. rewrite S4; [exact Q2|].
      intros z J1 K. assert (z = x) by (apply (AP z x fd (filt (fst (snd x)))); auto; split; auto). subst z. rewrite A1 in ND. exact (nodup_both _ _ _ x ND I0 J1). }
    assert (N2 : forall fd f e, note_of notes fd f = Some e -> exists x, In x (wo_wait l) /\ (sys = true -> ~ In x fs) /\ keyed (wo_socks l) fd f x /\ e = stored fd x).
    { intros fd f e N. destruct (existsb (fun y => fd_is (wo_socks l) fd y && (filt (fst (snd y)) =? f)) W2) eqn:EX.
      - apply existsb_exists in EX as (y & J1 & J2). apply andb_true_iff in J2 as [J2 J3]. apply fd_is_true in J2. apply Z.eqb_eq in J3. assert (KY : keyed (wo_socks l) fd f y) by (split; auto).
        destruct (in_dec (fun x y : waiter => ltac:(repeat decide equality) : {x = y} + {x <> y}) y fs) as [J4|J4].
        + rewrite (S5 y fd f J4 KY) in N. destruct (A4 fd f e N) as (x & X1 & X2 & X3). assert (x = y) by (apply (AP x y fd f); auto). subst x. exists y. split; [auto|]. split; [|auto].
          intros SY. rewrite (A5 SY y fd f J1 KY) in N. discriminate.
        + destruct (S3 y J1 J4) as (fd' & Q1 & Q2). assert (fd' = fd) by congruence. subst fd' f. rewrite Q2 in N. inversion N. exists y. auto.
      - rewrite existsb_false in EX. rewrite S4 in N.
        + destruct (A4 fd f e N) as (y & J1 & J2 & J3). exists y. split; [auto|]. split; [|auto]. intros SY K. assert (J4 : In y W2) by (eapply sub_in; eauto). apply EX in J4. destruct J2 as [J2 J5]. apply fd_is_true in J2. rewrite J2, J5, Z.eqb_refl in J4. discriminate.
        + intros y J1 [K1 K2]. apply EX in J1. apply fd_is_true in K1. rewrite K1, K2, Z.eqb_refl in J1. discriminate. }
    clear S3 S4 S5.
    assert (CM : forall W (k1 : kqst), incl W (wo_wait l) -> NoDup (map fst W) -> io_common (set_k k1 m0) (World (wo_socks l) W (wo_in l))).
    { intros W k1 J1 J2. apply (common_round _ m0); auto. apply (ic_wf _ _ IC). }
    destruct bad as [|e0 bad].
    - inversion S2; subst fs; clear S2 S1 FS. destruct k as [er|r].
      + (* a signal *)
        cbn [on_fst happly] in H. inversion H; subst o a'; clear H QUIET. assert (m = []) as -> by (apply (app_inv_head (a_made a)); rewrite <- MM, app_nil_r; auto).
        cbn [fst refused existsb]. change (ok ERROR_PSOCK_KEVENT_FAILED) with false. cbn [negb]. rewrite andb_true_r, andb_false_r. destruct (sys && mem); [exact Logic.I|]. rewrite plain_same. cbn [made_is andb judge]. destruct sys eqn:SY; [exact Logic.I|]. rewrite <- SY in *.
        apply (keep_rel _ _ _ _ _ a _ c c l l R); cbn [user_set a_cur a_discs a_al a_user fst]; auto; [apply (il_cur _ _ _ _ _ _ R)|rewrite <- (world_eta l); apply CM; [intros x; auto|apply (ic_wait _ _ IC)]|].
        constructor; cbn [set_k io_k kq_inputs kq_notes kq_ctl]; [exact R1|intros _; apply D1; auto|exact R3|]. exists W1, W2. do 2 (split; [auto|]). split; [|split].
        * intros x I0. apply N1; auto.
        * intros fd f e N. destruct (N2 fd f e N) as (x & J1 & _ & J2 & J3). eauto.
        * rewrite SY. discriminate.
      + (* events *)
        destruct (kq_scan _ _ notes) as [os notes2] eqn:SC. cbn [on_fst happly] in H.
        destruct (happly _ (user_set _ a)) as [[e a1]|] eqn:HA; [|discriminate]. inversion H; subst o a'; clear H QUIET.
        destruct (serve_ok _ _ _ _ HA) as (B1 & B2 & B3 & B4 & m1 & B5 & B6). cbn [user_set a_cur a_discs a_al a_made a_user] in B1, B2, B3, B4, B5, B6.
        assert (m1 = m) as -> by (apply (app_inv_head (a_made a)); congruence).
        assert (MEM : ok e = false -> mem = true).
        { intros OE. destruct mem eqn:ME; [auto|]. exfalso. destruct B6 as [(-> & _)|(_ & C2 & _)]; [discriminate|]. apply C2, (il_al _ _ _ _ _ _ R); auto. }
        cbn [fst]. destruct (sys && mem && negb (ok e)) eqn:SM; [exact Logic.I|].
        destruct (distinct (map fst r)) eqn:DI.
        2:{ (* nothing is said; but no error flag may be set *)
            destruct (sys && refused m) eqn:EX; [|exact Logic.I]. exfalso. apply andb_true_iff in EX as [SY EX].
            destruct B6 as [(-> & ->)|(C1 & C2 & C3)]; [|rewrite (MEM C1), SY, C1 in SM; discriminate].
            unfold refused in EX. apply existsb_exists in EX as (y & Y1 & Y2). apply in_map_iff in Y1 as (z & <- & Z1).
            assert (SF : forall n t l0 o l1, kq_scan n t l0 = (o, l1) -> (forall fd f e1, note_of l0 fd f = Some e1 -> kv_flags e1 = EV_ONESHOT) -> forall z, In z o -> exists b : bool, kv_flags z = Z.lor EV_ONESHOT (if b then EV_EOF else 0)).
            { clear. intros n t. revert n. induction t as [|[[fd f] mask] t IH]; intros [|n] l0 o l1 H F z I0; cbn [kq_scan] in H; try (inversion H; subst; destruct I0; fail).
              destruct (note_of l0 fd f) as [x|] eqn:N; [|eapply IH; eauto]. destruct (kq_ready f mask); [|eapply IH; eauto].
              destruct (kq_scan n t _) as [o2 l2] eqn:Q. inversion H; subst; clear H.
              destruct I0 as [<-|I0]; [cbn [kv_flags]; rewrite (F _ _ _ N); eauto|]. eapply IH; [exact Q| |exact I0]. destruct (has _ _); [|exact F]. intros fd' f' e1 Q1. rewrite note_of_del in Q1. destruct (_ && _); [discriminate|eauto]. }
            assert (NF : forall fd f e1, note_of notes fd f = Some e1 -> kv_flags e1 = EV_ONESHOT) by (intros fd f e1 N; destruct (N2 fd f e1 N) as (x & _ & _ & _ & ->); reflexivity).
            destruct (SF _ _ _ _ _ SC NF z Z1) as [b FB]. cbn [told snd fst] in Y2. unfold kq_param in Y2. rewrite FB in Y2. destruct b; discriminate. }
        cbn [negb].
        pose proof (scan_ok (wo_socks l) (wo_wait l) AP ND (kq_said r) (said_nodup r (proj1 (distinct_nodup _) DI)) (Z.to_nat MAX_KEVENT_OUTPUTS) notes) as SK. cbv zeta in SK. rewrite SC in SK. cbn [fst snd] in SK.
        destruct SK as (E1 & E2 & E3).
        { intros fd f mask x _ I0 [K1 K2]. destruct (N1 x I0 ltac:(auto)) as (fd' & Q1 & Q2). assert (fd' = fd) by congruence. subst. exact Q2. }
        { intros fd f mask e1 _ N. destruct (N2 fd f e1 N) as (x & J1 & _ & J2 & _). eauto. }
        rewrite <- due_hits in E1, E2, E3. change (Z.to_nat MAX_KEVENT_OUTPUTS) with (Z.to_nat 1024) in *. set (D := firstn (Z.to_nat 1024) (kq_due r (wo_socks l) (wo_wait l))) in *.
        assert (DW : forall y, In y D -> In (fst y) (wo_wait l)) by (intros [y mk] I0; apply in_firstn in I0; rewrite due_hits in I0; apply hit_in in I0; exact I0).
        rewrite E1 in B6. destruct B6 as [(-> & ->)|(C1 & C2 & C3)].
        2:{ assert (mem = true) as -> by auto. destruct sys; [cbn [andb] in SM; rewrite C1 in SM; discriminate|]. cbn [andb]. destruct (made_is m _) eqn:MI; [|exact Logic.I]. apply made_is_len in MI. exfalso. rewrite MI in C3. eapply Nat.lt_irrefl. exact C3. }
        assert (EX : refused (map kq_rousing D) = false).
        { unfold refused. apply existsb_false. intros y I0. apply in_map_iff in I0 as ([[f [wr s]] mk] & <- & _). cbn [kq_rousing resumed fst snd]. destruct (at_eof wr mk); reflexivity. }
        rewrite EX, andb_false_r. rewrite made_is_refl. cbn [negb]. rewrite andb_false_r, plain_same. cbn [andb judge goes].
        apply (keep_rel _ _ _ _ _ a a1 c c l _ R); auto.
        * rewrite B1. apply (il_cur _ _ _ _ _ _ R).
        * rewrite B3. cbn [fst]. apply CM; [intros x I0; apply without_in in I0; tauto|apply nodup_without, (ic_wait _ _ IC)].
        * rewrite B3. cbn [fst]. constructor; cbn [set_k io_k kq_inputs kq_notes kq_ctl wo_in wo_wait wo_socks length]; [exact R1|intros SY; apply D1; auto|reflexivity|].
          rewrite made_for_rousing. set (gone := map (fun y : waiter * Z => fst (fst y)) D).
          assert (GN : forall x, In x (wo_wait l) -> ~ In (fst x) gone -> forall y mk fd f, In (y, mk) D -> keyed (wo_socks l) fd f x -> ~ keyed (wo_socks l) fd f y).
          { intros x I0 NG y mk fd f I3 K1 K2. assert (y = x) by (apply (AP y x fd f); auto; exact (DW _ I3)). subst y. apply NG. change (fst x) with (fst (fst (x, mk))). unfold gone. apply (in_map (fun y : waiter * Z => fst (fst y))). auto. }
          exists (without gone (wo_wait l)), []. rewrite app_nil_r. split; [auto|]. split; [constructor|]. split; [|split].
          -- intros x I0. apply without_in in I0 as [I0 NG]. destruct (N1 x I0 ltac:(auto)) as (fd & Q1 & Q2). exists fd. split; [auto|]. rewrite E3; [exact Q2|]. intros y mk I3. eapply GN; eauto. split; auto.
          -- intros fd f e1 N. assert (NN : forall y mk, In (y, mk) D -> ~ keyed (wo_socks l) fd f y) by (intros y mk I3 K; rewrite (E2 y mk fd f I3 K) in N; discriminate).
             rewrite E3 in N by exact NN. destruct (N2 fd f e1 N) as (x & J1 & _ & J2 & J3). exists x. split; [|auto]. apply without_in. split; [auto|].
             intros K. unfold gone in K. apply in_map_iff in K as ([y mk] & K1 & K2). cbn [fst] in K1. assert (y = x). { apply (same_fiber (wo_wait l)); auto; [apply (ic_wait _ _ IC)|exact (DW _ K2)]. } subst y. eapply NN; eauto.
          -- intros _ x fd f [].
    - (* changes that failed *)
      assert (SY : sys = true) by (destruct sys; auto; destruct D1 as [_ D1]; [auto|discriminate]).
      assert (TF : map told (e0 :: bad) = map kq_failing fs). { clear - S2. revert S2. generalize (e0 :: bad). intros l1 F. induction F as [|e x l1 l2 F1 F2 IH]; [reflexivity|]. cbn [map]. f_equal; [eapply told_failing; eauto|exact IH]. }
      assert (NE : fs <> []) by (intros ->; inversion S2).
      destruct k as [er|r]; (cbn [on_fst happly] in H; destruct (happly _ (user_set _ a)) as [[e a1]|] eqn:HA; [|discriminate]; inversion H; subst o a'; clear H QUIET;
        destruct (serve_ok _ _ _ _ HA) as (B1 & B2 & B3 & B4 & m1 & B5 & B6); cbn [user_set a_cur a_discs a_al a_made a_user] in B1, B2, B3, B4, B5, B6;
        assert (m1 = m) as -> by (apply (app_inv_head (a_made a)); congruence); rewrite TF in B6).
      all: cbn [fst]; destruct (ok e) eqn:OE;
        [|assert (mem = true) as -> by (destruct mem eqn:ME; [auto|]; exfalso; destruct B6 as [(-> & _)|(_ & C2 & _)]; [discriminate|]; apply C2, (il_al _ _ _ _ _ _ R); auto); rewrite SY; exact Logic.I].
      all: destruct B6 as [(-> & ->)|(C1 & _)]; [|congruence].
      all: assert (EX : refused (map kq_failing fs) = true) by (destruct fs; [congruence|reflexivity]).
      all: rewrite EX, SY, andb_false_r, made_for_failing, (sub_filter _ _ FS (ic_wait _ _ IC)), made_is_refl, plain_same; cbn [andb judge goes]; rewrite <- SY in *.
      all: assert (GN : forall x, In x (wo_wait l) -> ~ In x fs -> ~ In (fst x) (map fst fs)) by
        (intros x I0 NF K; apply in_map_iff in K as (y & K1 & K2); apply NF; rewrite <- (same_fiber (wo_wait l) y x (ic_wait _ _ IC) (sub_in _ _ _ _ FS K2) I0 K1); auto).
      all: apply (keep_rel _ _ _ _ _ a a1 c c l _ R); auto;
        [rewrite B1; apply (il_cur _ _ _ _ _ _ R)|rewrite B3; cbn [fst]; apply CM; [intros x I0; apply without_in in I0; tauto|apply nodup_without, (ic_wait _ _ IC)]|].
      all: rewrite B3; cbn [fst]; constructor; cbn [set_k io_k kq_inputs kq_notes kq_ctl wo_in wo_wait wo_socks length]; [exact R1|rewrite SY; discriminate|reflexivity|].
      all: exists (without (map fst fs) (wo_wait l)), []; rewrite app_nil_r; split; [auto|]; split; [constructor|]; split; [|split; [|intros _ x fd f []]].
      all: try (intros x I0; apply without_in in I0 as [I0 NG]; apply N1; auto; intros K; apply NG, in_map; auto).
      all: intros fd f e1 N; destruct (N2 fd f e1 N) as (x & J1 & J4 & J2 & J3); exists x; split; [|auto]; apply without_in; split; [auto|]; apply GN; auto.
  Qed.
End Steps.
