From Verif Require Import Base Status FdModel FdSpec.

Lemma put_same : forall t fd o, fd_put t fd o fd = o.
Proof. intros. unfold fd_put. rewrite Z.eqb_refl. auto. Qed.
Lemma put_other : forall t fd o x, x <> fd -> fd_put t fd o x = t x.
Proof. intros. unfold fd_put. destruct (Z.eqb_spec x fd); [congruence|auto]. Qed.

(** One move that does not collide. *)
Definition move1 (t : fdt) (s d : Z) : fdt := fd_close (fd_put t d (t s)) s.

Lemma dup2_ok : forall t s d o, t s = Some o -> s <> d -> dup2 true t s d = Some (fd_put t d (t s)).
Proof. intros t s d o H N. unfold dup2. rewrite H. destruct (Z.eqb_spec s d); [congruence|auto]. Qed.

Fixpoint move_all (t : fdt) (rq : list (Z * Z)) : fdt :=
  match rq with [] => t | (s, d) :: rest => move_all (move1 t s d) rest end.

Lemma move1_at : forall t s d x, s <> d -> move1 t s d x = if x =? s then None else if x =? d then t s else t x.
Proof.
  intros. unfold move1, fd_close. destruct (Z.eqb_spec x s) as [->|N]; [apply put_same|].
  rewrite put_other by auto. destruct (Z.eqb_spec x d) as [->|M]; [apply put_same|]. apply put_other. auto.
Qed.

(** Invariant: after some requests, with the remaining sources untouched. *)
Lemma move_all_moved : forall rq t before, NoDup (sources rq) -> NoDup (targets rq) -> no_collision before rq ->
  (forall d, In d before -> ~ In d (targets rq)) ->
  moved t (move_all t rq) rq /\ (forall d, In d before -> ~ In d (sources rq) -> move_all t rq d = t d).
Proof.
  induction rq as [|[s d] rest IH]; intros t before NS NT NC NB.
  - cbn. split; [|auto]. split; [intros ? ? []|]. split; [intros ? []|auto].
  - cbn in NS, NT. apply NoDup_cons_iff in NS as [S1 S2]. apply NoDup_cons_iff in NT as [T1 T2].
    destruct NC as [C1 C2]. assert (Nsd : s <> d) by (intros ->; apply C1; left; auto).
    destruct (IH (move1 t s d) (d :: before) S2 T2 C2) as [(M1 & M2 & M3) M4].
    { intros x [->|K]; [auto|]. intro K'. apply (NB x K). right. auto. }
    cbn [move_all].
    assert (Nd : ~ In d (sources rest)).
    { clear - C2. cut (forall b, In d b -> no_collision b rest -> ~ In d (sources rest)); [intros H; apply (H (d :: before)); [left; auto|auto]|].
      clear. induction rest as [|[s' d'] rest IH]; cbn; [tauto|]. intros b Hb [H1 H2] [H|H].
      - subst. apply H1. right. auto.
      - revert H. apply (IH (d' :: b)); [right; auto|auto]. }
    split; [split; [|split]|].
    + intros s0 d0 [E|I].
      * inversion E; subst. rewrite M4; [|left; auto|auto]. rewrite move1_at by auto.
        destruct (Z.eqb_spec d0 s0); [congruence|]. rewrite Z.eqb_refl. auto.
      * rewrite (M1 s0 d0 I). rewrite move1_at by auto.
        assert (s0 <> s) by (intros ->; apply S1; apply (in_map fst _ _ I)).
        assert (s0 <> d) by (intros ->; apply Nd; apply (in_map fst _ _ I)).
        destruct (Z.eqb_spec s0 s); [congruence|]. destruct (Z.eqb_spec s0 d); [congruence|auto].
    + intros x [<-|I] NI.
      * cbn in NI. cbn [fst]. cbn [fst] in NI. destruct (in_dec Z.eq_dec s (sources rest)) as [Y|Y]; [contradiction|].
        rewrite M3; [|auto|intro; apply NI; right; auto]. rewrite move1_at by auto. rewrite Z.eqb_refl. auto.
      * apply M2; auto. intro K. apply NI. right. auto.
    + intros x NS NT. cbn in NS, NT. rewrite M3; [|intro K; apply NS; right; exact K|intro K; apply NT; right; exact K]. rewrite move1_at by auto.
      destruct (Z.eqb_spec x s); [subst; exfalso; apply NS; left; auto|]. destruct (Z.eqb_spec x d); [subst; exfalso; apply NT; left; auto|auto].
    + intros x Ix Nx. cbn in Nx. assert (x <> d) by (intros ->; apply (NB d Ix); left; auto).
      assert (x <> s) by (intros ->; apply Nx; left; auto).
      rewrite M4; [|right; auto|intro K; apply Nx; right; exact K]. rewrite move1_at by auto.
      destruct (Z.eqb_spec x s); [congruence|]. destruct (Z.eqb_spec x d); [congruence|auto].
Qed.

(** Sources stay open until their turn. *)
Lemma open_step : forall (t : fdt) s d rest, s <> d -> ~ In s (map fst rest) -> ~ In d (map fst rest) ->
  (forall x, In x (map fst rest) -> t x <> None) -> forall x, In x (map (@fst Z Z) rest) -> move1 t s d x <> None.
Proof.
  intros t s d rest N S1 D1 H x I. rewrite move1_at by auto.
  destruct (Z.eqb_spec x s); [subst; contradiction|]. destruct (Z.eqb_spec x d); [subst; contradiction|auto].
Qed.

Lemma target_not_source : forall d rest b, In d b -> no_collision b rest -> ~ In d (sources rest).
Proof.
  intros d. induction rest as [|[s' d'] rest IH]; cbn; [tauto|]. intros b Hb [H1 H2] [H|H].
  - subst. apply H1. right. auto.
  - revert H. apply (IH (d' :: b)); [right; auto|auto].
Qed.

Lemma setfds_runs : forall rq may k t s d before last, NoDup (s :: sources rq) -> no_collision before ((s, d) :: rq) ->
  (forall x y, In (x, y) ((s, d) :: rq) -> 0 <= x /\ 0 <= y /\ t x <> None) -> (forall i, may i = true) -> last < 0 ->
  setfds_loop may k t s d (encode rq last) = Some (STATUS_SUCCESS, move_all t ((s, d) :: rq)).
Proof.
  induction rq as [|[s' d'] rq IH]; intros may k t s d before last ND NC Op Ok Hl.
  - destruct (Op s d (or_introl eq_refl)) as (P1 & P2 & P3). destruct NC as [C1 _].
    assert (N : s <> d) by (intros ->; apply C1; left; auto).
    cbn [encode setfds_loop]. destruct (Z.leb_spec 0 s); [|lia]. destruct (Z.leb_spec 0 d); [|lia]. cbn [andb].
    destruct (t s) as [o|] eqn:E; [|congruence]. rewrite Ok, (dup2_ok t s d o E N).
    destruct (Z.ltb_spec last 0); [|lia]. reflexivity.
  - destruct (Op s d (or_introl eq_refl)) as (P1 & P2 & P3). destruct (Op s' d' (or_intror (or_introl eq_refl))) as (Q1 & Q2 & Q3).
    destruct NC as [C1 C2].
    assert (N : s <> d) by (intros ->; apply C1; left; auto).
    apply NoDup_cons_iff in ND as [D1 D2].
    cbn [encode]. cbn [setfds_loop]. destruct (Z.leb_spec 0 s); [|lia]. destruct (Z.leb_spec 0 d); [|lia]. cbn [andb].
    destruct (t s) as [o|] eqn:E; [|congruence]. rewrite Ok, (dup2_ok t s d o E N).
    destruct (Z.ltb_spec s' 0); [lia|]. destruct (Z.ltb_spec d' 0); [lia|].
    fold (move1 t s d). rewrite (IH may (S k) (move1 t s d) s' d' (d :: before) last); auto.
    intros x y I. destruct (Op x y (or_intror I)) as (R1 & R2 & R3). split; [auto|]. split; [auto|].
    apply (open_step t s d ((s', d') :: rq)); auto.
    + exact (target_not_source d _ (d :: before) (or_introl eq_refl) C2).
    + intros z Iz. apply in_map_iff in Iz as ((z1, z2) & Ez & Iz). cbn in Ez. subst z1.
      apply (Op z z2 (or_intror Iz)).
    + apply (in_map fst _ _ I).
Qed.

Lemma setfds_moves : forall rq may t s d last, NoDup (sources ((s, d) :: rq)) -> NoDup (targets ((s, d) :: rq)) ->
  no_collision [] ((s, d) :: rq) ->
  (forall x y, In (x, y) ((s, d) :: rq) -> 0 <= x /\ 0 <= y /\ t x <> None) -> (forall i, may i = true) -> last < 0 ->
  exists t', setfds may t s d (encode rq last) = Some (STATUS_SUCCESS, t') /\ moved t t' ((s, d) :: rq).
Proof.
  intros. eexists. split; [apply setfds_runs with (before := []); auto|].
  apply (move_all_moved ((s, d) :: rq) t []); auto.
Qed.

(** Which of the requests were carried out before the first failure. *)
Lemma setfds_errors : forall may t s d args e t', setfds may t s d args = Some (e, t') ->
  e = STATUS_SUCCESS \/ e = ERROR_SOCKET_UTILITIES_DUP2_FAILURE \/ e = ERROR_GENERAL_INVALID_ARGUMENTS.
Proof.
  intros may t s d args. unfold setfds. generalize 0%nat as k.
  assert (G : forall n args, (length args <= n)%nat -> forall k t s d e t', setfds_loop may k t s d args = Some (e, t') ->
     e = STATUS_SUCCESS \/ e = ERROR_SOCKET_UTILITIES_DUP2_FAILURE \/ e = ERROR_GENERAL_INVALID_ARGUMENTS).
  { clear. induction n as [|n IH]; intros args Hn k t s d e t' H.
    - destruct args; [|cbn in Hn; lia]. cbn in H. destruct (_ && _); [destruct (dup2 _ _ _ _)|]; inversion H; auto.
    - destruct args as [|c args]; cbn in H.
      + destruct (_ && _); [destruct (dup2 _ _ _ _)|]; inversion H; auto.
      + destruct (_ && _); [destruct (dup2 _ _ _ _)|]; [|inversion H; auto..].
        destruct (c <? 0); [inversion H; auto|]. destruct args as [|m args]; [discriminate|].
        destruct (m <? 0); [inversion H; auto|]. apply IH in H; auto. cbn in Hn. lia. }
  intros k e t'. apply (G (length args)). lia.
Qed.

Lemma move_runs : forall ps may k t (m : Z -> Z) th before, NoDup ps -> NoDup (map m ps) -> no_collision before (consecutive th (map m ps)) ->
  (forall p, In p ps -> 0 <= m p /\ t (m p) <> None) -> (forall i, may i = true) ->
  exists m', move_loop may k t m th ps = (STATUS_SUCCESS, move_all t (consecutive th (map m ps)), m') /\
    (forall i p, nth_error ps i = Some p -> m' p = th + Z.of_nat i) /\ (forall p, ~ In p ps -> m' p = m p).
Proof.
  induction ps as [|p ps IH]; intros may k t m th before NP NS NC Op Ok.
  - exists m. split; [reflexivity|]. split; [intros [|i] q; discriminate|auto].
  - apply NoDup_cons_iff in NP as [P1 P2]. cbn [map] in NS. apply NoDup_cons_iff in NS as [S1 S2].
    cbn [map consecutive] in NC. destruct NC as [C1 C2].
    destruct (Op p (or_introl eq_refl)) as [Q1 Q2].
    assert (N : m p <> th) by (intros E; apply C1; left; auto).
    cbn [move_loop]. destruct (Z.ltb_spec (m p) 0); [lia|].
    destruct (t (m p)) as [o|] eqn:E; [|congruence]. rewrite Ok, (dup2_ok t (m p) th o E N).
    fold (move1 t (m p) th). set (m1 := fun x => if x =? p then th else m x).
    assert (EM : map m1 ps = map m ps).
    { apply map_ext_in. intros a Ia. unfold m1. destruct (Z.eqb_spec a p); [subst; contradiction|auto]. }
    assert (SC : forall l th', sources (consecutive th' l) = l).
    { induction l; intros; cbn; [auto|]. f_equal. apply IHl. }
    destruct (IH may (S k) (move1 t (m p) th) m1 (th + 1) (th :: before)) as (m' & R1 & R2 & R3); auto.
    + rewrite EM. auto.
    + rewrite EM. auto.
    + intros q Iq. assert (Eq : m1 q = m q) by (unfold m1; destruct (Z.eqb_spec q p); [subst; contradiction|auto]).
      rewrite Eq. destruct (Op q (or_intror Iq)) as [W1 W2]. split; [auto|].
      apply (open_step t (m p) th (consecutive (th + 1) (map m ps))); auto.
      * fold (sources (consecutive (th + 1) (map m ps))). rewrite SC. auto.
      * apply (target_not_source th _ (th :: before) (or_introl eq_refl) C2).
      * fold (sources (consecutive (th + 1) (map m ps))). rewrite SC. intros x Ix. apply in_map_iff in Ix as (y & <- & Iy). apply (Op y (or_intror Iy)).
      * fold (sources (consecutive (th + 1) (map m ps))). rewrite SC. apply in_map. auto.
    + exists m'. split; [|split].
      * rewrite R1, EM. reflexivity.
      * intros [|i] q Hq; cbn in Hq.
        -- inversion Hq; subst q. rewrite R3 by auto. unfold m1. rewrite Z.eqb_refl. lia.
        -- rewrite (R2 i q Hq). lia.
      * intros q Nq. rewrite R3; [|intro; apply Nq; right; auto]. unfold m1.
        destruct (Z.eqb_spec q p); [subst; exfalso; apply Nq; left; auto|auto].
Qed.

Lemma consecutive_targets : forall l th x, In x (targets (consecutive th l)) -> th <= x.
Proof.
  induction l; intros th x; cbn; [tauto|]. intros [H|H]; [lia|]. apply IHl in H. lia.
Qed.
Lemma consecutive_nodup : forall l th, NoDup (targets (consecutive th l)).
Proof.
  induction l; intros; cbn; [constructor|]. constructor; auto. intro H. apply consecutive_targets in H. lia.
Qed.
Lemma consecutive_sources : forall l th, sources (consecutive th l) = l.
Proof. induction l; intros; cbn; [auto|]. f_equal. apply IHl. Qed.

Lemma move_moves : forall ps may t (m : Z -> Z) th, 0 <= th -> NoDup ps -> NoDup (map m ps) ->
  no_collision [] (consecutive th (map m ps)) ->
  (forall p, In p ps -> 0 <= m p /\ t (m p) <> None) -> (forall i, may i = true) ->
  exists t' m', move_descriptors may t m th ps = (STATUS_SUCCESS, t', m') /\
    moved t t' (consecutive th (map m ps)) /\
    (forall i p, nth_error ps i = Some p -> m' p = th + Z.of_nat i) /\ (forall p, ~ In p ps -> m' p = m p).
Proof.
  intros ps may t m th Ht NP NS NC Op Ok. unfold move_descriptors. destruct (Z.ltb_spec th 0); [lia|].
  destruct (move_runs ps may 0 t m th [] NP NS NC Op Ok) as (m' & R1 & R2 & R3).
  eexists _, m'. split; [exact R1|]. split; [|auto].
  apply (move_all_moved (consecutive th (map m ps)) t []); auto.
  - rewrite consecutive_sources. auto.
  - apply consecutive_nodup.
Qed.

Lemma move_errors : forall may t m th ps e t' m', move_descriptors may t m th ps = (e, t', m') ->
  (th < 0 -> e = ERROR_GENERAL_INVALID_ARGUMENTS /\ t' = t /\ m' = m) /\
  (e = STATUS_SUCCESS \/ e = ERROR_SOCKET_UTILITIES_DUP2_FAILURE \/ e = ERROR_GENERAL_INVALID_ARGUMENTS) /\
  (0 <= th -> forall i p, nth_error ps i = Some p -> e = STATUS_SUCCESS -> NoDup ps -> m' p = th + Z.of_nat i).
Proof.
  intros may t m th ps e t' m'. unfold move_descriptors. destruct (Z.ltb_spec th 0); intros H0.
  - inversion H0; subst. repeat split; auto. intros; lia.
  - split; [lia|]. clear H. revert H0. generalize 0%nat as k. revert t m th.
    induction ps as [|p ps IH]; intros t m th k R; cbn in R.
    + inversion R; subst. split; [auto|]. intros _ [|i] q; discriminate.
    + destruct (m p <? 0). { inversion R; subst. split; [auto|]. intros _ i q _ K. discriminate K. }
      destruct (dup2 _ _ _ _) as [t1|]; [|inversion R; subst; split; [auto|]; intros _ i q _ K; discriminate K].
      pose proof (IH _ _ _ _ R) as [I1 I2]. split; [auto|].
      intros Ht [|i] q Hq K ND; cbn in Hq; apply NoDup_cons_iff in ND as [N1 N2].
      * inversion Hq; subst q. clear - R N1.
        assert (G : forall ps k t m th, ~ In p ps -> move_loop may k t m th ps = (e, t', m') -> m' p = m p).
        { clear. induction ps as [|q ps IH]; intros k t m th Np R; cbn in R; [inversion R; auto|].
          destruct (m q <? 0); [inversion R; auto|]. destruct (dup2 _ _ _ _); [|inversion R; auto].
          apply IH in R; [|intro; apply Np; right; auto]. rewrite R. destruct (Z.eqb_spec p q); [subst; exfalso; apply Np; left; auto|auto]. }
        rewrite (G _ _ _ _ _ N1 R). rewrite Z.eqb_refl. lia.
      * rewrite (I2 ltac:(lia) i q Hq K N2). lia.
Qed.

(** Collisions. *)
Lemma self_move_closes : forall t fd o, 0 <= fd -> t fd = Some o ->
  exists t', setfds (fun _ => true) t fd fd [-1] = Some (STATUS_SUCCESS, t') /\ t' fd = None.
Proof.
  intros t fd o H E. unfold setfds. cbn. destruct (Z.leb_spec 0 fd); [|lia]. cbn. unfold dup2. rewrite E, Z.eqb_refl.
  eexists. split; [reflexivity|]. apply put_same.
Qed.
Lemma self_move_closes_threshold : forall t m p o, 0 <= m p -> t (m p) = Some o ->
  exists t' m', move_descriptors (fun _ => true) t m (m p) [p] = (STATUS_SUCCESS, t', m') /\ t' (m' p) = None.
Proof.
  intros t m p o H E. unfold move_descriptors. cbn. destruct (Z.ltb_spec (m p) 0); [lia|]. unfold dup2. rewrite E, Z.eqb_refl.
  eexists _, _. split; [reflexivity|]. cbn. rewrite Z.eqb_refl. apply put_same.
Qed.
Lemma swapped_lost : forall t a b oa ob, 0 <= a -> 0 <= b -> a <> b -> t a = Some oa -> t b = Some ob ->
  exists t', setfds (fun _ => true) t a b [b; a; -1] = Some (STATUS_SUCCESS, t') /\ t' a = Some oa /\ t' b = None.
Proof.
  intros t a b oa ob Ha Hb N Ea Eb. unfold setfds. cbn.
  destruct (Z.leb_spec 0 a); [|lia]. destruct (Z.leb_spec 0 b); [|lia]. cbn.
  unfold dup2 at 1. rewrite Ea. destruct (Z.eqb_spec a b); [congruence|].
  destruct (Z.ltb_spec b 0); [lia|]. destruct (Z.ltb_spec a 0); [lia|]. cbn.
  unfold dup2. unfold fd_close at 1. rewrite put_other by auto. rewrite put_same.
  destruct (Z.eqb_spec b a); [congruence|]. eexists. split; [reflexivity|].
  unfold fd_close. rewrite put_same. split; [|reflexivity]. rewrite put_other by auto. apply put_same.
Qed.

Lemma close_from_at : forall n t i x, close_from n t i x = if (i <=? x) && (x <? i + Z.of_nat n) then None else t x.
Proof.
  induction n; intros t i x; cbn [close_from].
  - replace ((i <=? x) && (x <? i + Z.of_nat 0)) with false; [auto|]. symmetry. apply andb_false_iff.
    destruct (Z.leb_spec i x); [right; apply Z.ltb_ge; lia|left; auto].
  - rewrite IHn. unfold fd_close, fd_put. destruct (Z.eqb_spec x i) as [->|N].
    + destruct (Z.leb_spec (i + 1) i); [lia|]. cbn [andb]. rewrite Z.leb_refl. destruct (Z.ltb_spec i (i + Z.of_nat (S n))); [auto|lia].
    + destruct (Z.leb_spec (i + 1) x), (Z.leb_spec i x); try lia; cbn [andb]; auto.
      destruct (Z.ltb_spec x (i + 1 + Z.of_nat n)), (Z.ltb_spec x (i + Z.of_nat (S n))); try lia; auto.
Qed.

Lemma close_other_spec : forall t fd, exists t', close_other_fds t fd = (STATUS_SUCCESS, t') /\
  forall x, (fd < x < 1024 -> t' x = None) /\ (~ fd < x < 1024 -> t' x = t x).
Proof.
  intros. unfold close_other_fds, FD_SETSIZE. eexists. split; [reflexivity|]. intros x. rewrite close_from_at.
  split; intros H; destruct (Z.leb_spec (fd + 1) x), (Z.ltb_spec x (fd + 1 + Z.of_nat (Z.to_nat (1024 - (fd + 1))))); cbn; auto; lia.
Qed.
Lemma close_standard_spec : forall t, exists t', close_standard_fds t = (STATUS_SUCCESS, t') /\
  forall x, (0 <= x <= 2 -> t' x = None) /\ (~ 0 <= x <= 2 -> t' x = t x).
Proof.
  intros. eexists. split; [reflexivity|]. intros x. unfold fd_close, fd_put.
  split; intros; destruct (Z.eqb_spec x 2), (Z.eqb_spec x 1), (Z.eqb_spec x 0); auto; lia.
Qed.
Lemma nonblock_spec : forall g s flags, let (e, flags') := set_nonblock g s flags in
  (e = STATUS_SUCCESS <-> g = true /\ s = true) /\
  (e = STATUS_SUCCESS -> Z.testbit flags' 11 = true /\ forall n, n <> 11 -> Z.testbit flags' n = Z.testbit flags n) /\
  (e <> STATUS_SUCCESS -> e = ERROR_SOCKET_UTILITIES_SET_NONBLOCK_FAILURE /\ flags' = flags).
Proof.
  assert (NE : ERROR_SOCKET_UTILITIES_SET_NONBLOCK_FAILURE <> STATUS_SUCCESS) by discriminate.
  intros [] [] flags; cbn [set_nonblock]; (split; [intuition congruence|]); (split; [|tauto]); try tauto.
  intros _. unfold O_NONBLOCK. change 2048 with (2^11). split.
  - rewrite Z.lor_spec, Z.pow2_bits_eqb by lia. apply orb_true_r.
  - intros n N. rewrite Z.lor_spec, Z.pow2_bits_eqb by lia. destruct (Z.eqb_spec 11 n); [congruence|]. apply orb_false_r.
Qed.
Lemma socketpair_spec : forall sys l r,
  util_socketpair sys l r = match sys with
                            | Some (a, b) => (STATUS_SUCCESS, a, b)
                            | None => (ERROR_SOCKET_UTILITIES_SOCKETPAIR_FAILURE, l, r)
                            end.
Proof. intros [[a b]|]; reflexivity. Qed.

(** ** Interrupted moves *)
Lemma no_collision_firstn : forall k rq b, no_collision b rq -> no_collision b (firstn k rq).
Proof.
  induction k; intros [|[s d] rq] b H; cbn; auto. destruct H. split; auto.
Qed.
Lemma nodup_firstn : forall A k (l : list A), NoDup l -> NoDup (firstn k l).
Proof.
  induction k; intros [|x l] H; cbn; try constructor; inversion H; subst; auto.
  intro K. apply H2. clear - K. revert l K. induction k; intros [|y l] K; cbn in K; [tauto..|]. destruct K; [left; auto|right; auto].
Qed.
Lemma moved_prefix : forall k rq t, NoDup (sources rq) -> NoDup (targets rq) -> no_collision [] rq ->
  moved t (move_all t (firstn k rq)) (firstn k rq).
Proof.
  intros. apply (move_all_moved (firstn k rq) t []); [| | |intros ? []].
  - unfold sources. rewrite <- firstn_map. apply nodup_firstn. auto.
  - unfold targets. rewrite <- firstn_map. apply nodup_firstn. auto.
  - apply no_collision_firstn. auto.
Qed.

Lemma setfds_prefix : forall rq may k t s d before last, no_collision before ((s, d) :: rq) ->
  (forall x y, In (x, y) ((s, d) :: rq) -> 0 <= x /\ 0 <= y) -> last < 0 ->
  exists e n, setfds_loop may k t s d (encode rq last) = Some (e, move_all t (firstn n ((s, d) :: rq))) /\
    ((e = STATUS_SUCCESS /\ n = length ((s, d) :: rq)) \/
     (e = ERROR_SOCKET_UTILITIES_DUP2_FAILURE /\ (n < length ((s, d) :: rq))%nat)).
Proof.
  induction rq as [|[s' d'] rq IH]; intros may k t s d before last NC Op Hl.
  - destruct (Op s d (or_introl eq_refl)) as (P1 & P2). destruct NC as [C1 _].
    assert (N : s <> d) by (intros ->; apply C1; left; auto).
    cbn [encode setfds_loop]. destruct (Z.leb_spec 0 s); [|lia]. destruct (Z.leb_spec 0 d); [|lia]. cbn [andb].
    unfold dup2. destruct (t s) as [o|] eqn:E; [destruct (may k)|].
    + destruct (Z.ltb_spec last 0); [|lia]. destruct (Z.eqb_spec s d); [congruence|].
      exists STATUS_SUCCESS, 1%nat. cbn [firstn move_all]. unfold move1. rewrite E. split; [reflexivity|left; auto].
    + eexists _, 0%nat. split; [reflexivity|]. right. split; auto.
    + eexists _, 0%nat. split; [reflexivity|]. right. split; auto.
  - destruct (Op s d (or_introl eq_refl)) as (P1 & P2). destruct (Op s' d' (or_intror (or_introl eq_refl))) as (Q1 & Q2).
    destruct NC as [C1 C2].
    assert (N : s <> d) by (intros ->; apply C1; left; auto).
    cbn [encode]. cbn [setfds_loop]. destruct (Z.leb_spec 0 s); [|lia]. destruct (Z.leb_spec 0 d); [|lia]. cbn [andb].
    unfold dup2. destruct (t s) as [o|] eqn:E; [destruct (may k)|].
    + destruct (Z.ltb_spec s' 0); [lia|]. destruct (Z.ltb_spec d' 0); [lia|]. destruct (Z.eqb_spec s d); [congruence|].
      destruct (IH may (S k) (move1 t s d) s' d' (d :: before) last C2) as (e & n0 & R1 & R2); auto.
      { intros; apply Op; right; auto. }
      exists e, (S n0). split.
      * unfold move1 in R1 at 1. rewrite E in R1. exact R1.
      * cbn [length] in *. destruct R2 as [[-> ->]|[-> R2]]; [left; auto|right; split; auto; lia].
    + eexists _, 0%nat. split; [reflexivity|]. right. split; [auto|cbn; lia].
    + eexists _, 0%nat. split; [reflexivity|]. right. split; [auto|cbn; lia].
Qed.

Lemma setfds_interrupted : forall rq may t s d last, NoDup (sources ((s, d) :: rq)) -> NoDup (targets ((s, d) :: rq)) ->
  no_collision [] ((s, d) :: rq) -> (forall x y, In (x, y) ((s, d) :: rq) -> 0 <= x /\ 0 <= y) -> last < 0 ->
  exists e n t', setfds may t s d (encode rq last) = Some (e, t') /\ moved t t' (firstn n ((s, d) :: rq)) /\
    ((e = STATUS_SUCCESS /\ n = length ((s, d) :: rq)) \/
     (e = ERROR_SOCKET_UTILITIES_DUP2_FAILURE /\ (n < length ((s, d) :: rq))%nat)).
Proof.
  intros rq may t s d last NS NT NC Op Hl.
  destruct (setfds_prefix rq may 0 t s d [] last NC Op Hl) as (e & n & R1 & R2).
  exists e, n. eexists. split; [exact R1|]. split; [apply moved_prefix; auto|exact R2].
Qed.

Lemma move_prefix : forall ps may k t (m : Z -> Z) th before, NoDup ps -> no_collision before (consecutive th (map m ps)) ->
  (forall p, In p ps -> 0 <= m p) ->
  exists e n m', move_loop may k t m th ps = (e, move_all t (firstn n (consecutive th (map m ps))), m') /\
    ((e = STATUS_SUCCESS /\ n = length ps) \/ (e = ERROR_SOCKET_UTILITIES_DUP2_FAILURE /\ (n < length ps)%nat)) /\
    (forall i p, nth_error ps i = Some p -> m' p = if (i <? n)%nat then th + Z.of_nat i else m p).
Proof.
  induction ps as [|p ps IH]; intros may k t m th before NP NC Op.
  - exists STATUS_SUCCESS, 0%nat, m. split; [reflexivity|]. split; [left; auto|]. intros [|i] q; discriminate.
  - apply NoDup_cons_iff in NP as [P1 P2]. cbn [map consecutive] in NC. destruct NC as [C1 C2].
    pose proof (Op p (or_introl eq_refl)) as Q1.
    assert (N : m p <> th) by (intros E; apply C1; left; auto).
    cbn [move_loop]. destruct (Z.ltb_spec (m p) 0); [lia|]. unfold dup2.
    destruct (t (m p)) as [o|] eqn:E; [destruct (may k)|].
    + destruct (Z.eqb_spec (m p) th); [congruence|]. set (m1 := fun x => if x =? p then th else m x).
      assert (EM : map m1 ps = map m ps).
      { apply map_ext_in. intros a Ia. unfold m1. destruct (Z.eqb_spec a p); [subst; contradiction|auto]. }
      destruct (IH may (S k) (move1 t (m p) th) m1 (th + 1) (th :: before) P2) as (e & n0 & m' & R1 & R2 & R3).
      { rewrite EM. auto. }
      { intros q Iq. unfold m1. destruct (Z.eqb_spec q p); [subst; contradiction|]. apply Op. right. auto. }
      exists e, (S n0), m'. split; [|split].
      * rewrite EM in R1. unfold move1 in R1 at 1. rewrite E in R1. exact R1.
      * cbn [length]. destruct R2 as [[-> ->]|[-> R2]]; [left; auto|right; split; auto; lia].
      * intros [|i] q Hq; cbn in Hq.
        -- inversion Hq; subst q. cbn [Nat.ltb]. change ((0 <? S n0)%nat) with true. cbn iota.
           assert (G : forall ps k t (m : Z -> Z) th x y z, ~ In p ps -> move_loop may k t m th ps = (x, y, z) -> z p = m p).
           { clear. induction ps as [|q ps IH]; intros k t m th x y z Np R; cbn in R; [inversion R; auto|].
             destruct (m q <? 0); [inversion R; auto|]. destruct (dup2 _ _ _ _); [|inversion R; auto].
             apply IH in R; [|intro; apply Np; right; auto]. rewrite R. destruct (Z.eqb_spec p q); [subst; exfalso; apply Np; left; auto|auto]. }
           rewrite (G _ _ _ _ _ _ _ _ P1 R1). unfold m1. rewrite Z.eqb_refl. lia.
        -- rewrite (R3 i q Hq). change ((S i <? S n0)%nat) with ((i <? n0)%nat).
           destruct (i <? n0)%nat; [lia|]. unfold m1. destruct (Z.eqb_spec q p); [|auto].
           subst. exfalso. apply P1. eapply nth_error_In; eauto.
    + eexists _, 0%nat, m. split; [reflexivity|]. split; [right; split; [auto|cbn; lia]|]. intros. reflexivity.
    + eexists _, 0%nat, m. split; [reflexivity|]. split; [right; split; [auto|cbn; lia]|]. intros. reflexivity.
Qed.

Lemma move_interrupted : forall ps may t (m : Z -> Z) th, 0 <= th -> NoDup ps -> NoDup (map m ps) ->
  no_collision [] (consecutive th (map m ps)) -> (forall p, In p ps -> 0 <= m p) ->
  exists e n t' m', move_descriptors may t m th ps = (e, t', m') /\ moved t t' (firstn n (consecutive th (map m ps))) /\
    ((e = STATUS_SUCCESS /\ n = length ps) \/ (e = ERROR_SOCKET_UTILITIES_DUP2_FAILURE /\ (n < length ps)%nat)) /\
    (forall i p, nth_error ps i = Some p -> m' p = if (i <? n)%nat then th + Z.of_nat i else m p).
Proof.
  intros ps may t m th Ht NP NS NC Op. unfold move_descriptors. destruct (Z.ltb_spec th 0); [lia|].
  destruct (move_prefix ps may 0 t m th [] NP NC Op) as (e & n & m' & R1 & R2 & R3).
  exists e, n. eexists _, m'. split; [exact R1|]. split; [|split; [exact R2|exact R3]].
  apply moved_prefix; auto.
  - rewrite consecutive_sources. auto.
  - apply consecutive_nodup.
Qed.
