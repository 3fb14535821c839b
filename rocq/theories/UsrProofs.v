(** Proofs about the scheduler with the user's own callback. *)
From Verif Require Import Base Status MemModel Heap SchedModel UsrModel UsrSpec.

Definition own (main f : Z) : Z := if f =? main then 0 else f.
Definition phase_state (ph : phase) : Z := match ph with Unbegun => CREATED | Returned => STOPPED | _ => RUNNING end.
Definition kind_of (sched : Z) (ph : phase) : kind := match ph with Yielding => KYield sched | Adding => KAdd | _ => KStop end.
Definition saved_of (sched main f : Z) (ph : phase) : saved :=
  match ph with Unbegun => Start f | _ => Wait (own main f) (kind_of sched ph) end.
Definition entry_of (sched main f : Z) : Z := if f =? main then 0 else sched.

(** The fibers' structures are what the parked and the running fibers say; the running one's state is [st]. *)
Record fibers_ok (sched main run st : Z) (m : Z -> option phase) (h : heap ufib) : Prop := FOK {
  fo_wf : hwf h;
  fo_run : m run = None;
  fo_cur : exists d e p, hget h run = Some (UF st sched (entry_of sched main run) d e p None);
  fo_parked : forall f ph, m f = Some ph -> exists d e p,
    hget h f = Some (UF (phase_state ph) sched (entry_of sched main f) d e p (Some (saved_of sched main f ph)));
  fo_none : forall f, m f = None -> f <> run -> hget h f = None;
  fo_main : run = main \/ m main = Some Yielding \/ m main = Some Adding }.

Definition calls_ok {C} (sched : Z) (y : sys C) (base : list (Z * Z * Z * Z)) (w : world C) : Prop :=
  w_calls w = base ++ map (fun '(f, e, p) => (sched, f, e, p)) (told y).
Record sys_ok {C} (sched main st : Z) (base : list (Z * Z * Z * Z)) (y : sys C) (w : world C) : Prop := SOK {
  so_sch : hget (w_schs w) sched = Some (US main (running y) (context y));
  so_run : w_run w = own main (running y);
  so_calls : calls_ok sched y base w;
  so_fibs : fibers_ok sched main (running y) st (parked y) (w_ufs w) }.

Lemma upd_same : forall V (m : Z -> option V) f v, upd m f v f = v.
Proof. intros. unfold upd. rewrite Z.eqb_refl. auto. Qed.
Lemma upd_other : forall V (m : Z -> option V) f v g, g <> f -> upd m f v g = m g.
Proof. intros. unfold upd. destruct (Z.eqb_spec g f); [congruence|auto]. Qed.

Lemma free_ok : forall sched main run st l m m' h,
  fibers_ok sched main run st m h -> released main l m = Some m' ->
  exists h', free_all l h = Some h' /\ fibers_ok sched main run st m' h'.
Proof.
  induction l as [|f l IH]; intros m m' h F R; cbn in R.
  - inversion R; subst. exists h. auto.
  - destruct (m f) as [ph|] eqn:E; [|discriminate]. destruct (Z.eqb_spec f main); [discriminate|].
    destruct F as [W N Cu P U M]. destruct (P f ph E) as (d & e & p & G).
    cbn. unfold hfree. rewrite G.
    apply (IH (upd m f None) m' (hdel h f)); auto.
    assert (f <> run) by congruence.
    constructor.
    + apply hdel_wf; auto.
    + rewrite upd_other; auto.
    + destruct Cu as (d' & e' & p' & G'). exists d', e', p'. rewrite hget_hdel_other; auto.
    + intros g ph' K. destruct (Z.eq_dec g f) as [->|D]; [rewrite upd_same in K; discriminate|].
      rewrite upd_other in K by auto. rewrite hget_hdel_other by auto. auto.
    + intros g K D. destruct (Z.eq_dec g f) as [->|D']; [apply hget_hdel_same; auto|].
      rewrite upd_other in K by auto. rewrite hget_hdel_other by auto. auto.
    + rewrite upd_other by auto. auto.
Qed.

Lemma ask_ok : forall C (cb : callback C) sched main st base why ev p je jp y w o y',
  sys_ok sched main st base y w -> st = phase_state why -> why <> Unbegun ->
  (why = Returned -> running y <> main) ->
  ask cb sched main why ev p je jp y = Some (o, y') ->
  exists w', switch cb sched (kind_of sched why) ev p je jp w = Some (o, w') /\ calls_ok sched y' base w' /\
    match o with Dies => True | Fails _ => sys_ok sched main st base y' w' | _ => sys_ok sched main RUNNING base y' w' end.
Proof.
  intros C cb sched main st base why ev p je jp y w o y' [Hs Hr Hc Hf] St Nu Nr A.
  unfold ask in A. unfold switch. rewrite Hs. cbn [s_ctx s_cur s_main].
  set (a := cb sched (context y) (running y) ev p) in *. clearbody a.
  destruct (released main (a_freed a) (parked y)) as [m|] eqn:Er; [|discriminate].
  destruct (free_ok _ _ _ _ _ _ _ _ Hf Er) as (h & Eh & F). rewrite Eh.
  assert (Cl : forall (s' : heap (usch C)) h' r', calls_ok sched (Sys r' (parked y') (context y') (told y ++ [(running y, ev, p)])) base
                (W s' h' (w_run w) (w_calls w ++ [(sched, running y, ev, p)]))).
  { intros. unfold calls_ok in *. cbn. rewrite map_app, app_assoc, <- Hc. auto. }
  unfold ok. change STATUS_SUCCESS with 0. destruct (a_status a =? 0) eqn:Ok; cbn [negb].
  2:{ inversion A; subst; clear A. eexists. split; [reflexivity|]. split; [exact (Cl [] [] 0)|].
      constructor; cbn; auto; erewrite hget_hset_same; eauto. }
  destruct (a_fib a) as [g|]; [|discriminate].
  destruct F as [W N (d0 & e0 & p0 & Gc) P U M].
  unfold fiber_switch. cbn [w_ufs w_run w_schs w_calls]. rewrite Gc. unfold set_resume, set_saved. cbn [u_state u_sched u_entry u_disc u_event u_param u_saved].
  rewrite Hr. cbv zeta. cbn [u_state u_sched u_entry u_disc u_event u_param u_saved].
  set (b1 := UF st sched (entry_of sched main (running y)) d0 e0 p0 (Some (Wait (own main (running y)) (kind_of sched why)))).
  set (h1 := hset h (running y) b1).
  set (m1 := upd m (running y) (Some why)) in *.
  (* after saving, every known fiber is parked *)
  assert (P1 : forall f ph, m1 f = Some ph -> exists d e p,
    hget h1 f = Some (UF (phase_state ph) sched (entry_of sched main f) d e p (Some (saved_of sched main f ph)))).
  { intros f ph K. destruct (Z.eq_dec f (running y)) as [->|D].
    - unfold m1 in K. rewrite upd_same in K. inversion K; subst ph. exists d0, e0, p0. unfold h1. erewrite hget_hset_same by eauto.
      unfold b1. subst st. destruct why; try congruence; reflexivity.
    - unfold m1 in K. rewrite upd_other in K by auto. unfold h1. rewrite hget_hset_other by auto. auto. }
  assert (U1 : forall f, m1 f = None -> hget h1 f = None).
  { intros f K. destruct (Z.eq_dec f (running y)) as [->|D]; [unfold m1 in K; rewrite upd_same in K; discriminate|].
    unfold m1 in K. rewrite upd_other in K by auto. unfold h1. rewrite hget_hset_other by auto. auto. }
  assert (M1 : m1 main = Some Yielding \/ m1 main = Some Adding).
  { destruct (Z.eq_dec main (running y)) as [E|D].
    - unfold m1. rewrite <- E, upd_same. destruct why; auto; [congruence|]. exfalso. apply (Nr eq_refl). auto.
    - unfold m1. rewrite upd_other by auto. destruct M as [M|M]; [congruence|auto]. }
  destruct (m1 g) as [ph|] eqn:Eg; [|discriminate]. inversion A; subst o y'; clear A. cbn [parked context] in Cl.
  destruct (P1 g ph Eg) as (d & e & q & Gg). rewrite Gg. cbn [u_saved].
  set (d1 := or_else (a_disc a) INTERNAL_ID). set (e1 := or_else (a_event a) je). set (q1 := or_else (a_param a) jp).
  change (or_junk (a_disc a) INTERNAL_ID) with d1. change (or_junk (a_event a) je) with e1. change (or_junk (a_param a) jp) with q1.
  cbn [u_state u_sched u_entry u_disc u_event u_param u_saved].
  set (b2 := UF (phase_state ph) sched (entry_of sched main g) d1 e1 q1 None).
  set (h2 := hset h1 g b2).
  assert (G2 : hget h2 g = Some b2) by (unfold h2; erewrite hget_hset_same; eauto).
  assert (W2 : hwf h2) by (apply hset_wf, hset_wf; auto).
  assert (F2 : forall st' h3, (forall f, f <> g -> hget h3 f = hget h2 f) -> hwf h3 ->
      hget h3 g = Some (UF st' sched (entry_of sched main g) d1 e1 q1 None) -> fibers_ok sched main g st' (upd m1 g None) h3).
  { intros st' h3 E3 W3 Hg. constructor; auto.
    - apply upd_same.
    - eauto.
    - intros f ph' K. destruct (Z.eq_dec f g) as [->|D]; [rewrite upd_same in K; discriminate|].
      rewrite upd_other in K by auto. rewrite E3 by auto. unfold h2. rewrite hget_hset_other by auto. auto.
    - intros f K D. rewrite upd_other in K by auto. rewrite E3 by auto. unfold h2. rewrite hget_hset_other by auto. auto.
    - destruct (Z.eq_dec main g) as [E|D]; [auto|]. right. rewrite upd_other by auto. auto. }
  clearbody h2 h1.
  assert (Ng : ph = Unbegun -> own main g = g).
  { intros ->. unfold own. destruct (Z.eqb_spec g main) as [->|]; auto. destruct M1; congruence. }
  assert (Sg : hget (hset (w_schs w) sched (US main g (a_ctx a))) sched = Some (US main g (a_ctx a))) by (erewrite hget_hset_same; eauto).
  destruct ph; cbn [saved_of kind_of sees].
  - rewrite G2. eexists. split; [reflexivity|]. split; [exact (Cl [] [] 0)|].
    constructor; cbn; auto; [symmetry; auto|exact (Cl [] [] 0)|].
    apply F2; [intros; apply hget_hset_other; auto|apply hset_wf; auto|]. erewrite hget_hset_same by eauto. reflexivity.
  - rewrite Sg. cbn [s_cur]. rewrite G2. eexists. split; [reflexivity|]. split; [exact (Cl [] [] 0)|].
    constructor; cbn; auto; exact (Cl [] [] 0).
  - eexists. split; [reflexivity|]. split; [exact (Cl [] [] 0)|].
    constructor; cbn; auto; exact (Cl [] [] 0).
  - eexists. split; [reflexivity|]. split; [exact (Cl [] [] 0)|]. auto.
Qed.

Lemma hset_id : forall A (h : heap A) p v, hget h p = Some v -> hset h p v = h.
Proof.
  induction h as [|[q c] t IH]; cbn; intros p v H; auto.
  destruct (Z.eqb_spec p q) as [->|]; [congruence|]. f_equal. auto.
Qed.
Lemma known_get : forall C sched main st base (y : sys C) w f,
  sys_ok sched main st base y w -> known f y = true -> exists b, hget (w_ufs w) f = Some b /\ u_sched b = sched.
Proof.
  intros C sched main st base y w f [_ _ _ [Wf N (d & e & p & G) P U M]] K. unfold known in K.
  destruct (Z.eqb_spec f (running y)) as [->|D]; [eexists; split; [eauto|]; auto|].
  destruct (parked y f) as [ph|] eqn:E; [|discriminate]. destruct (P f ph E) as (d' & e' & p' & G'). eauto.
Qed.
Lemma world_eta : forall C (w : world C), W (w_schs w) (w_ufs w) (w_run w) (w_calls w) = w.
Proof. intros C []. auto. Qed.

Lemma does_ok : forall C (cb : callback C) sched main base c y w o y',
  sys_ok sched main RUNNING base y w -> does cb sched main c y = Some (o, y') ->
  exists w', do_call cb c w = Some (o, w') /\ calls_ok sched y' base w' /\
    match o with Sees Dies => True | _ => sys_ok sched main RUNNING base y' w' end.
Proof.
  intros C cb sched main base c y w o y' S D. destruct c as [s f|s f je jp|s ev p je jp|s je jp|p je jp]; cbn [does do_call] in *.
  - destruct (Z.eqb_spec s sched) as [->|]; [|discriminate]. destruct (Z.eqb_spec f 0) as [->|Nz]; [discriminate|].
    destruct (known f y) eqn:K; [discriminate|]. cbn in D. inversion D; subst; clear D.
    eexists. split; [reflexivity|]. destruct S as [Hs Hr Hc [W N Cu P U M]].
    assert (f <> running y /\ parked y f = None) as [Nr Np].
    { unfold known in K. apply orb_false_iff in K. destruct K as [K1 K2]. apply Z.eqb_neq in K1. split; auto.
      destruct (parked y f); congruence. }
    assert (H : sys_ok sched main RUNNING base (Sys (running y) (upd (parked y) f (Some Unbegun)) (context y) (told y)) (usr_fiber sched f w)).
    { constructor; cbn [usr_fiber w_schs w_run w_ufs running context parked]; auto. constructor.
      - apply hadd_wf; auto.
      - rewrite upd_other; auto.
      - destruct Cu as (d & e & p & G). exists d, e, p. rewrite hget_hadd_other; auto.
      - intros g ph Kg. destruct (Z.eq_dec g f) as [->|Dg].
        + rewrite upd_same in Kg. inversion Kg; subst. rewrite hget_hadd_same. exists 0, 0, 0.
          unfold entry_of. destruct (Z.eqb_spec f main) as [->|]; auto.
          exfalso. destruct M as [M|[M|M]]; congruence.
        + rewrite upd_other in Kg by auto. rewrite hget_hadd_other by auto. auto.
      - intros g Kg Dg. destruct (Z.eq_dec g f) as [->|Df]; [rewrite upd_same in Kg; discriminate|].
        rewrite upd_other in Kg by auto. rewrite hget_hadd_other by auto. auto.
      - destruct M as [M|M]; auto. right. rewrite upd_other; auto. intros ->. destruct M; congruence. }
    split; [apply H|exact H].
  - destruct (Z.eqb_spec s sched) as [->|]; [|discriminate]. destruct (known f y) eqn:K; [|discriminate]. cbn [andb] in D.
    destruct (ask cb sched main Adding YIELD_ADD_FIBER f je jp y) as [[o1 y1]|] eqn:A; [|discriminate]. inversion D; subst; clear D.
    destruct (known_get _ _ _ _ _ _ _ _ S K) as (b & G & Sb).
    unfold usr_add. rewrite G. replace (set_usched sched b) with b by (destruct b; cbn in *; subst; auto).
    rewrite (hset_id _ _ _ _ G), world_eta.
    destruct (ask_ok _ _ _ _ _ _ Adding _ _ _ _ _ _ _ _ S eq_refl (ltac:(discriminate)) (ltac:(discriminate)) A) as (w' & E & Cl & R).
    cbn in E. rewrite E. eexists. split; [reflexivity|]. split; auto; destruct o1; auto.
  - destruct (Z.eqb_spec s sched) as [->|]; [|discriminate].
    destruct (ask cb sched main Yielding ev p je jp y) as [[o1 y1]|] eqn:A; [|discriminate]. inversion D; subst; clear D.
    destruct (ask_ok _ _ _ _ _ _ Yielding _ _ _ _ _ _ _ _ S eq_refl (ltac:(discriminate)) (ltac:(discriminate)) A) as (w' & E & Cl & R).
    cbn in E. unfold usr_yield. rewrite E. eexists. split; [reflexivity|]. split; auto; destruct o1; auto.
  - destruct (Z.eqb_spec s sched) as [->|]; [|discriminate].
    destruct (ask cb sched main Yielding YIELD_RUN 0 je jp y) as [[o1 y1]|] eqn:A; [|discriminate]. inversion D; subst; clear D.
    destruct (ask_ok _ _ _ _ _ _ Yielding _ _ _ _ _ _ _ _ S eq_refl (ltac:(discriminate)) (ltac:(discriminate)) A) as (w' & E & Cl & R).
    cbn in E. unfold usr_run, usr_yield. rewrite E. eexists. split; [reflexivity|]. split; auto; destruct o1; auto.
  - destruct (Z.eqb_spec (running y) main) as [|Nm]; [discriminate|].
    destruct (ask cb sched main Returned YIELD_STOP p je jp y) as [[o1 y1]|] eqn:A; [|discriminate].
    destruct S as [Hs Hr Hc [W N (d & e & q & G) P U M]].
    assert (Ho : own main (running y) = running y) by (unfold own; destruct (Z.eqb_spec (running y) main); congruence).
    unfold usr_return. rewrite Hr, Ho, G. cbn [u_entry].
    replace (entry_of sched main (running y)) with sched in * by (unfold entry_of; destruct (Z.eqb_spec (running y) main); congruence).
    set (w0 := UsrModel.W _ _ _ _).
    assert (S0 : sys_ok sched main STOPPED base y w0).
    { unfold w0. constructor; cbn [w_schs w_run w_ufs w_calls]; auto. constructor; auto.
      - apply hset_wf; auto.
      - erewrite hget_hset_same by eauto. exists d, e, q. unfold set_state. cbn.
        unfold entry_of; destruct (Z.eqb_spec (running y) main); [congruence|reflexivity].
      - intros f ph K. rewrite hget_hset_other by congruence. auto.
      - intros f K Df. rewrite hget_hset_other by congruence. auto. }
    destruct (ask_ok _ _ _ _ _ _ Returned _ _ _ _ _ _ _ _ S0 eq_refl (ltac:(discriminate)) (fun _ => Nm) A) as (w' & E & Cl & R).
    cbn [kind_of] in E. rewrite E.
    destruct o1; inversion D; subst; eexists; (split; [reflexivity|]); auto.
Qed.

Lemma does_all_ok : forall C (cb : callback C) sched main base l y w os y',
  sys_ok sched main RUNNING base y w -> does_all cb sched main l y = Some (os, y') ->
  exists w', do_calls cb l w = Some (os, w') /\ calls_ok sched y' base w' /\
    (~ In (Sees Dies) os -> sys_ok sched main RUNNING base y' w').
Proof.
  induction l as [|c l IH]; intros y w os y' S D; cbn [does_all do_calls] in *.
  - inversion D; subst. exists w. split; auto. split; auto. apply S.
  - destruct (does cb sched main c y) as [[o y1]|] eqn:E; [|discriminate].
    destruct (does_ok _ _ _ _ _ _ _ _ _ _ S E) as (w1 & E1 & C1 & S1). rewrite E1.
    destruct o as [|o].
    + destruct (does_all cb sched main l y1) as [[os2 y2]|] eqn:E2; [|discriminate]. inversion D; subst; clear D.
      destruct (IH _ _ _ _ S1 E2) as (w2 & E3 & C2 & S2). rewrite E3. exists w2. split; auto. split; auto.
      intros K. apply S2. intros I. apply K. right. auto.
    + destruct o; try (destruct (does_all cb sched main l y1) as [[os2 y2]|] eqn:E2; [|discriminate]; inversion D; subst; clear D;
        destruct (IH _ _ _ _ S1 E2) as (w2 & E3 & C2 & S2); rewrite E3; exists w2; split; auto; split; auto;
        intros K; apply S2; intros I; apply K; right; auto).
      inversion D; subst. exists w1. split; auto. split; auto. intros K. exfalso. apply K. left. auto.
Qed.

Lemma states_ok : forall C sched main base (y : sys C) w f,
  sys_ok sched main RUNNING base y w ->
  usr_state f w = state_of y f /\ usr_scheduler f w = (if known f y then Some sched else None).
Proof.
  intros C sched main base y w f [_ _ _ [Wf N (d & e & p & G) P U M]]. unfold usr_state, usr_scheduler, state_of, known.
  destruct (Z.eqb_spec f (running y)) as [->|D]; [rewrite G; auto|].
  destruct (parked y f) as [ph|] eqn:E.
  - destruct (P f ph E) as (d' & e' & p' & G'). rewrite G'. split; auto. destruct ph; auto.
  - rewrite (U f E D). auto.
Qed.

(** * Strands *)
From Coq Require Import Permutation.
Definition held (b : ufib) : list Z := match u_saved b with Some x => [strand x] | None => [] end.
Lemma strands_cons : forall p b t, strands_in ((p, b) :: t) = held b ++ strands_in t.
Proof. intros. unfold held. cbn. destruct (u_saved b); auto. Qed.
Lemma strands_hset : forall h p b b', hget h p = Some b -> Permutation (held b ++ strands_in (hset h p b')) (held b' ++ strands_in h).
Proof.
  induction h as [|[q c] t IH]; cbn [hget hset]; intros p b b' H; [discriminate|].
  destruct (p =? q).
  - inversion H; subst. rewrite !strands_cons. rewrite !app_assoc. apply Permutation_app_tail, Permutation_app_comm.
  - rewrite !strands_cons. specialize (IH _ _ b' H).
    rewrite !app_assoc. rewrite (Permutation_app_comm (held b)), (Permutation_app_comm (held b')), <- !app_assoc.
    apply Permutation_app_head, IH.
Qed.
Lemma strands_hset_same : forall h p b b', hget h p = Some b -> u_saved b' = u_saved b -> strands_in (hset h p b') = strands_in h.
Proof.
  induction h as [|[q c] t IH]; cbn [hget hset]; intros p b b' H E; [discriminate|].
  destruct (p =? q).
  - inversion H; subst. rewrite !strands_cons. unfold held. rewrite E. auto.
  - rewrite !strands_cons. f_equal. eauto.
Qed.
Lemma strands_hdel : forall h p b, hget h p = Some b -> Permutation (strands_in h) (strands_in (hdel h p) ++ held b).
Proof.
  induction h as [|[q c] t IH]; cbn [hget hdel]; intros p b H; [discriminate|].
  destruct (p =? q).
  - inversion H; subst. rewrite strands_cons. apply Permutation_app_comm.
  - rewrite !strands_cons. rewrite <- app_assoc. apply Permutation_app_head; eauto.
Qed.
Lemma strands_free : forall l h h', free_all l h = Some h' -> exists lost, Permutation (strands_in h) (strands_in h' ++ lost).
Proof.
  induction l as [|f l IH]; cbn; intros h h' H.
  - inversion H; subst. exists []. rewrite app_nil_r. auto.
  - unfold hfree in H. destruct (hget h f) as [b|] eqn:E; [|discriminate].
    destruct (IH _ _ H) as (lost & P). exists (lost ++ held b).
    rewrite (strands_hdel _ _ _ E), P, app_assoc. auto.
Qed.
Lemma fiber_switch_strands : forall C k prev next d e p (w : world C) o w' b,
  hget (w_ufs w) prev = Some b -> fiber_switch k prev next d e p w = Some (o, w') -> Permutation (strands w) (strands w' ++ held b).
Proof.
  intros C k prev next d e p w o w' b Hb H. unfold fiber_switch in H. rewrite Hb in H.
  set (h1 := hset (w_ufs w) prev (set_saved (Some (Wait (w_run w) k)) b)) in *.
  destruct (hget h1 next) as [c|] eqn:Hc; [|discriminate]. destruct (u_saved c) as [x|] eqn:Hx; [|discriminate].
  set (h2 := hset h1 next (set_resume d e p (set_saved None c))) in *.
  pose proof (strands_hset _ _ _ (set_saved (Some (Wait (w_run w) k)) b) Hb) as P1. fold h1 in P1.
  pose proof (strands_hset _ _ _ (set_resume d e p (set_saved None c)) Hc) as P2. fold h2 in P2.
  unfold held in P2 at 1. rewrite Hx in P2. cbn in P1, P2.
  assert (P : Permutation (w_run w :: strands_in (w_ufs w)) ((strand x :: strands_in h2) ++ held b)).
  { rewrite <- P1. rewrite P2. apply Permutation_app_comm. }
  unfold strands at 1. rewrite P. clear P.
  destruct x as [f|r [s| |]]; cbn [strand] in *.
  - destruct (hget h2 f) as [c'|] eqn:Hf; [|discriminate]. inversion H; subst. unfold strands. cbn [w_run w_ufs].
    erewrite (strands_hset_same h2 f); eauto.
  - destruct (hget (w_schs w) s) as [t|]; [|discriminate]. destruct (hget h2 (s_cur t)); [|discriminate]. inversion H; subst. auto.
  - inversion H; subst. auto.
  - inversion H; subst. auto.
Qed.
Lemma switch_strands : forall C (cb : callback C) s k ev p je jp w o w',
  switch cb s k ev p je jp w = Some (o, w') -> exists lost, Permutation (strands w) (strands w' ++ lost).
Proof.
  intros C cb s k ev p je jp w o w' H. unfold switch in H.
  destruct (hget (w_schs w) s) as [t|]; [|discriminate].
  set (a := cb s (s_ctx t) (s_cur t) ev p) in *.
  destruct (free_all (a_freed a) (w_ufs w)) as [h|] eqn:E; [|discriminate].
  destruct (strands_free _ _ _ E) as (lost & P).
  destruct (negb (ok (a_status a))); [inversion H; subst; exists lost; unfold strands; cbn; rewrite P; auto|].
  destruct (a_fib a) as [g|]; [|discriminate].
  destruct (hget h (s_cur t)) as [b|] eqn:Eb; [|unfold fiber_switch in H; cbn [w_ufs] in H; rewrite Eb in H; discriminate].
  pose proof (fun X => fiber_switch_strands _ _ _ _ _ _ _ _ _ _ b X H) as Q. specialize (Q Eb).
  exists (held b ++ lost). unfold strands at 1. rewrite P. rewrite app_assoc, <- Q. unfold strands. cbn. auto.
Qed.
Lemma call_strands : forall C (cb : callback C) c w o w',
  do_call cb c w = Some (o, w') -> exists lost, Permutation (creates c ++ strands w) (strands w' ++ lost).
Proof.
  intros C cb c w o w' H. destruct c as [s f|s f je jp|s ev p je jp|s je jp|p je jp]; cbn [do_call creates] in *.
  - inversion H; subst. exists []. rewrite app_nil_r. unfold strands. cbn. constructor.
  - unfold usr_add in H. destruct (hget (w_ufs w) f) as [b|] eqn:E; [|discriminate].
    destruct (switch _ _ _ _ _ _ _ _) as [[o1 w1]|] eqn:Q; [|discriminate]. inversion H; subst.
    destruct (switch_strands _ _ _ _ _ _ _ _ _ _ _ Q) as (lost & P). exists lost. cbn. rewrite <- P. unfold strands. cbn.
    erewrite strands_hset_same; eauto.
  - unfold usr_yield in H. destruct (switch _ _ _ _ _ _ _ _) as [[o1 w1]|] eqn:Q; [|discriminate]. inversion H; subst.
    eapply switch_strands; eauto.
  - unfold usr_run, usr_yield in H. destruct (switch _ _ _ _ _ _ _ _) as [[o1 w1]|] eqn:Q; [|discriminate]. inversion H; subst.
    eapply switch_strands; eauto.
  - unfold usr_return in H. destruct (hget (w_ufs w) (w_run w)) as [b|] eqn:E; [|discriminate].
    destruct (switch _ _ _ _ _ _ _ _) as [[o1 w1]|] eqn:Q; [|discriminate].
    destruct (switch_strands _ _ _ _ _ _ _ _ _ _ _ Q) as (lost & P).
    assert (w' = w1) by (destruct o1; inversion H; auto). subst w1. exists lost. cbn. rewrite <- P. unfold strands. cbn.
    erewrite strands_hset_same; eauto.
Qed.
Lemma calls_strands : forall C (cb : callback C) l w os w',
  do_calls cb l w = Some (os, w') -> exists lost, Permutation (created (firstn (length os) l) ++ strands w) (strands w' ++ lost).
Proof.
  induction l as [|c l IH]; intros w os w' H; cbn [do_calls] in H.
  - inversion H; subst. exists []. rewrite app_nil_r. auto.
  - destruct (do_call cb c w) as [[o w1]|] eqn:E; [|discriminate].
    destruct (call_strands _ _ _ _ _ _ E) as (lost1 & P1).
    assert (Q : os = [o] /\ w' = w1 \/ exists os1, do_calls cb l w1 = Some (os1, w') /\ os = o :: os1).
    { destruct o as [|[]]; try (destruct (do_calls cb l w1) as [[os1 w2]|]; [|discriminate]; inversion H; subst; right; eauto).
      inversion H; subst. left. auto. }
    destruct Q as [[-> ->]|(os1 & E1 & ->)].
    + exists lost1. cbn. rewrite app_nil_r. auto.
    + destruct (IH _ _ _ E1) as (lost2 & P2). exists (lost2 ++ lost1). cbn [length firstn created flat_map]. fold (created (firstn (length os1) l)).
      rewrite (Permutation_app_comm (creates c)), <- app_assoc, P1, app_assoc, P2, <- app_assoc. auto.
Qed.
Lemma no_dup_left : forall (l m : list Z), NoDup (l ++ m) -> NoDup l.
Proof. induction l; cbn; intros m H; constructor; inversion H; subst; eauto. intros I. apply H2, in_or_app. auto. Qed.
Lemma no_dup_part : forall l n, NoDup (created l) -> NoDup (created (firstn n l)).
Proof.
  intros l n H. rewrite <- (firstn_skipn n l) in H. unfold created in *. rewrite flat_map_app in H. now apply no_dup_left in H.
Qed.

(** Nothing is lost. *)
Definition used {C} (w : world C) : list Z := addrs (w_ufs w).
Lemma fiber_switch_apart : forall C k s t g ctx d e p sch h run calls o w',
  hget sch s = Some t ->
  apart (W sch h run calls) ->
  fiber_switch k (s_cur t) g d e p (W (hset sch s (US (C := C) (s_main t) g ctx)) h run calls) = Some (o, w') ->
  Permutation (strands (W (C := C) sch h run calls)) (strands w') /\ apart w' /\ addrs (w_ufs w') = addrs h.
Proof.
  intros C k s t g ctx d e p sch h run calls o w' Ht [A1 A2] H. cbn [w_schs w_ufs] in *.
  destruct (A1 _ _ Ht) as (b & Hb & Nb).
  pose proof (fun X => fiber_switch_strands _ _ _ _ _ _ _ _ _ _ b X H) as P. specialize (P Hb). unfold held in P. rewrite Nb, app_nil_r in P.
  split; [exact P|]. clear P. unfold fiber_switch in H. cbn [w_ufs w_schs w_run w_calls] in H. rewrite Hb in H.
  set (h1 := hset h (s_cur t) (set_saved (Some (Wait run k)) b)) in *.
  destruct (hget h1 g) as [c|] eqn:Hc; [|discriminate]. destruct (u_saved c) as [x|] eqn:Hx; [|discriminate].
  set (h2 := hset h1 g (set_resume d e p (set_saved None c))) in *.
  assert (G2 : hget h2 g = Some (set_resume d e p (set_saved None c))) by (unfold h2; erewrite hget_hset_same; eauto).
  assert (D : addrs h2 = addrs h) by (unfold h2, h1; rewrite !hset_addrs; auto).
  (* other schedulers' current fibers *)
  assert (O : forall s' t', s' <> s -> hget sch s' = Some t' -> s_cur t' <> g /\ hget h2 (s_cur t') = hget h (s_cur t')).
  { intros s' t' N Ht'. assert (Nc : s_cur t' <> s_cur t) by (intros E; apply N; eapply A2; eauto).
    destruct (A1 _ _ Ht') as (b' & Hb' & Nb').
    assert (Hb1 : hget h1 (s_cur t') = Some b') by (unfold h1; rewrite hget_hset_other; auto).
    assert (s_cur t' <> g) by (intros E; rewrite E in Hb1; congruence).
    split; auto. unfold h2. rewrite hget_hset_other by auto. rewrite Hb1; auto. }
  assert (AP : forall h3 r3 c3, (forall f b3, hget h2 f = Some b3 -> exists b4, hget h3 f = Some b4 /\ u_saved b4 = u_saved b3) ->
             apart (W (hset sch s (US (s_main t) g ctx)) h3 r3 c3)).
  { intros h3 r3 c3 E3. split; cbn [w_schs w_ufs].
    - intros s' t' Ht'. destruct (Z.eq_dec s' s) as [->|N].
      + erewrite hget_hset_same in Ht' by eauto. inversion Ht'; subst. cbn. destruct (E3 _ _ G2) as (b4 & ? & ?). eauto.
      + rewrite hget_hset_other in Ht' by auto. destruct (O _ _ N Ht') as [_ E].
        destruct (A1 _ _ Ht') as (b' & Hb' & Nb'). rewrite <- E in Hb'. destruct (E3 _ _ Hb') as (b4 & ? & ?). exists b4. split; auto. congruence.
    - intros s1 t1 s2 t2 H1 H2 E. destruct (Z.eq_dec s1 s) as [->|N1], (Z.eq_dec s2 s) as [->|N2]; auto.
      + erewrite hget_hset_same in H1 by eauto. inversion H1; subst. rewrite hget_hset_other in H2 by auto.
        destruct (O _ _ N2 H2) as [K _]. cbn in E. congruence.
      + erewrite hget_hset_same in H2 by eauto. inversion H2; subst. rewrite hget_hset_other in H1 by auto.
        destruct (O _ _ N1 H1) as [K _]. cbn in E. congruence.
      + rewrite hget_hset_other in H1, H2 by auto. eauto. }
  destruct x as [f|r [q| |]].
  - destruct (hget h2 f) as [c'|] eqn:Hf; [|discriminate]. inversion H; subst. cbn [w_ufs]. split.
    + apply AP. intros f' b3 K. destruct (Z.eq_dec f' f) as [->|N].
      * exists (set_state RUNNING c'). erewrite hget_hset_same by eauto. split; auto. cbn. congruence.
      * rewrite hget_hset_other by auto. eauto.
    + rewrite hset_addrs. auto.
  - destruct (hget (hset _ _ _) q) as [t'|]; [|discriminate]. destruct (hget h2 (s_cur t')); [|discriminate]. inversion H; subst.
    split; auto. apply AP. eauto.
  - inversion H; subst. split; auto. apply AP. eauto.
  - inversion H; subst. split; auto. apply AP. eauto.
Qed.
Lemma switch_apart : forall C (cb : callback C) s k ev p je jp w o w',
  keeps_all cb -> apart w -> switch cb s k ev p je jp w = Some (o, w') ->
  Permutation (strands w) (strands w') /\ apart w' /\ used w' = used w.
Proof.
  intros C cb s k ev p je jp w o w' K A H. unfold switch in H.
  destruct (hget (w_schs w) s) as [t|] eqn:Ht; [|discriminate].
  rewrite K in H. cbn [free_all] in H.
  destruct (negb (ok _)).
  - inversion H; subst. split; [unfold strands; cbn; auto|]. split; [|reflexivity]. destruct A as [A1 A2]. split; cbn.
    + intros s' t' Ht'. rewrite hget_hset in Ht'. destruct (Z.eqb_spec s' s) as [->|]; [rewrite Ht in Ht'; inversion Ht'; subst; cbn|]; eauto.
    + intros s1 t1 s2 t2 H1 H2 E. rewrite !hget_hset in H1, H2. rewrite Ht in H1, H2.
      destruct (Z.eqb_spec s1 s) as [->|], (Z.eqb_spec s2 s) as [->|]; auto;
        repeat match goal with Q : Some _ = Some _ |- _ => inversion Q; subst; clear Q end; cbn in *; eauto.
  - destruct (a_fib _) as [g|]; [|discriminate]. destruct w as [sch h run calls]. cbn [w_schs w_ufs w_run w_calls] in *.
    assert (A' : apart (W sch h run (calls ++ [(s, s_cur t, ev, p)]))) by exact A.
    destruct (fiber_switch_apart _ _ _ _ _ _ _ _ _ _ _ _ _ _ _ Ht A' H) as (P & B & D). auto.
Qed.
Lemma apart_same : forall C (w : world C) f b b', apart w -> hget (w_ufs w) f = Some b -> u_saved b' = u_saved b ->
  apart (W (w_schs w) (hset (w_ufs w) f b') (w_run w) (w_calls w)).
Proof.
  intros C w f b b' [A1 A2] G E. split; cbn; auto. intros s t Ht. destruct (A1 _ _ Ht) as (c & Hc & Nc).
  rewrite hget_hset. destruct (Z.eqb_spec (s_cur t) f) as [E1|]; [|eauto]. rewrite E1 in Hc. rewrite G. exists b'. split; auto. congruence.
Qed.
Lemma call_apart : forall C (cb : callback C) c w o w',
  keeps_all cb -> apart w -> (forall f, In f (creates c) -> ~ In f (used w)) -> do_call cb c w = Some (o, w') ->
  Permutation (creates c ++ strands w) (strands w') /\ apart w' /\ used w' = creates c ++ used w.
Proof.
  intros C cb c w o w' K A F H. destruct c as [s f|s f je jp|s ev p je jp|s je jp|p je jp]; cbn [do_call creates] in *.
  - inversion H; subst. split; [unfold strands; cbn; constructor|]. split; [|reflexivity].
    destruct A as [A1 A2]. split; cbn; auto. intros s' t' Ht'. destruct (A1 _ _ Ht') as (b & Hb & Nb).
    destruct (Z.eqb_spec (s_cur t') f) as [E|]; [|eauto]. exfalso. apply (F f); [left; auto|]. rewrite <- E. eapply hget_in; eauto.
  - unfold usr_add in H. destruct (hget (w_ufs w) f) as [b|] eqn:E; [|discriminate].
    destruct (switch _ _ _ _ _ _ _ _) as [[o1 w1]|] eqn:Q; [|discriminate]. inversion H; subst.
    apply switch_apart in Q; auto; [|eapply apart_same; eauto]. destruct Q as (P & B & D). unfold used in *. cbn [w_ufs] in D. rewrite hset_addrs in D.
    split; auto. cbn. rewrite <- P. unfold strands. cbn. erewrite strands_hset_same; eauto.
  - unfold usr_yield in H. destruct (switch _ _ _ _ _ _ _ _) as [[o1 w1]|] eqn:Q; [|discriminate]. inversion H; subst.
    apply switch_apart in Q; auto.
  - unfold usr_run, usr_yield in H. destruct (switch _ _ _ _ _ _ _ _) as [[o1 w1]|] eqn:Q; [|discriminate]. inversion H; subst.
    apply switch_apart in Q; auto.
  - unfold usr_return in H. destruct (hget (w_ufs w) (w_run w)) as [b|] eqn:E; [|discriminate].
    destruct (switch _ _ _ _ _ _ _ _) as [[o1 w1]|] eqn:Q; [|discriminate].
    assert (w' = w1) by (destruct o1; inversion H; auto). subst w1.
    apply switch_apart in Q; auto; [|eapply apart_same; eauto]. destruct Q as (P & B & D). unfold used in *. cbn [w_ufs] in D. rewrite hset_addrs in D.
    split; auto. cbn. rewrite <- P. unfold strands. cbn. erewrite strands_hset_same; eauto.
Qed.
Lemma calls_apart : forall C (cb : callback C) l w os w',
  keeps_all cb -> apart w -> NoDup (created l ++ used w) -> do_calls cb l w = Some (os, w') ->
  Permutation (created (firstn (length os) l) ++ strands w) (strands w') /\ apart w'.
Proof.
  induction l as [|c l IH]; intros w os w' K A N H; cbn [do_calls] in H.
  - inversion H; subst. auto.
  - destruct (do_call cb c w) as [[o w1]|] eqn:E; [|discriminate].
    cbn [created flat_map] in N. fold (created l) in N.
    assert (F : forall f, In f (creates c) -> ~ In f (used w)).
    { intros f I J. destruct c; cbn in I; try tauto. destruct I as [<-|[]]. cbn in N. inversion N; subst. apply H2. apply in_or_app. auto. }
    destruct (call_apart _ _ _ _ _ _ K A F E) as (P1 & A1 & U1).
    assert (N1 : NoDup (created l ++ used w1)).
    { rewrite U1. eapply Permutation_NoDup; [|exact N]. rewrite <- app_assoc, !app_assoc. apply Permutation_app_tail, Permutation_app_comm. }
    assert (Q : os = [o] /\ w' = w1 \/ exists os1, do_calls cb l w1 = Some (os1, w') /\ os = o :: os1).
    { destruct o as [|[]]; try (destruct (do_calls cb l w1) as [[os1 w2]|]; [|discriminate]; inversion H; subst; right; eauto).
      inversion H; subst. left. auto. }
    destruct Q as [[-> ->]|(os1 & E1 & ->)].
    + cbn. rewrite app_nil_r. auto.
    + destruct (IH _ _ _ K A1 N1 E1) as (P2 & A2). split; auto. cbn [length firstn created flat_map]. fold (created (firstn (length os1) l)).
      rewrite (Permutation_app_comm (creates c)), <- app_assoc, P1. auto.
Qed.

(** The schedulers stay. *)
Lemma switch_schs : forall C (cb : callback C) s k ev p je jp w o w', switch cb s k ev p je jp w = Some (o, w') -> addrs (w_schs w') = addrs (w_schs w).
Proof.
  intros C cb s k ev p je jp w o w' H. unfold switch in H. destruct (hget (w_schs w) s) as [t|]; [|discriminate].
  destruct (free_all _ _) as [h|]; [|discriminate]. destruct (negb _); [inversion H; subst; cbn [w_schs]; apply hset_addrs|].
  destruct (a_fib _) as [g|]; [|discriminate]. unfold fiber_switch in H. cbn [w_ufs w_schs] in H.
  destruct (hget h (s_cur t)); [|discriminate]. destruct (hget (hset h _ _) g) as [c|]; [|discriminate]. destruct (u_saved c) as [[f|r [q| |]]|]; [..|discriminate].
  - destruct (hget _ f); [|discriminate]. inversion H; subst. apply hset_addrs.
  - destruct (hget _ q); [|discriminate]. destruct (hget _ (s_cur _)); [|discriminate]. inversion H; subst. apply hset_addrs.
  - inversion H; subst. apply hset_addrs.
  - inversion H; subst. apply hset_addrs.
Qed.
Lemma calls_schs : forall C (cb : callback C) l w os w', do_calls cb l w = Some (os, w') -> addrs (w_schs w') = addrs (w_schs w).
Proof.
  induction l as [|c l IH]; intros w os w' H; cbn [do_calls] in H; [inversion H; auto|].
  destruct (do_call cb c w) as [[o w1]|] eqn:E; [|discriminate].
  assert (A : addrs (w_schs w1) = addrs (w_schs w)).
  { destruct c as [s f|s f je jp|s ev p je jp|s je jp|p je jp]; cbn [do_call] in E.
    - inversion E; subst. auto.
    - unfold usr_add in E. destruct (hget (w_ufs w) f); [|discriminate].
      destruct (switch _ _ _ _ _ _ _ _) as [[o1 w2]|] eqn:Q; [|discriminate]. inversion E; subst. apply switch_schs in Q. auto.
    - unfold usr_yield in E. destruct (switch _ _ _ _ _ _ _ _) as [[o1 w2]|] eqn:Q; [|discriminate]. inversion E; subst. apply switch_schs in Q. auto.
    - unfold usr_run, usr_yield in E. destruct (switch _ _ _ _ _ _ _ _) as [[o1 w2]|] eqn:Q; [|discriminate]. inversion E; subst. apply switch_schs in Q. auto.
    - unfold usr_return in E. destruct (hget (w_ufs w) (w_run w)); [|discriminate].
      destruct (switch _ _ _ _ _ _ _ _) as [[o1 w2]|] eqn:Q; [|discriminate]. apply switch_schs in Q. destruct o1; inversion E; subst; auto. }
  destruct o as [|[]]; try (destruct (do_calls cb l w1) as [[os1 w2]|] eqn:D; [|discriminate]; inversion H; subst; rewrite <- A; eauto).
  inversion H; subst. auto.
Qed.
Lemma free_gone : forall l h h' f, hwf h -> free_all l h = Some h' -> In f l -> hget h' f = None.
Proof.
  assert (K : forall l h h' f, hwf h -> free_all l h = Some h' -> hget h f = None -> hget h' f = None).
  { induction l as [|g l IH]; cbn; intros h h' f W H N; [congruence|]. unfold hfree in H. destruct (hget h g); [|discriminate].
    eapply IH; [apply hdel_wf; exact W|exact H|]. rewrite hget_hdel by auto. destruct (f =? g); auto. }
  induction l as [|g l IH]; cbn; intros h h' f W H I; [tauto|]. unfold hfree in H. destruct (hget h g); [|discriminate].
  destruct I as [->|I]; [|eapply IH; [apply hdel_wf; exact W|exact H|auto]].
  eapply K; [apply hdel_wf; exact W|exact H|]. apply hget_hdel_same; auto.
Qed.
