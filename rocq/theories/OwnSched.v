(** The scheduler of OwnModel. *)
From Coq Require Import Permutation.
From Verif Require Import Base Status MemModel MemProofs Heap OwnModel OwnSpec OwnProofs OwnSep OwnBuild.

Lemma has_gones : forall F a b s s', has F (a ++ b) s -> hwf (m_h s') -> gone (m_h s) (m_h s') (feet a) -> has F b s'.
Proof.
  intros F a b s s' [W N O I0 S0] W' G. rewrite feet_app in *. apply nodup_app in N as (N1 & N2 & N3). apply Forall_app in S0 as [S1 S2]. constructor; auto.
  - intros q Q. destruct (in_dec Z.eq_dec q (feet a)) as [K|K].
    + rewrite (gone_in _ _ _ _ G K). symmetry. apply I0. apply in_app_iff. auto.
    + rewrite (gone_other _ _ _ _ G K). apply O. rewrite in_app_iff. tauto.
  - intros q Q. apply I0. apply in_app_iff. auto.
  - apply (sats_frame (m_h s)); [auto|]. intros q Q. apply (gone_other _ _ _ _ G). intros K. apply (N3 q); auto.
Qed.
Lemma st_release_at : forall v n p l F cs s, has F (Ob KRes p l :: cs) s -> (length l <= n)%nat -> exists s', release_at v n p s = Some (STATUS_SUCCESS, s') /\ has F cs s' /\ m_n s' = m_n s.
Proof.
  intros v n p l F cs s H N. pose proof (has_sat _ _ _ H) as X. inversion X as [|? ? S1 S2]; subst. cbn [sat] in S1. pose proof (has_nodup _ _ _ H) as ND. cbn [feet flat_map foot] in ND. apply nodup_app in ND as (ND & _).
  destruct (release_ok v n p l s) as (h' & E & W & G); auto; [lia|apply (has_wf _ _ _ H)|]. eexists. split; [exact E|]. split; [|reflexivity]. eapply has_gone; [exact H|auto|auto].
Qed.
Lemma note_ok : forall v ctx s f d rq cb cx i sc sl, good v -> hwf (m_h s) -> hget (m_h s) ctx = Some (BCtx f d rq cb cx i sc) -> sc <> 0 -> hget (m_h s) sc <> None ->
  hget (m_h s) rq = Some (BQueue sl) -> hget (m_h s) sl <> None -> exists s', note v ctx s = Some (e_al v (m_n s), s') /\ hwf (m_h s') /\ unchanged (m_h s) (m_h s') /\ m_n s' = S (m_n s).
Proof.
  intros v ctx s f d rq cb cx i sc sl G W GC NZ GS GQ GL. unfold note. rewrite (bind_some _ _ _ _ s (BCtx f d rq cb cx i sc) s) by (unfold load; rewrite GC; auto).
  destruct (Z.eqb_spec sc 0); [contradiction|]. destruct (hget (m_h s) sc) as [b|] eqn:B; [|congruence]. rewrite (bind_some _ _ _ _ s b s) by (unfold load; rewrite B; auto). rewrite (bind_some _ _ _ _ s (BQueue sl) s) by (unfold load; rewrite GQ; auto). cbv beta iota.
  destruct (hget (m_h s) sl) as [b1|] eqn:B1; [|congruence]. rewrite (bind_some _ _ _ _ s b1 s) by (unfold load; rewrite B1; auto). pose proof (has_start s W) as H. st_al G.
  - st_fr. eexists. split; [unfold mret; rewrite K; reflexivity|]. the_h ltac:(fun H => idtac) || idtac. match goal with H : has _ [] ?s |- _ => split; [apply (has_wf _ _ _ H)|split; [exact (has_unchanged _ _ H)|lia]] end.
  - eexists. split; [reflexivity|]. match goal with H : has _ [] ?s |- _ => split; [apply (has_wf _ _ _ H)|split; [exact (has_unchanged _ _ H)|lia]] end.
Qed.
Lemma has_get : forall F cs s p b, has F cs s -> In (Pt p b) cs -> hget (m_h s) p = Some b.
Proof. intros F cs s p b H I0. pose proof (has_sat _ _ _ H) as X. rewrite Forall_forall in X. apply (X _ I0). Qed.
Lemma has_own : forall F cs s k p l, has F cs s -> In (Ob k p l) cs -> owns (m_h s) k p l.
Proof. intros F cs s k p l H I0. pose proof (has_sat _ _ _ H) as X. rewrite Forall_forall in X. apply (X _ I0). Qed.
Lemma owns_queue : forall h q l, owns h KQueue q l -> exists sl x, hget h q = Some (BQueue sl) /\ hget h sl = Some (BSlist false x).
Proof.
  intros h q l O. inversion O as [k0 p0 b ls G F FA]; subst. destruct b; try discriminate F. inversion FA as [|? l1 ? ls1 P1 F1]; subst. cbn in P1. inversion P1 as [k1 p1 b1 ls2 G1 F2 FA2]; subst. destruct b1 as [| | | | |own x| | | | | | | | | | |]; try discriminate F2. destruct own; [discriminate|]. eauto.
Qed.
Lemma st_release_sched : forall v p m lm ctx f d rq cb cx idle lf ld lq ols F cs s, good v ->
  let gone_ := Pt p (BSched m ctx true) :: Ob KRes m lm :: Ob KRes f lf :: Ob KRes d ld :: Ob KQueue rq lq :: Ob KRaw cb [cb] :: Ob KRaw cx [cx] :: map ob ols in
  map fst ols = some KRes idle -> has F (gone_ ++ Pt ctx (BCtx f d rq cb cx idle p) :: cs) s -> (length (feet gone_) <= e_fuel v)%nat ->
  exists s', release v p s = Some (e_al v (m_n s), s') /\ has F (Pt ctx (BCtx f d rq cb cx idle p) :: cs) s' /\ m_n s' = S (m_n s).
Proof.
  intros v p m lm ctx f d rq cb cx idle lf ld lq ols F cs s G gone_ OL H N.
  assert (GP : hget (m_h s) p = Some (BSched m ctx true)) by (apply (has_get _ _ _ _ _ H); left; auto).
  assert (GC : hget (m_h s) ctx = Some (BCtx f d rq cb cx idle p)) by (apply (has_get _ _ _ _ _ H); apply in_app_iff; right; left; auto).
  assert (OWN : forall k q l, In (Ob k q l) gone_ -> owns (m_h s) k q l) by (intros k q l I0; apply (has_own _ _ _ _ _ _ H); apply in_app_iff; auto).
  assert (NZ : forall k q l, In (Ob k q l) gone_ -> q <> 0) by (intros k q l I0 ->; specialize (OWN _ _ _ I0); inversion OWN; subst; rewrite hget_null in H0 by apply (has_wf _ _ _ H); discriminate).
  assert (PC : forall n k q l, In (Ob k q l) gone_ -> (e_fuel v <= n)%nat -> piece n (m_h s) (k, q) l).
  { intros n k q l I0 NN. split; [apply OWN; auto|]. destruct I0 as [I0|I0]; [discriminate|]. assert (In l (map foot (tl gone_))) as I1 by (apply in_map_iff; exists (Ob k q l); auto). apply len_concat in I1. assert (feet gone_ = p :: concat (map foot (tl gone_))) as FE by (unfold feet; rewrite flat_map_concat_map; reflexivity). rewrite FE in N. cbn [length] in N. lia. }
  destruct (e_fuel v) as [|fuel] eqn:FU; [destruct G as [_ G]; lia|].
  unfold release. rewrite FU. cbn [release_at]. rewrite GP. unfold rel_acts. rewrite GC. unfold ctx_acts.
  destruct (acts_emptied (S fuel) (m_h s) KQueue rq lq) as (e & EE & AE); [apply PC; [cbn; tauto|lia]|auto|]. rewrite EE. cbv beta iota.
  assert (m =? 0 = false) as -> by (apply Z.eqb_neq; apply (NZ KRes m lm); cbn; tauto).
  assert (opt Fr cb = [Fr cb]) as -> by (unfold opt; destruct (Z.eqb_spec cb 0) as [X|X]; [exfalso; apply (NZ KRaw cb [cb]) in X; auto; cbn; tauto|auto]).
  assert (opt Fr cx = [Fr cx]) as -> by (unfold opt; destruct (Z.eqb_spec cx 0) as [X|X]; [exfalso; apply (NZ KRaw cx [cx]) in X; auto; cbn; tauto|auto]).
  cbn [app run_acts].
  destruct (owns_queue (m_h s) rq lq) as (sl & x & Q1 & Q2); [apply OWN; cbn; tauto|].
  destruct (note_ok v ctx s f d rq cb cx idle p sl G (has_wf _ _ _ H) GC) as (s1 & E1 & W1 & U1 & M1); auto.
  { intros ->. rewrite hget_null in GP by apply (has_wf _ _ _ H). discriminate. } { congruence. } { congruence. }
  rewrite (bind_some _ _ _ _ _ _ _ E1).
  assert (A : acts_for (S fuel) (m_h s1) (Rel m :: Fr p :: Rel f :: Rel d :: e ++ opt Rel idle ++ [Fr cb] ++ [Fr cx]) (feet gone_)).
  { assert (acts_for (S fuel) (m_h s) (Rel m :: Fr p :: Rel f :: Rel d :: e ++ opt Rel idle ++ [Fr cb] ++ [Fr cx]) (feet gone_)) as (ls & A1 & A2).
    - eapply acts_perm; [apply (acts_app _ _ [Rel m]); [apply acts_rel; apply (PC (S fuel) KRes m lm); [cbn; tauto|lia]|]; apply (acts_app _ _ [Fr p]); [apply acts_fr; congruence|]; apply (acts_app _ _ [Rel f]); [apply acts_rel; apply (PC (S fuel) KRes f lf); [cbn; tauto|lia]|]; apply (acts_app _ _ [Rel d]); [apply acts_rel; apply (PC (S fuel) KRes d ld); [cbn; tauto|lia]|]; apply acts_app; [exact AE|]; apply acts_app; [apply (acts_opt _ _ _ (map snd ols))|apply acts_app; [apply acts_raw; apply (PC (S fuel) KRaw cb [cb]); [cbn; tauto|lia]|apply acts_raw; apply (PC (S fuel) KRaw cx [cx]); [cbn; tauto|lia]]]|].
      + rewrite <- OL. assert (forall o, In o ols -> piece (S fuel) (m_h s) (fst o) (snd o)) as X.
        { intros [[k q] l] I0. apply PC; [|lia]. unfold gone_. do 7 right. apply in_map_iff. exists (k, q, l). auto. }
        clear - X. induction ols as [|o ols IH]; constructor; auto with datatypes.
      + unfold gone_, feet. cbn [flat_map foot]. fold (feet (map ob ols)). rewrite feet_obs.
        cbn [app]. rewrite Permutation_app_comm. cbn [app]. constructor. rewrite Permutation_app_comm. apply Permutation_app_head. apply Permutation_app_head. apply Permutation_app_head. apply Permutation_app_head. rewrite Permutation_app_comm. auto.
    - exists ls. split; [|auto]. apply (forall2_with _ _ _ _ _ _ A1). intros a l _ _ X. eapply act_own_frame; [exact X|]. intros q _. apply U1. }
  destruct A as (ls & A1 & A2).
  assert (H1 : has F (gone_ ++ Pt ctx (BCtx f d rq cb cx idle p) :: cs) s1) by (eapply has_same; eauto).
  destruct (run_acts_ok v (release_at v fuel) (S fuel) _ ls s1 (release_ok v fuel) A1) as (h2 & E2 & W2 & G2); auto.
  { eapply Permutation_NoDup; [apply Permutation_sym; exact A2|]. pose proof (has_nodup _ _ _ H1) as X. rewrite feet_app in X. apply nodup_app in X. tauto. }
  unfold mbind. cbn [run_acts app] in E2. unfold mbind in E2. rewrite E2. unfold mret. exists (MS h2 (m_n s1)). split; [|split; [eapply has_gones; [exact H1|exact W2|eapply gone_perm; eauto]|exact M1]].
  destruct (ok (e_al v (m_n s))) eqn:K; [apply ok_true in K; rewrite K|]; reflexivity.
Qed.

(** fiber_scheduler_create in a disciplined context *)
Definition sched_out (v : menv) (ctx f d rq cb cx sl : Z) (F : Z -> option blk) (cs : list chunk) (s : ms) (o : option (Z * Z * ms)) : Prop :=
  let c := Pt ctx (BCtx f d rq cb cx 0 0) :: Pt rq (BQueue sl) :: Pt sl (BSlist false []) :: cs in
  (oks v (m_n s) 3 /\ exists p m s', o = Some ((STATUS_SUCCESS, p), s') /\ has F (Pt p (BSched m ctx false) :: Ob KRes m [m] :: c) s' /\ m_n s' = (m_n s + 3)%nat) \/
  (exists i s', (i < 2)%nat /\ fails v (m_n s) i /\ o = Some ((ERROR_GENERAL_OUT_OF_MEMORY, 0), s') /\ has F c s' /\ m_n s' = S (m_n s + i)) \/
  (fails v (m_n s) 2 /\ o = None).
Lemma release_sched0 : forall v p ctx F cs s, good v -> has F (Pt p (BSched 0 ctx false) :: cs) s -> exists s', release v p s = Some (STATUS_SUCCESS, s') /\ has F cs s' /\ m_n s' = m_n s.
Proof.
  intros v p ctx F cs s G H. destruct (st_free _ _ _ _ _ H) as (s' & E & H' & M). exists s'. split; [|auto]. unfold release. destruct (e_fuel v) as [|n] eqn:FU; [destruct G; nlia|]. cbn [release_at]. rewrite (has_get _ _ _ p _ H) by (left; reflexivity). cbn [rel_acts]. cbn. unfold mbind. rewrite E. reflexivity.
Qed.
Lemma owns_one : forall h k p l, owns h k p l -> length l = 1%nat -> l = [p].
Proof. intros h k p l O L. inversion O; subst. cbn [length] in L. destruct (concat ls); [auto|cbn in L; nlia]. Qed.
Lemma release_none : forall v p m ctx s n f d rq cb cx i, m <> 0 -> hget (m_h s) p = Some (BSched m ctx false) -> hget (m_h s) ctx = Some (BCtx f d rq cb cx i 0) -> release_at v n p s = None.
Proof.
  intros v p m ctx s n f d rq cb cx i NZ E E1. destruct n as [|n]; [reflexivity|]. cbn [release_at]. rewrite E. cbn [rel_acts]. assert (m =? 0 = false) as -> by (apply Z.eqb_neq; auto). cbn [app run_acts]. unfold mbind. unfold note, load, mbind. rewrite E1. reflexivity.
Qed.
Lemma st_sched : forall v ctx f d rq cb cx sl F cs s, good v -> has F (Pt ctx (BCtx f d rq cb cx 0 0) :: Pt rq (BQueue sl) :: Pt sl (BSlist false []) :: cs) s -> sched_out v ctx f d rq cb cx sl F cs s (sched_create v ctx s).
Proof.
  intros v ctx f d rq cb cx sl F cs s G H. unfold sched_create. st_al G.
  - st_bd (builds_fiber_for_thread v G).
    + assert (l = [p0]) as LL by (apply (owns_one (m_h s1) KRes p0 l); [apply (has_own _ _ _ _ _ _ H0); left; auto|auto]). subst l. pose proof (has_nz _ _ _ _ _ _ H0) as NZ0.
      st_st. st_ld. st_ld. st_ld. st_al G.
      * st_fr. match goal with H : has _ _ ?s |- context [mret _ ?s] => bring H sl; bring H rq; bring H ctx; bring H p0; bring H p end. left. split; [oks_tac|]. exists p, p0. eexists. split; [reflexivity|]. split; [eassumption|nlia].
      * right. right. split; [split; [oks_tac|al_bad]|]. rewrite bind_none; [reflexivity|]. match goal with H : has _ _ ?s |- release _ _ ?s = None => apply (release_none _ _ p0 ctx _ _ f d rq cb cx 0); [auto|apply (has_get _ _ _ _ _ H); cbn; tauto..] end.
    + match goal with |- context [mbind (release v p) ?g ?s] => match goal with H : has _ _ s |- _ => destruct (release_sched0 _ _ _ _ _ _ G H) as (s3 & E3 & H3 & M3); rewrite (bind_some _ _ _ g _ _ _ E3); norm end end.
      right. left. exists 1%nat. exists s3. split; [nlia|]. split; [split; [oks_tac|al_bad]|]. split; [reflexivity|]. split; [eassumption|nlia].
  - right. left. exists 0%nat. eexists. split; [nlia|]. split; [split; [oks_tac|al_bad]|]. split; [reflexivity|]. split; [eassumption|nlia].
Qed.
(** fiber_scheduler_discipline_add *)
Definition add_out (v : menv) (p m ctx f t rq cb cx idle sc x id dv codes dc : Z) (l : list (Z * Z)) (F : Z -> option blk) (cs : list chunk) (s : ms) (o : option (Z * ms)) : Prop :=
  let c cb cx l add := Pt p (BSched m ctx true) :: Pt ctx (BCtx f t rq cb cx idle sc) :: Pt t (BTree l) :: Pt x (BDisc id dv codes dc add) :: Pt cb BRaw :: Pt cx BRaw :: cs in
  (oks v (m_n s) 3 /\ exists n cb' cx' s', o = Some (STATUS_SUCCESS, s') /\ has F (Pt n BRaw :: c cb' cx' ((n, x) :: l) true) s' /\ m_n s' = (m_n s + 3)%nat) \/
  (fails v (m_n s) 0 /\ exists s', o = Some (e_al v (m_n s), s') /\ has F (c cb cx l false) s' /\ m_n s' = S (m_n s)) \/
  (fails v (m_n s) 1 /\ exists n s', o = Some (e_al v (m_n s + 1)%nat, s') /\ has F (Pt n BRaw :: c cb cx ((n, x) :: l) false) s' /\ m_n s' = (m_n s + 2)%nat) \/
  (fails v (m_n s) 2 /\ exists n cb' s', o = Some (e_al v (m_n s + 2)%nat, s') /\ has F (Pt n BRaw :: c cb' cx ((n, x) :: l) false) s' /\ m_n s' = (m_n s + 3)%nat).
Ltac assoc := match goal with |- context [mbind (mbind ?a ?b) ?c ?s] => replace (mbind (mbind a b) c s) with (mbind a (fun x => mbind (b x) c) s) by (unfold mbind; destruct (a s) as [[? ?]|]; reflexivity); cbv beta end.
Ltac retb := match goal with |- context [mbind (mret ?a) ?g ?s] => change (mbind (mret a) g s) with (g a s); cbv beta iota end; norm.
Ltac puts := repeat match goal with |- context [mbind (match ?y with pair _ _ => _ end) _ _] => idtac end.
Lemma st_add : forall v p m ctx f t rq cb cx idle sc x id dv codes dc l F cs s, good v ->
  has F (Pt p (BSched m ctx true) :: Pt ctx (BCtx f t rq cb cx idle sc) :: Pt t (BTree l) :: Pt x (BDisc id dv codes dc false) :: Pt cb BRaw :: Pt cx BRaw :: cs) s -> find_disc l id s = Some (0, s) ->
  add_out v p m ctx f t rq cb cx idle sc x id dv codes dc l F cs s (disc_add v p x s).
Proof.
  intros v p m ctx f t rq cb cx idle sc x id dv codes dc l F cs s G H FD. unfold disc_add. st_ld. st_ld. st_ld. st_ld. rewrite (bind_some _ _ _ _ _ _ _ FD). cbv beta. change (0 =? 0) with true. cbn [negb]. cbv iota. unfold rbtree_insert. assoc. st_ld. assoc. st_al G; [assoc; st_st; retb; unfold regrow at 1; assoc; st_al G; [assoc; st_fr; retb; st_st; unfold regrow; assoc; st_al G; [assoc; st_fr; retb; st_st; st_st|]|]|].
  - left. split; [oks_tac|]. exists p0, p1, p2. eexists. split; [reflexivity|]. split; [|nlia]. match goal with H : has _ _ ?s |- has _ _ ?s => bring H p2; bring H p1; bring H x; bring H t; bring H ctx; bring H p; bring H p0; exact H end.
  - retb. st_st. is_bad K1. norm. right. right. right. split; [split; [oks_tac|al_bad]|]. exists p0, p1. eexists. split; [unfold mret; do 3 f_equal; nlia|]. split; [|nlia]. match goal with H : has _ _ ?s |- has _ _ ?s => bring H cx; bring H p1; bring H x; bring H t; bring H ctx; bring H p; bring H p0; exact H end.
  - retb. st_st. is_bad K0. norm. right. right. left. split; [split; [oks_tac|al_bad]|]. exists p0. eexists. split; [unfold mret; do 3 f_equal; nlia|]. split; [|nlia]. match goal with H : has _ _ ?s |- has _ _ ?s => bring H cx; bring H cb; bring H x; bring H t; bring H ctx; bring H p; bring H p0; exact H end.
  - retb. is_bad K. norm. right. left. split; [split; [oks_tac|al_bad]|]. eexists. split; [reflexivity|]. split; [|nlia]. match goal with H : has _ _ ?s |- has _ _ ?s => bring H cx; bring H cb; bring H x; bring H t; bring H ctx; bring H p; exact H end.
Qed.

Lemma has_apart : forall F k x l cs s, has F (Ob k x l :: cs) s -> F x = None /\ ~ In x (feet cs).
Proof.
  intros F k x l cs s H. assert (In x l) as I0 by (pose proof (has_own _ _ _ _ _ _ H (or_introl eq_refl)) as O; inversion O; subst; left; auto). split; [apply (has_in _ _ _ H); apply in_app_iff; auto|]. pose proof (has_nodup _ _ _ H) as N. cbn [feet flat_map foot] in N. apply nodup_app in N as (_ & _ & N). apply N. auto.
Qed.
(** A discipline in the tree that is gone already *)
Lemma release_dangling : forall v p m lm ctx f t rq cb cx idle lf lq n x l F cs s, (S (length lm) <= e_fuel v)%nat -> (S (length lf) <= e_fuel v)%nat -> good v ->
  has F (Pt p (BSched m ctx true) :: Ob KRes m lm :: Ob KRes f lf :: Pt ctx (BCtx f t rq cb cx idle p) :: Ob KQueue rq lq :: Pt t (BTree ((n, x) :: l)) :: cs) s ->
  F x = None -> ~ In x (feet (Pt p (BSched m ctx true) :: Ob KRes m lm :: Ob KRes f lf :: Pt ctx (BCtx f t rq cb cx idle p) :: Ob KQueue rq lq :: Pt t (BTree ((n, x) :: l)) :: cs)) ->
  release v p s = None.
Proof.
  intros v p m lm ctx f t rq cb cx idle lf lq n x l F cs s LM LF G H FX NX.
  assert (GP : hget (m_h s) p = Some (BSched m ctx true)) by (apply (has_get _ _ _ _ _ H); cbn; tauto).
  assert (GC : hget (m_h s) ctx = Some (BCtx f t rq cb cx idle p)) by (apply (has_get _ _ _ _ _ H); cbn; tauto).
  assert (m =? 0 = false) as MZ by (apply Z.eqb_neq; intros ->; pose proof (has_own _ _ _ KRes 0 lm H) as O; assert (owns (m_h s) KRes 0 lm) as O' by (apply O; cbn; tauto); inversion O' as [k0 p0 b ls X]; subst; rewrite hget_null in X by apply (has_wf _ _ _ H); discriminate).
  unfold release. destruct (e_fuel v) as [|fuel] eqn:FU; [reflexivity|]. cbn [release_at]. rewrite GP. unfold rel_acts. rewrite GC, MZ. unfold ctx_acts. destruct (emptied (m_h s) rq) as [e|]; [|reflexivity]. cbn [app run_acts].
  destruct (owns_queue (m_h s) rq lq) as (sl & y & Q1 & Q2); [apply (has_own _ _ _ _ _ _ H); cbn; tauto|].
  destruct (note_ok v ctx s f t rq cb cx idle p sl G (has_wf _ _ _ H) GC) as (s1 & E1 & W1 & U1 & _); auto.
  { intros ->. rewrite hget_null in GP by apply (has_wf _ _ _ H). discriminate. } { congruence. } { congruence. }
  rewrite (bind_some _ _ _ _ _ _ _ E1). apply bind_none. apply (has_same _ _ _ _ H W1) in U1. clear H. rename U1 into H.
  bring H m. destruct (st_release_at v fuel _ _ _ _ _ H) as (s2 & E2 & H2 & _); [nlia|]. rewrite (bind_some _ _ _ _ _ _ _ E2). apply bind_none. clear H.
  destruct (st_free _ _ _ _ _ H2) as (s3 & E3 & H3 & _). assoc. rewrite (bind_some _ _ _ _ _ _ _ E3). clear H2. retb. apply bind_none.
  destruct (st_release_at v fuel _ _ _ _ _ H3) as (s4 & E4 & H4 & _); [nlia|]. rewrite (bind_some _ _ _ _ _ _ _ E4). apply bind_none. clear H3.
  apply bind_none. destruct fuel as [|fuel]; [reflexivity|]. cbn [release_at]. rewrite (has_get _ _ _ t (BTree ((n, x) :: l)) H4) by (cbn; tauto). cbn [rel_acts flat_map app run_acts snd fst]. apply bind_none. destruct fuel; [reflexivity|]. cbn [release_at].
  rewrite (has_out _ _ _ H4), FX; [reflexivity|]. intros K. apply NX. cbn [feet flat_map foot app] in *. repeat (rewrite ?in_app_iff in *; cbn [In app] in *). tauto.
Qed.

Definition create_out (v : menv) (s : ms) (o : option (Z * Z * ms)) : Prop :=
  (oks v (m_n s) 16 /\ exists p l s' m ctx f d rq cb cx, o = Some ((STATUS_SUCCESS, p), s') /\ has (hget (m_h s)) [Ob KSched p l] s' /\ m_n s' = (m_n s + 16)%nat /\ length l = 13%nat /\ hget (m_h s') p = Some (BSched m ctx true) /\ hget (m_h s') ctx = Some (BCtx f d rq cb cx 0 p) /\
     exists n x dv codes, hget (m_h s') d = Some (BTree [(n, x)]) /\ hget (m_h s') x = Some (BDisc FIBER_SCHEDULER_MANAGEMENT_DISCIPLINE dv codes 0 true)) \/
  (exists i s', (i < 3)%nat /\ fails v (m_n s) i /\ o = Some ((ERROR_GENERAL_OUT_OF_MEMORY, 0), s') /\ has (hget (m_h s)) [] s') \/
  (exists i s', (3 <= i < 9)%nat /\ fails v (m_n s) i /\ o = Some ((STATUS_SUCCESS, 0), s') /\ has (hget (m_h s)) [] s') \/
  (exists i, (i = 9 \/ i = 14 \/ i = 15)%nat /\ fails v (m_n s) i /\ o = None) \/
  (exists i e ctx f d rq cb cx p s', (10 <= i < 14)%nat /\ fails v (m_n s) i /\ o = Some ((e, 0), s') /\
     e = (if ok (e_al v (m_n s + S i)%nat) then if (i <? 13)%nat then ERROR_GENERAL_OUT_OF_MEMORY else e_al v (m_n s + 13)%nat else e_al v (m_n s + S i)%nat) /\
     has (hget (m_h s)) [Pt ctx (BCtx f d rq cb cx 0 p)] s').
Ltac at_s tac := match goal with H : has _ _ ?s |- create_out _ _ (_ ?s) => tac H end.
Ltac cfail2 i := right; left; exists i; eexists; split; [nlia|]; split; [split; [oks_tac|al_bad]|]; split; [reflexivity|eassumption].
Ltac cfail3 i := right; right; left; exists i; eexists; split; [nlia|]; split; [split; [oks_tac|al_bad]|]; split; [reflexivity|eassumption].
Ltac foldq H p2 p3 := fd H KList p3 (BSlist false []) (@nil (kind * Z * list Z)); fd H KQueue p2 (BQueue p3) [((KList, p3), [p3])].
Ltac relsched_ H sc m f t q q3 cb cx ctx s g :=
  foldq H q q3; rw H cb; rw H cx; fd H KRes t (BTree []) (@nil (kind * Z * list Z)); bring H ctx; bring H cx; bring H cb; bring H q; bring H t; bring H f; bring H m; bring H sc;
  let s' := fresh "s" in let E := fresh in let H' := fresh "H" in let M := fresh "M" in
  destruct (st_release_sched _ sc m _ ctx f t q cb cx 0 _ _ _ [] _ _ s ltac:(eassumption) eq_refl H) as (s' & E & H' & M); [unfold feet; cbn [flat_map foot length app map]; rewrite ?app_length; cbn [length]; match goal with G : good _ |- _ => pose proof (proj2 G) end; nlia|]; rewrite (bind_some _ _ _ g _ _ _ E); clear E H; norm.
Lemma st_create : forall v s, good v -> hwf (m_h s) -> create_out v s (scheduler_create v s).
Proof.
  intros v s G W. pose proof (has_start s W) as H. unfold scheduler_create, queue_create, slist_create. cbv zeta. st_al G; [|cfail2 0%nat].
  st_bd (builds_rbtree v G); [|st_fr; cfail2 1%nat].
  st_st. unfold rbtree_create. assoc. st_al G; [|retb; st_rl G; st_fr; cfail2 2%nat].
  retb. st_st. assoc. st_al G.
  2: { retb. is_bad K2. norm. at_s ltac:(fun H => fd H KRes p1 (BTree []) (@nil (kind * Z * list Z))). st_rl G. is_bad K2. norm. st_rl G. st_fr. cfail3 3%nat. }
  assoc. st_al G.
  2: { assoc. st_fr. retb. is_bad K3. norm. at_s ltac:(fun H => fd H KRes p1 (BTree []) (@nil (kind * Z * list Z))). st_rl G. is_bad K3. norm. st_rl G. st_fr. cfail3 4%nat. }
  assoc. st_st. retb. st_st. st_al G.
  2: { at_s ltac:(fun H => fd H KRes p1 (BTree []) (@nil (kind * Z * list Z)); fd H KRes p3 (BSlist false []) (@nil (kind * Z * list Z)); fd H KRes p2 (BQueue p3) [((KRes, p3), [p3])]). st_rl G. st_rl G. is_bad K4. norm. st_rl G. st_fr. cfail3 5%nat. }
  st_st. st_al G.
  2: { st_fr. at_s ltac:(fun H => fd H KRes p1 (BTree []) (@nil (kind * Z * list Z)); fd H KRes p3 (BSlist false []) (@nil (kind * Z * list Z)); fd H KRes p2 (BQueue p3) [((KRes, p3), [p3])]). st_rl G. st_rl G. is_bad K5. norm. st_rl G. st_fr. cfail3 6%nat. }
  st_st. match goal with |- context [mbind (sched_create v p) ?g ?s] => match goal with H : has _ _ s |- _ => bring H p3; bring H p2; bring H p; destruct (st_sched v p p0 p1 p2 p4 p5 p3 _ _ _ G H) as [(K6 & sc & m & sx & Ex & Hx & Mx)|[(i & sx & Ix & K6 & Ex & Hx & Mx)|(K6 & Ex)]]; [rewrite (bind_some _ _ _ g _ _ _ Ex); norm..|]; clear H; cycle 1 end end.
  { st_fr. st_fr. at_s ltac:(fun H => fd H KRes p1 (BTree []) (@nil (kind * Z * list Z)); fd H KRes p3 (BSlist false []) (@nil (kind * Z * list Z)); fd H KRes p2 (BQueue p3) [((KRes, p3), [p3])]). st_rl G. st_rl G. st_rl G. st_fr. cfail3 (7 + i)%nat. }
  { right. right. right. left. exists 9%nat. split; [auto|]. split; [split; [oks_tac|al_bad]|]. apply bind_none. auto. }
  st_ld. st_st. st_st. st_dc G.
  2: { match goal with |- context [mbind (release v sc) ?g ?s] => match goal with H : has _ _ s |- _ => relsched_ H sc m p0 p1 p2 p3 p4 p5 p s g end end.
    right. right. right. right. exists (10 + i)%nat. do 9 eexists. split; [nlia|]. split; [split; [oks_tac|al_bad]|]. split; [reflexivity|]. split; [|eassumption].
    assert (i <? 3 = true)%nat as I3 by (apply Nat.ltb_lt; auto). replace (10 + i <? 13)%nat with true by (symmetry; apply Nat.ltb_lt; nlia). match goal with |- (if negb (ok (e_al v ?a)) then _ else _) = (if ok (e_al v ?b) then _ else _) => replace b with a by nlia end. destruct (ok _); reflexivity. }
  match goal with |- context [mbind (disc_add v sc d) ?g ?s] => match goal with H : has _ _ s |- _ => bring H p5; bring H p4; bring H d; bring H p1; bring H p; bring H sc;
    destruct (st_add v sc m p p0 p1 p2 p4 p5 0 sc d _ _ _ _ [] _ _ _ G H eq_refl) as [(Ka & n & cb & cx & sa & Ea & Ha & Ma)|[(Ka & sa & Ea & Ha & Ma)|[(Ka & n & sa & Ea & Ha & Ma)|(Ka & n & cb & sa & Ea & Ha & Ma)]]]; rewrite (bind_some _ _ _ g _ _ _ Ea); clear H end end.
  - norm. left. split; [oks_tac|]. exists sc. eexists _, sa, m, p, p0, p1, p2, cb, cx. split; [reflexivity|].
    assert (GP : hget (m_h sa) sc = Some (BSched m p true)) by (apply (has_get _ _ _ _ _ Ha); cbn; tauto).
    assert (GC : hget (m_h sa) p = Some (BCtx p0 p1 p2 cb cx 0 sc)) by (apply (has_get _ _ _ _ _ Ha); cbn; tauto).
    assert (GT : hget (m_h sa) p1 = Some (BTree [(n, d)])) by (apply (has_get _ _ _ _ _ Ha); cbn; tauto).
    assert (GD : hget (m_h sa) d = Some (BDisc FIBER_SCHEDULER_MANAGEMENT_DISCIPLINE cbv codes 0 true)) by (apply (has_get _ _ _ _ _ Ha); cbn; tauto).
    rw Ha n. foldq Ha p2 p3. rw Ha cb. rw Ha cx. bring Ha codes. bring Ha cbv. fd Ha KRes d (BDisc FIBER_SCHEDULER_MANAGEMENT_DISCIPLINE cbv codes 0 true) [((KRaw, cbv), [cbv]); ((KRaw, codes), [codes])].
    bring Ha d. bring Ha n. fd Ha KRes p1 (BTree [(n, d)]) [((KRaw, n), [n]); ((KRes, d), [d; cbv; codes])]. bring Ha cx. bring Ha cb. bring Ha p2. bring Ha p1. bring Ha p0. bring Ha p.
    apply (has_fold KCtx p (BCtx p0 p1 p2 cb cx 0 sc) [((KRes, p0), l); ((KRes, p1), [p1; n; d; cbv; codes]); ((KQueue, p2), [p2; p3]); ((KRaw, cb), [cb]); ((KRaw, cx), [cx])]) in Ha; [|reflexivity|reflexivity].
    bring Ha p. bring Ha m. bring Ha sc. eapply (has_fold KSched sc (BSched m p true) [((KRes, m), [m]); ((KCtx, p), _)]) in Ha; [|reflexivity|reflexivity].
    split; [exact Ha|]. split; [nlia|]. split; [cbn [map snd concat app length]; rewrite ?app_nil_r, ?app_length; cbn [length]; nlia|]. split; [exact GP|]. split; [exact GC|]. eauto 8.
  - pose proof (proj2 Ka) as Kb. rewrite Nat.add_0_r in Kb. norm. is_bad Kb. norm. bring Ha codes. bring Ha cbv. fd Ha KRes d (BDisc FIBER_SCHEDULER_MANAGEMENT_DISCIPLINE cbv codes 0 false) [((KRaw, cbv), [cbv]); ((KRaw, codes), [codes])]. st_rl G.
    match goal with |- context [mbind (release v sc) ?g ?s] => match goal with H : has _ _ s |- _ => relsched_ H sc m p0 p1 p2 p3 p4 p5 p s g end end.
    right. right. right. right. exists 13%nat. do 9 eexists. split; [nlia|]. split; [split; [oks_tac|al_bad]|]. split; [reflexivity|]. split; [|eassumption].
    match goal with |- (if negb (ok (e_al v ?a)) then _ else e_al v ?c) = (if ok (e_al v ?b) then _ else _) => replace b with a by nlia end. change (13 <? 13)%nat with false. cbv iota. match goal with |- (if _ then _ else e_al v ?c) = (if _ then e_al v ?d else _) => replace d with c by nlia end. destruct (ok _); reflexivity.
  - pose proof (proj2 Ka) as Kb. norm. is_bad Kb. norm. bring Ha codes. bring Ha cbv. fd Ha KRes d (BDisc FIBER_SCHEDULER_MANAGEMENT_DISCIPLINE cbv codes 0 false) [((KRaw, cbv), [cbv]); ((KRaw, codes), [codes])]. foldq Ha p2 p3. bring Ha p1. bring Ha p2. bring Ha p. bring Ha p0. bring Ha m. bring Ha sc. bring Ha d. pose proof (has_apart _ _ _ _ _ _ Ha) as [A1 A2]. st_rl G.
    right. right. right. left. exists 14%nat. split; [auto|]. split; [split; [oks_tac|al_bad]|]. apply bind_none. match goal with H : has _ _ ?s |- release _ _ ?s = None => eapply (release_dangling v sc m [m] p p0 p1 p2); [ | |exact G|exact H|exact A1|exact A2] end; pose proof (proj2 G); cbn [length]; nlia.
  - pose proof (proj2 Ka) as Kb. norm. is_bad Kb. norm. bring Ha codes. bring Ha cbv. fd Ha KRes d (BDisc FIBER_SCHEDULER_MANAGEMENT_DISCIPLINE cbv codes 0 false) [((KRaw, cbv), [cbv]); ((KRaw, codes), [codes])]. foldq Ha p2 p3. bring Ha p1. bring Ha p2. bring Ha p. bring Ha p0. bring Ha m. bring Ha sc. bring Ha d. pose proof (has_apart _ _ _ _ _ _ Ha) as [A1 A2]. st_rl G.
    right. right. right. left. exists 15%nat. split; [auto|]. split; [split; [oks_tac|al_bad]|]. apply bind_none. match goal with H : has _ _ ?s |- release _ _ ?s = None => eapply (release_dangling v sc m [m] p p0 p1 p2); [ | |exact G|exact H|exact A1|exact A2] end; pose proof (proj2 G); cbn [length]; nlia.
Qed.
