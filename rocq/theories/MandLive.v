From Verif Require Import Base Status MemModel MemProofs Heap ThreadModel ThreadSpec ThreadProofs MandModel MandSpec MandProofs MandInv MandStep.

(** ** The start *)
Definition Cr (c : conf) (w : tw) (done : list (Z * Z)) : Prop :=
  w_pend w = [] /\ w_mu w (f_mu c) = Some (Some 0) /\ w_co w (f_wc c) = Some true /\ w_co w (f_mc c) = Some true /\ w_pc w 1 = Some PcUser /\
  NoDup (map snd done) /\ forall t, In t (map snd done) -> t <> 0 /\ t <> 1 /\ exists p st, w_pc w t = Some (PcStart p) /\ own p t w = Some st.
Lemma created : forall c ws w done os w', Cr c w done -> truns w (map (fun x => ThCreate 1 0 0 0 0 0 (fst x) (snd x) 1 2) ws) = Some (os, w') -> Cr c w' (rev ws ++ done).
Proof.
  intros c ws. induction ws as [|[p pid] ws IH]; intros w done os w' C H; cbn [map truns] in H.
  - inversion H; subst. exact C.
  - destruct (tstep w (ThCreate 1 0 0 0 0 0 (fst (p, pid)) (snd (p, pid)) 1 2)) as [| |w1 o] eqn:E; [discriminate|discriminate|]. destruct (truns w1 _) as [[os' w2]|] eqn:R; [|discriminate]. inversion H; subst; clear H.
    cbn [rev]. rewrite <- app_assoc. cbn [app]. eapply IH; [|exact R]. clear IH R. destruct C as (C1 & C2 & C3 & C4 & C5 & CN & C6).
    cbn [tstep fst snd] in E. unfold call in E. destruct (in_user 1 w) eqn:U; [|discriminate]. cbn in E.
    destruct (negb (unused p w) || (pid =? 0) || negb match w_pc w pid with Some _ => false | None => true end) eqn:K; [discriminate|]. apply orb_false_elim in K as [K K3]. apply orb_false_elim in K as [K1 K2]. apply negb_false_iff in K1, K3. apply Z.eqb_neq in K2.
    destruct (w_pc w pid) eqn:PC; [discriminate|]. unfold unused in K1. apply andb_prop in K1 as [K0 K1]. destruct (w_th w p) eqn:TH0; [discriminate|].
    inversion E; subst; clear E. unfold Cr. cbn [set_pc set_th w_pend w_mu w_co w_pc w_th]. split; [auto|]. split; [auto|]. split; [auto|]. split; [auto|]. split; [rewrite upd_get; destruct (Z.eqb_spec 1 pid); [subst; congruence|auto]|].
    cbn [map snd]. split.
    { constructor; [|auto]. intros I. destruct (C6 _ I) as (_ & _ & q & st & Q & _). congruence. }
    intros t [<-|I].
    + split; [auto|]. split; [congruence|]. exists p. eexists. rewrite upd_get, Z.eqb_refl. split; [reflexivity|]. unfold own. cbn [set_pc set_th w_th]. rewrite upd_get, Z.eqb_refl. cbn [t_pid]. rewrite Z.eqb_refl. reflexivity.
    + destruct (C6 t I) as (A & B & q & st & Q1 & Q2). split; [auto|]. split; [auto|]. exists q, st. assert (t <> pid) by congruence. rewrite upd_get, (proj2 (Z.eqb_neq t pid)) by auto. split; [auto|]. unfold own in *. cbn [set_pc set_th w_th]. rewrite upd_get. destruct (Z.eqb_spec q p); [subst; rewrite TH0 in Q2; discriminate|auto].
Qed.
Lemma start_inv : forall c ws s, start c ws = Some s -> 0 <= f_lines c -> Inv c s /\ s_main s = MStart /\ NoDup (map snd ws) /\ (forall t, s_wk s t = if existsb (fun x => snd x =? t) ws then Some WBegin else None).
Proof.
  intros c ws s H L0. unfold start in H. destruct (truns tw0 (setup c ws)) as [[os w]|] eqn:R; [|discriminate]. inversion H; subst; clear H. cbn [s_main].
  unfold setup in R. cbn [app truns] in R.
  destruct (tstep tw0 (MuCreate 1 0 0 0 (f_mu c))) as [| |w1 o1] eqn:E1; try discriminate. cbn in E1. destruct (negb (unused (f_mu c) tw0)) eqn:U1; [discriminate|]. inversion E1; subst; clear E1.
  match type of R with context [tstep ?x (CoCreate 1 0 0 0 (f_wc c))] => destruct (tstep x (CoCreate 1 0 0 0 (f_wc c))) as [| |w2 o2] eqn:E2; try discriminate end. cbn in E2. match type of E2 with context [negb (unused (f_wc c) ?x)] => destruct (negb (unused (f_wc c) x)) eqn:U2; [discriminate|] end. inversion E2; subst; clear E2.
  match type of R with context [tstep ?x (CoCreate 1 0 0 0 (f_mc c))] => destruct (tstep x (CoCreate 1 0 0 0 (f_mc c))) as [| |w3 o3] eqn:E3; try discriminate end. cbn in E3. match type of E3 with context [negb (unused (f_mc c) ?x)] => destruct (negb (unused (f_mc c) x)) eqn:U3; [discriminate|] end. inversion E3; subst; clear E3.
  match type of R with context [truns ?x _] => set (w3 := x) in R end. destruct (truns w3 _) as [[os' w']|] eqn:RR; [|discriminate]. inversion R; subst; clear R.
  assert (NE : f_wc c <> f_mc c).
  { intros K. apply negb_false_iff in U3. unfold unused in U3. apply andb_prop in U3 as [_ U3]. cbn [set_co set_mu w_th w_mu w_co tw0] in U3. rewrite K in U3. cbn in U3. rewrite !upd_get, Z.eqb_refl in U3. destruct (if _ =? _ then _ else _) in U3; discriminate. }
  assert (C0 : Cr c w3 []).
  { unfold Cr, w3. cbn. rewrite !upd_get, !Z.eqb_refl. rewrite (proj2 (Z.eqb_neq _ _) NE). repeat split; auto; try constructor; try (destruct H). }
  apply (created _ _ _ _ _ _ C0) in RR. rewrite app_nil_r in RR. destruct RR as (C1 & C2 & C3 & C4 & C5 & CN & C6).
  assert (EB : forall t, existsb (fun x : Z * Z => snd x =? t) ws = true -> In t (map snd (rev ws))).
  { intros t B. apply existsb_exists in B as (x & X & B). apply Z.eqb_eq in B. subst t. apply in_map. rewrite <- in_rev. auto. }
  split; [|split; [auto|split; [|auto]]].
  - split; [auto|]. split.
    + unfold Th. cbn [s_tw s_main s_wk holder held_by]. constructor; auto.
      * rewrite C1. split; [constructor|intros []].
      * intros t _. rewrite C1. unfold pdspec. cbn. destruct (t =? 1); [auto|]. destruct (existsb _ ws); auto.
      * intros t K. discriminate.
      * destruct (existsb _ ws) eqn:B; [|auto]. apply EB, C6 in B. tauto.
      * destruct (existsb _ ws) eqn:B; [|auto]. apply EB, C6 in B. tauto.
      * intros t. destruct (existsb _ ws) eqn:B; [|exact Logic.I]. apply EB, C6 in B. cbn. destruct B as (_ & _ & B). exact B.
    + unfold LI, idle. cbn [s_main s_info s_files s_bufs s_wk]. repeat split; auto. intros t. destruct (existsb _ ws); auto.
  - rewrite map_rev in CN. apply NoDup_rev in CN. rewrite rev_involutive in CN. exact CN.
Qed.
Lemma runs_inv : forall c l s, Inv c s -> Forall calm l -> mruns c s l <> MUndef /\ forall s', mruns c s l = MGo s' -> Inv c s'.
Proof.
  intros c l. induction l as [|x l IH]; intros s I C; cbn [mruns].
  - split; [discriminate|]. intros s' [= <-]. auto.
  - inversion C; subst. destruct (step_all c s x I H1) as [A B]. destruct (mstep c s x) as [| |s1] eqn:E; [congruence|split; discriminate|]. destruct (B s1 eq_refl) as [_ I1]. auto.
Qed.

(** ** Going on *)
Definition active (c : conf) (s : mst) (t : Z) : Prop := s_wk s t = Some WWait /\ pd s t = Some (PdBack (f_mu c)) \/ exists l, at_line (s_wk s t) = Some l.
Definition AI (c : conf) (s : mst) : Prop :=
  match s_main s with
  | MStart | MLock => exists t, s_wk s t = Some WWait
  | MFrame i => (i_done (s_info s) = false -> exists t, active c s t) /\ (pd s 1 = Some (PdBack (f_mu c)) -> exists t, s_wk s t = Some WWait)
  | _ => True
  end.
Lemma turn_AI : forall c t inf bufs s s', turn c t inf bufs s s' -> i_done (s_info s') = true /\ s_wk s' t = Some WWait \/ exists l, at_line (s_wk s' t) = Some l.
Proof.
  intros c t inf bufs s s' [(_ & -> & _ & -> & _)|(_ & _ & _ & _ & -> & _)]; rewrite upd_get, Z.eqb_refl; [left; auto|right; eexists; reflexivity].
Qed.
Lemma fresh_AI : forall c i inf s s', Th c s -> s_wk s' = s_wk s -> fresh c i inf s s' -> (exists t, s_wk s t = Some WWait) -> AI c s'.
Proof.
  intros c i inf s s' T W F (t & B). unfold AI. destruct F as [(_ & M & _ & P1 & P2)|(_ & M & _)]; rewrite M; [|exact Logic.I]. split; [|rewrite P1; discriminate]. intros _. exists t. left. rewrite W. split; [auto|].
  unfold Th in T. assert (N : t <> 1) by (intros ->; rewrite (T_wk1 _ _ _ _ _ _ T) in B; discriminate). rewrite P2 by auto.
  assert (X : holder (s_main s) <> Some t) by (destruct (s_main s); cbn; congruence). pose proof (T_pd _ _ _ _ _ _ T t X) as P. unfold pdspec in P. rewrite (proj2 (Z.eqb_neq t 1) N), B in P. unfold pd. destruct P as [-> | ->]; cbn [woke]; [rewrite Z.eqb_refl|]; auto.
Qed.
Lemma tran_AI : forall c s s' x, Inv c s -> tran c s s' x -> (forall t, x = Spurious t -> t <> 1) -> AI c s -> AI c s'.
Proof.
  intros c s s' x (L0 & T & L) TR SP A. assert (N1 : forall t, s_wk s t <> None -> t <> 1) by (intros t K ->; destruct K; apply (T_wk1 _ _ _ _ _ _ T)).
  assert (ACT : forall t, s_wk s t <> Some WWait -> at_line (s_wk s t) = None -> (forall u, u <> t -> s_wk s' u = s_wk s u) -> others t s s' -> (exists u, active c s u) -> exists u, active c s' u).
  { intros t K1 K2 K3 K4 (u & [[U1 U2]|[l U]]); exists u; (assert (u <> t) by congruence); [left; rewrite K3, K4 by auto; auto|right; exists l; rewrite K3 by auto; auto]. }
  assert (WAI : forall t v, s_wk s t <> Some WWait -> s_wk s' = upd (s_wk s) t v -> (exists u, s_wk s u = Some WWait) -> exists u, s_wk s' u = Some WWait).
  { intros t v K1 -> (u & U). exists u. rewrite upd_get. destruct (Z.eqb_spec u t); [congruence|auto]. }
  assert (OTH : forall t v, s_wk s' = upd (s_wk s) t v -> forall u, u <> t -> s_wk s' u = s_wk s u) by (intros t v -> u U; rewrite upd_get, (proj2 (Z.eqb_neq u t) U); auto).
  destruct TR.
  - assert (N := N1 t ltac:(congruence)). unfold AI in *. rewrite H0, H1. destruct (s_main s); try exact Logic.I.
    + eapply WAI; eauto. congruence.
    + eapply WAI; eauto. congruence.
    + rewrite (H5 1) by auto. destruct A as [A1 A2]. split; intros K; [eapply (ACT t); eauto; [congruence|rewrite H; auto]|eapply WAI; eauto; congruence].
  - unfold AI in *. rewrite H in A. rewrite H0, H4. exact A.
  - assert (N := N1 t ltac:(congruence)). assert (W : exists u, s_wk s' u = Some WWait) by (exists t; rewrite H4, upd_get, Z.eqb_refl; auto). unfold AI in *. rewrite H0, H1. destruct (s_main s); auto.
    destruct A as [A1 A2]. split; [|auto]. intros K. eapply (ACT t); eauto; [congruence|rewrite H; auto].
  - assert (N := N1 t ltac:(congruence)). unfold AI in *. rewrite H0, H1. destruct (s_main s); try exact Logic.I.
    + eapply WAI; eauto. congruence.
    + eapply WAI; eauto. congruence.
    + rewrite (H5 1) by auto. destruct A as [A1 A2]. split; intros K; [|eapply WAI; eauto; congruence]. exists t. right. exists l. rewrite H4, upd_get, Z.eqb_refl. auto.
  - assert (N := N1 t ltac:(congruence)). unfold AI in *. rewrite H2. rewrite (H5 1) by auto. unfold LI in L. destruct (s_main s); try exact Logic.I; try discriminate H0.
    + destruct L as (E & _). rewrite E in H4. destruct H4 as [(_ & _ & _ & -> & _)|(K & _)]; [|discriminate]. exists t. rewrite upd_get, Z.eqb_refl. auto.
    + destruct L as (E & _). rewrite E in H4. destruct H4 as [(_ & _ & _ & -> & _)|(K & _)]; [|discriminate]. exists t. rewrite upd_get, Z.eqb_refl. auto.
    + destruct L as (_ & _ & D & _ & P1 & P2). destruct (turn_AI _ _ _ _ _ _ H4) as [[D1 W]|[l W]].
      * split; [congruence|]. eauto.
      * split; [intros _; exists t; right; eauto|]. intros K. destruct (P2 K) as [W1 _]. destruct (DI_full _ _ _ _ _ D W1) as (_ & _ & C). destruct H4 as [(_ & _ & _ & E & _)|(_ & LT & _)]; [rewrite E, upd_get, Z.eqb_refl in W; discriminate|lia].
  - unfold AI in *. rewrite H1. unfold LI in L. rewrite H0 in L. destruct L as (_ & _ & D & _ & P1 & P2). destruct (turn_AI _ _ _ _ _ _ H5) as [[D1 W]|[l' W]].
    + split; [congruence|]. eauto.
    + split; [intros _; exists t; right; eauto|]. intros K. rewrite (H6 1) in K by (apply not_eq_sym, N1; congruence). destruct (P2 K) as [W1 _]. destruct (DI_full _ _ _ _ _ D W1) as (_ & I & _). specialize (I t). rewrite H in I. discriminate.
  - unfold AI in *. rewrite H1. destruct H7 as [(_ & E1 & _ & E2 & _)|(K & _)]; [|discriminate]. rewrite E1. split; [discriminate|]. intros _. exists t. rewrite E2, upd_get, Z.eqb_refl. auto.
  - eapply fresh_AI; eauto. unfold AI in A. rewrite H in A. exact A.
  - eapply fresh_AI; eauto. unfold AI in A. rewrite H in A. apply A. auto.
  - assert (N : t <> 1) by (apply SP; auto). unfold AI in *. rewrite H0, H1, H4. destruct (s_main s); auto. rewrite (H6 1) by auto. destruct A as [A1 A2]. split; [|auto]. intros K. destruct (A1 K) as (u & [[U1 U2]|[l U]]); exists u; [left|right; exists l; rewrite H4; auto]. rewrite H4. split; [auto|]. destruct (Z.eq_dec u t) as [->|NU]; [auto|]. rewrite H6; auto.
Qed.
Definition fine : res := Res 0 0 0 0 0 [1] true.
Lemma enabled : forall c s, Inv c s -> AI c s -> 0 < f_lines c -> (exists e, s_main s = MEnd e) \/ exists x, prompt x /\ goes c s x.
Proof.
  intros c s (L0 & T & L) A LP. assert (WF : works fine) by (repeat split). unfold LI in L. unfold AI in A. destruct (s_main s) as [| |i|e|e] eqn:M.
  - right. exists (Begin 1). split; [exact Logic.I|]. apply step_mbegin; auto.
  - right. exists (Resume 1 fine). split; [exact WF|]. apply step_first; auto.
  - right. destruct L as (B & F & D & Z0 & P1 & P2). destruct A as [A1 A2].
    assert (PD : pd s 1 = Some (PdWait (f_mc c) (f_mu c)) \/ pd s 1 = Some (PdBack (f_mu c))) by (unfold Th in T; rewrite M in T; cbn [holder held_by] in T; exact (T_pd _ _ _ _ _ _ T 1 ltac:(discriminate))).
    destruct PD as [PD|PD].
    + assert (FL : forall t l, at_line (s_wk s t) = Some l -> exists x, prompt x /\ goes c s x).
      { intros t l AT. pose proof (D_kind _ _ _ _ _ D t) as K. destruct (s_wk s t) as [[| | |l' b|l' f|]|] eqn:W; try discriminate; subst.
        - exists (Draw t). split; [exact Logic.I|]. eapply step_draw; eauto.
        - exists (Resume t fine). split; [exact WF|]. eapply step_save; eauto. }
      destruct (i_done (s_info s)) eqn:DN.
      * pose proof (D_done _ _ _ _ _ D DN) as C. destruct (P1 PD) as [LT|E]; [|lia]. destruct (DI_less _ _ _ _ _ D) as (_ & _ & X). destruct (X ltac:(lia)) as (t & l & AT). eauto.
      * destruct (A1 eq_refl) as (t & [[W1 W2]|[l AT]]); [|eauto]. exists (Resume t fine). split; [exact WF|]. apply step_turn; auto; [rewrite M; auto|apply D].
    + exists (Resume 1 fine). split; [exact WF|]. eapply step_next; eauto. apply P2; auto.
  - destruct L.
  - left. eauto.
Qed.

(** ** A bound *)
Definition cost (c : conf) (s : mst) (t : Z) : Z :=
  match s_wk s t with
  | Some WBegin | Some (WDraw _ _) => 2 | Some WLock | Some (WSave _ _) => 1
  | Some WWait => match pd s t with Some (PdBack _) => 1 | _ => 0 end
  | _ => 0
  end.
Definition total (f : Z -> Z) (l : list Z) : Z := fold_right (fun t a => f t + a) 0 l.
Lemma total_upd : forall f g l t, NoDup l -> In t l -> (forall u, u <> t -> g u = f u) -> total g l = total f l - f t + g t.
Proof.
  intros f g l t. induction l as [|u l IH]; intros N I E; [destruct I|]. inversion N; subst. cbn [total fold_right]. fold (total g l). fold (total f l). destruct (Z.eq_dec u t) as [->|NE].
  - assert (total g l = total f l); [|lia]. clear -H1 E. induction l as [|v l IH]; [auto|]. cbn [total fold_right]. fold (total g l). fold (total f l). rewrite IH, E; auto; [intros ->; apply H1; left; auto|intros K; apply H1; right; auto].
  - destruct I as [->|I]; [congruence|]. rewrite (IH H2 I E), (E u NE). lia.
Qed.
Lemma total_le : forall f g l, (forall u, g u <= f u + 1) -> total g l <= total f l + Z.of_nat (length l).
Proof. intros f g l H. induction l as [|u l IH]; [cbn; lia|]. cbn [total fold_right length]. fold (total g l). fold (total f l). specialize (H u). lia. Qed.
Lemma total_pos : forall f l, (forall u, 0 <= f u) -> 0 <= total f l.
Proof. intros f l H. induction l as [|u l IH]; [cbn; lia|]. cbn [total fold_right]. fold (total f l). specialize (H u). lia. Qed.
Definition per (c : conf) (wl : list Z) : Z := Z.of_nat (length wl) + 3 * f_lines c + 2.
Definition mcost (c : conf) (wl : list Z) (s : mst) : Z :=
  match s_main s with
  | MStart => per c wl * Z.max 0 (f_frames c) + 2
  | MLock => per c wl * Z.max 0 (f_frames c) + 1
  | MFrame i => per c wl * (f_frames c - i - 1) + 3 * (f_lines c - i_curr (s_info s)) + 1 + match pd s 1 with Some (PdWait _ _) => 1 | _ => 0 end
  | _ => 0
  end.
Definition measure (c : conf) (wl : list Z) (s : mst) : Z := total (cost c s) wl + mcost c wl s.
Definition workers (wl : list Z) (s : mst) : Prop := NoDup wl /\ forall t, s_wk s t <> None -> In t wl.
Lemma tran_workers : forall c s s' x wl, tran c s s' x -> workers wl s -> workers wl s'.
Proof.
  intros c s s' x wl TR [N W]. split; [auto|]. intros t K.
  assert (U : forall u v, s_wk s u <> None -> s_wk s' = upd (s_wk s) u v -> In t wl) by (intros u v U1 U2; rewrite U2, upd_get in K; destruct (Z.eqb_spec t u); subst; auto).
  assert (V : s_wk s' = s_wk s -> In t wl) by (intros E; rewrite E in K; auto).
  destruct TR; auto; try (eapply U; eauto; congruence).
  - destruct H4 as [(_ & _ & _ & E & _)|(_ & _ & _ & _ & E & _)]; eapply U; eauto; congruence.
  - destruct H5 as [(_ & _ & _ & E & _)|(_ & _ & _ & _ & E & _)]; eapply U; eauto; congruence.
  - destruct H7 as [(_ & _ & _ & E & _)|(_ & _ & _ & _ & E & _)]; eapply U; eauto; congruence.
Qed.
Lemma cost_pos : forall c s t, 0 <= cost c s t.
Proof. intros c s t. unfold cost. destruct (s_wk s t) as [[]|]; try lia. destruct (pd s t) as [[]|]; lia. Qed.
Lemma mcost_pos : forall c wl s, Inv c s -> 0 <= mcost c wl s.
Proof.
  intros c wl s (L0 & _ & L). unfold mcost, per. unfold LI in L. destruct (s_main s); try nia. destruct L as (B & _ & D & _). pose proof (D_curr _ _ _ _ _ D). destruct (pd s 1) as [[]|]; nia.
Qed.
Lemma upd_cost : forall c s s' t v u, s_wk s' = upd (s_wk s) t v -> pd s' u = pd s u -> u <> t -> cost c s' u = cost c s u.
Proof. intros c s s' t v u E P N. unfold cost. rewrite E, P, upd_get, (proj2 (Z.eqb_neq u t) N). auto. Qed.
Lemma turn_cost : forall c s s' t inf bufs wl, turn c t inf bufs s s' -> (forall u, u <> t -> u <> 1 -> pd s' u = pd s u) -> workers wl s -> s_wk s 1 = None -> s_wk s t <> None ->
  total (cost c s') wl + 3 * (f_lines c - i_curr (s_info s')) <= total (cost c s) wl - cost c s t + 3 * (f_lines c - i_curr inf).
Proof.
  intros c s s' t inf bufs wl TU O [N W] W1 WT.
  assert (OC : forall u, u <> t -> cost c s' u = cost c s u).
  { intros u U. destruct (Z.eq_dec u 1) as [->|U1].
    - unfold cost. destruct TU as [(_ & _ & _ & E & _)|(_ & _ & _ & _ & E & _)]; rewrite E, upd_get, (proj2 (Z.eqb_neq 1 t) U), W1; auto.
    - destruct TU as [(_ & _ & _ & E & _)|(_ & _ & _ & _ & E & _)]; (eapply upd_cost; [exact E|apply O; auto|auto]). }
  rewrite (total_upd _ _ wl t N (W t WT) OC). destruct TU as [(_ & E1 & _ & E2 & E3)|(_ & LT & E1 & _ & E2 & _)]; rewrite E1; unfold cost at 3; rewrite E2, upd_get, Z.eqb_refl; [rewrite E3; cbn [i_finish i_curr]; lia|cbn [taken i_curr]; lia].
Qed.
Lemma woke_cost : forall c s s' u, s_wk s' = s_wk s -> u <> 1 -> pd s' u = woke c (pd s u) -> cost c s' u <= cost c s u + 1.
Proof. intros c s s' u E N P. unfold cost. rewrite E, P. destruct (s_wk s u) as [[]|]; try lia. unfold woke. destruct (pd s u) as [[|d l| |]|]; try lia. destruct (d =? f_wc c); lia. Qed.
Lemma fresh_cost : forall c s s' i inf wl, Th c s -> 0 <= f_lines c -> s_wk s' = s_wk s -> fresh c i inf s s' -> 0 <= i ->
  measure c wl s' <= total (cost c s) wl + (if i <? f_frames c then Z.of_nat (length wl) + per c wl * (f_frames c - i - 1) + 3 * f_lines c + 2 else 0).
Proof.
  intros c s s' i inf wl T L0 W F I0. unfold measure. assert (W1 : forall x, s_wk x = s_wk s -> cost c x 1 = 0) by (intros x E; unfold cost; rewrite E, (T_wk1 _ _ _ _ _ _ T); auto).
  destruct F as [(K & M & E & P & Q)|(K & M & E & P)]; unfold mcost; rewrite M.
  - assert (LE : total (cost c s') wl <= total (cost c s) wl + Z.of_nat (length wl)).
    { apply total_le. intros u. destruct (Z.eq_dec u 1) as [->|N]; [rewrite (W1 s'), (W1 s) by auto; lia|]. apply woke_cost; auto. }
    rewrite (proj2 (Z.ltb_lt _ _) K). rewrite E, P. cbn [i_curr]. lia.
  - assert (LE : total (cost c s') wl = total (cost c s) wl).
    { clear -P W W1. induction wl as [|u wl IH]; [auto|]. cbn [total fold_right]. fold (total (cost c s') wl). fold (total (cost c s) wl). rewrite IH. f_equal.
      destruct (Z.eq_dec u 1) as [->|N]; [rewrite (W1 s'), (W1 s) by auto; auto|]. unfold cost. rewrite W, P by auto. auto. }
    rewrite (proj2 (Z.ltb_ge _ _) K). lia.
Qed.
Lemma tran_measure : forall c s s' x wl, Inv c s -> tran c s s' x -> (forall t, x = Spurious t -> t <> 1) -> workers wl s ->
  match x with Spurious _ => measure c wl s' = measure c wl s + 1 | _ => measure c wl s' < measure c wl s end.
Proof.
  intros c s s' x wl (L0 & T & L) TR SP [N W]. assert (N1 : forall t, s_wk s t <> None -> t <> 1) by (intros t K ->; destruct K; apply (T_wk1 _ _ _ _ _ _ T)).
  pose proof (T_wk1 _ _ _ _ _ _ T) as W1. unfold measure.
  assert (M : forall t, s_main s' = s_main s -> s_info s' = s_info s -> others t s s' -> t <> 1 -> mcost c wl s' = mcost c wl s) by (intros t M1 M2 O K; unfold mcost; rewrite M1, M2, (O 1) by auto; auto).
  assert (U : forall t v, s_wk s t <> None -> s_wk s' = upd (s_wk s) t v -> others t s s' -> total (cost c s') wl = total (cost c s) wl - cost c s t + cost c s' t) by (intros t v K E O; apply total_upd; auto; intros u NU; eapply upd_cost; eauto).
  destruct TR.
  - assert (N' := N1 t ltac:(congruence)). rewrite (M t) by auto. rewrite (U t _ ltac:(congruence) H4 H5). unfold cost at 2 3. rewrite H, H4, upd_get, Z.eqb_refl. lia.
  - unfold mcost. rewrite H, H0. assert (total (cost c s') wl = total (cost c s) wl); [|lia]. clear -H4 H5 W1. induction wl as [|u wl IH]; [auto|]. cbn [total fold_right]. fold (total (cost c s') wl). fold (total (cost c s) wl). rewrite IH. f_equal. unfold cost. rewrite H4. destruct (Z.eq_dec u 1) as [->|NU]; [rewrite W1; auto|rewrite H5 by auto; auto].
  - assert (N' := N1 t ltac:(congruence)). rewrite (M t) by auto. rewrite (U t _ ltac:(congruence) H4 H6). unfold cost at 2 3. rewrite H, H4, upd_get, Z.eqb_refl, H5. lia.
  - assert (N' := N1 t ltac:(congruence)). rewrite (M t) by auto. rewrite (U t _ ltac:(congruence) H4 H5). unfold cost at 2 3. rewrite H, H4, upd_get, Z.eqb_refl. lia.
  - assert (N' := N1 t ltac:(congruence)). assert (WT : s_wk s t <> None) by congruence. pose proof (turn_cost _ _ _ _ _ _ wl H4 ltac:(intros; apply H5; auto) (conj N W) W1 WT) as TC.
    unfold cost at 3 in TC. rewrite H, H1 in TC. unfold mcost. rewrite H2, (H5 1) by auto. unfold LI in L. destruct (s_main s); try discriminate H0; try lia; try (destruct L as (E & _); rewrite E in *; destruct H4 as [(_ & E1 & _)|(K & _)]; [rewrite E1 in TC; cbn in TC; lia|discriminate]).
  - assert (N' := N1 t ltac:(congruence)). assert (WT : s_wk s t <> None) by congruence. pose proof (turn_cost _ _ _ _ _ _ wl H5 ltac:(intros; apply H6; auto) (conj N W) W1 WT) as TC.
    unfold cost at 3 in TC. rewrite H in TC. cbn [saved i_curr] in TC. unfold mcost. rewrite H0, H1, (H6 1) by auto. lia.
  - assert (N' := N1 t ltac:(congruence)). assert (WT : s_wk s t <> None) by congruence. pose proof (turn_cost _ _ _ _ _ _ wl H7 H8 (conj N W) W1 WT) as TC.
    unfold cost at 3 in TC. rewrite H in TC. cbn [saved i_finish i_curr] in TC. unfold mcost. rewrite H0, H1, H4, H5. lia.
  - pose proof (fresh_cost _ _ _ _ _ wl T L0 H2 H3 ltac:(lia)) as FC. unfold measure in FC. unfold mcost at 2. rewrite H. unfold per in *. destruct (Z.ltb_spec 0 (f_frames c)); nia.
  - unfold LI in L. rewrite H in L. destruct L as (B & F & D & Z0 & P1 & P2). destruct (P2 H0) as [WR LP]. destruct (DI_full _ _ _ _ _ D WR) as (_ & _ & C).
    pose proof (fresh_cost _ _ _ _ _ wl T L0 H4 H5 ltac:(lia)) as FC. unfold measure in FC. unfold mcost at 2. rewrite H, H0. unfold per in *. destruct (Z.ltb_spec (i + 1) (f_frames c)); nia.
  - assert (N' : t <> 1) by (apply SP; auto). rewrite (M t) by auto. assert (X : holder (s_main s) <> Some t) by (destruct (s_main s); cbn; congruence). pose proof (T_pd _ _ _ _ _ _ T t X) as P. unfold pd in H. rewrite H in P. apply pd_wait in P as (_ & [[K _]|(_ & _ & WT)]); [contradiction|].
    rewrite (total_upd (cost c s) (cost c s') wl t N); [|apply W; congruence|intros u NU; unfold cost; rewrite H4, H6 by auto; auto]. unfold cost at 2 3. unfold pd at 1. rewrite H4, WT, H, H5. lia.
Qed.
Lemma runs_bound : forall c wl l s s', Inv c s -> workers wl s -> Forall calm l -> mruns c s l = MGo s' -> Inv c s' /\ workers wl s' /\ measure c wl s' + Z.of_nat (length l) <= measure c wl s + 2 * Z.of_nat (spurious l).
Proof.
  intros c wl l. induction l as [|x l IH]; intros s s' I W C H; cbn [mruns] in H.
  - inversion H; subst. cbn. split; [auto|]. split; [auto|]. lia.
  - inversion C; subst. destruct (step_all c s x I H2) as [_ B]. destruct (mstep c s x) as [| |s1] eqn:E; try discriminate. destruct (B s1 eq_refl) as [TR I1]. assert (SP : forall t, x = Spurious t -> t <> 1) by (intros t ->; exact H2).
    pose proof (tran_workers _ _ _ _ _ TR W) as W1. pose proof (tran_measure _ _ _ _ wl I TR SP W) as MM. destruct (IH s1 s' I1 W1 H3 H) as (J1 & J2 & J3). split; [auto|]. split; [auto|]. unfold spurious in *. cbn [filter length]. destruct x; cbn [length]; lia.
Qed.
Lemma runs_AI : forall c l s s', Inv c s -> AI c s -> Forall calm l -> mruns c s l = MGo s' -> Inv c s' /\ AI c s'.
Proof.
  intros c l. induction l as [|x l IH]; intros s s' I A C H; cbn [mruns] in H.
  - inversion H; subst. auto.
  - inversion C; subst. destruct (step_all c s x I H2) as [_ B]. destruct (mstep c s x) as [| |s1] eqn:E; try discriminate. destruct (B s1 eq_refl) as [TR I1]. assert (SP : forall t, x = Spurious t -> t <> 1) by (intros t ->; exact H2). exact (IH s1 s' I1 (tran_AI _ _ _ _ I TR SP A) H3 H).
Qed.
