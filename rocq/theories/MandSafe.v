From Verif Require Import Base Status MemModel MemProofs Heap ThreadModel ThreadSpec ThreadProofs MandModel MandSpec MandProofs MandInv.

(** ** Whatever fails *)
Definition holds (P : mst -> Prop) (r : mres) : Prop := forall s, r = MGo s -> P s.
Definition WF (w : tw) : Prop := hwf (w_pend w) /\ w_pc w 0 = None.
Definition quiet1 (x : tev) : Prop := match x with CoWake t => t <> 1 | CoSignal _ _ _ _ _ => False | CoSignalAll t _ _ _ => t = 1 | _ => True end.
Lemma user_none : forall t w, in_user t w = true -> hget (w_pend w) t = None /\ w_pc w t <> None.
Proof. intros t w H. unfold in_user in H. destruct (w_pc w t) as [[]|]; try discriminate; destruct (hget (w_pend w) t); try discriminate; split; auto; discriminate. Qed.
Lemma map_same : forall (f : Z * pend -> Z * pend) h, (forall y, fst (f y) = fst y) -> hwf h -> hwf (map f h).
Proof. intros f h F W. unfold hwf. rewrite addrs_map by auto. exact W. Qed.
Lemma sig_fst : forall (b : Z * pend -> bool) y, fst (if b y then awake y else y) = fst y.
Proof. intros b y. destruct (b y); [apply awake_fst|auto]. Qed.
Lemma tstep_WF : forall w x w' o, tstep w x = Go w' o -> WF w -> WF w'.
Proof.
  intros w x w' o H [W Z0].
  assert (ADD : forall t p, in_user t w = true -> hwf ((t, p) :: w_pend w)) by (intros t p U; destruct (user_none _ _ U) as [U1 U2]; apply cons_wf; auto; congruence).
  assert (DEL : forall t, hwf (hdel (w_pend w) t)) by (intros; apply hdel_wf; auto).
  assert (PC : forall t v, w_pc w t <> None -> upd (w_pc w) t v 0 = None) by (intros t v K; rewrite upd_get; destruct (Z.eqb_spec 0 t); [subst; congruence|auto]).
  destruct x; cbn [tstep] in H; unfold call in H;
  repeat match type of H with
  | (if ?b then _ else _) = _ => destruct b eqn:?; try discriminate
  | match ?b with _ => _ end = _ => destruct b eqn:?; try discriminate
  end; inversion H; subst; clear H; (split; [cbn [set_th set_pc set_pend set_mu set_co w_th w_pc w_pend w_mu w_co]; auto|cbn [set_th set_pc set_pend set_mu set_co w_th w_pc w_pend w_mu w_co]; auto; try (apply PC; congruence)]);
  try (apply map_same; [intros y; first [apply (sig_fst (fun y => existsb (Z.eqb (fst y)) _))|apply (sig_fst (waits _))]|exact W]); try (apply hset_wf; auto).
  repeat match goal with H : _ || _ = false |- _ => apply orb_false_elim in H as [? ?] end. rewrite upd_get. match goal with H : (?q =? 0) = false |- _ => apply Z.eqb_neq in H; rewrite (proj2 (Z.eqb_neq 0 q)) by auto end. exact Z0.
Qed.
Lemma tstep_back1 : forall w x w' o m, tstep w x = Go w' o -> WF w -> quiet1 x -> hget (w_pend w') 1 = Some (PdBack m) -> hget (w_pend w) 1 = Some (PdBack m).
Proof.
  intros w x w' o m H [W Z0] Q B.
  assert (ADD : forall t p, in_user t w = true -> (forall l, p <> PdBack l) -> hget ((t, p) :: w_pend w) 1 = Some (PdBack m) -> hget (w_pend w) 1 = Some (PdBack m)).
  { intros t p U N K. change (hget (hadd (w_pend w) t p) 1 = Some (PdBack m)) in K. rewrite hget_hadd in K. destruct (1 =? t); [inversion K; subst; destruct (N m); auto|auto]. }
  assert (DEL : forall t, hget (hdel (w_pend w) t) 1 = Some (PdBack m) -> hget (w_pend w) 1 = Some (PdBack m)).
  { intros t K. rewrite hget_hdel in K by auto. destruct (1 =? t); [discriminate|auto]. }
  destruct x; cbn [tstep] in H; unfold call in H; cbn [quiet1] in Q; try contradiction;
  repeat match type of H with
  | (if ?b then _ else _) = _ => destruct b eqn:?; try discriminate
  | match ?b with _ => _ end = _ => destruct b eqn:?; try discriminate
  end; inversion H; subst; clear H; cbn [set_th set_pc set_pend set_mu set_co w_th w_pc w_pend w_mu w_co] in B; auto;
  try (eapply ADD; [eassumption| |exact B]; intros; discriminate); try (eapply DEL; exact B).
  - rewrite hget_hset_other in B by auto. exact B.
  - rewrite hget_map in B by (intros; apply (sig_fst (waits _))). match goal with H : in_user 1 w = true |- _ => apply user_none in H as [U _]; rewrite U in B end. discriminate.
Qed.

(** ** The frame *)
Record SD (c : conf) (i : Z) (inf : info) (wk : Z -> option wpc) : Prop := {
  S_frame : i_frame inf = i;
  S_len : length (i_array inf) = Z.to_nat (f_lines c);
  S_curr : 0 <= i_curr inf;
  S_wr : i_written inf = Z.of_nat (length (filter is_line (i_array inf)));
  S_cell : forall n x, nth_error (i_array inf) n = Some x -> is_line x = true -> x = Pixels i (Z.of_nat n) /\ Z.of_nat n < i_curr inf;
  S_at : forall t l, at_line (wk t) = Some l -> 0 <= l < i_curr inf /\ exists x, nth_error (i_array inf) (Z.to_nat l) = Some x /\ is_line x = false;
  S_kind : forall t l f, wk t = Some (WSave l f) -> f = i;
  S_one : forall t u l, at_line (wk t) = Some l -> at_line (wk u) = Some l -> t = u }.
Lemma SD_set : forall c i inf wk t o wk', SD c i inf wk -> at_line o = None -> (forall u, wk' u = if u =? t then o else wk u) -> SD c i inf wk'.
Proof.
  intros c i inf wk t o wk' [] O E. constructor; auto.
  - intros u l H. rewrite E in H. destruct (u =? t); [congruence|eauto].
  - intros u l f H. rewrite E in H. destruct (u =? t); [subst o; discriminate|eauto].
  - intros u v l H1 H2. rewrite E in H1, H2. destruct (u =? t), (v =? t); try congruence. eauto.
Qed.
Lemma SD_take : forall c i inf wk t b wk', SD c i inf wk -> i_curr inf < f_lines c -> (forall u, wk' u = if u =? t then Some (WDraw (i_curr inf) b) else wk u) -> SD c i (taken inf) wk'.
Proof.
  intros c i inf wk t b wk' [] L E. constructor; cbn [taken i_curr i_written i_quiesce i_done i_frame i_array]; auto; try lia.
  - intros n x H1 H2. destruct (S_cell0 n x H1 H2). split; [auto|lia].
  - intros u l H. rewrite E in H. destruct (u =? t).
    + inversion H; subst; clear H. split; [lia|]. destruct (nth_error (i_array inf) (Z.to_nat (i_curr inf))) as [x|] eqn:N; [|apply nth_error_None in N; lia]. exists x. split; [auto|]. destruct (is_line x) eqn:K; [|auto]. destruct (S_cell0 _ _ N K). lia.
    + destruct (S_at0 u l H). split; [lia|auto].
  - intros u l f H. rewrite E in H. destruct (u =? t); [discriminate|eauto].
  - intros u v l H1 H2. rewrite E in H1, H2. destruct (Z.eqb_spec u t), (Z.eqb_spec v t); subst; auto.
    + inversion H1; subst. destruct (S_at0 _ _ H2). lia.
    + inversion H2; subst. destruct (S_at0 _ _ H1). lia.
    + eauto.
Qed.
Lemma SD_save : forall c i inf wk t l wk' o, SD c i inf wk -> wk t = Some (WSave l i) -> at_line o = None -> (forall u, wk' u = if u =? t then o else wk u) ->
  exists a, store (i_array inf) (Z.to_nat l) (Pixels i l) = Some a /\ 0 <= l /\ SD c i (saved inf a) wk'.
Proof.
  intros c i inf wk t l wk' o [] W O E. assert (A : at_line (wk t) = Some l) by (rewrite W; auto). destruct (S_at0 t l A) as (L & x & N & F).
  destruct (store_some _ (i_array inf) (Z.to_nat l) (Pixels i l)) as (a & E1 & E2 & E3 & E4); [apply nth_error_Some; congruence|]. exists a. split; [auto|]. split; [lia|].
  constructor; cbn [saved i_curr i_written i_quiesce i_done i_frame i_array]; auto; try lia.
  - rewrite (store_count _ _ _ _ _ E1 N F eq_refl). lia.
  - intros n y H1 H2. destruct (Nat.eq_dec n (Z.to_nat l)) as [->|NE]; [|rewrite E4 in H1 by auto; auto]. rewrite E3 in H1. inversion H1. rewrite Z2Nat.id by lia. split; [auto|lia].
  - intros u k H. rewrite E in H. destruct (Z.eqb_spec u t); [congruence|]. destruct (S_at0 u k H) as (L' & y & N' & F'). split; [auto|]. exists y. split; [|auto]. rewrite E4; [auto|]. intros K. assert (k = l) by lia. subst k. eauto.
  - intros u k f H. rewrite E in H. destruct (u =? t); [subst o; discriminate|eauto].
  - intros u v k H1 H2. rewrite E in H1, H2. destruct (u =? t), (v =? t); try congruence. eauto.
Qed.
Lemma SD_full : forall c i inf wk, 0 <= f_lines c -> SD c i inf wk -> i_written inf = f_lines c -> i_array inf = picture i (f_lines c) /\ forall t, at_line (wk t) = None.
Proof.
  intros c i inf wk L0 [] W. assert (F : forall x, In x (i_array inf) -> is_line x = true) by (apply filter_full; lia).
  split.
  - apply nth_error_ext. intros n. unfold picture. destruct (Nat.ltb_spec n (Z.to_nat (f_lines c))) as [L|L].
    + erewrite map_nth_error; [|rewrite upto_nth; rewrite (proj2 (Nat.ltb_lt _ _) L); reflexivity].
      destruct (nth_error (i_array inf) n) as [x|] eqn:E; [|apply nth_error_None in E; lia]. f_equal. apply (S_cell0 n x); auto. apply F. eapply nth_error_In; eauto.
    + rewrite (proj2 (nth_error_None _ _)) by lia. symmetry. apply nth_error_None. unfold upto. rewrite !map_length, seq_length. lia.
  - intros t. destruct (at_line (wk t)) as [l|] eqn:A; [|auto]. destruct (S_at0 t l A) as (_ & x & N & K). apply nth_error_In, F in N. congruence.
Qed.
Lemma SD_new : forall c i inf wk, 0 <= f_lines c -> length (i_array inf) = Z.to_nat (f_lines c) -> i_frame inf = i -> (forall x, In x (i_array inf) -> is_line x = false) -> (forall t, at_line (wk t) = None) ->
  SD c i (Info 0 0 (i_quiesce inf) false (i_frame inf) (i_array inf)) wk.
Proof.
  intros c i inf wk L0 L F N A. constructor; cbn [i_curr i_written i_quiesce i_done i_frame i_array]; auto; try lia.
  - replace (filter is_line (i_array inf)) with (@nil cell); [auto|]. symmetry. clear -N. induction (i_array inf) as [|x a IH]; [auto|]. cbn. rewrite (N x (or_introl eq_refl)). apply IH. intros y Y. apply N. right. auto.
  - intros n x H1 H2. apply nth_error_In, N in H1. congruence.
  - intros t l H. rewrite A in H. discriminate.
  - intros t l f H. specialize (A t). rewrite H in A. discriminate.
  - intros t u l H. rewrite A in H. discriminate.
Qed.

(** ** The invariant *)
Definition SI (c : conf) (s : mst) : Prop :=
  match s_main s with
  | MStart | MLock => s_files s = [] /\ i_done (s_info s) = true /\ i_frame (s_info s) = 0 /\ length (i_array (s_info s)) = Z.to_nat (f_lines c) /\ (forall x, In x (i_array (s_info s)) -> is_line x = false) /\ forall t, at_line (s_wk s t) = None
  | MFrame i => 0 <= i < f_frames c /\ s_files s = animation i (f_lines c) /\ SD c i (s_info s) (s_wk s) /\ forall m, pd s 1 = Some (PdBack m) -> i_written (s_info s) = f_lines c
  | MClean _ => exists n, 0 <= n <= Z.max 0 (f_frames c) /\ s_files s = animation n (f_lines c)
  | MEnd e => e = 0 /\ s_files s = animation (f_frames c) (f_lines c)
  end.
Definition Safe (c : conf) (s : mst) : Prop := 0 <= f_lines c /\ WF (s_tw s) /\ s_wk s 1 = None /\ SI c s.
(** Safe apart from where [t] is. *)
Definition SafeW (c : conf) (t : Z) (s : mst) : Prop := t <> 1 /\ Safe c (set_wk t WWait s).
Lemma Safe_W : forall c t s, Safe c s -> t <> 1 -> SafeW c t s.
Proof.
  intros c t s (L0 & W & W1 & I) N. split; [auto|]. split; [auto|]. split; [exact W|]. cbn [set_wk s_wk s_main]. split; [rewrite upd_get, (proj2 (Z.eqb_neq 1 t)) by auto; auto|]. unfold SI in *. cbn [set_wk s_wk s_main s_files s_info].
  destruct (s_main s); auto.
  - destruct I as (? & ? & ? & ? & ? & A). repeat split; auto. intros u. rewrite upd_get. destruct (u =? t); auto.
  - destruct I as (? & ? & ? & ? & ? & A). repeat split; auto. intros u. rewrite upd_get. destruct (u =? t); auto.
  - destruct I as (B & F & D & P). split; [auto|]. split; [auto|]. split; [|exact P]. eapply (SD_set _ _ _ _ t (Some WWait)); [exact D|auto|intros u; apply upd_get].
Qed.
Lemma SafeW_end : forall c t s v, SafeW c t s -> at_line (Some v) = None -> Safe c (set_wk t v s).
Proof.
  intros c t s v (N & L0 & W & W1 & I) A. split; [auto|]. split; [exact W|]. cbn [set_wk s_wk s_main] in *. rewrite upd_get in *. rewrite (proj2 (Z.eqb_neq 1 t)) in * by auto. split; [auto|].
  assert (E : forall u, upd (s_wk s) t (Some v) u = if u =? t then Some v else upd (s_wk s) t (Some WWait) u) by (intros u; rewrite !upd_get; destruct (u =? t); auto).
  unfold SI in *. cbn [set_wk s_wk s_main s_files s_info] in *. destruct (s_main s); auto.
  - destruct I as (? & ? & ? & ? & ? & B). repeat split; auto. intros u. rewrite E. destruct (u =? t); auto.
  - destruct I as (? & ? & ? & ? & ? & B). repeat split; auto. intros u. rewrite E. destruct (u =? t); auto.
  - destruct I as (B & F & D & P). split; [auto|]. split; [auto|]. split; [|exact P]. eapply SD_set; [exact D| |exact E]. auto.
Qed.
Lemma SafeW_quiesce : forall c t s, SafeW c t s -> SafeW c t (quiesce s).
Proof.
  intros c t s (N & L0 & W & W1 & I). split; [auto|]. split; [auto|]. split; [exact W|]. split; [exact W1|]. unfold SI in *. cbn [quiesce set_info i_stop set_wk s_wk s_main s_files s_info i_done i_frame i_array i_written] in *. destruct (s_main s); auto.
  destruct I as (B & F & D & P). split; [auto|]. split; [auto|]. split; [|exact P]. destruct D. constructor; auto.
Qed.
Lemma SafeW_finish : forall c t s, SafeW c t s -> SafeW c t (finish s).
Proof.
  intros c t s (N & L0 & W & W1 & I). split; [auto|]. split; [auto|]. split; [exact W|]. split; [exact W1|]. unfold SI in *. cbn [finish set_info i_finish set_wk s_wk s_main s_files s_info i_done i_frame i_array i_written] in *. destruct (s_main s); auto.
  - destruct I as (? & ? & ?). auto.
  - destruct I as (? & ? & ?). auto.
  - destruct I as (B & F & D & P). split; [auto|]. split; [auto|]. split; [|exact P]. destruct D. constructor; auto.
Qed.
Lemma SafeW_bufs : forall c t s b, SafeW c t s -> SafeW c t (set_bufs b s).
Proof. intros c t s b (N & L0 & W & W1 & I). split; [auto|]. split; [auto|]. split; [exact W|]. split; [exact W1|]. exact I. Qed.
Lemma SafeW_tw : forall c t s x w o, SafeW c t s -> tstep (s_tw s) x = Go w o -> quiet1 x \/ (forall i, s_main s = MFrame i -> i_written (s_info s) = f_lines c) -> SafeW c t (set_tw w s).
Proof.
  intros c t s x w o (N & L0 & W & W1 & I) E Q. cbn [set_wk s_tw] in W. split; [auto|]. split; [auto|]. split; [exact (tstep_WF _ _ _ _ E W)|]. split; [exact W1|].
  unfold SI in *. cbn [set_tw set_wk s_wk s_main s_files s_info] in *. destruct (s_main s) as [| |i| |] eqn:M; auto. destruct I as (B & F & D & P). split; [auto|]. split; [auto|]. split; [auto|].
  intros m K. destruct Q as [Q|Q]; [|eauto]. apply (P m). exact (tstep_back1 _ _ _ _ _ E W Q K).
Qed.
Lemma lib_holds : forall P c t x s k, SafeW c t s -> quiet1 x \/ (forall i, s_main s = MFrame i -> i_written (s_info s) = f_lines c) -> (forall w o, SafeW c t (set_tw w s) -> holds P (k o (set_tw w s))) -> holds P (lib x s k).
Proof.
  intros P c t x s k S Q K s' H. unfold lib in H. destruct (tstep (s_tw s) x) as [| |w o] eqn:E; try discriminate. exact (K w o (SafeW_tw _ _ _ _ _ _ S E Q) s' H).
Qed.
Lemma go_holds : forall (P : mst -> Prop) s, P s -> holds P (MGo s).
Proof. intros P s H s' K. inversion K; subst. auto. Qed.
Lemma bad_holds : forall (P : mst -> Prop) r, r = MUndef \/ r = MStuck -> holds P r.
Proof. intros P r H s K. destruct H; congruence. Qed.

Lemma done_safe : forall c t st s, SafeW c t s -> holds (Safe c) (worker_done t st s).
Proof. intros c t st s S. eapply lib_holds; [exact S|left; exact Logic.I|]. intros w o S1. apply go_holds, SafeW_end; auto. Qed.
Lemma cleanup_safe : forall c r t st s, SafeW c t s -> holds (Safe c) (worker_cleanup c r t st s).
Proof. intros c r t st s S. eapply lib_holds; [exact S|left; exact Logic.I|]. intros w o S1. apply done_safe; auto. Qed.
Lemma wait_safe : forall c r t s, SafeW c t s -> holds (Safe c) (worker_wait c r t s).
Proof.
  intros c r t s S. eapply lib_holds; [exact S|left; exact Logic.I|]. intros w o S1. destruct o; try (apply go_holds, SafeW_end; auto; fail). apply cleanup_safe, SafeW_quiesce. auto.
Qed.
Lemma loop_safe : forall c r t s, SafeW c t s -> holds (Safe c) (worker_loop c r t s).
Proof.
  intros c r t s S. unfold worker_loop. destruct (i_done (s_info s)) eqn:DN; [apply wait_safe; auto|]. destruct (Z.ltb_spec (i_curr (s_info s)) (f_lines c)) as [L|L]; [|apply wait_safe, SafeW_finish; auto].
  set (s1 := set_bufs _ _). intros s' H. unfold lib in H. destruct (tstep (s_tw s1) (LkRelease t (f_mu c) (r_unlock r))) as [| |w o] eqn:E; try discriminate.
  assert (T : SafeW c t (set_tw w s)) by (eapply SafeW_tw; [exact S|exact E|left; exact Logic.I]).
  destruct T as (N & L0 & W & W1 & I). unfold SI in I. cbn [set_tw set_wk s_wk s_main s_files s_info] in I, W1.
  assert (TK : forall v, (v = WDraw (i_curr (s_info s)) (r_malloc r) \/ at_line (Some v) = None) -> Safe c (set_wk t v (set_tw w s1))).
  { intros v V. split; [auto|]. split; [exact W|]. cbn [set_wk set_tw s_wk s_main] in *. rewrite upd_get in *. rewrite (proj2 (Z.eqb_neq 1 t)) in * by auto. split; [auto|].
    unfold SI. unfold s1. cbn [set_tw set_wk set_bufs set_info s_wk s_main s_files s_info i_done i_frame i_array]. destruct (s_main s); auto.
    - destruct I as (_ & D & _). congruence.
    - destruct I as (_ & D & _). congruence.
    - destruct I as (B & F & D & P). split; [auto|]. split; [auto|]. split; [|exact P]. match goal with |- SD _ _ ?x _ => replace x with (taken (s_info s)) by (unfold taken; rewrite DN; auto) end. destruct V as [->|V].
      + eapply (SD_take _ _ _ _ t (r_malloc r)); [exact D|auto|]. intros u. rewrite !upd_get. destruct (u =? t); auto.
      + eapply (SD_set _ _ _ _ t (Some v)); [eapply (SD_take _ _ _ _ t true (upd (s_wk s) t (Some (WDraw (i_curr (s_info s)) true)))); [exact D|auto|]|exact V|]; intros u; rewrite !upd_get; destruct (u =? t); auto. }
  destruct (negb (ok (status_of o))).
  - revert s' H. apply done_safe. apply SafeW_bufs, SafeW_quiesce. split; [auto|]. apply TK. right. auto.
  - inversion H; subst. apply TK. left. auto.
Qed.
Lemma save_safe : forall c r t l f s, Safe c s -> t <> 1 -> s_wk s t = Some (WSave l f) -> holds (Safe c) (worker_save c r t l f s).
Proof.
  intros c r t l f s S N E. unfold worker_save. destruct (l <? 0); [apply bad_holds; auto|]. destruct (store _ _ _) as [a|] eqn:ST; [|apply bad_holds; auto]. cbv zeta.
  set (s1 := set_info _ s). assert (S1 : SafeW c t s1 /\ (i_written (s_info s) + 1 = f_lines c -> forall i, s_main s1 = MFrame i -> i_written (s_info s1) = f_lines c)).
  { split; [|auto]. destruct S as (L0 & W & W1 & I). split; [auto|]. split; [auto|]. split; [exact W|]. cbn [set_wk s_wk s1 set_info]. split; [rewrite upd_get, (proj2 (Z.eqb_neq 1 t)) by auto; auto|].
    unfold SI in *. unfold s1. cbn [set_wk set_info s_wk s_main s_files s_info i_done i_frame i_array i_written]. destruct (s_main s); auto.
    - destruct I as (_ & _ & _ & _ & _ & A). specialize (A t). rewrite E in A. discriminate.
    - destruct I as (_ & _ & _ & _ & _ & A). specialize (A t). rewrite E in A. discriminate.
    - destruct I as (B & F & D & P). pose proof (S_kind _ _ _ _ D t l f E) as ->. destruct (SD_save c i (s_info s) (s_wk s) t l (upd (s_wk s) t (Some WWait)) (Some WWait) D E eq_refl) as (a' & ST' & _ & D'); [intros u; apply upd_get|].
      assert (a' = a) by congruence. subst a'. split; [auto|]. split; [auto|]. split; [exact D'|]. intros m K. change (pd s 1 = Some (PdBack m)) in K. exfalso. destruct (SD_full _ _ _ _ L0 D (P m K)) as [_ A]. specialize (A t). rewrite E in A. discriminate. }
  destruct S1 as [S1 S2]. destruct (Z.eqb_spec (i_written (s_info s) + 1) (f_lines c)) as [K|K]; [|apply loop_safe; auto].
  eapply lib_holds; [apply SafeW_finish; exact S1|right; exact (S2 K)|]. intros w o T. destruct (negb _); [apply cleanup_safe, SafeW_quiesce; auto|apply loop_safe; auto].
Qed.

(** ** The main thread *)
Definition idling (s : mst) : Prop := forall t, at_line (s_wk s t) = None.
(** The main thread holds the lock and the first [i] frames are written. *)
Definition Between (c : conf) (i : Z) (s : mst) : Prop :=
  0 <= f_lines c /\ WF (s_tw s) /\ s_wk s 1 = None /\ s_files s = animation i (f_lines c) /\ i_frame (s_info s) = i /\ length (i_array (s_info s)) = Z.to_nat (f_lines c) /\ (forall x, In x (i_array (s_info s)) -> is_line x = false) /\ idling s.
Lemma clean_safe : forall c code s n, 0 <= f_lines c -> WF (s_tw s) -> s_wk s 1 = None -> 0 <= n <= Z.max 0 (f_frames c) -> s_files s = animation n (f_lines c) -> holds (Safe c) (main_clean c code s).
Proof.
  intros c code s n L0 W W1 N F s' H. unfold main_clean, lib in H. destruct (tstep _ _) as [| |w o] eqn:E; try discriminate. inversion H; subst. split; [auto|]. split; [exact (tstep_WF _ _ _ _ E W)|]. split; [exact W1|]. exists n. auto.
Qed.
Lemma frame_safe : forall c r i s, 0 <= i <= Z.max 0 (f_frames c) -> Between c i s -> holds (Safe c) (main_frame c r i s).
Proof.
  intros c r i s N (L0 & W & W1 & F & FR & LA & NL & ID) s' H. unfold main_frame in H. destruct (Z.ltb_spec i (f_frames c)) as [L|L].
  - unfold lib at 1 in H. destruct (tstep _ (CoSignalAll _ _ _ _)) as [| |w o] eqn:E; try discriminate. pose proof (tstep_WF _ _ _ _ E W) as Wa. destruct (negb _); [revert s' H; eapply clean_safe; eauto|].
    unfold lib at 1 in H. destruct (tstep _ (CoWait _ _ _ _)) as [| |w' o'] eqn:E'; try discriminate. pose proof (tstep_WF _ _ _ _ E' Wa) as Wb.
    assert (G : forall s', MGo (set_main (MFrame i) (set_tw w' (set_tw w (set_info (Info 0 0 (i_quiesce (s_info s)) false (i_frame (s_info s)) (i_array (s_info s))) s)))) = MGo s' -> o' = Quiet -> Safe c s').
    { intros s2 H2 ->. inversion H2; subst s2. split; [auto|]. split; [exact Wb|]. split; [exact W1|]. unfold SI. cbn [set_main set_tw set_info s_main s_files s_info s_wk]. split; [lia|]. split; [auto|]. split; [apply SD_new; auto|].
      intros m K. exfalso. unfold pd in K. cbn [set_main set_tw set_info s_tw] in *. cbn [tstep] in E'. unfold call in E'. destruct (in_user 1 w) eqn:U; [|discriminate]. apply user_none in U as [U _].
      destruct (w_mu w (f_mu c)) as [[h|]|]; try discriminate. destruct (w_co w (f_mc c)) as [[]|]; try discriminate. destruct (_ || _); [discriminate|]. destruct (negb (r_wait r =? 0)); inversion E'; subst; clear E'. cbn [set_pend set_mu w_pend] in K. discriminate. }
    destruct o'; [exact (G _ H eq_refl)|revert s' H; eapply clean_safe; eauto|].
    exfalso. cbn [tstep] in E'. unfold call in E'. destruct (in_user 1 _); [|discriminate]. destruct (w_mu _ _) as [[h|]|]; try discriminate. destruct (w_co _ _) as [[]|]; try discriminate. destruct (_ || _); [discriminate|]. destruct (negb _); discriminate.
  - inversion H; subst. split; [auto|]. split; [exact W|]. split; [exact W1|]. unfold SI. cbn [set_main s_main s_files]. split; [auto|]. destruct (Z.leb_spec 0 (f_frames c)); [replace (f_frames c) with (i_frame (s_info s)) by lia; auto|]. rewrite F, !animation_none by lia. auto.
Qed.
Lemma step_safe : forall c s x, Safe c s -> x <> Spurious 1 -> holds (Safe c) (mstep c s x).
Proof.
  intros c s x S NX. pose proof S as (L0 & W & W1 & I). destruct x as [t|t|t r|t]; cbn [mstep].
  - destruct (Z.eqb_spec t 1) as [->|N].
    + destruct (s_main s) eqn:M; try (apply bad_holds; auto; fail). intros s' H. unfold lib in H. destruct (tstep _ _) as [| |w o] eqn:E; try discriminate. inversion H; subst. split; [auto|]. split; [exact (tstep_WF _ _ _ _ E W)|]. split; [exact W1|]. unfold SI in *. rewrite M in I. exact I.
    + destruct (s_wk s t) as [[]|]; try (apply bad_holds; auto; fail). eapply lib_holds; [apply Safe_W; eauto|left; exact Logic.I|]. intros w o S1. eapply lib_holds; [exact S1|left; exact Logic.I|]. intros w2 o2 S2. apply go_holds, SafeW_end; auto.
  - assert (N : s_wk s t <> None -> t <> 1) by congruence. destruct (s_wk s t) as [[| | |l b|l f|]|] eqn:E; try (apply bad_holds; auto; fail). specialize (N ltac:(discriminate)). destruct (negb b); [apply bad_holds; auto|].
    intros s' H. unfold lib in H. destruct (tstep _ _) as [| |w o] eqn:ST; try discriminate. inversion H; subst; clear H. split; [auto|]. split; [exact (tstep_WF _ _ _ _ ST W)|]. cbn [set_wk set_tw s_wk s_main]. split; [rewrite upd_get, (proj2 (Z.eqb_neq 1 t)) by auto; auto|].
    unfold SI in *. cbn [set_wk set_tw s_wk s_main s_files s_info]. destruct (s_main s); auto.
    + destruct I as (_ & _ & _ & _ & _ & A). specialize (A t). rewrite E in A. discriminate.
    + destruct I as (_ & _ & _ & _ & _ & A). specialize (A t). rewrite E in A. discriminate.
    + destruct I as (B & F & D & P). split; [auto|]. split; [auto|]. split; [|intros m K; apply (P m); exact (tstep_back1 _ _ _ _ _ ST W Logic.I K)].
      assert (A : forall u, at_line (upd (s_wk s) t (Some (WSave l (i_frame (s_info s)))) u) = at_line (s_wk s u)) by (intros u; rewrite upd_get; destruct (Z.eqb_spec u t); subst; [rewrite E|]; auto).
      destruct D. constructor; auto.
      * intros u k H. rewrite A in H. eauto.
      * intros u k f H. rewrite upd_get in H. destruct (Z.eqb_spec u t); [inversion H; subst; auto|eauto].
      * intros u v k H1 H2. rewrite A in H1, H2. eauto.
  - destruct (Z.eqb_spec t 1) as [->|N].
    + unfold SI in I. destruct (s_main s) as [| |i| |] eqn:M; try (apply bad_holds; auto; fail); intros s' H; unfold lib in H.
      * destruct (tstep _ _) as [| |w o] eqn:E; try discriminate. pose proof (tstep_WF _ _ _ _ E W) as Wa. destruct I as (F & D & FR & LA & NL & ID). destruct (negb _).
        { revert s' H. apply (clean_safe c 11 (set_tw w s) 0 L0 Wa W1 ltac:(lia)). rewrite animation_none by lia. exact F. }
        revert s' H. apply frame_safe; [lia|]. split; [auto|]. split; [exact Wa|]. split; [exact W1|]. split; [rewrite animation_none by lia; exact F|]. auto.
      * destruct (tstep _ _) as [| |w o] eqn:E; try discriminate. pose proof (tstep_WF _ _ _ _ E W) as Wa. destruct I as (B & F & D & P).
        assert (WR : i_written (s_info s) = f_lines c) by (cbn [tstep] in E; unfold pd in P; destruct (hget (w_pend (s_tw s)) 1) as [[]|]; try discriminate; eauto).
        destruct (SD_full _ _ _ _ L0 D WR) as [A ID]. unfold main_write in H. cbn [set_tw s_info] in H. rewrite A in H.
        assert (FL : forall x, In x (picture i (f_lines c)) -> is_line x = true) by (intros x X; unfold picture in X; apply in_map_iff in X as (l & <- & _); auto).
        destruct (existsb is_junk _) eqn:J; [discriminate|]. rewrite (filter_same _ _ _ FL) in H. revert s' H. apply frame_safe; [lia|]. unfold Between, idling. cbn [set_info set_bufs set_files set_tw s_info s_bufs s_files s_tw s_wk i_frame i_array].
        split; [auto|]. split; [exact Wa|]. split; [auto|]. split; [rewrite F, animation_succ by lia; auto|]. split; [auto|]. split; [rewrite map_length; rewrite <- A; apply D|]. split; [|auto]. intros x X. apply in_map_iff in X as (y & <- & _). auto.
    + assert (SW := Safe_W _ _ _ S N). destruct (s_wk s t) as [[| | |l b|l f|]|] eqn:E; try (apply bad_holds; auto; fail).
      * eapply lib_holds; [exact SW|left; exact Logic.I|]. intros w o S1. destruct (negb _); [apply done_safe, SafeW_quiesce; auto|apply wait_safe; auto].
      * eapply lib_holds; [exact SW|left; exact Logic.I|]. intros w o S1. destruct (i_quiesce _); [apply cleanup_safe; auto|apply loop_safe; auto].
      * intros s' H. unfold lib in H. destruct (tstep _ _) as [| |w o] eqn:ST; try discriminate. destruct (negb _).
        { revert s' H. apply done_safe, SafeW_bufs, SafeW_quiesce. eapply SafeW_tw; [exact SW|exact ST|left; exact Logic.I]. }
        revert s' H. apply save_safe; auto. split; [auto|]. split; [exact (tstep_WF _ _ _ _ ST W)|]. split; [auto|]. unfold SI in *. cbn [set_tw s_main s_files s_info s_wk] in *. destruct (s_main s); auto. destruct I as (B & F & D & P). split; [auto|]. split; [auto|]. split; [auto|]. intros m K. apply (P m). exact (tstep_back1 _ _ _ _ _ ST W Logic.I K).
  - intros s' H. unfold lib in H. destruct (tstep _ _) as [| |w o] eqn:ST; try discriminate. inversion H; subst; clear H. assert (Q : quiet1 (CoWake t)) by (cbn; congruence). split; [auto|]. split; [exact (tstep_WF _ _ _ _ ST W)|]. split; [auto|].
    unfold SI in *. cbn [set_tw s_main s_files s_info s_wk]. destruct (s_main s); auto. destruct I as (B & F & D & P). split; [auto|]. split; [auto|]. split; [auto|]. intros m K. apply (P m). exact (tstep_back1 _ _ _ _ _ ST W Q K).
Qed.
Lemma runs_safe : forall c l s s', Safe c s -> ~ In (Spurious 1) l -> mruns c s l = MGo s' -> Safe c s'.
Proof.
  intros c l. induction l as [|x l IH]; intros s s' S N H; cbn [mruns] in H; [inversion H; subst; auto|]. destruct (mstep c s x) as [| |s1] eqn:E; try discriminate. eapply IH; [|intros K; apply N; right; auto|exact H]. eapply step_safe; [exact S| |exact E]. intros K. apply N. left. auto.
Qed.
Lemma Inv_safe : forall c s, Inv c s -> s_main s = MStart -> w_pc (s_tw s) 0 = None -> Safe c s.
Proof.
  intros c s (L0 & T & L) M Z0. unfold Th in T. split; [auto|]. split; [split; [apply T|auto]|]. split; [apply T|]. unfold SI, LI in *. rewrite M in *. destruct L as (E & F & _ & ID). rewrite E. unfold info0. cbn [i_done i_frame i_array]. split; [auto|]. split; [auto|]. split; [auto|]. split; [apply repeat_length|]. split; [|exact ID]. intros x X. apply repeat_spec in X. subst. auto.
Qed.
Lemma truns_pc0 : forall l w os w', truns w l = Some (os, w') -> WF w -> WF w'.
Proof.
  induction l as [|x l IH]; intros w os w' H W; cbn [truns] in H; [inversion H; subst; auto|]. destruct (tstep w x) as [| |w1 o] eqn:E; try discriminate. destruct (truns w1 l) as [[os1 w2]|] eqn:R; [|discriminate]. inversion H; subst. eapply IH; [exact R|]. exact (tstep_WF _ _ _ _ E W).
Qed.
