(** Proofs about documented status codes. *)
From Verif Require Import Base Status Heap MemModel DocSpec.
From Verif Require AllocModel BigintModel ListModel RbModel OwnModel SchedModel ThreadModel BrModel SockModel StringModel UuidModel.

Ltac step := match goal with
  | H : None = Some _ |- _ => discriminate H
  | H : Some _ = Some _ |- _ => injection H; clear H; intros; subst
  | H : (_, _) = (_, _) |- _ => injection H; clear H; intros; subst
  | H : (if ?x then _ else _) = _ |- _ => destruct x eqn:?; try discriminate H
  | H : (match ?x with _ => _ end) = _ |- _ => destruct x eqn:?; try discriminate H
  | H : (let _ := _ in _) = _ |- _ => cbv zeta in H
  end.
Ltac steps := repeat step.

(** ** Lists *)
Lemma node_create_fair : forall v w l c e p w', fair_list v -> ListModel.node_create v w l c = Some (e, p, w') -> fair e.
Proof. intros v w l c e p w' (F & _) H. unfold ListModel.node_create in H. steps; auto. left. auto. Qed.
Lemma finish_fair : forall v w p c e r w', fair_list v -> ListModel.pop_finish v w p c = Some (e, r, w') -> e = STATUS_SUCCESS.
Proof.
  intros v w p c e r w' (_ & C & R) H. unfold ListModel.pop_finish, ListModel.node_release, ListModel.release_child, ListModel.reclaim_node in H.
  rewrite ?R, ?C in H. change (MemModel.ok STATUS_SUCCESS) with true in H. cbn [negb] in H. steps; auto; cbn in *; try discriminate.
Qed.
Ltac lists := match goal with
  | F : fair_list ?v, H : _ = Some _ |- _ =>
      unfold ListModel.slist_insert_head, ListModel.slist_append_tail, ListModel.slist_append, ListModel.list_insert_head, ListModel.list_append_tail, ListModel.list_append, ListModel.slist_pop, ListModel.list_pop, ListModel.slist_node_next_pop in H;
      steps; repeat match goal with
      | K : ListModel.node_create _ _ _ _ = Some _ |- _ => apply (node_create_fair _ _ _ _ _ _ _ F) in K
      | K : ListModel.pop_finish _ _ _ _ = Some _ |- _ => apply (finish_fair _ _ _ _ _ _ _ F) in K
      end; auto; try (left; reflexivity)
  end.
Lemma slist_insert_head_fair : forall v w l c e w', fair_list v -> ListModel.slist_insert_head v w l c = Some (e, w') -> fair e.
Proof. intros. lists. Qed.
Lemma slist_append_tail_fair : forall v w l c e w', fair_list v -> ListModel.slist_append_tail v w l c = Some (e, w') -> fair e.
Proof. intros. lists. Qed.
Lemma slist_append_fair : forall v w l c e w', fair_list v -> ListModel.slist_append v w l c = Some (e, w') -> fair e.
Proof. intros. lists. Qed.
Lemma list_insert_head_fair : forall v w l c e w', fair_list v -> ListModel.list_insert_head v w l c = Some (e, w') -> fair e.
Proof. intros. lists. Qed.
Lemma list_append_tail_fair : forall v w l c e w', fair_list v -> ListModel.list_append_tail v w l c = Some (e, w') -> fair e.
Proof. intros. lists. Qed.
Lemma list_append_fair : forall v w l c e w', fair_list v -> ListModel.list_append v w l c = Some (e, w') -> fair e.
Proof. intros. lists. Qed.
Lemma list_insert_fair : forall v w l c e w', fair_list v -> ListModel.list_insert v w l c = Some (e, w') -> fair e.
Proof. intros v w l c e w' F H. unfold ListModel.list_insert in H. steps; [eapply list_append_fair|eapply list_insert_head_fair]; eauto. Qed.
Lemma slist_pop_fair : forall v w l e c w', fair_list v -> ListModel.slist_pop v w l = Some (e, c, w') -> e = STATUS_SUCCESS.
Proof. intros. lists. Qed.
Lemma slist_next_pop_fair : forall v w l e c w', fair_list v -> ListModel.slist_node_next_pop v w l = Some (e, c, w') -> e = STATUS_SUCCESS.
Proof. intros. lists. Qed.
Lemma list_pop_fair : forall v w l e c w', fair_list v -> ListModel.list_pop v w l = Some (e, c, w') -> e = STATUS_SUCCESS.
Proof. intros. lists. Qed.

(** ** Trees *)
Lemma find_loop_codes : forall n o w nl k x e r, RbModel.find_loop n o w nl k x = Some (e, r) -> e = STATUS_SUCCESS \/ e = ERROR_RBTREE_NOT_FOUND.
Proof. induction n as [|n IH]; intros o w nl k x e r H; cbn [RbModel.find_loop] in H; [discriminate|]. steps; auto; eapply IH; eauto. Qed.
Lemma find_node_codes : forall o w t k e r, RbModel.find_node o w t k = Some (e, r) -> e = STATUS_SUCCESS \/ e = ERROR_RBTREE_NOT_FOUND.
Proof. intros o w t k e r H. unfold RbModel.find_node in H. steps. eapply find_loop_codes; eauto. Qed.
Lemma tree_release_fair : forall v w n e w', fair_tree v -> RbModel.node_release v w n = Some (e, w') -> e = STATUS_SUCCESS.
Proof.
  intros v w n e w' (_ & C & R) H. unfold RbModel.node_release, RbModel.release_value in H. rewrite R in H. change (ok STATUS_SUCCESS) with true in H.
  steps; auto; rewrite C in *; discriminate.
Qed.
Lemma delete_node_fair : forall v keep w t n e r w', fair_tree v -> RbModel.delete_node v keep w t n = Some (e, r, w') -> e = STATUS_SUCCESS.
Proof. intros v keep w t n e r w' F H. unfold RbModel.delete_node in H. steps; eapply tree_release_fair; eauto. Qed.

(** ** Constructors over the heap of owning structs *)
Ltac mem1 := match goal with
  | H : None = Some _ |- _ => discriminate H
  | H : Some _ = Some _ |- _ => injection H; clear H; intros; subst
  | H : context [ok ?x] |- _ => lazymatch type of H with _ = Some _ => destruct (ok x) eqn:? end
  | H : context [match hget ?h ?p with _ => _ end] |- _ => destruct (hget h p) eqn:?
  | H : context [OwnModel.stack_create ?v ?s] |- _ => lazymatch type of H with OwnModel.stack_create _ _ = _ => fail | _ => destruct (OwnModel.stack_create v s) as [[[? ?] ?]|] eqn:? end
  end.
Ltac mems H := unfold OwnModel.mbind, OwnModel.alloc, OwnModel.free, OwnModel.store, OwnModel.load, OwnModel.mret, OwnModel.undef in H;
  repeat (cbn beta iota zeta delta [negb] in *; mem1).
Lemma stack_fair : forall v s e p s', OwnModel.stack_create v s = Some (e, p, s') -> fair e.
Proof. intros v s e p s' H. unfold OwnModel.stack_create in H. mems H; unfold fair; auto. Qed.
Lemma fiber_fair : forall v s e p s', OwnModel.fiber_create v s = Some (e, p, s') -> fair e.
Proof.
  intros v s e p s' H. unfold OwnModel.fiber_create in H. mems H; unfold fair; auto;
  match goal with K : OwnModel.stack_create _ _ = Some _ |- _ => apply stack_fair in K; exact K end.
Qed.
Lemma fiber_thread_fair : forall v s e p s', OwnModel.fiber_for_thread v s = Some (e, p, s') -> fair e.
Proof.
  intros v s e p s' H. unfold OwnModel.fiber_for_thread, OwnModel.mbind, OwnModel.alloc, OwnModel.mret in H. cbv zeta in H.
  destruct (ok (OwnModel.e_al v (OwnModel.m_n s))) eqn:E; rewrite E in H; injection H; intros; subst.
  - left. apply Z.eqb_eq. exact E.
  - right. reflexivity.
Qed.
Lemma disc_create_fair : forall v id s e p s', OwnModel.disc_create v id s = Some (e, p, s') -> fair e.
Proof. intros v id s e p s' H. unfold OwnModel.disc_create in H. mems H; unfold fair; auto. Qed.
Lemma insert_fair : forall v t x s e s', fairs (OwnModel.e_al v) -> OwnModel.rbtree_insert v t x s = Some (e, s') -> fair e.
Proof.
  intros v t x s e s' F H. unfold OwnModel.rbtree_insert, OwnModel.mbind, OwnModel.load in H. destruct (hget (OwnModel.m_h s) t) as [[]|]; try discriminate H.
  mems H; unfold fair in *; auto. all: try (apply F). all: try (left; apply Z.eqb_eq; assumption).
Qed.
Lemma regrow_fair : forall v p s e q s', fairs (OwnModel.e_al v) -> OwnModel.regrow v p s = Some ((e, q), s') -> fair e.
Proof.
  intros v p s e q s' F H. unfold OwnModel.regrow in H. mems H; apply F.
Qed.
Lemma disc_add_codes : forall v sc d s e s', fairs (OwnModel.e_al v) -> OwnModel.disc_add v sc d s = Some (e, s') ->
  fair e \/ e = ERROR_FIBER_SCHEDULER_DUPLICATE_DISCIPLINE_ID \/ e = ERROR_FIBER_SCHEDULER_DISCIPLINE_ALREADY_OWNED.
Proof.
  intros v sc d s e s' F H. unfold OwnModel.disc_add, OwnModel.mbind, OwnModel.load in H.
  destruct (hget (OwnModel.m_h s) sc) as [b|]; [|discriminate]. destruct (hget (OwnModel.m_h s) d) as [x|]; [|discriminate].
  destruct b as [| | | | | | | | | | | | | | | |? ctx []]; try discriminate H.
  destruct x as [| | | | | | |id dv codes dctx added| | | | | | | | |]; try discriminate H.
  destruct added; [injection H; intros; subst; auto|].
  destruct (hget (OwnModel.m_h s) ctx) as [c|]; [|discriminate]. destruct c as [| | | | | | | | | | | | | | |fibers discs rq cbv cxv idle sc'|]; try discriminate H.
  destruct (hget (OwnModel.m_h s) discs) as [t|]; [|discriminate]. destruct t; try discriminate H.
  destruct (OwnModel.find_disc l id s) as [[found s1]|]; [|discriminate]. destruct (negb (found =? 0)); [injection H; intros; subst; auto|].
  destruct (OwnModel.rbtree_insert v discs d s1) as [[e1 s2]|] eqn:E1; [|discriminate].
  destruct (negb (ok e1)); [injection H; intros; subst; left; eapply insert_fair; eauto|].
  destruct (OwnModel.regrow v cbv s2) as [[[e2 q2] s3]|] eqn:E2; [|discriminate].
  destruct (OwnModel.store ctx _ s3) as [[[] s4]|]; [|discriminate].
  destruct (negb (ok e2)); [injection H; intros; subst; left; eapply regrow_fair; eauto|].
  destruct (OwnModel.regrow v cxv s4) as [[[e3 q3] s5]|] eqn:E3; [|discriminate].
  destruct (OwnModel.store ctx _ s5) as [[[] s6]|]; [|discriminate].
  destruct (negb (ok e3)); [injection H; intros; subst; left; eapply regrow_fair; eauto|].
  destruct (OwnModel.store d _ s6) as [[[] s7]|]; [|discriminate]. injection H; intros; subst. left. left. reflexivity.
Qed.

(** ** Threads, sockets and strings *)
Lemma buffer_fair : forall al rc junk b, fairs al -> smooth rc -> fair (ct_status (create_from_buffer al rc junk b)).
Proof.
  intros al rc junk b A R. unfold create_from_buffer, mem_release. destruct (ok (al 0%nat)) eqn:E0; cbn [negb ct_status]; [|apply A].
  destruct b; destruct (ok (al 1%nat)) eqn:E1; cbn [negb]; try (left; reflexivity).
  - cbn. rewrite ?R. cbn. apply A.
  - destruct (ok (al 2%nat)) eqn:E2; cbn [negb]; [left; reflexivity|]. cbn. rewrite ?R. cbn. apply A.
  - cbn. rewrite ?R. cbn. apply A.
Qed.
Lemma br_fair : forall (S : Type) al rc junk (s : S), fairs al -> smooth rc -> fair (ct_status (BrModel.br_create al rc junk s)).
Proof.
  intros S al rc junk s A R. unfold BrModel.br_create, BrModel.br_release. destruct (ok (al 0%nat)) eqn:E0; cbn [negb ct_status]; [|apply A].
  destruct (ok (al 1%nat)) eqn:E1; cbn; [left; reflexivity|]. left. apply R.
Qed.
Lemma methods_fair : forall a s w e p w', fair (SockModel.a_al a) -> SockModel.made a s w = (e, p, w') -> fair e.
Proof. intros a s w e p w' F H. unfold SockModel.made in H. destruct (ok (SockModel.a_al a)); cbn [negb] in H; injection H; intros; subst; auto. left. auto. Qed.
Lemma listen_codes : forall a name w e p w', fair (SockModel.a_al a) -> SockModel.from_listen_address a name w = (e, p, w') -> fair e \/ In e (extra psock_create_from_listen_address).
Proof.
  intros a name w e p w' F H. unfold SockModel.from_listen_address in H. cbv zeta in H.
  destruct (SockModel.a_fd a <? 0); [injection H; intros; subst; cbn; auto 9|].
  destruct (SockModel.a_bind a <? 0); [injection H; intros; subst; destruct (SockModel.a_close a <? 0); cbn; auto 9|].
  destruct (SockModel.a_listen a <? 0); [injection H; intros; subst; destruct (SockModel.a_close a <? 0); cbn; auto 9|].
  unfold SockModel.from_descriptor in H.
  match type of H with (let '(_, _) := ?m in _) = _ => destruct m as [[e1 p1] w1] eqn:M end. apply methods_fair in M; auto.
  destruct (negb (ok e1)); injection H; intros; subst; [|left; left; reflexivity].
  destruct (SockModel.a_close a <? 0); cbn; auto 9.
Qed.
Lemma uuid_steps_codes : forall d s e d', UuidModel.uuid_parse_string d s = Some (e, d') -> e = STATUS_SUCCESS \/ e = ERROR_UUID_PARSING_FAILED.
Proof. intros d s e d' H. unfold UuidModel.uuid_parse_string in H. steps; auto. Qed.
Lemma uuid_raw_codes : forall d s n e d', UuidModel.uuid_parse_raw_string d s n = Some (e, d') -> e = STATUS_SUCCESS \/ e = ERROR_UUID_PARSING_FAILED.
Proof. intros d s n e d' H. unfold UuidModel.uuid_parse_raw_string in H. steps; auto. Qed.

(** ** The whole table *)
Definition possible (f : fn) (e : Z) : Prop :=
  (e = STATUS_SUCCESS /\ hopeless f = false) \/ (In e (documented f) /\ ~ In e (absent f)) \/ In e (extra f).
Lemma yes : forall f, hopeless f = false -> possible f STATUS_SUCCESS.
Proof. intros f H. left. auto. Qed.
Lemma doc : forall f e, absent f = [] -> In e (documented f) -> possible f e.
Proof. intros f e A H. right. left. rewrite A. auto. Qed.
Lemma plain : forall f e, hopeless f = false -> documented f = [OOM] -> absent f = [] -> fair e -> possible f e.
Proof. intros f e A B C [->| ->]; [apply yes; auto|]. apply doc; auto. rewrite B. left. auto. Qed.
Lemma codes : forall f e, returns f e -> possible f e.
Proof.
  intros f e R. destruct R.
  - apply plain; auto. unfold AllocModel.bump_create in H. steps; unfold fair; auto.
  - apply plain; auto. unfold AllocModel.bump_allocate in H. cbv zeta in H. steps; unfold fair; auto.
  - apply plain; auto. unfold AllocModel.malloc_allocate in H. steps; unfold fair; auto.
  - unfold AllocModel.bump_reclaim in H. steps. apply yes. auto.
  - unfold AllocModel.malloc_reclaim in H. steps; apply yes; auto.
  - unfold AllocModel.bump_reallocate in H. steps. right. right. cbn. auto.
  - apply plain; auto. unfold AllocModel.malloc_reallocate in H. steps; unfold fair; auto.
  - unfold AllocModel.bump_control in H. steps; [apply yes; auto|]. apply doc; cbn; auto.
  - apply doc; cbn; auto.
  - apply plain; auto. unfold BigintModel.bigint_create_zero in H0. cbv zeta in H0. steps; auto; left; auto.
  - apply plain; auto. unfold BigintModel.bigint_clone in H0. cbv zeta in H0. steps; auto; left; auto.
  - apply plain; auto. unfold ListModel.list_create in H0. cbv zeta in H0. destruct H. steps; auto; left; auto.
  - apply plain; auto. eapply slist_insert_head_fair; eauto.
  - apply plain; auto. eapply slist_append_tail_fair; eauto.
  - apply plain; auto. eapply slist_append_fair; eauto.
  - apply slist_pop_fair in H0; auto. subst. apply yes. auto.
  - apply slist_next_pop_fair in H0; auto. subst. apply yes. auto.
  - apply plain; auto. eapply list_insert_head_fair; eauto.
  - apply plain; auto. eapply list_append_tail_fair; eauto.
  - apply plain; auto. eapply list_append_fair; eauto.
  - apply plain; auto. eapply list_insert_fair; eauto.
  - apply list_pop_fair in H0; auto. subst. apply yes. auto.
  - apply plain; auto. unfold ListModel.queue_create, ListModel.list_create in H1. destruct H0 as (F & _). change (negb (ok STATUS_SUCCESS)) with false in H1.
    destruct (negb (ok al)); [injection H1; intros; subst; auto|]. cbv zeta in H1.
    destruct (negb (ok (ListModel.e_alloc v))); injection H1; intros; subst; auto. left. auto.
  - apply plain; auto. unfold ListModel.queue_append in H0. steps. eapply slist_append_tail_fair; eauto.
  - apply plain; auto. unfold ListModel.queue_insert in H0. steps. eapply slist_insert_head_fair; eauto.
  - unfold ListModel.queue_pop in H0. steps. apply slist_pop_fair in H0; auto. subst. apply yes. auto.
  - apply plain; auto. unfold RbModel.rbtree_create in H0. destruct (negb (ok (RbModel.re_alloc v))); injection H0; intros; subst; unfold fair; auto.
  - apply plain; auto. unfold RbModel.rbtree_insert in H0. destruct H as (F & _). steps; auto. left. auto.
  - unfold RbModel.rbtree_find in H. steps; [|apply yes; auto].
    match goal with K : RbModel.find_node _ _ _ _ = Some _ |- _ => apply find_node_codes in K as [->| ->] end; [apply yes; auto|apply doc; cbn; auto].
  - unfold RbModel.rbtree_delete in H0. steps.
    + match goal with K : RbModel.find_node _ _ _ _ = Some _ |- _ => apply find_node_codes in K as [->| ->] end; [apply yes; auto|apply doc; cbn; auto].
    + apply delete_node_fair in H0; auto. subst. apply yes. auto.
  - apply delete_node_fair in H0; auto. subst. apply yes. auto.
  - apply plain; auto. eapply stack_fair; eauto.
  - apply plain; auto. eapply fiber_fair; eauto.
  - apply plain; auto. eapply fiber_thread_fair; eauto.
  - apply plain; auto. eapply disc_create_fair; eauto.
  - apply disc_add_codes in H0; auto. destruct H0 as [[->| ->]|[->| ->]]; [apply yes; auto| | |right; right; cbn; auto].
    + right. left. split; [cbn; auto|]. intros [K|[]]. discriminate K.
    + right. left. split; [cbn; auto|]. intros [K|[]]. discriminate K.
  - unfold SchedModel.discipline_find in H. steps; [apply yes; auto|]. apply doc; cbn; auto.
  - unfold ThreadModel.thread_create. repeat match goal with |- context [negb ?x] => destruct x; cbn [negb ct_status] end; try (apply yes; reflexivity);
    try (right; right; cbn; auto; fail); apply doc; cbn; auto.
  - unfold ThreadModel.mutex_create. repeat match goal with |- context [negb ?x] => destruct x; cbn [negb ct_status] end; try (apply yes; reflexivity);
    try (right; right; cbn; auto; fail); apply doc; cbn; auto.
  - unfold ThreadModel.cond_create. repeat match goal with |- context [negb ?x] => destruct x; cbn [negb ct_status] end; try (apply yes; reflexivity);
    try (right; right; cbn; auto; fail); apply doc; cbn; auto.
  - cbn [ThreadModel.tstep] in H. steps. all: injection H; intros; subst; try (apply yes; reflexivity); right; right; cbn; auto.
  - cbn [ThreadModel.tstep] in H. unfold ThreadModel.call in H. steps. all: injection H; intros; subst; try (apply yes; reflexivity); right; right; cbn; auto.
  - cbn [ThreadModel.tstep] in H. steps. all: injection H; intros; subst; apply yes; reflexivity.
  - apply plain; auto. apply buffer_fair; auto.
  - apply plain; auto. eapply methods_fair; eauto.
  - apply plain; auto. apply br_fair; auto.
  - apply listen_codes in H0; auto. destruct H0; [apply plain; auto|right; right; auto].
  - unfold StringModel.split in H. steps; cbn; [apply doc; cbn; auto|apply yes; auto].
  - apply plain; auto. unfold UuidModel.uuid_to_string in H0. steps; unfold fair; cbn; auto.
  - apply uuid_steps_codes in H as [->| ->]; [apply yes; auto|apply doc; cbn; auto].
  - apply uuid_raw_codes in H as [->| ->]; [apply yes; auto|apply doc; cbn; auto].
Qed.

(** ** Each of these codes is returned *)
Definition lenv (e : Z) := ListModel.Env e 20 21 (fun _ => 0) (fun _ => 0) (fun _ => 0).
Definition lworld := ListModel.World [(10, ListModel.Node 1 0 11 100); (11, ListModel.Node 1 10 0 101)] [(1, ListModel.Hdr 10 11 2)] [].
Definition renv e := RbModel.REnv e 30 1 2 (fun _ => 0) (fun _ => 0) (fun _ => 0).
Definition rord := RbModel.Order (fun r => r) (fun a b => if a <? b then -1 else if a =? b then 0 else 1).
Definition rworld := match RbModel.rbtree_create (renv 0) (RbModel.RW [] [] []) with (_, _, w) => w end.
Definition rworld1 := match RbModel.rbtree_insert rord (renv 0) rworld 1 7 with Some (_, w) => w | None => rworld end.
Definition oenv (f : nat -> Z) := OwnModel.ME f (fun l => 1 + fold_right Z.max 0 l) 50.
Definition first (e : Z) (k : nat) : Z := match k with O => e | _ => 0 end.
Definition ostart := OwnModel.MS [] 0.
Definition sans (fd bi li cl al : Z) := SockModel.An fd 9 bi li 0 cl None None None 0 0 al (fun _ => 1) (fun _ => 0) 0 0 [].
Definition sworld := SockModel.W (fun _ => None) [] [].
Definition omade := match OwnModel.scheduler_create (oenv (first 0)) ostart with Some ((_, p), s) => (p, s) | None => (0, ostart) end.
Definition odisc id := match OwnModel.disc_create (oenv (first 0)) id (snd omade) with Some ((_, d), s) => (d, s) | None => (0, ostart) end.
Definition oadded := match OwnModel.disc_add (oenv (first 0)) (fst omade) (fst (odisc 77)) (snd (odisc 77)) with Some (_, s) => s | None => ostart end.
Definition oagain := match OwnModel.disc_create (oenv (first 0)) 77 oadded with Some ((_, d), s) => (d, s) | None => (0, ostart) end.
Definition at_ (n : nat) (k : nat) : Z := if (k =? n)%nat then OOM else 0.
Definition bheap := [(5, BigintModel.BStruct false 1 6); (6, BigintModel.BLimbs [3])].
Definition skw := SchedModel.SW ([] : heap SchedModel.fiber) tt (SchedModel.Reg [(1, 50)] [] [] []) [] 0 0 0 0 [] [] tt.
Definition twm := ThreadModel.set_mu (ThreadModel.upd (fun _ => None) 200 (Some (Some 1))) (ThreadModel.set_co (ThreadModel.upd (fun _ => None) 300 (Some true)) ThreadModel.tw0).
Definition twl := ThreadModel.set_pend [(1, ThreadModel.PdLock 200)] (ThreadModel.set_mu (ThreadModel.upd (fun _ => None) 200 (Some (Some 0))) ThreadModel.tw0).
Definition twb := ThreadModel.set_pend [(1, ThreadModel.PdBack 200)] (ThreadModel.set_mu (ThreadModel.upd (fun _ => None) 200 (Some (Some 0))) ThreadModel.tw0).
Definition uuid_text := [54;98;97;55;98;56;49;48;45;57;68;65;68;45;49;49;100;49;45;56;48;98;52;45;48;48;99;48;52;102;100;52;51;48;99;56;0].
Lemma lenv_fair : forall e, fair e -> fair_list (lenv e).
Proof. intros e H. split; [exact H|]. split; intros; reflexivity. Qed.
Lemma renv_fair : forall e, fair e -> fair_tree (renv e).
Proof. intros e H. split; [exact H|]. split; intros; reflexivity. Qed.
Lemma first_fair : forall e, fair e -> fairs (first e).
Proof. intros e H [|k]; [exact H|left; reflexivity]. Qed.
Lemma fair0 : fair 0. Proof. left. reflexivity. Qed.
Lemma fairO : fair OOM. Proof. right. reflexivity. Qed.
Lemma at_fair : forall n, fairs (at_ n).
Proof. intros n k. unfold at_. destruct (k =? n)%nat; [exact fairO|exact fair0]. Qed.
Ltac fairly := match goal with
  | |- fair_list (lenv 0) => exact (lenv_fair _ fair0)
  | |- fair_list (lenv _) => exact (lenv_fair _ fairO)
  | |- fair_tree (renv 0) => exact (renv_fair _ fair0)
  | |- fair_tree (renv _) => exact (renv_fair _ fairO)
  | |- fairs (first 0) => exact (first_fair _ fair0)
  | |- fairs (first _) => exact (first_fair _ fairO)
  | |- fairs (OwnModel.e_al (oenv (at_ _))) => exact (at_fair _)
  | |- fairs (OwnModel.e_al (oenv (first _))) => exact (first_fair _ fair0)
  | |- fair 0 => exact fair0
  | |- fair OOM => exact fairO
  | |- fair (SockModel.a_al _) => first [exact fair0 | exact fairO]
  | |- _ => vm_compute; reflexivity
  end.
Ltac via t := eapply t; fairly.

Lemma back : forall f e, possible f e -> returns f e.
Proof.
  intros f e. unfold possible. destruct f; cbn [documented absent extra hopeless In]; intros K;
  repeat match goal with
  | K : _ \/ _ |- _ => destruct K as [K|K]
  | K : _ /\ _ |- _ => destruct K as [K ?]
  | K : False |- _ => destruct K
  | K : true = false |- _ => discriminate K
  end; subst.
  - via (r_bump_create 0 4096).
  - via (r_bump_create 0 0).
  - via (r_bump_allocate (AllocModel.Bump true 0 32 4096) 8).
  - via (r_bump_allocate (AllocModel.Bump true 0 32 4096) 8192).
  - via (r_malloc_allocate (AllocModel.LOk 8 (fun _ => 0)) [] 2).
  - via (r_malloc_allocate AllocModel.LFail [] 2).
  - via (r_bump_reclaim (AllocModel.Bump true 0 32 4096) 48).
  - via (r_malloc_reclaim [(8, [1])] 8).
  - exfalso. auto.
  - via (r_bump_reallocate (AllocModel.Bump true 0 32 4096) 48 9).
  - via (r_malloc_reallocate (AllocModel.LOk 9 (fun _ => 0)) [(8, [1])] 8 2).
  - via (r_malloc_reallocate AllocModel.LFail [(8, [1])] 8 2).
  - via (r_bump_control (AllocModel.Bump true 0 32 4096) AllocModel.CONTROL_BUMP_RESET).
  - via (r_bump_control (AllocModel.Bump true 0 32 4096) (AllocModel.CONTROL_BUMP_RESET + 1)).
  - exact (r_malloc_control 0).
  - via (r_bigint_zero (fun l => 1 + fold_right Z.max 0 l) (first (0)) bheap 64).
  - via (r_bigint_zero (fun l => 1 + fold_right Z.max 0 l) (first (OOM)) bheap 64).
  - via (r_bigint_clone (fun l => 1 + fold_right Z.max 0 l) (first (0)) bheap 5).
  - via (r_bigint_clone (fun l => 1 + fold_right Z.max 0 l) (first (OOM)) bheap 5).
  - via (r_slist_create (lenv (0)) lworld).
  - via (r_slist_create (lenv (OOM)) lworld).
  - via (r_slist_insert_head (lenv (0)) lworld 1 102).
  - via (r_slist_insert_head (lenv (OOM)) lworld 1 102).
  - via (r_slist_append_tail (lenv (0)) lworld 1 102).
  - via (r_slist_append_tail (lenv (OOM)) lworld 1 102).
  - via (r_slist_append (lenv (0)) lworld 10 102).
  - via (r_slist_append (lenv (OOM)) lworld 10 102).
  - via (r_slist_pop (lenv 0) lworld 1).
  - via (r_slist_next_pop (lenv 0) lworld 10).
  - via (r_list_insert_head (lenv (0)) lworld 1 102).
  - via (r_list_insert_head (lenv (OOM)) lworld 1 102).
  - via (r_list_append_tail (lenv (0)) lworld 1 102).
  - via (r_list_append_tail (lenv (OOM)) lworld 1 102).
  - via (r_list_append (lenv (0)) lworld 10 102).
  - via (r_list_append (lenv (OOM)) lworld 10 102).
  - via (r_list_insert (lenv (0)) lworld 11 102).
  - via (r_list_insert (lenv (OOM)) lworld 11 102).
  - via (r_list_pop (lenv 0) lworld 1).
  - via (r_queue_create (0) (lenv 0) [] lworld).
  - via (r_queue_create (OOM) (lenv 0) [] lworld).
  - via (r_queue_append (lenv (0)) [(3, 1)] lworld 3 102).
  - via (r_queue_append (lenv (OOM)) [(3, 1)] lworld 3 102).
  - via (r_queue_insert (lenv (0)) [(3, 1)] lworld 3 102).
  - via (r_queue_insert (lenv (OOM)) [(3, 1)] lworld 3 102).
  - via (r_queue_pop (lenv 0) [(3, 1)] lworld 3).
  - via (r_rbtree_create (renv (0)) (RbModel.RW [] [] [])).
  - via (r_rbtree_create (renv (OOM)) (RbModel.RW [] [] [])).
  - via (r_rbtree_insert rord (renv (0)) rworld 1 7).
  - via (r_rbtree_insert rord (renv (OOM)) rworld 1 7).
  - via (r_rbtree_find rord rworld1 1 7).
  - via (r_rbtree_find rord rworld1 1 8).
  - via (r_rbtree_delete rord (renv 0) true rworld1 1 7).
  - via (r_rbtree_delete rord (renv 0) true rworld1 1 8).
  - via (r_rbtree_delete_node (renv 0) true rworld1 1 30).
  - via (r_stack (oenv (first (0))) ostart).
  - via (r_stack (oenv (first (OOM))) ostart).
  - via (r_fiber (oenv (first (0))) ostart).
  - via (r_fiber (oenv (first (OOM))) ostart).
  - via (r_fiber_thread (oenv (first (0))) ostart).
  - via (r_fiber_thread (oenv (first (OOM))) ostart).
  - via (r_disc_create (oenv (first (0))) 77 ostart).
  - via (r_disc_create (oenv (first (OOM))) 77 ostart).
  - via (r_disc_add (oenv (first 0)) (fst omade) (fst (odisc 77)) (snd (odisc 77))).
  - via (r_disc_add (oenv (at_ (OwnModel.m_n (snd (odisc 77))))) (fst omade) (fst (odisc 77)) (snd (odisc 77))).
  - via (r_disc_add (oenv (first 0)) (fst omade) (fst oagain) (snd oagain)).
  - exfalso. auto.
  - via (r_disc_add (oenv (first 0)) (fst omade) (fst (odisc 77)) oadded).
  - via (r_disc_find unit unit 1 skw).
  - via (r_disc_find unit unit 2 skw).
  - exact (r_thread 0 0 0 0 9 0 0).
  - exact (r_thread 0 0 1 0 9 0 0).
  - exact (r_thread 1 0 0 0 9 0 0).
  - exact (r_thread 0 1 0 0 9 0 0).
  - exact (r_thread 0 0 0 1 9 0 0).
  - exact (r_mutex 0 0).
  - exact (r_mutex 1 0).
  - exact (r_mutex 0 1).
  - exact (r_cond 0 0).
  - exact (r_cond 1 0).
  - exact (r_cond 0 1).
  - via (r_lock twl 1 0).
  - via (r_lock twl 1 1).
  - via (r_waited twb 1).
  - via (r_wait twm 1 200 300 1).
  - exact (r_from_buffer (first (0)) (fun _ => 0) (fun _ => 0) None (first_fair _ fair0) (fun _ => eq_refl)).
  - exact (r_from_buffer (first (OOM)) (fun _ => 0) (fun _ => 0) None (first_fair _ fairO) (fun _ => eq_refl)).
  - via (r_from_methods (sans 3 0 0 0 (0)) 77 (SockModel.VT (fun _ => 0) 0) sworld).
  - via (r_from_methods (sans 3 0 0 0 (OOM)) 77 (SockModel.VT (fun _ => 0) 0) sworld).
  - exact (r_br_create unit (first (0)) (fun _ => 0) (fun _ => 0) tt (first_fair _ fair0) (fun _ => eq_refl)).
  - exact (r_br_create unit (first (OOM)) (fun _ => 0) (fun _ => 0) tt (first_fair _ fairO) (fun _ => eq_refl)).
  - via (r_listen (sans 3 0 0 0 0) 5 sworld).
  - via (r_listen (sans 3 0 0 0 OOM) 5 sworld).
  - via (r_listen (sans (-1) 0 0 0 0) 5 sworld).
  - via (r_listen (sans 3 (-1) 0 0 0) 5 sworld).
  - via (r_listen (sans 3 0 (-1) 0 0) 5 sworld).
  - via (r_listen (sans 3 (-1) 0 (-1) 0) 5 sworld).
  - exact (r_split [65; 32; 66; 0] 0 32 _ eq_refl).
  - exact (r_split [65; 66; 0] 0 32 _ eq_refl).
  - exact (r_uuid_string (0) (fun _ => 0) (repeat 0 16) _ fair0 eq_refl).
  - exact (r_uuid_string (OOM) (fun _ => 0) (repeat 0 16) _ fairO eq_refl).
  - via (r_uuid_parse (repeat 0 16) (Some (uuid_text, 0%nat))).
  - via (r_uuid_parse (repeat 0 16) None).
  - via (r_uuid_raw (repeat 0 16) (Some (uuid_text, 0%nat)) 36).
  - via (r_uuid_raw (repeat 0 16) (Some (uuid_text, 0%nat)) 35).
Qed.
