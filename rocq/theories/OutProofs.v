(** Proofs about the caller's variable after a failure. *)
From Verif Require Import Base Status Heap MemModel OutModel OutSpec.
From Verif Require AllocModel BigintModel ListModel RbModel OwnModel ThreadModel BrModel SockModel StringModel UuidModel UsrModel DocProofs.

Definition after (f : fn) (b : Z) : Z := if stores_null f then 0 else b.
Ltac no := match goal with F : failed STATUS_SUCCESS |- _ => destruct (F eq_refl) end.
Ltac step := match goal with
  | H : None = Some _ |- _ => discriminate H
  | H : Some _ = Some _ |- _ => injection H; clear H; intros; subst
  | H : (_, _) = (_, _) |- _ => injection H; clear H; intros; subst
  | H : (if ?x then _ else _) = _ |- _ => destruct x eqn:?; try discriminate H
  | H : (match ?x with _ => _ end) = _ |- _ => destruct x eqn:?; try discriminate H
  | H : (let _ := _ in _) = _ |- _ => cbv zeta in H
  end.
Ltac steps := repeat step.
(** ** OwnModel: nothing is stored on failure *)
Definition bare (m : OwnModel.mem (Z * Z)) : Prop := forall s e p s', m s = Some ((e, p), s') -> failed e -> p = 0.
Lemma bare_ret : forall e, bare (OwnModel.mret (e, 0)).
Proof. intros e s e' p s' H F. injection H. auto. Qed.
Lemma bare_yes : forall p, bare (OwnModel.mret (STATUS_SUCCESS, p)).
Proof. intros p s e' p' s' H F. injection H; intros; subst. no. Qed.
Lemma bare_undef : bare OwnModel.undef.
Proof. intros s e p s' H. discriminate H. Qed.
Lemma bare_bind : forall A (m : OwnModel.mem A) g, (forall x, bare (g x)) -> bare (OwnModel.mbind m g).
Proof. intros A m g G s e p s' H F. unfold OwnModel.mbind in H. destruct (m s) as [[x s1]|]; [|discriminate H]. exact (G x _ _ _ _ H F). Qed.
Ltac bared := repeat (cbv zeta; cbv beta; match goal with
  | |- forall x, bare _ => intros ?
  | |- bare (OwnModel.mbind _ _) => apply bare_bind
  | |- bare (OwnModel.mret (STATUS_SUCCESS, _)) => apply bare_yes
  | |- bare (OwnModel.mret (_, 0)) => apply bare_ret
  | |- bare OwnModel.undef => apply bare_undef
  | |- bare (if ?x then _ else _) => destruct x
  | |- bare (match ?x with _ => _ end) => destruct x
  end).
Lemma stack_bare : forall v, bare (OwnModel.stack_create v).
Proof. intros v. unfold OwnModel.stack_create. bared. Qed.
Lemma fiber_bare : forall v, bare (OwnModel.fiber_create v).
Proof. intros v. unfold OwnModel.fiber_create. bared. Qed.
Lemma disc_bare : forall v id, bare (OwnModel.disc_create v id).
Proof. intros v id. unfold OwnModel.disc_create. bared. Qed.
Lemma sched_bare : forall v, bare (OwnModel.scheduler_create v).
Proof. intros v. unfold OwnModel.scheduler_create. bared. Qed.
Lemma thread_fiber_bare : forall v, bare (OwnModel.fiber_for_thread v).
Proof.
  intros v s e p s' H F. unfold OwnModel.fiber_for_thread, OwnModel.mbind, OwnModel.alloc, OwnModel.mret in H.
  destruct (ok (OwnModel.e_al v (OwnModel.m_n s))) eqn:E; cbn beta iota zeta in H; rewrite E in H; injection H; intros; subst; auto.
  apply Z.eqb_eq in E. rewrite E in F. no.
Qed.
Lemma addr0 : forall p b, p = 0 -> addr_var p b = b.
Proof. intros p b ->. reflexivity. Qed.

(** ** Sockets *)
Lemma made_bare : forall a s w e p w', SockModel.made a s w = (e, p, w') -> failed e -> p = 0.
Proof. intros a s w e p w' H F. unfold SockModel.made in H. destruct (negb (ok (SockModel.a_al a))); injection H; intros; subst; auto. no. Qed.
Lemma connect_bare : forall a n w e p w', SockModel.from_hostname_and_port a n w = (e, p, w') -> failed e -> p = 0.
Proof.
  intros a n w e p w' H F. unfold SockModel.from_hostname_and_port in H. steps; auto; no.
Qed.
Lemma listen_bare : forall a n w e p w', SockModel.from_listen_address a n w = (e, p, w') -> failed e -> p = 0.
Proof. intros a n w e p w' H F. unfold SockModel.from_listen_address in H. steps; auto; no. Qed.
Lemma wrap_bare : forall a c w e p w', SockModel.wrap_async a c w = Some (e, p, w') -> failed e -> p = 0.
Proof. intros a c w e p w' H F. unfold SockModel.wrap_async in H. steps; auto; no. Qed.
Lemma buffer_bare : forall al rc junk s new b, failed (ct_status (create_from_buffer al rc junk s)) -> ctor_var (create_from_buffer al rc junk s) new b = b.
Proof.
  intros al rc junk s new b. unfold create_from_buffer, ctor_var. destruct (negb (ok (al 0%nat))); [reflexivity|]. cbv zeta.
  destruct s; (destruct (negb (ok (al 1%nat))); [destruct (mem_release _ _); reflexivity|]); [intros F; exfalso; apply F; reflexivity|].
  destruct (negb (ok (al 2%nat))); [destruct (mem_release _ _); reflexivity|]. intros F; exfalso; apply F; reflexivity.
Qed.
Lemma br_bare : forall (S : Type) al rc junk (s : S) new b, failed (ct_status (BrModel.br_create al rc junk s)) -> ctor_var (BrModel.br_create al rc junk s) new b = b.
Proof.
  intros S al rc junk s new b. unfold BrModel.br_create, ctor_var. destruct (negb (ok (al 0%nat))); [reflexivity|].
  destruct (negb (ok (al 1%nat))); [destruct (BrModel.br_release _ _); reflexivity|]. intros F; exfalso; apply F; reflexivity.
Qed.
(** ** Lists *)
Lemma finish_null : forall v w p c e r w', ListModel.pop_finish v w p c = Some (e, r, w') -> failed e -> r = 0.
Proof. intros v w p c e r w' H F. unfold ListModel.pop_finish in H. steps; auto. no. Qed.
Ltac pops := match goal with H : _ = Some _ |- _ => unfold ListModel.queue_pop in H; unfold ListModel.slist_pop, ListModel.list_pop, ListModel.slist_node_next_pop in H; steps; first [no | auto; eapply finish_null; eassumption] end.

(** ** All of them *)
Lemma leaves_after : forall f b a, leaves f b a -> a = after f b.
Proof.
  intros f b a L. destruct L; unfold after; cbn [stores_null].
  - unfold malloc_create in H. steps; auto; no.
  - unfold AllocModel.bump_create in H. steps; auto; no.
  - unfold AllocModel.malloc_allocate in H. steps; auto; no.
  - unfold AllocModel.bump_allocate in H. steps; auto; no.
  - unfold AllocModel.malloc_reallocate in H. steps; auto; no.
  - unfold AllocModel.bump_reallocate in H. steps; auto.
  - unfold BigintModel.bigint_create_zero in H. steps; auto; no.
  - unfold BigintModel.bigint_clone in H. steps; auto; no.
  - unfold ListModel.list_create in H. steps; auto; no.
  - unfold ListModel.list_create in H. steps; auto; no.
  - unfold ListModel.queue_create in H. steps; auto; no.
  - pops.
  - pops.
  - pops.
  - pops.
  - unfold RbModel.rbtree_create in H. steps; auto; no.
  - unfold RbModel.rbtree_find in H. steps; auto; no.
  - apply addr0. eapply stack_bare; eauto.
  - apply addr0. eapply fiber_bare; eauto.
  - apply addr0. eapply thread_fiber_bare; eauto.
  - unfold UsrModel.usr_create in H. steps; auto; no.
  - apply addr0. eapply sched_bare; eauto.
  - apply addr0. eapply disc_bare; eauto.
  - unfold ThreadModel.thread_create, ctor_var in *. repeat match goal with |- context [if negb ?x then _ else _] => destruct x; cbn [negb ct_obj ct_status] in * end; auto; no.
  - unfold ThreadModel.mutex_create, ctor_var in *. repeat match goal with |- context [if negb ?x then _ else _] => destruct x; cbn [negb ct_obj ct_status] in * end; auto; no.
  - unfold ThreadModel.cond_create, ctor_var in *. repeat match goal with |- context [if negb ?x then _ else _] => destruct x; cbn [negb ct_obj ct_status] in * end; auto; no.
  - cbn [ThreadModel.tstep] in H. steps. all: injection H; intros; subst; auto; no.
  - cbn [ThreadModel.tstep] in H. unfold ThreadModel.call in H. steps. all: injection H; intros; subst; auto; no.
  - apply addr0. eapply made_bare; eauto.
  - apply addr0. eapply wrap_bare; eauto.
  - apply addr0. eapply connect_bare; eauto.
  - apply addr0. eapply listen_bare; eauto.
  - apply buffer_bare. auto.
  - apply addr0. eapply made_bare; eauto.
  - apply br_bare. auto.
  - unfold UuidModel.uuid_to_string in H. steps; cbn in *; auto; no.
Qed.

(** ** Each of them can fail, whatever the variable holds *)
Import DocProofs.
Definition worst := ListModel.Env 1 20 21 (fun _ => 5) (fun _ => 6) (fun _ => 7).
Lemma live1 : forall (p : Z) c, AllocModel.cget [(p, c)] p = Some c.
Proof. intros p c. unfold AllocModel.cget. cbn. rewrite Z.eqb_refl. reflexivity. Qed.
Definition twait (b : Z) := ThreadModel.set_mu (fun x => if x =? b then Some (Some 1) else None) (ThreadModel.set_co (ThreadModel.upd (fun _ => None) 300 (Some true)) ThreadModel.tw0).
Ltac bad := match goal with
  | |- failed _ => vm_compute; discriminate
  | |- _ => vm_compute; reflexivity
  end.
Ltac by_ t := eexists; eapply t; bad.
Lemma fails_sometimes : forall f b, exists a, leaves f b a.
Proof.
  intros [] b.
  - by_ (l_malloc_create b AllocModel.LFail).
  - by_ (l_bump_create b 0 0).
  - by_ (l_malloc b AllocModel.LFail [] 2).
  - by_ (l_bump b (AllocModel.Bump true 0 32 4096) 8192).
  - exists b. eapply (l_remalloc b AllocModel.LFail [(b, [1])] 2 ERROR_GENERAL_OUT_OF_MEMORY b [(b, [1])]); [|vm_compute; discriminate]. unfold AllocModel.malloc_reallocate. rewrite live1. destruct (b =? 0); reflexivity.
  - eexists. eapply (l_rebump b (AllocModel.Bump true 0 32 4096) 9); [reflexivity|vm_compute; discriminate].
  - by_ (l_zero b (fun l => 1 + fold_right Z.max 0 l) (first ERROR_GENERAL_OUT_OF_MEMORY) bheap 64).
  - by_ (l_clone b (fun l => 1 + fold_right Z.max 0 l) (at_ 1) bheap 5).
  - by_ (l_slist b worst lworld).
  - by_ (l_list b worst lworld).
  - by_ (l_queue b 0 0 worst [] lworld).
  - by_ (l_slist_pop b worst lworld 1).
  - by_ (l_next_pop b worst lworld 10).
  - by_ (l_list_pop b worst lworld 1).
  - by_ (l_queue_pop b worst [(3, 1)] lworld 3).
  - by_ (l_rbtree b (renv 1) (RbModel.RW [] [] [])).
  - by_ (l_find b rord rworld1 1 8).
  - by_ (l_stack b (oenv (at_ 1)) ostart).
  - by_ (l_fiber b (oenv (at_ 2)) ostart).
  - by_ (l_fiber_thread b (oenv (at_ 0)) ostart).
  - by_ (l_usr b Z (fun _ c _ _ _ => UsrModel.Ans 5 None None None None [] c) 0 0 1 2 0 0 0 0 (UsrModel.W [] [] 0 [])).
  - by_ (l_sched b (oenv (at_ 10)) ostart).
  - by_ (l_disc b (oenv (at_ 2)) 77 ostart).
  - eexists. apply (l_thread b 40 0 0 0 11 0 9 0 0). vm_compute; discriminate.
  - eexists. apply (l_mutex b 40 0 1 0). vm_compute; discriminate.
  - eexists. apply (l_cond b 40 0 1 0). vm_compute; discriminate.
  - by_ (l_lock b twl 1 22).
  - exists b. eapply (l_wait b (twait b) 1 300 22 (twait b) ERROR_THREAD_COND_WAIT (Some b)); [|vm_compute; discriminate].
    cbn -[Z.eqb]. rewrite Z.eqb_refl. reflexivity.
  - by_ (l_desc b (sans 3 0 0 0 ERROR_GENERAL_OUT_OF_MEMORY) 3 sworld).
  - by_ (l_wrap b (sans 3 0 0 0 ERROR_GENERAL_OUT_OF_MEMORY) 5 (SockModel.W (fun _ => None) [(5, SockModel.SDesc 3 1)] [])).
  - by_ (l_connect b (sans 3 0 0 0 ERROR_GENERAL_OUT_OF_MEMORY) 80 sworld).
  - by_ (l_listen b (sans 3 0 0 0 ERROR_GENERAL_OUT_OF_MEMORY) 80 sworld).
  - eexists. apply (l_buffer b 40 (at_ 2) (fun _ => 0) (fun _ => 0) None). vm_compute; discriminate.
  - by_ (l_methods b (sans 3 0 0 0 ERROR_GENERAL_OUT_OF_MEMORY) 77 (SockModel.VT (fun _ => 0) 0) sworld).
  - eexists. apply (l_br b 40 unit (first ERROR_GENERAL_OUT_OF_MEMORY) (fun _ => 0) (fun _ => 0) tt). vm_compute; discriminate.
  - by_ (l_uuid b 40 ERROR_GENERAL_OUT_OF_MEMORY (fun _ => 0) (repeat 0 16)).
Qed.
Lemma after_leaves : forall f b, leaves f b (after f b).
Proof. intros f b. destruct (fails_sometimes f b) as [a L]. pose proof (leaves_after _ _ _ L). subst. exact L. Qed.

(** ** UUIDs *)
(** A text that ends after its first byte, which is not the one in the UUID *)
Lemma uuid_changed : forall d, length d = 16%nat -> exists s d', UuidModel.uuid_parse_string d (Some (s, 0%nat)) = Some (ERROR_UUID_PARSING_FAILED, d') /\ d' <> d.
Proof.
  intros d L. destruct d as [|x d]; [discriminate L|].
  exists (if x =? 0 then [48; 49; 0] else [48; 48; 0]), ((if x =? 0 then 1 else 0) :: d).
  do 16 (destruct d as [|? d]; try discriminate L). destruct (Z.eqb_spec x 0) as [E|E]; (split; [vm_compute; reflexivity|intros K; injection K; intros; lia]).
Qed.

(** ** Reads *)
From Verif Require Import CodecModel.
Definition quiet_val {S V} (r : vres S V) : Prop := failed (v_status r) -> v_val r = None.
Lemma fixed_quiet : forall S V (o : sock_ops S) n (conv : list Z -> V) s, quiet_val (read_raw_fixed o n conv s).
Proof. intros S V o n conv s. unfold read_raw_fixed, quiet_val. repeat match goal with |- context [if ?x then _ else _] => destruct x end; cbn [v_status v_val]; auto. intros K. no. Qed.
Lemma boxed_quiet : forall S V (o : sock_ops S) tag (rdv : S -> vres S V) s, (forall s, quiet_val (rdv s)) -> quiet_val (read_boxed o tag rdv s).
Proof.
  intros S V o tag rdv s Q. unfold read_boxed, quiet_val. destruct (v_val _); [|reflexivity].
  match goal with |- context [if ?x then _ else _] => destruct x end; first [apply Q|reflexivity].
Qed.
Definition quiet_block {S} (r : bres S) : Prop := failed (b_status r) -> b_out r = None /\ b_live r = [].
Ltac blocks := repeat match goal with |- context [if ?x then _ else _] => destruct x | |- context [match ?x with _ => _ end] => destruct x end; cbn; auto; intros K; try no.
Lemma data_quiet : forall S (o : sock_ops S) ast rst junk s, quiet_block (read_boxed_data o ast rst junk s).
Proof.
  intros S o ast rst junk s. unfold read_boxed_data, quiet_block. destruct (v_val (read_raw_uint32 o s)); [|cbn; auto]. destruct (negb _); [cbn; auto|].
  cbv zeta. destruct (v_val (read_raw_uint32 o _)); [|cbn; auto]. destruct (negb _); [cbn; auto|]. destruct (negb _); [cbn; auto|].
  destruct (negb _); [cbn; auto|]. destruct (negb _); [cbn; auto|]. cbn. intros K. no.
Qed.
Lemma string_quiet : forall S (o : sock_ops S) ast rst junk s, quiet_block (read_boxed_string o ast rst junk s).
Proof.
  intros S o ast rst junk s. unfold read_boxed_string, quiet_block. destruct (v_val (read_raw_uint32 o s)); [|cbn; auto]. destruct (negb _); [cbn; auto|].
  cbv zeta. destruct (v_val (read_raw_uint32 o _)); [|cbn; auto]. destruct (z0 =? 2 ^ 32 - 1); [cbn; auto|]. destruct (negb _); [cbn; auto|]. destruct (negb _); [cbn; auto|].
  destruct (negb _); [cbn; auto|]. destruct (negb _); [cbn; auto|]. cbn [b_status]. intros K. no.
Qed.
Lemma raw_quiet : forall S (o : sock_ops S) ast rst junk n s r, read_raw_data o ast rst junk n s = Some r -> quiet_block r.
Proof.
  intros S o ast rst junk n s r H. unfold read_raw_data in H. destruct (negb _); [injection H; intros; subst; unfold quiet_block; cbn; auto|].
  destruct (negb _); [injection H; intros; subst; unfold quiet_block; cbn; auto|]. destruct (read_loop _ _ _ _ _) as [[[[st got] rest] s']|]; [|discriminate H].
  destruct (negb _); [injection H; intros; subst; unfold quiet_block; cbn; auto|]. destruct (negb _); [injection H; intros; subst; unfold quiet_block; cbn; auto|].
  injection H; intros; subst. unfold quiet_block. cbn [b_status]. intros K. no.
Qed.
