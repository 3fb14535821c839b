(** Proofs about red-black trees: representation, rotations, insertion, removal. *)
From Verif Require Import Base Status MemModel MemProofs Heap RbModel RbSpec.

(** ** Trees and contexts *)
Inductive tr := E | T (c : bool) (l : tr) (a v : Z) (r : tr).
Definition rp (nl : Z) (t : tr) : Z := match t with E => nl | T _ _ a _ _ => a end.
Fixpoint cells (nl p : Z) (t : tr) : list (Z * rnode) :=
  match t with
  | E => []
  | T c l a v r => cells nl a l ++ (a, RN p (rp nl l) (rp nl r) v c) :: cells nl a r
  end.
Fixpoint ns (t : tr) : list Z := match t with E => [] | T _ l a _ r => ns l ++ a :: ns r end.
Fixpoint items (t : tr) : list (Z * Z) := match t with E => [] | T _ l a v r => items l ++ (a, v) :: items r end.
(** A frame: the hole is the left child if [f_d]. *)
Record fr := F { f_d : bool; f_c : bool; f_a : Z; f_v : Z; f_s : tr }.
Definition fill (f : fr) (t : tr) : tr :=
  if f_d f then T (f_c f) t (f_a f) (f_v f) (f_s f) else T (f_c f) (f_s f) (f_a f) (f_v f) t.
Fixpoint plug (p : list fr) (t : tr) : tr := match p with [] => t | f :: q => plug q (fill f t) end.
Definition top (nl : Z) (p : list fr) : Z := match p with [] => nl | f :: _ => f_a f end.
Fixpoint pcells (nl : Z) (p : list fr) (x : Z) : list (Z * rnode) :=
  match p with
  | [] => []
  | f :: q =>
      (f_a f, RN (top nl q) (if f_d f then x else rp nl (f_s f)) (if f_d f then rp nl (f_s f) else x) (f_v f) (f_c f))
      :: cells nl (f_a f) (f_s f) ++ pcells nl q (f_a f)
  end.
Fixpoint pns (p : list fr) : list Z := match p with [] => [] | f :: q => f_a f :: ns (f_s f) ++ pns q end.
(** The root of the whole tree when the hole has root [x]. *)
Fixpoint prt (p : list fr) (x : Z) : Z := match p with [] => x | f :: q => prt q (f_a f) end.

Lemma cells_ns : forall nl t p, map fst (cells nl p t) = ns t.
Proof. induction t; intros; cbn [cells ns]; [reflexivity|]. rewrite map_app. cbn [map fst]. rewrite IHt1, IHt2. reflexivity. Qed.
Lemma items_ns : forall t, map fst (items t) = ns t.
Proof. induction t; cbn [items ns]; [reflexivity|]. rewrite map_app. cbn [map fst]. rewrite IHt1, IHt2. reflexivity. Qed.
Lemma pcells_ns : forall nl p x, map fst (pcells nl p x) = pns p.
Proof. induction p as [|f q IH]; intros; cbn [pcells pns]; [reflexivity|]. cbn [map fst]. rewrite map_app, cells_ns, IH. reflexivity. Qed.
Lemma rp_fill : forall nl f t, rp nl (fill f t) = f_a f.
Proof. intros nl [[] c a v s] t; reflexivity. Qed.
Lemma rp_plug : forall nl p t, rp nl (plug p t) = prt p (rp nl t).
Proof. induction p as [|f q IH]; intros; cbn [plug prt]; [reflexivity|]. rewrite IH, rp_fill. reflexivity. Qed.
Lemma plug_app : forall p q t, plug (p ++ q) t = plug q (plug p t).
Proof. induction p; intros; cbn; auto. Qed.

Definition holds (h : heap rnode) (cs : list (Z * rnode)) : Prop := Forall (fun c => hget h (fst c) = Some (snd c)) cs.
Lemma holds_app : forall h a b, holds h (a ++ b) <-> holds h a /\ holds h b.
Proof. intros. apply Forall_app. Qed.
Lemma holds_cons : forall h a n b, holds h ((a, n) :: b) <-> hget h a = Some n /\ holds h b.
Proof. intros. unfold holds. split; intros H; [inversion H; subst; auto|]. constructor; tauto. Qed.
Lemma cells_plug : forall nl h p t,
  holds h (cells nl nl (plug p t)) <-> holds h (pcells nl p (rp nl t)) /\ holds h (cells nl (top nl p) t).
Proof.
  induction p as [|f q IH]; intros; cbn [plug pcells top].
  - unfold holds at 2. intuition.
  - rewrite IH, rp_fill. destruct f as [[] c a v s]; unfold fill; cbn [f_d f_c f_a f_v f_s cells];
      rewrite holds_cons, !holds_app, holds_cons; tauto.
Qed.
(** ** Counting occurrences, to decide address equalities *)
Fixpoint cnt (x : Z) (l : list Z) : Z := match l with [] => 0 | a :: t => Z.b2z (a =? x) + cnt x t end.
Lemma cnt_app : forall x a b, cnt x (a ++ b) = cnt x a + cnt x b.
Proof. induction a; intros; cbn [cnt app]; [lia|]. rewrite IHa. lia. Qed.
Lemma cnt_cons : forall x a b, cnt x (a :: b) = Z.b2z (a =? x) + cnt x b.
Proof. reflexivity. Qed.
Lemma cnt_nonneg : forall x l, 0 <= cnt x l.
Proof. induction l; cbn [cnt]; [lia|]. destruct (a =? x); cbn [Z.b2z]; lia. Qed.
Lemma cnt_in : forall x l, In x l -> 1 <= cnt x l.
Proof.
  induction l; cbn [In cnt]; [tauto|]. pose proof (cnt_nonneg x l).
  intros [->|H']; [rewrite Z.eqb_refl; cbn [Z.b2z]; lia|]. specialize (IHl H'). destruct (a =? x); cbn [Z.b2z]; lia.
Qed.
Lemma cnt_notin : forall x l, cnt x l <= 0 -> ~ In x l.
Proof. intros x l H K. apply cnt_in in K. lia. Qed.
Lemma cnt_nodup : forall l, NoDup l <-> forall x, cnt x l <= 1.
Proof.
  induction l as [|a l IH]; split; intros H.
  - intros; cbn; lia.
  - constructor.
  - inversion H as [|? ? NI ND]; subst. intros x. cbn [cnt]. destruct (Z.eqb_spec a x); cbn [Z.b2z].
    + subst. destruct (Z_le_gt_dec (cnt x l) 0); [lia|]. exfalso. apply NI. clear - g.
      induction l; cbn [cnt] in g; [lia|]. destruct (Z.eqb_spec a x); [left; auto|right; apply IHl; cbn [Z.b2z] in g; lia].
    + apply IH with (x := x) in ND. lia.
  - constructor.
    + apply cnt_notin. specialize (H a). cbn [cnt] in H. rewrite Z.eqb_refl in H. cbn [Z.b2z] in H. lia.
    + apply IH. intros x. specialize (H x). cbn [cnt] in H. destruct (a =? x); cbn [Z.b2z] in H; lia.
Qed.
Lemma cnt_perm : forall x a b, Permutation a b -> cnt x a = cnt x b.
Proof. intros x a b P. induction P; cbn [cnt]; lia. Qed.
Lemma b2z_nonneg : forall b, 0 <= Z.b2z b. Proof. destruct b; cbn; lia. Qed.

Lemma perm_cnt : forall a b, (forall x, cnt x a = cnt x b) -> Permutation a b.
Proof.
  assert (Q : forall x l, cnt x l = Z.of_nat (count_occ Z.eq_dec l x)).
  { induction l as [|y l IH]; [reflexivity|]. cbn [cnt count_occ]. rewrite IH.
    destruct (Z.eq_dec y x), (Z.eqb_spec y x); subst; try contradiction; cbn [Z.b2z]; lia. }
  intros a b H. apply (Permutation_count_occ Z.eq_dec). intros x. specialize (H x). rewrite !Q in H. lia.
Qed.
Lemma cnt_plug : forall x p t, cnt x (ns (plug p t)) = cnt x (pns p) + cnt x (ns t).
Proof.
  induction p as [|f q IH]; intros; cbn [plug pns]; [cbn; lia|].
  rewrite IH. destruct f as [[] c a v s]; unfold fill; cbn [f_d f_c f_a f_v f_s ns];
    rewrite ?cnt_cons, ?cnt_app, ?cnt_cons; cbn [cnt]; lia.
Qed.
Lemma ns_plug : forall p t, Permutation (ns (plug p t)) (pns p ++ ns t).
Proof. intros. apply perm_cnt. intros. rewrite cnt_plug, cnt_app. lia. Qed.

(** The tactic: from [D : forall x, cnt x L <= 1], with [L] spelled out, prove [a <> b]
    or [~ In a l]. *)
Ltac cntsimpl H :=
  cbn [ns pns f_a f_s app top rp] in H;
  repeat (rewrite ?cnt_app in H; rewrite ?cnt_cons in H); rewrite ?Z.eqb_refl in H;
  change (Z.b2z true) with 1 in H;
  repeat match type of H with context [cnt ?x (@nil Z)] => change (cnt x (@nil Z)) with 0 in H end.
Ltac cntpos :=
  repeat match goal with
  | H : context [Z.b2z ?b] |- _ =>
      match goal with P : 0 <= Z.b2z b |- _ => fail 1 | _ => pose proof (b2z_nonneg b) end
  | H : context [cnt ?x ?l] |- _ =>
      match goal with P : 0 <= cnt x l |- _ => fail 1 | _ => pose proof (cnt_nonneg x l) end
  end.
Ltac nd D :=
  match goal with
  | |- ?a <> ?b => let I := fresh "I" in let K := fresh "K" in intros I; pose proof (D a) as K;
        rewrite <- I in K; cntsimpl K; clear I; clear - K; cntpos; lia
  | |- ~ In ?a ?l => let K := fresh "K" in apply cnt_notin; pose proof (D a) as K; cntsimpl K;
        cbn [ns pns f_a f_s app top rp];
        repeat (rewrite ?cnt_app; rewrite ?cnt_cons);
        clear - K; cntpos; lia
  end.
Example nd_test : forall x y (l m : tr) nl, (forall a, cnt a (nl :: ns (T true l x 0 E) ++ ns (T true E y 0 m)) <= 1) ->
  x <> y /\ y <> x /\ nl <> x /\ ~ In x (ns l) /\ ~ In x (ns (T true l y 0 m)) /\ ~ In nl (ns m).
Proof. intros x y l m nl D. repeat split; nd D. Qed.

(** ** Memory *)
Lemma cnt_zero : forall x l, ~ In x l -> cnt x l = 0.
Proof.
  induction l; cbn [In cnt]; intros H; [reflexivity|]. destruct (Z.eqb_spec a x); [exfalso; auto|].
  cbn [Z.b2z]. rewrite IHl; auto.
Qed.
Lemma lf_eq : forall w p n, hget (rw_nodes w) p = Some n -> lf w p = Some (r_left n).
Proof. intros. unfold lf. rewrite H. auto. Qed.
Lemma rg_eq : forall w p n, hget (rw_nodes w) p = Some n -> rg w p = Some (r_right n).
Proof. intros. unfold rg. rewrite H. auto. Qed.
Lemma pa_eq : forall w p n, hget (rw_nodes w) p = Some n -> pa w p = Some (r_parent n).
Proof. intros. unfold pa. rewrite H. auto. Qed.
Lemma va_eq : forall w p n, hget (rw_nodes w) p = Some n -> va w p = Some (r_value n).
Proof. intros. unfold va. rewrite H. auto. Qed.
Lemma co_eq : forall w p n, hget (rw_nodes w) p = Some n -> co w p = Some (r_red n).
Proof. intros. unfold co. rewrite H. auto. Qed.
Lemma setr_eq : forall w p n f, hget (rw_nodes w) p = Some n ->
  setr w p f = Some (RW (hset (rw_nodes w) p (f n)) (rw_trees w) (rw_rel w)).
Proof. intros. unfold setr. rewrite H. auto. Qed.
Lemma sett_eq : forall w p n f, hget (rw_trees w) p = Some n ->
  sett w p f = Some (RW (rw_nodes w) (hset (rw_trees w) p (f n)) (rw_rel w)).
Proof. intros. unfold sett. rewrite H. auto. Qed.
Lemma nil_eq : forall w p n, hget (rw_trees w) p = Some n -> nil_ w p = Some (t_nil n).
Proof. intros. unfold nil_. rewrite H. auto. Qed.
Lemma root_eq : forall w p n, hget (rw_trees w) p = Some n -> root w p = Some (t_root n).
Proof. intros. unfold root. rewrite H. auto. Qed.
Lemma eqb_no : forall x y : Z, x <> y -> (x =? y) = false.
Proof. intros. apply Z.eqb_neq. auto. Qed.
Ltac eqbs :=
  repeat match goal with
  | |- context [?x =? ?x] => rewrite (Z.eqb_refl x)
  | H : ?x <> ?y |- context [?x =? ?y] => rewrite (eqb_no x y H)
  | H : ?y <> ?x |- context [?x =? ?y] => rewrite (eqb_no x y (fun K => H (eq_sym K)))
  end.
Ltac hs := repeat (progress (cbn [rw_nodes rw_trees rw_rel r_parent r_left r_right r_value r_red t_root t_nil t_impl t_count
                        toP toL toR toV toC toRoot toCount rp f_d f_c f_a f_v f_s top fst snd negb andb orb];
                   rewrite ?hget_hset, ?hget_hadd; eqbs)).
Ltac known := hs; repeat match goal with H : hget _ _ = Some _ |- _ => rewrite H end; hs; reflexivity.
Ltac go1 :=
  match goal with
  | |- context [match lf ?w ?p with _ => _ end] => erewrite (lf_eq w p) by known
  | |- context [match rg ?w ?p with _ => _ end] => erewrite (rg_eq w p) by known
  | |- context [match pa ?w ?p with _ => _ end] => erewrite (pa_eq w p) by known
  | |- context [match va ?w ?p with _ => _ end] => erewrite (va_eq w p) by known
  | |- context [match co ?w ?p with _ => _ end] => erewrite (co_eq w p) by known
  | |- context [match setr ?w ?p ?f with _ => _ end] => erewrite (setr_eq w p _ f) by known
  | |- context [match sett ?w ?p ?f with _ => _ end] => erewrite (sett_eq w p _ f) by known
  | |- context [match nil_ ?w ?p with _ => _ end] => erewrite (nil_eq w p) by known
  | |- context [match root ?w ?p with _ => _ end] => erewrite (root_eq w p) by known
  | |- setr ?w ?p ?f = _ => erewrite (setr_eq w p _ f) by known
  end.
Ltac go := repeat (hs; go1); hs.

Lemma holds_hset : forall h cs a n, holds h cs -> cnt a (map fst cs) = 0 -> holds (hset h a n) cs.
Proof.
  unfold holds. intros h cs a n H Z0. rewrite Forall_forall in *. intros [b m] I. cbn [fst snd].
  rewrite hget_hset_other; [exact (H _ I)|]. intros ->. apply (in_map fst) in I. apply cnt_in in I. cbn [fst] in I. lia.
Qed.

Definition trep (w : rworld) (t nl im : Z) (T : tr) (n : Z) : Prop :=
  hget (rw_trees w) t = Some (RT (rp nl T) nl im n) /\ (forall x, cnt x (nl :: ns T) <= 1) /\
  holds (rw_nodes w) (cells nl nl T) /\ exists k, hget (rw_nodes w) nl = Some k /\ r_red k = false.
(** Nothing changed but the nodes in [L] and the header [t]. *)
Definition same (t : Z) (L : list Z) (w w' : rworld) : Prop :=
  (forall a, cnt a L = 0 -> hget (rw_nodes w') a = hget (rw_nodes w) a) /\ addrs (rw_nodes w') = addrs (rw_nodes w) /\
  (forall u, u <> t -> hget (rw_trees w') u = hget (rw_trees w) u) /\ addrs (rw_trees w') = addrs (rw_trees w) /\
  rw_rel w' = rw_rel w.
Lemma same_refl : forall t L w, same t L w w.
Proof. unfold same; intuition. Qed.
Lemma same_trans : forall t L a b c, same t L a b -> same t L b c -> same t L a c.
Proof.
  intros t L a b c (A1 & A2 & A3 & A4 & A5) (B1 & B2 & B3 & B4 & B5). repeat split; intros; try congruence.
  - rewrite B1, A1; auto.
  - rewrite B3, A3; auto.
Qed.
Lemma same_sub : forall t L M w w', same t L w w' -> (forall a, cnt a M = 0 -> cnt a L = 0) -> same t M w w'.
Proof. unfold same. intros t L M w w' (A1 & A2 & A3 & A4 & A5) H. repeat split; auto. Qed.
Lemma same_setr : forall t L w p f w', setr w p f = Some w' -> cnt p L <> 0 -> same t L w w'.
Proof.
  unfold setr. intros t L w p f w' H N. destruct (hget (rw_nodes w) p) eqn:G; [|discriminate]. inversion H; subst; clear H.
  repeat split; cbn [rw_nodes rw_trees rw_rel]; intros; rewrite ?hset_addrs; auto.
  apply hget_hset_other. intros ->. contradiction.
Qed.
Lemma same_sett : forall t L w f w', sett w t f = Some w' -> same t L w w'.
Proof.
  unfold sett. intros t L w f w' H. destruct (hget (rw_trees w) t) eqn:G; [|discriminate]. inversion H; subst; clear H.
  repeat split; cbn [rw_nodes rw_trees rw_rel]; intros; rewrite ?hset_addrs; auto.
  apply hget_hset_other. auto.
Qed.

Ltac cz := (* goals [cnt a l = 0] or [<= 0] from D *)
  match goal with D : forall x, cnt x _ <= 1 |- cnt ?a _ = 0 =>
    let K := fresh "K" in pose proof (D a) as K; cntsimpl K; rewrite ?cells_ns, ?pcells_ns;
    cbn [ns pns f_a f_s app top rp]; repeat (rewrite ?cnt_app; rewrite ?cnt_cons); 
    repeat match goal with |- context [cnt ?x (@nil Z)] => change (cnt x (@nil Z)) with 0 end;
    clear - K; cntpos; lia end.
Ltac frm := repeat (apply holds_hset; [|cz]); assumption.
Ltac hold := repeat first [apply holds_cons; split; [known|] | apply holds_app; split | frm | constructor].
Lemma all_ne : forall (D : Prop) (x y : Z), x <> y -> y <> x. Proof. auto. Qed.

(** The equalities of all pairs of explicit addresses. *)
Ltac ne D x y := lazymatch goal with | _ : x <> y |- _ => idtac | _ : y <> x |- _ => idtac | _ => assert (x <> y) by nd D end.

Lemma rp_ne : forall nl t x, x <> nl -> cnt x (ns t) = 0 -> x <> rp nl t.
Proof.
  intros nl [|c l a v r] x N C; cbn [rp]; auto. intros ->. cbn [ns] in C. rewrite cnt_app, cnt_cons, Z.eqb_refl in C.
  pose proof (cnt_nonneg a (ns l)). pose proof (cnt_nonneg a (ns r)). cbn [Z.b2z] in C. lia.
Qed.

Ltac off K := let I := fresh "I" in intros I; rewrite I in K; clear I; rewrite ?cnt_cons in K; rewrite ?cnt_plug in K; cntsimpl K; clear - K; cntpos; lia.
Ltac sames :=
  unfold same; cbn [rw_nodes rw_trees rw_rel]; split; [|rewrite ?hset_addrs; split; [reflexivity|split; [|split; reflexivity]]];
  [ let a := fresh "a" in let K := fresh "K" in intros a K; repeat (rewrite hget_hset_other by off K); reflexivity
  | let u := fresh "u" in let K := fresh "K" in intros u K; repeat (rewrite hget_hset_other by exact K); reflexivity ].
Ltac splitholds := repeat match goal with
  | H : holds _ (_ ++ _) |- _ => apply holds_app in H; destruct H
  | H : holds _ (_ :: _) |- _ => apply holds_cons in H; destruct H
  end.
Ltac rot C HC HT k :=
  split; [hs; rewrite ?HT; hs; reflexivity|];
  split; [let a := fresh "a" in intros a; specialize (HC a); rewrite cnt_cons in *; rewrite C; exact HC|];
  split; [|exists k; split; [known|assumption]]; apply cells_plug; cbn [cells pcells top rp]; split; hold.

Lemma left_rotate_spec : forall w t nl im p c al x vx d be y vy ga n,
  trep w t nl im (plug p (T c al x vx (T d be y vy ga))) n ->
  exists w', left_rotate w t x = Some w' /\ trep w' t nl im (plug p (T d (T c al x vx be) y vy ga)) n /\
    same t (ns (plug p (T c al x vx (T d be y vy ga)))) w w'.
Proof.
  intros w t nl im p c al x vx d be y vy ga n (HT & HC & HH & k & HK & HB).
  apply cells_plug in HH. destruct HH as [HP HF]. rewrite rp_plug in HT. cbn [rp] in *.
  assert (D : forall a, cnt a (nl :: pns p ++ ns (T c al x vx (T d be y vy ga))) <= 1).
  { intros a. specialize (HC a). rewrite cnt_cons, cnt_plug in HC. rewrite cnt_cons, cnt_app. lia. }
  assert (C : forall a, cnt a (ns (plug p (T d (T c al x vx be) y vy ga))) = cnt a (ns (plug p (T c al x vx (T d be y vy ga))))).
  { intros a. rewrite !cnt_plug. cbn [ns]. repeat (rewrite ?cnt_app; rewrite ?cnt_cons). lia. }
  cbn [cells] in HF. splitholds. cbn [rp] in *.
  ne D x y. ne D x nl. ne D y nl. unfold trep. rewrite rp_plug.
  destruct p as [|[d0 c0 q v0 s] p]; cbn [top pcells prt f_d f_c f_a f_v f_s] in *; splitholds.
  - destruct be as [|e bl b vb br]; cbn [cells] in *; splitholds.
    + eexists. split; [unfold left_rotate; go; reflexivity|]. split; [rot C HC HT k|sames].
    + ne D b x. ne D b y. ne D b nl.
      eexists. split; [unfold left_rotate; go; reflexivity|]. split; [rot C HC HT k|sames].
  - ne D q x. ne D q y. ne D q nl.
    assert (x <> rp nl s) by (apply rp_ne; [auto|cz]).
    destruct d0; (destruct be as [|e bl b vb br]; cbn [cells] in *; splitholds; [|ne D b x; ne D b y; ne D b nl; ne D b q]);
    (eexists; split; [unfold left_rotate; go; reflexivity|]; split; [rot C HC HT k|sames]).
Qed.

Lemma right_rotate_spec : forall w t nl im p c al x vx d be y vy ga n,
  trep w t nl im (plug p (T d (T c al x vx be) y vy ga)) n ->
  exists w', right_rotate w t y = Some w' /\ trep w' t nl im (plug p (T c al x vx (T d be y vy ga))) n /\
    same t (ns (plug p (T d (T c al x vx be) y vy ga))) w w'.
Proof.
  intros w t nl im p c al x vx d be y vy ga n (HT & HC & HH & k & HK & HB).
  apply cells_plug in HH. destruct HH as [HP HF]. rewrite rp_plug in HT. cbn [rp] in *.
  assert (D : forall a, cnt a (nl :: pns p ++ ns (T c al x vx (T d be y vy ga))) <= 1).
  { intros a. specialize (HC a). rewrite cnt_cons, cnt_plug in HC. rewrite cnt_cons, cnt_app. cbn [ns] in *.
    repeat (rewrite ?cnt_app in *; rewrite ?cnt_cons in * ). lia. }
  assert (C : forall a, cnt a (ns (plug p (T c al x vx (T d be y vy ga)))) = cnt a (ns (plug p (T d (T c al x vx be) y vy ga)))).
  { intros a. rewrite !cnt_plug. cbn [ns]. repeat (rewrite ?cnt_app; rewrite ?cnt_cons). lia. }
  cbn [cells] in HF. splitholds. cbn [rp] in *.
  ne D x y. ne D x nl. ne D y nl. unfold trep. rewrite rp_plug.
  destruct p as [|[d0 c0 q v0 s] p]; cbn [top pcells prt f_d f_c f_a f_v f_s] in *; splitholds.
  - destruct be as [|e bl b vb br]; cbn [cells] in *; splitholds.
    + eexists. split; [unfold right_rotate; go; reflexivity|]. split; [rot C HC HT k|sames].
    + ne D b x. ne D b y. ne D b nl.
      eexists. split; [unfold right_rotate; go; reflexivity|]. split; [rot C HC HT k|sames].
  - ne D q x. ne D q y. ne D q nl.
    assert (y <> rp nl s) by (apply rp_ne; [auto|cz]).
    destruct d0; (destruct be as [|e bl b vb br]; cbn [cells] in *; splitholds; [|ne D b x; ne D b y; ne D b nl; ne D b q]);
    (eexists; split; [unfold right_rotate; go; reflexivity|]; split; [rot C HC HT k|sames]).
Qed.
