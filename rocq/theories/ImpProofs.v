(** Proofs about the import macros. *)
From Coq Require Import String List Bool Ascii Arith Lia.
From Verif Require Import ImpModel ImpSpec ImpTable.
Import ListNotations.
Local Open Scope string_scope.

(* --- scopes --- *)
Lemma declare_keeps : forall id e s s' n d, declare id e s = Some s' -> lookup s n = Some d -> lookup s' n = Some d.
Proof.
  intros id e s s' n d H L. unfold declare in H.
  destruct (lookup s id) as [[|[t u|w]]|] eqn:E; try discriminate.
  - destruct e; try discriminate. destruct (String.eqb u t0); inversion H; subst; exact L.
  - inversion H; subst. cbn. destruct (String.eqb n id) eqn:Q; [apply String.eqb_eq in Q; subst; congruence|exact L].
Qed.
Lemma import1_keeps : forall p h s s' n d, import1 p h s = Some s' -> lookup s n = Some d -> lookup s' n = Some d.
Proof.
  intros p h; induction h as [|e h IH]; cbn; intros s s' n d H L; [inversion H; subst; exact L|].
  destruct (declare _ e s) as [s1|] eqn:E; [|discriminate].
  eapply IH; eauto using declare_keeps.
Qed.
Lemma imports_keeps : forall l s s' n d, imports l s = Some s' -> lookup s n = Some d -> lookup s' n = Some d.
Proof.
  intros l; induction l as [|[p h] l IH]; cbn; intros s s' n d H L; [inversion H; subst; exact L|].
  destruct (import1 p h s) as [s1|] eqn:E; [|discriminate].
  eapply IH; eauto using import1_keeps.
Qed.
Lemma import1_fun : forall p h s s' w, import1 p h s = Some s' -> In (DFun w) h ->
  lookup s' (ident p (w_name w)) = Some (Lib (DFun w)).
Proof.
  intros p h; induction h as [|e h IH]; cbn; intros s s' w H I; [contradiction|].
  destruct (declare _ e s) as [s1|] eqn:E; [|discriminate].
  destruct I as [->|I]; [|eauto].
  eapply import1_keeps; [exact H|]. unfold declare in E. cbn in E.
  destruct (lookup s _) as [[|[t u|w']]|]; try discriminate.
  inversion E; subst. cbn. now rewrite String.eqb_refl.
Qed.
Lemma imports_fun : forall l s s' p h w, imports l s = Some s' -> In (p, h) l -> In (DFun w) h ->
  lookup s' (ident p (w_name w)) = Some (Lib (DFun w)).
Proof.
  intros l; induction l as [|[p h] l IH]; cbn; intros s s' q k w H I J; [contradiction|].
  destruct (import1 p h s) as [s1|] eqn:E; [|discriminate].
  destruct I as [Q|I]; [|eauto]. inversion Q; subst.
  eapply imports_keeps; [exact H|]. eapply import1_fun; eauto.
Qed.
Lemma import1_type : forall p h s s' n t, import1 p h s = Some s' -> In (DType n t) h ->
  exists m, lookup s' (ident p n) = Some (Lib (DType m t)).
Proof.
  intros p h; induction h as [|e h IH]; cbn; intros s s' n t H I; [contradiction|].
  destruct (declare _ e s) as [s1|] eqn:E; [|discriminate].
  destruct I as [->|I]; [|eauto].
  unfold declare in E. cbn in E.
  destruct (lookup s (ident p n)) as [[|[m u|w']]|] eqn:L; try discriminate.
  - destruct (String.eqb u t) eqn:Q; [|discriminate]. apply String.eqb_eq in Q; subst.
    exists m. eapply import1_keeps; [exact H|]. inversion E; subst; exact L.
  - exists n. eapply import1_keeps; [exact H|]. inversion E; subst. cbn. now rewrite String.eqb_refl.
Qed.
Lemma imports_type : forall l s s' p h n t, imports l s = Some s' -> In (p, h) l -> In (DType n t) h ->
  exists m, lookup s' (ident p n) = Some (Lib (DType m t)).
Proof.
  intros l; induction l as [|[p h] l IH]; cbn; intros s s' q k n t H I J; [contradiction|].
  destruct (import1 p h s) as [s1|] eqn:E; [|discriminate].
  destruct I as [Q|I]; [|eauto]. inversion Q; subst.
  destruct (import1_type _ _ _ _ _ _ E J) as [m L]. exists m. eapply imports_keeps; eauto.
Qed.

(* --- one wrapper --- *)
Definition plain (x : string * string) : bool := negb (String.eqb (fst x) "...").
Fixpoint distinct (l : list string) : bool :=
  match l with [] => true | x :: l' => negb (existsb (String.eqb x) l') && distinct l' end.
Fixpoint same (a b : list string) : bool :=
  match a, b with [], [] => true | x :: a', y :: b' => String.eqb x y && same a' b' | _, _ => false end.
Lemma same_eq : forall a b, same a b = true -> a = b.
Proof.
  induction a as [|x a IH]; destruct b as [|y b]; cbn; intros H; try discriminate; [reflexivity|].
  apply andb_prop in H as [H1 H2]. apply String.eqb_eq in H1. f_equal; auto.
Qed.
Definition fixed (w : wrapper) : list (string * string) := removelast (w_params w).
Definition fits (w : wrapper) (p : proto) : bool :=
  match w_body w with
  | Call r f args =>
    String.eqb f (p_name p) && Bool.eqb r (has_value p) && same args (map snd (w_params w)) && distinct args &&
    forallb plain (w_params w) && forallb (fun t => negb (String.eqb t "...")) (p_types p) && Nat.eqb (length (p_types p)) (length (w_params w))
  | CallV last f args =>
    String.eqb f (va_form (p_name p)) && same args (map snd (fixed w)) && distinct args && forallb plain (fixed w) &&
    same (map fst (w_params w)) (map fst (fixed w) ++ ["..."]) &&
    match last_named (w_params w) with Some x => String.eqb x last | None => false end &&
    same (p_types p) (removelast (p_types p) ++ ["..."]) && Nat.eqb (length (p_types p)) (length (w_params w))
  | Other => false
  end.
Definition wrappers : list wrapper :=
  flat_map (fun h => flat_map (fun e => match e with DFun w => [w] | DType _ _ => [] end) (snd h)) headers.
Lemma wrappers_in : forall n h w, In (n, h) headers -> In (DFun w) h -> In w wrappers.
Proof.
  intros n h w I J. unfold wrappers. apply in_flat_map. exists (n, h). split; [exact I|].
  cbn. apply in_flat_map. exists (DFun w). cbn; auto.
Qed.
Lemma all_fit : forallb (fun p => forallb (fun w => negb (String.eqb (w_name w) (p_name p)) || fits w p) wrappers) prototypes = true.
Proof. vm_compute. reflexivity. Qed.
Lemma fit : forall p w, In p prototypes -> In w wrappers -> w_name w = p_name p -> fits w p = true.
Proof.
  intros p w I J E. pose proof all_fit as A. rewrite forallb_forall in A. specialize (A _ I).
  rewrite forallb_forall in A. specialize (A _ J). rewrite E, String.eqb_refl in A. exact A.
Qed.


Lemma bind_plain : forall V ps (vs : list V), forallb plain ps = true ->
  bind ps vs = if Nat.eqb (length ps) (length vs) then Some (combine (map snd ps) vs, []) else None.
Proof.
  intros V ps; induction ps as [|[t x] ps IH]; intros vs H.
  - destruct vs; reflexivity.
  - cbn in H. apply andb_prop in H as [H1 H2]. unfold plain in H1. cbn in H1. cbn [bind].
    destruct (String.eqb t "..."); [discriminate|]. destruct vs as [|v vs]; [reflexivity|].
    rewrite IH by exact H2. cbn [length Nat.eqb map combine snd]. now destruct (Nat.eqb _ _).
Qed.
Lemma bind_dots : forall V ps d (vs : list V), forallb plain ps = true ->
  bind (ps ++ [("...", d)]) vs =
  if Nat.leb (length ps) (length vs) then Some (combine (map snd ps) (firstn (length ps) vs), skipn (length ps) vs) else None.
Proof.
  intros V ps d; induction ps as [|[t x] ps IH]; intros vs H.
  - destruct vs; reflexivity.
  - cbn in H. apply andb_prop in H as [H1 H2]. unfold plain in H1. cbn in H1. cbn [bind app].
    destruct (String.eqb t "..."); [discriminate|]. destruct vs as [|v vs]; [reflexivity|].
    rewrite IH by exact H2. cbn [length Nat.leb map combine snd firstn skipn]. now destruct (Nat.leb _ _).
Qed.
Lemma evals_weak : forall V args b x (v : V), existsb (String.eqb x) args = false -> evals ((x, v) :: b) args = evals b args.
Proof.
  intros V args b x v; induction args as [|a args IH]; cbn; intros H; [reflexivity|].
  apply orb_false_elim in H as [H1 H2]. rewrite String.eqb_sym, H1, IH by exact H2. reflexivity.
Qed.
Lemma evals_all : forall V xs (vs : list V), distinct xs = true -> length xs = length vs ->
  evals (combine xs vs) xs = Some (map Val vs).
Proof.
  intros V xs; induction xs as [|x xs IH]; destruct vs as [|v vs]; intros D L; try discriminate; [reflexivity|].
  cbn in D. apply andb_prop in D as [D1 D2]. apply negb_true_iff in D1.
  cbn [combine evals]. rewrite evals_weak by exact D1. rewrite IH; auto.
  cbn. now rewrite String.eqb_refl.
Qed.
Lemma not_variadic : forall p, forallb (fun t => negb (String.eqb t "...")) (p_types p) = true -> ~ variadic p.
Proof.
  intros p H [ts E]. rewrite E, forallb_app in H. apply andb_prop in H as [_ H]. cbn in H. discriminate.
Qed.
Lemma split_dots : forall ps d, map fst ps = (map fst (removelast ps) ++ ["..."])%list -> ps <> [] ->
  snd (last ps ("", "")) = d -> ps = (removelast ps ++ [("...", d)])%list.
Proof.
  intros ps d E N L. pose proof (app_removelast_last ("", "") N) as A.
  destruct (last ps ("", "")) as [t x]. cbn in L. subst x.
  rewrite A in E at 1. rewrite map_app in E. apply app_inj_tail in E as [_ E]. cbn in E. subst t. exact A.
Qed.
Ltac splitands := repeat match goal with H : _ && _ = true |- _ => apply andb_prop in H as [? ?] end.
Lemma run_fits : forall V major minor w p (vs : list V), fits w p = true ->
  (accepts p (length vs) -> exists e, run major minor w vs = Some e /\ means major minor p vs e) /\
  (~ accepts p (length vs) -> run major minor w vs = None).
Proof.
  intros V major minor w p vs F. unfold fits in F. unfold run.
  destruct (w_body w) as [r f args|la f args|]; [| |discriminate]; splitands.
  - apply String.eqb_eq in H. apply Bool.eqb_prop in H5. apply same_eq in H4. apply Nat.eqb_eq in H0.
    pose proof (not_variadic _ H1) as NV. subst f r args.
    rewrite bind_plain by exact H2. destruct (Nat.eqb (length (w_params w)) (length vs)) eqn:E.
    + apply Nat.eqb_eq in E. rewrite evals_all; [|exact H3|rewrite map_length; exact E]. split.
      * intros _. eexists; split; [reflexivity|]. left. auto.
      * intros N. destruct N. left. split; [exact NV|lia].
    + apply Nat.eqb_neq in E. split; [|reflexivity].
      intros [[_ A]|[A _]]; [lia|contradiction].
  - rename H into HF. apply String.eqb_eq in HF. apply same_eq in H6. apply same_eq in H3. apply same_eq in H1.
    apply Nat.eqb_eq in H0. subst f args. unfold fixed in *.
    destruct (w_params w) as [|q ps0] eqn:EP; [discriminate H2|].
    assert (EW : (q :: ps0) = (removelast (q :: ps0) ++ [("...", snd (last (q :: ps0) ("", "")))])%list)
      by (apply split_dots; [exact H3|discriminate|reflexivity]).
    set (fx := removelast (q :: ps0)) in *. set (d := snd _) in EW.
    destruct (last_named (q :: ps0)) as [x|]; [|discriminate]. rewrite H2.
    rewrite EW in H0 |- *. rewrite bind_dots by exact H4.
    assert (VA : variadic p) by (exists (removelast (p_types p)); exact H1).
    assert (LE : length (p_types p) = S (length fx)) by (rewrite H0, app_length; cbn; lia).
    destruct (Nat.leb (length fx) (length vs)) eqn:E.
    + apply Nat.leb_le in E.
      rewrite evals_all; [|exact H5|rewrite map_length, firstn_length; lia].
      split.
      * intros _. eexists; split; [reflexivity|]. right.
        exists (removelast (p_types p)), (firstn (length fx) vs), (skipn (length fx) vs).
        split; [exact H1|]. split; [|split; [now rewrite firstn_skipn|reflexivity]].
        assert (length (p_types p) = S (length (removelast (p_types p)))) by (rewrite H1 at 1; rewrite app_length; cbn; lia).
        rewrite firstn_length. lia.
      * intros N. destruct N. right. split; [exact VA|lia].
    + apply Nat.leb_gt in E. split; [|reflexivity].
      intros [[NV _]|[_ A]]; [contradiction|lia].
Qed.

(* --- the table --- *)
Lemma reaches : forall V major minor l s0 s n h q p (vs : list V),
  imports l s0 = Some s -> In (q, h) l -> In (n, h) headers -> In p prototypes -> gives h (p_name p) ->
  (accepts p (length vs) -> exists e, call major minor s (ident q (p_name p)) vs = Some e /\ means major minor p vs e) /\
  (~ accepts p (length vs) -> call major minor s (ident q (p_name p)) vs = None).
Proof.
  intros V major minor l s0 s n h q p vs H I J P (w & W & E). unfold call.
  rewrite <- E. rewrite (imports_fun _ _ _ _ _ _ H I W).
  apply run_fits. apply fit; eauto using wrappers_in.
Qed.
Definition type_entries : list (string * string) :=
  flat_map (fun h => flat_map (fun e => match e with DType n t => [(n, t)] | DFun _ => [] end) (snd h)) headers.
Lemma all_types : forallb (fun x => String.eqb (fst x) (snd x)) type_entries = true.
Proof. vm_compute. reflexivity. Qed.
Lemma type_same : forall n h m t, In (n, h) headers -> In (DType m t) h -> m = t.
Proof.
  intros n h m t I J. pose proof all_types as A. rewrite forallb_forall in A.
  assert (K : In (m, t) type_entries).
  { unfold type_entries. apply in_flat_map. exists (n, h). split; [exact I|]. cbn. apply in_flat_map. exists (DType m t). cbn; auto. }
  specialize (A _ K). now apply String.eqb_eq in A.
Qed.
Lemma types_reach : forall major minor l s0 s n h q t,
  imports l s0 = Some s -> In (q, h) l -> In (n, h) headers -> gives_type h t ->
  type_of major minor s (ident q t) = Some (rcpr_sym major minor t).
Proof.
  intros major minor l s0 s n h q t H I J (u & T). unfold type_of.
  destruct (imports_type _ _ _ _ _ _ _ H I T) as [m ->]. now rewrite (type_same _ _ _ _ J T).
Qed.

(* --- strings --- *)
Lemma app_assoc_s : forall a b c : string, (a ++ b) ++ c = a ++ (b ++ c).
Proof. induction a as [|x a IH]; cbn; intros; [reflexivity|now rewrite IH]. Qed.
Lemma app_inj_s : forall a b c : string, a ++ b = a ++ c -> b = c.
Proof. induction a as [|x a IH]; cbn; intros b c H; [exact H|]. injection H; auto. Qed.
Lemma cut : forall p q n m, no_underscore p -> no_underscore q -> p ++ "_" ++ n = q ++ "_" ++ m -> p = q /\ n = m.
Proof.
  unfold no_underscore. induction p as [|c p IH]; intros [|d q] n m P Q E; cbn in *.
  - injection E; auto.
  - injection E as Ec _. subst d. discriminate Q.
  - injection E as Ec _. subst c. discriminate P.
  - injection E as Ec E. subst d. apply andb_prop in P as [_ P]. apply andb_prop in Q as [_ Q].
    destruct (IH q n m P Q E) as [-> ->]. auto.
Qed.
Lemma digits_plain : forall s, digits s -> no_underscore s.
Proof.
  unfold digits, no_underscore. induction s as [|c s IH]; cbn; intros H; [reflexivity|].
  apply andb_prop in H as [H1 H2]. rewrite IH by exact H2. rewrite andb_true_r.
  destruct (Ascii.eqb c "_") eqn:E; [|reflexivity]. apply Ascii.eqb_eq in E. subst c. discriminate H1.
Qed.
Lemma sym_inj : forall M m n M' m' n', digits M -> digits m -> digits M' -> digits m' ->
  rcpr_sym M m n = rcpr_sym M' m' n' -> M = M' /\ m = m' /\ n = n'.
Proof.
  intros M m n M' m' n' D1 D2 D3 D4 E. unfold rcpr_sym in E.
  apply app_inj_s in E. apply app_inj_s in E. apply app_inj_s in E. apply app_inj_s in E.
  unfold version_sym in E. rewrite !app_assoc_s in E. apply app_inj_s in E.
  apply cut in E as [-> E]; auto using digits_plain.
  apply cut in E as [-> ->]; auto using digits_plain.
Qed.
Lemma ident_inj : forall p n m, ident p n = ident p m -> n = m.
Proof. intros [p|] n m H; cbn in H; [|exact H]. apply app_inj_s in H. injection H; auto. Qed.

(* --- imports that do not clash --- *)
Definition idents (x : option string * list entry) : list string := map (fun e => ident (fst x) (entry_name e)) (snd x).
Lemma import1_ok : forall p h s, NoDup (idents (p, h)) -> (forall id, In id (idents (p, h)) -> lookup s id = None) ->
  exists s', import1 p h s = Some s' /\ forall id, lookup s id = None -> ~ In id (idents (p, h)) -> lookup s' id = None.
Proof.
  intros p h; induction h as [|e h IH]; intros s D F; [exists s; cbn; auto|].
  cbn in D. inversion D as [|x l N D']; subst. cbn [import1].
  assert (E : declare (ident p (entry_name e)) e s = Some ((ident p (entry_name e), Lib e) :: s)).
  { unfold declare. rewrite F; [reflexivity|cbn; auto]. }
  rewrite E. destruct (IH ((ident p (entry_name e), Lib e) :: s)) as (s' & Q & K); [exact D'| |].
  - intros id I. cbn. destruct (String.eqb id _) eqn:Z.
    + apply String.eqb_eq in Z. subst id. contradiction.
    + apply F. cbn. auto.
  - exists s'. split; [exact Q|]. intros id L NI. apply K.
    + cbn. destruct (String.eqb id _) eqn:Z; [|exact L]. apply String.eqb_eq in Z. destruct NI. cbn; auto.
    + intro. apply NI. cbn; auto.
Qed.
Lemma nodup_app_l : forall A (a b : list A), NoDup (a ++ b) -> NoDup a.
Proof. induction a as [|x a IH]; cbn; intros b H; [constructor|]. inversion H; subst. constructor; [|eauto]. intro. apply H2. apply in_or_app; auto. Qed.
Lemma nodup_app_r : forall A (a b : list A), NoDup (a ++ b) -> NoDup b.
Proof. induction a as [|x a IH]; cbn; intros b H; [exact H|]. inversion H; subst; eauto. Qed.
Lemma nodup_app_d : forall A (a b : list A) x, NoDup (a ++ b) -> In x a -> In x b -> False.
Proof. induction a as [|y a IH]; cbn; intros b x H I J; [exact I|]. inversion H; subst. destruct I as [->|I]; [apply H2, in_or_app; auto|eauto]. Qed.
Lemma nodup_app_i : forall A (a b : list A), NoDup a -> NoDup b -> (forall x, In x a -> In x b -> False) -> NoDup (a ++ b).
Proof.
  induction a as [|y a IH]; cbn; intros b H J K; [exact J|]. inversion H; subst. constructor.
  - intro I. apply in_app_or in I as [I|I]; [contradiction|eauto].
  - apply IH; eauto.
Qed.
Lemma imports_ok : forall l s, NoDup (flat_map idents l) -> (forall id, In id (flat_map idents l) -> lookup s id = None) ->
  exists s', imports l s = Some s'.
Proof.
  induction l as [|[p h] l IH]; intros s D F; [exists s; reflexivity|].
  cbn [imports]. cbn [flat_map] in D, F.
  destruct (import1_ok p h s) as (s1 & E & K).
  - eapply nodup_app_l; exact D.
  - intros id I. apply F. apply in_or_app; auto.
  - rewrite E. apply IH; [eapply nodup_app_r; exact D|]. intros id I. apply K.
    + apply F. apply in_or_app; auto.
    + intro J. eapply nodup_app_d; eauto.
Qed.
Lemma nodup_flat : forall A B (f : A -> list B) l, NoDup l -> (forall x, In x l -> NoDup (f x)) ->
  (forall x y z, In x l -> In y l -> In z (f x) -> In z (f y) -> x = y) -> NoDup (flat_map f l).
Proof.
  induction l as [|x l IH]; cbn; intros D N K; [constructor|]. inversion D; subst.
  apply nodup_app_i; auto.
  - apply IH; auto. intros; eapply K; eauto.
  - intros z I J. apply in_flat_map in J as (y & Y & J). assert (x = y) by (eapply K; eauto). subst. contradiction.
Qed.
Lemma flat_disjoint : forall A B (f : A -> list B) l x y z, NoDup (flat_map f l) -> In x l -> In y l -> In z (f x) -> In z (f y) -> x = y.
Proof.
  induction l as [|a l IH]; cbn; intros x y z D I J P Q; [contradiction|].
  destruct I as [->|I], J as [<-|J]; auto.
  - exfalso. eapply nodup_app_d; [exact D|exact P|]. apply in_flat_map; eauto.
  - exfalso. eapply nodup_app_d; [exact D|exact Q|]. apply in_flat_map; eauto.
  - eapply IH; eauto using nodup_app_r.
Qed.
Definition names_of (x : string * list entry) : list string := map entry_name (snd x).
Lemma distinct_nodup : forall l, distinct l = true -> NoDup l.
Proof.
  induction l as [|x l IH]; cbn; intros H; constructor; apply andb_prop in H as [H1 H2]; auto.
  intro I. apply negb_true_iff in H1. rewrite <- not_true_iff_false in H1. apply H1.
  apply existsb_exists. exists x. split; [exact I|apply String.eqb_refl].
Qed.
Lemma names_distinct : NoDup (flat_map names_of headers).
Proof. apply distinct_nodup. vm_compute. reflexivity. Qed.
Lemma names_nodup : forall x, In x headers -> NoDup (names_of x).
Proof.
  intros x I. apply in_split in I as (a & b & E). pose proof names_distinct as D. rewrite E, flat_map_app in D.
  apply nodup_app_r in D. cbn in D. now apply nodup_app_l in D.
Qed.
Lemma nodup_map_inj : forall A B (f : A -> B) l, (forall x y, f x = f y -> x = y) -> NoDup l -> NoDup (map f l).
Proof.
  induction l as [|x l IH]; cbn; intros I D; constructor; inversion D; subst; auto.
  intro J. apply in_map_iff in J as (y & E & Y). apply I in E. subst. contradiction.
Qed.
Lemma idents_map : forall p h, idents (p, snd h) = map (ident p) (names_of h).
Proof. intros. unfold idents, names_of. cbn. now rewrite map_map. Qed.
Lemma clash_free : forall (l : list (option string * (string * list entry))) s,
  NoDup l -> (forall x, In x l -> In (snd x) headers) ->
  (forall x y n m, In x l -> In y l -> ident (fst x) n = ident (fst y) m -> In n (names_of (snd x)) -> In m (names_of (snd y)) -> fst x = fst y) ->
  (forall x e, In x l -> In e (snd (snd x)) -> lookup s (ident (fst x) (entry_name e)) = None) ->
  exists s', imports (map (fun x => (fst x, snd (snd x))) l) s = Some s'.
Proof.
  intros l s D I K F.
  assert (Q : flat_map idents (map (fun x => (fst x, snd (snd x))) l) = flat_map (fun x => map (ident (fst x)) (names_of (snd x))) l).
  { rewrite flat_map_concat_map, map_map, flat_map_concat_map. f_equal. apply map_ext. intros x. apply idents_map. }
  apply imports_ok; rewrite Q.
  - apply nodup_flat; [exact D| |].
    + intros x X. apply nodup_map_inj; [apply ident_inj|]. apply names_nodup; auto.
    + intros [p h] [q k] z X Y P R. cbn [fst snd] in P, R. apply in_map_iff in P as (n & P & N). apply in_map_iff in R as (m & R & M).
      assert (p = q) by (apply (K (p, h) (q, k) n m); auto; cbn; congruence). subst q.
      rewrite <- R in P. apply ident_inj in P. subst n.
      f_equal. eapply (flat_disjoint _ _ names_of headers); eauto using names_distinct.
      * apply (I (p, h)); auto.
      * apply (I (p, k)); auto.
  - intros id J. apply in_flat_map in J as (x & X & J). apply in_map_iff in J as (n & <- & N).
    unfold names_of in N. apply in_map_iff in N as (e & <- & E). auto.
Qed.
Lemma names_hidden_all : forallb (fun n => negb (prefix "rcpr_u0ec" n) && negb (prefix "u0ec" n)) (flat_map names_of headers) = true.
Proof. vm_compute. reflexivity. Qed.
Lemma prefix_app : forall a b, prefix a (a ++ b) = true.
Proof. induction a as [|c a IH]; cbn; intros b; [destruct b; reflexivity|]. destruct (ascii_dec c c); [apply IH|contradiction]. Qed.
Lemma hidden : forall q n h e M m f, (forall p, q = Some p -> no_underscore p) -> In (n, h) headers -> In e h ->
  ident q (entry_name e) <> rcpr_sym M m f.
Proof.
  intros q n h e M m f NU I J E. pose proof names_hidden_all as A. rewrite forallb_forall in A.
  assert (K : In (entry_name e) (flat_map names_of headers)).
  { apply in_flat_map. exists (n, h). split; [exact I|]. unfold names_of. cbn. now apply in_map. }
  specialize (A _ K). apply andb_prop in A as [A1 A2].
  destruct q as [p|].
  - cbn [ident] in E. unfold rcpr_sym in E. apply cut in E as [_ E]; [|now apply NU|reflexivity].
    rewrite E in A2. unfold unique_name in A2.
    match type of A2 with negb (prefix _ ?x) = true => change x with ("u0ec" ++ ("71e88_25af_40aa_8dd9_990d596b60de" ++ "_" ++ version_sym M m ++ "_" ++ f)) in A2 end.
    rewrite prefix_app in A2. discriminate A2.
  - cbn [ident] in E. rewrite E in A1. unfold rcpr_sym, unique_name in A1.
    match type of A1 with negb (prefix _ ?x) = true => change x with ("rcpr_u0ec" ++ ("71e88_25af_40aa_8dd9_990d596b60de" ++ "_" ++ version_sym M m ++ "_" ++ f)) in A1 end.
    rewrite prefix_app in A1. discriminate A1.
Qed.

(* --- prototypes --- *)
Definition inb (x : string) (l : list string) : bool := existsb (String.eqb x) l.
Lemma inb_in : forall x l, inb x l = true -> In x l.
Proof. intros x l H. apply existsb_exists in H as (y & I & E). apply String.eqb_eq in E. now subst. Qed.
Lemma in_inb : forall x l, In x l -> inb x l = true.
Proof. intros x l H. apply existsb_exists. exists x. split; [exact H|apply String.eqb_refl]. Qed.
Lemma all_protos : forallb (fun p => forallb (fun w =>
  negb (String.eqb (w_name w) (p_name p)) ||
  (String.eqb (w_ret w) (p_ret p) &&
   (String.eqb (p_name p) "bigint_modulus_int" || same (map fst (w_params w)) (p_types p)) &&
   (String.eqb (p_name p) "resource_release" || Bool.eqb (w_checked w) (p_checked p)))) wrappers) prototypes = true.
Proof. vm_compute. reflexivity. Qed.
Lemma proto_of : forall p w, In p prototypes -> In w wrappers -> w_name w = p_name p ->
  w_ret w = p_ret p /\ (p_name p <> "bigint_modulus_int" -> map fst (w_params w) = p_types p) /\
  (p_name p <> "resource_release" -> w_checked w = p_checked p).
Proof.
  intros p w I J E. pose proof all_protos as A. rewrite forallb_forall in A. specialize (A _ I).
  rewrite forallb_forall in A. specialize (A _ J). rewrite E, String.eqb_refl in A. cbn [negb orb] in A. splitands.
  apply String.eqb_eq in H. split; [exact H|]. split; intros N.
  - apply orb_prop in H1 as [H1|H1]; [apply String.eqb_eq in H1; contradiction|now apply same_eq].
  - apply orb_prop in H0 as [H0|H0]; [apply String.eqb_eq in H0; contradiction|now apply Bool.eqb_prop].
Qed.
Lemma all_declared : forallb (fun w => String.eqb (w_name w) "vtable_range_valid" || inb (w_name w) (map p_name prototypes)) wrappers = true.
Proof. vm_compute. reflexivity. Qed.
Lemma all_imported : forallb (fun p => inb (p_name p) ["vsocket_utility_move_descriptors"; "vsocket_utility_setfds"]
  || inb (p_name p) (map w_name wrappers)) prototypes = true.
Proof. vm_compute. reflexivity. Qed.
Lemma wrapper_header : forall w, In w wrappers -> exists n h, In (n, h) headers /\ In (DFun w) h.
Proof.
  intros w H. unfold wrappers in H. apply in_flat_map in H as ((n & h) & I & H). cbn in H.
  apply in_flat_map in H as (e & J & H). destruct e as [|w']; cbn in H; [contradiction|].
  destruct H as [->|[]]. eauto.
Qed.
Definition target (p : proto) : string := if inb "..." (p_types p) then va_form (p_name p) else p_name p.
Lemma all_linked : forallb (fun p => inb (p_name p) missing || inb (target p) defined_functions) prototypes = true.
Proof. vm_compute. reflexivity. Qed.
Lemma all_missing : forallb (fun n => negb (inb n defined_functions)) missing = true.
Proof. vm_compute. reflexivity. Qed.
Lemma missing_fixed : forallb (fun p => negb (inb (p_name p) missing) || negb (inb "..." (p_types p))) prototypes = true.
Proof. vm_compute. reflexivity. Qed.
Lemma all_dots : forallb (fun p => negb (inb "..." (p_types p)) || same (p_types p) (removelast (p_types p) ++ ["..."])) prototypes = true.
Proof. vm_compute. reflexivity. Qed.
Lemma means_target : forall V M m p (vs : list V) e, In p prototypes -> means M m p vs e -> symbol e = rcpr_sym M m (target p).
Proof.
  intros V M m p vs e I H. unfold target. destruct H as [[NV ->]|(ts & a & b & E & _ & _ & ->)]; cbn [symbol].
  - destruct (inb "..." (p_types p)) eqn:D; [|reflexivity]. exfalso. apply NV.
    pose proof all_dots as A. rewrite forallb_forall in A. specialize (A _ I). rewrite D in A. cbn in A.
    apply same_eq in A. eexists; exact A.
  - replace (inb "..." (p_types p)) with true; [reflexivity|]. symmetry. apply in_inb. rewrite E. apply in_or_app. cbn; auto.
Qed.
Lemma called_target : forall V M m l s0 s n h q p (vs : list V) e,
  imports l s0 = Some s -> In (q, h) l -> In (n, h) headers -> In p prototypes -> gives h (p_name p) ->
  call M m s (ident q (p_name p)) vs = Some e -> symbol e = rcpr_sym M m (target p).
Proof.
  intros V M m l s0 s n h q p vs e H I J P G C.
  destruct (reaches V M m _ _ _ _ _ _ _ vs H I J P G) as [R1 R2].
  assert (A : accepts p (length vs) \/ ~ accepts p (length vs)).
  { unfold accepts. destruct (inb "..." (p_types p)) eqn:D.
    - pose proof all_dots as A. rewrite forallb_forall in A. specialize (A _ P). rewrite D in A. cbn in A.
      apply same_eq in A. assert (V0 : variadic p) by (eexists; exact A).
      destruct (le_lt_dec (length (p_types p)) (S (length vs))); [left; auto|right]. intros [[N _]|[_ L]]; [auto|lia].
    - assert (V0 : ~ variadic p).
      { intros [ts E]. rewrite E in D. rewrite (in_inb "...") in D; [discriminate|]. apply in_or_app; cbn; auto. }
      destruct (Nat.eq_dec (length (p_types p)) (length vs)); [left; auto|right]. intros [[_ L]|[N _]]; auto. }
  destruct A as [A|A].
  - destruct (R1 A) as (e' & E & ME). rewrite C in E. injection E as <-. eapply means_target; eauto.
  - rewrite (R2 A) in C. discriminate.
Qed.
Fixpoint find_index {A} (f : A -> bool) (l : list A) : nat :=
  match l with [] => 0 | x :: l' => if f x then 0 else S (find_index f l') end.
Lemma inb_header : forall n h, nth_error headers (find_index (fun x => String.eqb (fst x) n) headers) = Some (n, h) -> In (n, h) headers.
Proof. intros n h H. eapply nth_error_In; exact H. Qed.
