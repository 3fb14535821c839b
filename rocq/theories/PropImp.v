(** C71: the short names that the import macros of the public headers declare stand for the library's
    functions and types, and sets of imports do not clash.

    A file's imports are a list of prefix and header; [imports l s0 = Some s]: they compile, in a file
    that has declared [s0] before.  [call major minor s f vs = Some e]: f(vs) compiles, and [e] says which
    library symbol it calls and with what. *)
From Coq Require Import String List Bool.
From Verif Require Import ImpModel ImpTable ImpSpec ImpProofs.
Import ListNotations.
Local Open Scope string_scope.

(** In a file whose imports compile, whatever they are and whatever their order and prefixes, a call of an
    imported name calls the library's function of that name with the same arguments in the same order, and
    has its result; a variadic one calls the form with a va_list, with all the further arguments.  A call
    with a wrong number of arguments does not compile. *)
Theorem C71_reaches : forall V major minor l s0 s n h prefix p (vs : list V),
  imports l s0 = Some s -> In (prefix, h) l -> In (n, h) headers -> In p prototypes -> gives h (p_name p) ->
  (accepts p (length vs) ->
   exists e, call major minor s (ident prefix (p_name p)) vs = Some e /\ means major minor p vs e) /\
  (~ accepts p (length vs) -> call major minor s (ident prefix (p_name p)) vs = None).
Proof. exact reaches. Qed.

(** An imported type name is the library's type of that name. *)
Theorem C71_type_names : forall major minor l s0 s n h prefix t,
  imports l s0 = Some s -> In (prefix, h) l -> In (n, h) headers -> gives_type h t ->
  type_of major minor s (ident prefix t) = Some (rcpr_sym major minor t).
Proof. exact types_reach. Qed.

(** What a file declared itself, an import does not change. *)
Theorem C71_keeps : forall l s0 s n, imports l s0 = Some s -> lookup s0 n = Some Mine -> lookup s n = Some Mine.
Proof. intros l s0 s n H L. eapply imports_keeps; eauto. Qed.

Definition all_as (prefix : option string) := map (fun h : string * list entry => (prefix, snd h)) headers.
(** Any of the headers, in any order, can be imported under one prefix or none. *)
Theorem C71_together : forall prefix hs s,
  NoDup hs -> incl hs headers -> (forall n h e, In (n, h) hs -> In e h -> lookup s (ident prefix (entry_name e)) = None) ->
  exists s', imports (map (fun h => (prefix, snd h)) hs) s = Some s'.
Proof.
  intros prefix hs s D I F.
  destruct (clash_free (map (fun h => (prefix, h)) hs) s) as [s' E].
  - apply nodup_map_inj; [congruence|exact D].
  - intros x X. apply in_map_iff in X as (h & <- & X). apply I; exact X.
  - intros x y n m X Y _ _ _. apply in_map_iff in X as (h & <- & X). apply in_map_iff in Y as (k & <- & Y). reflexivity.
  - intros x e X E. apply in_map_iff in X as ([n h] & <- & X). cbn [fst snd] in *. eapply F; eauto.
  - rewrite map_map in E. cbn [fst snd] in E. eauto.
Qed.
Example C71_together_example :
  match imports (all_as None) [("main", Mine)] with
  | Some s =>
    call "0" "4" s "allocator_allocate" [10; 20; 30] =
    Some (Effect "rcpr_u0ec71e88_25af_40aa_8dd9_990d596b60de_V0_4_allocator_allocate" [Val 10; Val 20; Val 30] true) /\
    type_of "0" "4" s "slist" = Some "rcpr_u0ec71e88_25af_40aa_8dd9_990d596b60de_V0_4_slist" /\
    call "0" "4" s "strcatv" [1; 2; 3; 4; 5] =
    Some (Effect "rcpr_u0ec71e88_25af_40aa_8dd9_990d596b60de_V0_4_vstrcat" [Val 1; Val 2; Val 3; More [4; 5]] true) /\
    call "0" "4" s "strcatv" [1; 2] = None /\ call "0" "4" s "main" [1] = None
  | None => False
  end.
Proof. vm_compute. repeat split. Qed.
Example C71_reaches_example : exists p, In p prototypes /\ p_name p = "allocator_allocate" /\ accepts p 3 /\ ~ accepts p 2 /\
  In ("allocator", import_allocator) headers /\ gives import_allocator (p_name p) /\ gives_type import_allocator "allocator".
Proof.
  exists (Proto "allocator_allocate" "status" true ["RCPR_SYM(allocator)*"; "void**"; "size_t"]).
  assert (N : ~ variadic (Proto "allocator_allocate" "status" true ["RCPR_SYM(allocator)*"; "void**"; "size_t"]))
    by (intros [ts E]; destruct ts as [|? [|? [|? [|? ?]]]]; discriminate).
  split; [apply nth_error_In with (n := 3); reflexivity|]. split; [reflexivity|].
  split; [left; split; [exact N|reflexivity]|]. split; [intros [[_ H]|[H _]]; [discriminate H|contradiction]|].
  split; [apply nth_error_In with (n := 0); reflexivity|]. split.
  - exists (Wrap "allocator_allocate" "status" true [("RCPR_SYM(allocator)*", "x"); ("void**", "y"); ("size_t", "z")] (Call true "allocator_allocate" ["x"; "y"; "z"])).
    split; [|reflexivity]. apply nth_error_In with (n := find_index (fun e => String.eqb (entry_name e) "allocator_allocate") import_allocator). vm_compute. reflexivity.
  - exists "allocator". apply nth_error_In with (n := find_index (fun e => String.eqb (entry_name e) "allocator") import_allocator). vm_compute. reflexivity.
Qed.

(** Headers can be imported under several prefixes, also the same header more than once, if no prefix has
    an underscore. *)
Theorem C71_prefixes_partial : forall (l : list (string * (string * list entry))) s,
  NoDup l -> (forall p h, In (p, h) l -> no_underscore p /\ In h headers) ->
  (forall p n h e, In (p, (n, h)) l -> In e h -> lookup s (ident (Some p) (entry_name e)) = None) ->
  exists s', imports (map (fun x => (Some (fst x), snd (snd x))) l) s = Some s'.
Proof.
  intros l s D I F.
  destruct (clash_free (map (fun x => (Some (fst x), snd x)) l) s) as [s' E].
  - apply nodup_map_inj; [|exact D]. intros [a b] [c d] Q. cbn in Q. congruence.
  - intros x X. apply in_map_iff in X as ([p h] & <- & X). apply (I p h X).
  - intros x y n m X Y Q _ _. apply in_map_iff in X as ([p h] & <- & X). apply in_map_iff in Y as ([q k] & <- & Y).
    cbn [fst] in *. cbn [ident] in Q. apply cut in Q as [-> _]; [reflexivity|apply (I p h X)|apply (I q k Y)].
  - intros x e X E. apply in_map_iff in X as ([p [n h]] & <- & X). cbn [fst snd] in *. eapply F; eauto.
  - rewrite map_map in E. cbn [fst snd] in E. eauto.
Qed.
Example C71_prefixes_example : exists s,
  imports [(Some "a", import_string); (Some "b", import_string); (Some "rcpr", import_list)] [("strdup", Mine)] = Some s /\
  call "0" "4" s "b_strdup" [1; 2; 3] =
  Some (Effect "rcpr_u0ec71e88_25af_40aa_8dd9_990d596b60de_V0_4_strdup" [Val 1; Val 2; Val 3] true) /\
  lookup s "strdup" = Some Mine.
Proof. eexists. split; [vm_compute; reflexivity|]. split; vm_compute; reflexivity. Qed.

(** Different prefixes do not suffice: string.h imported as "left" and without a prefix has two left_trim. *)
Theorem C71_prefixes_refuted : exists h, In ("string", h) headers /\
  forall s, imports [(None, h); (Some "left", h)] s = None.
Proof.
  exists import_string. split; [apply nth_error_In with (n := 15); reflexivity|].
  intros s. cbn [imports]. destruct (import1 None import_string s) as [s1|] eqn:E; [|reflexivity].
  assert (L : lookup s1 "left_trim" = Some (Lib (DFun (Wrap "left_trim" "void" false [("char*", "x")] (Call false "left_trim" ["x"]))))).
  { apply (import1_fun _ _ _ _ (Wrap "left_trim" "void" false [("char*", "x")] (Call false "left_trim" ["x"])) E).
    apply nth_error_In with (n := 2). reflexivity. }
  destruct (import1 (Some "left") import_string s1) as [s2|] eqn:E2; [|reflexivity].
  pose proof (import1_fun _ _ _ _ (Wrap "trim" "void" false [("char*", "x")] (Call false "trim" ["x"])) E2) as L2.
  cbn [ident w_name append] in L2.
  rewrite (import1_keeps _ _ _ _ _ _ E2 L) in L2. assert (J : In (DFun (Wrap "trim" "void" false [("char*", "x")] (Call false "trim" ["x"]))) import_string)
    by (apply nth_error_In with (n := 4); reflexivity).
  specialize (L2 J). discriminate.
Qed.
(** string.h cannot be imported without a prefix in a file that declares strdup, such as one that includes
    the C library's string.h. *)
Theorem C71_strdup_refuted : exists h, In ("string", h) headers /\
  forall l1 l2 s, lookup s "strdup" = Some Mine -> imports (l1 ++ (None, h) :: l2) s = None.
Proof.
  exists import_string. split; [apply nth_error_In with (n := 15); reflexivity|].
  intros l1 l2 s L. destruct (imports _ s) as [s'|] eqn:E; [|reflexivity]. exfalso.
  pose proof (imports_keeps _ _ _ _ _ E L) as K.
  pose proof (imports_fun _ _ _ None import_string
    (Wrap "strdup" "status" true [("char**", "x"); ("RCPR_SYM(allocator)*", "y"); ("const char*", "z")] (Call true "strdup" ["x"; "y"; "z"])) E) as W.
  cbn [ident w_name] in W. rewrite K in W.
  assert (X : Some Mine = Some (Lib (DFun (Wrap "strdup" "status" true [("char**", "x"); ("RCPR_SYM(allocator)*", "y"); ("const char*", "z")] (Call true "strdup" ["x"; "y"; "z"]))))).
  { apply W; [apply in_or_app; cbn; auto|apply nth_error_In with (n := 11); reflexivity]. }
  discriminate X.
Qed.

(** The symbols of two versions differ in every name, and those of one version are distinct: two versions can
    be linked into one program. *)
Theorem C71_versions : forall major minor f major' minor' f',
  digits major -> digits minor -> digits major' -> digits minor' ->
  rcpr_sym major minor f = rcpr_sym major' minor' f' -> major = major' /\ minor = minor' /\ f = f'.
Proof. exact sym_inj. Qed.
Example C71_versions_example : digits "0" /\ digits "14" /\ ~ digits "1_4" /\
  rcpr_sym "1" "1_f" "g" = rcpr_sym "1" "1" "f_g".
Proof. repeat split; try reflexivity. intro H; discriminate. Qed.

(** No name that an import declares is itself a symbol of the library, of any version. *)
Theorem C71_hidden : forall prefix n h e major minor f,
  (forall p, prefix = Some p -> no_underscore p) -> In (n, h) headers -> In e h ->
  ident prefix (entry_name e) <> rcpr_sym major minor f.
Proof. exact hidden. Qed.
Example C71_hidden_example : no_underscore "rcpr" /\ ~ no_underscore "my_lib" /\ ident (Some "rcpr") "slist_create" = "rcpr_slist_create".
Proof. repeat split. intro H; discriminate. Qed.

(** The assembly sources spell their symbols out.  They are the ones the library calls exactly in version
    0.4, which is the version of this project. *)
Theorem C71_assembly : forall major minor, digits major -> digits minor ->
  (In (rcpr_sym major minor "fiber_make") assembly_symbols <-> major = version_major /\ minor = version_minor) /\
  (In (rcpr_sym major minor "fiber_switch") assembly_symbols <-> major = version_major /\ minor = version_minor).
Proof.
  intros M m D1 D2.
  assert (A : assembly_symbols = [rcpr_sym version_major version_minor "fiber_make"; rcpr_sym version_major version_minor "fiber_switch"])
    by reflexivity.
  rewrite A. split; (split; [intros [H|[H|[]]]|intros [-> ->]; cbn; auto]);
    apply sym_inj in H; auto; try reflexivity; destruct H as (-> & -> & H); auto; discriminate H.
Qed.
Example C71_assembly_example : version_major = "0" /\ version_minor = "4" /\ digits version_major /\ digits version_minor.
Proof. repeat split. Qed.

(** An import has the result type of the function that the header declares and the types of its parameters,
    and warns if its result is not checked exactly when the function does; but not the parameters of
    bigint_modulus_int and not the warning of resource_release. *)
Theorem C71_declared_partial : forall n h w p, In (n, h) headers -> In (DFun w) h -> In p prototypes -> w_name w = p_name p ->
  w_ret w = p_ret p /\ (p_name p <> "bigint_modulus_int" -> map fst (w_params w) = p_types p) /\
  (p_name p <> "resource_release" -> w_checked w = p_checked p).
Proof. intros n h w p I J P E. apply proto_of; eauto using wrappers_in. Qed.
(** The result of resource_release is checked by the compiler, that of its import is not. *)
Theorem C71_checked_refuted : exists n h w p, In (n, h) headers /\ In (DFun w) h /\ In p prototypes /\
  w_name w = "resource_release" /\ p_name p = "resource_release" /\ p_checked p = true /\ w_checked w = false.
Proof.
  exists "resource", import_resource, (Wrap "resource_release" "status" false [("RCPR_SYM(resource)*", "x")] (Call true "resource_release" ["x"])),
    (Proto "resource_release" "status" true ["RCPR_SYM(resource)*"]).
  split; [apply inb_header; reflexivity|].
  split; [apply nth_error_In with (n := find_index (fun e => String.eqb (entry_name e) "resource_release") import_resource); vm_compute; reflexivity|].
  split; [apply nth_error_In with (n := find_index (fun p => String.eqb (p_name p) "resource_release") prototypes); vm_compute; reflexivity|].
  repeat split.
Qed.
(** bigint_modulus_int does not change the number it is given; its import does not take a constant one. *)
Theorem C71_const_refuted : exists n h w p, In (n, h) headers /\ In (DFun w) h /\ In p prototypes /\
  w_name w = "bigint_modulus_int" /\ p_name p = "bigint_modulus_int" /\
  p_types p = ["const RCPR_SYM(bigint)*"; "int"] /\ map fst (w_params w) = ["RCPR_SYM(bigint)*"; "int"].
Proof.
  exists "bigint", import_bigint, (Wrap "bigint_modulus_int" "int" false [("RCPR_SYM(bigint)*", "x"); ("int", "y")] (Call true "bigint_modulus_int" ["x"; "y"])),
    (Proto "bigint_modulus_int" "int" false ["const RCPR_SYM(bigint)*"; "int"]).
  split; [apply inb_header; reflexivity|].
  split; [apply nth_error_In with (n := find_index (fun e => String.eqb (entry_name e) "bigint_modulus_int") import_bigint); vm_compute; reflexivity|].
  split; [apply nth_error_In with (n := find_index (fun p => String.eqb (p_name p) "bigint_modulus_int") prototypes); vm_compute; reflexivity|].
  repeat split.
Qed.

(** Every function that a header declares has an import, but for two that take a va_list; and an import
    stands for a declared function, but for vtable_range_valid. *)
Theorem C71_complete_partial :
  (forall p, In p prototypes -> ~ In (p_name p) ["vsocket_utility_move_descriptors"; "vsocket_utility_setfds"] ->
   exists n h, In (n, h) headers /\ gives h (p_name p)) /\
  (forall n h f, In (n, h) headers -> gives h f -> f <> "vtable_range_valid" -> exists p, In p prototypes /\ p_name p = f).
Proof.
  split.
  - intros p I N. pose proof all_imported as A. rewrite forallb_forall in A. specialize (A _ I).
    apply orb_prop in A as [A|A]; apply inb_in in A; [contradiction|].
    apply in_map_iff in A as (w & E & W). destruct (wrapper_header _ W) as (n & h & H & K). exists n, h. split; [exact H|]. exists w; auto.
  - intros n h f I (w & W & <-) N. pose proof all_declared as A. rewrite forallb_forall in A.
    specialize (A _ (wrappers_in _ _ _ I W)). apply orb_prop in A as [A|A]; [apply String.eqb_eq in A; contradiction|].
    apply inb_in in A. apply in_map_iff in A as (p & E & P). eauto.
Qed.
Theorem C71_complete_refuted : forall f, In f ["vsocket_utility_move_descriptors"; "vsocket_utility_setfds"] ->
  (exists p, In p prototypes /\ p_name p = f) /\ forall n h, In (n, h) headers -> ~ gives h f.
Proof.
  intros f F. split.
  - assert (A : inb f (map p_name prototypes) = true) by (destruct F as [<-|[<-|[]]]; vm_compute; reflexivity).
    apply inb_in in A. apply in_map_iff in A as (p & E & P). eauto.
  - intros n h I (w & W & E). pose proof (wrappers_in _ _ _ I W) as K.
    assert (A : inb f (map w_name wrappers) = false) by (destruct F as [<-|[<-|[]]]; vm_compute; reflexivity).
    rewrite (in_inb f) in A; [discriminate|]. apply in_map_iff. eauto.
Qed.

(** A call of an imported name calls a function that the library defines, but for the names in [missing]. *)
Theorem C71_links_partial : forall V major minor l s0 s n h prefix p (vs : list V) e,
  imports l s0 = Some s -> In (prefix, h) l -> In (n, h) headers -> In p prototypes -> gives h (p_name p) ->
  ~ In (p_name p) missing -> call major minor s (ident prefix (p_name p)) vs = Some e ->
  exists f, In f defined_functions /\ symbol e = rcpr_sym major minor f.
Proof.
  intros V M m l s0 s n h q p vs e H I J P G N C. exists (target p). split.
  - pose proof all_linked as A. rewrite forallb_forall in A. specialize (A _ P).
    apply orb_prop in A as [A|A]; apply inb_in in A; [contradiction|exact A].
  - eapply called_target; eauto.
Qed.
(** A call of one of those compiles and does not link: the library has no such function. *)
Theorem C71_links_refuted : forall V major minor l s0 s n h prefix p (vs : list V) e f,
  imports l s0 = Some s -> In (prefix, h) l -> In (n, h) headers -> In p prototypes -> gives h (p_name p) ->
  In (p_name p) missing -> call major minor s (ident prefix (p_name p)) vs = Some e -> digits major -> digits minor ->
  symbol e = rcpr_sym major minor f -> ~ In f defined_functions.
Proof.
  intros V M m l s0 s n h q p vs e f H I J P G N C D1 D2 S F.
  pose proof (called_target _ _ _ _ _ _ _ _ _ _ _ _ H I J P G C) as T. rewrite S in T.
  apply sym_inj in T as (_ & _ & ->); auto.
  pose proof missing_fixed as A. rewrite forallb_forall in A. specialize (A _ P). rewrite (in_inb _ _ N) in A. cbn in A.
  unfold target in F. apply negb_true_iff in A. rewrite A in F.
  pose proof all_missing as B. rewrite forallb_forall in B. specialize (B _ N). rewrite (in_inb _ _ F) in B. discriminate B.
Qed.
Example C71_links_example : exists s, imports [(None, import_bigint)] [] = Some s /\
  call "0" "4" s "bigint_divide_int" [1; 2] =
  Some (Effect "rcpr_u0ec71e88_25af_40aa_8dd9_990d596b60de_V0_4_bigint_divide_int" [Val 1; Val 2] false) /\
  In "bigint_divide_int" missing /\ ~ In "strcatv" defined_functions /\ In "vstrcat" defined_functions.
Proof.
  eexists. split; [vm_compute; reflexivity|]. split; [vm_compute; reflexivity|]. split; [cbn; auto|]. split.
  - intro H. apply in_inb in H. vm_compute in H. discriminate H.
  - apply inb_in. vm_compute. reflexivity.
Qed.

Print Assumptions C71_reaches.
Print Assumptions C71_type_names.
Print Assumptions C71_keeps.
Print Assumptions C71_together.
Print Assumptions C71_prefixes_partial.
Print Assumptions C71_prefixes_refuted.
Print Assumptions C71_strdup_refuted.
Print Assumptions C71_versions.
Print Assumptions C71_hidden.
Print Assumptions C71_assembly.
Print Assumptions C71_declared_partial.
Print Assumptions C71_checked_refuted.
Print Assumptions C71_const_refuted.
Print Assumptions C71_complete_partial.
Print Assumptions C71_complete_refuted.
Print Assumptions C71_links_partial.
Print Assumptions C71_links_refuted.
