(** C61: calls through function tables. *)
From Verif Require Import Base Status MemModel SockModel VtModel VtSpec.

Local Ltac look i := destruct i as [|[|[|[|[|[|[|[|i]]]]]]]]; cbn in *; try discriminate; try (destruct i; discriminate).

Lemma entry_offset mem t q w : entry mem t (layout q) (wanted q) w -> mem (t + offset (wanted q)) = w.
Proof.
  intros (i & Hi & Hm). destruct q; try (destruct m); look i; try (exact Hm); cbn; rewrite <- Hm; f_equal; lia.
Qed.
Lemma offset_entry mem t q w : mem (t + offset (wanted q)) = w -> entry mem t (layout q) (wanted q) w.
Proof.
  intros H. destruct q; try destruct m; cbn in *;
  first [ exists 0%nat; split; [reflexivity|cbn; rewrite <- H; f_equal; lia]
        | exists 1%nat; split; [reflexivity|cbn; rewrite <- H; f_equal; lia]
        | exists 2%nat; split; [reflexivity|cbn; rewrite <- H; f_equal; lia]
        | exists 3%nat; split; [reflexivity|cbn; rewrite <- H; f_equal; lia]
        | exists 4%nat; split; [reflexivity|cbn; rewrite <- H; f_equal; lia]
        | exists 5%nat; split; [reflexivity|cbn; rewrite <- H; f_equal; lia]
        | exists 6%nat; split; [reflexivity|cbn; rewrite <- H; f_equal; lia] ].
Qed.
(** What happens once the table has been accepted *)
Definition go (mem : memory) (p : Z) (o : object) (q : request) (e : Z) : outcome :=
  match optional q with
  | None => invoke mem (o_table o) (wanted q) (given p o q) e
  | Some x => invoke_if_set mem (o_table o) (wanted q) (given p o q) e x
  end.
Lemma perform_valid b s mem p o q e : range_valid b s (o_table o) = true -> perform b s mem p o q e = go mem p o q e.
Proof.
  intros H. destruct q; cbn [perform]; unfold resource_release, allocator_allocate, allocator_reclaim, allocator_reallocate, allocator_control, psock_method, resource_vtable_read;
  rewrite H; try reflexivity. destruct m; reflexivity.
Qed.
Lemma perform_bad b s mem p o q e : checking b -> range_valid b s (o_table o) = false -> perform b s mem p o q e = refusal b q.
Proof.
  intros [_ Hb] H. unfold refusal. destruct q; cbn [perform]; unfold resource_release, allocator_allocate, allocator_reclaim, allocator_reallocate, allocator_control, psock_method, resource_vtable_read, check_error;
  rewrite H; cbn [negb]; destruct (b_assert b); try rewrite (Hb eq_refl); reflexivity.
Qed.
Lemma valid_iff b s t : b_enforce b = true -> sound s -> 0 <= t < 2 ^ 64 -> range_valid b s t = true <-> s_start s <= t <= s_stop s.
Proof.
  intros He (H1 & H2 & H3) Ht. unfold range_valid, address, ptrdiff in *. rewrite He.
  destruct (s_start s <? 2 ^ 63) eqn:E1; [|lia]. destruct (s_stop s <? 2 ^ 63) eqn:E2; [|lia].
  destruct (t <? 2 ^ 63) eqn:E3; lia.
Qed.
Lemma valid_off b s t : b_enforce b = false -> range_valid b s t = true.
Proof. intros H. unfold range_valid. now rewrite H. Qed.
Lemma kind_refl k : (if kind_eq k k then true else false) = true.
Proof. destruct (kind_eq k k); congruence. Qed.
Lemma go_fn mem p o q e f : entry mem (o_table o) (layout q) (wanted q) (Some (WFn (wanted q) f)) -> go mem p o q e = Ret e [(wanted q, f, given p o q)] None.
Proof.
  intros H. apply entry_offset in H. unfold go, invoke_if_set, invoke. rewrite H.
  destruct (kind_eq (wanted q) (wanted q)); [|congruence]. destruct (optional q); reflexivity.
Qed.
Lemma go_null mem p o q e : entry mem (o_table o) (layout q) (wanted q) (Some WNull) -> go mem p o q e = match optional q with Some x => Ret x [] None | None => Undef end.
Proof.
  intros H. apply entry_offset in H. unfold go, invoke_if_set, invoke. rewrite H. destruct (optional q); reflexivity.
Qed.
Lemma go_calls mem p o q e r cs st : go mem p o q e = Ret r cs st -> cs <> [] -> exists f,
  r = e /\ cs = [(wanted q, f, given p o q)] /\ entry mem (o_table o) (layout q) (wanted q) (Some (WFn (wanted q) f)).
Proof.
  intros H Hc. unfold go, invoke_if_set, invoke in H.
  destruct (mem (o_table o + offset (wanted q))) as [w|] eqn:E; [|destruct (optional q); discriminate].
  destruct w as [|j f|].
  - destruct (optional q); [|discriminate]. injection H as <- <- <-. now destruct Hc.
  - exists f. destruct (kind_eq j (wanted q)) as [->|]; [|destruct (optional q); discriminate].
    destruct (optional q); injection H as <- <- <-; split; [reflexivity|split; [reflexivity|]| reflexivity|split; [reflexivity|]]; apply offset_entry, E.
  - destruct (optional q); discriminate.
Qed.

(** An object whose table is in place: its function is called once, with the arguments that
    were given, and its status is handed back, in every build. *)
Theorem C61_served : forall b s mem p o q e f,
  sound s -> within s (o_table o) ->
  entry mem (o_table o) (layout q) (wanted q) (Some (WFn (wanted q) f)) ->
  perform b s mem p o q e = Ret e [(wanted q, f, given p o q)] None.
Proof.
  intros b s mem p o q e f Hs Hw He. rewrite perform_valid; [now apply go_fn|].
  destruct (b_enforce b) eqn:E; [|now apply valid_off]. apply valid_iff; auto; unfold sound, address, within in *; lia.
Qed.

(** A function that is missing: it is an error if it may be missing, and undefined if not. *)
Theorem C61_missing : forall b s mem p o q e,
  sound s -> within s (o_table o) ->
  entry mem (o_table o) (layout q) (wanted q) (Some WNull) ->
  perform b s mem p o q e = match optional q with Some x => Ret x [] None | None => Undef end.
Proof.
  intros b s mem p o q e Hs Hw He. rewrite perform_valid; [now apply go_null|].
  destruct (b_enforce b) eqn:E; [|now apply valid_off]. apply valid_iff; auto; unfold sound, address, within in *; lia.
Qed.

(** In a build that checks, nothing is called through a pointer to before the section or to
    after its end.  Missing: the end itself, and pointers into the section that are no tables
    or tables of another kind. *)
Theorem C61_refused_partial : forall b s mem p o q e,
  checking b -> sound s -> 0 <= o_table o < 2 ^ 64 ->
  o_table o < s_start s \/ s_stop s < o_table o ->
  perform b s mem p o q e = refusal b q.
Proof.
  intros b s mem p o q e Hb Hs Ht Ho. apply perform_bad; [exact Hb|].
  destruct (range_valid b s (o_table o)) eqn:E; [|reflexivity]. apply valid_iff in E; [lia|apply Hb|exact Hs|exact Ht].
Qed.

(** Addresses are compared as signed numbers: if the section reached from the lower half of the
    address space into the upper one, no table at all would pass. *)
Theorem C61_halves : forall b s mem p o q e,
  checking b -> 0 <= s_start s < 2 ^ 63 -> 2 ^ 63 <= s_stop s < 2 ^ 64 -> perform b s mem p o q e = refusal b q.
Proof.
  intros b s mem p o q e Hb H1 H2. apply perform_bad; [exact Hb|]. unfold range_valid. rewrite (proj1 Hb).
  assert (E1 : ptrdiff (s_start s) = s_start s) by (unfold ptrdiff; destruct (s_start s <? 2 ^ 63) eqn:E; lia).
  assert (E2 : ptrdiff (s_stop s) = s_stop s - 2 ^ 64) by (unfold ptrdiff; destruct (s_stop s <? 2 ^ 63) eqn:E; lia).
  rewrite E1, E2. lia.
Qed.

(** Whatever the objects' pointers have been overwritten with: what a build that checks calls
    has the wanted type, is called once, with the given arguments, and was read at the wanted
    place behind an address from the start of the section to its end. *)
Theorem C61_confined_partial : forall b s mem p o q e r cs st,
  checking b -> sound s -> 0 <= o_table o < 2 ^ 64 ->
  perform b s mem p o q e = Ret r cs st -> cs <> [] ->
  exists f, r = e /\ cs = [(wanted q, f, given p o q)] /\ st = None
    /\ s_start s <= o_table o <= s_stop s
    /\ entry mem (o_table o) (layout q) (wanted q) (Some (WFn (wanted q) f)).
Proof.
  intros b s mem p o q e r cs st Hb Hs Ht H Hc.
  destruct (range_valid b s (o_table o)) eqn:E.
  - rewrite perform_valid in H by exact E. destruct (go_calls _ _ _ _ _ _ _ _ H Hc) as (f & -> & -> & Hf).
    rewrite (go_fn _ _ _ _ _ _ Hf) in H. injection H as <-. exists f. apply valid_iff in E; [|apply Hb|exact Hs|exact Ht]. auto 6.
  - rewrite perform_bad in H by assumption. unfold refusal in H. destruct (b_assert b); [discriminate|]. injection H as <- <- <-. now destruct Hc.
Qed.

(** In other builds a forged table does what it says, wherever it is: if the check is off,
    which is the default, *)
Theorem C61_off : forall b s mem p o q e f,
  b_enforce b = false ->
  entry mem (o_table o) (layout q) (wanted q) (Some (WFn (wanted q) f)) ->
  perform b s mem p o q e = Ret e [(wanted q, f, given p o q)] None.
Proof. intros b s mem p o q e f Hb He. rewrite perform_valid; [now apply go_fn|now apply valid_off]. Qed.

(** and if the check is on, is an assertion, which is the default, and assertions are compiled
    out: for every pointer, in the section or not. *)
Theorem C61_assertion_refuted : forall s mem p o q e f,
  entry mem (o_table o) (layout q) (wanted q) (Some (WFn (wanted q) f)) ->
  exists st, perform (B true true true) s mem p o q e = Ret e [(wanted q, f, given p o q)] st.
Proof.
  intros s mem p o q e f He. destruct (range_valid (B true true true) s (o_table o)) eqn:E.
  - exists None. rewrite perform_valid by exact E. now apply go_fn.
  - pose proof (go_fn _ p _ _ e _ He) as G. unfold go in G.
    destruct q; cbn [perform]; unfold resource_release, allocator_allocate, allocator_reclaim, allocator_reallocate, allocator_control, psock_method, resource_vtable_read, check_error;
    rewrite E; cbn [negb b_assert b_ndebug storing]; cbn [optional] in G.
    6: destruct m; cbn [optional] in G. all: try (eexists; exact G).
    cbn [wanted given] in G. rewrite G. eexists; reflexivity.
Qed.

(** The address after the section passes the check in every build: what lies there is called. *)
Theorem C61_end_refuted : forall b s mem p o q e f,
  sound s -> o_table o = s_stop s ->
  entry mem (s_stop s) (layout q) (wanted q) (Some (WFn (wanted q) f)) ->
  perform b s mem p o q e = Ret e [(wanted q, f, given p o q)] None.
Proof.
  intros b s mem p o q e f Hs Ho He. rewrite perform_valid; [apply go_fn; now rewrite Ho|].
  destruct (b_enforce b) eqn:E; [|now apply valid_off]. apply valid_iff; auto; unfold sound, address in *; lia.
Qed.

(** A pointer into the section passes the check whatever is there.  A request to a table of
    another kind, or to a place within a table, is undefined as soon as the word at the wanted
    place is not a function of the wanted type. *)
Theorem C61_kind_refuted : forall b s mem p o q e j f,
  sound s -> within s (o_table o) -> j <> wanted q ->
  entry mem (o_table o) (layout q) (wanted q) (Some (WFn j f)) ->
  perform b s mem p o q e = Undef.
Proof.
  intros b s mem p o q e j f Hs Hw Hj He. rewrite perform_valid.
  - apply entry_offset in He. unfold go, invoke_if_set, invoke. rewrite He. destruct (kind_eq j (wanted q)); [contradiction|]. destruct (optional q); reflexivity.
  - destruct (b_enforce b) eqn:E; [|now apply valid_off]. apply valid_iff; auto; unfold sound, address, within in *; lia.
Qed.

(** The user's methods are to be in the section as well (psock.h:626-629), but their table is
    never looked at: in every build, wherever it is, it does what it says. *)
Theorem C61_user_refuted : forall mem p o m args e f,
  entry mem (o_user o) psock_layout (KMeth m) (Some (WFn (KMeth m) f)) ->
  user_method mem p o m args e
    = match m with MSetsockopt => Ret ERROR_PSOCK_METHOD_UNDEFINED [] None | _ => Ret e [(KMeth m, f, p :: o_ctx o :: args)] None end.
Proof.
  intros mem p o m args e f He. apply (entry_offset mem (o_user o) (QMethod m args)) in He. cbn [wanted] in He.
  destruct m; unfold user_method, invoke_if_set, invoke; rewrite ?He; try (destruct (kind_eq _ _); [reflexivity|congruence]). reflexivity.
Qed.
Theorem C61_user_missing : forall mem p o m args e,
  entry mem (o_user o) psock_layout (KMeth m) (Some WNull) ->
  user_method mem p o m args e = match m with MRead | MWrite => Undef | _ => Ret ERROR_PSOCK_METHOD_UNDEFINED [] None end.
Proof.
  intros mem p o m args e He. apply (entry_offset mem (o_user o) (QMethod m args)) in He. cbn [wanted] in He.
  destruct m; unfold user_method, invoke_if_set, invoke; rewrite ?He; reflexivity.
Qed.
(** The user's release function, if there is one, is called once with the socket and the context. *)
Theorem C61_user_release : forall mem p o e w,
  entry mem (o_user o) psock_layout KUserRelease (Some w) ->
  user_release mem p o e = match w with WNull => Ret STATUS_SUCCESS [] None | WFn KUserRelease f => Ret e [(KUserRelease, f, [p; o_ctx o])] None | _ => Undef end.
Proof.
  intros mem p o e w (i & Hi & Hm). unfold user_release, invoke_if_set, invoke. look i.
  assert (E : mem (o_user o + 56) = Some w) by (rewrite <- Hm; f_equal; lia). cbn [offset]. rewrite E.
  destruct w as [|j f|]; try reflexivity. destruct (kind_eq j KUserRelease) as [->|]; [reflexivity|]. destruct j; try reflexivity. congruence.
Qed.

(** The table that an object was given is what is read from it, if it is in the section, and
    nothing else about the object changes; in a build that checks, one outside is not handed
    out.  The resource of a socket leads back to the socket. *)
Theorem C61_read : forall b s o t p, sound s -> 0 <= t < 2 ^ 64 ->
  (within s t -> resource_vtable_read b s (resource_init o t) = Ret STATUS_SUCCESS [] (Some t))
  /\ (checking b -> t < s_start s \/ s_stop s < t -> resource_vtable_read b s (resource_init o t) = refusal b QRelease)
  /\ o_ctx (resource_init o t) = o_ctx o /\ o_user (resource_init o t) = o_user o
  /\ resource_handle_to_psock (resource_handle p) = p.
Proof.
  intros b s o t p Hs Ht. split; [|split; [|auto]].
  - intros Hw. unfold resource_vtable_read. cbn [resource_init o_table].
    replace (range_valid b s t) with true; [reflexivity|]. symmetry.
    destruct (b_enforce b) eqn:E; [|now apply valid_off]. apply valid_iff; auto; unfold within in *; lia.
  - intros [Hb1 Hb2] Ho. unfold resource_vtable_read, refusal, check_error. cbn [resource_init o_table].
    destruct (range_valid b s t) eqn:E; [apply valid_iff in E; auto; lia|]. cbn [negb]. destruct (b_assert b); [now rewrite Hb2|reflexivity].
Qed.

(** A section at 4096 with the table of the malloc allocator, a resource's table and a
    socket's; heap memory from 65536 with a forged table of an allocator. *)
Definition demo_section : section := Sec 4096 4208.
Definition demo_memory : memory := fun a =>
  match a with
  | 4096 => Some (WFn KRelease 1) | 4104 => Some (WFn KAllocate 2) | 4112 => Some (WFn KReclaim 3) | 4120 => Some (WFn KReallocate 4) | 4128 => Some WNull
  | 4136 => Some (WFn KRelease 5)
  | 4144 => Some (WFn KRelease 6) | 4152 => Some (WFn (KMeth MRead) 7) | 4160 => Some (WFn (KMeth MWrite) 8) | 4168 => Some (WFn (KMeth MAccept) 9)
  | 4176 => Some WNull | 4184 => Some WNull | 4192 => Some WNull | 4200 => Some WNull
  | 65536 => Some (WFn KRelease 91) | 65544 => Some (WFn KAllocate 92)
  | _ => None
  end.
Example demo_sound : sound demo_section.
Proof. unfold sound, address; cbn; lia. Qed.
Example demo_allocate : perform (B true false false) demo_section demo_memory 70000 (Obj 4096 0 0) (QAllocate 70100 24) 0 = Ret 0 [(KAllocate, 2, [70000; 70100; 24])] None
  /\ perform (B true false false) demo_section demo_memory 70000 (Obj 65536 0 0) (QAllocate 70100 24) 0 = Ret ERROR_GENERAL_BAD_VTABLE [] (Some 0)
  /\ perform (B true true false) demo_section demo_memory 70000 (Obj 65536 0 0) (QAllocate 70100 24) 0 = Abort
  /\ perform (B true true true) demo_section demo_memory 70000 (Obj 65536 0 0) (QAllocate 70100 24) 0 = Ret 0 [(KAllocate, 92, [70000; 70100; 24])] (Some 0)
  /\ perform (B false true false) demo_section demo_memory 70000 (Obj 65536 0 0) (QAllocate 70100 24) 0 = Ret 0 [(KAllocate, 92, [70000; 70100; 24])] None.
Proof. repeat split. Qed.
Example demo_served : within demo_section 4144 /\ entry demo_memory 4144 psock_layout (KMeth MAccept) (Some (WFn (KMeth MAccept) 9)) /\ entry demo_memory 4144 psock_layout (KMeth MSendmsg) (Some WNull).
Proof. split; [unfold within; cbn; lia|]. split; [exists 3%nat|exists 4%nat]; split; reflexivity. Qed.
Example demo_kind : perform (B true false false) demo_section demo_memory 70000 (Obj 4136 0 0) (QAllocate 70100 24) 0 = Undef
  /\ perform (B true false false) demo_section demo_memory 70000 (Obj 4104 0 0) QRelease 0 = Undef
  /\ KRelease <> wanted (QAllocate 70100 24) /\ entry demo_memory 4136 (layout (QAllocate 70100 24)) KAllocate (Some (WFn KRelease 6)).
Proof. repeat split; [discriminate|]. exists 1%nat. split; reflexivity. Qed.
Example demo_user : user_method (fun a => if a =? 65552 then Some (WFn (KMeth MWrite) 77) else None) 70000 (Obj 4144 5 65536) MWrite [1; 2] 0 = Ret 0 [(KMeth MWrite, 77, [70000; 5; 1; 2])] None.
Proof. reflexivity. Qed.

Print Assumptions C61_served.
Print Assumptions C61_missing.
Print Assumptions C61_refused_partial.
Print Assumptions C61_halves.
Print Assumptions C61_confined_partial.
Print Assumptions C61_off.
Print Assumptions C61_assertion_refuted.
Print Assumptions C61_end_refuted.
Print Assumptions C61_kind_refuted.
Print Assumptions C61_user_refuted.
Print Assumptions C61_user_missing.
Print Assumptions C61_user_release.
Print Assumptions C61_read.
