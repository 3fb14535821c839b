(** C69: the control macros. *)
From Verif Require Import Base Status CtlModel CtlSpec.

Lemma execs_app : forall ans a b s, execs ans (a ++ b) s = match execs ans a s with Next s => execs ans b s | r => r end.
Proof. intros ans. induction a as [|x a IH]; intros b s; [reflexivity|]. cbn [app execs]. destruct (exec ans x s); [apply IH|reflexivity..]. Qed.
Lemma flat_app : forall a b, flat_map expand (a ++ b) = flat_map expand a ++ flat_map expand b.
Proof. intros. apply flat_map_app. Qed.
(** One macro *)
Lemma try_ok : forall ans o l s, ans o = STATUS_SUCCESS -> execs ans (TRY_OR_FAIL o l) s = Next (CS (Some STATUS_SUCCESS) (c_rel s) (c_log s ++ [o])).
Proof. intros ans o l s E. cbn. rewrite E. reflexivity. Qed.
Lemma try_bad : forall ans o l s, ans o <> STATUS_SUCCESS -> execs ans (TRY_OR_FAIL o l) s = Jump l (CS (Some (ans o)) (c_rel s) (c_log s ++ [o])).
Proof. intros ans o l s E. apply Z.eqb_neq in E. cbn. rewrite E. reflexivity. Qed.
Lemma cleanup_does : forall ans o s r, c_ret s = Some r ->
  execs ans (CLEANUP_OR_CASCADE o) s = Next (CS (Some (if ans o =? STATUS_SUCCESS then r else ans o)) (Some (ans o)) (c_log s ++ [o])).
Proof. intros ans o s r R. cbn. destruct (ans o =? STATUS_SUCCESS); cbn; rewrite ?R; reflexivity. Qed.
Lemma tries_ok : forall ans n i s, (forall j, (i <= j < i + n)%nat -> ans (Step j) = STATUS_SUCCESS) ->
  exists r, execs ans (flat_map expand (map (fun i => Try (Step i) i) (seq i n))) s = Next (CS r (c_rel s) (c_log s ++ map Step (seq i n))) /\ (n <> O -> r = Some STATUS_SUCCESS) /\ (n = O -> r = c_ret s).
Proof.
  intros ans. induction n as [|n IH]; intros i s H.
  - exists (c_ret s). cbn. rewrite app_nil_r. destruct s; repeat split; congruence.
  - cbn [seq map flat_map expand]. rewrite execs_app, try_ok by (apply H; lia).
    edestruct (IH (S i)) as (r & E & A & B); [intros j J; apply H; lia|]. rewrite E. cbn [c_rel c_log]. rewrite <- app_assoc. exists r. split; [reflexivity|]. split; [|discriminate].
    intros _. destruct n; [rewrite B by reflexivity; reflexivity|apply A; discriminate].
Qed.
(** The cleanups, from the label of step k on *)
Definition down (k : nat) : list stmt := flat_map expand (undoes k) ++ [SLabel 0; SReturn].
Lemma undoes_S : forall k, flat_map expand (undoes (S k)) = SLabel (S k) :: CLEANUP_OR_CASCADE (Undo k) ++ flat_map expand (undoes k).
Proof. intros k. unfold undoes. rewrite seq_S, rev_app_distr. reflexivity. Qed.
Lemma down_runs : forall ans k s r, c_ret s = Some r ->
  exists s', execs ans (down k) s = Ends (cascade ans (undid k) r) s' /\ c_log s' = c_log s ++ undid k.
Proof.
  intros ans. induction k as [|k IH]; intros s r R.
  - exists s. cbn. rewrite R, app_nil_r. split; reflexivity.
  - unfold down. rewrite undoes_S. cbn [app execs exec]. rewrite <- app_assoc, execs_app, (cleanup_does ans _ s r R). fold (down k).
    destruct (IH (CS (Some (if ans (Undo k) =? STATUS_SUCCESS then r else ans (Undo k))) (Some (ans (Undo k))) (c_log s ++ [Undo k])) _ eq_refl) as (s' & E & L). rewrite E.
    exists s'. unfold undid. rewrite seq_S, rev_app_distr. cbn [rev app map cascade plus]. split; [reflexivity|]. rewrite L. cbn [c_log]. rewrite <- app_assoc. reflexivity.
Qed.
Lemma behind_skip : forall l a b, Forall (fun x => match x with SLabel k => k <> l | _ => True end) a -> behind l (a ++ b) = behind l b.
Proof.
  intros l. induction a as [|x a IH]; intros b H; [reflexivity|]. inversion H as [|? ? X Y]; subst. cbn [app behind]. destruct x; try (apply IH; exact Y).
  apply Nat.eqb_neq in X. rewrite X. apply IH. exact Y.
Qed.
Lemma tries_plain : forall l n i, Forall (fun x => match x with SLabel k => k <> l | _ => True end) (flat_map expand (map (fun i => Try (Step i) i) (seq i n))).
Proof. intros l. induction n as [|n IH]; intros i; [constructor|]. cbn [seq map flat_map expand]. apply Forall_app. split; [repeat constructor|apply IH]. Qed.
Lemma down_behind : forall n k, (S k <= n)%nat -> behind (S k) (down n) = Some (CLEANUP_OR_CASCADE (Undo k) ++ down k).
Proof.
  induction n as [|n IH]; intros k K; [lia|]. unfold down. rewrite undoes_S. cbn [app behind]. destruct (Nat.eqb_spec (S n) (S k)) as [E|E].
  - injection E as <-. rewrite <- app_assoc. reflexivity.
  - rewrite <- app_assoc, behind_skip by (repeat constructor). apply IH. lia.
Qed.
Lemma down_zero : forall n, behind 0 (down n) = Some [SReturn].
Proof. induction n as [|n IH]; [reflexivity|]. unfold down. rewrite undoes_S. cbn [app behind Nat.eqb]. rewrite <- app_assoc, behind_skip by (repeat constructor). exact IH. Qed.
Lemma body_of : forall keep n, preprocess (ladder keep n) = CONTROL_PREAMBLE ++ flat_map expand (tries n) ++ SSucceed :: (if keep then [SGoto 0] else []) ++ down n.
Proof.
  intros keep n. unfold preprocess, ladder. rewrite !flat_app. unfold down. destruct keep; reflexivity.
Qed.
Lemma body_behind : forall keep n l, behind l (preprocess (ladder keep n)) = behind l (down n).
Proof.
  intros keep n l. rewrite body_of, behind_skip by (repeat constructor). rewrite behind_skip by apply tries_plain. cbn [behind]. destruct keep; reflexivity.
Qed.

(** If a step fails, the later ones are not tried; exactly the steps before it are undone, last
    first, whatever cleanups fail; and the status is that of the last cleanup that failed, or else
    that of the step. *)
Theorem C69_failure : forall ans keep n k jumps, first_failure ans n k ->
  result (call (S jumps) ans (ladder keep n)) = Some (cascade ans (undid k) (ans (Step k)), did (S k) ++ undid k).
Proof.
  intros ans keep n k jumps (K & F & O). unfold call.
  assert (E : execs ans (preprocess (ladder keep n)) (CS None None []) = Jump k (CS (Some (ans (Step k))) None (did (S k)))).
  { rewrite body_of, execs_app. cbn [execs CONTROL_PREAMBLE exec c_log]. unfold tries. replace (seq 0 n) with (seq 0 k ++ k :: seq (S k) (n - S k)).
    2: { replace n with (k + S (n - S k))%nat at 2 by lia. rewrite seq_app. reflexivity. }
    rewrite map_app, flat_app. cbn [map flat_map expand]. rewrite <- !app_assoc, execs_app. destruct (tries_ok ans k 0 (CS None None [])) as (r & -> & _); [intros j J; apply O; lia|].
    cbn [c_rel c_log app]. rewrite execs_app, (try_bad _ _ _ _ F). cbn [c_rel c_log]. unfold did. rewrite seq_S, map_app. reflexivity. }
  cbn [run]. rewrite E, body_behind. destruct k as [|k].
  - rewrite down_zero. destruct jumps; reflexivity.
  - rewrite down_behind by lia. assert (D : exists s', execs ans (CLEANUP_OR_CASCADE (Undo k) ++ down k) (CS (Some (ans (Step (S k)))) None (did (S (S k)))) = Ends (cascade ans (undid (S k)) (ans (Step (S k)))) s' /\ c_log s' = did (S (S k)) ++ undid (S k)).
    { destruct (down_runs ans (S k) (CS (Some (ans (Step (S k)))) None (did (S (S k)))) _ eq_refl) as (s' & E' & L). exists s'. split; [|exact L].
      unfold down in E'. rewrite undoes_S in E'. cbn [app execs exec] in E'. rewrite <- app_assoc in E'. exact E'. }
    destruct D as (s' & E' & L). destruct jumps; cbn [run]; rewrite E'; cbn [result]; rewrite L; reflexivity.
Qed.
(** If all steps succeed, a constructor returns success and undoes nothing; another function undoes
    them all, last first, and returns success unless a cleanup failed. *)
Theorem C69_success : forall ans n jumps, all_succeed ans n ->
  result (call (S jumps) ans (ladder true n)) = Some (STATUS_SUCCESS, did n) /\
  result (call jumps ans (ladder false n)) = Some (cascade ans (undid n) STATUS_SUCCESS, did n ++ undid n).
Proof.
  intros ans n jumps O.
  assert (E : forall keep, execs ans (preprocess (ladder keep n)) (CS None None []) = execs ans ((if keep then [SGoto 0] else []) ++ down n) (CS (Some STATUS_SUCCESS) None (did n))).
  { intros keep. rewrite body_of, execs_app. cbn [execs CONTROL_PREAMBLE exec c_log]. unfold tries. rewrite execs_app. destruct (tries_ok ans n 0 (CS None None [])) as (r & -> & _); [intros j J; apply O; lia|]. reflexivity. }
  unfold call. split.
  - cbn [run]. rewrite E. cbn [app execs exec]. rewrite body_behind, down_zero. destruct jumps; reflexivity.
  - destruct (down_runs ans n (CS (Some STATUS_SUCCESS) None (did n)) _ eq_refl) as (s' & E' & L). destruct jumps; cbn [run]; rewrite E; cbn [app]; rewrite E'; cbn [result]; rewrite L; reflexivity.
Qed.
(** So it returns success exactly if nothing that it called failed. *)
Theorem C69_returns : forall ans keep n jumps, exists z log, result (call (S jumps) ans (ladder keep n)) = Some (z, log) /\
  (z = STATUS_SUCCESS <-> forall o, In o log -> ans o = STATUS_SUCCESS).
Proof.
  intros ans keep n jumps.
  assert (C : forall l st, cascade ans l st = STATUS_SUCCESS <-> st = STATUS_SUCCESS /\ forall o, In o l -> ans o = STATUS_SUCCESS).
  { induction l as [|o l IH]; intros st; cbn [cascade In]; [tauto|]. rewrite IH. destruct (Z.eqb_spec (ans o) STATUS_SUCCESS) as [E|E].
    - split; intros (A & B); split; auto. intros x [<-|X]; auto.
    - split; [intros (A & _); contradiction|intros (_ & B); exfalso; apply E; auto]. }
  assert (D : all_succeed ans n \/ exists k, first_failure ans n k).
  { clear. induction n as [|n [IH|(k & K & F & O)]]; [left; intros i I; lia| |right; exists k; repeat split; auto].
    destruct (Z.eq_dec (ans (Step n)) STATUS_SUCCESS) as [E|E]; [left|right; exists n; repeat split; auto].
    intros i I. destruct (Nat.eq_dec i n) as [->|N]; [exact E|apply IH; lia]. }
  destruct D as [S|(k & F)].
  - destruct (C69_success ans n jumps S) as (A & _). destruct (C69_success ans n (Datatypes.S jumps) S) as (_ & B). assert (G : forall o, In o (did n) -> ans o = STATUS_SUCCESS).
    { intros o I. unfold did in I. apply in_map_iff in I. destruct I as (i & <- & I). apply S. apply in_seq in I. lia. }
    destruct keep; [exists STATUS_SUCCESS, (did n); split; [exact A|tauto]|]. eexists _, _. split; [exact B|]. rewrite C. split.
    + intros (_ & X) o I. apply in_app_or in I. destruct I; auto.
    + intros X. split; [reflexivity|]. intros o I. apply X, in_or_app. auto.
  - eexists _, _. split; [exact (C69_failure ans keep n k jumps F)|]. destruct F as (K & F & O). rewrite C. split; [intros (X & _); contradiction|].
    intros X. exfalso. apply F, X, in_or_app. left. unfold did. apply in_map, in_seq. lia.
Qed.
(** The macros are not single statements: behind an if without braces, only the evaluation is
    governed by it.  If the condition is false, TRY_OR_FAIL jumps by what an earlier operation
    returned, CLEANUP_OR_CASCADE overwrites the status by that of an earlier cleanup, and both read
    a variable that may not be initialised. *)
Theorem C69_unbraced_refuted : forall ans t o l s, ans (Test t) = 0 ->
  (forall r, c_ret s = Some r -> r <> STATUS_SUCCESS -> execs ans (expand (When (Test t) (Try o l))) s = Jump l (note (Test t) s)) /\
  (c_ret s = None -> execs ans (expand (When (Test t) (Try o l))) s = Undef) /\
  (forall r, c_rel s = Some r -> r <> STATUS_SUCCESS -> execs ans (expand (When (Test t) (Cleanup o))) s = Next (set Retval (Some r) (note (Test t) s))) /\
  (c_rel s = None -> execs ans (expand (When (Test t) (Cleanup o))) s = Undef).
Proof.
  intros ans t o l s T. cbn. rewrite T. cbn. repeat split.
  - intros r -> N. apply Z.eqb_neq in N. rewrite N. reflexivity.
  - intros ->. reflexivity.
  - intros r E N. rewrite E. apply Z.eqb_neq in N. rewrite N. cbn. rewrite ?E. reflexivity.
  - intros ->. reflexivity.
Qed.
(** With braces, or if the condition is true, they do what they say. *)
Theorem C69_braced : forall ans t o l s,
  let s' := note (Test t) s in
  execs ans (expand (Block (Test t) [Try o l])) s = (if ans (Test t) =? 0 then Next s' else execs ans (TRY_OR_FAIL o l) s') /\
  execs ans (expand (Block (Test t) [Cleanup o])) s = (if ans (Test t) =? 0 then Next s' else execs ans (CLEANUP_OR_CASCADE o) s') /\
  (ans (Test t) <> 0 -> execs ans (expand (When (Test t) (Try o l))) s = execs ans (TRY_OR_FAIL o l) s' /\ execs ans (expand (When (Test t) (Cleanup o))) s = execs ans (CLEANUP_OR_CASCADE o) s').
Proof.
  intros ans t o l s s'. unfold s'. split; [|split].
  - cbn. destruct (ans (Test t) =? 0); [reflexivity|]. cbn. destruct (ans o =? STATUS_SUCCESS); reflexivity.
  - cbn. destruct (ans (Test t) =? 0); [reflexivity|]. cbn. destruct (ans o =? STATUS_SUCCESS); reflexivity.
  - intros N. apply Z.eqb_neq in N. cbn. rewrite N. split; reflexivity.
Qed.
(** CONTROL_PREAMBLE does not initialise: a function that only cleans up returns an indeterminate
    value unless a cleanup fails. *)
Theorem C69_unset_refuted : forall ans o jumps, call jumps ans [Preamble; Cleanup o; Plain SReturn] =
  if ans o =? STATUS_SUCCESS then Undef else Ends (ans o) (CS (Some (ans o)) (Some (ans o)) [o]).
Proof. intros ans o jumps. destruct jumps; cbn; destruct (ans o =? STATUS_SUCCESS); reflexivity. Qed.

(** Four steps, of which the third fails, and then the cleanup of the first *)
Example C69_failure_example :
  let ans o := match o with Step 2 => 5 | Undo 0 => 7 | _ => 0 end in first_failure ans 4 2 /\
  result (call 1 ans (ladder true 4)) = Some (7, [Step 0; Step 1; Step 2; Undo 1; Undo 0]) /\
  result (call 1 (fun o => match o with Step 2 => 5 | _ => 0 end) (ladder false 4)) = Some (5, [Step 0; Step 1; Step 2; Undo 1; Undo 0]) /\
  result (call 1 (fun _ => 0) (ladder false 2)) = Some (0, [Step 0; Step 1; Undo 1; Undo 0]) /\
  result (call 1 (fun _ => 0) (ladder true 2)) = Some (0, [Step 0; Step 1]).
Proof. cbv zeta. repeat split; try lia; try discriminate. intros i I. destruct i as [|[|i]]; [reflexivity|reflexivity|lia]. Qed.
(** A failed step, then a step that is not wanted: the function jumps to the label of the latter *)
Example C69_unbraced_example :
  let f c := [Preamble; Plain SSucceed; Plain (SCall Retval (Step 0)); c (Test 0) (Try (Step 1) 1); Plain SSucceed; Plain SReturn; Plain (SLabel 1); Plain SReturn] in
  let ans o := match o with Step 0 => 5 | _ => 0 end in
  result (call 1 ans (f When)) = Some (5, [Step 0; Test 0]) /\ result (call 1 ans (f (fun o x => Block o [x]))) = Some (0, [Step 0; Test 0]).
Proof. split; reflexivity. Qed.
(** A label may be before the jump. *)
Example C69_backward_example : result (call 2 (fun _ => 0) [Preamble; Plain (SGoto 1); Plain (SLabel 2); Try (Step 0) 3; Plain SReturn; Plain (SLabel 1); Plain (SGoto 2); Plain (SLabel 3)]) = Some (0, [Step 0]).
Proof. reflexivity. Qed.

Print Assumptions C69_failure.
Print Assumptions C69_success.
Print Assumptions C69_returns.
Print Assumptions C69_unbraced_refuted.
Print Assumptions C69_braced.
Print Assumptions C69_unset_refuted.
