(** Lemmas for C67 and C68. *)
From Verif Require Import Base Status ImgModel ExitModel ExitSpec.


Lemma noted_first : forall c st err, c <> 0 -> noted c st err = c.
Proof. intros c st err C. unfold noted. destruct (fails st); [|reflexivity]. apply Z.eqb_neq in C. rewrite C. reflexivity. Qed.
Lemma fails_iff : forall st, st <> STATUS_SUCCESS -> fails st = true.
Proof. intros st C. unfold fails. apply Z.eqb_neq in C. rewrite C. reflexivity. Qed.
Lemma fails_not : forall st, fails st = false -> st = STATUS_SUCCESS.
Proof. intros st C. unfold fails in C. apply negb_false_iff in C. apply Z.eqb_eq in C. exact C. Qed.
Lemma fails_true : forall st, fails st = true -> st <> STATUS_SUCCESS.
Proof. intros st C. unfold fails in C. apply negb_true_iff in C. apply Z.eqb_neq in C. exact C. Qed.
Lemma frames_log : forall a rest i log, frames a i rest log = cleanup_config a 0 log \/ snd (frames a i rest log) = log /\ forall c, fst (frames a i rest log) <> Returns c /\ fst (frames a i rest log) <> Exits c.
Proof.
  intros a. induction rest as [|r IH]; intros i log; [left; reflexivity|]. cbn [frames].
  destruct (fails (a_wake a i)); [right; split; [reflexivity|split; discriminate]|].
  destruct (a_wait a i) as [st|]; [|right; split; [reflexivity|split; discriminate]]. destruct (fails st); [right; split; [reflexivity|split; discriminate]|].
  destruct (a_strdup a && a_open a i); [apply IH|right; split; [reflexivity|split; discriminate]].
Qed.
Lemma frames_skip : forall a rest i log, wrote a (i + Z.of_nat rest) -> 0 <= i -> forall more, frames a i (rest + more) log = frames a (i + Z.of_nat rest) more log.
Proof.
  intros a. induction rest as [|r IH]; intros i log W I more; [cbn [Nat.add]; f_equal; lia|]. cbn [Nat.add frames]. destruct W as [S W].
  destruct (W i ltac:(lia)) as (A & B & C). rewrite A, B, S, C. cbn [fails STATUS_SUCCESS Z.eqb negb andb]. change (fails STATUS_SUCCESS) with false. cbn iota.
  rewrite IH; [f_equal; lia| |lia]. split; [exact S|]. intros j J. apply W. lia.
Qed.
(** Nothing fails before the threads are made. *)
Lemma before_threads : forall a, stops (starts a) [] = None ->
  mandelbrot a = create_threads a 0 (Z.to_nat JOBS) ([Acq Allocator; Acq Config] ++ (if a_strdup a then [Acq Prefix] else []) ++ [Acq Array; Acq Mutex; Acq WorkerCond; Acq MainCond; Acq Threads]).
Proof.
  intros a H. unfold mandelbrot, starts in *. cbn [stops] in H. unfold fails.
  change STATUS_SUCCESS with 0 in *.
  destruct (a_alloc a =? 0); [|discriminate]. destruct (a_config a =? 0); [|discriminate]. destruct (a_array a); [|discriminate].
  destruct (a_mutex a =? 0); [|discriminate]. destruct (a_wcond a =? 0); [|discriminate]. destruct (a_mcond a =? 0); [|discriminate]. destruct (a_threads a); [|discriminate].
  cbn [negb]. destruct (a_strdup a); reflexivity.
Qed.
Lemma thread_range : forall P : Z -> Prop, (forall i, 0 <= i < JOBS -> P i) -> P 0 /\ P 1 /\ P 2 /\ P 3 /\ P 4 /\ P 5 /\ P 6 /\ P 7.
Proof. intros P H. unfold JOBS in H. repeat split; apply H; lia. Qed.
Definition started (a : manswers) : list ev :=
  [Acq Allocator; Acq Config] ++ (if a_strdup a then [Acq Prefix] else []) ++ [Acq Array; Acq Mutex; Acq WorkerCond; Acq MainCond; Acq Threads] ++ map (fun i => Acq (Thread (Z.of_nat i))) (seq 0 (Z.to_nat JOBS)).
Lemma all_made : forall a, stops (starts a) [] = None -> made a JOBS ->
  mandelbrot a = if fails (a_lock a) then cleanup_threads a JOBS 11 false (started a) else frames a 0 (Z.to_nat FRAMES) (started a ++ [Acq Lock]).
Proof.
  intros a H M. rewrite (before_threads a H). destruct (thread_range _ M) as (M0 & M1 & M2 & M3 & M4 & M5 & M6 & M7). clear M. unfold started.
  set (F := Z.to_nat FRAMES). change (Z.to_nat JOBS) with 8%nat. cbn [create_threads]. change (0 + 1) with 1. change (1 + 1) with 2. change (2 + 1) with 3. change (3 + 1) with 4. change (4 + 1) with 5. change (5 + 1) with 6. change (6 + 1) with 7.
  rewrite M0, M1, M2, M3, M4, M5, M6, M7. change (fails STATUS_SUCCESS) with false. cbn iota. fold F.
  replace ((((((((([Acq Allocator; Acq Config] ++ (if a_strdup a then [Acq Prefix] else []) ++ [Acq Array; Acq Mutex; Acq WorkerCond; Acq MainCond; Acq Threads]) ++ [Acq (Thread 0)]) ++ [Acq (Thread 1)]) ++ [Acq (Thread 2)]) ++ [Acq (Thread 3)]) ++ [Acq (Thread 4)]) ++ [Acq (Thread 5)]) ++ [Acq (Thread 6)]) ++ [Acq (Thread 7)])
    with ([Acq Allocator; Acq Config] ++ (if a_strdup a then [Acq Prefix] else []) ++ [Acq Array; Acq Mutex; Acq WorkerCond; Acq MainCond; Acq Threads] ++ map (fun i => Acq (Thread (Z.of_nat i))) (seq 0 8)) by (destruct (a_strdup a); reflexivity).
  reflexivity.
Qed.
Lemma rel_from : forall a k i rest code log, (0 <= i <= k) -> k < i + Z.of_nat rest ->
  let r := fst (release_threads a k i rest code log) in r = Undefined \/ r = Hangs.
Proof.
  intros a k i rest. revert i. induction rest as [|n IH]; intros i code log I K; [lia|]. cbn [release_threads].
  destruct (Z.leb_spec k i); [left; reflexivity|]. destruct (a_join a i); [|right; reflexivity]. apply IH; lia.
Qed.
Lemma rel_undef : forall a k i rest code log, (0 <= i <= k) -> k < i + Z.of_nat rest -> (forall j, i <= j < k -> exists st, a_join a j = Some st) ->
  fst (release_threads a k i rest code log) = Undefined.
Proof.
  intros a k i rest. revert i. induction rest as [|n IH]; intros i code log I K J; [lia|]. cbn [release_threads].
  destruct (Z.leb_spec k i); [reflexivity|]. destruct (J i ltac:(lia)) as (st & ->). apply IH; try lia. intros j Q. apply J. lia.
Qed.
(** Thread [k] is the first that cannot be made. *)
Lemma first_failed : forall a k, stops (starts a) [] = None -> 0 <= k < JOBS -> made a k -> a_thread a k <> STATUS_SUCCESS ->
  mandelbrot a = cleanup_threads a k 9 false ([Acq Allocator; Acq Config] ++ (if a_strdup a then [Acq Prefix] else []) ++ [Acq Array; Acq Mutex; Acq WorkerCond; Acq MainCond; Acq Threads] ++ map (fun i => Acq (Thread (Z.of_nat i))) (seq 0 (Z.to_nat k))).
Proof.
  intros a k H K M F. rewrite (before_threads a H).
  assert (G : forall n i log, 0 <= i -> (forall j, i <= j < i + Z.of_nat n -> a_thread a j = STATUS_SUCCESS) -> i + Z.of_nat n = k ->
    create_threads a i (n + S (Z.to_nat (JOBS - k - 1))) log = cleanup_threads a k 9 false (log ++ map (fun i => Acq (Thread (Z.of_nat i))) (seq (Z.to_nat i) n))).
  { induction n as [|n IH]; intros i log I MM E.
    - cbn [Nat.add create_threads seq map]. replace i with k by lia. rewrite (fails_iff _ F), app_nil_r. reflexivity.
    - cbn [Nat.add create_threads seq map]. rewrite (MM i) by lia. change (fails STATUS_SUCCESS) with false. cbn iota. rewrite IH; [|lia|intros j J; apply MM; lia|lia].
      rewrite <- app_assoc. cbn [app]. rewrite Z2Nat.id by lia. replace (Z.to_nat (i + 1)) with (S (Z.to_nat i)) by lia. reflexivity. }
  replace (Z.to_nat JOBS) with (Z.to_nat k + S (Z.to_nat (JOBS - k - 1)))%nat by lia. rewrite G; [|lia|intros j J; apply M; lia|lia].
  f_equal. rewrite <- !app_assoc. reflexivity.
Qed.
Lemma split_threads : forall a, made a JOBS \/ exists k, 0 <= k < JOBS /\ made a k /\ a_thread a k <> STATUS_SUCCESS.
Proof.
  intros a. assert (G : forall n, made a (Z.of_nat n) \/ exists k, 0 <= k < Z.of_nat n /\ made a k /\ a_thread a k <> STATUS_SUCCESS).
  { induction n as [|n [IH|(k & A & B & C)]]; [left; intros i I; lia| |right; exists k; repeat split; try assumption; lia].
    destruct (Z.eq_dec (a_thread a (Z.of_nat n)) STATUS_SUCCESS) as [E|E]; [left|right; exists (Z.of_nat n); repeat split; try assumption; lia].
    intros i I. destruct (Z.eq_dec i (Z.of_nat n)) as [->|D]; [exact E|apply IH; lia]. }
  destruct (G (Z.to_nat JOBS)) as [A|(k & A & B)]; [left; exact A|right; exists k; split; [unfold JOBS in *; lia|exact B]].
Qed.
Lemma frames_back : forall a rest i log c, fst (frames a i rest log) = Returns c -> c = 0 /\ (rest <> O -> a_strdup a = true) /\ forall j, i <= j < i + Z.of_nat rest -> a_wake a j = STATUS_SUCCESS /\ a_wait a j = Some STATUS_SUCCESS /\ a_open a j = true.
Proof.
  intros a. induction rest as [|r IH]; intros i log c R.
  - injection R as <-. split; [reflexivity|]. split; [congruence|intros; lia].
  - cbn [frames] in R. destruct (fails (a_wake a i)) eqn:A; [discriminate|]. destruct (a_wait a i) as [st|] eqn:B; [|discriminate]. destruct (fails st) eqn:C; [discriminate|].
    destruct (a_strdup a && a_open a i) eqn:D; [|discriminate]. apply andb_prop in D. destruct D as [D E]. destruct (IH _ _ _ R) as (X & Y & W).
    split; [exact X|]. split; [intros _; exact D|]. intros j J. destruct (Z.eq_dec j i) as [->|N]; [|apply W; lia].
    rewrite (fails_not _ A), B, (fails_not _ C), E. auto.
Qed.
(** The release of the threads behind cleanup_threads *)
Definition upto (a : manswers) (k : Z) : list ev :=
  ([Acq Allocator; Acq Config] ++ (if a_strdup a then [Acq Prefix] else []) ++ [Acq Array; Acq Mutex; Acq WorkerCond; Acq MainCond; Acq Threads] ++ map (fun i => Acq (Thread (Z.of_nat i))) (seq 0 (Z.to_nat k))) ++ [Acq Lock; Rel Lock].
Lemma release_safe : forall a k code log, 0 <= k <= JOBS -> log = upto a k -> left_over (snd (release_threads a k 0 (Z.to_nat JOBS) code log)) <> None.
Proof.
  intros a k code log K ->. assert (KK : k = 0 \/ k = 1 \/ k = 2 \/ k = 3 \/ k = 4 \/ k = 5 \/ k = 6 \/ k = 7 \/ k = 8) by (unfold JOBS in K; lia). clear K.
  unfold upto. change (Z.to_nat JOBS) with 8%nat.
  decompose [or] KK; subst k; clear KK; cbn [release_threads Z.leb Z.compare Pos.compare Pos.compare_cont];
    change (0 + 1) with 1; change (1 + 1) with 2; change (2 + 1) with 3; change (3 + 1) with 4; change (4 + 1) with 5; change (5 + 1) with 6; change (6 + 1) with 7; change (7 + 1) with 8; cbn [Z.leb Z.compare Pos.compare Pos.compare_cont];
    repeat match goal with |- context [match a_join a ?i with _ => _ end] => destruct (a_join a i) end;
    unfold release_main_cond, release_worker_cond, release_mutex, free_array, cleanup_config, cleanup_allocator; cbn [snd]; destruct (a_strdup a); vm_compute; discriminate.
Qed.
(** * The echo server *)
Lemma or_fails : forall st rel, fails st = true -> fails (or_else st rel) = true.
Proof. intros st rel E. unfold or_else. destruct (fails rel) eqn:R; assumption. Qed.
Lemma or_zero : forall st, or_else st 0 = st.
Proof. reflexivity. Qed.
Lemma err_cons : forall st l, fails st = false -> first_error (st :: l) = first_error l.
Proof. intros st l E. apply fails_not in E. subst st. reflexivity. Qed.
Lemma err_here : forall st l, fails st = true -> first_error (st :: l) = st.
Proof. intros st l E. apply fails_true in E. apply Z.eqb_neq in E. cbn [first_error]. rewrite E. reflexivity. Qed.
Lemma first_app : forall l m, first_error (l ++ m) = if first_error l =? 0 then first_error m else first_error l.
Proof. induction l as [|st l IH]; intros m; [reflexivity|]. cbn [app first_error]. destruct (st =? STATUS_SUCCESS) eqn:E; [apply IH|]. change STATUS_SUCCESS with 0 in E. rewrite E. reflexivity. Qed.
(** A call that acquires things: it succeeds, or it fails having given all back *)
Definition part (a : eanswers) (r : Z * list ev) (calls : list Z) (good : list ev) (bad : list (list ev)) : Prop :=
  (first_error calls = 0 /\ r = (STATUS_SUCCESS, good)) \/
  (first_error calls <> 0 /\ fails (fst r) = true /\ In (snd r) bad /\ (releases a -> fst r = first_error calls)).
Ltac here := rewrite ?err_cons by assumption; rewrite err_here by assumption.
Ltac now_bad := right; split; [here; apply fails_true; assumption|]; split; [cbn [fst]; repeat apply or_fails; assumption|]; split; [cbn [snd In app]; intuition|].
Lemma manager_part : forall a, part a (add_manager a) [e_mgr a; e_mgr_add a] [Acq Manager] [[]; [Acq Manager; Rel Manager]].
Proof.
  intros a. unfold add_manager. destruct (fails (e_mgr a)) eqn:E1; [now_bad; intros _; here; reflexivity|].
  destruct (fails (e_mgr_add a)) eqn:E2; [now_bad; intros (-> & R); here; reflexivity|].
  left. rewrite !err_cons by assumption. split; reflexivity.
Qed.
Lemma listener_part : forall a, part a (add_listener a) [e_ctx a; e_lis a; e_lis_cb a; e_lis_add a] [Acq ListenContext; Acq Listener]
  [[]; [Acq ListenContext; Rel ListenContext]; [Acq ListenContext; Acq Listener; Rel Listener; Rel ListenContext]].
Proof.
  intros a. unfold add_listener. destruct (fails (e_ctx a)) eqn:E1; [now_bad; intros _; here; reflexivity|].
  destruct (fails (e_lis a)) eqn:E2; [now_bad; intros (_ & _ & -> & R); here; reflexivity|].
  destruct (fails (e_lis_cb a)) eqn:E3; [now_bad; intros (_ & -> & -> & R); here; reflexivity|].
  destruct (fails (e_lis_add a)) eqn:E4; [now_bad; intros (_ & -> & -> & R); here; reflexivity|].
  left. rewrite !err_cons by assumption. split; reflexivity.
Qed.
Lemma signal_part : forall a, part a (start_signal_thread a) [e_pair a; e_sig a; e_left a; e_thread a] [Acq Left; Acq Right; Acq SignalContext; Acq LeftSocket; Acq SignalThread]
  [[]; [Acq Left; Acq Right; Rel Left; Rel Right]; [Acq Left; Acq Right; Acq SignalContext; Rel SignalContext; Rel Left; Rel Right];
   [Acq Left; Acq Right; Acq SignalContext; Acq LeftSocket; Rel Left; Rel LeftSocket; Rel SignalContext; Rel Right]].
Proof.
  intros a. unfold start_signal_thread. destruct (fails (e_pair a)) eqn:E1; [now_bad; intros _; here; reflexivity|].
  destruct (fails (e_sig a)) eqn:E2; [now_bad; intros _; here; reflexivity|].
  destruct (fails (e_left a)) eqn:E3; [now_bad; intros (_ & _ & _ & _ & -> & R); here; reflexivity|].
  destruct (fails (e_thread a)) eqn:E4; [now_bad; intros (_ & _ & _ & -> & -> & R); here; reflexivity|].
  left. rewrite !err_cons by assumption. split; reflexivity.
Qed.
Lemma first_zero : forall l, first_error l = 0 -> Forall (fun st => st = 0) l.
Proof. induction l as [|st l IH]; intros H; [constructor|]. cbn [first_error] in H. change STATUS_SUCCESS with 0 in H. destruct (Z.eqb_spec st 0) as [->|N]; [constructor; [reflexivity|apply IH; exact H]|congruence]. Qed.
