(** C62: what the echo server sends back. *)
From Verif Require Import Base Status CodecModel MemModel AsyncModel AsyncSpec EchoModel EchoSpec EchoProofs.

(** ** C62 *)
(** Between two rounds of its loop the fiber has sent back exactly what it received, in order,
    for every schedule of partial transfers, would-blocks and waits. *)
Theorem C62_rounds_echo : forall f a b, rounds f a b ->
  exists r, k_in (a_k a) = r ++ k_in (a_k b) /\ k_out (a_k b) = k_out (a_k a) ++ r.
Proof. intros f a b R. apply (rounds_spec f a b R). Qed.

(** The full claim "what the peer sends before it closes comes back" is false (below).  What holds:
    the fiber ends for every script; up to its last round everything received was sent back; of
    the at most 1024 bytes [d] of the last round a front part was; the status says why it ended,
    unless closing the socket or giving back its context failed.  Missing: that [d] is empty. *)
Theorem C62_echo_partial : forall f a sock_release reclaim, exists e m b,
  echo_entry f sock_release reclaim a =
    Some (if negb (ok sock_release) then sock_release else if negb (ok reclaim) then reclaim else e, b) /\
  rounds f a m /\ echo_turn f m = Some (Ends e b) /\ e <> STATUS_SUCCESS /\
  exists r d c, k_in (a_k a) = r ++ d ++ k_in (a_k b) /\ k_out (a_k b) = k_out (a_k a) ++ r ++ firstn c d /\
    (length d <= Z.to_nat 1024)%nat /\ (c <= length d)%nat /\ ending f a e d c (k_in (a_k b)).
Proof. exact entry_spec. Qed.

(** If the peer always takes what it is sent, an end that is neither a failed read nor the end of
    the stream (a request to quiesce while waiting for input, say) leaves nothing unanswered. *)
Theorem C62_interrupted_wait : forall f a e b, Forall (fun w => exists n, w = KGive n) (k_ws (a_k a)) ->
  echo_entry f STATUS_SUCCESS STATUS_SUCCESS a = Some (e, b) -> e <> ERROR_PSOCK_READ_GENERAL -> e <> ERROR_PSOCK_READ_EOF ->
  exists r, k_in (a_k a) = r ++ k_in (a_k b) /\ k_out (a_k b) = k_out (a_k a) ++ r.
Proof.
  intros f a e b W E N1 N2.
  assert (NF : forall n, ~ In (KFail n) (k_ws (a_k a))).
  { intros n I. rewrite Forall_forall in W. destruct (W _ I) as (x & X). discriminate. }
  assert (Q : quiet (k_ws (a_k a))).
  { eapply Forall_impl; [|exact W]. intros w (n & ->). exact Logic.I. }
  destruct (entry_spec f a STATUS_SUCCESS STATUS_SUCCESS) as (e' & m & b' & E1 & _ & _ & _ & r & d & c & I & O & _ & _ & H).
  rewrite E in E1. injection E1 as -> ->. change (negb (ok STATUS_SUCCESS)) with false in *. cbv iota in *.
  destruct H as [(H & _)|[(H & _)|[(H & _)|[(H & n & H1 & _)|[(H & H1)|(_ & H)]]]]].
  - congruence.
  - congruence.
  - subst d. rewrite firstn_nil, app_nil_r in O. exists r. auto.
  - destruct (NF n H1).
  - destruct (H1 Q).
  - destruct (NF _ H).
Qed.

(** Bursts of up to 1024 bytes come back completely if each has been read before the next
    arrives and before the peer closes; then the fiber ends with the end of the stream. *)
Theorem C62_bursts_come_back : forall bs f a, in_bursts bs (a_k a) ->
  quiet (k_ws (a_k a)) -> waits_work f (a_ys a) -> a_type a = PSOCK_TYPE_WRAP_ASYNC -> a_rfib a = 0 -> a_wfib a = 0 ->
  exists b, echo_entry f STATUS_SUCCESS STATUS_SUCCESS a = Some (ERROR_PSOCK_READ_EOF, b) /\
    k_in (a_k b) = [] /\ k_out (a_k b) = k_out (a_k a) ++ concat bs.
Proof.
  intros bs f a B Q W T RF WF. destruct (bursts_loop bs f a B Q W T RF WF) as (n & b & L & I & O). exists b. split; [|auto].
  rewrite (entry_loop _ _ _ _ _ STATUS_SUCCESS STATUS_SUCCESS L). reflexivity.
Qed.

(** If the peer has sent everything and closed before the fiber reads, only whole buffers of
    1024 bytes come back: the rest is read together with the end of the stream and dropped. *)
Theorem C62_sent_and_closed : forall f a, k_rs (a_k a) = [] ->
  quiet (k_ws (a_k a)) -> waits_work f (a_ys a) -> a_type a = PSOCK_TYPE_WRAP_ASYNC -> a_rfib a = 0 -> a_wfib a = 0 ->
  exists b, echo_entry f STATUS_SUCCESS STATUS_SUCCESS a = Some (ERROR_PSOCK_READ_EOF, b) /\ k_in (a_k b) = [] /\
    k_out (a_k b) = k_out (a_k a) ++ firstn (length (k_in (a_k a)) / Z.to_nat 1024 * Z.to_nat 1024) (k_in (a_k a)).
Proof.
  intros f a K Q W T RF WF. destruct (at_once_loop _ f a K eq_refl Q W T RF WF) as (n & b & L & I & O). exists b. split; [|auto].
  rewrite (entry_loop _ _ _ _ _ STATUS_SUCCESS STATUS_SUCCESS L). reflexivity.
Qed.

(** A peer that sends three bytes and closes gets none back, although no call fails. *)
Theorem C62_echo_refuted : exists f a e b, k_rs (a_k a) = [] /\ k_ws (a_k a) = [] /\ waits_work f (a_ys a) /\
  a_type a = PSOCK_TYPE_WRAP_ASYNC /\ echo_entry f STATUS_SUCCESS STATUS_SUCCESS a = Some (e, b) /\
  k_in (a_k a) <> [] /\ k_in (a_k b) = [] /\ k_out (a_k b) = [].
Proof.
  exists (Fenv STATUS_SUCCESS STATUS_SUCCESS 7), (Async PSOCK_TYPE_WRAP_ASYNC (Kern [1;2;3] [] [] []) 0 0 [] []).
  do 2 eexists. do 2 (split; [reflexivity|]). split; [repeat constructor|]. split; [reflexivity|]. split; [vm_compute; reflexivity|].
  split; [discriminate|]. split; reflexivity.
Qed.

(** Two bursts, with partial writes and a wait for output. *)
Definition e62 : async :=
  Async PSOCK_TYPE_WRAP_ASYNC
    (Kern [1;2;3;4;5] [KGive 1; KFail EAGAIN; KGive 2; KFail EAGAIN] [] [KGive 0; KFail EAGAIN; KGive 4]) 0 0
    [Yev STATUS_SUCCESS true 0] [].
Definition f62 : fenv := Fenv STATUS_SUCCESS STATUS_SUCCESS 7.
Example C62_bursts_example :
  in_bursts [[1;2];[3;4;5]] (a_k e62) /\ quiet (k_ws (a_k e62)) /\ waits_work f62 (a_ys e62) /\
  a_type e62 = PSOCK_TYPE_WRAP_ASYNC /\ a_rfib e62 = 0 /\ a_wfib e62 = 0 /\
  exists b, echo_entry f62 STATUS_SUCCESS STATUS_SUCCESS e62 = Some (ERROR_PSOCK_READ_EOF, b) /\ k_out (a_k b) = [1;2;3;4;5].
Proof.
  split.
  { split; [|split; [reflexivity|reflexivity]]. unfold DATA_SIZE. repeat constructor; cbn [length]; lia. }
  split; [repeat constructor|]. split; [repeat constructor; cbn; auto|].
  do 3 (split; [reflexivity|]). eexists. split; vm_compute; reflexivity.
Qed.
(** A wait for input that a request to quiesce ends, its handler failing. *)
Example C62_interrupted_example :
  let a := Async PSOCK_TYPE_WRAP_ASYNC (Kern [1;2;3;4;5] [KGive 1; KFail EAGAIN; KFail EAGAIN] [] [KGive 0; KGive 4]) 0 0
             [Yev STATUS_SUCCESS false ERROR_FIBER_INVALID_STATE] [] in
  Forall (fun w => exists n, w = KGive n) (k_ws (a_k a)) /\
  exists b, echo_entry f62 STATUS_SUCCESS STATUS_SUCCESS a = Some (ERROR_FIBER_INVALID_STATE, b) /\
    k_out (a_k b) = [1;2] /\ k_in (a_k b) = [3;4;5].
Proof.
  cbv zeta. split; [repeat constructor; eauto|]. eexists. split; [vm_compute; reflexivity|]. split; reflexivity.
Qed.
(** Rounds that echo. *)
Example C62_rounds_example : exists b, rounds f62 e62 b /\ k_out (a_k b) = [1;2] /\ k_in (a_k b) = [3;4;5].
Proof.
  eexists. split; [eapply rounds_more; [vm_compute; reflexivity|apply rounds_none]|]. split; reflexivity.
Qed.

Print Assumptions C62_rounds_echo.
Print Assumptions C62_echo_partial.
Print Assumptions C62_interrupted_wait.
Print Assumptions C62_bursts_come_back.
Print Assumptions C62_sent_and_closed.
Print Assumptions C62_echo_refuted.
