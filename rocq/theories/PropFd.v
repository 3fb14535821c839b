(** C34, C50: descriptor utilities.  Statements only; proofs are in FdProofs.v. *)
From Verif Require Import Base Status FdModel FdSpec FdProofs.

(** ** C34 *)
(** True part: if no source is the target of an earlier request or of its own, then
    with a willing system every descriptor arrives. *)
Theorem C34_setfds_partial : forall rq may t s d last, NoDup (sources ((s, d) :: rq)) -> NoDup (targets ((s, d) :: rq)) ->
  no_collision [] ((s, d) :: rq) ->
  (forall x y, In (x, y) ((s, d) :: rq) -> 0 <= x /\ 0 <= y /\ t x <> None) -> (forall i, may i = true) -> last < 0 ->
  exists t', setfds may t s d (encode rq last) = Some (STATUS_SUCCESS, t') /\ moved t t' ((s, d) :: rq).
Proof. exact setfds_moves. Qed.
Theorem C34_move_descriptors_partial : forall ps may t (m : Z -> Z) th, 0 <= th -> NoDup ps -> NoDup (map m ps) ->
  no_collision [] (consecutive th (map m ps)) ->
  (forall p, In p ps -> 0 <= m p /\ t (m p) <> None) -> (forall i, may i = true) ->
  exists t' m', move_descriptors may t m th ps = (STATUS_SUCCESS, t', m') /\
    moved t t' (consecutive th (map m ps)) /\
    (forall i p, nth_error ps i = Some p -> m' p = th + Z.of_nat i) /\ (forall p, ~ In p ps -> m' p = m p).
Proof. exact move_moves. Qed.
(** If the system refuses at some point (or a source is not open), an error is
    returned, the requests before it are done and the others untouched. *)
Theorem C34_setfds_interrupted_partial : forall rq may t s d last, NoDup (sources ((s, d) :: rq)) -> NoDup (targets ((s, d) :: rq)) ->
  no_collision [] ((s, d) :: rq) -> (forall x y, In (x, y) ((s, d) :: rq) -> 0 <= x /\ 0 <= y) -> last < 0 ->
  exists e n t', setfds may t s d (encode rq last) = Some (e, t') /\ moved t t' (firstn n ((s, d) :: rq)) /\
    ((e = STATUS_SUCCESS /\ n = length ((s, d) :: rq)) \/
     (e = ERROR_SOCKET_UTILITIES_DUP2_FAILURE /\ (n < length ((s, d) :: rq))%nat)).
Proof. exact setfds_interrupted. Qed.
Theorem C34_move_interrupted_partial : forall ps may t (m : Z -> Z) th, 0 <= th -> NoDup ps -> NoDup (map m ps) ->
  no_collision [] (consecutive th (map m ps)) -> (forall p, In p ps -> 0 <= m p) ->
  exists e n t' m', move_descriptors may t m th ps = (e, t', m') /\ moved t t' (firstn n (consecutive th (map m ps))) /\
    ((e = STATUS_SUCCESS /\ n = length ps) \/ (e = ERROR_SOCKET_UTILITIES_DUP2_FAILURE /\ (n < length ps)%nat)) /\
    (forall i p, nth_error ps i = Some p -> m' p = if (i <? n)%nat then th + Z.of_nat i else m p).
Proof. exact move_interrupted. Qed.
(** Error statuses of ill-formed calls. *)
Theorem C34_setfds_statuses : forall may t s d args e t', setfds may t s d args = Some (e, t') ->
  e = STATUS_SUCCESS \/ e = ERROR_SOCKET_UTILITIES_DUP2_FAILURE \/ e = ERROR_GENERAL_INVALID_ARGUMENTS.
Proof. exact setfds_errors. Qed.
Theorem C34_setfds_invalid : forall may t s d rest, s < 0 \/ d < 0 -> setfds may t s d rest = Some (ERROR_GENERAL_INVALID_ARGUMENTS, t).
Proof.
  intros. unfold setfds. destruct rest; cbn; destruct (Z.leb_spec 0 s), (Z.leb_spec 0 d); auto; lia.
Qed.
Theorem C34_setfds_unpaired : forall may t s d c m rest, 0 <= s -> 0 <= d -> s <> d -> t s <> None -> may 0%nat = true -> 0 <= c -> m < 0 ->
  exists t', setfds may t s d (c :: m :: rest) = Some (ERROR_GENERAL_INVALID_ARGUMENTS, t') /\ moved t t' [(s, d)].
Proof.
  intros may t s d c m rest H H0 N O M C Hm. unfold setfds. cbn [setfds_loop].
  destruct (Z.leb_spec 0 s); [|lia]. destruct (Z.leb_spec 0 d); [|lia]. cbn [andb]. rewrite M.
  destruct (t s) as [o|] eqn:E; [|congruence]. rewrite (dup2_ok t s d o E N).
  destruct (Z.ltb_spec c 0); [lia|]. destruct (Z.ltb_spec m 0); [|lia]. eexists. split; [reflexivity|].
  apply (move_all_moved [(s, d)] t []).
  - apply NoDup_cons; [cbn; tauto|apply NoDup_nil].
  - apply NoDup_cons; [cbn; tauto|apply NoDup_nil].
  - cbn. split; [|auto]. intros [K|[]]. congruence.
  - intros ? [].
Qed.
Theorem C34_move_statuses : forall may t m th ps e t' m', move_descriptors may t m th ps = (e, t', m') ->
  (th < 0 -> e = ERROR_GENERAL_INVALID_ARGUMENTS /\ t' = t /\ m' = m) /\
  (e = STATUS_SUCCESS \/ e = ERROR_SOCKET_UTILITIES_DUP2_FAILURE \/ e = ERROR_GENERAL_INVALID_ARGUMENTS) /\
  (0 <= th -> forall i p, nth_error ps i = Some p -> e = STATUS_SUCCESS -> NoDup ps -> m' p = th + Z.of_nat i).
Proof. exact move_errors. Qed.
Theorem C34_move_negative : forall may t m th p ps, 0 <= th -> m p < 0 ->
  move_descriptors may t m th (p :: ps) = (ERROR_GENERAL_INVALID_ARGUMENTS, t, m).
Proof.
  intros. unfold move_descriptors. cbn. destruct (Z.ltb_spec th 0); [lia|]. destruct (Z.ltb_spec (m p) 0); [auto|lia].
Qed.
(** The claim is false for every descriptor that already is where it should go: it
    is closed, and success is reported... *)
Theorem C34_self_move_refuted : forall t fd o, 0 <= fd -> t fd = Some o ->
  exists t', setfds (fun _ => true) t fd fd [-1] = Some (STATUS_SUCCESS, t') /\ t' fd = None.
Proof. exact self_move_closes. Qed.
Theorem C34_self_move_threshold_refuted : forall t m p o, 0 <= m p -> t (m p) = Some o ->
  exists t' m', move_descriptors (fun _ => true) t m (m p) [p] = (STATUS_SUCCESS, t', m') /\ t' (m' p) = None.
Proof. exact self_move_closes_threshold. Qed.
(** ... and for every exchange of two descriptors: one description is lost. *)
Theorem C34_exchange_refuted : forall t a b oa ob, 0 <= a -> 0 <= b -> a <> b -> t a = Some oa -> t b = Some ob ->
  exists t', setfds (fun _ => true) t a b [b; a; -1] = Some (STATUS_SUCCESS, t') /\ t' a = Some oa /\ t' b = None.
Proof. exact swapped_lost. Qed.
Example C34_example : let t := fun x => if (x =? 5) || (x =? 6) || (x =? 7) then Some (x * 10) else None in
  no_collision [] [(5, 3); (6, 4); (7, 6)] /\
  match setfds (fun _ => true) t 5 3 (encode [(6, 4); (7, 6)] (-1)) with
  | Some (e, t') => e = 0 /\ map t' [3;4;5;6;7] = [Some 50; Some 60; None; Some 70; None]
  | None => False end /\
  match move_descriptors (fun _ => true) t (fun p => p) 6 [7] with
  | (e, t', m') => e = 0 /\ map t' [5;6;7] = [Some 50; Some 70; None] /\ m' 7 = 6 end.
Proof. split; [cbn; intuition congruence|]. split; vm_compute; repeat split; reflexivity. Qed.

(** ** C50 *)
Theorem C50_close_other_partial : forall t fd, exists t', close_other_fds t fd = (STATUS_SUCCESS, t') /\
  forall x, (fd < x < 1024 -> t' x = None) /\ (~ fd < x < 1024 -> t' x = t x).
Proof. exact close_other_spec. Qed.
(** Descriptors of 1024 and more stay open. *)
Theorem C50_close_other_refuted : forall t fd x o, 1024 <= x -> fd < x -> t x = Some o ->
  exists t', close_other_fds t fd = (STATUS_SUCCESS, t') /\ t' x = Some o.
Proof.
  intros t fd x o H H0 E. destruct (close_other_spec t fd) as (t' & R & K). exists t'. split; [exact R|].
  rewrite <- E. apply (K x). lia.
Qed.
Theorem C50_close_standard : forall t, exists t', close_standard_fds t = (STATUS_SUCCESS, t') /\
  forall x, (0 <= x <= 2 -> t' x = None) /\ (~ 0 <= x <= 2 -> t' x = t x).
Proof. exact close_standard_spec. Qed.
Theorem C50_set_nonblock : forall g s flags, let (e, flags') := set_nonblock g s flags in
  (e = STATUS_SUCCESS <-> g = true /\ s = true) /\
  (e = STATUS_SUCCESS -> Z.testbit flags' 11 = true /\ forall n, n <> 11 -> Z.testbit flags' n = Z.testbit flags n) /\
  (e <> STATUS_SUCCESS -> e = ERROR_SOCKET_UTILITIES_SET_NONBLOCK_FAILURE /\ flags' = flags).
Proof. exact nonblock_spec. Qed.
Theorem C50_socketpair : forall sys l r,
  util_socketpair sys l r = match sys with
                            | Some (a, b) => (STATUS_SUCCESS, a, b)
                            | None => (ERROR_SOCKET_UTILITIES_SOCKETPAIR_FAILURE, l, r)
                            end.
Proof. exact socketpair_spec. Qed.
Example C50_example : let t := fun x => Some x in
  match close_other_fds t 2 with (_, t') => map t' [2;3;1023;1024] = [Some 2; None; None; Some 1024] end.
Proof. vm_compute. reflexivity. Qed.

Print Assumptions C34_setfds_partial.
Print Assumptions C34_move_descriptors_partial.
Print Assumptions C34_setfds_interrupted_partial.
Print Assumptions C34_move_interrupted_partial.
Print Assumptions C34_setfds_statuses.
Print Assumptions C34_setfds_invalid.
Print Assumptions C34_setfds_unpaired.
Print Assumptions C34_move_statuses.
Print Assumptions C34_move_negative.
Print Assumptions C34_self_move_refuted.
Print Assumptions C34_self_move_threshold_refuted.
Print Assumptions C34_exchange_refuted.
Print Assumptions C50_close_other_partial.
Print Assumptions C50_close_other_refuted.
Print Assumptions C50_close_standard.
Print Assumptions C50_set_nonblock.
Print Assumptions C50_socketpair.
