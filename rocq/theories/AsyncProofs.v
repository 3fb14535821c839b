(** Proofs about descriptor-backed sockets and their asynchronous wrapper. *)
From Verif Require Import Base Status CodecModel MemModel MemProofs AsyncModel AsyncSpec.

Lemma ok_iff : forall e, ok e = (e =? STATUS_SUCCESS).
Proof. reflexivity. Qed.

Lemma wb_not_success : ERROR_PSOCK_READ_WOULD_BLOCK <> STATUS_SUCCESS. Proof. discriminate. Qed.

(** One read(2) through the descriptor socket. *)
Lemma fd_read_spec : forall k n, let r := fd_read k n in
  k_in k = rr_data r ++ k_in (rr_sock r) /\
  k_out (rr_sock r) = k_out k /\ k_ws (rr_sock r) = k_ws k /\ k_rs (rr_sock r) = tl (k_rs k) /\
  (length (rr_data r) <= n)%nat /\
  ((rr_status r = STATUS_SUCCESS /\ rr_size r = length (rr_data r)) \/
   (rr_data r = [] /\ rr_size r = n /\ exists e t, k_rs k = KFail e :: t /\
      ((e = EAGAIN /\ rr_status r = ERROR_PSOCK_READ_WOULD_BLOCK) \/
       (e <> EAGAIN /\ rr_status r = ERROR_PSOCK_READ_GENERAL)))).
Proof.
  intros k n. unfold fd_read, kread.
  assert (G : forall c rs, (c <= n)%nat -> (c <= length (k_in k))%nat ->
    rs = tl (k_rs k) ->
    let r := (let '(ret, errno, d, k') := (Z.of_nat c, 0, firstn c (k_in k), Kern (skipn c (k_in k)) rs (k_out k) (k_ws k)) in
      if ret <? 0 then
        if again errno then RRes ERROR_PSOCK_READ_WOULD_BLOCK n d k'
        else RRes ERROR_PSOCK_READ_GENERAL n d k'
      else RRes STATUS_SUCCESS (Z.to_nat ret) d k') in
    k_in k = rr_data r ++ k_in (rr_sock r) /\
    k_out (rr_sock r) = k_out k /\ k_ws (rr_sock r) = k_ws k /\ k_rs (rr_sock r) = tl (k_rs k) /\
    (length (rr_data r) <= n)%nat /\
    (rr_status r = STATUS_SUCCESS /\ rr_size r = length (rr_data r))).
  { intros c rs H1 H2 H3 r. subst r. cbv beta iota zeta.
    destruct (Z.ltb_spec (Z.of_nat c) 0); [lia|]. cbn [rr_data rr_sock rr_status rr_size k_in k_out k_ws k_rs].
    rewrite firstn_skipn, firstn_length_le by lia. rewrite Nat2Z.id. auto 8. }
  destruct (k_rs k) as [|[m|e|] t] eqn:R; cbv beta zeta in *.
  - destruct (G (Nat.min n (length (k_in k))) []) as (A & B & C & D & E & F); try lia; [reflexivity|].
    cbn [tl] in *. auto 10.
  - destruct (G (Nat.min n (Nat.min (S m) (length (k_in k)))) t) as (A & B & C & D & E & F); try lia; [reflexivity|].
    cbn [tl] in *. auto 10.
  - clear G. cbv iota. change (-1 <? 0) with true. cbv iota.
    unfold again. change EWOULDBLOCK with EAGAIN. destruct (Z.eqb_spec EAGAIN e) as [<-|N]; cbn [orb]; cbv iota;
      cbn [rr_data rr_sock rr_status rr_size k_in k_out k_ws k_rs app length tl].
    + repeat (split; [try reflexivity; try lia|]). right. split; [reflexivity|split; [reflexivity|]]. exists EAGAIN, t. auto.
    + repeat (split; [try reflexivity; try lia|]). right. split; [reflexivity|split; [reflexivity|]]. exists e, t. split; [reflexivity|]. right. split; congruence.
  - destruct (G 0%nat t) as (A & B & C & D & E & F); try lia; [reflexivity|].
    cbn [tl] in *. auto 10.
Qed.

(** Progress: without errors a read transfers something, unless at end of stream. *)
Lemma fd_read_quiet : forall k n, quiet (k_rs k) -> (0 < n)%nat ->
  let r := fd_read k n in
  (rr_status r = ERROR_PSOCK_READ_WOULD_BLOCK \/
   (rr_status r = STATUS_SUCCESS /\ (rr_size r = 0%nat -> k_in k = []))) /\ quiet (k_rs (rr_sock r)).
Proof.
  intros k n Q N. unfold fd_read, kread, quiet in *.
  destruct (k_rs k) as [|[m|e|] t]; cbv beta iota zeta.
  - destruct (Z.ltb_spec (Z.of_nat (Nat.min n (length (k_in k)))) 0); [lia|].
    cbn [rr_status rr_size rr_sock k_rs]. split; [|auto]. right. split; [auto|]. rewrite Nat2Z.id. intros.
    apply length_zero_iff_nil. lia.
  - destruct (Z.ltb_spec (Z.of_nat (Nat.min n (Nat.min (S m) (length (k_in k))))) 0); [lia|].
    cbn [rr_status rr_size rr_sock k_rs]. inversion Q; subst. split; [|auto]. right. split; [auto|]. rewrite Nat2Z.id. intros.
    apply length_zero_iff_nil. lia.
  - inversion Q; subst. cbn. auto.
  - inversion Q; subst. contradiction.
Qed.

(** ** Waiting *)
Lemma wait_loop_spec : forall code cur ys fib log,
  let '(e, fib', ys', log') := wait_loop code cur ys fib log in
  (exists m, log' = log ++ repeat code m /\ (e = STATUS_SUCCESS -> (0 < m)%nat) /\ (fib <> 0 -> m = 0%nat)) /\
  (exists pre, ys = pre ++ ys') /\
  (fib = 0 -> fib' = 0) /\
  (fib <> 0 -> e = ERROR_PSOCK_DOUBLE_BLOCK_UNSUPPORTED /\ fib' = fib /\ ys' = ys) /\
  (e = STATUS_SUCCESS \/ e = ERROR_PSOCK_DOUBLE_BLOCK_UNSUPPORTED \/ exists y, In y ys /\ (e = y_status y \/ e = y_handler y)).
Proof.
  induction ys as [|y t IH]; intros fib log; cbn [wait_loop].
  - destruct (Z.eqb_spec fib 0) as [->|N]; cbn [negb].
    + split; [|split; [|split; [|split]]]; [exists 1%nat; cbn; auto with arith|exists []; auto|auto|congruence|auto].
      split; [auto|]. split; [lia|congruence].
    + split; [|split; [|split; [|split]]]; [exists 0%nat; cbn; rewrite app_nil_r; split; [auto|split; [discriminate|auto]]|exists []; auto|congruence|auto|auto].
  - destruct (Z.eqb_spec fib 0) as [->|N]; cbn [negb].
    2:{ split; [|split; [|split; [|split]]]; [exists 0%nat; cbn; rewrite app_nil_r; split; [auto|split; [discriminate|auto]]|exists []; auto|congruence|auto|auto]. }
    destruct (ok (y_status y)) eqn:Y; cbn [negb].
    2:{ apply ok_false in Y. split; [|split; [|split; [|split]]];
        [exists 1%nat; cbn; split; [auto|split; [lia|congruence]]|exists [y]; auto|auto|congruence|]. right; right. exists y. cbn; auto. }
    destruct (y_ours y).
    { split; [|split; [|split; [|split]]];
        [exists 1%nat; cbn; split; [auto|split; [lia|congruence]]|exists [y]; auto|auto|congruence|auto]. }
    destruct (ok (y_handler y)) eqn:H; cbn [negb].
    2:{ split; [|split; [|split; [|split]]];
        [exists 1%nat; cbn; split; [auto|split; [lia|congruence]]|exists [y]; auto|auto|congruence|]. right; right. exists y. cbn; auto. }
    specialize (IH 0 (log ++ [code])). destruct (wait_loop code cur t 0 (log ++ [code])) as [[[e fib'] ys'] log'].
    destruct IH as ((m & A & B & C) & (pre & D) & E & F & G).
    split; [|split; [|split; [|split]]].
    + exists (S m). cbn [repeat]. rewrite A. rewrite <- app_assoc. split; [reflexivity|]. split; [lia|congruence].
    + exists (y :: pre). cbn. congruence.
    + auto.
    + congruence.
    + destruct G as [G|[G|(z & Z1 & Z2)]]; auto. right; right. exists z. cbn; auto.
Qed.

Lemma wait_loop_works : forall code cur ys log,
  Forall (fun y => y_status y = STATUS_SUCCESS /\ (y_ours y = true \/ y_handler y = STATUS_SUCCESS)) ys ->
  exists ys' log', wait_loop code cur ys 0 log = (STATUS_SUCCESS, 0, ys', log') /\
    Forall (fun y => y_status y = STATUS_SUCCESS /\ (y_ours y = true \/ y_handler y = STATUS_SUCCESS)) ys' /\
    (Forall (fun y => y_ours y = true) ys -> log' = log ++ [code] /\ Forall (fun y => y_ours y = true) ys').
Proof.
  induction ys as [|y t IH]; intros log W; cbn [wait_loop]; cbn [negb Z.eqb].
  - exists [], (log ++ [code]). auto.
  - inversion W as [|? ? [A B] C]; subst. rewrite (proj2 (ok_true (y_status y)) A). cbn [negb].
    destruct (y_ours y) eqn:O.
    + exists t, (log ++ [code]). repeat split; auto. inversion H; auto.
    + destruct B as [B|B]; [discriminate|]. rewrite (proj2 (ok_true (y_handler y)) B). cbn [negb].
      destruct (IH (log ++ [code]) C) as (ys' & log' & D & E & F). exists ys', log'. repeat split; auto; inversion H; subst; congruence.
Qed.

Lemma read_block_spec : forall f a, let '(e, a') := read_block f a in
  a_k a' = a_k a /\ a_wfib a' = a_wfib a /\ a_type a' = a_type a /\ (a_rfib a = 0 -> a_rfib a' = 0) /\
  (exists m, a_log a' = a_log a ++ repeat WAIT_READ m) /\ (exists pre, a_ys a = pre ++ a_ys a') /\
  (e <> STATUS_SUCCESS -> a_type a = PSOCK_TYPE_WRAP_ASYNC -> wait_status f (a_ys a) e).
Proof.
  intros f a. unfold read_block.
  assert (Z0 : forall l : list Z, exists m, l = l ++ repeat WAIT_READ m) by (intros; exists 0%nat; cbn; rewrite app_nil_r; auto).
  assert (Z1 : exists pre, a_ys a = pre ++ a_ys a) by (exists []; auto).
  destruct (PSOCK_TYPE_WRAP_ASYNC =? a_type a) eqn:T; cbn [negb].
  2:{ repeat (split; [auto|]). intros _ K. rewrite K in T. discriminate. }
  destruct (ok (f_sched f)) eqn:S1; cbn [negb].
  2:{ repeat (split; [auto|]). intros. right; left; auto. }
  destruct (ok (f_current f)) eqn:S2; cbn [negb].
  2:{ repeat (split; [auto|]). intros. right; right; left; auto. }
  generalize (wait_loop_spec WAIT_READ (f_fiber f) (a_ys a) (a_rfib a) (a_log a)).
  destruct (wait_loop WAIT_READ (f_fiber f) (a_ys a) (a_rfib a) (a_log a)) as [[[e fib] ys] log].
  intros ((m & A & B & B') & C & D & E & F). cbn.
  split; [auto|]. split; [auto|]. split; [auto|]. split; [auto|]. split; [exists m; auto|]. split; [auto|].
  intros N _. destruct F as [F|[F|F]]; [congruence|left; auto|right; right; right; auto].
Qed.

Lemma write_block_spec : forall f a, let '(e, a') := write_block f a in
  a_k a' = a_k a /\ a_rfib a' = a_rfib a /\ a_type a' = a_type a /\ (a_wfib a = 0 -> a_wfib a' = 0) /\
  (exists m, a_log a' = a_log a ++ repeat WAIT_WRITE m) /\ (exists pre, a_ys a = pre ++ a_ys a') /\
  (e <> STATUS_SUCCESS -> a_type a = PSOCK_TYPE_WRAP_ASYNC -> wait_status f (a_ys a) e).
Proof.
  intros f a. unfold write_block.
  assert (Z0 : forall l : list Z, exists m, l = l ++ repeat WAIT_WRITE m) by (intros; exists 0%nat; cbn; rewrite app_nil_r; auto).
  assert (Z1 : exists pre, a_ys a = pre ++ a_ys a) by (exists []; auto).
  destruct (PSOCK_TYPE_WRAP_ASYNC =? a_type a) eqn:T; cbn [negb].
  2:{ repeat (split; [auto|]). intros _ K. rewrite K in T. discriminate. }
  destruct (ok (f_sched f)) eqn:S1; cbn [negb].
  2:{ repeat (split; [auto|]). intros. right; left; auto. }
  destruct (ok (f_current f)) eqn:S2; cbn [negb].
  2:{ repeat (split; [auto|]). intros. right; right; left; auto. }
  generalize (wait_loop_spec WAIT_WRITE (f_fiber f) (a_ys a) (a_wfib a) (a_log a)).
  destruct (wait_loop WAIT_WRITE (f_fiber f) (a_ys a) (a_wfib a) (a_log a)) as [[[e fib] ys] log].
  intros ((m & A & B & B') & C & D & E & F). cbn.
  split; [auto|]. split; [auto|]. split; [auto|]. split; [auto|]. split; [exists m; auto|]. split; [auto|].
  intros N _. destruct F as [F|[F|F]]; [congruence|left; auto|right; right; right; auto].
Qed.

Lemma read_block_works : forall f a, waits_work f (a_ys a) -> a_type a = PSOCK_TYPE_WRAP_ASYNC -> a_rfib a = 0 ->
  exists a', read_block f a = (STATUS_SUCCESS, a') /\ a_k a' = a_k a /\ a_type a' = a_type a /\ a_rfib a' = 0 /\ a_wfib a' = a_wfib a /\
    waits_work f (a_ys a') /\
    (Forall (fun y => y_ours y = true) (a_ys a) -> a_log a' = a_log a ++ [WAIT_READ] /\ Forall (fun y => y_ours y = true) (a_ys a')).
Proof.
  intros f a (W1 & W2 & W3) T R. unfold read_block. rewrite T, Z.eqb_refl, R, W1, W2. cbn [negb ok].
  rewrite ok_success. cbn [negb].
  destruct (wait_loop_works WAIT_READ (f_fiber f) (a_ys a) (a_log a) W3) as (ys' & log' & A & B & C). rewrite A.
  eexists. split; [reflexivity|]. cbn. unfold waits_work. auto 10.
Qed.

Lemma write_block_works : forall f a, waits_work f (a_ys a) -> a_type a = PSOCK_TYPE_WRAP_ASYNC -> a_wfib a = 0 ->
  exists a', write_block f a = (STATUS_SUCCESS, a') /\ a_k a' = a_k a /\ a_type a' = a_type a /\ a_wfib a' = 0 /\ a_rfib a' = a_rfib a /\
    waits_work f (a_ys a') /\
    (Forall (fun y => y_ours y = true) (a_ys a) -> a_log a' = a_log a ++ [WAIT_WRITE] /\ Forall (fun y => y_ours y = true) (a_ys a')).
Proof.
  intros f a (W1 & W2 & W3) T R. unfold write_block. rewrite T, Z.eqb_refl, R, W1, W2. cbn [negb ok].
  rewrite ok_success. cbn [negb].
  destruct (wait_loop_works WAIT_WRITE (f_fiber f) (a_ys a) (a_log a) W3) as (ys' & log' & A & B & C). rewrite A.
  eexists. split; [reflexivity|]. cbn. unfold waits_work. auto 10.
Qed.

(** ** Reading *)
Definition read_post (f : fenv) (a : async) (got : list Z) (n : nat) (block : bool) (r : rres async) : Prop :=
  exists d, rr_data r = got ++ d /\ rr_size r = length (rr_data r) /\ (length d <= n)%nat /\
    k_in (a_k a) = d ++ k_in (a_k (rr_sock r)) /\
    k_out (a_k (rr_sock r)) = k_out (a_k a) /\ k_ws (a_k (rr_sock r)) = k_ws (a_k a) /\
    (exists pre, k_rs (a_k a) = pre ++ k_rs (a_k (rr_sock r))) /\
    a_type (rr_sock r) = a_type a /\ a_wfib (rr_sock r) = a_wfib a /\ (a_rfib a = 0 -> a_rfib (rr_sock r) = 0) /\
    (exists m, a_log (rr_sock r) = a_log a ++ repeat WAIT_READ m) /\
    (exists pre, a_ys a = pre ++ a_ys (rr_sock r)) /\
    (block = false -> a_log (rr_sock r) = a_log a /\ a_ys (rr_sock r) = a_ys a /\ a_rfib (rr_sock r) = a_rfib a) /\
    ((rr_status r = STATUS_SUCCESS /\ (length d = n \/ (block = false /\ got ++ d <> []))) \/
     (rr_status r = ERROR_PSOCK_READ_GENERAL /\ exists e, In (KFail e) (k_rs (a_k a)) /\ e <> EAGAIN) \/
     (rr_status r = ERROR_PSOCK_READ_EOF /\ (quiet (k_rs (a_k a)) -> k_in (a_k (rr_sock r)) = [])) \/
     (rr_status r = ERROR_PSOCK_READ_WOULD_BLOCK /\ block = false /\ got ++ d = []) \/
     (rr_status r <> STATUS_SUCCESS /\ block = true /\ (a_type a = PSOCK_TYPE_WRAP_ASYNC -> wait_status f (a_ys a) (rr_status r)))).

Lemma tl_pre : forall A (l : list A), exists pre, l = pre ++ tl l.
Proof. destruct l as [|x t]; [exists []|exists [x]]; reflexivity. Qed.

Lemma wait_status_incl : forall f pre ys e, wait_status f ys e -> wait_status f (pre ++ ys) e.
Proof.
  intros f pre ys e [H|[H|[H|(y & H1 & H2)]]]; [left|right; left|right; right; left|]; auto.
  right; right; right. exists y. split; auto. apply in_or_app; auto.
Qed.

Lemma quiet_tl : forall l, quiet l -> quiet (tl l).
Proof. intros [|x t] Q; [exact Q|inversion Q; auto]. Qed.

Lemma read_loop_post : forall fuel f block a got n, (length (k_rs (a_k a)) + n < fuel)%nat ->
  exists r, async_read_loop fuel f block a got n = Some r /\ read_post f a got n block r.
Proof.
  induction fuel as [|fuel IH]; intros f block a got n F; [lia|]. cbn [async_read_loop].
  destruct (Nat.eqb_spec n 0) as [->|N].
  { eexists. split; [reflexivity|]. exists []. cbn. rewrite app_nil_r.
    do 6 (split; [first [reflexivity|lia|auto]|]). 
    split; [exists []; auto|]. do 3 (split; [auto|]). split; [exists 0%nat; cbn; rewrite app_nil_r; auto|].
    split; [exists []; auto|]. split; [auto|]. left. auto. }
  generalize (fd_read_spec (a_k a) n). cbv zeta.
  assert (Q : quiet (k_rs (a_k a)) -> let r := fd_read (a_k a) n in
     rr_status r = STATUS_SUCCESS -> rr_size r = 0%nat -> k_in (a_k a) = []).
  { intros Q. destruct (fd_read_quiet (a_k a) n Q ltac:(lia)) as [[K|[K K']] _]; intros r; subst r; cbv zeta in *; [rewrite K; discriminate|auto]. }
  destruct (fd_read (a_k a) n) as [st sz d k']. cbn [rr_status rr_size rr_data rr_sock] in *.
  intros (A & B & C & D & E & R).
  destruct R as [(-> & ->) | (-> & -> & e & t & H1 & [(-> & ->) | (H2 & ->)])].
  - change (ERROR_PSOCK_READ_WOULD_BLOCK =? STATUS_SUCCESS) with false. cbn [andb]. change (negb (ok STATUS_SUCCESS)) with false. cbv iota.
    destruct (Nat.eqb_spec (length d) 0) as [L|L].
    + apply length_zero_iff_nil in L. subst d. cbn [app length] in *.
      eexists. split; [reflexivity|]. exists []. cbn. rewrite app_nil_r.
      do 6 (split; [first [reflexivity|lia|auto]|]).
      split; [rewrite D; apply tl_pre|]. do 3 (split; [auto|]). split; [exists 0%nat; cbn; rewrite app_nil_r; auto|].
      split; [exists []; auto|]. split; [auto|]. right. right. left. split; [auto|]. intros K. rewrite <- A. apply (Q K); auto.
    + assert (LT : (length (tl (k_rs (a_k a))) <= length (k_rs (a_k a)))%nat) by (destruct (k_rs (a_k a)); cbn; lia).
      destruct (IH f block (set_k a k') (got ++ d) (n - length d)%nat) as (r & R1 & (d' & P1 & P2 & P3 & P4 & P5 & P6 & P7 & P8 & P9 & P10 & P11 & P12 & P13 & P14)).
      { cbn. rewrite D. lia. }
      rewrite R1. exists r. split; [reflexivity|]. cbn in *. exists (d ++ d').
      rewrite P1, <- app_assoc in *. split; [auto|]. split; [auto|]. split; [rewrite app_length; lia|].
      split; [rewrite A, P4; apply app_assoc|]. split; [congruence|]. split; [congruence|].
      split. { destruct P7 as (pre & P7). destruct (tl_pre _ (k_rs (a_k a))) as (p0 & K). exists (p0 ++ pre). rewrite K, <- D, P7, app_assoc. reflexivity. }
      repeat (split; [auto|]).
      destruct P14 as [(G1 & G2)|[(G1 & e & G2 & G3)|[(G1 & G2)|[(G1 & G2 & G3)|G]]]].
      * left. split; [auto|]. destruct G2 as [G2|G2]; [left; rewrite app_length; lia|right; auto].
      * right. left. split; [auto|]. exists e. split; [|auto]. rewrite D in G2. destruct (k_rs (a_k a)); cbn in *; auto.
      * right. right. left. split; [auto|]. intros K. apply G2. rewrite D. apply quiet_tl; auto.
      * right. right. right. left. auto.
      * right. right. right. right. auto.
  - cbn [app] in A. destruct block; cbn [andb negb].
    + change (ERROR_PSOCK_READ_WOULD_BLOCK =? ERROR_PSOCK_READ_WOULD_BLOCK) with true. cbv iota.
      generalize (read_block_spec f (set_k a k')). destruct (read_block f (set_k a k')) as [e a2].
      cbn [set_k a_k a_wfib a_type a_rfib a_log a_ys]. intros (S1 & S2 & S3 & S4 & (m & S5) & (pre & S6) & S7).
      destruct (ok e) eqn:OE; cbn [negb].
      * destruct (IH f true a2 got n) as (r & R1 & (d' & P1 & P2 & P3 & P4 & P5 & P6 & P7 & P8 & P9 & P10 & P11 & P12 & P13 & P14)).
        { rewrite S1, D, H1. rewrite H1 in F. cbn in *. lia. }
        rewrite R1. exists r. split; [reflexivity|]. exists d'. rewrite S1, ?S2, ?S3 in *.
        split; [auto|]. split; [auto|]. split; [auto|]. split; [congruence|]. split; [congruence|]. split; [congruence|].
        split. { destruct P7 as (p1 & P7). exists (KFail EAGAIN :: p1). rewrite H1. cbn. rewrite <- P7, D, H1. reflexivity. }
        split; [auto|]. split; [auto|]. split; [auto|].
        split. { destruct P11 as (m' & P11). exists (m + m')%nat. rewrite repeat_app, app_assoc, <- S5. auto. }
        split. { destruct P12 as (p1 & P12). exists (pre ++ p1). rewrite S6, P12, app_assoc. reflexivity. }
        split; [discriminate|].
        destruct P14 as [(G1 & G2)|[(G1 & e0 & G2 & G3)|[(G1 & G2)|[(G1 & G2 & G3)|(G1 & G2 & G3)]]]].
        -- left; auto.
        -- right. left. split; [auto|]. exists e0. split; [|auto]. rewrite D in G2. rewrite H1 in *. cbn in *. auto.
        -- right. right. left. split; [auto|]. intros K. apply G2. rewrite D. apply quiet_tl; auto.
        -- discriminate.
        -- right; right; right; right. split; [auto|]. split; [auto|]. intros K. rewrite S6. apply wait_status_incl. auto.
      * apply ok_false in OE. eexists. split; [reflexivity|]. exists []. cbn. rewrite app_nil_r, S1.
        split; [auto|]. split; [auto|]. split; [lia|]. split; [auto|]. split; [auto|]. split; [auto|].
        split; [rewrite D; apply tl_pre|]. split; [auto|]. split; [auto|]. split; [auto|]. split; [exists m; auto|].
        split; [exists pre; auto|]. split; [discriminate|]. right; right; right; right. split; [auto|]. split; auto.
    + change (ERROR_PSOCK_READ_WOULD_BLOCK =? ERROR_PSOCK_READ_WOULD_BLOCK) with true. cbn [andb]. cbv iota.
      assert (X : exists r, (if (0 <? length got)%nat then Some (RRes STATUS_SUCCESS (length got) got (set_k a k'))
          else Some (RRes ERROR_PSOCK_READ_WOULD_BLOCK (length got) got (set_k a k'))) = Some r /\
        rr_data r = got /\ rr_size r = length got /\ rr_sock r = set_k a k' /\
        ((got <> [] /\ rr_status r = STATUS_SUCCESS) \/ (got = [] /\ rr_status r = ERROR_PSOCK_READ_WOULD_BLOCK))).
      { destruct got; cbn; eexists; (split; [reflexivity|]); cbn; repeat (split; [reflexivity|]); [right; auto|left; split; [discriminate|auto]]. }
      destruct X as ([s2 z2 d2 k2] & X1 & X2 & X3 & X4 & X5). rewrite X1. eexists. split; [reflexivity|].
      cbn in X2, X3, X4, X5. subst. exists []. cbn. rewrite app_nil_r.
      do 6 (split; [first [reflexivity|lia|auto]|]).
      split; [rewrite D; apply tl_pre|]. do 3 (split; [auto|]). split; [exists 0%nat; cbn; rewrite app_nil_r; auto|].
      split; [exists []; auto|]. split; [auto|].
      destruct X5 as [(X5 & ->)|(X5 & ->)]; [left; auto|right; right; right; left; auto].
  - change (ERROR_PSOCK_READ_WOULD_BLOCK =? ERROR_PSOCK_READ_GENERAL) with false. cbn [andb]. change (negb (ok ERROR_PSOCK_READ_GENERAL)) with true. cbv iota.
    cbn [app] in A. eexists. split; [reflexivity|]. exists []. cbn. rewrite app_nil_r.
    do 6 (split; [first [reflexivity|lia|auto]|]).
    split; [rewrite D; apply tl_pre|]. do 3 (split; [auto|]). split; [exists 0%nat; cbn; rewrite app_nil_r; auto|].
    split; [exists []; auto|]. split; [auto|]. right. left. split; [auto|]. exists e. rewrite H1. cbn. auto.
Qed.

Lemma async_read_post : forall f a n block, exists r,
  async_read f STATUS_SUCCESS a n block = Some r /\ read_post f a [] n block r.
Proof. intros. unfold async_read. rewrite ok_success. cbn [negb]. apply read_loop_post. lia. Qed.

(** With working waits and no errors, a blocking read fails only at end of stream. *)
Lemma read_loop_quiet : forall fuel f a got n, (length (k_rs (a_k a)) + n < fuel)%nat ->
  quiet (k_rs (a_k a)) -> waits_work f (a_ys a) -> a_type a = PSOCK_TYPE_WRAP_ASYNC -> a_rfib a = 0 ->
  exists r, async_read_loop fuel f true a got n = Some r /\
    rr_status r = (if (n <=? length (k_in (a_k a)))%nat then STATUS_SUCCESS else ERROR_PSOCK_READ_EOF) /\
    quiet (k_rs (a_k (rr_sock r))) /\ waits_work f (a_ys (rr_sock r)).
Proof.
  induction fuel as [|fuel IH]; intros f a got n F Q W T RF; [lia|]. cbn [async_read_loop].
  destruct (Nat.eqb_spec n 0) as [->|N].
  { eexists. split; [reflexivity|]. cbn. auto. }
  generalize (fd_read_spec (a_k a) n). generalize (fd_read_quiet (a_k a) n Q ltac:(lia)). cbv zeta.
  destruct (fd_read (a_k a) n) as [st sz d k']. cbn [rr_status rr_size rr_data rr_sock] in *.
  intros (G & QT) (A & B & C & D & E & R).
  destruct G as [->|(-> & G)].
  - change (ERROR_PSOCK_READ_WOULD_BLOCK =? ERROR_PSOCK_READ_WOULD_BLOCK) with true. cbn [andb].
    destruct R as [(R & _)|(-> & _ & e & t & K & _)]; [discriminate|]. cbn [app] in A.
    destruct (read_block_works f (set_k a k')) as (a2 & S1 & S2 & S3 & S4 & S5 & S6 & S7); auto.
    rewrite S1. change (negb (ok STATUS_SUCCESS)) with false. cbv iota. cbn [set_k a_k a_type] in *.
    destruct (IH f a2 got n) as (r & R1 & R2 & R3); auto.
    { rewrite S2, D, K. rewrite K in F. cbn in *. lia. }
    { rewrite S2; auto. } { congruence. }
    exists r. rewrite S2 in R2. rewrite A. auto.
  - change (ERROR_PSOCK_READ_WOULD_BLOCK =? STATUS_SUCCESS) with false. cbn [andb]. change (negb (ok STATUS_SUCCESS)) with false. cbv iota.
    destruct R as [(_ & R)|(_ & _ & e & t & _ & [(_ & K)|(_ & K)])]; [|discriminate|discriminate]. subst sz.
    destruct (Nat.eqb_spec (length d) 0) as [L|L].
    + eexists. split; [reflexivity|]. cbn. rewrite (G L). cbn. destruct n; [lia|]. auto.
    + assert (LT : (length (tl (k_rs (a_k a))) <= length (k_rs (a_k a)))%nat) by (destruct (k_rs (a_k a)); cbn; lia).
      destruct (IH f (set_k a k') (got ++ d) (n - length d)%nat) as (r & R1 & R2 & R3); auto.
      { cbn. rewrite D. lia. }
      exists r. split; [auto|]. split; [|auto]. rewrite R2. cbn. rewrite A, app_length.
      replace (n - length d <=? length (k_in k'))%nat with (n <=? length d + length (k_in k'))%nat; [auto|].
      destruct (Nat.leb_spec n (length d + length (k_in k'))); destruct (Nat.leb_spec (n - length d) (length (k_in k'))); lia || auto.
Qed.

(** The first failing wait ends the read, with its status. *)
Lemma async_read_double_block : forall f a n t, a_type a = PSOCK_TYPE_WRAP_ASYNC -> f_sched f = STATUS_SUCCESS ->
  f_current f = STATUS_SUCCESS -> a_rfib a <> 0 -> (0 < n)%nat -> k_rs (a_k a) = KFail EAGAIN :: t ->
  exists r, async_read f STATUS_SUCCESS a n true = Some r /\ rr_status r = ERROR_PSOCK_DOUBLE_BLOCK_UNSUPPORTED /\
    rr_size r = 0%nat /\ a_rfib (rr_sock r) = a_rfib a /\ a_log (rr_sock r) = a_log a.
Proof.
  intros f a n t T S1 S2 RF N K. unfold async_read. change (negb (ok STATUS_SUCCESS)) with false. cbv iota.
  cbn [async_read_loop]. destruct (Nat.eqb_spec n 0); [lia|].
  unfold fd_read, kread. rewrite K. cbn [again Z.ltb]. change (-1 <? 0) with true. cbv iota. change (again EAGAIN) with true. cbv iota.
  cbn [rr_status rr_sock]. change (ERROR_PSOCK_READ_WOULD_BLOCK =? ERROR_PSOCK_READ_WOULD_BLOCK) with true. cbn [andb].
  unfold read_block. cbn [set_k a_type a_rfib a_ys a_log a_k a_wfib]. rewrite T, Z.eqb_refl, S1, S2. change (negb true) with false. change (negb (ok STATUS_SUCCESS)) with false. cbv iota.
  replace (wait_loop WAIT_READ (f_fiber f) (a_ys a) (a_rfib a) (a_log a)) with (ERROR_PSOCK_DOUBLE_BLOCK_UNSUPPORTED, a_rfib a, a_ys a, a_log a).
  2:{ destruct (a_ys a); cbn [wait_loop]; destruct (Z.eqb_spec (a_rfib a) 0); congruence || reflexivity. }
  change (negb (ok ERROR_PSOCK_DOUBLE_BLOCK_UNSUPPORTED)) with true. cbv iota.
  eexists. split; [reflexivity|]. cbn. auto.
Qed.

(** ** Writing *)
Lemma fd_write_spec : forall k d, let r := fd_write k d in
  exists c, (c <= length d)%nat /\
  k_out (wr_sock r) = k_out k ++ firstn c d /\ k_in (wr_sock r) = k_in k /\ k_rs (wr_sock r) = k_rs k /\ k_ws (wr_sock r) = tl (k_ws k) /\
  ((wr_status r = STATUS_SUCCESS /\ wr_size r = c /\ (quiet (k_ws k) -> d <> [] -> c <> 0%nat) /\ (k_ws k = [] -> c = length d)) \/
   (c = 0%nat /\ wr_size r = length d /\ exists e t, k_ws k = KFail e :: t /\
      ((e = EAGAIN /\ wr_status r = ERROR_PSOCK_WRITE_WOULD_BLOCK) \/
       (e <> EAGAIN /\ wr_status r = ERROR_PSOCK_WRITE_GENERAL)))).
Proof.
  intros k d. unfold fd_write, kwrite.
  destruct (k_ws k) as [|[m|e|] t]; cbv beta iota zeta.
  - destruct (Z.ltb_spec (Z.of_nat (length d)) 0); [lia|]. exists (length d). cbn. rewrite Nat2Z.id.
    repeat (split; [auto|]). left. repeat split; auto. intros _ N K. apply length_zero_iff_nil in K. auto.
  - destruct (Z.ltb_spec (Z.of_nat (Nat.min (S m) (length d))) 0); [lia|]. exists (Nat.min (S m) (length d)). split; [lia|].
    cbn [wr_sock wr_status wr_size k_out k_in k_rs k_ws tl]. rewrite Nat2Z.id.
    repeat (split; [auto|]). left. split; [auto|]. split; [auto|]. split; [|discriminate]. intros _ N K. destruct d; [auto|cbn in K; lia].
  - change (-1 <? 0) with true. cbv iota. unfold again. change EWOULDBLOCK with EAGAIN. exists 0%nat. split; [lia|].
    destruct (Z.eqb_spec EAGAIN e) as [<-|N]; cbn [orb]; cbv iota; cbn [wr_sock wr_status wr_size k_out k_in k_rs k_ws tl firstn].
    + rewrite app_nil_r. repeat (split; [auto|]). right. repeat (split; [auto|]). exists EAGAIN, t. auto.
    + rewrite app_nil_r. repeat (split; [auto|]). right. repeat (split; [auto|]). exists e, t. split; [auto|]. right. split; congruence.
  - exists 0%nat. split; [lia|]. cbn. rewrite app_nil_r. repeat (split; [auto|]). left. repeat split; auto. intros Q. inversion Q; subst. contradiction. discriminate.
Qed.

Definition write_post (f : fenv) (a : async) (total : nat) (d : list Z) (r : wres async) : Prop :=
  exists c, (c <= length d)%nat /\
    k_out (a_k (wr_sock r)) = k_out (a_k a) ++ firstn c d /\ k_in (a_k (wr_sock r)) = k_in (a_k a) /\
    k_rs (a_k (wr_sock r)) = k_rs (a_k a) /\
    a_type (wr_sock r) = a_type a /\ a_rfib (wr_sock r) = a_rfib a /\ (a_wfib a = 0 -> a_wfib (wr_sock r) = 0) /\
    (exists m, a_log (wr_sock r) = a_log a ++ repeat WAIT_WRITE m) /\
    (exists pre, a_ys a = pre ++ a_ys (wr_sock r)) /\
    ((wr_status r = STATUS_SUCCESS /\ c = length d /\ wr_size r = total) \/
     (wr_status r = ERROR_PSOCK_WRITE_GENERAL /\ wr_size r = (total - (length d - c))%nat /\ exists e, In (KFail e) (k_ws (a_k a)) /\ e <> EAGAIN) \/
     (wr_status r = ERROR_PSOCK_WRITE_EOF /\ wr_size r = total /\ ~ quiet (k_ws (a_k a))) \/
     (wr_status r <> STATUS_SUCCESS /\ wr_size r = total /\ (a_type a = PSOCK_TYPE_WRAP_ASYNC -> wait_status f (a_ys a) (wr_status r)))).

Lemma write_loop_post : forall fuel f a total d, (length (k_ws (a_k a)) + length d < fuel)%nat ->
  exists r, async_write_loop fuel f a total d = Some r /\ write_post f a total d r.
Proof.
  induction fuel as [|fuel IH]; intros f a total d F; [lia|]. cbn [async_write_loop].
  destruct d as [|x d0] eqn:DD.
  { eexists. split; [reflexivity|]. exists 0%nat. cbn. rewrite app_nil_r. do 7 (split; [first [lia|auto]|]).
    split; [exists 0%nat; cbn; rewrite app_nil_r; auto|]. split; [exists []; auto|]. left. auto. }
  assert (NE : d <> []) by (rewrite DD; discriminate). rewrite <- DD in *. clear DD x d0.
  generalize (fd_write_spec (a_k a) d). cbv zeta.
  destruct (fd_write (a_k a) d) as [st sz k']. cbn [wr_status wr_size wr_sock] in *.
  intros (c & A & B & C & D & E & R).
  destruct R as [(-> & -> & QC & _) | (-> & -> & e & t & H1 & [(-> & ->) | (H2 & ->)])].
  - change (ERROR_PSOCK_WRITE_WOULD_BLOCK =? STATUS_SUCCESS) with false. change (negb (ok STATUS_SUCCESS)) with false. cbv iota.
    destruct (Nat.eqb_spec c 0) as [->|L].
    + eexists. split; [reflexivity|]. exists 0%nat. cbn. do 7 (split; [first [lia|auto]|]).
      split; [exists 0%nat; cbn; rewrite app_nil_r; auto|]. split; [exists []; auto|]. right. right. left. repeat split; auto. intros Q. apply (QC Q NE). reflexivity.
    + assert (LT : (length (tl (k_ws (a_k a))) <= length (k_ws (a_k a)))%nat) by (destruct (k_ws (a_k a)); cbn; lia).
      destruct (IH f (set_k a k') total (skipn c d)) as (r & R1 & (c' & P1 & P2 & P3 & P4 & P5 & P6 & P7 & P8 & P9 & P10)).
      { cbn. rewrite E, skipn_length. lia. }
      rewrite R1. exists r. split; [reflexivity|]. cbn in *. rewrite skipn_length in *. exists (c + c')%nat.
      split; [lia|]. split. { rewrite P2, B, <- app_assoc. f_equal. rewrite <- (firstn_skipn c d) at 3. rewrite firstn_app, firstn_length_le by lia.
        rewrite firstn_all2 with (n := (c + c')%nat) by (rewrite firstn_length; lia). f_equal. f_equal. lia. }
      split; [congruence|]. split; [congruence|]. repeat (split; [auto|]).
      destruct P10 as [(G1 & G2 & G3)|[(G1 & G2 & e & G3 & G4)|[(G1 & G2 & G3)|G]]].
      * left. split; [auto|]. split; [lia|auto].
      * right. left. split; [auto|]. split; [rewrite G2; lia|]. exists e. split; [|auto]. rewrite E in G3. destruct (k_ws (a_k a)); cbn in *; auto.
      * right. right. left. split; [auto|]. split; [auto|]. intros Q. apply G3. rewrite E. apply quiet_tl; auto.
      * right. right. right. auto.
  - change (ERROR_PSOCK_WRITE_WOULD_BLOCK =? ERROR_PSOCK_WRITE_WOULD_BLOCK) with true. cbv iota. cbn [firstn] in B. rewrite app_nil_r in B.
    generalize (write_block_spec f (set_k a k')). destruct (write_block f (set_k a k')) as [e a2].
    cbn [set_k a_k a_wfib a_type a_rfib a_log a_ys]. intros (S1 & S2 & S3 & S4 & (m & S5) & (pre & S6) & S7).
    destruct (ok e) eqn:OE; cbn [negb].
    + destruct (IH f a2 total d) as (r & R1 & (c' & P1 & P2 & P3 & P4 & P5 & P6 & P7 & P8 & P9 & P10)).
      { rewrite S1, E, H1. rewrite H1 in F. cbn in *. lia. }
      rewrite R1. exists r. split; [reflexivity|]. rewrite S1 in *. exists c'.
      split; [auto|]. split; [congruence|]. split; [congruence|]. split; [congruence|]. split; [congruence|]. split; [congruence|]. split; [auto|].
      split. { destruct P8 as (m' & P8). exists (m + m')%nat. rewrite repeat_app, app_assoc, <- S5. auto. }
      split. { destruct P9 as (p1 & P9). exists (pre ++ p1). rewrite S6, P9, app_assoc. reflexivity. }
      destruct P10 as [G|[(G1 & G2 & e1 & G3 & G4)|[(G1 & G2 & G3)|(G1 & G2 & G3)]]].
      * left; auto.
      * right. left. split; [auto|]. split; [auto|]. exists e1. split; [|auto]. rewrite E in G3. rewrite H1 in *. cbn in *. auto.
      * right. right. left. split; [auto|]. split; [auto|]. intros Q. apply G3. rewrite E. apply quiet_tl; auto.
      * right. right. right. split; [auto|]. split; [auto|]. intros K. rewrite S6. apply wait_status_incl. apply G3. congruence.
    + apply ok_false in OE. eexists. split; [reflexivity|]. exists 0%nat. cbn. rewrite app_nil_r, S1.
      do 7 (split; [first [lia|auto]|]).
      split; [exists m; auto|]. split; [exists pre; auto|]. right. right. right. auto.
  - change (ERROR_PSOCK_WRITE_WOULD_BLOCK =? ERROR_PSOCK_WRITE_GENERAL) with false. change (negb (ok ERROR_PSOCK_WRITE_GENERAL)) with true. cbv iota.
    eexists. split; [reflexivity|]. exists 0%nat. cbn. do 7 (split; [first [lia|auto]|]).
      split; [exists 0%nat; cbn; rewrite app_nil_r; auto|]. split; [exists []; auto|]. right. left. split; [auto|]. split; [lia|]. exists e. rewrite H1. cbn. auto.
Qed.

Lemma async_write_post : forall f a d, exists r,
  async_write f STATUS_SUCCESS a d = Some r /\ write_post f a (length d) d r.
Proof. intros. unfold async_write. rewrite ok_success. cbn [negb]. apply write_loop_post. lia. Qed.

Lemma write_loop_quiet : forall fuel f a total d, (length (k_ws (a_k a)) + length d < fuel)%nat ->
  quiet (k_ws (a_k a)) -> waits_work f (a_ys a) -> a_type a = PSOCK_TYPE_WRAP_ASYNC -> a_wfib a = 0 ->
  exists r, async_write_loop fuel f a total d = Some r /\ wr_status r = STATUS_SUCCESS.
Proof.
  induction fuel as [|fuel IH]; intros f a total d F Q W T WF; [lia|]. cbn [async_write_loop].
  destruct d as [|x d0] eqn:DD.
  { eexists. split; [reflexivity|]. reflexivity. }
  assert (NE : d <> []) by (rewrite DD; discriminate). rewrite <- DD in *. clear DD x d0.
  generalize (fd_write_spec (a_k a) d). cbv zeta.
  destruct (fd_write (a_k a) d) as [st sz k']. cbn [wr_status wr_size wr_sock] in *.
  intros (c & A & B & C & D & E & R).
  assert (LT : (length (tl (k_ws (a_k a))) <= length (k_ws (a_k a)))%nat) by (destruct (k_ws (a_k a)); cbn; lia).
  destruct R as [(-> & -> & QC & _) | (-> & -> & e & t & H1 & [(-> & ->) | (H2 & ->)])].
  - change (ERROR_PSOCK_WRITE_WOULD_BLOCK =? STATUS_SUCCESS) with false. change (negb (ok STATUS_SUCCESS)) with false. cbv iota.
    destruct (Nat.eqb_spec c 0) as [->|L]; [exfalso; apply (QC Q NE); reflexivity|].
    apply IH; auto; cbn; rewrite E; [rewrite skipn_length; lia|apply quiet_tl; auto].
  - change (ERROR_PSOCK_WRITE_WOULD_BLOCK =? ERROR_PSOCK_WRITE_WOULD_BLOCK) with true. cbv iota.
    destruct (write_block_works f (set_k a k')) as (a2 & S1 & S2 & S3 & S4 & S5 & S6 & S7); auto.
    rewrite S1. change (negb (ok STATUS_SUCCESS)) with false. cbv iota. cbn [set_k a_k a_type] in *.
    apply IH; auto; rewrite ?S2, ?E; [rewrite H1; rewrite H1 in F; cbn in *; lia|apply quiet_tl; auto|congruence].
  - rewrite H1 in Q. inversion Q; subst. congruence.
Qed.

(** ** Accept, sendmsg, recvmsg *)
Lemma retry_works : forall A (call : Z -> Z -> Z * A) wb blk f code pre ret errno t a,
  (forall a, waits_work f (a_ys a) -> a_type a = PSOCK_TYPE_WRAP_ASYNC -> Forall (fun y => y_ours y = true) (a_ys a) ->
     a_rfib a = 0 -> a_wfib a = 0 ->
     exists a', blk f a = (STATUS_SUCCESS, a') /\ a_k a' = a_k a /\ a_type a' = a_type a /\ a_rfib a' = 0 /\ a_wfib a' = 0 /\
       waits_work f (a_ys a') /\ Forall (fun y => y_ours y = true) (a_ys a') /\ a_log a' = a_log a ++ [code]) ->
  waits_work f (a_ys a) -> a_type a = PSOCK_TYPE_WRAP_ASYNC -> Forall (fun y => y_ours y = true) (a_ys a) ->
  a_rfib a = 0 -> a_wfib a = 0 ->
  Forall (fun p => fst (call (fst p) (snd p)) = wb) pre -> fst (call ret errno) <> wb ->
  exists a', retry call wb blk f a (pre ++ (ret, errno) :: t) = Some (fst (call ret errno), Some (snd (call ret errno)), a') /\
    a_k a' = a_k a /\ a_log a' = a_log a ++ repeat code (length pre) /\ a_rfib a' = 0 /\ a_wfib a' = 0.
Proof.
  intros A call wb blk f code pre ret errno t. induction pre as [|[r0 e0] pre IH]; intros a HB W T O RF WF HP HN; cbn [app retry].
  - destruct (call ret errno) as [e out]. cbn [fst snd] in *. destruct (Z.eqb_spec wb e); [congruence|].
    exists a. cbn. rewrite app_nil_r. auto.
  - pose proof (Forall_inv HP) as P1. pose proof (Forall_inv_tail HP) as P2. cbn [fst snd] in P1. destruct (call r0 e0) as [e out]. cbn [fst] in P1. rewrite P1, Z.eqb_refl.
    destruct (HB a W T O RF WF) as (a' & B1 & B2 & B3 & B4 & B5 & B6 & B7 & B8). rewrite B1. change (negb (ok STATUS_SUCCESS)) with false. cbv iota.
    destruct (IH a') as (a2 & C1 & C2 & C3 & C4); auto; [congruence|].
    exists a2. split; [exact C1|]. split; [congruence|]. split; [|auto]. rewrite C3, B8, <- app_assoc. reflexivity.
Qed.

Lemma read_block_ours : forall f a, waits_work f (a_ys a) -> a_type a = PSOCK_TYPE_WRAP_ASYNC -> Forall (fun y => y_ours y = true) (a_ys a) ->
  a_rfib a = 0 -> a_wfib a = 0 ->
  exists a', read_block f a = (STATUS_SUCCESS, a') /\ a_k a' = a_k a /\ a_type a' = a_type a /\ a_rfib a' = 0 /\ a_wfib a' = 0 /\
    waits_work f (a_ys a') /\ Forall (fun y => y_ours y = true) (a_ys a') /\ a_log a' = a_log a ++ [WAIT_READ].
Proof.
  intros f a W T O RF WF. destruct (read_block_works f a W T RF) as (a' & A & B & C & D & E & F & G).
  destruct (G O) as (G1 & G2). exists a'. repeat (split; [auto; congruence|]). auto.
Qed.
Lemma write_block_ours : forall f a, waits_work f (a_ys a) -> a_type a = PSOCK_TYPE_WRAP_ASYNC -> Forall (fun y => y_ours y = true) (a_ys a) ->
  a_rfib a = 0 -> a_wfib a = 0 ->
  exists a', write_block f a = (STATUS_SUCCESS, a') /\ a_k a' = a_k a /\ a_type a' = a_type a /\ a_rfib a' = 0 /\ a_wfib a' = 0 /\
    waits_work f (a_ys a') /\ Forall (fun y => y_ours y = true) (a_ys a') /\ a_log a' = a_log a ++ [WAIT_WRITE].
Proof.
  intros f a W T O RF WF. destruct (write_block_works f a W T WF) as (a' & A & B & C & D & E & F & G).
  destruct (G O) as (G1 & G2). exists a'. repeat (split; [auto; congruence|]). auto.
Qed.

(** One wait, exactly: events the user's handler lets pass, then the one that ends
    it. *)
Lemma wait_loop_exact : forall code cur pre y rest log,
  Forall (fun y => y_status y = STATUS_SUCCESS /\ y_ours y = false /\ y_handler y = STATUS_SUCCESS) pre ->
  y_status y <> STATUS_SUCCESS \/ y_ours y = true \/ y_handler y <> STATUS_SUCCESS ->
  wait_loop code cur (pre ++ y :: rest) 0 log =
    (if negb (ok (y_status y)) then y_status y else if y_ours y then STATUS_SUCCESS else y_handler y,
     0, rest, log ++ repeat code (S (length pre))).
Proof.
  intros code cur. induction pre as [|p pre IH]; intros y rest log F H; cbn [app wait_loop].
  - change (negb (0 =? 0)) with false. cbv iota. cbn [length repeat].
    destruct (ok (y_status y)) eqn:E1; cbn [negb]; [|reflexivity]. destruct (y_ours y); [reflexivity|].
    apply ok_true in E1. destruct (ok (y_handler y)) eqn:E2; cbn [negb]; [|reflexivity]. apply ok_true in E2.
    exfalso. destruct H as [H|[H|H]]; congruence.
  - change (negb (0 =? 0)) with false. cbv iota. destruct (Forall_inv F) as (A & B & C). rewrite A, B, C.
    change (negb (ok STATUS_SUCCESS)) with false. cbv iota. rewrite IH; auto; [|apply (Forall_inv_tail F)].
    cbn [length repeat]. rewrite <- app_assoc. reflexivity.
Qed.
Lemma wait_loop_all_pass : forall code cur pre log,
  Forall (fun y => y_status y = STATUS_SUCCESS /\ y_ours y = false /\ y_handler y = STATUS_SUCCESS) pre ->
  wait_loop code cur pre 0 log = (STATUS_SUCCESS, 0, [], log ++ repeat code (S (length pre))).
Proof.
  intros code cur. induction pre as [|p pre IH]; intros log F; cbn [wait_loop]; change (negb (0 =? 0)) with false; cbv iota; [reflexivity|].
  destruct (Forall_inv F) as (A & B & C). rewrite A, B, C. change (negb (ok STATUS_SUCCESS)) with false. cbv iota.
  rewrite IH by apply (Forall_inv_tail F). cbn [length repeat]. rewrite <- app_assoc. reflexivity.
Qed.

Lemma blocks_exact : forall f a pre y rest, f_sched f = STATUS_SUCCESS -> f_current f = STATUS_SUCCESS ->
  a_type a = PSOCK_TYPE_WRAP_ASYNC -> a_ys a = pre ++ y :: rest ->
  Forall (fun y => y_status y = STATUS_SUCCESS /\ y_ours y = false /\ y_handler y = STATUS_SUCCESS) pre ->
  y_status y <> STATUS_SUCCESS \/ y_ours y = true \/ y_handler y <> STATUS_SUCCESS ->
  let e := if negb (ok (y_status y)) then y_status y else if y_ours y then STATUS_SUCCESS else y_handler y in
  (a_rfib a = 0 -> read_block f a = (e, Async (a_type a) (a_k a) 0 (a_wfib a) rest (a_log a ++ repeat WAIT_READ (S (length pre))))) /\
  (a_wfib a = 0 -> write_block f a = (e, Async (a_type a) (a_k a) (a_rfib a) 0 rest (a_log a ++ repeat WAIT_WRITE (S (length pre))))).
Proof.
  intros f a pre y rest S C T Y F H e. unfold read_block, write_block. rewrite S, C, T, Y. change (negb (PSOCK_TYPE_WRAP_ASYNC =? PSOCK_TYPE_WRAP_ASYNC)) with false.
  change (negb (ok STATUS_SUCCESS)) with false. cbv iota.
  split; intros ->; rewrite wait_loop_exact by auto; reflexivity.
Qed.
Lemma blocks_refused : forall f a,
  (a_type a <> PSOCK_TYPE_WRAP_ASYNC -> read_block f a = (ERROR_PSOCK_UNSUPPORTED_TYPE, a) /\ write_block f a = (ERROR_PSOCK_UNSUPPORTED_TYPE, a)) /\
  (a_type a = PSOCK_TYPE_WRAP_ASYNC ->
    (f_sched f <> STATUS_SUCCESS -> read_block f a = (f_sched f, a) /\ write_block f a = (f_sched f, a)) /\
    (f_sched f = STATUS_SUCCESS -> f_current f <> STATUS_SUCCESS -> read_block f a = (f_current f, a) /\ write_block f a = (f_current f, a)) /\
    (f_sched f = STATUS_SUCCESS -> f_current f = STATUS_SUCCESS ->
      (a_rfib a <> 0 -> read_block f a = (ERROR_PSOCK_DOUBLE_BLOCK_UNSUPPORTED, a)) /\
      (a_wfib a <> 0 -> write_block f a = (ERROR_PSOCK_DOUBLE_BLOCK_UNSUPPORTED, a)))).
Proof.
  intros f [t k rf wf ys log]. unfold read_block, write_block. cbn [a_type a_k a_rfib a_wfib a_ys a_log]. split.
  - intros H. destruct (Z.eqb_spec PSOCK_TYPE_WRAP_ASYNC t); [congruence|]. auto.
  - intros ->. change (negb (PSOCK_TYPE_WRAP_ASYNC =? PSOCK_TYPE_WRAP_ASYNC)) with false. cbv iota. split; [|split].
    + intros H. rewrite (proj2 (ok_false _) H). auto.
    + intros H1 H2. rewrite H1, (proj2 (ok_false _) H2). auto.
    + intros H1 H2. rewrite H1, H2. change (negb (ok STATUS_SUCCESS)) with false. cbv iota.
      split; intros H; [destruct ys as [|y ys]; cbn [wait_loop]; destruct (Z.eqb_spec rf 0)|destruct ys as [|y ys]; cbn [wait_loop]; destruct (Z.eqb_spec wf 0)]; try congruence; reflexivity.
Qed.
