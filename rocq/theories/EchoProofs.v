(** Proofs about the echo server's connection fiber. *)
From Verif Require Import Base Status CodecModel MemModel MemProofs AsyncModel AsyncSpec AsyncProofs EchoModel EchoSpec.

Lemma raw_read : forall f a, exists r,
  async_read f STATUS_SUCCESS a DATA_SIZE false = Some r /\ read_post f a [] DATA_SIZE false r /\
  let q := read_raw (async_ops f) DATA_SIZE (Some a) in
  rr_status q = rr_status r /\ rr_data q = rr_data r /\ rr_sock q = Some (rr_sock r) /\
  (rr_status r = STATUS_SUCCESS -> rr_size q = rr_size r).
Proof.
  intros f a. destruct (async_read_post f a DATA_SIZE false) as (r & R & P). exists r. split; [auto|]. split; [auto|].
  unfold read_raw. cbn [async_ops op_vtable op_read]. rewrite R. cbn [rr_status rr_data rr_sock rr_size].
  change (negb (STATUS_SUCCESS =? STATUS_SUCCESS)) with false. cbv iota.
  destruct ((rr_status r =? ERROR_PSOCK_READ_WOULD_BLOCK) || (rr_status r =? STATUS_SUCCESS)) eqn:E; cbn [rr_status rr_data rr_sock rr_size]; repeat split; auto.
  intros H. rewrite H in E. discriminate.
Qed.

Lemma raw_write : forall f a d, d <> [] -> exists w,
  async_write f STATUS_SUCCESS a d = Some w /\ write_post f a (length d) d w /\
  write_raw_data (async_ops f) d (Some a) = Some (wr_status w, Some (wr_sock w)).
Proof.
  intros f a d N. destruct (async_write_post f a d) as (w & R & P). exists w. split; [auto|]. split; [auto|].
  unfold write_raw_data. change (op_vtable (async_ops f) =? STATUS_SUCCESS) with true. cbn [negb].
  cbn [write_loop]. destruct d as [|x d]; [congruence|]. cbn [async_ops op_write]. rewrite R.
  cbn [wr_status wr_size wr_sock]. destruct (Z.eqb_spec (wr_status w) STATUS_SUCCESS) as [E|E]; cbn [negb].
  - destruct P as (c & _ & _ & _ & _ & _ & _ & _ & _ & _ & [(_ & _ & H)|[(H & _)|[(H & _)|(H & _)]]]); try congruence; try (rewrite H in E; discriminate E).
    rewrite H. cbn [length Nat.eqb skipn]. rewrite skipn_all. cbn [write_loop length]. change (STATUS_SUCCESS =? STATUS_SUCCESS) with true. cbn [negb].
    rewrite E. reflexivity.
  - rewrite (proj2 (Z.eqb_neq _ _) E). reflexivity.
Qed.

Lemma wb_shorter : forall fuel f a got n r, async_read_loop fuel f false a got n = Some r ->
  rr_status r = ERROR_PSOCK_READ_WOULD_BLOCK ->
  rr_data r = got -> (length (k_rs (a_k (rr_sock r))) < length (k_rs (a_k a)))%nat.
Proof.
  induction fuel as [|fuel IH]; intros f a got n r E H G; [discriminate|]. cbn [async_read_loop] in E.
  destruct (Nat.eqb_spec n 0) as [->|N]; [injection E as <-; discriminate|].
  generalize (fd_read_spec (a_k a) n). cbv zeta. destruct (fd_read (a_k a) n) as [st sz d k']. cbn [rr_status rr_size rr_data rr_sock] in *.
  intros (A & B & C & D & F & R).
  rewrite andb_false_r in E. cbv iota in E. rewrite andb_true_r in E.
  destruct R as [(-> & ->)|(-> & -> & e & t & K & [(-> & ->)|(K2 & ->)])].
  - change (ERROR_PSOCK_READ_WOULD_BLOCK =? STATUS_SUCCESS) with false in E. change (negb (ok STATUS_SUCCESS)) with false in E. cbv iota in E.
    destruct (Nat.eqb_spec (length d) 0) as [Z0|Z0]; [injection E as <-; discriminate|].
    exfalso.
    assert (X : exists z, rr_data r = (got ++ d) ++ z).
    { clear -E. revert E. generalize (got ++ d) as g. generalize (n - length d)%nat as m. generalize (set_k a k') as b.
      induction fuel as [|fuel IH]; intros b m g E; [discriminate|]. cbn [async_read_loop] in E.
      destruct (Nat.eqb m 0); [injection E as <-; exists []; rewrite app_nil_r; auto|].
      rewrite andb_false_r in E. cbv iota in E. rewrite andb_true_r in E.
      destruct (ERROR_PSOCK_READ_WOULD_BLOCK =? rr_status (fd_read (a_k b) m)).
      { destruct (0 <? length g)%nat; injection E as <-; exists []; rewrite app_nil_r; auto. }
      destruct (negb (ok (rr_status (fd_read (a_k b) m)))); [injection E as <-; exists []; rewrite app_nil_r; auto|].
      destruct (Nat.eqb (rr_size (fd_read (a_k b) m)) 0); [injection E as <-; exists []; rewrite app_nil_r; auto|].
      destruct (IH _ _ _ E) as (z & ->). rewrite <- app_assoc. eauto. }
    destruct X as (z & X). rewrite G in X. apply (f_equal (@length Z)) in X. rewrite !app_length in X. lia.
  - change (ERROR_PSOCK_READ_WOULD_BLOCK =? ERROR_PSOCK_READ_WOULD_BLOCK) with true in E. cbv iota in E.
    destruct (0 <? length got)%nat; injection E as <-; [discriminate|]. cbn [rr_sock set_k a_k]. rewrite D, K. cbn. lia.
  - change (ERROR_PSOCK_READ_WOULD_BLOCK =? ERROR_PSOCK_READ_GENERAL) with false in E. change (negb (ok ERROR_PSOCK_READ_GENERAL)) with true in E. cbv iota in E.
    injection E as <-. discriminate.
Qed.

Lemma data_size_pos : (0 < DATA_SIZE)%nat. Proof. unfold DATA_SIZE. lia. Qed.

(** The script of writes is consumed from its front; a write that the peer always takes does not wait. *)
Lemma write_script : forall fuel f a total d r, async_write_loop fuel f a total d = Some r ->
  (exists pre, k_ws (a_k a) = pre ++ k_ws (a_k (wr_sock r))) /\
  (wr_status r = STATUS_SUCCESS \/ (wr_status r = ERROR_PSOCK_WRITE_GENERAL /\ exists n, In (KFail n) (k_ws (a_k a)) /\ n <> EAGAIN) \/
   (wr_status r = ERROR_PSOCK_WRITE_EOF /\ ~ quiet (k_ws (a_k a))) \/ In (KFail EAGAIN) (k_ws (a_k a))).
Proof.
  induction fuel as [|fuel IH]; intros f a total d r E; [discriminate|]. cbn [async_write_loop] in E.
  destruct d as [|x d0] eqn:DD; [injection E as <-; split; [exists []; auto|cbn; auto]|]. assert (ND : d <> []) by (rewrite DD; discriminate). rewrite <- DD in *. clear DD.
  generalize (fd_write_spec (a_k a) d). cbv zeta.
  destruct (fd_write (a_k a) d) as [st sz k']. cbn [wr_status wr_size wr_sock] in *.
  intros (c & A & B & C & D & F & R). destruct (tl_pre _ (k_ws (a_k a))) as (pre & PR).
  destruct R as [(-> & -> & QC & _)|(-> & -> & e & t & K & [(-> & ->)|(K2 & ->)])].
  - change (ERROR_PSOCK_WRITE_WOULD_BLOCK =? STATUS_SUCCESS) with false in E. change (negb (ok STATUS_SUCCESS)) with false in E. cbv iota in E.
    destruct (Nat.eqb_spec c 0) as [Z0|Z0].
    { injection E as <-. cbn [wr_sock set_k a_k wr_status]. rewrite F. split; [eauto|]. right; right; left. split; [auto|]. intros Q. exact (QC Q ND Z0). }
    apply IH in E. cbn [set_k a_k] in E. rewrite F in E. destruct E as ((p2 & E1) & E2). split.
    + exists (pre ++ p2). rewrite <- app_assoc, <- E1. exact PR.
    + destruct E2 as [E2|[(E2 & n & E3 & E4)|[(E2 & E3)|E2]]]; [auto| | |do 3 right; rewrite PR; apply in_or_app; auto].
      * right; left. split; [auto|]. exists n. split; [|auto]. rewrite PR. apply in_or_app. auto.
      * right; right; left. split; [auto|]. intros Q. apply E3, quiet_tl, Q.
  - change (ERROR_PSOCK_WRITE_WOULD_BLOCK =? ERROR_PSOCK_WRITE_WOULD_BLOCK) with true in E. cbv iota in E.
    generalize (write_block_spec f (set_k a k')). destruct (write_block f (set_k a k')) as [e a2]. intros (W & _). cbn [set_k a_k] in W.
    assert (I : In (KFail EAGAIN) (k_ws (a_k a))) by (rewrite K; left; auto).
    destruct (negb (ok e)).
    + injection E as <-. cbn [wr_sock wr_status]. rewrite W, F. split; eauto.
    + apply IH in E. rewrite W, F in E. destruct E as ((p2 & E1) & E2). split; [|auto].
      exists (pre ++ p2). rewrite <- app_assoc, <- E1. exact PR.
  - change (ERROR_PSOCK_WRITE_WOULD_BLOCK =? ERROR_PSOCK_WRITE_GENERAL) with false in E. change (negb (ok ERROR_PSOCK_WRITE_GENERAL)) with true in E. cbv iota in E.
    injection E as <-. cbn [wr_sock wr_status set_k a_k]. rewrite F. split; [eauto|]. right; left. split; [auto|]. exists e. rewrite K. split; [left; auto|auto].
Qed.

(** What is kept of a wrapper from one round to the next. *)
Definition frame (a b : async) : Prop :=
  a_type b = a_type a /\ (a_rfib a = 0 -> a_rfib b = 0) /\ (a_wfib a = 0 -> a_wfib b = 0) /\
  (exists pre, a_ys a = pre ++ a_ys b) /\ (exists pre, k_rs (a_k a) = pre ++ k_rs (a_k b)) /\ (exists pre, k_ws (a_k a) = pre ++ k_ws (a_k b)).
Lemma frame_refl : forall a, frame a a.
Proof. intros a. repeat (split; [auto; exists []; reflexivity|]). exists []; reflexivity. Qed.
Lemma frame_trans : forall a b c, frame a b -> frame b c -> frame a c.
Proof.
  intros a b c (A1 & A2 & A3 & (p & A4) & (q & A5) & (r & A6)) (B1 & B2 & B3 & (p' & B4) & (q' & B5) & (r' & B6)).
  split; [congruence|]. split; [auto|]. split; [auto|]. split; [|split].
  - exists (p ++ p'). rewrite <- app_assoc, <- B4. auto.
  - exists (q ++ q'). rewrite <- app_assoc, <- B5. auto.
  - exists (r ++ r'). rewrite <- app_assoc, <- B6. auto.
Qed.

(** One round. *)
Lemma turn_spec : forall f a, exists t, echo_turn f a = Some t /\
  match t with
  | Again b => frame a b /\ (length (k_rs (a_k b)) + length (k_in (a_k b)) < length (k_rs (a_k a)) + length (k_in (a_k a)))%nat /\
      (exists d, (length d <= DATA_SIZE)%nat /\ k_in (a_k a) = d ++ k_in (a_k b) /\ k_out (a_k b) = k_out (a_k a) ++ d)
  | Ends e b => frame a b /\ e <> STATUS_SUCCESS /\
      exists d c, (length d <= DATA_SIZE)%nat /\ k_in (a_k a) = d ++ k_in (a_k b) /\ k_out (a_k b) = k_out (a_k a) ++ firstn c d /\ (c <= length d)%nat /\
        ending f a e d c (k_in (a_k b))
  end.
Proof.
  intros f a. unfold echo_turn. destruct (raw_read f a) as (r & RR & P & Q). cbv zeta in Q.
  destruct (read_raw (async_ops f) DATA_SIZE (Some a)) as [st sz dt s]. cbn [rr_status rr_size rr_data rr_sock] in *.
  destruct Q as (-> & -> & -> & QS). cbn beta iota.
  assert (SH : rr_status r = ERROR_PSOCK_READ_WOULD_BLOCK -> rr_data r = [] -> (length (k_rs (a_k (rr_sock r))) < length (k_rs (a_k a)))%nat).
  { unfold async_read in RR. change (negb (ok STATUS_SUCCESS)) with false in RR. cbv iota in RR. intros. eapply wb_shorter; eauto. }
  destruct P as (d & P1 & P2 & P3 & P4 & P5 & P6 & P7 & P8 & P9 & P10 & P11 & P12 & P13 & P14). cbn [app] in P1. rewrite P1 in *.
  specialize (P13 eq_refl). destruct P13 as (P13 & P13a & P13b).
  set (a1 := rr_sock r) in *.
  assert (F1 : frame a a1).
  { split; [auto|]. split; [auto|]. split; [congruence|]. split; [auto|]. split; [auto|]. exists []. rewrite P6. reflexivity. }
  destruct P14 as [(K & K1)|[(K & K1)|[(K & K1)|[(K & K0 & K1)|(_ & K0 & _)]]]]; [| | | |discriminate K0]; rewrite ?K.
  - change (ERROR_PSOCK_READ_WOULD_BLOCK =? STATUS_SUCCESS) with false. change (negb (ok STATUS_SUCCESS)) with false. cbv iota.
    rewrite (QS K), P2, firstn_all.
    assert (N : d <> []) by (destruct K1 as [K1|(_ & K1)]; [intros ->; generalize data_size_pos; cbn in K1; lia|exact K1]).
    destruct (raw_write f a1 d N) as (w & W1 & W2 & W3). rewrite W3. cbn beta iota.
    unfold async_write in W1. change (negb (ok STATUS_SUCCESS)) with false in W1. cbv iota in W1.
    destruct (write_script _ _ _ _ _ _ W1) as (SC & WS).
    destruct W2 as (c & V1 & V2 & V3 & V4 & V5 & V6 & V7 & V8 & V9 & V10).
    assert (F2 : frame a1 (wr_sock w)).
    { split; [auto|]. split; [congruence|]. split; [auto|]. split; [auto|]. split; [|auto]. exists []. rewrite V4. reflexivity. }
    pose proof (frame_trans _ _ _ F1 F2) as F3.
    destruct (ok (wr_status w)) eqn:OK; cbn [negb]; eexists; (split; [reflexivity|]); cbn beta iota.
    + apply ok_true in OK. destruct V10 as [(V10 & V11 & _)|[(V10 & _)|[(V10 & _)|(V10 & _)]]]; try congruence; try (rewrite V10 in OK; discriminate OK).
      split; [auto|]. destruct P7 as (pre & P7). split.
      * rewrite V4, V3, P7, P4, !app_length. destruct d; [congruence|]. cbn. lia.
      * exists d. split; [auto|]. rewrite V3, V2, P5. split; [auto|]. rewrite V11, firstn_all. auto.
    + apply ok_false in OK. split; [auto|]. split; [auto|]. exists d, c. split; [auto|]. rewrite V3, V2, P5. split; [auto|]. split; [auto|]. split; [auto|].
      unfold ending. destruct V10 as [(V10 & _)|[(V10 & _ & V11)|[(V10 & _ & V11)|(V10 & _ & V11)]]].
      * congruence.
      * do 3 right; left. rewrite P6 in V11. auto.
      * do 4 right; left. rewrite P6 in V11. auto.
      * rewrite P6 in WS. rewrite P8, P13a in V11. destruct WS as [WS|[WS|[WS|WS]]]; [congruence|do 3 right; left; auto|do 4 right; left; auto|do 5 right; auto].
  - change (ERROR_PSOCK_READ_WOULD_BLOCK =? ERROR_PSOCK_READ_GENERAL) with false. change (negb (ok ERROR_PSOCK_READ_GENERAL)) with true. cbv iota.
    eexists. split; [reflexivity|]. cbn beta iota. split; [auto|]. split; [discriminate|]. exists d, 0%nat. split; [auto|]. cbn [firstn]. rewrite app_nil_r.
    split; [auto|]. split; [auto|]. split; [lia|]. left. auto.
  - change (ERROR_PSOCK_READ_WOULD_BLOCK =? ERROR_PSOCK_READ_EOF) with false. change (negb (ok ERROR_PSOCK_READ_EOF)) with true. cbv iota.
    eexists. split; [reflexivity|]. cbn beta iota. split; [auto|]. split; [discriminate|]. exists d, 0%nat. split; [auto|]. cbn [firstn]. rewrite app_nil_r.
    split; [auto|]. split; [auto|]. split; [lia|]. right; left. auto.
  - change (ERROR_PSOCK_READ_WOULD_BLOCK =? ERROR_PSOCK_READ_WOULD_BLOCK) with true. cbv iota. specialize (SH K K1). cbn [app] in K1.
    generalize (read_block_spec f a1). destruct (read_block f a1) as [e a2]. intros (B1 & B2 & B3 & B4 & B5 & B6 & B7).
    assert (F2 : frame a1 a2).
    { split; [auto|]. split; [auto|]. split; [congruence|]. split; [auto|]. rewrite B1. split; exists []; auto. }
    pose proof (frame_trans _ _ _ F1 F2) as F3. rewrite K1 in P4. cbn [app] in P4.
    destruct (ok e) eqn:OK; cbn [negb]; eexists; (split; [reflexivity|]); cbn beta iota; (split; [auto|]); rewrite B1.
    + split; [rewrite P4; lia|]. exists []. split; [cbn; lia|]. rewrite app_nil_r, <- P4, P5. auto.
    + apply ok_false in OK. split; [auto|]. exists [], 0%nat. split; [cbn; lia|]. cbn [firstn app length]. rewrite app_nil_r. split; [auto|]. split; [auto|].
      split; [lia|]. right; right; left. split; [auto|]. intros T. rewrite P8 in B7. rewrite P13a in B7. auto.
Qed.

Lemma frame_ending : forall f a b e d c rest, frame a b -> ending f b e d c rest -> ending f a e d c rest.
Proof.
  intros f a b e d c rest (A1 & A2 & A3 & (p & A4) & (q & A5) & (r & A6)) H. unfold ending in *. rewrite A1 in H. rewrite A4, A5, A6.
  destruct H as [(H & H1 & n & H2 & H3)|[(H & H1 & H2)|[(H & H1)|[(H & n & H1 & H2)|[(H & H1)|(H & H1)]]]]].
  - left. split; [auto|]. split; [auto|]. exists n. split; [apply in_or_app|]; auto.
  - right; left. split; [auto|]. split; [auto|]. intros Q. apply H2. apply Forall_app in Q. apply Q.
  - right; right; left. split; [auto|]. intros T. apply wait_status_incl. auto.
  - do 3 right; left. split; [auto|]. exists n. split; [apply in_or_app|]; auto.
  - do 4 right; left. split; [auto|]. intros Q. apply H1. apply Forall_app in Q. apply Q.
  - do 5 right. split; [intros T; apply wait_status_incl; auto|apply in_or_app; auto].
Qed.

Lemma rounds_spec : forall f a b, rounds f a b ->
  frame a b /\ exists r, k_in (a_k a) = r ++ k_in (a_k b) /\ k_out (a_k b) = k_out (a_k a) ++ r.
Proof.
  induction 1 as [a|a b c E R (F & r & I & O)].
  - split; [apply frame_refl|]. exists []. rewrite app_nil_r. auto.
  - destruct (turn_spec f a) as (t & E2 & T). rewrite E in E2. injection E2 as <-. destruct T as (F1 & _ & d & _ & I1 & O1).
    split; [eapply frame_trans; eauto|]. exists (d ++ r). rewrite O, O1, I1, I, !app_assoc. auto.
Qed.

Lemma loop_spec : forall fuel f a, (length (k_rs (a_k a)) + length (k_in (a_k a)) < fuel)%nat ->
  exists e m b, echo_loop fuel f a = Some (e, b) /\ rounds f a m /\ echo_turn f m = Some (Ends e b).
Proof.
  induction fuel as [|fuel IH]; intros f a L; [lia|]. cbn [echo_loop].
  destruct (turn_spec f a) as (t & E & T). rewrite E. cbn beta iota. destruct t as [b|e b].
  - destruct T as (_ & S & _). destruct (IH f b ltac:(lia)) as (e & m & c & L1 & L2 & L3). exists e, m, c. split; [auto|]. split; [|auto].
    eapply rounds_more; eauto.
  - exists e, a, b. split; [auto|]. split; [constructor|auto].
Qed.

(** More rounds than needed change nothing. *)
Lemma loop_more : forall n m f a x, echo_loop n f a = Some x -> (n <= m)%nat -> echo_loop m f a = Some x.
Proof.
  induction n as [|n IH]; intros m f a x E L; [discriminate|]. destruct m as [|m]; [lia|]. cbn [echo_loop] in *.
  destruct (echo_turn f a) as [[b|e b]|]; [|auto|discriminate]. cbn beta iota in *. apply IH; [auto|lia].
Qed.
Lemma entry_loop : forall n f a e b sr rc, echo_loop n f a = Some (e, b) ->
  echo_entry f sr rc a = Some (if negb (ok (context_release sr rc)) then context_release sr rc else e, b).
Proof.
  intros n f a e b sr rc E. unfold echo_entry.
  destruct (loop_spec (S (length (k_rs (a_k a)) + length (k_in (a_k a)))) f a ltac:(lia)) as (e' & m & b' & L & _). rewrite L. cbn beta iota.
  pose proof (loop_more _ (n + S (length (k_rs (a_k a)) + length (k_in (a_k a)))) _ _ _ E ltac:(lia)) as X.
  rewrite (loop_more _ (n + S (length (k_rs (a_k a)) + length (k_in (a_k a)))) _ _ _ L ltac:(lia)) in X. injection X as -> ->. reflexivity.
Qed.

Lemma entry_spec : forall f a sr rc, exists e m b,
  echo_entry f sr rc a = Some (if negb (ok sr) then sr else if negb (ok rc) then rc else e, b) /\
  rounds f a m /\ echo_turn f m = Some (Ends e b) /\ e <> STATUS_SUCCESS /\
  exists r d c, k_in (a_k a) = r ++ d ++ k_in (a_k b) /\ k_out (a_k b) = k_out (a_k a) ++ r ++ firstn c d /\
    (length d <= DATA_SIZE)%nat /\ (c <= length d)%nat /\ ending f a e d c (k_in (a_k b)).
Proof.
  intros f a sr rc. destruct (loop_spec (S (length (k_rs (a_k a)) + length (k_in (a_k a)))) f a ltac:(lia)) as (e & m & b & L & R & T).
  exists e, m, b. split; [|split; [auto|split; [auto|]]].
  - rewrite (entry_loop _ _ _ _ _ sr rc L). unfold context_release. destruct (ok sr) eqn:S1; cbn [negb]; [|rewrite S1; reflexivity].
    destruct (ok rc) eqn:S2; cbn [negb]; [|rewrite S2; reflexivity]. reflexivity.
  - destruct (turn_spec f m) as (t & E & X). rewrite T in E. injection E as <-. destruct X as (F & N & d & c & X1 & X2 & X3 & X4 & X5).
    destruct (rounds_spec _ _ _ R) as (F1 & r & I & O). split; [auto|]. exists r, d, c. rewrite I, X2, X3, O. rewrite <- app_assoc.
    repeat (split; [auto|]). eapply frame_ending; eauto.
Qed.

(** ** Runs with a well-behaved descriptor *)
Lemma raw_write_quiet : forall f a d, d <> [] -> quiet (k_ws (a_k a)) -> waits_work f (a_ys a) -> a_type a = PSOCK_TYPE_WRAP_ASYNC -> a_wfib a = 0 ->
  exists b, write_raw_data (async_ops f) d (Some a) = Some (STATUS_SUCCESS, Some b) /\
    k_in (a_k b) = k_in (a_k a) /\ k_rs (a_k b) = k_rs (a_k a) /\ k_out (a_k b) = k_out (a_k a) ++ d /\
    quiet (k_ws (a_k b)) /\ waits_work f (a_ys b) /\ a_type b = PSOCK_TYPE_WRAP_ASYNC /\ a_rfib b = a_rfib a /\ a_wfib b = 0.
Proof.
  intros f a d N Q W T WF. destruct (raw_write f a d N) as (w & W1 & W2 & W3). rewrite W3. exists (wr_sock w).
  unfold async_write in W1. change (negb (ok STATUS_SUCCESS)) with false in W1. cbv iota in W1.
  destruct (write_loop_quiet (S (length (k_ws (a_k a)) + length d)) f a (length d) d ltac:(lia) Q W T WF) as (r & R1 & R2).
  rewrite W1 in R1. injection R1 as <-. rewrite R2.
  destruct (write_script _ _ _ _ _ _ W1) as ((pre & SC) & _).
  destruct W2 as (c & V1 & V2 & V3 & V4 & V5 & V6 & V7 & V8 & (p2 & V9) & V10).
  destruct V10 as [(_ & V11 & _)|[(V10 & _)|[(V10 & _)|(V10 & _)]]]; try congruence; try (rewrite V10 in R2; discriminate R2).
  split; [auto|]. split; [auto|]. split; [auto|]. split; [rewrite V2, V11, firstn_all; auto|]. split; [|split; [|split; [congruence|split; auto]]].
  - unfold quiet in *. rewrite SC in Q. apply Forall_app in Q. apply Q.
  - destruct W as (A & B & C). split; [auto|]. split; [auto|]. rewrite V9 in C. apply Forall_app in C. apply C.
Qed.

(** One round, given what the read gives. *)
Lemma turn_by_read : forall f a r, async_read f STATUS_SUCCESS a DATA_SIZE false = Some r -> rr_status r = STATUS_SUCCESS ->
  rr_size r = length (rr_data r) -> rr_data r <> [] ->
  quiet (k_ws (a_k (rr_sock r))) -> waits_work f (a_ys (rr_sock r)) -> a_type (rr_sock r) = PSOCK_TYPE_WRAP_ASYNC -> a_wfib (rr_sock r) = 0 ->
  exists b, echo_turn f a = Some (Again b) /\
    k_in (a_k b) = k_in (a_k (rr_sock r)) /\ k_rs (a_k b) = k_rs (a_k (rr_sock r)) /\ k_out (a_k b) = k_out (a_k (rr_sock r)) ++ rr_data r /\
    quiet (k_ws (a_k b)) /\ waits_work f (a_ys b) /\ a_type b = PSOCK_TYPE_WRAP_ASYNC /\ a_rfib b = a_rfib (rr_sock r) /\ a_wfib b = 0.
Proof.
  intros f a r E S1 S2 N Q W T WF. unfold echo_turn, read_raw. cbn [async_ops op_vtable op_read]. rewrite E. cbn [rr_status rr_data rr_sock rr_size].
  change (negb (STATUS_SUCCESS =? STATUS_SUCCESS)) with false. cbv iota. rewrite S1.
  change ((STATUS_SUCCESS =? ERROR_PSOCK_READ_WOULD_BLOCK) || (STATUS_SUCCESS =? STATUS_SUCCESS)) with true. cbn [rr_status rr_data rr_sock rr_size].
  change (ERROR_PSOCK_READ_WOULD_BLOCK =? STATUS_SUCCESS) with false. change (negb (ok STATUS_SUCCESS)) with false. cbv iota.
  rewrite S2, firstn_all. destruct (raw_write_quiet f (rr_sock r) (rr_data r) N Q W T WF) as (b & B & R). exists b. split; [|exact R].
  change (op_vtable (async_ops f)) with STATUS_SUCCESS in *. fold (async_ops f). rewrite B. reflexivity.
Qed.

(** Would-block before any byte. *)
Lemma turn_idle : forall f a t, k_rs (a_k a) = KFail EAGAIN :: t -> waits_work f (a_ys a) -> a_type a = PSOCK_TYPE_WRAP_ASYNC -> a_rfib a = 0 ->
  exists b, echo_turn f a = Some (Again b) /\ a_k b = Kern (k_in (a_k a)) t (k_out (a_k a)) (k_ws (a_k a)) /\
    waits_work f (a_ys b) /\ a_type b = PSOCK_TYPE_WRAP_ASYNC /\ a_rfib b = 0 /\ a_wfib b = a_wfib a.
Proof.
  intros f a t K W T RF. unfold echo_turn, read_raw. cbn [async_ops op_vtable op_read]. unfold async_read.
  change (negb (ok STATUS_SUCCESS)) with false. cbv iota. cbn [async_read_loop].
  destruct (Nat.eqb_spec DATA_SIZE 0) as [Z0|_]; [generalize data_size_pos; lia|].
  unfold fd_read, kread. rewrite K. change (-1 <? 0) with true. change (again EAGAIN) with true. cbv iota beta.
  cbn [rr_status rr_sock rr_data rr_size]. change (ERROR_PSOCK_READ_WOULD_BLOCK =? ERROR_PSOCK_READ_WOULD_BLOCK) with true. cbn [andb negb length Nat.ltb Nat.leb rr_status rr_sock rr_data rr_size].
  change (negb (STATUS_SUCCESS =? STATUS_SUCCESS)) with false. cbv iota.
  change ((ERROR_PSOCK_READ_WOULD_BLOCK =? ERROR_PSOCK_READ_WOULD_BLOCK) || (ERROR_PSOCK_READ_WOULD_BLOCK =? STATUS_SUCCESS)) with true. cbv iota.
  cbn [rr_status rr_sock rr_data rr_size].
  change (ERROR_PSOCK_READ_WOULD_BLOCK =? ERROR_PSOCK_READ_WOULD_BLOCK) with true. cbv iota.
  destruct (read_block_works f (set_k a (Kern (k_in (a_k a)) t (k_out (a_k a)) (k_ws (a_k a)))) W T RF) as (b & B & C & D & E & F & G & _).
  rewrite B. change (negb (ok STATUS_SUCCESS)) with false. cbv iota. exists b. split; [reflexivity|]. rewrite C. cbn [set_k a_k a_type a_wfib] in *.
  split; [auto|]. split; [auto|]. split; [congruence|]. auto.
Qed.

Lemma fd_read_gives : forall k n, (forall m t, k_rs k <> KFail m :: t) -> (forall t, k_rs k <> KZero :: t) ->
  let c := match k_rs k with KGive m :: _ => Nat.min n (Nat.min (S m) (length (k_in k))) | _ => Nat.min n (length (k_in k)) end in
  fd_read k n = RRes STATUS_SUCCESS c (firstn c (k_in k)) (Kern (skipn c (k_in k)) (tl (k_rs k)) (k_out k) (k_ws k)).
Proof.
  intros k n A B. unfold fd_read, kread. destruct (k_rs k) as [|[m|e|] t]; [| |destruct (A e t eq_refl)|destruct (B t eq_refl)]; cbv zeta beta iota;
    match goal with |- context [Z.of_nat ?c <? 0] => destruct (Z.ltb_spec (Z.of_nat c) 0); [lia|] end; rewrite Nat2Z.id; reflexivity.
Qed.

(** A read loop that is given bytes. *)
Lemma loop_given : forall fuel f a got n, (0 < n)%nat -> (forall m t, k_rs (a_k a) <> KFail m :: t) -> (forall t, k_rs (a_k a) <> KZero :: t) ->
  let c := match k_rs (a_k a) with KGive m :: _ => Nat.min n (Nat.min (S m) (length (k_in (a_k a)))) | _ => Nat.min n (length (k_in (a_k a))) end in
  let a1 := set_k a (Kern (skipn c (k_in (a_k a))) (tl (k_rs (a_k a))) (k_out (a_k a)) (k_ws (a_k a))) in
  async_read_loop (S fuel) f false a got n =
    if (c =? 0)%nat then Some (RRes ERROR_PSOCK_READ_EOF (length got) got a1)
    else async_read_loop fuel f false a1 (got ++ firstn c (k_in (a_k a))) (n - c).
Proof.
  intros fuel f a got n N A B c a1. cbn [async_read_loop]. destruct (Nat.eqb_spec n 0); [lia|].
  rewrite (fd_read_gives _ n A B). fold c. cbn [rr_status rr_sock rr_data rr_size]. fold a1. reflexivity.
Qed.

(** The end of the stream. *)
Lemma turn_eof : forall f a, k_rs (a_k a) = [] -> (length (k_in (a_k a)) < DATA_SIZE)%nat ->
  exists b, echo_turn f a = Some (Ends ERROR_PSOCK_READ_EOF b) /\ k_in (a_k b) = [] /\ k_out (a_k b) = k_out (a_k a).
Proof.
  intros f a K L. destruct (turn_spec f a) as (t & E & X).
  assert (Y : exists r, async_read f STATUS_SUCCESS a DATA_SIZE false = Some r /\ rr_status r = ERROR_PSOCK_READ_EOF).
  { unfold async_read. change (negb (ok STATUS_SUCCESS)) with false. cbv iota. rewrite K. cbn [length plus].
    destruct DATA_SIZE as [|n] eqn:DS; [lia|].
    rewrite loop_given by (rewrite ?K; first [lia|discriminate]). rewrite K. rewrite Nat.min_r by lia.
    destruct (Nat.eqb_spec (length (k_in (a_k a))) 0); [eexists; split; [reflexivity|auto]|].
    rewrite loop_given by (cbn [set_k a_k k_rs tl]; first [lia|discriminate]). cbn [set_k a_k k_rs k_in tl]. rewrite skipn_all. cbn [length].
    rewrite Nat.min_0_r. change (0 =? 0)%nat with true. cbv iota. eexists. split; [reflexivity|auto]. }
  destruct Y as (r & Y1 & Y2). destruct (raw_read f a) as (r' & Y3 & P & Q1 & _ & Q3 & _). rewrite Y1 in Y3. injection Y3 as <-.
  unfold echo_turn in E |- *. rewrite Q1, Q3, Y2 in *. cbn beta iota in E |- *.
  change (ERROR_PSOCK_READ_WOULD_BLOCK =? ERROR_PSOCK_READ_EOF) with false in *. change (negb (ok ERROR_PSOCK_READ_EOF)) with true in *. cbv iota in *.
  eexists. split; [reflexivity|]. destruct P as (d & _ & _ & _ & _ & P5 & _ & _ & _ & _ & _ & _ & _ & _ & P14). split; [|auto].
  destruct P14 as [(P & _)|[(P & _)|[(_ & P)|[(P & _)|(_ & P & _)]]]]; try (rewrite Y2 in P; discriminate P); [|discriminate P]. apply P. rewrite K. constructor.
Qed.

(** One burst. *)
Lemma turn_burst : forall f a b rest t, (1 <= length b <= DATA_SIZE)%nat -> k_in (a_k a) = b ++ rest ->
  k_rs (a_k a) = KGive (length b - 1) :: KFail EAGAIN :: t ->
  quiet (k_ws (a_k a)) -> waits_work f (a_ys a) -> a_type a = PSOCK_TYPE_WRAP_ASYNC -> a_rfib a = 0 -> a_wfib a = 0 ->
  exists n c, (n <= 2)%nat /\ (forall fuel, echo_loop (n + fuel) f a = echo_loop fuel f c) /\
    k_in (a_k c) = rest /\ k_rs (a_k c) = t /\ k_out (a_k c) = k_out (a_k a) ++ b /\
    quiet (k_ws (a_k c)) /\ waits_work f (a_ys c) /\ a_type c = PSOCK_TYPE_WRAP_ASYNC /\ a_rfib c = 0 /\ a_wfib c = 0.
Proof.
  intros f a b rest t L I K Q W T RF WF.
  assert (NE : b <> []) by (intros ->; cbn in L; lia).
  assert (R : async_read f STATUS_SUCCESS a DATA_SIZE false =
    Some (RRes STATUS_SUCCESS (length b) b (set_k a (Kern rest (if (length b =? DATA_SIZE)%nat then KFail EAGAIN :: t else t) (k_out (a_k a)) (k_ws (a_k a)))))).
  { unfold async_read. change (negb (ok STATUS_SUCCESS)) with false. cbv iota.
    rewrite loop_given by (rewrite ?K; first [apply data_size_pos|discriminate]). rewrite K, I, app_length.
    replace (Nat.min DATA_SIZE (Nat.min (S (length b - 1)) (length b + length rest))) with (length b) by lia.
    destruct (Nat.eqb_spec (length b) 0); [lia|]. rewrite firstn_exact, skipn_exact by auto. cbn [tl app length plus async_read_loop].
    destruct (Nat.eqb_spec (length b) DATA_SIZE) as [X|X].
    - destruct (Nat.eqb_spec (DATA_SIZE - length b) 0); [reflexivity|lia].
    - destruct (Nat.eqb_spec (DATA_SIZE - length b) 0); [lia|].
      unfold fd_read, kread. cbn [set_k a_k k_rs k_in k_out k_ws]. change (-1 <? 0) with true. change (again EAGAIN) with true. cbv iota beta.
      cbn [rr_status rr_sock]. change (ERROR_PSOCK_READ_WOULD_BLOCK =? ERROR_PSOCK_READ_WOULD_BLOCK) with true. cbn [andb negb].
      destruct (Nat.ltb_spec 0 (length b)); [reflexivity|lia]. }
  destruct (turn_by_read f a _ R) as (c & C1 & C2 & C3 & C4 & C5 & C6 & C7 & C8 & C9); cbn [rr_status rr_size rr_data rr_sock set_k a_k k_ws a_ys a_type a_wfib]; auto.
  cbn [rr_status rr_size rr_data rr_sock set_k a_k k_ws k_in k_out k_rs a_ys a_type a_wfib a_rfib] in *.
  destruct (Nat.eqb_spec (length b) DATA_SIZE) as [X|X].
  - destruct (turn_idle f c t C3 C6 C7 ltac:(congruence)) as (e & E1 & E2 & E3 & E4 & E5 & E6).
    exists 2%nat, e. split; [lia|]. split; [intros fuel; cbn [plus echo_loop]; rewrite C1; cbn beta iota; rewrite E1; reflexivity|].
    rewrite E2. cbn [k_in k_rs k_out k_ws]. repeat (split; [auto|]). congruence.
  - exists 1%nat, c. split; [lia|]. split; [intros fuel; cbn [plus echo_loop]; rewrite C1; reflexivity|].
    rewrite C8. repeat (split; [auto|]). auto.
Qed.

Lemma bursts_loop : forall bs f a, in_bursts bs (a_k a) ->
  quiet (k_ws (a_k a)) -> waits_work f (a_ys a) -> a_type a = PSOCK_TYPE_WRAP_ASYNC -> a_rfib a = 0 -> a_wfib a = 0 ->
  exists n b, echo_loop n f a = Some (ERROR_PSOCK_READ_EOF, b) /\ k_in (a_k b) = [] /\ k_out (a_k b) = k_out (a_k a) ++ concat bs.
Proof.
  induction bs as [|x bs IH]; intros f a (L & I & K) Q W T RF WF.
  - destruct (turn_eof f a K) as (b & B1 & B2 & B3); [rewrite I; apply data_size_pos|]. exists 1%nat, b. cbn [echo_loop concat]. rewrite B1, app_nil_r. auto.
  - destruct (turn_burst f a x (concat bs) (flat_map (fun b => [KGive (length b - 1); KFail EAGAIN]) bs)) as (n & c & _ & C1 & C2 & C3 & C4 & C5 & C6 & C7 & C8 & C9); auto.
    { apply (Forall_inv L). }
    destruct (IH f c) as (m & b & B1 & B2 & B3); auto.
    { split; [apply (Forall_inv_tail L)|auto]. }
    exists (n + m)%nat, b. rewrite C1. split; [auto|]. split; [auto|]. rewrite B3, C4, <- app_assoc. reflexivity.
Qed.

(** Everything is there when the fiber starts, and the peer has closed. *)
Lemma at_once_loop : forall q f a, k_rs (a_k a) = [] -> (length (k_in (a_k a)) / DATA_SIZE = q)%nat ->
  quiet (k_ws (a_k a)) -> waits_work f (a_ys a) -> a_type a = PSOCK_TYPE_WRAP_ASYNC -> a_rfib a = 0 -> a_wfib a = 0 ->
  exists n b, echo_loop n f a = Some (ERROR_PSOCK_READ_EOF, b) /\ k_in (a_k b) = [] /\
    k_out (a_k b) = k_out (a_k a) ++ firstn (q * DATA_SIZE) (k_in (a_k a)).
Proof.
  induction q as [|q IH]; intros f a K D Q W T RF WF; generalize data_size_pos; intros DP.
  - apply Nat.div_small_iff in D; [|lia]. destruct (turn_eof f a K D) as (b & B1 & B2 & B3). exists 1%nat, b. cbn [echo_loop mult firstn]. rewrite B1, app_nil_r. auto.
  - assert (L : (DATA_SIZE <= length (k_in (a_k a)))%nat).
    { destruct (Nat.le_gt_cases DATA_SIZE (length (k_in (a_k a)))); [auto|]. rewrite Nat.div_small in D; lia. }
    assert (R : async_read f STATUS_SUCCESS a DATA_SIZE false =
      Some (RRes STATUS_SUCCESS DATA_SIZE (firstn DATA_SIZE (k_in (a_k a))) (set_k a (Kern (skipn DATA_SIZE (k_in (a_k a))) [] (k_out (a_k a)) (k_ws (a_k a)))))).
    { unfold async_read. change (negb (ok STATUS_SUCCESS)) with false. cbv iota.
      rewrite loop_given by (rewrite ?K; first [apply data_size_pos|discriminate]). rewrite K. rewrite Nat.min_l by lia.
      destruct (Nat.eqb_spec DATA_SIZE 0); [lia|]. cbn [tl app length plus].
      destruct DATA_SIZE as [|n0] eqn:DS; [lia|]. cbn [async_read_loop]. rewrite Nat.sub_diag. change (0 =? 0)%nat with true. cbv iota. rewrite firstn_length, Nat.min_l by lia. reflexivity. }
    destruct (turn_by_read f a _ R) as (c & C1 & C2 & C3 & C4 & C5 & C6 & C7 & C8 & C9); cbn [rr_status rr_size rr_data rr_sock set_k a_k k_ws a_ys a_type a_wfib]; auto.
    { rewrite firstn_length. lia. }
    { intros X. apply (f_equal (@length Z)) in X. rewrite firstn_length in X. cbn in X. lia. }
    cbn [rr_status rr_size rr_data rr_sock set_k a_k k_ws k_in k_out k_rs a_ys a_type a_wfib a_rfib] in *.
    destruct (IH f c) as (n & b & B1 & B2 & B3); auto; [|congruence|].
    { rewrite C2, skipn_length. replace (length (k_in (a_k a))) with (length (k_in (a_k a)) - DATA_SIZE + 1 * DATA_SIZE)%nat in D by lia.
      rewrite Nat.div_add in D by lia. lia. }
    exists (S n), b. cbn [echo_loop]. rewrite C1. split; [exact B1|]. split; [auto|]. rewrite B3, C4, C2, <- app_assoc. f_equal.
    replace (S q * DATA_SIZE)%nat with (DATA_SIZE + q * DATA_SIZE)%nat by lia. rewrite firstn_skipn_comm.
    transitivity (firstn DATA_SIZE (firstn (DATA_SIZE + q * DATA_SIZE) (k_in (a_k a))) ++ skipn DATA_SIZE (firstn (DATA_SIZE + q * DATA_SIZE) (k_in (a_k a))));
      [rewrite firstn_firstn, Nat.min_l by lia; reflexivity|apply firstn_skipn].
Qed.
