(** The sockets of this library as streams for the buffered reader, and reads through
    psock_read_raw. *)
From Verif Require Import Base Status StringModel CodecModel MemModel MemProofs AsyncModel AsyncSpec AsyncProofs BrModel BrSpec BrProofs.

Definition gives (k : kern) : Prop := Forall (fun e => exists m, e = KGive m) (k_rs k).

Lemma fd_stream : stream_sock fd_ops (fun _ => True) k_in false.
Proof.
  split; [reflexivity|]. intros k n _ N r. subst r. cbn [fd_ops op_read]. destruct (fd_read_spec k n) as (A & B & C & D & E & F).
  split; [auto|]. split; [auto|]. split.
  - intros H. destruct F as [(_ & F)|(F1 & F2 & e & t & F3 & [(_ & F4)|(_ & F4)])]; [auto|rewrite F4 in H; discriminate..].
  - intros H. exists []. rewrite app_nil_r. split; [|auto].
    destruct F as [(F & _)|(F1 & _)]; [congruence|]. rewrite A, F1. reflexivity.
Qed.

Lemma fd_smooth : smooth_sock fd_ops gives k_in.
Proof.
  split.
  - split; [reflexivity|]. intros k n G N r. destruct (ss_read _ _ _ _ fd_stream k n I N) as (_ & A). fold r in A. split; [|exact A].
    subst r. unfold gives in *. destruct (fd_read_spec k n) as (_ & _ & _ & D & _). cbn [fd_ops op_read]. rewrite D. destruct (k_rs k); [constructor|inversion G; auto].
  - intros k n G N NE. cbn [fd_ops op_read]. unfold gives in G.
    destruct (fd_read_spec k n) as (A & B & C & D & E & F).
    assert (Q : quiet (k_rs k)). { eapply Forall_impl; [|exact G]. intros e (m & ->). exact I. }
    destruct (fd_read_quiet k n Q N) as ([H|(H1 & H2)] & _).
    + exfalso. destruct F as [(F & _)|(_ & _ & e & t & F & _)]; [rewrite F in H; discriminate|].
      rewrite F in G. apply Forall_inv in G. destruct G; discriminate.
    + split; auto.
Qed.

(** A reader of a wrapped socket only makes non-blocking reads of it. *)
Definition async_inv (o : option async) : Prop := match o with Some a => quiet (k_rs (a_k a)) | None => False end.
Definition async_rem (o : option async) : list Z := match o with Some a => k_in (a_k a) | None => [] end.
Lemma quiet_suffix : forall a b, quiet (a ++ b) -> quiet b.
Proof. intros a b H. apply Forall_app in H. tauto. Qed.
Lemma async_stream : forall f, stream_sock (async_ops f) async_inv async_rem true.
Proof.
  intros f. split; [reflexivity|]. intros [a|] n Q N r; [|destruct Q]. subst r. cbn [async_ops op_read].
  destruct (async_read_post f a n false) as (r & R1 & (d & P1 & P2 & P3 & P4 & P5 & P6 & (pre & P7) & P8 & P9 & P10 & P11 & P12 & P13 & P14)).
  rewrite R1. cbn [rr_status rr_size rr_data rr_sock async_inv async_rem] in *. cbn [app] in P1.
  split; [rewrite P7 in Q; eapply quiet_suffix; eauto|]. split; [rewrite P1; auto|]. split.
  - intros _. rewrite P1 in *. auto.
  - intros H. destruct P14 as [(K & _)|[(K & e & K1 & K2)|[(K & K1)|[(K & _ & K1)|(K & K1 & _)]]]].
    + congruence.
    + exfalso. unfold quiet in Q. rewrite Forall_forall in Q. specialize (Q _ K1). cbn in Q. congruence.
    + specialize (K1 Q). exists d. rewrite K1 in *. rewrite app_nil_r in P4. split; [auto|discriminate].
    + cbn [app] in K1. rewrite K1 in P4. cbn [app] in P4. exists []. rewrite app_nil_r. split; [exact P4|auto].
    + discriminate.
Qed.

(** In-memory sockets. *)
Definition mem_inv (o : option pb) : Prop := o <> None.
Definition mem_rem (o : option pb) : list Z :=
  match o with Some s => match pb_input s with Some b => skipn (pb_roff s) b | None => [] end | None => [] end.
Lemma mem_smooth : forall al rc junk, smooth_sock (mem_ops al rc junk) mem_inv mem_rem.
Proof.
  assert (E : forall s n, let r := mem_read s n in
    (rr_status r = STATUS_SUCCESS /\ (length (rr_data r) <= n)%nat /\ rr_size r = length (rr_data r) /\ mem_rem (Some s) = rr_data r ++ mem_rem (Some (rr_sock r)) /\
     ((0 < n)%nat -> rr_size r <> 0%nat)) \/
    (rr_status r <> STATUS_SUCCESS /\ rr_data r = [] /\ rr_sock r = s /\ mem_rem (Some s) = [])).
  { intros s n. unfold mem_read, mem_rem. destruct (pb_input s) as [b|] eqn:EI; [|right; cbn; try rewrite EI; repeat split; auto; discriminate].
    destruct (Nat.leb_spec (length b) (pb_roff s)) as [L|L].
    - right. cbn. try rewrite EI. repeat split; auto; try discriminate. apply skipn_all2; auto.
    - left. cbv zeta. set (m := if (length b - pb_roff s <? n)%nat then (length b - pb_roff s)%nat else n).
      assert (M : (m <= n)%nat /\ (m <= length b - pb_roff s)%nat /\ ((0 < n)%nat -> (0 < m)%nat)).
      { subst m. destruct (Nat.ltb_spec (length b - pb_roff s) n); lia. }
      clearbody m. cbn [rr_status rr_size rr_data rr_sock pb_input pb_roff].
      assert (LL : length (firstn m (skipn (pb_roff s) b)) = m) by (rewrite firstn_length, skipn_length; lia).
      rewrite LL. repeat split; try lia. try rewrite EI. rewrite <- skipn_skipn, firstn_skipn. reflexivity. }
  intros al rc junk. split; [split; [reflexivity|]|].
  - intros [s|] n I N r; [|congruence]. subst r. cbn [mem_ops op_read rr_status rr_size rr_data rr_sock].
    split; [discriminate|]. destruct (E s n) as [(A & B & C & D & F)|(A & B & C & D)].
    + split; [auto|]. split; [auto|]. congruence.
    + rewrite B, C. split; [cbn; lia|]. split; [congruence|]. intros _. exists []. rewrite app_nil_r. auto.
  - intros [s|] n I N NE; [|congruence]. cbn [mem_ops op_read rr_status rr_size rr_data rr_sock].
    destruct (E s n) as [(A & B & C & D & F)|(A & B & C & D)]; [auto|congruence].
Qed.

(** ** psock_read_raw *)
Lemma raw_fd : forall ns k, quiet (k_rs k) ->
  let '(rs, k') := raw_reads fd_ops k ns in
  received rs ++ k_in k' = k_in k /\ quiet (k_rs k') /\
  Forall (fun r => rr_status r = STATUS_SUCCESS \/ rr_status r = ERROR_PSOCK_READ_WOULD_BLOCK) rs.
Proof.
  induction ns as [|n ns IH]; intros k Q; cbn [raw_reads]; [cbn; auto|].
  unfold read_raw. change (negb (op_vtable fd_ops =? STATUS_SUCCESS)) with false. cbv iota zeta. cbn [fd_ops op_read].
  destruct (fd_read_spec k n) as (A & B & C & D & E & F).
  assert (ST : rr_status (fd_read k n) = STATUS_SUCCESS \/ rr_status (fd_read k n) = ERROR_PSOCK_READ_WOULD_BLOCK).
  { destruct F as [(F & _)|(_ & _ & e & t & F & [(_ & G)|(G & _)])]; auto. exfalso. rewrite F in Q. apply Forall_inv in Q. cbn in Q. congruence. }
  assert (X : (if (rr_status (fd_read k n) =? ERROR_PSOCK_READ_WOULD_BLOCK) || (rr_status (fd_read k n) =? STATUS_SUCCESS) then fd_read k n
     else RRes (rr_status (fd_read k n)) n (rr_data (fd_read k n)) (rr_sock (fd_read k n))) = fd_read k n).
  { destruct ST as [ST|ST]; rewrite ST; reflexivity. }
  rewrite X. clear X. specialize (IH (rr_sock (fd_read k n))). rewrite D in IH. specialize (IH (quiet_tl _ Q)).
  destruct (raw_reads fd_ops (rr_sock (fd_read k n)) ns) as [rs k']. destruct IH as (I1 & I2 & I3).
  split; [|split; [auto|constructor; auto]]. unfold received in *. cbn [map concat].
  destruct F as [(F & F')|(F1 & _ & e & t & _ & [(_ & F2)|(_ & F2)])].
  - rewrite F. change (STATUS_SUCCESS =? STATUS_SUCCESS) with true. cbv iota. rewrite F', firstn_all, <- app_assoc, I1. auto.
  - rewrite F2. change (ERROR_PSOCK_READ_WOULD_BLOCK =? STATUS_SUCCESS) with false. cbv iota. cbn [app]. rewrite A, F1. auto.
  - rewrite F2. change (ERROR_PSOCK_READ_GENERAL =? STATUS_SUCCESS) with false. cbv iota. cbn [app]. rewrite A, F1. auto.
Qed.

(** Every call either consumes an event of the schedule or a byte of the stream. *)
Lemma raw_fd_all : forall ns k, quiet (k_rs k) -> Forall (fun n => (0 < n)%nat) ns ->
  (length (k_rs k) + length (k_in k) <= length ns)%nat -> k_in (snd (raw_reads fd_ops k ns)) = [].
Proof.
  induction ns as [|n ns IH]; intros k Q P L; cbn [raw_reads].
  - cbn in *. destruct (k_in k); [auto|cbn in L; lia].
  - pose proof (Forall_inv P) as N. pose proof (Forall_inv_tail P) as P'.
    unfold read_raw. change (negb (op_vtable fd_ops =? STATUS_SUCCESS)) with false. cbv iota zeta. cbn [fd_ops op_read].
    destruct (fd_read_spec k n) as (A & B & C & D & E & F). destruct (fd_read_quiet k n Q N) as (G & Q').
    assert (X : (if (rr_status (fd_read k n) =? ERROR_PSOCK_READ_WOULD_BLOCK) || (rr_status (fd_read k n) =? STATUS_SUCCESS) then fd_read k n
     else RRes (rr_status (fd_read k n)) n (rr_data (fd_read k n)) (rr_sock (fd_read k n))) = fd_read k n).
    { destruct G as [G|(G & _)]; rewrite G; reflexivity. }
    rewrite X. clear X.
    assert (M : (length (k_rs (rr_sock (fd_read k n))) + length (k_in (rr_sock (fd_read k n))) <= length ns)%nat).
    { cbn [length] in L. rewrite D. rewrite A, app_length in L. destruct (k_rs k) as [|e t] eqn:K; cbn [tl length] in *; [|lia].
      destruct G as [G|(G1 & G2)].
      - destruct F as [(F & _)|(_ & _ & e & t & F & _)]; [rewrite F in G; discriminate|discriminate].
      - destruct F as [(_ & F)|(_ & _ & e & t & F & _)]; [|discriminate].
        destruct (rr_data (fd_read k n)); [|cbn [length] in *; lia].
        cbn [app length] in *. rewrite F in G2. specialize (G2 eq_refl). rewrite A in G2. cbn in G2. rewrite G2 in *. cbn in *. lia. }
    specialize (IH _ Q' P' M). destruct (raw_reads fd_ops (rr_sock (fd_read k n)) ns). exact IH.
Qed.

Lemma read_smooth : forall S (o : sock_ops S) inv rem b n, smooth_sock o inv rem -> br_ok inv b ->
  (n <= length (pending rem b))%nat ->
  exists r, br_read o b n true = Some r /\ rr_status r = STATUS_SUCCESS /\ rr_data r = firstn n (pending rem b) /\
    rr_size r = n /\ pending rem (rr_sock r) = skipn n (pending rem b) /\ br_ok inv (rr_sock r).
Proof.
  intros S o inv rem b n SM HB L.
  destruct (br_read_spec S o inv rem false b n true (sm_stream _ _ _ SM) HB) as (r & R1 & (d & lost & P1 & P2 & P3 & P4 & P5 & P6 & P7 & P8 & P9)).
  exists r. split; [auto|]. cbn [app] in P1. rewrite (P8 eq_refl), app_nil_r in P7.
  destruct P9 as [(Q1 & _ & Q2 & _)|(Q1 & Q2 & Q3 & _ & Q4)].
  - specialize (Q2 eq_refl). split; [auto|]. rewrite P7, firstn_exact, skipn_exact by auto. rewrite P2, P1. auto.
  - exfalso. specialize (Q4 SM). apply (f_equal (@length _)) in P7. unfold pending in P7 at 2. rewrite Q4, app_nil_r, app_length in P7.
    destruct Q3 as [(-> & Q3)|(_ & _ & Q5 & Q3)]; rewrite Q3 in P7; cbn in P7; lia.
Qed.

Lemma async_loses : forall f a n, k_rs (a_k a) = [] -> (0 < length (k_in (a_k a)) < n)%nat ->
  let r := read_raw (async_ops f) n (Some a) in
  rr_status r = ERROR_PSOCK_READ_EOF /\ rr_size r = n /\ received [r] = [] /\ async_rem (rr_sock r) = [].
Proof.
  intros f a n E L r. subst r. unfold read_raw. change (negb (op_vtable (async_ops f) =? STATUS_SUCCESS)) with false. cbv iota zeta.
  cbn [async_ops op_read].
  assert (exists d k', async_read f STATUS_SUCCESS a n false = Some (RRes ERROR_PSOCK_READ_EOF (length d) d (set_k a k')) /\ k_in k' = []).
  { unfold async_read. change (negb (ok STATUS_SUCCESS)) with false. cbv iota. rewrite E. cbn [length plus].
    assert (F : fd_read (a_k a) n = RRes STATUS_SUCCESS (length (k_in (a_k a))) (k_in (a_k a)) (Kern [] [] (k_out (a_k a)) (k_ws (a_k a)))).
    { unfold fd_read, kread. rewrite E. replace (Nat.min n (length (k_in (a_k a)))) with (length (k_in (a_k a))) by lia.
      rewrite firstn_all, skipn_all. destruct (Z.ltb_spec (Z.of_nat (length (k_in (a_k a)))) 0); [lia|]. rewrite Nat2Z.id. reflexivity. }
    cbn [async_read_loop]. destruct (Nat.eqb_spec n 0); [lia|]. rewrite F. cbn [rr_status rr_size rr_data rr_sock].
    change (ERROR_PSOCK_READ_WOULD_BLOCK =? STATUS_SUCCESS) with false. change (negb (ok STATUS_SUCCESS)) with false. cbn [andb]. cbv iota.
    destruct (Nat.eqb_spec (length (k_in (a_k a))) 0); [lia|].
    destruct n as [|n']; [lia|]. cbn [async_read_loop]. destruct (Nat.eqb_spec (Datatypes.S n' - length (k_in (a_k a))) 0); [lia|].
    cbn [set_k a_k]. unfold fd_read, kread. cbn [k_rs k_in length]. rewrite Nat.min_0_r. cbn.
    do 2 eexists. split; reflexivity. }
  destruct H as (d & k' & H1 & H2). rewrite H1. cbn [rr_status rr_size rr_data rr_sock].
  change (ERROR_PSOCK_READ_EOF =? ERROR_PSOCK_READ_WOULD_BLOCK) with false. change (ERROR_PSOCK_READ_EOF =? STATUS_SUCCESS) with false. cbn [orb].
  split; [auto|]. split; [auto|]. split; [reflexivity|]. cbn. auto.
Qed.

Lemma reader_stuck : forall S (o : sock_ops S) inv rem lossy bs b n, stream_sock o inv rem lossy -> br_ok inv b ->
  rem (q_w b) = [] -> (length (buffered b) < n)%nat ->
  exists outs b', br_run o b (map (fun block => BRead n block) bs) = Some (outs, b') /\
    Forall (fun out => exists e, e <> STATUS_SUCCESS /\ out = ORead e 0 []) outs /\ length outs = length bs /\ buffered b' = buffered b.
Proof.
  intros S o inv rem lossy. induction bs as [|block bs IH]; intros b n HS HB E L.
  - exists [], b. cbn. auto.
  - cbn [map br_run]. unfold br_read. pose proof HB as (O1 & O2 & O3 & O4 & O5). rewrite sub_some by lia. cbn [br_read_loop].
    pose proof (buffered_length S b O1 O2) as BL. destruct (Nat.ltb_spec (q_size b - q_off b) n); [|lia].
    destruct (fill_spec S o inv rem lossy b HS HB) as (e & b1 & A1 & A2 & A3 & A4 & A5 & A6 & A7). rewrite A1.
    destruct A7 as [(-> & d & D1 & D2 & D3)|(N & D1 & D2 & (lost & D3 & D4) & D5 & D6)].
    + exfalso. rewrite E in D3. destruct d; [congruence|discriminate].
    + rewrite (proj2 (ok_false e) N). cbn [negb].
      assert (E1 : rem (q_w b1) = []). { rewrite E in D3. symmetry in D3. apply app_eq_nil in D3. tauto. }
      destruct (IH b1 n HS) as (outs & b' & Y1 & Y2 & Y3 & Y4).
      { unfold br_ok. rewrite A3. repeat split; auto; lia. }
      { auto. } { rewrite D1. auto. }
      cbn [rr_sock]. rewrite Y1. exists (ORead e 0 [] :: outs), b'. cbn [rr_status rr_size rr_data length]. split; [auto|].
      split; [constructor; eauto|]. split; [auto|congruence].
Qed.

Lemma fd_calls : forall ret errno,
  (ret < 0 -> errno = 11 -> fd_accept ret errno = (ERROR_PSOCK_ACCEPT_WOULD_BLOCK, None) /\
     fd_sendmsg ret errno = ERROR_PSOCK_WRITE_WOULD_BLOCK /\ fd_recvmsg ret errno = (ERROR_PSOCK_READ_WOULD_BLOCK, None)) /\
  (ret < 0 -> errno <> 11 -> fd_accept ret errno = (ERROR_PSOCK_ACCEPT_GENERAL, None) /\
     fd_sendmsg ret errno = ERROR_PSOCK_SENDMSG_FAILED /\ fd_recvmsg ret errno = (ERROR_PSOCK_RECVMSG_FAILED, None)) /\
  (0 <= ret -> fd_accept ret errno = (STATUS_SUCCESS, Some ret) /\ fd_sendmsg ret errno = STATUS_SUCCESS /\
     fd_recvmsg ret errno = (STATUS_SUCCESS, Some ret)) /\
  (ret < 0 -> fd_setsockopt ret = ERROR_PSOCK_SETSOCKOPT) /\ (0 <= ret -> fd_setsockopt ret = STATUS_SUCCESS).
Proof.
  intros ret errno. unfold fd_accept, fd_sendmsg, fd_recvmsg, fd_setsockopt, again, EAGAIN, EWOULDBLOCK.
  destruct (Z.ltb_spec ret 0); destruct (Z.eqb_spec 11 errno); cbn [orb]; repeat split; intros; try lia; congruence.
Qed.

Lemma async_calls : forall f a pre ret errno t, waits_work f (a_ys a) -> a_type a = PSOCK_TYPE_WRAP_ASYNC ->
  Forall (fun y => y_ours y = true) (a_ys a) -> a_rfib a = 0 -> a_wfib a = 0 ->
  Forall (fun p => fst p < 0 /\ snd p = 11) pre -> 0 <= ret \/ errno <> 11 ->
  (exists a', async_accept f STATUS_SUCCESS true a (pre ++ (ret, errno) :: t) = Some (fst (fd_accept ret errno), snd (fd_accept ret errno), a') /\
     a_k a' = a_k a /\ a_log a' = a_log a ++ repeat WAIT_READ (length pre) /\ a_rfib a' = 0 /\ a_wfib a' = 0) /\
  (exists a', async_sendmsg f STATUS_SUCCESS true a (pre ++ (ret, errno) :: t) = Some (fd_sendmsg ret errno, a') /\
     a_k a' = a_k a /\ a_log a' = a_log a ++ repeat WAIT_WRITE (length pre) /\ a_rfib a' = 0 /\ a_wfib a' = 0) /\
  (exists a', async_recvmsg f STATUS_SUCCESS true a (pre ++ (ret, errno) :: t) = Some (fst (fd_recvmsg ret errno), snd (fd_recvmsg ret errno), a') /\
     a_k a' = a_k a /\ a_log a' = a_log a ++ repeat WAIT_READ (length pre) /\ a_rfib a' = 0 /\ a_wfib a' = 0).
Proof.
  intros f a pre ret errno t W T O R Wf P N.
  assert (X : forall p, fst p < 0 /\ snd p = 11 -> fst (fd_accept (fst p) (snd p)) = ERROR_PSOCK_ACCEPT_WOULD_BLOCK /\
     fd_sendmsg (fst p) (snd p) = ERROR_PSOCK_WRITE_WOULD_BLOCK /\ fst (fd_recvmsg (fst p) (snd p)) = ERROR_PSOCK_READ_WOULD_BLOCK).
  { intros p (P1 & P2). destruct (fd_calls (fst p) (snd p)) as (F & _). destruct (F P1 P2) as (-> & -> & ->). auto. }
  assert (Y : fst (fd_accept ret errno) <> ERROR_PSOCK_ACCEPT_WOULD_BLOCK /\ fd_sendmsg ret errno <> ERROR_PSOCK_WRITE_WOULD_BLOCK /\
     fst (fd_recvmsg ret errno) <> ERROR_PSOCK_READ_WOULD_BLOCK).
  { destruct (fd_calls ret errno) as (_ & F1 & F2 & _). destruct (Z.lt_ge_cases ret 0).
    - destruct N as [N|N]; [lia|]. destruct (F1 H N) as (-> & -> & ->). cbn. repeat split; discriminate.
    - destruct (F2 H) as (-> & -> & ->). cbn. repeat split; discriminate. }
  destruct Y as (Y1 & Y2 & Y3). unfold async_accept, async_sendmsg, async_recvmsg. change (negb (ok STATUS_SUCCESS)) with false. cbn [negb]. cbv iota.
  split; [|split].
  - destruct (retry_works _ fd_accept ERROR_PSOCK_ACCEPT_WOULD_BLOCK read_block f WAIT_READ pre ret errno t a (read_block_ours f) W T O R Wf) as (a' & A1 & A2); auto.
    { eapply Forall_impl; [|exact P]. intros p Hp. apply X; auto. }
    exists a'. rewrite A1. auto.
  - destruct (retry_works _ (fun r e => (fd_sendmsg r e, tt)) ERROR_PSOCK_WRITE_WOULD_BLOCK write_block f WAIT_WRITE pre ret errno t a (write_block_ours f) W T O R Wf) as (a' & A1 & A2); auto.
    { eapply Forall_impl; [|exact P]. intros p Hp. cbn [fst]. apply X; auto. }
    exists a'. rewrite A1. auto.
  - destruct (retry_works _ fd_recvmsg ERROR_PSOCK_READ_WOULD_BLOCK read_block f WAIT_READ pre ret errno t a (read_block_ours f) W T O R Wf) as (a' & A1 & A2); auto.
    { eapply Forall_impl; [|exact P]. intros p Hp. apply X; auto. }
    exists a'. rewrite A1. auto.
Qed.
Lemma async_wait_fails : forall f a ret t, a_type a = PSOCK_TYPE_WRAP_ASYNC ->
  ret < 0 -> f_sched f <> STATUS_SUCCESS ->
  async_accept f STATUS_SUCCESS true a ((ret, 11) :: t) = Some (f_sched f, None, a) /\
  async_sendmsg f STATUS_SUCCESS true a ((ret, 11) :: t) = Some (f_sched f, a) /\
  async_recvmsg f STATUS_SUCCESS true a ((ret, 11) :: t) = Some (f_sched f, None, a).
Proof.
  intros f a ret t T N S. destruct (fd_calls ret 11) as (F & _). destruct (F N eq_refl) as (F1 & F2 & F3).
  destruct (blocks_refused f a) as (_ & B). destruct (B T) as (B1 & _). destruct (B1 S) as (B2 & B3).
  unfold async_accept, async_sendmsg, async_recvmsg. change (negb (ok STATUS_SUCCESS)) with false. cbn [negb retry]. cbv iota.
  rewrite F1, F2, F3, B2, B3, (proj2 (ok_false _) S). auto.
Qed.

Lemma created : forall S al rc junk (w : S) (inv : S -> Prop) (rem : S -> list Z) b, inv w -> ct_obj (br_create al rc junk w) = Some b ->
  br_ok inv b /\ pending rem b = rem w /\ q_err b = false /\ length (q_buf b) = Z.to_nat 16384.
Proof.
  intros S al rc junk w inv rem b I H. unfold br_create in H. destruct (ok (al 0%nat)); [|discriminate]. cbn [negb] in H.
  destruct (ok (al 1%nat)); [|discriminate]. cbn [negb] in H. cbn [ct_obj] in H. injection H as <-.
  assert (L : length (fresh_block junk PSOCK_BR_BUFFER_SIZE) = PSOCK_BR_BUFFER_SIZE) by (unfold fresh_block; rewrite map_length, seq_length; auto).
  unfold br_ok, pending, buffered. cbn [q_off q_size q_buf q_w q_err]. rewrite L. unfold PSOCK_BR_BUFFER_SIZE.
  split; [repeat split; auto; lia|]. split; [reflexivity|]. auto.
Qed.

Lemma prefix : forall S (o : sock_ops S) inv rem lossy, stream_sock o inv rem lossy ->
  forall ops b, br_ok inv b -> Forall bop_ok ops ->
  exists outs b' segs lost, br_run o b ops = Some (outs, b') /\ br_ok inv b' /\
    length segs = length ops /\ length outs = length ops /\
    (forall i p q s, nth_error ops i = Some p -> nth_error outs i = Some q -> nth_error segs i = Some s -> took p q s) /\
    pending rem b = concat segs ++ pending rem b' ++ lost.
Proof.
  intros S o inv rem lossy HS ops b HB HO. destruct (br_run_spec S o inv rem lossy HS ops b HB HO) as (outs & b' & A & B & C & segs & lost & D & E & F & G & H).
  exists outs, b', segs, lost. do 5 (split; [auto|]). auto.
Qed.
Lemma exactly_once : forall S (o : sock_ops S) inv rem, stream_sock o inv rem false ->
  forall ops b, br_ok inv b -> Forall bop_ok ops ->
  exists outs b' segs, br_run o b ops = Some (outs, b') /\ br_ok inv b' /\
    length segs = length ops /\ length outs = length ops /\
    (forall i p q s, nth_error ops i = Some p -> nth_error outs i = Some q -> nth_error segs i = Some s -> took p q s) /\
    pending rem b = concat segs ++ pending rem b'.
Proof.
  intros S o inv rem HS ops b HB HO. destruct (br_run_spec S o inv rem false HS ops b HB HO) as (outs & b' & A & B & C & segs & lost & D & E & F & G & H).
  rewrite (H eq_refl), app_nil_r in G. exists outs, b', segs. do 5 (split; [auto|]). auto.
Qed.

Lemma read_contract : forall S (o : sock_ops S) inv rem lossy b n block, stream_sock o inv rem lossy -> br_ok inv b ->
  exists r, br_read o b n block = Some r /\ br_ok inv (rr_sock r) /\ q_err (rr_sock r) = q_err b /\
    rr_size r = length (rr_data r) /\ (length (rr_data r) <= n)%nat /\
    ((rr_status r = STATUS_SUCCESS /\ (block = true -> length (rr_data r) = n) /\ ((0 < n)%nat -> rr_data r <> []) /\
      ((n <= length (buffered b))%nat -> length (rr_data r) = n /\ q_w (rr_sock r) = q_w b)) \/
     (rr_status r <> STATUS_SUCCESS /\ (length (buffered b) < n)%nat /\ (length (rr_data r) < n)%nat /\ (block = false -> rr_data r = []) /\
      (rr_status r = ERROR_PSOCK_READ_GENERAL \/ exists s k, (0 < k)%nat /\ rr_status r = rr_status (op_read o s k false)) /\
      (smooth_sock o inv rem -> rem (q_w (rr_sock r)) = []))).
Proof.
  intros S o inv rem lossy b n block HS HB.
  destruct (br_read_spec S o inv rem lossy b n block HS HB) as (r & R1 & (d & lost & P1 & P2 & P3 & P4 & P5 & P6 & P7 & P8 & P9)).
  cbn [app] in P1. exists r. do 4 (split; [auto|]). rewrite P1. split; [auto|].
  destruct P9 as [(Q1 & _ & Q2 & Q3 & Q4)|(Q1 & Q2 & Q3 & Q4 & Q5)]; [left; auto|right].
  do 2 (split; [auto|]). split; [destruct Q3 as [(-> & _)|(_ & _ & Q3 & _)]; [cbn; lia|auto]|].
  split; [|auto]. intros K. destruct Q3 as [(-> & _)|(Q3 & _)]; [auto|congruence].
Qed.

Lemma br_stream : forall S (o : sock_ops S) inv rem lossy, stream_sock o inv rem lossy ->
  stream_sock (br_ops o) (fun s => exists b, s = Some b /\ br_ok inv b)
    (fun s => match s with Some b => pending rem b | None => [] end) lossy.
Proof.
  intros S o inv rem lossy HS. split; [reflexivity|]. intros s n (b & -> & HB) N r. subst r. cbn [br_ops op_read].
  destruct (br_read_spec S o inv rem lossy b n false HS HB) as (r & R1 & (d & lost & P1 & P2 & P3 & P4 & P5 & P6 & P7 & P8 & P9)).
  rewrite R1. cbn [rr_status rr_size rr_data rr_sock]. cbn [app] in P1. split; [eauto|]. rewrite P1 in *. split; [auto|].
  destruct P9 as [(Q1 & -> & _)|(Q1 & _ & Q2 & _)].
  - rewrite app_nil_r in P7. split; [auto|congruence].
  - split; [congruence|]. intros _. destruct Q2 as [(-> & _)|(Q2 & _)]; [|discriminate]. exists lost. auto.
Qed.

Lemma invalid_socket : forall S (o : sock_ops S) inv b n block, op_vtable o <> STATUS_SUCCESS -> br_ok inv b ->
  (length (buffered b) < n)%nat ->
  exists b', br_read o b n block = Some (RRes (op_vtable o) 0 [] b') /\ buffered b' = buffered b /\ q_w b' = q_w b.
Proof.
  intros S o inv b n block V (O1 & O2 & O3 & O4 & O5) L. unfold br_read. rewrite sub_some by lia. cbn [br_read_loop].
  pose proof (buffered_length S b O1 O2) as BL. destruct (Nat.ltb_spec (q_size b - q_off b) n); [|lia].
  unfold br_fill. rewrite (proj2 (ok_false _) V). cbn [negb]. destruct (Nat.ltb_spec 0 (q_off b)) as [K|K].
  - rewrite sub_some by lia. rewrite ld_range_some by lia.
    assert (LL : length (firstn (q_size b - q_off b) (skipn (q_off b) (q_buf b))) = (q_size b - q_off b)%nat) by (apply firstn_skipn_len; lia).
    rewrite blit_some by lia. rewrite (proj2 (ok_false _) V). cbn [negb length]. eexists. split; [reflexivity|]. split; [|reflexivity].
    unfold buffered at 1. cbn [q_size q_off q_buf skipn firstn app]. rewrite Nat.sub_0_r. apply firstn_exact. lia.
  - rewrite (proj2 (ok_false _) V). cbn [negb length]. eexists. split; [reflexivity|]. auto.
Qed.

Lemma stored_unfold : forall l ub, stored l ub = l ++ 0 :: skipn (length l + 1) ub.
Proof. intros. unfold stored. rewrite Nat.add_1_r. reflexivity. Qed.
Lemma line_contract : forall S (o : sock_ops S) inv rem lossy b ub n, stream_sock o inv rem lossy -> br_ok inv b ->
  (n <= length ub)%nat ->
  exists r, read_line o b ub n = Some r /\ br_ok inv (l_br r) /\
  exists l lost, ~ In 10 l /\ (lossy = false -> lost = []) /\
  (((n <= 1)%nat /\ r = LRes ERROR_PSOCK_BR_READ_LINE_BUFFER_SIZE_TOO_SMALL n ub b) \/
   (1 < n)%nat /\
   ((l_status r = STATUS_SUCCESS /\ pending rem b = l ++ 10 :: pending rem (l_br r) /\ (length l < n)%nat /\
     l_size r = (length l + 1)%nat /\ l_ub r = l ++ 0 :: skipn (length l + 1) ub) \/
    (l_status r = ERROR_PSOCK_BR_READ_LINE_TRUNCATED /\ pending rem b = l ++ pending rem (l_br r) /\
     (length l + 1 = n)%nat /\ l_size r = length l /\ l_ub r = l ++ 0 :: skipn (length l + 1) ub) \/
    (l_status r = STATUS_SUCCESS /\ q_err (l_br r) = true /\ l <> [] /\ pending rem b = l ++ pending rem (l_br r) ++ lost /\ (length l + 1 < n)%nat /\
     l_size r = (length l + 1)%nat /\ l_ub r = l ++ 0 :: skipn (length l + 1) ub) \/
    (l_status r = ERROR_PSOCK_READ_GENERAL /\ q_err (l_br r) = true /\ buffered b = [] /\ pending rem b = pending rem (l_br r) ++ lost /\
     l_size r = n /\ l_ub r = ub))).
Proof.
  intros S o inv rem lossy b ub n HS HB U.
  destruct (read_line_spec S o inv rem lossy b ub n HS HB U) as (r & R1 & [(L & ->)|(L & R2)]).
  - eexists. split; [exact R1|]. split; [exact HB|]. exists [], []. auto.
  - exists r. split; [auto|]. destruct R2 as (R2 & _ & l & lost & N & LO & C). split; [auto|]. exists l, lost. do 2 (split; [auto|]). right. split; [auto|].
    cbn [app] in C. rewrite <- stored_unfold.
    destruct C as [(C1 & -> & C2 & C3 & C4 & C5 & C6)|[(C1 & -> & C2 & C3 & C4 & C5 & C6)|(C1 & C2 & C3 & C4 & C5 & [(C6 & C7 & C8 & C9)|(C6 & -> & C8 & C9 & C10)])]].
    + left. auto.
    + right; left. auto.
    + do 2 right; left. auto 8.
    + do 3 right. split; [auto|]. split; [auto|]. auto.
Qed.

Lemma chunking : forall S1 (o1 : sock_ops S1) inv1 rem1 S2 (o2 : sock_ops S2) inv2 rem2 b1 b2 cs,
  smooth_sock o1 inv1 rem1 -> smooth_sock o2 inv2 rem2 -> br_ok inv1 b1 -> br_ok inv2 b2 ->
  q_err b1 = false -> q_err b2 = false -> pending rem1 b1 = pending rem2 b2 ->
  Forall (fun c => (snd c <= length (fst c))%nat) cs -> no_exact_fit cs (pending rem1 b1) ->
  exists outs b1' b2', br_run o1 b1 (map (fun c => BLine (fst c) (snd c)) cs) = Some (outs, b1') /\
    br_run o2 b2 (map (fun c => BLine (fst c) (snd c)) cs) = Some (outs, b2') /\
    outs = fst (lines_spec cs (pending rem1 b1)) /\ pending rem1 b1' = pending rem2 b2'.
Proof.
  intros S1 o1 inv1 rem1 S2 o2 inv2 rem2 b1 b2 cs M1 M2 B1 B2 E1 E2 P F X.
  destruct (lines_smooth S1 o1 inv1 rem1 M1 cs b1 B1 ltac:(congruence) F X) as (b1' & A1 & A2). rewrite P in X.
  destruct (lines_smooth S2 o2 inv2 rem2 M2 cs b2 B2 ltac:(congruence) F X) as (b2' & A3 & A4).
  exists (fst (lines_spec cs (pending rem1 b1))), b1', b2'. split; [auto|]. rewrite P. split; [auto|]. split; [auto|]. congruence.
Qed.

Lemma br_create_partial : forall S al rc junk (w : S),
  al 1%nat = STATUS_SUCCESS \/ rc 1%nat <> STATUS_SUCCESS ->
  (ct_status (br_create al rc junk w) = STATUS_SUCCESS <-> ct_obj (br_create al rc junk w) <> None).
Proof.
  intros S al rc junk w H. unfold br_create, br_release. destruct (ok (al 0%nat)) eqn:E0; cbn [negb].
  - destruct (ok (al 1%nat)) eqn:E1; cbn; [split; [discriminate|auto]|]. apply ok_false in E1. destruct H as [H|H]; [congruence|]. split; [tauto|congruence].
  - cbn. apply ok_false in E0. tauto.
Qed.
Lemma br_blocks : forall S al rc junk (w : S), (forall k, rc k = STATUS_SUCCESS) ->
  let c := br_create al rc junk w in
  (al 0%nat <> STATUS_SUCCESS -> ct_status c = al 0%nat /\ ct_obj c = None) /\
  (al 0%nat = STATUS_SUCCESS -> al 1%nat = STATUS_SUCCESS -> ct_status c = STATUS_SUCCESS /\ ct_obj c <> None) /\
  ct_net c = (if ct_obj c then 2 else 0) /\
  (forall b, ct_obj c = Some b -> q_w b = w) /\
  forall has_buf rc', br_release rc' has_buf =
    (if has_buf && negb (rc' 0%nat =? STATUS_SUCCESS) then rc' 0%nat else rc' 1%nat, if has_buf then 2 else 1).
Proof.
  intros S al rc junk w R c. subst c. unfold br_create, br_release. rewrite R. split; [|split; [|split; [|split]]].
  - intros H. rewrite (proj2 (ok_false _) H). auto.
  - intros H1 H2. rewrite H1, H2. change (negb (ok STATUS_SUCCESS)) with false. cbn. split; [auto|discriminate].
  - destruct (ok (al 0%nat)); cbn [negb]; [|reflexivity]. destruct (ok (al 1%nat)); reflexivity.
  - destruct (ok (al 0%nat)); cbn [negb]; [|discriminate]. destruct (ok (al 1%nat)); cbn [negb ct_obj]; [|discriminate].
    intros b H. injection H as <-. reflexivity.
  - intros [|] rc'; cbn; reflexivity.
Qed.
