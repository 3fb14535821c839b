From Verif Require Import Base Status StringModel StringSpec StringProofs CodecModel CodecSpec CodecProofs MemModel MemSpec.
#[local] Arguments PSOCK_BUFFER_SIZE : simpl never.
#[local] Opaque PSOCK_BUFFER_SIZE.

Lemma size_pos : (0 < PSOCK_BUFFER_SIZE)%nat.
Proof. Transparent PSOCK_BUFFER_SIZE. unfold PSOCK_BUFFER_SIZE. lia. Opaque PSOCK_BUFFER_SIZE. Qed.

Lemma ok_true : forall e, ok e = true <-> e = STATUS_SUCCESS.
Proof. intros. unfold ok. apply Z.eqb_eq. Qed.
Lemma ok_false : forall e, ok e = false <-> e <> STATUS_SUCCESS.
Proof. intros. unfold ok. apply Z.eqb_neq. Qed.
Lemma ok_success : ok STATUS_SUCCESS = true.
Proof. reflexivity. Qed.

Lemma blit_some : forall blk off d, (off + length d <= length blk)%nat ->
  blit blk off d = Some (firstn off blk ++ d ++ skipn (off + length d) blk).
Proof. intros. unfold blit. destruct (Nat.leb_spec (off + length d) (length blk)); [reflexivity|lia]. Qed.

Lemma blit_length : forall (blk : list Z) off (d : list Z), (off + length d <= length blk)%nat ->
  length (firstn off blk ++ d ++ skipn (off + length d) blk) = length blk.
Proof. intros. rewrite !app_length, firstn_length, skipn_length. lia. Qed.

Lemma blit_prefix : forall (blk : list Z) off (d : list Z), (off + length d <= length blk)%nat ->
  firstn (off + length d) (firstn off blk ++ d ++ skipn (off + length d) blk) = firstn off blk ++ d.
Proof.
  intros. rewrite app_assoc. apply firstn_exact. rewrite app_length, firstn_length. lia.
Qed.

Lemma skipn_skipn : forall A (l : list A) n m, skipn n (skipn m l) = skipn (m + n) l.
Proof.
  intros A l n m. revert l. induction m as [|m IH]; intros l; [reflexivity|].
  destruct l; cbn [skipn Nat.add]; [apply skipn_nil|apply IH].
Qed.

Ltac fin := repeat split; intros; auto; try congruence;
  try (exfalso; match goal with H : forall k : nat, _ = STATUS_SUCCESS, N : _ <> STATUS_SUCCESS |- _ => exact (N (H _)) end);
  try (unfold freed; repeat match goal with H : _ = STATUS_SUCCESS |- _ => rewrite H end; rewrite ?ok_success; lia);
  eauto.

(** ** Invariant *)
Definition wf (s : pb) : Prop :=
  exists q, pb_queue s = Some q /\ Forall (fun n => length (fst n) = snd n) q /\
    pb_osize s = PSOCK_BUFFER_SIZE /\
    match pb_cur s with
    | Some c => length c = PSOCK_BUFFER_SIZE /\ (pb_woff s <= PSOCK_BUFFER_SIZE)%nat
    | None => pb_woff s = 0%nat
    end.
Definition contents (s : pb) : list Z :=
  (match pb_queue s with Some q => concat (map fst q) | None => [] end) ++
  (match pb_cur s with Some c => firstn (pb_woff s) c | None => [] end).

Lemma flush_full_spec : forall al rc junk s cur, wf s -> pb_cur s = Some cur -> pb_woff s = PSOCK_BUFFER_SIZE ->
  exists e s' n, flush_full al rc junk s = (e, s', n) /\ wf s' /\ contents s' = contents s /\
    pb_total s' = pb_total s /\ pb_input s' = pb_input s /\
    (e = STATUS_SUCCESS -> pb_woff s' = 0%nat /\ pb_cur s' <> None) /\
    ((forall k, rc k = STATUS_SUCCESS) -> owned s' = owned s + n) /\
    ((forall k, al k = STATUS_SUCCESS) -> e = STATUS_SUCCESS) /\
    (e <> STATUS_SUCCESS -> (exists k, e = al k) \/ (exists k, e = rc k)) /\
    (al 2%nat = STATUS_SUCCESS -> pb_cur s' <> None).
Proof.
  intros al rc junk s cur (q & Eq & Hq & Eo & Hc) Ec Ew. rewrite Ec in Hc. destruct Hc as (Lc & _).
  unfold flush_full. rewrite Ec, Eq.
  assert (WS: wf s) by (exists q; rewrite Ec; repeat split; auto; lia).
  destruct (ok (al 0%nat)) eqn:A0; cbn [negb].
  2:{ apply ok_false in A0. do 3 eexists. split; [reflexivity|]. fin. }
  apply ok_true in A0.
  destruct (ok (al 1%nat)) eqn:A1; cbn [negb].
  2:{ apply ok_false in A1. destruct (ok (rc 0%nat)) eqn:R0.
      - apply ok_true in R0. do 3 eexists. split; [reflexivity|]. fin.
      - apply ok_false in R0. do 3 eexists. split; [reflexivity|]. fin. }
  apply ok_true in A1.
  assert (Hq': Forall (fun n : list Z * nat => length (fst n) = snd n) (q ++ [(cur, pb_osize s)])).
  { apply Forall_app. split; auto. constructor; [cbn; congruence|constructor]. }
  assert (CT: concat (map fst (q ++ [(cur, pb_osize s)])) = contents s).
  { unfold contents. rewrite Eq, Ec, map_app, concat_app. cbn. rewrite app_nil_r. f_equal.
    rewrite firstn_all2 by lia. reflexivity. }
  assert (OW: owned s = 1 + (match pb_input s with Some _ => 1 | None => 0 end) + 1 + (1 + 3 * Z.of_nat (length q))).
  { unfold owned. rewrite Eq, Ec. reflexivity. }
  destruct (ok (al 2%nat)) eqn:A2; cbn [negb].
  2:{ apply ok_false in A2. do 3 eexists. split; [reflexivity|].
      split. { eexists. cbn. repeat split; eauto. }
      split. { unfold contents at 1. cbn. rewrite app_nil_r. exact CT. }
      cbn. repeat split; auto; try congruence.
      - intros _. rewrite OW. unfold owned. cbn [pb_input pb_cur pb_queue]. rewrite app_length. cbn [length]. destruct (pb_input s); lia.
      - eauto. }
  apply ok_true in A2. do 3 eexists. split; [reflexivity|].
  split. { eexists. cbn. repeat split; eauto; try apply fresh_length; try lia. }
  split. { unfold contents at 1. cbn. rewrite app_nil_r. exact CT. }
  cbn. repeat split; auto; try congruence.
  intros _. rewrite OW. unfold owned. cbn [pb_input pb_cur pb_queue]. rewrite app_length. cbn [length]. destruct (pb_input s); lia.
Qed.

Lemma append_large_spec : forall al rc s d, wf s -> pb_woff s = 0%nat ->
  exists e s' n, append_large al rc s d = (e, s', n) /\ wf s' /\
    pb_total s' = pb_total s /\ pb_input s' = pb_input s /\ pb_cur s' = pb_cur s /\ pb_woff s' = 0%nat /\
    (e = STATUS_SUCCESS -> contents s' = contents s ++ d) /\
    (e <> STATUS_SUCCESS -> s' = s) /\
    ((forall k, rc k = STATUS_SUCCESS) -> owned s' = owned s + n) /\
    ((forall k, al k = STATUS_SUCCESS) -> e = STATUS_SUCCESS) /\
    (e <> STATUS_SUCCESS -> (exists k, e = al k) \/ (exists k, e = rc k)).
Proof.
  intros al rc s d (q & Eq & Hq & Eo & Hc) Ew.
  assert (WS: wf s) by (exists q; auto).
  unfold append_large. rewrite Eq.
  destruct (ok (al 3%nat)) eqn:A3; cbn [negb].
  2:{ apply ok_false in A3. do 3 eexists. split; [reflexivity|]. fin. }
  apply ok_true in A3.
  destruct (ok (al 4%nat)) eqn:A4; cbn [negb].
  2:{ apply ok_false in A4. destruct (ok (rc 1%nat)) eqn:R1; [apply ok_true in R1|apply ok_false in R1];
      do 3 eexists; (split; [reflexivity|]); fin. }
  apply ok_true in A4.
  destruct (ok (al 5%nat)) eqn:A5; cbn [negb].
  2:{ apply ok_false in A5. destruct (ok (rc 2%nat)) eqn:R2; [apply ok_true in R2|apply ok_false in R2];
      (destruct (ok (rc 1%nat)) eqn:R1; [apply ok_true in R1|apply ok_false in R1]);
      do 3 eexists; (split; [reflexivity|]); fin. }
  apply ok_true in A5.
  do 3 eexists. split; [reflexivity|].
  split. { eexists. cbn. split; [reflexivity|]. split; [apply Forall_app; split; auto; constructor; auto|]. auto. }
  cbn. repeat split; auto; try congruence.
  - intros _. unfold contents. cbn. rewrite Eq, map_app, concat_app, Ew. cbn.
    rewrite !app_nil_r. destruct (pb_cur s); cbn; rewrite !app_nil_r; reflexivity.
  - intros _. unfold owned. cbn [pb_input pb_cur pb_queue]. rewrite Eq, app_length. cbn [length]. destruct (pb_input s), (pb_cur s); lia.
Qed.

Lemma mem_write_spec : forall al rc junk s d, wf s ->
  exists w, mem_write al rc junk s d = Some w /\ wf (mw_sock w) /\ pb_input (mw_sock w) = pb_input s /\
    (mw_status w = STATUS_SUCCESS -> mw_size w = length d /\ contents (mw_sock w) = contents s ++ d /\
       pb_total (mw_sock w) = (pb_total s + length d)%nat /\ pb_cur s <> None /\ pb_cur (mw_sock w) <> None) /\
    (mw_status w <> STATUS_SUCCESS -> pb_total (mw_sock w) = pb_total s /\
       (exists k, (k <= length d)%nat /\ contents (mw_sock w) = contents s ++ firstn k d /\ mw_size w = (length d - k)%nat) /\
       (pb_cur s <> None -> (exists k, mw_status w = al k) \/ (exists k, mw_status w = rc k)) /\
       (pb_cur s <> None -> al 2%nat = STATUS_SUCCESS -> pb_cur (mw_sock w) <> None)) /\
    ((forall k, rc k = STATUS_SUCCESS) -> owned (mw_sock w) = owned s + mw_net w) /\
    ((forall k, al k = STATUS_SUCCESS) -> pb_cur s <> None -> mw_status w = STATUS_SUCCESS) /\
    (pb_cur s = None -> mw_status w = ERROR_PSOCK_UNSUPPORTED_TYPE /\ mw_sock w = s).
Proof.
  intros al rc junk s d WS. pose proof WS as (q & Eq & Hq & Eo & Hc).
  pose proof size_pos as PP.
  unfold mem_write. rewrite Eq. destruct (pb_cur s) as [cur|] eqn:Ec.
  2:{ eexists. split; [reflexivity|]. cbn. split; auto. split; auto. split; [discriminate|].
      split. { intros _. split; auto. split; [|split; congruence].
        exists 0%nat. split; [lia|]. cbn. rewrite app_nil_r. split; auto. lia. }
      split; [intros; lia|]. split; [congruence|auto]. }
  destruct Hc as (Lc & Hw). cbv zeta.
  set (room := (pb_osize s - pb_woff s)%nat).
  set (copy := if (length d <? room)%nat then length d else room).
  assert (Hcopy: (copy <= length d /\ copy <= room)%nat).
  { unfold copy. destruct (Nat.ltb_spec (length d) room); lia. }
  assert (Hroom: (pb_woff s + room = PSOCK_BUFFER_SIZE)%nat) by (unfold room; lia).
  assert (Lf: length (firstn copy d) = copy) by (rewrite firstn_length; lia).
  rewrite blit_some by lia.
  pose proof (blit_length cur (pb_woff s) (firstn copy d) ltac:(lia)) as L1.
  pose proof (blit_prefix cur (pb_woff s) (firstn copy d) ltac:(lia)) as P1.
  rewrite Lf in L1, P1 |- *.
  set (cur1 := firstn (pb_woff s) cur ++ firstn copy d ++ skipn (pb_woff s + copy) cur) in *.
  set (s1 := Pb (pb_input s) (pb_roff s) (Some q) (Some cur1) (pb_osize s) (pb_woff s + copy) (pb_total s)).
  assert (W1: wf s1). { exists q. cbn. repeat split; auto; try congruence; lia. }
  assert (C1: contents s1 = contents s ++ firstn copy d).
  { unfold contents. cbn [pb_queue pb_cur pb_woff s1]. rewrite Eq, Ec, P1. lapp. }
  assert (O1: owned s1 = owned s). { unfold owned. cbn. rewrite Eq, Ec. reflexivity. }
  cbn [pb_osize pb_woff s1]. fold s1. rewrite Eo.
  (* the flush step *)
  assert (FL: exists e1 s2 n1,
     (if (PSOCK_BUFFER_SIZE <=? pb_woff s + copy)%nat then flush_full al rc junk s1 else (STATUS_SUCCESS, s1, 0)) = (e1, s2, n1) /\
     wf s2 /\ contents s2 = contents s ++ firstn copy d /\ pb_total s2 = pb_total s /\ pb_input s2 = pb_input s /\
     (e1 = STATUS_SUCCESS -> pb_cur s2 <> None /\ ((copy = room /\ pb_woff s2 = 0%nat) \/ (copy = length d))) /\
     ((forall k, rc k = STATUS_SUCCESS) -> owned s2 = owned s + n1) /\
     ((forall k, al k = STATUS_SUCCESS) -> e1 = STATUS_SUCCESS) /\
     (e1 <> STATUS_SUCCESS -> (exists k, e1 = al k) \/ (exists k, e1 = rc k)) /\
     (al 2%nat = STATUS_SUCCESS -> pb_cur s2 <> None)).
  { destruct (Nat.leb_spec PSOCK_BUFFER_SIZE (pb_woff s + copy)) as [Hfull|Hfull].
    - assert (copy = room) by lia.
      destruct (flush_full_spec al rc junk s1 cur1 W1 eq_refl) as (e & s' & n & E & Wf' & Ct & Tt & In & Su & Ow & Al & Er & Cu).
      { cbn. lia. }
      exists e, s', n. split; [auto|]. split; [auto|]. split; [congruence|]. split; [rewrite Tt; reflexivity|].
      split; [rewrite In; reflexivity|]. split; [intros X; apply Su in X as (X1 & X2); auto|].
      split; [intros X; rewrite Ow by auto; lia|]. auto.
    - exists STATUS_SUCCESS, s1, 0. split; [auto|]. split; [auto|]. split; [auto|]. split; [auto|]. split; [auto|].
      split. { intros _. split; [discriminate|]. right. unfold copy in *.
               destruct (Nat.ltb_spec (length d) room); [auto|]. lia. }
      split; [intros; lia|]. split; [auto|]. split; [congruence|]. intros _. discriminate. }
  destruct FL as (e1 & s2 & n1 & E1 & W2 & C2 & T2 & I2 & S2 & O2 & A2 & Er2 & Cu2).
  rewrite E1. cbv iota beta.
  destruct (ok e1) eqn:K1; cbn [negb].
  2:{ apply ok_false in K1. eexists. split; [reflexivity|]. cbn. split; auto. split; auto. split; [congruence|].
      split. { intros _. split; auto. split; [|split; auto].
        exists copy. split; [lia|]. split; auto. rewrite skipn_length. lia. }
      split; auto. split; [intros H; elim K1; auto|congruence]. }
  apply ok_true in K1. destruct (S2 K1) as (Cn2 & Cases). clear S2.
  pose proof W2 as (q2 & Eq2 & Hq2 & Eo2 & Hc2). rewrite Eo2.
  destruct (pb_cur s2) as [cur2|] eqn:Ec2; [|congruence]. destruct Hc2 as (Lc2 & Hw2).
  assert (Ld1: length (skipn copy d) = (length d - copy)%nat) by apply skipn_length.
  assert (FS: firstn copy d ++ skipn copy d = d) by apply firstn_skipn.
  (* the large step *)
  destruct (Nat.leb_spec PSOCK_BUFFER_SIZE (length (skipn copy d))) as [Hbig|Hsmall].
  - assert (Wo: pb_woff s2 = 0%nat) by (destruct Cases as [(_ & ?)|?]; [auto|lia]).
    destruct (append_large_spec al rc s2 (skipn copy d) W2 Wo) as (e2 & s3 & n2 & E2 & W3 & T3 & I3 & Cc3 & Wo3 & Su3 & Fa3 & O3 & A3 & Er3).
    rewrite E2. cbv iota beta.
    destruct (ok e2) eqn:K2; cbn [negb].
    2:{ apply ok_false in K2. eexists. split; [reflexivity|]. cbn. rewrite Fa3 in * by auto.
        split; auto. split; auto. split; [congruence|].
        split. { intros _. split; auto. split; [|split; auto].
          - exists copy. split; [lia|]. split; auto.
          - rewrite Ec2. congruence. }
        split. { intros H. rewrite O3, O2 by auto. lia. }
        split; [intros H; elim K2; auto|congruence]. }
    apply ok_true in K2. eexists. split; [reflexivity|]. cbn.
    split. { destruct W3 as (q3 & ?). exists q3. auto. }
    split; [congruence|].
    split. { intros _. split; auto. split.
      - transitivity (contents s3); [reflexivity|]. rewrite Su3, C2 by auto. rewrite <- app_assoc, FS. reflexivity.
      - split; [congruence|]. split; [congruence|]. rewrite Cc3, Ec2. discriminate. }
    split; [congruence|]. split; [|split; [auto|congruence]].
    intros H. transitivity (owned s3); [reflexivity|]. rewrite O3, O2 by auto. lia.
  - cbv iota beta. rewrite ok_success. cbn [negb].
    destruct (skipn copy d) as [|b t] eqn:Ed2.
    + eexists. split; [reflexivity|]. cbn.
      split. { exists q2. cbn. rewrite Ec2. auto. }
      split; [auto|].
      split. { intros _. split; auto. split.
        - transitivity (contents s2); [reflexivity|]. rewrite C2. rewrite app_nil_r in FS. rewrite FS. reflexivity.
        - split; [congruence|]. split; [congruence|]. rewrite Ec2. discriminate. }
      split; [congruence|]. split; [|split; [auto|congruence]].
      intros H. transitivity (owned s2); [reflexivity|]. rewrite O2 by auto. lia.
    + rewrite Ec2.
      assert (Wo: pb_woff s2 = 0%nat) by (destruct Cases as [(_ & ?)|?]; [auto|cbn [length] in Ld1; lia]).
      rewrite blit_some by lia. rewrite Wo. cbn [firstn Nat.add app].
      eexists. split; [reflexivity|]. cbn [mw_sock mw_status mw_size mw_net].
      split. { exists q2. cbn [pb_queue pb_cur pb_osize pb_woff]. repeat split; auto; try lia.
        rewrite <- Lc2. change (b :: t ++ skipn (length (b :: t)) cur2) with ((b :: t) ++ skipn (length (b :: t)) cur2).
        rewrite app_length, skipn_length. lia. }
      split; [auto|].
      split. { intros _. split; auto. split.
        - unfold contents. cbn [pb_queue pb_cur pb_woff].
          change (b :: t ++ skipn (length (b :: t)) cur2) with ((b :: t) ++ skipn (length (b :: t)) cur2).
          rewrite firstn_exact by reflexivity.
          fold (contents s). unfold contents in C2 at 1. rewrite Eq2, Ec2, Wo in C2. cbn [firstn] in C2.
          rewrite app_nil_r in C2. rewrite Eq2, C2, <- app_assoc, FS. reflexivity.
        - cbn [pb_total pb_cur]. split; [congruence|]. split; congruence. }
      split; [congruence|]. split; [|split; [auto|congruence]].
      intros H. transitivity (owned s2); [|rewrite O2 by auto; lia].
      unfold owned. cbn [pb_input pb_cur pb_queue]. rewrite Ec2. reflexivity.
Qed.

(** ** Output *)
Lemma copy_queue_ok : forall q room, Forall (fun n : list Z * nat => length (fst n) = snd n) q ->
  copy_queue q room = Some (firstn room (concat (map fst q)), (room - length (concat (map fst q)))%nat).
Proof.
  induction q as [|(b, sz) q IH]; intros room Hq.
  - cbn. rewrite firstn_nil, Nat.sub_0_r. reflexivity.
  - inversion Hq as [|? ? Hb Hq']; subst. cbn in Hb. cbn [copy_queue map concat fst].
    set (copy := if (sz <? room)%nat then sz else room).
    assert ((copy <= sz /\ copy <= room)%nat /\ (copy = sz \/ copy = room)) as ((H1 & H2) & H3).
    { unfold copy. destruct (Nat.ltb_spec sz room); lia. }
    destruct (Nat.ltb_spec (length b) copy); [lia|].
    rewrite IH by auto. f_equal. f_equal.
    + rewrite firstn_app. destruct H3 as [H3|H3].
      * rewrite H3, <- Hb. rewrite firstn_all. f_equal. symmetry. apply firstn_all2. lia.
      * rewrite H3, Nat.sub_diag. f_equal. cbn. replace (room - length b)%nat with 0%nat by lia. reflexivity.
    + rewrite app_length. lia.
Qed.

Lemma get_output_spec : forall ast junk s, wf s -> pb_cur s <> None -> (pb_total s <= length (contents s))%nat ->
  (ast = STATUS_SUCCESS -> get_output_buffer ast junk s
     = Some (GO STATUS_SUCCESS (Some (pb_total s)) (Some (firstn (pb_total s) (contents s))) [firstn (pb_total s) (contents s)])) /\
  (ast <> STATUS_SUCCESS -> get_output_buffer ast junk s = Some (GO ast (Some (pb_total s)) None [])).
Proof.
  intros ast junk s (q & Eq & Hq & Eo & Hc) Nc Ht. unfold get_output_buffer.
  destruct (pb_cur s) as [cur|] eqn:Ec; [|congruence]. rewrite Eq. destruct Hc as (Lc & Hw).
  split; intros Ha.
  2:{ apply ok_false in Ha. rewrite Ha. reflexivity. }
  subst ast. rewrite ok_success. cbn [negb]. unfold copy_output. rewrite Eq, Ec, fresh_length.
  rewrite copy_queue_ok by auto.
  set (Q := concat (map fst q)). set (T := pb_total s) in *.
  unfold contents in Ht |- *. rewrite Eq, Ec in Ht |- *. fold Q in Ht |- *.
  rewrite app_length, firstn_length in Ht.
  set (room := (T - length Q)%nat).
  set (copy := if (pb_woff s <? room)%nat then pb_woff s else room).
  assert ((copy <= pb_woff s /\ copy <= room)%nat /\ (copy = pb_woff s \/ copy = room)) as ((H1 & H2) & H3).
  { unfold copy. destruct (Nat.ltb_spec (pb_woff s) room); lia. }
  assert (copy = room) as -> by (unfold room in *; lia).
  destruct (Nat.ltb_spec (length cur) room); [lia|].
  assert (G: firstn T Q ++ firstn room cur = firstn T (Q ++ firstn (pb_woff s) cur)).
  { rewrite firstn_app, firstn_firstn. do 2 f_equal. unfold room. lia. }
  rewrite G. unfold blit. rewrite fresh_length.
  assert (LG: length (firstn T (Q ++ firstn (pb_woff s) cur)) = T).
  { rewrite firstn_length, app_length, firstn_length. lia. }
  rewrite LG. cbn [Nat.add]. rewrite Nat.leb_refl. cbn [firstn app].
  rewrite skipn_all2 by (rewrite fresh_length; lia). rewrite app_nil_r. reflexivity.
Qed.

Lemma create_output : forall al rc junk s, ct_obj (create_from_buffer al rc junk None) = Some s ->
  wf s /\ contents s = [] /\ pb_total s = 0%nat /\ pb_cur s <> None.
Proof.
  intros al rc junk s. unfold create_from_buffer.
  destruct (ok (al 0%nat)); cbn [negb]; [|discriminate].
  destruct (ok (al 1%nat)); cbn [negb]; [|destruct (mem_release _ _); discriminate].
  destruct (ok (al 2%nat)); cbn [negb]; [|destruct (mem_release _ _); discriminate].
  cbn [ct_obj]. intros H. injection H as <-. repeat split; try discriminate.
  exists []. cbn. repeat split; auto; try apply fresh_length; try lia.
Qed.

Lemma history_spec : forall ws s, wf s -> (pb_total s <= length (contents s))%nat ->
  exists rs s', write_history ws s = Some (rs, s') /\ length rs = length ws /\ wf s' /\
    pb_total s' = (pb_total s + length (accepted ws rs))%nat /\
    (pb_total s' <= length (contents s'))%nat /\ (exists x, contents s' = contents s ++ x) /\
    (Forall (fun r => fst r = STATUS_SUCCESS) rs ->
       contents s' = contents s ++ concat (map wc_data ws) /\ accepted ws rs = concat (map wc_data ws) /\
       map snd rs = map (fun w => length (wc_data w)) ws /\ (pb_cur s <> None -> pb_cur s' <> None)).
Proof.
  induction ws as [|w ws IH]; intros s Ws Ht.
  - exists [], s. cbn. rewrite app_nil_r, Nat.add_0_r. repeat split; auto. exists []. rewrite app_nil_r. auto.
  - destruct (mem_write_spec (wc_al w) (wc_rc w) (wc_junk w) s (wc_data w) Ws) as (r & E & Wr & _ & Su & Fa & _ & _ & _).
    assert (Ct: (pb_total (mw_sock r) <= length (contents (mw_sock r)))%nat /\ (exists x, contents (mw_sock r) = contents s ++ x)
      /\ pb_total (mw_sock r) = (pb_total s + length (if Z.eqb (mw_status r) STATUS_SUCCESS then wc_data w else []))%nat).
    { destruct (Z.eqb_spec (mw_status r) STATUS_SUCCESS) as [K|K].
      - destruct (Su K) as (_ & C & T & _). rewrite C, T, app_length. repeat split; eauto. lia.
      - destruct (Fa K) as (T & (k & _ & C & _) & _). rewrite C, T, app_length. repeat split; eauto. lia. }
    destruct Ct as (Ct & (x & Cx) & Tt).
    destruct (IH (mw_sock r) Wr Ct) as (rs & s' & E' & Ln & W' & T' & L' & (y & C') & All).
    exists ((mw_status r, mw_size r) :: rs), s'. cbn [write_history]. rewrite E, E'.
    split; auto. split; [cbn; lia|]. split; auto. split.
    { cbn [accepted]. rewrite app_length. lia. }
    split; auto. split. { exists (x ++ y). rewrite C', Cx. lapp. }
    intros F. inversion F as [|? ? F1 F2]; subst. cbn in F1. destruct (Su F1) as (Sz & C & _ & _ & Cu).
    destruct (All F2) as (A1 & A2 & A3 & A4). cbn [map concat accepted]. rewrite F1. cbn [Z.eqb].
    split. { rewrite A1, C. lapp. } split. { rewrite A2. reflexivity. }
    split. { cbn. rewrite A3, Sz. reflexivity. } auto.
Qed.

Lemma concatenation : forall al rc junk s0 ws, ct_obj (create_from_buffer al rc junk None) = Some s0 ->
  exists rs s, write_history ws s0 = Some (rs, s) /\ length rs = length ws /\
    (Forall (fun r => fst r = STATUS_SUCCESS) rs ->
       map snd rs = map (fun w => length (wc_data w)) ws /\
       forall ast j,
         (ast = STATUS_SUCCESS -> get_output_buffer ast j s
            = Some (GO STATUS_SUCCESS (Some (length (concat (map wc_data ws))))
                       (Some (concat (map wc_data ws))) [concat (map wc_data ws)])) /\
         (ast <> STATUS_SUCCESS -> get_output_buffer ast j s
            = Some (GO ast (Some (length (concat (map wc_data ws)))) None []))).
Proof.
  intros al rc junk s0 ws Hc. destruct (create_output _ _ _ _ Hc) as (W0 & C0 & T0 & N0).
  destruct (history_spec ws s0 W0) as (rs & s & E & Ln & Ws & T & L & _ & All); [rewrite T0; lia|].
  exists rs, s. split; auto. split; auto. intros F. destruct (All F) as (A1 & A2 & A3 & A4).
  split; auto. intros ast j.
  rewrite C0 in A1. cbn [app] in A1. rewrite A2, T0 in T. cbn [Nat.add] in T.
  destruct (get_output_spec ast j s Ws (A4 N0) L) as (G1 & G2).
  rewrite T in G1, G2. rewrite A1, firstn_all in G1. auto.
Qed.

Lemma never_fails_with_memory : forall al rc junk s0 ws rs s, ct_obj (create_from_buffer al rc junk None) = Some s0 ->
  Forall (fun w => forall k, wc_al w k = STATUS_SUCCESS) ws ->
  write_history ws s0 = Some (rs, s) -> Forall (fun r => fst r = STATUS_SUCCESS) rs.
Proof.
  intros al rc junk s0 ws rs s Hc Ha H.
  destruct (create_output _ _ _ _ Hc) as (W0 & _ & _ & N0). clear Hc.
  revert s0 rs s W0 N0 H. induction Ha as [|w ws Hw _ IH]; intros s0 rs s W0 N0 H.
  - cbn in H. injection H as <- _. constructor.
  - cbn [write_history] in H.
    destruct (mem_write_spec (wc_al w) (wc_rc w) (wc_junk w) s0 (wc_data w) W0) as (r & E & Wr & _ & Su & _ & _ & Al & _).
    rewrite E in H. destruct (write_history ws (mw_sock r)) as [(l, s')|] eqn:E2; [|discriminate].
    injection H as <- <-. specialize (Al Hw N0). constructor; [exact Al|].
    destruct (Su Al) as (_ & _ & _ & _ & Cu). eapply IH; eauto.
Qed.

(** ** After a failure *)
Lemma after_failure : forall al rc junk s0 ws w rs s r, ct_obj (create_from_buffer al rc junk None) = Some s0 ->
  write_history ws s0 = Some (rs, s) -> Forall (fun r => fst r = STATUS_SUCCESS) rs ->
  mem_write (wc_al w) (wc_rc w) (wc_junk w) s (wc_data w) = Some r -> mw_status r <> STATUS_SUCCESS ->
  wc_al w 2%nat = STATUS_SUCCESS ->
  forall j, get_output_buffer STATUS_SUCCESS j (mw_sock r)
     = Some (GO STATUS_SUCCESS (Some (length (concat (map wc_data ws)))) (Some (concat (map wc_data ws))) [concat (map wc_data ws)]).
Proof.
  intros al rc junk s0 ws w rs s r Hc H F E Ne A2 j.
  destruct (create_output _ _ _ _ Hc) as (W0 & C0 & T0 & N0).
  destruct (history_spec ws s0 W0) as (rs' & s' & E' & _ & Ws & T & L & _ & All); [rewrite T0; lia|].
  rewrite H in E'. injection E' as <- <-. destruct (All F) as (A1 & A3 & _ & A4).
  rewrite C0 in A1. cbn [app] in A1. rewrite A3, T0 in T. cbn [Nat.add] in T.
  destruct (mem_write_spec (wc_al w) (wc_rc w) (wc_junk w) s (wc_data w) Ws) as (r' & Er & Wr & _ & _ & Fa & _).
  rewrite E in Er. injection Er as <-. destruct (Fa Ne) as (Tr & (k & _ & Cr & _) & _ & Cu).
  destruct (get_output_spec STATUS_SUCCESS j (mw_sock r) Wr) as (G & _).
  - apply Cu; auto.
  - rewrite Tr, Cr, app_length. lia.
  - rewrite G by reflexivity. rewrite Tr, T, Cr, A1. rewrite firstn_exact by reflexivity. reflexivity.
Qed.

Lemma failure_status : forall al rc junk s d w, wf s -> pb_cur s <> None -> mem_write al rc junk s d = Some w ->
  mw_status w <> STATUS_SUCCESS -> (exists k, mw_status w = al k) \/ (exists k, mw_status w = rc k).
Proof.
  intros al rc junk s d w W N E Ne.
  destruct (mem_write_spec al rc junk s d W) as (r & Er & _ & _ & _ & Fa & _).
  rewrite E in Er. injection Er as <-. apply Fa; auto.
Qed.


Lemma accounting : forall al rc junk s0 ws rs s, ct_obj (create_from_buffer al rc junk None) = Some s0 ->
  Forall (fun w => forall k, wc_rc w k = STATUS_SUCCESS) ws ->
  write_history ws s0 = Some (rs, s) ->
  ct_net (create_from_buffer al rc junk None) + net_history ws s0 = owned s /\
  forall rc', (forall k, rc' k = STATUS_SUCCESS) -> mem_release rc' s = (STATUS_SUCCESS, owned s).
Proof.
  intros al rc junk s0 ws rs s Hc Hr H.
  destruct (create_output _ _ _ _ Hc) as (W0 & _).
  assert (N0: ct_net (create_from_buffer al rc junk None) = owned s0).
  { revert Hc. unfold create_from_buffer.
    destruct (ok (al 0%nat)); cbn [negb]; [|discriminate].
    destruct (ok (al 1%nat)); cbn [negb]; [|destruct (mem_release _ _); discriminate].
    destruct (ok (al 2%nat)); cbn [negb]; [|destruct (mem_release _ _); discriminate].
    cbn [ct_obj ct_net]. intros X. injection X as <-. reflexivity. }
  rewrite N0. clear N0 Hc. split.
  - revert s0 rs s W0 H. induction Hr as [|w ws Hw _ IH]; intros s0 rs s W0 H.
    + cbn in *. injection H as _ <-. lia.
    + cbn [write_history net_history] in *.
      destruct (mem_write_spec (wc_al w) (wc_rc w) (wc_junk w) s0 (wc_data w) W0) as (r & E & Wr & _ & _ & _ & O & _).
      rewrite E in *. destruct (write_history ws (mw_sock r)) as [(l, s')|] eqn:E2; [|discriminate].
      injection H as <- <-. rewrite <- (IH _ _ _ Wr E2). rewrite O by auto. lia.
  - intros rc' R. unfold mem_release, owned. rewrite !R.
    destruct (pb_input s), (pb_cur s), (pb_queue s); rewrite ?ok_success; cbn [negb]; rewrite ?ok_success; cbn [negb]; f_equal; lia.
Qed.

(** ** Input *)
Definition remaining (s : pb) (l : list Z) : Prop :=
  exists b, pb_input s = Some b /\ l = skipn (pb_roff s) b.

Lemma mem_read_spec : forall s l n, remaining s l ->
  (l = [] -> mem_read s n = RRes ERROR_PSOCK_READ_EOF n [] s) /\
  (l <> [] -> exists s', mem_read s n = RRes STATUS_SUCCESS (Nat.min n (length l)) (firstn n l) s' /\ remaining s' (skipn n l)).
Proof.
  intros s l n (b & Eb & El). unfold mem_read. rewrite Eb.
  assert (Ll: length l = (length b - pb_roff s)%nat) by (subst l; apply skipn_length).
  split; intros H.
  - rewrite H in Ll. cbn in Ll. destruct (Nat.leb_spec (length b) (pb_roff s)); [reflexivity|lia].
  - destruct (Nat.leb_spec (length b) (pb_roff s)) as [X|X].
    { elim H. subst l. apply skipn_all2. auto. }
    rewrite <- Ll. set (m := if (length l <? n)%nat then length l else n).
    assert (Em: m = Nat.min n (length l)) by (unfold m; destruct (Nat.ltb_spec (length l) n); lia).
    rewrite <- El. eexists. split.
    + f_equal; auto. rewrite Em. destruct (Nat.le_ge_cases n (length l)).
      * rewrite Nat.min_l by auto. reflexivity.
      * rewrite Nat.min_r, firstn_all, firstn_all2 by auto. reflexivity.
    + exists b. cbn. split; auto. rewrite El, skipn_skipn.
      destruct (Nat.le_ge_cases n (length l)).
      * replace m with n by lia. reflexivity.
      * rewrite !skipn_all2; auto; lia.
Qed.

Lemma read_slices : forall ns s l, remaining s l ->
  fst (read_history ns s) = slices ns l /\ remaining (snd (read_history ns s)) (skipn (list_sum ns) l).
Proof.
  induction ns as [|n ns IH]; intros s l R; [auto|].
  cbn [read_history slices]. destruct (mem_read_spec s l n R) as (H0 & H1).
  destruct l as [|b l].
  - rewrite (H0 eq_refl). cbn [rr_sock rr_status rr_size rr_data].
    destruct (IH s [] R) as (E1 & E2). destruct (read_history ns s) as (h, s'). cbn [fst snd] in *.
    rewrite firstn_nil, skipn_nil in *. split; [congruence|auto].
  - destruct H1 as (s' & E & R'); [discriminate|]. rewrite E. cbn [rr_sock rr_status rr_size rr_data].
    destruct (IH s' _ R') as (E1 & E2). destruct (read_history ns s') as (h, s2). cbn [fst snd] in *.
    rewrite E1. split.
    + do 2 f_equal. rewrite firstn_firstn.
      destruct (Nat.le_ge_cases n (length (b :: l))).
      * f_equal. lia.
      * rewrite !firstn_all2; auto; lia.
    + change (list_sum (n :: ns)) with (n + list_sum ns)%nat.
      rewrite skipn_skipn in E2. exact E2.
Qed.

(** ** As a transport *)
Definition mem_R (s : option pb) (l : list Z) : Prop := match s with Some p => remaining p l | None => False end.
Definition mem_W (s : option pb) (l : list Z) : Prop :=
  match s with
  | Some p => wf p /\ pb_cur p <> None /\ contents p = l /\ pb_total p = length l
  | None => False
  end.

Lemma mem_complete_reader : forall al rc junk, complete_reader (mem_ops al rc junk) mem_R.
Proof.
  intros. split; [reflexivity|]. intros [s|] l n R Ne L; [|destruct R].
  destruct (mem_read_spec s l n R) as (_ & H). destruct (H Ne) as (s' & E & R').
  exists (Some s'). cbn. rewrite E. cbn. rewrite Nat.min_l by auto. auto.
Qed.

Lemma mem_complete_writer : forall al rc junk, (forall k, al k = STATUS_SUCCESS) -> complete_writer (mem_ops al rc junk) mem_W.
Proof.
  intros al rc junk Hal. split; [reflexivity|]. intros [s|] l d W; [|destruct W].
  destruct W as (Ws & Nc & Ct & Tt).
  destruct (mem_write_spec al rc junk s d Ws) as (w & E & Ww & _ & Su & _ & _ & Al & _).
  specialize (Al Hal Nc). destruct (Su Al) as (Sz & Cw & Tw & _ & Cu).
  exists (Some (mw_sock w)). cbn. rewrite E, Al, Sz. split; auto. cbn.
  split; auto. split; auto. split; [congruence|]. rewrite Tw, app_length. lia.
Qed.

Lemma create_input : forall al rc junk b, al 0%nat = STATUS_SUCCESS -> al 1%nat = STATUS_SUCCESS ->
  exists s, create_from_buffer al rc junk (Some b) = Ctor STATUS_SUCCESS (Some s) 2 /\ remaining s b.
Proof.
  intros al rc junk b H0 H1. unfold create_from_buffer. rewrite H0, H1, ok_success. cbn [negb].
  eexists. split; [reflexivity|]. exists b. auto.
Qed.

Lemma memory_roundtrip : forall rc junk ast rst vs, Forall valid vs -> no_trailing_empty vs ->
  ast = STATUS_SUCCESS ->
  exists s0 s1 blk r0 r1,
    create_from_buffer always_ok rc junk None = Ctor STATUS_SUCCESS (Some s0) 3 /\
    write_all (mem_ops always_ok rc junk) vs (Some s0) = Some (STATUS_SUCCESS, Some s1) /\
    get_output_buffer STATUS_SUCCESS junk s1 = Some (GO STATUS_SUCCESS (Some (length blk)) (Some blk) [blk]) /\
    blk = concat (map wire vs) /\
    create_from_buffer always_ok rc junk (Some blk) = Ctor STATUS_SUCCESS (Some r0) 2 /\
    read_all (mem_ops always_ok rc junk) ast rst junk (map kind_of vs) (Some r0)
      = (STATUS_SUCCESS, map delivered vs, Some r1) /\
    forall n, mem_read r1 n = RRes ERROR_PSOCK_READ_EOF n [] r1.
Proof.
  intros rc junk ast rst vs V NT ->.
  destruct (create_output always_ok rc junk _ eq_refl) as (W0 & C0 & T0 & N0).
  match type of W0 with wf ?x => set (s0 := x) in * end.
  destruct (write_all_complete _ (mem_ops always_ok rc junk) mem_W vs (Some s0) []
              (mem_complete_writer _ _ _ (fun _ => eq_refl))) as (s1 & E1 & W1); auto.
  { cbn [mem_W]. rewrite C0, T0. auto. }
  destruct s1 as [s1|]; [|destruct W1]. cbn [mem_W app] in W1. destruct W1 as (W1 & N1 & C1 & T1).
  destruct (create_input always_ok rc junk (concat (map wire vs)) eq_refl eq_refl) as (r0 & Er & Rr).
  destruct (read_all_complete _ (mem_ops always_ok rc junk) mem_R rst junk vs (Some r0) []
              (mem_complete_reader _ _ _)) as (r1 & E2 & R1); auto.
  { rewrite app_nil_r. exact Rr. }
  destruct r1 as [r1|]; [|destruct R1].
  exists s0, s1, (concat (map wire vs)), r0, r1.
  split; [reflexivity|]. split; [exact E1|]. split.
  { destruct (get_output_spec STATUS_SUCCESS junk s1 W1 N1) as (G & _); [rewrite C1, T1; lia|].
    rewrite G by auto. rewrite T1, C1, firstn_all. reflexivity. }
  split; [reflexivity|]. split; [exact Er|]. split; [exact E2|].
  intros n. apply (mem_read_spec r1 [] n R1). reflexivity.
Qed.

Lemma input_slices : forall al rc junk b s ns,
  ct_obj (create_from_buffer al rc junk (Some b)) = Some s ->
  fst (read_history ns s) = slices ns b.
Proof.
  intros al rc junk b s ns H.
  assert (R: remaining s b).
  { revert H. unfold create_from_buffer.
    destruct (ok (al 0%nat)); cbn [negb]; [|discriminate].
    destruct (ok (al 1%nat)); cbn [negb]; [|destruct (mem_release _ _); discriminate].
    cbn [ct_obj]. intros X. injection X as <-. exists b. auto. }
  apply read_slices; auto.
Qed.

Lemma slices_concat : forall ns l, concat (map snd (slices ns l)) = firstn (list_sum ns) l.
Proof.
  induction ns as [|n ns IH]; intros l; [reflexivity|].
  change (list_sum (n :: ns)) with (n + list_sum ns)%nat. cbn [slices].
  destruct l as [|b l].
  - cbn [map concat snd app]. rewrite IH, !firstn_nil. reflexivity.
  - cbn [map concat snd]. rewrite IH. remember (b :: l) as m. clear.
    revert n. induction m as [|x m IH]; intros n.
    + rewrite skipn_nil, !firstn_nil. reflexivity.
    + destruct n; [reflexivity|]. cbn [firstn skipn app Nat.add]. f_equal. apply IH.
Qed.

Lemma slices_eof : forall ns l i e d, nth_error (slices ns l) i = Some (e, d) ->
  (e = STATUS_SUCCESS \/ e = ERROR_PSOCK_READ_EOF) /\
  (e = ERROR_PSOCK_READ_EOF <-> (length l <= list_sum (firstn i ns))%nat).
Proof.
  induction ns as [|n ns IH]; intros l i e d H; [destruct i; discriminate|].
  cbn [slices] in H. destruct l as [|b l].
  - assert (X: forall i e d, nth_error (slices ns []) i = Some (e, d) -> e = ERROR_PSOCK_READ_EOF).
    { clear. induction ns as [|n ns IH]; intros [|i] e d H; try discriminate; cbn [slices nth_error] in H; [injection H as <- _; reflexivity|eauto]. }
    assert (e = ERROR_PSOCK_READ_EOF) as -> by (destruct i; cbn [nth_error] in H; [injection H as <- _; reflexivity|eauto]).
    split; [auto|]. split; auto. intros _. cbn. lia.
  - destruct i as [|i]; cbn [nth_error] in H.
    + injection H as <- _. split; [auto|]. split; [discriminate|]. cbn. lia.
    + destruct (IH _ _ _ _ H) as (A & B). split; auto. rewrite B. rewrite skipn_length.
      cbn [firstn]. change (list_sum (n :: firstn i ns)) with (n + list_sum (firstn i ns))%nat. lia.
Qed.

Lemma wrong_direction : forall al rc junk s d n,
  (forall b, ct_obj (create_from_buffer al rc junk (Some b)) = Some s ->
     mem_write al rc junk s d = Some (MW ERROR_PSOCK_UNSUPPORTED_TYPE (length d) s 0) /\
     get_output_buffer STATUS_SUCCESS junk s = Some (GO ERROR_PSOCK_UNSUPPORTED_TYPE None None [])) /\
  (ct_obj (create_from_buffer al rc junk None) = Some s -> mem_read s n = RRes ERROR_PSOCK_READ_EOF n [] s) /\
  mem_accept s = ERROR_PSOCK_UNSUPPORTED_TYPE.
Proof.
  intros al rc junk s d n. unfold create_from_buffer. split; [|split].
  - intros b. destruct (ok (al 0%nat)); cbn [negb]; [|discriminate].
    destruct (ok (al 1%nat)); cbn [negb]; [|destruct (mem_release _ _); discriminate].
    cbn [ct_obj]. intros X. injection X as <-. auto.
  - destruct (ok (al 0%nat)); cbn [negb]; [|discriminate].
    destruct (ok (al 1%nat)); cbn [negb]; [|destruct (mem_release _ _); discriminate].
    destruct (ok (al 2%nat)); cbn [negb]; [|destruct (mem_release _ _); discriminate].
    cbn [ct_obj]. intros X. injection X as <-. reflexivity.
  - reflexivity.
Qed.

Lemma create_result : forall al rc junk b, (forall k, rc k = STATUS_SUCCESS) ->
  let c := create_from_buffer al rc junk b in
  (ct_status c = STATUS_SUCCESS /\ exists s, ct_obj c = Some s /\ ct_net c = owned s) \/
  (ct_status c <> STATUS_SUCCESS /\ (exists k, ct_status c = al k) /\ ct_obj c = None /\ ct_net c = 0).
Proof.
  intros al rc junk b R. cbv zeta. unfold create_from_buffer.
  destruct (ok (al 0%nat)) eqn:A0; cbn [negb].
  2:{ right. apply ok_false in A0. cbn. repeat split; eauto. }
  assert (MR: forall s, mem_release rc s = (STATUS_SUCCESS, owned s)).
  { intros s. unfold mem_release, owned. rewrite !R.
    destruct (pb_input s), (pb_cur s), (pb_queue s); rewrite ?ok_success; cbn [negb]; rewrite ?ok_success; cbn [negb]; f_equal; lia. }
  destruct b as [b|]; rewrite ?MR, ?ok_success;
    (destruct (ok (al 1%nat)) eqn:A1; cbn [negb];
     [|right; apply ok_false in A1; cbn; repeat split; eauto]).
  - left. cbn. eauto.
  - destruct (ok (al 2%nat)) eqn:A2; cbn [negb].
    + left. cbn. eauto.
    + right. apply ok_false in A2. cbn. repeat split; eauto.
Qed.

Lemma release_result : forall rc s, exists e,
  mem_release rc s = (e, owned s) /\ (e = STATUS_SUCCESS \/ exists k, e = rc k) /\
  ((forall k, rc k = STATUS_SUCCESS) -> e = STATUS_SUCCESS) /\
  (rc 3%nat <> STATUS_SUCCESS -> e <> STATUS_SUCCESS) /\
  (pb_input s <> None -> rc 0%nat <> STATUS_SUCCESS -> e = rc 0%nat).
Proof.
  intros rc s. unfold mem_release. eexists. split; [f_equal; unfold owned; destruct (pb_input s), (pb_cur s), (pb_queue s); lia|].
  destruct (pb_input s), (pb_cur s), (pb_queue s); unfold ok;
    destruct (Z.eqb_spec (rc 0%nat) STATUS_SUCCESS); destruct (Z.eqb_spec (rc 1%nat) STATUS_SUCCESS);
    destruct (Z.eqb_spec (rc 2%nat) STATUS_SUCCESS); cbn; repeat split; intros; eauto; try congruence; try tauto;
    try (exfalso; match goal with H : forall k : nat, _ = STATUS_SUCCESS, N : _ <> STATUS_SUCCESS |- _ => exact (N (H _)) end).
Qed.

Lemma write_failure_cause : forall al rc junk s d w, wf s -> pb_cur s <> None -> mem_write al rc junk s d = Some w ->
  let room := (pb_osize s - pb_woff s)%nat in
  match first_failure (write_sites al rc (room <=? length d)%nat (PSOCK_BUFFER_SIZE + room <=? length d)%nat) with
  | Some (e, n) => mw_status w = e /\ mw_net w = n
  | None => mw_status w = STATUS_SUCCESS
  end.
Proof.
  intros al rc junk s d w (q & Eq & Hq & Eo & Hc) N E room. destruct (pb_cur s) as [cur|] eqn:Ec; [|contradiction]. destruct Hc as (Lc & Lw).
  assert (Pp: (0 < PSOCK_BUFFER_SIZE)%nat) by (apply size_pos).
  assert (Er: room = (PSOCK_BUFFER_SIZE - pb_woff s)%nat) by (unfold room; rewrite Eo; reflexivity).
  unfold mem_write in E. rewrite Ec, Eq in E. cbv zeta in E. fold room in E.
  rewrite blit_some in E by (rewrite firstn_length; destruct (Nat.ltb_spec (length d) room); lia). cbn beta iota in E. cbn [pb_osize pb_woff] in E.
  cbn [first_failure write_sites andb].
  assert (K0: forall z, (z =? 0) = ok z) by reflexivity.
  assert (F: forall s1 e s2 n, pb_queue s1 = Some q -> pb_cur s1 <> None -> flush_full al rc junk s1 = (e, s2, n) ->
     match first_failure (write_sites al rc true false) with
     | Some (e', n') => e = e' /\ n = n' /\ ok e = false
     | None => e = STATUS_SUCCESS /\ n = 3 /\ pb_osize s2 = PSOCK_BUFFER_SIZE /\ pb_queue s2 <> None
     end).
  { intros s1 e s2 n Q1 C1 H. unfold flush_full in H. rewrite Q1 in H. destruct (pb_cur s1); [|contradiction].
    unfold write_sites, first_failure, fold_left. cbn [andb]. rewrite !K0.
    destruct (ok (al 0%nat)) eqn:A0; cbn [negb] in *; [|inversion H; subst; auto].
    destruct (ok (al 1%nat)) eqn:A1; cbn [negb] in *; [|inversion H; subst; destruct (ok (rc 0%nat)) eqn:R0; unfold freed; rewrite R0; auto].
    destruct (ok (al 2%nat)) eqn:A2; cbn [negb] in *; inversion H; subst; auto. cbn. repeat split; auto. discriminate. }
  assert (G: forall s2 d1 e s3 n, pb_queue s2 <> None -> append_large al rc s2 d1 = (e, s3, n) ->
     match first_failure (write_sites al rc false true) with
     | Some (e', n') => e = e' /\ 3 + n = n' /\ ok e = false
     | None => e = STATUS_SUCCESS /\ n = 3
     end).
  { intros s2 d1 e s3 n Q1 H. unfold append_large in H. destruct (pb_queue s2); [|contradiction].
    unfold write_sites, first_failure, fold_left. cbn [andb]. rewrite !K0.
    destruct (ok (al 3%nat)) eqn:A0; cbn [negb] in *; [|inversion H; subst; auto].
    destruct (ok (al 4%nat)) eqn:A1; cbn [negb] in *; [|inversion H; subst; destruct (ok (rc 1%nat)) eqn:R0; unfold freed; rewrite R0; auto].
    destruct (ok (al 5%nat)) eqn:A2; cbn [negb] in *; [inversion H; subst; auto|].
    inversion H; subst; destruct (ok (rc 2%nat)) eqn:R2; destruct (ok (rc 1%nat)) eqn:R1; unfold freed; rewrite ?R1, ?R2; repeat split; auto. }
  assert (DL: length (skipn (if (length d <? room)%nat then length d else room) d) = (length d - room)%nat).
  { rewrite skipn_length. destruct (Nat.ltb_spec (length d) room); lia. }
  destruct (Nat.leb_spec room (length d)) as [L|L].
  - rewrite (proj2 (Nat.ltb_ge _ _) L) in *.
    replace (pb_osize s <=? pb_woff s + room)%nat with true in E by (symmetry; apply Nat.leb_le; lia).
    match type of E with context [flush_full al rc junk ?x] => destruct (flush_full al rc junk x) as [[e1 s2] n1] eqn:EF; apply F in EF; [|reflexivity|discriminate] end.
    unfold write_sites, first_failure, fold_left in EF |- *. cbn [andb] in EF |- *.
    destruct (negb (al 0%nat =? 0)); [destruct EF as (-> & -> & EF); rewrite EF in E; cbn [negb] in E; inversion E; auto|].
    destruct (negb (al 1%nat =? 0)); [destruct EF as (-> & -> & EF); rewrite EF in E; cbn [negb] in E; inversion E; auto|].
    destruct (negb (al 2%nat =? 0)); [destruct EF as (-> & -> & EF); rewrite EF in E; cbn [negb] in E; inversion E; auto|].
    destruct EF as (-> & -> & Z2 & Q2). change (negb (ok STATUS_SUCCESS)) with false in E. cbv iota in E. rewrite Z2, DL in E.
    destruct (Nat.leb_spec (PSOCK_BUFFER_SIZE + room) (length d)) as [M|M].
    + replace (PSOCK_BUFFER_SIZE <=? length d - room)%nat with true in E by (symmetry; apply Nat.leb_le; lia).
      match type of E with context [append_large al rc ?x ?y] => destruct (append_large al rc x y) as [[e2 s3] n2] eqn:EG; apply G in EG; [|exact Q2] end.
      unfold write_sites, first_failure, fold_left in EG. cbn [andb] in EG |- *.
      destruct (negb (al 3%nat =? 0)); [destruct EG as (-> & <- & EG); rewrite EG in E; cbn [negb] in E; inversion E; auto|].
      destruct (negb (al 4%nat =? 0)); [destruct EG as (-> & <- & EG); rewrite EG in E; cbn [negb] in E; inversion E; auto|].
      destruct (negb (al 5%nat =? 0)); [destruct EG as (-> & <- & EG); rewrite EG in E; cbn [negb] in E; inversion E; auto|].
      destruct EG as (-> & ->). change (ok STATUS_SUCCESS) with true in E. cbn [negb] in E. cbv iota in E. inversion E; reflexivity.
    + replace (PSOCK_BUFFER_SIZE <=? length d - room)%nat with false in E by (symmetry; apply Nat.leb_gt; lia). cbn [andb].
      change (negb (ok STATUS_SUCCESS)) with false in E. cbv iota in E.
      destruct (skipn room d); [inversion E; reflexivity|]. destruct (pb_cur s2); [|discriminate]. destruct (blit _ _ _); [|discriminate]. cbn beta iota in E. inversion E; reflexivity.
  - rewrite (proj2 (Nat.ltb_lt _ _) L) in *.
    replace (pb_osize s <=? pb_woff s + length d)%nat with false in E by (symmetry; apply Nat.leb_gt; lia).
    change (negb (ok STATUS_SUCCESS)) with false in E. cbv iota in E. cbn [pb_osize] in E. rewrite DL in E.
    replace (pb_osize s <=? length d - room)%nat with false in E by (symmetry; apply Nat.leb_gt; lia).
    replace (PSOCK_BUFFER_SIZE + room <=? length d)%nat with false by (symmetry; apply Nat.leb_gt; lia).
    unfold write_sites, first_failure. cbn [andb]. change (negb (ok STATUS_SUCCESS)) with false in E. cbv iota in E.
    rewrite skipn_all in E. inversion E; reflexivity.
Qed.
