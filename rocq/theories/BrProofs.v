(** Proofs about the buffered reader. *)
From Verif Require Import Base Status StringModel CodecModel MemModel MemProofs BrModel BrSpec.

Lemma sub_some : forall a b, (b <= a)%nat -> sub a b = Some (a - b)%nat.
Proof. intros. unfold sub. destruct (Nat.leb_spec b a); [auto|lia]. Qed.
Lemma ld_range_some : forall b p n, (p + n <= length b)%nat -> ld_range b p n = Some (firstn n (skipn p b)).
Proof. intros. unfold ld_range. destruct (Nat.leb_spec (p + n) (length b)); [auto|lia]. Qed.

Lemma buffered_length : forall S (b : br S), (q_off b <= q_size b)%nat -> (q_size b <= length (q_buf b))%nat ->
  length (buffered b) = (q_size b - q_off b)%nat.
Proof. intros. unfold buffered. apply firstn_skipn_len. lia. Qed.
Lemma buffered_split : forall S (b : br S), (q_off b <= q_size b)%nat -> (q_size b <= length (q_buf b))%nat ->
  q_buf b = firstn (q_off b) (q_buf b) ++ buffered b ++ skipn (q_size b) (q_buf b).
Proof.
  intros. unfold buffered. rewrite <- (firstn_skipn (q_off b) (q_buf b)) at 1. f_equal.
  rewrite <- (firstn_skipn (q_size b - q_off b) (skipn (q_off b) (q_buf b))) at 1. f_equal.
  rewrite skipn_skipn. f_equal. lia.
Qed.

(** Dropping [c] delivered bytes. *)
Lemma buffered_advance : forall S (b : br S) c e, (q_off b + c <= q_size b)%nat -> (q_size b <= length (q_buf b))%nat ->
  buffered b = firstn c (skipn (q_off b) (q_buf b)) ++ buffered (Br (q_buf b) (q_size b) (q_off b + c) e (q_w b)).
Proof.
  intros. unfold buffered. cbn.
  rewrite <- (firstn_skipn c (firstn (q_size b - q_off b) (skipn (q_off b) (q_buf b)))).
  rewrite firstn_firstn, skipn_firstn_comm, skipn_skipn.
  rewrite Nat.min_l by lia. f_equal. f_equal. lia.
Qed.

(** What a refill does. *)
Lemma fill_spec : forall S (o : sock_ops S) inv rem lossy b, stream_sock o inv rem lossy -> br_ok inv b ->
  exists e b', br_fill o b = Some (e, b') /\ q_err b' = q_err b /\ q_off b' = 0%nat /\
    (q_size b' <= length (q_buf b'))%nat /\ length (q_buf b') = length (q_buf b) /\ inv (q_w b') /\
    ((e = STATUS_SUCCESS /\ exists d, d <> [] /\ buffered b' = buffered b ++ d /\ rem (q_w b) = d ++ rem (q_w b')) \/
     (e <> STATUS_SUCCESS /\ buffered b' = buffered b /\ (q_size b' < length (q_buf b'))%nat /\
      (exists lost, rem (q_w b) = rem (q_w b') ++ lost /\ (lossy = false -> lost = [])) /\
      (e = ERROR_PSOCK_READ_GENERAL \/ exists n, (0 < n)%nat /\ e = rr_status (op_read o (q_w b) n false)) /\
      (smooth_sock o inv rem -> rem (q_w b) = []))).
Proof.
  intros S o inv rem lossy b HS (O1 & O2 & O3 & O4 & O5). unfold br_fill.
  set (stage1 := if (0 <? q_off b)%nat then _ else _).
  assert (E1 : exists b1, stage1 = Some b1 /\ q_err b1 = q_err b /\ q_off b1 = 0%nat /\ length (q_buf b1) = length (q_buf b) /\
     (q_size b1 < length (q_buf b1))%nat /\ q_w b1 = q_w b /\ buffered b1 = buffered b /\ q_size b1 = (q_size b - q_off b)%nat).
  { subst stage1. destruct (Nat.ltb_spec 0 (q_off b)) as [L|L].
    - rewrite sub_some by lia. rewrite ld_range_some by lia. 
      assert (LL : length (firstn (q_size b - q_off b) (skipn (q_off b) (q_buf b))) = (q_size b - q_off b)%nat) by (apply firstn_skipn_len; lia).
      rewrite blit_some by lia. eexists. split; [reflexivity|]. unfold buffered.
      cbn [q_err q_off q_buf q_size q_w skipn firstn plus app]. split; [auto|]. split; [auto|].
      assert (LB : length (firstn (q_size b - q_off b) (skipn (q_off b) (q_buf b)) ++ skipn (length (firstn (q_size b - q_off b) (skipn (q_off b) (q_buf b)))) (q_buf b)) = length (q_buf b))
        by (rewrite app_length, skipn_length; lia).
      split; [auto|]. split; [lia|]. split; [auto|]. split; [|auto].
      rewrite Nat.sub_0_r. rewrite firstn_exact by (symmetry; exact LL). reflexivity.
    - eexists. split; [reflexivity|]. repeat (split; [auto; lia|]). lia. }
  destruct E1 as (b1 & E1 & A1 & A2 & A3 & A4 & A5 & A6 & A7). rewrite E1. clear stage1 E1.
  rewrite (ss_vtable _ _ _ _ HS). change (negb (ok STATUS_SUCCESS)) with false. cbv iota.
  rewrite sub_some by lia. cbv zeta.
  pose proof (ss_read _ _ _ _ HS (q_w b1) (length (q_buf b1) - q_size b1)%nat ltac:(rewrite A5; auto) ltac:(lia)) as R.
  assert (PR : smooth_sock o inv rem -> rem (q_w b1) <> [] ->
    rr_status (op_read o (q_w b1) (length (q_buf b1) - q_size b1) false) = STATUS_SUCCESS /\
    rr_size (op_read o (q_w b1) (length (q_buf b1) - q_size b1) false) <> 0%nat).
  { intros SM N. apply (sm_progress _ _ _ SM); auto; [rewrite A5; auto|lia]. }
  assert (ST : exists n, (0 < n)%nat /\ rr_status (op_read o (q_w b1) (length (q_buf b1) - q_size b1) false) = rr_status (op_read o (q_w b) n false)).
  { rewrite A5. eexists. split; [|reflexivity]. lia. }
  cbv zeta in R. destruct (op_read o (q_w b1) (length (q_buf b1) - q_size b1) false) as [e sz d w'].
  cbn [rr_status rr_size rr_data rr_sock] in *. destruct R as (R1 & R2 & R3 & R4).
  rewrite blit_some by lia. cbn [q_size q_off q_err q_w q_buf].
  assert (LB : length (firstn (q_size b1) (q_buf b1) ++ d ++ skipn (q_size b1 + length d) (q_buf b1)) = length (q_buf b1))
    by (apply blit_length; lia).
  assert (FB : forall k x, (k <= length d)%nat -> buffered (Br (firstn (q_size b1) (q_buf b1) ++ d ++ skipn (q_size b1 + length d) (q_buf b1)) (q_size b1 + k) (q_off b1) x w') = buffered b1 ++ firstn k d).
  { intros k x K. unfold buffered. cbn [q_buf q_size q_off]. rewrite A2, !Nat.sub_0_r. cbn [skipn].
    rewrite firstn_app, firstn_firstn, firstn_length_le by lia. rewrite Nat.min_r by lia.
    f_equal. replace (q_size b1 + k - q_size b1)%nat with k by lia. rewrite firstn_app.
    replace (k - length d)%nat with 0%nat by lia. cbn. apply app_nil_r. }
  assert (FB0 : forall x, buffered (Br (firstn (q_size b1) (q_buf b1) ++ d ++ skipn (q_size b1 + length d) (q_buf b1)) (q_size b1) (q_off b1) x w') = buffered b1).
  { intros x. pose proof (FB 0%nat x ltac:(lia)) as K. cbn [firstn] in K. rewrite app_nil_r in K. rewrite <- K. f_equal. f_equal. lia. }
  rewrite <- A5. destruct (ok e) eqn:OE; cbn [negb].
  - apply ok_true in OE. subst e. destruct (R3 eq_refl) as (-> & R5).
    destruct (Nat.eqb_spec (length d) 0) as [L|L].
    + apply length_zero_iff_nil in L. rewrite L in R5. cbn [app] in R5.
      eexists _, _. split; [reflexivity|]. cbn [q_err q_off q_size q_buf q_w].
      split; [auto|]. split; [auto|]. split; [rewrite LB; lia|]. split; [congruence|]. split; [auto|].
      right. split; [discriminate|]. split; [rewrite FB0; auto|].
      split; [rewrite LB; lia|]. split; [exists []; rewrite app_nil_r; auto|]. split; [auto|].
      intros SM. destruct (rem (q_w b1)) as [|x rr] eqn:RR; [auto|]. destruct (PR SM ltac:(discriminate)) as (_ & K). rewrite L in K. cbn in K. congruence.
    + eexists _, _. split; [reflexivity|]. cbn [q_err q_off q_size q_buf q_w].
      split; [auto|]. split; [auto|]. split; [rewrite LB; lia|]. split; [congruence|]. split; [auto|].
      left. split; [auto|]. exists d. split; [intros ->; apply L; reflexivity|]. split; [|auto].
      rewrite FB by lia. rewrite firstn_all. congruence.
  - apply ok_false in OE. destruct (R4 OE) as (lost & R5 & R6).
    eexists _, _. split; [reflexivity|]. cbn [q_err q_off q_size q_buf q_w].
    split; [auto|]. split; [auto|]. split; [rewrite LB; lia|]. split; [congruence|]. split; [auto|].
    right. split; [auto|]. split; [rewrite FB0; auto|].
    split; [rewrite LB; lia|]. split; [exists lost; auto|]. split; [right; rewrite A5; destruct ST as (n & N1 & N2); exists n; auto|].
    intros SM. destruct (rem (q_w b1)) as [|x rr] eqn:RR; [auto|]. destruct (PR SM ltac:(discriminate)) as (K & _). congruence.
Qed.

(** ** Reads *)
Definition bread_post {S} (o : sock_ops S) inv rem (lossy : bool) (b : br S) (n : nat) (block : bool) (got : list Z) (r : rres (br S)) : Prop :=
  exists d lost, rr_data r = got ++ d /\ rr_size r = length (rr_data r) /\ (length d <= n)%nat /\
    br_ok inv (rr_sock r) /\ q_err (rr_sock r) = q_err b /\ length (q_buf (rr_sock r)) = length (q_buf b) /\
    pending rem b = d ++ pending rem (rr_sock r) ++ lost /\ (lossy = false -> lost = []) /\
    ((rr_status r = STATUS_SUCCESS /\ lost = [] /\ (block = true -> length d = n) /\ ((0 < n)%nat -> d <> []) /\
      ((n <= length (buffered b))%nat -> length d = n /\ q_w (rr_sock r) = q_w b)) \/
     (rr_status r <> STATUS_SUCCESS /\ (length (buffered b) < n)%nat /\
      ((d = [] /\ buffered (rr_sock r) = buffered b) \/ (block = true /\ d <> [] /\ (length d < n)%nat /\ buffered (rr_sock r) = [])) /\
      (rr_status r = ERROR_PSOCK_READ_GENERAL \/ exists s k, (0 < k)%nat /\ rr_status r = rr_status (op_read o s k false)) /\
      (smooth_sock o inv rem -> rem (q_w (rr_sock r)) = []))).

Lemma read_loop_spec : forall S (o : sock_ops S) inv rem lossy block fuel b n got, stream_sock o inv rem lossy -> br_ok inv b ->
  (n < fuel)%nat ->
  exists r, br_read_loop fuel o block b (q_size b - q_off b) n got = Some r /\ bread_post o inv rem lossy b n block got r.
Proof.
  intros S o inv rem lossy block. induction fuel as [|fuel IH]; intros b n got HS HB F; [lia|].
  destruct HB as (O1 & O2 & O3 & O4 & O5). pose proof (buffered_length S b O1 O2) as BL.
  cbn [br_read_loop]. destruct (Nat.ltb_spec (q_size b - q_off b) n) as [L|L].
  - destruct (fill_spec S o inv rem lossy b HS) as (e & b1 & A1 & A2 & A3 & A4 & A5 & A6 & A7); [unfold br_ok; auto|].
    rewrite A1. destruct A7 as [(-> & d & D1 & D2 & D3)|(N & D1 & D2 & (lost & D3 & D4) & D5 & D6)].
    + change (negb (ok STATUS_SUCCESS)) with false. cbv iota.
      rewrite sub_some by lia. rewrite A3, Nat.sub_0_r.
      pose proof (buffered_length S b1 ltac:(lia) A4) as BL1. rewrite A3, D2, app_length, Nat.sub_0_r in BL1.
      assert (D1' : (0 < length d)%nat) by (destruct d; [congruence|cbn; lia]).
      set (c := if (q_size b1 <? n)%nat then q_size b1 else n).
      assert (C : (0 < c)%nat /\ (c <= q_size b1)%nat /\ (c <= n)%nat /\ ((c < n)%nat -> c = q_size b1)).
      { subst c. destruct (Nat.ltb_spec (q_size b1) n); lia. }
      clearbody c. destruct C as (C1 & C2 & C3 & C4).
      rewrite ld_range_some by lia. cbn [plus skipn].
      pose proof (buffered_advance S b1 c (q_err b1) ltac:(lia) A4) as AD. rewrite A3 in AD. cbn [plus skipn] in AD.
      set (b2 := Br (q_buf b1) (q_size b1) c (q_err b1) (q_w b1)) in *.
      assert (OK2 : br_ok inv b2) by (unfold br_ok; subst b2; cbn; repeat split; auto; lia).
      assert (P2 : pending rem b = firstn c (q_buf b1) ++ pending rem b2).
      { unfold pending. subst b2. cbn [q_w]. rewrite D3, (app_assoc (buffered b)), <- D2, AD, app_assoc. reflexivity. }
      assert (LF : length (firstn c (q_buf b1)) = c) by (rewrite firstn_length; lia).
      assert (NF : firstn c (q_buf b1) <> []) by (intros K; rewrite K in LF; cbn in LF; lia).
      destruct block; cbn [andb].
      * destruct (Nat.ltb_spec 0 (n - c)) as [L2|L2].
        -- replace (q_size b1 - c)%nat with (q_size b2 - q_off b2)%nat by reflexivity.
           assert (B2 : buffered b2 = []).
           { apply length_zero_iff_nil. rewrite buffered_length; subst b2; cbn; lia. }
           destruct (IH b2 (n - c)%nat (got ++ firstn c (q_buf b1)) HS OK2) as (r & R1 & (d' & lost & P3 & P4 & P5 & P6 & P7 & P8 & P9 & P10 & P11)); [lia|].
           exists r. split; [exact R1|]. exists (firstn c (q_buf b1) ++ d'), lost.
           rewrite app_length, LF. rewrite P3, <- app_assoc in *.
           split; [auto|]. split; [auto|]. split; [lia|]. split; [auto|]. split; [rewrite P7; subst b2; auto|]. split; [rewrite P8; subst b2; auto|].
           split; [rewrite P2, P9, <- app_assoc; reflexivity|]. split; [auto|].
           destruct P11 as [(G1 & G2 & G3 & G4 & G5)|(G1 & G2 & G3 & G4 & G5)].
           ++ left. split; [auto|]. split; [auto|]. split; [intros _; specialize (G3 eq_refl); lia|].
              split; [intros _ K; apply app_eq_nil in K; destruct K as (K & _); auto|]. lia.
           ++ right. split; [auto|]. split; [lia|]. split; [|auto]. right. split; [auto|].
              split; [intros K; apply app_eq_nil in K; destruct K as (K & _); auto|].
              destruct G3 as [(-> & G3)|(_ & _ & G3 & G6)]; [cbn; split; [lia|congruence]|split; [lia|auto]].
        -- assert (c = n) by lia. subst c. eexists. split; [reflexivity|]. exists (firstn n (q_buf b1)), []. cbn [rr_data rr_size rr_sock rr_status].
           rewrite app_length, LF, app_nil_r. split; [auto|]. split; [auto|]. split; [lia|]. split; [auto|]. split; [auto|]. split; [auto|]. split; [auto|]. split; [auto|].
           left. split; [auto|]. split; [auto|]. split; [auto|]. split; [auto|]. lia.
      * eexists. split; [reflexivity|]. exists (firstn c (q_buf b1)), []. cbn [rr_data rr_size rr_sock rr_status].
        rewrite app_length, LF, app_nil_r. split; [auto|]. split; [auto|]. split; [lia|]. split; [auto|]. split; [auto|]. split; [auto|]. split; [auto|]. split; [auto|].
        left. split; [auto|]. split; [auto|]. split; [discriminate|]. split; [auto|]. lia.
    + rewrite (proj2 (ok_false e) N). cbn [negb]. eexists. split; [reflexivity|]. exists [], lost. cbn [rr_data rr_size rr_sock rr_status].
      rewrite app_nil_r. split; [auto|]. split; [auto|]. split; [cbn; lia|].
      split; [unfold br_ok; rewrite A3; repeat split; auto; lia|]. split; [auto|]. split; [auto|].
      split; [unfold pending; rewrite D3, D1, app_assoc; reflexivity|]. split; [auto|].
      right. split; [auto|]. split; [lia|]. split; [auto|].
      split. { destruct D5 as [D5|(k & K1 & K2)]; [auto|right; exists (q_w b), k; auto]. }
      intros SM. specialize (D6 SM). rewrite D3 in D6. apply app_eq_nil in D6. tauto.
  - change (negb (ok STATUS_SUCCESS)) with false. cbv iota. rewrite sub_some by lia.
    destruct (Nat.ltb_spec (q_size b - q_off b) n); [lia|]. rewrite ld_range_some by lia.
    rewrite Nat.sub_diag, andb_false_r.
    pose proof (buffered_advance S b n (q_err b) ltac:(lia) O2) as AD.
    assert (LF : length (firstn n (skipn (q_off b) (q_buf b))) = n) by (apply firstn_skipn_len; lia).
    eexists. split; [reflexivity|]. exists (firstn n (skipn (q_off b) (q_buf b))), []. cbn [rr_data rr_size rr_sock rr_status].
    rewrite app_length, LF, app_nil_r. split; [auto|]. split; [auto|]. split; [lia|].
    split; [unfold br_ok; cbn; repeat split; auto; lia|]. split; [auto|]. split; [auto|].
    split; [unfold pending; rewrite AD at 1; rewrite <- app_assoc; reflexivity|]. split; [auto|].
    left. split; [auto|]. split; [auto|]. split; [auto|]. split; [intros K1 K2; rewrite K2 in LF; cbn in LF; lia|]. auto.
Qed.

Lemma br_read_spec : forall S (o : sock_ops S) inv rem lossy b n block, stream_sock o inv rem lossy -> br_ok inv b ->
  exists r, br_read o b n block = Some r /\ bread_post o inv rem lossy b n block [] r.
Proof.
  intros S o inv rem lossy b n block HS HB. unfold br_read. destruct HB as (O1 & HB). rewrite sub_some by lia.
  apply (read_loop_spec S o inv rem lossy); [auto|split; auto|lia].
Qed.

(** ** Lines *)
Lemma copy_line_spec : forall remain buf pre src post t rest copied, buf = pre ++ src ++ post -> (remain < length rest)%nat ->
  exists l s2, src = l ++ s2 /\ ~ In 10 l /\ (length l <= remain)%nat /\
    copy_line remain buf (length pre) (length src) (t ++ rest) (length t) copied =
      Some (length pre + length l, length s2, t ++ l ++ skipn (length l) rest, length t + length l, remain - length l, copied + length l)%nat /\
    (length l = remain \/ s2 = [] \/ exists s3, s2 = 10 :: s3).
Proof.
  induction remain as [|remain IH]; intros buf pre src post t rest copied B R.
  - exists [], src. cbn. rewrite !Nat.add_0_r. auto 8.
  - cbn [copy_line]. destruct src as [|c src].
    + exists [], []. cbn. rewrite !Nat.add_0_r. split; [auto|]. split; [auto|]. split; [lia|]. auto.
    + cbn [length]. assert (LD : ld buf (length pre) = Some c) by (rewrite B; apply ld_app). rewrite LD. destruct (Z.eqb_spec c 10) as [->|N].
      * exists [], (10 :: src). cbn. rewrite !Nat.add_0_r. split; [auto|]. split; [auto|]. split; [lia|]. split; [auto|]. right; right. eauto.
      * destruct rest as [|r0 rest]; [cbn in R; lia|]. rewrite st_app.
        destruct (IH buf (pre ++ [c]) src post (t ++ [c]) rest (S copied)) as (l & s2 & A & A2 & A3 & A4 & A5).
        { rewrite B. lapp. } { cbn in R; lia. }
        exists (c :: l), s2. split; [cbn; congruence|]. split; [cbn; intros [K|K]; [congruence|auto]|]. split; [cbn; lia|].
        split; [|cbn [length]; destruct A5 as [A5|A5]; [left; lia|right; auto]].
        rewrite !app_length in A4. cbn [length] in A4. rewrite !Nat.add_1_r in A4. rewrite <- !app_assoc in A4. cbn [app] in A4.
        rewrite A4. f_equal. cbn [length skipn app]. repeat (f_equal; try lia).
Qed.

Definition line_post {S} (o : sock_ops S) inv rem (lossy : bool) (n : nat) (ub text : list Z) (b : br S) (r : lres S) : Prop :=
  br_ok inv (l_br r) /\ length (q_buf (l_br r)) = length (q_buf b) /\
  exists l lost, ~ In 10 l /\ (lossy = false -> lost = []) /\
  ((l_status r = STATUS_SUCCESS /\ lost = [] /\ pending rem b = l ++ 10 :: pending rem (l_br r) /\ (length (text ++ l) < n)%nat /\
    l_size r = (length (text ++ l) + 1)%nat /\ l_ub r = stored (text ++ l) ub /\ q_err (l_br r) = q_err b) \/
   (l_status r = ERROR_PSOCK_BR_READ_LINE_TRUNCATED /\ lost = [] /\ pending rem b = l ++ pending rem (l_br r) /\
    (length (text ++ l) + 1 = n)%nat /\ l_size r = length (text ++ l) /\ l_ub r = stored (text ++ l) ub /\ q_err (l_br r) = q_err b) \/
   (q_err (l_br r) = true /\ buffered (l_br r) = [] /\ pending rem b = l ++ pending rem (l_br r) ++ lost /\ (length (text ++ l) + 1 < n)%nat /\
    (smooth_sock o inv rem -> (q_err b = true -> pending rem b = []) -> pending rem (l_br r) = []) /\
    ((l_status r = STATUS_SUCCESS /\ text ++ l <> [] /\ l_size r = (length (text ++ l) + 1)%nat /\ l_ub r = stored (text ++ l) ub) \/
     (l_status r = ERROR_PSOCK_READ_GENERAL /\ text ++ l = [] /\ l_size r = n /\ l_ub r = ub /\ buffered b = [])))).

Lemma st_stored : forall (t ub : list Z) bp, bp = length t -> (length t < length ub)%nat ->
  st (t ++ skipn (length t) ub) bp 0 = Some (stored t ub).
Proof.
  intros t ub bp -> L. unfold stored. rewrite <- (firstn_skipn (length t) ub) in L at 1.
  assert (exists x r, skipn (length t) ub = x :: r /\ r = skipn (S (length t)) ub).
  { destruct (skipn (length t) ub) as [|x r] eqn:E.
    - rewrite app_nil_r in L. apply (f_equal (@length _)) in E. rewrite skipn_length in E. rewrite firstn_length in L. cbn in E. lia.
    - exists x, r. split; [auto|]. replace (S (length t)) with (length t + 1)%nat by lia. rewrite <- skipn_skipn, E. reflexivity. }
  destruct H as (x & r & -> & ->). apply st_app.
Qed.

Lemma line_loop_spec : forall S (o : sock_ops S) inv rem lossy n ub fuel b text, stream_sock o inv rem lossy ->
  br_ok inv b \/ (q_off b <= q_size b /\ q_size b <= length (q_buf b) /\ 0 < length (q_buf b) /\ inv (q_w b) /\ buffered b <> [])%nat ->
  (n <= length ub)%nat -> (length text + 1 < n)%nat -> (n - 1 - length text + (match buffered b with [] => 1 | _ => 0 end) < fuel)%nat ->
  exists r, line_loop fuel o n b (q_off b) (q_size b - q_off b) (text ++ skipn (length text) ub) (length text) (n - 1 - length text) (length text) = Some r /\
    line_post o inv rem lossy n ub text b r.
Proof.
  intros S o inv rem lossy n ub. induction fuel as [|fuel IH]; intros b text HS HB U T F; [lia|].
  assert (HB' : (q_off b <= q_size b /\ q_size b <= length (q_buf b) /\ 0 < length (q_buf b))%nat /\ inv (q_w b) /\ (buffered b = [] -> br_ok inv b)).
  { destruct HB as [HB|(A & B & C & D & E)]; [|repeat split; auto; congruence]. pose proof HB as (A & B & C & D & E). repeat split; auto. }
  destruct HB' as ((O1 & O2 & O3) & O4 & O5).
  cbn [line_loop]. destruct (Nat.eqb_spec (n - 1 - length text) 0) as [K|_]; [lia|].
  pose proof (buffered_length S b O1 O2) as BL. pose proof (buffered_split S b O1 O2) as BS.
  assert (LP : length (firstn (q_off b) (q_buf b)) = q_off b) by (rewrite firstn_length; lia).
  destruct (copy_line_spec (n - 1 - length text) (q_buf b) (firstn (q_off b) (q_buf b)) (buffered b) (skipn (q_size b) (q_buf b)) text (skipn (length text) ub) 0 BS)
    as (l & s2 & A1 & A2 & A3 & A4 & A5); [rewrite skipn_length; lia|].
  rewrite LP, BL in A4. rewrite A4. clear A4.
  rewrite A1, app_length in BL.
  replace (text ++ l ++ skipn (length l) (skipn (length text) ub)) with ((text ++ l) ++ skipn (length (text ++ l)) ub)
    by (rewrite skipn_skipn, app_length, <- app_assoc; reflexivity).
  assert (ADV : forall c, (c <= length (buffered b))%nat ->
     buffered (Br (q_buf b) (q_size b) (q_off b + c) (q_err b) (q_w b)) = skipn c (buffered b)).
  { intros c C. rewrite A1, app_length in C. pose proof (buffered_advance S b c (q_err b) ltac:(lia) O2) as AD.
    rewrite AD at 1. rewrite skipn_exact; [reflexivity|]. symmetry. apply firstn_skipn_len. lia. }
  (* a newline in the buffer? *)
  set (nl := if (0 <? length s2)%nat then _ else _).
  assert (NL : (exists s3, s2 = 10 :: s3 /\ nl = Some true) \/ (nl = Some false /\ (s2 = [] \/ (length l = n - 1 - length text)%nat))).
  { subst nl. destruct s2 as [|c s3]; cbn [length].
    - right. split; [reflexivity|auto].
    - change (0 <? Datatypes.S (length s3))%nat with true. cbv iota.
      assert (LD : ld (q_buf b) (q_off b + length l) = Some c).
      { rewrite BS, A1. replace (firstn (q_off b) (q_buf b) ++ (l ++ c :: s3) ++ skipn (q_size b) (q_buf b)) with
          ((firstn (q_off b) (q_buf b) ++ l) ++ c :: s3 ++ skipn (q_size b) (q_buf b)) by lapp. apply ld_app_at. rewrite app_length. lia. }
      rewrite LD. destruct (Z.eqb_spec c 10) as [->|N]; [left; eauto|]. right. split; [reflexivity|].
      destruct A5 as [A5|[A5|(x & A5)]]; [auto|discriminate|congruence]. }
  clearbody nl. destruct NL as [(s3 & -> & ->)|(-> & NL)].
  - cbn [length] in BL. rewrite st_stored; [|rewrite app_length; lia|rewrite app_length; lia].
    eexists. split; [reflexivity|]. split; [unfold br_ok; cbn; repeat split; auto; lia|]. split; [reflexivity|].
    exists l, []. split; [auto|]. split; [auto|]. left. cbn [l_status l_size l_ub l_br q_err].
    split; [auto|]. split; [auto|]. split.
    { unfold pending. cbn [q_w]. replace (0 + length l + 1)%nat with (length l + 1)%nat by lia. rewrite ADV by (rewrite A1, app_length; cbn; lia).
      rewrite A1. replace (l ++ 10 :: s3) with ((l ++ [10]) ++ s3) by lapp. rewrite skipn_exact by (rewrite app_length; cbn; lia). lapp. }
    split; [rewrite app_length; lia|]. split; [rewrite app_length; lia|]. auto.
  - destruct (Nat.eqb_spec (n - 1 - length text - length l) 0) as [K|K].
    + rewrite st_stored; [|rewrite app_length; lia|rewrite app_length; lia].
      eexists. split; [reflexivity|].
      assert (LL : (0 < length l)%nat) by lia.
      split; [unfold br_ok; cbn; repeat split; auto; lia|]. split; [reflexivity|].
      exists l, []. split; [auto|]. split; [auto|]. right. left. cbn [l_status l_size l_ub l_br q_err plus].
      split; [auto|]. split; [auto|]. split.
      { unfold pending. cbn [q_w]. rewrite ADV by (rewrite A1, app_length; lia). rewrite A1, skipn_exact by auto. lapp. }
      split; [rewrite app_length; lia|]. split; [rewrite app_length; lia|]. auto.
    + destruct NL as [->|NL]; [|lia]. cbn [length] in *. rewrite Nat.eqb_refl. cbv zeta.
      rewrite Nat.add_0_r in BL. rewrite app_nil_r in A1.
      set (b1 := Br (q_buf b) (q_size b) (q_size b) (q_err b) (q_w b)).
      assert (B1 : buffered b1 = []) by (unfold buffered, b1; cbn; rewrite Nat.sub_diag; reflexivity).
      assert (OK1 : br_ok inv b1).
      { unfold br_ok, b1; cbn. split; [lia|]. split; [auto|]. split; [auto|]. split; [|auto].
        destruct (Nat.eq_dec (q_size b) 0) as [Q|Q]; [|left; lia]. destruct O5 as (_ & _ & _ & P & _); [rewrite A1; apply length_zero_iff_nil; lia|]. lia. }
      assert (PB : pending rem b = l ++ rem (q_w b)) by (unfold pending; rewrite A1; reflexivity).
      assert (L1 : (length (text ++ l) + 1 < n)%nat) by (rewrite app_length; lia).
      (* the final outcome once the error flag is set *)
      assert (FIN : forall b2 lost, br_ok inv b2 -> q_err b2 = true -> buffered b2 = [] -> length (q_buf b2) = length (q_buf b) ->
        rem (q_w b) = rem (q_w b2) ++ lost -> (lossy = false -> lost = []) ->
        (smooth_sock o inv rem -> (q_err b = true -> pending rem b = []) -> rem (q_w b) = []) ->
        exists r, (if q_err b2 then
          if (length text + (0 + length l) =? 0)%nat then Some (LRes ERROR_PSOCK_READ_GENERAL n ((text ++ l) ++ skipn (length (text ++ l)) ub) b2)
          else do ub2 <- st ((text ++ l) ++ skipn (length (text ++ l)) ub) (length text + length l) 0; Some (LRes STATUS_SUCCESS (length text + (0 + length l) + 1) ub2 b2)
          else do avail2 <- sub (q_size b2) (q_off b2);
            line_loop fuel o n b2 (q_off b2) avail2 ((text ++ l) ++ skipn (length (text ++ l)) ub) (length text + length l) (n - 1 - length text - length l) (length text + (0 + length l))) = Some r /\
          line_post o inv rem lossy n ub text b r).
      { intros b2 lost Q1 Q2 Q3 Q4 Q5 Q6 Q7. rewrite Q2.
        assert (PP : pending rem b = l ++ pending rem b2 ++ lost) by (unfold pending at 2; rewrite PB, Q3, Q5; reflexivity).
        assert (SM : smooth_sock o inv rem -> (q_err b = true -> pending rem b = []) -> pending rem b2 = []).
        { intros M1 M2. specialize (Q7 M1 M2). rewrite Q5 in Q7. apply app_eq_nil in Q7. unfold pending. rewrite Q3. cbn. tauto. }
        destruct (Nat.eqb_spec (length text + (0 + length l)) 0) as [Z0|Z0].
        - assert (text = []) by (apply length_zero_iff_nil; lia). assert (El : l = []) by (apply length_zero_iff_nil; lia). subst text. rewrite El in PP, L1 |- *.
          eexists. split; [reflexivity|]. split; [auto|]. split; [auto|]. exists [], lost. split; [auto|]. split; [auto|].
          right. right. cbn [l_status l_size l_ub l_br]. split; [auto|]. split; [auto|]. split; [exact PP|]. split; [exact L1|]. split; [exact SM|]. right. split; [auto|]. split; [auto|]. split; [auto|]. split; [auto|]. congruence.
        - rewrite st_stored; [|rewrite app_length; lia|rewrite app_length; lia].
          eexists. split; [reflexivity|]. split; [auto|]. split; [auto|]. exists l, lost. split; [auto|]. split; [auto|].
          right. right. cbn [l_status l_size l_ub l_br]. repeat (split; [auto|]). left. split; [auto|].
          split; [intros Z1; apply Z0; rewrite <- (app_length text l) at 1; rewrite Z1; reflexivity|]. split; [rewrite app_length; lia|auto]. }
      change (q_err b1) with (q_err b). destruct (q_err b) eqn:EB; cbn [negb].
      * apply (FIN b1 []); auto; [rewrite app_nil_r; auto|].
        intros _ K2. specialize (K2 eq_refl). rewrite PB in K2. apply app_eq_nil in K2. tauto.
      * destruct (fill_spec S o inv rem lossy b1 HS OK1) as (e & b2 & C1 & C2 & C3 & C4 & C5 & C6 & C7). rewrite C1.
        destruct C7 as [(-> & d & D1 & D2 & D3)|(N & D1 & D2 & (lost & D3 & D4) & D5 & D6)].
        -- change (negb (ok STATUS_SUCCESS)) with false. cbv iota. rewrite C2. cbn [q_err b1]. cbv iota.
           rewrite sub_some by lia. rewrite B1 in D2. cbn [app] in D2.
           destruct (IH b2 (text ++ l) HS) as (r & R1 & R2 & R2' & l' & lost & R3 & R4 & R5); auto.
           { right. change (q_buf b1) with (q_buf b) in C5. split; [lia|]. split; [auto|]. split; [lia|]. split; [auto|]. rewrite D2. auto. }
           { rewrite D2. destruct d as [|d0 d]; [congruence|]. rewrite app_length. rewrite A1 in F. destruct l; cbn [length] in *; lia. }
           rewrite !app_length in R1. replace (n - 1 - length text - length l)%nat with (n - 1 - (length text + length l))%nat by lia.
           cbn [plus]. rewrite app_length. exists r. split; [exact R1|].
           assert (PE : pending rem b = l ++ pending rem b2) by (unfold pending at 2; rewrite PB, D2; change (q_w b1) with (q_w b) in D3; rewrite D3; reflexivity).
           split; [auto|]. split; [change (q_buf b1) with (q_buf b) in C5; congruence|]. exists (l ++ l'), lost. split; [rewrite in_app_iff; tauto|]. split; [auto|].
           rewrite PE, !app_assoc in *. rewrite C2 in R5. cbn [q_err b1] in R5. rewrite EB in *.
           destruct R5 as [(G1 & G2 & G3 & G4)|[(G1 & G2 & G3 & G4)|(G1 & G2 & G3 & G4 & G5 & G6)]].
           ++ left. split; [auto|]. split; [auto|]. split; [rewrite G3; lapp|]. auto.
           ++ right. left. split; [auto|]. split; [auto|]. split; [rewrite G3; lapp|]. auto.
           ++ right. right. split; [auto|]. split; [auto|]. split; [rewrite G3; lapp|]. split; [auto|]. split.
              { intros M1 M2. apply G5; auto. discriminate. }
              destruct G6 as [G6|(_ & _ & _ & _ & G6)]; [auto|congruence].
        -- rewrite (proj2 (ok_false e) N). cbn [negb].
           apply (FIN (Br (q_buf b2) (q_size b2) (q_off b2) true (q_w b2)) lost); cbn [q_w q_err q_buf]; auto.
           ++ unfold br_ok; cbn. rewrite C3. repeat split; auto; lia.
           ++ change (buffered b2 = []). congruence.
Qed.

Lemma read_line_spec : forall S (o : sock_ops S) inv rem lossy b ub n, stream_sock o inv rem lossy -> br_ok inv b ->
  (n <= length ub)%nat -> exists r, read_line o b ub n = Some r /\
  ((n <= 1)%nat /\ r = LRes ERROR_PSOCK_BR_READ_LINE_BUFFER_SIZE_TOO_SMALL n ub b \/
   (1 < n)%nat /\ line_post o inv rem lossy n ub [] b r).
Proof.
  intros S o inv rem lossy b ub n HS HB U. unfold read_line. destruct (Nat.leb_spec n 1) as [L|L].
  - eexists. split; [reflexivity|]. auto.
  - pose proof HB as (O1 & O2 & O3 & O4 & O5). rewrite sub_some by lia.
    destruct (line_loop_spec S o inv rem lossy n ub (Datatypes.S n) b [] HS (or_introl HB) U) as (r & R1 & R2); [cbn; lia|cbn; destruct (buffered b); lia|].
    cbn [length app skipn] in R1. rewrite Nat.sub_0_r in R1. exists r. auto.
Qed.

Lemma line_took : forall S (o : sock_ops S) inv rem lossy b ub n r, (1 < n)%nat ->
  line_post o inv rem lossy n ub [] b r ->
  exists seg lost, took (BLine ub n) (OLine (l_status r) (l_size r) (l_ub r)) seg /\
    pending rem b = seg ++ pending rem (l_br r) ++ lost /\ (lossy = false -> lost = []).
Proof.
  intros S o inv rem lossy b ub n r N (_ & _ & l & lost & A & B & C). cbn [app] in C.
  destruct C as [(C1 & -> & C2 & C3 & C4 & C5 & C6)|[(C1 & -> & C2 & C3 & C4 & C5 & C6)|(C1 & C2 & C3 & C4 & C5 & [(C6 & C7 & C8 & C9)|(C6 & C7 & C8 & C9 & _)])]].
  - exists (l ++ [10]), []. rewrite C1, C4, C5, C2. split; [apply took_line; auto|]. split; [lapp|auto].
  - exists l, []. rewrite C1, C4, C5, C2. split; [apply took_piece; auto; intros ->; cbn in C3; lia|]. split; [rewrite app_nil_r; auto|auto].
  - exists l, lost. rewrite C6, C8, C9. split; [apply took_last; auto|]. auto.
  - exists [], lost. rewrite C6, C8, C9. split; [apply took_none; auto|]. subst l. auto.
Qed.

Lemma br_run_spec : forall S (o : sock_ops S) inv rem lossy, stream_sock o inv rem lossy ->
  forall ops b, br_ok inv b -> Forall bop_ok ops ->
  exists outs b', br_run o b ops = Some (outs, b') /\ br_ok inv b' /\ length (q_buf b') = length (q_buf b) /\
    exists segs lost, length segs = length ops /\ length outs = length ops /\
      (forall i p q s, nth_error ops i = Some p -> nth_error outs i = Some q -> nth_error segs i = Some s -> took p q s) /\
      pending rem b = concat segs ++ pending rem b' ++ lost /\ (lossy = false -> lost = []).
Proof.
  intros S o inv rem lossy HS. induction ops as [|p ops IH]; intros b HB HO; cbn [br_run].
  - exists [], b. split; [auto|]. split; [auto|]. split; [auto|]. exists [], []. cbn. rewrite app_nil_r. repeat split; auto. destruct i; discriminate.
  - pose proof (Forall_inv HO) as P. pose proof (Forall_inv_tail HO) as HO'.
    assert (X : exists q b1 seg lost, took p q seg /\ pending rem b = seg ++ pending rem b1 ++ lost /\ (lossy = false -> lost = []) /\
       br_ok inv b1 /\ length (q_buf b1) = length (q_buf b) /\
       match p with
       | BRead n block => exists r, br_read o b n block = Some r /\ rr_sock r = b1 /\ q = ORead (rr_status r) (rr_size r) (rr_data r)
       | BLine ub n => exists r, read_line o b ub n = Some r /\ l_br r = b1 /\ q = OLine (l_status r) (l_size r) (l_ub r)
       end).
    { destruct p as [n block|ub n].
      - destruct (br_read_spec S o inv rem lossy b n block HS HB) as (r & R1 & (d & lost & P1 & P2 & P3 & P4 & P5 & P6 & P7 & P8 & _)).
        exists (ORead (rr_status r) (rr_size r) (rr_data r)), (rr_sock r), d, lost. cbn [app] in P1. rewrite P2, P1.
        split; [constructor|]. do 4 (split; [auto|]). exists r. split; [auto|]. split; [auto|]. rewrite P2, P1. reflexivity.
      - cbn in P. destruct (read_line_spec S o inv rem lossy b ub n HS HB P) as (r & R1 & [(L & ->)|(L & R2)]).
        + exists (OLine ERROR_PSOCK_BR_READ_LINE_BUFFER_SIZE_TOO_SMALL n ub), b, [], []. split; [constructor; auto|].
          rewrite app_nil_r. do 4 (split; [auto|]). eexists. split; [exact R1|]. auto.
        + destruct (line_took S o inv rem lossy b ub n r L R2) as (seg & lost & T1 & T2 & T3).
          destruct R2 as (R2 & R3 & _). exists (OLine (l_status r) (l_size r) (l_ub r)), (l_br r), seg, lost.
          do 5 (split; [auto|]). eauto. }
    destruct X as (q & b1 & seg & lost & X1 & X2 & X3 & X4 & X5 & X6).
    destruct (IH b1 X4 HO') as (outs & b' & Y1 & Y2 & Y3 & segs & lost' & Z1 & Z2 & Z3 & Z4 & Z5).
    exists (q :: outs), b'.
    split. { destruct p as [n block|ub n]; destruct X6 as (r & K1 & K2 & K3); rewrite K1, K2, Y1, K3; reflexivity. }
    split; [auto|]. split; [congruence|]. exists (seg :: segs), (lost' ++ lost). cbn [length concat].
    split; [auto|]. split; [auto|]. split.
    { intros [|i] p' q' s' A B C; cbn in A, B, C; [congruence|eauto]. }
    split; [rewrite X2, Z4; lapp|]. intros K. rewrite (X3 K), (Z5 K). reflexivity.
Qed.

(** ** The wrapped socket is never asked for zero bytes *)
Lemma fill_nonzero : forall S (o1 o2 : sock_ops S) inv rem lossy b, stream_sock o1 inv rem lossy -> br_ok inv b ->
  op_vtable o2 = op_vtable o1 -> (forall s n, (0 < n)%nat -> op_read o2 s n false = op_read o1 s n false) ->
  br_fill o2 b = br_fill o1 b.
Proof.
  intros S o1 o2 inv rem lossy b HS (O1 & O2 & O3 & O4 & O5) V R. unfold br_fill. rewrite V.
  assert (E : forall b1, (q_size b1 < length (q_buf b1))%nat ->
    (do room <- sub (length (q_buf b1)) (q_size b1);
     let r := op_read o2 (q_w b1) room false in
     do buf <- blit (q_buf b1) (q_size b1) (rr_data r);
     let b2 := Br buf (q_size b1) (q_off b1) (q_err b1) (rr_sock r) in
     if negb (ok (rr_status r)) then Some (rr_status r, b2) else
     if (rr_size r =? 0)%nat then Some (ERROR_PSOCK_READ_GENERAL, b2) else
     Some (STATUS_SUCCESS, Br buf (q_size b2 + rr_size r) (q_off b2) (q_err b2) (q_w b2))) =
    (do room <- sub (length (q_buf b1)) (q_size b1);
     let r := op_read o1 (q_w b1) room false in
     do buf <- blit (q_buf b1) (q_size b1) (rr_data r);
     let b2 := Br buf (q_size b1) (q_off b1) (q_err b1) (rr_sock r) in
     if negb (ok (rr_status r)) then Some (rr_status r, b2) else
     if (rr_size r =? 0)%nat then Some (ERROR_PSOCK_READ_GENERAL, b2) else
     Some (STATUS_SUCCESS, Br buf (q_size b2 + rr_size r) (q_off b2) (q_err b2) (q_w b2)))).
  { intros b1 L. rewrite sub_some by lia. rewrite R by lia. reflexivity. }
  destruct (Nat.ltb_spec 0 (q_off b)) as [L|L].
  - rewrite sub_some by lia. rewrite ld_range_some by lia.
    assert (LL : length (firstn (q_size b - q_off b) (skipn (q_off b) (q_buf b))) = (q_size b - q_off b)%nat) by (apply firstn_skipn_len; lia).
    rewrite blit_some by lia. rewrite E; [reflexivity|]. cbn [q_size q_buf firstn app plus]. rewrite app_length, skipn_length. lia.
  - rewrite E; [reflexivity|]. lia.
Qed.

Lemma read_loop_nonzero : forall S (o1 o2 : sock_ops S) inv rem lossy block, stream_sock o1 inv rem lossy ->
  op_vtable o2 = op_vtable o1 -> (forall s n, (0 < n)%nat -> op_read o2 s n false = op_read o1 s n false) ->
  forall fuel b n got, br_ok inv b ->
  br_read_loop fuel o2 block b (q_size b - q_off b) n got = br_read_loop fuel o1 block b (q_size b - q_off b) n got.
Proof.
  intros S o1 o2 inv rem lossy block HS V R. induction fuel as [|fuel IH]; intros b n got HB; [reflexivity|].
  cbn [br_read_loop]. rewrite (fill_nonzero S o1 o2 inv rem lossy b HS HB V R).
  destruct (Nat.ltb_spec (q_size b - q_off b) n) as [L|L].
  - destruct (fill_spec S o1 inv rem lossy b HS HB) as (e & b1 & A1 & A2 & A3 & A4 & A5 & A6 & A7). rewrite A1.
    destruct A7 as [(-> & d & D1 & D2 & D3)|(N & _)]; [|rewrite (proj2 (ok_false e) N); reflexivity].
    change (negb (ok STATUS_SUCCESS)) with false. cbv iota. rewrite sub_some by lia.
    pose proof (buffered_length S b1 ltac:(lia) A4) as BL1. rewrite A3, D2, app_length, Nat.sub_0_r in BL1.
    assert (D1' : (0 < length d)%nat) by (destruct d; [congruence|cbn; lia]).
    set (c := if (q_size b1 - q_off b1 <? n)%nat then (q_size b1 - q_off b1)%nat else n).
    assert (C : (0 < c)%nat /\ (c <= q_size b1)%nat). { subst c. rewrite A3. destruct (Nat.ltb_spec (q_size b1 - 0) n); lia. }
    clearbody c. rewrite ld_range_some by lia. destruct (block && (0 <? n - c)%nat); [|reflexivity].
    replace (q_size b1 - q_off b1 - c)%nat with (q_size b1 - (q_off b1 + c))%nat by lia.
    apply (IH (Br (q_buf b1) (q_size b1) (q_off b1 + c) (q_err b1) (q_w b1))).
    destruct HB as (_ & _ & HB3 & _). unfold br_ok; cbn. rewrite A3. repeat split; auto; lia.
  - change (negb (ok STATUS_SUCCESS)) with false. cbv iota. destruct HB as (O1 & O2 & HB). rewrite sub_some by lia.
    destruct (Nat.ltb_spec (q_size b - q_off b) n); [lia|]. rewrite ld_range_some by lia.
    rewrite Nat.sub_diag, andb_false_r. reflexivity.
Qed.

Lemma line_loop_nonzero : forall S (o1 o2 : sock_ops S) inv rem lossy n, stream_sock o1 inv rem lossy ->
  op_vtable o2 = op_vtable o1 -> (forall s n, (0 < n)%nat -> op_read o2 s n false = op_read o1 s n false) ->
  forall fuel b inp avail ub bp remain committed,
  (q_off b <= q_size b)%nat -> (q_size b <= length (q_buf b))%nat -> (0 < length (q_buf b))%nat -> inv (q_w b) ->
  (inp + avail = q_size b)%nat -> (avail = 0%nat -> (0 < q_size b)%nat \/ (q_size b < length (q_buf b))%nat) ->
  line_loop fuel o2 n b inp avail ub bp remain committed = line_loop fuel o1 n b inp avail ub bp remain committed.
Proof.
  intros S o1 o2 inv rem lossy n HS V R. induction fuel as [|fuel IH]; intros b inp avail ub bp remain committed O1 O2 O3 O5 HA HZ; [reflexivity|].
  cbn [line_loop]. destruct (remain =? 0)%nat; [reflexivity|].
  assert (CL : forall remain inp avail ub bp copied inp1 avail1 ub1 bp1 remain1 copied1, (inp + avail = q_size b)%nat ->
     copy_line remain (q_buf b) inp avail ub bp copied = Some (inp1, avail1, ub1, bp1, remain1, copied1) -> (inp1 + avail1 = q_size b)%nat).
  { clear. induction remain; intros inp avail ub bp copied inp1 avail1 ub1 bp1 remain1 copied1 H; cbn [copy_line].
    - intros E. injection E; intros; subst; auto.
    - destruct avail as [|av]; [intros E; injection E; intros; subst; auto|].
      destruct (ld (q_buf b) inp); [|discriminate]. destruct (z =? 10); [intros E; injection E; intros; subst; auto|].
      destruct (st ub bp z); [|discriminate]. apply IHremain. lia. }
  destruct (copy_line remain (q_buf b) inp avail ub bp 0) as [[[[[[inp1 avail1] ub1] bp1] remain1] copied]|] eqn:E; [|reflexivity].
  apply CL in E; auto. clear CL.
  destruct (if (0 <? avail1)%nat then _ else _) as [[|]|]; [reflexivity| |reflexivity].
  destruct (remain1 =? 0)%nat; [reflexivity|].
  destruct (Nat.eqb_spec avail1 0) as [->|NA].
  - cbv zeta. set (b1 := Br (q_buf b) (q_size b) (q_size b) (q_err b) (q_w b)).
    assert (OK : (q_err b = false -> (0 < q_size b)%nat \/ (q_size b < length (q_buf b))%nat) -> q_err b = false -> br_ok inv b1).
    { intros K1 K2. specialize (K1 K2). unfold br_ok, b1; cbn. repeat split; auto; lia. }
    change (q_err b1) with (q_err b). destruct (q_err b) eqn:EB; cbn [negb].
    + cbn [b1 q_err]. reflexivity.
    + assert (HB1 : br_ok inv b1). { apply OK; auto. intros _. lia. }
      rewrite (fill_nonzero S o1 o2 inv rem lossy b1 HS HB1 V R).
      destruct (fill_spec S o1 inv rem lossy b1 HS HB1) as (e & b2 & A1 & A2 & A3 & A4 & A5 & A6 & A7). rewrite A1.
      destruct A7 as [(-> & d & D1 & D2 & D3)|(N & _)].
      * change (negb (ok STATUS_SUCCESS)) with false. cbv iota. rewrite A2. cbn [b1 q_err]. rewrite sub_some by lia.
        change (q_buf b1) with (q_buf b) in A5. apply IH; auto; try lia.
      * rewrite (proj2 (ok_false e) N). reflexivity.
  - apply IH; auto. lia.
Qed.

Lemma br_run_nonzero : forall S (o1 o2 : sock_ops S) inv rem lossy, stream_sock o1 inv rem lossy ->
  op_vtable o2 = op_vtable o1 -> (forall s n, (0 < n)%nat -> op_read o2 s n false = op_read o1 s n false) ->
  forall ops b, br_ok inv b -> Forall bop_ok ops -> br_run o2 b ops = br_run o1 b ops.
Proof.
  intros S o1 o2 inv rem lossy HS V R. induction ops as [|p ops IH]; intros b HB HO; [reflexivity|].
  pose proof (Forall_inv HO) as P. pose proof (Forall_inv_tail HO) as HO'. cbn [br_run]. destruct p as [n block|ub n].
  - assert (E : br_read o2 b n block = br_read o1 b n block).
    { unfold br_read. pose proof HB as (O1 & _). rewrite sub_some by lia. apply (read_loop_nonzero S o1 o2 inv rem lossy block HS V R); auto. }
    rewrite E. destruct (br_read_spec S o1 inv rem lossy b n block HS HB) as (r & R1 & (d & lost & _ & _ & _ & P4 & _)).
    rewrite R1, IH; auto.
  - assert (E : read_line o2 b ub n = read_line o1 b ub n).
    { unfold read_line. destruct (n <=? 1)%nat; [reflexivity|]. pose proof HB as (O1 & O2 & O3 & O4 & O5). rewrite sub_some by lia.
      apply (line_loop_nonzero S o1 o2 inv rem lossy n HS V R); auto; lia. }
    rewrite E. cbn in P. destruct (read_line_spec S o1 inv rem lossy b ub n HS HB P) as (r & R1 & [(L & ->)|(L & (R2 & _))]); rewrite R1; cbn [l_br]; rewrite IH; auto.
Qed.

(** ** Lines of a smooth stream *)
Lemma cut_line_app : forall l r, ~ In 10 l -> cut_line (l ++ r) = (l ++ fst (cut_line r), snd (cut_line r)).
Proof.
  induction l as [|c l IH]; intros r N; cbn [app cut_line]; [destruct (cut_line r); reflexivity|].
  destruct (Z.eqb_spec c 10) as [->|M]; [exfalso; apply N; left; auto|]. rewrite IH by (intros K; apply N; right; auto). reflexivity.
Qed.

Lemma line_smooth : forall S (o : sock_ops S) inv rem b ub n, smooth_sock o inv rem -> br_ok inv b ->
  (n <= length ub)%nat -> (q_err b = true -> pending rem b = []) -> ~ exact_fit n (pending rem b) ->
  exists r, read_line o b ub n = Some r /\ br_ok inv (l_br r) /\ (q_err (l_br r) = true -> pending rem (l_br r) = []) /\
    (l_status r, l_size r, l_ub r, pending rem (l_br r)) = line_spec n ub (pending rem b).
Proof.
  intros S o inv rem b ub n SM HB U SE XF.
  destruct (read_line_spec S o inv rem false b ub n (sm_stream _ _ _ SM) HB U) as (r & R1 & [(L & ->)|(L & R2)]); rewrite R1.
  - eexists. split; [reflexivity|]. cbn [l_br l_status l_size l_ub]. split; [auto|]. split; [auto|]. unfold line_spec.
    destruct (Nat.leb_spec n 1); [reflexivity|lia].
  - exists r. split; [auto|]. destruct R2 as (R2 & _ & l & lost & N & LO & C). split; [auto|].
    rewrite (LO eq_refl) in C. cbn [app] in C. unfold exact_fit in XF. unfold line_spec. destruct (Nat.leb_spec n 1); [lia|].
    destruct C as [(C1 & _ & C2 & C3 & C4 & C5 & C6)|[(C1 & _ & C2 & C3 & C4 & C5 & C6)|(C1 & C2 & C3 & C4 & C5 & C6)]].
    + rewrite C2 in *. rewrite cut_line_app in * by auto. cbn [cut_line] in *. change (10 =? 10) with true in *. cbn [fst snd] in *. rewrite app_nil_r in *.
      split. { intros K. rewrite C6 in K. specialize (SE K). apply app_eq_nil in SE. destruct SE; discriminate. }
      destruct (Nat.ltb_spec (length l) (n - 1)) as [K|K].
      * rewrite C1, C4, C5. reflexivity.
      * exfalso. apply XF. split; [lia|]. split; [lia|discriminate].
    + rewrite C2 in *. rewrite cut_line_app in * by auto. cbn [fst snd] in *. rewrite app_length in XF.
      split. { intros K. rewrite C6 in K. specialize (SE K). apply app_eq_nil in SE. destruct SE as (-> & _). cbn in C3. lia. }
      destruct (Nat.ltb_spec (length (l ++ fst (cut_line (pending rem (l_br r))))) (n - 1)) as [K|K]; [rewrite app_length in K; lia|].
      rewrite C1, C4, C5. rewrite firstn_exact by lia. rewrite skipn_exact by lia. repeat f_equal. lia.
    + rewrite app_nil_r in C3. specialize (C5 SM SE). rewrite C5, app_nil_r in C3. rewrite C3, C5.
      rewrite <- (app_nil_r l) at 1. rewrite cut_line_app by auto. cbn [cut_line fst snd]. rewrite app_nil_r.
      split; [auto|]. destruct (Nat.ltb_spec (length l) (n - 1)) as [K|K]; [|lia].
      destruct C6 as [(C6 & C7 & C8 & C9)|(C6 & C7 & C8 & C9 & _)]; rewrite C6, C8, C9; destruct l; congruence || reflexivity.
Qed.

Lemma lines_smooth : forall S (o : sock_ops S) inv rem, smooth_sock o inv rem -> forall cs b, br_ok inv b ->
  (q_err b = true -> pending rem b = []) -> Forall (fun c => (snd c <= length (fst c))%nat) cs -> no_exact_fit cs (pending rem b) ->
  exists b', br_run o b (map (fun c => BLine (fst c) (snd c)) cs) = Some (fst (lines_spec cs (pending rem b)), b') /\
    pending rem b' = snd (lines_spec cs (pending rem b)).
Proof.
  intros S o inv rem SM. induction cs as [|[ub n] cs IH]; intros b HB SE HC XF; cbn [map br_run lines_spec].
  - exists b. auto.
  - cbn [fst snd]. cbn in XF. destruct XF as (XF1 & XF2). pose proof (Forall_inv HC) as U. cbn in U.
    destruct (line_smooth S o inv rem b ub n SM HB U SE XF1) as (r & R1 & R2 & R3 & R4). rewrite R1.
    destruct (line_spec n ub (pending rem b)) as [[[e z] ub'] p']. injection R4; intros K1 K2 K3 K4. cbn [snd] in XF2. rewrite <- K1 in *.
    destruct (IH (l_br r) R2 R3 (Forall_inv_tail HC) XF2) as (b' & Y1 & Y2).
    rewrite Y1. destruct (lines_spec cs (pending rem (l_br r))) as [l p'']. cbn [fst snd] in *.
    exists b'. rewrite K2, K3, K4. auto.
Qed.
