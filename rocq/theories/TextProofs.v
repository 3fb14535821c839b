(** Proofs about commands sent as lines of text. *)
From Verif Require Import Base Status StringModel StringSpec StringProofs PropStrings CodecModel CodecSpec MemModel AsyncModel AsyncSpec BrModel BrSpec BrProofs BrInst EndSpec EndProofs TextSpec.

Lemma write_complete : forall S (o : sock_ops S) W s l d, complete_writer o W -> W s l ->
  exists s', write_raw_data o d s = Some (STATUS_SUCCESS, s') /\ W s' (l ++ d).
Proof.
  intros S o W s l d (V & C) H. unfold write_raw_data. rewrite V, Z.eqb_refl. cbn [negb].
  destruct d as [|x d].
  - cbn. exists s. rewrite app_nil_r. auto.
  - destruct (C s l (x :: d) H) as (s' & E & H'). remember (length (x :: d)) as n. cbn [write_loop]. rewrite E. cbn [wr_status wr_size wr_sock].
    rewrite Z.eqb_refl. cbn [negb]. destruct (Nat.eqb_spec n 0) as [Z0|_]; [subst n; discriminate|].
    rewrite skipn_all2 by lia. destruct n; [discriminate|]. cbn. eauto.
Qed.
Lemma send_complete : forall S (o : sock_ops S) W cs s l, complete_writer o W -> W s l ->
  exists s', send o cs s = Some (STATUS_SUCCESS, s') /\ W s' (l ++ lines cs).
Proof.
  intros S o W. induction cs as [|c cs IH]; intros s l C H; cbn [send].
  - exists s. unfold lines. cbn. rewrite app_nil_r. auto.
  - destruct (write_complete _ _ _ _ _ (text c ++ [10]) C H) as (s1 & E & H1). rewrite E. cbn.
    destruct (IH _ _ C H1) as (s' & E' & H'). exists s'. split; auto. unfold lines in *. cbn. rewrite app_assoc. auto.
Qed.

Lemma blank_char : forall x, blank x -> is_char x.
Proof. unfold blank, ws, is_char. intros. lia. Qed.
Lemma text_char : forall c, proper c -> Forall is_char (text c) /\ ~ In 10 (text c).
Proof.
  intros [l t] [S B]. unfold text. cbn [c_words c_tail] in *.
  assert (Bt : forall g, Forall blank g -> Forall is_char g /\ ~ In 10 g).
  { intros g G. split; [eapply Forall_impl; [|exact G]; apply blank_char|]. intros I. rewrite Forall_forall in G. destruct (G _ I) as [_ N]. auto. }
  assert (L : forall b, spaced b l -> Forall is_char (concat (map (fun gw => fst gw ++ snd gw) l)) /\ ~ In 10 (concat (map (fun gw => fst gw ++ snd gw) l))).
  { clear S B t. induction l as [|[g w] l IH]; intros b S; cbn; [split; auto|]. destruct S as (G & _ & _ & Wd & S). destruct (IH _ S) as [I1 I2].
    destruct (Bt _ G) as [G1 G2]. split.
    - apply Forall_app. split; auto. apply Forall_app. split; auto. eapply Forall_impl; [|exact Wd]. cbn. tauto.
    - rewrite !in_app_iff. intros [[I|I]|I]; auto. rewrite Forall_forall in Wd. destruct (Wd _ I) as [_ N]. apply N. unfold ws. lia. }
  destruct (L _ S) as [L1 L2]. destruct (Bt _ B) as [B1 B2]. split; [apply Forall_app; auto|]. rewrite in_app_iff. tauto.
Qed.
Lemma text_runs : forall l t b p, spaced b l -> Forall blank t ->
  exists r, Runs ws p (concat (map (fun gw => fst gw ++ snd gw) l) ++ t) r /\ map snd r = map snd l.
Proof.
  assert (BW : forall g, Forall blank g -> Forall ws g) by (intros g G; eapply Forall_impl; [|exact G]; unfold blank; tauto).
  induction l as [|[g w] l IH]; intros t b p S B; cbn.
  - exists []. split; auto. constructor. auto.
  - destruct S as (G & _ & Nw & Wd & S). destruct (IH t false (p + length g + length w)%nat S B) as (r & R & M).
    exists ((p + length g, w)%nat :: r). split; [|cbn; congruence]. rewrite <- !app_assoc. apply runs_cons; auto.
    + eapply Forall_impl; [|exact Wd]. cbn. tauto.
    + intros c s E. destruct l as [|[g' w'] l]; cbn in E.
      * subst t. inversion B; subst. unfold blank in *. tauto.
      * destruct S as (G' & N' & _). destruct g' as [|x g']; [exfalso; apply N'; auto|]. cbn in E. inversion E; subst. inversion G'; subst. unfold blank in *. tauto.
Qed.
Lemma line_understood : forall c ub, proper c -> (length (text c) + 1 <= length ub)%nat ->
  understood c ub (OLine STATUS_SUCCESS (length (text c) + 1) (stored (text c) ub)).
Proof.
  intros c ub P L. destruct (text_char c P) as [Ch _].
  assert (C : cstring_at (stored (text c) ub) 0 (text c)) by (exists [], (skipn (S (length (text c))) ub); auto).
  exists (stored (text c) ub). split; auto. split; auto. split.
  - unfold unchanged_outside, stored. split.
    + rewrite app_length. cbn [length]. rewrite skipn_length. lia.
    + intros i [I|I]; [lia|]. rewrite nth_error_app2 by lia.
      replace (i - length (text c))%nat with (S (i - S (length (text c)))) by lia. cbn [nth_error].
      rewrite <- (firstn_skipn (S (length (text c))) ub) at 2. rewrite nth_error_app2; rewrite firstn_length; [f_equal|]; lia.
  - intros it. destruct P as [S B]. destruct (text_runs _ _ _ 0%nat S B) as (r & R & M).
    destruct (C04_words _ _ _ _ it C R) as (m' & Se & F & U). exists (map fst r), m'. split; auto. split; auto.
    unfold words_of. rewrite <- M. clear - F. induction F as [|[q w] r H F IH]; cbn; constructor; auto.
Qed.
Lemma cut_text : forall l r, ~ In 10 l -> cut_line (l ++ 10 :: r) = (l, Some r).
Proof.
  induction l as [|x l IH]; intros r N; cbn; auto. destruct (Z.eqb_spec x 10); [subst; exfalso; apply N; left; auto|].
  rewrite IH; auto. intros I. apply N. right. auto.
Qed.
Lemma lines_read : forall cs us l, Forall proper cs -> Forall2 roomy cs us ->
  no_exact_fit us (lines cs ++ l) /\ snd (lines_spec us (lines cs ++ l)) = l /\
  exists outs, fst (lines_spec us (lines cs ++ l)) = outs /\ Forall2 (fun cu o => understood (fst cu) (fst (snd cu)) o) (combine cs us) outs.
Proof.
  intros cs us l P R. revert l. induction R as [|c [ub n] cs us [R1 R2] R IH]; intros l; cbn [fst snd] in *.
  - unfold lines. cbn. split; auto. split; auto. exists []. auto.
  - inversion P as [|? ? Pc P']; subst. destruct (text_char c Pc) as [Ch N].
    unfold lines. cbn [map concat]. fold (lines cs). rewrite <- !app_assoc. cbn [app].
    assert (LS : line_spec n ub (text c ++ 10 :: lines cs ++ l) = (STATUS_SUCCESS, (length (text c) + 1)%nat, stored (text c) ub, lines cs ++ l)).
    { unfold line_spec. destruct (Nat.leb_spec n 1); [lia|]. rewrite cut_text by auto. destruct (Nat.ltb_spec (length (text c)) (n - 1)); [auto|lia]. }
    destruct (IH P' l) as (I1 & I2 & outs & I3 & I4). cbn [no_exact_fit lines_spec]. rewrite LS. cbn [snd].
    split; [split; [|exact I1]|].
    { unfold exact_fit. rewrite cut_text by auto. cbn [fst]. lia. }
    destruct (lines_spec us (lines cs ++ l)) as [os p]. cbn [fst snd] in *. split; auto.
    eexists. split; [reflexivity|]. cbn [combine]. constructor; [|subst; auto]. cbn [fst snd]. apply line_understood; auto. lia.
Qed.

(** A plain descriptor, in whatever pieces the kernel takes the bytes. *)
Lemma fd_loop : forall n d k, (length d <= n)%nat -> takes k ->
  exists k', write_loop (S n) fd_ops k d = Some (STATUS_SUCCESS, [], k') /\ takes k' /\ k_out k' = k_out k ++ d /\ k_in k' = k_in k /\ k_rs k' = k_rs k.
Proof.
  induction n as [|n IH]; intros d k L T.
  - destruct d; [|cbn in L; lia]. exists k. cbn. rewrite app_nil_r. auto.
  - destruct d as [|x d]; [exists k; cbn; rewrite app_nil_r; auto|].
    remember (S n) as m. cbn [write_loop]. set (y := x :: d) in *.
    assert (W : exists c k', fd_write k y = WRes STATUS_SUCCESS c k' /\ (0 < c <= length y)%nat /\ takes k' /\ k_out k' = k_out k ++ firstn c y /\ k_in k' = k_in k /\ k_rs k' = k_rs k).
    { unfold fd_write, kwrite. unfold takes in *. destruct (k_ws k) as [|e t] eqn:Ek.
      - exists (length y). destruct (Z.ltb_spec (Z.of_nat (length y)) 0); [lia|]. rewrite Nat2Z.id. eexists. split; [reflexivity|].
        cbn [k_ws k_out k_in k_rs]. rewrite firstn_all. split; [subst y; cbn; lia|]. split; [constructor|]. auto.
      - inversion T as [|? ? (j & ->) T']; subst. set (c := Nat.min (S j) (length y)).
        destruct (Z.ltb_spec (Z.of_nat c) 0); [lia|]. rewrite Nat2Z.id. exists c. eexists. split; [reflexivity|].
        cbn [k_ws k_out k_in k_rs]. split; [subst c y; cbn; lia|]. auto. }
    destruct W as (c & k' & E & C & T' & O & I & R). cbn [fd_ops op_write]. rewrite E. cbn [wr_status wr_size wr_sock].
    rewrite Z.eqb_refl. cbn [negb]. destruct (Nat.eqb_spec c 0); [lia|]. subst m.
    destruct (IH (skipn c y) k') as (k2 & E2 & T2 & O2 & I2 & R2); auto. { rewrite skipn_length. lia. }
    exists k2. rewrite E2. split; auto. split; auto. rewrite O2, O, <- app_assoc, firstn_skipn. split; auto. split; congruence.
Qed.
Lemma send_fd : forall cs k, takes k ->
  exists k', send fd_ops cs k = Some (STATUS_SUCCESS, k') /\ takes k' /\ k_out k' = k_out k ++ lines cs /\ k_in k' = k_in k /\ k_rs k' = k_rs k.
Proof.
  induction cs as [|c cs IH]; intros k T; cbn [send].
  - exists k. unfold lines. cbn. rewrite app_nil_r. auto.
  - destruct (fd_loop _ (text c ++ [10]) k (le_n _) T) as (k1 & E & T1 & O1 & I1 & R1).
    unfold write_raw_data. cbn [fd_ops op_vtable]. rewrite Z.eqb_refl. cbn [negb]. rewrite E. cbn.
    destruct (IH k1 T1) as (k2 & E2 & T2 & O2 & I2 & R2). exists k2. split; auto. split; auto. rewrite O2, O1. unfold lines. cbn. rewrite !app_assoc.
    split; auto. split; congruence.
Qed.
