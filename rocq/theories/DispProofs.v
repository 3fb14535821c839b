(** Proofs about the descriptors of the echo server. *)
From Verif Require Import Base Status MemModel MemProofs Heap FdModel SockModel SockSpec SockProofs EchoModel DispModel DispSpec.
From Coq Require Import Permutation.

Lemma nothing_fair : forall a w, opens_nothing a -> fair a w.
Proof. intros a w (G & F & C). split; [auto|]. split; [left; auto|left; auto]. Qed.

Definition wrapped (x : held) : Prop := exists p c d, x = Held [p; c] [d].
Definition handle (x : held) : Z := match structs x with p :: _ => p | [] => 0 end.
Definition ginv (own : list (Z * Z)) (w : world) (conns : list Z) : Prop :=
  exists ss, inv w (View own ss) /\ Forall wrapped ss /\ map handle ss = conns.

Lemma ginv_served : forall own w conns, ginv own w conns -> served own w conns.
Proof.
  intros own w conns (ss & (WF & (N1 & E1 & N2 & E2) & EN) & WR & <-). cbn [mine socks] in *. split.
  - clear -N2 WR. induction WR as [|x l (p & c & d & ->) WR IH]; [constructor|]. cbn [flat_map structs app map handle] in *.
    inversion N2 as [|? ? A B]; subst. inversion B as [|? ? C D]; subst. constructor; [|auto]. intros K. apply A. right.
    apply in_map_iff in K. destruct K as (y & K1 & K2). apply in_flat_map. exists y. split; [auto|]. rewrite Forall_forall in WR. destruct (WR y K2) as (p' & c' & d' & ->). cbn in K1. left. auto.
  - exists (flat_map fds ss). split; [|split; [auto|split; [auto|]]].
    + clear -WR. induction WR as [|x l (p & c & d & ->) WR IH]; [reflexivity|]. cbn. rewrite IH. reflexivity.
    + clear -WR EN. induction WR as [|x l (p & c & d & ->) WR IH]; [constructor|]. inversion EN as [|? ? H HS]; subst. cbn. constructor; [|auto].
      destruct H as [(q & fd & obj & ty & K & _)|[(q & s & K & _)|(q & c' & fd & obj & ty & K & G1 & G2)]]; try discriminate K. inversion K; subst. cbn. eauto.
Qed.

Lemma closes_app : forall l1 l2, closes (l1 ++ l2) = (closes l1 + closes l2)%nat.
Proof. intros. unfold closes. rewrite filter_app, app_length. reflexivity. Qed.

Lemma ginv_conn : forall own w conns q, ginv own w conns -> In q conns -> exists c fd ty, hget (w_h w) q = Some (SWrap c ty) /\ hget (w_h w) c = Some (SDesc fd ty).
Proof.
  intros own w conns q G I. apply ginv_served in G. destruct G as (_ & ds & _ & _ & _ & F). clear -I F.
  induction F as [|x d l1 l2 (c & ty & A & B) F IH]; [destruct I|]. destruct I as [->|I]; [eauto|auto].
Qed.
Lemma ginv_depth : forall own w conns q, ginv own w conns -> In q conns -> exists n, length (w_h w) = S n.
Proof. intros own w conns q G I. destruct (ginv_conn _ _ _ _ G I) as (c & fd & ty & A & _). eapply hget_len; eauto. Qed.

(** A connection ends. *)
Lemma finish_ok : forall own w conns q rel crc, ginv own w conns -> In q conns ->
  exists r w', release_context rel crc (Some q) w = Some (r, w') /\ ginv own w' (filter (fun x => negb (x =? q)) conns) /\
    (exists fd, w_log w' = CClose fd :: w_log w).
Proof.
  intros own w conns q rel crc G I. pose proof G as (ss & IV & WR & M).
  assert (HO : holding q (View own ss) <> None).
  { unfold holding. cbn [socks]. rewrite <- M in I. clear -I WR. intros K. apply in_map_iff in I. destruct I as (x & X1 & X2).
    pose proof (find_none _ _ K _ X2) as X3. rewrite Forall_forall in WR. destruct (WR x X2) as (p & c & d & ->). cbn in X1, X3. subst q.
    rewrite Z.eqb_refl in X3. discriminate. }
  destruct (step_release q rel w _ IV HO) as (e & x & w' & EX & IV'). cbn [exec after] in EX, IV'.
  unfold release_context. fold (depth w). destruct (release (depth w) rel 0 q w) as [[r w1]|] eqn:R; [|discriminate]. injection EX as <- <- <-.
  do 2 eexists. split; [reflexivity|]. split.
  - cbn [mine socks] in IV'. exists (drop q ss). split; [exact IV'|]. split.
    + unfold drop. apply Forall_forall. intros y Y. apply filter_In in Y. rewrite Forall_forall in WR. apply WR, Y.
    + rewrite <- M. clear -WR. induction WR as [|y l (p & c & d & ->) WR IH]; [reflexivity|]. cbn [drop filter map handle structs is]. rewrite (Z.eqb_sym q p).
      destruct (p =? q); cbn [negb]; [exact IH|]. cbn [map handle structs]. f_equal. exact IH.
  - destruct (ginv_conn _ _ _ _ G I) as (c & fd & ty & A & B). exists fd. unfold depth in R. cbn [release] in R. rewrite A in R.
    destruct (hget_len _ _ _ A) as (n & L). rewrite L in R. cbn [release] in R. rewrite B in R.
    destruct (hget (w_h (reclaimed rel 1 c (closed fd w))) q); [|discriminate]. injection R as <- <-. reflexivity.
Qed.

(** The steps of dispatch when nothing fails. *)
Lemma accept_ok : forall own w conns acc d, ginv own w conns -> 0 <= a_fd acc -> w_t w (a_fd acc) = None ->
  opens_nothing (d_sock d) -> opens_nothing (d_wrap d) -> a_al (d_sock d) = STATUS_SUCCESS ->
  d_ctx d = STATUS_SUCCESS -> d_fiber d = STATUS_SUCCESS -> d_add d = STATUS_SUCCESS ->
  a_disc (d_wrap d) = STATUS_SUCCESS -> a_al (d_wrap d) = STATUS_SUCCESS -> a_nb (d_wrap d) = STATUS_SUCCESS ->
  exists q w', dispatch d (a_fd acc) (opened acc w) = Some (Disp STATUS_SUCCESS w' (Some q) true true) /\ ginv own w' (q :: conns) /\
    w_log w' = CNonblock (a_fd acc) :: w_log w.
Proof.
  intros own w conns acc d (ss & IV & WR & M) FD TF FS FW A1 D1 D2 D3 W1 W2 W3.
  set (fd := a_fd acc) in *.
  assert (IV1 : inv (opened acc w) (View ((fd, a_obj acc) :: own) ss)).
  { destruct IV as (WF & MA & E). destruct w as [t h l]. split; [exact WF|]. split; [|exact E]. apply matches_fits. apply fits_open; auto. }
  destruct (step_from fd (d_sock d) _ _ IV1 (nothing_fair _ _ FS)) as (e & p & w2 & EX & IV2).
  { unfold object. cbn [mine find fst]. rewrite Z.eqb_refl. discriminate. }
  unfold exec in EX. unfold dispatch. destruct (from_descriptor (d_sock d) fd (opened acc w)) as [[e' p'] w'] eqn:FE. injection EX as -> -> ->.
  assert (e = STATUS_SUCCESS /\ w_log w2 = w_log w /\ exists ty, hget (w_h w2) p = Some (SDesc fd ty)) as (-> & L2 & ty & GP).
  { unfold from_descriptor, made in FE. rewrite A1 in FE. change (negb (ok STATUS_SUCCESS)) with false in FE. cbv iota in FE. injection FE as <- <- <-. split; [auto|]. split; [reflexivity|]. eexists. apply hget_hadd_same. }
  cbn [after] in IV2. change (negb (ok STATUS_SUCCESS)) with false in *. cbv iota in *.
  unfold object in IV2. cbn [mine find fst socks] in IV2. rewrite Z.eqb_refl in IV2. 
  rewrite D1, D2, D3. change (negb (ok STATUS_SUCCESS)) with false. cbv iota.
  destruct (step_wrap p (d_wrap d) _ _ IV2 (nothing_fair _ _ FW)) as (e & q & w3 & EX3 & IV3).
  { unfold holding. cbn [socks find is structs]. rewrite Z.eqb_refl. discriminate. }
  cbn [exec] in EX3. rewrite EX3. cbn beta iota.
  assert (e = STATUS_SUCCESS /\ w_log w3 = CNonblock fd :: w_log w2) as (-> & L3).
  { unfold wrap_async in EX3. rewrite GP, W1 in EX3. change (negb (ok STATUS_SUCCESS)) with false in EX3. cbv iota in EX3. unfold made in EX3. rewrite W2, W3 in EX3.
    change (negb (ok STATUS_SUCCESS)) with false in EX3. cbv iota beta zeta in EX3. change (negb (ok STATUS_SUCCESS)) with false in EX3. cbv iota in EX3. injection EX3 as <- <- <-. split; reflexivity. }
  change (negb (ok STATUS_SUCCESS)) with false. cbv iota. exists q, w3. split; [reflexivity|]. split; [|rewrite L3, L2; reflexivity].
  cbn [after] in IV3. change (negb (ok STATUS_SUCCESS)) with false in IV3. cbv iota in IV3.
  unfold holding in IV3. cbn [socks find is structs mine fds] in IV3. rewrite Z.eqb_refl in IV3. cbn [structs fds] in IV3.
  assert (DF : dropfd fd ((fd, a_obj acc) :: own) = own).
  { unfold dropfd. cbn [filter fst]. rewrite Z.eqb_refl. cbn [negb]. destruct IV as (_ & (N1 & E1 & _) & _). cbn [mine socks] in *.
    clear -E1 TF. assert (H : forall x, In x own -> fst x <> fd).
    { intros [f o] I K. cbn in K. subst f. assert (In (fd, o) (own ++ flat_map fds ss)) by (apply in_or_app; auto). apply E1 in H. unfold fd in *. congruence. }
    clear -H. induction own as [|x own IH]; [reflexivity|]. cbn [filter]. destruct (Z.eqb_spec (fst x) fd) as [K|K]; [destruct (H x (or_introl eq_refl) K)|]. cbn [negb]. f_equal. apply IH. intros y Y. apply H. right. auto. }
  rewrite DF in IV3.
  assert (DP : drop p (Held [p] [(fd, a_obj acc)] :: ss) = ss).
  { unfold drop. cbn [filter is structs]. rewrite Z.eqb_refl. cbn [negb]. destruct IV2 as (_ & (_ & _ & N2 & _) & _). cbn [socks flat_map structs app] in N2. inversion N2 as [|? ? NI _]; subst.
    clear -NI WR. induction WR as [|x l (p' & c & d & ->) WR IH]; [reflexivity|]. cbn [filter is structs]. destruct (Z.eqb_spec p p') as [K|K].
    - exfalso. apply NI. left. auto.
    - cbn [negb]. f_equal. apply IH. intros I. apply NI. right. right. exact I. }
  rewrite DP in IV3. exists (Held [q; p] [(fd, a_obj acc)] :: ss). split; [exact IV3|]. split; [constructor; [unfold wrapped; eauto|auto]|]. cbn [map handle structs]. f_equal. exact M.
Qed.

(** Opened and closed again *)
Lemma ginv_bounce : forall own w conns acc, ginv own w conns -> 0 <= a_fd acc -> w_t w (a_fd acc) = None ->
  ginv own (closed (a_fd acc) (opened acc w)) conns.
Proof.
  intros own w conns acc (ss & (WF & MA & E) & WR & M) FD TF. exists ss. split; [|auto]. destruct w as [t h l]. split; [exact WF|]. split; [|exact E].
  apply matches_fits. unfold closed, opened. cbn [w_t w_h w_log]. eapply fits_close. eapply fits_open; [|exact TF]. eapply fits_log. apply matches_fits. exact MA.
Qed.

Lemma step_all : forall own ev w conns, ginv own w conns -> benign ev w conns ->
  exists w' conns', happens ev w conns = Some (w', conns') /\ ginv own w' conns' /\
    (closes (w_log w') + length conns' = closes (w_log w) + length conns + accepted [ev])%nat.
Proof.
  intros own [acc quiesce d|q rel crc] w conns G B; cbn [happens benign] in *.
  - destruct B as (FD & TF & GP & CM & FS & FW & B). unfold serve. destruct quiesce.
    { do 2 eexists. split; [reflexivity|]. cbn [s_world s_conn]. split; [apply ginv_bounce; auto|]. unfold closes. cbn. lia. }
    destruct B as [B|B]; [discriminate|]. destruct (Z.eq_dec (a_al (d_sock d)) STATUS_SUCCESS) as [A|A].
    + destruct B as [B|(D1 & D2 & D3 & W1 & W2 & W3)]; [congruence|].
      destruct (accept_ok own w conns acc d G FD TF FS FW A D1 D2 D3 W1 W2 W3) as (q & w' & E & G' & L). rewrite E. cbn beta iota.
      cbn [s_status]. change (negb (ok STATUS_SUCCESS)) with false. cbv iota. do 2 eexists. split; [reflexivity|]. cbn [s_world s_conn]. split; [auto|]. rewrite L. unfold closes. cbn. lia.
    + assert (dispatch d (a_fd acc) (opened acc w) = Some (Disp (a_al (d_sock d)) (opened acc w) None false false)) as ->.
      { unfold dispatch, from_descriptor, made. rewrite (proj2 (ok_false _) A). cbn [negb]. rewrite (proj2 (ok_false _) A). reflexivity. }
      cbn beta iota. cbn [s_status]. rewrite (proj2 (ok_false _) A). cbn [negb s_world s_conn]. do 2 eexists. split; [reflexivity|]. split; [apply ginv_bounce; auto|]. unfold closes. cbn. lia.
  - destruct (finish_ok own w conns q rel crc G B) as (r & w' & E & G' & fd & L). rewrite E. do 2 eexists. split; [reflexivity|]. split; [auto|]. rewrite L.
    assert (X : (length (filter (fun x => negb (x =? q)%Z) conns) + 1 = length conns)%nat).
    { apply ginv_served in G. destruct G as (N & _). clear -N B. induction N as [|x l NI N IH]; [destruct B|]. cbn [filter length]. destruct B as [->|B].
      - rewrite Z.eqb_refl. cbn [negb]. assert (filter (fun x => negb (x =? q)%Z) l = l) as ->; [|lia].
        clear -NI. induction l as [|y l IH]; [reflexivity|]. cbn [filter]. destruct (Z.eqb_spec y q); [exfalso; apply NI; left; auto|]. cbn [negb]. f_equal. apply IH. intros K. apply NI. right. auto.
      - destruct (Z.eqb_spec x q) as [->|]; [contradiction|]. cbn [negb length]. rewrite <- IH by auto. lia. }
    unfold closes, accepted. cbn. lia.
Qed.

Lemma history_ok : forall own evs w conns, ginv own w conns -> benigns evs w conns ->
  exists w' conns', happen evs w conns = Some (w', conns') /\ ginv own w' conns' /\
    (closes (w_log w') + length conns' = closes (w_log w) + length conns + accepted evs)%nat.
Proof.
  induction evs as [|ev evs IH]; intros w conns G B.
  - exists w, conns. split; [reflexivity|]. split; [auto|]. unfold accepted. cbn. lia.
  - cbn [benigns] in B. destruct B as (B & BS). destruct (step_all own ev w conns G B) as (w1 & c1 & E & G1 & N1). rewrite E in BS.
    destruct (IH w1 c1 G1 BS) as (w' & c' & E' & G' & N'). exists w', c'. cbn [happen]. rewrite E. split; [exact E'|]. split; [auto|].
    rewrite N', N1. unfold accepted. cbn [filter]. destruct ev; cbn [length]; lia.
Qed.
