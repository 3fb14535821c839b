From Verif Require Import Base Status CodecModel CodecSpec CodecProofs MemModel MemProofs AsyncModel AsyncSpec AsyncProofs BrModel BrSpec BrProofs BrInst EndSpec.

Lemma total_complete : forall S (o : sock_ops S) R, total_reader o R -> complete_reader o R.
Proof. intros S o R (V & T). split; auto. Qed.

(** ** Total readers *)
(** Over a total reader nothing need follow an empty block: read as over a transport
    on which something does. *)
Lemma read_string_total : forall S (o : sock_ops S) R s d l junk rst, total_reader o R ->
  Z.of_nat (length d) < 2^32 - 1 ->
  R s (be_bytes 4 PSOCK_BOXED_TYPE_STRING ++ be_bytes 4 (Z.of_nat (length d)) ++ d ++ l) ->
  exists s', read_boxed_string o STATUS_SUCCESS rst junk s
    = BRes STATUS_SUCCESS (Some (d ++ [0], Z.of_nat (length d))) [d ++ [0]] s' /\ R s' l.
Proof.
  intros S o R s d l junk rst T Hd Rs. pose proof (total_complete _ _ _ T) as C.
  destruct (d ++ l) as [|x y] eqn:Ne; [|eapply read_string_complete; eauto; [rewrite Ne; discriminate|rewrite Ne; auto]].
  apply app_eq_nil in Ne as (-> & ->).
  destruct (read_tag_complete S o R s _ _ C (u4 PSOCK_BOXED_TYPE_STRING ltac:(vm_compute; split; congruence)) Rs) as (s1 & E1 & R1).
  rewrite <- (app_nil_r (be_bytes 4 _)) in R1.
  destruct (read_tag_complete S o R s1 _ _ C (u4 0 ltac:(lia)) R1) as (s2 & E2 & R2).
  unfold read_boxed_string. rewrite E1. cbn [v_val v_sock]. rewrite Z.eqb_refl. cbn [negb].
  rewrite E2. cbn [v_val v_sock]. change (0 =? 2^32 - 1) with false. rewrite Z.eqb_refl. cbn [negb].
  destruct T as (Vt & T). rewrite Vt, Z.eqb_refl. cbn [negb].
  destruct (T s2 [] 0%nat R2) as (s3 & E3 & R3); [cbn; lia|].
  change (Z.to_nat 0) with 0%nat. rewrite E3. cbn. exists s3. auto.
Qed.

Lemma read_data_total : forall S (o : sock_ops S) R s d l junk rst, total_reader o R ->
  Z.of_nat (length d) < 2^32 ->
  R s (be_bytes 4 PSOCK_BOXED_TYPE_DATA ++ be_bytes 4 (Z.of_nat (length d)) ++ d ++ l) ->
  exists s', read_boxed_data o STATUS_SUCCESS rst junk s
    = BRes STATUS_SUCCESS (Some (d, Z.of_nat (length d))) [d] s' /\ R s' l.
Proof.
  intros S o R s d l junk rst T Hd Rs. pose proof (total_complete _ _ _ T) as C.
  destruct (d ++ l) as [|x y] eqn:Ne; [|eapply read_data_complete; eauto; [rewrite Ne; discriminate|rewrite Ne; auto]].
  apply app_eq_nil in Ne as (-> & ->).
  destruct (read_tag_complete S o R s _ _ C (u4 PSOCK_BOXED_TYPE_DATA ltac:(vm_compute; split; congruence)) Rs) as (s1 & E1 & R1).
  rewrite <- (app_nil_r (be_bytes 4 _)) in R1.
  destruct (read_tag_complete S o R s1 _ _ C (u4 0 ltac:(lia)) R1) as (s2 & E2 & R2).
  unfold read_boxed_data. rewrite E1. cbn [v_val v_sock]. rewrite Z.eqb_refl. cbn [negb].
  rewrite E2. cbn [v_val v_sock]. rewrite Z.eqb_refl. cbn [negb].
  destruct T as (Vt & T). rewrite Vt, Z.eqb_refl. cbn [negb].
  destruct (T s2 [] 0%nat R2) as (s3 & E3 & R3); [cbn; lia|].
  change (Z.to_nat 0) with 0%nat. rewrite E3. cbn. exists s3. auto.
Qed.

Lemma call_reader_total : forall S (o : sock_ops S) R s l v rst junk, total_reader o R -> valid v ->
  R s (wire v ++ l) ->
  exists s', call_reader o STATUS_SUCCESS rst junk (kind_of v) s = (STATUS_SUCCESS, Some (delivered v), s') /\ R s' l.
Proof.
  intros S o R s l v rst junk T Hv Rs.
  assert (D : is_empty_block v \/ ~ is_empty_block v).
  { unfold is_empty_block. destruct v as [| | | | | | | | |t|d]; try (right; intros [H|H]; discriminate).
    - destruct t; [left; auto|right; intros [H|H]; discriminate].
    - destruct d; [left; auto|right; intros [H|H]; discriminate]. }
  destruct D as [[D|D]|D]; try subst v.
  - destruct Hv as (_ & Hl).
    destruct (read_string_total S o R s [] l junk rst T Hl) as (s' & E & R'); [exact Rs|]. exists s'. cbn [call_reader kind_of]. rewrite E. auto.
  - destruct Hv as (_ & Hl).
    destruct (read_data_total S o R s [] l junk rst T Hl) as (s' & E & R'); [exact Rs|]. exists s'. cbn [call_reader kind_of]. rewrite E. auto.
  - apply call_reader_complete; auto using total_complete.
Qed.

Lemma read_all_total : forall S (o : sock_ops S) R rst junk vs s l, total_reader o R -> Forall valid vs ->
  R s (concat (map wire vs) ++ l) ->
  exists s', read_all o STATUS_SUCCESS rst junk (map kind_of vs) s = (STATUS_SUCCESS, map delivered vs, s') /\ R s' l.
Proof.
  intros S o R rst junk vs. induction vs as [|v vs IH]; intros s l C Hv Rs.
  - exists s. auto.
  - inversion Hv as [|? ? Hv1 Hv2]; subst. cbn [map concat] in Rs. rewrite <- app_assoc in Rs.
    destruct (call_reader_total S o R s _ v rst junk C Hv1 Rs) as (s1 & E & R1).
    destruct (IH s1 l C) as (s2 & E2 & R2); auto.
    exists s2. cbn [read_all map]. rewrite E. cbn. rewrite E2. auto.
Qed.

(** ** Asynchronous sockets *)
Definition async_R (f : fenv) (out : list Z) (s : option async) (l : list Z) : Prop :=
  exists a, s = Some a /\ ready f a /\ k_in (a_k a) = l /\ k_out (a_k a) = out.
Definition async_W (f : fenv) (inp : list Z) (s : option async) (l : list Z) : Prop :=
  exists a, s = Some a /\ ready f a /\ k_out (a_k a) = l /\ k_in (a_k a) = inp.

Lemma waits_suffix : forall f pre ys, waits_work f (pre ++ ys) -> waits_work f ys.
Proof. intros f pre ys (A & B & C). apply Forall_app in C as (_ & C). repeat split; auto. Qed.

Lemma async_total : forall f out, total_reader (async_ops f) (async_R f out).
Proof.
  intros f out. split; [reflexivity|]. intros s l n (a & -> & (Q & QW & W & T & RF & WF) & <- & O) L.
  destruct (async_read_post f a n true) as (r & R1 & (d & P1 & P2 & P3 & P4 & P5 & P6 & (pre & P7) & P8 & P9 & P10 & P11 & P12 & P13 & P14)).
  cbn [app] in P1. cbn [async_ops op_read]. rewrite R1.
  destruct (read_loop_quiet (Datatypes.S (length (k_rs (a_k a)) + n)) f a [] n ltac:(lia) Q W T RF) as (r' & R2 & R3 & R4 & R5).
  unfold async_read in R1. change (negb (ok STATUS_SUCCESS)) with false in R1. cbv iota in R1. rewrite R1 in R2. injection R2 as <-.
  destruct (Nat.leb_spec n (length (k_in (a_k a)))); [|lia].
  destruct P14 as [(G1 & [G2|(G2 & _)])|[(G1 & _)|[(G1 & _)|[(G1 & _)|(G1 & _)]]]]; try (rewrite R3 in G1; discriminate); try congruence.
  rewrite R3, P2, P1, G2. rewrite P4. rewrite firstn_exact, skipn_exact by auto.
  eexists. split; [reflexivity|]. exists (rr_sock r). split; [reflexivity|]. split; [|split; [auto|congruence]].
  repeat split; auto; try congruence; try apply R5; rewrite ?P6; auto.
Qed.

Lemma write_loop_ws : forall fuel f a total d r, async_write_loop fuel f a total d = Some r ->
  exists pre, k_ws (a_k a) = pre ++ k_ws (a_k (wr_sock r)).
Proof.
  induction fuel as [|fuel IH]; intros f a total d r H; [discriminate|]. cbn [async_write_loop] in H.
  destruct d as [|x d0] eqn:DD; [injection H as <-; exists []; reflexivity|]. rewrite <- DD in *. clear DD x d0.
  destruct (fd_write_spec (a_k a) d) as (c & _ & _ & _ & _ & E & _).
  destruct (fd_write (a_k a) d) as [st sz k']. cbn [wr_status wr_size wr_sock] in *.
  destruct (tl_pre _ (k_ws (a_k a))) as (p0 & P0). rewrite <- E in P0.
  destruct (ERROR_PSOCK_WRITE_WOULD_BLOCK =? st).
  - generalize (write_block_spec f (set_k a k')). destruct (write_block f (set_k a k')) as [e a2].
    intros (S1 & _). cbn [set_k a_k] in S1. destruct (negb (ok e)).
    + injection H as <-. cbn. rewrite S1. eauto.
    + destruct (IH _ _ _ _ _ H) as (p & P). rewrite S1 in P. exists (p0 ++ p). rewrite <- app_assoc, <- P. auto.
  - destruct (negb (ok st)); [injection H as <-; cbn; eauto|].
    destruct (sz =? 0)%nat; [injection H as <-; cbn; eauto|].
    destruct (IH _ _ _ _ _ H) as (p & P). cbn [set_k a_k] in P. exists (p0 ++ p). rewrite <- app_assoc, <- P. auto.
Qed.

Lemma async_complete_writer : forall f inp, complete_writer (async_ops f) (async_W f inp).
Proof.
  intros f inp. split; [reflexivity|]. intros s l d (a & -> & (Q & QW & W & T & RF & WF) & <- & I).
  destruct (async_write_post f a d) as (r & R1 & (c & P1 & P2 & P3 & P4 & P5 & P6 & P7 & P8 & (pre & P9) & P10)).
  cbn [async_ops op_write]. rewrite R1.
  destruct (write_loop_quiet (Datatypes.S (length (k_ws (a_k a)) + length d)) f a (length d) d ltac:(lia) QW W T WF) as (r' & R2 & R3).
  unfold async_write in R1. change (negb (ok STATUS_SUCCESS)) with false in R1. cbv iota in R1. rewrite R1 in R2. injection R2 as <-.
  destruct (write_loop_ws _ _ _ _ _ _ R1) as (pw & PW).
  destruct P10 as [(G1 & G2 & G3)|[(G1 & _)|[(G1 & _)|(G1 & _)]]]; try (rewrite R3 in G1; discriminate); try congruence.
  rewrite R3, G3. rewrite G2, firstn_all in P2.
  eexists. split; [reflexivity|]. exists (wr_sock r). split; [reflexivity|]. split; [|split; [auto|congruence]].
  rewrite P9 in W. rewrite PW in QW. apply waits_suffix in W. apply quiet_suffix in QW.
  repeat split; auto; try congruence; try apply W; rewrite ?P4; auto.
Qed.

Lemma ready_arrive : forall f a d, ready f a -> ready f (arrive a d).
Proof. intros f a d R. exact R. Qed.

(** What a ready socket writes is what another reads. *)
Lemma write_async : forall f a vs, ready f a -> Forall valid vs ->
  exists a', write_all (async_ops f) vs (Some a) = Some (STATUS_SUCCESS, Some a') /\ ready f a' /\
    k_out (a_k a') = k_out (a_k a) ++ concat (map wire vs) /\ k_in (a_k a') = k_in (a_k a).
Proof.
  intros f a vs R V.
  destruct (write_all_complete _ (async_ops f) (async_W f (k_in (a_k a))) vs (Some a) (k_out (a_k a)) (async_complete_writer f _)) as (s & E & (a' & -> & R' & O & I)); auto.
  { exists a. auto. }
  exists a'. auto.
Qed.
Lemma read_async : forall f a vs rst junk l, ready f a -> Forall valid vs -> k_in (a_k a) = concat (map wire vs) ++ l ->
  exists a', read_all (async_ops f) STATUS_SUCCESS rst junk (map kind_of vs) (Some a) = (STATUS_SUCCESS, map delivered vs, Some a') /\ ready f a' /\ k_in (a_k a') = l /\ k_out (a_k a') = k_out (a_k a).
Proof.
  intros f a vs rst junk l R V I.
  destruct (read_all_total _ (async_ops f) (async_R f (k_out (a_k a))) rst junk vs (Some a) l (async_total f _)) as (s & E & (a' & -> & R' & I' & O)); auto.
  { exists a. auto. }
  exists a'. auto.
Qed.
Lemma sent_app : forall a a' d, k_out (a_k a') = k_out (a_k a) ++ d -> sent a a' = d.
Proof. intros a a' d H. unfold sent. rewrite H. apply skipn_exact. reflexivity. Qed.

Lemma talk_exact : forall rst junk fa fb turns a b, ready fa a -> ready fb b -> k_in (a_k a) = [] -> k_in (a_k b) = [] ->
  Forall (fun t => Forall valid (snd t)) turns ->
  talk rst junk fa fb turns a b = map (fun t => (STATUS_SUCCESS, STATUS_SUCCESS, map delivered (snd t))) turns.
Proof.
  intros rst junk fa fb turns. induction turns as [|(first, vs) t IH]; intros a b RA RB IA IB V; [reflexivity|].
  inversion V as [|? ? V1 V2]; subst. cbn [snd] in V1. cbn [talk map snd].
  destruct first.
  - destruct (write_async fa a vs RA V1) as (a' & E & RA' & O & I). rewrite E, (sent_app _ _ _ O).
    destruct (read_async fb (arrive b (concat (map wire vs))) vs rst junk [] (ready_arrive _ _ _ RB) V1) as (b' & E' & RB' & I' & O').
    { cbn. rewrite IB, app_nil_r. reflexivity. }
    rewrite E'. f_equal. apply IH; auto. congruence.
  - destruct (write_async fb b vs RB V1) as (b' & E & RB' & O & I). rewrite E, (sent_app _ _ _ O).
    destruct (read_async fa (arrive a (concat (map wire vs))) vs rst junk [] (ready_arrive _ _ _ RA) V1) as (a' & E' & RA' & I' & O').
    { cbn. rewrite IA, app_nil_r. reflexivity. }
    rewrite E'. f_equal. apply IH; auto. congruence.
Qed.

(** ** Buffered readers of sockets that fail only at the end *)
Definition br_R {S} (inv : S -> Prop) (rem : S -> list Z) (s : option (br S)) (l : list Z) : Prop :=
  exists b, s = Some b /\ br_ok inv b /\ pending rem b = l.
Lemma br_total : forall S (o : sock_ops S) inv rem, smooth_sock o inv rem -> total_reader (br_ops o) (br_R inv rem).
Proof.
  intros S o inv rem SM. split; [reflexivity|]. intros s l n (b & -> & B & <-) L.
  destruct (read_smooth S o inv rem b n SM B L) as (r & R1 & R2 & R3 & R4 & R5 & R6).
  cbn [br_ops op_read]. rewrite R1, R2, R3, R4. eexists. split; [reflexivity|]. exists (rr_sock r). auto.
Qed.

(** ** Plain descriptors *)
Lemma fd_read_gives : forall k n m t, k_rs k = KGive m :: t -> (S m < n)%nat -> (n <= length (k_in k))%nat ->
  fd_read k n = RRes STATUS_SUCCESS (S m) (firstn (S m) (k_in k)) (Kern (skipn (S m) (k_in k)) t (k_out k) (k_ws k)).
Proof.
  intros k n m t E L LI. unfold fd_read, kread. rewrite E. replace (Nat.min n (Nat.min (S m) (length (k_in k)))) with (S m) by lia.
  destruct (Z.ltb_spec (Z.of_nat (S m)) 0); [lia|]. rewrite Nat2Z.id. reflexivity.
Qed.

Lemma tag_fails : forall S (o : sock_ops S) ast rst junk k s e s', read_raw_uint32 o s = VRes e None s' ->
  call_reader o ast rst junk k s = (e, None, s').
Proof.
  intros S o ast rst junk k s e s' H.
  destruct k; cbn [call_reader]; unfold box_int, box_bool, box_block, read_boxed_int64, read_boxed_uint64, read_boxed_int32, read_boxed_uint32,
    read_boxed_int16, read_boxed_uint16, read_boxed_int8, read_boxed_uint8, read_boxed_bool, read_boxed, read_boxed_string, read_boxed_data;
    rewrite H; reflexivity.
Qed.
Lemma tag_write_fails : forall S (o : sock_ops S) v s e k', valid v ->
  (forall t, be_bytes 4 t = tag_of (kind_of v) -> write_raw_uint32 o t s = (e, k')) -> e <> STATUS_SUCCESS ->
  call_writer o v s = Some (e, k').
Proof.
  intros S o v s e k' V H N. apply Z.eqb_neq in N.
  destruct v; cbn [call_writer kind_of] in *; unfold write_boxed_int64, write_boxed_uint64, write_boxed_int32, write_boxed_uint32,
    write_boxed_int16, write_boxed_uint16, write_boxed_int8, write_boxed_uint8, write_boxed_bool, write_boxed, write_boxed_data;
    try (rewrite H by reflexivity; rewrite N; reflexivity).
  destruct V as (V1 & V2).
  destruct (write_string_any S o (s0 ++ [0]) 0 s0) as (_ & A).
  { apply cstring_buf; auto. }
  destruct (A V2) as (wf & B & C). rewrite B. f_equal. specialize (C s). cbv zeta in C.
  rewrite (H 32 eq_refl) in C. cbn [fst] in C. apply C. apply Z.eqb_neq. auto.
Qed.

Lemma fd_short_read : forall ast rst junk k kern m t, k_rs kern = KGive m :: t -> (S m < 4)%nat -> (4 <= length (k_in kern))%nat ->
  call_reader fd_ops ast rst junk k kern =
    (ERROR_PSOCK_READ_INVALID_SIZE, None, Kern (skipn (S m) (k_in kern)) t (k_out kern) (k_ws kern)).
Proof.
  intros ast rst junk k kern m t E L LI. apply tag_fails.
  destruct (raw_readers _ fd_ops) as (_ & _ & _ & (_ & U) & _). destruct (U eq_refl kern) as (_ & U2 & _). clear U.
  cbn [fd_ops op_read] in U2. rewrite (fd_read_gives kern 4 m t E L LI) in U2. apply U2; [reflexivity|cbn; lia].
Qed.

Lemma fd_short_write : forall v kern m t, valid v -> k_ws kern = KGive m :: t -> (S m < 4)%nat ->
  call_writer fd_ops v kern =
    Some (ERROR_PSOCK_WRITE_INVALID_SIZE, Kern (k_in kern) (k_rs kern) (k_out kern ++ firstn (S m) (wire v)) t).
Proof.
  intros v kern m t V E L. apply tag_write_fails; [auto| |discriminate]. intros tg T.
  destruct (raw_writers _ fd_ops tg) as (_ & _ & _ & (_ & U) & _). destruct (U eq_refl kern) as (_ & U2 & _). clear U.
  cbn [fd_ops op_write] in U2. unfold fd_write, kwrite in U2. rewrite E in U2. rewrite be_bytes_length in U2.
  replace (Nat.min (S m) 4) with (S m) in U2 by lia.
  destruct (Z.ltb_spec (Z.of_nat (S m)) 0); [lia|]. rewrite Nat2Z.id in U2. cbn [wr_status wr_size wr_sock] in U2.
  rewrite U2; [|reflexivity|lia]. do 3 f_equal.
  rewrite T. assert (W : wire v = tag_of (kind_of v) ++ skipn 4 (wire v)) by (destruct v; reflexivity).
  rewrite W, firstn_app. replace (S m - length (tag_of (kind_of v)))%nat with 0%nat; [rewrite app_nil_r; reflexivity|].
  destruct v; cbn [tag_of kind_of length]; lia.
Qed.

(** A fill that fails ends the read. *)
Lemma br_fill_fails : forall S (o : sock_ops S) b e b1, op_vtable o = STATUS_SUCCESS -> (q_off b <= q_size b)%nat -> (q_size b - q_off b < 4)%nat ->
  br_fill o b = Some (e, b1) -> e <> STATUS_SUCCESS ->
  read_raw_uint32 (br_ops o) (Some b) = VRes e None (Some b1).
Proof.
  intros S o b e b1 V O L F N.
  destruct (raw_readers _ (br_ops o)) as (_ & _ & _ & (_ & U) & _). destruct (U eq_refl (Some b)) as (U1 & _). clear U.
  cbn [br_ops op_read] in U1. unfold br_read, sub in U1. destruct (Nat.leb_spec (q_off b) (q_size b)); [|lia].
  cbn [br_read_loop] in U1. destruct (Nat.ltb_spec (q_size b - q_off b) 4); [|lia]. rewrite F in U1.
  assert (K : ok e = false) by (destruct (ok e) eqn:K; auto; apply Z.eqb_eq in K; congruence).
  rewrite K in U1. cbn [negb rr_status rr_sock] in U1. apply U1. auto.
Qed.

Lemma fill_fails : forall S (o : sock_ops S) inv b, op_vtable o = STATUS_SUCCESS -> br_ok inv b ->
  let r := op_read o (q_w b) (length (q_buf b) - length (buffered b)) false in
  rr_status r <> STATUS_SUCCESS -> (length (rr_data r) <= length (q_buf b) - length (buffered b))%nat ->
  exists b', br_fill o b = Some (rr_status r, b') /\ q_w b' = rr_sock r.
Proof.
  intros S o inv b V (O1 & O2 & O3 & O4 & O5) r. subst r. rewrite buffered_length by auto. intros N L. unfold br_fill.
  set (stage1 := if (0 <? q_off b)%nat then _ else _).
  assert (E1 : exists b1, stage1 = Some b1 /\ length (q_buf b1) = length (q_buf b) /\ q_w b1 = q_w b /\ q_size b1 = (q_size b - q_off b)%nat).
  { subst stage1. destruct (Nat.ltb_spec 0 (q_off b)) as [K|K].
    - rewrite sub_some by lia. rewrite ld_range_some by lia.
      assert (LL : length (firstn (q_size b - q_off b) (skipn (q_off b) (q_buf b))) = (q_size b - q_off b)%nat) by (apply firstn_skipn_len; lia).
      rewrite blit_some by lia. eexists. split; [reflexivity|].
      cbn [q_err q_off q_buf q_size q_w firstn plus app]. split; [rewrite app_length, skipn_length; lia|auto].
    - eexists. split; [reflexivity|]. repeat (split; [auto; lia|]). lia. }
  destruct E1 as (b1 & E1 & A1 & A2 & A3). rewrite E1. clear stage1 E1.
  rewrite V. change (negb (ok STATUS_SUCCESS)) with false. cbv iota.
  rewrite sub_some by lia. cbv zeta. rewrite A1, A2, A3.
  destruct (op_read o (q_w b) (length (q_buf b) - (q_size b - q_off b)) false) as [e sz d w']. cbn [rr_status rr_data rr_sock] in *.
  rewrite blit_some by lia. cbn [rr_size].
  assert (K : ok e = false) by (destruct (ok e) eqn:K; auto; apply Z.eqb_eq in K; congruence).
  rewrite K. cbn [negb]. eexists. split; [reflexivity|]. reflexivity.
Qed.

Lemma async_eof : forall f a n, k_rs (a_k a) = [] -> (length (k_in (a_k a)) < n)%nat ->
  exists k', async_read f STATUS_SUCCESS a n false
    = Some (RRes ERROR_PSOCK_READ_EOF (length (k_in (a_k a))) (k_in (a_k a)) (set_k a k')) /\ k_in k' = [].
Proof.
  intros f a n E L. unfold async_read. change (negb (ok STATUS_SUCCESS)) with false. cbv iota. rewrite E. cbn [length plus].
  assert (F : fd_read (a_k a) n = RRes STATUS_SUCCESS (length (k_in (a_k a))) (k_in (a_k a)) (Kern [] [] (k_out (a_k a)) (k_ws (a_k a)))).
  { unfold fd_read, kread. rewrite E. replace (Nat.min n (length (k_in (a_k a)))) with (length (k_in (a_k a))) by lia.
    rewrite firstn_all, skipn_all. destruct (Z.ltb_spec (Z.of_nat (length (k_in (a_k a)))) 0); [lia|]. rewrite Nat2Z.id. reflexivity. }
  cbn [async_read_loop]. destruct (Nat.eqb_spec n 0); [lia|]. rewrite F. cbn [rr_status rr_size rr_data rr_sock].
  change (ERROR_PSOCK_READ_WOULD_BLOCK =? STATUS_SUCCESS) with false. change (negb (ok STATUS_SUCCESS)) with false. cbn [andb]. cbv iota.
  destruct (Nat.eqb_spec (length (k_in (a_k a))) 0) as [Z0|Z0].
  - apply length_zero_iff_nil in Z0. rewrite Z0. eexists. split; reflexivity.
  - destruct n as [|n']; [lia|]. cbn [async_read_loop]. destruct (Nat.eqb_spec (Datatypes.S n' - length (k_in (a_k a))) 0); [lia|].
    cbn [set_k a_k]. unfold fd_read, kread. cbn [k_rs k_in length]. rewrite Nat.min_0_r. cbn. eexists. split; reflexivity.
Qed.
Lemma async_would_block : forall f a n t, k_rs (a_k a) = KFail EAGAIN :: t -> (0 < n)%nat ->
  exists k', async_read f STATUS_SUCCESS a n false = Some (RRes ERROR_PSOCK_READ_WOULD_BLOCK 0 [] (set_k a k')) /\
    k_in k' = k_in (a_k a) /\ k_rs k' = t.
Proof.
  intros f a n t E L. unfold async_read. change (negb (ok STATUS_SUCCESS)) with false. cbv iota. rewrite E. cbn [length plus].
  cbn [async_read_loop]. destruct (Nat.eqb_spec n 0); [lia|]. unfold fd_read, kread. rewrite E. cbn. eexists. split; reflexivity || auto.
Qed.

Lemma br_async_eof : forall f ast rst junk k b a, br_ok async_inv b -> q_w b = Some a -> k_rs (a_k a) = [] ->
  (length (buffered b) < 4)%nat -> (length (k_in (a_k a)) < length (q_buf b) - length (buffered b))%nat ->
  exists b', call_reader (br_ops (async_ops f)) ast rst junk k (Some b) = (ERROR_PSOCK_READ_EOF, None, Some b') /\
    pending async_rem b' = buffered b.
Proof.
  intros f ast rst junk k b a B W E LB L.
  destruct (async_eof f a _ E L) as (k' & A & I).
  destruct (fill_fails _ (async_ops f) async_inv b eq_refl B) as (b' & F & Q).
  { cbn [async_ops op_read]. rewrite W, A. discriminate. }
  { cbn [async_ops op_read]. rewrite W, A. cbn [rr_data]. lia. }
  assert (X : op_read (async_ops f) (q_w b) (length (q_buf b) - length (buffered b)) false
     = RRes ERROR_PSOCK_READ_EOF (length (k_in (a_k a))) (k_in (a_k a)) (Some (set_k a k'))).
  { cbn [async_ops op_read]. rewrite W, A. reflexivity. }
  rewrite X in F, Q. cbn [rr_status rr_sock] in F, Q.
  exists b'. split.
  - apply tag_fails. pose proof B as (O1 & O2 & _). rewrite buffered_length in LB by auto. apply br_fill_fails; auto. discriminate.
  - destruct (fill_spec _ _ _ _ _ b (async_stream f) B) as (e & b2 & F2 & _ & _ & _ & _ & _ & [(K & _)|(_ & K & _)]); rewrite F in F2; injection F2 as <- <-; [discriminate|].
    unfold pending. rewrite K, Q. cbn. rewrite I. apply app_nil_r.
Qed.

Lemma br_async_would_block : forall f ast rst junk k b a t, br_ok async_inv b -> q_w b = Some a -> k_rs (a_k a) = KFail EAGAIN :: t ->
  (length (buffered b) < 4 < length (q_buf b))%nat ->
  exists b', call_reader (br_ops (async_ops f)) ast rst junk k (Some b) = (ERROR_PSOCK_READ_WOULD_BLOCK, None, Some b') /\
    pending async_rem b' = pending async_rem b.
Proof.
  intros f ast rst junk k b a t B W E LB.
  destruct (async_would_block f a (length (q_buf b) - length (buffered b)) t E ltac:(lia)) as (k' & A & I & _).
  destruct (fill_fails _ (async_ops f) async_inv b eq_refl B) as (b' & F & Q).
  { cbn [async_ops op_read]. rewrite W, A. discriminate. }
  { cbn [async_ops op_read]. rewrite W, A. cbn [rr_data length]. lia. }
  assert (X : op_read (async_ops f) (q_w b) (length (q_buf b) - length (buffered b)) false
     = RRes ERROR_PSOCK_READ_WOULD_BLOCK 0 [] (Some (set_k a k'))).
  { cbn [async_ops op_read]. rewrite W, A. reflexivity. }
  rewrite X in F, Q. cbn [rr_status rr_sock] in F, Q.
  exists b'. split.
  - apply tag_fails. pose proof B as (O1 & O2 & _). rewrite buffered_length in LB by auto. apply br_fill_fails; auto; [lia|discriminate].
  - destruct (fill_spec _ _ _ _ _ b (async_stream f) B) as (e & b2 & F2 & _ & _ & _ & _ & _ & [(K & _)|(_ & K & _)]); rewrite F in F2; injection F2 as <- <-; [discriminate|].
    unfold pending. rewrite K, Q, W. cbn. rewrite I. reflexivity.
Qed.

(** Plain descriptors whose system calls transfer all that is asked for. *)
Definition fd_R (out : list Z) (k : kern) (l : list Z) : Prop := k_rs k = [] /\ k_in k = l /\ k_out k = out.
Definition fd_W (inp : list Z) (k : kern) (l : list Z) : Prop := k_ws k = [] /\ k_out k = l /\ k_in k = inp.
Lemma fd_total : forall out, total_reader fd_ops (fd_R out).
Proof.
  intros out. split; [reflexivity|]. intros k l n (E & <- & O) L. cbn [fd_ops op_read]. unfold fd_read, kread. rewrite E.
  replace (Nat.min n (length (k_in k))) with n by lia. destruct (Z.ltb_spec (Z.of_nat n) 0); [lia|]. rewrite Nat2Z.id.
  eexists. split; [reflexivity|]. repeat split; auto.
Qed.
Lemma fd_complete_writer : forall inp, complete_writer fd_ops (fd_W inp).
Proof.
  intros inp. split; [reflexivity|]. intros k l d (E & <- & I). cbn [fd_ops op_write]. unfold fd_write, kwrite. rewrite E.
  destruct (Z.ltb_spec (Z.of_nat (length d)) 0); [lia|]. rewrite Nat2Z.id, firstn_all.
  eexists. split; [reflexivity|]. repeat split; auto.
Qed.
Lemma fd_exchange : forall w r rst junk vs l, k_ws w = [] -> Forall valid vs ->
  exists w', write_all fd_ops vs w = Some (STATUS_SUCCESS, w') /\ k_ws w' = [] /\ exists d, k_out w' = k_out w ++ d /\
    (k_rs r = [] -> k_in r = d ++ l ->
     exists r', read_all fd_ops STATUS_SUCCESS rst junk (map kind_of vs) r = (STATUS_SUCCESS, map delivered vs, r') /\ k_rs r' = [] /\ k_in r' = l).
Proof.
  intros w r rst junk vs l E V.
  destruct (write_all_complete _ fd_ops (fd_W (k_in w)) vs w (k_out w) (fd_complete_writer _)) as (w' & E1 & (A & B & _)); auto.
  { repeat split; auto. }
  exists w'. split; [auto|]. split; [auto|]. exists (concat (map wire vs)). split; [auto|]. intros ER EI.
  destruct (read_all_total _ fd_ops (fd_R (k_out r)) rst junk vs r l (fd_total _)) as (r' & E2 & (C & D & _)); auto.
  { repeat split; auto. }
  exists r'. auto.
Qed.
Lemma br_exchange : forall S (o : sock_ops S) inv rem rst junk vs b l, smooth_sock o inv rem -> br_ok inv b -> Forall valid vs ->
  pending rem b = concat (map wire vs) ++ l ->
  exists b', read_all (br_ops o) STATUS_SUCCESS rst junk (map kind_of vs) (Some b) = (STATUS_SUCCESS, map delivered vs, Some b') /\
    br_ok inv b' /\ pending rem b' = l.
Proof.
  intros S o inv rem rst junk vs b l SM B V P.
  destruct (read_all_total _ (br_ops o) (br_R inv rem) rst junk vs (Some b) l (br_total _ _ _ _ SM)) as (s & E & (b' & -> & B' & P')); auto.
  { exists b. auto. }
  exists b'. auto.
Qed.
