From Verif Require Import Base Status StringModel StringSpec StringProofs CodecModel CodecSpec.

(** ** Byte strings and integers *)
Lemma p256 : forall n, 2 ^ (8 * Z.of_nat n) = 256 ^ Z.of_nat n.
Proof. intros. rewrite Z.pow_mul_r by lia. reflexivity. Qed.

Lemma p256_pos : forall n, 0 < 256 ^ Z.of_nat n.
Proof. intros. apply Z.pow_pos_nonneg; lia. Qed.

Lemma p256_S : forall n, 256 ^ Z.of_nat (S n) = 256 * 256 ^ Z.of_nat n.
Proof. intros. rewrite Nat2Z.inj_succ, Z.pow_succ_r by lia. reflexivity. Qed.

Lemma mod256_byte : forall v, is_byte (v mod 256).
Proof. intros. unfold is_byte. apply Z.mod_pos_bound. lia. Qed.

Lemma le_bytes_length : forall n v, length (le_bytes n v) = n.
Proof. induction n; simpl; intros; auto. Qed.

Lemma le_bytes_bytes : forall n v, Forall is_byte (le_bytes n v).
Proof. induction n; simpl; intros; [constructor|constructor; [apply mod256_byte|auto]]. Qed.

Lemma be_bytes_length : forall n v, length (be_bytes n v) = n.
Proof. induction n; simpl; intros; auto. Qed.

Lemma be_bytes_bytes : forall n v, Forall is_byte (be_bytes n v).
Proof. induction n; simpl; intros; [constructor|constructor; [apply mod256_byte|auto]]. Qed.

Lemma le_bytes_snoc : forall n v, le_bytes (S n) v = le_bytes n v ++ [(v / 256 ^ Z.of_nat n) mod 256].
Proof.
  induction n; intros v.
  - simpl. rewrite Z.div_1_r. reflexivity.
  - change (le_bytes (S (S n)) v) with (v mod 256 :: le_bytes (S n) (v / 256)).
    rewrite IHn. change (le_bytes (S n) v) with (v mod 256 :: le_bytes n (v / 256)).
    cbn [app]. do 3 f_equal.
    rewrite Z.div_div by (pose proof (p256_pos n); lia). rewrite p256_S. reflexivity.
Qed.

Lemma rev_le_bytes : forall n v, rev (le_bytes n v) = be_bytes n v.
Proof.
  induction n; intros v; [reflexivity|].
  rewrite le_bytes_snoc, rev_app_distr. cbn [rev app be_bytes]. rewrite IHn. reflexivity.
Qed.

Lemma le_value_app : forall a b, le_value (a ++ b) = le_value a + 256 ^ Z.of_nat (length a) * le_value b.
Proof.
  induction a; intros b.
  - simpl app. change (length (@nil Z)) with 0%nat. change (256 ^ Z.of_nat 0) with 1. simpl (le_value []). lia.
  - simpl app. cbn [le_value length]. rewrite IHa, p256_S. ring.
Qed.

Lemma le_value_range : forall l, Forall is_byte l -> 0 <= le_value l < 256 ^ Z.of_nat (length l).
Proof.
  induction 1 as [|b l Hb _ IH]; [simpl; lia|].
  cbn [le_value length]. rewrite p256_S. unfold is_byte in Hb. lia.
Qed.

Lemma le_value_bytes : forall n v, le_value (le_bytes n v) = v mod 256 ^ Z.of_nat n.
Proof.
  induction n; intros v.
  - change (256 ^ Z.of_nat 0) with 1. rewrite Z.mod_1_r. reflexivity.
  - cbn [le_bytes le_value]. rewrite IHn, p256_S.
    rewrite Z.rem_mul_r; [reflexivity|lia|apply p256_pos].
Qed.

Lemma le_bytes_value : forall l, Forall is_byte l -> le_bytes (length l) (le_value l) = l.
Proof.
  induction 1 as [|b l Hb _ IH]; [reflexivity|].
  cbn [length le_bytes le_value]. unfold is_byte in Hb.
  replace ((b + 256 * le_value l) mod 256) with b
    by (rewrite Z.mul_comm, Z_mod_plus_full, Z.mod_small; lia).
  replace ((b + 256 * le_value l) / 256) with (le_value l)
    by (rewrite Z.mul_comm, Z_div_plus_full, Z.div_small; lia).
  rewrite IH. reflexivity.
Qed.

Lemma le_bytes_mod : forall n u v, u mod 256 ^ Z.of_nat n = v mod 256 ^ Z.of_nat n -> le_bytes n u = le_bytes n v.
Proof.
  intros n u v H. rewrite <- (le_bytes_value (le_bytes n u)) by apply le_bytes_bytes.
  rewrite <- (le_bytes_value (le_bytes n v)) by apply le_bytes_bytes.
  rewrite !le_value_bytes, !le_bytes_length, H. reflexivity.
Qed.

Lemma be_value_snoc : forall l b, be_value (l ++ [b]) = be_value l * 256 + b.
Proof. intros. unfold be_value. rewrite fold_left_app. reflexivity. Qed.

Lemma be_value_rev : forall l, be_value l = le_value (rev l).
Proof.
  intros l. rewrite <- (rev_involutive l) at 1. generalize (rev l) as m. clear l.
  induction m as [|b m IH]; [reflexivity|].
  cbn [rev le_value]. rewrite be_value_snoc, IH. ring.
Qed.

Lemma be_value_bytes : forall n v, be_value (be_bytes n v) = v mod 256 ^ Z.of_nat n.
Proof. intros. rewrite be_value_rev, <- rev_le_bytes, rev_involutive. apply le_value_bytes. Qed.

Lemma be_bytes_encodes : forall n v, be_encodes n v (be_bytes n v).
Proof.
  intros. split; [apply be_bytes_length|]. split; [apply be_bytes_bytes|].
  rewrite be_value_bytes, p256. reflexivity.
Qed.

Lemma be_bytes_value : forall l, Forall is_byte l -> be_bytes (length l) (be_value l) = l.
Proof.
  intros l H. rewrite be_value_rev, <- rev_le_bytes.
  rewrite <- (rev_length l). rewrite le_bytes_value by (apply Forall_rev; auto).
  apply rev_involutive.
Qed.

Lemma be_encodes_unique : forall n v l, be_encodes n v l -> l = be_bytes n v.
Proof.
  intros n v l (L & B & E). rewrite <- (be_bytes_value l B), L, E, p256.
  rewrite <- !rev_le_bytes. f_equal. apply le_bytes_mod. apply Z.mod_mod.
  pose proof (p256_pos n); lia.
Qed.

Lemma le_bytes_byteswap : forall n v, le_bytes n (byteswap n v) = be_bytes n v.
Proof.
  intros. unfold byteswap. rewrite <- rev_le_bytes.
  replace n with (length (rev (le_bytes n v))) at 1 by (rewrite rev_length, le_bytes_length; reflexivity).
  apply le_bytes_value. apply Forall_rev, le_bytes_bytes.
Qed.

Lemma byteswap_range : forall n v, unsigned n (byteswap n v).
Proof.
  intros. unfold unsigned, byteswap. rewrite p256.
  replace (Z.of_nat n) with (Z.of_nat (length (rev (le_bytes n v))))
    by (rewrite rev_length, le_bytes_length; reflexivity).
  apply le_value_range, Forall_rev, le_bytes_bytes.
Qed.

Lemma half : forall n, (0 < n)%nat -> 2 ^ (8 * Z.of_nat n) = 2 * 2 ^ (8 * Z.of_nat n - 1).
Proof. intros. rewrite <- Z.pow_succ_r by lia. f_equal. lia. Qed.

Lemma to_signed_range : forall n u, (0 < n)%nat -> unsigned n u -> signed n (to_signed n u).
Proof.
  unfold unsigned, signed, to_signed. intros n u Hn Hu. pose proof (half n Hn).
  destruct (Z.ltb_spec u (2 ^ (8 * Z.of_nat n - 1))); lia.
Qed.

Lemma to_signed_mod : forall n u, to_signed n u mod 256 ^ Z.of_nat n = u mod 256 ^ Z.of_nat n.
Proof.
  intros. unfold to_signed. destruct (_ <? _); [reflexivity|].
  rewrite p256. rewrite <- (Z_mod_plus_full (u - 256 ^ Z.of_nat n) 1). f_equal. ring.
Qed.

Lemma signed_unique : forall n u v, (0 < n)%nat -> signed n u -> signed n v ->
  u mod 256 ^ Z.of_nat n = v mod 256 ^ Z.of_nat n -> u = v.
Proof.
  unfold signed. intros n u v Hn Hu Hv E. pose proof (half n Hn) as H. rewrite p256 in H.
  pose proof (p256_pos n) as P.
  pose proof (Z.div_mod u (256 ^ Z.of_nat n)). pose proof (Z.div_mod v (256 ^ Z.of_nat n)).
  assert (u - v = 256 ^ Z.of_nat n * (u / 256 ^ Z.of_nat n - v / 256 ^ Z.of_nat n)) by lia.
  set (k := u / 256 ^ Z.of_nat n - v / 256 ^ Z.of_nat n) in *.
  assert (k = 0) by nia. rewrite H3 in H2. lia.
Qed.

Lemma to_signed_of_mod : forall n v, (0 < n)%nat -> signed n v -> to_signed n (v mod 256 ^ Z.of_nat n) = v.
Proof.
  intros n v Hn Hv. apply (signed_unique n); auto.
  - apply to_signed_range; auto. unfold unsigned. rewrite p256. apply Z.mod_pos_bound, p256_pos.
  - rewrite to_signed_mod. apply Z.mod_mod. pose proof (p256_pos n); lia.
Qed.

(** Swapping as done by hton/ntoh. *)
Definition sswap (n : nat) (v : Z) : Z := to_signed n (byteswap n v).

Lemma le_bytes_sswap : forall n v, le_bytes n (sswap n v) = be_bytes n v.
Proof.
  intros. unfold sswap. rewrite (le_bytes_mod n (to_signed n (byteswap n v)) (byteswap n v)) by apply to_signed_mod.
  apply le_bytes_byteswap.
Qed.

Lemma sswap_range : forall n v, (0 < n)%nat -> signed n (sswap n v).
Proof. intros. apply to_signed_range; auto. apply byteswap_range. Qed.

Lemma byteswap_twice : forall n v, byteswap n (sswap n v) = v mod 256 ^ Z.of_nat n.
Proof.
  intros. unfold byteswap. rewrite le_bytes_sswap, <- rev_le_bytes, rev_involutive. apply le_value_bytes.
Qed.

Lemma sswap_twice : forall n v, (0 < n)%nat -> signed n v -> sswap n (sswap n v) = v.
Proof. intros. unfold sswap at 1. rewrite byteswap_twice. apply to_signed_of_mod; auto. Qed.

(** C07 *)
Lemma c07_inverse : forall v,
  (signed 2 v -> ntoh16 (hton16 v) = v /\ hton16 (ntoh16 v) = v) /\
  (signed 4 v -> ntoh32 (hton32 v) = v /\ hton32 (ntoh32 v) = v) /\
  (signed 8 v -> ntoh64 (hton64 v) = v /\ hton64 (ntoh64 v) = v).
Proof.
  intros v. repeat split;
    [apply (sswap_twice 2)|apply (sswap_twice 2)|apply (sswap_twice 4)
    |apply (sswap_twice 4)|apply (sswap_twice 8)|apply (sswap_twice 8)]; auto; lia.
Qed.

Lemma c07_image : forall v,
  (signed 2 (hton16 v) /\ be_encodes 2 v (le_bytes 2 (hton16 v))) /\
  (signed 4 (hton32 v) /\ be_encodes 4 v (le_bytes 4 (hton32 v))) /\
  (signed 8 (hton64 v) /\ be_encodes 8 v (le_bytes 8 (hton64 v))).
Proof.
  intros v.
  change (hton16 v) with (sswap 2 v). change (hton32 v) with (sswap 4 v). change (hton64 v) with (sswap 8 v).
  rewrite !le_bytes_sswap. repeat (split; [split; [apply sswap_range; lia|apply be_bytes_encodes]|]).
  split; [apply sswap_range; lia|apply be_bytes_encodes].
Qed.

Lemma c07_from_wire : forall l, Forall is_byte l ->
  (length l = 2%nat -> signed 2 (ntoh16 (to_signed 2 (le_value l))) /\ be_encodes 2 (ntoh16 (to_signed 2 (le_value l))) l) /\
  (length l = 4%nat -> signed 4 (ntoh32 (to_signed 4 (le_value l))) /\ be_encodes 4 (ntoh32 (to_signed 4 (le_value l))) l) /\
  (length l = 8%nat -> signed 8 (ntoh64 (to_signed 8 (le_value l))) /\ be_encodes 8 (ntoh64 (to_signed 8 (le_value l))) l).
Proof.
  intros l B.
  assert (G: forall n, (0 < n)%nat -> length l = n ->
    signed n (sswap n (to_signed n (le_value l))) /\ be_encodes n (sswap n (to_signed n (le_value l))) l).
  { intros n Hn L. split; [apply sswap_range; auto|]. split; [auto|]. split; [auto|].
    rewrite p256. unfold sswap. rewrite to_signed_mod. unfold byteswap.
    rewrite (le_bytes_mod n _ (le_value l)) by apply to_signed_mod.
    rewrite <- L at 1. rewrite le_bytes_value by auto. rewrite <- be_value_rev.
    symmetry. apply Z.mod_small. rewrite be_value_rev, <- L, <- (rev_length l).
    apply le_value_range, Forall_rev; auto. }
  split; [|split]; intros L; apply G; auto; lia.
Qed.

(** ** Fixed-size readers and writers *)
Lemma overlay_full : forall d n, length d = n -> overlay d (repeat 0 n) = d.
Proof.
  intros. unfold overlay. rewrite skipn_all2 by (rewrite repeat_length; lia). apply app_nil_r.
Qed.

Lemma read_raw_fixed_spec : forall S V (o : sock_ops S) n (conv : list Z -> V) (means : list Z -> V -> Prop),
  (forall l, length l = n -> Forall is_byte l -> means l (conv l)) ->
  reads_fixed o (read_raw_fixed o n conv) n means.
Proof.
  intros S V o n conv means H. unfold reads_fixed, read_raw_fixed. split.
  - intros E s. destruct (Z.eqb_spec (op_vtable o) STATUS_SUCCESS); [congruence|reflexivity].
  - intros E s. rewrite E. rewrite Z.eqb_refl. cbn [negb].
    cbv zeta. repeat split.
    + intros F. destruct (Z.eqb_spec (rr_status (op_read o s n true)) STATUS_SUCCESS); [congruence|reflexivity].
    + intros F G. rewrite F, Z.eqb_refl. cbn [negb].
      destruct (Nat.eqb_spec (rr_size (op_read o s n true)) n); [congruence|reflexivity].
    + intros F G L B. rewrite F, Z.eqb_refl, G, Nat.eqb_refl. cbn [negb].
      eexists. split; [reflexivity|]. rewrite overlay_full by auto. auto.
Qed.

Lemma mod_encodes : forall n v l, signed n v -> be_encodes n v l ->
  unsigned n (v mod 2 ^ (8 * Z.of_nat n)) /\ be_encodes n (v mod 2 ^ (8 * Z.of_nat n)) l.
Proof.
  intros n v l _ (L & B & E).
  assert (0 < 2 ^ (8 * Z.of_nat n)) by (apply Z.pow_pos_nonneg; lia).
  split; [unfold unsigned; apply Z.mod_pos_bound; auto|].
  split; [auto|split; [auto|]]. rewrite Z.mod_mod by lia. auto.
Qed.

Lemma raw_readers : forall S (o : sock_ops S),
  reads_fixed o (read_raw_int64 o) 8 (means_signed 8) /\
  reads_fixed o (read_raw_uint64 o) 8 (means_unsigned 8) /\
  reads_fixed o (read_raw_int32 o) 4 (means_signed 4) /\
  reads_fixed o (read_raw_uint32 o) 4 (means_unsigned 4) /\
  reads_fixed o (read_raw_int16 o) 2 (means_signed 2) /\
  reads_fixed o (read_raw_uint16 o) 2 (means_unsigned 2) /\
  reads_fixed o (read_raw_int8 o) 1 (means_signed 1) /\
  reads_fixed o (read_raw_uint8 o) 1 (means_unsigned 1) /\
  reads_fixed o (read_raw_bool o) 1 means_bool.
Proof.
  intros S o.
  assert (One: forall l, length l = 1%nat -> Forall is_byte l ->
            exists b, l = [b] /\ is_byte b).
  { intros l L B. destruct l as [|b [|]]; try discriminate. inversion B; subst. eauto. }
  assert (SP: forall (A B : Prop), A -> B -> A /\ B) by auto.
  repeat (apply SP; [apply read_raw_fixed_spec; intros l L B|]); [..|apply read_raw_fixed_spec; intros l L B].
  - apply (c07_from_wire l B); auto.
  - eapply (mod_encodes 8); apply (c07_from_wire l B); auto.
  - apply (c07_from_wire l B); auto.
  - eapply (mod_encodes 4); apply (c07_from_wire l B); auto.
  - apply (c07_from_wire l B); auto.
  - eapply (mod_encodes 2); apply (c07_from_wire l B); auto.
  - destruct (One l L B) as (b & -> & Hb). unfold is_byte in Hb.
    cbn [le_value]. replace (b + 256 * 0) with b by ring.
    split; [apply to_signed_range; [lia|unfold unsigned; cbn; lia]|].
    split; [reflexivity|split; [auto|]]. rewrite p256, to_signed_mod.
    unfold be_value. cbn [fold_left]. change (256 ^ Z.of_nat 1) with 256. rewrite Z.mod_small; lia.
  - destruct (One l L B) as (b & -> & Hb). unfold is_byte in Hb.
    cbn [le_value]. replace (b + 256 * 0) with b by ring.
    split; [unfold unsigned; cbn; lia|].
    split; [reflexivity|split; [auto|]]. rewrite p256.
    unfold be_value. cbn [fold_left]. change (256 ^ Z.of_nat 1) with 256. rewrite Z.mod_small; lia.
  - destruct (One l L B) as (b & -> & Hb). unfold means_bool. cbn [le_value].
    replace (b + 256 * 0) with b by ring.
    destruct (Z.eqb_spec b 0); simpl; split; intros; try congruence.
Qed.

Lemma write_raw_fixed_spec : forall S (o : sock_ops S) d d', d = d' -> writes_fixed o (write_raw_fixed o d) d'.
Proof.
  intros S o d d' <-. unfold writes_fixed, write_raw_fixed. split.
  - intros E s. destruct (Z.eqb_spec (op_vtable o) STATUS_SUCCESS); [congruence|reflexivity].
  - intros E s. rewrite E, Z.eqb_refl. cbn [negb]. cbv zeta. repeat split.
    + intros F. destruct (Z.eqb_spec (wr_status (op_write o s d)) STATUS_SUCCESS); [congruence|reflexivity].
    + intros F G. rewrite F, Z.eqb_refl. cbn [negb].
      destruct (Nat.eqb_spec (wr_size (op_write o s d)) (length d)); [congruence|reflexivity].
    + intros F G. rewrite F, Z.eqb_refl, G, Nat.eqb_refl. reflexivity.
Qed.

Lemma be_bytes_mod : forall n u v, u mod 256 ^ Z.of_nat n = v mod 256 ^ Z.of_nat n -> be_bytes n u = be_bytes n v.
Proof. intros. rewrite <- !rev_le_bytes. f_equal. apply le_bytes_mod; auto. Qed.

Lemma hton_unsigned : forall n v, le_bytes n (sswap n (to_signed n v) mod 2 ^ (8 * Z.of_nat n)) = be_bytes n v.
Proof.
  intros. rewrite p256.
  rewrite (le_bytes_mod n _ (sswap n (to_signed n v))) by (apply Z.mod_mod; pose proof (p256_pos n); lia).
  rewrite le_bytes_sswap. apply be_bytes_mod, to_signed_mod.
Qed.

Lemma one_byte : forall v, le_bytes 1 v = be_bytes 1 v.
Proof. intros. cbn. rewrite Z.div_1_r. reflexivity. Qed.

Lemma raw_writers : forall S (o : sock_ops S) v,
  writes_fixed o (write_raw_int64 o v) (be_bytes 8 v) /\
  writes_fixed o (write_raw_uint64 o v) (be_bytes 8 v) /\
  writes_fixed o (write_raw_int32 o v) (be_bytes 4 v) /\
  writes_fixed o (write_raw_uint32 o v) (be_bytes 4 v) /\
  writes_fixed o (write_raw_int16 o v) (be_bytes 2 v) /\
  writes_fixed o (write_raw_uint16 o v) (be_bytes 2 v) /\
  writes_fixed o (write_raw_int8 o v) (be_bytes 1 v) /\
  writes_fixed o (write_raw_uint8 o v) (be_bytes 1 v) /\
  (forall b, writes_fixed o (write_raw_bool o b) [if b then 1 else 0]).
Proof.
  intros S o v.
  pose proof (le_bytes_sswap 8 v) as A8. pose proof (le_bytes_sswap 4 v) as A4. pose proof (le_bytes_sswap 2 v) as A2.
  pose proof (hton_unsigned 8 v) as U8. pose proof (hton_unsigned 4 v) as U4. pose proof (hton_unsigned 2 v) as U2.
  pose proof (one_byte v) as A1.
  split; [apply write_raw_fixed_spec, A8|]. split; [apply write_raw_fixed_spec, U8|].
  split; [apply write_raw_fixed_spec, A4|]. split; [apply write_raw_fixed_spec, U4|].
  split; [apply write_raw_fixed_spec, A2|]. split; [apply write_raw_fixed_spec, U2|].
  split; [apply write_raw_fixed_spec, A1|]. split; [apply write_raw_fixed_spec, A1|].
  intros b. apply write_raw_fixed_spec. destruct b; reflexivity.
Qed.

Lemma raw_reader_u32 : forall S (o : sock_ops S), reads_fixed o (read_raw_uint32 o) 4 (means_unsigned 4).
Proof. intros. destruct (raw_readers S o) as (_ & _ & _ & H & _). exact H. Qed.
Lemma raw_writer_u32 : forall S (o : sock_ops S) v, writes_fixed o (write_raw_uint32 o v) (be_bytes 4 v).
Proof. intros. destruct (raw_writers S o v) as (_ & _ & _ & H & _). exact H. Qed.

Lemma u4 : forall x, 0 <= x < 2^32 -> unsigned 4 x.
Proof. intros x H. exact H. Qed.

#[local] Arguments be_bytes : simpl never.
#[local] Arguments Z.eqb : simpl never.

(** ** Complete transports *)
Lemma fixed_complete : forall S V (o : sock_ops S) (rd : S -> vres S V) n means R s w l,
  reads_fixed o rd n means -> complete_reader o R -> R s (w ++ l) ->
  length w = n -> (0 < n)%nat -> Forall is_byte w ->
  exists v s', rd s = VRes STATUS_SUCCESS (Some v) s' /\ means w v /\ R s' l.
Proof.
  intros S V o rd n means R s w l (_ & H) (Vt & C) Rs Lw Hn B.
  destruct (C s (w ++ l) n Rs) as (s' & E & Rs').
  { destruct w; simpl in *; [lia|discriminate]. }
  { rewrite app_length. lia. }
  specialize (H Vt s). cbv zeta in H. destruct H as (_ & _ & H).
  assert (F: firstn n (w ++ l) = w) by (apply firstn_exact; auto).
  assert (K: skipn n (w ++ l) = l) by (apply skipn_exact; auto).
  rewrite F in E. rewrite K in Rs'.
  rewrite E in H. cbn [rr_status rr_size rr_data rr_sock] in H.
  destruct H as (v & Hv & M); auto. exists v, s'. auto.
Qed.

Lemma fixed_write_complete : forall S (o : sock_ops S) wf d W s l,
  writes_fixed o wf d -> complete_writer o W -> W s l ->
  exists s', wf s = (STATUS_SUCCESS, s') /\ W s' (l ++ d).
Proof.
  intros S o wf d W s l (_ & H) (Vt & C) Ws. destruct (C s l d Ws) as (s' & E & Ws').
  specialize (H Vt s). cbv zeta in H. rewrite E in H. cbn in H. exists s'. split; auto. apply H; auto.
Qed.

Lemma be_bytes_inj_unsigned : forall n u v, unsigned n u -> unsigned n v -> be_bytes n u = be_bytes n v -> u = v.
Proof.
  unfold unsigned. intros n u v Hu Hv E. rewrite p256 in *.
  pose proof (be_value_bytes n u). pose proof (be_value_bytes n v).
  rewrite E in H. rewrite !Z.mod_small in * by auto. congruence.
Qed.

Lemma be_bytes_inj_signed : forall n u v, (0 < n)%nat -> signed n u -> signed n v -> be_bytes n u = be_bytes n v -> u = v.
Proof.
  intros n u v Hn Hu Hv E. apply (signed_unique n); auto.
  rewrite <- !be_value_bytes. congruence.
Qed.

Lemma means_unsigned_eq : forall n u v, unsigned n u -> means_unsigned n (be_bytes n u) v -> v = u.
Proof.
  intros n u v Hu (Hv & E). apply be_encodes_unique in E. symmetry. apply (be_bytes_inj_unsigned n); auto.
Qed.
Lemma means_signed_eq : forall n u v, (0 < n)%nat -> signed n u -> means_signed n (be_bytes n u) v -> v = u.
Proof.
  intros n u v Hn Hu (Hv & E). apply be_encodes_unique in E. symmetry. apply (be_bytes_inj_signed n); auto.
Qed.

(** The tag read from a complete transport. *)
Lemma read_tag_complete : forall S (o : sock_ops S) R s t l, complete_reader o R ->
  unsigned 4 t -> R s (be_bytes 4 t ++ l) ->
  exists s', read_raw_uint32 o s = VRes STATUS_SUCCESS (Some t) s' /\ R s' l.
Proof.
  intros S o R s t l C Ht Rs.
  destruct (fixed_complete S Z o (read_raw_uint32 o) 4 (means_unsigned 4) R s (be_bytes 4 t) l) as (v & s' & E & M & Rs');
    auto; try lia.
  - apply raw_reader_u32.
  - apply be_bytes_bytes.
  - apply means_unsigned_eq in M; auto. subst. eauto.
Qed.

Lemma read_boxed_complete : forall S V (o : sock_ops S) (rd : S -> vres S V) n means R s t w l,
  reads_fixed o rd n means -> complete_reader o R -> unsigned 4 t -> R s (be_bytes 4 t ++ w ++ l) ->
  length w = n -> (0 < n)%nat -> Forall is_byte w ->
  exists v s', read_boxed o t rd s = VRes STATUS_SUCCESS (Some v) s' /\ means w v /\ R s' l.
Proof.
  intros S V o rd n means R s t w l H C Ht Rs L Hn B.
  destruct (read_tag_complete S o R s t (w ++ l) C Ht Rs) as (s1 & E & Rs1).
  unfold read_boxed. rewrite E. cbn. rewrite Z.eqb_refl. eapply fixed_complete; eauto.
Qed.

Lemma read_boxed_wrong : forall S V (o : sock_ops S) (rd : S -> vres S V) R s t t' l,
  complete_reader o R -> unsigned 4 t' -> R s (be_bytes 4 t' ++ l) -> t' <> t ->
  exists s', read_boxed o t rd s = VRes ERROR_PSOCK_READ_BOXED_INVALID_TYPE None s' /\ R s' l.
Proof.
  intros S V o rd R s t t' l C Ht Rs N.
  destruct (read_tag_complete S o R s t' l C Ht Rs) as (s1 & E & Rs1).
  unfold read_boxed. rewrite E. cbn. destruct (Z.eqb_spec t' t); [congruence|]. eauto.
Qed.

Lemma write_boxed_complete : forall S (o : sock_ops S) wf t d W s l,
  writes_fixed o wf d -> complete_writer o W -> W s l ->
  exists s', write_boxed o t wf s = (STATUS_SUCCESS, s') /\ W s' (l ++ be_bytes 4 t ++ d).
Proof.
  intros S o wf t d W s l H C Ws.
  assert (H4: writes_fixed o (write_raw_uint32 o t) (be_bytes 4 t)) by apply raw_writer_u32.
  destruct (fixed_write_complete _ _ _ _ _ _ _ H4 C Ws) as (s1 & E1 & W1).
  destruct (fixed_write_complete _ _ _ _ _ _ _ H C W1) as (s2 & E2 & W2).
  exists s2. unfold write_boxed. rewrite E1. rewrite Z.eqb_refl. cbn [negb]. rewrite app_assoc. split; [exact E2|exact W2].
Qed.

(** Strings and data. *)
Lemma overlay_block : forall d junk, overlay d (fresh_block junk (length d)) = d.
Proof.
  intros. unfold overlay. rewrite skipn_all2 by (rewrite fresh_length; lia). apply app_nil_r.
Qed.

Lemma overlay_string : forall d junk,
  overlay d (upd (fresh_block junk (S (length d))) (length d) 0) = d ++ [0].
Proof.
  intros. unfold overlay. f_equal.
  destruct (rev_case (fresh_block junk (S (length d)))) as [E|(a & x & E)].
  - pose proof (fresh_length junk (S (length d))) as L. rewrite E in L. discriminate.
  - pose proof (fresh_length junk (S (length d))) as L. rewrite E, app_length in L. simpl in L.
    rewrite E. replace (length d) with (length a) by lia. rewrite upd_app. apply skipn_exact. reflexivity.
Qed.

Lemma wrap32_small : forall x, 0 <= x < 2^32 -> wrap32 x = x.
Proof. intros. unfold wrap32. apply Z.mod_small. auto. Qed.

Lemma read_data_complete : forall S (o : sock_ops S) R s d l junk rst, complete_reader o R ->
  Z.of_nat (length d) < 2^32 -> d ++ l <> [] ->
  R s (be_bytes 4 PSOCK_BOXED_TYPE_DATA ++ be_bytes 4 (Z.of_nat (length d)) ++ d ++ l) ->
  exists s', read_boxed_data o STATUS_SUCCESS rst junk s
    = BRes STATUS_SUCCESS (Some (d, Z.of_nat (length d))) [d] s' /\ R s' l.
Proof.
  intros S o R s d l junk rst C Hd Ne Rs.
  destruct (read_tag_complete S o R s _ _ C (u4 PSOCK_BOXED_TYPE_DATA ltac:(vm_compute; split; congruence)) Rs) as (s1 & E1 & R1).
  destruct (read_tag_complete S o R s1 (Z.of_nat (length d)) (d ++ l) C (u4 (Z.of_nat (length d)) ltac:(lia)) R1) as (s2 & E2 & R2).
  unfold read_boxed_data. rewrite E1. cbn [v_val v_sock]. rewrite Z.eqb_refl. cbn [negb].
  rewrite E2. cbn [v_val v_sock]. rewrite Z.eqb_refl. cbn [negb].
  destruct C as (Vt & C). rewrite Vt, Z.eqb_refl. cbn [negb]. rewrite Nat2Z.id.
  destruct (C s2 (d ++ l) (length d) R2 Ne) as (s3 & E3 & R3); [rewrite app_length; lia|].
  rewrite E3. cbn [rr_status rr_size rr_data rr_sock]. rewrite Z.eqb_refl. cbn [negb]. rewrite Z.eqb_refl. cbn [negb].
  rewrite firstn_exact by reflexivity. rewrite overlay_block. rewrite skipn_exact in R3 by reflexivity. eauto.
Qed.

Lemma read_string_complete : forall S (o : sock_ops S) R s d l junk rst, complete_reader o R ->
  Z.of_nat (length d) < 2^32 - 1 -> d ++ l <> [] ->
  R s (be_bytes 4 PSOCK_BOXED_TYPE_STRING ++ be_bytes 4 (Z.of_nat (length d)) ++ d ++ l) ->
  exists s', read_boxed_string o STATUS_SUCCESS rst junk s
    = BRes STATUS_SUCCESS (Some (d ++ [0], Z.of_nat (length d))) [d ++ [0]] s' /\ R s' l.
Proof.
  intros S o R s d l junk rst C Hd Ne Rs.
  destruct (read_tag_complete S o R s _ _ C (u4 PSOCK_BOXED_TYPE_STRING ltac:(vm_compute; split; congruence)) Rs) as (s1 & E1 & R1).
  destruct (read_tag_complete S o R s1 (Z.of_nat (length d)) (d ++ l) C (u4 (Z.of_nat (length d)) ltac:(lia)) R1) as (s2 & E2 & R2).
  unfold read_boxed_string. rewrite E1. cbn [v_val v_sock]. rewrite Z.eqb_refl. cbn [negb].
  rewrite E2. cbn [v_val v_sock].
  destruct (Z.eqb_spec (Z.of_nat (length d)) (2^32 - 1)); [lia|]. rewrite Z.eqb_refl. cbn [negb].
  destruct C as (Vt & C). rewrite Vt, Z.eqb_refl. cbn [negb].
  rewrite wrap32_small by lia. rewrite Nat2Z.id.
  replace (Z.to_nat (Z.of_nat (length d) + 1)) with (Datatypes.S (length d)) by lia.
  destruct (C s2 (d ++ l) (length d) R2 Ne) as (s3 & E3 & R3); [rewrite app_length; lia|].
  rewrite E3. cbn [rr_status rr_size rr_data rr_sock]. rewrite Z.eqb_refl. cbn [negb]. rewrite Z.eqb_refl. cbn [negb].
  rewrite firstn_exact by reflexivity. rewrite overlay_string. rewrite skipn_exact in R3 by reflexivity. eauto.
Qed.

Lemma write_data_complete : forall S (o : sock_ops S) W s l d, complete_writer o W -> W s l ->
  exists s', write_boxed_data o d s = (STATUS_SUCCESS, s') /\
    W s' (l ++ be_bytes 4 PSOCK_BOXED_TYPE_DATA ++ be_bytes 4 (wrap32 (Z.of_nat (length d))) ++ d).
Proof.
  intros S o W s l d C Ws.
  assert (H: forall t, writes_fixed o (write_raw_uint32 o t) (be_bytes 4 t)) by (intros; apply raw_writer_u32).
  destruct (fixed_write_complete _ _ _ _ _ _ _ (H PSOCK_BOXED_TYPE_DATA) C Ws) as (s1 & E1 & W1).
  destruct (fixed_write_complete _ _ _ _ _ _ _ (H (wrap32 (Z.of_nat (length d)))) C W1) as (s2 & E2 & W2).
  unfold write_boxed_data. rewrite E1. cbn [negb]. rewrite Z.eqb_refl. cbn [negb]. rewrite E2.
  rewrite Z.eqb_refl. cbn [negb]. destruct C as (Vt & C). rewrite Vt, Z.eqb_refl. cbn [negb].
  destruct (C s2 _ d W2) as (s3 & E3 & W3). rewrite E3. cbn [wr_status wr_size wr_sock].
  rewrite Z.eqb_refl, Nat.eqb_refl. cbn [negb]. exists s3. split; auto.
  match type of W3 with W _ ?x => match goal with |- _ _ ?y => replace y with x by lapp end end. auto.
Qed.

Lemma cstring_buf : forall t, Forall is_char t -> cstring_at (t ++ [0]) 0 t.
Proof. intros. exists [], []. split; auto. Qed.

Lemma c_strlen_at : forall b p s, cstring_at b p s -> c_strlen b p = Some (length s).
Proof.
  intros b p s (pre & post & -> & <- & Hs). unfold c_strlen. rewrite find_nul_run by auto.
  replace (length pre + length s - length pre)%nat with (length s) by lia. reflexivity.
Qed.

Lemma write_string_complete : forall S (o : sock_ops S) W s l b p t, complete_writer o W -> W s l ->
  cstring_at b p t -> Z.of_nat (length t) < 2^32 - 1 ->
  exists s', write_boxed_string o b p s = Some (STATUS_SUCCESS, s') /\
    W s' (l ++ be_bytes 4 PSOCK_BOXED_TYPE_STRING ++ be_bytes 4 (Z.of_nat (length t)) ++ t).
Proof.
  intros S o W s l b p t C Ws Hc Hl.
  assert (H: forall t, writes_fixed o (write_raw_uint32 o t) (be_bytes 4 t)) by (intros; apply raw_writer_u32).
  destruct (fixed_write_complete _ _ _ _ _ _ _ (H PSOCK_BOXED_TYPE_STRING) C Ws) as (s1 & E1 & W1).
  destruct (fixed_write_complete _ _ _ _ _ _ _ (H (wrap32 (Z.of_nat (length t)))) C W1) as (s2 & E2 & W2).
  unfold write_boxed_string. rewrite (c_strlen_at _ _ _ Hc).
  destruct (Z.leb_spec (2^32 - 1) (Z.of_nat (length t))); [lia|].
  rewrite E1. rewrite Z.eqb_refl. cbn [negb]. rewrite E2.
  rewrite Z.eqb_refl. cbn [negb]. destruct C as (Vt & C). rewrite Vt, Z.eqb_refl. cbn [negb].
  assert (F: firstn (length t) (skipn p b) = t).
  { destruct Hc as (pre & post & -> & Hp & _). rewrite skipn_exact by auto. apply firstn_exact. reflexivity. }
  rewrite F.
  destruct (C s2 _ t W2) as (s3 & E3 & W3). rewrite E3. cbn [wr_status wr_size wr_sock].
  rewrite Z.eqb_refl, Nat.eqb_refl. cbn [negb]. exists s3. split; auto.
  rewrite wrap32_small in W3 by lia.
  match type of W3 with W _ ?x => match goal with |- _ _ ?y => replace y with x by lapp end end. auto.
Qed.

(** One value *)
Lemma call_writer_complete : forall S (o : sock_ops S) W s l v, complete_writer o W -> W s l -> valid v ->
  exists s', call_writer o v s = Some (STATUS_SUCCESS, s') /\ W s' (l ++ wire v).
Proof.
  intros S o W s l v C Ws Hv.
  assert (G: forall wf t d, writes_fixed o wf d ->
    exists s', Some (write_boxed o t wf s) = Some (STATUS_SUCCESS, s') /\ W s' (l ++ be_bytes 4 t ++ d)).
  { intros wf t d H. destruct (write_boxed_complete S o wf t d W s l H C Ws) as (s' & E & W').
    exists s'. split; [f_equal; auto|auto]. }
  destruct v; cbn [call_writer valid] in *;
    try (match goal with |- context [wire (?c ?x)] => destruct (raw_writers S o x) as (W8 & U8 & W4 & U4 & W2 & U2 & W1 & U1 & _) end;
         unfold write_boxed_int64, write_boxed_uint64, write_boxed_int32, write_boxed_uint32,
           write_boxed_int16, write_boxed_uint16, write_boxed_int8, write_boxed_uint8;
         first [exact (G _ _ _ W8)|exact (G _ _ _ U8)|exact (G _ _ _ W4)|exact (G _ _ _ U4)|exact (G _ _ _ W2)|exact (G _ _ _ U2)|exact (G _ _ _ W1)|exact (G _ _ _ U1)]).
  - destruct (raw_writers S o 0) as (_ & _ & _ & _ & _ & _ & _ & _ & WB). exact (G _ _ _ (WB b)).
  - destruct Hv as (Hc & Hl). apply write_string_complete; auto. apply cstring_buf; auto.
  - destruct (write_data_complete S o W s l d C Ws) as (s' & E & W'). exists s'. split; [f_equal; auto|].
    rewrite wrap32_small in W' by lia. auto.
Qed.


Lemma call_reader_complete : forall S (o : sock_ops S) R s l v rst junk, complete_reader o R -> valid v ->
  R s (wire v ++ l) -> (is_empty_block v -> l <> []) ->
  exists s', call_reader o STATUS_SUCCESS rst junk (kind_of v) s = (STATUS_SUCCESS, Some (delivered v), s') /\ R s' l.
Proof.
  intros S o R s l v rst junk C Hv Rs He.
  assert (G: forall (rd : S -> vres S Z) n m t u, reads_fixed o rd n m -> unsigned 4 t ->
    R s (be_bytes 4 t ++ be_bytes n u ++ l) -> (0 < n)%nat -> (forall v, m (be_bytes n u) v -> v = u) ->
    exists s', box_int (read_boxed o t rd s) = (STATUS_SUCCESS, Some (GotInt u), s') /\ R s' l).
  { intros rd n m t u H Ht Rt Hn Hu.
    destruct (read_boxed_complete S Z o rd n m R s t (be_bytes n u) l) as (v' & s' & E & M & R'); auto.
    - apply be_bytes_length.
    - apply be_bytes_bytes.
    - apply Hu in M. subst. exists s'. rewrite E. auto. }
  assert (T: forall t, 0 <= t < 256 -> unsigned 4 t)
    by (intros; apply u4; lia).
  destruct (raw_readers S o) as (R8 & U8 & R4 & U4 & R2 & U2 & R1 & U1 & RB).
  destruct v; cbn [call_reader kind_of valid delivered] in *;
    unfold read_boxed_int64, read_boxed_uint64, read_boxed_int32, read_boxed_uint32,
           read_boxed_int16, read_boxed_uint16, read_boxed_int8, read_boxed_uint8;
    try (eapply G; [first [exact R8|exact U8|exact R4|exact U4|exact R2|exact U2|exact R1|exact U1]|apply T; vm_compute; split; congruence|exact Rs|lia|
          intros; first [apply means_signed_eq in H; [exact H|lia|exact Hv]|apply means_unsigned_eq in H; [exact H|exact Hv]]]).
  - destruct (read_boxed_complete S bool o (read_raw_bool o) 1 means_bool R s PSOCK_BOXED_TYPE_BOOL [if b then 1 else 0] l)
      as (v' & s' & E & M & R'); auto.
    + apply T; vm_compute; split; congruence.
    + destruct b; all_chars.
    + exists s'. unfold read_boxed_bool. rewrite E. split; auto. unfold box_bool. cbn. do 3 f_equal.
      unfold means_bool in M. destruct b, v'; auto; [destruct M as (M & _); specialize (M eq_refl); discriminate
        |destruct M as (_ & M); specialize (M eq_refl); discriminate].
  - destruct Hv as (Hc & Hl).
    destruct (read_string_complete S o R s s0 l junk rst C Hl) as (s' & E & R').
    + destruct s0; [apply He; left; reflexivity|discriminate].
    + cbn [wire] in Rs. match type of Rs with R _ ?x => match goal with |- _ _ ?y => replace y with x by lapp end end. auto.
    + exists s'. rewrite E. auto.
  - destruct Hv as (Hc & Hl).
    destruct (read_data_complete S o R s d l junk rst C Hl) as (s' & E & R').
    + destruct d; [apply He; right; reflexivity|discriminate].
    + cbn [wire] in Rs. match type of Rs with R _ ?x => match goal with |- _ _ ?y => replace y with x by lapp end end. auto.
    + exists s'. rewrite E. auto.
Qed.

(** Sequences *)
Lemma write_all_complete : forall S (o : sock_ops S) W vs s l, complete_writer o W -> W s l -> Forall valid vs ->
  exists s', write_all o vs s = Some (STATUS_SUCCESS, s') /\ W s' (l ++ concat (map wire vs)).
Proof.
  intros S o W vs. induction vs as [|v vs IH]; intros s l C Ws Hv.
  - exists s. cbn. rewrite app_nil_r. auto.
  - inversion Hv; subst. destruct (call_writer_complete S o W s l v C Ws) as (s1 & E & W1); auto.
    destruct (IH s1 _ C W1) as (s2 & E2 & W2); auto.
    exists s2. cbn [write_all map concat]. rewrite E. cbn. rewrite app_assoc. auto.
Qed.


Lemma wire_nonempty : forall v, wire v <> [].
Proof. destruct v; discriminate. Qed.

Lemma read_all_complete : forall S (o : sock_ops S) R rst junk vs s l, complete_reader o R -> Forall valid vs ->
  R s (concat (map wire vs) ++ l) -> (no_trailing_empty vs \/ l <> []) ->
  exists s', read_all o STATUS_SUCCESS rst junk (map kind_of vs) s = (STATUS_SUCCESS, map delivered vs, s') /\ R s' l.
Proof.
  intros S o R rst junk vs. induction vs as [|v vs IH]; intros s l C Hv Rs He.
  - exists s. auto.
  - inversion Hv as [|? ? Hv1 Hv2]; subst. cbn [map concat] in Rs. rewrite <- app_assoc in Rs.
    destruct (call_reader_complete S o R s _ v rst junk C Hv1 Rs) as (s1 & E & R1).
    { intros Em. destruct vs as [|w vs].
      - destruct He as [He|He]; [|exact He]. exfalso. exact (He [] v eq_refl Em).
      - cbn [map concat]. pose proof (wire_nonempty w). destruct (wire w); [congruence|discriminate]. }
    destruct (IH s1 l C) as (s2 & E2 & R2); auto.
    { destruct He as [He|He]; [|auto]. left. intros a w Ea. apply (He (v :: a) w). rewrite Ea. reflexivity. }
    exists s2. cbn [read_all map]. rewrite E. cbn. rewrite E2. auto.
Qed.

(** C09: any other tag. *)
Lemma tag_value : forall k, exists t, tag_of k = be_bytes 4 t /\ unsigned 4 t.
Proof.
  assert (T: forall t, 0 <= t < 256 -> unsigned 4 t)
    by (intros; apply u4; lia).
  destruct k; [exists 16|exists 17|exists 18|exists 19|exists 20|exists 21|exists 22|exists 23|exists 24|exists 32|exists 34];
    (split; [reflexivity|apply T; lia]).
Qed.

Lemma wrong_type : forall S (o : sock_ops S) R ast rst junk k s tag l,
  complete_reader o R -> length tag = 4%nat -> Forall is_byte tag -> tag <> tag_of k ->
  R s (tag ++ l) ->
  exists s', call_reader o ast rst junk k s = (ERROR_PSOCK_READ_BOXED_INVALID_TYPE, None, s') /\ R s' l.
Proof.
  intros S o R ast rst junk k s tag l C L B N Rs.
  assert (E: tag = be_bytes 4 (be_value tag)) by (rewrite <- (be_bytes_value tag B) at 1; rewrite L; reflexivity).
  assert (U: unsigned 4 (be_value tag)).
  { unfold unsigned. rewrite p256, be_value_rev, <- L, <- (rev_length tag). apply le_value_range, Forall_rev; auto. }
  rewrite E in Rs.
  assert (GI: forall (rd : S -> vres S Z) t, be_bytes 4 t = tag_of k ->
     exists s', box_int (read_boxed o t rd s) = (ERROR_PSOCK_READ_BOXED_INVALID_TYPE, None, s') /\ R s' l).
  { intros rd t Ht. destruct (read_boxed_wrong S Z o rd R s t _ l C U Rs) as (s' & F & R'); [congruence|].
    exists s'. rewrite F. auto. }
  destruct k; cbn [call_reader]; try (apply GI; reflexivity).
  - destruct (read_boxed_wrong S bool o (read_raw_bool o) R s PSOCK_BOXED_TYPE_BOOL _ l C U Rs) as (s' & F & R').
    { intros X. apply N. rewrite E, X. reflexivity. }
    exists s'. unfold read_boxed_bool. rewrite F. auto.
  - destruct (read_tag_complete S o R s _ l C U Rs) as (s' & F & R'). exists s'.
    unfold read_boxed_string. rewrite F. cbn [v_val v_sock].
    destruct (Z.eqb_spec (be_value tag) PSOCK_BOXED_TYPE_STRING); [exfalso; apply N; rewrite E, e; reflexivity|].
    auto.
  - destruct (read_tag_complete S o R s _ l C U Rs) as (s' & F & R'). exists s'.
    unfold read_boxed_data. rewrite F. cbn [v_val v_sock].
    destruct (Z.eqb_spec (be_value tag) PSOCK_BOXED_TYPE_DATA); [exfalso; apply N; rewrite E, e; reflexivity|].
    auto.
Qed.

(** ** Any transport *)
Lemma read_boxed_tagged : forall S V (o : sock_ops S) t (rd : S -> vres S V), reads_tagged o (read_boxed o t rd) rd t.
Proof.
  intros S V o t rd s. cbv zeta. unfold read_boxed.
  destruct (v_val (read_raw_uint32 o s)) as [x|] eqn:E; (split; [|split]); intros; try discriminate; auto.
  - injection H as <-. destruct (Z.eqb_spec x t); [congruence|reflexivity].
  - injection H as ->. rewrite Z.eqb_refl. reflexivity.
Qed.

Lemma boxed_readers : forall S (o : sock_ops S),
  reads_tagged o (read_boxed_int64 o) (read_raw_int64 o) 16 /\
  reads_tagged o (read_boxed_uint64 o) (read_raw_uint64 o) 17 /\
  reads_tagged o (read_boxed_int32 o) (read_raw_int32 o) 18 /\
  reads_tagged o (read_boxed_uint32 o) (read_raw_uint32 o) 19 /\
  reads_tagged o (read_boxed_int16 o) (read_raw_int16 o) 20 /\
  reads_tagged o (read_boxed_uint16 o) (read_raw_uint16 o) 21 /\
  reads_tagged o (read_boxed_int8 o) (read_raw_int8 o) 22 /\
  reads_tagged o (read_boxed_uint8 o) (read_raw_uint8 o) 23 /\
  reads_tagged o (read_boxed_bool o) (read_raw_bool o) 24.
Proof.
  intros S o. assert (SP: forall (A B : Prop), A -> B -> A /\ B) by auto.
  repeat (apply SP; [exact (read_boxed_tagged _ _ o _ _)|]). exact (read_boxed_tagged _ _ o _ _).
Qed.

Lemma write_boxed_tagged : forall S (o : sock_ops S) t wf, writes_tagged o (write_boxed o t wf) wf t.
Proof.
  intros S o t wf s. cbv zeta. unfold write_boxed. destruct (write_raw_uint32 o t s) as [e s1]. cbn [fst snd].
  destruct (Z.eqb_spec e STATUS_SUCCESS); split; intros; try congruence; reflexivity.
Qed.

Lemma boxed_writers : forall S (o : sock_ops S) v,
  writes_tagged o (write_boxed_int64 o v) (write_raw_int64 o v) 16 /\
  writes_tagged o (write_boxed_uint64 o v) (write_raw_uint64 o v) 17 /\
  writes_tagged o (write_boxed_int32 o v) (write_raw_int32 o v) 18 /\
  writes_tagged o (write_boxed_uint32 o v) (write_raw_uint32 o v) 19 /\
  writes_tagged o (write_boxed_int16 o v) (write_raw_int16 o v) 20 /\
  writes_tagged o (write_boxed_uint16 o v) (write_raw_uint16 o v) 21 /\
  writes_tagged o (write_boxed_int8 o v) (write_raw_int8 o v) 22 /\
  writes_tagged o (write_boxed_uint8 o v) (write_raw_uint8 o v) 23 /\
  (forall b, writes_tagged o (write_boxed_bool o b) (write_raw_bool o b) 24).
Proof.
  intros S o v. assert (SP: forall (A B : Prop), A -> B -> A /\ B) by auto.
  repeat (apply SP; [exact (write_boxed_tagged _ o _ _)|]). intros b. exact (write_boxed_tagged _ o _ _).
Qed.

Lemma cleanup_error : forall S e rst (s : S), e <> STATUS_SUCCESS -> cleanup e rst s = BRes e None [] s.
Proof. intros. unfold cleanup. destruct (Z.eqb_spec e STATUS_SUCCESS); [congruence|reflexivity]. Qed.

Lemma read_u32_vt : forall S (o : sock_ops S) s x, v_val (read_raw_uint32 o s) = Some x -> op_vtable o = STATUS_SUCCESS.
Proof.
  intros S o s x. unfold read_raw_uint32, read_raw_fixed.
  destruct (Z.eqb_spec (op_vtable o) STATUS_SUCCESS); auto. discriminate.
Qed.

Lemma read_data_any : forall S (o : sock_ops S) ast rst junk,
  reads_block o (read_boxed_data o ast rst junk) ast 34 (fun _ => False) (fun d => d).
Proof.
  intros S o ast rst junk s. cbv zeta. unfold read_boxed_data.
  destruct (v_val (read_raw_uint32 o s)) as [x|] eqn:E.
  2:{ split; [auto|]. split; intros; discriminate. }
  split; [intros; discriminate|]. split.
  - intros y Hy N. injection Hy as <-. unfold PSOCK_BOXED_TYPE_DATA.
    destruct (Z.eqb_spec x 34); [congruence|reflexivity].
  - intros Hx. injection Hx as ->. unfold PSOCK_BOXED_TYPE_DATA. rewrite Z.eqb_refl. cbn [negb].
    rewrite (read_u32_vt _ _ _ _ E).
    destruct (v_val (read_raw_uint32 o (v_sock (read_raw_uint32 o s)))) as [z|] eqn:F.
    2:{ split; [auto|intros; discriminate]. }
    split; [intros; discriminate|]. intros size Hs. injection Hs as ->.
    split; [tauto|]. split; [|split; [|split]].
    + intros _ N. destruct (Z.eqb_spec ast STATUS_SUCCESS); [congruence|reflexivity].
    + intros _ -> N. rewrite Z.eqb_refl. cbn [negb].
      destruct (Z.eqb_spec (rr_status (op_read o (v_sock (read_raw_uint32 o (v_sock (read_raw_uint32 o s)))) (Z.to_nat size) true)) STATUS_SUCCESS); [congruence|].
      cbn [negb]. apply cleanup_error; auto.
    + intros _ -> K N. rewrite Z.eqb_refl. cbn [negb]. rewrite K, Z.eqb_refl. cbn [negb].
      destruct (Z.eqb_spec (Z.of_nat (rr_size (op_read o (v_sock (read_raw_uint32 o (v_sock (read_raw_uint32 o s)))) (Z.to_nat size) true))) size); [congruence|].
      cbn [negb]. apply cleanup_error. discriminate.
    + intros _ -> K Q L _. rewrite Z.eqb_refl. cbn [negb]. rewrite K, Z.eqb_refl, Q, Z.eqb_refl. cbn [negb].
      replace (Z.to_nat size) with (length (rr_data (op_read o (v_sock (read_raw_uint32 o (v_sock (read_raw_uint32 o s)))) (Z.to_nat size) true))) at 2 4 by lia.
      rewrite overlay_block. reflexivity.
Qed.

Lemma read_string_any : forall S (o : sock_ops S) ast rst junk,
  reads_block o (read_boxed_string o ast rst junk) ast 32 (fun size => size = 2^32 - 1) (fun d => d ++ [0]).
Proof.
  intros S o ast rst junk s. cbv zeta. unfold read_boxed_string.
  destruct (v_val (read_raw_uint32 o s)) as [x|] eqn:E.
  2:{ split; [auto|]. split; intros; discriminate. }
  split; [intros; discriminate|]. split.
  - intros y Hy N. injection Hy as <-. unfold PSOCK_BOXED_TYPE_STRING.
    destruct (Z.eqb_spec x 32); [congruence|reflexivity].
  - intros Hx. injection Hx as ->. unfold PSOCK_BOXED_TYPE_STRING. rewrite Z.eqb_refl. cbn [negb].
    rewrite (read_u32_vt _ _ _ _ E).
    destruct (v_val (read_raw_uint32 o (v_sock (read_raw_uint32 o s)))) as [z|] eqn:F.
    2:{ split; [auto|intros; discriminate]. }
    split; [intros; discriminate|]. intros size Hs. injection Hs as ->.
    split; [intros ->; rewrite Z.eqb_refl; reflexivity|]. split; [|split; [|split]];
      intros Big; (destruct (Z.eqb_spec size (2^32 - 1)); [congruence|]).
    + intros N. destruct (Z.eqb_spec ast STATUS_SUCCESS); [congruence|reflexivity].
    + intros -> N. rewrite Z.eqb_refl. cbn [negb].
      destruct (Z.eqb_spec (rr_status (op_read o (v_sock (read_raw_uint32 o (v_sock (read_raw_uint32 o s)))) (Z.to_nat size) true)) STATUS_SUCCESS); [congruence|].
      cbn [negb]. apply cleanup_error; auto.
    + intros -> K N. rewrite Z.eqb_refl. cbn [negb]. rewrite K, Z.eqb_refl. cbn [negb].
      destruct (Z.eqb_spec (Z.of_nat (rr_size (op_read o (v_sock (read_raw_uint32 o (v_sock (read_raw_uint32 o s)))) (Z.to_nat size) true))) size); [congruence|].
      cbn [negb]. apply cleanup_error. discriminate.
    + intros -> K Q L Hz. rewrite Z.eqb_refl. cbn [negb]. rewrite K, Z.eqb_refl, Q, Z.eqb_refl. cbn [negb].
      rewrite wrap32_small by lia.
      set (r := op_read o (v_sock (read_raw_uint32 o (v_sock (read_raw_uint32 o s)))) (Z.to_nat size) true) in *.
      replace (Z.to_nat (size + 1)) with (Datatypes.S (length (rr_data r))) by lia.
      replace (Z.to_nat size) with (length (rr_data r)) by lia.
      rewrite overlay_string. reflexivity.
Qed.

Lemma write_u32_vt : forall S (o : sock_ops S) v s, fst (write_raw_uint32 o v s) = STATUS_SUCCESS -> op_vtable o = STATUS_SUCCESS.
Proof.
  intros S o v s. unfold write_raw_uint32, write_raw_fixed.
  destruct (Z.eqb_spec (op_vtable o) STATUS_SUCCESS); auto.
Qed.

Lemma write_data_any : forall S (o : sock_ops S) d, writes_block o (write_boxed_data o d) 34 d.
Proof.
  intros S o d s. cbv zeta. unfold write_boxed_data, PSOCK_BOXED_TYPE_DATA, wrap32.
  pose proof (write_u32_vt S o 34 s) as Vt.
  destruct (write_raw_uint32 o 34 s) as [e1 s1]. cbn [fst snd] in *.
  destruct (write_raw_uint32 o (Z.of_nat (length d) mod 2^32) s1) as [e2 s2]. cbn [fst snd].
  destruct (Z.eqb_spec e1 STATUS_SUCCESS); cbn [negb].
  2:{ repeat split; intros; congruence. }
  rewrite Vt by auto.
  destruct (Z.eqb_spec e2 STATUS_SUCCESS); cbn [negb].
  2:{ repeat split; intros; congruence. }
  rewrite Z.eqb_refl. cbn [negb].
  destruct (Z.eqb_spec (wr_status (op_write o s2 d)) STATUS_SUCCESS); cbn [negb].
  2:{ repeat split; intros; congruence. }
  destruct (Nat.eqb_spec (length d) (wr_size (op_write o s2 d))); cbn [negb];
    repeat split; intros; congruence.
Qed.

Lemma write_string_any : forall S (o : sock_ops S) b p t, cstring_at b p t ->
  (2^32 - 1 <= Z.of_nat (length t) -> forall s, write_boxed_string o b p s = Some (ERROR_PSOCK_WRITE_INVALID_SIZE, s)) /\
  (Z.of_nat (length t) < 2^32 - 1 ->
     exists wf, (forall s, write_boxed_string o b p s = Some (wf s)) /\ writes_block o wf 32 t).
Proof.
  intros S o b p t Hc. unfold write_boxed_string. rewrite (c_strlen_at _ _ _ Hc).
  assert (F: firstn (length t) (skipn p b) = t).
  { destruct Hc as (pre & post & -> & Hp & _). rewrite skipn_exact by auto. apply firstn_exact. reflexivity. }
  rewrite F. split.
  - intros H s. destruct (Z.leb_spec (2^32 - 1) (Z.of_nat (length t))); [reflexivity|lia].
  - intros H. destruct (Z.leb_spec (2^32 - 1) (Z.of_nat (length t))); [lia|].
    exists (fun s => let (st1, s1) := write_raw_uint32 o PSOCK_BOXED_TYPE_STRING s in
              if negb (st1 =? STATUS_SUCCESS) then (st1, s1) else
              let (st2, s2) := write_raw_uint32 o (wrap32 (Z.of_nat (length t))) s1 in
              if negb (st2 =? STATUS_SUCCESS) then (st2, s2) else
              if negb (op_vtable o =? STATUS_SUCCESS) then (op_vtable o, s2) else
              let r := op_write o s2 t in
              if negb (wr_status r =? STATUS_SUCCESS) then (wr_status r, wr_sock r)
              else if negb (length t =? wr_size r)%nat then (ERROR_PSOCK_WRITE_INVALID_SIZE, wr_sock r)
              else (STATUS_SUCCESS, wr_sock r)).
    split.
    + intros s. destruct (write_raw_uint32 o PSOCK_BOXED_TYPE_STRING s) as [e1 s1].
      destruct (negb (e1 =? STATUS_SUCCESS)); [reflexivity|].
      destruct (write_raw_uint32 o (wrap32 (Z.of_nat (length t))) s1) as [e2 s2].
      destruct (negb (e2 =? STATUS_SUCCESS)); [reflexivity|].
      destruct (negb (op_vtable o =? STATUS_SUCCESS)); [reflexivity|]. cbv zeta.
      destruct (negb (wr_status (op_write o s2 t) =? STATUS_SUCCESS)); [reflexivity|].
      destruct (negb (length t =? wr_size (op_write o s2 t))%nat); reflexivity.
    + intros s. cbv zeta. unfold PSOCK_BOXED_TYPE_STRING, wrap32.
      pose proof (write_u32_vt S o 32 s) as Vt.
      destruct (write_raw_uint32 o 32 s) as [e1 s1]. cbn [fst snd] in *.
      destruct (write_raw_uint32 o (Z.of_nat (length t) mod 2^32) s1) as [e2 s2]. cbn [fst snd].
      destruct (Z.eqb_spec e1 STATUS_SUCCESS); cbn [negb].
      2:{ repeat split; intros; congruence. }
      rewrite Vt by auto.
      destruct (Z.eqb_spec e2 STATUS_SUCCESS); cbn [negb].
      2:{ repeat split; intros; congruence. }
      rewrite Z.eqb_refl. cbn [negb].
      destruct (Z.eqb_spec (wr_status (op_write o s2 t)) STATUS_SUCCESS); cbn [negb].
      2:{ repeat split; intros; congruence. }
      destruct (Nat.eqb_spec (length t) (wr_size (op_write o s2 t))); cbn [negb];
        repeat split; intros; congruence.
Qed.

(** ** C10 *)
Lemma data_truncated : forall S (o : sock_ops S) W R s s0 l d rst junk, complete_writer o W -> complete_reader o R ->
  W s l -> 2^32 <= Z.of_nat (length d) ->
  exists s' , write_boxed_data o d s = (STATUS_SUCCESS, s') /\
    exists frame, W s' (l ++ frame) /\
      (R s0 frame ->
       let n := Z.of_nat (length d) mod 2^32 in
       exists s1, read_boxed_data o STATUS_SUCCESS rst junk s0
           = BRes STATUS_SUCCESS (Some (firstn (Z.to_nat n) d, n)) [firstn (Z.to_nat n) d] s1 /\
         n <> Z.of_nat (length d) /\ R s1 (skipn (Z.to_nat n) d) /\ skipn (Z.to_nat n) d <> []).
Proof.
  intros S o W R s s0 l d rst junk CW CR Ws Hd.
  destruct (write_data_complete S o W s l d CW Ws) as (s' & E & W').
  exists s'. split; auto. eexists. split; [exact W'|]. intros Rs. cbv zeta.
  unfold wrap32 in Rs. set (n := Z.of_nat (length d) mod 2^32) in *.
  assert (Hn: 0 <= n < 2^32) by (apply Z.mod_pos_bound; lia).
  assert (L: length (firstn (Z.to_nat n) d) = Z.to_nat n) by (rewrite firstn_length; lia).
  destruct (read_data_complete S o R s0 (firstn (Z.to_nat n) d) (skipn (Z.to_nat n) d) junk rst CR) as (s1 & E1 & R1).
  - rewrite L. lia.
  - rewrite firstn_skipn. destruct d; [simpl in Hd; lia|discriminate].
  - rewrite firstn_skipn, L, Z2Nat.id by lia. exact Rs.
  - exists s1. rewrite L, Z2Nat.id in E1 by lia. split; [exact E1|]. split; [lia|]. split; [exact R1|].
    intros K. apply (f_equal (@length Z)) in K. rewrite skipn_length in K. simpl in K. lia.
Qed.

(** ** C11: transfer loops *)
Lemma read_loop_spec : forall S (o : sock_ops S) R fuel s l n got, honest_reader o R -> R s l -> (n < fuel)%nat ->
  (exists d s', reads_to o s n d s' 0 /\ length d = n /\ (exists l', l = d ++ l' /\ R s' l') /\
     read_loop fuel o s got n = Some (STATUS_SUCCESS, got ++ d, 0%nat, s')) \/
  (exists d s1 m, reads_to o s n d s1 m /\ m <> 0%nat /\ let q := op_read o s1 m true in
     ((rr_status q <> STATUS_SUCCESS /\ read_loop fuel o s got n = Some (rr_status q, got ++ d, m, rr_sock q)) \/
      (rr_status q = STATUS_SUCCESS /\ rr_size q = 0%nat /\ read_loop fuel o s got n = Some (STATUS_SUCCESS, got ++ d, m, rr_sock q)))).
Proof.
  intros S o R. induction fuel as [|f IH]; intros s l n got HR Rs Hf; [lia|].
  cbn [read_loop]. destruct (Nat.eqb_spec n 0) as [->|Hn].
  { left. exists [], s. rewrite app_nil_r. repeat split; auto. constructor. exists l. auto. }
  set (q := op_read o s n true).
  destruct (Z.eqb_spec (rr_status q) STATUS_SUCCESS) as [Eq|Nq]; cbn [negb].
  2:{ right. exists [], s, n. rewrite app_nil_r. split; [constructor|]. split; [assumption|]. left. auto. }
  destruct (Nat.eqb_spec (rr_size q) 0) as [Zq|Pq].
  { right. exists [], s, n. rewrite app_nil_r. split; [constructor|]. split; [assumption|]. right. auto. }
  destruct (HR s l n Rs Eq) as (Hle & Hlen & l' & -> & Rs'). fold q in Hle, Hlen, Rs'. fold q.
  destruct (IH (rr_sock q) l' (n - rr_size q)%nat (got ++ rr_data q) HR Rs') as [(d & s' & RT & Ld & (l2 & -> & R2) & Er)|(d & s1 & m & RT & Hm & Er)]; [lia| |].
  - left. exists (rr_data q ++ d), s'. split; [apply reads_step; auto|]. split; [rewrite app_length; lia|].
    split; [exists l2; split; [lapp|auto]|]. rewrite Er. do 4 f_equal. lapp.
  - right. exists (rr_data q ++ d), s1, m. split; [apply reads_step; auto|]. split; auto.
    rewrite app_assoc. exact Er.
Qed.

Lemma read_raw_data_spec : forall S (o : sock_ops S) R ast rst junk n s l, honest_reader o R -> R s l ->
  exists r, read_raw_data o ast rst junk n s = Some r /\
    (ast <> STATUS_SUCCESS -> r = BRes ast None [] s) /\
    (ast = STATUS_SUCCESS -> op_vtable o <> STATUS_SUCCESS -> r = BRes (op_vtable o) None [] s) /\
    (ast = STATUS_SUCCESS -> op_vtable o = STATUS_SUCCESS ->
      (exists d s', reads_to o s n d s' 0 /\ length d = n /\ (exists l', l = d ++ l' /\ R s' l') /\
         r = BRes STATUS_SUCCESS (Some (d, Z.of_nat n)) [d] s') \/
      (exists d s1 m, reads_to o s n d s1 m /\ m <> 0%nat /\ let q := op_read o s1 m true in
         ((rr_status q <> STATUS_SUCCESS /\ r = BRes (rr_status q) None [] (rr_sock q)) \/
          (rr_status q = STATUS_SUCCESS /\ rr_size q = 0%nat /\
           r = BRes ERROR_PSOCK_READ_INVALID_SIZE None [] (rr_sock q))))).
Proof.
  intros S o R ast rst junk n s l HR Rs. unfold read_raw_data.
  destruct (Z.eqb_spec ast STATUS_SUCCESS) as [->|Na]; cbn [negb].
  2:{ eexists. split; [reflexivity|]. split; [auto|]. split; intros; congruence. }
  destruct (Z.eqb_spec (op_vtable o) STATUS_SUCCESS) as [Ev|Nv]; cbn [negb].
  2:{ eexists. split; [reflexivity|]. rewrite cleanup_error by auto. split; [congruence|]. split; [auto|congruence]. }
  destruct (read_loop_spec S o R (Datatypes.S n) s l n [] HR Rs) as [(d & s' & RT & Ld & RL & Er)|(d & s1 & m & RT & Hm & Er)]; [lia| |].
  - rewrite Er. cbn [app]. rewrite Z.eqb_refl. cbn [negb Nat.eqb].
    eexists. split; [reflexivity|]. split; [congruence|]. split; [congruence|]. intros _ _. left.
    exists d, s'. split; auto. split; auto. split; auto. subst n. rewrite overlay_block. reflexivity.
  - cbv zeta in Er. destruct Er as [(Ne & Er)|(Es & Ez & Er)]; rewrite Er.
    + destruct (Z.eqb_spec (rr_status (op_read o s1 m true)) STATUS_SUCCESS); [congruence|]. cbn [negb].
      eexists. split; [reflexivity|]. rewrite cleanup_error by auto. split; [congruence|]. split; [congruence|].
      intros _ _. right. exists d, s1, m. auto 6.
    + rewrite Z.eqb_refl. cbn [negb]. destruct (Nat.eqb_spec m 0); [congruence|]. cbn [negb].
      eexists. split; [reflexivity|]. rewrite cleanup_error by discriminate. split; [congruence|]. split; [congruence|].
      intros _ _. right. exists d, s1, m. auto 7.
Qed.

Lemma write_loop_spec : forall S (o : sock_ops S) W fuel s l d, honest_writer o W -> W s l -> (length d < fuel)%nat ->
  (exists s', writes_to o s d s' [] /\ W s' (l ++ d) /\ write_loop fuel o s d = Some (STATUS_SUCCESS, [], s')) \/
  (exists s1 d1, writes_to o s d s1 d1 /\ d1 <> [] /\ (exists p, d = p ++ d1 /\ W s1 (l ++ p)) /\ let q := op_write o s1 d1 in
     ((wr_status q <> STATUS_SUCCESS /\ write_loop fuel o s d = Some (wr_status q, d1, wr_sock q)) \/
      (wr_status q = STATUS_SUCCESS /\ wr_size q = 0%nat /\ write_loop fuel o s d = Some (STATUS_SUCCESS, d1, wr_sock q)))).
Proof.
  intros S o W. induction fuel as [|f IH]; intros s l d HW Ws Hf; [lia|].
  cbn [write_loop]. destruct d as [|b t].
  { left. exists s. rewrite app_nil_r. repeat split; auto. constructor. }
  remember (b :: t) as d eqn:Ed. assert (Nd: d <> []) by (subst; discriminate). clear Ed b t.
  replace (match d with [] => Some (STATUS_SUCCESS, [], s)
           | _ :: _ => let r := op_write o s d in
              if negb (wr_status r =? STATUS_SUCCESS) then Some (wr_status r, d, wr_sock r)
              else if (wr_size r =? 0)%nat then Some (STATUS_SUCCESS, d, wr_sock r)
              else write_loop f o (wr_sock r) (skipn (wr_size r) d) end)
    with (let r := op_write o s d in
              if negb (wr_status r =? STATUS_SUCCESS) then Some (wr_status r, d, wr_sock r)
              else if (wr_size r =? 0)%nat then Some (STATUS_SUCCESS, d, wr_sock r)
              else write_loop f o (wr_sock r) (skipn (wr_size r) d)) by (destruct d; [congruence|reflexivity]).
  cbv zeta. set (q := op_write o s d).
  destruct (Z.eqb_spec (wr_status q) STATUS_SUCCESS) as [Eq|Nq]; cbn [negb].
  2:{ right. exists s, d. split; [constructor|]. split; auto. split; [exists []; rewrite app_nil_r; auto|]. left. auto. }
  destruct (Nat.eqb_spec (wr_size q) 0) as [Zq|Pq].
  { right. exists s, d. split; [constructor|]. split; auto. split; [exists []; rewrite app_nil_r; auto|]. right. auto. }
  destruct (HW s l d Ws Eq) as (Hle & Ws'). fold q in Hle, Ws'.
  assert (Lk: (length (skipn (wr_size q) d) < f)%nat) by (rewrite skipn_length; lia).
  destruct (IH (wr_sock q) _ (skipn (wr_size q) d) HW Ws' Lk) as [(s' & WT & W2 & Er)|(s1 & d1 & WT & Hm & (p & Ep & W2) & Er)].
  - left. exists s'. split; [apply writes_step; auto|]. split; auto.
    rewrite <- app_assoc, firstn_skipn in W2. auto.
  - right. exists s1, d1. split; [apply writes_step; auto|]. split; auto. split; auto.
    exists (firstn (wr_size q) d ++ p). split; [rewrite <- app_assoc, <- Ep; symmetry; apply firstn_skipn|].
    rewrite app_assoc. auto.
Qed.

Lemma write_raw_data_spec : forall S (o : sock_ops S) W s l d, honest_writer o W -> W s l ->
  exists e s2, write_raw_data o d s = Some (e, s2) /\
    (op_vtable o <> STATUS_SUCCESS -> e = op_vtable o /\ s2 = s) /\
    (op_vtable o = STATUS_SUCCESS ->
      (e = STATUS_SUCCESS /\ writes_to o s d s2 [] /\ W s2 (l ++ d)) \/
      (exists s1 d1 p, writes_to o s d s1 d1 /\ d1 <> [] /\ d = p ++ d1 /\ W s1 (l ++ p) /\
        let q := op_write o s1 d1 in s2 = wr_sock q /\
         ((wr_status q <> STATUS_SUCCESS /\ e = wr_status q) \/
          (wr_status q = STATUS_SUCCESS /\ wr_size q = 0%nat /\ e = ERROR_PSOCK_WRITE_INVALID_SIZE)))).
Proof.
  intros S o W s l d HW Ws. unfold write_raw_data.
  destruct (Z.eqb_spec (op_vtable o) STATUS_SUCCESS) as [Ev|Nv]; cbn [negb].
  2:{ do 2 eexists. split; [reflexivity|]. split; [auto|congruence]. }
  destruct (write_loop_spec S o W (Datatypes.S (length d)) s l d HW Ws) as [(s' & WT & W2 & Er)|(s1 & d1 & WT & Hm & (p & Ep & W2) & Er)]; [lia| |].
  - rewrite Er. rewrite Z.eqb_refl. cbn [negb]. do 2 eexists. split; [reflexivity|]. split; [congruence|]. auto.
  - cbv zeta in Er. destruct Er as [(Ne & Er)|(Es & Ez & Er)]; rewrite Er.
    + destruct (Z.eqb_spec (wr_status (op_write o s1 d1)) STATUS_SUCCESS); [congruence|]. cbn [negb].
      do 2 eexists. split; [reflexivity|]. split; [congruence|]. intros _. right.
      exists s1, d1, p. repeat (split; auto).
    + rewrite Z.eqb_refl. cbn [negb].
      exists ERROR_PSOCK_WRITE_INVALID_SIZE, (wr_sock (op_write o s1 d1)).
      split; [destruct d1; [congruence|reflexivity]|]. split; [congruence|]. intros _. right.
      exists s1, d1, p. repeat (split; auto).
Qed.

(** The pipe is a complete and honest transport. *)
Lemma pipe_complete_reader : complete_reader pipe_ops eq.
Proof.
  split; [reflexivity|]. intros s l n <- _ L. exists (skipn n s). cbn. rewrite Nat.min_l by auto. auto.
Qed.
Lemma pipe_complete_writer : complete_writer pipe_ops eq.
Proof. split; [reflexivity|]. intros s l d <-. exists (s ++ d). auto. Qed.
Lemma pipe_honest : honest_reader pipe_ops eq /\ honest_writer pipe_ops eq.
Proof.
  split.
  - intros s l n <- _. cbn. split; [lia|]. split; [rewrite firstn_length; lia|].
    exists (skipn n s). split; auto. symmetry. apply firstn_skipn.
  - intros s l d <- _. cbn. rewrite firstn_all. auto.
Qed.
