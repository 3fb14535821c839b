From Verif Require Import Base Status Heap BigintModel BigintSpec.

Lemma limb_count : forall size, 0 <= size ->
  (let byte_size0 := size / 8 in
  let byte_size := if 0 <? size mod 8 then byte_size0 + 1 else byte_size0 in
  let int_size0 := byte_size / 8 in
  if 0 <? byte_size mod 8 then int_size0 + 1 else int_size0) = (size + 63) / 64.
Proof.
  intros. cbv zeta.
  pose proof (Z.div_mod size 8 ltac:(lia)). pose proof (Z.mod_pos_bound size 8 ltac:(lia)).
  set (b := if 0 <? size mod 8 then size / 8 + 1 else size / 8).
  assert (B : 8 * b - 8 < size <= 8 * b) by (unfold b; destruct (Z.ltb_spec 0 (size mod 8)); lia).
  pose proof (Z.div_mod b 8 ltac:(lia)). pose proof (Z.mod_pos_bound b 8 ltac:(lia)).
  destruct (Z.ltb_spec 0 (b mod 8)).
  - apply Z.div_unique with (size + 63 - 64 * (b / 8 + 1)); lia.
  - apply Z.div_unique with (size + 63 - 64 * (b / 8)); lia.
Qed.

Lemma holds_frame : forall (h h' : heap bcell) p sg l,
  (forall q v, hget h q = Some v -> hget h' q = Some v) -> holds h p sg l -> holds h' p sg l.
Proof. intros h h' p sg l F (a & H1 & H2 & H3). exists a. split; [|split]; auto. Qed.

Lemma create_zero_spec : forall pick al h size, good_pick pick -> hwf h -> 0 <= size ->
  (al 0%nat = STATUS_SUCCESS /\ al 1%nat = STATUS_SUCCESS ->
   exists i h', bigint_create_zero pick al h size = Some (STATUS_SUCCESS, Some i, h') /\ hwf h' /\
     holds h' i false (repeat 0 (Z.to_nat ((size + 63) / 64))) /\
     (forall q v, hget h q = Some v -> hget h' q = Some v) /\ (length h' = length h + 2)%nat /\ hget h i = None) /\
  (forall e, e <> STATUS_SUCCESS -> al 0%nat = e \/ (al 0%nat = STATUS_SUCCESS /\ al 1%nat = e) ->
   bigint_create_zero pick al h size = Some (e, None, h)).
Proof.
  intros pick al h size GP W Hs. unfold bigint_create_zero. pose proof (limb_count size Hs) as LC. cbv zeta in *.
  rewrite LC. clear LC. set (n := Z.to_nat ((size + 63) / 64)).
  destruct (pick_fresh pick h GP) as [N1 F1]. set (t := pick (addrs h)) in *.
  set (h1 := hadd h t (BStruct false 0 0)).
  assert (W1 : hwf h1) by (apply hadd_wf; auto).
  destruct (pick_fresh pick h1 GP) as [N2 F2]. set (a := pick (addrs h1)) in *.
  assert (Nat : t <> a). { intros E. rewrite <- E in F2. unfold h1 in F2. rewrite hget_hadd_same in F2. discriminate. }
  split.
  - intros [-> ->]. change (STATUS_SUCCESS =? STATUS_SUCCESS) with true. cbn iota.
    set (h2 := hadd h1 a (BLimbs (repeat 0 n))).
    assert (G2 : hget h2 t = Some (BStruct false 0 0)).
    { unfold h2. rewrite hget_hadd_other by auto. unfold h1. apply hget_hadd_same. }
    unfold hstore. rewrite G2. eexists _, _. split; [reflexivity|].
    assert (W2 : hwf h2) by (apply hadd_wf; auto).
    split; [apply hset_wf; auto|]. split; [|split; [|split]].
    + exists a. rewrite repeat_length. split; [eapply hget_hset_same; eauto|].
      split; [|auto]. rewrite hget_hset_other by auto. apply hget_hadd_same.
    + intros q v Q. assert (q <> t) by congruence.
      assert (hget h1 q = Some v) by (unfold h1; rewrite hget_hadd_other; auto).
      assert (q <> a) by congruence. rewrite hget_hset_other by auto. unfold h2. rewrite hget_hadd_other; auto.
    + assert (L : length (hset h2 t (BStruct false n a)) = length h2).
      { rewrite <- (map_length fst), <- (map_length fst h2). fold (addrs h2). rewrite <- (hset_addrs h2 t (BStruct false n a)). reflexivity. }
      rewrite L. cbn. lia.
    + auto.
  - intros e Ne. change (STATUS_SUCCESS =? STATUS_SUCCESS) with true.
    intros [E|[E0 E1]].
    + rewrite E. destruct (Z.eqb_spec e STATUS_SUCCESS); [congruence|]. reflexivity.
    + rewrite E0, E1. change (STATUS_SUCCESS =? STATUS_SUCCESS) with true. cbn iota. destruct (Z.eqb_spec e STATUS_SUCCESS); [congruence|].
      unfold hfree, h1. rewrite hget_hadd_same. cbn. rewrite Z.eqb_refl. reflexivity.
Qed.

Lemma clone_spec : forall pick al h j sg l, good_pick pick -> hwf h -> holds h j sg l ->
  (al 0%nat = STATUS_SUCCESS /\ al 1%nat = STATUS_SUCCESS ->
   exists i h', bigint_clone pick al h j = Some (STATUS_SUCCESS, Some i, h') /\ hwf h' /\
     holds h' i sg l /\ holds h' j sg l /\ independent h' i j /\
     (forall q v, hget h q = Some v -> hget h' q = Some v) /\ (length h' = length h + 2)%nat) /\
  (forall e, e <> STATUS_SUCCESS -> al 0%nat = e \/ (al 0%nat = STATUS_SUCCESS /\ al 1%nat = e) ->
   bigint_clone pick al h j = Some (e, None, h)).
Proof.
  intros pick al h j sg l GP W (ja & Hj & Ha & Nja). unfold bigint_clone. rewrite Hj.
  destruct (pick_fresh pick h GP) as [N1 F1]. set (t := pick (addrs h)) in *.
  set (h1 := hadd h t (BStruct sg (length l) ja)). cbv zeta.
  assert (W1 : hwf h1) by (apply hadd_wf; auto).
  destruct (pick_fresh pick h1 GP) as [N2 F2]. set (a := pick (addrs h1)) in *.
  assert (Nat : t <> a). { intros E. rewrite <- E in F2. unfold h1 in F2. rewrite hget_hadd_same in F2. discriminate. }
  split.
  - intros [-> ->]. change (STATUS_SUCCESS =? STATUS_SUCCESS) with true. cbn iota.
    assert (Nja' : ja <> t) by congruence.
    assert (G1 : hget h1 ja = Some (BLimbs l)) by (unfold h1; rewrite hget_hadd_other; auto).
    rewrite G1, Nat.eqb_refl.
    set (h2 := hadd h1 a (BLimbs l)).
    assert (G2 : hget h2 t = Some (BStruct sg (length l) ja)).
    { unfold h2. rewrite hget_hadd_other by auto. unfold h1. apply hget_hadd_same. }
    unfold hstore. rewrite G2. eexists _, _. split; [reflexivity|].
    assert (W2 : hwf h2) by (apply hadd_wf; auto).
    assert (K : forall q v, hget h q = Some v -> hget (hset h2 t (BStruct sg (length l) a)) q = Some v).
    { intros q v Q. assert (q <> t) by congruence.
      assert (hget h1 q = Some v) by (unfold h1; rewrite hget_hadd_other; auto).
      assert (q <> a) by congruence. rewrite hget_hset_other by auto. unfold h2. rewrite hget_hadd_other; auto. }
    assert (Hi : holds (hset h2 t (BStruct sg (length l) a)) t sg l).
    { exists a. split; [eapply hget_hset_same; eauto|]. split; [|auto]. rewrite hget_hset_other by auto. apply hget_hadd_same. }
    split; [apply hset_wf; auto|]. split; [exact Hi|].
    split; [exists ja; split; auto|].
    split.
    { intros s1 n1 a1 s2 n2 a2 E1 E2. rewrite (hget_hset_same _ _ _ _ G2) in E1. rewrite (K _ _ Hj) in E2.
      assert (a1 = a) by congruence. assert (a2 = ja) by congruence.
      assert (t <> j) by congruence.
      assert (hget h1 j = Some (BStruct sg (length l) ja)) by (unfold h1; rewrite hget_hadd_other; auto).
      repeat split; congruence. }
    split; [exact K|].
    assert (L : length (hset h2 t (BStruct sg (length l) a)) = length h2).
    { rewrite <- (map_length fst), <- (map_length fst h2). fold (addrs h2). rewrite <- (hset_addrs h2 t (BStruct sg (length l) a)). reflexivity. }
    rewrite L. cbn. lia.
  - intros e Ne [E|[E0 E1]].
    + rewrite E. destruct (Z.eqb_spec e STATUS_SUCCESS); [congruence|]. reflexivity.
    + rewrite E0, E1. change (STATUS_SUCCESS =? STATUS_SUCCESS) with true. cbn iota. destruct (Z.eqb_spec e STATUS_SUCCESS); [congruence|].
      unfold hfree, h1. rewrite hget_hadd_same. cbn. rewrite Z.eqb_refl. reflexivity.
Qed.

Lemma release_spec : forall rc h i sg l, hwf h -> holds h i sg l ->
  exists e h' a, bigint_release rc h i = Some (e, h', [BLimbs (repeat 0 (length l)); BStruct sg (length l) a]) /\
    hget h i = Some (BStruct sg (length l) a) /\ hwf h' /\
    (forall q, hget h' q = if (q =? i) || (q =? a) then None else hget h q) /\
    (e = if rc 1%nat =? STATUS_SUCCESS then rc 0%nat else rc 1%nat).
Proof.
  intros rc h i sg l W (a & Hi & Ha & Na). unfold bigint_release. rewrite Hi, Ha, Nat.eqb_refl.
  assert (Nia : i <> a) by (intros ->; congruence).
  unfold hstore. rewrite Ha. unfold hfree. rewrite (hget_hset_same _ _ _ _ Ha).
  set (h1 := hset h a (BLimbs (repeat 0 (length l)))). assert (W1 : hwf h1) by (apply hset_wf; auto).
  rewrite hget_hdel_other by auto. unfold h1 at 1. rewrite hget_hset_other by auto. rewrite Hi.
  eexists _, _, a. split; [reflexivity|]. split; [auto|]. split; [apply hdel_wf; apply hdel_wf; auto|].
  split; [|reflexivity]. intros q. rewrite hget_hdel by (apply hdel_wf; auto).
  destruct (Z.eqb_spec q i) as [->|N]; [reflexivity|]. rewrite hget_hdel by auto. cbn.
  destruct (Z.eqb_spec q a); [reflexivity|]. unfold h1. rewrite hget_hset_other; auto.
Qed.
