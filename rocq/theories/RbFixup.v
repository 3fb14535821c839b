(** The loop of rbtree_delete_fixup. *)
From Verif Require Import Base Status MemModel MemProofs Heap RbModel RbSpec RbProofs RbInsert RbDelete.

(** ** A tree whose sentinel has any colour *)
Definition trep0 (w : rworld) (t nl im : Z) (T : tr) (n : Z) : Prop :=
  hget (rw_trees w) t = Some (RT (rp nl T) nl im n) /\ (forall x, cnt x (nl :: ns T) <= 1) /\
  holds (rw_nodes w) (cells nl nl T) /\ exists k, hget (rw_nodes w) nl = Some k.
Lemma trep_0 : forall w t nl im T n, trep w t nl im T n -> trep0 w t nl im T n.
Proof. intros w t nl im T0 n (A & B & C & k & K & _). repeat split; eauto. Qed.
Lemma look0 : forall w t nl im p c l a v r n, trep0 w t nl im (plug p (T c l a v r)) n ->
  hget (rw_nodes w) a = Some (RN (top nl p) (rp nl l) (rp nl r) v c).
Proof.
  intros w t nl im p c l a v r n (_ & _ & H & _). apply cells_plug in H. destruct H as [_ H].
  cbn [cells] in H. splitholds. auto.
Qed.
Lemma recolor0 : forall w t nl im p c l a v r n c', trep0 w t nl im (plug p (T c l a v r)) n ->
  exists w', setr w a (toC c') = Some w' /\ trep0 w' t nl im (plug p (T c' l a v r)) n /\
    same t (ns (plug p (T c l a v r))) w w'.
Proof.
  intros w t nl im p c l a v r n c' R. pose proof (look0 _ _ _ _ _ _ _ _ _ _ _ R) as LK.
  destruct R as (HT & HC & HH & k & HK). apply cells_plug in HH. destruct HH as [HP HF]. rewrite rp_plug in HT. cbn [rp] in *.
  assert (D : forall x, cnt x (nl :: pns p ++ ns (T c l a v r)) <= 1).
  { intros x. specialize (HC x). rewrite cnt_cons, cnt_plug in HC. rewrite cnt_cons, cnt_app. lia. }
  ne D a nl.
  assert (C : forall x, cnt x (ns (plug p (T c' l a v r))) = cnt x (ns (plug p (T c l a v r)))).
  { intros. rewrite !cnt_plug. reflexivity. }
  cbn [cells] in HF. splitholds. unfold trep0. rewrite rp_plug. cbn [rp].
  eexists. split; [erewrite setr_eq by known; reflexivity|].
  split; [|sames]. split; [hs; rewrite ?HT; hs; reflexivity|].
  split; [intros x; specialize (HC x); rewrite cnt_cons in *; rewrite C; exact HC|].
  split; [|exists k; known]. apply cells_plug; cbn [cells pcells top rp]; split; hold.
Qed.
Lemma renil : forall w t nl im T n c, trep0 w t nl im T n ->
  exists w', setr w nl (toC c) = Some w' /\ trep0 w' t nl im T n /\ (c = false -> trep w' t nl im T n) /\ same t [nl] w w' /\
    (forall k, hget (rw_nodes w) nl = Some k -> hget (rw_nodes w') nl = Some (toC c k)).
Proof.
  intros w t nl im T0 n c (HT & D & HH & k & HK).
  eexists. split; [erewrite setr_eq by exact HK; reflexivity|].
  assert (H : holds (hset (rw_nodes w) nl (toC c k)) (cells nl nl T0)) by frm.
  split; [split; [exact HT|split; [exact D|split; [exact H|eexists; known]]]|].
  split; [intros ->; split; [exact HT|split; [exact D|split; [exact H|eexists; split; [known|reflexivity]]]]|].
  split; [sames|]. intros k' K'. rewrite HK in K'. inversion K'; subst. known.
Qed.
Lemma reset_nil0 : forall w t nl im T n, trep0 w t nl im T n ->
  exists w', reset_nil w t = Some w' /\ trep w' t nl im T n /\ same t [nl] w w'.
Proof.
  intros w t nl im T0 n (HT & D & HH & k & HK).
  eexists. split; [unfold reset_nil; go; reflexivity|]. split; [|sames].
  split; [exact HT|]. split; [exact D|]. split; [cbn [rw_nodes]; frm|]. eexists. split; [known|reflexivity].
Qed.
Lemma set_count0 : forall w t nl im T n f, trep0 w t nl im T n ->
  exists w', sett w t (fun h => toCount (f (t_count h)) h) = Some w' /\ trep0 w' t nl im T (f n) /\ same t [] w w'.
Proof.
  intros w t nl im T0 n f (HT & D & HH & k & HK).
  eexists. split; [erewrite sett_eq by exact HT; reflexivity|]. split.
  - split; [cbn [rw_trees]; rewrite hget_hset_same with (w := RT (rp nl T0) nl im n); auto|]. split; [exact D|]. split; [exact HH|].
    exists k. auto.
  - eapply same_sett. erewrite sett_eq by exact HT. reflexivity.
Qed.
Lemma nil_off : forall w t nl im T n, trep w t nl im T n -> cnt nl (ns T) = 0.
Proof. intros w t nl im T0 n (_ & D & _). specialize (D nl). rewrite cnt_cons, Z.eqb_refl in D. cbn [Z.b2z] in D. pose proof (cnt_nonneg nl (ns T0)). lia. Qed.
Lemma nil_kept : forall w w' t nl im T n, trep w t nl im T n -> same t (ns T) w w' -> hget (rw_nodes w') nl = hget (rw_nodes w) nl.
Proof. intros w w' t nl im T0 n R (S & _). apply S. eapply nil_off; eauto. Qed.
Lemma same_nil : forall t nl L w w', same t L w w' -> same t (nl :: L) w w'.
Proof. intros t nl L w w' H. apply (same_sub _ _ _ _ _ H). intros a K. rewrite cnt_cons in K. cntpos. lia. Qed.
Lemma same_one : forall t nl L w w', same t [nl] w w' -> same t (nl :: L) w w'.
Proof. intros t nl L w w' H. apply (same_sub _ _ _ _ _ H). intros a K. rewrite cnt_cons in *. cbn [cnt]. cntpos. lia. Qed.

Lemma nr_sub : forall pc p c l a v r, nr pc (plug p (T c l a v r)) -> np pc p /\ (pcol pc p = true -> c = false) /\ nr c l /\ nr c r.
Proof. intros. apply nr_plug in H. cbn [nr] in H. tauto. Qed.

(** ** One iteration *)
(** Where an iteration leaves the loop: at the root of a tree, or at a node further up. *)
Definition leaves (t nl im n : Z) (T0 : tr) (c : bool) (m : nat) (w : rworld) (x' : Z) (w' : rworld) : Prop :=
  same t (nl :: ns T0) w w' /\
  ((exists T1, x' = rp nl T1 /\ trep w' t nl im T1 n /\ items T1 = items T0 /\ nr true T1) \/
   (exists p l v r, let T1 := plug p (T c l x' v r) in
      trep0 w' t nl im T1 n /\ (c = false -> trep w' t nl im T1 n /\ length p = m) /\ items T1 = items T0 /\
      np true p /\ nr false l /\ nr false r)).
(** rbtree_delete_fixup.c:38-63 once the sibling is [s] *)
Definition left_rest (w : rworld) (t x s : Z) : option (Z * rworld) :=
  do sl <- lf w s; do slc <- co w sl;
  do sr <- rg w s; do src <- co w sr;
  if negb slc && negb src then
    do w <- setr w s (toC true);
    do xp <- pa w x; Some (xp, w)
  else
    do '(s, w) <- (if negb src then
        do w <- setr w sl (toC false);
        do w <- setr w s (toC true);
        do w <- right_rotate w t s;
        do xp <- pa w x; do s <- rg w xp; Some (s, w)
      else Some (s, w));
    do xp <- pa w x; do xpc <- co w xp;
    do w <- setr w s (toC xpc);
    do xp <- pa w x;
    do w <- setr w xp (toC false);
    do sr <- rg w s;
    do w <- setr w sr (toC false);
    do xp <- pa w x;
    do w <- left_rotate w t xp;
    do x <- root w t; Some (x, w).
Definition right_rest (w : rworld) (t x s : Z) : option (Z * rworld) :=
  do sr <- rg w s; do src <- co w sr;
  do sl <- lf w s; do slc <- co w sl;
  if negb src && negb slc then
    do w <- setr w s (toC true);
    do xp <- pa w x; Some (xp, w)
  else
    do '(s, w) <- (if negb slc then
        do w <- setr w sr (toC false);
        do w <- setr w s (toC true);
        do w <- left_rotate w t s;
        do xp <- pa w x; do s <- lf w xp; Some (s, w)
      else Some (s, w));
    do xp <- pa w x; do xpc <- co w xp;
    do w <- setr w s (toC xpc);
    do xp <- pa w x;
    do w <- setr w xp (toC false);
    do sl <- lf w s;
    do w <- setr w sl (toC false);
    do xp <- pa w x;
    do w <- right_rotate w t xp;
    do x <- root w t; Some (x, w).

Ltac seen R P C L A V RR := rewrite ?(pa_eq _ _ _ (look _ _ _ _ P C L A V RR _ R)), ?(lf_eq _ _ _ (look _ _ _ _ P C L A V RR _ R)), ?(rg_eq _ _ _ (look _ _ _ _ P C L A V RR _ R)), ?(co_eq _ _ _ (look _ _ _ _ P C L A V RR _ R));
  cbn [r_parent r_left r_right r_red top f_a rp].
Ltac sub2 H := apply (same_cnt _ _ _ _ _ H); repeat match goal with Y := _ |- _ => subst Y end; cnteq.
Ltac nrs := repeat match goal with |- _ /\ _ => split | |- True => exact Logic.I | |- _ -> _ => intros end; auto; try congruence;
  try (eapply nr_weak; solve [eauto]); try (eapply nr_black; solve [eauto]).

Lemma left_rest_spec : forall w t nl im q c a va d B b vb G l x v r n,
  let X := T false l x v r in let T0 := plug (F true c a va (T d B b vb G) :: q) X in
  trep w t nl im T0 n -> nr true T0 ->
  exists x' w', left_rest w t x b = Some (x', w') /\ leaves t nl im n T0 c (length q) w x' w'.
Proof.
  intros w t nl im q c a va d B b vb G l x v r n X T0 R NR.
  assert (R0 : trep w t nl im (plug q (T c X a va (T d B b vb G))) n) by exact R.
  assert (RS : trep w t nl im (plug (F false c a va X :: q) (T d B b vb G)) n) by exact R.
  pose proof NR as NR'. unfold T0 in NR'. cbn [plug fill f_d f_c f_a f_v f_s] in NR'. apply nr_sub in NR'. destruct NR' as (NQ & NC & (_ & NXl & NXr) & NS). cbn [nr] in NS. destruct NS as (ND & NB & NG).
  unfold left_rest. seen RS (F false c a va X :: q) d B b vb G.
  rewrite (rep_rc w t nl im (F true d b vb G :: F false c a va X :: q) B n RS), (rep_rc w t nl im (F false d b vb B :: F false c a va X :: q) G n RS).
  destruct (rc G) eqn:CG; rewrite ?andb_false_r; cbn [negb].
  - (* the far child of the sibling is red *)
    destruct G as [|cg G1 g vg G2]; [discriminate|]. cbn [rc] in CG. subst cg. cbn [nr] in NG. destruct NG as (N1 & N2 & N3).
    assert (d = false) by (destruct d; auto; discriminate (N1 eq_refl)). subst d.
    seen R (F true c a va (T false B b vb (T true G1 g vg G2)) :: q) false l x v r. seen R0 q c X a va (T false B b vb (T true G1 g vg G2)).
    destruct (recolor_spec w t nl im (F false c a va X :: q) false B b vb (T true G1 g vg G2) n c RS) as (w1 & E1 & R1 & S1). rewrite E1.
    seen R1 (F true c a va (T c B b vb (T true G1 g vg G2)) :: q) false l x v r.
    destruct (recolor_spec w1 t nl im q c X a va (T c B b vb (T true G1 g vg G2)) n false R1) as (w2 & E2 & R2 & S2). rewrite E2.
    seen R2 (F false false a va X :: q) c B b vb (T true G1 g vg G2).
    destruct (recolor_spec w2 t nl im (F false c b vb B :: F false false a va X :: q) true G1 g vg G2 n false R2) as (w3 & E3 & R3 & S3). rewrite E3.
    seen R3 (F true false a va (T c B b vb (T false G1 g vg G2)) :: q) false l x v r.
    destruct (left_rotate_spec w3 t nl im q false X a va c B b vb (T false G1 g vg G2) n R3) as (w4 & E4 & R4 & S4). rewrite E4.
    rewrite (rep_root _ _ _ _ _ _ R4). do 2 eexists. split; [reflexivity|]. split.
    + apply same_nil. eapply same_trans; [exact S1|]. eapply same_trans; [sub2 S2|]. eapply same_trans; [sub2 S3|sub2 S4].
    + left. eexists. split; [reflexivity|]. split; [exact R4|]. split.
      * unfold T0. cbn [plug]. rewrite !items_plug. unfold fill, X. cbn. repeat (rewrite <- ?app_assoc; cbn [app]). reflexivity.
      * apply nr_plug. split; [auto|]. cbn [nr]. unfold X. cbn [nr]. nrs.
  - destruct (rc B) eqn:CB; cbn [negb andb].
    + (* the near child is red *)
      destruct B as [|cb B1 b1 v1 B2]; [discriminate|]. cbn [rc] in CB. subst cb. cbn [nr] in NB. destruct NB as (N1 & N2 & N3).
      assert (d = false) by (destruct d; auto; discriminate (N1 eq_refl)). subst d.
      destruct (recolor_spec w t nl im (F true false b vb G :: F false c a va X :: q) true B1 b1 v1 B2 n false RS) as (w1 & E1 & R1 & S1). cbn [rp]. rewrite E1.
      destruct (recolor_spec w1 t nl im (F false c a va X :: q) false (T false B1 b1 v1 B2) b vb G n true R1) as (w2 & E2 & R2 & S2). rewrite E2.
      destruct (right_rotate_spec w2 t nl im (F false c a va X :: q) false B1 b1 v1 true B2 b vb G n R2) as (w3 & E3 & R3 & S3). rewrite E3.
      seen R3 (F true c a va (T false B1 b1 v1 (T true B2 b vb G)) :: q) false l x v r. seen R3 q c X a va (T false B1 b1 v1 (T true B2 b vb G)).
      seen R3 (F true c a va (T false B1 b1 v1 (T true B2 b vb G)) :: q) false l x v r. seen R3 q c X a va (T false B1 b1 v1 (T true B2 b vb G)).
      destruct (recolor_spec w3 t nl im (F false c a va X :: q) false B1 b1 v1 (T true B2 b vb G) n c R3) as (w4 & E4 & R4 & S4). rewrite E4.
      seen R4 (F true c a va (T c B1 b1 v1 (T true B2 b vb G)) :: q) false l x v r.
      destruct (recolor_spec w4 t nl im q c X a va (T c B1 b1 v1 (T true B2 b vb G)) n false R4) as (w5 & E5 & R5 & S5). rewrite E5.
      seen R5 (F false false a va X :: q) c B1 b1 v1 (T true B2 b vb G).
      destruct (recolor_spec w5 t nl im (F false c b1 v1 B1 :: F false false a va X :: q) true B2 b vb G n false R5) as (w6 & E6 & R6 & S6). rewrite E6.
      seen R6 (F true false a va (T c B1 b1 v1 (T false B2 b vb G)) :: q) false l x v r.
      destruct (left_rotate_spec w6 t nl im q false X a va c B1 b1 v1 (T false B2 b vb G) n R6) as (w7 & E7 & R7 & S7). rewrite E7.
      rewrite (rep_root _ _ _ _ _ _ R7). do 2 eexists. split; [reflexivity|]. split.
      * apply same_nil. eapply same_trans; [sub2 S1|]. eapply same_trans; [sub2 S2|]. eapply same_trans; [sub2 S3|]. eapply same_trans; [sub2 S4|].
        eapply same_trans; [sub2 S5|]. eapply same_trans; [sub2 S6|sub2 S7].
      * left. eexists. split; [reflexivity|]. split; [exact R7|]. split.
        -- unfold T0. cbn [plug]. rewrite !items_plug. unfold fill, X. cbn. repeat (rewrite <- ?app_assoc; cbn [app]). reflexivity.
        -- apply nr_plug. split; [auto|]. cbn [nr]. unfold X. cbn [nr]. nrs.
    + (* both are black *)
      destruct (recolor_spec w t nl im (F false c a va X :: q) d B b vb G n true RS) as (w1 & E1 & R1 & S1). rewrite E1.
      seen R1 (F true c a va (T true B b vb G) :: q) false l x v r.
      do 2 eexists. split; [reflexivity|]. split; [apply same_nil; exact S1|].
      right. exists q, X, va, (T true B b vb G). split; [apply trep_0; exact R1|]. split; [auto|]. split.
      * unfold T0. cbn [plug]. rewrite !items_plug. reflexivity.
      * split; [auto|]. split; [unfold X; cbn [nr]; nrs|]. cbn [nr]. split; [discriminate|]. split; apply nr_rc; split; auto; eapply nr_black; eauto.
Qed.

Lemma right_rest_spec : forall w t nl im q c a va d B b vb G l x v r n,
  let X := T false l x v r in let T0 := plug (F false c a va (T d G b vb B) :: q) X in
  trep w t nl im T0 n -> nr true T0 ->
  exists x' w', right_rest w t x b = Some (x', w') /\ leaves t nl im n T0 c (length q) w x' w'.
Proof.
  intros w t nl im q c a va d B b vb G l x v r n X T0 R NR.
  assert (R0 : trep w t nl im (plug q (T c (T d G b vb B) a va X)) n) by exact R.
  assert (RS : trep w t nl im (plug (F true c a va X :: q) (T d G b vb B)) n) by exact R.
  pose proof NR as NR'. unfold T0 in NR'. cbn [plug fill f_d f_c f_a f_v f_s] in NR'. apply nr_sub in NR'. destruct NR' as (NQ & NC & NS & (_ & NXl & NXr)). cbn [nr] in NS. destruct NS as (ND & NG & NB).
  unfold right_rest. seen RS (F true c a va X :: q) d G b vb B.
  rewrite (rep_rc w t nl im (F false d b vb G :: F true c a va X :: q) B n RS), (rep_rc w t nl im (F true d b vb B :: F true c a va X :: q) G n RS).
  destruct (rc G) eqn:CG; rewrite ?andb_false_r; cbn [negb].
  - (* the far child of the sibling is red *)
    destruct G as [|cg G1 g vg G2]; [discriminate|]. cbn [rc] in CG. subst cg. cbn [nr] in NG. destruct NG as (N1 & N2 & N3).
    assert (d = false) by (destruct d; auto; discriminate (N1 eq_refl)). subst d.
    seen R (F false c a va (T false (T true G1 g vg G2) b vb B) :: q) false l x v r. seen R0 q c (T false (T true G1 g vg G2) b vb B) a va X.
    destruct (recolor_spec w t nl im (F true c a va X :: q) false (T true G1 g vg G2) b vb B n c RS) as (w1 & E1 & R1 & S1). rewrite E1.
    seen R1 (F false c a va (T c (T true G1 g vg G2) b vb B) :: q) false l x v r.
    destruct (recolor_spec w1 t nl im q c (T c (T true G1 g vg G2) b vb B) a va X n false R1) as (w2 & E2 & R2 & S2). rewrite E2.
    seen R2 (F true false a va X :: q) c (T true G1 g vg G2) b vb B.
    destruct (recolor_spec w2 t nl im (F true c b vb B :: F true false a va X :: q) true G1 g vg G2 n false R2) as (w3 & E3 & R3 & S3). rewrite E3.
    seen R3 (F false false a va (T c (T false G1 g vg G2) b vb B) :: q) false l x v r.
    destruct (right_rotate_spec w3 t nl im q c (T false G1 g vg G2) b vb false B a va X n R3) as (w4 & E4 & R4 & S4). rewrite E4.
    rewrite (rep_root _ _ _ _ _ _ R4). do 2 eexists. split; [reflexivity|]. split.
    + apply same_nil. eapply same_trans; [exact S1|]. eapply same_trans; [sub2 S2|]. eapply same_trans; [sub2 S3|sub2 S4].
    + left. eexists. split; [reflexivity|]. split; [exact R4|]. split.
      * unfold T0. cbn [plug]. rewrite !items_plug. unfold fill, X. cbn. repeat (rewrite <- ?app_assoc; cbn [app]). reflexivity.
      * apply nr_plug. split; [auto|]. cbn [nr]. unfold X. cbn [nr]. nrs.
  - destruct (rc B) eqn:CB; cbn [negb andb].
    + (* the near child is red *)
      destruct B as [|cb B2 b1 v1 B1]; [discriminate|]. cbn [rc] in CB. subst cb. cbn [nr] in NB. destruct NB as (N1 & N2 & N3).
      assert (d = false) by (destruct d; auto; discriminate (N1 eq_refl)). subst d.
      destruct (recolor_spec w t nl im (F false false b vb G :: F true c a va X :: q) true B2 b1 v1 B1 n false RS) as (w1 & E1 & R1 & S1). cbn [rp]. rewrite E1.
      destruct (recolor_spec w1 t nl im (F true c a va X :: q) false G b vb (T false B2 b1 v1 B1) n true R1) as (w2 & E2 & R2 & S2). rewrite E2.
      destruct (left_rotate_spec w2 t nl im (F true c a va X :: q) true G b vb false B2 b1 v1 B1 n R2) as (w3 & E3 & R3 & S3). rewrite E3.
      seen R3 (F false c a va (T false (T true G b vb B2) b1 v1 B1) :: q) false l x v r. seen R3 q c (T false (T true G b vb B2) b1 v1 B1) a va X.
      seen R3 (F false c a va (T false (T true G b vb B2) b1 v1 B1) :: q) false l x v r. seen R3 q c (T false (T true G b vb B2) b1 v1 B1) a va X.
      destruct (recolor_spec w3 t nl im (F true c a va X :: q) false (T true G b vb B2) b1 v1 B1 n c R3) as (w4 & E4 & R4 & S4). rewrite E4.
      seen R4 (F false c a va (T c (T true G b vb B2) b1 v1 B1) :: q) false l x v r.
      destruct (recolor_spec w4 t nl im q c (T c (T true G b vb B2) b1 v1 B1) a va X n false R4) as (w5 & E5 & R5 & S5). rewrite E5.
      seen R5 (F true false a va X :: q) c (T true G b vb B2) b1 v1 B1.
      destruct (recolor_spec w5 t nl im (F true c b1 v1 B1 :: F true false a va X :: q) true G b vb B2 n false R5) as (w6 & E6 & R6 & S6). rewrite E6.
      seen R6 (F false false a va (T c (T false G b vb B2) b1 v1 B1) :: q) false l x v r.
      destruct (right_rotate_spec w6 t nl im q c (T false G b vb B2) b1 v1 false B1 a va X n R6) as (w7 & E7 & R7 & S7). rewrite E7.
      rewrite (rep_root _ _ _ _ _ _ R7). do 2 eexists. split; [reflexivity|]. split.
      * apply same_nil. eapply same_trans; [sub2 S1|]. eapply same_trans; [sub2 S2|]. eapply same_trans; [sub2 S3|]. eapply same_trans; [sub2 S4|].
        eapply same_trans; [sub2 S5|]. eapply same_trans; [sub2 S6|sub2 S7].
      * left. eexists. split; [reflexivity|]. split; [exact R7|]. split.
        -- unfold T0. cbn [plug]. rewrite !items_plug. unfold fill, X. cbn. repeat (rewrite <- ?app_assoc; cbn [app]). reflexivity.
        -- apply nr_plug. split; [auto|]. cbn [nr]. unfold X. cbn [nr]. nrs.
    + (* both are black *)
      destruct (recolor_spec w t nl im (F true c a va X :: q) d G b vb B n true RS) as (w1 & E1 & R1 & S1). rewrite E1.
      seen R1 (F false c a va (T true G b vb B) :: q) false l x v r.
      do 2 eexists. split; [reflexivity|]. split; [apply same_nil; exact S1|].
      right. exists q, (T true G b vb B), va, X. split; [apply trep_0; exact R1|]. split; [auto|]. split.
      * unfold T0. cbn [plug]. rewrite !items_plug. reflexivity.
      * split; [auto|]. split; [cbn [nr]; split; [discriminate|]; split; apply nr_rc; split; auto; eapply nr_black; eauto|]. unfold X; cbn [nr]; nrs.
Qed.

(** A node without a sibling: the sentinel is painted red. *)
Lemma left_gone : forall w t nl im q c a va l x v r n k, let X := T false l x v r in let T0 := plug (F true c a va E :: q) X in
  trep w t nl im T0 n -> hget (rw_nodes w) nl = Some k -> r_left k = nl -> r_right k = nl ->
  exists w', left_rest w t x nl = Some (a, w') /\ trep0 w' t nl im T0 n /\ same t [nl] w w' /\ hget (rw_nodes w') nl = Some (toC true k).
Proof.
  intros w t nl im q c a va l x v r n k X T0 R HK KL KR.
  assert (KB : r_red k = false). { destruct R as (_ & _ & _ & k' & K' & KB). rewrite HK in K'. inversion K'; subst. exact KB. }
  unfold left_rest. rewrite (lf_eq _ _ _ HK), (rg_eq _ _ _ HK), KL, KR, (co_eq _ _ _ HK), KB. cbn [negb andb].
  destruct (renil w t nl im _ n true (trep_0 _ _ _ _ _ _ R)) as (w4 & E4 & R4 & _ & S4 & K4). rewrite E4.
  rewrite (pa_eq _ _ _ (look0 w4 t nl im (F true c a va E :: q) false l x v r n R4)). cbn [r_parent top f_a].
  exists w4. auto.
Qed.
Lemma right_gone : forall w t nl im q c a va l x v r n k, let X := T false l x v r in let T0 := plug (F false c a va E :: q) X in
  trep w t nl im T0 n -> hget (rw_nodes w) nl = Some k -> r_left k = nl -> r_right k = nl ->
  exists w', right_rest w t x nl = Some (a, w') /\ trep0 w' t nl im T0 n /\ same t [nl] w w' /\ hget (rw_nodes w') nl = Some (toC true k).
Proof.
  intros w t nl im q c a va l x v r n k X T0 R HK KL KR.
  assert (KB : r_red k = false). { destruct R as (_ & _ & _ & k' & K' & KB). rewrite HK in K'. inversion K'; subst. exact KB. }
  unfold right_rest. rewrite (lf_eq _ _ _ HK), (rg_eq _ _ _ HK), KL, KR, (co_eq _ _ _ HK), KB. cbn [negb andb].
  destruct (renil w t nl im _ n true (trep_0 _ _ _ _ _ _ R)) as (w4 & E4 & R4 & _ & S4 & K4). rewrite E4.
  rewrite (pa_eq _ _ _ (look0 w4 t nl im (F false c a va E :: q) false l x v r n R4)). cbn [r_parent top f_a].
  exists w4. auto.
Qed.
Lemma left_spec : forall w t nl im q c a va S0 l x v r n k,
  let X := T false l x v r in let T0 := plug (F true c a va S0 :: q) X in
  trep w t nl im T0 n -> nr true T0 -> (S0 = E -> c = true) -> hget (rw_nodes w) nl = Some k -> r_left k = nl -> r_right k = nl ->
  exists c' x' w', fixup_left w t x = Some (x', w') /\ leaves t nl im n T0 c' (length q) w x' w'.
Proof.
  intros w t nl im q c a va S0 l x v r n k X T0 R NR NE HK KL KR.
  assert (E0 : fixup_left w t x = (do xp <- pa w x; do s <- rg w xp; do sc <- co w s;
    do '(s, w) <- (if sc then
      do w <- setr w s (toC false);
      do w <- setr w xp (toC true);
      do w <- left_rotate w t xp;
      do xp <- pa w x; do s <- rg w xp; Some (s, w)
    else Some (s, w)); left_rest w t x s)) by reflexivity. rewrite E0. clear E0.
  destruct S0 as [|d B b vb G].
  { (* no sibling, a red parent *)
    specialize (NE eq_refl). subst c. exists true. destruct (left_gone w t nl im q true a va l x v r n k R HK KL KR) as (w1 & E1 & R1 & S1 & _).
    exists a, w1. split; [|split; [apply same_one; exact S1|]].
    - seen R (F true true a va E :: q) false l x v r. rewrite (rg_eq _ _ _ (look w t nl im q true X a va E n R)). cbn [r_right rp].
      rewrite (co_eq _ _ _ HK). destruct R as (_ & _ & _ & k' & K' & KB). rewrite HK in K'. inversion K'; subst k'. rewrite KB. exact E1.
    - right. exists q, X, va, E. split; [exact R1|]. split; [discriminate|]. split; [reflexivity|].
      unfold T0 in NR. cbn [plug fill f_d f_c f_a f_v f_s] in NR. apply nr_sub in NR. destruct NR as (NQ & NC & (_ & NXl & NXr) & _).
      split; [auto|]. split; [unfold X; cbn [nr]; nrs|exact Logic.I]. }
  clear NE.
  assert (R0 : trep w t nl im (plug q (T c X a va (T d B b vb G))) n) by exact R.
  seen R (F true c a va (T d B b vb G) :: q) false l x v r. seen R0 q c X a va (T d B b vb G).
  rewrite (co_eq _ _ _ (look w t nl im (F false c a va X :: q) d B b vb G n R)). cbn [r_red].
  destruct d; [|exists c; apply left_rest_spec; auto].
  exists true.
  pose proof NR as NR'. unfold T0 in NR'. cbn [plug fill f_d f_c f_a f_v f_s] in NR'. apply nr_sub in NR'. destruct NR' as (NQ & NC & (NX0 & NXl & NXr) & NS). cbn [nr] in NS. destruct NS as (ND & NB & NG).
  assert (c = false) by (destruct c; auto; discriminate (ND eq_refl)). subst c.
  destruct (recolor_spec w t nl im (F false false a va X :: q) true B b vb G n false R) as (w1 & E1 & R1 & S1). rewrite E1.
  destruct (recolor_spec w1 t nl im q false X a va (T false B b vb G) n true R1) as (w2 & E2 & R2 & S2). rewrite E2.
  destruct (left_rotate_spec w2 t nl im q true X a va false B b vb G n R2) as (w3 & E3 & R3 & S3). rewrite E3.
  assert (S03 : same t (ns T0) w w3) by (eapply same_trans; [exact S1|]; eapply same_trans; [sub2 S2|sub2 S3]).
  seen R3 (F true true a va B :: F true false b vb G :: q) false l x v r. seen R3 (F true false b vb G :: q) true X a va B.
  assert (I3 : items (plug q (T false (T true X a va B) b vb G)) = items T0).
  { unfold T0. cbn [plug]. rewrite !items_plug. unfold fill, X. cbn. repeat (rewrite <- ?app_assoc; cbn [app]). reflexivity. }
  assert (NG' : nr false G) by (eapply nr_black; eauto).
  destruct B as [|db B1 b1 v1 B2].
  - (* the new sibling is the sentinel *)
    cbn [rp]. assert (HK3 : hget (rw_nodes w3) nl = Some k) by (rewrite (nil_kept _ _ _ _ _ _ _ R S03); exact HK).
    destruct R as (_ & _ & _ & k' & K' & KB). rewrite HK in K'. inversion K'; subst k'. clear K'.
    unfold left_rest. rewrite (lf_eq _ _ _ HK3), (rg_eq _ _ _ HK3), KL, KR, (co_eq _ _ _ HK3), KB. cbn [negb andb].
    destruct (renil w3 t nl im _ n true (trep_0 _ _ _ _ _ _ R3)) as (w4 & E4 & R4 & _ & S4 & _). rewrite E4.
    rewrite (pa_eq _ _ _ (look0 w4 t nl im (F true true a va E :: F true false b vb G :: q) false l x v r n R4)). cbn [r_parent top f_a].
    do 2 eexists. split; [reflexivity|]. split; [eapply same_trans; [apply same_nil; exact S03|apply same_one; exact S4]|].
    right. exists (F true false b vb G :: q), X, va, E. split; [exact R4|]. split; [discriminate|]. split; [exact I3|].
    split; [cbn [np f_c f_s]; auto|]. split; [unfold X; cbn [nr]; nrs|exact Logic.I].
  - cbn [rp].
    assert (N3 : nr true (plug (F true true a va (T db B1 b1 v1 B2) :: F true false b vb G :: q) X)).
    { cbn [plug fill f_d f_c f_a f_v f_s]. unfold fill; cbn [f_d f_c f_a f_v f_s]. apply nr_plug. split; [auto|]. cbn [nr] in NB |- *. destruct NB as (NB1 & NB2 & NB3). unfold X. cbn [nr]. nrs. }
    assert (D3 : db = false) by (destruct db; auto; cbn [nr] in NB; discriminate (proj1 NB eq_refl)). subst db.
    destruct (left_rest_spec w3 t nl im (F true false b vb G :: q) true a va false B1 b1 v1 B2 l x v r n R3 N3) as (x' & w' & E4 & S4 & L4).
    fold X in S4, L4. exists x', w'. split; [exact E4|]. split.
    + eapply same_trans; [apply same_nil; exact S03|]. apply (same_cnt _ _ _ _ _ S4). subst T0 X. intros a0. rewrite !cnt_cons. f_equal. revert a0. cnteq.
    + destruct L4 as [(T1 & A1 & A2 & A3 & A4)|(p1 & l1 & u1 & r1 & A1 & A2 & A3 & A4 & A5 & A6)].
      * left. exists T1. split; [auto|]. split; [auto|]. split; [rewrite A3; exact I3|auto].
      * right. exists p1, l1, u1, r1. cbv zeta in *. split; [auto|]. split; [discriminate|]. split; [rewrite A3; exact I3|auto].
Qed.

Lemma right_spec : forall w t nl im q c a va S0 l x v r n k,
  let X := T false l x v r in let T0 := plug (F false c a va S0 :: q) X in
  trep w t nl im T0 n -> nr true T0 -> (S0 = E -> c = true) -> hget (rw_nodes w) nl = Some k -> r_left k = nl -> r_right k = nl ->
  exists x' w', fixup_right w t x = Some (x', w') /\ leaves t nl im n T0 c (length q) w x' w'.
Proof.
  intros w t nl im q c a va S0 l x v r n k X T0 R NR NE HK KL KR.
  assert (R0 : trep w t nl im (plug q (T c S0 a va X)) n) by exact R.
  assert (E0 : fixup_right w t x = right_rest w t x (rp nl S0)).
  { unfold fixup_right. seen R (F false c a va S0 :: q) false l x v r. seen R0 q c S0 a va X. reflexivity. }
  rewrite E0. clear E0. destruct S0 as [|d G b vb B]; [|apply right_rest_spec; auto].
  specialize (NE eq_refl). subst c. destruct (right_gone w t nl im q true a va l x v r n k R HK KL KR) as (w1 & E1 & R1 & S1 & _).
  exists a, w1. split; [exact E1|]. split; [apply same_one; exact S1|].
  right. exists q, E, va, X. split; [exact R1|]. split; [discriminate|]. split; [reflexivity|].
  unfold T0 in NR. cbn [plug fill f_d f_c f_a f_v f_s] in NR. apply nr_sub in NR. destruct NR as (NQ & NC & _ & (_ & NXl & NXr)).
  split; [auto|]. split; [exact Logic.I|unfold X; cbn [nr]; nrs].
Qed.

(** ** At the root *)
Lemma fixup_nil : forall fuel w t nl im T0 n, trep0 w t nl im T0 n -> (1 <= fuel)%nat ->
  exists w', delete_fixup fuel w t nl = Some w' /\ trep w' t nl im T0 n /\ same t [nl] w w'.
Proof.
  intros [|fuel] w t nl im T0 n R FU; [lia|]. cbn [delete_fixup].
  destruct (renil w t nl im T0 n false R) as (w' & E1 & _ & R1 & S1 & _).
  destruct R as (HT & _ & _ & k & HK). rewrite (nil_eq _ _ _ HT), (co_eq _ _ _ HK). cbn [t_nil]. rewrite Z.eqb_refl. cbn [orb].
  exists w'. split; [exact E1|]. split; auto.
Qed.
Lemma fixup_root : forall fuel w t nl im T0 n k, trep w t nl im T0 n -> nr true T0 -> (2 <= fuel)%nat ->
  hget (rw_nodes w) nl = Some k -> r_left k = nl -> r_right k = nl ->
  exists w', delete_fixup fuel w t (rp nl T0) = Some w' /\ trep w' t nl im T0 n /\ same t [nl] w w'.
Proof.
  intros fuel w t nl im T0 n k R NR FU HK KL KR.
  destruct T0 as [|c l x v r]; [apply fixup_nil; [apply trep_0; auto|lia]|]. cbn [rp].
  assert (c = false) by (destruct c; auto; cbn [nr] in NR; discriminate (proj1 NR eq_refl)). subst c.
  destruct fuel as [|fuel]; [lia|]. cbn [delete_fixup].
  rewrite (rep_nil _ _ _ _ _ _ R). pose proof (rep_ne w t nl im [] _ _ _ _ _ _ R) as NX.
  pose proof (look w t nl im [] _ _ _ _ _ _ R) as LX. cbn [top] in LX.
  rewrite (co_eq _ _ _ LX). cbn [r_red]. rewrite (eqb_no _ _ NX). cbn [orb].
  assert (KB : r_red k = false). { destruct R as (_ & _ & _ & k' & K' & KB). rewrite HK in K'. inversion K'; subst. exact KB. }
  destruct (renil w t nl im _ n true (trep_0 _ _ _ _ _ _ R)) as (w1 & E1 & R1 & _ & S1 & _).
  assert (ES : fixup_step w t x = Some (nl, w1)).
  { unfold fixup_step, fixup_right. rewrite (pa_eq _ _ _ LX), (co_eq _ _ _ LX). cbn [r_parent r_red].
    rewrite (lf_eq _ _ _ HK), KL, (eqb_no _ _ NX), (rg_eq _ _ _ HK), KR, (lf_eq _ _ _ HK), KL, (co_eq _ _ _ HK), KB. cbn [negb andb].
    rewrite E1. rewrite (pa_eq _ _ _ (look0 w1 t nl im [] _ _ _ _ _ _ R1)). reflexivity. }
  rewrite ES. destruct (fixup_nil fuel w1 t nl im _ n R1 ltac:(lia)) as (w2 & E2 & R2 & S2).
  exists w2. split; [exact E2|]. split; [exact R2|]. eapply same_trans; eauto.
Qed.

(** ** The loop *)
Lemma steady_inv : forall fuel w t x nl, steady fuel w t x = Some true -> nil_ w t = Some nl -> x <> nl -> co w x = Some false ->
  lf w nl = Some nl /\ rg w nl = Some nl /\
  exists f r p a b c x1 w1, root w t = Some r /\ pa w x = Some p /\ lf w p = Some a /\ rg w p = Some b /\ co w p = Some c /\ (x = r \/ c = true \/ (a <> nl /\ b <> nl)) /\
    fixup_step w t x = Some (x1, w1) /\ steady f w1 t x1 = Some true.
Proof.
  intros [|f] w t x nl H HN NX HC; [discriminate|]. cbn [steady] in H. rewrite HN, HC, (eqb_no _ _ NX) in H. cbn [orb] in H.
  destruct (root w t) as [r|] eqn:ER; [|discriminate]. destruct (pa w x) as [p|] eqn:EP; [|discriminate].
  destruct (lf w p) as [a|] eqn:EA; [|discriminate]. destruct (rg w p) as [b|] eqn:EB; [|discriminate]. destruct (co w p) as [c|] eqn:EC; [|discriminate].
  destruct (lf w nl) as [u|] eqn:EU; [|discriminate]. destruct (rg w nl) as [u'|] eqn:EV; [|discriminate].
  destruct ((u =? nl) && (u' =? nl) && ((x =? r) || c || negb (a =? nl) && negb (b =? nl)))%bool eqn:C; [|discriminate].
  apply andb_true_iff in C. destruct C as (C & C3). apply andb_true_iff in C. destruct C as (C1 & C2).
  apply Z.eqb_eq in C1, C2. subst u u'. split; [auto|]. split; [auto|].
  destruct (fixup_step w t x) as [[x1 w1]|] eqn:ES; [|discriminate].
  exists f, r, p, a, b, c, x1, w1. do 5 (split; [auto|]). split; [|auto].
  apply orb_true_iff in C3. destruct C3 as [C3|C3]; [apply orb_true_iff in C3; destruct C3 as [C3|C3]; [left; apply Z.eqb_eq; auto|auto]|right; right].
  apply andb_true_iff in C3. rewrite !negb_true_iff, !Z.eqb_neq in C3. exact C3.
Qed.
Lemma prt_in : forall q f y, In (prt (f :: q) y) (pns (f :: q)).
Proof.
  induction q as [|g q IH]; intros f y; cbn [prt pns]; [left; reflexivity|]. 
  specialize (IH g (f_a f)). cbn [prt pns] in IH. right. apply in_or_app. right. exact IH.
Qed.
Lemma fixup_spec : forall m fuel fuel' w t nl im p l x v r n, (length p <= m)%nat ->
  let T0 := plug p (T false l x v r) in trep w t nl im T0 n -> nr true T0 -> (length p + 2 <= fuel)%nat ->
  steady fuel' w t x = Some true ->
  exists w' T', delete_fixup fuel w t x = Some w' /\ trep0 w' t nl im T' n /\ items T' = items T0 /\ nr true T' /\
    same t (nl :: ns T0) w w'.
Proof.
  induction m as [|m IH]; intros fuel fuel' w t nl im p l x v r n LM T0 R NR FU ST;
    pose proof (rep_nil _ _ _ _ _ _ R) as HN; pose proof (rep_ne _ _ _ _ _ _ _ _ _ _ _ R) as NX; pose proof (look _ _ _ _ _ _ _ _ _ _ _ R) as LX;
    destruct (steady_inv _ _ _ _ _ ST HN NX (co_eq _ _ _ LX)) as (UL & UR & f & rr & xp & a & b & pc & x1 & w1 & HR & HP & HA & HB & HPC & HS & ES & ST1);
    assert (HKK : exists k, hget (rw_nodes w) nl = Some k) by (destruct R as (_ & _ & _ & k & K & _); eauto); destruct HKK as (k & HK);
    rewrite (lf_eq _ _ _ HK) in UL; rewrite (rg_eq _ _ _ HK) in UR; injection UL as UL; injection UR as UR.
  - destruct p; [|cbn in LM; lia].
    destruct (fixup_root fuel w t nl im _ n k R NR FU HK UL UR) as (w' & E1 & R1 & S1).
    exists w', T0. split; [exact E1|]. split; [apply trep_0; exact R1|]. split; [auto|]. split; [auto|]. apply same_one; auto.
  - destruct p as [|g q].
    { destruct (fixup_root fuel w t nl im _ n k R NR FU HK UL UR) as (w' & E1 & R1 & S1).
      exists w', T0. split; [exact E1|]. split; [apply trep_0; exact R1|]. split; [auto|]. split; [auto|]. apply same_one; auto. }
    cbn [length] in *. destruct fuel as [|fuel]; [lia|]. cbn [delete_fixup]. rewrite HN, (co_eq _ _ _ LX), (eqb_no _ _ NX). cbn [r_red orb]. rewrite ES.
    assert (NRT : x <> rr).
    { rewrite (rep_root _ _ _ _ _ _ R) in HR. unfold T0 in HR. rewrite rp_plug in HR. intros ->. injection HR as HR. cbn [rp] in HR.
      pose proof (prt_in q g rr) as I. cbn [prt] in I, HR. rewrite HR in I. apply cnt_in in I. destruct R as (_ & D & _). specialize (D rr). unfold T0 in D. rewrite cnt_cons, cnt_plug in D.
      cbn [ns] in D. rewrite cnt_app, cnt_cons, Z.eqb_refl in D. cbn [Z.b2z] in D. pose proof (cnt_nonneg rr (ns l)). pose proof (cnt_nonneg rr (ns r)). pose proof (b2z_nonneg (nl =? rr)). lia. }
    destruct HS as [HS|HS]; [congruence|]. 
    rewrite (pa_eq _ _ _ LX) in HP. cbn [r_parent top] in HP. injection HP as <-.
    assert (LV : exists c', leaves t nl im n T0 c' (length q) w x1 w1).
    { destruct g as [gd gc ga gv gs]. unfold fixup_step in ES. rewrite (pa_eq _ _ _ LX) in ES. cbn [r_parent top f_a] in ES, HA, HB, HPC. rewrite HA in ES.
      destruct gd.
      - assert (R0 : trep w t nl im (plug q (T gc (T false l x v r) ga gv gs)) n) by exact R.
        rewrite (lf_eq _ _ _ (look _ _ _ _ _ _ _ _ _ _ _ R0)) in HA. rewrite (rg_eq _ _ _ (look _ _ _ _ _ _ _ _ _ _ _ R0)) in HB. rewrite (co_eq _ _ _ (look _ _ _ _ _ _ _ _ _ _ _ R0)) in HPC.
        cbn [r_left r_right r_red rp] in HA, HB, HPC. injection HPC as <-. injection HA as <-. injection HB as <-. rewrite Z.eqb_refl in ES.
        destruct (left_spec w t nl im q gc ga gv gs l x v r n k R NR) as (c' & x' & w' & E1 & L1); auto.
        { intros ->. cbn [rp] in HS. destruct HS as [HS|HS]; [auto|tauto]. }
        rewrite E1 in ES. injection ES as <- <-. exists c'. exact L1.
      - assert (R0 : trep w t nl im (plug q (T gc gs ga gv (T false l x v r))) n) by exact R.
        rewrite (lf_eq _ _ _ (look _ _ _ _ _ _ _ _ _ _ _ R0)) in HA. rewrite (rg_eq _ _ _ (look _ _ _ _ _ _ _ _ _ _ _ R0)) in HB. rewrite (co_eq _ _ _ (look _ _ _ _ _ _ _ _ _ _ _ R0)) in HPC.
        cbn [r_left r_right r_red rp] in HA, HB, HPC. injection HPC as <-. injection HA as <-. injection HB as <-.
        pose proof (rep_sib w t nl im _ _ _ _ _ _ _ _ R) as NS. cbn [f_s] in NS. rewrite (eqb_no _ _ NS) in ES.
        destruct (right_spec w t nl im q gc ga gv gs l x v r n k R NR) as (x' & w' & E1 & L1); auto.
        { intros ->. cbn [rp] in HS. destruct HS as [HS|HS]; [auto|tauto]. }
        rewrite E1 in ES. injection ES as <- <-. exists gc. exact L1. }
    clear ES. destruct LV as (c' & S1 & [(T1 & -> & R1 & I1 & N1)|(p1 & l1 & v1 & r1 & R1 & R1' & I1 & NP1 & NL1 & NR1)]).
    + assert (CS : forall a0, cnt a0 (ns T1) = cnt a0 (ns T0)) by (intros; rewrite <- !items_ns, I1; reflexivity).
      assert (FX : exists w', delete_fixup fuel w1 t (rp nl T1) = Some w' /\ trep w' t nl im T1 n /\ same t [nl] w1 w').
      { assert (HKK : exists k, hget (rw_nodes w1) nl = Some k) by (destruct R1 as (_ & _ & _ & k1 & K1 & _); eauto). destruct HKK as (k1 & K1).
        destruct T1 as [|tc tl ta tv tr']. { apply fixup_nil; [apply trep_0; auto|lia]. }
        pose proof (look w1 t nl im [] _ _ _ _ _ _ R1) as L1. pose proof (rep_ne w1 t nl im [] _ _ _ _ _ _ R1) as N1'.
        assert (tc = false) by (destruct tc; auto; cbn [nr] in N1; discriminate (proj1 N1 eq_refl)). subst tc.
        destruct (steady_inv _ _ _ _ _ ST1 (rep_nil _ _ _ _ _ _ R1) N1' (co_eq _ _ _ L1)) as (UL1 & UR1 & _).
        rewrite (lf_eq _ _ _ K1) in UL1. rewrite (rg_eq _ _ _ K1) in UR1. injection UL1 as UL1. injection UR1 as UR1.
        apply (fixup_root fuel w1 t nl im _ n k1 R1 N1); auto; lia. }
      destruct FX as (w' & E2 & R2 & S2). exists w', T1. split; [exact E2|]. split; [apply trep_0; auto|]. split; [auto|]. split; [auto|].
      eapply same_trans; [exact S1|]. apply same_one. auto.
    + cbv zeta in *. assert (CS : forall a0, cnt a0 (ns (plug p1 (T c' l1 x1 v1 r1))) = cnt a0 (ns T0)) by (intros; rewrite <- !items_ns, I1; reflexivity).
      destruct c'.
      * destruct fuel as [|fuel]; [lia|]. cbn [delete_fixup].
        destruct R1 as (HT1 & R1). rewrite (nil_eq _ _ _ HT1). cbn [t_nil]. assert (R1c := conj HT1 R1). fold (trep0 w1 t nl im (plug p1 (T true l1 x1 v1 r1)) n) in R1c.
        rewrite (co_eq _ _ _ (look0 _ _ _ _ _ _ _ _ _ _ _ R1c)). cbn [r_red]. rewrite orb_true_r.
        destruct (recolor0 _ _ _ _ _ _ _ _ _ _ _ false R1c) as (w2 & E2 & R2 & S2).
        exists w2, (plug p1 (T false l1 x1 v1 r1)). split; [exact E2|]. split; [exact R2|].
        split; [rewrite <- I1, !items_plug; reflexivity|]. split; [apply nr_plug; split; [auto|]; cbn [nr]; auto|].
        eapply same_trans; [exact S1|]. apply same_nil. apply (same_cnt _ _ _ _ _ S2). intros; symmetry; apply CS.
      * destruct (R1' eq_refl) as (R1b & LP). destruct (IH fuel f w1 t nl im p1 l1 x1 v1 r1 n) as (w2 & T2 & E2 & R2 & I2 & N2 & S2); auto; try lia.
        { apply nr_plug; split; [auto|]; cbn [nr]; auto. }
        exists w2, T2. split; [exact E2|]. split; [exact R2|]. split; [rewrite I2; auto|]. split; [auto|].
        eapply same_trans; [exact S1|]. apply (same_cnt _ _ _ _ _ S2). intros a0. rewrite !cnt_cons, CS. reflexivity.
Qed.

(** ** What is lost *)
(** At the root with a red sentinel, the loop rotates the sentinel, which becomes the root. *)
Lemma root_lost : forall fuel w t nl im l x v r n kv, trep0 w t nl im (T false l x v r) n ->
  hget (rw_nodes w) nl = Some (RN nl nl nl kv true) -> (2 <= fuel)%nat ->
  exists w', delete_fixup fuel w t x = Some w' /\ trep0 w' t nl im E n /\ same t [nl] w w'.
Proof.
  intros fuel w t nl im l x v r n kv R HK FU.
  pose proof (look0 w t nl im [] _ _ _ _ _ _ R) as LX. cbn [top] in LX.
  assert (NX : x <> nl). { intros ->. rewrite HK in LX. congruence. }
  destruct R as (HT & D & HH & _). cbn [rp] in HT.
  destruct fuel as [|[|fuel]]; [lia|lia|].
  assert (ES : exists w1, fixup_step w t x = Some (nl, w1) /\ hget (rw_trees w1) t = Some (RT nl nl im n) /\
            (exists k1, hget (rw_nodes w1) nl = Some k1) /\ same t [nl] w w1).
  { unfold fixup_step, fixup_right, right_rotate. eexists. split; [|split; [|split]].
    - repeat (hs; rewrite ?(eqb_no _ _ NX), ?Z.eqb_refl; cbn [negb andb]; go1). hs. rewrite ?Z.eqb_refl. hs. reflexivity.
    - known.
    - eexists. known.
    - sames. }
  destruct ES as (w1 & E1 & HT1 & (k1 & K1) & S1).
  remember (S fuel) as f1. cbn [delete_fixup]. rewrite (nil_eq _ _ _ HT), (co_eq _ _ _ LX). cbn [t_nil r_red]. rewrite (eqb_no _ _ NX). cbn [orb].
  rewrite E1. subst f1.
  assert (R1 : trep0 w1 t nl im E n).
  { split; [exact HT1|]. split; [intros a; rewrite cnt_cons; cbn [ns cnt]; destruct (nl =? a); cbn; lia|]. split; [constructor|eauto]. }
  destruct (fixup_nil (S fuel) w1 t nl im E n R1 ltac:(lia)) as (w2 & E2 & R2 & S2).
  exists w2. split; [exact E2|]. split; [apply trep_0; exact R2|]. eapply same_trans; eauto.
Qed.
Lemma rp_E : forall w t nl im p s n, trep w t nl im (plug p s) n -> rp nl s = nl -> s = E.
Proof. intros w t nl im p s n R H. pose proof (rp_ne_node _ _ _ _ _ _ _ R) as K. rewrite H, Z.eqb_refl in K. destruct s; [auto|discriminate]. Qed.
Lemma lost_spec : forall fuel w t nl im p X n, trep w t nl im (plug p X) n -> np true p -> only_child w t (rp nl X) -> (3 <= fuel)%nat ->
  exists w', delete_fixup fuel w t (rp nl X) = Some w' /\ trep0 w' t nl im E n /\ same t [nl] w w'.
Proof.
  intros fuel w t nl im p X n R NP (nl' & rt & HN & HR & NX & HC & HP & HS & KP & KL & KR) FU.
  rewrite (rep_nil _ _ _ _ _ _ R) in HN. injection HN as <-.
  destruct X as [|c l x v r]; [cbn [rp] in NX; congruence|]. cbn [rp] in *.
  pose proof (look _ _ _ _ _ _ _ _ _ _ _ R) as LX. rewrite (co_eq _ _ _ LX) in HC. cbn [r_red] in HC. injection HC as ->.
  rewrite (pa_eq _ _ _ LX) in HP. cbn [r_parent] in HP. injection HP as HP.
  rewrite (rep_root _ _ _ _ _ _ R), rp_plug in HR. cbn [rp] in HR. injection HR as HR.
  destruct p as [|g q]; [cbn [prt top] in *; congruence|]. cbn [prt top] in *.
  assert (q = []).
  { destruct q as [|h q]; [auto|]. exfalso. pose proof (prt_in q h (f_a g)) as I. rewrite HR, <- HP in I. apply cnt_in in I.
    destruct R as (_ & D & _). specialize (D (f_a g)). rewrite cnt_cons, cnt_plug in D.
    change (pns (g :: h :: q)) with (f_a g :: ns (f_s g) ++ pns (h :: q)) in D. rewrite cnt_cons, cnt_app, Z.eqb_refl in D. cbn [Z.b2z] in D.
    pose proof (cnt_nonneg (f_a g) (ns (f_s g))). pose proof (b2z_nonneg (nl =? f_a g)). pose proof (cnt_nonneg (f_a g) (ns (T false l x v r))). lia. }
  subst q. cbn [prt] in HR. clear HR. subst rt.
  cbn [np pcol] in NP. destruct NP as (NC & _). specialize (NC eq_refl).
  destruct R as (HT & D & HH & k & HK & HB). assert (R : trep w t nl im (plug [g] (T false l x v r)) n) by (repeat split; eauto).
  rewrite (pa_eq _ _ _ HK) in KP. rewrite (lf_eq _ _ _ HK) in KL. rewrite (rg_eq _ _ _ HK) in KR. injection KP as KP. injection KL as KL. injection KR as KR.
  destruct g as [gd gc ga gv gs]. cbn [f_a f_c] in *. subst gc.
  assert (ES : exists w1, fixup_step w t x = Some (ga, w1) /\ trep0 w1 t nl im (plug [F gd false ga gv gs] (T false l x v r)) n /\ same t [nl] w w1 /\ hget (rw_nodes w1) nl = Some (toC true k)).
  { unfold fixup_step. rewrite (pa_eq _ _ _ LX). cbn [r_parent]. destruct gd.
    - pose proof (look w t nl im [] false (T false l x v r) ga gv gs n R) as LG. rewrite (lf_eq _ _ _ LG). cbn [r_left rp]. rewrite Z.eqb_refl.
      assert (gs = E).
      { apply (rp_E w t nl im [F false false ga gv (T false l x v r)] gs n R). rewrite (lf_eq _ _ _ LG), (rg_eq _ _ _ LG) in HS. cbn [r_left r_right rp] in HS.
        destruct HS as [(_ & HS)|(HS & _)]; congruence. }
      subst gs. destruct (left_gone w t nl im [] false ga gv l x v r n k R HK KL KR) as (w1 & E1 & R1 & S1 & K1).
      exists w1. split; [|auto].
      assert (E0 : fixup_left w t x = left_rest w t x nl); [|rewrite E0; exact E1].
      unfold fixup_left. rewrite (pa_eq _ _ _ LX). cbn [r_parent]. rewrite (rg_eq _ _ _ LG). cbn [r_right rp]. rewrite (co_eq _ _ _ HK), HB. reflexivity.
    - pose proof (look w t nl im [] false gs ga gv (T false l x v r) n R) as LG. rewrite (lf_eq _ _ _ LG). cbn [r_left].
      pose proof (rep_sib w t nl im _ _ _ _ _ _ _ _ R) as NS. cbn [f_s] in NS. rewrite (eqb_no _ _ NS).
      assert (gs = E).
      { apply (rp_E w t nl im [F true false ga gv (T false l x v r)] gs n R). rewrite (lf_eq _ _ _ LG), (rg_eq _ _ _ LG) in HS. cbn [r_left r_right rp] in HS.
        destruct HS as [(HS & _)|(HS & _)]; congruence. }
      subst gs. destruct (right_gone w t nl im [] false ga gv l x v r n k R HK KL KR) as (w1 & E1 & R1 & S1 & K1).
      exists w1. split; [|auto].
      assert (E0 : fixup_right w t x = right_rest w t x nl); [|rewrite E0; exact E1].
      unfold fixup_right. rewrite (pa_eq _ _ _ LX). cbn [r_parent]. rewrite (lf_eq _ _ _ LG), (co_eq _ _ _ LX). cbn [r_left r_red rp]. reflexivity. }
  destruct ES as (w1 & E1 & R1 & S1 & K1).
  destruct fuel as [|fuel]; [lia|]. cbn [delete_fixup]. rewrite (rep_nil _ _ _ _ _ _ R), (co_eq _ _ _ LX), (eqb_no _ _ NX). cbn [r_red orb]. rewrite E1.
  assert (K1' : hget (rw_nodes w1) nl = Some (RN nl nl nl (r_value k) true)) by (rewrite K1; unfold toC; rewrite KP, KL, KR; reflexivity).
  destruct gd; (eapply root_lost in R1; [|exact K1'|instantiate (1 := fuel); lia]); destruct R1 as (w2 & E2 & R2 & S2);
    (exists w2; split; [exact E2|]; split; [exact R2|]; eapply same_trans; eauto).
Qed.
