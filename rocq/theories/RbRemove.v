(** Removal of a node. *)
From Verif Require Import Base Status MemModel MemProofs Heap RbModel RbSpec RbProofs RbInsert RbDelete RbFixup.

Lemma D_of : forall w t nl im p s n, trep w t nl im (plug p s) n -> forall x, cnt x (nl :: pns p ++ ns s) <= 1.
Proof. intros w t nl im p s n (_ & D & _) x. specialize (D x). rewrite cnt_cons, cnt_plug in D. rewrite cnt_cons, cnt_app. lia. Qed.

(** ** Transplant: an only child takes its parent's place *)
Lemma transplant_spec : forall w t nl im p c l z v r X n, trep w t nl im (plug p (T c l z v r)) n ->
  (l = E /\ X = r) \/ (r = E /\ X = l) ->
  exists w', transplant w t z (rp nl X) = Some w' /\ trep w' t nl im (plug p X) n /\
    same t (nl :: ns (plug p (T c l z v r))) w w' /\ hget (rw_nodes w') z = hget (rw_nodes w) z.
Proof.
  intros w t nl im p c l z v r X n R HX.
  pose proof (look _ _ _ _ _ _ _ _ _ _ _ R) as LZ. pose proof (rep_ne _ _ _ _ _ _ _ _ _ _ _ R) as NZ.
  assert (D : forall x, cnt x (nl :: z :: pns p ++ ns X) <= 1).
  { intros x. pose proof (D_of _ _ _ _ _ _ _ R x) as K. destruct HX as [[-> ->]|[-> ->]]; cbn [ns app] in K;
      repeat (rewrite ?cnt_app in *; rewrite ?cnt_cons in * ); cbn [cnt] in *; lia. }
  assert (HC : forall x, cnt x (nl :: ns (plug p X)) <= 1).
  { intros x. specialize (D x). rewrite cnt_cons, cnt_plug. repeat (rewrite ?cnt_app in *; rewrite ?cnt_cons in * ). cntpos. lia. }
  assert (HS : forall x, cnt x (nl :: ns (plug p (T c l z v r))) = 0 -> cnt x (nl :: z :: pns p ++ ns X) = 0).
  { intros x K. rewrite cnt_cons, cnt_plug in K. destruct HX as [[-> ->]|[-> ->]]; cbn [ns app] in K;
      repeat (rewrite ?cnt_app in *; rewrite ?cnt_cons in * ); cbn [cnt] in *; lia. }
  assert (FX : holds (rw_nodes w) (cells nl z X)).
  { destruct R as (_ & _ & HH & _). apply cells_plug in HH. destruct HH as [_ HH]. cbn [cells] in HH. splitholds. destruct HX as [[-> ->]|[-> ->]]; auto. }
  destruct R as (HT & _ & HH & k & HK & HB). apply cells_plug in HH. destruct HH as [HP _]. rewrite rp_plug in HT. cbn [rp] in *.
  unfold trep. rewrite rp_plug.
  assert (G : exists w', transplant w t z (rp nl X) = Some w' /\
     (hget (rw_trees w') t = Some (RT (prt p (rp nl X)) nl im n) /\ (forall x, cnt x (nl :: ns (plug p X)) <= 1) /\
      holds (rw_nodes w') (cells nl nl (plug p X)) /\ exists k, hget (rw_nodes w') nl = Some k /\ r_red k = false) /\
     same t (nl :: z :: pns p ++ ns X) w w' /\ hget (rw_nodes w') z = hget (rw_nodes w) z).
  { clear HS HX. destruct k as [k1 k2 k3 k4 k5]. cbn [r_red] in HB. subst k5.
    destruct p as [|[d0 c0 q v0 s] p]; cbn [top pcells prt f_d f_c f_a f_v f_s] in *; splitholds.
    - destruct X as [|cx lx x vx rx]; cbn [cells rp] in *; splitholds.
      + eexists. split; [unfold transplant; go; reflexivity|]. split; [|split; [sames|hs; reflexivity]].
        split; [hs; rewrite HT; hs; reflexivity|]. split; [exact HC|]. split; [constructor|]. eexists. split; [known|reflexivity].
      + ne D x nl. ne D x z.
        eexists. split; [unfold transplant; go; reflexivity|]. split; [|split; [sames|hs; reflexivity]].
        split; [hs; rewrite HT; hs; reflexivity|]. split; [exact HC|]. split; [cbn [plug cells]; hold|]. eexists. split; [known|reflexivity].
    - ne D q nl. ne D q z.
      assert (z <> rp nl s) by (apply rp_ne; [auto|cz]).
      destruct X as [|cx lx x vx rx]; cbn [cells rp] in *; splitholds.
      + destruct d0.
        * eexists. split; [unfold transplant; go; reflexivity|]. split; [|split; [sames|hs; reflexivity]].
          split; [hs; rewrite HT; hs; reflexivity|]. split; [exact HC|].
          split; [apply cells_plug; cbn [cells pcells top rp f_d f_c f_a f_v f_s]; split; hold|]. eexists. split; [known|reflexivity].
        * eexists. split; [unfold transplant; go; reflexivity|]. split; [|split; [sames|hs; reflexivity]].
          split; [hs; rewrite HT; hs; reflexivity|]. split; [exact HC|].
          split; [apply cells_plug; cbn [cells pcells top rp f_d f_c f_a f_v f_s]; split; hold|]. eexists. split; [known|reflexivity].
      + ne D x nl. ne D x z. ne D x q. destruct d0.
        * eexists. split; [unfold transplant; go; reflexivity|]. split; [|split; [sames|hs; reflexivity]].
          split; [hs; rewrite HT; hs; reflexivity|]. split; [exact HC|].
          split; [apply cells_plug; cbn [cells pcells top rp f_d f_c f_a f_v f_s]; split; hold|]. eexists. split; [known|reflexivity].
        * eexists. split; [unfold transplant; go; reflexivity|]. split; [|split; [sames|hs; reflexivity]].
          split; [hs; rewrite HT; hs; reflexivity|]. split; [exact HC|].
          split; [apply cells_plug; cbn [cells pcells top rp f_d f_c f_a f_v f_s]; split; hold|]. eexists. split; [known|reflexivity]. }
  destruct G as (w' & A & B & C & F0). exists w'. split; [exact A|]. split; [exact B|]. split; [|exact F0].
  apply (same_sub _ _ _ _ _ C). exact HS.
Qed.

(** ** A detached node takes the place of [z] (rbtree_remove_node.c:64-67) *)
Definition take_place (w : rworld) (t z y : Z) : option rworld :=
  do w <- transplant w t z y;
  do zl <- lf w z;
  do w <- setr w y (toL zl);
  do yl <- lf w y;
  do w <- setr w yl (toP y);
  do zc <- co w z;
  setr w y (toC zc).
Lemma take_place_spec : forall w t nl im p c l z zv zr y yn R' n,
  hget (rw_trees w) t = Some (RT (prt p z) nl im n) ->
  (forall x, cnt x (nl :: z :: y :: pns p ++ ns l ++ ns R') <= 1) -> l <> E ->
  holds (rw_nodes w) (pcells nl p z) -> hget (rw_nodes w) z = Some (RN (top nl p) (rp nl l) zr zv c) ->
  holds (rw_nodes w) (cells nl z l) -> hget (rw_nodes w) y = Some yn -> r_right yn = rp nl R' ->
  holds (rw_nodes w) (cells nl y R') -> (exists k, hget (rw_nodes w) nl = Some k /\ r_red k = false) ->
  exists w', take_place w t z y = Some w' /\ trep w' t nl im (plug p (T c l y (r_value yn) R')) n /\
    same t (nl :: z :: y :: pns p ++ ns l ++ ns R') w w' /\ hget (rw_nodes w') z = hget (rw_nodes w) z.
Proof.
  intros w t nl im p c l z zv zr y yn R' n HT D NL HP HZ HL HY YR HR (k & HK & HB).
  destruct l as [|cl ll b bv lr]; [congruence|]. clear NL. destruct yn as [y1 y2 y3 yv y5]. cbn [r_right r_value] in *. subst y3.
  cbn [cells rp] in *. splitholds. unfold trep. rewrite rp_plug. cbn [rp].
  assert (HC : forall x, cnt x (nl :: ns (plug p (T c (T cl ll b bv lr) y yv R'))) <= 1).
  { intros x. specialize (D x). rewrite cnt_cons, cnt_plug. cbn [ns] in *. repeat (rewrite ?cnt_app in *; rewrite ?cnt_cons in * ). cntpos. lia. }
  ne D z nl. ne D y nl. ne D y z. ne D b nl. ne D b z. ne D b y.
  destruct p as [|[d0 c0 q v0 s] p]; cbn [top pcells prt f_d f_c f_a f_v f_s] in *; splitholds.
  - eexists. split; [unfold take_place, transplant; go; reflexivity|]. split; [|split; [sames|hs; reflexivity]].
    split; [hs; rewrite HT; hs; reflexivity|]. split; [exact HC|]. split; [cbn [plug cells rp]; hold|]. eexists. split; [known|assumption].
  - ne D q nl. ne D q z. ne D q y. ne D q b.
    assert (z <> rp nl s) by (apply rp_ne; [auto|cz]).
    destruct d0.
    + eexists. split; [unfold take_place, transplant; go; reflexivity|]. split; [|split; [sames|hs; reflexivity]].
      split; [hs; rewrite HT; hs; reflexivity|]. split; [exact HC|].
      split; [apply cells_plug; cbn [cells pcells top rp f_d f_c f_a f_v f_s]; split; hold|]. eexists. split; [known|assumption].
    + eexists. split; [unfold take_place, transplant; go; reflexivity|]. split; [|split; [sames|hs; reflexivity]].
      split; [hs; rewrite HT; hs; reflexivity|]. split; [exact HC|].
      split; [apply cells_plug; cbn [cells pcells top rp f_d f_c f_a f_v f_s]; split; hold|]. eexists. split; [known|assumption].
Qed.
Lemma reparent : forall h nl a b s x n, holds h (cells nl a s) -> rp nl s = x -> s <> E -> hget h x = Some n ->
  (forall z, cnt z (ns s) <= 1) -> holds (hset h x (toP b n)) (cells nl b s).
Proof.
  intros h nl a b [|c l y v r] x n H X NE G D; [congruence|]. cbn [rp] in X. subst y. cbn [cells] in *. splitholds.
  cbn [ns] in D. rewrite H0 in G. inversion G; subst. hold.
Qed.

(** ** Removal *)
Lemma unlink_eq : forall w t z, unlink w t z =
  (do nl <- nil_ w t;
   do zc <- co w z;
   do zl <- lf w z; do zr <- rg w z;
   if zl =? nl then do w <- transplant w t z zr; Some (zc, zr, w)
   else if zr =? nl then do w <- transplant w t z zl; Some (zc, zl, w)
   else
     do y <- minimum_node w t zr;
     do yc <- co w y;
     do x <- rg w y;
     do yp <- pa w y;
     do w <- (if yp =? z then setr w x (toP y) else
              do w <- transplant w t y x;
              do zr <- rg w z;
              do w <- setr w y (toR zr);
              do yr <- rg w y;
              setr w yr (toP y));
     do w <- take_place w t z y;
     Some (yc, x, w)).
Proof.
  intros. unfold unlink, take_place.
  destruct (nil_ w t) as [nl|]; [|reflexivity]. destruct (co w z); [|reflexivity]. destruct (lf w z) as [zl|]; [|reflexivity].
  destruct (rg w z) as [zr|]; [|reflexivity]. destruct (zl =? nl); [reflexivity|]. destruct (zr =? nl); [reflexivity|].
  destruct (minimum_node w t zr) as [y|]; [|reflexivity]. destruct (co w y); [|reflexivity]. destruct (rg w y); [|reflexivity].
  destruct (pa w y); [|reflexivity].
  match goal with |- match ?m with _ => _ end = _ => destruct m as [w1|] end; [|reflexivity].
  destruct (transplant w1 t z y) as [w2|]; [|reflexivity]. destruct (lf w2 z); [|reflexivity].
  destruct (setr w2 y _) as [w3|]; [|reflexivity]. destruct (lf w3 y); [|reflexivity].
  destruct (setr w3 _ _) as [w4|]; [|reflexivity]. destruct (co w4 z); [|reflexivity]. destruct (setr w4 _ _); reflexivity.
Qed.
(** The end of a removal: the loop runs if the colour removed was black, the count goes
    down, the sentinel is reset. *)
Lemma finish_remove : forall w t nl im p X n (yc : bool), trep w t nl im (plug p X) n ->
  np true p -> nr yc X -> (pcol true p = true -> yc = false) ->
  (yc = false -> steady (S (length (rw_nodes w))) w t (rp nl X) = Some true) ->
  exists w' T', (do w <- (if negb yc then delete_fixup (S (length (rw_nodes w))) w t (rp nl X) else Some w);
              do w <- sett w t (fun h => toCount (t_count h - 1) h); reset_nil w t) = Some w' /\
    trep w' t nl im T' (n - 1) /\ items T' = items (plug p X) /\ nr true T' /\ same t (nl :: ns (plug p X)) w w'.
Proof.
  intros w t nl im p X n yc R NP NX PC ST.
  assert (A : exists w1 T', (if negb yc then delete_fixup (S (length (rw_nodes w))) w t (rp nl X) else Some w) = Some w1 /\
    trep0 w1 t nl im T' n /\ items T' = items (plug p X) /\ nr true T' /\ same t (nl :: ns (plug p X)) w w1).
  { destruct yc; cbn [negb].
    { exists w, (plug p X). split; [auto|]. split; [apply trep_0; auto|]. split; [auto|]. split; [|apply same_refl].
      apply nr_plug. split; [auto|]. destruct (pcol true p); [discriminate (PC eq_refl)|]. eapply nr_black; eauto. }
    destruct X as [|c l x v r].
    { destruct (fixup_nil (S (length (rw_nodes w))) w t nl im _ n (trep_0 _ _ _ _ _ _ R) ltac:(lia)) as (w1 & E1 & R1 & S1).
      exists w1, (plug p E). split; [exact E1|]. split; [apply trep_0; auto|]. split; [auto|]. split; [apply nr_plug; cbn [nr]; auto|apply same_one; auto]. }
    cbn [rp]. cbn [nr] in NX. destruct NX as (_ & NL & NR). destruct c.
    - cbn [delete_fixup]. rewrite (rep_nil _ _ _ _ _ _ R), (co_eq _ _ _ (look _ _ _ _ _ _ _ _ _ _ _ R)). cbn [r_red]. rewrite orb_true_r.
      destruct (recolor_spec _ _ _ _ _ _ _ _ _ _ _ false R) as (w1 & E1 & R1 & S1). exists w1, (plug p (T false l x v r)). split; [exact E1|].
      split; [apply trep_0; exact R1|]. split; [rewrite !items_plug; reflexivity|]. split; [|apply same_nil; exact S1].
      apply nr_plug. split; [auto|]. cbn [nr]. split; [auto|]. split; eapply nr_black; eauto.
    - pose proof (plug_depth _ _ _ _ _ _ _ R) as PD. cbn [ns] in PD. rewrite app_length in PD. cbn [length] in PD.
      apply (fixup_spec (length p) _ (S (length (rw_nodes w))) w t nl im p l x v r n); auto; [|lia].
      apply nr_plug. split; [auto|]. cbn [nr]. auto. }
  destruct A as (w1 & T' & E1 & R1 & I1 & N1 & S1). rewrite E1.
  destruct (set_count0 w1 t nl im _ n (fun n => n - 1) R1) as (w2 & E2 & R2 & S2). rewrite E2.
  destruct (reset_nil0 w2 t nl im _ _ R2) as (w3 & E3 & R3 & S3). rewrite E3.
  exists w3, T'. split; [reflexivity|]. split; [exact R3|]. split; [auto|]. split; [auto|]. eapply same_trans; [exact S1|].
  eapply same_trans; [apply (same_sub _ _ _ _ _ S2); reflexivity|]. apply same_one. exact S3.
Qed.
Lemma same_keep : forall t L w w' a, same t L w w' -> cnt a L = 0 -> hget (rw_nodes w') a = hget (rw_nodes w) a.
Proof. intros t L w w' a (S1 & _) H. apply S1. auto. Qed.
Lemma np_app : forall pc p q, np pc (q ++ p) <-> np (pcol pc p) q /\ np pc p.
Proof.
  induction q as [|f q IH]; cbn [app np]; [tauto|]. rewrite IH.
  replace (pcol pc (q ++ p)) with (pcol (pcol pc p) q) by (destruct q; reflexivity). tauto.
Qed.
Lemma pcol_app : forall pc p q, pcol pc (q ++ p) = pcol (pcol pc p) q.
Proof. destruct q; reflexivity. Qed.

(** What is unlinked leaves a tree of the other items, coloured as before but for the
    node [X] that is in place of a node of colour [yc]. *)
Lemma unlink_spec : forall w t nl im p c l z v r n, trep w t nl im (plug p (T c l z v r)) n -> nr true (plug p (T c l z v r)) ->
  exists yc X p1 w1, unlink w t z = Some (yc, rp nl X, w1) /\ trep w1 t nl im (plug p1 X) n /\
    items (plug p1 X) = (lft p ++ items l) ++ (items r ++ rgt p) /\ np true p1 /\ nr yc X /\ (pcol true p1 = true -> yc = false) /\
    same t (nl :: ns (plug p (T c l z v r))) w w1 /\ (exists zn, hget (rw_nodes w1) z = Some zn /\ r_value zn = v) /\
    (forall a, cnt a (ns (plug p (T c l z v r))) = Z.b2z (z =? a) + cnt a (ns (plug p1 X))) /\
    ((exists b, bh (plug p (T c l z v r)) b) -> yc = false -> X = E \/ rc X = true).
Proof.
  intros w t nl im p c l z v r n R NR.
  destruct (nr_sub _ _ _ _ _ _ _ NR) as (NP & NC & NL & NRr).
  rewrite unlink_eq. rewrite (rep_nil _ _ _ _ _ _ R) in *.
  pose proof (look _ _ _ _ _ _ _ _ _ _ _ R) as LZ. pose proof (D_of _ _ _ _ _ _ _ R) as D0. cbn [ns] in D0.
  rewrite (co_eq _ _ _ LZ), (lf_eq _ _ _ LZ), (rg_eq _ _ _ LZ). cbn [r_left r_right r_red] in *.
  rewrite (rp_ne_node w t nl im (F true c z v r :: p) l n R) in *.
  rewrite (rp_ne_node w t nl im (F false c z v l :: p) r n R) in *.
  assert (ONE : forall X, (l = E /\ X = r) \/ (r = E /\ X = l) -> nr c X ->
     items (plug p X) = (lft p ++ items l) ++ (items r ++ rgt p) ->
     exists yc X1 p1 w1, (do w <- transplant w t z (rp nl X); Some (c, rp nl X, w)) = Some (yc, rp nl X1, w1) /\ trep w1 t nl im (plug p1 X1) n /\
    items (plug p1 X1) = (lft p ++ items l) ++ (items r ++ rgt p) /\ np true p1 /\ nr yc X1 /\ (pcol true p1 = true -> yc = false) /\
    same t (nl :: ns (plug p (T c l z v r))) w w1 /\ (exists zn, hget (rw_nodes w1) z = Some zn /\ r_value zn = v) /\
    (forall a, cnt a (ns (plug p (T c l z v r))) = Z.b2z (z =? a) + cnt a (ns (plug p1 X1))) /\
    ((exists b, bh (plug p (T c l z v r)) b) -> yc = false -> X1 = E \/ rc X1 = true)).
  { intros X HX NX IX. destruct (transplant_spec _ _ _ _ _ _ _ _ _ _ X _ R HX) as (w1 & E1 & R1 & S1 & Z1). rewrite E1.
    exists c, X, p, w1. split; [reflexivity|]. split; [exact R1|]. split; [exact IX|]. do 3 (split; [auto|]). split; [exact S1|].
    split; [exists (RN (top nl p) (rp nl l) (rp nl r) v c); split; [rewrite Z1; exact LZ|reflexivity]|]. split.
    - intros a. rewrite !cnt_plug. destruct HX as [[-> ->]|[-> ->]]; cbn [ns app]; rewrite ?cnt_app, ?cnt_cons; cbn [cnt]; lia.
    - intros (b & B) _. destruct (bh_in _ _ _ B) as (b1 & B1). destruct (bh_side _ _ _ _ _ _ B1) as (m & BL & BR).
      apply bh_zero. destruct HX as [[-> ->]|[-> ->]]; cbn [bh] in *; subst m; auto. }
  destruct l as [|cl ll al vl rl].
  { apply (ONE r); auto. rewrite items_plug. cbn [items]. rewrite app_nil_r. reflexivity. }
  destruct r as [|cr lr ar vr rr].
  { apply (ONE (T cl ll al vl rl)); auto. rewrite items_plug. cbn [items app]. rewrite app_assoc. reflexivity. }
  clear ONE. set (l := T cl ll al vl rl) in *. assert (LE : l <> E) by discriminate.
  pose proof (plug_depth _ _ _ _ _ _ _ R) as PD. cbn [ns] in PD. rewrite app_length in PD. cbn [length] in PD.
  destruct (min_spec w t nl im n (T cr lr ar vr rr) (F false c z v l :: p) (S (length (rw_nodes w)))) as (q & cy & y & yv & x & EY & FQ & MY);
    [discriminate|exact R|cbn [ns]; lia|].
  assert (MY' : minimum_node w t (rp nl (T cr lr ar vr rr)) = Some y) by (unfold minimum_node; rewrite (rep_nil _ _ _ _ _ _ R); exact MY).
  rewrite MY' in *. clear MY MY' PD. set (r := T cr lr ar vr rr) in *.
  assert (RY : trep w t nl im (plug (q ++ F false c z v l :: p) (T cy E y yv x)) n) by (rewrite plug_app, <- EY; exact R).
  pose proof (look _ _ _ _ _ _ _ _ _ _ _ RY) as LY. rewrite (co_eq _ _ _ LY), (rg_eq _ _ _ LY) in *. rewrite (pa_eq _ _ _ LY). cbn [r_red r_right r_parent] in *.
  rewrite EY in NRr. destruct (nr_sub _ _ _ _ _ _ _ NRr) as (NPq & NCy & _ & Nx).
  assert (D : forall a, cnt a (nl :: z :: y :: pns p ++ ns l ++ pns q ++ ns x) <= 1).
  { intros a. specialize (D0 a). pose proof (cnt_plug a q (T cy E y yv x)) as K. rewrite <- EY in K. cbn [ns app] in K.
    repeat (rewrite ?cnt_app in *; rewrite ?cnt_cons in * ). rewrite K in D0. clear K. lia. }
  assert (DW : forall a, cnt a (nl :: ns (plug p (T c l z v r))) = cnt a (nl :: z :: y :: pns p ++ ns l ++ pns q ++ ns x)).
  { intros a. pose proof (cnt_plug a q (T cy E y yv x)) as K. rewrite <- EY in K. cbn [ns app] in K.
    rewrite cnt_cons, cnt_plug. cbn [ns]. repeat (rewrite ?cnt_app in *; rewrite ?cnt_cons in * ). rewrite K. clear K. lia. }
  assert (IR : items r = (y, yv) :: items x ++ rgt q) by (rewrite EY, items_plug, (lft_left _ FQ); reflexivity).
  (* the memory just before z's place is taken *)
  assert (PRE : exists w1, (if top nl (q ++ F false c z v l :: p) =? z then setr w (rp nl x) (toP y) else
                do w <- transplant w t y (rp nl x);
                do zr <- rg w z;
                do w <- setr w y (toR zr);
                do yr <- rg w y;
                setr w yr (toP y)) = Some w1 /\
    hget (rw_trees w1) t = Some (RT (prt p z) nl im n) /\
    holds (rw_nodes w1) (pcells nl p z) /\ (exists zr, hget (rw_nodes w1) z = Some (RN (top nl p) (rp nl l) zr v c)) /\
    holds (rw_nodes w1) (cells nl z l) /\ (exists yn, hget (rw_nodes w1) y = Some yn /\ r_right yn = rp nl (plug q x) /\ r_value yn = yv) /\
    holds (rw_nodes w1) (cells nl y (plug q x)) /\ (exists k, hget (rw_nodes w1) nl = Some k /\ r_red k = false) /\
    same t (nl :: ns (plug p (T c l z v r))) w w1).
  { destruct q as [|f q].
    - (* y is the right child of z *)
      cbn [app top f_a]. rewrite Z.eqb_refl. cbn [plug] in EY. subst r. clear LY RY IR FQ NPq. rewrite EY in R.
      destruct R as (HT & HC & HH & k & HK & HB). apply cells_plug in HH. destruct HH as [HP HF]. rewrite rp_plug in HT. cbn [rp cells] in *. cbn [pns app] in D. splitholds.
      cbn [rp] in *. ne D y nl. ne D z nl. ne D y z.
      assert (HX' : exists xn, hget (rw_nodes w) (rp nl x) = Some xn /\ (x = E -> r_red xn = false)).
      { destruct x as [|cx lx ax vx rx]; cbn [rp cells] in *; [exists k; auto|]. splitholds. eexists. split; [eassumption|]. discriminate. }
      destruct HX' as (xn & HX1 & HX2).
      assert (OFF : forall a, a <> nl -> cnt a (ns x) = 0 -> a <> rp nl x) by (intros; apply rp_ne; auto).
      assert (z <> rp nl x) by (apply OFF; [auto|cz]). assert (y <> rp nl x) by (apply OFF; [auto|cz]).
      assert (FRM : forall cs, holds (rw_nodes w) cs -> (forall a, In a (map fst cs) -> a <> nl /\ cnt a (ns x) = 0) ->
                holds (hset (rw_nodes w) (rp nl x) (toP y xn)) cs).
      { intros cs A B. apply holds_hset; [exact A|]. apply cnt_zero. intros I. destruct (B _ I) as [B1 B2]. exact (OFF _ B1 B2 eq_refl). }
      assert (SEP : forall L, (forall a, cnt a L + cnt a (nl :: ns x) <= 1) -> forall a, In a L -> a <> nl /\ cnt a (ns x) = 0).
      { intros L A a I. apply cnt_in in I. specialize (A a). rewrite cnt_cons in A. pose proof (cnt_nonneg a (ns x)).
        destruct (Z.eqb_spec nl a); cbn [Z.b2z] in A; [lia|]. split; [auto|lia]. }
      eexists. split; [rewrite (setr_eq _ _ _ _ HX1); reflexivity|]. cbn [rw_nodes rw_trees]. split; [exact HT|].
      split; [|split; [|split; [|split; [|split; [|split]]]]].
      + apply FRM; [auto|]. rewrite pcells_ns. apply SEP. intros a. specialize (D a). repeat (rewrite ?cnt_app in *; rewrite ?cnt_cons in * ). cntpos. lia.
      + eexists. rewrite hget_hset_other by auto. eassumption.
      + apply FRM; [auto|]. rewrite cells_ns. apply SEP. intros a. specialize (D a). repeat (rewrite ?cnt_app in *; rewrite ?cnt_cons in * ). cntpos. lia.
      + eexists. rewrite hget_hset_other by auto. split; [eassumption|]. split; reflexivity.
      + cbn [plug]. destruct x as [|cx lx ax vx rx]; [constructor|].
        eapply reparent; [eassumption|reflexivity|discriminate|exact HX1|].
        intros a. specialize (D a). repeat (rewrite ?cnt_app in *; rewrite ?cnt_cons in * ). cntpos. lia.
      + destruct x as [|cx lx ax vx rx]; cbn [rp] in *.
        * eexists. split; [rewrite hget_hset_same with (w := xn) by auto; reflexivity|]. cbn [toP r_red]. auto.
        * exists k. split; [|auto]. rewrite hget_hset_other; [auto|]. intros K. ne D ax nl. congruence.
      + eapply same_setr; [rewrite (setr_eq _ _ _ _ HX1); reflexivity|].
        enough (1 <= cnt (rp nl x) (nl :: ns (plug p (T c l z v (T cr lr ar vr rr))))) by lia.
        rewrite DW. destruct x as [|cx lx ax vx rx]; cbn [rp ns]; repeat (rewrite ?cnt_app; rewrite ?cnt_cons); rewrite ?Z.eqb_refl;
          change (Z.b2z true) with 1; cntpos;
          repeat match goal with |- context [Z.b2z ?b] => lazymatch goal with P : 0 <= Z.b2z b |- _ => fail | _ => pose proof (b2z_nonneg b) end
          | |- context [cnt ?a ?b] => lazymatch goal with P : 0 <= cnt a b |- _ => fail | _ => pose proof (cnt_nonneg a b) end end; lia.
    - (* y is further down *)
      cbn [app top].
      assert (FZ : f_a f <> z).
      { assert (D' := D). cbn [pns] in D'. nd D'. }
      rewrite (eqb_no _ _ FZ).
      destruct (transplant_spec w t nl im _ cy E y yv x x n RY) as (w1 & E1 & R1 & S1 & Y1); [auto|].
      rewrite E1. rewrite plug_app in R1. change (plug (F false c z v l :: p) (plug (f :: q) x)) with (plug p (T c l z v (plug (f :: q) x))) in R1.
      set (R' := plug (f :: q) x) in *.
      assert (RE : R' <> E).
      { unfold R'. intros K. assert (K2 : items (plug (f :: q) x) = []) by (rewrite K; reflexivity). rewrite items_plug in K2.
        cbn [rgt lft] in K2. inversion FQ; subst. rewrite H1 in K2. destruct (lft q); destruct (items x); discriminate K2. }
      assert (CR : forall a, cnt a (ns R') = cnt a (pns (f :: q)) + cnt a (ns x)) by (intros; apply cnt_plug).
      assert (D2 : forall a, cnt a (nl :: z :: y :: pns p ++ ns l ++ ns R') <= 1).
      { intros a. specialize (D a). repeat (rewrite ?cnt_app in *; rewrite ?cnt_cons in * ). rewrite CR. lia. }
      pose proof (look _ _ _ _ _ _ _ _ _ _ _ R1) as LZ1. rewrite (rg_eq _ _ _ LZ1). cbn [r_right].
      rewrite LY in Y1.
      destruct R1 as (HT & HC & HH & k & HK & HB). apply cells_plug in HH. destruct HH as [HP HF]. rewrite rp_plug in HT. cbn [rp cells] in *. splitholds.
      clearbody R'. destruct R' as [|ca la aa va ra]; [congruence|]. cbn [rp] in *.
      ne D2 y nl. ne D2 z nl. ne D2 y z. ne D2 aa nl. ne D2 aa z. ne D2 aa y.
      cbn [cells] in *. splitholds.
      eexists. split; [go; reflexivity|]. cbn [rw_nodes rw_trees]. split; [exact HT|].
      rename D2 into DD. clear D HC D0.
      split; [frm|]. split; [eexists; known|]. split; [frm|]. split; [eexists; split; [known|split; reflexivity]|].
      split; [hold|]. split; [eexists; split; [known|auto]|].
      eapply same_trans.
      + apply (same_sub _ _ _ _ _ S1). intros a K. rewrite plug_app, <- EY. exact K.
      + unfold same. cbn [rw_nodes rw_trees rw_rel]. split; [|rewrite ?hset_addrs; auto].
        intros a K. rewrite DW in K. repeat (rewrite ?cnt_app in K; rewrite ?cnt_cons in K). rewrite <- ?cnt_app in K.
        specialize (CR a). cbn [ns] in CR. repeat (rewrite ?cnt_app in CR; rewrite ?cnt_cons in CR).
        cbn [pns] in K. repeat (rewrite ?cnt_app in K; rewrite ?cnt_cons in K). cbn [pns] in CR. repeat (rewrite ?cnt_app in CR; rewrite ?cnt_cons in CR).
        repeat (rewrite hget_hset_other; [|intros ->; rewrite ?Z.eqb_refl in *; change (Z.b2z true) with 1 in *; cntpos; lia]). reflexivity. }
  destruct PRE as (w1 & E1 & HT1 & HP1 & (zr1 & HZ1) & HL1 & (yn & HY1 & YR1 & YV1) & HR1 & HK1 & S1). rewrite E1.
  assert (D2 : forall a, cnt a (nl :: z :: y :: pns p ++ ns l ++ ns (plug q x)) <= 1).
  { intros a. specialize (D a). repeat (rewrite ?cnt_app in *; rewrite ?cnt_cons in * ). rewrite cnt_plug. lia. }
  destruct (take_place_spec w1 t nl im p c l z v zr1 y yn (plug q x) n HT1 D2 LE HP1 HZ1 HL1 HY1 YR1 HR1 HK1) as (w2 & E2 & R2 & S2 & Z2).
  rewrite E2. rewrite YV1 in R2. clear YV1 YR1 HY1.
  assert (R2' : trep w2 t nl im (plug (q ++ F false c y yv l :: p) x) n) by (rewrite plug_app; exact R2).
  exists cy, x, (q ++ F false c y yv l :: p), w2. split; [reflexivity|]. split; [exact R2'|].
  split; [|split; [|split; [exact Nx|split; [|split; [|split; [|split]]]]]].
  - rewrite plug_app. cbn [plug]. unfold fill. cbn [f_d f_c f_a f_v f_s]. rewrite items_plug. cbn [items]. rewrite items_plug, (lft_left _ FQ), IR.
    cbn [app]. rewrite <- !app_assoc. cbn [app]. rewrite <- ?app_assoc. reflexivity.
  - apply np_app. cbn [np pcol f_c f_s]. auto.
  - rewrite pcol_app. exact NCy.
  - eapply same_trans; [exact S1|].
    apply (same_sub _ _ _ _ _ S2). intros a K. rewrite DW in K. repeat (rewrite ?cnt_app in *; rewrite ?cnt_cons in * ). rewrite cnt_plug. cntpos. lia.
  - exists (RN (top nl p) (rp nl l) zr1 v c). split; [|reflexivity]. rewrite Z2; exact HZ1.
  - intros a. specialize (DW a). rewrite cnt_cons in DW. rewrite plug_app. cbn [plug]. unfold fill. cbn [f_d f_c f_a f_v f_s].
    rewrite (cnt_plug a p (T c l y yv (plug q x))). cbn [ns]. revert DW. clear. repeat (rewrite ?cnt_app; rewrite ?cnt_cons). rewrite (cnt_plug a q x). lia.
  - intros (b & B) _. destruct (bh_in _ _ _ B) as (b1 & B1). destruct (bh_side _ _ _ _ _ _ B1) as (m & _ & BR).
    rewrite EY in BR. destruct (bh_in _ _ _ BR) as (b2 & B2). destruct (bh_side _ _ _ _ _ _ B2) as (m2 & BL2 & BR2). cbn [bh] in BL2. subst m2.
    apply bh_zero; auto.
Qed.
Lemma remove_spec : forall w t nl im p c l z v r n, trep w t nl im (plug p (T c l z v r)) n -> nr true (plug p (T c l z v r)) ->
  sound_removal w t z ->
  exists w' T', remove_node w t z = Some w' /\ trep w' t nl im T' (n - 1) /\
    items T' = (lft p ++ items l) ++ (items r ++ rgt p) /\ nr true T' /\
    same t (nl :: ns (plug p (T c l z v r))) w w' /\ (exists zn, hget (rw_nodes w') z = Some zn /\ r_value zn = v).
Proof.
  intros w t nl im p c l z v r n R NR (red & x & wu & EU & ST).
  destruct (unlink_spec _ _ _ _ _ _ _ _ _ _ _ R NR) as (yc & X & p1 & w1 & E1 & R1 & I1 & NP1 & NX1 & PC1 & S1 & (zn & Z1 & Z2) & C1 & _).
  unfold remove_node. rewrite E1 in *. injection EU as <- <- <-.
  destruct (finish_remove w1 t nl im p1 X n yc R1 NP1 NX1 PC1 ST) as (w2 & T' & E2 & R2 & I2 & N2 & S2).
  exists w2, T'. split; [exact E2|]. split; [exact R2|]. split; [congruence|]. split; [exact N2|]. split.
  - eapply same_trans; [exact S1|]. apply (same_sub _ _ _ _ _ S2). intros a K. rewrite cnt_cons, C1 in K. rewrite cnt_cons. cntpos. lia.
  - exists zn. split; [|exact Z2]. rewrite (same_keep _ _ _ _ _ S2); [exact Z1|].
    specialize (C1 z). rewrite Z.eqb_refl in C1. cbn [Z.b2z] in C1. destruct R as (_ & DD & _). specialize (DD z).
    rewrite cnt_cons, C1 in DD. rewrite cnt_cons. cntpos. lia.
Qed.
(** In a balanced tree the loop does not start. *)
Lemma balanced_sound : forall w t nl im p c l z v r n, trep w t nl im (plug p (T c l z v r)) n -> nr true (plug p (T c l z v r)) ->
  (exists b, bh (plug p (T c l z v r)) b) -> sound_removal w t z.
Proof.
  intros w t nl im p c l z v r n R NR B.
  destruct (unlink_spec _ _ _ _ _ _ _ _ _ _ _ R NR) as (yc & X & p1 & w1 & E1 & R1 & I1 & NP1 & NX1 & PC1 & S1 & _ & C1 & HX).
  exists yc, (rp nl X), w1. split; [exact E1|]. intros Y. cbn [steady].
  rewrite (rep_nil _ _ _ _ _ _ R1), (rep_rc _ _ _ _ _ _ _ R1), (rp_ne_node _ _ _ _ _ _ _ R1).
  destruct (HX B Y) as [->|HR]; [reflexivity|]. rewrite HR, orb_true_r. reflexivity.
Qed.
(** When the loop starts at an only child of the root, the tree ends up empty. *)
Lemma remove_lost : forall w t nl im p c l z v r n x w1, trep w t nl im (plug p (T c l z v r)) n -> nr true (plug p (T c l z v r)) ->
  unlink w t z = Some (false, x, w1) -> only_child w1 t x ->
  exists w', remove_node w t z = Some w' /\ trep w' t nl im E (n - 1) /\ addrs (rw_nodes w') = addrs (rw_nodes w) /\
    same t (nl :: ns (plug p (T c l z v r))) w w' /\ (exists zn, hget (rw_nodes w') z = Some zn /\ r_value zn = v).
Proof.
  intros w t nl im p c l z v r n x w1 R NR EU OC.
  destruct (unlink_spec _ _ _ _ _ _ _ _ _ _ _ R NR) as (yc & X & p1 & w1' & E1 & R1 & I1 & NP1 & NX1 & PC1 & S1 & (zn & Z1 & Z2) & C1 & _).
  rewrite EU in E1. injection E1 as <- -> <-. unfold remove_node. rewrite EU. cbn [negb].
  assert (FU : (3 <= S (length (rw_nodes w1)))%nat).
  { pose proof (plug_depth _ _ _ _ _ _ _ R1) as PD. destruct X as [|cx lx ax vx rx].
    - destruct OC as (nl' & rt & HN & _ & NX & _). rewrite (rep_nil _ _ _ _ _ _ R1) in HN. injection HN as <-. cbn [rp] in NX. congruence.
    - cbn [ns] in PD. rewrite app_length in PD. cbn [length] in PD. lia. }
  destruct (lost_spec _ w1 t nl im p1 X n R1 NP1 OC FU) as (w2 & E2 & R2 & S2). rewrite E2.
  destruct (set_count0 w2 t nl im _ n (fun n => n - 1) R2) as (w3 & E3 & R3 & S3). rewrite E3.
  destruct (reset_nil0 w3 t nl im _ _ R3) as (w4 & E4 & R4 & S4). rewrite E4.
  assert (S14 : same t [nl] w1 w4).
  { eapply same_trans; [exact S2|]. eapply same_trans; [apply (same_sub _ _ _ _ _ S3); reflexivity|exact S4]. }
  exists w4. split; [reflexivity|]. split; [exact R4|].
  assert (S04 : same t (nl :: ns (plug p (T c l z v r))) w w4) by (eapply same_trans; [exact S1|apply same_one; exact S14]).
  split; [apply S04|]. split; [exact S04|]. exists zn. split; [|exact Z2]. rewrite (same_keep _ _ _ _ _ S14); [exact Z1|].
  cbn [cnt]. pose proof (rep_ne _ _ _ _ _ _ _ _ _ _ _ R) as NZ. rewrite (eqb_no nl z) by congruence. reflexivity.
Qed.
