(** Insertion: colours, the descent, the fixup loop. *)
From Verif Require Import Base Status MemModel MemProofs Heap RbModel RbSpec RbProofs.

(** ** Colours *)
Definition rc (t : tr) : bool := match t with E => false | T c _ _ _ _ => c end.
(** No red node has a red parent; [pc] is the colour above. *)
Fixpoint nr (pc : bool) (t : tr) : Prop :=
  match t with E => True | T c l _ _ r => (pc = true -> c = false) /\ nr c l /\ nr c r end.
Definition pcol (pc : bool) (p : list fr) : bool := match p with [] => pc | f :: _ => f_c f end.
Fixpoint np (pc : bool) (p : list fr) : Prop :=
  match p with [] => True | f :: q => (pcol pc q = true -> f_c f = false) /\ nr (f_c f) (f_s f) /\ np pc q end.
Lemma nr_plug : forall pc p t, nr pc (plug p t) <-> np pc p /\ nr (pcol pc p) t.
Proof.
  induction p as [|f q IH]; intros; cbn [plug np pcol]; [tauto|].
  rewrite IH. destruct f as [[] c a v s]; unfold fill; cbn [f_d f_c f_a f_v f_s nr]; tauto.
Qed.
Lemma nr_weak : forall t pc, nr true t -> nr pc t.
Proof. destruct t; cbn [nr]; intros; intuition. Qed.
Lemma nr_black : forall t pc, nr pc t -> nr false t.
Proof. destruct t; cbn [nr]; intuition. Qed.
Lemma nr_rc : forall t, nr true t <-> nr false t /\ rc t = false.
Proof. destruct t; cbn [nr rc]; intuition congruence. Qed.
(** Every way down passes [n] black nodes. *)
Fixpoint bh (t : tr) (n : nat) : Prop :=
  match t with
  | E => n = O
  | T c l _ _ r => if c then bh l n /\ bh r n else exists m, n = S m /\ bh l m /\ bh r m
  end.
Lemma bh_plug : forall p t t', (forall n, bh t n -> bh t' n) -> forall n, bh (plug p t) n -> bh (plug p t') n.
Proof.
  induction p as [|f q IH]; intros t t' H n B; cbn [plug] in *; [auto|]. revert B. apply IH.
  intros m. destruct f as [[] [] a v s]; unfold fill; cbn [f_d f_c f_a f_v f_s bh]; firstorder.
Qed.

Lemma bh_in : forall p X b, bh (plug p X) b -> exists b', bh X b'.
Proof.
  induction p as [|f q IH]; intros X b B; cbn [plug] in B; [eauto|]. apply IH in B. destruct B as (b' & B).
  destruct f as [[] [] a v s]; unfold fill in B; cbn [f_d f_c f_a f_v f_s bh] in B.
  - destruct B; eauto.
  - destruct B as (m & _ & B & _); eauto.
  - destruct B; eauto.
  - destruct B as (m & _ & _ & B); eauto.
Qed.
Lemma bh_side : forall c l a v r b, bh (T c l a v r) b -> exists m, bh l m /\ bh r m.
Proof. intros c l a v r b. cbn [bh]. destruct c; firstorder. Qed.
Lemma bh_zero : forall X, bh X 0 -> X = E \/ rc X = true.
Proof. intros [|[] l a v r] B; [auto|auto|]. cbn [bh] in B. destruct B as (m & M & _). lia. Qed.

(** ** Items *)
Fixpoint lft (p : list fr) : list (Z * Z) :=
  match p with [] => [] | f :: q => lft q ++ (if f_d f then [] else items (f_s f) ++ [(f_a f, f_v f)]) end.
Fixpoint rgt (p : list fr) : list (Z * Z) :=
  match p with [] => [] | f :: q => (if f_d f then (f_a f, f_v f) :: items (f_s f) else []) ++ rgt q end.
Lemma items_plug : forall p t, items (plug p t) = lft p ++ items t ++ rgt p.
Proof.
  induction p as [|f q IH]; intros; cbn [plug lft rgt]; [cbn; rewrite app_nil_r; reflexivity|].
  rewrite IH. destruct f as [[] c a v s]; unfold fill; cbn [f_d f_c f_a f_v f_s items]; rewrite ?app_nil_r, <- ?app_assoc; cbn [app];
    rewrite <- ?app_assoc; reflexivity.
Qed.

(** ** Reading memory through the representation *)
Lemma look : forall w t nl im p c l a v r n, trep w t nl im (plug p (T c l a v r)) n ->
  hget (rw_nodes w) a = Some (RN (top nl p) (rp nl l) (rp nl r) v c).
Proof.
  intros w t nl im p c l a v r n (_ & _ & H & _). apply cells_plug in H. destruct H as [_ H].
  cbn [cells] in H. splitholds. auto.
Qed.
Lemma rep_nil : forall w t nl im T n, trep w t nl im T n -> nil_ w t = Some nl.
Proof. intros w t nl im T n (H & _). apply (nil_eq _ _ _ H). Qed.
Lemma rep_root : forall w t nl im T n, trep w t nl im T n -> root w t = Some (rp nl T).
Proof. intros w t nl im T n (H & _). apply (root_eq _ _ _ H). Qed.
Lemma rep_rc : forall w t nl im p s n, trep w t nl im (plug p s) n -> co w (rp nl s) = Some (rc s).
Proof.
  intros w t nl im p [|c l a v r] n H; cbn [rp rc].
  - destruct H as (_ & _ & _ & k & K & B). rewrite (co_eq _ _ _ K), B. reflexivity.
  - rewrite (co_eq _ _ _ (look _ _ _ _ _ _ _ _ _ _ _ H)). reflexivity.
Qed.
Lemma rep_ne : forall w t nl im p c l a v r n, trep w t nl im (plug p (T c l a v r)) n -> a <> nl.
Proof.
  intros w t nl im p c l a v r n (_ & D & _) ->. specialize (D nl). rewrite cnt_cons, cnt_plug in D.
  cbn [ns] in D. rewrite cnt_app, cnt_cons, !Z.eqb_refl in D. cbn [Z.b2z] in D.
  pose proof (cnt_nonneg nl (pns p)). pose proof (cnt_nonneg nl (ns l)). pose proof (cnt_nonneg nl (ns r)). lia.
Qed.
Lemma rep_len : forall w t nl im T n, trep w t nl im T n -> (length (ns T) < length (rw_nodes w))%nat.
Proof.
  intros w t nl im T n (_ & D & H & k & K & _). apply cnt_nodup in D.
  assert (I : incl (nl :: ns T) (addrs (rw_nodes w))).
  { intros a [<-|A]; [eapply hget_in; eauto|]. rewrite <- (cells_ns nl T nl) in A. apply in_map_iff in A.
    destruct A as ([b m] & <- & A). unfold holds in H. rewrite Forall_forall in H. apply H in A. eapply hget_in; eauto. }
  pose proof (NoDup_incl_length D I) as L. unfold addrs in L. rewrite map_length in L. cbn [length] in L. lia.
Qed.
Lemma pns_len : forall p, (length p <= length (pns p))%nat.
Proof. induction p; cbn [pns length]; [lia|]. rewrite app_length. lia. Qed.
Lemma ns_plug_len : forall p t, length (ns (plug p t)) = (length (pns p) + length (ns t))%nat.
Proof. intros. rewrite (Permutation_length (ns_plug p t)), app_length. reflexivity. Qed.

(** ** Writing colours *)
Lemma recolor_spec : forall w t nl im p c l a v r n c', trep w t nl im (plug p (T c l a v r)) n ->
  exists w', setr w a (toC c') = Some w' /\ trep w' t nl im (plug p (T c' l a v r)) n /\
    same t (ns (plug p (T c l a v r))) w w'.
Proof.
  intros w t nl im p c l a v r n c' R. pose proof (rep_ne _ _ _ _ _ _ _ _ _ _ _ R) as N.
  pose proof (look _ _ _ _ _ _ _ _ _ _ _ R) as LK.
  destruct R as (HT & HC & HH & k & HK & HB). apply cells_plug in HH. destruct HH as [HP HF]. rewrite rp_plug in HT. cbn [rp] in *.
  assert (D : forall x, cnt x (nl :: pns p ++ ns (T c l a v r)) <= 1).
  { intros x. specialize (HC x). rewrite cnt_cons, cnt_plug in HC. rewrite cnt_cons, cnt_app. lia. }
  assert (C : forall x, cnt x (ns (plug p (T c' l a v r))) = cnt x (ns (plug p (T c l a v r)))).
  { intros. rewrite !cnt_plug. reflexivity. }
  cbn [cells] in HF. splitholds. unfold trep. rewrite rp_plug. cbn [rp].
  eexists. split; [erewrite setr_eq by known; reflexivity|]. split; [rot C HC HT k|sames].
Qed.

(** ** The loop *)
Ltac rd H := pose proof (look _ _ _ _ _ _ _ _ _ _ _ H).
Ltac at_ H P X := let R := fresh "R" in pose proof H as R; change (trep _ _ _ _ _ _) with (trep _ _ _ _ (plug P X) _) in R.
Ltac acc := repeat match goal with
  | K : hget (rw_nodes ?w) ?p = Some _ |- context [match lf ?w ?p with _ => _ end] => rewrite (lf_eq _ _ _ K); hs
  | K : hget (rw_nodes ?w) ?p = Some _ |- context [match rg ?w ?p with _ => _ end] => rewrite (rg_eq _ _ _ K); hs
  | K : hget (rw_nodes ?w) ?p = Some _ |- context [match pa ?w ?p with _ => _ end] => rewrite (pa_eq _ _ _ K); hs
  | K : hget (rw_nodes ?w) ?p = Some _ |- context [match va ?w ?p with _ => _ end] => rewrite (va_eq _ _ _ K); hs
  | K : hget (rw_nodes ?w) ?p = Some _ |- context [match co ?w ?p with _ => _ end] => rewrite (co_eq _ _ _ K); hs
  end.
Lemma same_cnt : forall t L M w w', same t L w w' -> (forall a, cnt a M = cnt a L) -> same t M w w'.
Proof. intros. eapply same_sub; eauto. intros. rewrite <- H0. auto. Qed.
Ltac cnteq := let a := fresh "a" in intros a; cbn [plug fill f_d f_c f_a f_v f_s]; rewrite ?cnt_plug; unfold fill;
   cbn [ns pns f_d f_c f_a f_v f_s]; repeat (rewrite ?cnt_app; rewrite ?cnt_cons); lia.
Ltac sub H := apply (same_cnt _ _ _ _ _ H); cnteq.

Lemma insert_loop_spec : forall m fuel w t nl im p l z v r n, (length p <= m)%nat ->
  trep w t nl im (plug p (T true l z v r)) n -> np true p -> nr true l -> nr true r -> (length p + 2 <= fuel)%nat ->
  exists w' T', insert_loop fuel w t z = Some w' /\ trep w' t nl im T' n /\
    items T' = items (plug p (T true l z v r)) /\ nr false T' /\
    (forall n, bh (plug p (T true l z v r)) n -> bh T' n) /\
    same t (ns (plug p (T true l z v r))) w w'.
Proof.
  induction m as [|m IH]; intros fuel w t nl im p l z v r n LM R NP NL NR FU.
  { destruct p; [|cbn in LM; lia]. destruct fuel as [|fuel]; [cbn in FU; lia|]. cbn [insert_loop].
    rd R. acc. destruct R as (R1 & R2 & R3 & k & K & B). rewrite (co_eq _ _ _ K), B. cbn [negb].
    exists w, (T true l z v r). split; [reflexivity|]. split; [exact (conj R1 (conj R2 (conj R3 (ex_intro _ k (conj K B)))))|].
    split; [reflexivity|]. split; [cbn [nr]; auto|]. split; [auto|apply same_refl]. }
  destruct p as [|f q].
  { apply IH; auto. cbn; lia. }
  destruct fuel as [|fuel]; [cbn in FU; lia|]. cbn [insert_loop].
  assert (R0 : trep w t nl im (plug q (fill f (T true l z v r))) n) by exact R.
  rd R. acc. cbn [np] in NP. destruct NP as (N1 & N2 & N3).
  pose proof (rep_rc _ _ _ _ q (fill f (T true l z v r)) _ R0) as RC. rewrite rp_fill in RC.
  replace (rc (fill f (T true l z v r))) with (f_c f) in RC by (destruct f as [[] ? ? ? ?]; reflexivity).
  rewrite RC. destruct (f_c f) eqn:FC; cbn [negb].
  2:{ exists w, (plug (f :: q) (T true l z v r)). do 3 (split; [auto|]). split; [|split; [auto|apply same_refl]].
      apply nr_black with true. apply nr_plug. split; [cbn [np]; rewrite FC; auto|].
      cbn [pcol nr]. rewrite FC. split; [discriminate|auto]. }
  destruct q as [|g q]; [discriminate (N1 eq_refl)|]. cbn [pcol] in N1.
  destruct (f_c g) eqn:GC; [discriminate (N1 eq_refl)|]. clear N1. cbn [np] in N3. rewrite GC in N3. destruct N3 as (_ & N4 & N5).
  destruct f as [fd fc zp zpv fs], g as [gd gc zpp zppv u]. cbn [f_c] in FC, GC. subst fc gc. cbn [f_a f_s f_c length] in *.
  assert (HD : forall a, cnt a (nl :: pns q ++ zpp :: ns u ++ zp :: ns fs ++ ns l ++ z :: ns r) <= 1).
  { intros a. destruct R as (_ & D & _). specialize (D a). rewrite cnt_cons, cnt_plug in D. cbn [pns ns f_a f_s] in D.
    repeat (rewrite ?cnt_app in *; rewrite ?cnt_cons in * ). lia. }
  assert (zp <> nl) by nd HD. assert (z <> nl) by nd HD. assert (z <> zp) by nd HD. assert (zpp <> nl) by nd HD.
  assert (NU : zp <> rp nl u) by (apply rp_ne; [auto|]; apply cnt_zero; nd HD).
  assert (NF : z <> rp nl fs) by (apply rp_ne; [auto|]; apply cnt_zero; nd HD).
  assert (N0 : nr true fs) by exact N2. clear N2.
  (* the uncle is red *)
  assert (RED : forall ul ua uv ur, u = T true ul ua uv ur -> rc u = true ->
    exists w' T', (do w <- setr w zp (toC false); do w <- setr w ua (toC false); do w <- setr w zpp (toC true);
                   insert_loop fuel w t zpp) = Some w' /\ trep w' t nl im T' n /\
    items T' = items (plug (F fd true zp zpv fs :: F gd false zpp zppv u :: q) (T true l z v r)) /\ nr false T' /\
    (forall n, bh (plug (F fd true zp zpv fs :: F gd false zpp zppv u :: q) (T true l z v r)) n -> bh T' n) /\
    same t (ns (plug (F fd true zp zpv fs :: F gd false zpp zppv u :: q) (T true l z v r))) w w').
  { intros ul ua uv ur -> _. cbn [nr] in N4. destruct N4 as (_ & NUL & NUR).
    set (zt := T true l z v r) in *.
    assert (R1 : exists w1, setr w zp (toC false) = Some w1 /\
      trep w1 t nl im (plug (F fd false zp zpv fs :: F gd false zpp zppv (T true ul ua uv ur) :: q) zt) n /\
      same t (ns (plug (F fd true zp zpv fs :: F gd false zpp zppv (T true ul ua uv ur) :: q) zt)) w w1).
    { destruct fd.
      - apply (recolor_spec w t nl im (F gd false zpp zppv (T true ul ua uv ur) :: q) true zt zp zpv fs n false R).
      - apply (recolor_spec w t nl im (F gd false zpp zppv (T true ul ua uv ur) :: q) true fs zp zpv zt n false R). }
    destruct R1 as (w1 & E1 & R1 & S1). rewrite E1.
    set (zf := fill (F fd false zp zpv fs) zt) in *.
    assert (R2 : exists w2, setr w1 ua (toC false) = Some w2 /\
      trep w2 t nl im (plug (F gd false zpp zppv (T false ul ua uv ur) :: q) zf) n /\
      same t (ns (plug (F gd false zpp zppv (T true ul ua uv ur) :: q) zf)) w1 w2).
    { destruct gd.
      - apply (recolor_spec w1 t nl im (F false false zpp zppv zf :: q) true ul ua uv ur n false R1).
      - apply (recolor_spec w1 t nl im (F true false zpp zppv zf :: q) true ul ua uv ur n false R1). }
    destruct R2 as (w2 & E2 & R2 & S2). rewrite E2.
    assert (R3 : exists w3, setr w2 zpp (toC true) = Some w3 /\
      trep w3 t nl im (plug q (fill (F gd true zpp zppv (T false ul ua uv ur)) zf)) n /\
      same t (ns (plug q (fill (F gd false zpp zppv (T false ul ua uv ur)) zf))) w2 w3).
    { destruct gd.
      - apply (recolor_spec w2 t nl im q false zf zpp zppv (T false ul ua uv ur) n true R2).
      - apply (recolor_spec w2 t nl im q false (T false ul ua uv ur) zpp zppv zf n true R2). }
    destruct R3 as (w3 & E3 & R3 & S3). rewrite E3.
    assert (NZ : nr true zf). { unfold zf, zt. destruct fd; cbn; intuition; apply nr_weak; auto. }
    assert (NV : nr true (T false ul ua uv ur)). { cbn [nr]. intuition; apply nr_weak; auto. }
    assert (R4 : exists w' T', insert_loop fuel w3 t zpp = Some w' /\ trep w' t nl im T' n /\
       items T' = items (plug q (fill (F gd true zpp zppv (T false ul ua uv ur)) zf)) /\ nr false T' /\
      (forall n, bh (plug q (fill (F gd true zpp zppv (T false ul ua uv ur)) zf)) n -> bh T' n) /\
      same t (ns (plug q (fill (F gd true zpp zppv (T false ul ua uv ur)) zf))) w3 w').
    { destruct gd; unfold fill in R3 |- *; cbn [f_d f_c f_a f_v f_s] in R3 |- *; (eapply IH; [lia|exact R3|auto|auto|auto|lia]). }
    destruct R4 as (w4 & T' & E4 & R4 & I4 & NR4 & B4 & S4).
    exists w4, T'. split; [exact E4|]. split; [exact R4|].
    split. { rewrite I4. cbn [plug]. rewrite !items_plug. f_equal. f_equal. unfold zf, zt. destruct fd, gd; reflexivity. }
    split; [auto|]. split.
    { intros b B. apply B4. revert B. cbn [plug]. apply bh_plug. clear. unfold zf, zt. destruct fd, gd; cbn; firstorder (subst; eauto); 
        eexists; repeat split; eauto. }
    eapply same_trans; [exact S1|]. eapply same_trans; [|eapply same_trans].
    - apply (same_cnt _ _ _ _ _ S2). unfold zf, zt. destruct fd, gd; cnteq.
    - apply (same_cnt _ _ _ _ _ S3). unfold zf, zt. destruct fd, gd; cnteq.
    - apply (same_cnt _ _ _ _ _ S4). unfold zf, zt. destruct fd, gd; cnteq. }
  (* leaving the loop below a black node *)
  assert (EXIT : forall w z p c l v r, trep w t nl im (plug p (T c l z v r)) n -> pcol true p = false ->
            insert_loop fuel w t z = Some w).
  { intros w' z' p' c' l' v' r' R' C'. destruct fuel as [|fuel']; [lia|]. cbn [insert_loop].
    rewrite (pa_eq _ _ _ (look _ _ _ _ _ _ _ _ _ _ _ R')). cbn [r_parent].
    destruct p' as [|f' p']; [discriminate|]. cbn [top].
    assert (RC' : co w' (f_a f') = Some false).
    { cbn [pcol] in C'. destruct f' as [[] c1 a1 v1 s1]; cbn [f_c f_a] in *; subst c1.
      - apply (rep_rc w' t nl im p' (T false (T c' l' z' v' r') a1 v1 s1) n R').
      - apply (rep_rc w' t nl im p' (T false s1 a1 v1 (T c' l' z' v' r')) n R'). }
    rewrite RC'. reflexivity. }
  assert (DONE : forall w' z' p' c' l' v' r', trep w' t nl im (plug p' (T c' l' z' v' r')) n -> pcol true p' = false ->
    (forall n, bh (plug (F fd true zp zpv fs :: F gd false zpp zppv u :: q) (T true l z v r)) n -> bh (plug p' (T c' l' z' v' r')) n) ->
    items (plug p' (T c' l' z' v' r')) = items (plug (F fd true zp zpv fs :: F gd false zpp zppv u :: q) (T true l z v r)) ->
    nr false (plug p' (T c' l' z' v' r')) ->
    same t (ns (plug (F fd true zp zpv fs :: F gd false zpp zppv u :: q) (T true l z v r))) w w' ->
    exists w'' T', insert_loop fuel w' t z' = Some w'' /\ trep w'' t nl im T' n /\
    items T' = items (plug (F fd true zp zpv fs :: F gd false zpp zppv u :: q) (T true l z v r)) /\ nr false T' /\
    (forall n, bh (plug (F fd true zp zpv fs :: F gd false zpp zppv u :: q) (T true l z v r)) n -> bh T' n) /\
    same t (ns (plug (F fd true zp zpv fs :: F gd false zpp zppv u :: q) (T true l z v r))) w w'').
  { intros w' z' p' c' l' v' r' R' C' B' I' N' S'. exists w', (plug p' (T c' l' z' v' r')).
    split; [eapply EXIT; eauto|]. auto 10. }
  assert (NPQ : forall t', nr false t' -> rc t' = false -> nr false (plug q t')).
  { intros t' Q1 Q2. apply nr_black with true. apply nr_plug. split; [auto|]. apply nr_weak. apply nr_rc; auto. }
  assert (NU2 : rc u = false -> nr true u) by (intros; apply nr_rc; auto).
  destruct gd.
  - (* the parent is a left child *)
    assert (LP : hget (rw_nodes w) zpp = Some (RN (top nl q) zp (rp nl u) zppv false)).
    { pose proof (look w t nl im q false (fill (F fd true zp zpv fs) (T true l z v r)) zpp zppv u n R) as X. rewrite rp_fill in X. exact X. }
    pose proof (rep_rc w t nl im (F false false zpp zppv (fill (F fd true zp zpv fs) (T true l z v r)) :: q) u n R) as RU.
    destruct fd.
    + pose proof (look w t nl im (F true false zpp zppv u :: q) true (T true l z v r) zp zpv fs n R). acc. cbn [rp]. eqbs.
      acc. rewrite RU. destruct (rc u) eqn:CU.
      { destruct u as [|uc ul ua uv ur]; [discriminate|]. cbn [rc] in CU. subst uc. eapply RED; reflexivity. }
      acc. cbn [top f_a].
      destruct (recolor_spec w t nl im (F true false zpp zppv u :: q) true (T true l z v r) zp zpv fs n false R) as (w1 & E1 & R1 & S1).
      rewrite E1.
      pose proof (look w1 t nl im (F true false zpp zppv u :: q) false (T true l z v r) zp zpv fs n R1). acc. cbn [top f_a].
      destruct (recolor_spec w1 t nl im q false (T false (T true l z v r) zp zpv fs) zpp zppv u n true R1) as (w2 & E2 & R2 & S2).
      rewrite E2.
      destruct (right_rotate_spec w2 t nl im q false (T true l z v r) zp zpv true fs zpp zppv u n R2) as (w3 & E3 & R3 & S3).
      rewrite E3. apply (DONE w3 z (F true false zp zpv (T true fs zpp zppv u) :: q) true l v r).
      * exact R3.
      * reflexivity.
      * cbn [plug]. apply bh_plug. clear. cbn. firstorder (subst; eauto); eexists; repeat split; eauto.
      * cbn [plug]. rewrite !items_plug. cbn. repeat (rewrite <- ?app_assoc; cbn [app]). reflexivity.
      * apply NPQ; [|reflexivity]. cbn. intuition; try discriminate.
      * eapply same_trans; [exact S1|]. eapply same_trans; [sub S2|sub S3].
    + pose proof (look w t nl im (F true false zpp zppv u :: q) true fs zp zpv (T true l z v r) n R). acc. cbn [rp]. eqbs.
      acc. rewrite RU. destruct (rc u) eqn:CU.
      { destruct u as [|uc ul ua uv ur]; [discriminate|]. cbn [rc] in CU. subst uc. eapply RED; reflexivity. }
      acc.
      destruct (left_rotate_spec w t nl im (F true false zpp zppv u :: q) true fs zp zpv true l z v r n R) as (w1 & E1 & R1 & S1).
      rewrite E1.
      pose proof (look w1 t nl im (F true true z v r :: F true false zpp zppv u :: q) true fs zp zpv l n R1). acc. cbn [top f_a].
      destruct (recolor_spec w1 t nl im (F true false zpp zppv u :: q) true (T true fs zp zpv l) z v r n false R1) as (w2 & E2 & R2 & S2).
      rewrite E2.
      pose proof (look w2 t nl im (F true false zpp zppv u :: q) false (T true fs zp zpv l) z v r n R2). acc. cbn [top f_a].
      destruct (recolor_spec w2 t nl im q false (T false (T true fs zp zpv l) z v r) zpp zppv u n true R2) as (w3 & E3 & R3 & S3).
      rewrite E3.
      destruct (right_rotate_spec w3 t nl im q false (T true fs zp zpv l) z v true r zpp zppv u n R3) as (w4 & E4 & R4 & S4).
      rewrite E4. apply (DONE w4 zp (F true false z v (T true r zpp zppv u) :: q) true fs zpv l).
      * exact R4.
      * reflexivity.
      * cbn [plug]. apply bh_plug. clear. cbn. firstorder (subst; eauto); eexists; repeat split; eauto.
      * cbn [plug]. rewrite !items_plug. cbn. repeat (rewrite <- ?app_assoc; cbn [app]). reflexivity.
      * apply NPQ; [|reflexivity]. cbn. intuition; try discriminate.
      * eapply same_trans; [exact S1|]. eapply same_trans; [sub S2|]. eapply same_trans; [sub S3|sub S4].
  - (* the parent is a right child *)
    assert (LP : hget (rw_nodes w) zpp = Some (RN (top nl q) (rp nl u) zp zppv false)).
    { pose proof (look w t nl im q false u zpp zppv (fill (F fd true zp zpv fs) (T true l z v r)) n R) as X. rewrite rp_fill in X. exact X. }
    pose proof (rep_rc w t nl im (F true false zpp zppv (fill (F fd true zp zpv fs) (T true l z v r)) :: q) u n R) as RU.
    destruct fd.
    + pose proof (look w t nl im (F false false zpp zppv u :: q) true (T true l z v r) zp zpv fs n R). acc. cbn [rp]. eqbs.
      acc. rewrite RU. destruct (rc u) eqn:CU.
      { destruct u as [|uc ul ua uv ur]; [discriminate|]. cbn [rc] in CU. subst uc. eapply RED; reflexivity. }
      acc.
      destruct (right_rotate_spec w t nl im (F false false zpp zppv u :: q) true l z v true r zp zpv fs n R) as (w1 & E1 & R1 & S1).
      rewrite E1.
      pose proof (look w1 t nl im (F false true z v l :: F false false zpp zppv u :: q) true r zp zpv fs n R1). acc. cbn [top f_a].
      destruct (recolor_spec w1 t nl im (F false false zpp zppv u :: q) true l z v (T true r zp zpv fs) n false R1) as (w2 & E2 & R2 & S2).
      rewrite E2.
      pose proof (look w2 t nl im (F false false zpp zppv u :: q) false l z v (T true r zp zpv fs) n R2). acc. cbn [top f_a].
      destruct (recolor_spec w2 t nl im q false u zpp zppv (T false l z v (T true r zp zpv fs)) n true R2) as (w3 & E3 & R3 & S3).
      rewrite E3.
      destruct (left_rotate_spec w3 t nl im q true u zpp zppv false l z v (T true r zp zpv fs) n R3) as (w4 & E4 & R4 & S4).
      rewrite E4. apply (DONE w4 zp (F false false z v (T true u zpp zppv l) :: q) true r zpv fs).
      * exact R4.
      * reflexivity.
      * cbn [plug]. apply bh_plug. clear. cbn. firstorder (subst; eauto); eexists; repeat split; eauto.
      * cbn [plug]. rewrite !items_plug. cbn. repeat (rewrite <- ?app_assoc; cbn [app]). reflexivity.
      * apply NPQ; [|reflexivity]. cbn. intuition; try discriminate.
      * eapply same_trans; [exact S1|]. eapply same_trans; [sub S2|]. eapply same_trans; [sub S3|sub S4].
    + pose proof (look w t nl im (F false false zpp zppv u :: q) true fs zp zpv (T true l z v r) n R). acc. cbn [rp]. eqbs.
      acc. rewrite RU. destruct (rc u) eqn:CU.
      { destruct u as [|uc ul ua uv ur]; [discriminate|]. cbn [rc] in CU. subst uc. eapply RED; reflexivity. }
      acc. cbn [top f_a].
      destruct (recolor_spec w t nl im (F false false zpp zppv u :: q) true fs zp zpv (T true l z v r) n false R) as (w1 & E1 & R1 & S1).
      rewrite E1.
      pose proof (look w1 t nl im (F false false zpp zppv u :: q) false fs zp zpv (T true l z v r) n R1). acc. cbn [top f_a].
      destruct (recolor_spec w1 t nl im q false u zpp zppv (T false fs zp zpv (T true l z v r)) n true R1) as (w2 & E2 & R2 & S2).
      rewrite E2.
      destruct (left_rotate_spec w2 t nl im q true u zpp zppv false fs zp zpv (T true l z v r) n R2) as (w3 & E3 & R3 & S3).
      rewrite E3. apply (DONE w3 z (F false false zp zpv (T true u zpp zppv fs) :: q) true l v r).
      * exact R3.
      * reflexivity.
      * cbn [plug]. apply bh_plug. clear. cbn. firstorder (subst; eauto); eexists; repeat split; eauto.
      * cbn [plug]. rewrite !items_plug. cbn. repeat (rewrite <- ?app_assoc; cbn [app]). reflexivity.
      * apply NPQ; [|reflexivity]. cbn. intuition; try discriminate.
      * eapply same_trans; [exact S1|]. eapply same_trans; [sub S2|sub S3].
Qed.

(** ** Order *)
Definition before (o : order) (k : Z) (i : Z * Z) : Prop := o_cmp o k (o_key o (snd i)) = COMPARE_LT.
Lemma lt_le_trans : forall o a b c, good_order o -> o_cmp o a b = COMPARE_LT -> o_cmp o b c <> COMPARE_GT -> o_cmp o a c = COMPARE_LT.
Proof.
  intros o a b c (V & A & TR) H1 H2. destruct (V a c) as [K|[K|K]]; [auto| |].
  - exfalso. assert (o_cmp o c a <> COMPARE_GT) by (intros X; apply A in X; rewrite K in X; discriminate).
    assert (o_cmp o b a <> COMPARE_GT) by (eapply TR; eauto). apply A in H1. auto.
  - exfalso. apply A in K. assert (o_cmp o c a <> COMPARE_GT) by (rewrite K; discriminate).
    assert (o_cmp o b a <> COMPARE_GT) by (eapply TR; eauto). apply A in H1. auto.
Qed.
Lemma le_lt_trans : forall o a b c, good_order o -> o_cmp o a b <> COMPARE_GT -> o_cmp o b c = COMPARE_LT -> o_cmp o a c = COMPARE_LT.
Proof.
  intros o a b c (V & A & TR) H1 H2. destruct (V a c) as [K|[K|K]]; [auto| |].
  - exfalso. assert (o_cmp o c a <> COMPARE_GT) by (intros X; apply A in X; rewrite K in X; discriminate).
    assert (o_cmp o c b <> COMPARE_GT) by (eapply TR; eauto). apply A in H2. auto.
  - exfalso. apply A in K. assert (o_cmp o c a <> COMPARE_GT) by (rewrite K; discriminate).
    assert (o_cmp o c b <> COMPARE_GT) by (eapply TR; eauto). apply A in H2. auto.
Qed.
Lemma cmp_refl : forall o a, good_order o -> o_cmp o a a = COMPARE_EQ.
Proof.
  intros o a (V & A & _). destruct (V a a) as [K|[K|K]]; auto; [pose proof K as X; apply A in X|pose proof K as X; apply A in X]; rewrite X in K; discriminate.
Qed.
Lemma cmp_sym : forall o a b, good_order o -> o_cmp o a b = COMPARE_EQ -> o_cmp o b a = COMPARE_EQ.
Proof.
  intros o a b (V & A & _) K. destruct (V b a) as [X|[X|X]]; auto; apply A in X; rewrite X in K; discriminate.
Qed.
Lemma not_lt_ge : forall o a b, good_order o -> o_cmp o a b <> COMPARE_LT -> o_cmp o b a <> COMPARE_GT.
Proof. intros o a b (V & A & _) H K. apply A in K. auto. Qed.
Lemma ss_mid : forall A (R : A -> A -> Prop) a x b, StronglySorted R (a ++ x :: b) ->
  Forall (fun y => R y x) a /\ Forall (R x) b.
Proof.
  induction a as [|y a IH]; cbn [app]; intros x b H; inversion H; subst.
  - auto.
  - apply IH in H2. destruct H2. split; auto. constructor; auto. rewrite Forall_forall in H3. apply H3. apply in_elt.
Qed.
Lemma ss_app : forall A (R : A -> A -> Prop) a b, StronglySorted R (a ++ b) <->
  StronglySorted R a /\ StronglySorted R b /\ Forall (fun y => Forall (R y) b) a.
Proof.
  induction a as [|y a IH]; intros; cbn [app].
  - split; [intros; repeat split; auto; constructor|tauto].
  - split.
    + intros H. inversion H; subst. apply IH in H2. destruct H2 as (A1 & A2 & A3). apply Forall_app in H3. destruct H3.
      repeat split; auto; constructor; auto.
    + intros (A1 & A2 & A3). inversion A1; subst. inversion A3; subst. constructor; [apply IH; auto|]. apply Forall_app; auto.
Qed.
Lemma put_split : forall o i l1 l2, Forall (fun j => ~ before o (o_key o (snd i)) j) l1 -> Forall (before o (o_key o (snd i))) l2 ->
  put o i (l1 ++ l2) = l1 ++ i :: l2.
Proof.
  induction l1 as [|j l1 IH]; intros l2 H1 H2; cbn [app put].
  - destruct l2 as [|j l2]; [reflexivity|]. inversion H2; subst. cbn [put]. unfold before in H3. rewrite H3, Z.eqb_refl. reflexivity.
  - inversion H1; subst. unfold before in H3. rewrite eqb_no by auto. f_equal. auto.
Qed.
Lemma put_perm : forall o i l, Permutation (put o i l) (i :: l).
Proof.
  induction l as [|j l IH]; cbn [put]; [reflexivity|]. destruct (_ =? _); [reflexivity|].
  rewrite IH. apply perm_swap.
Qed.
Lemma put_order : forall o i l, good_order o -> in_order o l -> in_order o (put o i l).
Proof.
  unfold in_order. intros o i l G. induction l as [|j l IH]; intros H; cbn [put].
  - constructor; constructor.
  - inversion H as [|? ? S F]; subst. destruct (Z.eqb_spec (o_cmp o (o_key o (snd i)) (o_key o (snd j))) COMPARE_LT) as [L|L].
    + constructor; [exact H|]. constructor; [unfold item_le; rewrite L; discriminate|].
      rewrite Forall_forall in *. intros x X. apply F in X. unfold item_le in *. rewrite (lt_le_trans o _ _ _ G L X). discriminate.
    + constructor; [auto|]. rewrite Forall_forall in *. intros x X. apply (Permutation_in _ (put_perm o i l)) in X.
      destruct X as [<-|X]; [|auto]. unfold item_le. apply not_lt_ge; auto.
Qed.

(** ** The descent *)
Lemma descend_spec : forall o k w t nl im n T p fuel, good_order o ->
  trep w t nl im (plug p T) n -> in_order o (items (plug p T)) ->
  Forall (fun j => ~ before o k j) (lft p) -> Forall (before o k) (rgt p) -> (length (ns T) < fuel)%nat ->
  exists p', plug p T = plug p' E /\ insert_descend fuel o w nl k (rp nl T) (top nl p) = Some (top nl p') /\
    Forall (fun j => ~ before o k j) (lft p') /\ Forall (before o k) (rgt p').
Proof.
  intros o k w t nl im n T. induction T as [|c l IHl a v r IHr]; intros p fuel G R IO FL FR FU.
  - exists p. destruct fuel; [lia|]. cbn [insert_descend rp]. rewrite Z.eqb_refl. auto.
  - destruct fuel as [|fuel]; [lia|]. cbn [insert_descend rp]. rewrite (eqb_no a nl) by (eapply rep_ne; eauto).
    pose proof (look _ _ _ _ _ _ _ _ _ _ _ R) as LK. rewrite (va_eq _ _ _ LK). cbn [r_value].
    cbn [ns] in FU. rewrite app_length in FU. cbn [length] in FU.
    pose proof IO as IO'. rewrite items_plug in IO'. cbn [items] in IO'. rewrite <- app_assoc in IO'. cbn [app] in IO'. rewrite app_assoc in IO'.
    apply ss_mid in IO'. destruct IO' as [IL IR].
    destruct (Z.eqb_spec (o_cmp o k (o_key o v)) COMPARE_LT) as [L|L].
    + rewrite (lf_eq _ _ _ LK). cbn [r_left].
      apply (IHl (F true c a v r :: p) fuel G); [exact R|exact IO|cbn [lft f_d]; rewrite app_nil_r; auto| |lia].
      cbn [rgt f_d f_a f_v f_s]. rewrite Forall_forall in *. intros j [<-|J]; [exact L|].
      apply in_app_iff in J. destruct J as [J|J]; [|auto].
      eapply lt_le_trans; [exact G|exact L|]. apply (IR j). apply in_or_app. auto.
    + rewrite (rg_eq _ _ _ LK). cbn [r_right].
      apply (IHr (F false c a v l :: p) fuel G); [exact R|exact IO| |cbn [rgt f_d app]; auto|lia].
      cbn [lft f_d f_a f_v f_s]. rewrite Forall_forall in *. intros j J. apply in_app_iff in J. destruct J as [J|J]; [auto|].
      apply in_app_iff in J. destruct J as [J|[<-|[]]]; [|exact L].
      intros K. apply L. eapply lt_le_trans; [exact G|exact K|]. apply (IL j). apply in_or_app. auto.
Qed.

(** ** Linking the new node *)
Lemma reset_nil_spec : forall w t nl im T n, trep w t nl im T n ->
  exists w', reset_nil w t = Some w' /\ trep w' t nl im T n /\ same t [nl] w w' /\
    hget (rw_nodes w') nl = match hget (rw_nodes w) nl with Some k => Some (RN nl nl nl (r_value k) false) | None => None end.
Proof.
  intros w t nl im T0 n (HT & D & HH & k & HK & HB).
  eexists. split; [unfold reset_nil; go; reflexivity|]. split; [|split].
  - split; [exact HT|]. split; [exact D|]. split; [cbn [rw_nodes]; frm|]. eexists. split; [known|reflexivity].
  - sames.
  - rewrite HK. known.
Qed.
Lemma set_count_spec : forall w t nl im T n f, trep w t nl im T n ->
  exists w', sett w t (fun h => toCount (f (t_count h)) h) = Some w' /\ trep w' t nl im T (f n) /\ same t [] w w'.
Proof.
  intros w t nl im T0 n f (HT & D & HH & k & HK & HB).
  eexists. split; [erewrite sett_eq by exact HT; reflexivity|]. split.
  - split; [cbn [rw_trees]; rewrite hget_hset_same with (w := RT (rp nl T0) nl im n); auto|]. split; [exact D|]. split; [exact HH|].
    exists k. auto.
  - eapply same_sett. erewrite sett_eq by exact HT. reflexivity.
Qed.
(** rbtree_insert_node.c:51-78 up to the fixup *)
Definition link_new (o : order) (w : rworld) (t nl k y z : Z) : option rworld :=
  do w <- setr w z (toP y);
  do w <- (if y =? nl then sett w t (toRoot z) else
           do yv <- va w y;
           if o_cmp o k (o_key o yv) =? COMPARE_LT then setr w y (toL z) else setr w y (toR z));
  do w <- setr w z (toL nl); do w <- setr w z (toR nl); setr w z (toC true).
Lemma link_new_spec : forall o w t nl im p n z zn k,
  trep w t nl im (plug p E) n -> hget (rw_nodes w) z = Some zn -> cnt z (nl :: ns (plug p E)) = 0 ->
  Forall (fun j => ~ before o k j) (lft p) -> Forall (before o k) (rgt p) ->
  exists w', link_new o w t nl k (top nl p) z = Some w' /\ trep w' t nl im (plug p (T true E z (r_value zn) E)) n /\
    same t (z :: ns (plug p E)) w w'.
Proof.
  intros o w t nl im p n z zn k (HT & HC & HH & kn & HK & HB) HZ CZ FL FR.
  apply cells_plug in HH. destruct HH as [HP _]. rewrite rp_plug in HT. cbn [rp] in *.
  assert (D : forall a, cnt a (nl :: z :: pns p) <= 1).
  { intros a. specialize (HC a). rewrite cnt_cons, cnt_plug in HC. rewrite cnt_cons, cnt_plug in CZ. cbn [ns cnt] in *.
    destruct (Z.eqb_spec z a) as [->|NE]; cbn [Z.b2z]; [|lia]. lia. }
  assert (C : forall a, cnt a (ns (plug p (T true E z (r_value zn) E))) = cnt a (z :: ns (plug p E))).
  { intros a. rewrite cnt_cons, !cnt_plug. cbn [ns app]. rewrite cnt_cons. lia. }
  assert (HC' : forall a, cnt a (nl :: ns (plug p (T true E z (r_value zn) E))) <= 1).
  { intros a. rewrite cnt_cons, C. specialize (D a). rewrite cnt_cons, cnt_plug. rewrite !cnt_cons in D. cbn [ns cnt]. lia. }
  ne D z nl. destruct zn as [z1 z2 z3 zv z4]. cbn [r_value] in *. unfold trep. rewrite rp_plug. cbn [rp].
  destruct p as [|[d0 c0 q v0 s] p]; cbn [top pcells prt f_d f_c f_a f_v f_s lft rgt] in *; splitholds.
  - eexists. split; [unfold link_new; go; reflexivity|]. split.
    + split; [hs; rewrite HT; hs; reflexivity|]. split; [exact HC'|].
      split; [|exists kn; split; [known|assumption]]. cbn [plug cells rp]. hold.
    + sames.
  - ne D q nl. ne D q z.
    destruct d0; cbn [app] in *.
    + inversion FR as [|? ? B1 _]; subst. unfold before in B1. cbn [snd] in B1.
      eexists. split; [unfold link_new; go; rewrite B1, Z.eqb_refl; go; reflexivity|]. split.
      * split; [hs; rewrite HT; hs; reflexivity|]. split; [exact HC'|].
        split; [|exists kn; split; [known|assumption]]. apply cells_plug. cbn [cells pcells top rp f_d f_c f_a f_v f_s]. split; hold.
      * sames.
    + assert (B1 : o_cmp o k (o_key o v0) <> COMPARE_LT).
      { rewrite Forall_forall in FL. apply (FL (q, v0)). apply in_or_app. right. apply in_or_app. right. left. reflexivity. }
      eexists. split; [unfold link_new; go; reflexivity|]. split.
      * split; [hs; rewrite HT; hs; reflexivity|]. split; [exact HC'|].
        split; [|exists kn; split; [known|assumption]]. apply cells_plug. cbn [cells pcells top rp f_d f_c f_a f_v f_s]. split; hold.
      * sames.
Qed.
Lemma insert_node_link : forall o w t z, insert_node o w t z =
  (do x <- root w t; do nl <- nil_ w t; do zv <- va w z;
   do y <- insert_descend (S (length (rw_nodes w))) o w nl (o_key o zv) x nl;
   do w <- link_new o w t nl (o_key o zv) y z;
   do w <- insert_fixup w t z;
   do w <- sett w t (fun h => toCount (t_count h + 1) h);
   reset_nil w t).
Proof.
  intros. unfold insert_node, link_new.
  destruct (root w t); [|reflexivity]. destruct (nil_ w t); [|reflexivity]. destruct (va w z); [|reflexivity].
  destruct (insert_descend _ _ _ _ _ _ _); [|reflexivity].
  destruct (setr w z _); [|reflexivity].
  match goal with |- match ?m with _ => _ end = _ => destruct m end; [|reflexivity].
  destruct (setr _ _ _); [|reflexivity]. destruct (setr _ _ _); [|reflexivity]. destruct (setr _ _ _); reflexivity.
Qed.

Lemma insert_node_spec : forall o w t nl im T0 n z zn, good_order o ->
  trep w t nl im T0 n -> in_order o (items T0) -> nr true T0 ->
  hget (rw_nodes w) z = Some zn -> cnt z (nl :: ns T0) = 0 ->
  exists w' T', insert_node o w t z = Some w' /\ trep w' t nl im T' (n + 1) /\
    items T' = put o (z, r_value zn) (items T0) /\ nr true T' /\ (forall b, bh T0 b -> exists b', bh T' b') /\
    same t (nl :: z :: ns T0) w w'.
Proof.
  intros o w t nl im T0 n z zn G R IO NR HZ CZ.
  rewrite insert_node_link, (rep_root _ _ _ _ _ _ R), (rep_nil _ _ _ _ _ _ R), (va_eq _ _ _ HZ).
  pose proof (rep_len _ _ _ _ _ _ R) as LN.
  destruct (descend_spec o (o_key o (r_value zn)) w t nl im n T0 [] (S (length (rw_nodes w))) G R IO) as (p & EP & ED & FL & FR);
    [constructor|constructor|lia|].
  cbn [top] in ED. rewrite ED. cbn [plug] in EP. subst T0.
  destruct (link_new_spec o w t nl im p n z zn (o_key o (r_value zn)) R HZ CZ FL FR) as (w1 & E1 & R1 & S1).
  rewrite E1. unfold insert_fixup.
  apply nr_plug in NR. destruct NR as [NP _].
  pose proof (rep_len _ _ _ _ _ _ R1) as LN1. rewrite ns_plug_len in LN1. cbn [ns length app] in LN1. pose proof (pns_len p).
  destruct (insert_loop_spec (length p) (S (length (rw_nodes w1))) w1 t nl im p E z (r_value zn) E n) as (w2 & T2 & E2 & R2 & I2 & NR2 & B2 & S2);
    [lia|exact R1|exact NP|exact I|exact I|lia|].
  rewrite E2, (rep_root _ _ _ _ _ _ R2).
  destruct T2 as [|c2 l2 a2 v2 r2].
  { exfalso. rewrite items_plug in I2. cbn [items] in I2. destruct (lft p); discriminate I2. }
  cbn [rp]. destruct (recolor_spec w2 t nl im [] c2 l2 a2 v2 r2 n false R2) as (w3 & E3 & R3 & S3). rewrite E3.
  destruct (set_count_spec w3 t nl im _ n (fun n => n + 1) R3) as (w4 & E4 & R4 & S4). rewrite E4.
  destruct (reset_nil_spec w4 t nl im _ _ R4) as (w5 & E5 & R5 & S5 & _). rewrite E5.
  exists w5, (T false l2 a2 v2 r2). split; [reflexivity|]. split; [exact R5|]. split; [|split; [|split]].
  - transitivity (items (T c2 l2 a2 v2 r2)); [reflexivity|]. rewrite I2, !items_plug. cbn [items app].
    symmetry. apply put_split; auto.
  - cbn [nr] in NR2 |- *. destruct NR2 as (_ & A & B). repeat split; eapply nr_black; eauto.
  - intros b B. apply (bh_plug p E (T true E z (r_value zn) E)) in B; [|intros m M; cbn in *; auto].
    apply B2 in B. cbn [bh] in *. destruct c2; [exists (S b), b; auto|exists b; auto].
  - assert (P2 : forall a, cnt a (ns (T c2 l2 a2 v2 r2)) = cnt a (ns (plug p (T true E z (r_value zn) E)))).
    { intros a. rewrite <- !items_ns, I2. reflexivity. }
    assert (P1 : forall a, cnt a (ns (plug p (T true E z (r_value zn) E))) = cnt a (z :: ns (plug p E))).
    { intros a. rewrite cnt_cons, !cnt_plug. cbn [ns app]. rewrite cnt_cons. lia. }
    assert (Q : forall a, cnt a (nl :: z :: ns (plug p E)) = 0 -> cnt a (z :: ns (plug p E)) = 0 /\ cnt a [nl] = 0).
    { intros a A. rewrite !cnt_cons in A. pose proof (b2z_nonneg (nl =? a)). pose proof (b2z_nonneg (z =? a)).
      pose proof (cnt_nonneg a (ns (plug p E))). cbn [cnt]. lia. }
    eapply same_trans; [apply (same_sub _ _ _ _ _ S1); intros; apply Q; auto|].
    eapply same_trans; [apply (same_sub _ _ _ _ _ S2); intros; rewrite P1; apply Q; auto|].
    eapply same_trans; [apply (same_sub _ _ _ _ _ S3); intros; cbn [plug]; rewrite P2, P1; apply Q; auto|].
    eapply same_trans; [apply (same_sub _ _ _ _ _ S4); reflexivity|].
    apply (same_sub _ _ _ _ _ S5). intros; apply Q; auto.
Qed.
