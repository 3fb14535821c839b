(** Disciplines of a scheduler of OwnModel. *)
From Coq Require Import Permutation.
From Verif Require Import Base Status MemModel MemProofs Heap OwnModel OwnSpec OwnProofs OwnSep OwnBuild OwnSched.

Lemma pm_app : forall A (a l pre post : list A), Permutation l (pre ++ post) -> Permutation (a ++ l) (pre ++ a ++ post).
Proof. intros A a l pre post P. rewrite P. rewrite !app_assoc. apply Permutation_app_tail. apply Permutation_app_comm. Qed.
Ltac pnorm := cbn [app]; rewrite <- ?app_assoc, ?app_nil_r; cbn [app].
Ltac pconv := cbn [app]; rewrite <- ?app_assoc; reflexivity.
Ltac perm1 := match goal with
  | |- Permutation ?l ?l => reflexivity
  | |- Permutation (?x :: ?l) ?r =>
      let rec go pre q := lazymatch q with
        | x :: ?post => replace r with (pre ++ x :: post) by pconv; apply Permutation_cons_app; pnorm
        | ?y :: ?q' => go (pre ++ [y]) q'
        | ?a ++ ?q' => go (pre ++ a) q'
        end in lazymatch type of x with ?T => go (@nil T) r end
  | |- Permutation (?a ++ ?l) ?r =>
      let rec go pre q := lazymatch q with
        | a => replace r with (pre ++ a ++ []) by (rewrite app_nil_r; pconv); apply pm_app; pnorm
        | a ++ ?post => replace r with (pre ++ a ++ post) by pconv; apply pm_app; pnorm
        | ?y :: ?q' => go (pre ++ [y]) q'
        | ?b ++ ?q' => go (pre ++ b) q'
        end in lazymatch type of a with list ?T => go (@nil T) r end
  end.
Ltac perm := pnorm; repeat perm1.
Lemma obs_cons : forall k q l r, map ob ((k, q, l) :: r) = Ob k q l :: map ob r.
Proof. reflexivity. Qed.
Lemma obs_nil : map ob [] = [].
Proof. reflexivity. Qed.
Lemma ols_cons : forall (ols : list (kind * Z * list Z)) x l, map fst ols = x :: l -> exists y r, ols = (x, y) :: r /\ map fst r = l.
Proof. intros ols x l E. destruct ols as [|[x' y] r]; [discriminate|]. cbn in E. inversion E; subst. eauto. Qed.
Lemma ols_nil : forall (ols : list (kind * Z * list Z)), map fst ols = [] -> ols = [].
Proof. intros [|? ?] E; [auto|discriminate]. Qed.
Lemma has_raw_l : forall F p l cs s, has F (Ob KRaw p l :: cs) s -> l = [p] /\ has F (Pt p BRaw :: cs) s.
Proof.
  intros F p l cs s H. destruct (owns_raw _ _ _ (has_own _ _ _ _ _ _ H (or_introl eq_refl))) as [-> _]. split; [auto|]. apply has_unfold in H as (b & ols & FI & E & L & H). destruct b; try discriminate FI. cbn in E. apply ols_nil in E. subst ols. exact H.
Qed.
(** The parts of a scheduler *)
Definition parts (p m ctx f t rq cb cx idle : Z) (ds : list (Z * Z)) (lm lf lq : list Z) (ols dols : list (kind * Z * list Z)) (cs : list chunk) : list chunk :=
  Pt p (BSched m ctx true) :: Pt ctx (BCtx f t rq cb cx idle p) :: Pt t (BTree ds) :: Pt cb BRaw :: Pt cx BRaw :: Ob KRes m lm :: Ob KRes f lf :: Ob KQueue rq lq :: map ob ols ++ map ob dols ++ cs.
Lemma sched_open : forall F p l cs s m ctx f t rq cb cx idle ds, has F (Ob KSched p l :: cs) s -> view (m_h s) p m ctx f t rq cb cx idle ds ->
  exists lm lf lq ols dols, has F (parts p m ctx f t rq cb cx idle ds lm lf lq ols dols cs) s /\ map fst ols = some KRes idle /\ map fst dols = holds KRes (BTree ds) /\
    Permutation l (feet (parts p m ctx f t rq cb cx idle ds lm lf lq ols dols [])).
Proof.
  intros F p l cs s m ctx f t rq cb cx idle ds H (V1 & V2 & V3).
  apply has_unfold in H as (b & ols & FI & E & L & H). pose proof (has_get _ _ _ p b H (or_introl eq_refl)) as X. rewrite V1 in X. inversion X; subst b. cbn [holds] in E. apply ols_cons in E as (lm & r & -> & E). apply ols_cons in E as (lc & r0 & -> & E). apply ols_nil in E. subst r0. rewrite ?obs_cons, ?obs_nil in H; cbn [app] in H.
  bring H ctx. apply has_unfold in H as (b & ols & FI1 & E & L1 & H). pose proof (has_get _ _ _ ctx b H (or_introl eq_refl)) as X1. rewrite V2 in X1. inversion X1; subst b. cbn [holds app] in E. apply ols_cons in E as (lf & r & -> & E). apply ols_cons in E as (lt & r0 & -> & E). apply ols_cons in E as (lq & r & -> & E). apply ols_cons in E as (lcb & r0 & -> & E). apply ols_cons in E as (lcx & r & -> & E). rewrite ?obs_cons, ?obs_nil in H; cbn [app] in H.
  bring H t. apply has_unfold in H as (b & dols & FI2 & E2 & L2 & H). pose proof (has_get _ _ _ t b H (or_introl eq_refl)) as X2. rewrite V3 in X2. inversion X2; subst b.
  assert (has F (Ob KRaw cb lcb :: Pt p (BSched m ctx true) :: Pt ctx (BCtx f t rq cb cx idle p) :: Pt t (BTree ds) :: Ob KRaw cx lcx :: Ob KRes m lm :: Ob KRes f lf :: Ob KQueue rq lq :: map ob r ++ map ob dols ++ cs) s) as H2.
  { eapply has_perm; [exact H|]. perm. }
  clear H. apply has_raw_l in H2 as [-> H2]. bring H2 cx. apply has_raw_l in H2 as [-> H2].
  exists lm, lf, lq, r, dols. split; [|split; [auto|split; [auto|]]].
  - unfold parts. eapply has_perm; [exact H2|]. perm.
  - subst. unfold parts, feet. cbn [flat_map foot map concat snd app]. fold feet. rewrite !flat_map_app. fold (feet (map ob r)). fold (feet (map ob dols)). rewrite !feet_obs. cbn [flat_map]. perm.
Qed.
Lemma sched_close : forall F p cs s m ctx f t rq cb cx idle ds lm lf lq ols dols, has F (parts p m ctx f t rq cb cx idle ds lm lf lq ols dols cs) s -> map fst ols = some KRes idle -> map fst dols = holds KRes (BTree ds) ->
  exists l, has F (Ob KSched p l :: cs) s /\ Permutation l (feet (parts p m ctx f t rq cb cx idle ds lm lf lq ols dols [])).
Proof.
  intros F p cs s m ctx f t rq cb cx idle ds lm lf lq ols dols H E1 E2. unfold parts in H. rw H cb. rw H cx.
  assert (has F (Pt t (BTree ds) :: map ob dols ++ Pt p (BSched m ctx true) :: Pt ctx (BCtx f t rq cb cx idle p) :: Ob KRaw cb [cb] :: Ob KRaw cx [cx] :: Ob KRes m lm :: Ob KRes f lf :: Ob KQueue rq lq :: map ob ols ++ cs) s) as H1 by (eapply has_perm; [exact H|]; perm).
  apply (has_fold KRes t (BTree ds) dols) in H1; [|auto|reflexivity]. remember (t :: concat (map snd dols)) as lt.
  assert (has F (Pt ctx (BCtx f t rq cb cx idle p) :: map ob (((KRes, f), lf) :: ((KRes, t), lt) :: ((KQueue, rq), lq) :: ((KRaw, cb), [cb]) :: ((KRaw, cx), [cx]) :: ols) ++ Pt p (BSched m ctx true) :: Ob KRes m lm :: cs) s) as H2 by (eapply has_perm; [exact H1|]; rewrite ?obs_cons, ?obs_nil; perm).
  apply (has_fold KCtx ctx (BCtx f t rq cb cx idle p)) in H2; [|cbn [map fst holds app]; rewrite E1; reflexivity|reflexivity].
  bring H2 m. bring H2 p. eapply (has_fold KSched p (BSched m ctx true) [((KRes, m), lm); ((KCtx, ctx), _)]) in H2; [|reflexivity|reflexivity].
  - eexists. split; [exact H2|]. subst lt. unfold parts, feet. cbn [flat_map foot map concat snd app]. fold feet. rewrite !flat_map_app. fold (feet (map ob ols)). fold (feet (map ob dols)). rewrite !feet_obs. cbn [flat_map]. perm.
Qed.

(** Some objects are put aside. *)
Definition aside (F : Z -> option blk) (h : heap blk) (l : list Z) : Z -> option blk := fun q => if in_dec Z.eq_dec q l then hget h q else F q.
Lemma hide : forall F a cs s, has F (a ++ cs) s -> has (aside F (m_h s) (feet a)) cs s.
Proof.
  intros F a cs s [W N O I0 S0]. rewrite feet_app in *. apply nodup_app in N as (N1 & N2 & N3). apply Forall_app in S0 as [S1 S2]. constructor; auto; unfold aside.
  - intros q Q. destruct (in_dec _ _ _) as [K|K]; [auto|]. apply O. rewrite in_app_iff. tauto.
  - intros q Q. destruct (in_dec _ _ _) as [K|K]; [exfalso; apply (N3 q); auto|]. apply I0. rewrite in_app_iff. auto.
Qed.
Lemma unhide : forall F a cs s cs' s', has F (a ++ cs) s -> has (aside F (m_h s) (feet a)) cs' s' -> has F (a ++ cs') s' /\ forall q, In q (feet a) -> hget (m_h s') q = hget (m_h s) q.
Proof.
  intros F a cs s cs' s' H H'. assert (NI : forall q, In q (feet a) -> ~ In q (feet cs')).
  { intros q A C. pose proof (has_in _ _ _ H' q C) as X. unfold aside in X. destruct (in_dec _ _ _); [|contradiction]. apply (feet_live (m_h s) (a ++ cs) q); [apply (has_sat _ _ _ H)|rewrite feet_app, in_app_iff; auto|auto]. }
  assert (SAME : forall q, In q (feet a) -> hget (m_h s') q = hget (m_h s) q).
  { intros q A. rewrite (has_out _ _ _ H') by auto. unfold aside. destruct (in_dec _ _ _); [auto|contradiction]. }
  split; [|exact SAME]. pose proof (has_nodup _ _ _ H) as N. rewrite feet_app in N. apply nodup_app in N as (N1 & _ & _). constructor.
  - apply (has_wf _ _ _ H').
  - rewrite feet_app. apply nodup_app. split; [auto|]. split; [apply (has_nodup _ _ _ H')|auto].
  - intros q Q. rewrite feet_app, in_app_iff in Q. rewrite (has_out _ _ _ H') by tauto. unfold aside. destruct (in_dec _ _ _); tauto.
  - intros q Q. rewrite feet_app, in_app_iff in Q. destruct (in_dec Z.eq_dec q (feet a)) as [A|A]; [apply (has_in _ _ _ H); rewrite feet_app, in_app_iff; auto|]. destruct Q as [Q|Q]; [contradiction|]. pose proof (has_in _ _ _ H' q Q) as X. unfold aside in X. destruct (in_dec _ _ _); tauto.
  - apply Forall_app. split; [|apply (has_sat _ _ _ H')]. pose proof (has_sat _ _ _ H) as X. apply Forall_app in X as [X _]. eapply sats_frame; [exact X|auto].
Qed.
(** A heap around an object *)
Definition around (h : heap blk) (l : list Z) : Z -> option blk := fun q => if in_dec Z.eq_dec q l then None else hget h q.
Lemma has_whole : forall s k p l, hwf (m_h s) -> whole (m_h s) k p l -> has (around (m_h s) l) [Ob k p l] s.
Proof.
  intros s k p l W [O N]. constructor; auto; cbn [feet flat_map foot]; rewrite app_nil_r; auto; unfold around.
  - intros q Q. destruct (in_dec _ _ _); [contradiction|auto].
  - intros q Q. destruct (in_dec _ _ _); [auto|contradiction].
Qed.
Lemma has_becomes : forall h l s k p l', has (around h l) [Ob k p l'] s -> whole (m_h s) k p l' /\ becomes h (m_h s) l l'.
Proof.
  intros h l s k p l' [W N O I0 S0]. cbn [feet flat_map foot] in *. rewrite app_nil_r in *. inversion S0; subst. split; [split; auto|]. intros q. unfold around in *. split; [|auto]. intros Q. specialize (I0 q Q). cbv beta in I0. destruct (in_dec _ _ _); auto.
Qed.
Theorem release_scheduler : forall v s p l m ctx f t rq cb cx idle ds, good v -> hwf (m_h s) -> whole (m_h s) KSched p l -> view (m_h s) p m ctx f t rq cb cx idle ds -> (length l <= e_fuel v)%nat ->
  exists s', release v p s = Some (e_al v (m_n s), s') /\ m_n s' = S (m_n s) /\ hwf (m_h s') /\ gone (m_h s) (m_h s') (remove Z.eq_dec ctx l) /\ hget (m_h s') ctx = hget (m_h s) ctx /\ In ctx l.
Proof.
  intros v s p l m ctx f t rq cb cx idle ds G W WH V N. pose proof (has_whole _ _ _ _ W WH) as H. destruct (sched_open _ _ _ _ _ _ _ _ _ _ _ _ _ _ H V) as (lm & lf & lq & ols & dols & H1 & E1 & E2 & P).
  unfold parts in H1. rw H1 cb. rw H1 cx.
  assert (has (around (m_h s) l) (Pt t (BTree ds) :: map ob dols ++ Pt p (BSched m ctx true) :: Pt ctx (BCtx f t rq cb cx idle p) :: Ob KRaw cb [cb] :: Ob KRaw cx [cx] :: Ob KRes m lm :: Ob KRes f lf :: Ob KQueue rq lq :: map ob ols) s) as H2 by (eapply has_perm; [exact H1|]; perm).
  apply (has_fold KRes t (BTree ds) dols) in H2; [|auto|reflexivity]. remember (t :: concat (map snd dols)) as lt.
  destruct (st_release_sched v p m lm ctx f t rq cb cx idle lf lt lq ols (around (m_h s) l) [] s G E1) as (s' & E & H' & M).
  { eapply has_perm; [exact H2|]. perm. }
  { apply Permutation_length in P. rewrite P in N. unfold parts, feet in *. subst lt. cbn [flat_map foot app] in *. rewrite !flat_map_app in N. fold (feet (map ob ols)) in *. fold (feet (map ob dols)) in *. rewrite !feet_obs in *. repeat (cbn [length flat_map] in N; rewrite ?app_length in N). repeat (cbn [length flat_map]; rewrite ?app_length). nlia. }
  exists s'. split; [exact E|]. split; [exact M|]. split; [apply (has_wf _ _ _ H')|].
  assert (IC : In ctx l) by (eapply Permutation_in; [apply Permutation_sym; exact P|]; unfold parts; right; left; auto).
  assert (GC : hget (m_h s') ctx = hget (m_h s) ctx) by (rewrite (has_get _ _ _ ctx _ H' (or_introl eq_refl)); destruct V as (_ & V & _); auto).
  split; [|auto]. intros q. destruct (in_dec _ _ _) as [K|K].
  - apply in_remove in K as [K1 K2]. rewrite (has_out _ _ _ H'); [unfold around; destruct (in_dec _ _ _); [auto|contradiction]|]. intros [X|[]]. auto.
  - destruct (Z.eq_dec q ctx) as [->|NE]; [auto|]. rewrite (has_out _ _ _ H') by (intros [X|[]]; auto). unfold around. destruct (in_dec _ _ _) as [J|J]; [|auto]. exfalso. apply K. apply in_in_remove; auto.
Qed.

Lemma find_none : forall s ds ids id, Forall2 (registered (m_h s)) ds ids -> ~ In id ids -> find_disc ds id s = Some (0, s).
Proof.
  intros s ds ids id F. induction F as [|[n d] i ds ids (a & b & c & e & R) F IH]; intros NI; [reflexivity|]. cbn [find_disc]. unfold disc_id. unfold mbind at 1. unfold mbind, load. cbn [snd] in R. rewrite R. unfold mret. destruct (Z.eqb_spec i id) as [->|]; [exfalso; apply NI; left; auto|]. apply IH. intros K. apply NI. right. auto.
Qed.
Lemma find_some : forall s ds ids id, hwf (m_h s) -> Forall2 (registered (m_h s)) ds ids -> In id ids -> exists n d, find_disc ds id s = Some (d, s) /\ d <> 0 /\ In (n, d) ds /\ registered (m_h s) (n, d) id.
Proof.
  intros s ds ids id W F. induction F as [|[n d] i ds ids (a & b & c & e & R) F IH]; intros I0; [destruct I0|]. cbn [find_disc]. unfold disc_id. unfold mbind at 1. unfold mbind, load. cbn [snd] in R. rewrite R. unfold mret. destruct (Z.eqb_spec i id) as [->|N].
  - exists n, d. split; [auto|]. split; [intros ->; rewrite hget_null in R by auto; discriminate|]. split; [left; auto|]. exists a, b, c, e. auto.
  - destruct I0 as [I0|I0]; [contradiction|]. destruct (IH I0) as (n' & d' & X1 & X2 & X3 & X4). exists n', d'. split; [exact X1|]. split; [auto|]. split; [right; auto|auto].
Qed.
Lemma disc_find_view : forall s p m ctx f t rq cb cx idle ds id, view (m_h s) p m ctx f t rq cb cx idle ds -> disc_find p id s = find_disc ds id s.
Proof. intros s p m ctx f t rq cb cx idle ds id (V1 & V2 & V3). unfold disc_find, disc_tree, mbind, load. rewrite V1, V2, V3. reflexivity. Qed.

(** message_discipline_get_or_create and condition_discipline_get_or_create, the discipline
    being new *)
Definition new_out (v : menv) (n : nat) (err : nat -> Z -> Z) (p id : Z) (l ids : list Z) (s : ms) (o : option (Z * Z * ms)) : Prop :=
  (oks v (m_n s) n /\ exists d s' l', o = Some ((STATUS_SUCCESS, d), s') /\ hwf (m_h s') /\ scheduler (m_h s') p l' (id :: ids) /\ becomes (m_h s) (m_h s') l l' /\ length l' = (length l + n - 2)%nat) \/
  (exists i s', (i < n - 2)%nat /\ fails v (m_n s) i /\ o = Some ((err i (e_al v (m_n s + i)%nat), 0), s') /\ err i (e_al v (m_n s + i)%nat) <> STATUS_SUCCESS /\ hwf (m_h s') /\ unchanged (m_h s) (m_h s')) \/
  (exists i s', (n - 2 <= i < n)%nat /\ fails v (m_n s) i /\ o = Some ((e_al v (m_n s + i)%nat, 0), s') /\ release v p s' = None).
Definition is_pt (c : chunk) : Prop := match c with Pt _ _ => True | _ => False end.
Lemma same_pts : forall F cs s s', has F cs s -> has F cs s' -> Forall is_pt cs -> unchanged (m_h s) (m_h s').
Proof.
  intros F cs s s' H H' P q. destruct (in_dec Z.eq_dec q (feet cs)) as [I0|I0].
  - apply in_flat_map in I0 as (c & C & I0). rewrite Forall_forall in P. specialize (P c C). destruct c as [x b|]; [|destruct P]. destruct I0 as [->|[]]. rewrite (has_get _ _ _ _ _ H C), (has_get _ _ _ _ _ H' C). auto.
  - rewrite (has_out _ _ _ H), (has_out _ _ _ H') by auto. auto.
Qed.
Definition others (m f rq : Z) (lm lf lq : list Z) (ols dols : list (kind * Z * list Z)) : list chunk := map ob dols ++ Ob KRes m lm :: Ob KRes f lf :: Ob KQueue rq lq :: map ob ols.
Lemma sched_split : forall s p l ids, hwf (m_h s) -> scheduler (m_h s) p l ids -> exists m ctx f t rq cb cx idle ds lm lf lq ols dols,
  view (m_h s) p m ctx f t rq cb cx idle ds /\ Forall2 (registered (m_h s)) ds ids /\ map fst ols = some KRes idle /\ map fst dols = holds KRes (BTree ds) /\
  has (around (m_h s) l) (others m f rq lm lf lq ols dols ++ [Pt p (BSched m ctx true); Pt ctx (BCtx f t rq cb cx idle p); Pt t (BTree ds); Pt cb BRaw; Pt cx BRaw]) s /\ Permutation l (feet (parts p m ctx f t rq cb cx idle ds lm lf lq ols dols [])).
Proof.
  intros s p l ids W (WH & m & ctx & f & t & rq & cb & cx & idle & ds & V & R).
  pose proof (has_whole _ _ _ _ W WH) as H0. destruct (sched_open _ _ _ _ _ _ _ _ _ _ _ _ _ _ H0 V) as (lm & lf & lq & ols & dols & H1 & E1 & E2 & P). exists m, ctx, f, t, rq, cb, cx, idle, ds, lm, lf, lq, ols, dols. split; [auto|]. split; [auto|]. split; [auto|]. split; [auto|]. split; [|auto]. unfold parts in H1. unfold others. eapply has_perm; [exact H1|]. perm.
Qed.
Lemma reg_later : forall Fr m f rq lm lf lq ols dols cs0 s cs' s' ds ids, has Fr (others m f rq lm lf lq ols dols ++ cs0) s -> has (aside Fr (m_h s) (feet (others m f rq lm lf lq ols dols))) cs' s' ->
  map fst dols = holds KRes (BTree ds) -> Forall2 (registered (m_h s)) ds ids -> Forall2 (registered (m_h s')) ds ids.
Proof.
  intros Fr m f rq lm lf lq ols dols cs0 s cs' s' ds ids HA H E R. destruct (unhide _ _ _ _ _ _ HA H) as [_ SAME].
  apply (forall2_with _ _ _ _ _ _ R). intros [n x] id I0 _ (a & b & c & e & G). exists a, b, c, e. rewrite SAME; [auto|]. cbn [snd] in *. cbn [holds] in E.
  assert (In (KRes, x) (map fst dols)) as I1 by (rewrite E; apply in_flat_map; exists (n, x); split; [auto|right; left; auto]). apply in_map_iff in I1 as ([y lx] & EY & I1). cbn [fst] in EY. subst y.
  assert (In (Ob KRes x lx) (map ob dols)) as I2 by (apply in_map_iff; exists ((KRes, x), lx); auto).
  eapply in_feet; [unfold others; apply in_app_iff; left; exact I2|]. assert (owns (m_h s) KRes x lx) as O by (apply (has_own _ _ _ _ _ _ HA); unfold others; apply in_app_iff; left; apply in_app_iff; auto). inversion O; subst. left. auto.
Qed.
Lemma close_new : forall s p l ids m ctx f t rq cb cx idle ds lm lf lq ols dols s' n d ld cb' cx' idle' eols id cbv codes c ad,
  Forall2 (registered (m_h s)) ds ids -> map fst (ols ++ eols) = some KRes idle' -> map fst dols = holds KRes (BTree ds) ->
  has (around (m_h s) l) (others m f rq lm lf lq ols dols ++ [Pt p (BSched m ctx true); Pt ctx (BCtx f t rq cb cx idle p); Pt t (BTree ds); Pt cb BRaw; Pt cx BRaw]) s -> Permutation l (feet (parts p m ctx f t rq cb cx idle ds lm lf lq ols dols [])) ->
  has (aside (around (m_h s) l) (m_h s) (feet (others m f rq lm lf lq ols dols))) (Pt n BRaw :: Pt p (BSched m ctx true) :: Pt ctx (BCtx f t rq cb' cx' idle' p) :: Pt t (BTree ((n, d) :: ds)) :: Ob KRes d ld :: Pt cb' BRaw :: Pt cx' BRaw :: map ob eols) s' ->
  hget (m_h s') d = Some (BDisc id cbv codes c ad) ->
  exists l', hwf (m_h s') /\ scheduler (m_h s') p l' (id :: ids) /\ becomes (m_h s) (m_h s') l l' /\ length l' = (length l + 1 + length ld + length (concat (map snd eols)))%nat.
Proof.
  intros s p l ids m ctx f t rq cb cx idle ds lm lf lq ols dols s' n d ld cb' cx' idle' eols id cbv codes c ad R E1 E2 HA P H GD.
  pose proof (reg_later _ _ _ _ _ _ _ _ _ _ _ _ _ _ _ HA H E2 R) as R'. destruct (unhide _ _ _ _ _ _ HA H) as [H1 _]. unfold others in H1.
  assert (V' : view (m_h s') p m ctx f t rq cb' cx' idle' ((n, d) :: ds)) by (split; [|split]; apply (has_get _ _ _ _ _ H); cbn; tauto).
  clear H. assert (has (around (m_h s) l) (Ob KRaw n [n] :: parts p m ctx f t rq cb' cx' idle' ((n, d) :: ds) lm lf lq (ols ++ eols) (((KRes, d), ld) :: dols) []) s') as H2.
  { apply has_raw. eapply has_perm; [exact H1|]. unfold parts. rewrite obs_cons, map_app. perm. }
  destruct (sched_close (around (m_h s) l) p [] s' m ctx f t rq cb' cx' idle' ((n, d) :: ds) lm lf lq (ols ++ eols) (((KRaw, n), [n]) :: ((KRes, d), ld) :: dols)) as (l' & H3 & P').
  { eapply has_perm; [exact H2|]. unfold parts. rewrite !obs_cons. perm. }
  { auto. }
  { cbn [map fst]. rewrite E2. reflexivity. }
  destruct (has_becomes _ _ _ _ _ _ H3) as [WH B]. exists l'. split; [apply (has_wf _ _ _ H3)|]. split; [split; [auto|]|split; [auto|]].
  - exists m, ctx, f, t, rq, cb', cx', idle', ((n, d) :: ds). split; [auto|]. constructor; [|auto]. exists cbv, codes, c, ad. auto.
  - apply Permutation_length in P. apply Permutation_length in P'. rewrite P, P'. unfold parts, feet. cbn [flat_map foot app]. rewrite !flat_map_app. fold (feet (map ob ols)). fold (feet (map ob (ols ++ eols))). fold (feet (map ob dols)). fold (feet (map ob ((KRaw, n, [n]) :: (KRes, d, ld) :: dols))). rewrite !feet_obs. rewrite map_app, concat_app. cbn [map snd concat]. repeat (cbn [length flat_map]; rewrite ?app_length). nlia.
Qed.
Lemma dangling : forall v s p l m ctx f t rq cb cx idle ds lm lf lq ols dols s' n d cb' cx', good v -> (length l <= e_fuel v)%nat -> 
  has (around (m_h s) l) (others m f rq lm lf lq ols dols ++ [Pt p (BSched m ctx true); Pt ctx (BCtx f t rq cb cx idle p); Pt t (BTree ds); Pt cb BRaw; Pt cx BRaw]) s -> Permutation l (feet (parts p m ctx f t rq cb cx idle ds lm lf lq ols dols [])) ->
  has (aside (around (m_h s) l) (m_h s) (feet (others m f rq lm lf lq ols dols))) [Pt n BRaw; Pt p (BSched m ctx true); Pt ctx (BCtx f t rq cb' cx' idle p); Pt t (BTree ((n, d) :: ds)); Pt cb' BRaw; Pt cx' BRaw] s' ->
  hget (m_h s') d = None -> release v p s' = None.
Proof.
  intros v s p l m ctx f t rq cb cx idle ds lm lf lq ols dols s' n d cb' cx' G N HA P H ND. destruct (unhide _ _ _ _ _ _ HA H) as [H1 _]. clear H.
  assert (H2 : has (around (m_h s) l) (Pt p (BSched m ctx true) :: Ob KRes m lm :: Ob KRes f lf :: Pt ctx (BCtx f t rq cb' cx' idle p) :: Ob KQueue rq lq :: Pt t (BTree ((n, d) :: ds)) :: Pt n BRaw :: Pt cb' BRaw :: Pt cx' BRaw :: map ob dols ++ map ob ols) s') by (eapply has_perm; [exact H1|]; unfold others; perm).
  destruct (fresh_F _ _ _ d H2 ND) as [F1 F2].
  assert (S (length lm + length lf) <= length l)%nat as LE.
  { apply Permutation_length in P. rewrite P. unfold parts, feet. cbn [flat_map foot app]. repeat (cbn [length]; rewrite ?app_length). nlia. }
  eapply (release_dangling v p m lm ctx f t rq cb' cx' idle lf lq n d ds); [nlia|nlia|exact G|exact H2|exact F1|exact F2].
Qed.
Lemma st_boxes : forall v s p l ids id, good v -> hwf (m_h s) -> scheduler (m_h s) p l ids -> ~ In id ids -> (length l <= e_fuel v)%nat -> new_out v 8 boxes_err p id l ids s (boxes_discipline v p id s).
Proof.
  intros v s p l ids id G W SC NI N. destruct (sched_split _ _ _ _ W SC) as (m & ctx & f & t & rq & cb & cx & idle & ds & lm & lf & lq & ols & dols & V & R & E1 & E2 & HA & P).
  pose proof (hide _ _ _ _ HA) as H0. set (F := aside (around (m_h s) l) (m_h s) (feet (others m f rq lm lf lq ols dols))) in *. pose proof H0 as H.
  assert (PTS : Forall is_pt [Pt p (BSched m ctx true); Pt ctx (BCtx f t rq cb cx idle p); Pt t (BTree ds); Pt cb BRaw; Pt cx BRaw]) by (repeat constructor).
  unfold boxes_discipline. rewrite (bind_some _ _ _ _ _ 0 s) by (rewrite (disc_find_view _ _ _ _ _ _ _ _ _ _ _ _ V); eapply find_none; eauto). norm. cbv zeta. change (0 =? 0) with true. norm.
  match type of H0 with has _ ?cs _ => set (c0 := cs) in H0 end.
  st_bd (builds_boxes v G).
  2: { right. left. exists i. eexists. split; [nlia|]. split; [auto|]. split; [unfold mret; destruct i as [|[|i]]; [reflexivity|reflexivity|nlia]|]. split; [destruct i as [|[|i]]; [exact X|exact X|nlia]|]. split; [eapply has_wf; eassumption|]. eapply same_pts; eauto. }
  st_dc G.
  2: { st_rl G. right. left. exists (2 + i)%nat. eexists. split; [nlia|]. split; [split; [oks_tac|al_bad]|]. split; [unfold mret; destruct i as [|[|[|i]]]; [reflexivity..|nlia]|]. split; [destruct i as [|[|[|i]]]; [discriminate..|nlia]|]. split; [eapply has_wf; eassumption|]. eapply same_pts; eauto. }
  match goal with |- context [mbind (disc_add v p d) ?g ?s] => match goal with H : has _ _ s |- _ => bring H cx; bring H cb; bring H d; bring H t; bring H ctx; bring H p;
    assert (FN : find_disc ds id s = Some (0, s)) by (eapply find_none; [eapply reg_later; [exact HA|exact H|exact E2|exact R]|exact NI]);
    destruct (st_add v p m ctx f t rq cb cx idle p d _ _ _ _ ds _ _ _ G H FN) as [(Ka & n & cb' & cx' & sa & Ea & Ha & Ma)|[(Ka & sa & Ea & Ha & Ma)|[(Ka & n & sa & Ea & Ha & Ma)|(Ka & n & cb' & sa & Ea & Ha & Ma)]]]; rewrite (bind_some _ _ _ g _ _ _ Ea); clear H FN end end.
  - norm. unfold set_release. assoc. st_ld. st_st. match goal with H : has F _ ?s |- context [mret _ ?s] => rename H into Hb; rename s into sb end.
    assert (GD : hget (m_h sb) d = Some (BDisc id cbv codes p0 true)) by (apply (has_get _ _ _ _ _ Hb); cbn; tauto).
    bring Hb p0. pose proof (has_nz _ _ _ _ _ _ Hb) as NZ0. bring Hb codes. bring Hb cbv. fdo Hb KRes d (BDisc id cbv codes p0 true) [((KRaw, cbv), [cbv]); ((KRaw, codes), [codes]); ((KRes, p0), l0)].
    bring Hb cx'. bring Hb cb'. bring Hb d. bring Hb t. bring Hb ctx. bring Hb p. bring Hb n. rewrite <- (app_nil_r ols) in E1. destruct (close_new s p l ids m ctx f t rq cb cx idle ds lm lf lq ols dols sb n d _ cb' cx' idle [] _ _ _ _ _ R E1 E2 HA P Hb GD) as (l' & C1 & C2 & C3 & C4).
    left. split; [oks_tac|]. exists d, sb, l'. split; [reflexivity|]. split; [auto|]. split; [auto|]. split; [auto|]. rewrite C4. cbn [length map concat]. rewrite app_nil_r. nlia.
  - pose proof (proj2 Ka) as Kb. rewrite Nat.add_0_r in Kb. norm. is_bad Kb. norm. bring Ha codes. bring Ha cbv. fd Ha KRes d (BDisc id cbv codes 0 false) [((KRaw, cbv), [cbv]); ((KRaw, codes), [codes])]. st_rl G. st_rl G.
    right. left. exists 5%nat. eexists. split; [nlia|]. split; [split; [oks_tac|al_bad]|]. split; [unfold mret; cbn [boxes_err]; do 4 f_equal; nlia|]. split; [cbn [boxes_err]; al_bad|]. split; [eapply has_wf; eassumption|]. eapply same_pts; eauto.
  - pose proof (proj2 Ka) as Kb. norm. is_bad Kb. norm. bring Ha codes. bring Ha cbv. fd Ha KRes d (BDisc id cbv codes 0 false) [((KRaw, cbv), [cbv]); ((KRaw, codes), [codes])]. bring Ha d. pose proof (has_apart _ _ _ _ _ _ Ha) as [A1 A2]. st_rl G. st_rl G.
    match goal with H : has F _ ?s |- context [mret _ ?s] => rename H into Hb; rename s into sb end. right. right. exists 6%nat, sb. split; [nlia|]. split; [split; [oks_tac|al_bad]|]. split; [unfold mret; do 4 f_equal; nlia|].
    assert (hget (m_h sb) d = None) as ND by (rewrite (has_out _ _ _ Hb); [exact A1|]; intros Q; apply A2; cbn [feet flat_map foot app] in *; repeat (rewrite ?in_app_iff in *; cbn [In app] in *); tauto).
    bring Hb cx. bring Hb cb. bring Hb t. bring Hb ctx. bring Hb p. bring Hb n. eapply dangling; eauto.
  - pose proof (proj2 Ka) as Kb. norm. is_bad Kb. norm. bring Ha codes. bring Ha cbv. fd Ha KRes d (BDisc id cbv codes 0 false) [((KRaw, cbv), [cbv]); ((KRaw, codes), [codes])]. bring Ha d. pose proof (has_apart _ _ _ _ _ _ Ha) as [A1 A2]. st_rl G. st_rl G.
    match goal with H : has F _ ?s |- context [mret _ ?s] => rename H into Hb; rename s into sb end. right. right. exists 7%nat, sb. split; [nlia|]. split; [split; [oks_tac|al_bad]|]. split; [unfold mret; do 4 f_equal; nlia|].
    assert (hget (m_h sb) d = None) as ND by (rewrite (has_out _ _ _ Hb); [exact A1|]; intros Q; apply A2; cbn [feet flat_map foot app] in *; repeat (rewrite ?in_app_iff in *; cbn [In app] in *); tauto).
    bring Hb cx. bring Hb cb'. bring Hb t. bring Hb ctx. bring Hb p. bring Hb n. eapply dangling; eauto.
Qed.

(** I/O disciplines *)
Lemma st_io : forall v mk n err id F cs s, good v -> (n <= 29)%nat -> builds v n err (mk v) -> has F cs s ->
  (oks v (m_n s) (n + 3) /\ exists d cbv codes c lc s', io_create v mk id s = Some ((STATUS_SUCCESS, d), s') /\ has F (Pt d (BDisc id cbv codes c false) :: Ob KRaw cbv [cbv] :: Ob KRaw codes [codes] :: Ob KRes c lc :: cs) s' /\ length lc = n /\ c <> 0 /\ m_n s' = (m_n s + (n + 3))%nat) \/
  (exists i s', (i < n + 3)%nat /\ fails v (m_n s) i /\ io_create v mk id s = Some ((io_err n err i (e_al v (m_n s + i)%nat), 0), s') /\ io_err n err i (e_al v (m_n s + i)%nat) <> STATUS_SUCCESS /\ has F cs s' /\ m_n s' = S (m_n s + i)).
Proof.
  intros v mk n err id F cs s G N B H. pose (Q := fun o => (oks v (m_n s) (n + 3) /\ exists d cbv codes c lc s', o = Some ((STATUS_SUCCESS, d), s') /\ has F (Pt d (BDisc id cbv codes c false) :: Ob KRaw cbv [cbv] :: Ob KRaw codes [codes] :: Ob KRes c lc :: cs) s' /\ length lc = n /\ c <> 0 /\ m_n s' = (m_n s + (n + 3))%nat) \/
  (exists i s', (i < n + 3)%nat /\ fails v (m_n s) i /\ o = Some ((io_err n err i (e_al v (m_n s + i)%nat), 0), s') /\ io_err n err i (e_al v (m_n s + i)%nat) <> STATUS_SUCCESS /\ has F cs s' /\ m_n s' = S (m_n s + i))). change (Q (io_create v mk id s)). unfold io_create. st_bd B.
  - st_dc G.
    + unfold set_release. assoc. st_ld. st_st. match goal with H : has F _ ?s |- context [mret _ ?s] => rename H into Hb; rename s into sb end. left. split; [oks_tac|]. bring Hb p. pose proof (has_nz _ _ _ _ _ _ Hb) as NZ0. bring Hb codes. bring Hb cbv. bring Hb d. exists d, cbv, codes, p, l, sb. split; [reflexivity|]. split; [exact Hb|]. split; [auto|]. split; [auto|]. nlia.
    + st_rl G. right. exists (n + i)%nat. eexists. split; [nlia|]. split; [split; [oks_tac|al_bad]|]. assert (io_err n err (n + i) (e_al v (m_n s + (n + i))%nat) = ERROR_GENERAL_OUT_OF_MEMORY) as -> by (unfold io_err; destruct (Nat.ltb_spec (n + i) n); [nlia|reflexivity]). split; [reflexivity|]. split; [discriminate|]. split; [eassumption|nlia].
  - right. exists i. eexists. split; [nlia|]. split; [auto|]. assert (io_err n err i (e_al v (m_n s + i)%nat) = err i (e_al v (m_n s + i)%nat)) as -> by (unfold io_err; destruct (Nat.ltb_spec i n); [reflexivity|nlia]). split; [reflexivity|]. split; [auto|]. split; [eassumption|nlia].
Qed.
Definition io_out (v : menv) (n : nat) (err : nat -> Z -> Z) (p id : Z) (l ids : list Z) (s : ms) (o : option (Z * ms)) : Prop :=
  (oks v (m_n s) (n + 9) /\ exists s' l', o = Some (STATUS_SUCCESS, s') /\ hwf (m_h s') /\ scheduler (m_h s') p l' (id :: ids) /\ becomes (m_h s) (m_h s') l l' /\ length l' = (length l + n + 7)%nat) \/
  (exists i s', (i < n + 4)%nat /\ fails v (m_n s) i /\ o = Some (io_disc_err n err i (e_al v (m_n s + i)%nat), s') /\ io_disc_err n err i (e_al v (m_n s + i)%nat) <> STATUS_SUCCESS /\ hwf (m_h s') /\ unchanged (m_h s) (m_h s')) \/
  (exists i s', (n + 4 <= i < n + 6)%nat /\ fails v (m_n s) i /\ o = Some (e_al v (m_n s + i)%nat, s') /\ release v p s' = None) \/
  (exists i s' l', (n + 6 <= i < n + 9)%nat /\ fails v (m_n s) i /\ o = Some (ERROR_GENERAL_OUT_OF_MEMORY, s') /\ hwf (m_h s') /\ scheduler (m_h s') p l' (id :: ids) /\ no_idle (m_h s') p /\ becomes (m_h s) (m_h s') l l').
Lemma st_io_disc : forall v mk n err s p l ids id, good v -> (n <= 25)%nat -> builds v n err (mk v) -> hwf (m_h s) -> scheduler (m_h s) p l ids -> no_idle (m_h s) p -> ~ In id ids -> (length l <= e_fuel v)%nat -> io_out v n err p id l ids s (io_discipline v mk p id s).
Proof.
  intros v mk n err s p l ids id G NN B W SC (m' & ctx' & f' & t' & rq' & cb'' & cx'' & ds' & VI) NI N. destruct (sched_split _ _ _ _ W SC) as (m & ctx & f & t & rq & cb & cx & idle & ds & lm & lf & lq & ols & dols & V & R & E1 & E2 & HA & P).
  assert (idle = 0) as -> by (destruct V as (V1 & V2 & V3); destruct VI as (W1 & W2 & W3); rewrite V1 in W1; inversion W1; subst; rewrite V2 in W2; inversion W2; auto). clear VI m' ctx' f' t' rq' cb'' cx'' ds'.
  change (map fst ols = []) in E1. apply ols_nil in E1. subst ols.
  pose proof (hide _ _ _ _ HA) as H0. set (F := aside (around (m_h s) l) (m_h s) (feet (others m f rq lm lf lq [] dols))) in *. pose proof H0 as H.
  assert (PTS : Forall is_pt [Pt p (BSched m ctx true); Pt ctx (BCtx f t rq cb cx 0 p); Pt t (BTree ds); Pt cb BRaw; Pt cx BRaw]) by (repeat constructor).
  match type of H0 with has _ ?cs _ => set (c0 := cs) in H0 end.
  unfold io_discipline. destruct (st_io v mk n err id F _ _ G ltac:(nlia) B H) as [(Kc & d & cbv & codes & c & lc & sc & Ec & Hc & Lc & Zc & Mc)|(i & sc & Ic & Kc & Ec & Xc & Hc & Mc)]; rewrite (bind_some _ _ _ _ _ _ _ Ec); clear Ec H.
  2: { norm. is_bad Xc. norm. right. left. exists i, sc. split; [nlia|]. split; [auto|]. assert (io_disc_err n err i (e_al v (m_n s + i)%nat) = io_err n err i (e_al v (m_n s + i)%nat)) as -> by (unfold io_disc_err; destruct (Nat.eqb_spec i (n + 3)); [nlia|reflexivity]). split; [reflexivity|]. split; [auto|]. split; [eapply has_wf; eassumption|]. eapply same_pts; eauto. }
  norm. match goal with |- context [mbind (disc_add v p d) ?g ?s] => match goal with H : has _ _ s |- _ => bring H cx; bring H cb; bring H d; bring H t; bring H ctx; bring H p;
    assert (FN : find_disc ds id s = Some (0, s)) by (eapply find_none; [eapply reg_later; [exact HA|exact H|exact E2|exact R]|exact NI]);
    destruct (st_add v p m ctx f t rq cb cx 0 p d _ _ _ _ ds _ _ _ G H FN) as [(Ka & nd & cb' & cx' & sa & Ea & Ha & Ma)|[(Ka & sa & Ea & Ha & Ma)|[(Ka & nd & sa & Ea & Ha & Ma)|(Ka & nd & cb' & sa & Ea & Ha & Ma)]]]; rewrite (bind_some _ _ _ g _ _ _ Ea); clear H FN end end.
  - norm. bring Ha c. bring Ha codes. bring Ha cbv. assert (GD : hget (m_h sa) d = Some (BDisc id cbv codes c true)) by (apply (has_get _ _ _ _ _ Ha); cbn; tauto). rename Ha into H. st_bd (builds_fiber v G).
    + st_ld. st_ld. st_st. match goal with H : has F _ ?s |- context [mret _ ?s] => rename H into Hb; rename s into se end.
      assert (GD' : hget (m_h se) d = Some (BDisc id cbv codes c true)) by (apply (has_get _ _ _ _ _ Hb); cbn; tauto).
      bring Hb p0. pose proof (has_nz _ _ _ _ _ _ Hb) as NZ0. bring Hb c. bring Hb codes. bring Hb cbv. fdo Hb KRes d (BDisc id cbv codes c true) [((KRaw, cbv), [cbv]); ((KRaw, codes), [codes]); ((KRes, c), lc)].
      bring Hb cx'. bring Hb cb'. bring Hb d. bring Hb t. bring Hb ctx. bring Hb p. bring Hb nd.
      destruct (close_new s p l ids m ctx f t rq cb cx 0 ds lm lf lq [] dols se nd d (d :: cbv :: codes :: lc ++ []) cb' cx' p0 [((KRes, p0), l0)] id cbv codes c true R) as (l' & C1 & C2 & C3 & C4); [cbn [app map fst]; rewrite some_nz by auto; reflexivity|exact E2|exact HA|exact P|exact Hb|exact GD'|].
      left. split; [oks_tac|]. exists se, l'. split; [reflexivity|]. split; [auto|]. split; [auto|]. split; [auto|]. rewrite C4. cbn [length map concat snd app]. rewrite !app_nil_r. nlia.
    + match goal with H : has F _ ?s |- context [mret _ ?s] => rename H into Hb; rename s into se end. assert (GD' : hget (m_h se) d = Some (BDisc id cbv codes c true)) by (apply (has_get _ _ _ _ _ Hb); cbn; tauto).
      assert (VE : view (m_h se) p m ctx f t rq cb' cx' 0 ((nd, d) :: ds)) by (split; [|split]; apply (has_get _ _ _ _ _ Hb); cbn; tauto).
      fdo Hb KRes d (BDisc id cbv codes c true) [((KRaw, cbv), [cbv]); ((KRaw, codes), [codes]); ((KRes, c), lc)].
      bring Hb cx'. bring Hb cb'. bring Hb d. bring Hb t. bring Hb ctx. bring Hb p. bring Hb nd.
      destruct (close_new s p l ids m ctx f t rq cb cx 0 ds lm lf lq [] dols se nd d (d :: cbv :: codes :: lc ++ []) cb' cx' 0 [] id cbv codes c true R) as (l' & C1 & C2 & C3 & C4); [reflexivity|exact E2|exact HA|exact P|exact Hb|exact GD'|].
      right. right. right. exists (n + 6 + i)%nat, se, l'. split; [nlia|]. split; [split; [oks_tac|al_bad]|]. split; [reflexivity|]. split; [auto|]. split; [auto|]. split; [|auto]. exists m, ctx, f, t, rq, cb', cx'. eexists. exact VE.
  - pose proof (proj2 Ka) as Kb. rewrite Nat.add_0_r in Kb. norm. is_bad Kb. norm. bring Ha c. bring Ha codes. bring Ha cbv. fdo Ha KRes d (BDisc id cbv codes c false) [((KRaw, cbv), [cbv]); ((KRaw, codes), [codes]); ((KRes, c), lc)]. rewrite app_nil_r in Ha. st_rl G.
    right. left. exists (n + 3)%nat. eexists. split; [nlia|]. split; [split; [oks_tac|al_bad]|]. assert (io_disc_err n err (n + 3) (e_al v (m_n s + (n + 3))%nat) = e_al v (m_n sc)) as -> by (unfold io_disc_err; rewrite Nat.eqb_refl; f_equal; nlia). split; [reflexivity|]. split; [auto|]. split; [eapply has_wf; eassumption|]. eapply same_pts; eauto.
  - pose proof (proj2 Ka) as Kb. norm. is_bad Kb. norm. bring Ha c. bring Ha codes. bring Ha cbv. fdo Ha KRes d (BDisc id cbv codes c false) [((KRaw, cbv), [cbv]); ((KRaw, codes), [codes]); ((KRes, c), lc)]. rewrite app_nil_r in Ha. bring Ha d. pose proof (has_apart _ _ _ _ _ _ Ha) as [A1 A2]. st_rl G.
    match goal with H : has F _ ?s |- context [mret _ ?s] => rename H into Hb; rename s into sb end. right. right. left. exists (n + 4)%nat, sb. split; [nlia|]. split; [split; [oks_tac|al_bad]|]. split; [unfold mret; do 3 f_equal; nlia|].
    assert (hget (m_h sb) d = None) as ND by (rewrite (has_out _ _ _ Hb); [exact A1|]; intros Q; apply A2; cbn [feet flat_map foot app] in *; repeat (rewrite ?in_app_iff in *; cbn [In app] in *); tauto).
    bring Hb cx. bring Hb cb. bring Hb t. bring Hb ctx. bring Hb p. bring Hb nd. eapply dangling; eauto.
  - pose proof (proj2 Ka) as Kb. norm. is_bad Kb. norm. bring Ha c. bring Ha codes. bring Ha cbv. fdo Ha KRes d (BDisc id cbv codes c false) [((KRaw, cbv), [cbv]); ((KRaw, codes), [codes]); ((KRes, c), lc)]. rewrite app_nil_r in Ha. bring Ha d. pose proof (has_apart _ _ _ _ _ _ Ha) as [A1 A2]. st_rl G.
    match goal with H : has F _ ?s |- context [mret _ ?s] => rename H into Hb; rename s into sb end. right. right. left. exists (n + 5)%nat, sb. split; [nlia|]. split; [split; [oks_tac|al_bad]|]. split; [unfold mret; do 3 f_equal; nlia|].
    assert (hget (m_h sb) d = None) as ND by (rewrite (has_out _ _ _ Hb); [exact A1|]; intros Q; apply A2; cbn [feet flat_map foot app] in *; repeat (rewrite ?in_app_iff in *; cbn [In app] in *); tauto).
    bring Hb cx. bring Hb cb'. bring Hb t. bring Hb ctx. bring Hb p. bring Hb nd. eapply dangling; eauto.
Qed.
