(** Reasoning about separate objects in the heap of OwnModel. *)
From Coq Require Import Permutation.
From Verif Require Import Base Status MemModel MemProofs Heap OwnModel OwnSpec OwnProofs.

Inductive chunk := Pt (p : Z) (b : blk) | Ob (k : kind) (p : Z) (l : list Z).
Definition foot (c : chunk) : list Z := match c with Pt p _ => [p] | Ob _ _ l => l end.
Definition sat (h : heap blk) (c : chunk) : Prop := match c with Pt p b => hget h p = Some b | Ob k p l => owns h k p l end.
Definition feet (cs : list chunk) : list Z := flat_map foot cs.
(** The heap consists of [F] and of the separate [cs]. *)
Record has (F : Z -> option blk) (cs : list chunk) (s : ms) : Prop := Has {
  has_wf : hwf (m_h s);
  has_nodup : NoDup (feet cs);
  has_out : forall q, ~ In q (feet cs) -> hget (m_h s) q = F q;
  has_in : forall q, In q (feet cs) -> F q = None;
  has_sat : Forall (sat (m_h s)) cs }.

Lemma feet_perm : forall a b, Permutation a b -> Permutation (feet a) (feet b).
Proof. intros. apply Permutation_flat_map. auto. Qed.
Lemma has_perm : forall F a b s, has F a s -> Permutation a b -> has F b s.
Proof.
  intros F a b s [W N O I0 S0] P. pose proof (feet_perm _ _ P) as Q. constructor; auto.
  - eapply Permutation_NoDup; eauto.
  - intros q H. apply O. intros K. apply H. eapply Permutation_in; eauto.
  - intros q H. apply I0. eapply Permutation_in; [apply Permutation_sym|]; eauto.
  - eapply Permutation_Forall; eauto.
Qed.
Lemma lift : forall F a c b s, has F (a ++ c :: b) s -> has F (c :: a ++ b) s.
Proof. intros. eapply has_perm; eauto. apply Permutation_sym, Permutation_middle. Qed.
Lemma sat_frame : forall h h' c, sat h c -> (forall q, In q (foot c) -> hget h' q = hget h q) -> sat h' c.
Proof. intros h h' c S0 E. destruct c; cbn in *; [rewrite E; auto|eapply frame; eauto]. Qed.
Lemma in_feet : forall c cs q, In c cs -> In q (foot c) -> In q (feet cs).
Proof. intros. apply in_flat_map. eauto. Qed.
Lemma sats_frame : forall h h' cs, Forall (sat h) cs -> (forall q, In q (feet cs) -> hget h' q = hget h q) -> Forall (sat h') cs.
Proof. intros h h' cs S0 E. rewrite Forall_forall in *. intros c C. eapply sat_frame; [apply S0; auto|]. intros q Q. apply E. eapply in_feet; eauto. Qed.
Lemma sat_live : forall h c q, sat h c -> In q (foot c) -> hget h q <> None.
Proof. intros h c q S0 I0. destruct c; cbn in *; [destruct I0 as [->|[]]; congruence|eapply owns_live; eauto]. Qed.
Lemma feet_live : forall h cs q, Forall (sat h) cs -> In q (feet cs) -> hget h q <> None.
Proof. intros h cs q S0 I0. apply in_flat_map in I0 as (c & C & I0). rewrite Forall_forall in S0. eapply sat_live; [apply S0; exact C|auto]. Qed.
Lemma fresh_F : forall F cs s q, has F cs s -> hget (m_h s) q = None -> F q = None /\ ~ In q (feet cs).
Proof. intros F cs s q H N. assert (~ In q (feet cs)) as NI by (intros K; apply (feet_live _ _ _ (has_sat _ _ _ H) K); auto). split; [|auto]. rewrite <- (has_out _ _ _ H) by auto. auto. Qed.
Lemma nodup_app : forall (l m : list Z), NoDup (l ++ m) <-> NoDup l /\ NoDup m /\ forall q, In q l -> ~ In q m.
Proof.
  intros l m. induction l as [|x l IH]; cbn [app]; split.
  - intros N. split; [constructor|]. split; [auto|]. intros q [].
  - tauto.
  - intros N. inversion N as [|? ? X Y]; subst. apply IH in Y as (I1 & I2 & I3). rewrite in_app_iff in X. split; [constructor; tauto|]. split; [auto|]. intros q [<-|Q]; auto.
  - intros (N1 & N2 & N3). inversion N1 as [|? ? X Y]; subst. constructor; [rewrite in_app_iff; intros [K|K]; [auto|apply (N3 x); auto with datatypes]|]. apply IH. split; [auto|]. split; [auto|]. intros q Q. apply N3. right. auto.
Qed.
(** New blocks. *)
Lemma has_new : forall F cs s s' c, has F cs s -> hwf (m_h s') -> NoDup (foot c) -> sat (m_h s') c -> adds (m_h s) (m_h s') (foot c) -> has F (c :: cs) s'.
Proof.
  intros F cs s s' c H W N S0 A. assert (NEW : forall q, In q (foot c) -> hget (m_h s) q = None) by (intros q Q; specialize (A q); destruct (in_dec _ _ _); tauto). assert (OLD : forall q, ~ In q (foot c) -> hget (m_h s') q = hget (m_h s) q) by (intros q Q; specialize (A q); destruct (in_dec _ _ _); tauto).
  constructor; auto; cbn [feet flat_map]; fold (feet cs).
  - apply nodup_app. split; [auto|]. split; [apply (has_nodup _ _ _ H)|]. intros q Q. apply (fresh_F _ _ _ _ H). auto.
  - intros q Q. rewrite in_app_iff in Q. rewrite OLD by tauto. apply (has_out _ _ _ H). tauto.
  - intros q Q. apply in_app_iff in Q as [Q|Q]; [apply (fresh_F _ _ _ _ H); auto|apply (has_in _ _ _ H); auto].
  - constructor; [auto|]. apply (sats_frame (m_h s)); [apply (has_sat _ _ _ H)|]. intros q Q. apply OLD. intros K. apply (fresh_F _ _ _ q H); auto.
Qed.
(** Blocks that are gone. *)
Lemma has_gone : forall F cs s s' c, has F (c :: cs) s -> hwf (m_h s') -> gone (m_h s) (m_h s') (foot c) -> has F cs s'.
Proof.
  intros F cs s s' c [W N O I0 S0] W' G. cbn [feet flat_map] in *. fold (feet cs) in *. apply nodup_app in N as (N1 & N2 & N3). inversion S0 as [|? ? S1 S2]; subst. constructor; auto.
  - intros q Q. destruct (in_dec Z.eq_dec q (foot c)) as [K|K].
    + rewrite (gone_in _ _ _ _ G K). symmetry. apply I0. apply in_app_iff. auto.
    + rewrite (gone_other _ _ _ _ G K). apply O. rewrite in_app_iff. tauto.
  - intros q Q. apply I0. apply in_app_iff. auto.
  - apply (sats_frame (m_h s)); [auto|]. intros q Q. apply (gone_other _ _ _ _ G). intros K. apply (N3 q); auto.
Qed.
(** The same blocks. *)
Lemma has_same : forall F cs s s', has F cs s -> hwf (m_h s') -> unchanged (m_h s) (m_h s') -> has F cs s'.
Proof. intros F cs s s' [W N O I0 S0] W' U. constructor; auto; [intros q Q; rewrite U; auto|]. apply (sats_frame (m_h s)); auto. Qed.

(** Structs and what they own. *)
Definition ob (o : kind * Z * list Z) : chunk := Ob (fst (fst o)) (snd (fst o)) (snd o).
Lemma feet_obs : forall ols, feet (map ob ols) = concat (map snd ols).
Proof. induction ols as [|o ols IH]; [reflexivity|]. cbn. f_equal. auto. Qed.
Lemma sat_obs : forall h ols, Forall (sat h) (map ob ols) <-> Forall2 (fun x l => owns h (fst x) (snd x) l) (map fst ols) (map snd ols).
Proof. intros h ols. induction ols as [|o ols IH]; cbn [map]; split; intros H; try constructor; inversion H; subst; auto; apply IH; auto. Qed.
Lemma feet_app : forall a b, feet (a ++ b) = feet a ++ feet b.
Proof. intros. unfold feet. rewrite flat_map_app. auto. Qed.
Lemma has_fold : forall k p b ols F cs s, map fst ols = holds k b -> fits k b = true -> has F (Pt p b :: map ob ols ++ cs) s -> has F (Ob k p (p :: concat (map snd ols)) :: cs) s.
Proof.
  intros k p b ols F cs s E FI [W N O I0 S0]. assert (FE : feet (Pt p b :: map ob ols ++ cs) = feet (Ob k p (p :: concat (map snd ols)) :: cs)).
  { cbn [feet flat_map foot app]. fold (feet (map ob ols ++ cs)). fold (feet cs). rewrite feet_app, feet_obs. auto. }
  rewrite FE in *. constructor; auto. inversion S0 as [|? ? S1 S2]; subst. apply Forall_app in S2 as [S2 S3]. constructor; [|auto]. cbn [sat] in *. econstructor; [exact S1|exact FI|]. rewrite <- E. apply sat_obs. auto.
Qed.
Lemma obs_of : forall h hs ls, Forall2 (fun x l => owns h (fst x) (snd x) l) hs ls -> exists ols, map fst ols = hs /\ map snd ols = ls.
Proof. intros h hs ls H. induction H as [|x l hs ls _ _ (o & <- & <-)]; [exists []; auto|]. exists ((x, l) :: o). auto. Qed.
Lemma has_unfold : forall F k p l cs s, has F (Ob k p l :: cs) s -> exists b ols, fits k b = true /\ map fst ols = holds k b /\ l = p :: concat (map snd ols) /\ has F (Pt p b :: map ob ols ++ cs) s.
Proof.
  intros F k p l cs s [W N O I0 S0]. inversion S0 as [|? ? S1 S2]; subst. cbn [sat] in S1. inversion S1 as [k0 p0 b ls G FI FA]; subst. destruct (obs_of _ _ _ FA) as (ols & E1 & E2). subst ls. exists b, ols. split; [auto|]. split; [auto|]. split; [auto|].
  assert (FE : feet (Pt p b :: map ob ols ++ cs) = feet (Ob k p (p :: concat (map snd ols)) :: cs)).
  { cbn [feet flat_map foot app]. fold (feet (map ob ols ++ cs)). fold (feet cs). rewrite feet_app, feet_obs. auto. }
  rewrite <- FE in *. constructor; auto. constructor; [exact G|]. apply Forall_app. split; [apply sat_obs; rewrite E1; auto|auto].
Qed.
Lemma has_raw : forall F p cs s, has F (Pt p BRaw :: cs) s -> has F (Ob KRaw p [p] :: cs) s.
Proof. intros. apply (has_fold KRaw p BRaw []); auto. Qed.

(** Steps. *)
Lemma bind_some : forall A B (f : mem A) (g : A -> mem B) s a s1, f s = Some (a, s1) -> mbind f g s = g a s1.
Proof. intros A B f g s a s1 E. unfold mbind. rewrite E. reflexivity. Qed.
Lemma bind_none : forall A B (f : mem A) (g : A -> mem B) s, f s = None -> mbind f g s = None.
Proof. intros A B f g s E. unfold mbind. rewrite E. reflexivity. Qed.
Lemma st_alloc : forall v b F cs s, good v -> has F cs s ->
  (e_al v (m_n s) = STATUS_SUCCESS /\ exists p s', alloc v b s = Some ((STATUS_SUCCESS, p), s') /\ has F (Pt p b :: cs) s' /\ m_n s' = S (m_n s) /\ p <> 0 /\ hget (m_h s) p = None) \/
  (e_al v (m_n s) <> STATUS_SUCCESS /\ exists s', alloc v b s = Some ((e_al v (m_n s), 0), s') /\ has F cs s' /\ m_n s' = S (m_n s)).
Proof.
  intros v b F cs s [G _] H. unfold alloc. destruct (Z.eq_dec (e_al v (m_n s)) STATUS_SUCCESS) as [E|E]; [left|right].
  - rewrite E. change (ok STATUS_SUCCESS) with true. cbv iota zeta. split; [auto|]. destruct (pick_fresh (e_pick v) (m_h s) G) as [P1 P2]. eexists _, _. split; [reflexivity|]. split; [|split; [reflexivity|auto]].
    eapply has_new; [exact H|apply hadd_wf; auto; apply (has_wf _ _ _ H)|repeat constructor; auto| |]; cbn [m_h foot sat].
    + apply hget_hadd_same.
    + intros q. destruct (in_dec _ _ _) as [[<-|[]]|I0]; [split; [auto|rewrite hget_hadd_same; discriminate]|]. apply hget_hadd_other. intros ->. apply I0. left. auto.
  - assert (ok (e_al v (m_n s)) = false) as -> by (apply ok_false; auto). split; [auto|]. eexists. split; [reflexivity|]. split; [|reflexivity]. eapply has_same; [exact H|apply (has_wf _ _ _ H)|]. intros q. reflexivity.
Qed.
Lemma st_load : forall p b F cs s, has F (Pt p b :: cs) s -> load p s = Some (b, s).
Proof. intros p b F cs s H. unfold load. pose proof (has_sat _ _ _ H) as X. inversion X; subst. cbn [sat] in *. rewrite H2. reflexivity. Qed.
Lemma st_store : forall p b b' F cs s, has F (Pt p b :: cs) s -> exists s', store p b' s = Some (tt, s') /\ has F (Pt p b' :: cs) s' /\ m_n s' = m_n s.
Proof.
  intros p b b' F cs s [W N O I0 S0]. inversion S0 as [|? ? S1 S2]; subst. cbn [sat] in S1. unfold store. rewrite S1. eexists. split; [reflexivity|]. split; [|reflexivity]. cbn [feet flat_map foot app] in *. fold (feet cs) in *. constructor; cbn [m_h]; auto.
  - apply hset_wf. auto.
  - intros q Q. rewrite hget_hset_other; [apply O; auto|]. intros ->. apply Q. left. auto.
  - constructor; [cbn; eapply hget_hset_same; eauto|]. apply (sats_frame (m_h s)); [auto|]. intros q Q. apply hget_hset_other. intros ->. inversion N; auto.
Qed.
Lemma st_free : forall p b F cs s, has F (Pt p b :: cs) s -> exists s', free p s = Some (tt, s') /\ has F cs s' /\ m_n s' = m_n s.
Proof.
  intros p b F cs s H. pose proof (has_sat _ _ _ H) as X. inversion X as [|? ? S1 S2]; subst. cbn [sat] in S1. unfold free. rewrite S1. eexists. split; [reflexivity|]. split; [|reflexivity]. eapply has_gone; [exact H|apply hdel_wf, (has_wf _ _ _ H)|]. apply gone_free. apply (has_wf _ _ _ H).
Qed.
Lemma st_release : forall v p l F cs s, has F (Ob KRes p l :: cs) s -> (length l <= e_fuel v)%nat -> exists s', release v p s = Some (STATUS_SUCCESS, s') /\ has F cs s' /\ m_n s' = m_n s.
Proof.
  intros v p l F cs s H N. pose proof (has_sat _ _ _ H) as X. inversion X as [|? ? S1 S2]; subst. cbn [sat] in S1. pose proof (has_nodup _ _ _ H) as ND. cbn [feet flat_map foot] in ND. apply nodup_app in ND as (ND & _).
  destruct (release_whole v s p l) as (h' & E & W & G); [apply (has_wf _ _ _ H)|split; auto|auto|]. eexists. split; [exact E|]. split; [|reflexivity]. eapply has_gone; [exact H|auto|auto].
Qed.
Lemma has_start : forall s, hwf (m_h s) -> has (hget (m_h s)) [] s.
Proof. intros s W. constructor; auto; [constructor|intros q []]. Qed.
Lemma has_unchanged : forall F s, has F [] s -> forall q, hget (m_h s) q = F q.
Proof. intros F s H q. apply (has_out _ _ _ H). intros []. Qed.
Lemma has_adds : forall h k p l s, has (hget h) [Ob k p l] s -> whole (m_h s) k p l /\ adds h (m_h s) l.
Proof.
  intros h k p l s [W N O I0 S0]. cbn [feet flat_map foot] in *. rewrite app_nil_r in *. inversion S0 as [|? ? S1 S2]; subst. split; [split; auto|]. intros q. destruct (in_dec _ _ _) as [K|K]; [split; [apply I0; auto|eapply owns_live; eauto]|]. apply O. auto.
Qed.
Lemma st_builds : forall v n err f F cs s, builds v n err f -> has F cs s ->
  (oks v (m_n s) n /\ exists p l s', f s = Some ((STATUS_SUCCESS, p), s') /\ has F (Ob KRes p l :: cs) s' /\ length l = n /\ m_n s' = (m_n s + n)%nat) \/
  (exists i s', (i < n)%nat /\ fails v (m_n s) i /\ err i (e_al v (m_n s + i)%nat) <> STATUS_SUCCESS /\ f s = Some ((err i (e_al v (m_n s + i)%nat), 0), s') /\ has F cs s' /\ m_n s' = S (m_n s + i)).
Proof.
  intros v n err f F cs s B H. destruct (B s (has_wf _ _ _ H)) as (e & p & s' & E & W & [(K & -> & M & l & [O ND] & L & A)|(i & I1 & I2 & -> & I3 & -> & I4 & I5)]); [left|right].
  - split; [auto|]. exists p, l, s'. split; [auto|]. split; [|auto]. eapply has_new; [exact H|auto..].
  - exists i, s'. split; [auto|]. split; [auto|]. split; [auto|]. split; [auto|]. split; [|auto]. eapply has_same; eauto.
Qed.
