From Coq Require Import Permutation.
From Verif Require Import Base Status MemModel MemProofs Heap OwnModel OwnSpec.

Lemma in_concat_of : forall A (l : list A) ls q, In l ls -> In q l -> In q (concat ls).
Proof. intros. apply in_concat. eauto. Qed.
Lemma len_concat : forall A (l : list A) ls, In l ls -> (length l <= length (concat ls))%nat.
Proof. intros A l ls H. induction ls as [|x ls IH]; [destruct H|]. cbn [concat]. rewrite app_length. destruct H as [->|H]; [lia|]. apply IH in H. lia. Qed.
Lemma forall2_with : forall A B (R Q : A -> B -> Prop) l m, Forall2 R l m -> (forall a b, In a l -> In b m -> R a b -> Q a b) -> Forall2 Q l m.
Proof. intros A B R Q l m H. induction H; constructor; auto with datatypes. Qed.

Lemma owns_frame : forall n h h' k p l, (length l <= n)%nat -> owns h k p l -> (forall q, In q l -> hget h' q = hget h q) -> owns h' k p l.
Proof.
  induction n as [|n IH]; intros h h' k p l N O E; inversion O as [k0 p0 b ls G F FA]; subst; cbn [length] in N; [lia|].
  econstructor; [rewrite E by (left; auto); exact G|exact F|]. apply (forall2_with _ _ _ _ _ _ FA). intros x l _ I0 O1. apply (IH h); auto.
  - pose proof (len_concat _ _ _ I0). lia.
  - intros q Q. apply E. right. eapply in_concat_of; eauto.
Qed.
Lemma frame : forall h h' k p l, owns h k p l -> (forall q, In q l -> hget h' q = hget h q) -> owns h' k p l.
Proof. intros. eapply owns_frame; eauto. Qed.
Lemma owns_live : forall h k p l q, owns h k p l -> In q l -> hget h q <> None.
Proof.
  intros h k p l. remember (length l) as n eqn:N. assert (length l <= n)%nat as L by lia. clear N. revert k p l L. induction n as [|n IH]; intros k p l L q O I0; inversion O as [k0 p0 b ls G F FA]; subst; cbn [length] in L; [lia|].
  destruct I0 as [->|I0]; [congruence|]. apply in_concat in I0 as (l & I1 & I2). assert (exists k' p', owns h k' p' l) as (k' & p' & O').
  { clear - FA I1. induction FA; destruct I1; subst; eauto. }
  eapply IH; [|exact O'|exact I2]. pose proof (len_concat _ _ _ I1). lia.
Qed.
Lemma owns_raw : forall h p l, owns h KRaw p l -> l = [p] /\ hget h p = Some BRaw.
Proof. intros h p l O. inversion O as [k0 p0 b ls G F FA]; subst. destruct b; try discriminate F. inversion FA; subst. auto. Qed.
Lemma raw_owns : forall h p, hget h p = Some BRaw -> owns h KRaw p [p].
Proof. intros. change [p] with (p :: concat []). econstructor; eauto. constructor. Qed.

Lemma gone_perm : forall h h' l m, gone h h' l -> Permutation l m -> gone h h' m.
Proof. intros h h' l m G P q. rewrite G. destruct (in_dec Z.eq_dec q l) as [A|A], (in_dec Z.eq_dec q m) as [B|B]; auto; exfalso; [apply B; eapply Permutation_in; eauto|apply A; eapply Permutation_in; [apply Permutation_sym|]; eauto]. Qed.
Lemma gone_app : forall h h1 h2 l m, gone h h1 l -> gone h1 h2 m -> gone h h2 (l ++ m).
Proof.
  intros h h1 h2 l m A B q. rewrite B, A. destruct (in_dec Z.eq_dec q (l ++ m)) as [I0|I0], (in_dec Z.eq_dec q m) as [I1|I1], (in_dec Z.eq_dec q l) as [I2|I2]; auto; exfalso; rewrite in_app_iff in I0; tauto.
Qed.
Lemma gone_free : forall h p, hwf h -> gone h (hdel h p) [p].
Proof. intros h p W q. rewrite hget_hdel by auto. destruct (Z.eqb_spec q p) as [->|N]; destruct (in_dec _ _ _) as [I0|I0]; auto; exfalso; [apply I0; left; auto|destruct I0 as [I0|[]]; auto]. Qed.
Lemma gone_nil : forall h, gone h h [].
Proof. intros h q. destruct (in_dec _ _ _) as [[]|]; auto. Qed.
Lemma gone_other : forall h h' l q, gone h h' l -> ~ In q l -> hget h' q = hget h q.
Proof. intros h h' l q G N. rewrite G. destruct (in_dec _ _ _); auto; contradiction. Qed.
Lemma gone_in : forall h h' l q, gone h h' l -> In q l -> hget h' q = None.
Proof. intros h h' l q G N. rewrite G. destruct (in_dec _ _ _); auto; contradiction. Qed.

(** Releases. *)
Definition act_own (n : nat) (h : heap blk) (a : act) (l : list Z) : Prop :=
  match a with Fr q => l = [q] /\ hget h q <> None | Rel q => owns h KRes q l /\ (length l < n)%nat | Note _ => False end.
Lemma act_own_frame : forall n h h' a l, act_own n h a l -> (forall q, In q l -> hget h' q = hget h q) -> act_own n h' a l.
Proof. intros n h h' a l A E. destruct a; cbn in *; auto; [split; [eapply frame; [apply A|]; auto|apply A]|]. destruct A as [-> A]. split; [auto|]. rewrite E by (left; auto). auto. Qed.
Definition releases (v : menv) (rel : Z -> mem Z) (n : nat) : Prop :=
  forall q l s, owns (m_h s) KRes q l -> NoDup l -> (length l < n)%nat -> hwf (m_h s) -> exists h', rel q s = Some (STATUS_SUCCESS, MS h' (m_n s)) /\ hwf h' /\ gone (m_h s) h' l.
Lemma run_acts_ok : forall v rel n l ls s, releases v rel n -> Forall2 (act_own n (m_h s)) l ls -> NoDup (concat ls) -> hwf (m_h s) ->
  exists h', run_acts v rel l s = Some (STATUS_SUCCESS, MS h' (m_n s)) /\ hwf h' /\ gone (m_h s) h' (concat ls).
Proof.
  intros v rel n l. induction l as [|a l IH]; intros ls s R F ND W; inversion F as [|? l1 ? ls1 A F1]; subst.
  - exists (m_h s). destruct s. cbn. split; [reflexivity|]. split; [auto|]. apply gone_nil.
  - cbn [concat] in *. assert (NoDup l1 /\ NoDup (concat ls1) /\ forall q, In q l1 -> ~ In q (concat ls1)) as (N1 & N2 & N3).
    { clear - ND. induction l1 as [|x l1 IH]; cbn [app] in ND; [repeat split; auto; constructor|]. inversion ND as [|? ? X Y]; subst. destruct (IH Y) as (I1 & I2 & I3). rewrite in_app_iff in X. repeat split; auto; [constructor; tauto|]. intros q [<-|Q]; auto. }
    assert (ST : exists h1, (match a with Rel p => rel p | Fr p => mbind (free p) (fun _ => mret STATUS_SUCCESS) | Note ctx => note v ctx end) s = Some (STATUS_SUCCESS, MS h1 (m_n s)) /\ hwf h1 /\ gone (m_h s) h1 l1).
    { destruct a as [p|p|c]; cbn [act_own] in A; [apply R; tauto| |destruct A]. destruct A as [-> A]. exists (hdel (m_h s) p). unfold mbind, free. destruct (hget (m_h s) p); [|congruence]. split; [reflexivity|]. split; [apply hdel_wf; auto|]. apply gone_free. auto. }
    destruct ST as (h1 & E1 & W1 & G1). destruct (IH ls1 (MS h1 (m_n s))) as (h2 & E2 & W2 & G2); auto.
    { cbn [m_h]. apply (forall2_with _ _ _ _ _ _ F1). intros a' l' _ I0 AO. eapply act_own_frame; [exact AO|]. intros q Q. apply (gone_other _ _ _ _ G1). intros K. apply (N3 _ K). eapply in_concat_of; eauto. }
    exists h2. cbn [run_acts]. unfold mbind at 1. rewrite E1. cbn [m_n m_h] in *. unfold mbind. rewrite E2. cbn. split; [reflexivity|]. split; [auto|]. eapply gone_app; eauto.
Qed.

(** What the releases of the structs do, against what they own. *)
Definition piece (n : nat) (h : heap blk) (x : kind * Z) (l : list Z) : Prop := owns h (fst x) (snd x) l /\ (length l < n)%nat.
Definition acts_for (n : nat) (h : heap blk) (as_ : list act) (l : list Z) : Prop := exists ls, Forall2 (act_own n h) as_ ls /\ Permutation (concat ls) l.
Lemma acts_nil : forall n h, acts_for n h [] [].
Proof. exists []. split; constructor. Qed.
Lemma acts_app : forall n h a b l m, acts_for n h a l -> acts_for n h b m -> acts_for n h (a ++ b) (l ++ m).
Proof. intros n h a b l m (x & A1 & A2) (y & B1 & B2). exists (x ++ y). split; [apply Forall2_app; auto|]. rewrite concat_app. apply Permutation_app; auto. Qed.
Lemma acts_perm : forall n h a l m, acts_for n h a l -> Permutation l m -> acts_for n h a m.
Proof. intros n h a l m (x & A1 & A2) P. exists x. split; [auto|]. rewrite A2. auto. Qed.
Lemma acts_fr : forall n h q, hget h q <> None -> acts_for n h [Fr q] [q].
Proof. intros. exists [[q]]. split; [repeat constructor; auto|auto]. Qed.
Lemma acts_rel : forall n h q l, piece n h (KRes, q) l -> acts_for n h [Rel q] l.
Proof. intros n h q l P. exists [l]. split; [constructor; [exact P|constructor]|]. cbn. rewrite app_nil_r. auto. Qed.
Lemma acts_raw : forall n h q l, piece n h (KRaw, q) l -> acts_for n h [Fr q] l.
Proof. intros n h q l [P _]. apply owns_raw in P as [-> P]. apply acts_fr. congruence. Qed.
Lemma acts_opt : forall n h q ls, Forall2 (piece n h) (some KRes q) ls -> acts_for n h (opt Rel q) (concat ls).
Proof.
  intros n h q ls F. unfold some, opt in *. destruct (q =? 0).
  - inversion F; subst. apply acts_nil.
  - inversion F as [|? l ? ls1 P F1]; subst. inversion F1; subst. cbn [concat]. rewrite app_nil_r. apply acts_rel. auto.
Qed.
Lemma acts_nodes : forall n h l ls, Forall2 (piece n h) (flat_map (fun x : Z * Z => [(KRaw, fst x); (KRes, snd x)]) l) ls -> acts_for n h (flat_map (fun x => [Rel (snd x); Fr (fst x)]) l) (concat ls).
Proof.
  intros n h l. induction l as [|x l IH]; intros ls F; cbn [flat_map app] in *; [inversion F; subst; apply acts_nil|].
  inversion F as [|? l1 ? ls1 P1 F1]; subst. inversion F1 as [|? l2 ? ls2 P2 F2]; subst. cbn [concat]. rewrite app_assoc.
  change (Rel (snd x) :: Fr (fst x) :: flat_map (fun x => [Rel (snd x); Fr (fst x)]) l) with ([Rel (snd x); Fr (fst x)] ++ flat_map (fun x => [Rel (snd x); Fr (fst x)]) l).
  apply acts_app; [|apply IH; auto]. eapply acts_perm; [apply (acts_app _ _ [Rel (snd x)] [Fr (fst x)])|]; [apply acts_rel; exact P2|apply acts_raw; exact P1|]. apply Permutation_app_comm.
Qed.
Lemma acts_lent : forall n h l ls, Forall2 (piece n h) (flat_map (fun x : Z * Z => (KRaw, fst x) :: []) l) ls -> acts_for n h (map (fun x => Fr (fst x)) l) (concat ls).
Proof.
  intros n h l. induction l as [|x l IH]; intros ls F; cbn [flat_map app map] in *; [inversion F; subst; apply acts_nil|].
  inversion F as [|? l1 ? ls1 P1 F1]; subst. cbn [concat]. change (Fr (fst x) :: map (fun x => Fr (fst x)) l) with ([Fr (fst x)] ++ map (fun x => Fr (fst x)) l). apply acts_app; [apply acts_raw; auto|auto].
Qed.
Lemma pieces : forall n h l ls, Forall2 (fun x l => owns h (fst x) (snd x) l) l ls -> (length (concat ls) < n)%nat -> Forall2 (piece n h) l ls.
Proof. intros n h l ls F N. apply (forall2_with _ _ _ _ _ _ F). intros x m _ I0 O. split; [auto|]. pose proof (len_concat _ _ _ I0). lia. Qed.
Lemma acts_list : forall n h q l, piece n h (KList, q) l -> exists x ls, hget h q = Some (BSlist false x) /\ l = q :: concat ls /\ acts_for n h (map (fun x => Fr (fst x)) x) (concat ls).
Proof.
  intros n h q l [O N]. cbn [fst snd] in O. inversion O as [k0 p0 b ls G F FA]; subst. cbn [length] in N. apply (pieces n) in FA; [|lia]. destruct b as [| | | | |own l| | | | | | | | | | |]; try discriminate F. destruct own; [discriminate F|]. cbn [holds] in FA. exists l, ls. split; [auto|]. split; [auto|]. apply acts_lent. auto.
Qed.
Lemma acts_emptied : forall n h k q l, piece n h (k, q) l -> k = KList \/ k = KQueue -> exists e, emptied h q = Some e /\ acts_for n h e l.
Proof.
  intros n h k q l P [->| ->]; unfold emptied.
  - destruct (acts_list _ _ _ _ P) as (x & ls & G & -> & A). rewrite G. eexists. split; [reflexivity|]. eapply acts_perm; [eapply acts_app; [exact A|apply acts_fr; congruence]|]. rewrite Permutation_app_comm. auto.
  - destruct P as [O N]. cbn [fst snd] in O. inversion O as [k0 p0 b ls G F FA]; subst. rewrite G. cbn [length] in N. apply (pieces n) in FA; [|lia]. destruct b; try discriminate F. cbn [holds] in FA. inversion FA as [|? l1 ? ls1 P1 F1]; subst. inversion F1; subst. destruct (acts_list _ _ _ _ P1) as (x & ls & G1 & -> & A). rewrite G1.
    eexists. split; [reflexivity|]. cbn [concat]. rewrite app_nil_r. eapply acts_perm; [eapply acts_app; [exact A|]|].
    + change [Fr list; Fr q] with ([Fr list] ++ [Fr q]). apply acts_app; apply acts_fr; congruence.
    + rewrite Permutation_app_comm. cbn [app]. apply perm_swap.
Qed.

Ltac one F := let l := fresh "l" in let ls := fresh "ls" in let P := fresh "P" in let F' := fresh "F" in inversion F as [|? l ? ls P F']; subst; clear F; rename F' into F.
Ltac done_nil F := inversion F; subst; clear F.
(** What the struct owns, its own block last *)
Lemma rel_acts_ok : forall n h p b ls, hget h p = Some b -> fits KRes b = true -> Forall2 (piece n h) (holds KRes b) ls -> exists l, rel_acts h p b = Some l /\ acts_for n h l (p :: concat ls).
Proof.
  intros n h p b ls G F FA.
  assert (LAST : forall a m, acts_for n h a m -> acts_for n h (a ++ [Fr p]) (p :: m)).
  { intros a m A. eapply acts_perm; [eapply acts_app; [exact A|apply acts_fr; congruence]|]. rewrite Permutation_app_comm. auto. }
  destruct b; try discriminate F; cbn [rel_acts holds] in *.
  - done_nil FA. eexists. split; [reflexivity|]. apply (LAST []). apply acts_nil.
  - one FA. done_nil FA. eexists. split; [reflexivity|]. cbn [concat]. rewrite app_nil_r. apply (LAST [Fr region]). apply acts_raw. auto.
  - eexists. split; [reflexivity|]. apply LAST. apply acts_opt. auto.
  - eexists. split; [reflexivity|]. apply LAST. apply acts_nodes. auto.
  - eexists. split; [reflexivity|]. apply LAST. destruct own.
    + apply acts_nodes. auto.
    + cbn in F. destruct l; [|discriminate F]. done_nil FA. apply acts_nil.
  - one FA. done_nil FA. eexists. split; [reflexivity|]. cbn [concat]. rewrite app_nil_r. apply (LAST [Rel list]). apply acts_rel. auto.
  - cbn [app] in FA. one FA. one FA. eexists. split; [reflexivity|]. cbn [concat].
    change (opt Rel ctx ++ [Fr cbv; Fr codes; Fr p]) with (opt Rel ctx ++ ([Fr cbv] ++ [Fr codes]) ++ [Fr p]). rewrite app_assoc. apply LAST.
    eapply acts_perm; [apply acts_app; [apply acts_opt; exact FA|apply acts_app; apply acts_raw; eauto]|]. rewrite Permutation_app_comm, <- app_assoc. auto.
  - eexists. split; [reflexivity|]. apply LAST. apply acts_opt. auto.
  - one FA. done_nil FA. eexists. split; [reflexivity|]. cbn [concat]. rewrite app_nil_r. apply (LAST [Rel q]). apply acts_rel. auto.
  - one FA. done_nil FA. eexists. split; [reflexivity|]. cbn [concat]. rewrite app_nil_r. apply (LAST [Rel tree]). apply acts_rel. auto.
  - one FA. done_nil FA. destruct (acts_emptied _ _ _ _ _ P (or_introl eq_refl)) as (e & E & A). rewrite E. eexists. split; [reflexivity|]. cbn [concat]. rewrite app_nil_r. apply LAST. auto.
  - one FA. one FA. done_nil FA. eexists. split; [reflexivity|]. cbn [concat]. rewrite app_nil_r. apply (LAST ([Fr events] ++ [Fr fibers])). apply acts_app; apply acts_raw; auto.
  - one FA. done_nil FA. eexists. split; [reflexivity|]. cbn [concat]. rewrite app_nil_r. apply (LAST [Fr ep]). apply acts_raw. auto.
  - one FA. done_nil FA. eexists. split; [reflexivity|]. cbn [concat]. rewrite app_nil_r. apply (LAST [Rel child]). apply acts_rel. auto.
Qed.
Lemma release_ok : forall v fuel, releases v (release_at v fuel) (S fuel).
Proof.
  intros v. induction fuel as [|n IH]; intros q l s O ND N W; inversion O as [k0 p0 b ls G F FA]; subst; cbn [length] in N; [lia|].
  cbn [release_at]. rewrite G. apply (pieces (S n)) in FA; [|lia]. destruct (rel_acts_ok _ _ _ _ _ G F FA) as (a & E & ls' & A & P). rewrite E.
  destruct (run_acts_ok v _ _ _ _ s IH A) as (h' & R & W' & G'); auto.
  { eapply Permutation_NoDup; [apply Permutation_sym; exact P|auto]. }
  exists h'. split; [exact R|]. split; [auto|]. eapply gone_perm; eauto.
Qed.
(** resource_release of an object frees what the object owns and nothing else. *)
Theorem release_whole : forall v s p l, hwf (m_h s) -> whole (m_h s) KRes p l -> (length l <= e_fuel v)%nat ->
  exists h', release v p s = Some (STATUS_SUCCESS, MS h' (m_n s)) /\ hwf h' /\ gone (m_h s) h' l.
Proof. intros v s p l W [O ND] N. apply (release_ok v (e_fuel v)); auto. lia. Qed.
