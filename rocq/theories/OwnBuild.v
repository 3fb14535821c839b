(** The constructors of OwnModel. *)
From Coq Require Import Permutation.
From Verif Require Import Base Status MemModel MemProofs Heap OwnModel OwnSpec OwnProofs OwnSep.

Definition outcome (v : menv) (n : nat) (err : nat -> Z -> Z) (s : ms) (o : option (Z * Z * ms)) : Prop :=
  exists e p s', o = Some ((e, p), s') /\ hwf (m_h s') /\
    ((oks v (m_n s) n /\ e = STATUS_SUCCESS /\ m_n s' = (m_n s + n)%nat /\ exists l, whole (m_h s') KRes p l /\ length l = n /\ adds (m_h s) (m_h s') l) \/
     (exists i, (i < n)%nat /\ fails v (m_n s) i /\ e = err i (e_al v (m_n s + i)%nat) /\ e <> STATUS_SUCCESS /\ p = 0 /\ m_n s' = S (m_n s + i) /\ unchanged (m_h s) (m_h s'))).
Lemma end_ok : forall v n err s p l s', has (hget (m_h s)) [Ob KRes p l] s' -> length l = n -> m_n s' = (m_n s + n)%nat -> oks v (m_n s) n -> outcome v n err s (Some ((STATUS_SUCCESS, p), s')).
Proof. intros v n err s p l s' H L M K. destruct (has_adds _ _ _ _ _ H). exists STATUS_SUCCESS, p, s'. split; [auto|]. split; [apply (has_wf _ _ _ H)|]. left. split; [auto|]. split; [auto|]. split; [auto|]. exists l. auto. Qed.
Lemma end_err : forall v n err s i e s', has (hget (m_h s)) [] s' -> (i < n)%nat -> fails v (m_n s) i -> e = err i (e_al v (m_n s + i)%nat) -> e <> STATUS_SUCCESS -> m_n s' = S (m_n s + i) -> outcome v n err s (Some ((e, 0), s')).
Proof. intros v n err s i e s' H I0 K E N M. exists e, 0, s'. split; [auto|]. split; [apply (has_wf _ _ _ H)|]. right. exists i. split; [auto|]. split; [auto|]. split; [auto|]. split; [auto|]. split; [auto|]. split; [auto|]. exact (has_unchanged _ _ H). Qed.
Lemma oom_err : ERROR_GENERAL_OUT_OF_MEMORY <> STATUS_SUCCESS.
Proof. discriminate. Qed.

(** lia without the facts about integers *)
Ltac nlia := repeat match goal with N : @eq Z _ _ |- _ => clear N | N : ~ @eq Z _ _ |- _ => clear N | N : has _ _ _ |- _ => clear N end; lia.
Ltac norm := cbv beta iota; change (ok STATUS_SUCCESS) with true; change (ok ERROR_GENERAL_OUT_OF_MEMORY) with false; cbv iota; cbn [negb]; cbv iota.
Ltac bring H p := lazymatch type of H with has ?F ?cs ?s =>
  let rec go pre rest := lazymatch rest with
    | Pt p ?b :: ?r => apply (lift F pre (Pt p b) r s) in H; cbn [app] in H
    | Ob ?k p ?l :: ?r => apply (lift F pre (Ob k p l) r s) in H; cbn [app] in H
    | ?c :: ?r => let pre' := eval cbn [app] in (pre ++ [c]) in go pre' r
    end in go (@nil chunk) cs end.
Ltac is_bad K := let X := fresh in pose proof (proj2 (ok_false _) K) as X; rewrite ?X; clear X.
Ltac st_al G := lazymatch goal with |- context [mbind (alloc ?v ?b) ?g ?s] => match goal with H : has ?F ?cs s |- _ =>
  let K := fresh "K" in let p := fresh "p" in let s' := fresh "s" in let E := fresh in let H' := fresh "H" in let M := fresh "M" in let NZ := fresh "NZ" in let FR := fresh "FR" in
  destruct (st_alloc v b F cs s G H) as [(K & p & s' & E & H' & M & NZ & FR)|(K & s' & E & H' & M)]; rewrite (bind_some _ _ _ g _ _ _ E); clear E H; [norm|norm; is_bad K; norm] end end.
Ltac st_fr := lazymatch goal with |- context [mbind (free ?p) ?g ?s] => match goal with H : has ?F ?cs s |- _ =>
  let s' := fresh "s" in let E := fresh in let H' := fresh "H" in let M := fresh "M" in
  bring H p; destruct (st_free _ _ _ _ _ H) as (s' & E & H' & M); rewrite (bind_some _ _ _ g _ _ _ E); clear E H; norm end end.
Ltac st_st := lazymatch goal with |- context [mbind (store ?p ?b) ?g ?s] => match goal with H : has ?F ?cs s |- _ =>
  let s' := fresh "s" in let E := fresh in let H' := fresh "H" in let M := fresh "M" in
  bring H p; destruct (st_store p _ b _ _ _ H) as (s' & E & H' & M); rewrite (bind_some _ _ _ g _ _ _ E); clear E H; norm end end.
Ltac st_ld := lazymatch goal with |- context [mbind (load ?p) ?g ?s] => match goal with H : has ?F ?cs s |- _ =>
  bring H p; rewrite (bind_some _ _ _ g _ _ _ (st_load _ _ _ _ _ H)); norm end end.
Ltac st_rl G := lazymatch goal with |- context [mbind (release ?v ?p) ?g ?s] => match goal with H : has ?F ?cs s |- _ =>
  let s' := fresh "s" in let E := fresh in let H' := fresh "H" in let M := fresh "M" in
  bring H p; destruct (st_release v _ _ _ _ _ H) as (s' & E & H' & M); [pose proof (proj2 G); cbn [length concat map app snd] in *; nlia|]; rewrite (bind_some _ _ _ g _ _ _ E); clear E H; norm end end.
Ltac st_bd B := lazymatch type of B with builds ?v ?n ?err ?f => lazymatch goal with |- context [mbind f ?g ?s] => match goal with H : has ?F ?cs s |- _ =>
  let K := fresh "K" in let p := fresh "p" in let l := fresh "l" in let L := fresh "L" in let s' := fresh "s" in let E := fresh in let H' := fresh "H" in let M := fresh "M" in let i := fresh "i" in let I0 := fresh "I" in let X := fresh "X" in
  destruct (st_builds v n err f F cs s B H) as [(K & p & l & s' & E & H' & L & M)|(i & s' & I0 & K & X & E & H' & M)]; rewrite (bind_some _ _ _ g _ _ _ E); clear E H; [norm|norm; is_bad X; norm] end end end.
(** Which allocations were made *)
Ltac oks_tac := let i := fresh "i" in let R := fresh "R" in intros i R; try (exfalso; nlia);
  repeat match goal with
  | K : e_al _ ?k = STATUS_SUCCESS |- _ => destruct (Nat.eq_dec i k); [subst i; exact K|]; clear K; try (exfalso; nlia)
  | K : oks _ ?a ?n |- _ => destruct (le_lt_dec a i); [destruct (le_lt_dec (a + n) i); [|apply K; nlia]|]; clear K; try (exfalso; nlia)
  | K : fails _ ?a ?n |- _ => destruct (le_lt_dec a i); [destruct (le_lt_dec (a + n) i); [|apply (proj1 K); nlia]|]; clear K; try (exfalso; nlia)
  end.
Ltac rw H p := bring H p; apply has_raw in H.
Ltac fd H k p b ols := bring H p; apply (has_fold k p b ols) in H; [cbn [map concat app snd fst] in H|reflexivity|reflexivity].
Ltac the_has tac := lazymatch goal with |- outcome _ _ _ _ (mret _ ?s) => match goal with H : has _ _ s |- _ => tac H end | |- outcome _ _ _ _ (Some (_, ?s)) => match goal with H : has _ _ s |- _ => tac H end end.
Ltac Br p := the_has ltac:(fun H => bring H p).
Ltac Rw p := the_has ltac:(fun H => rw H p).
Ltac Fd k p b ols := the_has ltac:(fun H => fd H k p b ols).
Ltac al_bad := match goal with K : e_al _ ?k <> STATUS_SUCCESS |- e_al _ ?j <> STATUS_SUCCESS => replace j with k by nlia; exact K | K : fails _ ?a ?n |- e_al _ ?j <> STATUS_SUCCESS => replace j with (a + n)%nat by nlia; exact (proj2 K) end.
Ltac fin_ok := the_has ltac:(fun H => try unfold mret; eapply end_ok; [exact H|cbn [length concat map snd app]; rewrite ?app_length; cbn [length]; nlia|nlia|oks_tac]).
Ltac fin_err i := the_has ltac:(fun H => try unfold mret; eapply (end_err _ _ _ _ i); [exact H|nlia|split; [oks_tac|al_bad]|unfold oom, raw, raw_oom; cbv iota; first [reflexivity | f_equal; nlia]|unfold oom, raw, raw_oom; auto using oom_err|nlia]).
Ltac start v n err f s W H := change (outcome v n err s (f s)); pose proof (has_start s W) as H.
Ltac same_al := f_equal; nlia.


Lemma builds_slist : forall v own, good v -> builds v 1 raw (slist_create v own).
Proof.
  intros v own G s W. start v 1%nat raw (slist_create v own) s W H. unfold slist_create. destruct (st_alloc v (BSlist own []) _ _ _ G H) as [(K & p & s1 & E & H1 & M & _)|(K & s1 & E & H1 & M)]; rewrite E.
  - apply (has_fold KRes p (BSlist own []) []) in H1; [|reflexivity|destruct own; reflexivity]. fin_ok.
  - fin_err 0%nat.
Qed.
Lemma builds_rbtree : forall v, good v -> builds v 1 oom (rbtree_create v).
Proof.
  intros v G s W. start v 1%nat oom (rbtree_create v) s W H. unfold rbtree_create. st_al G.
  - Fd KRes p (BTree []) (@nil (kind * Z * list Z)). fin_ok.
  - fin_err 0%nat.
Qed.
Lemma builds_queue : forall v own, good v -> builds v 2 raw (queue_create v own).
Proof.
  intros v own G s W. start v 2%nat raw (queue_create v own) s W H. unfold queue_create.
  st_al G; [st_bd (builds_slist v own G); [st_st|st_fr]|].
  - Br p0. Fd KRes p (BQueue p0) [((KRes, p0), l)]. fin_ok.
  - destruct i; [|nlia]. fin_err 1%nat.
  - fin_err 0%nat.
Qed.
Lemma builds_stack : forall v, good v -> builds v 2 oom (stack_create v).
Proof.
  intros v G s W. start v 2%nat oom (stack_create v) s W H. unfold stack_create.
  st_al G; [st_al G; [st_st|st_fr]|].
  - Rw p0. Fd KRes p (BStack p0) [((KRaw, p0), [p0])]. fin_ok.
  - fin_err 1%nat.
  - fin_err 0%nat.
Qed.
Lemma some_nz : forall k p, p <> 0 -> some k p = [(k, p)].
Proof. intros k p N. unfold some. destruct (Z.eqb_spec p 0); [contradiction|auto]. Qed.
Lemma has_nz : forall F k p l cs s, has F (Ob k p l :: cs) s -> p <> 0.
Proof. intros F k p l cs s H E. subst p. pose proof (has_sat _ _ _ H) as X. inversion X as [|? ? S1 S2]; subst. cbn [sat] in S1. inversion S1; subst. rewrite hget_null in H0 by apply (has_wf _ _ _ H). discriminate. Qed.
Ltac fdo H k p b ols := bring H p; apply (has_fold k p b ols) in H; [cbn [map concat app snd fst] in H|cbn [holds map fst]; rewrite some_nz by assumption; reflexivity|reflexivity].
Ltac Fdo k p b ols := the_has ltac:(fun H => fdo H k p b ols).
Ltac Nz p := the_has ltac:(fun H => bring H p; let X := fresh "NZ" in pose proof (has_nz _ _ _ _ _ _ H) as X).
Lemma builds_fiber : forall v, good v -> builds v 3 oom (fiber_create v).
Proof.
  intros v G s W. start v 3%nat oom (fiber_create v) s W H. unfold fiber_create.
  st_al G; [st_bd (builds_stack v G); [st_st|st_fr]|].
  - Nz p0. Fdo KRes p (BFiber p0) [((KRes, p0), l)]. fin_ok.
  - fin_err (S i).
  - fin_err 0%nat.
Qed.
Lemma builds_fiber_for_thread : forall v, good v -> builds v 1 oom (fiber_for_thread v).
Proof.
  intros v G s W. start v 1%nat oom (fiber_for_thread v) s W H. unfold fiber_for_thread. st_al G.
  - Fd KRes p (BFiber 0) (@nil (kind * Z * list Z)). fin_ok.
  - fin_err 0%nat.
Qed.
Lemma builds_disc : forall v id, good v -> builds v 3 oom (disc_create v id).
Proof.
  intros v id G s W. start v 3%nat oom (disc_create v id) s W H. unfold disc_create.
  st_al G; [st_al G; [st_al G; [st_st|st_fr; st_fr]|st_fr]|].
  - Rw p1. Rw p0. Fd KRes p (BDisc id p0 p1 0 false) [((KRaw, p0), [p0]); ((KRaw, p1), [p1])]. fin_ok.
  - fin_err 2%nat.
  - fin_err 1%nat.
  - fin_err 0%nat.
Qed.
Lemma builds_mailbox : forall v, good v -> builds v 3 raw (mailbox_create v).
Proof.
  intros v G s W. start v 3%nat raw (mailbox_create v) s W H. unfold mailbox_create.
  st_al G; [st_bd (builds_queue v true G); [st_st|st_fr]|].
  - Br p0. Fd KRes p (BMailbox p0) [((KRes, p0), l)]. fin_ok.
  - fin_err (S i).
  - fin_err 0%nat.
Qed.
Lemma builds_boxes : forall v, good v -> builds v 2 raw_oom (boxes_create v).
Proof.
  intros v G s W. start v 2%nat raw_oom (boxes_create v) s W H. unfold boxes_create.
  st_al G; [st_bd (builds_rbtree v G); [st_st|st_fr]|].
  - Br p0. Fd KRes p (BBoxes p0) [((KRes, p0), l)]. fin_ok.
  - destruct i; [|nlia]. fin_err 1%nat.
  - fin_err 0%nat.
Qed.
Lemma builds_poll : forall v, good v -> builds v 3 raw (poll_create v).
Proof.
  intros v G s W. start v 3%nat raw (poll_create v) s W H. unfold poll_create.
  st_al G; [st_al G; [st_al G; [st_st|st_fr; st_fr]|st_fr]|].
  - Rw p1. Rw p0. Fd KRes p (BPoll p0 p1) [((KRaw, p0), [p0]); ((KRaw, p1), [p1])]. fin_ok.
  - fin_err 2%nat.
  - fin_err 1%nat.
  - fin_err 0%nat.
Qed.
(** The failure of epoll_create1 has a status of its own. *)
Lemma builds_epoll : forall v, good v -> builds v 2 epoll_err (epoll_create v).
Proof.
  intros v G s W. start v 2%nat epoll_err (epoll_create v) s W H. unfold epoll_create.
  st_al G; [st_al G; [st_st|st_fr]|].
  - Rw p0. Fd KRes p (BEpoll p0) [((KRaw, p0), [p0])]. fin_ok.
  - unfold mret. eapply (end_err _ _ _ _ 1%nat); [eassumption|nlia|split; [oks_tac|al_bad]|reflexivity|discriminate|nlia].
  - the_has ltac:(fun H => unfold mret; eapply (end_err _ _ _ _ 0%nat); [exact H|nlia|split; [oks_tac|al_bad]|unfold epoll_err; f_equal; nlia|auto|nlia]).
Qed.
Lemma builds_barrier : forall v, good v -> builds v 2 raw (barrier_create v).
Proof.
  intros v G s W. start v 2%nat raw (barrier_create v) s W H. unfold barrier_create, slist_create.
  st_al G; [st_al G; [st_st|st_fr]|].
  - Fd KList p0 (BSlist false []) (@nil (kind * Z * list Z)). Fd KRes p (BBarrier p0) [((KList, p0), [p0])]. fin_ok.
  - fin_err 1%nat.
  - fin_err 0%nat.
Qed.

(** More about disciplines. *)
Definition disc_out (v : menv) (id : Z) (F : Z -> option blk) (cs : list chunk) (s : ms) (o : option (Z * Z * ms)) : Prop :=
  (oks v (m_n s) 3 /\ exists p cbv codes s', o = Some ((STATUS_SUCCESS, p), s') /\ has F (Pt p (BDisc id cbv codes 0 false) :: Ob KRaw cbv [cbv] :: Ob KRaw codes [codes] :: cs) s' /\ m_n s' = (m_n s + 3)%nat /\ p <> 0 /\ F p = None) \/
  (exists i s', (i < 3)%nat /\ fails v (m_n s) i /\ o = Some ((ERROR_GENERAL_OUT_OF_MEMORY, 0), s') /\ has F cs s' /\ m_n s' = S (m_n s + i)).
Ltac the_h tac := match goal with |- context [mret _ ?s] => match goal with H : has _ _ s |- _ => tac H end end.
Ltac dfail i := right; exists i; eexists; split; [nlia|]; split; [split; [oks_tac|al_bad]|]; split; [reflexivity|]; split; [eassumption|nlia].
Lemma st_disc : forall v id F cs s, good v -> has F cs s -> disc_out v id F cs s (disc_create v id s).
Proof.
  intros v id F cs s G H0. pose proof H0 as H. pose proof (fun q N => proj1 (fresh_F _ _ _ q H0 N)) as FF. clear H0. unfold disc_create. st_al G; [st_al G; [st_al G; [st_st|st_fr; st_fr]|st_fr]|].
  - the_h ltac:(fun H => bring H p1; apply has_raw in H; bring H p0; apply has_raw in H; bring H p). left. split; [oks_tac|]. exists p, p0, p1. eexists. split; [reflexivity|]. split; [eassumption|split; [nlia|split; auto]].
  - dfail 2%nat.
  - dfail 1%nat.
  - dfail 0%nat.
Qed.
Ltac st_dc G := lazymatch goal with |- context [mbind (disc_create ?v ?id) ?g ?s] => match goal with H : has ?F ?cs s |- _ =>
  let K := fresh "K" in let d := fresh "d" in let cbv := fresh "cbv" in let codes := fresh "codes" in let s' := fresh "s" in let E := fresh in let H' := fresh "H" in let M := fresh "M" in let NZ := fresh "NZ" in let i := fresh "i" in let I0 := fresh "I" in let FR := fresh "FR" in
  destruct (st_disc v id F cs s G H) as [(K & d & cbv & codes & s' & E & H' & M & NZ & FR)|(i & s' & I0 & K & E & H' & M)]; rewrite (bind_some _ _ _ g _ _ _ E); clear E H; norm end end.
Lemma builds_io : forall v mk n err id, good v -> (n <= 29)%nat -> builds v n err (mk v) -> builds v (n + 3) (io_err n err) (io_create v mk id).
Proof.
  intros v mk n err id G N B s W. start v (n + 3)%nat (io_err n err) (io_create v mk id) s W H. unfold io_create. st_bd B.
  - st_dc G.
    + unfold set_release.
      match goal with |- context [mbind (mbind ?a ?b) ?c ?s] => replace (mbind (mbind a b) c s) with (mbind a (fun x => mbind (b x) c) s) by (unfold mbind; destruct (a s) as [[? ?]|]; reflexivity) end.
      st_ld. st_st. Nz p. Br codes. Br cbv. Fdo KRes d (BDisc id cbv codes p false) [((KRaw, cbv), [cbv]); ((KRaw, codes), [codes]); ((KRes, p), l)]. fin_ok.
    + st_rl G. the_has ltac:(fun H => unfold mret; eapply (end_err _ _ _ _ (n + i)%nat); [exact H|nlia|split; [oks_tac|al_bad]| |discriminate|nlia]). unfold io_err. destruct (Nat.ltb_spec (n + i) n); [nlia|reflexivity].
  - the_has ltac:(fun H => unfold mret; eapply (end_err _ _ _ _ i); [exact H|nlia|exact K| |auto|nlia]). unfold io_err. destruct (Nat.ltb_spec i n); [reflexivity|nlia].
Qed.
