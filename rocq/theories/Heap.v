(** A heap of typed cells: live addresses with their contents.  Address 0 is NULL.
    The address given to a new block is chosen by an arbitrary function of the live
    addresses, so addresses of freed blocks may be reused. *)
From Verif Require Import Base.

Definition heap (A : Type) := list (Z * A).
Definition addrs {A} (h : heap A) : list Z := map fst h.
Fixpoint hget {A} (h : heap A) (p : Z) : option A :=
  match h with
  | [] => None
  | (q, v) :: t => if p =? q then Some v else hget t p
  end.
(** Overwrite a live cell. *)
Fixpoint hset {A} (h : heap A) (p : Z) (v : A) : heap A :=
  match h with
  | [] => []
  | (q, w) :: t => if p =? q then (q, v) :: t else (q, w) :: hset t p v
  end.
Fixpoint hdel {A} (h : heap A) (p : Z) : heap A :=
  match h with
  | [] => []
  | (q, w) :: t => if p =? q then t else (q, w) :: hdel t p
  end.
(** A store; undefined if the address is not live. *)
Definition hstore {A} (h : heap A) (p : Z) (v : A) : option (heap A) :=
  match hget h p with Some _ => Some (hset h p v) | None => None end.
(** A deallocation; undefined if the address is not live. *)
Definition hfree {A} (h : heap A) (p : Z) : option (heap A) :=
  match hget h p with Some _ => Some (hdel h p) | None => None end.
Definition hadd {A} (h : heap A) (p : Z) (v : A) : heap A := (p, v) :: h.

(** Distinct non-NULL addresses. *)
Definition hwf {A} (h : heap A) : Prop := NoDup (addrs h) /\ ~ In 0 (addrs h).
(** An allocator's choice of addresses. *)
Definition good_pick (pick : list Z -> Z) : Prop := forall l, pick l <> 0 /\ ~ In (pick l) l.
(** For instance: one more than the largest live address. *)
Definition pick_max (l : list Z) : Z := fold_right Z.max 0 l + 1.

Lemma pick_max_good : good_pick pick_max.
Proof.
  intros l. unfold pick_max.
  assert (H : forall x, In x l -> x <= fold_right Z.max 0 l).
  { induction l; cbn; intros x []; [subst; lia|]. apply IHl in H. lia. }
  assert (P : 0 <= fold_right Z.max 0 l) by (clear; induction l; cbn; lia).
  split; [lia|]. intros K. apply H in K. lia.
Qed.

Section HeapFacts.
Context {A : Type}.
Implicit Types h : heap A.

Lemma hget_none : forall h p, hget h p = None <-> ~ In p (addrs h).
Proof.
  induction h as [|[q c] t IH]; cbn; intros; [tauto|].
  destruct (Z.eqb_spec p q) as [->|N]; [split; [discriminate|tauto]|].
  fold (addrs t). rewrite IH. split; intros H; [|tauto]. intros [K|K]; [congruence|auto].
Qed.
Lemma hget_in : forall h p v, hget h p = Some v -> In p (addrs h).
Proof.
  intros. destruct (in_dec Z.eq_dec p (addrs h)); auto. apply hget_none in n. congruence.
Qed.
Lemma hset_addrs : forall h p v, addrs (hset h p v) = addrs h.
Proof. induction h as [|[q c] t IH]; cbn; intros; [auto|]. destruct (p =? q); cbn; [auto|]. f_equal. apply IH. Qed.
Lemma hget_hset : forall h p q v, hget (hset h p v) q = if q =? p then (match hget h p with Some _ => Some v | None => None end) else hget h q.
Proof.
  induction h as [|[x c] t IH]; cbn; intros; [destruct (q =? p); auto|].
  destruct (Z.eqb_spec p x) as [->|N]; cbn.
  - destruct (q =? x); auto.
  - rewrite IH. destruct (Z.eqb_spec q x) as [->|M]; auto. destruct (Z.eqb_spec x p); [congruence|auto].
Qed.
Lemma hget_hset_same : forall h p v w, hget h p = Some w -> hget (hset h p v) p = Some v.
Proof. intros. rewrite hget_hset, Z.eqb_refl, H. reflexivity. Qed.
Lemma hget_hset_other : forall h p q v, q <> p -> hget (hset h p v) q = hget h q.
Proof. intros. rewrite hget_hset. destruct (Z.eqb_spec q p); [congruence|auto]. Qed.
Lemma hset_wf : forall h p v, hwf h -> hwf (hset h p v).
Proof. intros h p v [H1 H2]. split; rewrite hset_addrs; auto. Qed.
Lemma hdel_in : forall h p q, In q (addrs (hdel h p)) -> In q (addrs h).
Proof. induction h as [|[x c] t IH]; cbn; intros; [auto|]. destruct (p =? x); cbn in *; [auto|]. destruct H; eauto. Qed.
Lemma hdel_wf : forall h p, hwf h -> hwf (hdel h p).
Proof.
  intros h p [H1 H2]. split; [|intro K; apply H2; eapply hdel_in; eauto]. clear H2.
  induction h as [|[x c] t IH]; cbn; [auto|]. inversion H1; subst.
  destruct (p =? x); cbn; auto. constructor; auto. intro K. apply H2. eapply hdel_in; eauto.
Qed.
Lemma hget_hdel : forall h p q, hwf h -> hget (hdel h p) q = if q =? p then None else hget h q.
Proof.
  intros h p q [H1 _]. induction h as [|[x c] t IH]; cbn; [destruct (q =? p); auto|]. inversion H1; subst.
  destruct (Z.eqb_spec p x) as [->|N].
  - destruct (Z.eqb_spec q x) as [->|M]; auto. apply hget_none. auto.
  - cbn. rewrite IH by auto. destruct (Z.eqb_spec q x) as [->|M]; auto.
    destruct (Z.eqb_spec x p); [congruence|auto].
Qed.
Lemma hget_hdel_same : forall h p, hwf h -> hget (hdel h p) p = None.
Proof. intros. rewrite hget_hdel, Z.eqb_refl by auto. auto. Qed.
Lemma hget_hdel_other : forall h p q, hwf h -> q <> p -> hget (hdel h p) q = hget h q.
Proof. intros. rewrite hget_hdel by auto. destruct (Z.eqb_spec q p); [congruence|auto]. Qed.
Lemma hget_hadd : forall h p q v, hget (hadd h p v) q = if q =? p then Some v else hget h q.
Proof. reflexivity. Qed.
Lemma hget_hadd_same : forall h p v, hget (hadd h p v) p = Some v.
Proof. intros. cbn. rewrite Z.eqb_refl. auto. Qed.
Lemma hget_hadd_other : forall h p q v, q <> p -> hget (hadd h p v) q = hget h q.
Proof. intros. cbn. destruct (Z.eqb_spec q p); [congruence|auto]. Qed.
Lemma hadd_wf : forall h p v, hwf h -> p <> 0 -> hget h p = None -> hwf (hadd h p v).
Proof. intros h p v [H1 H2] N G. apply hget_none in G. split; cbn; [constructor; auto|]. intros [K|K]; auto. Qed.
Lemma pick_fresh : forall pick h, good_pick pick -> pick (addrs h) <> 0 /\ hget h (pick (addrs h)) = None.
Proof. intros pick h G. destruct (G (addrs h)). split; auto. apply hget_none. auto. Qed.
Lemma hget_null : forall h, hwf h -> hget h 0 = None.
Proof. intros h [_ H]. apply hget_none. auto. Qed.
Lemma hget_nonnull : forall h p v, hwf h -> hget h p = Some v -> p <> 0.
Proof. intros h p v W G ->. rewrite hget_null in G; auto. discriminate. Qed.
End HeapFacts.
