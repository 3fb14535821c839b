From Verif Require Import Base Status MemModel MemProofs Heap TabModel TabSpec.

Lemma list_perfect : perfect list_tops (fun t l => t = l).
Proof.
  constructor; cbn [list_tops t_empty t_insert t_find t_delete t_elems].
  - auto.
  - intros a t l k -> _. destruct (ok a); eauto.
  - intros t l k ->. destruct (zmem k l); auto.
  - intros t l k -> _. destruct (zmem k l) eqn:E; [eauto|]. exists l. split; [auto|].
    revert E. induction l as [|j l IH]; cbn; [auto|]. intros E. apply orb_false_iff in E as [E1 E2]. rewrite E1. f_equal. auto.
  - intros t l ->. auto.
Qed.
Lemma zmem_in : forall k l, zmem k l = true <-> In k l.
Proof. intros. unfold zmem. rewrite existsb_exists. split; [intros (x & H & E); apply Z.eqb_eq in E; subst; auto|]. intros. exists k. split; [auto|apply Z.eqb_refl]. Qed.
Lemma zmem_not : forall k l, zmem k l = false <-> ~ In k l.
Proof. intros. rewrite <- zmem_in. destruct (zmem k l); split; intros; congruence. Qed.
Lemma zput_in : forall k l x, In x (zput k l) <-> x = k \/ In x l.
Proof.
  induction l as [|j l IH]; intros x; cbn [zput In]; [intuition|].
  destruct (k <? j); cbn [In]; [intuition|]. rewrite IH. intuition.
Qed.
Lemma zdel_in : forall k l x, NoDup l -> (In x (zdel k l) <-> x <> k /\ In x l).
Proof.
  induction l as [|j l IH]; intros x N; cbn [zdel In]; [intuition|]. inversion N; subst.
  destruct (Z.eqb_spec k j) as [->|M].
  - split; [|intuition congruence]. intros H. split; [congruence|auto].
  - cbn [In]. rewrite IH by auto. intuition congruence.
Qed.
Lemma zdel_incl : forall k l x, In x (zdel k l) -> In x l.
Proof. induction l as [|j l IH]; cbn [zdel]; intros x; [auto|]. destruct (k =? j); cbn [In]; intuition. Qed.
Lemma zdel_zput : forall k l, ~ In k l -> zdel k (zput k l) = l.
Proof.
  induction l as [|j l IH]; intros N; cbn [zput zdel]; [rewrite Z.eqb_refl; auto|].
  destruct (k <? j); cbn [zdel]; [rewrite Z.eqb_refl; auto|].
  destruct (Z.eqb_spec k j) as [->|M]; [cbn in N; tauto|]. f_equal. apply IH. cbn in N. tauto.
Qed.

(** Heaps seen through a function. *)
Definition hmap {A B} (f : A -> B) (h : heap A) : heap B := map (fun x => (fst x, f (snd x))) h.
Lemma hmap_addrs : forall A B (f : A -> B) h, addrs (hmap f h) = addrs h.
Proof. intros. unfold addrs, hmap. rewrite map_map. auto. Qed.
Lemma hmap_get : forall A B (f : A -> B) h p, hget (hmap f h) p = option_map f (hget h p).
Proof. induction h as [|[q v] h IH]; intros; cbn; [auto|]. destruct (p =? q); cbn; auto. Qed.
Lemma hmap_set : forall A B (f : A -> B) h p v, hmap f (hset h p v) = hset (hmap f h) p (f v).
Proof. induction h as [|[q x] h IH]; intros; cbn; [auto|]. destruct (p =? q); cbn; f_equal; auto. apply IH. Qed.
Lemma hmap_del : forall A B (f : A -> B) h p, hmap f (hdel h p) = hdel (hmap f h) p.
Proof. induction h as [|[q x] h IH]; intros; cbn; [auto|]. destruct (p =? q); cbn; f_equal; auto. apply IH. Qed.
Lemma hset_id : forall A (h : heap A) p v, hget h p = Some v -> hset h p v = h.
Proof. induction h as [|[q x] h IH]; intros p v; cbn; [discriminate|]. destruct (Z.eqb_spec p q); intros; [congruence|f_equal; auto]. Qed.
Lemma zdel_id : forall k l, ~ In k l -> zdel k l = l.
Proof. induction l as [|j l IH]; cbn; intros; auto. destruct (Z.eqb_spec k j); [exfalso; auto|]. rewrite IH; auto. Qed.
Lemma hset_hset : forall A (h : heap A) p v w, hset (hset h p v) p w = hset h p w.
Proof.
  induction h as [|[q c] t IH]; cbn; intros; [auto|]. destruct (p =? q) eqn:E; cbn; rewrite E; [auto|]. f_equal. apply IH.
Qed.
