(** Shared vocabulary of the model: machine integers, byte memory, the option
    monad whose [None] is undefined behaviour, and small list facts. *)
From Coq Require Export List ZArith Lia Bool Arith.
Export ListNotations.
#[global] Open Scope Z_scope.

(** [None] is undefined behaviour (invalid access) or an exhausted loop bound;
    the theorems always exclude it. *)
Notation "'do' x <- a ; b" :=
  (match a with Some x => b | None => None end)
  (at level 200, x name, a at level 100, b at level 200, right associativity).
Notation "'do' ' p <- a ; b" :=
  (match a with Some p => b | None => None end)
  (at level 200, p pattern, a at level 100, b at level 200, right associativity).

(** A raw octet of memory. *)
Definition is_byte (b : Z) : Prop := 0 <= b < 256.
(** A non-NUL character. *)
Definition is_char (b : Z) : Prop := 1 <= b < 256.

(** Integer promotion of a plain [char]: on the modelled target (x86-64 SysV)
    plain [char] is signed. *)
Definition sext8 (c : Z) : Z := if c <? 128 then c else c - 256.

Definition wrap32 (x : Z) : Z := x mod 2^32.
Definition wrap64 (x : Z) : Z := x mod 2^64.

(** Byte memory: one object of known extent; an index is a pointer into it. *)
Definition ld (b : list Z) (p : nat) : option Z := nth_error b p.
Fixpoint upd {A} (l : list A) (n : nat) (v : A) : list A :=
  match l, n with
  | [], _ => []
  | _ :: t, O => v :: t
  | h :: t, S n' => h :: upd t n' v
  end.
Definition st (b : list Z) (p : nat) (v : Z) : option (list Z) :=
  if (p <? length b)%nat then Some (upd b p v) else None.

(** ** List facts *)
Lemma upd_length : forall A (l : list A) n v, length (upd l n v) = length l.
Proof. induction l; destruct n; simpl; auto. Qed.

Lemma upd_app : forall A (a : list A) x b v, upd (a ++ x :: b) (length a) v = a ++ v :: b.
Proof. induction a; simpl; intros; [reflexivity|f_equal; auto]. Qed.

Lemma ld_app : forall a x b, ld (a ++ x :: b) (length a) = Some x.
Proof. unfold ld. intros. rewrite nth_error_app2 by lia. rewrite Nat.sub_diag. reflexivity. Qed.

Lemma ld_app_at : forall a x b n, n = length a -> ld (a ++ x :: b) n = Some x.
Proof. intros; subst; apply ld_app. Qed.

Lemma st_app : forall a x b v, st (a ++ x :: b) (length a) v = Some (a ++ v :: b).
Proof.
  intros. unfold st. rewrite app_length; simpl.
  replace (length a <? length a + S (length b))%nat with true by (symmetry; apply Nat.ltb_lt; lia).
  rewrite upd_app. reflexivity.
Qed.

Lemma st_app_at : forall a x b v n, n = length a -> st (a ++ x :: b) n v = Some (a ++ v :: b).
Proof. intros; subst; apply st_app. Qed.

Lemma nth_error_upd_eq : forall A (l : list A) n v, (n < length l)%nat -> nth_error (upd l n v) n = Some v.
Proof. induction l; destruct n; simpl; intros; try lia; auto. apply IHl. lia. Qed.

Lemma nth_error_upd_neq : forall A (l : list A) n m v, n <> m -> nth_error (upd l n v) m = nth_error l m.
Proof. induction l; destruct n, m; simpl; intros; try congruence; auto. Qed.

Lemma upd_id : forall A (l : list A) n v, nth_error l n = Some v -> upd l n v = l.
Proof. induction l; destruct n; simpl; intros; try congruence; f_equal; auto. Qed.

Lemma firstn_skipn_len : forall A (l : list A) n m,
  (n + m <= length l)%nat -> length (firstn m (skipn n l)) = m.
Proof. intros. rewrite firstn_length, skipn_length. lia. Qed.

Lemma Forall_app_inv : forall A (P : A -> Prop) a b, Forall P (a ++ b) -> Forall P a /\ Forall P b.
Proof. intros. apply Forall_app in H. exact H. Qed.

Lemma nth_error_ext : forall A (l1 l2 : list A), (forall n, nth_error l1 n = nth_error l2 n) -> l1 = l2.
Proof.
  induction l1 as [|x l1 IH]; destruct l2 as [|y l2]; intros H; auto.
  - specialize (H O). discriminate.
  - specialize (H O). discriminate.
  - f_equal. specialize (H O). simpl in H. congruence. apply IH. intros n. apply (H (S n)).
Qed.

(** Equality of two append/cons expressions up to associativity. *)
Ltac lapp :=
  repeat (progress (repeat rewrite <- app_assoc; cbn [app])); try rewrite !app_nil_r; reflexivity.

(** Discharge [Forall is_char]/[Forall is_byte] goals on literal lists. *)
Ltac all_chars :=
  repeat (apply Forall_cons; [unfold is_char, is_byte; lia|]); apply Forall_nil.

Lemma firstn_exact : forall A (a b : list A) n, n = length a -> firstn n (a ++ b) = a.
Proof. intros; subst. rewrite firstn_app, Nat.sub_diag, firstn_all. simpl. apply app_nil_r. Qed.
Lemma skipn_exact : forall A (a b : list A) n, n = length a -> skipn n (a ++ b) = b.
Proof. intros; subst. rewrite skipn_app, Nat.sub_diag, skipn_all. reflexivity. Qed.
