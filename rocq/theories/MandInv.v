From Verif Require Import Base Status MemModel MemProofs Heap ThreadModel ThreadSpec ThreadProofs MandModel MandSpec MandProofs.

(** ** Lists *)
Lemma store_some : forall A (a : list A) n v, (n < length a)%nat -> exists a', store a n v = Some a' /\ length a' = length a /\
  (nth_error a' n = Some v) /\ (forall k, k <> n -> nth_error a' k = nth_error a k).
Proof.
  intros A a. induction a as [|x a IH]; intros n v H; cbn [length] in H; [lia|]. destruct n as [|n].
  - cbn. eexists. split; [reflexivity|]. split; [auto|]. split; [auto|]. intros [|k] K; [congruence|auto].
  - destruct (IH n v ltac:(lia)) as (a' & E & L & S1 & S2). cbn [store]. rewrite E. eexists. split; [reflexivity|]. cbn [length]. split; [lia|]. split; [auto|]. intros [|k] K; [auto|]. cbn. apply S2. congruence.
Qed.
Lemma store_count : forall (a a' : list cell) n v x, store a n v = Some a' -> nth_error a n = Some x -> is_line x = false -> is_line v = true -> length (filter is_line a') = S (length (filter is_line a)).
Proof.
  induction a as [|y a IH]; intros a' n v x E N F V; [destruct n; discriminate|]. destruct n as [|n]; cbn [store nth_error] in *.
  - inversion E; inversion N; subst. cbn [filter]. rewrite F, V. reflexivity.
  - destruct (store a n v) as [b|] eqn:S1; [|discriminate]. inversion E; subst. cbn [filter]. rewrite <- (IH _ _ _ _ S1 N F V) || idtac. pose proof (IH _ _ _ _ S1 N F V) as K. destruct (is_line y); cbn [length]; lia.
Qed.
Lemma filter_le : forall A (f : A -> bool) l, (length (filter f l) <= length l)%nat.
Proof. intros A f l. induction l as [|x l IH]; cbn; [auto|]. destruct (f x); cbn; lia. Qed.
Lemma filter_full : forall A (f : A -> bool) l, length (filter f l) = length l -> forall x, In x l -> f x = true.
Proof.
  intros A f l. induction l as [|y l IH]; intros H x I; [destruct I|]. cbn [filter length] in H. pose proof (filter_le _ f l). destruct (f y) eqn:E; cbn [length] in H; [|lia]. destruct I as [<-|I]; [auto|]. apply IH; auto.
Qed.
Lemma filter_same : forall A (f : A -> bool) l, (forall x, In x l -> f x = true) -> filter f l = l.
Proof. intros A f l H. induction l as [|x l IH]; [auto|]. cbn. rewrite (H x (or_introl eq_refl)). f_equal. apply IH. intros y Y. apply H. right. auto. Qed.
Lemma nth_error_ext : forall A (l m : list A), (forall n, nth_error l n = nth_error m n) -> l = m.
Proof.
  intros A l. induction l as [|x l IH]; intros [|y m] H; [auto|specialize (H O); discriminate|specialize (H O); discriminate|].
  f_equal; [specialize (H O); cbn in H; congruence|]. apply IH. intros n. apply (H (S n)).
Qed.
Lemma upto_nth : forall n k, nth_error (upto n) k = if Nat.ltb k (Z.to_nat n) then Some (Z.of_nat k) else None.
Proof.
  intros n k. unfold upto. destruct (Nat.ltb_spec k (Z.to_nat n)) as [L|L].
  - assert (E : nth_error (seq 0 (Z.to_nat n)) k = Some k) by (rewrite (nth_error_nth' _ O) by (rewrite seq_length; auto); rewrite seq_nth by auto; auto). apply (map_nth_error Z.of_nat) in E. auto.
  - apply nth_error_None. rewrite map_length, seq_length. auto.
Qed.
Lemma upto_succ : forall n, 0 <= n -> upto (n + 1) = upto n ++ [n].
Proof. intros n H. unfold upto. replace (Z.to_nat (n + 1)) with (Z.to_nat n + 1)%nat by lia. rewrite seq_app, map_app. cbn. rewrite Z2Nat.id by lia. auto. Qed.
Lemma animation_succ : forall n lines, 0 <= n -> animation (n + 1) lines = animation n lines ++ [(n, picture n lines)].
Proof. intros. unfold animation. rewrite upto_succ, map_app by auto. auto. Qed.

(** ** A frame that is being drawn *)
Record DI (c : conf) (i : Z) (inf : info) (wk : Z -> option wpc) (bufs : Z) : Prop := {
  D_frame : i_frame inf = i; D_q : i_quiesce inf = false;
  D_len : length (i_array inf) = Z.to_nat (f_lines c);
  D_curr : 0 <= i_curr inf <= f_lines c;
  D_wr : i_written inf = Z.of_nat (length (filter is_line (i_array inf)));
  D_cell : forall n x, nth_error (i_array inf) n = Some x -> is_line x = true -> x = Pixels i (Z.of_nat n) /\ Z.of_nat n < i_curr inf;
  D_at : forall t l, at_line (wk t) = Some l -> 0 <= l < i_curr inf /\ exists x, nth_error (i_array inf) (Z.to_nat l) = Some x /\ is_line x = false;
  D_kind : forall t, match wk t with Some (WSave _ f) => f = i | Some (WDraw _ b) => b = true | _ => True end;
  D_one : forall t u l, at_line (wk t) = Some l -> at_line (wk u) = Some l -> t = u;
  D_all : forall l, 0 <= l < i_curr inf -> (exists x, nth_error (i_array inf) (Z.to_nat l) = Some x /\ is_line x = true) \/ exists t, at_line (wk t) = Some l;
  D_done : i_done inf = true -> i_curr inf = f_lines c;
  D_junk : forall x, In x (i_array inf) -> is_line x = false -> x = if i =? 0 then Junk else Null;
  D_bufs : bufs = i_curr inf }.
Definition taken (inf : info) : info := Info (i_curr inf + 1) (i_written inf) (i_quiesce inf) (i_done inf) (i_frame inf) (i_array inf).
Definition saved (inf : info) (a : list cell) : info := Info (i_curr inf) (i_written inf + 1) (i_quiesce inf) (i_done inf) (i_frame inf) a.

Ltac upds := repeat match goal with
  | |- context [upd _ ?t _ ?u] => rewrite (upd_get _ _ t _ u); destruct (Z.eqb_spec u t); subst
  | H : context [upd _ ?t _ ?u] |- _ => rewrite (upd_get _ _ t _ u) in H; destruct (Z.eqb_spec u t); subst
  end.
Lemma DI_wk : forall c i inf wk wk' bufs, DI c i inf wk bufs -> (forall t, at_line (wk' t) = at_line (wk t)) -> (forall t, match wk' t with Some (WSave _ f) => f = i | Some (WDraw _ b) => b = true | _ => True end) -> DI c i inf wk' bufs.
Proof.
  intros c i inf wk wk' bufs [] E K. constructor; auto.
  - intros t l H. rewrite E in H. eauto.
  - intros t u l H1 H2. rewrite E in H1, H2. eauto.
  - intros l H. destruct (D_all0 l H) as [?|[t T]]; [auto|]. right. exists t. rewrite E. auto.
Qed.
Lemma DI_idle : forall c i inf wk t bufs o, DI c i inf wk bufs -> at_line (wk t) = None -> at_line o = None -> DI c i inf (upd wk t o) bufs.
Proof.
  intros c i inf wk t bufs o D A O. eapply DI_wk; [exact D|..].
  - intros u. upds; congruence.
  - intros u. upds; [|apply (D_kind _ _ _ _ _ D)]. destruct o as [[]|]; cbn in O; try discriminate; auto.
Qed.
Lemma DI_finish : forall c i inf wk bufs, DI c i inf wk bufs -> i_done inf = true \/ f_lines c <= i_curr inf -> DI c i (i_finish inf) wk bufs.
Proof. intros c i inf wk bufs [] H. constructor; auto. cbn. intros _. destruct H as [H|H]; [auto|lia]. Qed.
Lemma DI_take : forall c i inf wk t bufs, DI c i inf wk bufs -> at_line (wk t) = None -> i_done inf = false -> i_curr inf < f_lines c ->
  DI c i (taken inf) (upd wk t (Some (WDraw (i_curr inf) true))) (bufs + 1).
Proof.
  intros c i inf wk t bufs [] A N L. constructor; cbn [taken i_curr i_written i_quiesce i_done i_frame i_array]; auto; try lia.
  - intros n x H1 H2. destruct (D_cell0 n x H1 H2). split; [auto|lia].
  - intros u l H. upds.
    + inversion H; subst; clear H. split; [lia|]. destruct (nth_error (i_array inf) (Z.to_nat (i_curr inf))) as [x|] eqn:E; [|apply nth_error_None in E; lia]. exists x. split; [auto|]. destruct (is_line x) eqn:K; [|auto]. destruct (D_cell0 _ _ E K). lia.
    + destruct (D_at0 u l H). split; [lia|auto].
  - intros u. upds; [auto|apply D_kind0].
  - intros u v l H1 H2. upds; first [reflexivity|(cbn [at_line] in H1; injection H1; intros; destruct (D_at0 _ _ H2); lia)|(cbn [at_line] in H2; injection H2; intros; destruct (D_at0 _ _ H1); lia)|solve [eauto]].
  - intros l H. destruct (Z.eq_dec l (i_curr inf)) as [->|NE].
    + right. exists t. rewrite upd_get, Z.eqb_refl. auto.
    + destruct (D_all0 l ltac:(lia)) as [?|[u U]]; [auto|]. right. exists u. upds; congruence.
  - congruence.
Qed.
Lemma DI_save : forall c i inf wk t bufs l, DI c i inf wk bufs -> wk t = Some (WSave l i) ->
  exists a, store (i_array inf) (Z.to_nat l) (Pixels i l) = Some a /\ 0 <= l /\ DI c i (saved inf a) (upd wk t (Some WWait)) bufs.
Proof.
  intros c i inf wk t bufs l [] E. assert (A : at_line (wk t) = Some l) by (rewrite E; auto). destruct (D_at0 t l A) as (L & x & N & F).
  destruct (store_some _ (i_array inf) (Z.to_nat l) (Pixels i l)) as (a & E1 & E2 & E3 & E4); [apply nth_error_Some; congruence|]. exists a. split; [auto|]. split; [lia|].
  constructor; cbn [saved i_curr i_written i_quiesce i_done i_frame i_array]; auto; try lia.
  - rewrite (store_count _ _ _ _ _ E1 N F eq_refl). lia.
  - intros n y H1 H2. destruct (Nat.eq_dec n (Z.to_nat l)) as [->|NE]; [|rewrite E4 in H1 by auto; auto]. rewrite E3 in H1. inversion H1. rewrite Z2Nat.id by lia. split; [auto|lia].
  - intros u k H. upds; [discriminate|]. destruct (D_at0 u k H) as (L' & y & N' & F'). split; [auto|]. exists y. split; [|auto]. rewrite E4; [auto|]. intros K. assert (k = l) by lia. subst k. destruct n. eapply D_one0; eauto.
  - intros u. upds; [auto|apply D_kind0].
  - intros u v k H1 H2. upds; try discriminate. eauto.
  - intros k H. destruct (Z.eq_dec k l) as [->|NE]; [left; rewrite E3; eauto|]. destruct (D_all0 k H) as [(y & Y1 & Y2)|[u U]].
    + left. exists y. rewrite E4 by lia. auto.
    + right. exists u. upds; [congruence|auto].
  - intros y Y F'. apply In_nth_error in Y as [n Y]. destruct (Nat.eq_dec n (Z.to_nat l)) as [->|NE]; [rewrite E3 in Y; inversion Y; subst; discriminate|]. rewrite E4 in Y by auto. apply nth_error_In in Y. auto.
Qed.
Lemma DI_full : forall c i inf wk bufs, DI c i inf wk bufs -> i_written inf = f_lines c -> i_array inf = picture i (f_lines c) /\ (forall t, at_line (wk t) = None) /\ i_curr inf = f_lines c.
Proof.
  intros c i inf wk bufs [] W. assert (F : forall x, In x (i_array inf) -> is_line x = true) by (apply filter_full; lia).
  split; [|split].
  - apply nth_error_ext. intros n. unfold picture. destruct (Nat.ltb_spec n (Z.to_nat (f_lines c))) as [L|L].
    + erewrite map_nth_error; [|rewrite upto_nth; rewrite (proj2 (Nat.ltb_lt _ _) L); reflexivity].
      destruct (nth_error (i_array inf) n) as [x|] eqn:E; [|apply nth_error_None in E; lia]. f_equal. apply (D_cell0 n x); auto. apply F. eapply nth_error_In; eauto.
    + rewrite (proj2 (nth_error_None _ _)) by lia. symmetry. apply nth_error_None. unfold upto. rewrite !map_length, seq_length. lia.
  - intros t. destruct (at_line (wk t)) as [l|] eqn:A; [|auto]. destruct (D_at0 t l A) as (_ & x & N & K). apply nth_error_In, F in N. congruence.
  - destruct (Z.eq_dec (f_lines c) 0) as [E|NE]; [lia|]. destruct (nth_error (i_array inf) (Z.to_nat (f_lines c - 1))) as [x|] eqn:E; [|apply nth_error_None in E; lia].
    destruct (D_cell0 _ _ E) as [_ L]; [apply F; eapply nth_error_In; eauto|]. lia.
Qed.
Lemma DI_less : forall c i inf wk bufs, DI c i inf wk bufs -> i_written inf <= i_curr inf /\ i_written inf <= f_lines c /\ (i_written inf < i_curr inf -> exists t l, at_line (wk t) = Some l).
Proof.
  intros c i inf wk bufs []. pose proof (filter_le _ is_line (i_array inf)) as LE.
  assert (X : forall a k, (forall n x, nth_error a n = Some x -> is_line x = true -> (n < k)%nat) -> (length (filter is_line a) <= k)%nat).
  { clear. intros a. induction a as [|x a IH]; intros k H; cbn; [lia|]. destruct k as [|k].
    - destruct (is_line x) eqn:E; [specialize (H O x eq_refl E); lia|]. apply (IH O). intros n y N Y. specialize (H (S n) y N Y). lia.
    - assert (length (filter is_line a) <= k)%nat by (apply IH; intros n y N Y; specialize (H (S n) y N Y); lia). destruct (is_line x); cbn; lia. }
  assert (Y : forall a k, (k <= length a)%nat -> (forall n x, nth_error a n = Some x -> (n < k)%nat -> is_line x = true) -> (k <= length (filter is_line a))%nat).
  { clear. intros a. induction a as [|x a IH]; intros k L H; cbn in *; [lia|]. destruct k as [|k]; [lia|]. rewrite (H O x eq_refl) by lia. cbn. assert (k <= length (filter is_line a))%nat by (apply IH; [lia|]; intros n y N K; apply (H (S n) y N); lia). lia. }
  assert (WC : i_written inf <= i_curr inf) by (rewrite D_wr0; specialize (X (i_array inf) (Z.to_nat (i_curr inf))); assert (length (filter is_line (i_array inf)) <= Z.to_nat (i_curr inf))%nat by (apply X; intros n x N K; destruct (D_cell0 n x N K); lia); lia).
  split; [exact WC|]. split; [lia|]. intros L.
  destruct (existsb (fun n => match nth_error (i_array inf) n with Some x => negb (is_line x) | None => false end) (seq 0 (Z.to_nat (i_curr inf)))) eqn:E.
  - apply existsb_exists in E as (n & I & K). apply in_seq in I. destruct (nth_error (i_array inf) n) as [x|] eqn:NE; [|discriminate]. destruct (D_all0 (Z.of_nat n) ltac:(lia)) as [(y & Y1 & Y2)|[t T]]; [|eauto].
    rewrite Nat2Z.id in Y1. assert (x = y) by congruence. subst y. rewrite Y2 in K. discriminate.
  - exfalso. assert (Z.to_nat (i_curr inf) <= length (filter is_line (i_array inf)))%nat; [|lia]. apply Y; [lia|]. intros n x N K.
    destruct (is_line x) eqn:IL; [auto|]. exfalso. assert (existsb (fun n => match nth_error (i_array inf) n with Some x => negb (is_line x) | None => false end) (seq 0 (Z.to_nat (i_curr inf))) = true); [|congruence].
    apply existsb_exists. exists n. split; [apply in_seq; lia|]. rewrite N, IL. auto.
Qed.
Lemma DI_new : forall c i inf wk, 0 <= f_lines c -> length (i_array inf) = Z.to_nat (f_lines c) -> i_quiesce inf = false -> i_frame inf = i -> (forall x, In x (i_array inf) -> is_line x = false /\ x = if i =? 0 then Junk else Null) -> (forall t, at_line (wk t) = None) ->
  DI c i (Info 0 0 (i_quiesce inf) false (i_frame inf) (i_array inf)) wk 0.
Proof.
  intros c i inf wk L0 L Q F N A. constructor; cbn [i_curr i_written i_quiesce i_done i_frame i_array]; auto; try lia.
  - replace (filter is_line (i_array inf)) with (@nil cell); [auto|]. symmetry. clear -N. induction (i_array inf) as [|x a IH]; [auto|]. cbn. rewrite (proj1 (N x (or_introl eq_refl))). apply IH. intros y Y. apply N. right. auto.
  - intros n x H1 H2. apply nth_error_In, N in H1. destruct H1. congruence.
  - intros t l H. rewrite A in H. discriminate.
  - intros t. specialize (A t). destruct (wk t) as [[]|]; cbn in A; try discriminate; auto.
  - intros t u l H. rewrite A in H. discriminate.
  - intros x X _. apply N. auto.
Qed.

(** ** Transitions *)
Definition holder (m : mpc) : option Z := match m with MEnd _ => Some 1 | _ => None end.
Definition held_by (m : mpc) : Z := match m with MEnd _ => 1 | _ => 0 end.
Definition pd (s : mst) (t : Z) : option pend := hget (w_pend (s_tw s)) t.
Definition others (t : Z) (s s' : mst) : Prop := forall u, u <> t -> pd s' u = pd s u.
(** A worker's turn of the loop. *)
Definition turn (c : conf) (t : Z) (inf : info) (bufs : Z) (s s' : mst) : Prop :=
  (i_done inf = true \/ f_lines c <= i_curr inf) /\ s_info s' = i_finish inf /\ s_bufs s' = bufs /\ s_wk s' = upd (s_wk s) t (Some WWait) /\ pd s' t = Some (PdWait (f_wc c) (f_mu c)) \/
  i_done inf = false /\ i_curr inf < f_lines c /\ s_info s' = taken inf /\ s_bufs s' = bufs + 1 /\ s_wk s' = upd (s_wk s) t (Some (WDraw (i_curr inf) true)) /\ pd s' t = None.
(** The main thread starts frame [i] or ends. *)
Definition fresh (c : conf) (i : Z) (inf : info) (s s' : mst) : Prop :=
  i < f_frames c /\ s_main s' = MFrame i /\ s_info s' = Info 0 0 (i_quiesce inf) false (i_frame inf) (i_array inf) /\ pd s' 1 = Some (PdWait (f_mc c) (f_mu c)) /\ (forall u, u <> 1 -> pd s' u = woke c (pd s u)) \/
  f_frames c <= i /\ s_main s' = MEnd 0 /\ s_info s' = inf /\ (forall u, u <> 1 -> pd s' u = pd s u).
Inductive tran (c : conf) (s s' : mst) : mev -> Prop :=
| tr_begin t : s_wk s t = Some WBegin -> s_main s' = s_main s -> s_info s' = s_info s -> s_files s' = s_files s -> s_bufs s' = s_bufs s -> s_wk s' = upd (s_wk s) t (Some WLock) -> others t s s' -> tran c s s' (Begin t)
| tr_mbegin : s_main s = MStart -> s_main s' = MLock -> s_info s' = s_info s -> s_files s' = s_files s -> s_bufs s' = s_bufs s -> s_wk s' = s_wk s -> others 1 s s' -> tran c s s' (Begin 1)
| tr_enter t r : s_wk s t = Some WLock -> s_main s' = s_main s -> s_info s' = s_info s -> s_files s' = s_files s -> s_bufs s' = s_bufs s -> s_wk s' = upd (s_wk s) t (Some WWait) -> pd s' t = Some (PdWait (f_wc c) (f_mu c)) -> others t s s' -> tran c s s' (Resume t r)
| tr_draw t l : s_wk s t = Some (WDraw l true) -> s_main s' = s_main s -> s_info s' = s_info s -> s_files s' = s_files s -> s_bufs s' = s_bufs s -> s_wk s' = upd (s_wk s) t (Some (WSave l (i_frame (s_info s)))) -> others t s s' -> tran c s s' (Draw t)
| tr_turn t r : s_wk s t = Some WWait -> holder (s_main s) = None -> pd s t = Some (PdBack (f_mu c)) -> s_main s' = s_main s -> s_files s' = s_files s -> turn c t (s_info s) (s_bufs s) s s' -> others t s s' -> tran c s s' (Resume t r)
| tr_save t r l i a : s_wk s t = Some (WSave l i) -> s_main s = MFrame i -> s_main s' = MFrame i -> store (i_array (s_info s)) (Z.to_nat l) (Pixels i l) = Some a -> i_written (s_info s) + 1 <> f_lines c ->
    s_files s' = s_files s -> turn c t (saved (s_info s) a) (s_bufs s) s s' -> others t s s' -> tran c s s' (Resume t r)
| tr_last t r l i a : s_wk s t = Some (WSave l i) -> s_main s = MFrame i -> s_main s' = MFrame i -> store (i_array (s_info s)) (Z.to_nat l) (Pixels i l) = Some a -> i_written (s_info s) + 1 = f_lines c ->
    pd s 1 = Some (PdWait (f_mc c) (f_mu c)) -> pd s' 1 = Some (PdBack (f_mu c)) ->
    s_files s' = s_files s -> turn c t (i_finish (saved (s_info s) a)) (s_bufs s) s s' -> (forall u, u <> t -> u <> 1 -> pd s' u = pd s u) -> tran c s s' (Resume t r)
| tr_first r : s_main s = MLock -> s_files s' = s_files s -> s_bufs s' = s_bufs s -> s_wk s' = s_wk s -> fresh c 0 (s_info s) s s' -> tran c s s' (Resume 1 r)
| tr_next r i s1 : s_main s = MFrame i -> pd s 1 = Some (PdBack (f_mu c)) -> main_write i s = Some s1 -> s_files s' = s_files s1 -> s_bufs s' = s_bufs s1 -> s_wk s' = s_wk s -> fresh c (i + 1) (s_info s1) s s' -> tran c s s' (Resume 1 r)
| tr_wake t d : pd s t = Some (PdWait d (f_mu c)) -> s_main s' = s_main s -> s_info s' = s_info s -> s_files s' = s_files s -> s_bufs s' = s_bufs s -> s_wk s' = s_wk s -> pd s' t = Some (PdBack (f_mu c)) -> others t s s' -> tran c s s' (Spurious t).

(** ** The invariant *)
Definition info0 (c : conf) : info := Info 0 0 false true 0 (repeat Junk (Z.to_nat (f_lines c))).
Definition idle (s : mst) : Prop := forall t, at_line (s_wk s t) = None.
Definition LI (c : conf) (s : mst) : Prop :=
  match s_main s with
  | MStart | MLock => s_info s = info0 c /\ s_files s = [] /\ s_bufs s = 0 /\ idle s
  | MFrame i => 0 <= i < f_frames c /\ s_files s = animation i (f_lines c) /\ DI c i (s_info s) (s_wk s) (s_bufs s) /\ (f_lines c = 0 -> i = 0) /\
      (pd s 1 = Some (PdWait (f_mc c) (f_mu c)) -> i_written (s_info s) < f_lines c \/ f_lines c = 0) /\ (pd s 1 = Some (PdBack (f_mu c)) -> i_written (s_info s) = f_lines c /\ 0 < f_lines c)
  | MEnd e => e = 0 /\ s_files s = animation (f_frames c) (f_lines c) /\ s_bufs s = 0 /\ idle s /\ (f_lines c = 0 -> f_frames c <= 0)
  | MClean _ => False
  end.
Definition Th (c : conf) (s : mst) : Prop := TI c (s_tw s) (s_main s) (s_wk s) (holder (s_main s)) (held_by (s_main s)).
Definition Inv (c : conf) (s : mst) : Prop := 0 <= f_lines c /\ Th c s /\ LI c s.

Lemma animation_none : forall n lines, n <= 0 -> animation n lines = [].
Proof. intros n lines H. unfold animation, upto. replace (Z.to_nat n) with O by lia. reflexivity. Qed.
Lemma turn_DI : forall c t i inf bufs s s' wk, DI c i inf wk bufs -> (forall u, u <> t -> wk u = s_wk s u) -> at_line (wk t) = None -> turn c t inf bufs s s' -> DI c i (s_info s') (s_wk s') (s_bufs s').
Proof.
  intros c t i inf bufs s s' wk D E A [(K & -> & -> & -> & _)|(K1 & K2 & -> & -> & -> & _)].
  - eapply DI_wk; [apply (DI_finish _ _ _ _ _ (DI_idle _ _ _ _ t _ (Some WWait) D A eq_refl) K)|..].
    + intros u. rewrite !upd_get. destruct (Z.eqb_spec u t); [auto|]. rewrite E; auto.
    + intros u. rewrite upd_get. destruct (Z.eqb_spec u t); [auto|]. rewrite <- E by auto. apply (D_kind _ _ _ _ _ D).
  - eapply DI_wk; [apply (DI_take _ _ _ _ t _ D A K1 K2)|..].
    + intros u. rewrite !upd_get. destruct (Z.eqb_spec u t); [auto|]. rewrite E; auto.
    + intros u. rewrite upd_get. destruct (Z.eqb_spec u t); [auto|]. rewrite <- E by auto. apply (D_kind _ _ _ _ _ D).
Qed.
Lemma turn_written : forall c t inf bufs s s', turn c t inf bufs s s' -> i_written (s_info s') = i_written inf.
Proof. intros c t inf bufs s s' [(K & -> & _)|(_ & _ & -> & _)]; reflexivity. Qed.
Lemma write_full : forall c i s, DI c i (s_info s) (s_wk s) (s_bufs s) -> i_written (s_info s) = f_lines c ->
  exists s1, main_write i s = Some s1 /\ s_files s1 = s_files s ++ [(i, picture i (f_lines c))] /\ s_bufs s1 = 0 /\
    s_info s1 = Info (i_curr (s_info s)) (i_written (s_info s)) false (i_done (s_info s)) (i + 1) (repeat Null (Z.to_nat (f_lines c))) /\ s_tw s1 = s_tw s /\ s_main s1 = s_main s /\ s_wk s1 = s_wk s.
Proof.
  intros c i s D W. destruct (DI_full _ _ _ _ _ D W) as (A & I & C). unfold main_write. rewrite A.
  assert (F : forall x, In x (picture i (f_lines c)) -> is_line x = true) by (intros x X; unfold picture in X; apply in_map_iff in X as (l & <- & _); auto).
  replace (existsb is_junk (picture i (f_lines c))) with false by (symmetry; destruct (existsb _ _) eqn:E; [|auto]; apply existsb_exists in E as (x & X & J); apply F in X; destruct x; discriminate).
  rewrite (filter_same _ _ _ F). eexists. split; [reflexivity|]. cbn [set_info set_bufs set_files s_files s_bufs s_info s_tw s_main s_wk i_curr i_written i_quiesce i_done i_frame i_array].
  assert (LP : length (picture i (f_lines c)) = Z.to_nat (f_lines c)) by (rewrite <- A; apply D).
  split; [auto|]. split; [rewrite LP; rewrite (D_bufs _ _ _ _ _ D), C; pose proof (D_curr _ _ _ _ _ D); lia|]. split; [|auto]. rewrite (D_q _ _ _ _ _ D). f_equal. rewrite <- LP. clear. induction (picture i (f_lines c)) as [|x l IH]; [auto|]. cbn. rewrite IH. auto.
Qed.

(** The invariant is kept by transitions. *)
Lemma tran_LI : forall c s s' x, 0 <= f_lines c -> Th c s -> LI c s -> tran c s s' x -> (forall t, x = Spurious t -> t <> 1) -> LI c s'.
Proof.
  intros c s s' x L0 T L TR SP. unfold Th in T. destruct TR.
  - (* begin *) assert (N : t <> 1) by (intros ->; rewrite (T_wk1 _ _ _ _ _ _ T) in H; discriminate).
    unfold LI, idle in *. rewrite H0, H1, H2, H3, H4. rewrite (H5 1) by auto. destruct (s_main s); auto.
    + destruct L as (? & ? & ? & I). repeat split; auto. intros u. upds; auto.
    + destruct L as (? & ? & ? & I). repeat split; auto. intros u. upds; auto.
    + destruct L as (? & ? & D & ?). split; [auto|]. split; [auto|]. split; [|auto]. apply DI_idle; auto. rewrite H. auto.
    + destruct L as (? & ? & ? & I & ?). repeat split; auto. intros u. upds; auto.
  - (* main begins *) unfold LI, idle in *. rewrite H in L. rewrite H0, H1, H2, H3, H4. auto.
  - (* first lock *) assert (N : t <> 1) by (intros ->; rewrite (T_wk1 _ _ _ _ _ _ T) in H; discriminate).
    unfold LI, idle in *. rewrite H0, H1, H2, H3, H4. rewrite (H6 1) by auto. destruct (s_main s); auto.
    + destruct L as (? & ? & ? & I). repeat split; auto. intros u. upds; auto.
    + destruct L as (? & ? & ? & I). repeat split; auto. intros u. upds; auto.
    + destruct L as (? & ? & D & ?). split; [auto|]. split; [auto|]. split; [|auto]. apply DI_idle; auto. rewrite H. auto.
    + destruct L as (? & ? & ? & I & ?). repeat split; auto. intros u. upds; auto.
  - (* a line is drawn *) assert (N : t <> 1) by (intros ->; rewrite (T_wk1 _ _ _ _ _ _ T) in H; discriminate). assert (A : at_line (s_wk s t) = Some l) by (rewrite H; auto).
    unfold LI, idle in *. rewrite H0, H1, H2, H3, H4. rewrite (H5 1) by auto. destruct (s_main s); auto.
    + destruct L as (? & ? & ? & I). rewrite I in A. discriminate.
    + destruct L as (? & ? & ? & I). rewrite I in A. discriminate.
    + destruct L as (? & ? & D & ?). split; [auto|]. split; [auto|]. split; [|auto]. eapply DI_wk; [exact D|..].
      * intros u. upds; auto.
      * intros u. upds; [apply D|apply (D_kind _ _ _ _ _ D)].
    + destruct L as (? & ? & ? & I & ?). rewrite I in A. discriminate.
  - (* a turn *) assert (N : t <> 1) by (intros ->; rewrite (T_wk1 _ _ _ _ _ _ T) in H; discriminate). assert (A : at_line (s_wk s t) = None) by (rewrite H; auto).
    unfold LI, idle in *. rewrite H2, H3. rewrite (H5 1) by auto. destruct (s_main s) eqn:M; auto; try discriminate H0.
    + destruct L as (E & ? & B & I). rewrite E, B in H4. destruct H4 as [(_ & -> & -> & -> & _)|(K & _)]; [|discriminate]. repeat split; auto. intros u. upds; auto.
    + destruct L as (E & ? & B & I). rewrite E, B in H4. destruct H4 as [(_ & -> & -> & -> & _)|(K & _)]; [|discriminate]. repeat split; auto. intros u. upds; auto.
    + destruct L as (? & ? & D & ?). rewrite (turn_written _ _ _ _ _ _ H4). split; [auto|]. split; [auto|]. split; [|auto]. eapply turn_DI; eauto.
  - (* a line is saved *) assert (N : t <> 1) by (intros ->; rewrite (T_wk1 _ _ _ _ _ _ T) in H; discriminate).
    unfold LI in *. rewrite H0 in L. rewrite H1, H4. rewrite (H6 1) by auto. destruct L as (B & F & D & Z0 & P1 & P2). destruct (DI_save _ _ _ _ _ _ _ D H) as (a' & E & _ & D'). assert (a' = a) by congruence. subst a'.
    rewrite (turn_written _ _ _ _ _ _ H5). cbn [saved i_written]. split; [auto|]. split; [auto|]. split; [eapply turn_DI; [exact D'| |rewrite upd_get, Z.eqb_refl; auto|exact H5]; intros u U; rewrite upd_get, (proj2 (Z.eqb_neq u t) U); auto|]. split; [auto|].
    destruct (DI_less _ _ _ _ _ D') as (_ & LE & _). cbn [saved i_written] in LE. split; [lia|]. intros K. destruct (P2 K). lia.
  - (* the last line *) assert (N : t <> 1) by (intros ->; rewrite (T_wk1 _ _ _ _ _ _ T) in H; discriminate).
    unfold LI in *. rewrite H0 in L. rewrite H1, H6. destruct L as (B & F & D & Z0 & P1 & P2). destruct (DI_save _ _ _ _ _ _ _ D H) as (a' & E & _ & D'). assert (a' = a) by congruence. subst a'.
    destruct (DI_full _ _ _ _ _ D') as (_ & _ & C); [cbn; auto|]. cbn [saved i_curr] in C.
    rewrite (turn_written _ _ _ _ _ _ H7). cbn [saved i_finish i_written]. split; [auto|]. split; [auto|]. split; [eapply turn_DI; [apply (DI_finish _ _ _ _ _ D'); right; cbn; lia| |rewrite upd_get, Z.eqb_refl; auto|exact H7]; intros u U; rewrite upd_get, (proj2 (Z.eqb_neq u t) U); auto|]. split; [auto|].
    split; [intros K; congruence|]. intros _. split; [auto|]. pose proof (D_wr _ _ _ _ _ D). lia.
  - (* the first frame *) unfold LI, idle in L. rewrite H in L. destruct L as (E & F & B & I). unfold LI, idle. rewrite H0, H1, H2. destruct H3 as [(K1 & K2 & K3 & K4 & K5)|(K1 & K2 & K3 & K4)]; rewrite K2, ?K3, ?E, F, B.
    + split; [lia|]. split; [symmetry; apply animation_none; lia|]. split.
      { apply (DI_new c 0 (info0 c)); auto. - cbn. apply repeat_length. - cbn. intros x X. apply repeat_spec in X. subst. auto. }
      split; [auto|]. cbn [i_written]. split; [lia|]. rewrite K4. discriminate.
    + split; [auto|]. split; [symmetry; apply animation_none; lia|]. auto.
  - (* the next frame *) unfold LI in L. rewrite H in L. destruct L as (B & F & D & Z0 & P1 & P2). destruct (P2 H0) as [W LP]. destruct (write_full _ _ _ D W) as (s1' & E & E1 & E2 & E3 & _ & _ & _). assert (s1' = s1) by congruence. subst s1'.
    destruct (DI_full _ _ _ _ _ D W) as (_ & I & _). unfold LI, idle. rewrite H2, H3, H4, E1, E2, F. rewrite E3 in H5. destruct H5 as [(K1 & K2 & K3 & K4 & K5)|(K1 & K2 & K3 & K4)]; rewrite K2, ?K3.
    + split; [lia|]. split; [symmetry; apply animation_succ; lia|]. split.
      { refine (DI_new c (i + 1) (Info (i_curr (s_info s)) (i_written (s_info s)) false (i_done (s_info s)) (i + 1) (repeat Null (Z.to_nat (f_lines c)))) _ L0 _ _ _ _ _); auto.
        - cbn. apply repeat_length. - cbn [i_array]. intros x X. apply repeat_spec in X. rewrite X. rewrite (proj2 (Z.eqb_neq (i + 1) 0)) by lia. auto. }
      split; [lia|]. cbn [i_written]. split; [lia|]. rewrite K4. discriminate.
    + split; [auto|]. split; [|split; [auto|split; [exact I|lia]]]. rewrite <- animation_succ by lia. f_equal. lia.
  - (* a wake up *) assert (N : t <> 1) by (apply SP; auto). unfold LI, idle in *. rewrite H0, H1, H2, H3, H4. rewrite (H6 1) by auto. auto.
Qed.
