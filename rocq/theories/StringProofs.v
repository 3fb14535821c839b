(** Proofs about the string model. *)
From Verif Require Import Base Status StringModel StringSpec.

(** ** Scanning *)
Lemma rev_case : forall (l : list Z), l = [] \/ exists t c, l = t ++ [c].
Proof. intros l. induction l using rev_ind; eauto. Qed.

Ltac app_one pre s post :=
  replace (pre ++ s ++ post) with ((pre ++ s) ++ post) by lapp.

Lemma shift_one : forall (pre : list Z) c s rest,
  pre ++ (c :: s) ++ rest = (pre ++ [c]) ++ s ++ rest.
Proof. intros. rewrite <- app_assoc. reflexivity. Qed.

Lemma len_snoc : forall (pre : list Z) c, length (pre ++ [c]) = S (length pre).
Proof. intros. rewrite app_length. simpl. lia. Qed.

Lemma scan_nul_run : forall s pre rest fuel,
  Forall is_char s -> (length s < fuel)%nat ->
  scan_nul fuel (pre ++ s ++ 0 :: rest) (length pre) = Some (length pre + length s)%nat.
Proof.
  induction s as [|c s IH]; intros pre rest fuel Hs Hf; destruct fuel as [|fuel]; simpl in Hf; try lia.
  - simpl. rewrite ld_app. simpl. f_equal. lia.
  - inversion Hs; subst. simpl scan_nul. rewrite (ld_app pre c).
    destruct (Z.eqb_spec c 0); [unfold is_char in *; lia|].
    rewrite <- (len_snoc pre c).
    replace (pre ++ c :: s ++ 0 :: rest) with ((pre ++ [c]) ++ s ++ 0 :: rest)
      by lapp.
    rewrite IH by (auto; lia). rewrite len_snoc. simpl. f_equal. lia.
Qed.

Lemma find_nul_run : forall s pre rest,
  Forall is_char s ->
  find_nul (pre ++ s ++ 0 :: rest) (length pre) = Some (length pre + length s)%nat.
Proof.
  intros. unfold find_nul. apply scan_nul_run; auto.
  rewrite !app_length. simpl. lia.
Qed.

Lemma strlen_run : forall b p s, cstring_at b p s -> c_strlen b p = Some (length s).
Proof.
  intros b p s (pre & post & -> & <- & Hs). unfold c_strlen.
  rewrite find_nul_run by auto. f_equal. lia.
Qed.

Lemma is_whitespace_ws : forall c, is_char c -> is_whitespace (sext8 c) = true <-> ws c.
Proof.
  intros c Hc. unfold is_whitespace, sext8, ws, is_char in *.
  rewrite !orb_true_iff, !Z.eqb_eq. destruct (Z.ltb_spec c 128); lia.
Qed.

Lemma is_whitespace_0 : is_whitespace (sext8 0) = false.
Proof. reflexivity. Qed.

Lemma skip_ws_run : forall s pre c rest fuel,
  Forall (fun x => is_whitespace (sext8 x) = true) s -> is_whitespace (sext8 c) = false ->
  (length s < fuel)%nat ->
  skip_ws fuel (pre ++ s ++ c :: rest) (length pre) = Some (length pre + length s)%nat.
Proof.
  induction s as [|x s IH]; intros pre c rest fuel Hs Hc Hf; destruct fuel as [|fuel]; simpl in Hf; try lia.
  - simpl. rewrite ld_app. rewrite Hc. f_equal. lia.
  - inversion Hs; subst. simpl skip_ws. rewrite (ld_app pre x). rewrite H1.
    rewrite <- (len_snoc pre x).
    replace (pre ++ x :: s ++ c :: rest) with ((pre ++ [x]) ++ s ++ c :: rest)
      by lapp.
    rewrite IH by (auto; lia). rewrite len_snoc. simpl. f_equal. lia.
Qed.

Lemma scan_delim_run : forall s pre c rest fuel delim,
  Forall (fun x => sext8 x <> 0 /\ sext8 x <> delim) s -> (sext8 c = 0 \/ sext8 c = delim) ->
  (length s < fuel)%nat ->
  scan_delim fuel (pre ++ s ++ c :: rest) (length pre) delim = Some (length pre + length s)%nat.
Proof.
  induction s as [|x s IH]; intros pre c rest fuel delim Hs Hc Hf; destruct fuel as [|fuel]; simpl in Hf; try lia.
  - simpl. rewrite ld_app. destruct (Z.eqb_spec (sext8 c) 0); [f_equal; lia|].
    destruct (Z.eqb_spec (sext8 c) delim); [f_equal; lia|]. lia.
  - inversion Hs; subst. simpl scan_delim. rewrite (ld_app pre x).
    destruct (Z.eqb_spec (sext8 x) 0); [lia|]. destruct (Z.eqb_spec (sext8 x) delim); [lia|].
    rewrite <- (len_snoc pre x).
    replace (pre ++ x :: s ++ c :: rest) with ((pre ++ [x]) ++ s ++ c :: rest)
      by lapp.
    rewrite IH by (auto; lia). rewrite len_snoc. simpl. f_equal. lia.
Qed.

Lemma skip_while_run : forall f s pre c rest fuel,
  Forall (fun x => sext8 x <> 0 /\ f (sext8 x) = true) s ->
  (sext8 c = 0 \/ f (sext8 c) = false) ->
  (length s < fuel)%nat ->
  skip_while fuel f (pre ++ s ++ c :: rest) (length pre) = Some (length pre + length s)%nat.
Proof.
  induction s as [|x s IH]; intros pre c rest fuel Hs Hc Hf; destruct fuel as [|fuel]; simpl in Hf; try lia.
  - simpl. rewrite ld_app.
    replace (negb (sext8 c =? 0) && f (sext8 c)) with false; [f_equal; lia|].
    destruct Hc as [->| ->]; [reflexivity|]. symmetry. apply andb_false_r.
  - inversion Hs as [|? ? [Hx Hfx] Hs']; subst. simpl skip_while. rewrite (ld_app pre x).
    replace (negb (sext8 x =? 0) && f (sext8 x)) with true.
    2:{ rewrite Hfx, andb_true_r. destruct (Z.eqb_spec (sext8 x) 0); [lia|reflexivity]. }
    rewrite <- (len_snoc pre x).
    replace (pre ++ x :: s ++ c :: rest) with ((pre ++ [x]) ++ s ++ c :: rest)
      by lapp.
    rewrite IH by (auto; lia). rewrite len_snoc. simpl. f_equal. lia.
Qed.

Lemma sext8_0 : forall c, is_char c -> sext8 c <> 0.
Proof. unfold sext8, is_char. intros c H. destruct (Z.ltb_spec c 128); lia. Qed.

(** ** Memory facts *)
Lemma unchanged_refl : forall p n b, unchanged_outside p n b b.
Proof. split; auto. Qed.

Lemma unchanged_upd : forall b p v, unchanged_outside p 1 b (upd b p v).
Proof.
  intros. split; [apply upd_length|]. intros i Hi. apply nth_error_upd_neq. lia.
Qed.

Lemma unchanged_weaken : forall p n p' n' b b',
  (p' <= p)%nat -> (p + n <= p' + n')%nat ->
  unchanged_outside p n b b' -> unchanged_outside p' n' b b'.
Proof. intros p n p' n' b b' H1 H2 [L H]. split; auto. intros i Hi. apply H. lia. Qed.

Lemma unchanged_trans : forall p n a b c,
  unchanged_outside p n a b -> unchanged_outside p n b c -> unchanged_outside p n a c.
Proof. intros p n a b c [L1 H1] [L2 H2]. split; [congruence|]. intros. rewrite H2, H1; auto. Qed.

Lemma unchanged_app : forall pre m m' post,
  length m = length m' -> unchanged_outside (length pre) (length m) (pre ++ m ++ post) (pre ++ m' ++ post).
Proof.
  intros pre m m' post L. split; [rewrite !app_length; lia|].
  intros i [Hi|Hi].
  - rewrite !nth_error_app1 by lia. reflexivity.
  - rewrite !(nth_error_app2 pre) by lia. rewrite !nth_error_app2 by lia. rewrite L. reflexivity.
Qed.



Lemma move_bytes_app : forall pre a m post,
  (exists tl, move_bytes (pre ++ a ++ m ++ post) (length pre) (length pre + length a) (length m)
     = Some (pre ++ m ++ tl ++ post) /\ length tl = length a).
Proof.
  intros. unfold move_bytes.
  replace ((_ <=? _)%nat && (_ <=? _)%nat) with true.
  2:{ symmetry. apply andb_true_intro. split; apply Nat.leb_le; rewrite !app_length; lia. }
  rewrite (firstn_exact _ pre) by reflexivity.
  assert (E1: skipn (length pre + length a) (pre ++ a ++ m ++ post) = m ++ post).
  { rewrite (app_assoc pre a). apply skipn_exact. rewrite app_length. reflexivity. }
  assert (E2: skipn (length pre + length m) (pre ++ a ++ m ++ post) = skipn (length m) (a ++ m) ++ post).
  { rewrite skipn_app, skipn_all2 by lia. simpl.
    replace (length pre + length m - length pre)%nat with (length m) by lia.
    rewrite app_assoc, skipn_app.
    replace (length m - length (a ++ m))%nat with 0%nat by (rewrite app_length; lia). reflexivity. }
  rewrite E1, E2, (firstn_exact _ m) by reflexivity.
  exists (skipn (length m) (a ++ m)). split; [reflexivity|].
  rewrite skipn_length, app_length. lia.
Qed.

(** ** C01 *)
Lemma first_delim : forall delim s,
  (exists l d r, s = l ++ d :: r /\ sext8 d = delim /\ (forall c, In c l -> sext8 c <> delim)) \/
  (forall c, In c s -> sext8 c <> delim).
Proof.
  induction s as [|x s IH]; [right; simpl; tauto|].
  destruct (Z.eq_dec (sext8 x) delim) as [E|E].
  - left. exists [], x, s. simpl. intuition.
  - destruct IH as [(l & d & r & -> & Hd & Hl)|H].
    + left. exists (x :: l), d, r. simpl. intuition (subst; eauto).
    + right. simpl. intuition (subst; eauto).
Qed.

Theorem split_correct : forall b p s delim,
  cstring_at b p s ->
  (exists l d r b',
     s = l ++ d :: r /\ sext8 d = delim /\ (forall c, In c l -> sext8 c <> delim) /\
     split b p delim = Some (SplitResult STATUS_SUCCESS (Some p) (Some (p + length l + 1)%nat) b') /\
     cstring_at b' p l /\ cstring_at b' (p + length l + 1) r /\
     unchanged_outside (p + length l) 1 b b')
  \/
  ((forall c, In c s -> sext8 c <> delim) /\
   split b p delim = Some (SplitResult ERROR_STRING_END_OF_INPUT None None b)).
Proof.
  intros b p s delim (pre & post & -> & <- & Hs).
  destruct (first_delim delim s) as [(l & d & r & -> & Hd & Hl)|Hno].
  - left. apply Forall_app in Hs as [Hsl Hsr]. inversion Hsr as [|? ? Hcd Hcr]; subst.
    exists l, d, r, (pre ++ l ++ 0 :: r ++ 0 :: post).
    replace (pre ++ (l ++ d :: r) ++ 0 :: post) with (pre ++ l ++ d :: (r ++ 0 :: post))
      by lapp.
    split; [reflexivity|]. split; [reflexivity|]. split; [exact Hl|]. split; [|split; [|split]].
    + unfold split. rewrite scan_delim_run.
      * replace (pre ++ l ++ d :: r ++ 0 :: post) with ((pre ++ l) ++ d :: r ++ 0 :: post)
          by lapp.
        rewrite ld_app_at by (rewrite app_length; reflexivity).
        destruct (Z.eqb_spec d 0); [unfold is_char in *; lia|].
        rewrite st_app_at by (rewrite app_length; reflexivity).
        rewrite <- app_assoc. reflexivity.
      * apply Forall_forall. intros x Hx. split; [apply sext8_0; rewrite Forall_forall in Hsl; auto|auto].
      * right; reflexivity.
      * rewrite !app_length. simpl. lia.
    + exists pre, (r ++ 0 :: post). auto.
    + exists (pre ++ l ++ [0]), post. rewrite !app_length. simpl. rewrite <- !app_assoc. simpl.
      split; [reflexivity|]. split; [lia|auto].
    + rewrite <- (app_length pre l).
      pose proof (unchanged_app (pre ++ l) [d] [0] (r ++ 0 :: post) eq_refl) as U.
      rewrite <- !app_assoc in U. exact U.
  - right. split; [exact Hno|]. unfold split. rewrite scan_delim_run.
    + app_one pre s (0 :: post). rewrite ld_app_at by (rewrite app_length; reflexivity). reflexivity.
    + apply Forall_forall. intros x Hx. split; [apply sext8_0; rewrite Forall_forall in Hs; auto|auto].
    + left; reflexivity.
    + rewrite !app_length. simpl. lia.
Qed.

(** A byte in 128..255 passed as such never matches. *)
Theorem split_high_never : forall b p s delim,
  cstring_at b p s -> 128 <= delim ->
  split b p delim = Some (SplitResult ERROR_STRING_END_OF_INPUT None None b).
Proof.
  intros b p s delim H Hd.
  destruct (split_correct b p s delim H) as [(l & d & r & b' & -> & Hx & _)|[_ E]]; [|exact E].
  exfalso. destruct H as (pre & post & _ & _ & Hs).
  apply Forall_app in Hs as [_ Hs]. inversion Hs; subst.
  unfold sext8, is_char in *. destruct (Z.ltb_spec d 128); lia.
Qed.

(** ** C02 *)
Lemma ws_dec : forall c, {ws c} + {~ ws c}.
Proof.
  intros c. unfold ws. destruct (Z_le_dec 9 c), (Z_le_dec c 13), (Z.eq_dec c 32);
    (left; lia) || (right; lia).
Defined.

Lemma blank_prefix : forall s, exists bl t, s = bl ++ t /\ Forall ws bl /\ ~ starts_blank t.
Proof.
  induction s as [|x s (bl & t & -> & Hb & Ht)].
  - exists [], []. repeat split; auto. intros (c & t & E & _). discriminate.
  - destruct (ws_dec x).
    + exists (x :: bl), t. repeat split; auto.
    + exists [], (x :: bl ++ t). repeat split; auto. intros (c & t' & E & Hc). inversion E; subst. auto.
Qed.

Lemma blank_suffix : forall s, exists t bl, s = t ++ bl /\ Forall ws bl /\ ~ ends_blank t.
Proof.
  intros s. induction s as [|x s (t & bl & -> & Hb & Ht)] using rev_ind.
  - exists [], []. repeat split; auto. intros (c & t & E & _). destruct t; discriminate.
  - destruct (ws_dec x).
    + exists t, (bl ++ [x]). rewrite app_assoc. repeat split; auto. apply Forall_app; auto.
    + exists ((t ++ bl) ++ [x]), []. rewrite app_nil_r. repeat split; auto.
      intros (c & t' & E & Hc). apply app_inj_tail in E as [_ ->]. auto.
Qed.

Lemma ws_char : forall c, ws c -> is_char c.
Proof. unfold ws, is_char. lia. Qed.

Lemma Forall_ws_iswhite : forall l, Forall ws l -> Forall (fun x => is_whitespace (sext8 x) = true) l.
Proof.
  intros. eapply Forall_impl; [|exact H]. intros c Hc. apply is_whitespace_ws; auto. apply ws_char; auto.
Qed.

Lemma not_starts_blank_next : forall t post, Forall is_char t -> ~ starts_blank t ->
  exists c r, t ++ 0 :: post = c :: r /\ is_whitespace (sext8 c) = false.
Proof.
  intros [|c t] post Hc Hn; simpl.
  - exists 0, post. auto.
  - exists c, (t ++ 0 :: post). split; auto.
    destruct (is_whitespace (sext8 c)) eqn:E; auto. exfalso. apply Hn. exists c, t. split; auto.
    apply is_whitespace_ws; auto. inversion Hc; auto.
Qed.

Lemma left_trim_exact : forall pre bl t post,
  Forall ws bl -> Forall is_char t -> ~ starts_blank t ->
  exists tl, left_trim (pre ++ (bl ++ t) ++ 0 :: post) (length pre) = Some (pre ++ t ++ 0 :: tl ++ post)
    /\ length tl = length bl.
Proof.
  intros pre bl t post Hb Ht Hn. unfold left_trim.
  replace (pre ++ (bl ++ t) ++ 0 :: post) with (pre ++ bl ++ t ++ 0 :: post) by lapp.
  destruct (not_starts_blank_next t post Ht Hn) as (c & r & E & Ew).
  assert (S1: skip_ws (S (length (pre ++ bl ++ t ++ 0 :: post))) (pre ++ bl ++ t ++ 0 :: post) (length pre)
     = Some (length pre + length bl)%nat).
  { rewrite E. apply skip_ws_run; auto using Forall_ws_iswhite. rewrite !app_length. lia. }
  rewrite S1.
  assert (S2: find_nul (pre ++ bl ++ t ++ 0 :: post) (length pre + length bl) = Some (length pre + length bl + length t)%nat).
  { rewrite <- app_length.
    replace (pre ++ bl ++ t ++ 0 :: post) with ((pre ++ bl) ++ t ++ 0 :: post) by lapp.
    apply find_nul_run. auto. }
  rewrite S2.
  destruct (move_bytes_app pre bl (t ++ [0]) post) as (tl & M & L).
  replace (pre ++ bl ++ t ++ 0 :: post) with (pre ++ bl ++ (t ++ [0]) ++ post) by lapp.
  replace (length pre + length bl + length t - (length pre + length bl) + 1)%nat with (length (t ++ [0]))
    by (rewrite app_length; simpl; lia).
  rewrite M. exists tl. split; [|auto]. rewrite <- !app_assoc. reflexivity.
Qed.

Theorem left_trim_correct : forall b p s, cstring_at b p s ->
  exists bl t b', s = bl ++ t /\ Forall ws bl /\ ~ starts_blank t /\
    left_trim b p = Some b' /\ cstring_at b' p t /\ unchanged_outside p (length s + 1) b b'.
Proof.
  intros b p s (pre & post & -> & <- & Hs).
  destruct (blank_prefix s) as (bl & t & -> & Hb & Hn).
  apply Forall_app in Hs as [_ Ht].
  destruct (left_trim_exact pre bl t post Hb Ht Hn) as (tl & E & L).
  exists bl, t, (pre ++ t ++ 0 :: tl ++ post). do 4 (split; auto). split.
  - exists pre, (tl ++ post). auto.
  - pose proof (unchanged_app pre ((bl ++ t) ++ [0]) (t ++ 0 :: tl) post) as U.
    rewrite <- !app_assoc in *. simpl in U. rewrite !app_length in *. simpl in *.
    eapply unchanged_weaken; [| |apply U]; lia.
Qed.

Lemma left_trim_fixed : forall b p s, cstring_at b p s -> ~ starts_blank s -> left_trim b p = Some b.
Proof.
  intros b p s (pre & post & -> & <- & Hs) Hn.
  destruct (left_trim_exact pre [] s post (Forall_nil _) Hs Hn) as (tl & E & L).
  destruct tl; [|discriminate]. exact E.
Qed.

(** Walking back over the blanks [bl] that follow [t]. *)
Lemma back_ws_run : forall bl pre t c rest fuel,
  Forall ws bl -> ~ ws c -> is_char c -> (length bl < fuel)%nat ->
  back_ws fuel (pre ++ (t ++ [c]) ++ bl ++ rest) (length pre) (length pre + length t + length bl)
  = Some (length pre + length t)%nat.
Proof.
  induction bl as [|x bl IH] using rev_ind; intros pre t c rest fuel Hb Hc Hcc Hf;
    destruct fuel as [|fuel]; try lia; simpl.
  - replace (length pre + length t + 0)%nat with (length pre + length t)%nat by lia.
    destruct (Nat.eqb_spec (length pre + length t) (length pre)); [reflexivity|].
    replace (pre ++ (t ++ [c]) ++ rest) with ((pre ++ t) ++ c :: rest) by lapp.
    rewrite ld_app_at by (rewrite app_length; reflexivity).
    destruct (is_whitespace (sext8 c)) eqn:E; [|reflexivity].
    apply is_whitespace_ws in E; tauto.
  - apply Forall_app in Hb as [Hb Hx]. inversion Hx; subst.
    rewrite app_length in *. simpl in *.
    destruct (Nat.eqb_spec (length pre + length t + (length bl + 1)) (length pre)); [lia|].
    replace (pre ++ (t ++ [c]) ++ (bl ++ [x]) ++ rest) with ((pre ++ t ++ [c] ++ bl) ++ x :: rest)
      by lapp.
    rewrite ld_app_at by (rewrite !app_length; simpl; lia).
    assert (is_whitespace (sext8 x) = true) as -> by (apply is_whitespace_ws; auto using ws_char).
    replace (length pre + length t + (length bl + 1) - 1)%nat with (length pre + length t + length bl)%nat by lia.
    replace ((pre ++ t ++ [c] ++ bl) ++ x :: rest) with (pre ++ (t ++ [c]) ++ bl ++ (x :: rest))
      by lapp.
    apply IH; auto. lia.
Qed.

(** All blank: the walk stops at the first character. *)
Lemma back_ws_all : forall bl pre rest fuel x,
  Forall ws bl -> (length bl < fuel)%nat ->
  back_ws fuel (pre ++ (x :: bl) ++ rest) (length pre) (length pre + length bl) = Some (length pre).
Proof.
  induction bl as [|y bl IH] using rev_ind; intros pre rest fuel x Hb Hf;
    destruct fuel as [|fuel]; try lia; simpl.
  - rewrite Nat.add_0_r, Nat.eqb_refl. reflexivity.
  - apply Forall_app in Hb as [Hb Hx]. inversion Hx; subst.
    rewrite app_length in *. simpl in *.
    destruct (Nat.eqb_spec (length pre + (length bl + 1)) (length pre)); [lia|].
    replace (pre ++ x :: (bl ++ [y]) ++ rest) with ((pre ++ x :: bl) ++ y :: rest)
      by lapp.
    rewrite ld_app_at by (rewrite !app_length; simpl; lia).
    assert (is_whitespace (sext8 y) = true) as -> by (apply is_whitespace_ws; auto using ws_char).
    replace (length pre + (length bl + 1) - 1)%nat with (length pre + length bl)%nat by lia.
    replace ((pre ++ x :: bl) ++ y :: rest) with (pre ++ (x :: bl) ++ (y :: rest))
      by lapp.
    apply IH; auto. lia.
Qed.

Lemma right_trim_exact : forall pre t bl post,
  Forall ws bl -> Forall is_char t -> ~ ends_blank t ->
  right_trim (pre ++ (t ++ bl) ++ 0 :: post) (length pre)
  = Some (upd (pre ++ (t ++ bl) ++ 0 :: post) (length pre + length t) 0).
Proof.
  intros pre t bl post Hb Ht Hn. unfold right_trim.
  assert (Hc: Forall is_char (t ++ bl)).
  { apply Forall_app; split; auto. eapply Forall_impl; [|exact Hb]. apply ws_char. }
  rewrite find_nul_run by exact Hc.
  cbv zeta.
  destruct (rev_case t) as [->|(t' & c & ->)].
  - (* everything is blank *)
    simpl app in *. simpl length. rewrite !Nat.add_0_r. simpl Nat.add.
    destruct bl as [|x bl].
    + simpl length. rewrite Nat.add_0_r, Nat.eqb_refl. simpl.
      rewrite Nat.eqb_refl. simpl. rewrite Nat.eqb_refl. rewrite ld_app. simpl.
      f_equal. symmetry. apply upd_id. apply ld_app.
    + destruct (Nat.eqb_spec (length pre + length (x :: bl)) (length pre)) as [E|_]; [simpl in E; lia|].
      inversion Hb; subst.
      replace (length pre + length (x :: bl) - 1)%nat with (length pre + length bl)%nat by (simpl; lia).
      rewrite back_ws_all by (auto; rewrite !app_length; simpl; lia).
      rewrite Nat.eqb_refl. simpl app. rewrite ld_app.
      assert (is_whitespace (sext8 x) = true) as -> by (apply is_whitespace_ws; auto using ws_char).
      destruct (Z.eqb_spec x 0); [unfold ws in *; lia|].
      rewrite st_app, upd_app. reflexivity.
  - apply Forall_app in Ht as [Ht' Hc']. inversion Hc'; subst.
    assert (Hw: ~ ws c) by (intros Hw; apply Hn; exists c, t'; auto).
    assert (L: length ((t' ++ [c]) ++ bl) = (length t' + 1 + length bl)%nat) by (rewrite !app_length; reflexivity).
    assert (L1: length (t' ++ [c]) = (length t' + 1)%nat) by (rewrite app_length; reflexivity).
    rewrite L, L1.
    destruct (Nat.eqb_spec (length pre + (length t' + 1 + length bl)) (length pre)) as [E|_]; [lia|].
    replace (length pre + (length t' + 1 + length bl) - 1)%nat with (length pre + length t' + length bl)%nat by lia.
    replace (pre ++ ((t' ++ [c]) ++ bl) ++ 0 :: post) with (pre ++ (t' ++ [c]) ++ bl ++ 0 :: post) by lapp.
    rewrite back_ws_run by (auto; rewrite !app_length; simpl; lia).
    assert (Hst: st (pre ++ (t' ++ [c]) ++ bl ++ 0 :: post) (length pre + length t' + 1) 0
       = Some (upd (pre ++ (t' ++ [c]) ++ bl ++ 0 :: post) (length pre + (length t' + 1)) 0)).
    { unfold st. rewrite Nat.add_assoc.
      replace (_ <? _)%nat with true; [reflexivity|].
      symmetry. apply Nat.ltb_lt. rewrite !app_length. simpl. lia. }
    destruct (Nat.eqb_spec (length pre + length t') (length pre)) as [E|_].
    + assert (t' = []) as -> by (destruct t'; [auto|simpl in E; lia]).
      replace (pre ++ ([] ++ [c]) ++ bl ++ 0 :: post) with (pre ++ c :: (bl ++ 0 :: post)) in * by lapp.
      rewrite ld_app_at by (simpl; lia).
      destruct (Z.eqb_spec c 0); [unfold is_char in *; lia|].
      destruct (is_whitespace (sext8 c)) eqn:Ew; [apply is_whitespace_ws in Ew; tauto|].
      exact Hst.
    + exact Hst.
Qed.

Lemma upd_shift : forall (a : list Z) x b n v, n = length a -> upd (a ++ x :: b) n v = a ++ v :: b.
Proof. intros; subst. apply upd_app. Qed.

Theorem right_trim_correct : forall b p s, cstring_at b p s ->
  exists t bl b', s = t ++ bl /\ Forall ws bl /\ ~ ends_blank t /\
    right_trim b p = Some b' /\ cstring_at b' p t /\ unchanged_outside (p + length t) 1 b b'.
Proof.
  intros b p s (pre & post & -> & <- & Hs).
  destruct (blank_suffix s) as (t & bl & -> & Hb & Hn).
  apply Forall_app in Hs as [Ht _].
  pose proof (right_trim_exact pre t bl post Hb Ht Hn) as E.
  exists t, bl. eexists. split; [reflexivity|]. split; [exact Hb|]. split; [exact Hn|]. split; [exact E|].
  split; [|apply unchanged_upd].
  destruct bl as [|x bl].
  - exists pre, post. split; [|auto].
    replace (pre ++ (t ++ []) ++ 0 :: post) with ((pre ++ t) ++ 0 :: post) by (rewrite app_nil_r; lapp).
    rewrite upd_shift by (rewrite app_length; reflexivity). lapp.
  - exists pre, (bl ++ 0 :: post). split; [|auto].
    replace (pre ++ (t ++ x :: bl) ++ 0 :: post) with ((pre ++ t) ++ x :: (bl ++ 0 :: post)) by lapp.
    rewrite upd_shift by (rewrite app_length; reflexivity). lapp.
Qed.

Lemma right_trim_fixed : forall b p s, cstring_at b p s -> ~ ends_blank s -> right_trim b p = Some b.
Proof.
  intros b p s (pre & post & -> & <- & Hs) Hn.
  pose proof (right_trim_exact pre s [] post (Forall_nil _) Hs Hn) as E.
  rewrite app_nil_r in E. rewrite E. f_equal. apply upd_id.
  replace (pre ++ s ++ 0 :: post) with ((pre ++ s) ++ 0 :: post) by lapp.
  rewrite <- app_length. apply ld_app.
Qed.

Lemma ends_blank_suffix : forall a t, ~ ends_blank (a ++ t) -> ~ ends_blank t.
Proof. intros a t H (c & r & -> & Hc). apply H. exists c, (a ++ r). split; auto. apply app_assoc. Qed.

Theorem trim_correct : forall b p s, cstring_at b p s ->
  exists bl t br b', s = bl ++ t ++ br /\ Forall ws bl /\ Forall ws br /\
    ~ starts_blank t /\ ~ ends_blank t /\
    trim b p = Some b' /\ cstring_at b' p t /\ unchanged_outside p (length s + 1) b b' /\
    trim b' p = Some b'.
Proof.
  intros b p s H.
  destruct (right_trim_correct b p s H) as (u & br & b1 & -> & Hbr & Hnu & E1 & C1 & U1).
  destruct (left_trim_correct b1 p u C1) as (bl & t & b2 & -> & Hbl & Hnt & E2 & C2 & U2).
  exists bl, t, br, b2. split; [lapp|]. do 3 (split; [assumption|]).
  assert (He: ~ ends_blank t) by (eapply ends_blank_suffix; eauto).
  split; [exact He|]. split; [unfold trim; rewrite E1; exact E2|]. split; [exact C2|]. split.
  - rewrite !app_length in *. eapply unchanged_trans.
    + eapply unchanged_weaken; [| |exact U1]; lia.
    + eapply unchanged_weaken; [| |exact U2]; lia.
  - unfold trim. rewrite (right_trim_fixed b2 p t) by assumption. apply left_trim_fixed with (s := t); assumption.
Qed.

Theorem left_trim_idempotent : forall b p s b', cstring_at b p s ->
  left_trim b p = Some b' -> left_trim b' p = Some b'.
Proof.
  intros b p s b' H E. destruct (left_trim_correct b p s H) as (bl & t & b2 & _ & _ & Hn & E2 & C & _).
  assert (b2 = b') by congruence. subst. eapply left_trim_fixed; eauto.
Qed.

Theorem right_trim_idempotent : forall b p s b', cstring_at b p s ->
  right_trim b p = Some b' -> right_trim b' p = Some b'.
Proof.
  intros b p s b' H E. destruct (right_trim_correct b p s H) as (bl & t & b2 & _ & _ & Hn & E2 & C & _).
  assert (b2 = b') by congruence. subst. eapply right_trim_fixed; eauto.
Qed.

Theorem chomp_correct : forall b p s, cstring_at b p s ->
  (s = [] /\ chomp b p = Some b) \/
  (exists t c b', s = t ++ [c] /\ chomp b p = Some b' /\ cstring_at b' p t /\
     unchanged_outside (p + length t) 1 b b').
Proof.
  intros b p s (pre & post & -> & <- & Hs). unfold chomp.
  destruct (rev_case s) as [->|(t & c & ->)].
  - left. split; auto. simpl app. rewrite ld_app. reflexivity.
  - right. exists t, c. eexists. split; [reflexivity|].
    pose proof (find_nul_run _ pre post Hs) as F.
    apply Forall_app in Hs as [Ht Hc]. inversion Hc; subst.
    assert (exists x r, t ++ [c] = x :: r /\ is_char x) as (x & r & Ex & Hx).
    { destruct t as [|x t]; simpl; [exists c, []; auto|]. inversion Ht; subst. eauto. }
    replace (ld (pre ++ (t ++ [c]) ++ 0 :: post) (length pre)) with (Some x)
      by (rewrite Ex; symmetry; apply (ld_app pre x)).
    destruct (Z.eqb_spec x 0); [unfold is_char in *; lia|].
    rewrite F. rewrite app_length. simpl length.
    replace (length pre + (length t + 1) - 1)%nat with (length pre + length t)%nat by lia.
    replace (pre ++ (t ++ [c]) ++ 0 :: post) with ((pre ++ t) ++ c :: 0 :: post) by lapp.
    rewrite st_app_at by (rewrite app_length; reflexivity).
    split; [reflexivity|]. split.
    + exists pre, (0 :: post). split; [lapp|auto].
    + rewrite <- (upd_shift (pre ++ t) c (0 :: post) (length pre + length t) 0) by (rewrite app_length; reflexivity).
      apply unchanged_upd.
Qed.

(** ** C03 *)
Lemma cstring_sub : forall b p s n, cstring_at b p s -> (n <= length s)%nat ->
  firstn n (skipn p b) = firstn n s /\ (p + n <= length b)%nat.
Proof.
  intros b p s n (pre & post & -> & <- & Hs) Hn. rewrite skipn_exact by reflexivity.
  rewrite firstn_app. replace (n - length s)%nat with 0%nat by lia. simpl. rewrite app_nil_r.
  rewrite !app_length. split; [reflexivity|lia].
Qed.

Theorem starts_with_correct : forall b1 p1 s b2 p2 t,
  cstring_at b1 p1 s -> cstring_at b2 p2 t ->
  exists v, starts_with (Some (b1, p1)) (Some (b2, p2)) = Some v /\
    (v = true <-> exists r, s = t ++ r).
Proof.
  intros b1 p1 s b2 p2 t H1 H2. unfold starts_with.
  rewrite (strlen_run _ _ _ H1), (strlen_run _ _ _ H2).
  destruct (Nat.ltb_spec (length s) (length t)) as [L|L].
  - exists false. split; auto. split; [discriminate|]. intros (r & ->). rewrite app_length in L. lia.
  - unfold mem_eq.
    destruct (cstring_sub _ _ _ (length t) H1 L) as [E1 B1].
    destruct (cstring_sub _ _ _ (length t) H2 (le_n _)) as [E2 B2].
    replace ((_ <=? _)%nat && (_ <=? _)%nat) with true
      by (symmetry; apply andb_true_intro; split; apply Nat.leb_le; lia).
    rewrite E1, E2, firstn_all. eexists. split; [reflexivity|].
    destruct (list_eq_dec Z.eq_dec (firstn (length t) s) t) as [E|N].
    + split; [|auto]. intros _. exists (skipn (length t) s). rewrite <- E at 1. symmetry. apply firstn_skipn.
    + split; [discriminate|]. intros (r & ->). exfalso. apply N. apply firstn_exact. reflexivity.
Qed.

Theorem ends_with_correct : forall b p s ch, cstring_at b p s ->
  exists v, ends_with b p ch = Some v /\
    (v = true <-> exists t c, s = t ++ [c] /\ sext8 c = ch).
Proof.
  intros b p s ch (pre & post & -> & <- & Hs). unfold ends_with.
  destruct (rev_case s) as [->|(t & c & ->)].
  - simpl app. rewrite ld_app. exists false. split; auto. split; [discriminate|].
    intros (t & c & E & _). destruct t; discriminate.
  - pose proof (find_nul_run _ pre post Hs) as F.
    apply Forall_app in Hs as [Ht Hc]. inversion Hc; subst.
    assert (exists x r, t ++ [c] = x :: r /\ is_char x) as (x & r & Ex & Hx).
    { destruct t as [|x t]; simpl; [exists c, []; auto|]. inversion Ht; subst. eauto. }
    replace (ld (pre ++ (t ++ [c]) ++ 0 :: post) (length pre)) with (Some x)
      by (rewrite Ex; symmetry; apply (ld_app pre x)).
    destruct (Z.eqb_spec x 0); [unfold is_char in *; lia|].
    rewrite F. rewrite app_length. simpl length.
    replace (length pre + (length t + 1) - 1)%nat with (length pre + length t)%nat by lia.
    replace (pre ++ (t ++ [c]) ++ 0 :: post) with ((pre ++ t) ++ c :: 0 :: post) by lapp.
    rewrite ld_app_at by (rewrite app_length; reflexivity).
    eexists. split; [reflexivity|]. rewrite Z.eqb_eq. split.
    + intros E. eauto.
    + intros (t2 & c2 & E & Hc2). apply app_inj_tail in E as [_ ->]. exact Hc2.
Qed.

Theorem starts_with_null : forall str,
  starts_with str None = Some true /\
  (forall b p, starts_with None (Some (b, p)) = Some false).
Proof. intros [[b p]|]; split; reflexivity. Qed.

(** ** C04 *)
Definition delim_of (f : Z -> bool) (c : Z) : Prop := f (sext8 c) = true.

Lemma Forall_delim_skip : forall f d, Forall is_char d -> Forall (delim_of f) d ->
  Forall (fun x => sext8 x <> 0 /\ f (sext8 x) = true) d.
Proof.
  intros f d H1 H2. rewrite Forall_forall in *. intros x Hx. split; [apply sext8_0; auto|apply H2; auto].
Qed.

Lemma Forall_ndelim_skip : forall f d, Forall is_char d -> Forall (fun c => ~ delim_of f c) d ->
  Forall (fun x => sext8 x <> 0 /\ negb (f (sext8 x)) = true) d.
Proof.
  intros f d H1 H2. rewrite Forall_forall in *. intros x Hx. split; [apply sext8_0; auto|].
  specialize (H2 x Hx). unfold delim_of in H2. destruct (f (sext8 x)); [congruence|reflexivity].
Qed.

Lemma next_token_end : forall f tok pre d post,
  Forall is_char d -> Forall (delim_of f) d ->
  next_token f tok (pre ++ d ++ 0 :: post) (length pre)
  = Some (NextResult ERROR_STRING_END_OF_INPUT None
            (StringIterator (Some (length pre + length d)%nat) tok) (pre ++ d ++ 0 :: post)).
Proof.
  intros f tok pre d post Hc Hd. unfold next_token.
  rewrite skip_while_run; [|apply Forall_delim_skip; auto|left; reflexivity|rewrite !app_length; simpl; lia].
  replace (pre ++ d ++ 0 :: post) with ((pre ++ d) ++ 0 :: post) by lapp.
  rewrite ld_app_at by (rewrite app_length; reflexivity). reflexivity.
Qed.

(** A call that finds the word [c :: w] after delimiters [d]; [e] is the byte
    after it. *)
Lemma next_token_word : forall f tok pre d c w e post,
  Forall is_char d -> Forall (delim_of f) d ->
  Forall is_char (c :: w) -> Forall (fun x => ~ delim_of f x) (c :: w) ->
  (e = 0 \/ (is_char e /\ delim_of f e)) ->
  next_token f tok (pre ++ d ++ (c :: w) ++ e :: post) (length pre)
  = Some (NextResult STATUS_SUCCESS (Some (length pre + length d)%nat)
            (StringIterator (Some (length pre + length d + length (c :: w) +
               (if Z.eqb e 0 then 0 else 1))%nat) tok)
            (pre ++ d ++ (c :: w) ++ 0 :: post)).
Proof.
  intros f tok pre d c w e post Hd Hdd Hw Hwn He. unfold next_token.
  inversion Hw as [|? ? Hc Hw']; subst. inversion Hwn as [|? ? Hcn Hwn']; subst.
  replace (pre ++ d ++ (c :: w) ++ e :: post) with (pre ++ d ++ c :: (w ++ e :: post)) by lapp.
  rewrite skip_while_run; [|apply Forall_delim_skip; auto| |rewrite !app_length; simpl; lia].
  2:{ right. unfold delim_of in Hcn. destruct (f (sext8 c)); congruence. }
  replace (pre ++ d ++ c :: (w ++ e :: post)) with ((pre ++ d) ++ c :: (w ++ e :: post)) by lapp.
  rewrite ld_app_at by (rewrite app_length; reflexivity).
  destruct (Z.eqb_spec c 0); [unfold is_char in *; lia|].
  replace ((pre ++ d) ++ c :: w ++ e :: post) with (((pre ++ d) ++ [c]) ++ w ++ e :: post) by lapp.
  replace (S (length pre + length d)) with (length ((pre ++ d) ++ [c])) by (rewrite !app_length; simpl; lia).
  rewrite skip_while_run; [|apply (Forall_ndelim_skip f); auto| |rewrite !app_length; simpl; lia].
  2:{ destruct He as [->|[_ He]]; [left; reflexivity|right]. unfold delim_of in He. rewrite He. reflexivity. }
  replace (((pre ++ d) ++ [c]) ++ w ++ e :: post) with ((((pre ++ d) ++ [c]) ++ w) ++ e :: post) by lapp.
  rewrite ld_app_at by (rewrite (app_length ((pre ++ d) ++ [c])); reflexivity).
  destruct (Z.eqb_spec e 0) as [->|Ne].
  -
    match goal with |- Some (NextResult _ _ (StringIterator (Some ?a) _) ?m)
                     = Some (NextResult _ _ (StringIterator (Some ?b) _) ?m') =>
      replace a with b by (rewrite !app_length; simpl; lia); replace m with m' by lapp end.
    reflexivity.
  - rewrite st_app_at by (rewrite (app_length ((pre ++ d) ++ [c])); reflexivity).
    match goal with |- Some (NextResult _ _ (StringIterator (Some ?a) _) ?m)
                     = Some (NextResult _ _ (StringIterator (Some ?b) _) ?m') =>
      replace a with b by (rewrite !app_length; simpl; lia); replace m with m' by lapp end.
    reflexivity.
Qed.

(** Dropping the delimiter that starts the text drops it from the runs. *)
Lemma runs_drop_delim : forall (D : Z -> Prop) p e rest l,
  D e -> Runs D p (e :: rest) l -> Runs D (p + 1) rest l.
Proof.
  intros D p e rest l He H. inversion H as [? d0 Hd0|? d0 w0 r0 l0 Hd0 Hw0 Hn0 Hr0 HR0 E1 E2]; subst.
  - constructor. inversion Hd0; auto.
  - destruct d0 as [|y d0].
    + destruct w0 as [|z w0]; [congruence|]. simpl in E2. inversion E2; subst.
      inversion Hn0; subst. contradiction.
    + simpl in E2. inversion E2; subst. inversion Hd0; subst.
      replace (p + length (e :: d0))%nat with (p + 1 + length d0)%nat by (simpl; lia).
      constructor; auto.
      match goal with H : Runs _ ?a _ _ |- Runs _ ?b _ _ => replace b with a by (simpl; lia); exact H end.
Qed.

Lemma runs_nil : forall D p l, Runs D p [] l -> l = [].
Proof.
  intros D p l H. inversion H as [|pp d0 w0 r0 l0 Hd0 Hw0 Hn0 Hr0 HR0 E1 E]; subst; auto.
  destruct d0, w0; try discriminate; congruence.
Qed.

(** [call] is [next_token f] started at the argument or resumed at the iterator. *)
Definition steps_by (f : Z -> bool) (tok : option (Z -> bool))
  (call : option nat -> string_iterator -> list Z -> option next_result) : Prop :=
  forall arg it b start,
    (arg = Some start \/ (arg = None /\ it = StringIterator (Some start) tok)) ->
    call arg it b = next_token f tok b start.

Lemma iterate_runs : forall f tok call, steps_by f tok call ->
  forall n s p l, (length s <= n)%nat -> Runs (delim_of f) p s l ->
  forall pre post arg it, length pre = p -> Forall is_char s ->
  (arg = Some p \/ (arg = None /\ it = StringIterator (Some p) tok)) ->
  exists b', Session call arg it (pre ++ s ++ 0 :: post) (map fst l) b' /\
    Forall (fun qw => cstring_at b' (fst qw) (snd qw)) l /\
    (exists s', b' = pre ++ s' ++ 0 :: post /\ length s' = length s).
Proof.
  intros f tok call call_start n.
  induction n as [n IHn] using lt_wf_ind. intros s p l Hn H pre post arg it Hp Hs Harg.
  destruct H as [p d Hd|p d w rest l Hd Hw Hnw Hrest HR].
  - exists (pre ++ d ++ 0 :: post). subst p. split; [|split; [constructor|eauto]].
    simpl. econstructor.
    + rewrite (call_start _ _ _ (length pre)) by exact Harg.
      apply next_token_end; auto.
    + rewrite (call_start _ _ _ (length pre + length d)%nat) by (right; auto).
      replace (pre ++ d ++ 0 :: post) with ((pre ++ d) ++ [] ++ 0 :: post) by lapp.
      replace (length pre + length d)%nat with (length (pre ++ d)) by (apply app_length).
      rewrite next_token_end by constructor. simpl. rewrite Nat.add_0_r. reflexivity.
  - destruct w as [|c w]; [congruence|]. subst p.
    apply Forall_app in Hs as [Hsd Hs]. apply Forall_app in Hs as [Hsw Hsr].
    destruct rest as [|e rest].
    + (* the word ends at the terminator *)
      apply runs_nil in HR. subst l.
      exists (pre ++ d ++ (c :: w) ++ 0 :: post). split; [|split].
      * simpl map. eapply session_next.
        -- rewrite (call_start _ _ _ (length pre)) by exact Harg.
           replace (pre ++ (d ++ (c :: w) ++ []) ++ 0 :: post) with (pre ++ d ++ (c :: w) ++ 0 :: post)
             by (rewrite app_nil_r; lapp).
           apply next_token_word; auto.
        -- change (0 =? 0) with true. cbv iota.
           replace (length pre + length d + length (c :: w) + 0)%nat with (length (pre ++ d ++ c :: w))
             by (rewrite !app_length; lia).
           assert (E: next_token f tok (pre ++ d ++ (c :: w) ++ 0 :: post) (length (pre ++ d ++ c :: w))
             = Some (NextResult ERROR_STRING_END_OF_INPUT None
                 (StringIterator (Some (length (pre ++ d ++ c :: w))) tok) (pre ++ d ++ (c :: w) ++ 0 :: post))).
           { replace (pre ++ d ++ (c :: w) ++ 0 :: post) with ((pre ++ d ++ (c :: w)) ++ [] ++ 0 :: post) by lapp.
             rewrite next_token_end by constructor. simpl (length []). rewrite Nat.add_0_r. reflexivity. }
           econstructor.
           ++ erewrite call_start by (right; split; reflexivity). exact E.
           ++ erewrite call_start by (right; split; reflexivity). exact E.
      * constructor; [|constructor]. simpl. exists (pre ++ d), post. rewrite app_length.
        split; [lapp|auto].
      * exists (d ++ (c :: w)). split; [lapp|]. rewrite app_nil_r. reflexivity.
    + assert (He: is_char e /\ delim_of f e) by (inversion Hsr; subst; split; eauto).
      apply runs_drop_delim in HR; [|apply He].
      assert (Hsr': Forall is_char rest) by (inversion Hsr; auto).
      set (pre' := pre ++ d ++ (c :: w) ++ [0]).
      assert (Lp: length pre' = (length pre + length d + length (c :: w) + 1)%nat)
        by (unfold pre'; rewrite !app_length; simpl; lia).
      destruct (IHn (length rest)) with (s := rest) (p := (length pre + length d + length (c :: w) + 1)%nat)
        (l := l) (pre := pre') (post := post) (arg := @None nat)
        (it := StringIterator (Some (length pre + length d + length (c :: w) + 1)%nat) tok)
        as (b' & HS & HF & s' & -> & Ls'); auto.
      { rewrite !app_length in Hn. simpl in Hn. lia. }
      eexists. split; [|split].
      * simpl map. eapply session_next; [|exact HS].
        rewrite (call_start _ _ _ (length pre)) by exact Harg.
        replace (pre ++ (d ++ (c :: w) ++ e :: rest) ++ 0 :: post)
          with (pre ++ d ++ (c :: w) ++ e :: (rest ++ 0 :: post)) by lapp.
        rewrite next_token_word by (auto; right; exact He).
        destruct (Z.eqb_spec e 0); [unfold is_char in *; lia|].
        unfold pre'. match goal with |- Some (NextResult _ _ _ ?m) = Some (NextResult _ _ _ ?m') =>
          replace m with m' by lapp end. reflexivity.
      * constructor; [|exact HF]. simpl.
        exists (pre ++ d), (s' ++ 0 :: post). rewrite app_length. split; [unfold pre'; lapp|auto].
      * exists (d ++ (c :: w) ++ 0 :: s'). split; [unfold pre'; lapp|].
        rewrite !app_length. simpl. rewrite !app_length in *. simpl in *. lia.
Qed.

Lemma iterate_at : forall f tok call, steps_by f tok call ->
  forall b p s l it, cstring_at b p s -> Runs (delim_of f) p s l ->
  exists b', Session call (Some p) it b (map fst l) b' /\
    Forall (fun qw => cstring_at b' (fst qw) (snd qw)) l /\
    unchanged_outside p (length s) b b'.
Proof.
  intros f tok call Hc b p s l it (pre & post & -> & Hp & Hs) HR.
  destruct (iterate_runs f tok call Hc (length s) s p l (le_n _) HR pre post (Some p) it Hp Hs)
    as (b' & HS & HF & s' & -> & L); [auto|].
  exists (pre ++ s' ++ 0 :: post). split; [exact HS|]. split; [exact HF|].
  subst p. apply unchanged_app. auto.
Qed.

Lemma runs_ext : forall (D E : Z -> Prop) p s l,
  Forall (fun c => D c <-> E c) s -> Runs D p s l -> Runs E p s l.
Proof.
  intros D E p s l HE H. induction H as [p d Hd|p d w rest l Hd Hw Hnw Hrest HR IH].
  - constructor. rewrite Forall_forall in *. intros x Hx. apply HE; auto.
  - apply Forall_app in HE as [H1 H2]. apply Forall_app in H2 as [H2 H3].
    constructor; auto.
    + rewrite Forall_forall in *. intros x Hx. apply H1; auto.
    + rewrite Forall_forall in *. intros x Hx Ex. apply (Hnw x Hx). apply H2; auto.
    + intros c t ->. inversion H3; subst. apply H4. eauto.
Qed.

Theorem words_correct : forall b p s l it,
  cstring_at b p s -> Runs ws p s l ->
  exists b', Session (fun arg i m => words m i arg) (Some p) it b (map fst l) b' /\
    Forall (fun qw => cstring_at b' (fst qw) (snd qw)) l /\
    unchanged_outside p (length s) b b'.
Proof.
  intros b p s l it H HR. eapply iterate_at with (f := is_whitespace) (tok := None); auto.
  - intros arg i m start [->|[-> ->]]; reflexivity.
  - eapply runs_ext; [|exact HR]. destruct H as (_ & _ & _ & _ & Hs).
    eapply Forall_impl; [|exact Hs]. intros c Hc. unfold delim_of. symmetry. apply is_whitespace_ws. auto.
Qed.

Theorem multisplit_correct : forall f tf b p s l it,
  cstring_at b p s -> Runs (fun c => f (sext8 c) = true) p s l ->
  exists b', Session (fun arg i m => multisplit m i arg (match arg with Some _ => f | None => tf end))
               (Some p) it b (map fst l) b' /\
    Forall (fun qw => cstring_at b' (fst qw) (snd qw)) l /\
    unchanged_outside p (length s) b b'.
Proof.
  intros f tf b p s l it H HR. eapply iterate_at with (f := f) (tok := Some f); auto.
  intros arg i m start [->|[-> ->]]; reflexivity.
Qed.

(** Every text has exactly one list of maximal runs. *)
Theorem runs_total : forall (D : Z -> Prop), (forall c, {D c} + {~ D c}) ->
  forall s p, exists l, Runs D p s l.
Proof.
  intros D Ddec s. induction s as [|x s IH]; intros p.
  - exists []. constructor. constructor.
  - destruct (Ddec x) as [Hx|Hx].
    + destruct (IH (p + 1)%nat) as (l & Hl). exists l. inversion Hl; subst.
      * constructor. constructor; auto.
      * change (x :: d ++ w ++ rest) with ((x :: d) ++ w ++ rest).
        replace (p + 1 + length d)%nat with (p + length (x :: d))%nat in * by (simpl; lia).
        constructor; auto.
    + destruct (IH (p + 1)%nat) as (l & Hl). inversion Hl as [? d Hd|? d w rest l0 Hd Hw Hn Hr HR]; subst.
      * exists [(p + length (@nil Z), [x])%nat]. change (x :: s) with ([] ++ [x] ++ s).
        constructor; auto; try discriminate.
        -- intros c t ->. inversion Hd; auto.
        -- constructor. auto.
      * destruct d as [|y d].
        -- exists ((p + length (@nil Z), x :: w)%nat :: l0). change (x :: [] ++ w ++ rest) with ([] ++ (x :: w) ++ rest).
           constructor; auto; try discriminate. simpl in *.
           match goal with H : Runs _ ?a _ _ |- Runs _ ?b _ _ => replace b with a by (simpl; lia); exact H end.
        -- exists ((p + length (@nil Z), [x])%nat :: (p + 1 + length (y :: d), w)%nat :: l0).
           change (x :: (y :: d) ++ w ++ rest) with ([] ++ [x] ++ ((y :: d) ++ w ++ rest)).
           constructor; auto; try discriminate.
           ++ simpl. intros c t E. inversion E; subst. inversion Hd; auto.
           ++ simpl length. rewrite Nat.add_0_r. constructor; auto.
Qed.

Lemma split_unique : forall (D : Z -> Prop) d1 r1 d2 r2,
  Forall D d1 -> Forall D d2 ->
  (forall c t, r1 = c :: t -> ~ D c) -> (forall c t, r2 = c :: t -> ~ D c) ->
  d1 ++ r1 = d2 ++ r2 -> d1 = d2 /\ r1 = r2.
Proof.
  induction d1 as [|x d1 IH]; intros r1 [|y d2] r2 H1 H2 N1 N2 E; simpl in E.
  - auto.
  - subst. inversion H2; subst. exfalso. eapply N1; eauto.
  - subst. inversion H1; subst. exfalso. eapply N2; eauto.
  - inversion E; subst. inversion H1; inversion H2; subst.
    destruct (IH r1 d2 r2) as [-> ->]; auto.
Qed.

Theorem runs_unique : forall D p s l1, Runs D p s l1 -> forall l2, Runs D p s l2 -> l1 = l2.
Proof.
  intros D p s l1 H. induction H as [p d Hd|p d w rest l Hd Hw Hnw Hrest HR IH]; intros l2 H2.
  - inversion H2 as [|? d0 w0 r0 l0 Hd0 Hw0 Hn0]; subst; auto.
    destruct w0 as [|z w0]; [congruence|].
    apply Forall_app in Hd as [_ Hd]. apply Forall_app in Hd as [Hd _]. inversion Hd; inversion Hn0; subst. contradiction.
  - inversion H2 as [? d0 Hd0 E1|? d0 w0 r0 l0 Hd0 Hw0 Hn0 Hr0 HR0 E1 E2]; subst.
    + destruct w as [|z w]; [congruence|].
      apply Forall_app in Hd0 as [_ Hd0]. apply Forall_app in Hd0 as [Hd0 _]. inversion Hd0; inversion Hnw; subst. contradiction.
    + destruct (split_unique D d0 (w0 ++ r0) d (w ++ rest)) as [-> E]; auto.
      { intros c t E. destruct w0; [congruence|]. inversion E; subst. inversion Hn0; auto. }
      { intros c t E. destruct w; [congruence|]. inversion E; subst. inversion Hnw; auto. }
      destruct (split_unique (fun c => ~ D c) w0 r0 w rest) as [-> ->]; auto.
      { intros c t ->. intros N. apply N. eauto. }
      { intros c t ->. intros N. apply N. eauto. }
      f_equal. apply IH. exact HR0.
Qed.

(** ** C05 *)
Lemma fresh_length : forall j n, length (fresh_block j n) = n.
Proof. intros. unfold fresh_block. rewrite map_length, seq_length. reflexivity. Qed.

Lemma copy_at : forall b p s done rest n,
  cstring_at b p s -> length rest = (length s + n)%nat ->
  exists rest', copy_bytes (done ++ rest) (length done) b p (length s) = Some ((done ++ s) ++ rest') /\ length rest' = n.
Proof.
  intros b p s dn rest n H L. unfold copy_bytes.
  destruct (cstring_sub _ _ _ (length s) H (le_n _)) as [E B].
  replace ((_ <=? _)%nat && (_ <=? _)%nat) with true
    by (symmetry; apply andb_true_intro; split; apply Nat.leb_le; rewrite ?app_length; lia).
  rewrite E, firstn_all, (firstn_exact _ dn) by reflexivity.
  rewrite skipn_app, skipn_all2 by lia.
  replace (length dn + length s - length dn)%nat with (length s) by lia.
  exists (skipn (length s) rest). split; [lapp|]. rewrite skipn_length. lia.
Qed.

Lemma last_cell : forall (l : list Z), length l = 1%nat -> exists x, l = [x].
Proof. intros [|x [|y l]] H; simpl in H; try lia. eauto. Qed.

Theorem strdup_correct : forall junk b p s,
  cstring_at b p s ->
  strdup STATUS_SUCCESS junk true true (Some (b, p))
  = Some (StringOut STATUS_SUCCESS (Some (Some (s ++ [0]))) [s ++ [0]]).
Proof.
  intros junk b p s H. unfold strdup. rewrite (strlen_run _ _ _ H). rewrite Z.eqb_refl. cbv zeta.
  destruct (copy_at b p s [] (fresh_block junk (length s + 1)) 1 H) as (r & E & L);
    [apply fresh_length|]. cbn [app length] in E. rewrite E.
  destruct (last_cell r L) as (x & ->). rewrite st_app. reflexivity.
Qed.

Theorem strdup_failure : forall ast junk b p s,
  cstring_at b p s -> ast <> STATUS_SUCCESS ->
  strdup ast junk true true (Some (b, p)) = Some (StringOut ast (Some None) []).
Proof.
  intros ast junk b p s H N. unfold strdup. rewrite (strlen_run _ _ _ H).
  destruct (Z.eqb_spec ast STATUS_SUCCESS); [contradiction|reflexivity].
Qed.

Theorem strdup_null : forall ast junk o a i,
  (o = false \/ a = false \/ i = None) ->
  strdup ast junk o a i
  = Some (StringOut ERROR_STRING_INVALID_PARAMETER (if o then Some None else None) []).
Proof. intros ast junk [] [] [[b p]|] H; try reflexivity. intuition discriminate. Qed.

Lemma cat_size_correct : forall args ss, Forall2 (fun a s => cstring_at (fst a) (snd a) s) args ss ->
  forall n, cat_size args n = Some (n + length (concat ss))%nat.
Proof.
  intros args ss H. induction H as [|[b p] s args ss Ha _ IH]; intros n; simpl.
  - f_equal. lia.
  - simpl in Ha. rewrite (strlen_run _ _ _ Ha). rewrite IH, app_length. f_equal. lia.
Qed.

Lemma cat_copy_correct : forall args ss, Forall2 (fun a s => cstring_at (fst a) (snd a) s) args ss ->
  forall dn rest n, length rest = (length (concat ss) + n)%nat ->
  exists rest', cat_copy args (dn ++ rest) (length dn)
    = Some ((dn ++ concat ss) ++ rest', length (dn ++ concat ss)) /\ length rest' = n.
Proof.
  intros args ss H. induction H as [|[b p] s args ss Ha _ IH]; intros dn rest n L; simpl.
  - exists rest. rewrite app_nil_r. auto.
  - simpl in Ha. rewrite (strlen_run _ _ _ Ha). simpl in L. rewrite app_length in L.
    destruct (copy_at b p s dn rest (length (concat ss) + n) Ha) as (r & E & Lr); [lia|].
    rewrite E. rewrite <- app_length.
    destruct (IH (dn ++ s) r n Lr) as (r' & E' & Lr'). rewrite E'. exists r'.
    rewrite (app_assoc dn s). auto.
Qed.

Theorem vstrcat_correct : forall junk args ss,
  Forall2 (fun a s => cstring_at (fst a) (snd a) s) args ss ->
  vstrcat STATUS_SUCCESS junk args
  = Some (StringOut STATUS_SUCCESS (Some (Some (concat ss ++ [0]))) [concat ss ++ [0]]).
Proof.
  intros junk args ss H. unfold vstrcat. rewrite (cat_size_correct _ _ H), Z.eqb_refl.
  destruct (cat_copy_correct _ _ H [] (fresh_block junk (1 + length (concat ss))) 1) as (r & E & L);
    [rewrite fresh_length; lia|].
  cbn [app length] in E. rewrite E.
  destruct (last_cell r L) as (x & ->). rewrite st_app. reflexivity.
Qed.

Theorem vstrcat_failure : forall ast junk args ss,
  Forall2 (fun a s => cstring_at (fst a) (snd a) s) args ss -> ast <> STATUS_SUCCESS ->
  vstrcat ast junk args = Some (StringOut ast None []).
Proof.
  intros ast junk args ss H N. unfold vstrcat. rewrite (cat_size_correct _ _ H).
  destruct (Z.eqb_spec ast STATUS_SUCCESS); [contradiction|reflexivity].
Qed.
