(** Proofs about the UUID model. *)
From Verif Require Import Base Status StringModel StringSpec StringProofs UuidModel UuidSpec.

Lemma hex_digit_range : forall c v, hex_digit c v -> 0 <= v < 16.
Proof. unfold hex_digit. lia. Qed.
Lemma hex_digit_inj : forall c v w, hex_digit c v -> hex_digit c w -> v = w.
Proof. unfold hex_digit. lia. Qed.

Lemma nibble_ok : forall b p c, ld b p = Some c ->
  (exists v, try_read_hex_nibble b p = Some (Some (v, (p + 1)%nat)) /\ hex_digit c v) \/
  (try_read_hex_nibble b p = Some None /\ forall v, ~ hex_digit c v).
Proof.
  intros b p c H. unfold try_read_hex_nibble. rewrite H. unfold hex_digit.
  destruct (Z.leb_spec 48 c), (Z.leb_spec c 57), (Z.leb_spec 65 c), (Z.leb_spec c 70),
    (Z.leb_spec 97 c), (Z.leb_spec c 102); cbn [andb]; try lia;
  first [ left; eexists; split; [reflexivity|lia] | right; split; [reflexivity|lia] ].
Qed.

Lemma byte_of_nibbles : forall a b, 0 <= a < 16 -> 0 <= b < 16 ->
  Z.lor (Z.land (Z.shiftl a 4) 255) b = 16 * a + b.
Proof.
  intros a b Ha Hb.
  assert (forallb (fun x => forallb (fun y => Z.lor (Z.land (Z.shiftl x 4) 255) y =? 16 * x + y)
            (map Z.of_nat (seq 0 16))) (map Z.of_nat (seq 0 16)) = true) as T by (vm_compute; reflexivity).
  rewrite forallb_forall in T.
  assert (In a (map Z.of_nat (seq 0 16))) as Ia.
  { apply in_map_iff. exists (Z.to_nat a). split; [lia|]. apply in_seq. lia. }
  assert (In b (map Z.of_nat (seq 0 16))) as Ib.
  { apply in_map_iff. exists (Z.to_nat b). split; [lia|]. apply in_seq. lia. }
  specialize (T a Ia). rewrite forallb_forall in T. specialize (T b Ib). lia.
Qed.

(** Text consumed by a list of steps and the assignments it makes. *)
Inductive StepText : list uuid_step -> list Z -> list (nat * Z) -> Prop :=
| step_nil : StepText [] [] []
| step_hex : forall i t h l a b s asg,
    hex_digit h a -> hex_digit l b -> StepText t s asg ->
    StepText (Hex i :: t) (h :: l :: s) ((i, 16 * a + b) :: asg)
| step_dash : forall t s asg, StepText t s asg -> StepText (Dash :: t) (45 :: s) asg.

Fixpoint assign (data : list Z) (asg : list (nat * Z)) : list Z :=
  match asg with [] => data | (i, v) :: t => assign (upd data i v) t end.

(** How many characters a list of steps consumes. *)
Fixpoint need (steps : list uuid_step) : nat :=
  match steps with [] => 0 | Hex _ :: t => 2 + need t | Dash :: t => 1 + need t end.

Lemma run_steps_correct : forall steps pre s rest data,
  (forall i, In (Hex i) steps -> (i < length data)%nat) ->
  ((exists r', rest = 0 :: r') \/ (need steps <= length s)%nat) ->
  (exists t r asg, s = t ++ r /\ StepText steps t asg /\
     run_steps steps (pre ++ s ++ rest) (length pre) data
     = Some (Some (length pre + length t)%nat, assign data asg)) \/
  ((forall t r asg, s = t ++ r -> ~ StepText steps t asg) /\
   exists data', run_steps steps (pre ++ s ++ rest) (length pre) data = Some (None, data') /\
     length data' = length data).
Proof.
  induction steps as [|st0 steps IH]; intros pre s rest data Hi Hl.
  - left. exists [], s, []. split; [reflexivity|]. split; [constructor|]. simpl. rewrite Nat.add_0_r. reflexivity.
  - destruct st0 as [i|].
    + (* a hex byte *)
      assert (Fail: ((forall t r asg, s = t ++ r -> ~ StepText (Hex i :: steps) t asg) /\
          try_read_hex_byte (pre ++ s ++ rest) (length pre) = Some None) ->
          (forall t r asg, s = t ++ r -> ~ StepText (Hex i :: steps) t asg) /\
           exists data', run_steps (Hex i :: steps) (pre ++ s ++ rest) (length pre) data = Some (None, data') /\
             length data' = length data).
      { intros (N & E). split; [exact N|]. exists data. simpl. rewrite E. auto. }
      destruct s as [|h s].
      { right. apply Fail. split.
        - intros t r asg E H. destruct t; [inversion H|discriminate].
        - destruct Hl as [(r' & ->)|Hl]; [|simpl in Hl; lia].
          unfold try_read_hex_byte. unfold try_read_hex_nibble at 1. simpl app. rewrite ld_app. reflexivity. }
      destruct (nibble_ok (pre ++ (h :: s) ++ rest) (length pre) h) as [(a & E1 & Ha)|[E1 Hn]];
        [apply (ld_app pre h)| |].
      2:{ right. apply Fail. split.
          - intros t r asg E H. inversion H; subst. inversion E; subst. eapply Hn; eauto.
          - unfold try_read_hex_byte. rewrite E1. reflexivity. }
      destruct s as [|l s].
      { right. apply Fail. split.
        - intros t r asg E H. inversion H; subst. inversion E.
        - unfold try_read_hex_byte. rewrite E1.
          destruct Hl as [(r' & ->)|Hl]; [|simpl in Hl; lia].
          unfold try_read_hex_nibble. replace (pre ++ [h] ++ 0 :: r') with ((pre ++ [h]) ++ 0 :: r') by lapp.
          rewrite ld_app_at by (rewrite app_length; reflexivity). reflexivity. }
      destruct (nibble_ok (pre ++ (h :: l :: s) ++ rest) (length pre + 1) l) as [(b & E2 & Hb)|[E2 Hn]].
      { replace (pre ++ (h :: l :: s) ++ rest) with ((pre ++ [h]) ++ l :: (s ++ rest)) by lapp.
        apply ld_app_at. rewrite app_length. reflexivity. }
      2:{ right. apply Fail. split.
          - intros t r asg E H. inversion H; subst. inversion E; subst. eapply Hn; eauto.
          - unfold try_read_hex_byte. rewrite E1, E2. reflexivity. }
      assert (E: try_read_hex_byte (pre ++ (h :: l :: s) ++ rest) (length pre)
                 = Some (Some (16 * a + b, (length pre + 2)%nat))).
      { unfold try_read_hex_byte. rewrite E1, E2.
        rewrite byte_of_nibbles by (eapply hex_digit_range; eauto). reflexivity. }
      assert (Est: st data i (16 * a + b) = Some (upd data i (16 * a + b))).
      { unfold st. replace (i <? length data)%nat with true; [reflexivity|].
        symmetry. apply Nat.ltb_lt. apply Hi. left. reflexivity. }
      destruct (IH (pre ++ [h; l]) s rest (upd data i (16 * a + b))) as [(t & r & asg & -> & HS & ER)|(N & data' & ER & L)].
      * intros j Hj. rewrite upd_length. apply Hi. right. exact Hj.
      * destruct Hl as [Hl|Hl]; [left; exact Hl|right; simpl in Hl; lia].
      * left. exists (h :: l :: t), r, ((i, 16 * a + b) :: asg). split; [reflexivity|]. split; [constructor; auto|].
        cbn [run_steps]. rewrite E, Est. rewrite app_length in ER. cbn [length] in ER.
        replace (pre ++ (h :: l :: t ++ r) ++ rest) with ((pre ++ [h; l]) ++ (t ++ r) ++ rest) by lapp.
        rewrite ER. cbn [assign length]. do 3 f_equal. lia.
      * right. split.
        -- intros t r asg Et H. inversion H; subst. inversion Et; subst. eapply N; eauto.
        -- exists data'. cbn [run_steps]. rewrite E, Est. rewrite app_length in ER. cbn [length] in ER.
           replace (pre ++ (h :: l :: s) ++ rest) with ((pre ++ [h; l]) ++ s ++ rest) by lapp.
           rewrite ER. rewrite upd_length in L. auto.
    + (* a dash *)
      destruct s as [|c s].
      { right. split.
        - intros t r asg E H. destruct t; [inversion H|discriminate].
        - exists data. destruct Hl as [(r' & ->)|Hl]; [|simpl in Hl; lia].
          cbn [run_steps]. unfold try_read_dash. simpl app. rewrite ld_app. auto. }
      assert (Ec: ld (pre ++ (c :: s) ++ rest) (length pre) = Some c) by apply (ld_app pre c).
      destruct (Z.eqb_spec c 45) as [->|Nc].
      * destruct (IH (pre ++ [45]) s rest data) as [(t & r & asg & -> & HS & ER)|(N & data' & ER & L)].
        -- intros j Hj. apply Hi. right. exact Hj.
        -- destruct Hl as [Hl|Hl]; [left; exact Hl|right; simpl in Hl; lia].
        -- left. exists (45 :: t), r, asg. split; [reflexivity|]. split; [constructor; auto|].
           cbn [run_steps]. unfold try_read_dash. rewrite Ec. cbn [Z.eqb Pos.eqb].
           rewrite app_length in ER. cbn [length] in ER.
           replace (pre ++ (45 :: t ++ r) ++ rest) with ((pre ++ [45]) ++ (t ++ r) ++ rest) by lapp.
           rewrite ER. do 3 f_equal. cbn [length]. lia.
        -- right. split.
           ++ intros t r asg Et H. inversion H; subst. inversion Et; subst. eapply N; eauto.
           ++ exists data'. cbn [run_steps]. unfold try_read_dash. rewrite Ec. cbn [Z.eqb Pos.eqb].
              rewrite app_length in ER. cbn [length] in ER.
              replace (pre ++ (45 :: s) ++ rest) with ((pre ++ [45]) ++ s ++ rest) by lapp.
              rewrite ER. auto.
      * right. split.
        -- intros t r asg Et H. inversion H; subst. inversion Et; subst. congruence.
        -- exists data. cbn [run_steps]. unfold try_read_dash. rewrite Ec.
           destruct (Z.eqb_spec c 45); [congruence|]. auto.
Qed.

Lemma step_hex_inv : forall i t s asg, StepText (Hex i :: t) s asg ->
  exists h l a b s' asg', s = h :: l :: s' /\ asg = (i, 16 * a + b) :: asg' /\
    hex_digit h a /\ hex_digit l b /\ StepText t s' asg'.
Proof. intros i t s asg H. inversion H; subst. do 6 eexists. repeat split; eauto. Qed.

Lemma step_dash_inv : forall t s asg, StepText (Dash :: t) s asg ->
  exists s', s = 45 :: s' /\ StepText t s' asg.
Proof. intros t s asg H. inversion H; subst. eauto. Qed.

Lemma step_nil_inv : forall s asg, StepText [] s asg -> s = [] /\ asg = [].
Proof. intros s asg H. inversion H; auto. Qed.

(** A block of hex steps is a [hex_text]. *)
Lemma steps_group : forall n i t s asg,
  StepText (map Hex (seq i n) ++ t) s asg ->
  exists d s1 s2 asg2, length d = n /\ hex_text d s1 /\ s = s1 ++ s2 /\
    asg = combine (seq i n) d ++ asg2 /\ StepText t s2 asg2.
Proof.
  induction n as [|n IH]; intros i t s asg H; simpl in H.
  - exists [], [], s, asg. repeat split; auto. constructor.
  - apply step_hex_inv in H as (h & l & a & b & s' & asg' & -> & -> & Ha & Hb & H).
    apply IH in H as (d & s1 & s2 & asg2 & L & HT & -> & -> & H).
    exists (16 * a + b :: d), (h :: l :: s1), s2, asg2.
    split; [simpl; lia|]. split; [constructor; auto|]. auto.
Qed.

Lemma group_steps : forall d s1, hex_text d s1 -> forall i t s2 asg2, StepText t s2 asg2 ->
  StepText (map Hex (seq i (length d)) ++ t) (s1 ++ s2) (combine (seq i (length d)) d ++ asg2).
Proof.
  intros d s1 H. induction H as [|h l a b d s Ha Hb H IH]; intros i t s2 asg2 HS; simpl; [exact HS|].
  constructor; auto.
Qed.

Lemma list_of_length : forall (A : Type) (n : nat) (l : list A), length l = n ->
  match n with O => l = [] | S m => exists x t, l = x :: t /\ length t = m end.
Proof. intros A [|n] [|x t] H; simpl in H; try lia; eauto. Qed.

Lemma uuid_steps_groups : uuid_steps
  = map Hex (seq 0 4) ++ Dash :: map Hex (seq 4 2) ++ Dash :: map Hex (seq 6 2) ++ Dash ::
    map Hex (seq 8 2) ++ Dash :: map Hex (seq 10 6) ++ [].
Proof. reflexivity. Qed.

(** The bytes a run of consecutive assignments leaves. *)
Lemma assign_block : forall (d : list Z) pre old post asg, length old = length d ->
  assign (pre ++ old ++ post) (combine (seq (length pre) (length d)) d ++ asg)
  = assign (pre ++ d ++ post) asg.
Proof.
  induction d as [|x d IH]; intros pre old post asg L; destruct old as [|o old]; simpl in L; try lia.
  - reflexivity.
  - cbn [length seq combine app assign].
    rewrite upd_app.
    replace (pre ++ x :: old ++ post) with ((pre ++ [x]) ++ old ++ post) by lapp.
    replace (S (length pre)) with (length (pre ++ [x])) by (rewrite app_length; simpl; lia).
    rewrite IH by lia. f_equal. lapp.
Qed.

Lemma assign_groups : forall d1 d2 d3 d4 d5 data,
  length d1 = 4%nat -> length d2 = 2%nat -> length d3 = 2%nat -> length d4 = 2%nat -> length d5 = 6%nat ->
  length data = 16%nat ->
  assign data (combine (seq 0 4) d1 ++ combine (seq 4 2) d2 ++ combine (seq 6 2) d3 ++
               combine (seq 8 2) d4 ++ combine (seq 10 6) d5 ++ [])
  = d1 ++ d2 ++ d3 ++ d4 ++ d5.
Proof.
  intros d1 d2 d3 d4 d5 data L1 L2 L3 L4 L5 L.
  do 16 (destruct data as [|? data]; [discriminate L|]). destruct data; [|discriminate L].
  do 4 (destruct d1 as [|? d1]; [discriminate L1|]). destruct d1; [|discriminate L1].
  do 2 (destruct d2 as [|? d2]; [discriminate L2|]). destruct d2; [|discriminate L2].
  do 2 (destruct d3 as [|? d3]; [discriminate L3|]). destruct d3; [|discriminate L3].
  do 2 (destruct d4 as [|? d4]; [discriminate L4|]). destruct d4; [|discriminate L4].
  do 6 (destruct d5 as [|? d5]; [discriminate L5|]). destruct d5; [|discriminate L5].
  reflexivity.
Qed.

Lemma steps_uuid : forall s asg data, StepText uuid_steps s asg -> length data = 16%nat ->
  uuid_text (assign data asg) s.
Proof.
  intros s asg data H L. rewrite uuid_steps_groups in H.
  apply steps_group in H as (d1 & s1 & r & a & L1 & H1 & -> & -> & H).
  apply step_dash_inv in H as (r1 & -> & H).
  apply steps_group in H as (d2 & s2 & r & a1 & L2 & H2 & -> & -> & H).
  apply step_dash_inv in H as (r2 & -> & H).
  apply steps_group in H as (d3 & s3 & r & a2 & L3 & H3 & -> & -> & H).
  apply step_dash_inv in H as (r3 & -> & H).
  apply steps_group in H as (d4 & s4 & r & a3 & L4 & H4 & -> & -> & H).
  apply step_dash_inv in H as (r4 & -> & H).
  apply steps_group in H as (d5 & s5 & r & a4 & L5 & H5 & -> & -> & H).
  apply step_nil_inv in H as [-> ->].
  rewrite assign_groups by auto.
  exists d1, d2, d3, d4, d5, s1, s2, s3, s4, s5. rewrite !app_nil_r. intuition.
Qed.

Lemma uuid_to_steps : forall d s, uuid_text d s ->
  exists asg, StepText uuid_steps s asg /\ forall data, length data = 16%nat -> assign data asg = d.
Proof.
  intros d s (d1 & d2 & d3 & d4 & d5 & s1 & s2 & s3 & s4 & s5 & -> & (L1 & L2 & L3 & L4 & L5) & H1 & H2 & H3 & H4 & H5 & ->).
  eexists. split.
  - rewrite uuid_steps_groups.
    pose proof (group_steps _ _ H5 10 [] [] [] step_nil) as G5. rewrite L5, (app_nil_r s5) in G5.
    pose proof (group_steps _ _ H4 8 _ _ _ (step_dash _ _ _ G5)) as G4. rewrite L4 in G4.
    pose proof (group_steps _ _ H3 6 _ _ _ (step_dash _ _ _ G4)) as G3. rewrite L3 in G3.
    pose proof (group_steps _ _ H2 4 _ _ _ (step_dash _ _ _ G3)) as G2. rewrite L2 in G2.
    pose proof (group_steps _ _ H1 0 _ _ _ (step_dash _ _ _ G2)) as G1. rewrite L1 in G1.
    exact G1.
  - intros data L. apply assign_groups; auto.
Qed.

Lemma steps_length : forall steps t asg, StepText steps t asg -> length t = need steps.
Proof. intros steps t asg H. induction H; simpl; lia. Qed.

Lemma uuid_text_length : forall d s, uuid_text d s -> length s = 36%nat /\ length d = 16%nat.
Proof.
  intros d s H. split.
  - apply uuid_to_steps in H as (asg & H & _). apply steps_length in H. exact H.
  - destruct H as (d1 & d2 & d3 & d4 & d5 & _ & _ & _ & _ & _ & -> & L & _). rewrite !app_length. lia.
Qed.

Lemma hex_text_inj : forall d s, hex_text d s -> forall d', hex_text d' s -> d = d'.
Proof.
  intros d s H. induction H as [|h l a b d s Ha Hb H IH]; intros d' H'; inversion H' as [|h' l' a' b' d2 s2 Ha' Hb' H2]; subst; auto.
  f_equal; [|auto]. rewrite (hex_digit_inj _ _ _ Ha Ha'), (hex_digit_inj _ _ _ Hb Hb'). reflexivity.
Qed.

Lemma hex_indices : forall i, In (Hex i) uuid_steps -> (i < 16)%nat.
Proof. simpl. intros i H. repeat destruct H as [H|H]; try discriminate; try (inversion H; lia); contradiction. Qed.

Lemma app_same_length : forall (A : Type) (a b c d : list A), length a = length c -> a ++ b = c ++ d -> a = c /\ b = d.
Proof.
  induction a as [|x a IH]; intros b [|y c] d L E; simpl in *; try lia; auto.
  inversion E; subst. destruct (IH b c d) as [-> ->]; auto.
Qed.

Lemma hex_text_length : forall d s, hex_text d s -> length s = (2 * length d)%nat.
Proof. intros d s H. induction H; simpl in *; lia. Qed.

Theorem uuid_text_inj : forall d d' s, uuid_text d s -> uuid_text d' s -> d = d'.
Proof.
  intros d d' s H H'.
  destruct H as (d1 & d2 & d3 & d4 & d5 & s1 & s2 & s3 & s4 & s5 & -> & (L1 & L2 & L3 & L4 & L5) & H1 & H2 & H3 & H4 & H5 & ->).
  destruct H' as (e1 & e2 & e3 & e4 & e5 & t1 & t2 & t3 & t4 & t5 & -> & (M1 & M2 & M3 & M4 & M5) & G1 & G2 & G3 & G4 & G5 & E).
  pose proof (hex_text_length _ _ H1); pose proof (hex_text_length _ _ G1).
  pose proof (hex_text_length _ _ H2); pose proof (hex_text_length _ _ G2).
  pose proof (hex_text_length _ _ H3); pose proof (hex_text_length _ _ G3).
  pose proof (hex_text_length _ _ H4); pose proof (hex_text_length _ _ G4).
  apply app_same_length in E as [-> E]; [|lia]. injection E as E.
  apply app_same_length in E as [-> E]; [|lia]. injection E as E.
  apply app_same_length in E as [-> E]; [|lia]. injection E as E.
  apply app_same_length in E as [-> E]; [|lia]. injection E as E. subst.
  rewrite (hex_text_inj _ _ H1 _ G1), (hex_text_inj _ _ H2 _ G2), (hex_text_inj _ _ H3 _ G3),
    (hex_text_inj _ _ H4 _ G4), (hex_text_inj _ _ H5 _ G5). reflexivity.
Qed.

(** The parser on a NUL-terminated string. *)
Theorem parse_string_correct : forall data b p s,
  length data = 16%nat -> cstring_at b p s ->
  (exists d, uuid_text d s /\ uuid_parse_string data (Some (b, p)) = Some (STATUS_SUCCESS, d)) \/
  ((forall d, ~ uuid_text d s) /\
   exists data', uuid_parse_string data (Some (b, p)) = Some (ERROR_UUID_PARSING_FAILED, data') /\
     length data' = 16%nat).
Proof.
  intros data b p s L (pre & post & -> & <- & Hs). unfold uuid_parse_string.
  destruct (run_steps_correct uuid_steps pre s (0 :: post) data) as [(t & r & asg & -> & HS & E)|(N & data' & E & L')].
  - intros i Hi. rewrite L. apply hex_indices. exact Hi.
  - left. eauto.
  - rewrite E.
    assert (La: length (assign data asg) = 16%nat) by (apply (uuid_text_length _ t); apply steps_uuid; auto).
    destruct r as [|c r].
    + left. rewrite app_nil_r in *. exists (assign data asg). split; [apply steps_uuid; auto|].
      replace (pre ++ t ++ 0 :: post) with ((pre ++ t) ++ 0 :: post) by lapp.
      rewrite ld_app_at by (rewrite app_length; reflexivity). reflexivity.
    + right. split.
      * intros d Hd. apply uuid_text_length in Hd as [Hd _]. apply steps_length in HS.
        rewrite app_length in Hd. simpl in Hd. change (need uuid_steps) with 36%nat in HS. lia.
      * exists (assign data asg).
        replace (pre ++ (t ++ c :: r) ++ 0 :: post) with ((pre ++ t) ++ c :: (r ++ 0 :: post)) by lapp.
        rewrite ld_app_at by (rewrite app_length; reflexivity).
        apply Forall_app in Hs as [_ Hs]. inversion Hs; subst.
        destruct (Z.eqb_spec c 0); [unfold is_char in *; lia|]. auto.
  - right. split.
    + intros d Hd. apply uuid_to_steps in Hd as (asg & Hd & _).
      apply (N s [] asg); [rewrite app_nil_r; reflexivity|exact Hd].
    + exists data'. rewrite E. split; [reflexivity|lia].
Qed.

(** The raw parser on the 36 bytes [s] found at [p], whatever follows them. *)
Theorem parse_raw_correct : forall data pre s rest,
  length data = 16%nat -> length s = 36%nat ->
  (exists d, uuid_text d s /\
     uuid_parse_raw_string data (Some (pre ++ s ++ rest, length pre)) 36 = Some (STATUS_SUCCESS, d)) \/
  ((forall d, ~ uuid_text d s) /\
   exists data', uuid_parse_raw_string data (Some (pre ++ s ++ rest, length pre)) 36
     = Some (ERROR_UUID_PARSING_FAILED, data') /\ length data' = 16%nat).
Proof.
  intros data pre s rest L Ls. unfold uuid_parse_raw_string. change (36 =? 36) with true. cbv iota.
  destruct (run_steps_correct uuid_steps pre s rest data) as [(t & r & asg & -> & HS & E)|(N & data' & E & L')].
  - intros i Hi. rewrite L. apply hex_indices. exact Hi.
  - right. rewrite Ls. apply le_n.
  - left. rewrite E. exists (assign data asg).
    pose proof (steps_length _ _ _ HS) as Lt. change (need uuid_steps) with 36%nat in Lt.
    rewrite app_length in Ls. destruct r; [|simpl in Ls; lia]. rewrite app_nil_r.
    split; [apply steps_uuid; auto|reflexivity].
  - right. split.
    + intros d Hd. apply uuid_to_steps in Hd as (asg & Hd & _).
      apply (N s [] asg); [rewrite app_nil_r; reflexivity|exact Hd].
    + exists data'. rewrite E. split; [reflexivity|lia].
Qed.

Theorem parse_raw_bad_length : forall data str len, len <> 36 ->
  uuid_parse_raw_string data (Some str) len = Some (ERROR_UUID_PARSING_FAILED, data).
Proof.
  intros data [b p] len H. unfold uuid_parse_raw_string. destruct (Z.eqb_spec len 36); [congruence|reflexivity].
Qed.

(** ** Rendering *)
Lemma nibbles_ok : forall d, is_byte d ->
  exists a b, d = 16 * a + b /\
    hex_digit (nibble_to_hex (high_nibble d)) a /\ hex_digit (nibble_to_hex (low_nibble d)) b /\
    ~ (65 <= nibble_to_hex (high_nibble d) <= 90) /\ ~ (65 <= nibble_to_hex (low_nibble d) <= 90).
Proof.
  intros d Hd.
  assert (high_nibble d = d / 16) as Eh.
  { unfold high_nibble. rewrite Z.shiftr_land. rewrite Z.shiftr_div_pow2 by lia.
    change (Z.shiftr 240 4) with (Z.ones 4). rewrite Z.land_ones by lia.
    change (2^4) with 16. apply Z.mod_small. unfold is_byte in Hd.
    split; [apply Z.div_pos; lia|apply Z.div_lt_upper_bound; lia]. }
  assert (low_nibble d = d mod 16) as El.
  { unfold low_nibble. change 15 with (Z.ones 4). rewrite Z.land_ones by lia. reflexivity. }
  exists (d / 16), (d mod 16). rewrite Eh, El.
  assert (0 <= d / 16 < 16) by (unfold is_byte in Hd; split; [apply Z.div_pos; lia|apply Z.div_lt_upper_bound; lia]).
  assert (0 <= d mod 16 < 16) by (apply Z.mod_pos_bound; lia).
  split; [apply Z.div_mod; lia|].
  assert (N: forall n, 0 <= n < 16 -> hex_digit (nibble_to_hex n) n /\ ~ (65 <= nibble_to_hex n <= 90)).
  { intros n Hn. unfold nibble_to_hex, hex_digit. destruct (Z.leb_spec 0 n), (Z.leb_spec n 9); cbn [andb]; lia. }
  destruct (N _ H), (N _ H0). auto.
Qed.

Fixpoint render (d : list Z) : list Z :=
  match d with [] => [] | x :: t => nibble_to_hex (high_nibble x) :: nibble_to_hex (low_nibble x) :: render t end.

Lemma render_ok : forall d, Forall is_byte d -> hex_text d (render d) /\ lower_case (render d).
Proof.
  induction d as [|x d IH]; intros H; simpl; [split; constructor|].
  inversion H; subst. destruct (IH H3) as [I1 I2].
  destruct (nibbles_ok x H2) as (a & b & E & Ha & Hb & Na & Nb).
  split.
  - rewrite E at 1. constructor; auto.
  - constructor; [exact Na|constructor; [exact Nb|exact I2]].
Qed.

Theorem to_string_correct : forall junk data,
  length data = 16%nat -> Forall is_byte data ->
  exists t, uuid_to_string STATUS_SUCCESS junk data
      = Some (StringOut STATUS_SUCCESS (Some (Some (t ++ [0]))) [t ++ [0]]) /\
    uuid_text data t /\ lower_case t /\ Forall is_char t.
Proof.
  intros junk data L HB.
  do 16 (destruct data as [|? data]; [discriminate L|]). destruct data; [|discriminate L]. clear L.
  exists (render [z; z0; z1; z2] ++ 45 :: render [z3; z4] ++ 45 :: render [z5; z6] ++ 45 ::
                render [z7; z8] ++ 45 :: render [z9; z10; z11; z12; z13; z14]).
  split; [|repeat match goal with H : Forall _ (_ :: _) |- _ => inversion H; subst; clear H end; split].
  - unfold uuid_to_string. rewrite Z.eqb_refl.
    assert (E: run_stores uuid_stores 0 [z; z0; z1; z2; z3; z4; z5; z6; z7; z8; z9; z10; z11; z12; z13; z14]
       (fresh_block junk (UUID_STRING_LENGTH + 1))
      = Some ((render [z; z0; z1; z2] ++ 45 :: render [z3; z4] ++ 45 :: render [z5; z6] ++ 45 ::
                render [z7; z8] ++ 45 :: render [z9; z10; z11; z12; z13; z14]) ++ [0])).
    { cbv -[nibble_to_hex high_nibble low_nibble]. reflexivity. }
    rewrite E. reflexivity.
  - exists [z; z0; z1; z2], [z3; z4], [z5; z6], [z7; z8], [z9; z10; z11; z12; z13; z14].
    do 5 eexists. split; [reflexivity|]. split; [repeat split|].
    repeat (split; [apply render_ok; repeat (apply Forall_cons; [assumption|]); apply Forall_nil|]). reflexivity.
  - assert (D: ~ (65 <= 45 <= 90)) by lia.
    assert (R: lower_case (render [z; z0; z1; z2] ++ 45 :: render [z3; z4] ++ 45 :: render [z5; z6] ++ 45 ::
                render [z7; z8] ++ 45 :: render [z9; z10; z11; z12; z13; z14])).
    { unfold lower_case. repeat (apply Forall_app; split; [apply render_ok; repeat (apply Forall_cons; [assumption|]); apply Forall_nil|constructor; [exact D|]]).
      apply render_ok; repeat (apply Forall_cons; [assumption|]); apply Forall_nil. }
    split; [exact R|].
    repeat match goal with H : is_byte ?z |- _ =>
      destruct (nibbles_ok z H) as (? & ? & _ & ?Hh & ?Hl & _ & _); clear H end.
    cbn [render app].
    assert (C: forall c v, hex_digit c v -> is_char c) by (unfold hex_digit, is_char; lia).
    repeat (apply Forall_cons; [first [eapply C; eassumption | unfold is_char; lia]|]). apply Forall_nil.
Qed.

Theorem to_string_failure : forall ast junk data, ast <> STATUS_SUCCESS ->
  uuid_to_string ast junk data = Some (StringOut ERROR_GENERAL_OUT_OF_MEMORY (Some None) []).
Proof.
  intros ast junk data H. unfold uuid_to_string. destruct (Z.eqb_spec ast STATUS_SUCCESS); [congruence|reflexivity].
Qed.

Theorem uuid_roundtrip : forall junk data old,
  length data = 16%nat -> Forall is_byte data -> length old = 16%nat ->
  exists blk, uuid_to_string STATUS_SUCCESS junk data
      = Some (StringOut STATUS_SUCCESS (Some (Some blk)) [blk]) /\
    uuid_parse_string old (Some (blk, 0%nat)) = Some (STATUS_SUCCESS, data) /\
    uuid_parse_raw_string old (Some (blk, 0%nat)) 36 = Some (STATUS_SUCCESS, data).
Proof.
  intros junk data old L HB Lo.
  destruct (to_string_correct junk data L HB) as (t & E & HT & _ & HC).
  exists (t ++ [0]). split; [exact E|]. split.
  - destruct (parse_string_correct old (t ++ [0]) 0 t Lo) as [(d & Hd & Ed)|(N & _)].
    + exists [], []. auto.
    + rewrite Ed. rewrite (uuid_text_inj _ _ _ HT Hd). reflexivity.
    + exfalso. eapply N; eauto.
  - destruct (parse_raw_correct old [] t [0] Lo) as [(d & Hd & Ed)|(N & _)].
    + apply (uuid_text_length _ _ HT).
    + cbn [app length] in Ed. rewrite Ed. rewrite (uuid_text_inj _ _ _ HT Hd). reflexivity.
    + exfalso. eapply N; eauto.
Qed.
