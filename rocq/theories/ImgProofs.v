(** Proofs about ImgModel: numerals, the text of a file, the loop of a pixel, names. *)
From Coq Require Import String Ascii.
From Verif Require Import Base ImgModel ImgSpec.

(** ** Numerals *)
Definition val (a : Z) (l : list Z) : Z := fold_left (fun a c => 10 * a + (c - 48)) l a.
Lemma val_app : forall l a m, val a (l ++ m) = val (val a l) m.
Proof. intros. unfold val. apply fold_left_app. Qed.
Lemma udigits_ok : forall fuel n, 0 <= n < 10 ^ Z.of_nat fuel -> (0 < fuel)%nat ->
  forallb digit (udigits fuel n) = true /\ val 0 (udigits fuel n) = n /\ udigits fuel n <> [] /\ (hd 0 (udigits fuel n) = 48 -> udigits fuel n = [48]).
Proof.
  induction fuel as [|f IH]; intros n H P; [lia|].
  assert (Q : 10 ^ Z.of_nat (S f) = 10 * 10 ^ Z.of_nat f) by (rewrite Nat2Z.inj_succ, Z.pow_succ_r; lia).
  pose proof (Z.mod_pos_bound n 10 ltac:(lia)).
  assert (D : digit (48 + n mod 10) = true) by (unfold digit; lia).
  cbn [udigits]. destruct (n <? 10) eqn:L.
  - cbn [app forallb hd]. rewrite D. repeat split; try discriminate.
    + unfold val. cbn [fold_left]. rewrite Z.mod_small by lia. lia.
    + intros E. rewrite E. reflexivity.
  - destruct (Nat.eq_dec f 0) as [->|NF]; [cbn in H; lia|].
    destruct (IH (n / 10)) as (A & B & C & E); [split; [apply Z.div_pos; lia|apply Z.div_lt_upper_bound; lia]|lia|].
    repeat split.
    + rewrite forallb_app, A. cbn [forallb]. rewrite D. reflexivity.
    + rewrite val_app, B. unfold val. cbn [fold_left]. pose proof (Z.div_mod n 10). lia.
    + intros X. apply app_eq_nil in X. destruct X. discriminate.
    + intros X. destruct (udigits f (n / 10)) as [|d t] eqn:U; [congruence|]. cbn [app hd] in X. specialize (E X).
      exfalso. rewrite E in B. unfold val in B. cbn in B. assert (1 <= n / 10) by (apply Z.div_le_lower_bound; lia). lia.
Qed.
Lemma lu_bound : forall n, 0 <= n < 2^64 -> 0 <= n < 10 ^ Z.of_nat 20.
Proof. intros n H. assert (2^64 < 10 ^ Z.of_nat 20) by reflexivity. lia. Qed.
Lemma lu_numeral : forall n, 0 <= n < 2^64 -> numeral n (lu n).
Proof. intros n H. destruct (udigits_ok 20 n (lu_bound n H) ltac:(lia)) as (A & B & C & D). repeat split; assumption. Qed.
Lemma udigits_length : forall fuel n k, 0 <= n < 10 ^ Z.of_nat k -> (0 < k)%nat -> (length (udigits fuel n) <= k)%nat.
Proof.
  induction fuel as [|f IH]; intros n k H P; [cbn; lia|]. cbn [udigits]. rewrite app_length. cbn [length].
  destruct (n <? 10) eqn:L; [cbn; lia|]. destruct k as [|k]; [lia|].
  assert (Q : 10 ^ Z.of_nat (S k) = 10 * 10 ^ Z.of_nat k) by (rewrite Nat2Z.inj_succ, Z.pow_succ_r; lia).
  destruct (Nat.eq_dec k 0) as [->|NK]; [cbn in H; lia|].
  specialize (IH (n / 10) k). enough (length (udigits f (n / 10)) <= k)%nat by lia.
  apply IH; [split; [apply Z.div_pos; lia|apply Z.div_lt_upper_bound; lia]|lia].
Qed.
Lemma val_zeros : forall k l, val 0 (repeat 48 k ++ l) = val 0 l.
Proof. induction k; intros l; [reflexivity|]. cbn [repeat app]. unfold val in *. cbn [fold_left]. apply IHk. Qed.
Lemma zeros_digit : forall k, forallb digit (repeat 48 k) = true.
Proof. induction k; [reflexivity|]. cbn [repeat forallb]. rewrite IHk. reflexivity. Qed.
Lemma lu010_value : forall n, 0 <= n < 2^64 -> val 0 (lu010 n) = n /\ forallb digit (lu010 n) = true.
Proof.
  intros n H. destruct (lu_numeral n H) as (_ & A & B & _). unfold lu010. split; [rewrite val_zeros; exact B|].
  rewrite forallb_app, zeros_digit, A. reflexivity.
Qed.
Lemma lu010_length : forall n, 0 <= n < 10 ^ 10 -> length (lu010 n) = 10%nat.
Proof.
  intros n H. unfold lu010. rewrite app_length, repeat_length.
  pose proof (udigits_length 20 n 10 H ltac:(lia)). unfold lu in *. lia.
Qed.
Lemma lu_len20 : forall n, 0 <= n < 2^64 -> (length (lu n) <= 20)%nat.
Proof. intros n H. apply udigits_length; [apply lu_bound, H|lia]. Qed.
Lemma lu010_len20 : forall n, 0 <= n < 2^64 -> (length (lu010 n) <= 20)%nat.
Proof. intros n H. unfold lu010. rewrite app_length, repeat_length. pose proof (lu_len20 n H). lia. Qed.

(** ** The order of names *)
Lemma val_split : forall l a, val a l = a * 10 ^ Z.of_nat (length l) + val 0 l.
Proof.
  induction l as [|c l IH]; intros a; [cbn; lia|]. unfold val in *. cbn [fold_left length].
  rewrite IH, (IH (10 * 0 + (c - 48))). rewrite Nat2Z.inj_succ, Z.pow_succ_r by lia. lia.
Qed.
Lemma val_small : forall l, forallb digit l = true -> 0 <= val 0 l < 10 ^ Z.of_nat (length l).
Proof.
  induction l as [|c l IH]; [cbn; lia|]. cbn [forallb]. intros H. apply andb_prop in H. destruct H as [D H]. specialize (IH H).
  unfold digit in D. replace (val 0 (c :: l)) with (val (c - 48) l) by (unfold val; cbn [fold_left]; f_equal; lia).
  rewrite val_split. cbn [length]. rewrite Nat2Z.inj_succ, Z.pow_succ_r by lia. nia.
Qed.
Lemma digits_sort : forall a b, length a = length b -> forallb digit a = true -> forallb digit b = true -> val 0 a < val 0 b -> sorts_before a b.
Proof.
  induction a as [|c a IH]; intros [|d b] L A B V; try discriminate.
  cbn [forallb] in A, B. apply andb_prop in A, B. destruct A as [DC A], B as [DD B]. injection L as L.
  replace (val 0 (c :: a)) with (val (c - 48) a) in V by (unfold val; cbn [fold_left]; f_equal; lia).
  replace (val 0 (d :: b)) with (val (d - 48) b) in V by (unfold val; cbn [fold_left]; f_equal; lia).
  rewrite (val_split a), (val_split b), L in V. pose proof (val_small a A) as SA. pose proof (val_small b B) as SB. rewrite L in SA.
  destruct (Z.lt_trichotomy c d) as [X|[X|X]].
  - exists [], c, d, a, b. auto.
  - subst d. assert (V' : val 0 a < val 0 b) by lia. destruct (IH b L A B V') as (p & x & y & s & t & -> & -> & XY).
    exists (c :: p), x, y, s, t. auto.
  - exfalso. assert (10 ^ Z.of_nat (length b) * (c - d) >= 10 ^ Z.of_nat (length b)) by nia. nia.
Qed.
Lemma sorts_ctx : forall p a b s, sorts_before a b -> sorts_before (p ++ a ++ s) (p ++ b ++ s).
Proof.
  intros p a b s (q & c & d & u & v & -> & -> & L). exists (p ++ q), c, d, (u ++ s), (v ++ s).
  repeat rewrite <- app_assoc. auto.
Qed.
Lemma file_name_long : forall p i, 0 <= i < 2^64 -> (length p <= 999)%nat -> file_name (Some p) i = Some (p ++ lu010 i ++ PGM).
Proof.
  intros p i H L. unfold file_name. f_equal. apply firstn_all2. rewrite !app_length. pose proof (lu010_len20 i H). cbn [length PGM]. lia.
Qed.

(** ** Reading the file *)
Lemma digit_not_blank : forall c, digit c = true -> blank c = false.
Proof. unfold digit, blank. intros. lia. Qed.
Lemma scan_digits : forall d a rest, forallb digit d = true -> scan (d ++ rest) (Some a) = scan rest (Some (val a d)).
Proof.
  induction d as [|c d IH]; intros a rest H; [reflexivity|]. cbn [forallb] in H. apply andb_prop in H. destruct H as [D H].
  cbn [app scan]. rewrite (digit_not_blank _ D), D. rewrite IH by exact H. reflexivity.
Qed.
Lemma scan_num : forall d c rest, d <> [] -> forallb digit d = true -> blank c = true ->
  scan (d ++ c :: rest) None = option_map (cons (val 0 d)) (scan rest None).
Proof.
  intros [|x d] c rest N H B; [congruence|]. cbn [forallb] in H. apply andb_prop in H. destruct H as [D H].
  cbn [app scan]. rewrite (digit_not_blank _ D), D. rewrite scan_digits by exact H. cbn [scan]. rewrite B. reflexivity.
Qed.
Lemma scan_lu : forall n c rest, 0 <= n < 2^64 -> blank c = true -> scan (lu n ++ c :: rest) None = option_map (cons n) (scan rest None).
Proof.
  intros n c rest H B. destruct (lu_numeral n H) as (N & D & V & _). rewrite scan_num by assumption.
  unfold value in V. unfold val. rewrite V. reflexivity.
Qed.
Lemma wrap_small : forall b, 0 <= wrap32 b < 2^64.
Proof. intros b. unfold wrap32. pose proof (Z.mod_pos_bound b (2^32) ltac:(lia)). assert (2^32 < 2^64) by reflexivity. lia. Qed.
Lemma printed_eq : forall b, 0 <= b < 256 -> wrap32 (sext8 b) = printed b.
Proof.
  intros b H. unfold wrap32, sext8, printed. destruct (b <? 128) eqn:L; [apply Z.mod_small; lia|].
  symmetry. apply Z.mod_unique with (-1); lia.
Qed.
Definition triple (b : Z) : list Z := [0; 0; printed b].
Lemma scan_sample : forall b rest, 0 <= b < 256 -> scan (sample b ++ rest) None = option_map (app (triple b)) (scan rest None).
Proof.
  intros b rest H. unfold sample. rewrite <- !app_assoc. cbn [app scan].
  change (blank 48) with false. change (digit 48) with true. change (blank SP) with true. cbn iota.
  unfold u_char. rewrite scan_lu by (try apply wrap_small; reflexivity). rewrite printed_eq by exact H.
  unfold triple. destruct (scan rest None); reflexivity.
Qed.
Lemma scan_samples : forall l rest, (forall b, In b l -> 0 <= b < 256) ->
  scan (concat (map sample l) ++ rest) None = option_map (app (flat_map triple l)) (scan rest None).
Proof.
  induction l as [|b l IH]; intros rest H; [cbn; destruct (scan rest None); reflexivity|].
  cbn [map concat flat_map]. rewrite <- app_assoc, scan_sample by (apply H; left; reflexivity).
  rewrite IH by (intros; apply H; right; assumption). destruct (scan rest None); cbn [option_map]; [rewrite app_assoc|]; reflexivity.
Qed.
(** The lines that are there *)
Definition present (a : list (option (list Z))) : list (list Z) := flat_map (fun x => match x with Some l => [l] | None => [] end) a.
Lemma scan_rows : forall w a, 0 <= w -> (forall l, In (Some l) a -> Z.of_nat (length l) = w /\ forall b, In b l -> 0 <= b < 256) ->
  exists t, rows w a = Some t /\ scan t None = Some (flat_map (flat_map triple) (present a)).
Proof.
  intros w a W. induction a as [|x a IH]; intros H; [exists []; auto|].
  destruct IH as (t & R & S); [intros; apply H; right; assumption|]. cbn [rows]. destruct x as [l|].
  - destruct (H l (or_introl eq_refl)) as (L & B). cbn [row]. rewrite <- L, Z.ltb_irrefl, Nat2Z.id, firstn_all, L, R.
    eexists; split; [reflexivity|]. rewrite <- app_assoc. rewrite scan_samples by exact B. cbn [app scan].
    change (blank NL) with true. cbn iota. rewrite S. reflexivity.
  - cbn [row]. rewrite R. exists t. auto.
Qed.
Lemma read_file : forall w h a, 0 <= w < 2^64 -> 0 <= h < 2^64 ->
  (forall l, In (Some l) a -> Z.of_nat (length l) = w /\ forall b, In b l -> 0 <= b < 256) ->
  exists t, frame_file true w h a = Some t /\ read_ppm t = Some (w, h, 255, flat_map (flat_map triple) (present a)).
Proof.
  intros w h a W H L. destruct (scan_rows w a ltac:(lia) L) as (t & R & S). unfold frame_file. rewrite R.
  eexists; split; [reflexivity|]. unfold header. cbn [app]. unfold read_ppm. change (blank NL) with true. cbn iota.
  repeat rewrite <- app_assoc. cbn [app]. rewrite scan_lu by (try reflexivity; lia).
  replace (lu h ++ NL :: 50 :: 53 :: 53 :: NL :: t) with (lu h ++ NL :: lu 255 ++ NL :: t) by reflexivity.
  rewrite <- app_assoc. cbn [app]. rewrite scan_lu by (try reflexivity; lia).
  replace (50 :: 53 :: 53 :: NL :: t) with (lu 255 ++ NL :: t) by reflexivity.
  rewrite scan_lu by (try reflexivity; lia). rewrite S. reflexivity.
Qed.

(** ** The loop of a pixel *)
Lemma iterate_ok : forall A rest (cx cy : F A) m x y, orbit cx cy m = (x, y) ->
  (forall k, (k < m)%nat -> near (orbit cx cy k) = true) ->
  exists n, (forall k, (k < n)%nat -> near (orbit cx cy k) = true) /\
    (n = (m + rest)%nat \/ (n < m + rest)%nat /\ near (orbit cx cy n) = false) /\ iterate rest cx cy x y (Z.of_nat m) = Z.of_nat n.
Proof.
  intros A rest cx cy. induction rest as [|r IH]; intros m x y O P.
  - exists m. split; [exact P|]. split; [left; lia|]. cbn [iterate]. destruct (f_le _ _); reflexivity.
  - cbn [iterate]. destruct (f_le (f_add (f_mul x x) (f_mul y y)) (f_int 4)) eqn:L.
    + replace (Z.of_nat m + 1) with (Z.of_nat (S m)) by lia.
      destruct (IH (S m) (f_add (f_sub (f_mul x x) (f_mul y y)) cx) (f_add (f_mul (f_mul (f_int 2) x) y) cy)) as (n & Q & R & E).
      * cbn [orbit]. rewrite O. reflexivity.
      * intros k K. destruct (Nat.eq_dec k m) as [->|]; [|apply P; lia]. rewrite O. exact L.
      * exists n. split; [exact Q|]. split; [|exact E]. destruct R; [left; lia|right; split; [lia|tauto]].
    + exists m. split; [exact P|]. split; [|reflexivity]. right. split; [lia|]. rewrite O. exact L.
Qed.
Lemma iterate_leaves : forall A (cx cy : F A), exists n, leaves_at cx cy n /\ iterate MAX_ITERATION cx cy (f_lit 0 0) (f_lit 0 0) 0 = Z.of_nat n.
Proof.
  intros A cx cy. destruct (iterate_ok A MAX_ITERATION cx cy 0 (f_lit 0 0) (f_lit 0 0) eq_refl ltac:(lia)) as (n & P & Q & E).
  exists n. split; [|exact E]. split; [exact P|]. exact Q.
Qed.
Lemma octet_ok : forall n, octet (Z.of_nat n) = brightness n.
Proof.
  intros n. unfold octet, brightness, MAX_ITERATION. destruct (n <? 1000)%nat eqn:L.
  - apply Nat.ltb_lt in L. destruct (Z.ltb_spec (Z.of_nat n) (Z.of_nat 1000)); [reflexivity|lia].
  - apply Nat.ltb_ge in L. destruct (Z.ltb_spec (Z.of_nat n) (Z.of_nat 1000)); [lia|reflexivity].
Qed.
Lemma brightness_byte : forall n, 0 <= brightness n < 256.
Proof. intros n. unfold brightness. destruct (n <? 1000)%nat; [apply Z.mod_pos_bound; lia|lia]. Qed.
Lemma leaves_unique : forall A (cx cy : F A) n m, leaves_at cx cy n -> leaves_at cx cy m -> n = m.
Proof.
  intros A cx cy n m (P & Q) (R & S). destruct (Nat.lt_trichotomy n m) as [L|[L|L]]; [|exact L|]; exfalso.
  - destruct S as [S|[S _]], Q as [Q|[_ Q]]; try lia; rewrite R in Q by lia; discriminate.
  - destruct S as [S|[_ S]], Q as [Q|[Q _]]; try lia; rewrite P in S by lia; discriminate.
Qed.

(** ** The position of a frame *)
Lemma turn_zoom : forall A (x y : F A) w h k, snd (turn x y w h k) = power k.
Proof. induction k as [|k IH]; [reflexivity|]. cbn [turn power]. destruct (turn x y w h k) as [v z]. cbn [snd] in *. rewrite IH. reflexivity. Qed.
Lemma view_ok : forall A (x y : F A) w h k i j, let v := view_of x y w h k in
  f_add (v_startx v) (f_mul (v_scalex v) (f_int i)) = column k x w i /\ f_add (v_starty v) (f_mul (v_scaley v) (f_int j)) = line k y h j.
Proof.
  intros A x y w h [|k] i j; [split; reflexivity|]. unfold view_of. cbn zeta. cbn [turn]. pose proof (turn_zoom A x y w h k) as Z.
  destruct (turn x y w h k) as [v z]. cbn [snd] in Z. subst z. split; reflexivity.
Qed.
Lemma pixel_ok : forall A (x y : F A) w h k i j, exists n, leaves_at (column k x w i) (line k y h j) n /\ pixel (view_of x y w h k) j i = brightness n.
Proof.
  intros A x y w h k i j. destruct (view_ok A x y w h k i j) as [E1 E2]. cbn zeta in E1, E2. unfold pixel. rewrite E1, E2.
  destruct (iterate_leaves A (column k x w i) (line k y h j)) as (n & P & Q). exists n. split; [exact P|]. rewrite Q. apply octet_ok.
Qed.
Lemma from_length : forall n i, length (from i n) = n.
Proof. induction n; intros; [reflexivity|]. cbn [from length]. f_equal. apply IHn. Qed.
Lemma from_nth : forall n i k, (k < n)%nat -> nth_error (from i n) k = Some (i + Z.of_nat k).
Proof.
  induction n; intros i k H; [lia|]. destruct k; cbn [from nth_error]; [f_equal; lia|]. rewrite IHn by lia. f_equal. lia.
Qed.
(** The lines of a frame when all have been drawn *)
Definition frame {A} (x y : F A) (w h : Z) (k : nat) : list (option (list Z)) :=
  map (fun j => Some (drawn (view_of x y w h k) w j)) (from 0 (Z.to_nat h)).
Lemma drawn_ok : forall A (x y : F A) w h k l, 0 <= w -> In (Some l) (frame x y w h k) -> Z.of_nat (length l) = w /\ forall b, In b l -> 0 <= b < 256.
Proof.
  intros A x y w h k l W H. unfold frame in H. apply in_map_iff in H. destruct H as (j & E & _). injection E as <-.
  unfold drawn. rewrite map_length, from_length. split; [lia|]. intros b B. apply in_map_iff in B. destruct B as (i & <- & _).
  destruct (pixel_ok A x y w h k i j) as (n & _ & ->). apply brightness_byte.
Qed.
Lemma present_frame : forall A (x y : F A) w h k, present (frame x y w h k) = map (drawn (view_of x y w h k) w) (from 0 (Z.to_nat h)).
Proof. intros. unfold frame, present. induction (from 0 (Z.to_nat h)) as [|j l IH]; [reflexivity|]. cbn [map flat_map app]. f_equal. exact IH. Qed.
Lemma nth_blocks : forall T (f : T -> list Z) (c : nat) l j i, (forall x, In x l -> length (f x) = c) -> (i < c)%nat ->
  nth_error (flat_map f l) (j * c + i) = match nth_error l j with Some x => nth_error (f x) i | None => None end.
Proof.
  intros T f c l. induction l as [|x l IH]; intros j i L I.
  - cbn [flat_map]. rewrite (proj2 (nth_error_None [] (j * c + i))) by (cbn; lia). rewrite (proj2 (nth_error_None [] j)) by (cbn; lia). reflexivity.
  - cbn [flat_map]. pose proof (L x (or_introl eq_refl)) as LX. destruct j as [|j].
    + cbn [nth_error Nat.mul Nat.add]. apply nth_error_app1. lia.
    + rewrite nth_error_app2 by (rewrite LX; lia). rewrite LX. replace (S j * c + i - c)%nat with (j * c + i)%nat by lia.
      cbn [nth_error]. apply IH; [intros; apply L; right; assumption|exact I].
Qed.
Lemma blocks_length : forall T (f : T -> list Z) c l, (forall x, In x l -> length (f x) = c) -> length (flat_map f l) = (length l * c)%nat.
Proof.
  intros T f c l. induction l as [|x l IH]; intros L; [reflexivity|]. cbn [flat_map length]. rewrite app_length, IH, (L x) by (auto using in_eq; intros; apply L; right; assumption). lia.
Qed.
