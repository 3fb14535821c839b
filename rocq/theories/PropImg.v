(** C66: the pictures of the mandelbrot example. *)
From Coq Require Import String Ascii.
From Verif Require Import Base ImgModel ImgSpec ImgProofs.
From Verif Require ThreadModel MandModel MandSpec PropMand.

(** The file of a frame whose lines have all been drawn has the size asked for, and three
    samples for every pixel, line by line from the left: 0, 0 and the printed brightness of the
    pixel's point, which is determined by when the point's orbit leaves the circle. *)
Theorem C66_file_partial : forall A (x y : F A) w h k, 0 < w < 2^64 -> 0 < h < 2^64 ->
  exists t s, frame_file true w h (frame x y w h k) = Some t /\ read_ppm t = Some (w, h, 255, s) /\ Z.of_nat (length s) = 3 * w * h /\
    forall j i, 0 <= j < h -> 0 <= i < w -> exists n, leaves_at (column k x w i) (line k y h j) n /\
      nth_error s (Z.to_nat (3 * (j * w + i))) = Some 0 /\ nth_error s (Z.to_nat (3 * (j * w + i) + 1)) = Some 0 /\
      nth_error s (Z.to_nat (3 * (j * w + i) + 2)) = Some (printed (brightness n)).
Proof.
  intros A x y w h k W H. destruct (read_file w h (frame x y w h k) ltac:(lia) ltac:(lia) (fun l => drawn_ok A x y w h k l ltac:(lia))) as (t & T & R).
  exists t, (flat_map (flat_map triple) (present (frame x y w h k))). split; [exact T|]. split; [exact R|]. rewrite present_frame.
  set (v := view_of x y w h k).
  assert (L3 : forall b, In b (drawn v w 0) -> length (triple b) = 3%nat) by reflexivity.
  assert (LD : forall j, length (drawn v w j) = Z.to_nat w) by (intros; unfold drawn; rewrite map_length; apply from_length).
  assert (LR : forall l, In l (map (drawn v w) (from 0 (Z.to_nat h))) -> length (flat_map triple l) = (Z.to_nat w * 3)%nat).
  { intros l I. apply in_map_iff in I. destruct I as (j & <- & _). rewrite (blocks_length _ _ 3) by reflexivity. rewrite LD. reflexivity. }
  split; [rewrite (blocks_length _ _ _ _ LR), map_length, from_length; nia|].
  intros j i J I. destruct (pixel_ok A x y w h k i j) as (n & P & Q). exists n. split; [exact P|].
  assert (N : forall c, (c < 3)%nat -> nth_error (flat_map (flat_map triple) (map (drawn v w) (from 0 (Z.to_nat h)))) (Z.to_nat j * (Z.to_nat w * 3) + (Z.to_nat i * 3 + c)) = nth_error (triple (brightness n)) c).
  { intros c C. rewrite (nth_blocks _ _ _ _ _ _ LR) by nia. rewrite nth_error_map, from_nth by lia. cbn [option_map].
    rewrite (nth_blocks _ _ 3) by (try reflexivity; lia). unfold drawn. rewrite nth_error_map, from_nth by lia. cbn [option_map].
    replace (0 + Z.of_nat (Z.to_nat j)) with j by lia. replace (0 + Z.of_nat (Z.to_nat i)) with i by lia. fold v in Q. rewrite Q. reflexivity. }
  repeat split; match goal with |- nth_error _ ?p = Some ?r => match goal with |- context [Z.to_nat (?a + 2)] => replace p with (Z.to_nat j * (Z.to_nat w * 3) + (Z.to_nat i * 3 + 2))%nat by nia; apply (N 2%nat); lia
    | |- context [Z.to_nat (?a + 1)] => replace p with (Z.to_nat j * (Z.to_nat w * 3) + (Z.to_nat i * 3 + 1))%nat by nia; apply (N 1%nat); lia
    | _ => replace p with (Z.to_nat j * (Z.to_nat w * 3) + (Z.to_nat i * 3 + 0))%nat by nia; apply (N 0%nat); lia end end.
Qed.
(** If no pixel is brighter than 127, the file is a picture. *)
Theorem C66_picture_partial : forall A (x y : F A) w h k, 0 < w < 2^64 -> 0 < h < 2^64 ->
  (forall i j n, 0 <= i < w -> 0 <= j < h -> leaves_at (column k x w i) (line k y h j) n -> brightness n < 128) ->
  exists t s, frame_file true w h (frame x y w h k) = Some t /\ picture t w h s /\
    forall j i n, 0 <= j < h -> 0 <= i < w -> leaves_at (column k x w i) (line k y h j) n ->
      firstn 3 (skipn (Z.to_nat (3 * (j * w + i))) s) = [0; 0; brightness n].
Proof.
  intros A x y w h k W H B. destruct (C66_file_partial A x y w h k W H) as (t & s & T & R & L & P). exists t, s. split; [exact T|].
  assert (Q : forall p q, nth_error s p = Some q -> 0 <= q <= 255).
  { intros p q N. assert (PL : (p < length s)%nat) by (apply nth_error_Some; congruence).
    set (d := Z.of_nat p / 3). set (j := d / w). set (i := d mod w).
    pose proof (Z.div_mod (Z.of_nat p) 3 ltac:(lia)) as E1. pose proof (Z.mod_pos_bound (Z.of_nat p) 3 ltac:(lia)) as E2. fold d in E1.
    pose proof (Z.div_mod d w ltac:(lia)) as E3. pose proof (Z.mod_pos_bound d w ltac:(lia)) as E4. fold j i in E3. fold i in E4.
    assert (0 <= d) by (apply Z.div_pos; lia). assert (0 <= j) by (apply Z.div_pos; lia). assert (DL : d < w * h) by lia.
    assert (j < h) by (apply Z.div_lt_upper_bound; lia).
    destruct (P j i ltac:(lia) ltac:(lia)) as (n & LV & N0 & N1 & N2). pose proof (B i j n ltac:(lia) ltac:(lia) LV) as BN. pose proof (brightness_byte n).
    assert (PR : printed (brightness n) = brightness n) by (unfold printed; destruct (Z.ltb_spec (brightness n) 128); lia). rewrite PR in N2.
    replace (j * w + i) with d in * by lia.
    assert (C : Z.of_nat p mod 3 = 0 \/ Z.of_nat p mod 3 = 1 \/ Z.of_nat p mod 3 = 2) by lia.
    destruct C as [C|[C|C]]; [replace p with (Z.to_nat (3 * d)) in N by lia|replace p with (Z.to_nat (3 * d + 1)) in N by lia|replace p with (Z.to_nat (3 * d + 2)) in N by lia];
      rewrite N in *; try (injection N0 as ->); try (injection N1 as ->); try (injection N2 as ->); lia. }
  split.
  - exists 255. split; [exact R|]. split; [exact L|]. intros q I. apply In_nth_error in I. destruct I as (p & N). exact (Q p q N).
  - intros j i n J I LV. destruct (P j i J I) as (m & LM & N0 & N1 & N2). assert (m = n) by (eapply leaves_unique; eassumption). subst m.
    pose proof (B i j n I J LV) as BN. replace (printed (brightness n)) with (brightness n) in N2 by (unfold printed; destruct (Z.ltb_spec (brightness n) 128); lia).
    set (p := Z.to_nat (3 * (j * w + i))) in *. replace (Z.to_nat (3 * (j * w + i) + 1)) with (S p) in N1 by lia. replace (Z.to_nat (3 * (j * w + i) + 2)) with (S (S p)) in N2 by lia.
    clear -N0 N1 N2. revert s N0 N1 N2. induction p as [|p IH]; intros [|a s] N0 N1 N2; try discriminate.
    + cbn in N0. injection N0 as ->. destruct s as [|b s]; [discriminate|]. cbn in N1. injection N1 as ->. destruct s as [|c s]; [discriminate|]. cbn in N2. injection N2 as ->. reflexivity.
    + cbn [skipn]. apply IH; assumption.
Qed.
(** A pixel whose brightness is 128 or more makes the file invalid: the sample is printed as a
    number of about 2^32, larger than the largest sample that the header announces. *)
Theorem C66_bright_refuted : forall A (x y : F A) w h k i j n, 0 < w < 2^64 -> 0 < h < 2^64 -> 0 <= i < w -> 0 <= j < h ->
  leaves_at (column k x w i) (line k y h j) n -> 128 <= brightness n ->
  exists t s, frame_file true w h (frame x y w h k) = Some t /\ read_ppm t = Some (w, h, 255, s) /\
    nth_error s (Z.to_nat (3 * (j * w + i) + 2)) = Some (2^32 - 256 + brightness n) /\ forall w' h' s', ~ picture t w' h' s'.
Proof.
  intros A x y w h k i j n W H I J LV B. destruct (C66_file_partial A x y w h k W H) as (t & s & T & R & L & P). exists t, s. split; [exact T|]. split; [exact R|].
  destruct (P j i J I) as (m & LM & _ & _ & N). assert (m = n) by (eapply leaves_unique; eassumption). subst m. pose proof (brightness_byte n).
  replace (printed (brightness n)) with (2^32 - 256 + brightness n) in N by (unfold printed; destruct (Z.ltb_spec (brightness n) 128); lia).
  split; [exact N|]. intros w' h' s' (q & R' & _ & Q). rewrite R in R'. injection R' as <- <- <- <-. specialize (Q _ (nth_error_In _ _ N)). lia.
Qed.
(** Lines that are missing are left out of the file, whose header still counts them. *)
Theorem C66_missing : forall w h a, 0 < w < 2^64 -> 0 <= h < 2^64 ->
  (forall l, In (Some l) a -> Z.of_nat (length l) = w /\ forall b, In b l -> 0 <= b < 256) ->
  exists t s, frame_file true w h a = Some t /\ read_ppm t = Some (w, h, 255, s) /\ s = flat_map (fun l => match l with Some l => flat_map (fun b => [0; 0; printed b]) l | None => [] end) a /\
    (Z.of_nat (length a) = h -> In None a -> forall w' h' s', ~ picture t w' h' s').
Proof.
  intros w h a W H L. destruct (read_file w h a ltac:(lia) H L) as (t & T & R). exists t. eexists. split; [exact T|]. split; [exact R|].
  assert (E : forall a, flat_map (flat_map triple) (present a) = flat_map (fun l => match l with Some l => flat_map (fun b => [0; 0; printed b]) l | None => [] end) a).
  { clear. induction a as [|[l|] a IH]; [reflexivity| |exact IH]. cbn [present flat_map app]. cbn [flat_map]. f_equal. exact IH. }
  split; [apply E|]. intros LA IN w' h' s' (q & R' & LS & _). rewrite R in R'. injection R' as <- <- <- <-.
  assert (LP : forall l, In l (present a) -> length (flat_map triple l) = (Z.to_nat w * 3)%nat).
  { intros l I. rewrite (blocks_length _ _ 3) by reflexivity. unfold present in I. apply in_flat_map in I. destruct I as ([x|] & I & X); [destruct X as [->|[]]|destruct X]. destruct (L _ I). nia. }
  rewrite (blocks_length _ _ _ _ LP) in LS.
  assert (C : forall a, In None a -> (length (present a) < length a)%nat).
  { clear. assert (K : forall a, (length (present a) <= length a)%nat).
    { induction a as [|[l|] a IH]; [reflexivity|change (present (Some l :: a)) with (l :: present a)|change (present (None :: a)) with (present a)]; cbn [length]; lia. }
    induction a as [|[l|] a IH]; [intros []| |].
    - intros [X|X]; [discriminate|]. specialize (IH X). change (present (Some l :: a)) with (l :: present a). cbn [length]. lia.
    - intros _. specialize (K a). change (present (None :: a)) with (present a). cbn [length]. lia. }
  specialize (C a IN). nia.
Qed.
(** The names of the files: the prefix, the number of the frame with at least ten digits, and
    ".pgm".  Different frames have different files, and up to ten digits the names sort in the
    order of the frames. *)
Theorem C66_names : forall p, (length p <= 999)%nat ->
  (forall i, 0 <= i < 2^64 -> exists zeros d, numeral i d /\ (length zeros = 10 - length d)%nat /\ (forall c, In c zeros -> c = 48) /\
     file_name (Some p) i = Some (p ++ zeros ++ d ++ text ".pgm")) /\
  (forall i j a, 0 <= i < 2^64 -> 0 <= j < 2^64 -> file_name (Some p) i = Some a -> file_name (Some p) j = Some a -> i = j) /\
  (forall i j a b, 0 <= i < j -> j < 10^10 -> file_name (Some p) i = Some a -> file_name (Some p) j = Some b -> sorts_before a b).
Proof.
  intros p L. split; [|split].
  - intros i I. exists (repeat 48 (10 - length (lu i))), (lu i). split; [apply lu_numeral, I|]. split; [apply repeat_length|].
    split; [intros c C; exact (repeat_spec _ _ _ C)|]. rewrite file_name_long by assumption. unfold lu010. rewrite <- app_assoc. reflexivity.
  - intros i j a I J. rewrite !file_name_long by assumption. intros E1 E2. rewrite <- E2 in E1. injection E1 as E. apply app_inv_head, app_inv_tail in E.
    rewrite <- (proj1 (lu010_value i I)), E. apply lu010_value, J.
  - intros i j a b I J. assert (10^10 < 2^64) by reflexivity. rewrite !file_name_long by (assumption || lia). intros [= <-] [= <-]. apply sorts_ctx.
    destruct (lu010_value i ltac:(lia)) as [VI DI], (lu010_value j ltac:(lia)) as [VJ DJ].
    apply digits_sort; auto; [rewrite !lu010_length by lia; reflexivity|lia].
Qed.
(** What is printed while a frame is written *)
Theorem C66_console : forall i name a, 0 <= i < 2^64 -> Z.of_nat (length a) < 2^64 ->
  exists d rest, numeral i d /\ console i name a = text "Frame " ++ d ++ text " complete." ++ [10] ++ text "Creating " ++ name ++ [10] ++ concat rest /\
    (forall j l, In (j, l) (combine (map Z.of_nat (seq 0 (length a))) a) -> l = None -> exists e, numeral j e /\ In (text "Skipping missing line " ++ e ++ [10]) rest) /\
    length rest = length (filter (fun l => match l with None => true | Some _ => false end) a).
Proof.
  intros i name a I LA. exists (lu i).
  assert (S : forall a j0, 0 <= j0 -> j0 + Z.of_nat (length a) < 2^64 -> exists rest, skipped j0 a = concat rest /\
     (forall j l, In (j, l) (combine (map (fun n => j0 + Z.of_nat n) (seq 0 (length a))) a) -> l = None -> exists e, numeral j e /\ In (text "Skipping missing line " ++ e ++ [10]) rest) /\
     length rest = length (filter (fun l => match l with None => true | Some _ => false end) a)).
  { clear. induction a as [|x a IH]; intros j0 J B; [exists []; repeat split; auto; intros ? ? []|].
    cbn [length] in B. destruct (IH (j0 + 1) ltac:(lia) ltac:(lia)) as (rest & E & R & N).
    assert (M : map (fun n => j0 + Z.of_nat n) (seq 1 (length a)) = map (fun n => j0 + 1 + Z.of_nat n) (seq 0 (length a))) by (rewrite <- seq_shift, map_map; apply map_ext; intros; lia).
    destruct x as [l|]; cbn [skipped].
    - exists rest. split; [exact E|]. split; [|exact N]. intros j l' IN NO. cbn [length seq map combine] in IN. rewrite M in IN. destruct IN as [IN|IN]; [injection IN as <- <-; discriminate|]. exact (R j l' IN NO).
    - exists ((SKIPPING ++ lu j0 ++ [NL]) :: rest). split; [cbn [concat]; rewrite <- !app_assoc, E; reflexivity|]. split; [|cbn [filter length]; f_equal; exact N].
      intros j l' IN NO. cbn [length seq map combine] in IN. rewrite M in IN. destruct IN as [IN|IN].
      + injection IN as <- <-. exists (lu j0). split; [|left; reflexivity]. assert (Q : numeral j0 (lu j0)) by (apply lu_numeral; lia). rewrite <- (Z.add_0_r j0) in Q at 1. exact Q.
      + destruct (R j l' IN NO) as (e & NE & INE). exists e. split; [exact NE|right; exact INE]. }
  destruct (S a 0 ltac:(lia) ltac:(lia)) as (rest & E & R & N). exists rest. split; [apply lu_numeral, I|]. split; [unfold console; rewrite E; reflexivity|].
  split; [|exact N]. intros j l IN NO. apply (R j l); [|exact NO]. exact IN.
Qed.
(** The lines that MandModel puts into files are drawn as ImgModel says. *)
Definition render {A} (x y : F A) (w h : Z) (c : MandModel.cell) : option (list Z) :=
  match c with MandModel.Pixels k j => Some (drawn (view_of x y w h (Z.to_nat k)) w j) | _ => None end.
(** With any number of threads and any schedule in which the main thread's wait does not end
    without a signal, every file that is written is the one of its frame. *)
Theorem C66_threads_partial : forall A (x y : F A) c ws s0 l s, 0 <= MandModel.f_lines c ->
  MandModel.start c ws = Some s0 -> ~ In (MandModel.Spurious 1) l -> MandModel.mruns c s0 l = MandModel.MGo s ->
  forall i cells w, In (i, cells) (MandModel.s_files s) -> map (render x y w (MandModel.f_lines c)) cells = frame x y w (MandModel.f_lines c) (Z.to_nat i).
Proof.
  intros A x y c ws s0 l s LN S NI R i cells w IN. destruct (PropMand.C64_frames_partial c ws s0 l s S LN NI R) as (n & _ & F & _). rewrite F in IN.
  unfold MandSpec.animation in IN. apply in_map_iff in IN. destruct IN as (q & E & _). injection E as -> <-. unfold MandSpec.picture, MandSpec.upto, frame.
  assert (FR : forall m j, from j m = map (fun n => j + Z.of_nat n) (seq 0 m)).
  { clear. induction m as [|m IH]; intros j; [reflexivity|]. cbn [from seq map]. f_equal; [lia|]. rewrite IH, <- seq_shift, map_map. apply map_ext. intros; lia. }
  rewrite FR, !map_map. apply map_ext. intros m. reflexivity.
Qed.

(** ** Examples: numbers with 48 binary places; the sizes and the position that config_create
    sets.  In frame 0, pixel 975 of line 30 leaves after 190 steps. *)
Definition fixed : arith := Arith Z Z.add Z.sub Z.sub (fun a b => a * b / 2^48) (fun a b => a * 2^48 / b) Z.abs Z.leb (fun n => n * 2^48)
  (fun m e => if e <? 0 then m * 2^48 / 10 ^ (- e) else m * 2^48 * 10 ^ e).
Lemma leaves_by : forall A (cx cy : F A) m, iterate MAX_ITERATION cx cy (f_lit 0 0) (f_lit 0 0) 0 = m -> leaves_at cx cy (Z.to_nat m).
Proof. intros A cx cy m E. destruct (iterate_leaves A cx cy) as (n & P & Q). rewrite E in Q. rewrite Q, Nat2Z.id. exact P. Qed.
Theorem C66_default_refuted : let x : F fixed := X in let y : F fixed := Y in
  leaves_at (column 0 x WIDTH 975) (line 0 y HEIGHT 30) 190 /\ brightness 190 = 190 /\
  (exists t s, frame_file true WIDTH HEIGHT (frame x y WIDTH HEIGHT 0) = Some t /\ read_ppm t = Some (1920, 1080, 255, s) /\
     nth_error s (Z.to_nat (3 * (30 * 1920 + 975) + 2)) = Some 4294967230 /\ forall w' h' s', ~ picture t w' h' s').
Proof.
  cbv zeta. assert (L : leaves_at (column 0 (X : F fixed) WIDTH 975) (line 0 (Y : F fixed) HEIGHT 30) 190).
  { apply (leaves_by fixed (column 0 (X : F fixed) WIDTH 975) (line 0 (Y : F fixed) HEIGHT 30) 190). vm_compute. reflexivity. }
  split; [exact L|]. split; [reflexivity|].
  apply (C66_bright_refuted fixed X Y WIDTH HEIGHT 0 975 30 190); try exact L; try (unfold WIDTH, HEIGHT; lia). vm_compute. discriminate.
Qed.
(** A frame of 8 by 6 pixels has no bright pixel. *)
Example C66_picture_example : let x : F fixed := X in let y : F fixed := Y in
  exists t s, frame_file true 8 6 (frame x y 8 6 0) = Some t /\ picture t 8 6 s /\ nth_error s 89 = Some 68.
Proof.
  cbv zeta. eexists. eexists. split; [vm_compute; reflexivity|]. split.
  - exists 255. split; [vm_compute; reflexivity|]. split; [reflexivity|]. intros q I. cbn in I. repeat (destruct I as [<-|I]; [lia|]). destruct I.
  - reflexivity.
Qed.
(** The files of the default configuration *)
Theorem C66_default_names : forall i j, 0 <= i < j -> j < FRAMES ->
  exists a b, file_name (Some PREFIX) i = Some a /\ file_name (Some PREFIX) j = Some b /\ length a = 25%nat /\ length b = 25%nat /\
    firstn 11 a = text "mandelzoom_" /\ skipn 21 a = text ".pgm" /\ sorts_before a b.
Proof.
  intros i j I J. assert (10^10 < 2^64) by reflexivity. unfold FRAMES in J.
  assert (Q : forall k, 0 <= k < 18000 -> file_name (Some PREFIX) k = Some (PREFIX ++ lu010 k ++ PGM)) by (intros k K; apply file_name_long; first [lia | cbn; lia]).
  assert (LL : forall k, 0 <= k < 18000 -> length (PREFIX ++ lu010 k ++ PGM) = 25%nat) by (intros k K; rewrite !app_length, lu010_length by lia; reflexivity).
  eexists _, _. split; [apply Q; lia|]. split; [apply Q; lia|]. split; [apply LL; lia|]. split; [apply LL; lia|]. split; [reflexivity|]. split.
  - change (skipn 21 (PREFIX ++ lu010 i ++ PGM)) with (skipn 10 (lu010 i ++ PGM)). rewrite skipn_app, lu010_length by lia. rewrite skipn_all2; [reflexivity|]. rewrite lu010_length; [apply le_n|]. lia.
  - destruct (C66_names PREFIX ltac:(cbn; lia)) as (_ & _ & S). apply (S i j); try lia; apply Q; lia.
Qed.
Example C66_name_example : file_name (Some PREFIX) 17999 = Some (text "mandelzoom_0000017999.pgm") /\ PREFIX = text "mandelzoom_".
Proof. split; reflexivity. Qed.
(** A file is written exactly if it could be opened and every line that is there has at
    least as many octets as the picture has columns; otherwise the behaviour is undefined. *)
Theorem C66_defined : forall opened w h a, (exists t, frame_file opened w h a = Some t) <->
  opened = true /\ forall l, In (Some l) a -> w <= Z.of_nat (length l).
Proof.
  intros opened w h a. unfold frame_file. destruct opened; [|split; [intros (t & E); discriminate|intros (E & _); discriminate]].
  assert (R : (exists t, rows w a = Some t) <-> forall l, In (Some l) a -> w <= Z.of_nat (length l)).
  { induction a as [|l a IH]; [split; [intros _ l []|exists []; reflexivity]|]. cbn [rows]. destruct l as [l|]; cbn [row].
    - destruct (Z.ltb_spec (Z.of_nat (length l)) w) as [L|L].
      + split; [intros (t & E); discriminate|]. intros K. specialize (K l (or_introl eq_refl)). lia.
      + split.
        * intros (t & E) l' [E'|I]; [injection E' as <-; auto|]. apply IH; auto. destruct (rows w a); [eauto|discriminate].
        * intros K. destruct (proj2 IH) as (t & E); [intros; apply K; right; auto|]. rewrite E. eauto.
    - split.
      + intros (t & E) l' [E'|I]; [discriminate|]. apply IH; auto. destruct (rows w a); [eauto|discriminate].
      + intros K. destruct (proj2 IH) as (t & E); [intros; apply K; right; auto|]. rewrite E. eauto. }
  split.
  - intros (t & E). split; [auto|]. apply R. destruct (rows w a); [eauto|discriminate].
  - intros (_ & K). destruct (proj2 R K) as (t & E). rewrite E. eauto.
Qed.
Example C66_defined_example : exists t, frame_file true 2 2 [Some [1;2;3]; None] = Some t.
Proof. eexists. vm_compute. reflexivity. Qed.
(** The default configuration, as config_create.c says it. *)
Example C66_defaults_example : WIDTH * HEIGHT = 2073600 /\ HEIGHT = 1080 /\ JOBS = 8 /\ FRAMES = 5 * 60 * 60 /\
  forall A, (X : F A) = f_lit 13438870532012129028364919004019686867528573314565492885548699 (-63) /\
    (Y : F A) = f_lit 655614218769465062251320027664617466691295975864786403994151735 (-63).
Proof. repeat split; reflexivity. Qed.
(** With more than 10^10 frames the names would no longer sort. *)
Example C66_order_example : exists a b, file_name (Some PREFIX) (10^10 - 1) = Some a /\ file_name (Some PREFIX) (10^10) = Some b /\ sorts_before b a.
Proof. eexists. eexists. split; [vm_compute; reflexivity|]. split; [vm_compute; reflexivity|]. exists PREFIX, 49, 57. do 2 eexists. split; [reflexivity|]. split; [reflexivity|lia]. Qed.
Example C66_console_example : console 7 (text "a") [Some [0]; None] = text "Frame 7 complete." ++ [10] ++ text "Creating a" ++ [10] ++ text "Skipping missing line 1" ++ [10].
Proof. reflexivity. Qed.

Print Assumptions C66_file_partial.
Print Assumptions C66_picture_partial.
Print Assumptions C66_bright_refuted.
Print Assumptions C66_missing.
Print Assumptions C66_names.
Print Assumptions C66_console.
Print Assumptions C66_threads_partial.
Print Assumptions C66_default_refuted.
Print Assumptions C66_default_names.
Print Assumptions C66_defined.
