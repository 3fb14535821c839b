(** What a frame of the mandelbrot example should be: a plain PPM picture of the points of the
    frame, in a file whose name sorts with the frame's number. *)
From Coq Require Import String Ascii.
From Verif Require Import Base.
From Verif Require ImgModel.
Import ImgModel (arith, F, f_add, f_sub, f_dsub, f_mul, f_div, f_abs, f_le, f_int, f_lit).

(** ** Text *)
Definition text (s : string) : list Z := map (fun c => Z.of_nat (nat_of_ascii c)) (list_ascii_of_string s).
Definition digit (c : Z) : bool := (48 <=? c) && (c <=? 57).
Definition blank (c : Z) : bool := (c =? 32) || (c =? 10).
Definition value (l : list Z) : Z := fold_left (fun a c => 10 * a + (c - 48)) l 0.
(** [l] is the decimal numeral of [n]. *)
Definition numeral (n : Z) (l : list Z) : Prop :=
  l <> [] /\ forallb digit l = true /\ value l = n /\ (hd 0 l = 48 -> l = [48]).
(** The order of names in a directory listing *)
Definition sorts_before (a b : list Z) : Prop := exists p c d s t, a = p ++ c :: s /\ b = p ++ d :: t /\ c < d.

(** ** Plain PPM: "P3", then numbers separated by blanks: the width, the height, the largest
    sample and the samples, three for each pixel. *)
Fixpoint scan (l : list Z) (cur : option Z) : option (list Z) :=
  match l with
  | [] => match cur with Some n => Some [n] | None => Some [] end
  | c :: l =>
      if blank c then match cur with Some n => option_map (cons n) (scan l None) | None => scan l None end
      else if digit c then scan l (Some (10 * match cur with Some n => n | None => 0 end + (c - 48)))
      else None
  end.
Definition read_ppm (l : list Z) : option (Z * Z * Z * list Z) :=
  match l with
  | 80 :: 51 :: c :: l =>
      if blank c then match scan l None with Some (w :: h :: m :: s) => Some (w, h, m, s) | _ => None end else None
  | _ => None
  end.
(** The file is a picture of [w] by [h] pixels with the samples [s]. *)
Definition picture (l : list Z) (w h : Z) (s : list Z) : Prop :=
  exists m, read_ppm l = Some (w, h, m, s) /\ Z.of_nat (length s) = 3 * w * h /\ forall x, In x s -> 0 <= x <= m.

(** ** The set: z(0) = 0, z(n+1) = z(n)^2 + c *)
Fixpoint orbit {A : arith} (cx cy : F A) (n : nat) : F A * F A :=
  match n with
  | O => (f_lit 0 0, f_lit 0 0)
  | S n => let '(x, y) := orbit cx cy n in
      (f_add (f_sub (f_mul x x) (f_mul y y)) cx, f_add (f_mul (f_mul (f_int 2) x) y) cy)
  end.
(** |z| <= 2 *)
Definition near {A : arith} (z : F A * F A) : bool := f_le (f_add (f_mul (fst z) (fst z)) (f_mul (snd z) (snd z))) (f_int 4).
(** The number of the first point that is further away than 2, or 1000. *)
Definition leaves_at {A : arith} (cx cy : F A) (n : nat) : Prop :=
  (forall m, (m < n)%nat -> near (orbit cx cy m) = true) /\ (n = 1000%nat \/ (n < 1000)%nat /\ near (orbit cx cy n) = false).
(** The brightness of a point *)
Definition brightness (n : nat) : Z := if (n <? 1000)%nat then Z.of_nat n mod 256 else 0.

(** ** The frames: frame k shows the rectangle from (-2.5, -1) to (1, 1), scaled by 0.95^k and
    moved by (x, y).  The powers are computed by multiplying; the edges of frame 0 are not
    multiplied at all. *)
Fixpoint power {A : arith} (k : nat) : F A :=
  let f := f_dsub (f_lit 1 0) (f_lit 5 (-2)) in match k with O => f | S k => f_mul (power k) f end.
Definition edge {A : arith} (k : nat) (e : F A) : F A := match k with O => e | S k => f_mul e (power k) end.
Definition x_left {A : arith} (k : nat) (x : F A) : F A := f_add (edge k (f_lit (-25) (-1))) x.
Definition x_right {A : arith} (k : nat) (x : F A) : F A := f_add (edge k (f_lit 1 0)) x.
Definition y_low {A : arith} (k : nat) (y : F A) : F A := f_add (edge k (f_lit (-1) 0)) y.
Definition y_high {A : arith} (k : nat) (y : F A) : F A := f_add (edge k (f_lit 1 0)) y.
Definition column {A : arith} (k : nat) (x : F A) (w i : Z) : F A :=
  f_add (x_left k x) (f_mul (f_abs (f_div (f_sub (x_right k x) (x_left k x)) (f_int w))) (f_int i)).
Definition line {A : arith} (k : nat) (y : F A) (h j : Z) : F A :=
  f_add (y_low k y) (f_mul (f_abs (f_div (f_sub (y_high k y) (y_low k y)) (f_int h))) (f_int j)).
(** What happens to a brightness when it is printed: the claim would be [id]. *)
Definition printed (b : Z) : Z := if b <? 128 then b else 2^32 - 256 + b.
