(** Model of what the mandelbrot example computes and writes for one frame:
    examples/mandelbrot/src/main.c (the position of a frame and its file) and draw_line.c (the
    pixels of a line).  Which lines reach a frame's file is MandModel's part.

    The arithmetic of double and long double is any [arith]; text is a list of octets. *)
From Verif Require Import Base.

(** The long double operations that the example uses.  [f_int n]: an integer converted.
    [f_lit m e]: the double literal m * 10^e.  [f_dsub]: a difference of two doubles. *)
Record arith := Arith {
  F : Type;
  f_add : F -> F -> F; f_sub : F -> F -> F; f_dsub : F -> F -> F; f_mul : F -> F -> F; f_div : F -> F -> F;
  f_abs : F -> F; f_le : F -> F -> bool; f_int : Z -> F; f_lit : Z -> Z -> F }.
Arguments f_add {a}. Arguments f_sub {a}. Arguments f_dsub {a}. Arguments f_mul {a}. Arguments f_div {a}.
Arguments f_abs {a}. Arguments f_le {a}. Arguments f_int {a}. Arguments f_lit {a}.

(** thread.h:14-32, the members that position a frame *)
Record view (A : arith) := View { v_startx : F A; v_starty : F A; v_scalex : F A; v_scaley : F A }.
Arguments View {A}. Arguments v_startx {A}. Arguments v_starty {A}. Arguments v_scalex {A}. Arguments v_scaley {A}.

(** main.c:135-144 and 232-241: the scale from the edges *)
Definition spanned {A} (w h : Z) (xstart xend ystart yend : F A) : view A :=
  View xstart ystart (f_abs (f_div (f_sub xend xstart) (f_int w))) (f_abs (f_div (f_sub yend ystart) (f_int h))).
(** main.c:131-134 *)
Definition first_view {A} (x y : F A) (w h : Z) : view A :=
  spanned w h (f_add (f_lit (-25) (-1)) x) (f_add (f_lit 1 0) x) (f_add (f_lit (-1) 0) y) (f_add (f_lit 1 0) y).
(** main.c:228-231 *)
Definition zoomed_view {A} (x y : F A) (w h : Z) (zoom : F A) : view A :=
  spanned w h (f_add (f_mul (f_lit (-25) (-1)) zoom) x) (f_add (f_mul (f_lit 1 0) zoom) x)
    (f_add (f_mul (f_lit (-1) 0) zoom) y) (f_add (f_mul (f_lit 1 0) zoom) y).
(** main.c:149 *)
Definition zoom_factor {A} : F A := f_dsub (f_lit 1 0) (f_lit 5 (-2)).
(** main.c:158 and the turns of the loop, 169-243: the position that frame [k] is drawn with and
    the value of zoom during that turn.  (The variables of lines 150-157 are not used.) *)
Fixpoint turn {A} (x y : F A) (w h : Z) (k : nat) : view A * F A :=
  match k with
  | O => (first_view x y w h, zoom_factor)
  | S k => let '(_, zoom) := turn x y w h k in (zoomed_view x y w h zoom, f_mul zoom zoom_factor)
  end.
Definition view_of {A} (x y : F A) (w h : Z) (k : nat) : view A := fst (turn x y w h k).

(** draw_line.c:88-97: the loop for one pixel; [rest] is max_iteration - iteration. *)
Fixpoint iterate {A} (rest : nat) (x0 y0 x y : F A) (iteration : Z) : Z :=
  if f_le (f_add (f_mul x x) (f_mul y y)) (f_int 4) then
    match rest with
    | O => iteration
    | S rest => iterate rest x0 y0 (f_add (f_sub (f_mul x x) (f_mul y y)) x0) (f_add (f_mul (f_mul (f_int 2) x) y) y0) (iteration + 1)
    end
  else iteration.
Definition MAX_ITERATION : nat := 1000.
(** draw_line.c:99-105: what is stored in a char, as an octet *)
Definition octet (iteration : Z) : Z := if iteration <? Z.of_nat MAX_ITERATION then iteration mod 256 else 0.
(** draw_line.c:83-105 *)
Definition pixel {A} (v : view A) (line i : Z) : Z :=
  octet (iterate MAX_ITERATION (f_add (v_startx v) (f_mul (v_scalex v) (f_int i))) (f_add (v_starty v) (f_mul (v_scaley v) (f_int line))) (f_lit 0 0) (f_lit 0 0) 0).
(** The integers from [i], as many as [n] *)
Fixpoint from (i : Z) (n : nat) : list Z := match n with O => [] | S n => i :: from (i + 1) n end.
(** draw_line.c:81-106: the memory of a line *)
Definition drawn {A} (v : view A) (cols line : Z) : list Z := map (pixel v line) (from 0 (Z.to_nat cols)).

(** fprintf's conversion %u or %lu of a value: its decimal digits *)
Fixpoint udigits (fuel : nat) (n : Z) : list Z :=
  match fuel with
  | O => []
  | S fuel => (if n <? 10 then [] else udigits fuel (n / 10)) ++ [48 + n mod 10]
  end.
Definition lu (n : Z) : list Z := udigits 20 n.
(** %010lu: at least ten digits, filled with '0' *)
Definition lu010 (n : Z) : list Z := repeat 48 (10 - length (lu n)) ++ lu n.
(** %u of an element of the line, main.c:207: a char is promoted to int and read as unsigned *)
Definition u_char (b : Z) : list Z := lu (wrap32 (sext8 b)).

Definition SP : Z := 32.
Definition NL : Z := 10.
(** main.c:200: "P3\n%lu %lu\n255\n" *)
Definition header (w h : Z) : list Z := [80; 51; NL] ++ lu w ++ [SP] ++ lu h ++ [NL; 50; 53; 53; NL].
(** main.c:207: "0 0 %u " *)
Definition sample (b : Z) : list Z := [48; SP; 48; SP] ++ u_char b ++ [SP].
(** main.c:203-215: a line of the array; [None] is a null pointer, whose line is skipped.  The
    first [cols] octets are written; [None] as a result if there are fewer. *)
Definition row (cols : Z) (l : option (list Z)) : option (list Z) :=
  match l with
  | Some l => if Z.of_nat (length l) <? cols then None else Some (concat (map sample (firstn (Z.to_nat cols) l)) ++ [NL])
  | None => Some []
  end.
Fixpoint rows (cols : Z) (a : list (option (list Z))) : option (list Z) :=
  match a with
  | [] => Some []
  | l :: a => do r <- row cols l; do t <- rows cols a; Some (r ++ t)
  end.
(** main.c:199-217.  If fopen fails, [opened] is false and the null stream is used: undefined. *)
Definition frame_file (opened : bool) (w h : Z) (a : list (option (list Z))) : option (list Z) :=
  if opened then do r <- rows w a; Some (header w h ++ r) else None.
(** main.c:195-197: snprintf into 1024 octets, "%s%010lu.pgm"; a prefix that strdup could not
    copy is a null pointer, undefined for %s. *)
Definition PGM : list Z := [46; 112; 103; 109].
Definition file_name (prefix : option (list Z)) (i : Z) : option (list Z) :=
  do p <- prefix; Some (firstn 1023 (p ++ lu010 i ++ PGM)).
(** main.c:193-198 and 214: what is printed to the terminal for frame [i] *)
Definition FRAME : list Z := [70; 114; 97; 109; 101; 32].
Definition COMPLETE : list Z := [32; 99; 111; 109; 112; 108; 101; 116; 101; 46; 10].
Definition CREATING : list Z := [67; 114; 101; 97; 116; 105; 110; 103; 32].
Definition SKIPPING : list Z := [83; 107; 105; 112; 112; 105; 110; 103; 32; 109; 105; 115; 115; 105; 110; 103; 32; 108; 105; 110; 101; 32].
Fixpoint skipped (j : Z) (a : list (option (list Z))) : list Z :=
  match a with
  | [] => []
  | Some _ :: a => skipped (j + 1) a
  | None :: a => SKIPPING ++ lu j ++ [NL] ++ skipped (j + 1) a
  end.
Definition console (i : Z) (name : list Z) (a : list (option (list Z))) : list Z :=
  FRAME ++ lu i ++ COMPLETE ++ CREATING ++ name ++ [NL] ++ skipped 0 a.

(** config_create.c:86-97, the numbers and the name; x and y are literals, given to the model as
    values of the arithmetic. *)
Definition WIDTH : Z := 1920.
Definition HEIGHT : Z := 1080.
Definition JOBS : Z := 8.
Definition FRAMES : Z := 18000.
Definition PREFIX : list Z := [109; 97; 110; 100; 101; 108; 122; 111; 111; 109; 95].
(** config_create.c:83-84 *)
Definition X {A} : F A := f_lit 13438870532012129028364919004019686867528573314565492885548699 (-63).
Definition Y {A} : F A := f_lit 655614218769465062251320027664617466691295975864786403994151735 (-63).
