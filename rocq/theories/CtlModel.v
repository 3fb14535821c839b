(** Model of the control-flow macros, include/rcpr/control.h and macro_tricks.h: what they expand
    to, and the C statements that they consist of. *)
From Verif Require Import Base Status.

(** The two variables that CONTROL_PREAMBLE declares, control.h:27 *)
Inductive var := Retval | ReleaseRetval.
(** An expression that the user passes to a macro: the [n]th step, the [n]th cleanup, the [n]th condition *)
Inductive op := Step (n : nat) | Undo (n : nat) | Test (n : nat).
(** C statements, as far as the macros and their users need them.  Labels are numbers; conditions
    are "STATUS_SUCCESS != v" or an expression. *)
Inductive stmt :=
| SNop
| SDeclare                                   (* the two variables, not initialised *)
| SCall (v : var) (o : op)                   (* v = (o); *)
| SSucceed                                   (* retval = STATUS_SUCCESS; *)
| SCopy                                      (* retval = release_retval; *)
| SIfFailed (v : var) (b : list stmt)        (* if (STATUS_SUCCESS != v) { b } *)
| SIf (o : op) (b : list stmt)               (* if (o) { b } *)
| SGoto (l : nat)
| SLabel (l : nat)
| SReturn.                                   (* return retval; *)

(** control.h:26-29; the casts to void do nothing. *)
Definition CONTROL_PREAMBLE : list stmt := [SDeclare; SNop; SNop; SNop].
(** control.h:35-41; the last is macro_tricks.h:12-16, an assertion that does nothing. *)
Definition TRY_OR_FAIL (o : op) (l : nat) : list stmt := [SCall Retval o; SIfFailed Retval [SGoto l]; SNop].
(** control.h:48-54 *)
Definition CLEANUP_OR_CASCADE (o : op) : list stmt := [SCall ReleaseRetval o; SIfFailed ReleaseRetval [SCopy]; SNop].

(** What a user writes: macros and C.  [When]: an if without braces; [Block]: one with braces. *)
Inductive line :=
| Preamble | Try (o : op) (l : nat) | Cleanup (o : op) | Plain (s : stmt)
| When (o : op) (x : line) | Block (o : op) (xs : list line).
(** The preprocessor puts the statements of a macro in its place; an if without braces governs the
    first of them only. *)
Fixpoint expand (x : line) : list stmt :=
  match x with
  | Preamble => CONTROL_PREAMBLE
  | Try o l => TRY_OR_FAIL o l
  | Cleanup o => CLEANUP_OR_CASCADE o
  | Plain s => [s]
  | When o x => match expand x with [] => [SIf o []] | s :: rest => SIf o [s] :: rest end
  | Block o xs => [SIf o (flat_map expand xs)]
  end.
Definition preprocess (xs : list line) : list stmt := flat_map expand xs.

(** The variables ([None]: not initialised) and the expressions evaluated so far *)
Record cstate := CS { c_ret : option Z; c_rel : option Z; c_log : list op }.
Definition get (v : var) (s : cstate) : option Z := match v with Retval => c_ret s | ReleaseRetval => c_rel s end.
Definition set (v : var) (x : option Z) (s : cstate) : cstate :=
  match v with Retval => CS x (c_rel s) (c_log s) | ReleaseRetval => CS (c_ret s) x (c_log s) end.
Definition note (o : op) (s : cstate) : cstate := CS (c_ret s) (c_rel s) (c_log s ++ [o]).
(** How a statement ends: the next one, a jump, the end of the function; reading a variable that is
    not initialised is undefined. *)
Inductive outcome := Next (s : cstate) | Jump (l : nat) (s : cstate) | Ends (r : Z) (s : cstate) | Undef.
(** C's execution of a statement; [ans] says what each expression evaluates to. *)
Fixpoint exec (ans : op -> Z) (x : stmt) (s : cstate) : outcome :=
  let block := fix block (b : list stmt) (s : cstate) : outcome :=
    match b with
    | [] => Next s
    | x :: b => match exec ans x s with Next s => block b s | r => r end
    end in
  match x with
  | SNop | SLabel _ => Next s
  | SDeclare => Next (CS None None (c_log s))
  | SCall v o => Next (set v (Some (ans o)) (note o s))
  | SSucceed => Next (set Retval (Some STATUS_SUCCESS) s)
  | SCopy => match c_rel s with Some r => Next (set Retval (Some r) s) | None => Undef end
  | SIfFailed v b => match get v s with None => Undef | Some r => if r =? STATUS_SUCCESS then Next s else block b s end
  | SIf o b => if ans o =? 0 then Next (note o s) else block b (note o s)
  | SGoto l => Jump l s
  | SReturn => match c_ret s with Some r => Ends r s | None => Undef end
  end.
(** A list of statements, as in a block *)
Fixpoint execs (ans : op -> Z) (b : list stmt) (s : cstate) : outcome :=
  match b with
  | [] => Next s
  | x :: b => match exec ans x s with Next s => execs ans b s | r => r end
  end.
(** The statements behind a label of the function's body *)
Fixpoint behind (l : nat) (b : list stmt) : option (list stmt) :=
  match b with
  | [] => None
  | SLabel k :: b => if Nat.eqb k l then Some b else behind l b
  | _ :: b => behind l b
  end.
(** A function: its body runs, and each jump goes on behind its label; [jumps] bounds their number. *)
Fixpoint run (jumps : nat) (ans : op -> Z) (body rest : list stmt) (s : cstate) : outcome :=
  match execs ans rest s with
  | Jump l s =>
      match jumps with
      | O => Jump l s
      | S jumps => match behind l body with Some rest => run jumps ans body rest s | None => Undef end
      end
  | r => r
  end.
Definition call (jumps : nat) (ans : op -> Z) (f : list line) : outcome :=
  let body := preprocess f in run jumps ans body body (CS None None []).
