(** Model of the names a program uses for the library: the symbols made by RCPR_SYM
    (include/rcpr/function_decl.h, config.h.cmake) and the macros RCPR_IMPORT_<header> and
    RCPR_IMPORT_<header>_as, which declare short names for them.  What each macro declares is in
    ImpTable.v, read off the headers.

    The preprocessor's work is done on strings, and types are compared as written.  Passing an
    argument is taken to preserve it: every parameter has the type that the function declares. *)
From Coq Require Export String List Bool.
Export ListNotations.
Local Open Scope string_scope.

(** config.h.cmake:12-14 (RCPR_VERSION_SYM, MAKE_C_VERSION) *)
Definition version_sym (major minor : string) : string := "V" ++ major ++ "_" ++ minor.
(** function_decl.h:35 (RCPR_UNIQUE_NAME) *)
Definition unique_name : string := "u0ec71e88_25af_40aa_8dd9_990d596b60de".
(** function_decl.h:45-51 (RCPR_SYM, RCPR_SYM_COMBINE1, RCPR_SYM_COMBINE) *)
Definition rcpr_sym (major minor sym : string) : string :=
  "rcpr" ++ "_" ++ unique_name ++ "_" ++ version_sym major minor ++ "_" ++ sym.

(** The body of an imported function.  [Call returns f args]: [return RCPR_SYM(f)(args);], with or
    without [return].  [CallV last f args]: va_start after the parameter [last], RCPR_SYM(f) called
    with [args] and the va_list, va_end, and its result returned.  [Other]: any other body; the only
    one is vtable_range_valid, which calls no function (vtable.h:84-86). *)
Inductive body :=
| Call (returns : bool) (f : string) (args : list string)
| CallV (last f : string) (args : list string)
| Other.
(** One [static inline] function of an import macro: its name without the prefix, the type of its
    result, whether it is marked FN_DECL_MUST_CHECK, its parameters (type, name), and its body. *)
Record wrapper := Wrap {
  w_name : string; w_ret : string; w_checked : bool; w_params : list (string * string); w_body : body }.
(** One declaration of an import macro: [DType n t] is [typedef RCPR_SYM(t) sym ## n;]. *)
Inductive entry := DType (n t : string) | DFun (w : wrapper).
(** A function that a header declares: RCPR_SYM(p_name). *)
Record proto := Proto { p_name : string; p_ret : string; p_checked : bool; p_types : list string }.

Definition entry_name (e : entry) : string := match e with DType n _ => n | DFun w => w_name w end.

(** The identifier [sym ## n]: RCPR_IMPORT_h passes nothing for sym (stack.h:121-122 and the same in
    each header), RCPR_IMPORT_h_as(p) passes [p ## _] (stack.h:119-120). *)
Definition ident (prefix : option string) (n : string) : string :=
  match prefix with None => n | Some p => p ++ "_" ++ n end.

(** What a source file has declared at file scope: the library's declaration behind a name, or
    something else. *)
Inductive decl := Mine | Lib (e : entry).
Definition scope := list (string * decl).
Fixpoint lookup {A} (s : list (string * A)) (n : string) : option A :=
  match s with
  | [] => None
  | (m, d) :: s' => if String.eqb n m then Some d else lookup s' n
  end.

(** Declaring a name again is an error, but for the same typedef (C11 6.7p3).  A declaration that the
    file made itself is taken to differ. *)
Definition declare (id : string) (e : entry) (s : scope) : option scope :=
  match lookup s id with
  | None => Some ((id, Lib e) :: s)
  | Some (Lib (DType _ t)) =>
    match e with DType _ t' => if String.eqb t t' then Some s else None | _ => None end
  | Some _ => None
  end.
Fixpoint import1 (prefix : option string) (h : list entry) (s : scope) : option scope :=
  match h with
  | [] => Some s
  | e :: h' => match declare (ident prefix (entry_name e)) e s with Some s' => import1 prefix h' s' | None => None end
  end.
(** A file's imports, in order: each a prefix and what the header's macro declares. *)
Fixpoint imports (l : list (option string * list entry)) (s : scope) : option scope :=
  match l with
  | [] => Some s
  | (p, h) :: l' => match import1 p h s with Some s' => imports l' s' | None => None end
  end.

(** What a call of an imported function does: it calls a library symbol with some values, and
    [returned] says whether the call has the library's result as its value.  For a variadic one,
    [More vs] is the va_list. *)
Inductive value (V : Type) := Val (v : V) | More (vs : list V).
Arguments Val {V}. Arguments More {V}.
Record effect (V : Type) := Effect { symbol : string; passed : list (value V); returned : bool }.
Arguments Effect {V}. Arguments symbol {V}. Arguments passed {V}. Arguments returned {V}.

(** The parameters bound to the arguments; [None] if their number is wrong.  The second part is what
    the ellipsis takes. *)
Fixpoint bind {V} (ps : list (string * string)) (vs : list V) : option (list (string * V) * list V) :=
  match ps with
  | [] => match vs with [] => Some ([], []) | _ => None end
  | (t, x) :: ps' =>
    if String.eqb t "..." then match ps' with [] => Some ([], vs) | _ => None end
    else match vs with
         | [] => None
         | v :: vs' => match bind ps' vs' with Some (b, m) => Some ((x, v) :: b, m) | None => None end
         end
  end.
Fixpoint evals {V} (b : list (string * V)) (args : list string) : option (list (value V)) :=
  match args with
  | [] => Some []
  | a :: args' =>
    match lookup b a, evals b args' with Some v, Some l => Some (Val v :: l) | _, _ => None end
  end.
(** The last parameter before the ellipsis: the second argument of va_start must be this one. *)
Fixpoint last_named (ps : list (string * string)) : option string :=
  match ps with
  | [] => None
  | (_, x) :: ps' => match ps' with (t, _) :: _ => if String.eqb t "..." then Some x else last_named ps' | [] => None end
  end.
Definition run {V} (major minor : string) (w : wrapper) (vs : list V) : option (effect V) :=
  match bind (w_params w) vs with
  | None => None
  | Some (b, more) =>
    match w_body w with
    | Call r f args =>
      match evals b args with Some l => Some (Effect (rcpr_sym major minor f) l r) | None => None end
    | CallV last f args =>
      match last_named (w_params w), evals b args with
      | Some x, Some l =>
        if String.eqb x last then Some (Effect (rcpr_sym major minor f) (l ++ [More more]) true) else None
      | _, _ => None
      end
    | Other => None
    end
  end.
(** A call [id(vs)] in a file whose scope is [s]. *)
Definition call {V} (major minor : string) (s : scope) (id : string) (vs : list V) : option (effect V) :=
  match lookup s id with Some (Lib (DFun w)) => run major minor w vs | _ => None end.
(** A type name [id] in such a file. *)
Definition type_of (major minor : string) (s : scope) (id : string) : option string :=
  match lookup s id with Some (Lib (DType _ t)) => Some (rcpr_sym major minor t) | _ => None end.
