(** Specification vocabulary for C strings. *)
From Verif Require Import Base Status StringModel.

(** The bytes [s] followed by a NUL start at offset [p] of memory [b], with no NUL
    inside. *)
Definition cstring_at (b : list Z) (p : nat) (s : list Z) : Prop :=
  exists pre post, b = pre ++ s ++ 0 :: post /\ length pre = p /\ Forall is_char s.

(** White space of the C locale: TAB, LF, VT, FF, CR and SPACE. *)
Definition ws (c : Z) : Prop := (9 <= c <= 13) \/ c = 32.
Definition starts_blank (s : list Z) : Prop := exists c t, s = c :: t /\ ws c.
Definition ends_blank (s : list Z) : Prop := exists c t, s = t ++ [c] /\ ws c.

(** [l] lists, left to right, every maximal run of non-delimiters of the text [s]
    that starts at offset [p], each with the offset at which it starts. *)
Inductive Runs (is_delim : Z -> Prop) : nat -> list Z -> list (nat * list Z) -> Prop :=
| runs_none : forall p d, Forall is_delim d -> Runs is_delim p d []
| runs_cons : forall p d w rest l,
    Forall is_delim d -> w <> [] -> Forall (fun c => ~ is_delim c) w ->
    (forall c t, rest = c :: t -> is_delim c) ->
    Runs is_delim (p + length d + length w) rest l ->
    Runs is_delim p (d ++ w ++ rest) ((p + length d, w)%nat :: l).

(** Only the bytes [p .. p+n-1] of memory may differ. *)
Definition unchanged_outside (p n : nat) (b b' : list Z) : Prop :=
  length b' = length b /\
  forall i, (i < p \/ p + n <= i)%nat -> nth_error b' i = nth_error b i.

(** One iterator session: the first call gets [arg], later calls NULL.  [qs] are
    the pointers returned until the first END_OF_INPUT, after which every further
    call says END_OF_INPUT again and changes nothing. *)
Inductive Session (call : option nat -> string_iterator -> list Z -> option next_result)
  : option nat -> string_iterator -> list Z -> list nat -> list Z -> Prop :=
| session_end : forall arg it b it',
    call arg it b = Some (NextResult ERROR_STRING_END_OF_INPUT None it' b) ->
    call None it' b = Some (NextResult ERROR_STRING_END_OF_INPUT None it' b) ->
    Session call arg it b [] b
| session_next : forall arg it b q it' b' qs b'',
    call arg it b = Some (NextResult STATUS_SUCCESS (Some q) it' b') ->
    Session call None it' b' qs b'' ->
    Session call arg it b (q :: qs) b''.

