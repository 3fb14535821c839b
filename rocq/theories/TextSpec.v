(** Vocabulary for the claim about commands sent as lines of text (C74).  Nothing here models code: the sockets
    are those of AsyncModel and BrModel, the lines those of read_line, the words those of StringModel. *)
From Verif Require Import Base Status StringModel StringSpec CodecModel MemModel AsyncModel BrModel BrSpec.

(** A command: its words, each with the white space before it, and the white space after the last. *)
Record command := Cmd { c_words : list (list Z * list Z); c_tail : list Z }.
Definition text (c : command) : list Z := concat (map (fun gw => fst gw ++ snd gw) (c_words c)) ++ c_tail c.
Definition words_of (c : command) : list (list Z) := map snd (c_words c).
(** White space is not a newline, words are not empty and have no white space or NUL in them, and there is white space
    between words. *)
Definition blank (x : Z) : Prop := ws x /\ x <> 10.
Fixpoint spaced (first : bool) (l : list (list Z * list Z)) : Prop :=
  match l with
  | [] => True
  | (g, w) :: t => Forall blank g /\ (first = false -> g <> []) /\ w <> [] /\ Forall (fun x => is_char x /\ ~ ws x) w /\ spaced false t
  end.
Definition proper (c : command) : Prop := spaced true (c_words c) /\ Forall blank (c_tail c).
(** The lines that stand for commands. *)
Definition lines (cs : list command) : list Z := concat (map (fun c => text c ++ [10]) cs).

(** A sender: one psock_write_raw_data for each line, up to the first failure. *)
Fixpoint send {S} (o : sock_ops S) (cs : list command) (s : S) : option (Z * S) :=
  match cs with
  | [] => Some (STATUS_SUCCESS, s)
  | c :: t => match write_raw_data o (text c ++ [10]) s with
              | Some (e, s') => if e =? STATUS_SUCCESS then send o t s' else Some (e, s')
              | None => None
              end
  end.
(** A receiver with the buffer [ub] understands [c]: read_line leaves its text there as a string, with its size and with
    what is beyond it as it was, and the words function finds exactly its words, in order, each as a string in the buffer. *)
Definition understood (c : command) (ub : list Z) (o : bout) : Prop :=
  exists m, o = OLine STATUS_SUCCESS (length (text c) + 1) m /\ cstring_at m 0 (text c) /\ unchanged_outside 0 (length (text c) + 1) ub m /\
    forall it, exists qs m', Session (fun arg i b => words b i arg) (Some 0%nat) it m qs m' /\ Forall2 (cstring_at m') qs (words_of c) /\
      unchanged_outside 0 (length (text c)) m m'.
(** The buffers are large enough for the texts, their NUL, and one more byte. *)
Definition roomy (c : command) (u : list Z * nat) : Prop := (length (text c) + 2 <= snd u)%nat /\ (snd u <= length (fst u))%nat.
(** A descriptor whose write(2) never fails; it may take fewer bytes than asked, but at least one. *)
Definition takes (k : kern) : Prop := Forall (fun e => exists m, e = KGive m) (k_ws k).
