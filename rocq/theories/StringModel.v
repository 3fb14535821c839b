(** Model of src/string/*.c over byte memory.  A buffer is a list of octets, a
    [char*] into it is an index; reading or writing outside it is [None] (UB).
    Loops carry fuel; running out of fuel is also [None]. *)
From Verif Require Import Base Status.

(** src/string/is_whitespace.c:19-34.  The argument is an [int]. *)
Definition is_whitespace (ch : Z) : bool :=
  (ch =? 9) || (ch =? 10) || (ch =? 11) || (ch =? 12) || (ch =? 13) || (ch =? 32).

(** [while (0 != *p) ++p;] as used in chomp.c:33, ends_with.c:36,
    left_trim.c:44-47, right_trim.c:35-38 and by [strlen]. *)
Fixpoint scan_nul (fuel : nat) (b : list Z) (p : nat) : option nat :=
  match fuel with
  | O => None
  | S f => do c <- ld b p; if c =? 0 then Some p else scan_nul f b (S p)
  end.
Definition find_nul (b : list Z) (p : nat) : option nat := scan_nul (S (length b)) b p.

(** C library [strlen] as called in starts_with.c:43, strdup.c:52, vstrcat.c:48. *)
Definition c_strlen (b : list Z) (p : nat) : option nat :=
  do e <- find_nul b p; Some (e - p)%nat.

(** C library [memmove]/[memcpy] of [n] bytes inside one buffer (left_trim.c:53). *)
Definition move_bytes (b : list Z) (dst src n : nat) : option (list Z) :=
  if (src + n <=? length b)%nat && (dst + n <=? length b)%nat
  then Some (firstn dst b ++ firstn n (skipn src b) ++ skipn (dst + n) b)
  else None.

(** src/string/chomp.c:22-43 *)
Definition chomp (b : list Z) (p : nat) : option (list Z) :=
  do c <- ld b p;
  if c =? 0 then Some b
  else do e <- find_nul b p; st b (e - 1) 0.

(** src/string/ends_with.c:22-49; [ch] is an [int], the character is promoted. *)
Definition ends_with (b : list Z) (p : nat) (ch : Z) : option bool :=
  do c <- ld b p;
  if c =? 0 then Some false
  else do e <- find_nul b p; do d <- ld b (e - 1); Some (sext8 d =? ch).

(** left_trim.c:35-38 *)
Fixpoint skip_ws (fuel : nat) (b : list Z) (p : nat) : option nat :=
  match fuel with
  | O => None
  | S f => do c <- ld b p; if is_whitespace (sext8 c) then skip_ws f b (S p) else Some p
  end.

(** src/string/left_trim.c:28-56 *)
Definition left_trim (b : list Z) (str : nat) : option (list Z) :=
  do tmp <- skip_ws (S (length b)) b str;
  do eos <- find_nul b tmp;
  move_bytes b str tmp ((eos - tmp) + 1).

(** right_trim.c:48-51 *)
Fixpoint back_ws (fuel : nat) (b : list Z) (str tmp : nat) : option nat :=
  match fuel with
  | O => None
  | S f =>
      if (tmp =? str)%nat then Some tmp
      else do c <- ld b tmp;
           if is_whitespace (sext8 c) then back_ws f b str (tmp - 1) else Some tmp
  end.

(** src/string/right_trim.c:28-82 *)
Definition right_trim (b : list Z) (str : nat) : option (list Z) :=
  do e <- find_nul b str;
  let tmp0 := if (e =? str)%nat then e else (e - 1)%nat in
  do tmp <- back_ws (S (length b)) b str tmp0;
  if (tmp =? str)%nat then
    do c <- ld b tmp;
    if c =? 0 then Some b
    else if is_whitespace (sext8 c) then st b tmp 0
    else st b (tmp + 1) 0
  else st b (tmp + 1) 0.

(** src/string/trim.c:29-38 *)
Definition trim (b : list Z) (str : nat) : option (list Z) :=
  do b1 <- right_trim b str; left_trim b1 str.

(** split.c:46: [for (int ch = *str; ch != 0 && ch != delim; ch = *(++str));] *)
Fixpoint scan_delim (fuel : nat) (b : list Z) (p : nat) (delim : Z) : option nat :=
  match fuel with
  | O => None
  | S f =>
      do c <- ld b p;
      if sext8 c =? 0 then Some p
      else if sext8 c =? delim then Some p
      else scan_delim f b (S p) delim
  end.

(** What [split] leaves behind: status, [*lhs], [*rhs] and memory.  [None] for a
    pointer is NULL. *)
Record split_result := SplitResult
  { sr_status : Z; sr_lhs : option nat; sr_rhs : option nat; sr_mem : list Z }.

(** src/string/split.c:33-69 *)
Definition split (b : list Z) (str : nat) (delim : Z) : option split_result :=
  do q <- scan_delim (S (length b)) b str delim;
  do c <- ld b q;
  if c =? 0 then Some (SplitResult ERROR_STRING_END_OF_INPUT None None b)
  else do b' <- st b q 0; Some (SplitResult STATUS_SUCCESS (Some str) (Some (q + 1)%nat) b').

(** C library [memcmp] restricted to the equality test used in starts_with.c:55. *)
Definition mem_eq (b1 : list Z) (p1 : nat) (b2 : list Z) (p2 n : nat) : option bool :=
  if (p1 + n <=? length b1)%nat && (p2 + n <=? length b2)%nat
  then Some (if list_eq_dec Z.eq_dec (firstn n (skipn p1 b1)) (firstn n (skipn p2 b2)) then true else false)
  else None.

(** src/string/starts_with.c:22-69; a string argument is a buffer and an offset,
    or NULL. *)
Definition starts_with (str substr : option (list Z * nat)) : option bool :=
  match substr with
  | None => Some true
  | Some (b2, p2) =>
      match str with
      | None => Some false
      | Some (b1, p1) =>
          do n1 <- c_strlen b1 p1;
          do n2 <- c_strlen b2 p2;
          if (n1 <? n2)%nat then Some false else mem_eq b1 p1 b2 p2 n2
      end
  end.

(** include/rcpr/string.h:29-34 [string_iterator] ([endpos] is never used by the
    code and is omitted); [None] is a NULL pointer. *)
Record string_iterator := StringIterator
  { it_startpos : option nat; it_token_fn : option (Z -> bool) }.

(** words.c:69-70 and multisplit.c:78-79: skip while [ch != 0 && f(ch)]. *)
Fixpoint skip_while (fuel : nat) (f : Z -> bool) (b : list Z) (p : nat) : option nat :=
  match fuel with
  | O => None
  | S n =>
      do c <- ld b p;
      if negb (sext8 c =? 0) && f (sext8 c) then skip_while n f b (S p) else Some p
  end.

(** Result of one iterator call: status, the output pointer, the iterator and
    memory afterwards. *)
Record next_result := NextResult
  { nr_status : Z; nr_word : option nat; nr_it : string_iterator; nr_mem : list Z }.

(** words.c:67-97 and multisplit.c:76-106 (the two bodies are identical apart
    from the delimiter test), for an iterator at [start]. *)
Definition next_token (f : Z -> bool) (tok : option (Z -> bool)) (b : list Z) (start : nat)
  : option next_result :=
  do s <- skip_while (S (length b)) f b start;
  do c <- ld b s;
  if c =? 0 then
    Some (NextResult ERROR_STRING_END_OF_INPUT None (StringIterator (Some s) tok) b)
  else
    do e <- skip_while (S (length b)) (fun ch => negb (f ch)) b (S s);
    do d <- ld b e;
    if d =? 0 then
      Some (NextResult STATUS_SUCCESS (Some s) (StringIterator (Some e) tok) b)
    else
      do b' <- st b e 0;
      Some (NextResult STATUS_SUCCESS (Some s) (StringIterator (Some (S e)) tok) b').

(** src/string/words.c:50-104 *)
Definition words (b : list Z) (it : string_iterator) (str : option nat) : option next_result :=
  let it1 := match str with Some p => StringIterator (Some p) None | None => it end in
  do start <- it_startpos it1;
  next_token is_whitespace (it_token_fn it1) b start.

(** src/string/multisplit.c:57-113 *)
Definition multisplit (b : list Z) (it : string_iterator) (str : option nat) (token_fn : Z -> bool)
  : option next_result :=
  let it1 := match str with Some p => StringIterator (Some p) (Some token_fn) | None => it end in
  do start <- it_startpos it1;
  do f <- it_token_fn it1;
  next_token f (it_token_fn it1) b start.

(** A fresh heap block of [n] bytes: [malloc] does not initialise it; the model
    fills it with the caller-quantified [junk]. *)
Definition fresh_block (junk : nat -> Z) (n : nat) : list Z := map junk (seq 0 n).

(** [memcpy] from one object to another. *)
Definition copy_bytes (dst : list Z) (dp : nat) (src : list Z) (sp n : nat) : option (list Z) :=
  if (dp + n <=? length dst)%nat && (sp + n <=? length src)%nat
  then Some (firstn dp dst ++ firstn n (skipn sp src) ++ skipn (dp + n) dst)
  else None.

(** Outcome of a string constructor: returned status, value of [*output] ([None]
    is NULL, [Some (Some b)] a live block with contents [b]; [so_out = None] means
    [*output] was left as it was), and the blocks still allocated. *)
Record string_out := StringOut
  { so_status : Z; so_out : option (option (list Z)); so_live : list (list Z) }.

(** src/string/strdup.c:30-77.  [ast] is the status returned by the single
    [allocator_allocate] call; [output]/[alloc] non-NULL are booleans. *)
Definition strdup (ast : Z) (junk : nat -> Z) (output_ok alloc_ok : bool)
  (input : option (list Z * nat)) : option string_out :=
  match output_ok, alloc_ok, input with
  | true, true, Some (b, p) =>
      do len <- c_strlen b p;
      if ast =? STATUS_SUCCESS then
        let blk := fresh_block junk (len + 1) in
        do blk1 <- copy_bytes blk 0 b p len;
        do blk2 <- st blk1 len 0;
        Some (StringOut STATUS_SUCCESS (Some (Some blk2)) [blk2])
      else Some (StringOut ast (Some None) [])
  | _, _, _ =>
      Some (StringOut ERROR_STRING_INVALID_PARAMETER
              (if output_ok then Some None else None) [])
  end.

(** vstrcat.c:46-50: the counting pass. *)
Fixpoint cat_size (args : list (list Z * nat)) (size : nat) : option nat :=
  match args with
  | [] => Some size
  | (b, p) :: t => do n <- c_strlen b p; cat_size t (size + n)
  end.

(** vstrcat.c:60-68: the copying pass. *)
Fixpoint cat_copy (args : list (list Z * nat)) (tmp : list Z) (offset : nat)
  : option (list Z * nat) :=
  match args with
  | [] => Some (tmp, offset)
  | (b, p) :: t =>
      do n <- c_strlen b p;
      do tmp' <- copy_bytes tmp offset b p n;
      cat_copy t tmp' (offset + n)
  end.

(** src/string/vstrcat.c:33-81.  The argument list is the NULL-terminated vararg
    list starting with [string1].  Sizes are natural numbers: the sum of the
    lengths of objects that exist in memory does not wrap. *)
Definition vstrcat (ast : Z) (junk : nat -> Z) (args : list (list Z * nat)) : option string_out :=
  do size <- cat_size args 1;
  if ast =? STATUS_SUCCESS then
    do '(tmp, off) <- cat_copy args (fresh_block junk size) 0;
    do tmp' <- st tmp off 0;
    Some (StringOut STATUS_SUCCESS (Some (Some tmp')) [tmp'])
  else Some (StringOut ast None []).
