(** Model of src/uuid/*.c.  A [char*] is an index into byte memory, as in
    StringModel.v; a [rcpr_uuid] is the list of its 16 data bytes. *)
From Verif Require Import Base Status StringModel.

(** rcpr_uuid_parse_string.c:118-147 (= rcpr_uuid_parse_raw_string.c:123-152).
    [Some None] is a [false] return, [Some (Some (v, p'))] is [true] with [*byte = v]
    and [*str] advanced to [p']. *)
Definition try_read_hex_nibble (b : list Z) (p : nat) : option (option (Z * nat)) :=
  do c <- ld b p;
  if (48 <=? c) && (c <=? 57) then Some (Some (c - 48, (p + 1)%nat))
  else if (65 <=? c) && (c <=? 70) then Some (Some (c - 65 + 10, (p + 1)%nat))
  else if (97 <=? c) && (c <=? 102) then Some (Some (c - 97 + 10, (p + 1)%nat))
  else Some None.

(** rcpr_uuid_parse_string.c:160-181 (= ..._raw_string.c:165-186) *)
Definition try_read_hex_byte (b : list Z) (p : nat) : option (option (Z * nat)) :=
  do r1 <- try_read_hex_nibble b p;
  match r1 with
  | None => Some None
  | Some (hi, p1) =>
      do r2 <- try_read_hex_nibble b p1;
      match r2 with
      | None => Some None
      | Some (lo, _) => Some (Some (Z.lor (Z.land (Z.shiftl hi 4) 255) lo, (p + 2)%nat))
      end
  end.

(** rcpr_uuid_parse_string.c:192-209 (= ..._raw_string.c:197-214) *)
Definition try_read_dash (b : list Z) (p : nat) : option (option nat) :=
  do c <- ld b p;
  if c =? 45 then Some (Some (p + 1)%nat) else Some None.

(** One line of the parsing sequence: read a byte into [uuid->data + i], or a dash. *)
Inductive uuid_step := Hex (i : nat) | Dash.

(** rcpr_uuid_parse_string.c:60-95 (= ..._raw_string.c:68-103), in order. *)
Definition uuid_steps : list uuid_step :=
  [ Hex 0; Hex 1; Hex 2; Hex 3; Dash;
    Hex 4; Hex 5; Dash;
    Hex 6; Hex 7; Dash;
    Hex 8; Hex 9; Dash;
    Hex 10; Hex 11; Hex 12; Hex 13; Hex 14; Hex 15 ]%nat.

(** The chain of [if (!try_...) goto fail].  The result is the data written so far
    and the final position, or [None] inside for [goto fail]. *)
Fixpoint run_steps (steps : list uuid_step) (b : list Z) (p : nat) (data : list Z)
  : option (option nat * list Z) :=
  match steps with
  | [] => Some (Some p, data)
  | Hex i :: t =>
      do r <- try_read_hex_byte b p;
      match r with
      | None => Some (None, data)
      | Some (v, p') => do data' <- st data i v; run_steps t b p' data'
      end
  | Dash :: t =>
      do r <- try_read_dash b p;
      match r with
      | None => Some (None, data)
      | Some p' => run_steps t b p' data
      end
  end.

(** rcpr_uuid_parse_string.c:46-105; [None] for [str] is NULL. *)
Definition uuid_parse_string (data : list Z) (str : option (list Z * nat)) : option (Z * list Z) :=
  match str with
  | None => Some (ERROR_UUID_PARSING_FAILED, data)
  | Some (b, p) =>
      do '(r, data') <- run_steps uuid_steps b p data;
      match r with
      | None => Some (ERROR_UUID_PARSING_FAILED, data')
      | Some q =>
          do c <- ld b q;
          if c =? 0 then Some (STATUS_SUCCESS, data') else Some (ERROR_UUID_PARSING_FAILED, data')
      end
  end.

(** rcpr_uuid_parse_raw_string.c:51-110 *)
Definition uuid_parse_raw_string (data : list Z) (str : option (list Z * nat)) (len : Z)
  : option (Z * list Z) :=
  match str with
  | None => Some (ERROR_UUID_PARSING_FAILED, data)
  | Some (b, p) =>
      if len =? 36 then
        do '(r, data') <- run_steps uuid_steps b p data;
        match r with
        | None => Some (ERROR_UUID_PARSING_FAILED, data')
        | Some _ => Some (STATUS_SUCCESS, data')
        end
      else Some (ERROR_UUID_PARSING_FAILED, data)
  end.

(** rcpr_uuid_to_string.c:26-29, 38-41, 50-71 *)
Definition low_nibble (b : Z) : Z := Z.land b 15.
Definition high_nibble (b : Z) : Z := Z.shiftr (Z.land b 240) 4.
Definition nibble_to_hex (n : Z) : Z := if (0 <=? n) && (n <=? 9) then n + 48 else n - 10 + 97.

(** rcpr_uuid_to_string.c:122-158: the stores into [tmp], in order, as (target
    index, source). *)
Inductive hex_src := Hi (i : nat) | Lo (i : nat) | Chr (c : Z).
Definition uuid_stores : list hex_src :=
  [ Hi 0; Lo 0; Hi 1; Lo 1; Hi 2; Lo 2; Hi 3; Lo 3; Chr 45;
    Hi 4; Lo 4; Hi 5; Lo 5; Chr 45;
    Hi 6; Lo 6; Hi 7; Lo 7; Chr 45;
    Hi 8; Lo 8; Hi 9; Lo 9; Chr 45;
    Hi 10; Lo 10; Hi 11; Lo 11; Hi 12; Lo 12; Hi 13; Lo 13; Hi 14; Lo 14; Hi 15; Lo 15;
    Chr 0 ]%nat.
Fixpoint run_stores (l : list hex_src) (i : nat) (data tmp : list Z) : option (list Z) :=
  match l with
  | [] => Some tmp
  | s :: t =>
      do c <- match s with
              | Hi k => do d <- ld data k; Some (nibble_to_hex (high_nibble d))
              | Lo k => do d <- ld data k; Some (nibble_to_hex (low_nibble d))
              | Chr c => Some c
              end;
      do tmp' <- st tmp i c;
      run_stores t (S i) data tmp'
  end.

(** rcpr_uuid_to_string.c:17 *)
Definition UUID_STRING_LENGTH : nat := 36%nat.

(** rcpr_uuid_to_string.c:101-161; [ast] is the status of the allocation. *)
Definition uuid_to_string (ast : Z) (junk : nat -> Z) (data : list Z) : option string_out :=
  if ast =? STATUS_SUCCESS then
    do tmp <- run_stores uuid_stores 0 data (fresh_block junk (UUID_STRING_LENGTH + 1));
    Some (StringOut STATUS_SUCCESS (Some (Some tmp)) [tmp])
  else Some (StringOut ERROR_GENERAL_OUT_OF_MEMORY (Some None) []).
