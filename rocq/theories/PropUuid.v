(** C06: UUID text.  Statements only; proofs are in UuidProofs.v. *)
From Verif Require Import Base Status StringModel StringSpec UuidModel UuidSpec UuidProofs.

(** The parser accepts a NUL-terminated string exactly when it is the text of a
    UUID, and then yields the bytes it spells. *)
Theorem C06_parse_string : forall data b p s,
  length data = 16%nat -> cstring_at b p s ->
  (exists d, uuid_text d s /\ uuid_parse_string data (Some (b, p)) = Some (STATUS_SUCCESS, d)) \/
  ((forall d, ~ uuid_text d s) /\
   exists data', uuid_parse_string data (Some (b, p)) = Some (ERROR_UUID_PARSING_FAILED, data') /\
     length data' = 16%nat).
Proof. exact parse_string_correct. Qed.
(** The raw parser reads exactly the 36 bytes at the pointer, whatever follows. *)
Theorem C06_parse_raw : forall data pre s rest,
  length data = 16%nat -> length s = 36%nat ->
  (exists d, uuid_text d s /\
     uuid_parse_raw_string data (Some (pre ++ s ++ rest, length pre)) 36 = Some (STATUS_SUCCESS, d)) \/
  ((forall d, ~ uuid_text d s) /\
   exists data', uuid_parse_raw_string data (Some (pre ++ s ++ rest, length pre)) 36
     = Some (ERROR_UUID_PARSING_FAILED, data') /\ length data' = 16%nat).
Proof. exact parse_raw_correct. Qed.
Theorem C06_parse_raw_bad_length : forall data str len, len <> 36 ->
  uuid_parse_raw_string data (Some str) len = Some (ERROR_UUID_PARSING_FAILED, data).
Proof. exact parse_raw_bad_length. Qed.
Theorem C06_parse_null : forall data len,
  uuid_parse_string data None = Some (ERROR_UUID_PARSING_FAILED, data) /\
  uuid_parse_raw_string data None len = Some (ERROR_UUID_PARSING_FAILED, data).
Proof. split; reflexivity. Qed.
(** A text spells at most one UUID. *)
Theorem C06_text_unambiguous : forall d d' s, uuid_text d s -> uuid_text d' s -> d = d'.
Proof. exact uuid_text_inj. Qed.
(** Rendering gives the lower-case text, NUL-terminated, in one fresh block. *)
Theorem C06_to_string : forall junk data,
  length data = 16%nat -> Forall is_byte data ->
  exists t, uuid_to_string STATUS_SUCCESS junk data
      = Some (StringOut STATUS_SUCCESS (Some (Some (t ++ [0]))) [t ++ [0]]) /\
    uuid_text data t /\ lower_case t /\ Forall is_char t.
Proof. exact to_string_correct. Qed.
Theorem C06_to_string_failure : forall ast junk data, ast <> STATUS_SUCCESS ->
  uuid_to_string ast junk data = Some (StringOut ERROR_GENERAL_OUT_OF_MEMORY (Some None) []).
Proof. exact to_string_failure. Qed.
Theorem C06_roundtrip : forall junk data old,
  length data = 16%nat -> Forall is_byte data -> length old = 16%nat ->
  exists blk, uuid_to_string STATUS_SUCCESS junk data
      = Some (StringOut STATUS_SUCCESS (Some (Some blk)) [blk]) /\
    uuid_parse_string old (Some (blk, 0%nat)) = Some (STATUS_SUCCESS, data) /\
    uuid_parse_raw_string old (Some (blk, 0%nat)) 36 = Some (STATUS_SUCCESS, data).
Proof. exact uuid_roundtrip. Qed.
(** "6ba7b810-9DAD-11d1-80b4-00c04fd430c8" *)
Example C06_example : uuid_parse_string (repeat 0 16)
  (Some ([54;98;97;55;98;56;49;48;45;57;68;65;68;45;49;49;100;49;45;56;48;98;52;45;48;48;99;48;52;102;100;52;51;48;99;56;0], 0%nat))
  = Some (STATUS_SUCCESS, [107;167;184;16;157;173;17;209;128;180;0;192;79;212;48;200]).
Proof. vm_compute. reflexivity. Qed.

Print Assumptions C06_parse_string.
Print Assumptions C06_parse_raw.
Print Assumptions C06_parse_raw_bad_length.
Print Assumptions C06_parse_null.
Print Assumptions C06_text_unambiguous.
Print Assumptions C06_to_string.
Print Assumptions C06_to_string_failure.
Print Assumptions C06_roundtrip.
