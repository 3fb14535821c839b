(** The textual form of a UUID (RFC 4122 layout). *)
From Verif Require Import Base.

(** [c] is a hexadecimal digit, in either case, of value [v]. *)
Definition hex_digit (c v : Z) : Prop :=
  (48 <= c <= 57 /\ v = c - 48) \/ (65 <= c <= 70 /\ v = c - 55) \/ (97 <= c <= 102 /\ v = c - 87).

(** [s] spells the bytes [d], two digits each, most significant first. *)
Inductive hex_text : list Z -> list Z -> Prop :=
| hex_nil : hex_text [] []
| hex_cons : forall h l a b d s,
    hex_digit h a -> hex_digit l b -> hex_text d s -> hex_text (16 * a + b :: d) (h :: l :: s).

(** 8-4-4-4-12 digits separated by dashes (character 45). *)
Definition uuid_text (data s : list Z) : Prop :=
  exists d1 d2 d3 d4 d5 s1 s2 s3 s4 s5,
    data = d1 ++ d2 ++ d3 ++ d4 ++ d5 /\
    (length d1 = 4 /\ length d2 = 2 /\ length d3 = 2 /\ length d4 = 2 /\ length d5 = 6)%nat /\
    hex_text d1 s1 /\ hex_text d2 s2 /\ hex_text d3 s3 /\ hex_text d4 s4 /\ hex_text d5 s5 /\
    s = s1 ++ 45 :: s2 ++ 45 :: s3 ++ 45 :: s4 ++ 45 :: s5.

(** No upper-case letter. *)
Definition lower_case (s : list Z) : Prop := Forall (fun c => ~ (65 <= c <= 90)) s.
