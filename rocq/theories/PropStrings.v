(** C01-C05: string utilities.  Statements only; proofs are in StringProofs.v. *)
From Verif Require Import Base Status StringModel StringSpec StringProofs.

(** Text used by the non-vacuity examples: " \taB c " inside a larger buffer. *)
Definition demo : list Z := [7; 7; 32; 9; 97; 66; 32; 99; 32; 0; 200; 5].
Example demo_is_string : cstring_at demo 2 [32; 9; 97; 66; 32; 99; 32].
Proof. exists [7;7], [200;5]. repeat split. all_chars. Qed.

(** C01.  Splitting at [delim]: either the first character equal to [delim] is
    replaced by NUL and both halves are returned, or it does not occur and nothing
    changes.  Characters are compared as plain (signed) [char]. *)
Theorem C01_split_partial : forall b p s delim,
  cstring_at b p s ->
  (exists l d r b',
     s = l ++ d :: r /\ sext8 d = delim /\ (forall c, In c l -> sext8 c <> delim) /\
     split b p delim = Some (SplitResult STATUS_SUCCESS (Some p) (Some (p + length l + 1)%nat) b') /\
     cstring_at b' p l /\ cstring_at b' (p + length l + 1) r /\
     unchanged_outside (p + length l) 1 b b')
  \/
  ((forall c, In c s -> sext8 c <> delim) /\
   split b p delim = Some (SplitResult ERROR_STRING_END_OF_INPUT None None b)).
Proof. exact split_correct. Qed.
Example C01_example : split demo 2 97 =
  Some (SplitResult STATUS_SUCCESS (Some 2%nat) (Some 5%nat) [7;7;32;9;0;66;32;99;32;0;200;5]).
Proof. reflexivity. Qed.

(** C01 fails for delimiter bytes 128..255 passed as such: the byte occurs and is
    not found. *)
Theorem C01_split_high_byte_refuted : exists b p l d r,
  128 <= d < 256 /\ cstring_at b p (l ++ d :: r) /\
  split b p d = Some (SplitResult ERROR_STRING_END_OF_INPUT None None b).
Proof.
  exists [97; 233; 98; 0], 0%nat, [97], 233, [98]. split; [lia|]. split; [|reflexivity].
  exists [], []. repeat split. all_chars.
Qed.
Theorem C01_split_high_byte_never_found : forall b p s delim,
  cstring_at b p s -> 128 <= delim ->
  split b p delim = Some (SplitResult ERROR_STRING_END_OF_INPUT None None b).
Proof. exact split_high_never. Qed.

(** C02. *)
Theorem C02_left_trim : forall b p s, cstring_at b p s ->
  exists bl t b', s = bl ++ t /\ Forall ws bl /\ ~ starts_blank t /\
    left_trim b p = Some b' /\ cstring_at b' p t /\ unchanged_outside p (length s + 1) b b'.
Proof. exact left_trim_correct. Qed.
Theorem C02_right_trim : forall b p s, cstring_at b p s ->
  exists t bl b', s = t ++ bl /\ Forall ws bl /\ ~ ends_blank t /\
    right_trim b p = Some b' /\ cstring_at b' p t /\ unchanged_outside (p + length t) 1 b b'.
Proof. exact right_trim_correct. Qed.
Theorem C02_trim : forall b p s, cstring_at b p s ->
  exists bl t br b', s = bl ++ t ++ br /\ Forall ws bl /\ Forall ws br /\
    ~ starts_blank t /\ ~ ends_blank t /\
    trim b p = Some b' /\ cstring_at b' p t /\ unchanged_outside p (length s + 1) b b' /\
    trim b' p = Some b'.
Proof. exact trim_correct. Qed.
Theorem C02_left_trim_idempotent : forall b p s b', cstring_at b p s ->
  left_trim b p = Some b' -> left_trim b' p = Some b'.
Proof. exact left_trim_idempotent. Qed.
Theorem C02_right_trim_idempotent : forall b p s b', cstring_at b p s ->
  right_trim b p = Some b' -> right_trim b' p = Some b'.
Proof. exact right_trim_idempotent. Qed.
Theorem C02_chomp : forall b p s, cstring_at b p s ->
  (s = [] /\ chomp b p = Some b) \/
  (exists t c b', s = t ++ [c] /\ chomp b p = Some b' /\ cstring_at b' p t /\
     unchanged_outside (p + length t) 1 b b').
Proof. exact chomp_correct. Qed.
Example C02_example : exists b', trim demo 2 = Some b' /\ cstring_at b' 2 [97; 66; 32; 99].
Proof.
  eexists. split; [reflexivity|]. exists [7;7]. eexists. split; [reflexivity|].
  split; [reflexivity|]. all_chars.
Qed.

(** C03. *)
Theorem C03_starts_with : forall b1 p1 s b2 p2 t,
  cstring_at b1 p1 s -> cstring_at b2 p2 t ->
  exists v, starts_with (Some (b1, p1)) (Some (b2, p2)) = Some v /\
    (v = true <-> exists r, s = t ++ r).
Proof. exact starts_with_correct. Qed.
Theorem C03_starts_with_null : forall str,
  starts_with str None = Some true /\
  (forall b p, starts_with None (Some (b, p)) = Some false).
Proof. exact starts_with_null. Qed.
Theorem C03_ends_with : forall b p s ch, cstring_at b p s ->
  exists v, ends_with b p ch = Some v /\
    (v = true <-> exists t c, s = t ++ [c] /\ sext8 c = ch).
Proof. exact ends_with_correct. Qed.
Example C03_example : starts_with (Some (demo, 2%nat)) (Some ([32; 9; 0], 0%nat)) = Some true /\
  starts_with (Some (demo, 2%nat)) (Some ([9; 0], 0%nat)) = Some false /\
  ends_with demo 2 32 = Some true /\ ends_with demo 2 99 = Some false.
Proof. repeat split; reflexivity. Qed.

(** C04.  A whole session over any string returns exactly its maximal runs of
    non-delimiters, in order, each NUL-terminated in place. *)
Theorem C04_words : forall b p s l it,
  cstring_at b p s -> Runs ws p s l ->
  exists b', Session (fun arg i m => words m i arg) (Some p) it b (map fst l) b' /\
    Forall (fun qw => cstring_at b' (fst qw) (snd qw)) l /\
    unchanged_outside p (length s) b b'.
Proof. exact words_correct. Qed.
Theorem C04_multisplit : forall f tf b p s l it,
  cstring_at b p s -> Runs (fun c => f (sext8 c) = true) p s l ->
  exists b', Session (fun arg i m => multisplit m i arg (match arg with Some _ => f | None => tf end))
               (Some p) it b (map fst l) b' /\
    Forall (fun qw => cstring_at b' (fst qw) (snd qw)) l /\
    unchanged_outside p (length s) b b'.
Proof. exact multisplit_correct. Qed.
Theorem C04_runs_exist : forall D : Z -> Prop, (forall c, {D c} + {~ D c}) ->
  forall s p, exists l, Runs D p s l.
Proof. exact runs_total. Qed.
Theorem C04_runs_unique : forall D p s l1, Runs D p s l1 -> forall l2, Runs D p s l2 -> l1 = l2.
Proof. exact runs_unique. Qed.
Example C04_example : Runs ws 2 [32; 9; 97; 66; 32; 99; 32] [(4%nat, [97; 66]); (7%nat, [99])].
Proof.
  assert (W: forall c, c = 32 \/ c = 9 -> ws c) by (unfold ws; lia).
  apply (runs_cons ws 2 [32; 9] [97; 66] [32; 99; 32]); try discriminate.
  - repeat (apply Forall_cons; [apply W; auto|]); apply Forall_nil.
  - repeat (apply Forall_cons; [unfold ws; lia|]); apply Forall_nil.
  - intros c t E. inversion E. apply W; auto.
  - apply (runs_cons ws 6 [32] [99] [32]); try discriminate.
    + repeat (apply Forall_cons; [apply W; auto|]); apply Forall_nil.
    + repeat (apply Forall_cons; [unfold ws; lia|]); apply Forall_nil.
    + intros c t E. inversion E. apply W; auto.
    + constructor. repeat (apply Forall_cons; [apply W; auto|]); apply Forall_nil.
Qed.

(** C05. *)
Theorem C05_strdup : forall junk b p s,
  cstring_at b p s ->
  strdup STATUS_SUCCESS junk true true (Some (b, p))
  = Some (StringOut STATUS_SUCCESS (Some (Some (s ++ [0]))) [s ++ [0]]).
Proof. exact strdup_correct. Qed.
Theorem C05_strdup_failure : forall ast junk b p s,
  cstring_at b p s -> ast <> STATUS_SUCCESS ->
  strdup ast junk true true (Some (b, p)) = Some (StringOut ast (Some None) []).
Proof. exact strdup_failure. Qed.
Theorem C05_strdup_null : forall ast junk o a i,
  (o = false \/ a = false \/ i = None) ->
  strdup ast junk o a i
  = Some (StringOut ERROR_STRING_INVALID_PARAMETER (if o then Some None else None) []).
Proof. exact strdup_null. Qed.
Theorem C05_vstrcat : forall junk args ss,
  Forall2 (fun a s => cstring_at (fst a) (snd a) s) args ss ->
  vstrcat STATUS_SUCCESS junk args
  = Some (StringOut STATUS_SUCCESS (Some (Some (concat ss ++ [0]))) [concat ss ++ [0]]).
Proof. exact vstrcat_correct. Qed.
Theorem C05_vstrcat_failure : forall ast junk args ss,
  Forall2 (fun a s => cstring_at (fst a) (snd a) s) args ss -> ast <> STATUS_SUCCESS ->
  vstrcat ast junk args = Some (StringOut ast None []).
Proof. exact vstrcat_failure. Qed.
Example C05_example : vstrcat STATUS_SUCCESS (fun _ => 85) [(demo, 4%nat); ([0], 0%nat); ([104; 105; 0; 9], 0%nat)]
  = Some (StringOut STATUS_SUCCESS (Some (Some [97;66;32;99;32;104;105;0])) [[97;66;32;99;32;104;105;0]]).
Proof. reflexivity. Qed.

Print Assumptions C01_split_partial.
Print Assumptions C01_split_high_byte_refuted.
Print Assumptions C01_split_high_byte_never_found.
Print Assumptions C02_left_trim.
Print Assumptions C02_right_trim.
Print Assumptions C02_trim.
Print Assumptions C02_left_trim_idempotent.
Print Assumptions C02_right_trim_idempotent.
Print Assumptions C02_chomp.
Print Assumptions C03_starts_with.
Print Assumptions C03_starts_with_null.
Print Assumptions C03_ends_with.
Print Assumptions C04_words.
Print Assumptions C04_multisplit.
Print Assumptions C04_runs_exist.
Print Assumptions C04_runs_unique.
Print Assumptions C05_strdup.
Print Assumptions C05_strdup_failure.
Print Assumptions C05_strdup_null.
Print Assumptions C05_vstrcat.
Print Assumptions C05_vstrcat_failure.
