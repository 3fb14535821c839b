(** C21, C22, C49: allocators.  Statements only; proofs are in AllocProofs.v. *)
From Verif Require Import Base Status AllocModel AllocSpec AllocProofs.

(** ** C21 *)
(** True part: requests small enough that the offset arithmetic does not wrap.
    Blocks handed out since the last reset are aligned, in the region behind the
    header, and disjoint, in every history of calls. *)
Theorem C21_aligned_inside_disjoint_partial : forall region rsize os b, region_ok region rsize -> rsize + 16 <= 2^64 ->
  bump_create region rsize = (STATUS_SUCCESS, Some b) -> requests (fun n => 0 <= n /\ n + rsize + 16 <= 2^64) os ->
  let l := handed_out [] (fst (bump_history b os)) in
  Forall aligned16 l /\ Forall (inside region rsize 40) l /\ pairwise_disjoint l.
Proof. exact aligned_inside_disjoint. Qed.
(** The unrestricted claim is false: a request near 2^64 succeeds, and the next one
    is given the allocator's own header. *)
Theorem C21_wrapping_request_refuted : exists region rsize b huge p1 p2 os,
  region_ok region rsize /\ 0 <= huge < 2^64 /\ bump_create region rsize = (STATUS_SUCCESS, Some b) /\
  fst (bump_history b [Allocate huge; Allocate 8]) = os /\
  os = [(Allocate huge, (STATUS_SUCCESS, Some p1)); (Allocate 8, (STATUS_SUCCESS, Some p2))] /\
  ~ inside region rsize 40 (p1, huge) /\ ~ inside region rsize 40 (p2, 8) /\ p2 = region.
Proof.
  exists 4096, 1024. do 5 eexists. split; [unfold region_ok; lia|].
  split; [instantiate (1 := 2^64 - 48); lia|]. split; [vm_compute; reflexivity|].
  split; [reflexivity|]. split; [vm_compute; reflexivity|].
  unfold inside. cbn [fst snd]. lia.
Qed.
Example C21_example :
  let os := [Allocate 10; Reclaim 4144; Allocate 0; Control 7; Allocate 100; Allocate 4000; Control 32; Allocate 16] in
  region_ok 4096 1024 /\ requests (fun n => 0 <= n /\ n + 1024 + 16 <= 2^64) os /\
  match bump_create 4096 1024 with
  | (_, Some b) => handed_out [] (fst (bump_history b (firstn 6 os))) = [(4160, 100); (4160, 0); (4144, 10)] /\
                   handed_out [] (fst (bump_history b os)) = [(4144, 16)]
  | _ => False
  end.
Proof.
  split; [unfold region_ok; lia|]. split; [|vm_compute; split; reflexivity].
  unfold requests. repeat (apply Forall_cons; [exact I || lia|]). apply Forall_nil.
Qed.

(** ** C22 *)
(** Creation fails exactly when the region cannot hold the header. *)
Theorem C22_create : forall region rsize,
  (rsize < 40 -> bump_create region rsize = (ERROR_GENERAL_OUT_OF_MEMORY, None)) /\
  (40 <= rsize -> exists b, bump_create region rsize = (STATUS_SUCCESS, Some b) /\ b = Bump true region 40 rsize).
Proof. exact create_spec. Qed.
(** After any history a request gets the first aligned address behind the last
    block if it ends before the last byte of the region, and otherwise fails with
    out of memory, storing nothing and leaving the allocator as it was. *)
Theorem C22_exact_outcome : forall region rsize os b n, region_ok region rsize -> rsize + 16 <= 2^64 ->
  bump_create region rsize = (STATUS_SUCCESS, Some b) -> requests (fun n => 0 <= n /\ n + rsize + 16 <= 2^64) os ->
  (0 <= n /\ n + rsize + 16 <= 2^64) ->
  let (rs, b') := bump_history b os in
  let a := align_up (free_from region (handed_out [] rs)) in
  (a + n < region + rsize -> exists b2, bump_call b' (Allocate n) = (STATUS_SUCCESS, Some a, b2)) /\
  (region + rsize <= a + n -> bump_call b' (Allocate n) = (ERROR_GENERAL_OUT_OF_MEMORY, None, b')).
Proof. exact exact_failure. Qed.
Theorem C22_no_effect : forall b, bm_vtable b = true ->
  (forall p, bump_call b (Reclaim p) = (STATUS_SUCCESS, None, b)) /\
  (forall p n, bump_call b (Reallocate p n) = (ERROR_GENERAL_REALLOCATION_NOT_SUPPORTED, None, b)) /\
  (forall k, k <> 32 -> bump_call b (Control k) = (ERROR_GENERAL_CONTROL_KEY_INVALID, None, b)).
Proof. exact no_effect_ops. Qed.
(** Reset restores the allocator to its state at creation. *)
Theorem C22_reset : forall region rsize os b, region_ok region rsize -> rsize + 16 <= 2^64 ->
  bump_create region rsize = (STATUS_SUCCESS, Some b) -> requests (fun n => 0 <= n /\ n + rsize + 16 <= 2^64) os ->
  bump_call (snd (bump_history b os)) (Control 32) = (STATUS_SUCCESS, None, b).
Proof. exact reset_fresh. Qed.
(** A released allocator refuses every call. *)
Theorem C22_released : forall b o, let (e, b') := bump_release b in e = STATUS_SUCCESS /\
  bump_call b' o = (ERROR_GENERAL_BAD_VTABLE, match o with Allocate _ => Some 0 | _ => None end, b').
Proof. exact released. Qed.
(** A request that would exactly fill the region is refused. *)
Example C22_example : match bump_create 4096 1024 with
  | (_, Some b) => fst (bump_call b (Allocate 976)) = (ERROR_GENERAL_OUT_OF_MEMORY, None) /\
                   fst (bump_call b (Allocate 975)) = (STATUS_SUCCESS, Some 4144)
  | _ => False end.
Proof. vm_compute. split; reflexivity. Qed.

(** ** C49 *)
(** [cwf]: block addresses are distinct and not NULL. *)
Theorem C49_malloc_allocate : forall w h n, cwf h ->
  (forall p junk, w = LOk p junk -> p <> 0 -> cget h p = None ->
     exists c h', malloc_allocate w h n = (STATUS_SUCCESS, p, h') /\ length c = n /\ cwf h' /\
       forall q, cget h' q = if q =? p then Some c else cget h q) /\
  (w = LFail -> malloc_allocate w h n = (ERROR_GENERAL_OUT_OF_MEMORY, 0, h)).
Proof. exact malloc_allocate_spec. Qed.
Theorem C49_malloc_reclaim : forall h p, cwf h ->
  (forall c, cget h p = Some c -> exists h', malloc_reclaim h p = Some (STATUS_SUCCESS, h') /\ cwf h' /\
     forall q, cget h' q = if q =? p then None else cget h q) /\
  (p <> 0 -> cget h p = None -> malloc_reclaim h p = None).
Proof. exact malloc_reclaim_spec. Qed.
(** Reallocation keeps the common prefix; if the C library cannot grow the block,
    the old block and the caller's pointer are untouched. *)
Theorem C49_malloc_reallocate_partial : forall w h p c n, cwf h -> cget h p = Some c ->
  (forall q junk, w = LOk q junk -> q <> 0 -> (q = p \/ cget h q = None) ->
     exists c' h', malloc_reallocate w h p n = Some (STATUS_SUCCESS, q, h') /\ cwf h' /\
       length c' = n /\ firstn (Nat.min n (length c)) c' = firstn n c /\
       cget h' q = Some c' /\ (q <> p -> cget h' p = None) /\
       forall r, r <> p -> r <> q -> cget h' r = cget h r) /\
  (w = LFail -> malloc_reallocate w h p n = Some (ERROR_GENERAL_OUT_OF_MEMORY, p, h)).
Proof. intros w h p c n W G. split; apply (malloc_reallocate_spec w h p c n W G). Qed.
(** But when the C library frees the block and returns NULL (reallocation to size 0
    with glibc), out of memory is reported and the caller keeps a dangling pointer. *)
Theorem C49_realloc_zero_refuted : forall h p c, cwf h -> cget h p = Some c ->
  exists h', malloc_reallocate LFreed h p 0 = Some (ERROR_GENERAL_OUT_OF_MEMORY, p, h') /\ cget h' p = None.
Proof. intros h p c W G. apply (malloc_reallocate_spec LFreed h p c 0%nat W G). reflexivity. Qed.
Theorem C49_malloc_control : forall k, malloc_control k = ERROR_GENERAL_CONTROL_KEY_INVALID.
Proof. reflexivity. Qed.
Example C49_example : let h := [(16, [1;2;3]); (32, [])] in cwf h /\
  malloc_reallocate (LOk 48 (fun _ => 9)) h 16 5 = Some (STATUS_SUCCESS, 48, [(48, [1;2;3;9;9]); (32, [])]).
Proof.
  split; [|vm_compute; reflexivity]. split; cbn; [|lia].
  apply NoDup_cons; [cbn; lia|]. apply NoDup_cons; [cbn; tauto|]. apply NoDup_nil.
Qed.

Print Assumptions C21_aligned_inside_disjoint_partial.
Print Assumptions C21_wrapping_request_refuted.
Print Assumptions C22_create.
Print Assumptions C22_exact_outcome.
Print Assumptions C22_no_effect.
Print Assumptions C22_reset.
Print Assumptions C22_released.
Print Assumptions C49_malloc_allocate.
Print Assumptions C49_malloc_reclaim.
Print Assumptions C49_malloc_reallocate_partial.
Print Assumptions C49_realloc_zero_refuted.
Print Assumptions C49_malloc_control.
