(** Model of src/allocator/*.c: the allocator interface, the bump allocator and the
    malloc allocator.  Pointers and [size_t] are integers modulo 2^64; 0 is NULL. *)
From Verif Require Import Base Status.

(** bump_allocator_create.c:36-43; [allocator] is a resource (one vtable pointer) and
    a context pointer (allocator_internal.h:20-26, resource/protected.h:23-28), so the
    struct is five words.  Model-checking tags are empty in a normal build. *)
Definition SIZEOF_BUMP : Z := 40.

(** include/rcpr/allocator.h:44 *)
Definition CONTROL_BUMP_RESET : Z := 32.

(** The allocator object in the region.  [bm_vtable] is false once the header has
    been zeroed by the release (the vtable pointer is then not in the vtable
    section). *)
Record bump := Bump { bm_vtable : bool; bm_region : Z; bm_offset : Z; bm_max : Z }.

(** bump_allocator_create.c:74-126: status and the allocator ([None] is NULL). *)
Definition bump_create (region region_size : Z) : Z * option bump :=
  if region_size <? SIZEOF_BUMP then (ERROR_GENERAL_OUT_OF_MEMORY, None)
  else (STATUS_SUCCESS, Some (Bump true region SIZEOF_BUMP region_size)).

(** bump_allocator_create.c:136-146: the header is zeroed. *)
Definition bump_release (b : bump) : Z * bump := (STATUS_SUCCESS, Bump false 0 0 0).

(** bump_allocator_create.c:171-199.  The second component is the value stored in
    [*ptr], [None] if it is left alone. *)
Definition bump_allocate (b : bump) (size : Z) : Z * option Z * bump :=
  let raw := wrap64 (bm_region b + bm_offset b) in
  let mem_offset := if raw mod 16 =? 0 then bm_offset b else wrap64 (bm_offset b + (16 - raw mod 16)) in
  let bump_offset := wrap64 (mem_offset + size) in
  if bm_max b <=? bump_offset then (ERROR_GENERAL_OUT_OF_MEMORY, None, b)
  else (STATUS_SUCCESS, Some (wrap64 (bm_region b + mem_offset)),
        Bump (bm_vtable b) (bm_region b) bump_offset (bm_max b)).

(** bump_allocator_create.c:222-230 *)
Definition bump_reclaim (b : bump) (p : Z) : Z * bump := (STATUS_SUCCESS, b).

(** bump_allocator_create.c:261-270 *)
Definition bump_reallocate (b : bump) (p size : Z) : Z * option Z * bump :=
  (ERROR_GENERAL_REALLOCATION_NOT_SUPPORTED, None, b).

(** bump_allocator_create.c:293-309 *)
Definition bump_control (b : bump) (key : Z) : Z * bump :=
  if key =? CONTROL_BUMP_RESET
  then (STATUS_SUCCESS, Bump (bm_vtable b) (bm_region b) SIZEOF_BUMP (bm_max b))
  else (ERROR_GENERAL_CONTROL_KEY_INVALID, b).

(** The interface functions allocator_allocate.c:41-68, allocator_reclaim.c:39-65,
    allocator_reallocate.c:47-72, allocator_control.c:39-72 applied to a bump
    allocator: the vtable check, then the call.  (A build with
    RCPR_VTABLE_CHECK_ASSERT aborts instead; that build is not modelled.) *)
Inductive aop := Allocate (size : Z) | Reclaim (p : Z) | Reallocate (p size : Z) | Control (key : Z).
(** Status, and what is stored through the caller's pointer if anything. *)
Definition bump_call (b : bump) (o : aop) : Z * option Z * bump :=
  if bm_vtable b then
    match o with
    | Allocate n => bump_allocate b n
    | Reclaim p => let (e, b') := bump_reclaim b p in (e, None, b')
    | Reallocate p n => bump_reallocate b p n
    | Control k => let (e, b') := bump_control b k in (e, None, b')
    end
  else match o with
       | Allocate _ => (ERROR_GENERAL_BAD_VTABLE, Some 0, b)
       | _ => (ERROR_GENERAL_BAD_VTABLE, None, b)
       end.

(** A history of calls: every call with its status and stored pointer. *)
Fixpoint bump_history (b : bump) (os : list aop) : list (aop * (Z * option Z)) * bump :=
  match os with
  | [] => ([], b)
  | o :: t => match bump_call b o with
              | (e, p, b') => let (rs, b2) := bump_history b' t in ((o, (e, p)) :: rs, b2)
              end
  end.

(** ** malloc allocator *)
(** The C heap: live blocks, address and contents. *)
Definition cheap := list (Z * list Z).
Fixpoint cget (h : cheap) (p : Z) : option (list Z) :=
  match h with
  | [] => None
  | (q, c) :: t => if p =? q then Some c else cget t p
  end.
Fixpoint cdel (h : cheap) (p : Z) : cheap :=
  match h with
  | [] => []
  | (q, c) :: t => if p =? q then t else (q, c) :: cdel t p
  end.

(** What the C library does for one call.  [realloc] of size 0 may free the block
    and return NULL (glibc does). *)
Inductive libc_outcome := LFail | LOk (p : Z) (junk : nat -> Z) | LFreed.

(** malloc_allocator_create.c:151-169.  Status, value stored in [*ptr], heap. *)
Definition malloc_allocate (w : libc_outcome) (h : cheap) (size : nat) : Z * Z * cheap :=
  match w with
  | LOk p junk => (STATUS_SUCCESS, p, (p, map junk (seq 0 size)) :: h)
  | _ => (ERROR_GENERAL_OUT_OF_MEMORY, 0, h)
  end.

(** malloc_allocator_create.c:192-206; [free] of something that is not a live block
    is undefined, [free(NULL)] is a no-op. *)
Definition malloc_reclaim (h : cheap) (p : Z) : option (Z * cheap) :=
  if p =? 0 then Some (STATUS_SUCCESS, h)
  else match cget h p with
       | Some _ => Some (STATUS_SUCCESS, cdel h p)
       | None => None
       end.

(** malloc_allocator_create.c:237-256.  [p] is the old value of [*ptr]; the result
    has the new one.  C [realloc] keeps the common prefix. *)
Definition malloc_reallocate (w : libc_outcome) (h : cheap) (p : Z) (size : nat) : option (Z * Z * cheap) :=
  match (if p =? 0 then Some [] else cget h p) with
  | None => None
  | Some c =>
      match w with
      | LOk q junk => Some (STATUS_SUCCESS, q,
                            (q, firstn size c ++ map junk (seq (length (firstn size c)) (size - length c))) ::
                            (if p =? 0 then h else cdel h p))
      | LFail => Some (ERROR_GENERAL_OUT_OF_MEMORY, p, h)
      | LFreed => Some (ERROR_GENERAL_OUT_OF_MEMORY, p, if p =? 0 then h else cdel h p)
      end
  end.

(** malloc_allocator_create.c:279-288 *)
Definition malloc_control (key : Z) : Z := ERROR_GENERAL_CONTROL_KEY_INVALID.
