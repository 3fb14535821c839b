(** What calls through function tables are to do, apart from how the code finds the functions. *)
From Verif Require Import Base Status MemModel SockModel VtModel.

(** What is asked of an object: of any resource; of an allocator; of a socket, the use of a
    method with the arguments after the socket and its context. *)
Inductive request := QRelease | QAllocate (ptr size : Z) | QReclaim (ptr : Z) | QReallocate (ptr size : Z) | QControl (key value size : Z) | QMethod (m : meth) (args : list Z).
(** The function of the library that is called for it; [e] is what the function in the table
    returns, should it be called. *)
Definition perform (b : build) (s : section) (mem : memory) (p : Z) (o : object) (q : request) (e : Z) : outcome :=
  match q with
  | QRelease => resource_release b s mem (resource_handle p) o e
  | QAllocate ptr size => allocator_allocate b s mem p o ptr size e
  | QReclaim ptr => allocator_reclaim b s mem p o ptr e
  | QReallocate ptr size => allocator_reallocate b s mem p o ptr size e
  | QControl key value size => allocator_control b s mem p o key value size e
  | QMethod m args => psock_method b s mem p o m args e
  end.
(** The function that is to serve it, and its arguments *)
Definition wanted (q : request) : kind :=
  match q with
  | QRelease => KRelease | QAllocate _ _ => KAllocate | QReclaim _ => KReclaim | QReallocate _ _ => KReallocate
  | QControl _ _ _ => KControl | QMethod m _ => KMeth m
  end.
Definition given (p : Z) (o : object) (q : request) : list Z :=
  match q with
  | QRelease => [p] | QAllocate ptr size => [p; ptr; size] | QReclaim ptr => [p; ptr] | QReallocate ptr size => [p; ptr; size]
  | QControl key value size => [p; key; value; size] | QMethod _ args => [p; o_ctx o] ++ args
  end.
(** The functions that may be missing and what is reported then *)
Definition optional (q : request) : option Z :=
  match q with
  | QControl _ _ _ => Some ERROR_GENERAL_CONTROL_KEY_INVALID
  | QMethod (MAccept | MSendmsg | MRecvmsg | MSetsockopt) _ => Some ERROR_PSOCK_METHOD_UNDEFINED
  | _ => None
  end.
(** The structs of functions, in the order of their members, eight bytes each *)
Definition resource_layout : list kind := [KRelease].
Definition allocator_layout : list kind := [KRelease; KAllocate; KReclaim; KReallocate; KControl].
Definition psock_layout : list kind :=
  [KRelease; KMeth MRead; KMeth MWrite; KMeth MAccept; KMeth MSendmsg; KMeth MRecvmsg; KMeth MSetsockopt; KUserRelease].
Definition layout (q : request) : list kind :=
  match q with QRelease => resource_layout | QMethod _ _ => psock_layout | _ => allocator_layout end.
(** The word that a struct of functions at [t] has for the wanted function *)
Definition entry (mem : memory) (t : Z) (l : list kind) (k : kind) (w : option word) : Prop :=
  exists i, nth_error l i = Some k /\ mem (t + 8 * Z.of_nat i) = w.

(** Addresses of user space; the section is one piece of it. *)
Definition address (p : Z) : Prop := 0 <= p < 2 ^ 63.
Definition sound (s : section) : Prop := address (s_start s) /\ address (s_stop s) /\ s_start s <= s_stop s.
(** [t] is an address in the section of the function tables, before its end *)
Definition within (s : section) (t : Z) : Prop := s_start s <= t < s_stop s.
(** Builds that check: the check is not off, and it is not an assertion that is compiled out. *)
Definition checking (b : build) : Prop := b_enforce b = true /\ (b_assert b = true -> b_ndebug b = false).
(** What a build that checks makes of a bad table *)
Definition refusal (b : build) (q : request) : outcome :=
  if b_assert b then Abort
  else Ret ERROR_GENERAL_BAD_VTABLE [] (match q with QAllocate _ _ => Some 0 | _ => None end).
