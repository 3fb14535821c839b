(** Model of the descriptor utilities in src/socket_utilities/*.c over a process
    descriptor table. *)
From Verif Require Import Base Status.

(** Descriptor table: which open file description each descriptor refers to. *)
Definition fdt := Z -> option Z.
Definition fd_put (t : fdt) (fd : Z) (o : option Z) : fdt := fun x => if x =? fd then o else t x.

(** dup2(2): [Some t'] on success.  [may] is false when the system refuses for a
    reason outside the table (limit, interruption). *)
Definition dup2 (may : bool) (t : fdt) (old new : Z) : option fdt :=
  match t old with
  | None => None
  | Some o => if may then Some (if old =? new then t else fd_put t new (Some o)) else None
  end.
(** close(2); the result is ignored by all callers. *)
Definition fd_close (t : fdt) (fd : Z) : fdt := fd_put t fd None.

(** vsocket_utility_setfds.c:30-75.  [args] is the variable argument list after
    [curr] and [mapped]; reading beyond it is undefined ([None]).  [may] is the
    system's willingness at each call. *)
Fixpoint setfds_loop (may : nat -> bool) (k : nat) (t : fdt) (curr mapped : Z) (args : list Z) : option (Z * fdt) :=
  if (0 <=? curr) && (0 <=? mapped) then
    match dup2 (may k) t curr mapped with
    | None => Some (ERROR_SOCKET_UTILITIES_DUP2_FAILURE, t)
    | Some t1 =>
        let t2 := fd_close t1 curr in
        match args with
        | [] => None
        | c :: rest =>
            if c <? 0 then Some (STATUS_SUCCESS, t2)
            else match rest with
                 | [] => None
                 | m :: rest' =>
                     if m <? 0 then Some (ERROR_GENERAL_INVALID_ARGUMENTS, t2)
                     else setfds_loop may (S k) t2 c m rest'
                 end
        end
    end
  else Some (ERROR_GENERAL_INVALID_ARGUMENTS, t).
Definition setfds (may : nat -> bool) (t : fdt) (curr mapped : Z) (args : list Z) : option (Z * fdt) :=
  setfds_loop may 0 t curr mapped args.

(** vsocket_utility_move_descriptors.c:29-79.  The arguments are a NULL-terminated
    list of addresses of integers; [m] is the memory holding them.  (The increment
    of [threshold] past INT_MAX is not modelled: no system has that many
    descriptors.) *)
Fixpoint move_loop (may : nat -> bool) (k : nat) (t : fdt) (m : Z -> Z) (threshold : Z) (ps : list Z) : Z * fdt * (Z -> Z) :=
  match ps with
  | [] => (STATUS_SUCCESS, t, m)
  | p :: rest =>
      let old := m p in
      if old <? 0 then (ERROR_GENERAL_INVALID_ARGUMENTS, t, m)
      else match dup2 (may k) t old threshold with
           | None => (ERROR_SOCKET_UTILITIES_DUP2_FAILURE, t, m)
           | Some t1 => move_loop may (S k) (fd_close t1 old) (fun x => if x =? p then threshold else m x) (threshold + 1) rest
           end
  end.
Definition move_descriptors (may : nat -> bool) (t : fdt) (m : Z -> Z) (threshold : Z) (ps : list Z) : Z * fdt * (Z -> Z) :=
  if threshold <? 0 then (ERROR_GENERAL_INVALID_ARGUMENTS, t, m) else move_loop may 0 t m threshold ps.

(** FD_SETSIZE on the modelled target *)
Definition FD_SETSIZE : Z := 1024.
(** socket_utility_close_other_fds.c:24-33; closing a descriptor that is not open has
    no effect. *)
Fixpoint close_from (n : nat) (t : fdt) (i : Z) : fdt :=
  match n with
  | O => t
  | S n' => close_from n' (fd_close t i) (i + 1)
  end.
Definition close_other_fds (t : fdt) (fd : Z) : Z * fdt :=
  (STATUS_SUCCESS, close_from (Z.to_nat (FD_SETSIZE - (fd + 1))) t (fd + 1)).
(** socket_utility_close_standard_fds.c:21-29 *)
Definition close_standard_fds (t : fdt) : Z * fdt :=
  (STATUS_SUCCESS, fd_close (fd_close (fd_close t 0) 1) 2).

(** socket_utility_set_nonblock.c:23-49.  Flags of the open file description;
    [get]/[set] are what fcntl returns on failure ([None]: it succeeds).
    O_NONBLOCK is 2048 on the modelled target. *)
Definition O_NONBLOCK : Z := 2048.
Definition set_nonblock (get_ok set_ok : bool) (flags : Z) : Z * Z :=
  if get_ok then
    if set_ok then (STATUS_SUCCESS, Z.lor flags O_NONBLOCK)
    else (ERROR_SOCKET_UTILITIES_SET_NONBLOCK_FAILURE, flags)
  else (ERROR_SOCKET_UTILITIES_SET_NONBLOCK_FAILURE, flags).

(** socket_utility_socketpair.c:33-55: [sys] is the pair made by the system, or [None]. *)
Definition util_socketpair (sys : option (Z * Z)) (left right : Z) : Z * Z * Z :=
  match sys with
  | None => (ERROR_SOCKET_UTILITIES_SOCKETPAIR_FAILURE, left, right)
  | Some (a, b) => (STATUS_SUCCESS, a, b)
  end.
