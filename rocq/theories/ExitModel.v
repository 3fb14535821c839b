(** Model of how the two examples start and end: the ladders of examples/mandelbrot/src/main.c and
    of examples/echo_server/src/main.c, with config_create.c, management_fiber_add,
    listen_fiber_add and signal_thread_create.

    Each call's result is an answer; the log says what was acquired and what was given to its
    release, in order.  What is between start and end is MandModel's and ServModel's part. *)
From Verif Require Import Base Status ImgModel.

(** What a program acquires *)
Inductive thing :=
| Allocator
(* mandelbrot: the struct of the configuration, its copy of the name, info.array, the mutex and
   conditions, the array of threads, its threads, the lock *)
| Config | Prefix | Array | Mutex | WorkerCond | MainCond | Threads | Thread (i : Z) | Lock
(* echo server: the scheduler, the manager's fiber, the listener's context and fiber, the two ends
   of the pair of sockets, the signal thread's context, its socket and the thread, main's socket
   and the wrapper around it *)
| Scheduler | Manager | ListenContext | Listener | Left | Right | SignalContext | LeftSocket | SignalThread | RightSocket | SignalSocket.
Inductive ev := Acq (x : thing) | Rel (x : thing).
(** How main ends: it returns; it calls exit; it does something undefined; a call never comes back. *)
Inductive ends := Returns (code : Z) | Exits (code : Z) | Undefined | Hangs.
Definition fails (st : Z) : bool := negb (st =? STATUS_SUCCESS).

(** * examples/mandelbrot/src/main.c *)
(** The answers of malloc_allocator_create, of the allocation of the configuration, of strdup, of
    the allocation of the array, of thread_mutex_create, of thread_cond_create (twice), of the
    allocation of the array of threads, of each thread_create, of the lock; of waking the workers,
    of waiting and of fopen in each frame ([None]: the wait never ends); of the lock at
    cleanup_threads ([None]: never), of waking and unlocking there, of each thread's release
    ([None]: the thread never ends), of releasing the conditions and the mutex.  The release of
    the malloc allocator succeeds, malloc_allocator_create.c:112-126. *)
Record manswers := MA {
  a_alloc : Z; a_config : Z; a_strdup : bool; a_array : bool; a_mutex : Z; a_wcond : Z; a_mcond : Z; a_threads : bool; a_thread : Z -> Z; a_lock : Z;
  a_wake : Z -> Z; a_wait : Z -> option Z; a_open : Z -> bool;
  a_relock : option Z; a_rewake : Z; a_unlock : Z; a_join : Z -> option Z; a_rel_mcond : Z; a_rel_wcond : Z; a_rel_mutex : Z }.

(** main.c:327-333 *)
Definition cleanup_allocator (code : Z) (log : list ev) : ends * list ev := (Returns code, log ++ [Rel Allocator]).
(** main.c:322-325 with config_resource_release, config_create.c:107-119, which frees the name if
    there is one, keeps the struct, and succeeds *)
Definition cleanup_config (a : manswers) (code : Z) (log : list ev) := cleanup_allocator code (log ++ if a_strdup a then [Rel Prefix] else []).
(** main.c:319-320 *)
Definition free_array a code log := cleanup_config a code (log ++ [Rel Array]).
(** The pattern of lines 301-317: an error of a release is reported unless there is one already. *)
Definition noted (code st err : Z) : Z := if fails st then (if code =? 0 then err else code) else code.
(** main.c:313-317 *)
Definition release_mutex a code log := free_array a (noted code (a_rel_mutex a) 92) (log ++ [Rel Mutex]).
(** main.c:307-311 *)
Definition release_worker_cond a code log := release_mutex a (noted code (a_rel_wcond a) 93) (log ++ [Rel WorkerCond]).
(** main.c:301-305 *)
Definition release_main_cond a code log := release_worker_cond a (noted code (a_rel_mcond a) 94) (log ++ [Rel MainCond]).
(** main.c:291-299: the loop over the threads from [i], of which [rest] are to come and the first
    [made] were created; the others are null pointers. *)
Fixpoint release_threads (a : manswers) (made i : Z) (rest : nat) (code : Z) (log : list ev) : ends * list ev :=
  match rest with
  | O => release_main_cond a code (log ++ [Rel Threads])
  | S rest =>
      if made <=? i then (Undefined, log) else
      match a_join a i with
      | None => (Hangs, log)
      | Some st => release_threads a made (i + 1) rest (noted code st 95) (log ++ [Rel (Thread i)])
      end
  end.
(** main.c:255-289; a lock that the thread itself holds is never granted. *)
Definition cleanup_threads (a : manswers) (made code : Z) (held : bool) (log : list ev) : ends * list ev :=
  if held then (Hangs, log) else
  match a_relock a with
  | None => (Hangs, log)
  | Some st =>
      if fails st then (Exits 99, log) else
      if fails (a_rewake a) then (Exits (if code =? 0 then 96 else code), log ++ [Acq Lock]) else
      if fails (a_unlock a) then (Exits 97, log ++ [Acq Lock; Rel Lock]) else
      release_threads a made 0 (Z.to_nat JOBS) code (log ++ [Acq Lock; Rel Lock])
  end.
(** main.c:168-247: the loop over the frames, which a null name or a null stream makes undefined *)
Fixpoint frames (a : manswers) (i : Z) (rest : nat) (log : list ev) : ends * list ev :=
  match rest with
  | O => cleanup_config a 0 log
  | S rest =>
      if fails (a_wake a i) then cleanup_threads a JOBS 10 true log else
      match a_wait a i with
      | None => (Hangs, log)
      | Some st =>
          if fails st then cleanup_threads a JOBS 12 true log else
          if a_strdup a && a_open a i then frames a (i + 1) rest log else (Undefined, log)
      end
  end.
(** main.c:119-128, then 160-166 *)
Fixpoint create_threads (a : manswers) (i : Z) (rest : nat) (log : list ev) : ends * list ev :=
  match rest with
  | O => if fails (a_lock a) then cleanup_threads a JOBS 11 false log else frames a 0 (Z.to_nat FRAMES) (log ++ [Acq Lock])
  | S rest => if fails (a_thread a i) then cleanup_threads a i 9 false log else create_threads a (i + 1) rest (log ++ [Acq (Thread i)])
  end.
(** main.c:26-118, with config_create.c:42-73 and config_get_values.c:35-49, which succeeds *)
Definition mandelbrot (a : manswers) : ends * list ev :=
  if fails (a_alloc a) then (Returns 1, []) else
  let log := [Acq Allocator] in
  if fails (a_config a) then cleanup_allocator 2 log else
  let log := log ++ Acq Config :: (if a_strdup a then [Acq Prefix] else []) in
  if negb (a_array a) then cleanup_config a 4 log else
  let log := log ++ [Acq Array] in
  if fails (a_mutex a) then free_array a 5 log else
  let log := log ++ [Acq Mutex] in
  if fails (a_wcond a) then release_mutex a 6 log else
  let log := log ++ [Acq WorkerCond] in
  if fails (a_mcond a) then release_worker_cond a 7 log else
  let log := log ++ [Acq MainCond] in
  if negb (a_threads a) then release_main_cond a 8 log else
  create_threads a 0 (Z.to_nat JOBS) (log ++ [Acq Threads]).

(** * examples/echo_server/src/main.c *)
(** The answers of malloc_allocator_create, of fiber_scheduler_create_with_disciplines; of
    fiber_create, fiber_scheduler_add and the release of the manager's fiber; of the allocation of
    the listener's context, of fiber_create, fiber_unexpected_event_callback_add and
    fiber_scheduler_add, of the releases of the fiber and the context; of
    socket_utility_socketpair, of the allocation of the signal thread's context, of
    psock_create_from_descriptor, of thread_create, of releasing the socket and the context; of
    psock_create_from_descriptor, of psock_create_wrap_async, of releasing the socket; of the loop
    ([None]: it never ends) and whether the listener's fiber has ended by then; of joining the
    signal thread ([None]: it does not end) and of releasing the scheduler. *)
Record eanswers := EA {
  e_alloc : Z; e_sched : Z;
  e_mgr : Z; e_mgr_add : Z; e_mgr_rel : Z;
  e_ctx : Z; e_lis : Z; e_lis_cb : Z; e_lis_add : Z; e_lis_rel : Z; e_ctx_rel : Z;
  e_pair : Z; e_sig : Z; e_left : Z; e_thread : Z; e_left_rel : Z; e_sig_rel : Z;
  e_right : Z; e_wrap : Z; e_right_rel : Z;
  e_loop : option Z; e_listening : bool;
  e_join : option Z; e_sched_rel : Z }.
(** A status unless a release failed *)
Definition or_else (st rel : Z) : Z := if fails rel then rel else st.

(** management_fiber_add, main.c:499-540: the status and the log *)
Definition add_manager (a : eanswers) : Z * list ev :=
  if fails (e_mgr a) then (e_mgr a, []) else
  if fails (e_mgr_add a) then (or_else (e_mgr_add a) (e_mgr_rel a), [Acq Manager; Rel Manager]) else
  (STATUS_SUCCESS, [Acq Manager]).
(** listen_fiber_add, main.c:653-742 with listen_context_release, 753-773 *)
Definition add_listener (a : eanswers) : Z * list ev :=
  if fails (e_ctx a) then (e_ctx a, []) else
  let drop_ctx st log := (or_else st (e_ctx_rel a), log ++ [Rel ListenContext]) in
  let log := [Acq ListenContext] in
  if fails (e_lis a) then drop_ctx (e_lis a) log else
  let log := log ++ [Acq Listener] in
  let drop_fiber st log := drop_ctx (or_else st (e_lis_rel a)) (log ++ [Rel Listener]) in
  if fails (e_lis_cb a) then drop_fiber (e_lis_cb a) log else
  if fails (e_lis_add a) then drop_fiber (e_lis_add a) log else
  (STATUS_SUCCESS, log).
(** signal_thread_create, main.c:834-911 with signal_thread_context_release, 922-953.  A socket
    owns its descriptor; the context owns its socket. *)
Definition start_signal_thread (a : eanswers) : Z * list ev :=
  if fails (e_pair a) then (e_pair a, []) else
  let log := [Acq Left; Acq Right] in
  let close_fds st (left : bool) log := (st, log ++ (if left then [Rel Left] else []) ++ [Rel Right]) in
  if fails (e_sig a) then close_fds (e_sig a) true log else
  let log := log ++ [Acq SignalContext] in
  if fails (e_left a) then close_fds (or_else (e_left a) (e_sig_rel a)) true (log ++ [Rel SignalContext]) else
  let log := log ++ [Acq LeftSocket] in
  if fails (e_thread a) then
    let rel := if fails (e_left_rel a) then e_left_rel a else e_sig_rel a in
    close_fds (or_else (e_thread a) rel) false (log ++ [Rel Left; Rel LeftSocket; Rel SignalContext])
  else (STATUS_SUCCESS, log ++ [Acq SignalThread]).

(** main.c:269-277 *)
Definition echo_allocator (st : Z) (log : list ev) : ends * list ev := (Returns st, log ++ [Rel Allocator]).
(** main.c:262-267: the scheduler releases the fibers that were added to it and are still in its
    tree; a fiber does not release its context (fiber_resource_release.c).  The listener, while it
    runs, owns its context. *)
Definition echo_scheduler (a : eanswers) (st : Z) (fibers : list thing) (log : list ev) : ends * list ev :=
  echo_allocator (or_else st (e_sched_rel a)) (log ++ map Rel fibers ++ [Rel Scheduler]).
(** main.c:254-260; the signal thread has got a signal, or it waits for one. *)
Definition echo_join (a : eanswers) (st : Z) (fibers : list thing) (log : list ev) : ends * list ev :=
  match e_join a with
  | None => (Hangs, log)
  | Some rel => echo_scheduler a (or_else st rel) fibers (log ++ [Rel SignalThread])
  end.
(** main.c:113-252; disciplined_fiber_scheduler_main_fiber_get succeeds.  Behind the loop the listener's fiber has been released with its context, or
    neither has.  (terminate_process sends the signal that the signal thread waits for.) *)
Definition echo_server (a : eanswers) : ends * list ev :=
  if fails (e_alloc a) then (Returns (e_alloc a), []) else
  let log := [Acq Allocator] in
  if fails (e_sched a) then echo_allocator (e_sched a) log else
  let log := log ++ [Acq Scheduler] in
  let '(st, l) := add_manager a in
  let log := log ++ l in
  if fails st then echo_scheduler a st [] log else
  let '(st, l) := add_listener a in
  let log := log ++ l in
  if fails st then echo_scheduler a st [Manager] log else
  let '(st, l) := start_signal_thread a in
  let log := log ++ l in
  if fails st then echo_scheduler a st [Listener; Manager] log else
  if fails (e_right a) then echo_join a (e_right a) [Listener; Manager] log else
  let log := log ++ [Acq RightSocket] in
  if fails (e_wrap a) then echo_join a (or_else (e_wrap a) (e_right_rel a)) [Listener; Manager] (log ++ [Rel Right; Rel RightSocket]) else
  let log := log ++ [Acq SignalSocket] in
  match e_loop a with
  | None => (Hangs, log)
  | Some st => if e_listening a then echo_join a st [Listener; Manager] log else echo_join a st [Manager] (log ++ [Rel ListenContext; Rel Listener])
  end.
(** The status that the shell sees: the low eight bits of what main returns, exit(3). *)
Definition exit_status (r : ends) : option Z := match r with Returns c | Exits c => Some (c mod 256) | _ => None end.
