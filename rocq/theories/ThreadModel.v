(** Model of threads, mutexes and condition variables
    (src/platform/pthread/thread/*.c) running concurrently.

    An execution is a list of events: a call of the library by a thread, a step of the
    library's own code in a new thread, or the end of a blocking call of pthreads.  Which
    event comes next is not restricted, so all programs and all interleavings are covered.
    The results of calls of pthreads and of the allocator are part of the events: 0 is
    success.  Code between two blocking calls is one step; it only touches memory that no
    other thread may use at that time, or ends with the one access that others see. *)
From Verif Require Import Base Status MemModel Heap.

Definition upd {A} (f : Z -> option A) (k : Z) (v : option A) : Z -> option A := fun x => if x =? k then v else f x.

(** thread_internal.h:24-36 without the allocator; [t_pid] is the pthread_t *)
Record tstruct := TH { t_pid : Z; t_ctx : Z; t_fn : Z; t_running : bool; t_exit : Z }.
(** Where a thread is in [thread_start] (thread_create.c:166-180): before it is called, in
    the user's function, after it returned, after the store of the exit code, after the
    store of [running], ended.  [p] is the address of its struct. *)
Inductive tpc := PcUser | PcStart (p : Z) | PcFn (p : Z) | PcRet (p v : Z) | PcStored (p : Z) | PcStopped | PcDone.
(** A blocking call under way: a lock, a wait, a wait that was woken and locks again, and
    a join. *)
Inductive pend := PdLock (m : Z) | PdWait (c m : Z) | PdBack (m : Z) | PdJoin (p pid : Z).
(** Structs of threads, the threads, their blocking calls; mutexes by their address (the
    lock is a part of the mutex, with one address): the thread that holds it or 0;
    conditions.  [None] for a mutex or condition that was cleared but not reclaimed. *)
Record tw := TW { w_th : Z -> option tstruct; w_pc : Z -> option tpc; w_pend : heap pend; w_mu : Z -> option (option Z); w_co : Z -> option bool }.
(** The first thread is 1. *)
Definition tw0 : tw := TW (fun _ => None) (upd (fun _ => None) 1 (Some PcUser)) [] (fun _ => None) (fun _ => None).
Definition set_th x w := TW x (w_pc w) (w_pend w) (w_mu w) (w_co w).
Definition set_pc x w := TW (w_th w) x (w_pend w) (w_mu w) (w_co w).
Definition set_pend x w := TW (w_th w) (w_pc w) x (w_mu w) (w_co w).
Definition set_mu x w := TW (w_th w) (w_pc w) (w_pend w) x (w_co w).
Definition set_co x w := TW (w_th w) (w_pc w) (w_pend w) (w_mu w) x.
(** Thread [t] runs the user's code and so may call the library. *)
Definition in_user (t : Z) (w : tw) : bool :=
  match w_pc w t, hget (w_pend w) t with Some PcUser, None | Some (PcFn _), None => true | _, _ => false end.
Definition unused (p : Z) (w : tw) : bool :=
  negb (p =? 0) && match w_th w p, w_mu w p, w_co w p with None, None, None => true | _, _, _ => false end.

Inductive tev :=
| ThCreate (t : Z) (ai ss al cr rc : Z) (p pid fn ctx : Z) (* results of attr_init, setstacksize, allocate, create, reclaim *)
| ThRelease (t p : Z)
| ThJoined (t jn rc : Z)                  (* the join of t's release ends *)
| ThEnter (t : Z) | ThReturn (t v : Z) | ThStore (t : Z) | ThStop (t : Z) | ThExit (t : Z)
| MuCreate (t : Z) (al it rc : Z) (p : Z)
| MuRelease (t : Z) (ds rc : Z) (p : Z)
| MuAcquire (t m : Z)
| MuLocked (t e : Z)                      (* t's pthread_mutex_lock ends *)
| LkRelease (t l e : Z)
| CoCreate (t : Z) (al it rc : Z) (p : Z)
| CoRelease (t : Z) (ds rc : Z) (p : Z)
| CoWait (t l c e : Z)
| CoWake (t : Z)                          (* a wake up without a signal *)
| CoBack (t : Z)                          (* t's pthread_cond_wait ends *)
| CoSignal (t l c e : Z) (woken : list Z)
| CoSignalAll (t l c e : Z).
(** A call goes on; a call returns a status, and the pointer that the caller's variable is
    set to, if any; the thread's function is called. *)
Inductive tout := Quiet | Ret (e : Z) (q : option Z) | Calls (fn ctx : Z).
(** Undefined behaviour; an event that cannot happen now; the next state. *)
Inductive tres := Undef | Stuck | Go (w : tw) (o : tout).

(** thread_create.c:72-159: status, struct, blocks kept *)
Definition thread_create (ai ss al cr rc pid fn ctx : Z) : ctor tstruct :=
  if negb (ai =? 0) then Ctor ERROR_THREAD_ATTRIBUTE_INIT None 0
  else if negb (ss =? 0) then Ctor ERROR_THREAD_ATTRIBUTE_SETSTACKSIZE None 0
  else if negb (ok al) then Ctor ERROR_GENERAL_OUT_OF_MEMORY None 0
  else if negb (cr =? 0) then Ctor (if negb (ok rc) then rc else ERROR_THREAD_CREATE) None (1 - freed rc)
  else Ctor STATUS_SUCCESS (Some (TH pid ctx fn true 0)) 1.
(** thread_mutex_create.c:68-149 *)
Definition mutex_create (al it rc : Z) : ctor Z :=
  if negb (ok al) then Ctor ERROR_GENERAL_OUT_OF_MEMORY None 0
  else if negb (it =? 0) then Ctor (if negb (ok rc) then rc else ERROR_THREAD_MUTEX_INIT) None (1 - freed rc)
  else Ctor STATUS_SUCCESS (Some 0) 1.
(** thread_cond_create.c:61-123 *)
Definition cond_create (al it rc : Z) : ctor bool :=
  if negb (ok al) then Ctor ERROR_GENERAL_OUT_OF_MEMORY None 0
  else if negb (it =? 0) then Ctor (if negb (ok rc) then rc else ERROR_THREAD_COND_INIT) None (1 - freed rc)
  else Ctor STATUS_SUCCESS (Some true) 1.
(** thread_create.c:200-225, after the join: status *)
Definition thread_status (jn exit rc : Z) : Z :=
  let thread_retval := if negb (jn =? 0) then ERROR_THREAD_JOIN else exit in if ok rc then thread_retval else rc.
(** thread_mutex_create.c:168-193, thread_cond_create.c:142-167 *)
Definition destroy_status (ds err rc : Z) : Z := let r := if negb (ds =? 0) then err else STATUS_SUCCESS in if ok rc then r else rc.

(** The address is free again if the reclaim succeeds, else the struct is zero. *)
Definition no_thread : tstruct := TH 0 0 0 false 0.
(** The struct at [p] if it still is that of thread [t]. *)
Definition own (p t : Z) (w : tw) : option tstruct :=
  match w_th w p with Some s => if t_pid s =? t then Some s else None | None => None end.
Definition joins (pid : Z) (x : Z * pend) : bool := match snd x with PdJoin _ q => q =? pid | _ => false end.
Definition uses (m : Z) (x : Z * pend) : bool := match snd x with PdLock q | PdWait _ q | PdBack q => q =? m | PdJoin _ _ => false end.
Definition waits (c : Z) (x : Z * pend) : bool := match snd x with PdWait q _ => q =? c | _ => false end.
(** A thread that waits on [c] begins to lock again. *)
Definition awake (x : Z * pend) : Z * pend := match x with (t, PdWait _ m) => (t, PdBack m) | _ => x end.
Definition call (t : Z) (w : tw) (r : tres) : tres := if in_user t w then r else Stuck.

Definition tstep (w : tw) (x : tev) : tres :=
  match x with
  | ThCreate t ai ss al cr rc p pid fn ctx => call t w
      (let c := thread_create ai ss al cr rc pid fn ctx in
       match ct_obj c with
       | Some s => if negb (unused p w) || (pid =? 0) || negb (match w_pc w pid with None => true | _ => false end) then Stuck
                   else Go (set_pc (upd (w_pc w) pid (Some (PcStart p))) (set_th (upd (w_th w) p (Some s)) w)) (Ret (ct_status c) (Some p))
       | None => Go w (Ret (ct_status c) None)
       end)
  | ThRelease t p => call t w       (* thread_create.c:190-200; two joins at once are undefined *)
      match w_th w p with
      | Some s => if (t_pid s =? 0) || existsb (joins (t_pid s)) (w_pend w) then Undef else Go (set_pend ((t, PdJoin p (t_pid s)) :: w_pend w) w) Quiet
      | None => Undef
      end
  | ThJoined t jn rc =>             (* thread_create.c:200-225 *)
      match hget (w_pend w) t with
      | Some (PdJoin p pid) =>
          if (jn =? 0) && negb (match w_pc w pid with Some PcDone => true | _ => false end) then Stuck else
          match w_th w p with
          | Some s => Go (set_pend (hdel (w_pend w) t) (set_th (upd (w_th w) p (if ok rc then None else Some no_thread)) w)) (Ret (thread_status jn (t_exit s) rc) None)
          | None => Undef
          end
      | _ => Stuck
      end
  | ThEnter t =>                    (* thread_create.c:166-173, the call *)
      match w_pc w t with
      | Some (PcStart p) => match own p t w with Some s => Go (set_pc (upd (w_pc w) t (Some (PcFn p))) w) (Calls (t_fn s) (t_ctx s)) | None => Undef end
      | _ => Stuck
      end
  | ThReturn t v => call t w
      match w_pc w t with Some (PcFn p) => Go (set_pc (upd (w_pc w) t (Some (PcRet p v))) w) Quiet | _ => Stuck end
  | ThStore t =>                    (* thread_create.c:173, the store *)
      match w_pc w t with
      | Some (PcRet p v) => match own p t w with
          | Some s => Go (set_pc (upd (w_pc w) t (Some (PcStored p))) (set_th (upd (w_th w) p (Some (TH (t_pid s) (t_ctx s) (t_fn s) (t_running s) v))) w)) Quiet
          | None => Undef
          end
      | _ => Stuck
      end
  | ThStop t =>                     (* thread_create.c:176 *)
      match w_pc w t with
      | Some (PcStored p) => match own p t w with
          | Some s => Go (set_pc (upd (w_pc w) t (Some PcStopped)) (set_th (upd (w_th w) p (Some (TH (t_pid s) (t_ctx s) (t_fn s) false (t_exit s)))) w)) Quiet
          | None => Undef
          end
      | _ => Stuck
      end
  | ThExit t => match w_pc w t with Some PcStopped => Go (set_pc (upd (w_pc w) t (Some PcDone)) w) Quiet | _ => Stuck end
  | MuCreate t al it rc p => call t w
      (let c := mutex_create al it rc in
       match ct_obj c with
       | Some s => if negb (unused p w) then Stuck else Go (set_mu (upd (w_mu w) p (Some (Some s))) w) (Ret (ct_status c) (Some p))
       | None => Go w (Ret (ct_status c) None)
       end)
  | MuRelease t ds rc p => call t w (* thread_mutex_create.c:158-194; destroying a mutex in use is undefined *)
      match w_mu w p with
      | Some (Some h) => if negb (h =? 0) || existsb (uses p) (w_pend w) then Undef
          else Go (set_mu (upd (w_mu w) p (if ok rc then None else Some None)) w) (Ret (destroy_status ds ERROR_THREAD_MUTEX_DESTROY rc) None)
      | _ => Undef
      end
  | MuAcquire t m => call t w       (* thread_mutex_lock_acquire.c:51-63 *)
      match w_mu w m with Some (Some _) => Go (set_pend ((t, PdLock m) :: w_pend w) w) Quiet | _ => Undef end
  | MuLocked t e =>                 (* thread_mutex_lock_acquire.c:63-73 *)
      match hget (w_pend w) t with
      | Some (PdLock m) => match w_mu w m with
          | Some (Some h) =>
              if negb (e =? 0) then Go (set_pend (hdel (w_pend w) t) w) (Ret ERROR_THREAD_MUTEX_LOCK None)
              else if negb (h =? 0) then Stuck
              else Go (set_pend (hdel (w_pend w) t) (set_mu (upd (w_mu w) m (Some (Some t))) w)) (Ret STATUS_SUCCESS (Some m))
          | _ => Undef
          end
      | _ => Stuck
      end
  | LkRelease t l e => call t w     (* thread_mutex_create.c:203-219; unlocking what another thread holds is undefined *)
      match w_mu w l with
      | Some (Some h) => if negb (e =? 0) then Go w (Ret ERROR_THREAD_MUTEX_UNLOCK None)
          else if negb (h =? t) then Undef else Go (set_mu (upd (w_mu w) l (Some (Some 0))) w) (Ret STATUS_SUCCESS None)
      | _ => Undef
      end
  | CoCreate t al it rc p => call t w
      (let c := cond_create al it rc in
       match ct_obj c with
       | Some s => if negb (unused p w) then Stuck else Go (set_co (upd (w_co w) p (Some s)) w) (Ret (ct_status c) (Some p))
       | None => Go w (Ret (ct_status c) None)
       end)
  | CoRelease t ds rc p => call t w (* thread_cond_create.c:132-168 *)
      match w_co w p with
      | Some true => if existsb (waits p) (w_pend w) then Undef
          else Go (set_co (upd (w_co w) p (if ok rc then None else Some false)) w) (Ret (destroy_status ds ERROR_THREAD_COND_DESTROY rc) None)
      | _ => Undef
      end
  | CoWait t l c e => call t w      (* thread_cond_wait.c:50-62; with a mutex that the caller does not hold, or a second mutex, it is undefined *)
      match w_mu w l, w_co w c with
      | Some (Some h), Some true =>
          if negb (h =? t) || existsb (fun x => waits c x && negb (uses l x)) (w_pend w) then Undef
          else if negb (e =? 0) then Go w (Ret ERROR_THREAD_COND_WAIT (Some l))
          else Go (set_pend ((t, PdWait c l) :: w_pend w) (set_mu (upd (w_mu w) l (Some (Some 0))) w)) Quiet
      | _, _ => Undef
      end
  | CoWake t =>
      match hget (w_pend w) t with Some (PdWait _ m) => Go (set_pend (hset (w_pend w) t (PdBack m)) w) Quiet | _ => Stuck end
  | CoBack t =>                     (* thread_cond_wait.c:62-69; *lock is not changed *)
      match hget (w_pend w) t with
      | Some (PdBack m) => match w_mu w m with
          | Some (Some h) => if negb (h =? 0) then Stuck
              else Go (set_pend (hdel (w_pend w) t) (set_mu (upd (w_mu w) m (Some (Some t))) w)) (Ret STATUS_SUCCESS (Some m))
          | _ => Undef
          end
      | _ => Stuck
      end
  | CoSignal t l c e woken => call t w (* thread_cond_signal_one.c:46-68; it wakes at least one thread, if one waits *)
      match w_co w c with
      | Some true => if negb (e =? 0) then Go w (Ret e None)
          else if forallb (fun u => match hget (w_pend w) u with Some x => waits c (u, x) | None => false end) woken && (negb (existsb (waits c) (w_pend w)) || negb (Nat.eqb (length woken) 0))
          then Go (set_pend (map (fun x => if existsb (Z.eqb (fst x)) woken then awake x else x) (w_pend w)) w) (Ret STATUS_SUCCESS None) else Stuck
      | _ => Undef
      end
  | CoSignalAll t l c e => call t w (* thread_cond_signal_all.c:46-68 *)
      match w_co w c with
      | Some true => if negb (e =? 0) then Go w (Ret e None)
          else Go (set_pend (map (fun x => if waits c x then awake x else x) (w_pend w)) w) (Ret STATUS_SUCCESS None)
      | _ => Undef
      end
  end.
Fixpoint truns (w : tw) (l : list tev) : option (list tout * tw) :=
  match l with
  | [] => Some ([], w)
  | x :: l => match tstep w x with Go w o => do '(os, w) <- truns w l; Some (o :: os, w) | _ => None end
  end.
