(** Model of the threads of examples/mandelbrot/src/main.c and draw_line.c over the threads,
    mutexes and conditions of ThreadModel.

    A step is one thread running from the end of one blocking call to the next; other threads
    can run before and after it in any order.  The configuration (the size of a frame, the
    number of frames) does not change.  A line's pixels are represented by the numbers of the
    frame whose scale and position they were computed with and of the line; the computation
    itself is not modelled. *)
From Verif Require Import Base Status MemModel Heap ThreadModel.

(** The mutex, the workers' and the main condition (their addresses), info.lines and the number
    of frames.  info.lines is set before the main thread first locks the mutex, main.c:145; no
    worker reads it before.  A line has at least one pixel. *)
Record conf := Conf { f_mu : Z; f_wc : Z; f_mc : Z; f_lines : Z; f_frames : Z }.
(** An element of info.array: the array is not cleared when it is allocated, main.c:74. *)
Inductive cell := Junk | Null | Pixels (frame line : Z).
(** thread.h:14-32; [i_frame] stands for scalex, scaley, startx and starty. *)
Record info := Info { i_curr : Z; i_written : Z; i_quiesce : bool; i_done : bool; i_frame : Z; i_array : list cell }.
(** Where a worker is: not started; locking for the first time; in thread_cond_wait; drawing a
    line, without the lock, in memory that malloc gave or did not; locking again with the line it
    drew; ended with a status. *)
Inductive wpc := WBegin | WLock | WWait | WDraw (line : Z) (mem : bool) | WSave (line frame : Z) | WEnd (st : Z).
(** Where the main thread is: before it locks; locking; waiting for a frame; locking at
    cleanup_threads with an error code, after which it is not modelled; returned. *)
Inductive mpc := MStart | MLock | MFrame (i : Z) | MClean (code : Z) | MEnd (code : Z).
(** [s_files] are the files written: the number of each and its lines.  [s_bufs] counts the
    lines that are allocated. *)
Record mst := MS { s_tw : tw; s_info : info; s_main : mpc; s_wk : Z -> option wpc; s_files : list (Z * list cell); s_bufs : Z }.
(** The results of pthreads and of malloc during a step: of the lock that the thread waited
    for, of unlocking, of waiting, of signalling, of unlocking at cleanup_lock; the threads that
    thread_cond_signal_one wakes. *)
Record res := Res { r_lock : Z; r_unlock : Z; r_wait : Z; r_signal : Z; r_clean : Z; r_woken : list Z; r_malloc : bool }.
Inductive mres := MUndef | MStuck | MGo (s : mst).

Definition set_tw x s := MS x (s_info s) (s_main s) (s_wk s) (s_files s) (s_bufs s).
Definition set_info x s := MS (s_tw s) x (s_main s) (s_wk s) (s_files s) (s_bufs s).
Definition set_main x s := MS (s_tw s) (s_info s) x (s_wk s) (s_files s) (s_bufs s).
Definition set_wk t x s := MS (s_tw s) (s_info s) (s_main s) (upd (s_wk s) t (Some x)) (s_files s) (s_bufs s).
Definition set_files x s := MS (s_tw s) (s_info s) (s_main s) (s_wk s) x (s_bufs s).
Definition set_bufs x s := MS (s_tw s) (s_info s) (s_main s) (s_wk s) (s_files s) x.
Definition i_stop i := Info (i_curr i) (i_written i) true (i_done i) (i_frame i) (i_array i).
Definition i_finish i := Info (i_curr i) (i_written i) (i_quiesce i) true (i_frame i) (i_array i).
Definition quiesce s := set_info (i_stop (s_info s)) s.
Definition finish s := set_info (i_finish (s_info s)) s.
(** A call of the library *)
Definition lib (x : tev) (s : mst) (k : tout -> mst -> mres) : mres :=
  match tstep (s_tw s) x with Undef => MUndef | Stuck => MStuck | Go w o => k o (set_tw w s) end.
Definition status_of (o : tout) : Z := match o with Ret e _ => e | _ => STATUS_SUCCESS end.

(** The end of draw_line, draw_line.c:149-150: the return to the library *)
Definition worker_done (t st : Z) (s : mst) : mres := lib (ThReturn t st) s (fun _ s => MGo (set_wk t (WEnd st) s)).
(** draw_line.c:143-147 *)
Definition worker_cleanup (c : conf) (r : res) (t st : Z) (s : mst) : mres :=
  lib (LkRelease t (f_mu c) (r_clean r)) s (fun o s =>
    let rel := status_of o in worker_done t (if negb (ok rel) then (if negb (ok st) then rel else st) else st) s).
(** draw_line.c:43-49, until the wait blocks *)
Definition worker_wait (c : conf) (r : res) (t : Z) (s : mst) : mres :=
  lib (CoWait t (f_mu c) (f_wc c) (r_wait r)) s (fun o s =>
    match o with Ret e _ => worker_cleanup c r t e (quiesce s) | _ => MGo (set_wk t WWait s) end).
(** draw_line.c:57-78 and 135-140: the loop; it is left or the lock is released in its first
    turn. *)
Definition worker_loop (c : conf) (r : res) (t : Z) (s : mst) : mres :=
  let i := s_info s in
  if i_done i then worker_wait c r t s else
  let line := i_curr i in
  if line <? f_lines c then
    let s := set_info (Info (line + 1) (i_written i) (i_quiesce i) (i_done i) (i_frame i) (i_array i)) s in
    let held := if r_malloc r then 1 else 0 in
    let s := set_bufs (s_bufs s + held) s in
    lib (LkRelease t (f_mu c) (r_unlock r)) s (fun o s =>
      if negb (ok (status_of o)) then worker_done t (status_of o) (set_bufs (s_bufs s - held) (quiesce s))
      else MGo (set_wk t (WDraw line (r_malloc r)) s))
  else worker_wait c r t (finish s).
(** An element of the array is set; [None] outside of it. *)
Fixpoint store {A} (l : list A) (n : nat) (v : A) : option (list A) :=
  match l, n with
  | _ :: t, O => Some (v :: t)
  | x :: t, S n => do t <- store t n v; Some (x :: t)
  | [], _ => None
  end.
(** draw_line.c:118-134, then the loop *)
Definition worker_save (c : conf) (r : res) (t line frame : Z) (s : mst) : mres :=
  let i := s_info s in
  if line <? 0 then MUndef else
  match store (i_array i) (Z.to_nat line) (Pixels frame line) with
  | None => MUndef
  | Some a =>
      let s := set_info (Info (i_curr i) (i_written i + 1) (i_quiesce i) (i_done i) (i_frame i) a) s in
      if i_written i + 1 =? f_lines c then
        lib (CoSignal t (f_mu c) (f_mc c) (r_signal r) (r_woken r)) (finish s) (fun o s =>
          if negb (ok (status_of o)) then worker_cleanup c r t (status_of o) (quiesce s) else worker_loop c r t s)
      else worker_loop c r t s
  end.

(** main.c:255-262: cleanup_threads, until it locks *)
Definition main_clean (c : conf) (code : Z) (s : mst) : mres := lib (MuAcquire 1 (f_mu c)) (quiesce s) (fun _ s => MGo (set_main (MClean code) s)).
(** main.c:169-191 and 245-247: the start of a frame's turn of the loop and the wait, or the end *)
Definition main_frame (c : conf) (r : res) (i : Z) (s : mst) : mres :=
  if i <? f_frames c then
    let s := set_info (Info 0 0 (i_quiesce (s_info s)) false (i_frame (s_info s)) (i_array (s_info s))) s in
    lib (CoSignalAll 1 (f_mu c) (f_wc c) (r_signal r)) s (fun o s =>
      if negb (ok (status_of o)) then main_clean c 10 s else
      lib (CoWait 1 (f_mu c) (f_mc c) (r_wait r)) s (fun o s =>
        match o with Ret _ _ => main_clean c 12 s | _ => MGo (set_main (MFrame i) s) end))
  else MGo (set_main (MEnd 0) s).
(** main.c:195-242: the lines of the file; then the array is freed and cleared.  An element that
    was never set is undefined. *)
Definition is_junk (x : cell) : bool := match x with Junk => true | _ => false end.
Definition is_line (x : cell) : bool := match x with Pixels _ _ => true | _ => false end.
Definition main_write (i : Z) (s : mst) : option mst :=
  let a := i_array (s_info s) in
  if existsb is_junk a then None else
  let s := set_bufs (s_bufs s - Z.of_nat (length (filter is_line a))) (set_files (s_files s ++ [(i, filter is_line a)]) s) in
  Some (set_info (Info (i_curr (s_info s)) (i_written (s_info s)) (i_quiesce (s_info s)) (i_done (s_info s)) (i + 1) (map (fun _ => Null) a)) s).

(** What happens: a thread starts its first or its next lock; a worker has drawn its line; a
    thread's blocking call ends; a thread that waits is woken without a signal. *)
Inductive mev := Begin (t : Z) | Draw (t : Z) | Resume (t : Z) (r : res) | Spurious (t : Z).
Definition mstep (c : conf) (s : mst) (x : mev) : mres :=
  match x with
  | Begin t =>
      if t =? 1 then match s_main s with MStart => lib (MuAcquire 1 (f_mu c)) s (fun _ s => MGo (set_main MLock s)) | _ => MStuck end else
      match s_wk s t with
      | Some WBegin => lib (ThEnter t) s (fun _ s => lib (MuAcquire t (f_mu c)) s (fun _ s => MGo (set_wk t WLock s))) (* draw_line.c:32-33 *)
      | _ => MStuck
      end
  | Draw t =>                       (* draw_line.c:80-109: writes to the memory, then locks *)
      match s_wk s t with
      | Some (WDraw line mem) =>
          if negb mem then MUndef else
          lib (MuAcquire t (f_mu c)) s (fun _ s => MGo (set_wk t (WSave line (i_frame (s_info s))) s))
      | _ => MStuck
      end
  | Resume t r =>
      if t =? 1 then
        match s_main s with
        | MLock =>                  (* main.c:160-166 *)
            lib (MuLocked 1 (r_lock r)) s (fun o s => if negb (ok (status_of o)) then main_clean c 11 s else main_frame c r 0 s)
        | MFrame i =>               (* main.c:186-243 *)
            lib (CoBack 1) s (fun _ s => match main_write i s with Some s => main_frame c r (i + 1) s | None => MUndef end)
        | _ => MStuck
        end
      else
        match s_wk s t with
        | Some WLock =>             (* draw_line.c:33-39 *)
            lib (MuLocked t (r_lock r)) s (fun o s => if negb (ok (status_of o)) then worker_done t (status_of o) (quiesce s) else worker_wait c r t s)
        | Some WWait =>             (* draw_line.c:44-58 *)
            lib (CoBack t) s (fun o s => if i_quiesce (s_info s) then worker_cleanup c r t STATUS_SUCCESS s else worker_loop c r t s)
        | Some (WSave line frame) => (* draw_line.c:109-116 *)
            lib (MuLocked t (r_lock r)) s (fun o s =>
              if negb (ok (status_of o)) then worker_done t (status_of o) (set_bufs (s_bufs s - 1) (quiesce s)) else worker_save c r t line frame s)
        | _ => MStuck
        end
  | Spurious t => lib (CoWake t) s (fun _ s => MGo s)
  end.
Fixpoint mruns (c : conf) (s : mst) (l : list mev) : mres :=
  match l with
  | [] => MGo s
  | x :: l => match mstep c s x with MGo s => mruns c s l | bad => bad end
  end.

(** main.c:84-128 if nothing fails: the mutex, the conditions and one thread for each element of
    [ws], the address of its struct and its number; the function and the context are [1] and
    [2]. *)
Definition setup (c : conf) (ws : list (Z * Z)) : list tev :=
  [MuCreate 1 0 0 0 (f_mu c); CoCreate 1 0 0 0 (f_wc c); CoCreate 1 0 0 0 (f_mc c)] ++ map (fun x => ThCreate 1 0 0 0 0 0 (fst x) (snd x) 1 2) ws.
(** main.c:70-145: info before the first frame; the array has [f_lines] elements *)
Definition start (c : conf) (ws : list (Z * Z)) : option mst :=
  do '(_, w) <- truns tw0 (setup c ws);
  Some (MS w (Info 0 0 false true 0 (repeat Junk (Z.to_nat (f_lines c)))) MStart
    (fun t => if existsb (fun x => snd x =? t) ws then Some WBegin else None) [] 0).
