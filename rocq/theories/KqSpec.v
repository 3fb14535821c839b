(** What waiting for a descriptor should do with kqueue, said like IoSpec.v of a history of
    calls, their outcomes and what they made ready. *)
From Verif Require Import Base Status MemModel Heap TabModel SchedModel SchedSpec CondSpec IoModel IoSpec KqModel.

(** No socket, nobody waits (psock_fiber_scheduler_discipline_context_create.c:79-90). *)
Definition kq_none (ctl : list Z) : iost kqst := IO [] (KQ [] [] ctl).
(** What ends a wait: bit 0 to read, bit 2 to write; a failure (bit 3) and a hang up (bit
    4) both, bit 13 (the peer writes no more) to read.  The last two are the end of the
    file. *)
Definition kq_roused (wr : bool) (mask : Z) : bool :=
  ready_bit wr mask || Z.testbit mask 3 || Z.testbit mask 4 || negb wr && Z.testbit mask 13.
Definition at_eof (wr : bool) (mask : Z) : bool := Z.testbit mask 4 || negb wr && Z.testbit mask 13.
Definition resumed (x : waiter) (param : Z) : bool * entry := (false, (fst x, (IO_ID, if fst (snd x) then IR_WRITE else IR_READ, param))).
Definition kq_rousing (x : waiter * Z) : bool * entry := resumed (fst x) (if at_eof (fst (snd (fst x))) (snd x) then IO_FLAG_EOF else 0).
Definition kq_failing (x : waiter) : bool * entry := resumed x IO_FLAG_ERROR.
(** The fibers that are due, in the order in which the kernel says so. *)
Definition kq_due (r : list (Z * Z)) (socks : list (Z * Z)) (wait : list waiter) : list (waiter * Z) :=
  flat_map (fun y => flat_map (fun wr => map (fun x => (x, snd y))
    (filter (fun x => kq_roused wr (snd y) && Bool.eqb (fst (snd x)) wr && match fd_of socks (snd (snd x)) with Some fd => fst y =? fd | None => false end) wait)) [false; true]) r.
Definition without (fs : list Z) (l : list waiter) : list waiter := filter (fun x => negb (existsb (Z.eqb (fst x)) fs)) l.
Definition made_for (m : list (bool * entry)) : list Z := map (fun e => fst (snd e)) m.
(** Whether fibers were resumed with an error. *)
Definition refused (m : list (bool * entry)) : bool := existsb (fun e => snd (snd (snd e)) =? IO_FLAG_ERROR) m.
(** [mem]: memory may run out; [sys]: the kernel may refuse to register events.
    - A second fiber may not wait for the same until the first returns from its wait.
    - Nothing is said of a fiber that returns from a wait that something else ended.
    - A round resumes the first 1024 fibers that are due; the others go on waiting.
    - If the kernel refuses some events, a round resumes just their fibers, with an error.
    - Nothing is said of what comes after it refuses events to a fiber that starts to wait
      (fails, as 1023 others started to wait since the last round). *)
Definition kq_step (mem sys : bool) (ans : Z -> list kans) (d : Z) (p : iop) (o : out) (m : list (bool * entry)) (c : Z) (l : world) : judgement :=
  let quiet := made_is m [] in
  let within := existsb (by_fiber c) (wo_in l) in
  match p with
  | IBack wr s =>
      let mine x := by_fiber c x && on_sock wr s x in
      if negb (existsb mine (wo_in l)) || existsb (by_fiber c) (wo_wait l) then Open else
      judge (plain o STATUS_SUCCESS && quiet) (Good c (World (wo_socks l) (wo_wait l) (filter (fun x => negb (mine x)) (wo_in l))))
  | _ => if within then Open else
  match p with
  | IBack _ _ => Open
  | IOther q => if foreign io_fn d q then Good (if moves q && ok (fst o) then runner o else c) l else Open
  | ISocket fd s => if existsb (fun y => snd y =? fd) (wo_socks l) then Open else judge (plain o STATUS_SUCCESS && quiet) (Good c (World ((s, fd) :: wo_socks l) (wo_wait l) (wo_in l)))
  | IRelease s => if existsb (fun x => snd (snd x) =? s) (wo_in l) then Open else
      judge (plain o STATUS_SUCCESS && quiet) (Good c (World (filter (fun y => negb (fst y =? s)) (wo_socks l)) (wo_wait l) (wo_in l)))
  | IWait wr s =>
      if existsb (on_sock wr s) (wo_in l) then judge (plain o ERROR_PSOCK_DOUBLE_BLOCK_UNSUPPORTED && quiet) (Good c l) else
      let waits := World (wo_socks l) (wo_wait l ++ [(c, (wr, s))]) (wo_in l ++ [(c, (wr, s))]) in
      if ok (fst o) then judge quiet (Good (runner o) waits) else
      if fst o =? ERROR_FIBER_SCHEDULER_EXHAUSTED then judge (plain o ERROR_FIBER_SCHEDULER_EXHAUSTED && quiet) (Good c waits) else
      judge (plain o ERROR_PSOCK_KEVENT_FAILED && quiet && sys) Open
  | IRound q =>
      match ans q with
      | [] => Open
      | k :: _ =>
          if sys && mem && negb (ok (fst o)) then Open else
          if sys && refused m then
            let failed := filter (fun x => existsb (Z.eqb (fst x)) (made_for m)) (wo_wait l) in
            judge (plain o STATUS_SUCCESS && made_is m (map kq_failing failed)) (Good c (World (wo_socks l) (without (made_for m) (wo_wait l)) (wo_in l))) else
          match k with
          | KErr _ => judge (plain o ERROR_PSOCK_KEVENT_FAILED && quiet) (if sys then Open else Good c l)
          | KReady r =>
              if negb (distinct (map fst r)) then Open else
              let ms := map kq_rousing (firstn (Z.to_nat 1024) (kq_due r (wo_socks l) (wo_wait l))) in
              if mem && negb (made_is m ms) then Open else
              judge (plain o STATUS_SUCCESS && made_is m ms) (Good c (World (wo_socks l) (without (made_for m) (wo_wait l)) (wo_in l)))
          end
      end
  end end.
Fixpoint kq_run (mem sys : bool) (ans : Z -> list kans) (d : Z) (h : list iop) (os : list out) (ms : list (list (bool * entry))) (c : Z) (l : world) : judgement :=
  match h, os, ms with
  | [], _, _ => Good c l
  | p :: h, o :: os, m :: ms => match kq_step mem sys ans d p o m c l with Good c l => kq_run mem sys ans d h os ms c l | v => v end
  | _, _, _ => Bad
  end.
