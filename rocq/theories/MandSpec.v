(** Specification for C64: the files that the mandelbrot example should write. *)
From Verif Require Import Base Status MemModel Heap ThreadModel MandModel.

(** 0, 1, ..., n-1 *)
Definition upto (n : Z) : list Z := map Z.of_nat (seq 0 (Z.to_nat n)).
(** A frame with all its lines in order, and the first [n] files. *)
Definition picture (i lines : Z) : list cell := map (Pixels i) (upto lines).
Definition animation (n lines : Z) : list (Z * list cell) := map (fun i => (i, picture i lines)) (upto n).

(** Nothing fails. *)
Definition works (r : res) : Prop := r_lock r = 0 /\ r_unlock r = 0 /\ r_wait r = 0 /\ r_signal r = 0 /\ r_malloc r = true.
(** Nothing fails and the main thread is woken only by a signal. *)
Definition calm (x : mev) : Prop := match x with Resume _ r => works r | Spurious t => t <> 1 | _ => True end.
(** No thread is woken without a signal. *)
Definition prompt (x : mev) : Prop := match x with Spurious _ => False | _ => calm x end.
(** The line that a worker has taken and not yet put into the frame. *)
Definition at_line (o : option wpc) : option Z := match o with Some (WDraw l _) | Some (WSave l _) => Some l | _ => None end.
Definition spurious (l : list mev) : nat := length (filter (fun x => match x with Spurious _ => true | _ => false end) l).
(** Worker [t] ended with a status: what it left behind, who has the lock. *)
Definition ended (c : conf) (s s' : mst) (t st : Z) (inf : info) (bufs holder : Z) : Prop :=
  s_wk s' t = Some (WEnd st) /\ (forall u, u <> t -> s_wk s' u = s_wk s u) /\ s_info s' = inf /\ s_bufs s' = bufs /\ s_files s' = s_files s /\ s_main s' = s_main s /\
  w_mu (s_tw s') (f_mu c) = Some (Some holder).
(** The status of a worker that failed with [st] after it released the lock. *)
Definition rel_status (r : res) (st : Z) : Z := if r_clean r =? 0 then st else if ok st then st else ERROR_THREAD_MUTEX_UNLOCK.
(** Thread [t] was woken and can go on when it gets the lock. *)
Definition woken (c : conf) (s : mst) (t : Z) : Prop := hget (w_pend (s_tw s)) t = Some (PdBack (f_mu c)).
(** The main thread has not returned. *)
Definition running (s : mst) : Prop := match s_main s with MEnd _ => False | _ => True end.
(** A state that the example reaches. *)
Definition reached (c : conf) (s : mst) : Prop := 0 <= f_lines c /\ exists ws s0 l, start c ws = Some s0 /\ Forall calm l /\ mruns c s0 l = MGo s.
