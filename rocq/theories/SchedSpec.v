(** What a scheduler should do, said without memory, restore fields or vectors: a list of
    ready fibers, each with the values it will be resumed with.  [None] means that the
    specification does not cover the call. *)
From Verif Require Import Base Status MemModel Heap TabModel SchedModel.

(** ** Histories *)
(** What the running fiber may do. *)
Inductive sop :=
| SNew (f : Z)                      (* fiber_create *)
| SAdd (f : Z) | SRun | SStop | SMain | SWake      (* yields to the scheduler itself *)
| SReceive | SRequest (term : bool) (f : Z) | SRequestAll (term : bool)
| SRemove (f : Z) | SFree (f : Z) | SIdle (f : Z)
| SDisc (junk : list Z) (d id ctx : Z) (cbs : list Z) | SDiscAdd (d : Z) | SDiscFind (id : Z)
| SYield (d ev p : Z)
| SAct (fn cx p : Z).                (* code of a discipline, outside its handlers *)
(** The outcome of a call: its status, and the fiber that then runs with the resume values
    it finds, if the call switched. *)
Definition out : Type := Z * (Z * Z * Z * Z).
Definition nowhere : Z * Z * Z * Z := (0, 0, 0, 0).
Definition running {T U} (w : sw T U) : option (Z * Z * Z * Z) :=
  do b <- hget (w_fibs w) (w_cur w); Some (w_cur w, f_disc b, f_event b, f_param b).
Definition switched {T U} (x : option (Z * sw T U)) : option (out * sw T U) :=
  do '(e, w) <- x; if negb (ok e) then Some ((e, nowhere), w) else do r <- running w; Some ((e, r), w).
Definition stayed {T U} (x : option (Z * sw T U)) : option (out * sw T U) :=
  do '(e, w) <- x; Some ((e, nowhere), w).
Definition sexec {T U} (ts : tops T) (ac : acts U) (p : sop) (w : sw T U) : option (out * sw T U) :=
  let cl := call ts (ext_of ac) in
  match p with
  | SNew f => stayed (Some (STATUS_SUCCESS, new_fiber f w))
  | SAdd f => switched (scheduler_add cl f w)
  | SRun => switched (scheduler_run cl w)
  | SStop => switched (fiber_stop cl w)
  | SMain => switched (yield cl YIELD_MAIN 0 w)
  | SWake => switched (yield cl YIELD_RESOURCE_RELEASE 0 w)
  | SReceive => switched (receive_event cl w)
  | SRequest t f => switched (if t then send_terminate cl f w else send_quiesce cl f w)
  | SRequestAll t => switched (if t then send_terminate_all cl w else send_quiesce_all cl w)
  | SRemove f => stayed (remove_fiber ts f w)
  | SFree f => stayed (do w <- release_fiber f w; Some (STATUS_SUCCESS, w))
  | SIdle f => stayed (Some (set_idle_fiber f w))
  | SDisc junk d id ctx cbs =>
      let g := w_reg w in
      stayed (Some (STATUS_SUCCESS, set_reg (Reg (g_discs g) (hadd (g_heap g) d (new_disc junk id ctx cbs)) (g_cbs g) (g_ctxs g)) w))
  | SDiscAdd d => stayed (discipline_add d w)
  | SDiscFind id => let '(e, d) := discipline_find id w in Some ((e, (d, 0, 0, 0)), w)
  | SYield d ev p => switched (discipline_yield cl d ev p w)
  | SAct fn cx p => stayed (hrun (ac fn cx (w_cur w) p) w)
  end.
Fixpoint sexecs {T U} (ts : tops T) (ac : acts U) (h : list sop) (w : sw T U) : option (list out * sw T U) :=
  match h with
  | [] => Some ([], w)
  | p :: t => do '(o, w) <- sexec ts ac p w; do '(l, w) <- sexecs ts ac t w; Some (o :: l, w)
  end.

(** ** The specification *)
Record dd := DD { dd_owned : bool; dd_id : Z; dd_ctx : Z; dd_cbs : list Z }.
Record ast (U : Type) := AS
  { a_ready : list (bool * entry);      (* first to run first; with whether it was to run next *)
    a_life : heap Z;                    (* the fibers and their states *)
    a_known : list Z;                   (* fibers of the scheduler, sorted *)
    a_idle : Z; a_main : Z; a_mgmt : Z; a_cur : Z;
    a_discs : heap dd; a_ids : list (Z * Z);
    a_total : Z;                        (* callbacks registered *)
    a_al : list Z; a_user : U;
    a_made : list (bool * entry); a_ran : list (bool * entry) }.   (* all that became ready, all that was resumed *)
Arguments AS {U}. Arguments a_ready {U}. Arguments a_life {U}. Arguments a_known {U}. Arguments a_idle {U}. Arguments a_main {U}. Arguments a_mgmt {U}.
Arguments a_cur {U}. Arguments a_discs {U}. Arguments a_ids {U}. Arguments a_total {U}. Arguments a_al {U}. Arguments a_user {U}. Arguments a_made {U}. Arguments a_ran {U}.

Definition al_set {U} x (a : ast U) : ast U := AS (a_ready a) (a_life a) (a_known a) (a_idle a) (a_main a) (a_mgmt a) (a_cur a) (a_discs a) (a_ids a) (a_total a) x (a_user a) (a_made a) (a_ran a).
Definition life_set {U} x (a : ast U) : ast U := AS (a_ready a) x (a_known a) (a_idle a) (a_main a) (a_mgmt a) (a_cur a) (a_discs a) (a_ids a) (a_total a) (a_al a) (a_user a) (a_made a) (a_ran a).
Definition known_set {U} x (a : ast U) : ast U := AS (a_ready a) (a_life a) x (a_idle a) (a_main a) (a_mgmt a) (a_cur a) (a_discs a) (a_ids a) (a_total a) (a_al a) (a_user a) (a_made a) (a_ran a).
Definition idle_set {U} x (a : ast U) : ast U := AS (a_ready a) (a_life a) (a_known a) x (a_main a) (a_mgmt a) (a_cur a) (a_discs a) (a_ids a) (a_total a) (a_al a) (a_user a) (a_made a) (a_ran a).
Definition main_set {U} x (a : ast U) : ast U := AS (a_ready a) (a_life a) (a_known a) (a_idle a) x (a_mgmt a) (a_cur a) (a_discs a) (a_ids a) (a_total a) (a_al a) (a_user a) (a_made a) (a_ran a).
Definition mgmt_set {U} x (a : ast U) : ast U := AS (a_ready a) (a_life a) (a_known a) (a_idle a) (a_main a) x (a_cur a) (a_discs a) (a_ids a) (a_total a) (a_al a) (a_user a) (a_made a) (a_ran a).
Definition user_set {U} (x : U) (a : ast U) : ast U := AS (a_ready a) (a_life a) (a_known a) (a_idle a) (a_main a) (a_mgmt a) (a_cur a) (a_discs a) (a_ids a) (a_total a) (a_al a) x (a_made a) (a_ran a).
Definition discs_set {U} x y z (a : ast U) : ast U := AS (a_ready a) (a_life a) (a_known a) (a_idle a) (a_main a) (a_mgmt a) (a_cur a) x y z (a_al a) (a_user a) (a_made a) (a_ran a).

Definition alloc_spec {U} (a : ast U) : Z * ast U :=
  match a_al a with [] => (STATUS_SUCCESS, a) | e :: t => (e, al_set t a) end.
(** A live, not stopped fiber becomes ready, unless the allocation fails.  A fiber that
    is ready already is not covered. *)
Definition is_ready {U} (f : Z) (a : ast U) : bool := existsb (fun x => fst (snd x) =? f) (a_ready a).
Definition push {U} (front : bool) (x : entry) (a : ast U) : option (Z * ast U) :=
  do s <- hget (a_life a) (fst x);
  if (s =? STOPPED) || is_ready (fst x) a then None else
  let '(e, a) := alloc_spec a in
  if negb (ok e) then Some (e, a) else
  Some (STATUS_SUCCESS, AS (if front then (front, x) :: a_ready a else a_ready a ++ [(front, x)]) (a_life a) (a_known a) (a_idle a) (a_main a) (a_mgmt a)
    (a_cur a) (a_discs a) (a_ids a) (a_total a) (a_al a) (a_user a) (a_made a ++ [(front, x)]) (a_ran a)).
(** Several, up to the first failure. *)
Fixpoint pushes {U} (l : list (bool * entry)) (a : ast U) : option (Z * ast U) :=
  match l with
  | [] => Some (STATUS_SUCCESS, a)
  | (front, x) :: t => do '(e, a) <- push front x a; if negb (ok e) then Some (e, a) else pushes t a
  end.
(** The code of a discipline, on the specification's state; reclaims succeed. *)
Fixpoint happly {U} (c : hprog U) (a : ast U) : option (Z * ast U) :=
  match c with
  | HRet e => Some (e, a)
  | HReady front x k => do '(st, a) <- push front x a; happly (k st) a
  | HMalloc k => let '(st, a) := alloc_spec a in happly (k st) a
  | HFree k => happly (k STATUS_SUCCESS) a
  | HLoad k => happly (k (a_user a)) a
  | HStore u k => happly k (user_set u a)
  | HUndef => None
  end.
(** The fiber [x] runs. *)
Definition go {U} (x : entry) (ready ran : list (bool * entry)) (a : ast U) : option (out * ast U) :=
  let '(f, (d, e, p)) := x in
  do s <- hget (a_life a) f;
  if s =? STOPPED then None else
  Some ((STATUS_SUCCESS, (f, d, e, p)),
        AS ready (hset (a_life a) f (if s =? CREATED then RUNNING else s)) (a_known a) (a_idle a) (a_main a) (a_mgmt a)
          f (a_discs a) (a_ids a) (a_total a) (a_al a) (a_user a) (a_made a) ran).
(** The first ready fiber runs with its values; if there is none, the idle fiber. *)
Definition resume {U} (x : option (Z * ast U)) : option (out * ast U) :=
  do '(e, a) <- x;
  if negb (ok e) then Some ((e, nowhere), a) else
  match a_ready a with
  | x :: t => go (snd x) t (a_ran a ++ [x]) a
  | [] => if a_idle a =? 0 then Some ((ERROR_FIBER_SCHEDULER_EXHAUSTED, nowhere), a)
          else go (a_idle a, (INTERNAL_ID, RESUME_IDLE, 0)) [] (a_ran a) a
  end.
(** Tell the management fiber, if it is waiting. *)
Definition tell {U} (ev f : Z) (a : ast U) : option (Z * ast U) :=
  if a_mgmt a =? 0 then Some (STATUS_SUCCESS, a) else
  do '(e, a) <- push true (a_mgmt a, (MANAGEMENT_ID, ev, f)) a;
  if ok e then Some (e, mgmt_set 0 a) else Some (e, a).
(** A new fiber joins: it becomes ready after all others, its creator goes on.  [dels]
    says whether fibers may be taken out of the scheduler's tree. *)
Definition join {U} (dels : bool) (f : Z) (a : ast U) : option (Z * ast U) :=
  if zmem f (a_known a) then None else
  do _ <- hget (a_life a) f;
  let '(e, a) := alloc_spec a in
  if negb (ok e) then Some (e, a) else
  do '(e, a) <- push false (f, (INTERNAL_ID, RESUME_ADD_FIBER, 0)) (known_set (zput f (a_known a)) a);
  if negb (ok e) then (if dels then Some (e, known_set (zdel f (a_known a)) a) else None) else
  do '(e, a) <- push true (a_cur a, (INTERNAL_ID, RESUME_ADD_FIBER, 0)) a;
  if negb (ok e) then Some (e, a) else tell MGMT_FIBER_ADD f a.
(** The fibers to which a request for all is sent: running, not the one that asks, not
    the waiting management fiber. *)
Definition targets {U} (a : ast U) : list Z :=
  filter (fun f => match hget (a_life a) f with Some s => s =? RUNNING | None => false end && negb (f =? a_cur a) && negb (f =? a_mgmt a)) (a_known a).
Definition request_event (term : bool) : Z := if term then MGMT_TERMINATE else MGMT_QUIESCE.
Definition user_fn (fn : Z) : bool := (fn <? FN_RUN) || (FN_TERMINATE_ALL <? fn).

Definition astep {U} (dels : bool) (ac : acts U) (p : sop) (a : ast U) : option (out * ast U) :=
  match p with
  | SNew f => if (f =? 0) || zmem f (addrs (a_life a)) then None else Some ((STATUS_SUCCESS, nowhere), life_set (hadd (a_life a) f CREATED) a)
  | SAdd f => resume (join dels f a)
  | SRun => resume (if a_cur a =? a_idle a then Some (STATUS_SUCCESS, a) else push false (a_cur a, (INTERNAL_ID, RESUME_RUN, 0)) a)
  | SStop => do s <- hget (a_life a) (a_cur a);
             do '(o, a) <- resume (tell MGMT_FIBER_STOP (a_cur a) (life_set (hset (a_life a) (a_cur a) STOPPED) a));
             if ok (fst o) then Some (o, a) else None
  | SMain => resume (push true (a_cur a, (INTERNAL_ID, RESUME_MAIN, 0)) (main_set (a_cur a) a))
  | SWake => resume (push true (a_cur a, (INTERNAL_ID, RESUME_RESOURCE_RELEASE, 0)) a)
  | SReceive => resume (Some (STATUS_SUCCESS, mgmt_set (a_cur a) a))
  | SRequest t f =>
      do s <- hget (a_life a) f;
      resume (if s =? RUNNING
              then pushes [(true, (a_cur a, (MANAGEMENT_ID, MGMT_RESULT, STATUS_SUCCESS))); (true, (f, (MANAGEMENT_ID, request_event t, 0)))] a
              else push true (a_cur a, (MANAGEMENT_ID, MGMT_RESULT, ERROR_FIBER_INVALID_STATE)) a)
  | SRequestAll t =>
      if forallb (fun f => zmem f (addrs (a_life a)) && negb (f =? 0)) (a_known a) then
      resume (pushes (map (fun f => (false, (f, (MANAGEMENT_ID, request_event t, 0)))) (targets a) ++
                      [(false, (a_cur a, (MANAGEMENT_ID, MGMT_RESULT, STATUS_SUCCESS)))]) a)
      else None
  | SRemove f => if dels then Some ((if zmem f (a_known a) then STATUS_SUCCESS else ERROR_RBTREE_NOT_FOUND, nowhere), known_set (zdel f (a_known a)) a) else None
  | SFree f => if is_ready f a || negb (zmem f (addrs (a_life a))) then None else Some ((STATUS_SUCCESS, nowhere), life_set (hdel (a_life a) f) a)
  | SIdle f => Some ((STATUS_SUCCESS, nowhere), idle_set f a)
  | SDisc junk d id ctx cbs =>
      if (d =? 0) || zmem d (addrs (a_discs a)) then None
      else Some ((STATUS_SUCCESS, nowhere), discs_set (hadd (a_discs a) d (DD false id ctx cbs)) (a_ids a) (a_total a) a)
  | SDiscAdd d =>
      do x <- hget (a_discs a) d;
      if dd_owned x then Some ((ERROR_FIBER_SCHEDULER_DISCIPLINE_ALREADY_OWNED, nowhere), a) else
      if existsb (fun y => fst y =? dd_id x) (a_ids a) then Some ((ERROR_FIBER_SCHEDULER_DUPLICATE_DISCIPLINE_ID, nowhere), a) else
      let '(e, a) := alloc_spec a in
      if negb (ok e) then Some ((e, nowhere), a) else
      let a := discs_set (a_discs a) ((dd_id x, d) :: a_ids a) (a_total a) a in
      let '(e, a) := alloc_spec a in
      if negb (ok e) then Some ((e, nowhere), a) else
      let '(e, a) := alloc_spec a in
      if negb (ok e) then Some ((e, nowhere), a) else
      let n := a_total a + Z.of_nat (length (dd_cbs x)) in
      if n <? 2^31 then
        Some ((STATUS_SUCCESS, nowhere), discs_set (hset (a_discs a) d (DD true (dd_id x) (dd_ctx x) (dd_cbs x))) (a_ids a) n a)
      else None
  | SDiscFind id =>
      match find (fun y => fst y =? id) (a_ids a) with
      | Some y => Some ((STATUS_SUCCESS, (snd y, 0, 0, 0)), a)
      | None => Some ((ERROR_FIBER_SCHEDULER_DISCIPLINE_NOT_FOUND, nowhere), a)
      end
  | SYield d ev p =>
      do x <- hget (a_discs a) d;
      let n := Z.of_nat (length (dd_cbs x)) in
      if (ev <? - 2^31) || (2^31 <=? ev) || (ev =? n) || negb (dd_owned x) then None else
      if (ev <? 0) || (n <? ev) then Some ((ERROR_FIBER_SCHEDULER_BAD_YIELD_EVENT, nowhere), a) else
      do fn <- nth_error (dd_cbs x) (Z.to_nat ev);
      if negb (user_fn fn) then None else
      resume (happly (ac fn (dd_ctx x) (a_cur a) p) a)
  | SAct fn cx p => do '(e, a) <- happly (ac fn cx (a_cur a) p) a; Some ((e, nowhere), a)
  end.
Fixpoint asteps {U} (dels : bool) (ac : acts U) (h : list sop) (a : ast U) : option (list out * ast U) :=
  match h with
  | [] => Some ([], a)
  | p :: t => do '(o, a) <- astep dels ac p a; do '(l, a) <- asteps dels ac t a; Some (o :: l, a)
  end.
(** A new scheduler: its main fiber [m] runs, nothing is ready but what was resumed. *)
Definition ainit {U} (u : U) (m : Z) : ast U :=
  AS [] [(m, RUNNING)] [] 0 m 0 m
     [(MGMT_DISC, DD true MANAGEMENT_ID SCHED_CTX [FN_RECEIVE; FN_QUIESCE; FN_TERMINATE; FN_QUIESCE_ALL; FN_TERMINATE_ALL])]
     [(MANAGEMENT_ID, MGMT_DISC)] 10 [] u [] [].

(** ** Reading histories *)
(** The calls that switch, and what was resumed by them. *)
Definition moves (p : sop) : bool :=
  match p with SAdd _ | SRun | SStop | SMain | SWake | SReceive | SRequest _ _ | SRequestAll _ | SYield _ _ _ => true | _ => false end.
Fixpoint switches (h : list sop) (os : list out) : list entry :=
  match h, os with
  | p :: h, (e, (f, d, ev, x)) :: os => if moves p && ok e then (f, (d, ev, x)) :: switches h os else switches h os
  | _, _ => []
  end.
(** [runs_as l s]: the fibers resumed, [s], are those of [l] in this order, and the idle
    fiber in between. *)
Inductive runs_as : list entry -> list entry -> Prop :=
| ra_nil : runs_as [] []
| ra_ready : forall x l s, runs_as l s -> runs_as (x :: l) (x :: s)
| ra_idle : forall f l s, runs_as l s -> runs_as l ((f, (INTERNAL_ID, RESUME_IDLE, 0)) :: s).
(** What became ready behind all others, in order. *)
Definition late (l : list (bool * entry)) : list entry := map snd (filter (fun x => negb (fst x)) l).
(** What a yield does once the callback has returned: on an error the yielding fiber gets
    it, else the next fiber runs. *)
Definition handled {T U} (x : option (Z * sw T U)) : option (Z * sw T U) :=
  do '(e, w) <- x;
  if negb (ok e) then Some (e, w) else
  do '(e, (f, d, ev, p), w) <- pick_next w;
  if negb (ok e) then Some (e, w) else do w <- switch_to f d ev p w; Some (STATUS_SUCCESS, w).
(** The values a fiber will find when it is resumed. *)
Definition pending {T U} (w : sw T U) (f : Z) : option (Z * Z * Z) := do b <- hget (w_fibs w) f; Some (f_disc b, f_event b, f_param b).
(** Live, not stopped, and not ready. *)
Definition can_run {U} (a : ast U) (f : Z) : Prop := exists s, hget (a_life a) f = Some s /\ s <> STOPPED /\ is_ready f a = false.
(** A call that is no business of the discipline [d], whose functions are [mine]. *)
Definition foreign (mine : Z -> bool) (d : Z) (p : sop) : bool :=
  match p with
  | SYield d' _ _ => negb (d' =? d)
  | SAct fn _ _ => negb (mine fn)
  | SDisc _ _ _ _ cbs => forallb (fun fn => negb (mine fn)) cbs
  | _ => true
  end.
(** A fiber is resumed with these values. *)
Definition resumes (o : out) (f d ev p : Z) : bool :=
  let '(e, (f', d', ev', p')) := o in ok e && (f' =? f) && (d' =? d) && (ev' =? ev) && (p' =? p).
Definition runner (o : out) : Z := let '(_, (f, _, _, _)) := o in f.

(** What the call takes out of the tree of fibers is taken out well: [Q] is asked of the
    tree.  A failed add takes the fiber out again, which happens only if memory runs out. *)
Definition removal {T U} (ts : tops T) (Q : T -> Z -> Prop) (p : sop) (w : sw T U) : Prop :=
  match p with
  | SRemove f => Q (w_tab w) f
  | SAdd f => w_al w = [] \/ forall al e t, t_insert ts al (w_tab w) f = Some (e, t) -> Q t f
  | _ => True
  end.
Definition removals {T U} (ts : tops T) (ac : acts U) (Q : T -> Z -> Prop) (h : list sop) (w : sw T U) : Prop :=
  forall h1 p h2 os w1, h = h1 ++ p :: h2 -> sexecs ts ac h1 w = Some (os, w1) -> removal ts Q p w1.
(** The same of a history of calls that begins with a new scheduler, if it removes fibers at
    all. *)
Definition well_removed {T U} (ts : tops T) (ac : acts U) (Q : T -> Z -> Prop) (dels : bool) (junk : list Z) (u : U) (m : Z) (al : list Z) (h : list sop) : Prop :=
  dels = true -> forall w0, sched_create ts (ext_of ac) junk u m = Some (STATUS_SUCCESS, w0) -> removals ts ac Q h (set_al al w0).
(** [w] is reached from a new scheduler by calls that the specification covers, and it
    says [a] of it. *)
Definition reached {T U} (ts : tops T) (Q : T -> Z -> Prop) (dels : bool) (ac : acts U) (w : sw T U) (a : ast U) : Prop :=
  exists junk u m al h os w0, m <> 0 /\ sched_create ts (ext_of ac) junk u m = Some (STATUS_SUCCESS, w0) /\
    sexecs ts ac h (set_al al w0) = Some (os, w) /\ asteps dels ac h (al_set al (ainit u m)) = Some (os, a) /\ well_removed ts ac Q dels junk u m al h.
