(** The scheduler with disciplines (SchedModel.v) on the code that switches stacks (UsrModel.v): its callback
    is the one that fiber_scheduler_create_with_disciplines.c:240-243 gives to fiber_scheduler_create, and its
    context is the scheduler as SchedModel.v has it.  In SchedModel.v the fiber that runs after a switch is by
    definition the one the callback chose; here it is whatever the saved stack pointers lead to.

    The fibers' structures are in both: their stacks in the world, their restore fields and their membership
    of queues in the context, which is kept up to date where the code that switches writes to the structures. *)
From Verif Require Import Base Status MemModel Heap TabModel SchedModel SchedSpec UsrModel.

(** The fibers of [w] that [w'] lacks. *)
Definition gone {T U} (w w' : sw T U) : list Z :=
  filter (fun f => match hget (w_fibs w') f with Some _ => false | None => true end) (addrs (w_fibs w)).
(** fiber_scheduler_create_with_disciplines.c:654-719 as a callback of fiber_scheduler_create.  If its behaviour
    is undefined it names no fiber.  [switch_to] is what fiber_scheduler_yield.c:83, fiber_switch.s:97-102 and
    fiber_entry.c:30 then write. *)
Definition disc_cb {T U} (cl : Z -> handler T U) : callback (sw T U) := fun _ w yf ev p =>
  match sched_callback cl yf ev p w with
  | None => Ans STATUS_SUCCESS None None None None [] w
  | Some (e, (f, d, e', p'), w1) =>
      if ok e then Ans e (Some f) (Some d) (Some e') (Some p') (gone w w1) (match switch_to f d e' p' w1 with Some w2 => w2 | None => w1 end)
      else Ans e None None None None (gone w w1) w1
  end.

(** The context of the scheduler [s], and a change of it. *)
Definition ctx_of {C} (s : Z) (j : world C) : option C := do t <- hget (w_schs j) s; Some (s_ctx t).
Definition edit {C} (s : Z) (x : C) (j : world C) : option (world C) :=
  do t <- hget (w_schs j) s; Some (W (hset (w_schs j) s (US (s_main t) (s_cur t) x)) (w_ufs j) (w_run j) (w_calls j)).

(** What follows a call that does not switch, or one that may. *)
Inductive saw := Stayed (o : out) | Saw (o : outcome).
Definition look {C} (x : option (outcome * world C)) : option (saw * world C) := do '(o, j) <- x; Some (Saw o, j).
(** fiber_discipline_yield.c:49-78 *)
Definition turn_discipline {T U} (cl : Z -> handler T U) (s d ev p : Z) (j : world (sw T U)) : option (outcome * world (sw T U)) :=
  do w <- ctx_of s j;
  do x <- hget (g_heap (w_reg w)) d;
  if Z.of_nat (length (d_cbs x)) <? to_size ev then Some (Fails ERROR_FIBER_SCHEDULER_BAD_YIELD_EVENT, j) else
  do code <- nth_error (d_codes x) (Z.to_nat ev);
  if d_owned x then usr_yield (disc_cb cl) s (to_int code) p 0 0 j else None.
(** fiber_entry.c:35-46; [stopped] is what line 36 writes, in the context. *)
Definition stopped {T U} (w : sw T U) : option (sw T U) :=
  do b <- hget (w_fibs w) (w_cur w);
  Some (set_fibs (hset (w_fibs w) (w_cur w) (Fib STOPPED (f_disc b) (f_event b) (f_param b))) w).
Definition turn_return {T U} (cl : Z -> handler T U) (s : Z) (j : world (sw T U)) : option (outcome * world (sw T U)) :=
  do w <- ctx_of s j; do w1 <- stopped w; do j1 <- edit s w1 j; usr_return (disc_cb cl) 0 0 0 j1.
(** The calls of SchedSpec.v by whatever runs. *)
Definition turn {T U} (ts : tops T) (ac : acts U) (s : Z) (op : sop) (j : world (sw T U)) : option (saw * world (sw T U)) :=
  let cl := call ts (ext_of ac) in
  let cb := disc_cb cl in
  match op with
  | SNew f => do w <- ctx_of s j; do j1 <- edit s (new_fiber f w) (usr_fiber s f j); Some (Stayed (STATUS_SUCCESS, nowhere), j1)
  | SAdd f => look (usr_add cb s f 0 0 j)
  | SRun => look (usr_run cb s 0 0 j)
  | SStop => look (turn_return cl s j)
  | SMain => look (usr_yield cb s YIELD_MAIN 0 0 0 j)
  | SWake => look (usr_yield cb s YIELD_RESOURCE_RELEASE 0 0 0 j)
  | SReceive => look (turn_discipline cl s MGMT_DISC MGMT_YIELD_RECEIVE 0 j)
  | SRequest t f => look (turn_discipline cl s MGMT_DISC (if t then MGMT_YIELD_TERMINATE else MGMT_YIELD_QUIESCE) f j)
  | SRequestAll t => look (turn_discipline cl s MGMT_DISC (if t then MGMT_YIELD_TERMINATE_ALL else MGMT_YIELD_QUIESCE_ALL) 0 j)
  | SYield d ev p => look (turn_discipline cl s d ev p j)
  | SFree f =>
      do w <- ctx_of s j; do w1 <- release_fiber f w; do h <- hfree (w_ufs j) f;
      do j1 <- edit s w1 (W (w_schs j) h (w_run j) (w_calls j)); Some (Stayed (STATUS_SUCCESS, nowhere), j1)
  | SRemove _ | SIdle _ | SDisc _ _ _ _ _ | SDiscAdd _ | SDiscFind _ | SAct _ _ _ =>
      do w <- ctx_of s j; do '(o, w1) <- sexec ts ac op w; do j1 <- edit s w1 j; Some (Stayed o, j1)
  end.
(** Until the process dies. *)
Fixpoint turns {T U} (ts : tops T) (ac : acts U) (s : Z) (h : list sop) (j : world (sw T U)) : option (list saw * world (sw T U)) :=
  match h with
  | [] => Some ([], j)
  | op :: h' =>
      do '(o, j1) <- turn ts ac s op j;
      match o with
      | Saw Dies => Some ([o], j1)
      | _ => do '(os, j2) <- turns ts ac s h' j1; Some (o :: os, j2)
      end
  end.
(** fiber_scheduler_create_with_disciplines.c:126-294 where no allocation fails: the scheduler [s] with the main
    fiber [m]; fiber_scheduler_create is [usr_create], what follows it the rest of [sched_create]. *)
Definition turn_create {T U} (ts : tops T) (ac : acts U) (junk : list Z) (u : U) (s m : Z) : option (world (sw T U)) :=
  do '(e, r, j) <- usr_create (disc_cb (call ts (ext_of ac))) STATUS_SUCCESS STATUS_SUCCESS s m STATUS_SUCCESS STATUS_SUCCESS 0 (sched_blank ts u m) (W [] [] 0 []);
  if negb (ok e) then None else
  do w <- ctx_of s j;
  let g := w_reg w in
  let d := new_disc junk MANAGEMENT_ID SCHED_CTX [FN_RECEIVE; FN_QUIESCE; FN_TERMINATE; FN_QUIESCE_ALL; FN_TERMINATE_ALL] in
  do '(e, w) <- discipline_add MGMT_DISC (set_reg (Reg (g_discs g) (hadd (g_heap g) MGMT_DISC d) (g_cbs g) (g_ctxs g)) w);
  if negb (ok e) then None else edit s w j.
