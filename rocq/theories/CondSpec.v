(** What conditions should do, said of a history of calls, their outcomes and what they
    made ready. *)
From Verif Require Import Base Status MemModel Heap TabModel SchedModel SchedSpec CondModel.

(** ** Histories *)
Inductive cop :=
| CCreate | CClose (k : Z) | CWait (k : Z) | CNotify (k : Z) | CNotifyAll (k : Z)     (* condition.h *)
| COther (p : sop).                                                                    (* anything else *)
(** What a call does to the scheduler; [d] is the condition discipline. *)
Definition csop (d : Z) (p : cop) : sop :=
  match p with
  | CCreate => SYield d CY_CREATE 0
  | CClose k => SYield d CY_CLOSE k
  | CWait k => SYield d CY_WAIT k
  | CNotify k => SYield d CY_NOTIFY_ONE k
  | CNotifyAll k => SYield d CY_NOTIFY_ALL k
  | COther p => p
  end.
(** The discipline is created and registered (condition_discipline_get_or_create.c:54-90). *)
Definition cond_cbs : list Z := [FN_COND_CREATE; FN_COND_CLOSE; FN_COND_WAIT; FN_COND_NOTIFY_ONE; FN_COND_NOTIFY_ALL].
Definition cond_setup (junk : list Z) (d : Z) : list sop := [SDisc junk d CONDITION_ID COND_CTX cond_cbs; SDiscAdd d].
Definition cond_none {T} (ts : tops T) : cst T := CS (t_empty ts) [] 0.

(** ** The specification *)
(** Each open condition has the fibers that wait, the longest first. *)
Record waits := Waits { k_waits : heap (list Z); k_next : Z }.
Definition no_waits : waits := Waits [] 0.
(** As it should be, with the fiber that runs; not so; or the specification does not say. *)
Inductive verdict := Fine (c : Z) (l : waits) | Wrong | Unsaid.
Definition refused (o : out) (c ev : Z) : bool :=
  let '(e, (f, d, ev', p)) := o in ok e && (f =? c) && (d =? CONDITION_ID) && (ev' =? ev).
Definition sure (b : bool) (v : verdict) : verdict := if b then v else Wrong.
Definition same (x y : bool * entry) : bool :=
  let '(b, (f, (d, e, p))) := x in let '(b', (f', (d', e', p'))) := y in
  Bool.eqb b b' && (f =? f') && (d =? d') && (e =? e') && (p =? p').
Fixpoint made_is (m l : list (bool * entry)) : bool :=
  match m, l with [], [] => true | x :: m, y :: l => same x y && made_is m l | _, _ => false end.
(** What a notification of the fibers [l] by [c] makes ready, each behind what is ready
    already: these fibers, then [c]. *)
Definition woken (l : list Z) (c : Z) : list (bool * entry) :=
  map (fun f => (false, (f, (CONDITION_ID, CR_WAIT_SUCCESS, STATUS_SUCCESS)))) l ++ [(false, (c, (CONDITION_ID, CR_NOTIFY_SUCCESS, STATUS_SUCCESS)))].
(** [mem]: memory may run out.  Nothing is said of a yield that fails because of this, or
    of a notification that does not make ready all it should.
    [o] is the outcome of the call, [m] what it made ready. *)
Definition cond_step (mem : bool) (d : Z) (p : cop) (o : out) (m : list (bool * entry)) (c : Z) (l : waits) : verdict :=
  let fails := negb (ok (fst o)) in
  let told ev x := resumes o c CONDITION_ID ev x in
  let notified m' l' := if mem && (fails || negb (made_is m m')) then Unsaid else sure (ok (fst o) && made_is m m') (Fine (runner o) l') in
  match p with
  | COther q => if foreign cond_fn d q then Fine (if moves q && ok (fst o) then runner o else c) l else Unsaid
  | CCreate =>
      let k := k_next l + 1 in
      if 2^64 <=? k then Unsaid else
      if mem && fails then Unsaid else
      if mem && refused o c CR_CREATE_FAILURE then Fine c l else
      sure (told CR_CREATE_SUCCESS k) (Fine c (Waits (hadd (k_waits l) k []) k))
  | CClose k =>
      if mem && fails then Unsaid else
      match hget (k_waits l) k with
      | None => sure (told CR_CLOSE_FAILURE ERROR_RBTREE_NOT_FOUND) (Fine c l)
      | Some _ => sure (told CR_CLOSE_SUCCESS STATUS_SUCCESS) (Fine c (Waits (hdel (k_waits l) k) (k_next l)))
      end
  | CWait k =>
      match hget (k_waits l) k with
      | None => if mem && fails then Unsaid else sure (told CR_WAIT_FAILURE ERROR_RBTREE_NOT_FOUND) (Fine c l)
      | Some q =>
          if mem && fails then Unsaid else
          if mem && refused o c CR_WAIT_FAILURE && negb (made_is m []) then Fine c l else
          sure (made_is m []) (Fine (if fails then c else runner o) (Waits (hset (k_waits l) k (q ++ [c])) (k_next l)))
      end
  | CNotify k =>
      match hget (k_waits l) k with
      | None => notified [(false, (c, (CONDITION_ID, CR_NOTIFY_FAILURE, ERROR_RBTREE_NOT_FOUND)))] l
      | Some [] => notified (woken [] c) l
      | Some (f :: q) => notified (woken [f] c) (Waits (hset (k_waits l) k q) (k_next l))
      end
  | CNotifyAll k =>
      match hget (k_waits l) k with
      | None => notified [(false, (c, (CONDITION_ID, CR_NOTIFY_FAILURE, ERROR_RBTREE_NOT_FOUND)))] l
      | Some q => notified (woken q c) (Waits (hset (k_waits l) k []) (k_next l))
      end
  end.
(** A history, with the outcome of each call and what it made ready. *)
Fixpoint cond_run (mem : bool) (d : Z) (h : list cop) (os : list out) (ms : list (list (bool * entry))) (c : Z) (l : waits) : verdict :=
  match h, os, ms with
  | [], _, _ => Fine c l
  | p :: h, o :: os, m :: ms => match cond_step mem d p o m c l with Fine c l => cond_run mem d h os ms c l | v => v end
  | _, _, _ => Wrong
  end.
(** What each call of a history made ready. *)
Fixpoint made_by {U} (dels : bool) (ac : acts U) (h : list sop) (a : ast U) : list (list (bool * entry)) :=
  match h with
  | [] => []
  | p :: h => match astep dels ac p a with None => [] | Some (_, a') => skipn (length (a_made a)) (a_made a') :: made_by dels ac h a' end
  end.

(** Every close of the history [h] that follows [pre] is one that the tree of conditions
    does well: [Q] is asked of the tree as it is then. *)
Definition closes {T V} (dels : bool) (ac : acts (cst T * V)) (Q : T -> Z -> Prop) (d : Z) (pre : list sop) (h : list cop) (a : ast (cst T * V)) : Prop :=
  forall h1 k h2 os a1, h = h1 ++ CClose k :: h2 -> asteps dels ac (pre ++ map (csop d) h1) a = Some (os, a1) -> Q (c_tree (fst (a_user a1))) k.
Definition no_cond_close (h : list cop) : Prop := forall k, ~ In (CClose k) h.
