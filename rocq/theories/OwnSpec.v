(** Specification for C38 and C48: which blocks belong to an object. *)
From Verif Require Import Base Status MemModel Heap OwnModel.

(** How an object holds a block: memory, a resource, a list or a queue whose elements belong
    to someone else, the context of a scheduler, a scheduler. *)
Inductive kind := KRaw | KRes | KList | KQueue | KCtx | KSched.
Definition some (k : kind) (p : Z) : list (kind * Z) := if p =? 0 then [] else [(k, p)].
(** What a struct that is held as a [k] owns. *)
Definition holds (k : kind) (b : blk) : list (kind * Z) :=
  match b with
  | BRaw | BUser => []
  | BStack r => [(KRaw, r)]
  | BFiber st => some KRes st
  | BTree l => flat_map (fun x => [(KRaw, fst x); (KRes, snd x)]) l
  | BSlist own l => flat_map (fun x => (KRaw, fst x) :: if own then [(KRes, snd x)] else []) l
  | BQueue q => [(match k with KQueue => KList | _ => KRes end, q)]
  | BDisc _ cbv codes ctx _ => [(KRaw, cbv); (KRaw, codes)] ++ some KRes ctx
  | BMsg m => some KRes m
  | BMailbox q => [(KRes, q)]
  | BBoxes t => [(KRes, t)]
  | BBarrier q => [(KList, q)]
  | BPoll x y => [(KRaw, x); (KRaw, y)]
  | BEpoll x => [(KRaw, x)]
  | BWrap c => [(KRes, c)]
  | BCtx fibers discs rq cbv cxv idle _ => [(KRes, fibers); (KRes, discs); (KQueue, rq); (KRaw, cbv); (KRaw, cxv)] ++ some KRes idle
  | BSched m ctx _ => [(KRes, m); (KCtx, ctx)]
  end.
Definition fits (k : kind) (b : blk) : bool :=
  match k, b with
  | KRaw, BRaw => true
  | KList, BSlist false _ | KQueue, BQueue _ => true
  | KCtx, BCtx _ _ _ _ _ _ _ => true
  | KSched, BSched _ _ true => true
  | KRes, BRaw | KRes, BCtx _ _ _ _ _ _ _ | KRes, BSched _ _ _ => false
  | KRes, BSlist own l => own || match l with [] => true | _ => false end
  | KRes, _ => true
  | _, _ => false
  end.
(** The object at [p] and everything that it owns. *)
Inductive owns (h : heap blk) : kind -> Z -> list Z -> Prop :=
| Owns : forall k p b ls, hget h p = Some b -> fits k b = true -> Forall2 (fun x l => owns h (fst x) (snd x) l) (holds k b) ls -> owns h k p (p :: concat ls).
(** No block belongs to it twice. *)
Definition whole (h : heap blk) (k : kind) (p : Z) (l : list Z) : Prop := owns h k p l /\ NoDup l.

(** Addresses are fresh, and the nesting that the releases of the constructors meet is allowed. *)
Definition good (v : menv) : Prop := good_pick (e_pick v) /\ (32 <= e_fuel v)%nat.
(** The blocks [l] are new. *)
Definition adds (h h' : heap blk) (l : list Z) : Prop := forall q, if in_dec Z.eq_dec q l then hget h q = None /\ hget h' q <> None else hget h' q = hget h q.
(** The blocks [l] are gone. *)
Definition gone (h h' : heap blk) (l : list Z) : Prop := forall q, hget h' q = if in_dec Z.eq_dec q l then None else hget h q.
Definition unchanged (h h' : heap blk) : Prop := forall q, hget h' q = hget h q.
(** The [n] allocations from [a] on succeed; of those from [a] on, number [i] is the first to
    fail. *)
Definition oks (v : menv) (a n : nat) : Prop := forall i, (a <= i < a + n)%nat -> e_al v i = STATUS_SUCCESS.
Definition fails (v : menv) (a i : nat) : Prop := oks v a i /\ e_al v (a + i)%nat <> STATUS_SUCCESS.
(** A constructor allocates [n] blocks and delivers an object that consists of them; or number
    [i] of its allocations is the first to fail, then it keeps nothing and its status is
    [err i] of the status of the allocation. *)
Definition builds (v : menv) (n : nat) (err : nat -> Z -> Z) (f : mem (Z * Z)) : Prop :=
  forall s, hwf (m_h s) -> exists e p s', f s = Some ((e, p), s') /\ hwf (m_h s') /\
    ((oks v (m_n s) n /\ e = STATUS_SUCCESS /\ m_n s' = (m_n s + n)%nat /\ exists l, whole (m_h s') KRes p l /\ length l = n /\ adds (m_h s) (m_h s') l) \/
     (exists i, (i < n)%nat /\ fails v (m_n s) i /\ e = err i (e_al v (m_n s + i)%nat) /\ e <> STATUS_SUCCESS /\ p = 0 /\ m_n s' = S (m_n s + i) /\ unchanged (m_h s) (m_h s'))).
Definition oom (i : nat) (e : Z) : Z := ERROR_GENERAL_OUT_OF_MEMORY.
Definition raw (i : nat) (e : Z) : Z := e.
Definition raw_oom (i : nat) (e : Z) : Z := match i with O => e | _ => ERROR_GENERAL_OUT_OF_MEMORY end.
Definition epoll_err (i : nat) (e : Z) : Z := match i with O => e | _ => ERROR_PSOCK_EPOLL_CREATE_FAILED end.
(** The status of a discipline whose context has [n] blocks *)
Definition io_err (n : nat) (err : nat -> Z -> Z) (i : nat) (e : Z) : Z := if (i <? n)%nat then err i e else ERROR_GENERAL_OUT_OF_MEMORY.
Definition io_disc_err (n : nat) (err : nat -> Z -> Z) (i : nat) (e : Z) : Z := if (i =? n + 3)%nat then e else io_err n err i e.
(** The status when a discipline with a tree cannot be made: its context, the discipline, the
    node for it in the scheduler's tree *)
Definition boxes_err (i : nat) (e : Z) : Z := match i with O | 5 => e | _ => ERROR_GENERAL_OUT_OF_MEMORY end%nat.

(** A disciplined scheduler at [p] made of the blocks [l], with disciplines of the IDs [ids]. *)
Definition view (h : heap blk) (p m ctx f t rq cb cx idle : Z) (ds : list (Z * Z)) : Prop :=
  hget h p = Some (BSched m ctx true) /\ hget h ctx = Some (BCtx f t rq cb cx idle p) /\ hget h t = Some (BTree ds).
Definition registered (h : heap blk) (x : Z * Z) (id : Z) : Prop := exists cbv codes ctx added, hget h (snd x) = Some (BDisc id cbv codes ctx added).
(** It has no idle fiber. *)
Definition no_idle (h : heap blk) (p : Z) : Prop := exists m ctx f t rq cb cx ds, view h p m ctx f t rq cb cx 0 ds.
Definition scheduler (h : heap blk) (p : Z) (l ids : list Z) : Prop :=
  whole h KSched p l /\ exists m ctx f t rq cb cx idle ds, view h p m ctx f t rq cb cx idle ds /\ Forall2 (registered h) ds ids.
(** The blocks [l] became the blocks [l'], and nothing else has changed. *)
Definition becomes (h h' : heap blk) (l l' : list Z) : Prop :=
  forall q, (In q l' -> In q l \/ hget h q = None) /\ (~ In q l' -> hget h' q = if in_dec Z.eq_dec q l then None else hget h q).
