(** What mailboxes should do, said of a history of calls and their outcomes alone. *)
From Verif Require Import Base Status MemModel Heap TabModel SchedModel SchedSpec MsgModel.

(** ** Histories *)
Inductive mop :=
| MCreate | MClose (b : Z) | MSend (b x : Z) | MReceive (b : Z)      (* the calls of message.h that yield *)
| MNew (x ret pay : Z) | MRelease (x : Z) | MTake (x : Z)              (* message_create, resource_release, message_payload with xfer *)
| MOther (p : sop).                                                    (* anything else *)
(** What a call does to the scheduler; [d] is the message discipline. *)
Definition sops (d : Z) (p : mop) : list sop :=
  match p with
  | MCreate => [SYield d MY_CREATE 0]
  | MClose b => [SYield d MY_CLOSE b]
  | MSend b x => [SAct FN_SET_ADDRESS x b; SYield d MY_SEND x]
  | MReceive b => [SYield d MY_RECEIVE b]
  | MNew x ret pay => [SAct FN_MESSAGE_CREATE x ret; SAct FN_MESSAGE_PAYLOAD x pay]
  | MRelease x => [SAct FN_MESSAGE_RELEASE x 0]
  | MTake x => [SAct FN_PAYLOAD_XFER x 0]
  | MOther p => [p]
  end.
(** The discipline is created and registered (message_discipline_get_or_create.c:52-90). *)
Definition msg_setup (junk : list Z) (d : Z) : list sop :=
  [SDisc junk d MESSAGE_ID MSG_CTX [FN_MSG_CREATE; FN_MSG_CLOSE; FN_MSG_SEND; FN_MSG_RECEIVE]; SDiscAdd d].
Definition msg_none {T} (ts : tops T) : mst T := MS (t_empty ts) [] 0 [] [].

(** ** The specification *)
(** Each open mailbox has the fiber that waits for a message, if any, and the messages
    that wait. *)
Record mail := Mail { l_boxes : heap (Z * list Z); l_next : Z; l_sent : list (Z * Z); l_got : list (Z * Z) }.
Definition no_mail : mail := Mail [] 0 [] [].
(** The verdict on a history: as it should be, with the fiber that runs; not so; or the
    specification does not say. *)
Inductive verdict := Fine (c : Z) (l : mail) | Wrong | Unsaid.
(** [c] is resumed with a failure. *)
Definition refused (o : out) (c ev : Z) : bool :=
  let '(e, (f, d, ev', p)) := o in ok e && (f =? c) && (d =? MESSAGE_ID) && (ev' =? ev).
Definition sure (b : bool) (v : verdict) : verdict := if b then v else Wrong.
(** [mem]: memory may run out.  If a yield itself fails because of this, nothing is said. *)
Definition mail_step (mem : bool) (d : Z) (p : mop) (o : out) (c : Z) (l : mail) : verdict :=
  let fails := negb (ok (fst o)) in
  let told f ev x := resumes o f MESSAGE_ID ev x in
  match p with
  | MOther q => if foreign msg_fn d q then Fine (if moves q && ok (fst o) then runner o else c) l else Unsaid
  | MNew _ _ _ | MRelease _ | MTake _ => sure (ok (fst o)) (Fine c l)
  | MCreate =>
      let b := l_next l + 1 in
      if 2^64 <=? b then Unsaid else
      if mem && fails then Unsaid else
      if mem && refused o c MR_CREATE_FAILURE then Fine c l else
      sure (told c MR_CREATE_SUCCESS b) (Fine c (Mail (hadd (l_boxes l) b (0, [])) b (l_sent l) (l_got l)))
  | MClose b =>
      if mem && fails then Unsaid else
      match hget (l_boxes l) b with
      | None => sure (told c MR_CLOSE ERROR_RBTREE_NOT_FOUND) (Fine c l)
      | Some _ => sure (told c MR_CLOSE STATUS_SUCCESS) (Fine c (Mail (hdel (l_boxes l) b) (l_next l) (l_sent l) (l_got l)))
      end
  | MSend b x =>
      if mem && fails then Unsaid else
      match hget (l_boxes l) b with
      | None => sure (told c MR_SEND_FAILURE ERROR_RBTREE_NOT_FOUND) (Fine c l)
      | Some (w, q) =>
          if mem && refused o c MR_SEND_FAILURE then Fine c l else
          if w =? 0 then
            sure (told c MR_SEND_SUCCESS 0) (Fine c (Mail (hset (l_boxes l) b (0, q ++ [x])) (l_next l) (l_sent l ++ [(b, x)]) (l_got l)))
          else
            sure (told w MR_RECEIVE_SUCCESS x) (Fine w (Mail (hset (l_boxes l) b (0, [])) (l_next l) (l_sent l ++ [(b, x)]) (l_got l ++ [(b, x)])))
      end
  | MReceive b =>
      if mem && fails then Unsaid else
      match hget (l_boxes l) b with
      | None => sure (told c MR_RECEIVE_FAILURE ERROR_RBTREE_NOT_FOUND) (Fine c l)
      | Some (w, x :: q) =>
          sure (told c MR_RECEIVE_SUCCESS x) (Fine c (Mail (hset (l_boxes l) b (w, q)) (l_next l) (l_sent l) (l_got l ++ [(b, x)])))
      | Some (w, []) =>
          if w =? 0 then Fine (if fails then c else runner o) (Mail (hset (l_boxes l) b (c, [])) (l_next l) (l_sent l) (l_got l))
          else sure (told c MR_RECEIVE_FAILURE ERROR_MESSAGE_ALREADY_BLOCKED) (Fine c l)
      end
  end.
(** A history; the outcome of a call is that of its last part. *)
Fixpoint mail_run (mem : bool) (d : Z) (h : list mop) (os : list out) (c : Z) (l : mail) : verdict :=
  match h with
  | [] => Fine c l
  | p :: t =>
      let n := length (sops d p) in
      match mail_step mem d p (last (firstn n os) (0, nowhere)) c l with
      | Fine c l => mail_run mem d t (skipn n os) c l
      | v => v
      end
  end.

(** ** Reading it *)
Definition in_box (b : Z) (l : list (Z * Z)) : list Z := map snd (filter (fun x => fst x =? b) l).
(** The addresses that were created. *)
Fixpoint created (d : Z) (h : list mop) (os : list out) : list Z :=
  match h with
  | [] => []
  | p :: t =>
      let n := length (sops d p) in
      let '(e, (_, i, ev, x)) := last (firstn n os) (0, nowhere) in
      match p with
      | MCreate => if ok e && (i =? MESSAGE_ID) && (ev =? MR_CREATE_SUCCESS) then x :: created d t (skipn n os) else created d t (skipn n os)
      | _ => created d t (skipn n os)
      end
  end.

(** Every close of the history [h] that follows [pre] is one that the tree of mailboxes
    does well: [Q] is asked of the tree as it is then. *)
Definition closes {T V} (dels : bool) (ac : acts (mst T * V)) (Q : T -> Z -> Prop) (d : Z) (pre : list sop) (h : list mop) (a : ast (mst T * V)) : Prop :=
  forall h1 b h2 os a1, h = h1 ++ MClose b :: h2 -> asteps dels ac (pre ++ flat_map (sops d) h1) a = Some (os, a1) -> Q (m_tree (fst (a_user a1))) b.
Definition no_close (h : list mop) : Prop := forall b, ~ In (MClose b) h.
