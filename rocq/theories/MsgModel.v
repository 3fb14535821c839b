(** Model of src/message: mailboxes and messages, as code of a discipline (SchedModel.v).
    - A mailbox is identified with its address, a message with its pointer; 0 is NULL.
    - A mailbox's queue is the sequence of its messages, which is what C25 proves of
      src/queue.
    - [T] is the tree of mailboxes (TabModel.v).  Releasing a mailbox when it is closed
      succeeds in reclaiming all of its memory. *)
From Verif Require Import Base Status MemModel Heap TabModel SchedModel.

(** message_discipline_definitions.c:12-14 *)
Definition MESSAGE_ID : Z := 0xa86ae191cf4446cea7b2f67b4cc13d30.
(** include/rcpr/message.h, the yield and resume events *)
Definition MY_CREATE : Z := 0.
Definition MY_CLOSE : Z := 1.
Definition MY_SEND : Z := 2.
Definition MY_RECEIVE : Z := 3.
Definition MR_CREATE_SUCCESS : Z := 0.
Definition MR_CREATE_FAILURE : Z := 1.
Definition MR_CLOSE : Z := 2.
Definition MR_SEND_SUCCESS : Z := 3.
Definition MR_SEND_FAILURE : Z := 4.
Definition MR_RECEIVE_SUCCESS : Z := 5.
Definition MR_RECEIVE_FAILURE : Z := 6.
(** The addresses of the handlers and of the context. *)
Definition FN_MSG_CREATE : Z := 201.
Definition FN_MSG_CLOSE : Z := 202.
Definition FN_MSG_SEND : Z := 203.
Definition FN_MSG_RECEIVE : Z := 204.
Definition MSG_CTX : Z := 200.

(** message_internal.h:24-48 *)
Record msg := Msg { g_return : Z; g_send : Z; g_payload : Z }.
Record mbox := Mbox { b_blocked : Z; b_queue : list Z }.
(** message_internal.h:53-64, with the live mailboxes and messages, and the payloads
    released *)
Record mst (T : Type) := MS { m_tree : T; m_boxes : heap mbox; m_index : Z; m_msgs : heap msg; m_rel : list Z }.
Arguments MS {T}. Arguments m_tree {T}. Arguments m_boxes {T}. Arguments m_index {T}. Arguments m_msgs {T}. Arguments m_rel {T}.

Definition set_box {T} (k : Z) (b : mbox) (m : mst T) : mst T := MS (m_tree m) (hset (m_boxes m) k b) (m_index m) (m_msgs m) (m_rel m).

(** Assertions of live memory. *)
Definition need {U A} (x : option A) (k : A -> hprog U) : hprog U := match x with Some y => k y | None => HUndef end.
Definition on_msg {U} (cx : Z) (c : hprog U) : hprog U := if cx =? MSG_CTX then c else HUndef.

(** set_next_fiber_to_run of the yielding fiber, the end of each handler *)
Definition answer {U} (yf ev p : Z) : hprog U := HReady true (yf, (MESSAGE_ID, ev, p)) (fun e => HRet e).

(** message_create.c:110-143: the payload, then the message; a payload's release succeeds *)
Definition msg_release {T} (x : Z) (m : mst T) : option (mst T) :=
  do g <- hget (m_msgs m) x;
  Some (MS (m_tree m) (m_boxes m) (m_index m) (hdel (m_msgs m) x) (if g_payload g =? 0 then m_rel m else m_rel m ++ [g_payload g])).
Fixpoint msgs_release {T} (l : list Z) (m : mst T) : option (mst T) :=
  match l with [] => Some m | x :: t => do m <- msg_release x m; msgs_release t m end.

(** message_discipline_mailbox_create_callback_handler.c:33-96.  mailbox_resource_create.c:
    42-106 allocates the mailbox, and queue_create.c:62-113 the queue and its list.  If
    the insertion fails, the mailbox is released (mailbox_resource_create.c:117-143), and
    the status of this release is reported. *)
Definition create_box {T} (ts : tops T) (cx yf p : Z) : hprog (mst T) :=
  on_msg cx (HLoad (fun m =>
  let addr := wrap64 (m_index m + 1) in
  let fail e := answer yf MR_CREATE_FAILURE e in
  HMalloc (fun e => if negb (ok e) then fail e else
  HMalloc (fun e => if negb (ok e) then HFree (fun r => fail (if negb (ok r) then r else e)) else
  HMalloc (fun e => if negb (ok e) then HFree (fun r => let e := if negb (ok r) then r else e in HFree (fun r => fail (if negb (ok r) then r else e))) else
  HMalloc (fun a =>
  need (t_insert ts a (m_tree m) addr) (fun '(e, t) =>
  if negb (ok e) then
    HFree (fun r1 => HFree (fun r2 => HFree (fun r3 =>
      fail (if negb (ok (if negb (ok r2) then r2 else r1)) then (if negb (ok r2) then r2 else r1) else r3))))
  else
  HStore (MS t (hadd (m_boxes m) addr (Mbox 0 [])) addr (m_msgs m) (m_rel m))
  (answer yf MR_CREATE_SUCCESS addr)))))))).

(** message_discipline_mailbox_close_callback_handler.c:32-74; the queued messages are
    released with the mailbox *)
Definition close_box {T} (ts : tops T) (cx yf addr : Z) : hprog (mst T) :=
  on_msg cx (HLoad (fun m =>
  need (t_delete ts (m_tree m) addr) (fun '(e, t) =>
  let m := MS t (m_boxes m) (m_index m) (m_msgs m) (m_rel m) in
  if negb (ok e) then HStore m (answer yf MR_CLOSE e) else
  need (hget (m_boxes m) addr) (fun b =>
  need (msgs_release (b_queue b) m) (fun m =>
  HStore (MS (m_tree m) (hdel (m_boxes m) addr) (m_index m) (m_msgs m) (m_rel m))
  (answer yf MR_CLOSE STATUS_SUCCESS)))))).

(** queue_pop of a mailbox that is not empty, slist_pop.c:91-119: if reclaiming the list
    node fails, the message is released; then success with a NULL message, or the error *)
Definition pop_box {T} (k : Z) (b : mbox) (c : Z -> Z -> hprog (mst T)) : hprog (mst T) :=
  HLoad (fun m =>
  match b_queue b with
  | [] => HUndef
  | x :: q =>
      HStore (set_box k (Mbox (b_blocked b) q) m)
      (HFree (fun e => if ok e then c STATUS_SUCCESS x else
         HLoad (fun m => need (msg_release x m) (fun m => HStore m (HFree (fun e => c e 0))))))
  end).

(** message_discipline_message_send_callback_handler.c:34-132 *)
Definition send {T} (ts : tops T) (cx yf x : Z) : hprog (mst T) :=
  on_msg cx (HLoad (fun m =>
  let fail e := answer yf MR_SEND_FAILURE e in
  need (hget (m_msgs m) x) (fun g =>
  need (t_find ts (m_tree m) (g_send g)) (fun '(e, k) =>
  if negb (ok e) then fail e else
  need (hget (m_boxes m) k) (fun b =>
  HMalloc (fun e => if negb (ok e) then fail e else
  HStore (set_box k (Mbox (b_blocked b) (b_queue b ++ [x])) m)
  (HReady true (yf, (MESSAGE_ID, MR_SEND_SUCCESS, 0)) (fun e => if negb (ok e) then HRet e else
  if negb (b_blocked b =? 0) then
    pop_box k (Mbox 0 (b_queue b ++ [x])) (fun e y =>
    if negb (ok e) then answer (b_blocked b) MR_RECEIVE_FAILURE e else answer (b_blocked b) MR_RECEIVE_SUCCESS y)
  else HRet STATUS_SUCCESS)))))))).

(** message_discipline_message_receive_callback_handler.c:34-112 *)
Definition receive {T} (ts : tops T) (cx yf addr : Z) : hprog (mst T) :=
  on_msg cx (HLoad (fun m =>
  let fail e := answer yf MR_RECEIVE_FAILURE e in
  need (t_find ts (m_tree m) addr) (fun '(e, k) =>
  if negb (ok e) then fail e else
  need (hget (m_boxes m) k) (fun b =>
  match b_queue b with
  | [] => if negb (b_blocked b =? 0) then fail ERROR_MESSAGE_ALREADY_BLOCKED
          else HStore (set_box k (Mbox yf []) m) (HRet STATUS_SUCCESS)
  | _ => pop_box k b (fun e y => if negb (ok e) then fail e else answer yf MR_RECEIVE_SUCCESS y)
  end)))).

(** ** Messages, outside the handlers *)
(** message_create.c:51-99 where it succeeds (C48 has the rest): [new_msg] then
    [set_payload] *)
Definition FN_MESSAGE_CREATE : Z := 205.
Definition new_msg {T} (x ret : Z) : hprog (mst T) :=
  HLoad (fun m => if (x =? 0) || (match hget (m_msgs m) x with Some _ => true | None => false end) then HUndef else
  HStore (MS (m_tree m) (m_boxes m) (m_index m) (hadd (m_msgs m) x (Msg ret 0 0)) (m_rel m)) (HRet STATUS_SUCCESS)).
Definition FN_MESSAGE_PAYLOAD : Z := 209.
Definition set_payload {T} (x pay : Z) : hprog (mst T) :=
  HLoad (fun m => need (hget (m_msgs m) x) (fun g =>
  HStore (MS (m_tree m) (m_boxes m) (m_index m) (hset (m_msgs m) x (Msg (g_return g) (g_send g) pay)) (m_rel m)) (HRet STATUS_SUCCESS))).
(** message_send.c:50, before it yields *)
Definition FN_SET_ADDRESS : Z := 206.
Definition set_address {T} (x addr : Z) : hprog (mst T) :=
  HLoad (fun m => need (hget (m_msgs m) x) (fun g =>
  HStore (MS (m_tree m) (m_boxes m) (m_index m) (hset (m_msgs m) x (Msg (g_return g) addr (g_payload g))) (m_rel m)) (HRet STATUS_SUCCESS))).
(** message_create.c:110-143, resource_release of a message by its owner *)
Definition FN_MESSAGE_RELEASE : Z := 207.
Definition release_msg {T} (x : Z) : hprog (mst T) := HLoad (fun m => need (msg_release x m) (fun m => HStore m (HRet STATUS_SUCCESS))).
(** message_payload.c:34-49, message_return_address.c:24-32 *)
Definition message_payload {T} (x : Z) (xfer : bool) (m : mst T) : option (Z * mst T) :=
  do g <- hget (m_msgs m) x;
  Some (g_payload g, if xfer then MS (m_tree m) (m_boxes m) (m_index m) (hset (m_msgs m) x (Msg (g_return g) (g_send g) 0)) (m_rel m) else m).
Definition message_return_address {T} (x : Z) (m : mst T) : option Z := do g <- hget (m_msgs m) x; Some (g_return g).
Definition FN_PAYLOAD_XFER : Z := 208.

(** ** The API: what a call returns once its fiber is resumed with an event and a
    parameter: status and, if it is written, the result *)
(** mailbox_create.c:52-75 *)
Definition mailbox_create_result (e p : Z) : Z * option Z :=
  if e =? MR_CREATE_FAILURE then (p, None) else if e =? MR_CREATE_SUCCESS then (STATUS_SUCCESS, Some p) else (ERROR_MESSAGE_UNKNOWN_ERROR, None).
(** mailbox_close.c:50-64 *)
Definition mailbox_close_result (e p : Z) : Z := if e =? MR_CLOSE then p else ERROR_MESSAGE_UNKNOWN_ERROR.
(** message_send.c:57-79 *)
Definition message_send_result (e p : Z) : Z :=
  if e =? MR_SEND_FAILURE then p else if e =? MR_SEND_SUCCESS then STATUS_SUCCESS else ERROR_MESSAGE_UNKNOWN_ERROR.
(** message_receive.c:59-86 *)
Definition message_receive_result (e p : Z) : Z * option Z :=
  if e =? MR_RECEIVE_FAILURE then (p, None) else if e =? MR_RECEIVE_SUCCESS then (STATUS_SUCCESS, Some p) else (ERROR_MESSAGE_UNKNOWN_ERROR, None).

(** ** Together with other disciplines *)
(** Code on one part of a state. *)
Fixpoint on_fst {A B} (c : hprog A) : hprog (A * B) :=
  match c with
  | HRet e => HRet e
  | HReady f x k => HReady f x (fun e => on_fst (k e))
  | HMalloc k => HMalloc (fun e => on_fst (k e))
  | HFree k => HFree (fun e => on_fst (k e))
  | HLoad k => HLoad (fun u => on_fst (k (fst u)))
  | HStore x k => HLoad (fun u => HStore (x, snd u) (on_fst k))
  | HUndef => HUndef
  end.
Fixpoint on_snd {A B} (c : hprog B) : hprog (A * B) :=
  match c with
  | HRet e => HRet e
  | HReady f x k => HReady f x (fun e => on_snd (k e))
  | HMalloc k => HMalloc (fun e => on_snd (k e))
  | HFree k => HFree (fun e => on_snd (k e))
  | HLoad k => HLoad (fun u => on_snd (k (snd u)))
  | HStore x k => HLoad (fun u => HStore (fst u, x) (on_snd k))
  | HUndef => HUndef
  end.
(** The functions outside the handlers take the message (as context) and a parameter;
    [other] are all other disciplines. *)
Definition msg_fn (fn : Z) : bool := (FN_MSG_CREATE <=? fn) && (fn <=? FN_MESSAGE_PAYLOAD).
Definition msg_acts {T V} (ts : tops T) (other : acts V) : acts (mst T * V) := fun fn cx yf p =>
  if negb (msg_fn fn) then on_snd (other fn cx yf p) else on_fst (
  if fn =? FN_MSG_CREATE then create_box ts cx yf p
  else if fn =? FN_MSG_CLOSE then close_box ts cx yf p
  else if fn =? FN_MSG_SEND then send ts cx yf p
  else if fn =? FN_MSG_RECEIVE then receive ts cx yf p
  else if fn =? FN_MESSAGE_CREATE then new_msg cx p
  else if fn =? FN_MESSAGE_PAYLOAD then set_payload cx p
  else if fn =? FN_SET_ADDRESS then set_address cx p
  else if fn =? FN_MESSAGE_RELEASE then release_msg cx
  else HLoad (fun m => need (message_payload cx true m) (fun '(_, m) => HStore m (HRet STATUS_SUCCESS)))).
