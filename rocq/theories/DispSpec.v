(** Specification for C63: the descriptors of an echo server's connections. *)
From Verif Require Import Base Status MemModel Heap FdModel SockModel SockSpec DispModel.

(** What happens to a server: it accepts a connection (the descriptor is in [acc]) while
    quiescing or not; the fiber of a connection ends and releases its context. *)
Inductive event := Incoming (acc : ans) (quiesce : bool) (d : dans) | Finished (q : Z) (rel : ans) (crc : Z).
(** The world and the sockets of the connections being served. *)
Definition happens (ev : event) (w : world) (conns : list Z) : option (world * list Z) :=
  match ev with
  | Incoming acc quiesce d =>
      do r <- serve quiesce d (a_fd acc) (opened acc w);
      Some (s_world r, match s_conn r with Some q => q :: conns | None => conns end)
  | Finished q rel crc => do '(_, w) <- release_context rel crc (Some q) w; Some (w, filter (fun x => negb (x =? q)) conns)
  end.
Fixpoint happen (evs : list event) (w : world) (conns : list Z) : option (world * list Z) :=
  match evs with [] => Some (w, conns) | ev :: t => do '(w, conns) <- happens ev w conns; happen t w conns end.

(** The answers of a call that opens no descriptor *)
Definition opens_nothing (a : ans) : Prop := good_pick (a_pick a) /\ a_fd a < 0 /\ a_cms a = [].
(** accept(2) returns an unused descriptor; the server quiesces, or the first allocation of
    dispatch may fail but nothing after it; a connection ends once. *)
Definition benign (ev : event) (w : world) (conns : list Z) : Prop :=
  match ev with
  | Incoming acc quiesce d =>
      0 <= a_fd acc /\ w_t w (a_fd acc) = None /\ good_pick (a_pick acc) /\ a_cms acc = [] /\
      opens_nothing (d_sock d) /\ opens_nothing (d_wrap d) /\
      (quiesce = true \/ a_al (d_sock d) <> STATUS_SUCCESS \/
       (d_ctx d = STATUS_SUCCESS /\ d_fiber d = STATUS_SUCCESS /\ d_add d = STATUS_SUCCESS /\
        a_disc (d_wrap d) = STATUS_SUCCESS /\ a_al (d_wrap d) = STATUS_SUCCESS /\ a_nb (d_wrap d) = STATUS_SUCCESS))
  | Finished q rel crc => In q conns
  end.
Fixpoint benigns (evs : list event) (w : world) (conns : list Z) : Prop :=
  match evs with
  | [] => True
  | ev :: t => benign ev w conns /\ match happens ev w conns with Some (w', conns') => benigns t w' conns' | None => True end
  end.

(** How many connections were accepted; how often close(2) was called. *)
Definition accepted (evs : list event) : nat := length (filter (fun ev => match ev with Incoming _ _ _ => true | _ => false end) evs).
Definition closes (log : list call) : nat := length (filter (fun c => match c with CClose _ => true | _ => false end) log).

(** Each connection has its own descriptor, open; no other descriptor is open but the ones in [own]. *)
Definition served (own : list (Z * Z)) (w : world) (conns : list Z) : Prop :=
  NoDup conns /\ exists ds : list (Z * Z), length ds = length conns /\ NoDup (map fst (own ++ ds)) /\
    (forall fd obj, w_t w fd = Some obj <-> In (fd, obj) (own ++ ds)) /\
    Forall2 (fun q d => exists c ty, hget (w_h w) q = Some (SWrap c ty) /\ hget (w_h w) c = Some (SDesc (fst d) ty)) conns ds.
