(** Histories of calls on an in-memory socket and what they should produce. *)
From Verif Require Import Base Status CodecModel MemModel.

(** One write call: the allocator's answers during it, and the data. *)
Record wcall := WCall { wc_al : nat -> Z; wc_rc : nat -> Z; wc_junk : nat -> Z; wc_data : list Z }.

(** Outcomes (status and reported size) of a sequence of writes, and the socket
    afterwards; [None] if undefined behaviour occurred. *)
Fixpoint write_history (ws : list wcall) (s : pb) : option (list (Z * nat) * pb) :=
  match ws with
  | [] => Some ([], s)
  | w :: t =>
      match mem_write (wc_al w) (wc_rc w) (wc_junk w) s (wc_data w) with
      | Some r => match write_history t (mw_sock r) with
                  | Some (l, s') => Some ((mw_status r, mw_size r) :: l, s')
                  | None => None
                  end
      | None => None
      end
  end.

(** The bytes of the calls that succeeded, in order. *)
Fixpoint accepted (ws : list wcall) (rs : list (Z * nat)) : list Z :=
  match ws, rs with
  | w :: t, (e, _) :: u => (if e =? STATUS_SUCCESS then wc_data w else []) ++ accepted t u
  | _, _ => []
  end.

(** A sequence of reads with the given sizes: status and bytes of each. *)
Fixpoint read_history (ns : list nat) (s : pb) : list (Z * list Z) * pb :=
  match ns with
  | [] => ([], s)
  | n :: t => let r := mem_read s n in
              let '(l, s') := read_history t (rr_sock r) in
              ((rr_status r, firstn (rr_size r) (rr_data r)) :: l, s')
  end.

(** What reading [ns] from a finite stream should give: consecutive slices, and
    end of file exactly once nothing is left. *)
Fixpoint slices (ns : list nat) (l : list Z) : list (Z * list Z) :=
  match ns with
  | [] => []
  | n :: t => match l with
              | [] => (ERROR_PSOCK_READ_EOF, []) :: slices t []
              | _ => (STATUS_SUCCESS, firstn n l) :: slices t (skipn n l)
              end
  end.

(** All allocations and reclaims succeed. *)
Definition always_ok : nat -> Z := fun _ => STATUS_SUCCESS.

(** Blocks owned by a socket, the socket structure itself included. *)
Definition owned (s : pb) : Z :=
  1 + (match pb_input s with Some _ => 1 | None => 0 end)
    + (match pb_cur s with Some _ => 1 | None => 0 end)
    + (match pb_queue s with Some q => 1 + 3 * Z.of_nat (length q) | None => 0 end).

(** Memory accounting of write histories with a working reclaim. *)
Fixpoint net_history (ws : list wcall) (s : pb) : Z :=
  match ws with
  | [] => 0
  | w :: t => match mem_write (wc_al w) (wc_rc w) (wc_junk w) s (wc_data w) with
              | Some r => mw_net r + net_history t (mw_sock r)
              | None => 0
              end
  end.

(** A constructor either succeeds, delivering an object for whose blocks it
    accounts, or reports an error, delivers nothing and keeps no block. *)
Definition no_leak {A} (blocks : A -> Z) (c : ctor A) : Prop :=
  (ct_status c = STATUS_SUCCESS /\ exists x, ct_obj c = Some x /\ ct_net c = blocks x) \/
  (ct_status c <> STATUS_SUCCESS /\ ct_obj c = None /\ ct_net c = 0).

(** The allocations of a write in order: whether it is made, its status, the statuses of
    the reclaims if it fails, and the blocks kept for the write until then.  [fills]: the
    data reach the end of the current buffer; [large]: at least a buffer's worth is left. *)
Definition write_sites (al rc : nat -> Z) (fills large : bool) : list (bool * Z * list Z * Z) :=
  [(fills, al 0%nat, [], 0); (fills, al 1%nat, [rc 0%nat], 1); (fills, al 2%nat, [], 2);
   (large, al 3%nat, [], 3); (large, al 4%nat, [rc 1%nat], 4); (large, al 5%nat, [rc 2%nat; rc 1%nat], 5)].
(** The first allocation to fail decides; a failing reclaim hides its status and keeps a block. *)
Fixpoint first_failure (l : list (bool * Z * list Z * Z)) : option (Z * Z) :=
  match l with
  | [] => None
  | (made, e, cleanups, held) :: t =>
      if (made && negb (e =? 0))%bool
      then Some (fold_left (fun e c => if c =? 0 then e else c) cleanups e,
                 fold_left (fun n c => if c =? 0 then n - 1 else n) cleanups held)
      else first_failure t
  end.
