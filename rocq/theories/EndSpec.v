(** Vocabulary for the claim about values exchanged between the two ends of a
    connection (C70).  Nothing here models code: the sockets are those of AsyncModel
    and BrModel, the readers and writers those of CodecModel. *)
From Verif Require Import Base Status CodecModel CodecSpec MemModel AsyncModel AsyncSpec.

(** An asynchronous socket between calls: system calls transfer something or would
    block, waiting works, and no fiber is waiting on it. *)
Definition ready (f : fenv) (a : async) : Prop :=
  quiet (k_rs (a_k a)) /\ quiet (k_ws (a_k a)) /\ waits_work f (a_ys a) /\
  a_type a = PSOCK_TYPE_WRAP_ASYNC /\ a_rfib a = 0 /\ a_wfib a = 0.

(** Bytes [d] arrive at a socket's descriptor. *)
Definition arrive (a : async) (d : list Z) : async :=
  let k := a_k a in set_k a (Kern (k_in k ++ d) (k_rs k) (k_out k) (k_ws k)).
(** The bytes handed to the kernel between two states of a socket. *)
Definition sent (a a' : async) : list Z := skipn (length (k_out (a_k a))) (k_out (a_k a')).

(** A conversation: in each turn one end ([true]: the first) writes a sequence of
    values, and the other reads values of those types from what arrives.  The result
    lists, for each turn, the writer's status, the reader's, and what was read. *)
Fixpoint talk (rst : Z) (junk : nat -> Z) (fa fb : fenv) (turns : list (bool * list value)) (a b : async)
  : list (Z * Z * list CodecSpec.received) :=
  match turns with
  | [] => []
  | (first, vs) :: t =>
      let '(fw, w, fr, r) := if (first : bool) then (fa, a, fb, b) else (fb, b, fa, a) in
      match write_all (async_ops fw) vs (Some w) with
      | Some (e, Some w') =>
          match read_all (async_ops fr) STATUS_SUCCESS rst junk (map kind_of vs) (Some (arrive r (sent w w'))) with
          | (e', got, Some r') =>
              (e, e', got) :: (if first then talk rst junk fa fb t w' r' else talk rst junk fa fb t r' w')
          | _ => []
          end
      | _ => []
      end
  end.

(** A transport that serves every blocking read of no more than what remains, also
    one of nothing at the end. *)
Definition total_reader {S} (o : sock_ops S) (R : S -> list Z -> Prop) : Prop :=
  op_vtable o = STATUS_SUCCESS /\
  forall s l n, R s l -> (n <= length l)%nat ->
    exists s', op_read o s n true = RRes STATUS_SUCCESS n (firstn n l) s' /\ R s' (skipn n l).
