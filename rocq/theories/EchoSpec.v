(** What the echo server owes a connection, over the bytes that the peer sends ([k_in])
    and gets back ([k_out]). *)
From Verif Require Import Base Status CodecModel MemModel AsyncModel AsyncSpec EchoModel.

(** From [a] to [b] by complete rounds of the fiber's loop. *)
Inductive rounds (f : fenv) : async -> async -> Prop :=
| rounds_none : forall a, rounds f a a
| rounds_more : forall a b c, echo_turn f a = Some (Again b) -> rounds f b c -> rounds f a c.

(** How a connection can end with status [e], when [d] was read in the last round, [c] bytes of
    it were sent and [rest] has not been read: a read fails; the stream ends; the wait for input
    fails; a write fails; the descriptor takes nothing; the wait for output fails. *)
Definition ending (f : fenv) (a : async) (e : Z) (d : list Z) (c : nat) (rest : list Z) : Prop :=
  (e = ERROR_PSOCK_READ_GENERAL /\ c = 0%nat /\ exists n, In (KFail n) (k_rs (a_k a)) /\ n <> EAGAIN) \/
  (e = ERROR_PSOCK_READ_EOF /\ c = 0%nat /\ (quiet (k_rs (a_k a)) -> rest = [])) \/
  (d = [] /\ (a_type a = PSOCK_TYPE_WRAP_ASYNC -> wait_status f (a_ys a) e)) \/
  (e = ERROR_PSOCK_WRITE_GENERAL /\ exists n, In (KFail n) (k_ws (a_k a)) /\ n <> EAGAIN) \/
  (e = ERROR_PSOCK_WRITE_EOF /\ ~ quiet (k_ws (a_k a))) \/
  ((a_type a = PSOCK_TYPE_WRAP_ASYNC -> wait_status f (a_ys a) e) /\ In (KFail EAGAIN) (k_ws (a_k a))).

(** The peer sends burst after burst, of 1 to 1024 bytes, and each has been read before the next
    arrives. *)
Definition in_bursts (bs : list (list Z)) (k : kern) : Prop :=
  Forall (fun b => (1 <= length b <= DATA_SIZE)%nat) bs /\ k_in k = concat bs /\
  k_rs k = flat_map (fun b => [KGive (length b - 1); KFail EAGAIN]) bs.
