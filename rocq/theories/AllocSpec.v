(** What allocators promise, independent of how they are written. *)
From Verif Require Import Base Status AllocModel.

(** A block: first address and size. *)
Definition block : Type := Z * Z.
Definition aligned16 (b : block) : Prop := fst b mod 16 = 0.
(** Inside the region, after a header of [hdr] bytes. *)
Definition inside (region rsize hdr : Z) (b : block) : Prop :=
  region + hdr <= fst b /\ fst b + snd b <= region + rsize.
Definition disjoint (a b : block) : Prop := fst a + snd a <= fst b \/ fst b + snd b <= fst a.
Definition pairwise_disjoint (l : list block) : Prop := ForallOrdPairs disjoint l.

(** The blocks handed out since the last reset, in a history of calls with their
    results (most recent first). *)
Fixpoint handed_out (acc : list block) (h : list (aop * (Z * option Z))) : list block :=
  match h with
  | [] => acc
  | (Allocate n, (e, Some p)) :: t => if e =? STATUS_SUCCESS then handed_out ((p, n) :: acc) t else handed_out acc t
  | (Control 32, (e, _)) :: t => if e =? STATUS_SUCCESS then handed_out [] t else handed_out acc t
  | _ :: t => handed_out acc t
  end.

(** A region of memory that can exist: not at address 0, not wrapping. *)
Definition region_ok (region rsize : Z) : Prop := 0 < region /\ 0 <= rsize /\ region + rsize <= 2^64.

(** Allocation requests of [os] satisfy [P]. *)
Definition requests (P : Z -> Prop) (os : list aop) : Prop :=
  Forall (fun o => match o with Allocate n => P n | _ => True end) os.

(** First multiple of 16 at or after [x]. *)
Definition align_up (x : Z) : Z := (x + 15) / 16 * 16.

(** First free address after a history: behind the last block, or behind the header. *)
Definition free_from (region : Z) (l : list block) : Z :=
  match l with [] => region + 40 | (p, n) :: _ => p + n end.

(** A request too small to make the offset arithmetic wrap. *)
Definition fits (rsize n : Z) : Prop := 0 <= n /\ n + rsize + 16 <= 2^64.

(** A C heap: distinct non-NULL addresses. *)
Definition cwf (h : cheap) : Prop := NoDup (map fst h) /\ ~ In 0 (map fst h).
