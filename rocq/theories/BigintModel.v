(** Model of src/bigint/*.c over the heap of Heap.v. *)
From Verif Require Import Base Status Heap.

(** bigint_internal.h: sign, number of limbs, address of the limb array.  (The
    header and allocator fields are not modelled.)  Limbs are [uint64_t]. *)
Inductive bcell := BStruct (sign : bool) (len : nat) (array : Z) | BLimbs (l : list Z).

(** A create function's result: status, the stored pointer if one is stored, the heap. *)
Definition bres : Type := Z * option Z * heap bcell.

(** bigint_create_zero.c:64-147.  [al k] is the status of the k-th allocation, [pick]
    the allocator's choice of addresses, [size] the size in bits.  A block that
    reclaim refuses is treated as gone as well. *)
Definition bigint_create_zero (pick : list Z -> Z) (al : nat -> Z) (h : heap bcell) (size : Z) : option bres :=
  let byte_size0 := size / 8 in
  let byte_size := if 0 <? size mod 8 then byte_size0 + 1 else byte_size0 in
  let int_size0 := byte_size / 8 in
  let int_size := if 0 <? byte_size mod 8 then int_size0 + 1 else int_size0 in
  if al 0%nat =? STATUS_SUCCESS then
    let tmp := pick (addrs h) in
    let h1 := hadd h tmp (BStruct false 0 0) in
    if al 1%nat =? STATUS_SUCCESS then
      let arr := pick (addrs h1) in
      let h2 := hadd h1 arr (BLimbs (repeat 0 (Z.to_nat int_size))) in
      do h3 <- hstore h2 tmp (BStruct false (Z.to_nat int_size) arr);
      Some (STATUS_SUCCESS, Some tmp, h3)
    else do h2 <- hfree h1 tmp; Some (al 1%nat, None, h2)
  else Some (al 0%nat, None, h).

(** bigint_clone.c:52-121; copying the limbs reads exactly [length] of them. *)
Definition bigint_clone (pick : list Z -> Z) (al : nat -> Z) (h : heap bcell) (j : Z) : option bres :=
  if al 0%nat =? STATUS_SUCCESS then
    let tmp := pick (addrs h) in
    match hget h j with
    | Some (BStruct sg len ja) =>
        let h1 := hadd h tmp (BStruct sg len ja) in
        if al 1%nat =? STATUS_SUCCESS then
          let arr := pick (addrs h1) in
          match hget h1 ja with
          | Some (BLimbs l) =>
              if (length l =? len)%nat then
                let h2 := hadd h1 arr (BLimbs l) in
                do h3 <- hstore h2 tmp (BStruct sg len arr);
                Some (STATUS_SUCCESS, Some tmp, h3)
              else None
          | _ => None
          end
        else do h2 <- hfree h1 tmp; Some (al 1%nat, None, h2)
    | _ => None
    end
  else Some (al 0%nat, None, h).

(** bigint_release.c:28-50.  The third component lists the blocks handed back to the
    allocator with their contents at that moment. *)
Definition bigint_release (rc : nat -> Z) (h : heap bcell) (i : Z) : option (Z * heap bcell * list bcell) :=
  match hget h i with
  | Some (BStruct sg len arr) =>
      match hget h arr with
      | Some (BLimbs l) =>
          if (length l =? len)%nat then
            do h1 <- hstore h arr (BLimbs (repeat 0 len));
            do h2 <- hfree h1 arr;
            do h3 <- hfree h2 i;
            Some (if rc 1%nat =? STATUS_SUCCESS then rc 0%nat else rc 1%nat, h3,
                  [BLimbs (repeat 0 len); BStruct sg len arr])
          else None
      | _ => None
      end
  | _ => None
  end.
