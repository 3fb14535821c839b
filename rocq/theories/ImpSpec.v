(** What a program that uses the short names of the import macros relies on. *)
From Coq Require Import String List Bool Ascii.
From Verif Require Import ImpModel.
Import ListNotations.
Local Open Scope string_scope.

(** A call with [n] arguments fits a function: as many as its parameters, or at least those before an ellipsis. *)
Definition variadic (p : proto) : Prop := exists ts, p_types p = (ts ++ ["..."])%list.
Definition accepts (p : proto) (n : nat) : Prop :=
  (~ variadic p /\ length (p_types p) = n) \/ (variadic p /\ length (p_types p) <= S n).
(** The function that takes a va_list in place of the ellipsis. *)
Definition va_form (n : string) : string := if String.eqb n "strcatv" then "vstrcat" else "v" ++ n.
(** A file has the value of the function's result, unless it has none. *)
Definition has_value (p : proto) : bool := negb (String.eqb (p_ret p) "void").
(** What is behind a call of the function [p] with the values [vs]: the function itself, given these values
    in this order; for a variadic function, the form with a va_list, given the first ones so and all the
    others in the va_list. *)
Definition means {V} (major minor : string) (p : proto) (vs : list V) (e : effect V) : Prop :=
  (~ variadic p /\ e = Effect (rcpr_sym major minor (p_name p)) (map Val vs) (has_value p)) \/
  (exists ts first rest, p_types p = (ts ++ ["..."])%list /\ length first = length ts /\ vs = (first ++ rest)%list /\
     e = Effect (rcpr_sym major minor (va_form (p_name p))) (map Val first ++ [More rest])%list true).

(** Names that a header's import declares. *)
Definition gives (h : list entry) (n : string) : Prop := exists w, In (DFun w) h /\ w_name w = n.
Definition gives_type (h : list entry) (n : string) : Prop := exists t, In (DType n t) h.

(** A part of an identifier without an underscore, and one of digits only. *)
Fixpoint all_chars (P : ascii -> bool) (s : string) : bool :=
  match s with EmptyString => true | String c s' => P c && all_chars P s' end.
Definition no_underscore (s : string) : Prop := all_chars (fun c => negb (Ascii.eqb c "_")) s = true.
Definition digit (c : ascii) : bool := Nat.leb 48 (nat_of_ascii c) && Nat.leb (nat_of_ascii c) 57.
Definition digits (s : string) : Prop := all_chars digit s = true.

(** Public functions that no source of the library defines, though their imports call them. *)
Definition missing : list string :=
  ["bigint_modulus_int"; "bigint_divide_int"; "prop_bigint_valid";
   "property_allocator_valid"; "property_auto_reset_trigger_valid"; "prop_fiber_valid"; "prop_fiber_scheduler_valid";
   "property_list_valid"; "property_list_node_valid"; "prop_message_valid"; "prop_psock_valid"; "prop_queue_valid";
   "prop_rbtree_valid"; "prop_resource_valid"; "property_slist_valid"; "property_slist_node_valid"; "prop_stack_valid";
   "prop_thread_valid"; "prop_thread_mutex_valid"; "prop_thread_cond_valid"; "prop_thread_mutex_lock_valid"; "prop_uuid_valid"].
