(** Specification of what a header asks for: the message types by name, number or member. *)
From Coq Require Import ZArith List Bool String.
From Verif Require Import Base PyText Ids PyVal Classes Interp Utils SpecMsg SpecConstants.
Import ListNotations.
Open Scope Z_scope.

(** ofp_type of the standard. *)
Definition standard_types (v : of_version) : list (string * Z) :=
  match openflow_enum (type_enum v) with Some l => c_values l | None => [] end.

(** The value of message_type stands for the type code. *)
Inductive asks_for (v : of_version) : pyval -> Z -> Prop :=
| asks_number t : asks_for v (VInt t) t
| asks_member e t : is_int_enum e = true -> asks_for v (VEnum e t) t
| asks_field w er t : asks_for v (VUInt w er (VEnum (type_enum v) t)) t
| asks_name n t : In (n, t) (standard_types v) -> asks_for v (VStr (txt n)) t.

(** [attrs'] is [attrs] but for the attributes listed. *)
Definition same_but (names : list string) (attrs attrs' : list (string * pyval)) : Prop :=
  map fst attrs = map fst attrs' /\ forall n, ~ In n names -> get_attr n attrs' = get_attr n attrs.

(** The message in its initial state, with the transaction id and the length of the header. *)
Definition fresh_message (c : cid) (xid len m : pyval) : Prop :=
  exists attrs attrs' hc h h', new_instance c = Some (VObj c attrs) /\ m = VObj c attrs' /\ same_but ["header"%string] attrs attrs' /\
    get_attr "header" attrs = Some (VObj hc h) /\ get_attr "header" attrs' = Some (VObj hc h') /\
    same_but ["xid"; "length"]%string h h' /\ get_attr "xid" h' = Some xid /\ get_attr "length" h' = Some len.

(** Values without a pack() that are no bytes and not None. *)
Definition unpackable (v : pyval) : bool :=
  match v with VInt _ | VStr _ | VEnum _ _ | VMask _ _ => true | VList CList _ _ => true | _ => false end.
