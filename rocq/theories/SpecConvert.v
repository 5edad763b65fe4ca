(** Vocabulary for conversions of basic types. *)
From Coq Require Import ZArith List Bool String.
From Verif Require Import Base PyText Ids PyVal Classes SpecBasic SpecMatch.
Import ListNotations.
Open Scope string_scope.
Open Scope list_scope.
Open Scope Z_scope.

(** A member of an enumeration that is not a number in Python. *)
Definition plain_class (e : eid) : Prop := exists members, enum_def e = EPlain members.

(** The value kept is a bit mask or a member of a plain enumeration. *)
Inductive not_a_number : pyval -> Prop :=
| nan_mask e z : not_a_number (VMask e z)
| nan_member e z : plain_class e -> not_a_number (VEnum e z).

(** Address of every station. *)
Definition everyone : bytes := [255; 255; 255; 255; 255; 255].

(** A field without an enumeration or with one whose members are numbers. *)
Definition number_field (er : option eid) : Prop :=
  match er with None => True | Some e => exists members, enum_def e = EInt members end.
