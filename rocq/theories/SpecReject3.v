(** What pack() refuses, for multipart messages of any type (C65). *)
From Coq Require Import ZArith List Bool String.
From Verif Require Import Base PyText Ids PyVal Classes Interp Utils Spec SpecBasic SpecMutation SpecLayout SpecMsg SpecReject SpecReject2.
Import ListNotations.
Open Scope string_scope.
Open Scope list_scope.
Open Scope Z_scope.

(** The number that a type stands for when the list for a body is looked up
    ([Ok None]: none), or the exception. *)
Inductive type_asked : pyval -> res (option Z) -> Prop :=
| ta_int z : type_asked (VInt z) (Ok (Some z))
| ta_member e z : int_enumeration e -> type_asked (VEnum e z) (Ok (Some z))
| ta_field e z : int_enumeration e -> declared e z -> type_asked (VUInt 2 (Some e) (VInt z)) (Ok (Some z))
| ta_field_member e e' z : int_enumeration e -> int_enumeration e' -> declared e z -> type_asked (VUInt 2 (Some e) (VEnum e' z)) (Ok (Some z))
| ta_unknown e z : int_enumeration e -> ~ declared e z -> type_asked (VUInt 2 (Some e) (VInt z)) (Err ValueError)
| ta_unknown_member e e' z : int_enumeration e -> int_enumeration e' -> ~ declared e z -> type_asked (VUInt 2 (Some e) (VEnum e' z)) (Err ValueError)
| ta_no_number e x : int_enumeration e -> x = VNone \/ (exists s, x = VStr s) \/ (exists b, x = VBytes b) ->
    type_asked (VUInt 2 (Some e) x) (Err ValueError)
| ta_no_enum x : type_asked (VUInt 2 None x) (Err TypeError)
| ta_object v : no_object v = false -> (forall er x, v <> VUInt 2 er x) -> type_asked v (Err TypeError)
| ta_list lc pc l : type_asked (VList lc pc l) (Err TypeError)
| ta_none : type_asked VNone (Ok None)
| ta_text s : type_asked (VStr s) (Ok None)
| ta_bytes b : type_asked (VBytes b) (Ok None)
| ta_plain e z : ~ int_enumeration e -> type_asked (VEnum e z) (Ok None)
| ta_mask e z : type_asked (VMask e z) (Ok None).

(** The class of the items of the list. *)
Definition list_for (f : stats_family) (t : option Z) (c : cid) : Prop := exists z, t = Some z /\ In (z, BList c) (stats_forms f).

Definition multipart_any_raises (f : stats_family) (attrs : list (string * pyval)) (a : res (option Z)) (e : exn) : Prop :=
  exists d, get_attr "body" attrs = Some d /\
    (no_truth d e \/
     false_value d /\ message_raises (stats_class f) attrs e \/
     true_value d /\
     match d with
     | VList _ _ _ =>
         match a with
         | Err e' => e = e'
         | Ok t =>
             (exists c, list_for f t c /\ exists items, leaf_list d items /\
               (Exists (other_class c) items /\ e = WrongListItemType \/
                Forall (fun x => subclass (class_of x) c = true) items /\
                by_bytes (stats_class f) "body" VBytes attrs (VList CFixedTypeList c items) e)) \/
             (forall c, ~ list_for f t c) /\ e = AttributeError
         end
     | _ => no_object d = true /\ e = UnboundLocalError \/
            no_object d = false /\ by_bytes (stats_class f) "body" VBytes attrs d e
     end).
