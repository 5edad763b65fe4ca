(** Vocabulary for the operators of the basic types. *)
From Coq Require Import ZArith List Bool String.
From Verif Require Import Base PyText Ids PyVal Classes Interp SpecBasic.
Import ListNotations.
Open Scope Z_scope.

(** An unsigned integer object standing for the number [a]: a plain integer, a
    member of the enumeration of its field, or a bit mask. *)
Inductive holds : pyval -> Z -> Prop :=
| ho_int w er a : holds (VUInt w er (VInt a)) a
| ho_enum w e a : ~ bit_mask_class e -> holds (VUInt w (Some e) (VEnum e a)) a
| ho_mask w er e a :
    match er with None => True | Some f => bit_mask_class f end ->
    holds (VUInt w er (VMask e a)) a.

(** The ones Python can order: integers and members of an IntEnum. *)
Inductive ordered : pyval -> Z -> Prop :=
| or_int w er a : ordered (VUInt w er (VInt a)) a
| or_enum w er e members a : enum_def e = EInt members -> ordered (VUInt w er (VEnum e a)) a.

Definition width_of (v : pyval) : nat := match v with VUInt w _ _ => w | _ => O end.

(** Declared names of a bit mask class with a bit in common with [bits]. *)
Inductive selected (bits : Z) : list (string * Z) -> list string -> Prop :=
| se_nil : selected bits [] []
| se_in k z l names : (exists i, 0 <= i /\ Z.testbit z i = true /\ Z.testbit bits i = true) ->
    selected bits l names -> selected bits ((k, z) :: l) (k :: names)
| se_out k z l names : (forall i, 0 <= i -> Z.testbit z i = true -> Z.testbit bits i = false) ->
    selected bits l names -> selected bits ((k, z) :: l) names.
