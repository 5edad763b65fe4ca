(** Vocabulary for typed lists. *)
From Coq Require Import ZArith List Bool String.
From Verif Require Import Base PyText Ids PyVal Classes Interp.
Import ListNotations.
Open Scope Z_scope.

(** Class [c] is [d] or derives from it. *)
Inductive derives : cid -> cid -> Prop :=
| de_same c : derives c c
| de_base c b d : class_base c = Some b -> derives b d -> derives c d.

Definition instance_of (d : cid) (v : pyval) : Prop := derives (class_of v) d.

(** Objects of one class; enumeration members and bit masks also carry the
    enumeration they belong to. *)
Inductive same_class : pyval -> pyval -> Prop :=
| sc_enum e x y : same_class (VEnum e x) (VEnum e y)
| sc_mask e x y : same_class (VMask e x) (VMask e y)
| sc_other a b : (forall e x, a <> VEnum e x /\ a <> VMask e x) ->
    (forall e x, b <> VEnum e x /\ b <> VMask e x) ->
    class_of a = class_of b -> same_class a b.

(** The objects reached by unfolding nested lists, left to right. *)
Inductive leaves : pyval -> list pyval -> Prop :=
| le_list lc pc items ls : all_leaves items ls -> leaves (VList lc pc items) ls
| le_leaf v : (forall lc pc items, v <> VList lc pc items) -> leaves v [v]
with all_leaves : list pyval -> list pyval -> Prop :=
| al_nil : all_leaves [] []
| al_cons x tl a b : leaves x a -> all_leaves tl b -> all_leaves (x :: tl) (a ++ b).

(** What adding the objects [ls] one after the other to [old] may give: all of
    them; or those before the first that is not accepted, and the error. *)
Inductive added (accept : pyval -> Prop) (old ls : list pyval) : list pyval -> option exn -> Prop :=
| ad_all : Forall accept ls -> added accept old ls (old ++ ls) None
| ad_stop good bad rest : ls = good ++ bad :: rest -> Forall accept good -> ~ accept bad ->
    added accept old ls (old ++ good) (Some WrongListItemType).
