(** Objects that differ only in attributes which pack() computes itself. *)
From Coq Require Import ZArith List Bool String.
From Verif Require Import Base PyText Ids PyVal Classes Interp Mutation SpecMutation.
Import ListNotations.
Open Scope string_scope.
Open Scope list_scope.
Open Scope Z_scope.

(** Attributes that pack() of the object itself computes: those of [computed]
    but the length of a header, which is computed by the message around it. *)
Definition recomputed (c : cid) (name : string) : bool :=
  match c with Header01 | Header04 => false | _ => computed c name end.

(** The attribute that holds the header of a message. *)
Definition header_of (c : cid) (name : string) : bool := subclass c CGenericMessage && String.eqb name "header".

(** [v'] is [v] except for what pack() computes, at any depth.  The flag says
    that [v] is the header of a message that is packed. *)
Inductive same_but (in_message : bool) : pyval -> pyval -> Prop :=
  | sb_same : forall v, same_but in_message v v
  | sb_bin : forall x x', same_but false x x' -> same_but in_message (VBin x) (VBin x')
  | sb_list : forall lc pc l l', Forall2 (same_but false) l l' -> same_but in_message (VList lc pc l) (VList lc pc l')
  | sb_obj : forall c attrs attrs',
      Forall2 (fun p q => fst p = fst q /\
        ((if in_message then computed c (fst p) else recomputed c (fst p)) = true \/
         same_but (header_of c (fst p)) (snd p) (snd q))) attrs attrs' ->
      same_but in_message (VObj c attrs) (VObj c attrs').
Definition up_to_lengths : pyval -> pyval -> Prop := same_but false.

(** [v'] is [v] after pack() has returned for it or for objects inside it, any
    number of times and in any order.  These objects may be parts of other
    messages, and are packed with them; the header may be the header of another
    message, which then stores its own length in it. *)
Inductive touched : pyval -> pyval -> Prop :=
  | to_none : forall v, touched v v
  | to_pack : forall v b, pack v = Ok b -> touched v (stored v)
  | to_bin : forall x x', touched x x' -> touched (VBin x) (VBin x')
  | to_list : forall lc pc l l', Forall2 touched l l' -> touched (VList lc pc l) (VList lc pc l')
  | to_obj : forall c attrs attrs', Forall2 (fun p q => fst p = fst q /\ touched (snd p) (snd q)) attrs attrs' ->
      touched (VObj c attrs) (VObj c attrs')
  | to_header : forall c attrs hc h s, subclass c CGenericMessage = true -> get_attr "header" attrs = Some (VObj hc h) ->
      touched (VObj c attrs) (VObj c (set_attr "header" (VObj hc (set_attr "length" (VInt s) h)) attrs))
  | to_then : forall v1 v2 v3, touched v1 v2 -> touched v2 v3 -> touched v1 v3.
