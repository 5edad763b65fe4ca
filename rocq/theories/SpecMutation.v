(** Specification of repeated packing (C45). *)
From Coq Require Import ZArith List Bool String.
From Verif Require Import Base PyText Ids PyVal Classes Interp.
Import ListNotations.
Open Scope string_scope.
Open Scope list_scope.
Open Scope Z_scope.

(** Attributes that pack() computes. *)
Definition computed (c : cid) (name : string) : bool :=
  match c with
  | OxmTLV04 => String.eqb name "oxm_length" || String.eqb name "oxm_field_and_mask"
  | PacketOut01 | PacketOut04 => String.eqb name "actions_len"
  | Header01 | Header04 | HelloElemHeader04 | TableFeatures04 | MeterStats04 | Match04 => String.eqb name "length"
  | _ => (subclass c Instruction04 || subclass c Property04 || subclass c ActionSetField04) && String.eqb name "length"
  end.

(** [v'] is [v] except for computed attributes, in [v] and in the objects
    inside it. *)
Inductive only_computed : pyval -> pyval -> Prop :=
  | oc_same : forall v, only_computed v v
  | oc_bin : forall x x', only_computed x x' -> only_computed (VBin x) (VBin x')
  | oc_list : forall lc pc l l', Forall2 only_computed l l' -> only_computed (VList lc pc l) (VList lc pc l')
  | oc_obj : forall c attrs attrs',
      Forall2 (fun p q => fst p = fst q /\ (computed c (fst p) = true \/ only_computed (snd p) (snd q))) attrs attrs' ->
      only_computed (VObj c attrs) (VObj c attrs').

(** Objects as constructors make them: the attributes of the class are there,
    in order (others may be among them), and so are those of the objects
    inside; a header is a Header. *)
Definition has_attributes (c : cid) (attrs : list (string * pyval)) : bool :=
  let mine := filter (fun p => existsb (fun q => String.eqb (fst q) (fst p)) (class_attrs c)) attrs in
  if list_eq_dec string_dec (map fst mine) (map fst (class_attrs c)) then true else false.
Definition header_ok (p : string * pyval) : bool :=
  if String.eqb (fst p) "header"
  then match snd p with VObj Header01 _ | VObj Header04 _ => true | VObj _ _ => false | _ => true end
  else true.
Fixpoint built (v : pyval) : bool :=
  match v with
  | VObj c attrs => has_attributes c attrs && forallb header_ok attrs && forallb (fun p => built (snd p)) attrs
  | VList _ _ items => forallb built items
  | VBin x => built x
  | _ => true
  end.
