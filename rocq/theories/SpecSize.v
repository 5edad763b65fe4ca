(** Specification of sizes (C09, C10): the values whose get_size() can be
    relied on, besides being [built] and [regular].  The conditions leave out
    exactly the shapes whose size the library gets wrong (each is shown to be
    needed in P17_Sizes.v). *)
From Coq Require Import ZArith List Bool String.
From Verif Require Import Base PyText Ids PyVal Classes Interp SpecMutation SpecLayout.
Import ListNotations.
Open Scope string_scope.
Open Scope list_scope.
Open Scope Z_scope.

(** [f] holds of the objects in nested lists. *)
Fixpoint all_leaves (f : pyval -> bool) (v : pyval) : bool :=
  match v with
  | VList _ _ items => forallb (all_leaves f) items
  | _ => f v
  end.
Definition holds_nothing (v : pyval) : bool := all_leaves (fun _ => false) v.

(** Objects of basic types, and the number of bytes of those whose number is
    fixed. *)
Definition basic (v : pyval) : bool :=
  match v with VUInt _ _ _ | VPad _ | VChar _ _ | VIP _ _ | VHW _ | VDPID _ | VBin _ => true | _ => false end.
Definition width (v : pyval) : option nat :=
  match v with
  | VUInt w _ _ => Some w
  | VPad k => Some k
  | VChar n _ => Some n
  | VIP _ _ => Some 4%nat
  | VHW _ => Some 6%nat
  | VDPID _ => Some 8%nat
  | _ => None
  end.
Definition has_width (w : nat) (v : pyval) : bool :=
  match width v with Some x => Nat.eqb x w | None => false end.

(** A list of basic objects holds objects of one width. *)
Definition uniform (items : list pyval) : bool :=
  forallb (all_leaves (fun x => negb (basic x))) items ||
  match items with
  | x :: _ => match width x with Some w => forallb (has_width w) items | None => false end
  | [] => true
  end.

(** A list attribute declared as FixedTypeList, and not as one of its
    subclasses, is empty. *)
Definition sized_list (cv iv : pyval) : bool :=
  match cv, iv with
  | VList CFixedTypeList _ _, VList _ _ _ => holds_nothing iv
  | _, _ => true
  end.

(** The encoding of an OpenFlow 1.3 action is a multiple of 8 bytes long; the
    length attribute of a bucket, if there is one, is that of its encoding. *)
Definition sized_object (v : pyval) : bool :=
  match v with
  | VObj c attrs =>
      (if subclass c ActionHeader04
       then match pack v with Ok bs => zlen bs mod 8 =? 0 | Err _ => true end
       else true) &&
      (if cid_eqb c Bucket04
       then match get_attr "length" attrs, pack v with
            | Some VNone, _ | None, _ => true
            | Some l, Ok bs => match num_of l with Ok z => z =? zlen bs | Err _ => true end
            | _, Err _ => true
            end
       else true)
  | _ => true
  end.

Fixpoint measurable (v : pyval) : bool :=
  match v with
  | VObj c attrs =>
      forallb (fun p => match get_attr (fst p) (class_attrs c) with
                        | Some cv => sized_list cv (snd p)
                        | None => true
                        end && measurable (snd p)) attrs
      && sized_object v
  | VList _ _ items => uniform items && forallb measurable items
  | VBin x => measurable x
  | VChar n _ => negb (Nat.eqb n 0)
  | _ => true
  end.

(** A size that is not the number of bytes. *)
Definition wrong_size (v : pyval) : Prop :=
  built v = true /\ regular v = true /\ exists bs s, pack v = Ok bs /\ get_size v = Ok s /\ s <> zlen bs.
