(** Mutation of FixedTypeList and ConstantTypeList objects.

    The state is the list of elements; a call gives the new state and the
    exception it raised, if any: elements added before the exception stay.
    Simplifications: the arguments do not contain the list itself (appending a
    list to itself does not terminate in Python); bool and int are one class;
    extend and [+=] accept lists, str and bytes as iterables. *)
From Coq Require Import ZArith List Bool String.
From Verif Require Import Base PyText Ids PyVal Classes Interp.
Import ListNotations.
Open Scope string_scope.
Open Scope list_scope.
Open Scope Z_scope.

Definition elements_after : Type := list pyval * option exn.

(** Python's list.insert position, list.pop position. *)
Definition insert_at (n : nat) (i : Z) : nat :=
  let j := if i <? 0 then i + Z.of_nat n else i in
  Z.to_nat (Z.min (Z.max j 0) (Z.of_nat n)).
Definition list_insert (i : Z) (x : pyval) (l : list pyval) : list pyval :=
  let k := insert_at (List.length l) i in firstn k l ++ x :: skipn k l.
Definition item_at (n : nat) (i : Z) : option nat :=
  let j := if i <? 0 then i + Z.of_nat n else i in
  if (0 <=? j) && (j <? Z.of_nat n) then Some (Z.to_nat j) else None.

(** [for item in items: self.append(item)], basic_types.py:658-659. *)
Fixpoint each (append : pyval -> list pyval -> elements_after) (items l : list pyval)
  : elements_after :=
  match items with
  | [] => (l, None)
  | x :: tl => match append x l with
               | (l', None) => each append tl l'
               | (l', Some e) => (l', Some e)
               end
  end.

(** extend, basic_types.py:647-659. *)
Definition list_extend_with (append : pyval -> list pyval -> elements_after) (arg : pyval)
           (l : list pyval) : elements_after :=
  match iterate arg with
  | Ok items => each append items l
  | Err e => (l, Some e)
  end.

(** FixedTypeList.append of one object that is not a list,
    basic_types.py:769-773. *)
Definition fixed_add (pc : cid) (item : pyval) (put : list pyval -> list pyval) (l : list pyval)
  : elements_after :=
  if cid_eqb pc CNone then (l, Some TypeError)
  else if subclass (class_of item) pc then (put l, None)
  else (l, Some WrongListItemType).

(** FixedTypeList.append, basic_types.py:756-773. *)
Fixpoint fixed_append (pc : cid) (item : pyval) (l : list pyval) : elements_after :=
  match item with
  | VList _ _ items =>
      (fix go (items l : list pyval) : elements_after :=
         match items with
         | [] => (l, None)
         | x :: tl => match fixed_append pc x l with
                      | (l', None) => go tl l'
                      | (l', Some e) => (l', Some e)
                      end
         end) items l
  | _ => fixed_add pc item (fun l => l ++ [item]) l
  end.

(** FixedTypeList.insert, basic_types.py:775-792. *)
Definition fixed_insert (pc : cid) (i : Z) (item : pyval) (l : list pyval) : elements_after :=
  fixed_add pc item (list_insert i item) l.

(** item.__class__ == other.__class__ *)
Definition enum_class (v : pyval) : option eid :=
  match v with VEnum e _ | VMask e _ => Some e | _ => None end.
Definition class_eqb (a b : pyval) : bool :=
  cid_eqb (class_of a) (class_of b) &&
  match enum_class a, enum_class b with
  | Some e, Some f => eid_eqb e f
  | None, None => true
  | _, _ => false
  end.

(** ConstantTypeList.append of one object that is not a list,
    basic_types.py:848-854. *)
Definition constant_add (item : pyval) (put : list pyval -> list pyval) (l : list pyval)
  : elements_after :=
  match l with
  | [] => ([item], None)
  | first :: _ => if class_eqb item first then (put l, None) else (l, Some WrongListItemType)
  end.

(** ConstantTypeList.append, basic_types.py:835-854. *)
Fixpoint constant_append (item : pyval) (l : list pyval) : elements_after :=
  match item with
  | VList _ _ items =>
      (fix go (items l : list pyval) : elements_after :=
         match items with
         | [] => (l, None)
         | x :: tl => match constant_append x l with
                      | (l', None) => go tl l'
                      | (l', Some e) => (l', Some e)
                      end
         end) items l
  | _ => constant_add item (fun l => l ++ [item]) l
  end.

(** ConstantTypeList.insert, basic_types.py:856-876. *)
Definition constant_insert (i : Z) (item : pyval) (l : list pyval) : elements_after :=
  constant_add item (list_insert i item) l.

(** Calls on a typed list: the three methods above and the methods of the
    built-in list that remove, reorder or repeat: [l.pop(i)] (or [del l[i]]),
    [l.clear()], [l.reverse()], [del l[i:j]] and [l *= n].  The classes define
    none of these last five. *)
Inductive lop : Type :=
| OAppend (v : pyval)
| OExtend (v : pyval)
| OInsert (i : Z) (v : pyval)
| OPop (i : Z)
| OClear
| OReverse
| ODelSlice (i j : Z)
| OTimes (n : Z).

Definition common_op (op : lop) (l : list pyval) : elements_after :=
  match op with
  | OPop i => match item_at (List.length l) i with
              | Some k => (firstn k l ++ skipn (S k) l, None)
              | None => (l, Some IndexError)
              end
  | OClear => ([], None)
  | OReverse => (rev l, None)
  | ODelSlice i j =>
      let a := insert_at (List.length l) i in
      let b := insert_at (List.length l) j in
      (firstn a l ++ skipn (Nat.max a b) l, None)
  | OTimes n => (List.concat (repeat l (Z.to_nat n)), None)
  | _ => (l, None)
  end.
Definition fixed_op (pc : cid) (op : lop) (l : list pyval) : elements_after :=
  match op with
  | OAppend v => fixed_append pc v l
  | OExtend v => list_extend_with (fixed_append pc) v l
  | OInsert i v => fixed_insert pc i v l
  | _ => common_op op l
  end.
Definition constant_op (op : lop) (l : list pyval) : elements_after :=
  match op with
  | OAppend v => constant_append v l
  | OExtend v => list_extend_with constant_append v l
  | OInsert i v => constant_insert i v l
  | _ => common_op op l
  end.

(** A caller that goes on after exceptions. *)
Fixpoint run (step : lop -> list pyval -> elements_after) (ops : list lop) (l : list pyval)
  : list pyval :=
  match ops with
  | [] => l
  | op :: tl => run step tl (fst (step op l))
  end.

(** The methods of the built-in list that neither class overrides:
    [l[i] = v] and [l += v]. *)
Definition list_setitem (i : Z) (v : pyval) (l : list pyval) : elements_after :=
  match item_at (List.length l) i with
  | Some k => (firstn k l ++ v :: skipn (S k) l, None)
  | None => (l, Some IndexError)
  end.
Definition list_iadd (v : pyval) (l : list pyval) : elements_after :=
  match iterate v with
  | Ok items => (l ++ items, None)
  | Err e => (l, Some e)
  end.
