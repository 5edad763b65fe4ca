(** Which objects can be reached from an object, and what an object contains. *)
From Coq Require Import ZArith List Bool String.
From Verif Require Import Base PyVal Ids Classes Inits Construct Heap.
Import ListNotations.
Open Scope list_scope.

(** The references held by a cell. *)
Definition kids (c : cell) : list hval :=
  match c with
  | LeafCell _ => []
  | StructCell _ fs => map snd fs
  | ListCell _ _ items => items
  end.

(** Following references from [r] leads to the object at [l]. *)
Inductive reach (h : heap) : hval -> loc -> Prop :=
| reach_here l : reach h (HRef l) l
| reach_step l c r l' : nth_error h l = Some c -> In r (kids c) -> reach h r l' -> reach h (HRef l) l'.

(** References lead to objects of the heap. *)
Definition inside (h : heap) (r : hval) : Prop := match r with HImm _ => True | HRef l => (l < List.length h)%nat end.
Definition closed (h : heap) : Prop := forall l c r, nth_error h l = Some c -> In r (kids c) -> inside h r.

(** Objects of the basic types and bit masks. *)
Definition basic_object (v : pyval) : bool :=
  match v with VObj _ _ | VList _ _ _ => false | _ => negb (immutable v) end.

(** The contents of what [r] refers to. *)
Inductive holds (h : heap) : hval -> pyval -> Prop :=
| holds_imm v : immutable v = true -> holds h (HImm v) v
| holds_leaf l v : nth_error h l = Some (LeafCell v) -> basic_object v = true -> holds h (HRef l) v
| holds_struct l c fs attrs : nth_error h l = Some (StructCell c fs) -> holds_dict h fs attrs -> holds h (HRef l) (VObj c attrs)
| holds_list l lc pc rs items : nth_error h l = Some (ListCell lc pc rs) -> holds_items h rs items -> holds h (HRef l) (VList lc pc items)
with holds_dict (h : heap) : hdict -> list (string * pyval) -> Prop :=
| dict_nil : holds_dict h [] []
| dict_cons n r v fs attrs : holds h r v -> holds_dict h fs attrs -> holds_dict h ((n, r) :: fs) ((n, v) :: attrs)
with holds_items (h : heap) : list hval -> list pyval -> Prop :=
| items_nil : holds_items h [] []
| items_cons r v rs vs : holds h r v -> holds_items h rs vs -> holds_items h (r :: rs) (v :: vs).

(** The heap after any assignments to objects that [r] leads to, and any new objects. *)
Definition changed_through (r : hval) (h h' : heap) : Prop :=
  forall l c, nth_error h l = Some c -> ~ reach h r l -> nth_error h' l = Some c.

(** Defaults of parameters that are mutable objects, of the constructors a call of [c] runs. *)
Fixpoint mutable_defaults_n (n : nat) (k : cid) : list (cid * string) :=
  match n with
  | O => []
  | S n' =>
      match init_code k with
      | Some (ps, _) => map (fun p => (k, fst p)) (filter (fun p => negb (immutable (snd p))) ps)
      | None => []
      end ++ match class_base k with Some b => mutable_defaults_n n' b | None => [] end
  end.
Definition mutable_defaults (c : cid) : list (cid * string) := mutable_defaults_n INIT_DEPTH c.

(** What a call may take over: its arguments and mutable defaults. *)
Definition roots (shared : cid -> string -> loc) (c : cid) (pos : list hval) (kw : hdict) (r : hval) : Prop :=
  In r pos \/ In r (map snd kw) \/ In r (map (fun p => HRef (shared (fst p) (snd p))) (mutable_defaults c)).
Definition roots_inside shared (c : cid) (pos : list hval) (kw : hdict) (h : heap) : Prop :=
  forall r, roots shared c pos kw r -> inside h r.

(** The mutable defaults listed are at their places. *)
Definition defaults_hold (shared : cid -> string -> loc) (h : heap) (ds : list (cid * string)) : Prop :=
  forall k m ps code v, In (k, m) ds -> init_code k = Some (ps, code) -> In (m, v) ps -> holds h (HRef (shared k m)) v.

(** The attribute [p] of the object at [l] is the object [r] itself. *)
Definition attribute (h : heap) (l : loc) (p : string) (r : hval) : Prop :=
  exists c fs, nth_error h l = Some (StructCell c fs) /\ NoDup (map fst fs) /\ In (p, r) fs.

(** The value of a keyword of a match of OpenFlow 1.0 has the form it is
    stored in: addresses are address objects. *)
Definition own_form (p : string) (v : pyval) : bool :=
  if (String.eqb p "nw_src" || String.eqb p "nw_dst")%bool then match v with VIP _ _ => true | _ => false end
  else if (String.eqb p "dl_src" || String.eqb p "dl_dst")%bool then match v with VHW _ => true | _ => false end
  else true.
