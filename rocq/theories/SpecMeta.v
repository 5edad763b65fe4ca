(** Specification of attribute inheritance (C42). *)
From Coq Require Import ZArith List Bool String.
From Verif Require Import Base PyText Ids PyVal Classes Interp Bodies.
Import ListNotations.
Open Scope string_scope.
Open Scope list_scope.
Open Scope Z_scope.

(** ** Order of the fields *)

(** Names of a body in order of their first assignment. *)
Fixpoint first_names {A : Type} (seen : list string) (l : list (string * A)) : list string :=
  match l with
  | [] => []
  | (n, _) :: tl => if existsb (String.eqb n) seen then first_names seen tl else n :: first_names (n :: seen) tl
  end.

(** The last binding of a name. *)
Fixpoint last_binding {A : Type} (n : string) (l : list (string * A)) : option A :=
  match l with
  | [] => None
  | (k, x) :: tl =>
      match last_binding n tl with
      | Some y => Some y
      | None => if String.eqb k n then Some x else None
      end
  end.

Definition kept (removed : list string) (base : list (string * pyval)) : list (string * pyval) :=
  filter (fun p => negb (existsb (String.eqb (fst p)) removed)) base.

(** One field of the base: as in the body when the body assigns it. *)
Definition base_field (body : list (string * option pyval)) (p : string * pyval) : list (string * pyval) :=
  match last_binding (fst p) body with
  | None => [p]
  | Some (Some o) => [(fst p, o)]
  | Some None => []
  end.
Definition body_field (body : list (string * option pyval)) (n : string) : list (string * pyval) :=
  match last_binding n body with Some (Some o) => [(n, o)] | _ => [] end.

(** The fields of the subclass, [base] being the inherited fields in the
    version of the subclass. *)
Definition fields_of (base : list (string * pyval)) (removed : list string) (body : list (string * option pyval))
    : list (string * pyval) :=
  flat_map (base_field body) (kept removed base) ++
  flat_map (body_field body) (first_names (map fst (kept removed base)) body).

(** ** Versions *)

Definition digits (d : text) : Prop := d <> [] /\ Forall (fun c => 48 <= c <= 57) d.

(** Module name [m] is [rest] in the package of version [v]. *)
Definition in_version (v rest m : text) : Prop :=
  (exists d, digits d /\ v = txt "v0x" ++ d) /\ m = txt "pyof." ++ v ++ txt "." ++ rest.

Definition occurs (w s : text) : Prop := exists a b, s = a ++ w ++ b.

(** The object that stands for [o] in version [v]. *)
Inductive at_version (v : text) (o : pyval) : pyval -> Prop :=
  | unversioned : (forall w rest, ~ in_version w rest (txt (snd (class_place (class_of o))))) -> at_version v o o
  | same_version : forall rest, in_version v rest (txt (snd (class_place (class_of o)))) -> at_version v o o
  | other_version : forall w rest c o',
      in_version w rest (txt (snd (class_place (class_of o)))) -> w <> v ->
      fst (class_place c) = fst (class_place (class_of o)) ->
      txt (snd (class_place c)) = txt "pyof." ++ v ++ txt "." ++ rest ->
      new_instance c = Some o' -> at_version v o o'.

Definition members_of (e : eid) : list (string * Z) :=
  match enum_def e with EInt l | EPlain l | EMask l => l end.

Definition has_type (h t : pyval) : Prop :=
  exists c attrs, h = VObj c attrs /\ get_attr "message_type" attrs = Some t.

(** [h'] is the header [h] with a message type of the name that [old] has. *)
Inductive header_for (old h h' : pyval) : Prop :=
  | no_type : forall t, has_type old t -> In t [VNone; VInt 0; VStr []; VBytes []] -> h' = h -> header_for old h h'
  | zero_type : forall e0, has_type old (VEnum e0 0) -> h' = h -> header_for old h h'
  | named_type : forall c attrs attrs' e0 z e z' w k name,
      has_type old (VEnum e0 z) -> In (name, z) (members_of e0) ->
      h = VObj c attrs -> h' = VObj c attrs' ->
      get_attr "message_type" (class_attrs c) = Some (VUInt w (Some e) k) -> In (name, z') (members_of e) ->
      get_attr "message_type" attrs' = Some (VEnum e z') ->
      (forall n, n <> "message_type" -> get_attr n attrs' = get_attr n attrs) ->
      header_for old h h'.

(** An attribute of the base and what the subclass inherits for it. *)
Definition inherits (version : option text) (p q : string * pyval) : Prop :=
  fst q = fst p /\
  exists o,
    match version with None => o = snd p | Some v => at_version v (snd p) o end /\
    if String.eqb (fst p) "header" then header_for (snd p) o (snd q) else snd q = o.
