(** MetaStruct: the class attributes of a new class, pyof/foundation/base.py:272-486.

    A class body is the sequence of its assignments and definitions; [Some]
    object for GenericType and GenericStruct instances, [None] for any other
    right-hand side.  [None] as the result of a function stands for an
    exception raised by the class statement (module, class or message type
    not found, header without a message type).

    Not modelled: the check of GenericMessage.__init_subclass__ (base.py:774-779)
    that a message class has a header.  [\d] of the regular expression is
    ASCII only. *)
From Coq Require Import ZArith List Bool String.
From Verif Require Import Base PyText Ids PyVal Classes Interp Bodies.
Import ListNotations.
Open Scope string_scope.
Open Scope list_scope.
Open Scope Z_scope.

(** ** Module names *)

(** The text after a prefix. *)
Fixpoint after (p s : text) : option text :=
  match p, s with
  | [], _ => Some s
  | a :: p', b :: s' => if a =? b then after p' s' else None
  | _ :: _, [] => None
  end.

Definition is_digit (c : Z) : bool := (48 <=? c) && (c <=? 57).
Fixpoint take_digits (s : text) : text * text :=
  match s with
  | c :: tl => if is_digit c then let (d, r) := take_digits tl in (c :: d, r) else ([], s)
  | [] => ([], [])
  end.

(** get_pyof_version, base.py:375-394: the regular expression
    (pyof\.)(v0x\d+)(\..* ) at the start of the name. *)
Definition module_version (m : text) : option text :=
  match after (txt "pyof.v0x") m with
  | Some rest =>
      match take_digits rest with
      | ((_ :: _) as d, 46 :: _) => Some (txt "v0x" ++ d)
      | _ => None
      end
  | None => None
  end.

(** [s.replace(old, new)] for a non-empty [old]; [skip] characters of [s] belong
    to an occurrence already replaced. *)
Fixpoint replace_from (skip : nat) (old new s : text) : text :=
  match s with
  | [] => []
  | c :: tl =>
      match skip with
      | S k => replace_from k old new tl
      | O => match after old s with
             | Some _ => new ++ replace_from (List.length old - 1) old new tl
             | None => c :: replace_from O old new tl
             end
      end
  end.
Definition replace (old new s : text) : text := replace_from O old new s.

(** replace_pyof_version, base.py:396-420. *)
Definition replace_version (m version : text) : option text :=
  match module_version m with
  | Some v => if text_eqb v version then None else Some (replace v version m)
  | None => None
  end.

(** ** Objects of another version *)

(** import_module and getattr: the class with this name defined in the module
    (names a module only imports are not found). *)
Definition find_class (name : string) (m : text) : option cid :=
  find (fun c => String.eqb (fst (class_place c)) name && text_eqb (txt (snd (class_place c))) m) all_cids.

(** get_pyof_obj_new_version, base.py:422-486. *)
Definition new_version_of (obj : pyval) (version : option text) : option pyval :=
  match version with
  | None => Some obj
  | Some v =>
      let (name, m) := class_place (class_of obj) in
      match replace_version (txt m) v with
      | None => Some obj
      | Some m' => match find_class name m' with
                   | Some c => new_instance c
                   | None => None
                   end
      end
  end.

(** The name of an enumeration member; the member with a name. *)
Definition members (e : eid) : list (string * Z) :=
  match enum_def e with EInt l | EPlain l | EMask l => l end.
Definition member_name (e : eid) (z : Z) : option string :=
  match find (fun p => snd p =? z) (members e) with Some p => Some (fst p) | None => None end.
Definition member_named (e : eid) (name : string) : option Z :=
  match find (fun p => String.eqb (fst p) name) (members e) with Some p => Some (snd p) | None => None end.

(** _header_message_type_update, base.py:355-373. *)
Definition header_update (obj new_header : pyval) : option pyval :=
  match obj, new_header with
  | VObj _ oattrs, VObj hc nattrs =>
      match get_attr "message_type" oattrs, get_attr "message_type" (class_attrs hc) with
      | Some old, Some (VUInt _ (Some e) _) =>
          match old with
          | VNone | VInt 0 | VStr [] | VBytes [] => Some new_header
          | VEnum e0 z =>
              if is_int_enum e0 && (z =? 0) then Some new_header
              else match member_name e0 z with
                   | Some name =>
                       match member_named e name with
                       | Some z' => Some (VObj hc (set_attr "message_type" (VEnum e z') nattrs))
                       | None => None
                       end
                   | None => None
                   end
          | _ => None
          end
      | _, _ => None
      end
  | _, _ => None
  end.

(** One inherited attribute, base.py:326-338. *)
Definition inherited (version : option text) (p : string * pyval) : option (string * pyval) :=
  match new_version_of (snd p) version with
  | Some o =>
      if String.eqb (fst p) "header"
      then match header_update (snd p) o with Some o' => Some (fst p, o') | None => None end
      else Some (fst p, o)
  | None => None
  end.

(** ** The dictionary of the class *)

(** OrderedDict assignment: a key keeps its position. *)
Definition entry : Type := (string * option pyval)%type.
Fixpoint put (n : string) (o : option pyval) (d : list entry) : list entry :=
  match d with
  | [] => [(n, o)]
  | (k, x) :: tl => if String.eqb k n then (k, o) :: tl else (k, x) :: put n o tl
  end.
Definition put_all (l d : list entry) : list entry := fold_left (fun d p => put (fst p) (snd p) d) l d.
Definition pop (d : list entry) (n : string) : list entry := filter (fun p => negb (String.eqb (fst p) n)) d.

Fixpoint map_opt {A B : Type} (f : A -> option B) (l : list A) : option (list B) :=
  match l with
  | [] => Some []
  | x :: tl => match f x, map_opt f tl with Some y, Some ys => Some (y :: ys) | _, _ => None end
  end.

(** MetaStruct.__new__, base.py:289-353, for a class with base layout [base]. *)
Definition class_dict (version : option text) (base : list (string * pyval)) (removed : list string)
    (body : list entry) : option (list entry) :=
  let classdict := put_all body [] in
  match map_opt (inherited version) base with
  | Some inh => Some (put_all classdict (fold_left pop removed (put_all (map (fun p => (fst p, Some (snd p))) inh) [])))
  | None => None
  end.

(** get_class_attributes, base.py:560-590. *)
Fixpoint attributes (d : list entry) : list (string * pyval) :=
  match d with
  | [] => []
  | (n, Some o) :: tl => (n, o) :: attributes tl
  | (_, None) :: tl => attributes tl
  end.

Definition layout (version : option text) (base : list (string * pyval)) (removed : list string)
    (body : list entry) : option (list (string * pyval)) :=
  match class_dict version base removed body with Some d => Some (attributes d) | None => None end.

(** The layout of a class of the tables, from its body and that of its bases. *)
Fixpoint class_layout (n : nat) (c : cid) : option (list (string * pyval)) :=
  match n with
  | O => None
  | S n' =>
      match class_body c with
      | None => Some []          (* GenericStruct, GenericMessage *)
      | Some (b, body) =>
          match class_layout n' b with
          | Some base => layout (module_version (txt (snd (class_place c)))) base [] body
          | None => None
          end
      end
  end.
