(** Model of pyof/utils.py and of the two pyof/v0x0?/common/utils.py. *)
From Coq Require Import ZArith List Bool String.
From Verif Require Import Base PyText Ids PyVal Classes Interp.
Import ListNotations.
Open Scope string_scope.
Open Scope list_scope.
Open Scope Z_scope.

(** validate_packet, pyof/utils.py:15-35, after the isinstance test of line 22
    (see [validate_any]). *)
Definition validate_packet (packet : bytes) : res unit :=
  let n := zlen packet in
  if (n <? 8) || (65536 <? n) then Err UnpackException
  else if negb (n =? be_decode (slice 2 4 packet)) then Err UnpackException
  else let version := hd 0 packet in
       if (version =? 0) || (128 <=? version) then Err UnpackException
       else Ok tt.

Inductive of_version : Type := V01 | V04.

Definition new_header (v : of_version) : pyval :=
  match v with V01 => new_Header01 | V04 => new_Header04 end.
Definition message_types (v : of_version) : list (Z * cid) :=
  match v with V01 => message_types_01 | V04 => message_types_04 end.

Fixpoint lookup_type (t : Z) (l : list (Z * cid)) : option cid :=
  match l with
  | [] => None
  | (k, c) :: tl => if t =? k then Some c else lookup_type t tl
  end.

(** new_message_from_message_type: v0x01/common/utils.py:66-88,
    v0x04/common/utils.py:110-132.  Keys are the str() of enum members; a
    member is represented by its integer value.  The random xid of the new
    message (base.py:767) is represented by 0: every caller below overwrites
    it. *)
Definition new_message_from_message_type (v : of_version) (t : Z) : res pyval :=
  match lookup_type t (message_types v) with
  | None => Err ValueError
  | Some c => match new_instance c with Some m => Ok m | None => Err ValueError end
  end.

(** [message.header.<name> = x] *)
Definition set_header (name : string) (x : pyval) (m : pyval) : res pyval :=
  match m with
  | VObj c attrs =>
      match get_attr "header" attrs with
      | Some (VObj hc hattrs) =>
          Ok (VObj c (set_attr "header" (VObj hc (set_attr name x hattrs)) attrs))
      | _ => Err AttributeError
      end
  | _ => Err AttributeError
  end.

Definition obj_attr (name : string) (v : pyval) : res pyval :=
  match v with VObj _ attrs => attr_or_error name attrs | _ => Err AttributeError end.

(** The number of the Type member that [header.message_type] leads to
    (v0x01/common/utils.py:107-115, v0x04/common/utils.py:152-160): a str is a
    member name, an int is converted, and of a UBInt8 the str() of what it
    holds must be the str() of a member.  (Python up to 3.10, where str() of a
    member is "Type." and its name.  A UBInt8 that holds a text is not modelled
    and refused.)  What is none of these is refused below. *)
Definition type_class (v : of_version) : eid := match v with V01 => E_Type01 | V04 => E_Type04 end.
Definition type_members (v : of_version) : list (string * Z) :=
  match enum_def (type_class v) with EInt l | EPlain l | EMask l => l end.
Definition type_code (v : of_version) (mt : pyval) : res Z :=
  match mt with
  | VStr s => match find (fun p => text_eqb (txt (fst p)) s) (type_members v) with
              | Some p => Ok (snd p)
              | None => Err KeyError
              end
  | VUInt _ _ x => match x with
                   | VEnum e t => if eid_eqb e (type_class v) then Ok t else Err ValueError
                   | _ => Err ValueError
                   end
  | _ => match as_int mt with Some t => Ok t | None => Err ValueError end
  end.

(** new_message_from_header: v0x01/common/utils.py:91-120,
    v0x04/common/utils.py:135-165. *)
Definition new_message_from_header (v : of_version) (header : pyval) : res pyval :=
  do mt <- obj_attr "message_type" header;
  do t <- type_code v mt;
  do m <- new_message_from_message_type v t;
  do xid <- obj_attr "xid" header;
  do m <- set_header "xid" xid m;
  do len <- obj_attr "length" header;
  set_header "length" len m.

(** unpack_message: v0x01/common/utils.py:123-139, v0x04/common/utils.py:168-184. *)
Definition unpack_message (v : of_version) (buffer : bytes) : res pyval :=
  do hs <- get_size (new_header v);
  let hdr_buff := firstn (Z.to_nat hs) buffer in
  let msg_buff := skipn (Z.to_nat hs) buffer in
  do header <- unpack (new_header v) hdr_buff 0;
  do message <- new_message_from_header v header;
  unpack message msg_buff 0.

(** PYOF_VERSION_LIBS, pyof/utils.py:11-12. *)
Definition version_lib (z : Z) : option of_version :=
  match z with 1 => Some V01 | 4 => Some V04 | _ => None end.

(** unpack, pyof/utils.py:38-63. *)
Definition unpack_packet (packet : bytes) : res pyval :=
  do _ <- validate_packet packet;
  match version_lib (hd 0 packet) with
  | None => Err UnpackException
  | Some v => recast ValueError UnpackException (unpack_message v packet)
  end.

(** The same functions on any Python object: pyof/utils.py:22-23 refuses what is
    not a bytes object. *)
Definition validate_any (packet : pyval) : res unit :=
  match packet with VBytes b => validate_packet b | _ => Err UnpackException end.
Definition unpack_any (packet : pyval) : res pyval :=
  match packet with VBytes b => unpack_packet b | _ => Err UnpackException end.
