(** Theorems: C65 (what pack() refuses, and with which exception). *)
From Coq Require Import ZArith List Bool String.
From Verif Require Import Base PyText Ids PyVal Classes Interp SpecBasic SpecMutation SpecLayout SpecReject RejectFacts RejectFacts2.
Import ListNotations.
Open Scope string_scope.
Open Scope list_scope.
Open Scope Z_scope.

(** Objects of basic types raise the exception that belongs to what they hold. *)
Theorem c65_basic : forall v e, basic v = true -> pack v = Err e <-> refused v VNone e.
Proof. exact basic_refused. Qed.
Print Assumptions c65_basic.

(** A structure that only writes its fields raises the exception of the first
    field that is refused, and packs if there is none. *)
Theorem c65_fields : forall c attrs e, built (VObj c attrs) = true -> only_fields c = true ->
  pack (VObj c attrs) = Err e <-> first_refused c attrs e.
Proof. exact fields_refused. Qed.
Print Assumptions c65_fields.

(** One that stores its size first: the exception of get_size(), or of the
    first field, the length being the size. *)
Theorem c65_sized : forall c attrs, built (VObj c attrs) = true -> own_length c = true ->
  match get_size (VObj c attrs) with
  | Err e => pack (VObj c attrs) = Err e
  | Ok s => forall e, pack (VObj c attrs) = Err e <-> first_refused c (set_attr "length" (VInt s) attrs) e
  end.
Proof. exact own_outcome. Qed.
Print Assumptions c65_sized.

(** A message that stores its size in the header first. *)
Theorem c65_message : forall c attrs, built (VObj c attrs) = true -> only_header c = true ->
  match get_size (VObj c attrs), get_attr "header" attrs with
  | Err e, _ => pack (VObj c attrs) = Err e
  | Ok s, Some (VObj hc h) => forall e, pack (VObj c attrs) = Err e <->
      first_refused c (set_attr "header" (VObj hc (set_attr "length" (VInt s) h)) attrs) e
  | Ok _, _ => pack (VObj c attrs) = Err AttributeError
  end.
Proof. exact message_outcome. Qed.
Print Assumptions c65_message.

(** A list raises the exception of its first item that does not pack; a list of
    Python has no pack(). *)
Theorem c65_list : forall lc pc items e,
  pack (VList lc pc items) = Err e <-> lc = CList /\ e = AttributeError \/ lc <> CList /\ first_item items e.
Proof. exact list_refused. Qed.
Print Assumptions c65_list.

(** Values that are not objects of the library have neither method. *)
Theorem c65_absent : forall v, no_object v = true -> pack v = Err AttributeError /\ get_size v = Err AttributeError.
Proof. exact absent_refused. Qed.
Print Assumptions c65_absent.

(** A value is refused with one exception at most. *)
Theorem c65_one : forall c name cv iv e e', In (name, cv) (class_attrs c) -> refused cv iv e -> refused cv iv e' -> e = e'.
Proof. exact refused_one. Qed.
Print Assumptions c65_one.

(** Which classes these are: all but those in the list, of which P33 speaks. *)
Theorem c65_classes : forall c, only_fields c || own_length c || only_header c ||
  existsb (cid_eqb c) [PacketOut01; PacketOut04; ErrorMsg01; StatsRequest01; StatsReply01; MultipartRequest04; MultipartReply04;
    OxmTLV04; Match04; ActionSetField04] = true.
Proof. exact refused_classes. Qed.
Print Assumptions c65_classes.

(** Cases: one field after the other is wrong, and the first one decides. *)
Definition case_port (hw name : pyval) : list (string * pyval) :=
  [("port_no", VInt 1); ("hw_addr", hw); ("name", name); ("config", VNone); ("state", VNone); ("curr", VNone);
   ("advertised", VNone); ("supported", VNone); ("peer", VNone)].
Example c65_case_port :
  built (VObj PhyPort01 (case_port (VStr (txt "00:11:22:33:44:zz")) (VInt 3))) = true /\ only_fields PhyPort01 = true /\
  pack (VObj PhyPort01 (case_port (VStr (txt "00:11:22:33:44:zz")) (VInt 3))) = Err ValueError /\
  pack (VObj PhyPort01 (case_port (VStr (txt "00:11:22:33:44")) (VInt 3))) = Err PackException /\
  pack (VObj PhyPort01 (case_port (VStr (txt "00:11:22:33:44:155")) (VInt 3))) = Err PackException /\
  pack (VObj PhyPort01 (case_port (VBytes [1]) (VInt 3))) = Err TypeError /\
  pack (VObj PhyPort01 (case_port (VInt 1) (VInt 3))) = Err AttributeError /\
  pack (VObj PhyPort01 (case_port (VInt 0) (VInt 3))) = Err TypeError /\
  pack (VObj PhyPort01 (case_port (VInt 0) (VStr [233]))) = Err ValueError /\
  pack (VObj PhyPort01 (case_port (VInt 0) (VStr (txt "eth0")))) = Err PackException.
Proof. vm_compute. repeat split. Qed.
Definition case_hello (elements : pyval) : pyval :=
  VObj Hello04 [("header", VObj Header04 [("version", VUInt 1 None (VInt 4)); ("message_type", VEnum E_Type04 0); ("length", VInt 0); ("xid", VInt 1)]);
                ("elements", elements)].
Example c65_case_message :
  built (case_hello (VList CList CObject [VInt 3])) = true /\ only_header Hello04 = true /\
  pack (case_hello (VList CList CObject [VInt 3])) = Err WrongListItemType /\
  pack (case_hello (VObj HelloElemHeader04 [("element_type", VInt 1); ("length", VNone); ("content", VInt 7)])) = Err ValueError /\
  pack (case_hello (VList CList CObject [])) = Ok [4; 0; 0; 8; 0; 0; 0; 1].
Proof. vm_compute. repeat split. Qed.
