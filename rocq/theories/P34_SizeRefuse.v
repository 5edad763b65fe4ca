(** Theorems: C67 (when get_size() fails, and with which exception). *)
From Coq Require Import ZArith List Bool String.
From Verif Require Import Base PyText Ids PyVal Classes Interp SpecBasic SpecMutation SpecLayout SpecReject SpecReject2 SpecSizeRefuse SizeRefuseFacts.
Import ListNotations.
Open Scope string_scope.
Open Scope list_scope.
Open Scope Z_scope.

(** Objects of basic types: only BinaryData fails, for what is neither bytes nor
    an object with a size. *)
Theorem c67_basic : forall v e, basic v = true -> get_size v = Err e <-> size_refused v VNone e.
Proof. exact basic_unsized. Qed.
Print Assumptions c67_basic.

(** Structures and messages: the first field whose size cannot be told. *)
Theorem c67_object : forall c attrs e, built (VObj c attrs) = true -> c <> Bucket04 ->
  get_size (VObj c attrs) = Err e <-> first_unsized c attrs e.
Proof. exact object_unsized. Qed.
Print Assumptions c67_object.

(** A bucket without a length of its own is measured like other structures; one
    with a length is not: its size is the length, and where that is no number,
    adding it up raises TypeError (the model has the exception already for
    get_size() of the bucket, which in the code returns what it finds). *)
Theorem c67_bucket : forall attrs e, built (VObj Bucket04 attrs) = true ->
  exists l, get_attr "length" attrs = Some l /\
    (get_size (VObj Bucket04 attrs) = Err e <->
     l = VNone /\ first_unsized Bucket04 attrs e \/ l <> VNone /\ (forall z, ~ port_number l z) /\ e = TypeError).
Proof. exact bucket_unsized. Qed.
Print Assumptions c67_bucket.

(** Lists. *)
Theorem c67_list : forall lc pc items e,
  get_size (VList lc pc items) = Err e <-> lc = CList /\ e = AttributeError \/ lc <> CList /\ unsized_item items e.
Proof. exact list_unsized. Qed.
Print Assumptions c67_list.

(** One exception at most. *)
Theorem c67_one : forall c name cv iv e e', In (name, cv) (class_attrs c) -> size_refused cv iv e -> size_refused cv iv e' -> e = e'.
Proof. exact size_refused_one. Qed.
Print Assumptions c67_one.

(** Cases: get_size() does not look at numbers and texts, but at objects, lists
    and binary data. *)
Definition case_out (header actions data : pyval) : pyval :=
  VObj PacketOut01 [("header", header); ("buffer_id", VStr (txt "x")); ("in_port", VList CList CObject []); ("actions_len", VNone);
    ("actions", actions); ("data", data)].
Definition case_header : pyval := VObj Header01 [("version", VStr (txt "x")); ("message_type", VNone); ("length", VNone); ("xid", VNone)].
Example c67_case_object :
  built (case_out case_header (VList CList CObject []) (VBytes [1; 2])) = true /\
  get_size (case_out case_header (VList CList CObject []) (VBytes [1; 2])) = Ok 18 /\
  get_size (case_out case_header (VList CList CObject []) (VInt 7)) = Err ValueError /\
  get_size (case_out case_header (VList CList CObject [VInt 1]) (VInt 7)) = Err WrongListItemType /\
  get_size (case_out (VInt 1) (VList CList CObject [VInt 1]) (VInt 7)) = Err PackException.
Proof. vm_compute. repeat split. Qed.
Definition case_bucket (len actions : pyval) : pyval :=
  VObj Bucket04 [("length", len); ("weight", VNone); ("watch_port", VNone); ("watch_group", VNone); ("pad", VPad 4); ("actions", actions)].
Example c67_case_bucket :
  built (case_bucket (VStr (txt "x")) VNone) = true /\
  get_size (case_bucket (VInt 5) (VInt 3)) = Ok 5 /\
  get_size (case_bucket (VStr (txt "x")) (VInt 3)) = Err TypeError /\
  get_size (case_bucket VNone (VStr (txt "x"))) = Ok 16 /\
  get_size (case_bucket VNone VNone) = Ok 16.
Proof. vm_compute. repeat split. Qed.
Example c67_case_list :
  get_size (VList CList CObject []) = Err AttributeError /\
  get_size (VList CFixedTypeList CObject [VBin (VInt 1)]) = Err ValueError /\
  get_size (VList CFixedTypeList CObject [VUInt 2 None VNone; VBin (VInt 1)]) = Ok 4 /\
  get_size (VList CFixedTypeList CObject [case_bucket VNone VNone; VBin (VInt 1)]) = Err ValueError.
Proof. vm_compute. repeat split. Qed.
