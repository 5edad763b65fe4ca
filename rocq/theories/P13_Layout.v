(** C13: a structure is its fields in declaration order.

    [part_of c attrs f part] (SpecLayout.v): [part] are the bytes that the
    attribute declared by [f] contributes to an object of class [c] with
    attributes [attrs].  [openflow_layout] is the table of fields and widths of
    the OpenFlow 1.0.0 and 1.3 specifications. *)
From Coq Require Import ZArith List Bool String.
From Verif Require Import Base PyText Ids PyVal Classes Interp SpecBasic SpecMutation SpecLayout LayoutFacts.
Import ListNotations.
Open Scope string_scope.
Open Scope list_scope.
Open Scope Z_scope.

(** The bytes are those of the attributes, in declaration order, and nothing
    else; only a Match of OpenFlow 1.3 and a set-field action are filled with
    zeros. *)
Theorem c13_in_order : forall c attrs bs, built (VObj c attrs) = true -> pack (VObj c attrs) = Ok bs ->
  exists parts k, bs = List.concat parts ++ repeat 0 k /\ (is_filled c \/ k = O) /\
    Forall2 (part_of c attrs) (class_attrs c) parts.
Proof. exact in_order. Qed.
Print Assumptions c13_in_order.

(** Every field of the OpenFlow structures is where the specification puts it. *)
Theorem c13_offsets : forall c l t attrs bs, openflow_layout c = Some (l, t) ->
  built (VObj c attrs) = true -> regular (VObj c attrs) = true -> pack (VObj c attrs) = Ok bs ->
  (t <= List.length bs)%nat /\
  (List.length l = List.length (class_attrs c) -> List.length bs = t) /\
  forall name at_ w, placed 0 l name at_ w ->
    exists cv, get_attr name (class_attrs c) = Some cv /\ part_of c attrs (name, cv) (slice at_ (at_ + w) bs).
Proof. exact layout. Qed.
Print Assumptions c13_offsets.

(** All structures have an entry in the table. *)
Theorem c13_all : forall c, class_attrs c <> [] -> openflow_layout c <> None.
Proof. exact layout_all. Qed.
Print Assumptions c13_all.

(** The version, the type and the transaction id of a message. *)
Theorem c13_message_header : forall c l t attrs hc h bs name at_ w, openflow_layout c = Some (("header", 8%nat) :: l, t) ->
  built (VObj c attrs) = true -> regular (VObj c attrs) = true -> get_attr "header" attrs = Some (VObj hc h) ->
  pack (VObj c attrs) = Ok bs ->
  placed 0 [("version", 1); ("message_type", 1); ("length", 2); ("xid", 4)]%nat name at_ w -> name <> "length" ->
  exists cv iv, get_attr name (class_attrs hc) = Some cv /\ get_attr name h = Some iv /\ carried cv iv (slice at_ (at_ + w) bs).
Proof. exact message_header. Qed.
Print Assumptions c13_message_header.

(** Objects made by constructors without arguments are regular. *)
Theorem c13_new : forall c v, new_instance c = Some v -> regular v = true.
Proof. exact new_regular. Qed.
Print Assumptions c13_new.

(** A PortMod of OpenFlow 1.0 with different values in all fields. *)
Definition case_port_mod : pyval :=
  VObj PortMod01
    [("header", VObj Header01 [("version", VUInt 1 None (VInt 1)); ("message_type", VEnum E_Type01 15);
                               ("length", VNone); ("xid", VInt 77)]);
     ("port_no", VInt 258); ("hw_addr", VStr (txt "01:02:03:04:05:06")); ("config", VInt 3); ("mask", VInt 4);
     ("advertise", VInt 5); ("pad", VPad 4)].
Example c13_case : built case_port_mod = true /\ regular case_port_mod = true /\
  pack case_port_mod = Ok [1; 15; 0; 32; 0; 0; 0; 77;  1; 2;  1; 2; 3; 4; 5; 6;  0; 0; 0; 3;  0; 0; 0; 4;  0; 0; 0; 5;  0; 0; 0; 0].
Proof. repeat split; vm_compute; reflexivity. Qed.

(** A text attribute that is a Char is packed with its own length: a field of
    16 bytes can take 3. *)
Theorem c13_offsets_refuted : exists attrs bs, built (VObj PhyPort01 attrs) = true /\ pack (VObj PhyPort01 attrs) = Ok bs /\
  get_attr "name" attrs = Some (VChar 3 (VStr (txt "ab"))) /\ zlen bs = 35.
Proof.
  exists [("port_no", VInt 1); ("hw_addr", VStr (txt "00:00:00:00:00:00")); ("name", VChar 3 (VStr (txt "ab"))); ("config", VInt 0);
          ("state", VInt 0); ("curr", VInt 0); ("advertised", VInt 0); ("supported", VInt 0); ("peer", VInt 0)].
  eexists. repeat split; vm_compute; reflexivity.
Qed.
Print Assumptions c13_offsets_refuted.
