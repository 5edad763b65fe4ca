(** Further theorems for C02, C17, C18, C22 and C46: what is refused, and messages made from headers. *)
From Coq Require Import ZArith List Bool String.
From Verif Require Import Base PyText Ids PyVal Classes Interp Utils Lists Match01 Access SpecMsg SpecLists SpecAccess SpecStruct SpecRefuse RefuseFacts.
Import ListNotations.
Open Scope string_scope.
Open Scope list_scope.
Open Scope Z_scope.

(** C17: the message made for a header is the one of the type asked for, by
    number, member, field or name, in its initial state but for xid and length. *)
Theorem c17_from_header : forall v hc hattrs mt xid len t c,
  get_attr "message_type" hattrs = Some mt -> get_attr "xid" hattrs = Some xid -> get_attr "length" hattrs = Some len ->
  asks_for v mt t -> In (t, c) (openflow_types v) ->
  exists m, new_message_from_header v (VObj hc hattrs) = Ok m /\ fresh_message c xid len m.
Proof. exact from_header. Qed.
Print Assumptions c17_from_header.

(** A header that asks for no type is refused: KeyError for a text, ValueError for anything else. *)
Theorem c17_from_header_refused : forall v hc hattrs mt, get_attr "message_type" hattrs = Some mt ->
  (forall t c, asks_for v mt t -> ~ In (t, c) (openflow_types v)) ->
  new_message_from_header v (VObj hc hattrs) = Err (match mt with VStr _ => KeyError | _ => ValueError end).
Proof. exact from_header_refused. Qed.
Print Assumptions c17_from_header_refused.

Example c17_header_case :
  asks_for V04 (VStr (txt "OFPT_METER_MOD")) 29 /\ In (29, MeterMod04) (openflow_types V04) /\
  new_message_from_header V01 (VObj Header01 [("message_type", VStr (txt "OFPT_METER_MOD")); ("length", VInt 8); ("xid", VInt 1)]) = Err KeyError /\
  new_message_from_header V01 (VObj Header01 [("message_type", VInt 29); ("length", VInt 8); ("xid", VInt 1)]) = Err ValueError /\
  (do m <- new_message_from_header V01 (VObj Header01 [("message_type", VStr (txt "OFPT_HELLO")); ("length", VInt 8); ("xid", VInt 258)]); pack m)
    = Ok [1; 0; 0; 8; 0; 0; 1; 2].
Proof.
  split; [apply asks_name; vm_compute; tauto|]. split; [cbn; tauto|]. vm_compute. auto.
Qed.

(** C02: a field of raw bytes refuses numbers, text, members, masks and plain lists. *)
Theorem c02_binary_refuses : forall v, unpackable v = true -> pack (VBin v) = Err ValueError.
Proof. exact binary_refuses. Qed.
Print Assumptions c02_binary_refuses.

(** C18: a list made without a class accepts nothing. *)
Theorem c18_no_class : forall v ls l i, leaves v ls ->
  fixed_append CNone v l = (l, match ls with [] => None | _ => Some TypeError end) /\ fixed_insert CNone i v l = (l, Some TypeError).
Proof. exact no_class. Qed.
Print Assumptions c18_no_class.

(** C22: an address of the 1.0 match is a text, a list or an address; anything
    else is refused and nothing is stored. *)
Theorem c22_address_refused : forall name v m, In name ["nw_src"; "nw_dst"] ->
  match v with VStr _ | VList _ _ _ | VIP _ _ => False | _ => True end -> match_set name v m = (m, Some TypeError).
Proof. exact address_refused. Qed.
Print Assumptions c22_address_refused.
(** A list of a hardware address is refused at its first text. *)
Theorem c22_mac_list_refused : forall name lc pc zs s rest m, In name ["dl_src"; "dl_dst"] ->
  match_set name (VList lc pc (map VInt zs ++ VStr s :: rest)) m = (m, Some ValueError).
Proof. exact mac_list_refused. Qed.
Print Assumptions c22_mac_list_refused.
(** ... or at its first None, bytes or basic type: none of them has a number
    format. *)
Theorem c22_mac_list_refused_other : forall name lc pc zs x rest m, In name ["dl_src"; "dl_dst"] ->
  x = VNone \/ (exists b, x = VBytes b) \/ is_generic_type x = true ->
  match_set name (VList lc pc (map VInt zs ++ x :: rest)) m = (m, Some TypeError).
Proof. exact mac_list_refused_other. Qed.
Print Assumptions c22_mac_list_refused_other.
(** Names that are none of the fields (nor of anything else the class defines)
    are refused before anything is stored. *)
Theorem c22_unknown_field : forall name v m,
  ~ In name ["wildcards"; "in_port"; "dl_src"; "dl_dst"; "dl_vlan"; "dl_vlan_pcp"; "pad1"; "dl_type"; "nw_tos"; "nw_proto"; "pad2"; "nw_src"; "nw_dst"; "tp_src"; "tp_dst"] ->
  match_set name v m = (m, Some AttributeError).
Proof. exact unknown_field. Qed.
Print Assumptions c22_unknown_field.

(** C46: a PacketIn without a match has no input port. *)
Theorem c46_no_match : forall attrs m, get_attr "match" attrs = Some m -> (forall a, m <> VObj Match04 a) ->
  in_port (VObj PacketIn04 attrs) = Err AttributeError.
Proof. exact no_match_port. Qed.
Print Assumptions c46_no_match.

(** C46: anything that is not a TLV among the fields is met with an AttributeError,
    unless the field asked for comes before it. *)
Theorem c46_foreign : forall attrs lc pc good ts bad rest t z,
  get_attr "oxm_match_fields" attrs = Some (VList lc pc (good ++ bad :: rest)) ->
  Forall2 oxm_holds good ts -> no_tlv z ts -> plain_number t z -> (forall c a, bad <> VObj c a) ->
  get_field (VObj Match04 attrs) t = Err AttributeError.
Proof. exact foreign. Qed.
Print Assumptions c46_foreign.
