(** Theorems: C65, for the messages with a body of their own and the matches
    of 1.3. *)
From Coq Require Import ZArith List Bool String.
From Verif Require Import Base PyText Ids PyVal Classes Interp Utils Spec SpecBasic SpecMutation SpecLayout SpecMsg SpecReject
  SpecReject2 SpecReject3 RejectFacts3 RejectFacts4 RejectFacts5.
Import ListNotations.
Open Scope string_scope.
Open Scope list_scope.
Open Scope Z_scope.

(** ErrorMsg of 1.0: data that has no pack() and is neither None nor bytes
    raises AttributeError; an object is packed before anything else. *)
Theorem c65_error : forall attrs e, built (VObj ErrorMsg01 attrs) = true -> pack (VObj ErrorMsg01 attrs) = Err e <-> error_raises attrs e.
Proof. exact error_refused. Qed.
Print Assumptions c65_error.

(** StatsRequest and StatsReply: the body is packed before anything else. *)
Theorem c65_stats_request : forall attrs e, built (VObj StatsRequest01 attrs) = true ->
  pack (VObj StatsRequest01 attrs) = Err e <-> stats_request_raises attrs e.
Proof. exact stats_request_refused. Qed.
Print Assumptions c65_stats_request.

Theorem c65_stats_reply : forall attrs e, built (VObj StatsReply01 attrs) = true ->
  pack (VObj StatsReply01 attrs) = Err e <-> stats_reply_raises attrs e.
Proof. exact stats_reply_refused. Qed.
Print Assumptions c65_stats_reply.

(** Multipart messages whose type is one of those with a body. *)
Theorem c65_multipart : forall f attrs t form ti e, f = FMultipartRequest \/ f = FMultipartReply -> built (VObj (stats_class f) attrs) = true ->
  get_attr "multipart_type" attrs = Some ti -> type_given f t ti -> In (t, form) (stats_forms f) ->
  pack (VObj (stats_class f) attrs) = Err e <-> multipart_raises f attrs form e.
Proof. exact multipart_refused. Qed.
Print Assumptions c65_multipart.

(** Multipart messages of any type: the type matters for a list that is not
    empty. *)
Theorem c65_multipart_any : forall f attrs a ti e, f = FMultipartRequest \/ f = FMultipartReply -> built (VObj (stats_class f) attrs) = true ->
  get_attr "multipart_type" attrs = Some ti -> type_asked ti a ->
  pack (VObj (stats_class f) attrs) = Err e <-> multipart_any_raises f attrs a e.
Proof. exact multipart_any. Qed.
Print Assumptions c65_multipart_any.

(** PacketOut: the size of the actions, that of the message, the port, and then
    the fields. *)
Theorem c65_packet_out : forall v attrs e, built (VObj (out_class v) attrs) = true ->
  pack (VObj (out_class v) attrs) = Err e <-> packet_out_raises v attrs e.
Proof. exact packet_out_refused. Qed.
Print Assumptions c65_packet_out.

(** SetField of 1.3: the match field, and then the fields. *)
Theorem c65_set_field : forall attrs e, built (VObj ActionSetField04 attrs) = true ->
  pack (VObj ActionSetField04 attrs) = Err e <-> set_field_raises attrs e.
Proof. exact set_field_refused. Qed.
Print Assumptions c65_set_field.

(** Match of 1.3: the size of the list, and then the fields. *)
Theorem c65_match : forall attrs e, built (VObj Match04 attrs) = true -> pack (VObj Match04 attrs) = Err e <-> match_raises attrs e.
Proof. exact match_refused. Qed.
Print Assumptions c65_match.

(** A TLV of it: PackException for a field that is no number of the class. *)
Theorem c65_tlv : forall attrs cls f flag val e, built (VObj OxmTLV04 attrs) = true ->
  get_attr "oxm_class" attrs = Some cls -> get_attr "oxm_field" attrs = Some f -> get_attr "oxm_hasmask" attrs = Some flag -> get_attr "oxm_value" attrs = Some val ->
  pack (VObj OxmTLV04 attrs) = Err e <-> tlv_raises attrs cls f flag val e.
Proof. exact tlv_refused. Qed.
Print Assumptions c65_tlv.

(** Cases. *)
Definition case_header (version : Z) (t : pyval) : pyval :=
  VObj Header04 [("version", VUInt 1 None (VInt version)); ("message_type", t); ("length", VInt 0); ("xid", VInt 1)].
Definition case_header01 (t : pyval) : pyval :=
  VObj Header01 [("version", VUInt 1 None (VInt 1)); ("message_type", t); ("length", VInt 0); ("xid", VInt 1)].
Definition case_error (code data : pyval) : pyval :=
  VObj ErrorMsg01 [("header", case_header01 (VInt 1)); ("error_type", VInt 1); ("code", code); ("data", data)].
Example c65_case_error :
  built (case_error (VInt 1) (VInt 3)) = true /\
  pack (case_error (VInt 1) (VInt 3)) = Err AttributeError /\
  pack (case_error (VInt 70000) (VInt 3)) = Err AttributeError /\
  pack (case_error (VInt 70000) (VBytes [7])) = Err PackException /\
  pack (case_error (VInt 70000) (VUInt 1 None (VInt 300))) = Err PackException /\
  pack (case_error (VInt 1) (VHW (VStr (txt "zz")))) = Err ValueError /\
  pack (case_error (VInt 1) (VUInt 1 None (VInt 7))) = Ok [1; 1; 0; 13; 0; 0; 0; 1; 0; 1; 0; 1; 7].
Proof. vm_compute. repeat split. Qed.
Definition case_multipart (t : pyval) (body : pyval) : pyval :=
  VObj MultipartRequest04 [("header", case_header 4 (VInt 18)); ("multipart_type", t); ("flags", VInt 0); ("pad", VPad 4); ("body", body)].
Example c65_case_multipart :
  built (case_multipart (VEnum E_MultipartType04 3) (VInt 3)) = true /\
  pack (case_multipart (VEnum E_MultipartType04 3) (VInt 3)) = Err UnboundLocalError /\
  pack (case_multipart (VEnum E_MultipartType04 3) (VBytes [3])) = Err UnboundLocalError /\
  pack (case_multipart (VEnum E_MultipartType04 3) (VBytes [])) = Ok [4; 18; 0; 16; 0; 0; 0; 1; 0; 3; 0; 0; 0; 0; 0; 0] /\
  pack (case_multipart (VEnum E_MultipartType04 4) (VList CList CObject [VInt 3])) = Err AttributeError /\
  pack (case_multipart (VInt 99) (VList CList CObject [VInt 3])) = Err AttributeError /\
  pack (case_multipart (VUInt 2 (Some E_MultipartType04) (VInt 99)) (VList CList CObject [VInt 3])) = Err ValueError /\
  pack (case_multipart (VUInt 2 None (VInt 12)) (VList CList CObject [VInt 3])) = Err TypeError /\
  pack (case_multipart (VInt 12) (VList CList CObject [VInt 3])) = Err WrongListItemType /\
  type_asked (VInt 99) (Ok (Some 99)).
Proof. repeat (split; [vm_compute; reflexivity|]). constructor. Qed.
Definition case_out (port actions data : pyval) : pyval :=
  VObj PacketOut04 [("header", case_header 4 (VInt 13)); ("buffer_id", VInt 5); ("in_port", port); ("actions_len", VInt 0); ("pad", VPad 6);
                    ("actions", actions); ("data", data)].
Example c65_case_out :
  built (case_out (VInt 1) (VInt 3) (VInt 3)) = true /\
  pack (case_out (VInt 1) (VInt 3) (VInt 3)) = Err WrongListItemType /\
  pack (case_out (VInt 0) VNone (VInt 3)) = Err ValueError /\
  pack (case_out (VInt 0) VNone VNone) = Err ValidationError /\
  pack (case_out (VStr (txt "1")) VNone VNone) = Err TypeError /\
  pack (case_out (VInt 1) VNone VNone) = Ok [4; 13; 0; 24; 0; 0; 0; 1; 0; 0; 0; 5; 0; 0; 0; 1; 0; 0; 0; 0; 0; 0; 0; 0].
Proof. vm_compute. repeat split. Qed.
Definition case_set (f : pyval) : pyval := VObj ActionSetField04 [("action_type", VInt 25); ("length", VNone); ("field", f)].
Example c65_case_set :
  built (case_set (VInt 3)) = true /\
  pack (case_set (VInt 3)) = Err AttributeError /\
  pack (case_set new_OxmTLV04) = Err PackException /\
  pack (case_set (VBin (VBytes [1; 2; 3; 4; 5]))) = Ok [0; 25; 0; 16; 1; 2; 3; 4; 5; 0; 0; 0; 0; 0; 0; 0].
Proof. vm_compute. repeat split. Qed.
Definition case_tlv (cls f flag val : pyval) : pyval :=
  VObj OxmTLV04 [("oxm_class", cls); ("oxm_field_and_mask", VNone); ("oxm_length", VNone); ("oxm_value", val); ("oxm_field", f); ("oxm_hasmask", flag)].
Definition case_match (l : pyval) : pyval := VObj Match04 [("match_type", VInt 1); ("length", VInt 4); ("oxm_match_fields", l)].
Example c65_case_match :
  built (case_match (VList CList CObject [case_tlv (VInt 32768) (VInt 40) VNone (VInt 7)])) = true /\
  pack (case_tlv (VInt 32768) (VInt 40) VNone (VInt 7)) = Err PackException /\
  pack (case_tlv (VInt 1) (VInt 128) VNone (VInt 7)) = Err PackException /\
  pack (case_tlv (VInt 1) (VInt 127) VNone (VInt 7)) = Err TypeError /\
  pack (case_tlv (VInt 1) (VInt 127) (VInt 3) (VInt 7)) = Err ValueError /\
  pack (case_tlv (VInt 1) (VInt (-1)) (VInt 3) (VBytes [7])) = Err PackException /\
  pack (case_tlv (VInt 1) (VInt 127) (VInt 3) (VBytes [7])) = Ok [0; 1; 255; 1; 7] /\
  pack (case_match (VInt 3)) = Err WrongListItemType /\
  pack (case_match (case_tlv (VInt 1) (VInt 127) (VInt 3) (VBytes [7]))) = Err TypeError /\
  pack (case_match (VList CList CObject [case_tlv (VInt 1) (VInt 127) (VInt 3) (VBytes [7])])) = Ok [0; 1; 0; 9; 0; 1; 255; 1; 7; 0; 0; 0; 0; 0; 0; 0].
Proof. vm_compute. repeat split. Qed.
