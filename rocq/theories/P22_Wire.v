(** C53 to C56: sender and receiver. *)
From Coq Require Import ZArith List Bool String.
From Verif Require Import Base PyText Ids PyVal Classes Interp Utils Spec SpecMsg SpecBasic Witness Ref SpecSame SpecMutation SpecLayout SpecSize SpecDecode SpecWire SpecInit
  Construct WireFacts WireThm WireThm2 WireThm3 WireThm4.
Import ListNotations.
Open Scope string_scope.
Open Scope list_scope.
Open Scope Z_scope.

(** ** C53: what was sent is what is received.  For any message of the standard,
    with any attributes, that pack() encodes and unpack_packet() accepts. *)

(** The class, the version, the transaction id and the length. *)
Theorem c53_message : forall v t x c attrs bs m, In (t, c) (openflow_types v) ->
  built (VObj c attrs) = true -> regular (VObj c attrs) = true -> octets (VObj c attrs) = true -> headed attrs v t x ->
  pack (VObj c attrs) = Ok bs -> unpack_packet bs = Ok m ->
  exists attrs' h, m = VObj c attrs' /\ get_attr "header" attrs' = Some (VObj (SpecMsg.header_class v) h) /\
    holds h "version" (version_number v) /\ holds h "xid" x /\ holds h "length" (zlen bs) /\ (~ misfiled v t -> holds h "message_type" t).
Proof. exact same_message. Qed.
Print Assumptions c53_message.

(** Every field with a place in the standard. *)
Theorem c53_fields : forall v t x c attrs bs attrs' l k, In (t, c) (openflow_types v) ->
  built (VObj c attrs) = true -> regular (VObj c attrs) = true -> octets (VObj c attrs) = true -> headed attrs v t x ->
  pack (VObj c attrs) = Ok bs -> unpack_packet bs = Ok (VObj c attrs') -> openflow_layout c = Some (("header", 8%nat) :: l, k) ->
  forall name at_ w, placed 8 l name at_ w -> computed c name = false ->
    exists d sent got, get_attr name (class_attrs c) = Some d /\ get_attr name attrs = Some sent /\ get_attr name attrs' = Some got /\ agrees d sent got.
Proof. exact same_fields. Qed.
Print Assumptions c53_fields.

(** The data at the end of a message. *)
Theorem c53_data : forall v t x c attrs bs attrs' l k A nm d, In (t, c) (openflow_types v) ->
  built (VObj c attrs) = true -> regular (VObj c attrs) = true -> octets (VObj c attrs) = true -> headed attrs v t x ->
  pack (VObj c attrs) = Ok bs -> (8 < List.length bs)%nat -> unpack_packet bs = Ok (VObj c attrs') -> openflow_layout c = Some (l, k) ->
  class_attrs c = A ++ [(nm, VBin d)] -> List.length A = List.length l -> nm <> "body" ->
  exists sent data, get_attr nm attrs = Some sent /\ carried (VBin d) sent data /\ get_attr nm attrs' = Some (VBin (VBytes data)).
Proof. exact same_data. Qed.
Print Assumptions c53_data.

(** The ports of a switch of OpenFlow 1.0, any number of them. *)
Theorem c53_ports : forall x attrs bs attrs' lc pc items leaves,
  built (VObj FeaturesReply01 attrs) = true -> regular (VObj FeaturesReply01 attrs) = true -> octets (VObj FeaturesReply01 attrs) = true -> headed attrs V01 6 x ->
  get_attr "ports" attrs = Some (VList lc pc items) -> leaf_list (VList lc pc items) leaves -> (forall y, In y leaves -> exists a, y = VObj PhyPort01 a) ->
  pack (VObj FeaturesReply01 attrs) = Ok bs -> unpack_packet bs = Ok (VObj FeaturesReply01 attrs') ->
  exists got, get_attr "ports" attrs' = Some (VList CFixedTypeList PhyPort01 got) /\ Forall2 (agrees (VObj PhyPort01 [])) leaves got.
Proof. exact same_ports. Qed.
Print Assumptions c53_ports.

(** The body of a statistics message: a list of any number of structures of
    fixed size, one structure, or bytes, as the type of the statistics says. *)
Theorem c53_records : forall f attrs bs x t c attrs' lc pc items leaves,
  built (VObj (stats_class f) attrs) = true -> regular (VObj (stats_class f) attrs) = true -> octets (VObj (stats_class f) attrs) = true ->
  headed attrs (stats_version f) (stats_code f) x -> holds attrs (stats_type_name f) t -> In (t, BList c) (stats_forms f) -> In c fixed_records ->
  get_attr "body" attrs = Some (VList lc pc items) -> leaf_list (VList lc pc items) leaves -> (forall y, In y leaves -> exists a, y = VObj c a) ->
  pack (VObj (stats_class f) attrs) = Ok bs -> unpack_packet bs = Ok (VObj (stats_class f) attrs') ->
  exists got, get_attr "body" attrs' = Some (VList CFixedTypeList c got) /\ Forall2 (agrees (VObj c [])) leaves got.
Proof. exact same_records. Qed.
Print Assumptions c53_records.
Theorem c53_body : forall f attrs bs x t c attrs' a,
  built (VObj (stats_class f) attrs) = true -> regular (VObj (stats_class f) attrs) = true -> octets (VObj (stats_class f) attrs) = true ->
  headed attrs (stats_version f) (stats_code f) x -> holds attrs (stats_type_name f) t -> In (t, BStruct c) (stats_forms f) ->
  get_attr "body" attrs = Some (VObj c a) -> pack (VObj (stats_class f) attrs) = Ok bs -> unpack_packet bs = Ok (VObj (stats_class f) attrs') ->
  exists a', get_attr "body" attrs' = Some (VObj c a') /\ agrees (VObj c []) (VObj c a) (VObj c a').
Proof. exact same_body_struct. Qed.
Print Assumptions c53_body.
Theorem c53_raw : forall f attrs bs x t attrs',
  built (VObj (stats_class f) attrs) = true -> regular (VObj (stats_class f) attrs) = true -> octets (VObj (stats_class f) attrs) = true ->
  headed attrs (stats_version f) (stats_code f) x -> holds attrs (stats_type_name f) t -> In (t, BRaw) (stats_forms f) ->
  pack (VObj (stats_class f) attrs) = Ok bs -> unpack_packet bs = Ok (VObj (stats_class f) attrs') ->
  exists sent data, get_attr "body" attrs = Some sent /\ carried (VBin VNone) sent data /\ get_attr "body" attrs' = Some (VBin (VBytes data)).
Proof. exact same_body_raw. Qed.
Print Assumptions c53_raw.

(** From the call of the constructor on one side to the received object on the
    other: each argument arrives in the attribute of its name. *)
Theorem c53_constructed : forall rnd v t c pos kw o bs m x, In (t, c) (openflow_types v) -> ~ misfiled v t -> construct rnd c pos kw = Ok o ->
  (forall p a, given c pos kw p a -> suits c p a = true /\ octets a = true) ->
  given c pos kw "xid" (VInt x) \/ omitted c pos kw "xid" /\ x = rnd ->
  pack o = Ok bs -> unpack_packet bs = Ok m ->
  exists attrs h, m = VObj c attrs /\ get_attr "header" attrs = Some (VObj (SpecMsg.header_class v) h) /\
    holds h "version" (version_number v) /\ holds h "message_type" t /\ holds h "xid" x /\
    forall l k p a at_ w, openflow_layout c = Some (("header", 8%nat) :: l, k) -> placed 8 l p at_ w -> computed c p = false ->
      given c pos kw p a -> kept_argument c p a = true ->
      exists d got, get_attr p (class_attrs c) = Some d /\ get_attr p attrs = Some got /\ agrees d a got.
Proof. exact call_received. Qed.
Print Assumptions c53_constructed.

(** What agreement is for numbers, addresses in the usual form and texts that
    fit. *)
Theorem c53_number : forall w er d z got, agrees (VUInt w er d) (VInt z) got -> stands_for got z.
Proof. exact agree_number. Qed.
Print Assumptions c53_number.
Theorem c53_ip : forall d m b got, wf_bytes b -> List.length b = 4%nat -> agrees (VIP d m) (VStr (dotted_dec b)) got -> got = VIP (VStr (dotted_dec b)) m.
Proof. exact agree_ip. Qed.
Print Assumptions c53_ip.
Theorem c53_hw : forall d b got, wf_bytes b -> List.length b = 6%nat -> agrees (VHW d) (VStr (colon_hex b)) got -> got = VHW (VStr (colon_hex b)).
Proof. exact agree_hw. Qed.
Print Assumptions c53_hw.
Theorem c53_dpid : forall d b got, wf_bytes b -> List.length b = 8%nat -> agrees (VDPID d) (VStr (colon_hex b)) got -> got = VDPID (VStr (colon_hex b)).
Proof. exact agree_dpid. Qed.
Print Assumptions c53_dpid.
Theorem c53_text : forall n d s got, agrees (VChar n d) (VStr s) got -> (List.length s < n)%nat -> (forall x, s <> x ++ [0]) -> got = VChar n (VStr s).
Proof. exact agree_text. Qed.
Print Assumptions c53_text.

(** A PortMod of OpenFlow 1.0. *)
Definition wire_pos : list pyval := [VInt 77; VInt 258; VStr (txt "01:02:03:04:05:06")].
Definition wire_kw : list (string * pyval) := [("mask", VInt 4); ("config", VInt 3); ("advertise", VInt 5)].
Example c53_constructed_case : exists o bs m,
  construct 9 PortMod01 wire_pos wire_kw = Ok o /\ pack o = Ok bs /\ unpack_packet bs = Ok m /\ octets o = true /\
  bs = [1; 15; 0; 32; 0; 0; 0; 77;  1; 2;  1; 2; 3; 4; 5; 6;  0; 0; 0; 3;  0; 0; 0; 4;  0; 0; 0; 5;  0; 0; 0; 0] /\
  (exists attrs, m = VObj PortMod01 attrs /\ get_attr "hw_addr" attrs = Some (VHW (VStr (txt "01:02:03:04:05:06"))) /\
     exists e, get_attr "advertise" attrs = Some (VUInt 4 (Some e) (VMask e 5))).
Proof.
  eexists _, _, _. split; [vm_compute; reflexivity|]. split; [vm_compute; reflexivity|]. split; [vm_compute; reflexivity|]. split; [vm_compute; reflexivity|]. split; [reflexivity|].
  eexists. split; [reflexivity|]. split; [reflexivity|]. eexists. reflexivity.
Qed.

(** A reply with the description of two ports, OpenFlow 1.3. *)
Definition some_port (n : Z) (name : string) : pyval := with_attrs new_Port04 [("port_no", VInt n); ("hw_addr", VStr (txt "0a:0b:0c:0d:0e:0f")); ("name", VStr (txt name));
  ("config", VInt 0); ("state", VInt 4); ("curr", VInt 64); ("advertised", VInt 0); ("supported", VInt 0); ("peer", VInt 0); ("curr_speed", VInt 100); ("max_speed", VInt 1000)].
Definition some_reply : pyval :=
  with_attrs new_MultipartReply04
    [("header", with_attrs new_Header04 [("message_type", VInt 19); ("xid", VInt 5)]); ("multipart_type", VInt 13); ("flags", VInt 0);
     ("body", VList ListOfPorts04 Port04 [some_port 1 "eth0"; some_port 2 "eth1"])].
Example c53_records_case : exists attrs bs attrs' got, some_reply = VObj (stats_class FMultipartReply) attrs /\
  built some_reply = true /\ regular some_reply = true /\ octets some_reply = true /\ headed attrs (stats_version FMultipartReply) (stats_code FMultipartReply) 5 /\
  holds attrs (stats_type_name FMultipartReply) 13 /\ In (13, BList Port04) (stats_forms FMultipartReply) /\ In Port04 fixed_records /\
  pack some_reply = Ok bs /\ List.length bs = 144%nat /\ unpack_packet bs = Ok (VObj (stats_class FMultipartReply) attrs') /\
  get_attr "body" attrs' = Some (VList CFixedTypeList Port04 got) /\ List.length got = 2%nat.
Proof.
  eexists _, _, _, _. split; [vm_compute; reflexivity|]. split; [vm_compute; reflexivity|]. split; [vm_compute; reflexivity|]. split; [vm_compute; reflexivity|].
  split; [eexists _, _; split; [reflexivity|]; repeat split; eexists; (split; [reflexivity|constructor])|].
  split; [eexists; split; [reflexivity|constructor]|]. split; [vm_compute; tauto|]. split; [vm_compute; tauto|].
  split; [vm_compute; reflexivity|]. split; [reflexivity|]. split; [vm_compute; reflexivity|]. split; reflexivity.
Qed.

(** ** C54: equal encodings come from equal contents. *)

(** Two messages with the same encoding have the version, the type, the
    transaction id and the class in common ... *)
Theorem c54_message : forall v t x c attrs v' t' x' c' attrs' bs, In (t, c) (openflow_types v) -> In (t', c') (openflow_types v') ->
  built (VObj c attrs) = true -> regular (VObj c attrs) = true -> built (VObj c' attrs') = true -> regular (VObj c' attrs') = true ->
  headed attrs v t x -> headed attrs' v' t' x' -> pack (VObj c attrs) = Ok bs -> pack (VObj c' attrs') = Ok bs ->
  v = v' /\ t = t' /\ x = x' /\ c = c'.
Proof. exact equal_messages. Qed.
Print Assumptions c54_message.
(** ... and each field with a place in the standard, like all structures of one
    class with the same encoding. *)
Theorem c54_fields : forall c attrs attrs' bs l t, openflow_layout c = Some (l, t) ->
  built (VObj c attrs) = true -> regular (VObj c attrs) = true -> built (VObj c attrs') = true -> regular (VObj c attrs') = true ->
  pack (VObj c attrs) = Ok bs -> pack (VObj c attrs') = Ok bs ->
  forall name at_ w, placed 0 l name at_ w -> name <> "header" -> computed c name = false ->
    exists d x y, get_attr name (class_attrs c) = Some d /\ get_attr name attrs = Some x /\ get_attr name attrs' = Some y /\ alike d x y.
Proof. exact equal_fields. Qed.
Print Assumptions c54_fields.
(** Well-formed messages, lists included, have the same contents: those of one
    message that either decodes to. *)
Theorem c54_contents : forall n v m n' v' m' bs, wf_message n v m = true -> wf_message n' v' m' = true -> pack m = Ok bs -> pack m' = Ok bs ->
  exists out, unpack_packet bs = Ok out /\ same_msg m out /\ same_msg m' out.
Proof. exact equal_contents. Qed.
Print Assumptions c54_contents.
(** The usual values are equal. *)
Theorem c54_values :
  (forall w er d z z', alike (VUInt w er d) (VInt z) (VInt z') -> z = z') /\
  (forall d m b b', wf_bytes b -> wf_bytes b' -> List.length b = 4%nat -> List.length b' = 4%nat -> alike (VIP d m) (VStr (dotted_dec b)) (VStr (dotted_dec b')) -> b = b') /\
  (forall d b b', wf_bytes b -> wf_bytes b' -> List.length b = 6%nat -> List.length b' = 6%nat -> alike (VHW d) (VStr (colon_hex b)) (VStr (colon_hex b')) -> b = b') /\
  (forall n d s s', (List.length s < n)%nat -> (List.length s' < n)%nat -> (forall x, s <> x ++ [0]) -> (forall x, s' <> x ++ [0]) -> alike (VChar n d) (VStr s) (VStr s') -> s = s').
Proof. exact alike_values. Qed.
Print Assumptions c54_values.
(** The same port by a number and by a name. *)
Example c54_case : exists a a', with_attrs new_ActionOutput01 [("port", VInt 65533)] = VObj ActionOutput01 a /\
  with_attrs new_ActionOutput01 [("port", VEnum E_Port01 65533)] = VObj ActionOutput01 a' /\
  built (VObj ActionOutput01 a) = true /\ regular (VObj ActionOutput01 a) = true /\ built (VObj ActionOutput01 a') = true /\ regular (VObj ActionOutput01 a') = true /\
  pack (VObj ActionOutput01 a) = Ok [0; 0; 0; 8; 255; 253; 255; 255] /\ pack (VObj ActionOutput01 a') = Ok [0; 0; 0; 8; 255; 253; 255; 255] /\ a <> a'.
Proof. eexists _, _. repeat split; try (vm_compute; reflexivity). intros E. discriminate E. Qed.

(** ** C55: a stream of messages is cut into the messages by the lengths in
    their headers, and in no other way.  Partial: messages have a length field
    that is right (C10). *)
Theorem c55_stream_partial : forall os bss,
  Forall2 (fun o bs => exists c attrs l t hc h, o = VObj c attrs /\ openflow_layout c = Some (("header", 8%nat) :: l, t) /\
    built o = true /\ regular o = true /\ measurable o = true /\ get_attr "header" attrs = Some (VObj hc h) /\ pack o = Ok bs) os bss ->
  cut (List.concat bss) bss /\ forall ps, cut (List.concat bss) ps -> ps = bss.
Proof. exact stream_cut. Qed.
Print Assumptions c55_stream_partial.
Theorem c55_wf_stream_partial : forall n os bss, Forall2 (fun o bs => (exists v, wf_message n v o = true) /\ pack o = Ok bs) os bss ->
  cut (List.concat bss) bss /\ forall ps, cut (List.concat bss) ps -> ps = bss.
Proof. exact wf_stream. Qed.
Print Assumptions c55_wf_stream_partial.
Theorem c55_unique : forall s ms ms', cut s ms -> cut s ms' -> ms = ms'.
Proof. exact cut_unique. Qed.
Print Assumptions c55_unique.
Example c55_case : cut [4; 0; 0; 8; 0; 0; 0; 1; 4; 2; 0; 10; 0; 0; 0; 2; 7; 7] [ [4; 0; 0; 8; 0; 0; 0; 1]; [4; 2; 0; 10; 0; 0; 0; 2; 7; 7] ].
Proof.
  apply (cut_next [4; 0; 0; 8; 0; 0; 0; 1] [4; 2; 0; 10; 0; 0; 0; 2; 7; 7]); [cbn; repeat constructor|repeat split; repeat constructor; discriminate|].
  apply (cut_next [4; 2; 0; 10; 0; 0; 0; 2; 7; 7] []); [cbn; repeat constructor|repeat split; repeat constructor; discriminate|]. constructor.
Qed.
(** A MeterMod with a band states a wrong length. *)
Theorem c55_stream_refuted : exists o bs, pack o = Ok bs /\ forall ps, ~ cut bs [bs] /\ ~ cut (bs ++ bs) (bs :: ps).
Proof. exact stream_refuted. Qed.
Print Assumptions c55_stream_refuted.

(** ** C56: what pack() returns is bytes: no element is below 0 or above 255. *)
Theorem c56_bytes : forall v b, octets v = true -> pack v = Ok b -> wf_bytes b.
Proof. exact pack_bytes. Qed.
Print Assumptions c56_bytes.
(** The objects that constructors make are Python values. *)
Theorem c56_constructed : forall rnd c pos kw o, c <> Match01 -> c <> CGenericStruct -> construct rnd c pos kw = Ok o ->
  (forall p v, given c pos kw p v -> octets v = true) -> octets o = true.
Proof. exact constructed_octets. Qed.
Print Assumptions c56_constructed.
Theorem c56_new : forall c v, new_instance c = Some v -> octets v = true.
Proof. exact new_octets. Qed.
Print Assumptions c56_new.
Example c56_case : exists b, octets some_reply = true /\ pack some_reply = Ok b /\ firstn 20 b = [4; 19; 0; 144; 0; 0; 0; 5; 0; 13; 0; 0; 0; 0; 0; 0; 0; 0; 0; 1].
Proof. eexists. split; [vm_compute; reflexivity|]. split; [vm_compute; reflexivity|reflexivity]. Qed.
