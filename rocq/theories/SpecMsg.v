(** Wire format of whole messages, on top of [Spec].

    [enc_msg n v t x m bs out] says: the message [m] of protocol version [v],
    type code [t] and transaction id [x] is carried by the bytes [bs], and a
    receiver obtains the message [out]. *)
From Coq Require Import ZArith List Bool String.
From Verif Require Import Base PyText Ids PyVal Classes Interp Utils Spec.
Import ListNotations.
Open Scope string_scope.
Open Scope list_scope.
Open Scope Z_scope.

(** ** Header *)

Definition version_number (v : of_version) : Z := match v with V01 => 1 | V04 => 4 end.
Definition header_class (v : of_version) : cid := match v with V01 => Header01 | V04 => Header04 end.
Definition type_enum (v : of_version) : eid := match v with V01 => E_Type01 | V04 => E_Type04 end.

(** Version, type, total length and transaction id. *)
Definition wire_header (v : of_version) (t len x : Z) : bytes :=
  be_encode 1 (version_number v) ++ be_encode 1 t ++ be_encode 2 len ++ be_encode 4 x.

(** Message type codes: OpenFlow 1.0, section 5.1; OpenFlow 1.3, section 7.1. *)
Definition openflow_types (v : of_version) : list (Z * cid) :=
  match v with
  | V01 =>
      [(0, Hello01); (1, ErrorMsg01); (2, EchoRequest01); (3, EchoReply01); (4, VendorHeader01);
       (5, FeaturesRequest01); (6, FeaturesReply01); (7, GetConfigRequest01);
       (8, GetConfigReply01); (9, SetConfig01); (10, PacketIn01); (11, FlowRemoved01);
       (12, PortStatus01); (13, PacketOut01); (14, FlowMod01); (15, PortMod01);
       (16, StatsRequest01); (17, StatsReply01); (18, BarrierRequest01); (19, BarrierReply01);
       (20, QueueGetConfigRequest01); (21, QueueGetConfigReply01)]
  | V04 =>
      [(0, Hello04); (1, ErrorMsg04); (2, EchoRequest04); (3, EchoReply04);
       (4, ExperimenterHeader04); (5, FeaturesRequest04); (6, FeaturesReply04);
       (7, GetConfigRequest04); (8, GetConfigReply04); (9, SetConfig04); (10, PacketIn04);
       (11, FlowRemoved04); (12, PortStatus04); (13, PacketOut04); (14, FlowMod04);
       (15, GroupMod04); (16, PortMod04); (17, TableMod04); (18, MultipartRequest04);
       (19, MultipartReply04); (20, BarrierRequest04); (21, BarrierReply04);
       (22, QueueGetConfigRequest04); (23, QueueGetConfigReply04); (24, RoleRequest04);
       (25, RoleReply04); (26, GetAsyncRequest04); (27, GetAsyncReply04); (28, SetAsync04);
       (29, MeterMod04)]
  end.

(** Types whose class is created with a header of another type
    (v0x04/controller2switch/queue_get_config_request.py:20,
    queue_get_config_reply.py:21). *)
Definition misfiled (v : of_version) (t : Z) : Prop := v = V04 /\ (t = 22 \/ t = 23).

(** Attribute [name] holds the integer [z]. *)
Definition holds (attrs : list (string * pyval)) (name : string) (z : Z) : Prop :=
  exists iv, get_attr name attrs = Some iv /\ int_value iv z.

(** The message has all its fields and a header of version [v], type [t] and
    transaction id [x]; nothing is required of the header length. *)
Definition sendable (v : of_version) (t x : Z) (c : cid) (attrs : list (string * pyval)) : Prop :=
  complete c attrs /\
  exists hattrs,
    get_attr "header" attrs = Some (VObj (header_class v) hattrs) /\
    complete (header_class v) hattrs /\
    holds hattrs "version" (version_number v) /\ holds hattrs "message_type" t /\
    holds hattrs "xid" x /\ 0 <= x < 2 ^ 32.

(** The decoded message: header with the received length and transaction id,
    then the decoded fields. *)
Definition decoded_header (v : of_version) (t len x : Z) : pyval :=
  VObj (header_class v)
    [("version", VUInt 1 None (VInt (version_number v)));
     ("message_type", VEnum (type_enum v) t);
     ("length", VUInt 2 None (VInt len));
     ("xid", VUInt 4 None (VInt x))].
Definition body_fields (c : cid) : list (string * pyval) := tl (class_attrs c).
Definition body_values (c : cid) (attrs : list (string * pyval)) : list pyval := tl (values c attrs).
Definition decoded (v : of_version) (t len x : Z) (c : cid) (outs : list pyval) : pyval :=
  VObj c (("header", decoded_header v t len x) :: combine (map fst (body_fields c)) outs).

(** ** Bodies *)

(** Messages whose body is just their fields. *)
Definition special (c : cid) : bool :=
  match c with
  | ErrorMsg01 | ErrorMsg04 | PacketOut01 | PacketOut04 | StatsRequest01 | StatsReply01
  | MultipartRequest04 | MultipartReply04 => true
  | _ => false
  end.

(** Enumeration of the error codes of an error type: OpenFlow 1.0, section
    5.4.4; OpenFlow 1.3, section 7.4.4. *)
Definition error_codes (v : of_version) : list (Z * eid) :=
  match v with
  | V01 =>
      [(0, E_HelloFailedCode01); (1, E_BadRequestCode01); (2, E_BadActionCode01);
       (3, E_FlowModFailedCode01); (4, E_PortModFailedCode01); (5, E_QueueOpFailedCode01)]
  | V04 =>
      [(0, E_HelloFailedCode04); (1, E_BadRequestCode04); (2, E_BadActionCode04);
       (3, E_BadInstructionCode04); (4, E_BadMatchCode04); (5, E_FlowModFailedCode04);
       (6, E_GroupModFailedCode04); (7, E_PortModFailedCode04); (8, E_TableModFailedCode04);
       (9, E_QueueOpFailedCode04); (10, E_SwitchConfigFailedCode04);
       (11, E_RoleRequestFailedCode04); (12, E_MeterModFailedCode04);
       (13, E_TableFeaturesFailedCode04)]
  end.
Definition error_class (v : of_version) : cid := match v with V01 => ErrorMsg01 | V04 => ErrorMsg04 end.

(** Ports a PacketOut may come from: the physical ports and LOCAL,
    CONTROLLER and NONE (1.0) or ANY (1.3). *)
Definition out_class (v : of_version) : cid := match v with V01 => PacketOut01 | V04 => PacketOut04 end.
Definition sending_port (v : of_version) (p : Z) : Prop :=
  match v with
  | V01 => 1 <= p <= 0xff00 \/ p = 0xfffe \/ p = 0xfffd \/ p = 0xffff
  | V04 => 1 <= p <= 0xffffff00 \/ p = 0xfffffffe \/ p = 0xfffffffd \/ p = 0xffffffff
  end.

(** What a statistics body is: one structure, a sequence of structures, or
    raw bytes. *)
Inductive body_form : Type := BStruct (c : cid) | BList (c : cid) | BRaw.

(** OpenFlow 1.0, section 5.3.5; requests are decoded as sequences; the two
    types without request body allow none. *)
Definition stats_request_forms : list (Z * body_form) :=
  [(0, BList CNone); (1, BList FlowStatsRequest01); (2, BList AggregateStatsRequest01);
   (3, BList CNone); (4, BList PortStatsRequest01); (5, BList QueueStatsRequest01);
   (0xffff, BList VendorStats01)].
Definition stats_reply_forms : list (Z * body_form) :=
  [(0, BStruct DescStats01); (1, BList FlowStats01); (2, BList AggregateStatsReply01);
   (3, BList TableStats01); (4, BList PortStats01); (5, BList QueueStats01);
   (0xffff, BList VendorStats01)].
(** OpenFlow 1.3, section 7.3.5. *)
Definition multipart_request_forms : list (Z * body_form) :=
  [(0, BRaw); (1, BStruct FlowStatsRequest04); (2, BStruct AggregateStatsRequest04); (3, BRaw);
   (4, BStruct PortStatsRequest04); (5, BStruct QueueStatsRequest04);
   (6, BStruct GroupStatsRequest04); (7, BRaw); (8, BRaw); (9, BStruct MeterMultipartRequest04);
   (10, BRaw); (11, BRaw); (12, BList TableFeatures04); (13, BRaw);
   (0xffff, BStruct ExperimenterMultipartHeader04)].
Definition multipart_reply_forms : list (Z * body_form) :=
  [(0, BStruct Desc04); (1, BList FlowStats04); (2, BList AggregateStatsReply04);
   (3, BList TableStats04); (4, BList PortStats04); (5, BList QueueStats04);
   (6, BList GroupStats04); (7, BList GroupDescStats04); (8, BStruct GroupFeatures04);
   (9, BList MeterStats04); (10, BList MeterConfig04); (11, BStruct MeterFeatures04);
   (12, BList TableFeatures04); (13, BList Port04); (0xffff, BStruct ExperimenterMultipartHeader04)].

(** A message with a type field followed by other fixed fields and a body. *)
Inductive stats_family : Type := FStatsRequest | FStatsReply | FMultipartRequest | FMultipartReply.
Definition stats_class (f : stats_family) : cid :=
  match f with
  | FStatsRequest => StatsRequest01 | FStatsReply => StatsReply01
  | FMultipartRequest => MultipartRequest04 | FMultipartReply => MultipartReply04
  end.
Definition stats_type_name (f : stats_family) : string :=
  match f with FStatsRequest | FStatsReply => "body_type" | _ => "multipart_type" end.
Definition stats_type_enum (f : stats_family) : eid :=
  match f with FStatsRequest | FStatsReply => E_StatsType01 | _ => E_MultipartType04 end.
Definition stats_forms (f : stats_family) : list (Z * body_form) :=
  match f with
  | FStatsRequest => stats_request_forms | FStatsReply => stats_reply_forms
  | FMultipartRequest => multipart_request_forms | FMultipartReply => multipart_reply_forms
  end.
(** The type as the user may give it: member, number, or UBInt16 with either. *)
Definition type_given (f : stats_family) (t : Z) (ti : pyval) : Prop :=
  ti = VEnum (stats_type_enum f) t \/ ti = VInt t \/
  ti = VUInt 2 (Some (stats_type_enum f)) (VEnum (stats_type_enum f) t) \/
  ti = VUInt 2 (Some (stats_type_enum f)) (VInt t).

(** A statistics body [iv] carried by [bs] and decoded to [out]. *)
Inductive enc_stats (n : nat) : body_form -> pyval -> bytes -> pyval -> Prop :=
| st_struct k c v bs out :
    enc_obj (S n) k true c v bs out -> bs <> [] ->
    enc_stats n (BStruct c) v bs out
| st_list c lc pc items bs outs :
    subclass lc CFixedTypeList = true -> enc_items n c items bs outs ->
    enc_stats n (BList c) (VList lc pc items) bs (VList CFixedTypeList c outs)
| st_single k c v bs out :
    enc_obj n k true c v bs out -> bs <> [] ->
    enc_stats n (BList c) v bs (VList CFixedTypeList c [out])
| st_nothing c v :
    v = VNone \/ v = VBytes [] ->
    enc_stats n (BList c) v [] (VList CFixedTypeList c [])
| st_raw_none v :
    v = VNone \/ v = VBytes [] ->
    enc_stats n BRaw v [] (VBin (VBytes []))
| st_raw bs :
    enc_stats n BRaw (VBin (VBytes bs)) bs (VBin (VBytes bs)).

(** The fields after the header, their bytes and their decoded values. *)
Inductive enc_body (n : nat) : of_version -> cid -> list (string * pyval) -> bytes -> list pyval -> Prop :=
(* the fields in order *)
| b_fields v k c attrs body outs :
    special c = false ->
    enc_fields (S (S n)) k true (body_fields c) (body_values c attrs) body outs ->
    body <> [] ->
    enc_body n v c attrs body outs
(* nothing after the header: the fields of a new message are kept *)
| b_empty v k c attrs outs :
    special c = false ->
    enc_fields (S (S n)) k true (body_fields c) (body_values c attrs) [] outs ->
    enc_body n v c attrs [] (map (fun p => deepcopy (snd p)) (body_fields c))
(* error type, code of that type, data *)
| b_error v k attrs body er1 t e d1 code d2 data :
    enc_fields (S (S n)) k true (body_fields (error_class v)) (body_values (error_class v) attrs) body
      [VUInt 2 er1 d1; VUInt 2 None (VInt code); data] ->
    int_exact (VUInt 2 er1 d1) t -> In (t, e) (error_codes v) -> is_member e code = true ->
    d2 = VEnum e code ->
    enc_body n v (error_class v) attrs body [VUInt 2 er1 d1; d2; data]
(* fixed fields with the number of action bytes, the actions, the data *)
| b_packet_out v attrs ip p alen fs vals pb pouts lc pc aiv ab aout dcv div db dout :
    get_attr "in_port" attrs = Some ip -> int_exact ip p -> sending_port v p ->
    body_fields (out_class v) = fs ++ [("actions", VList lc pc []); ("data", dcv)] ->
    body_values (out_class v) (set_attr "actions_len" (VInt alen) attrs) = vals ++ [aiv; div] ->
    enc_fields (S (S n)) SD true fs vals pb pouts ->
    enc (S (S n)) TAIL true (VList lc pc []) aiv ab aout -> alen = zlen ab ->
    enc (S (S n)) TAIL true dcv div db dout ->
    enc_body n v (out_class v) attrs (pb ++ ab ++ db) (pouts ++ [aout; dout])
(* type, fixed fields, body of the form selected by the type *)
| b_stats v f attrs ti t form vals fs pb tout pouts bcv biv bb bout :
    (v = V01 <-> f = FStatsRequest \/ f = FStatsReply) ->
    get_attr (stats_type_name f) attrs = Some ti ->
    type_given f t ti ->
    body_fields (stats_class f) = fs ++ [("body", bcv)] ->
    body_values (stats_class f) attrs = vals ++ [biv] ->
    enc_fields (S (S n)) SD true fs vals pb (VUInt 2 (Some (stats_type_enum f)) tout :: pouts) ->
    tout = VEnum (stats_type_enum f) t -> In (t, form) (stats_forms f) ->
    enc_stats (S n) form biv bb bout ->
    enc_body n v (stats_class f) attrs (pb ++ bb) (tout :: pouts ++ [bout]).

(** ** Messages *)

Inductive enc_msg (n : nat) : of_version -> Z -> Z -> pyval -> bytes -> pyval -> Prop :=
| enc_message v t x c attrs body outs :
    In (t, c) (openflow_types v) -> ~ misfiled v t ->
    sendable v t x c attrs ->
    enc_body n v c attrs body outs ->
    wf_bytes body -> 8 + zlen body < 65536 ->
    enc_msg n v t x (VObj c attrs)
      (wire_header v t (8 + zlen body) x ++ body)
      (decoded v t (8 + zlen body) x c outs).
