(** When a received value holds the same contents as the value that was sent.

    The relation compares attributes only: it does not mention the bytes, and
    compares what fields stand for (the integer, the text, the address) rather
    than how the attribute is represented: an integer attribute may have been
    set to [7], to an enumeration member or to a UBInt8 instance, or left to
    the class default.  Fields the sender computes itself (lengths) are not
    compared. *)
From Coq Require Import ZArith List Bool String.
From Verif Require Import Base PyText Ids PyVal Classes Interp Utils Spec SpecMsg.
Import ListNotations.
Open Scope string_scope.
Open Scope list_scope.
Open Scope Z_scope.

(** What a field declared [cv] holds when its attribute is [iv]. *)
Definition shown (cv iv : pyval) : pyval := match iv with VNone => cv | _ => iv end.

(** Text of a Char, IPAddress, HWAddress or DPID value, or a plain string. *)
Definition text_of (v : pyval) : option text :=
  match v with
  | VStr s | VChar _ (VStr s) | VIP (VStr s) _ | VHW (VStr s) | VDPID (VStr s) => Some s
  | _ => None
  end.

(** The address a value stands for; 0 stands for the null address. *)
Inductive address : pyval -> bytes -> Prop :=
| ad_text v s bs : text_of v = Some s -> hex_text s bs -> address v bs
| ad_zero v : v = VInt 0 \/ v = VHW (VInt 0) -> address v [0; 0; 0; 0; 0; 0].

(** Lengths set by the sender's pack(). *)
Definition computed (c : cid) (name : string) : bool :=
  String.eqb name "length" &&
  match kind c with
  | KLen _ upd => upd
  | KTyped TMeterBand => false
  | KTyped _ | KSetField04 | KMatch04 => true
  | _ => false
  end.

Inductive same : pyval -> pyval -> pyval -> Prop :=
| sm_int w er d iv z o :
    int_value (shown (VUInt w er d) iv) z -> int_value (VUInt w er o) z ->
    same (VUInt w er d) iv (VUInt w er o)
| sm_pad len iv : same (VPad len) iv (VPad len)
| sm_text len d iv s :
    text_of (shown (VChar len d) iv) = Some s -> same (VChar len d) iv (VChar len (VStr s))
| sm_ip d m iv s m' :
    text_of (shown (VIP d m) iv) = Some s -> same (VIP d m) iv (VIP (VStr s) m')
| sm_hw d iv bs o :
    address (shown (VHW d) iv) bs -> address (VHW o) bs -> same (VHW d) iv (VHW o)
| sm_dpid d iv bs o :
    address (shown (VDPID d) iv) bs -> address (VDPID o) bs -> same (VDPID d) iv (VDPID o)
(* raw bytes, or an object that is received as its bytes *)
| sm_bin n d iv bs o :
    enc_payload n (match iv with VNone => d | _ => iv end) bs -> enc_payload n o bs ->
    same (VBin d) iv (VBin o)
| sm_obj c ca iv out : same_obj (shown (VObj c ca) iv) out -> same (VObj c ca) iv out
| sm_list lc pc lc' pc' items lc2 pc2 outs :
    Forall2 same_obj items outs ->
    same (VList lc pc []) (VList lc' pc' items) (VList lc2 pc2 outs)
| sm_list_none lc pc lc2 pc2 : same (VList lc pc []) VNone (VList lc2 pc2 [])

(** Same class, and same contents of every declared field. *)
with same_obj : pyval -> pyval -> Prop :=
| so_fields c attrs attrs' :
    complete c attrs -> complete c attrs' ->
    same_fields (computed c) (class_attrs c) (values c attrs) (values c attrs') ->
    same_obj (VObj c attrs) (VObj c attrs')
(* OXM TLV: class, field, mask flag (its truth as a bit) and payload *)
| so_oxm n attrs attrs' ic cl ifd f im m ipv payload ic' ifd' im' :
    get_attr "oxm_class" attrs = Some ic -> int_value ic cl ->
    get_attr "oxm_field" attrs = Some ifd -> int_value ifd f ->
    get_attr "oxm_hasmask" attrs = Some im -> int_value im m ->
    get_attr "oxm_value" attrs = Some ipv -> enc_payload n ipv payload ->
    get_attr "oxm_class" attrs' = Some ic' -> int_value ic' cl ->
    get_attr "oxm_field" attrs' = Some ifd' -> int_value ifd' f ->
    get_attr "oxm_hasmask" attrs' = Some im' -> int_value im' (m mod 2) ->
    get_attr "oxm_value" attrs' = Some (VBytes payload) ->
    same_obj (VObj OxmTLV04 attrs) (VObj OxmTLV04 attrs')

with same_fields : (string -> bool) -> list (string * pyval) -> list pyval -> list pyval -> Prop :=
| sf_nil skip : same_fields skip [] [] []
| sf_cons skip name cv iv out fs ivs outs :
    skip name = true \/ same cv iv out ->
    same_fields skip fs ivs outs ->
    same_fields skip ((name, cv) :: fs) (iv :: ivs) (out :: outs).

(** A statistics body: the same structure, the same structures in the same
    order, or the same bytes; a single structure sent where a sequence is
    expected is received as a sequence of one. *)
Inductive same_stats : pyval -> pyval -> Prop :=
| ss_struct v out : same_obj v out -> same_stats v out
| ss_list lc pc items lc' pc' outs :
    Forall2 same_obj items outs -> same_stats (VList lc pc items) (VList lc' pc' outs)
| ss_single v lc pc out : same_obj v out -> same_stats v (VList lc pc [out])
| ss_nothing v lc pc : v = VNone \/ v = VBytes [] -> same_stats v (VList lc pc [])
| ss_nothing_raw v : v = VNone \/ v = VBytes [] -> same_stats v (VBin (VBytes []))
| ss_raw bs : same_stats (VBin (VBytes bs)) (VBin (VBytes bs)).

Definition is_stats (c : cid) : bool :=
  match c with StatsRequest01 | StatsReply01 | MultipartRequest04 | MultipartReply04 => true | _ => false end.

(** The integer in an attribute set by the receiver: a number, an enumeration
    member or an integer field. *)
Definition same_code (cv iv out : pyval) : Prop :=
  exists z, int_value (shown cv iv) z /\ int_value out z.

(** Fields after the header: same contents, the type and body of a statistics
    message and the code of an error being compared as numbers and by
    [same_stats]; the number of action bytes of a PacketOut is computed. *)
Definition same_body_field (c : cid) (name : string) (cv iv out : pyval) : Prop :=
  name = "actions_len" \/ same cv iv out \/
  (is_stats c = true /\ name = "body" /\ same_stats iv out) \/
  ((is_stats c = true \/ c = ErrorMsg01 \/ c = ErrorMsg04) /\ same_code cv iv out).

Inductive same_body (c : cid) : list (string * pyval) -> list pyval -> list pyval -> Prop :=
| sb_nil : same_body c [] [] []
| sb_cons name cv iv out fs ivs outs :
    same_body_field c name cv iv out -> same_body c fs ivs outs ->
    same_body c ((name, cv) :: fs) (iv :: ivs) (out :: outs).

(** Same class, version, type, transaction id and contents of the fields. *)
Definition same_msg (m out : pyval) : Prop :=
  exists c attrs attrs' hc h h' ver t x,
    m = VObj c attrs /\ out = VObj c attrs' /\ complete c attrs' /\
    get_attr "header" attrs = Some (VObj hc h) /\ get_attr "header" attrs' = Some (VObj hc h') /\
    holds h "version" ver /\ holds h' "version" ver /\
    holds h "message_type" t /\ holds h' "message_type" t /\
    holds h "xid" x /\ holds h' "xid" x /\
    same_body c (body_fields c) (body_values c attrs) (body_values c attrs').
