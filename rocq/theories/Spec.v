(** Wire format specification.

    [enc n k sz cv iv bs out] says: a field declared as [cv] (the class
    attribute) that holds the Python value [iv] is carried on the wire by the
    bytes [bs], and a receiver decoding it obtains [out].  The relation is
    defined by the layout rules of the OpenFlow structures (big-endian
    integers, zero padding, concatenation of fields in declaration order,
    length fields, type codes) and does not mention the pack / unpack /
    get_size functions of the model.

    - [k] tells how a decoder finds the end: [SD], from the bytes themselves;
      [TAIL], the value extends to the end of the enclosing bytes;
    - [sz = true] when get_size() is expected to announce the length;
    - [n] bounds the nesting depth of objects. *)
From Coq Require Import ZArith List Bool String.
From Verif Require Import Base PyText Ids PyVal Classes Interp.
Import ListNotations.
Open Scope string_scope.
Open Scope list_scope.
Open Scope Z_scope.

Inductive delim : Type := SD | TAIL.

(** ** Values a field may hold *)

Definition is_mask_enum (e : eid) : bool :=
  match enum_def e with EMask _ => true | _ => false end.

(** The integer a value stands for when stored in an integer field. *)
Inductive int_value : pyval -> Z -> Prop :=
| iv_int z : int_value (VInt z) z
| iv_enum e z : int_value (VEnum e z) z
| iv_uint w er z : int_value (VUInt w er (VInt z)) z
| iv_uint_enum w e z :
    is_mask_enum e = false -> int_value (VUInt w (Some e) (VEnum e z)) z
| iv_uint_mask w e e' z :
    is_mask_enum e = true -> int_value (VUInt w (Some e) (VMask e' z)) z.

(** The integer a value stands for in Python arithmetic. *)
Inductive int_exact : pyval -> Z -> Prop :=
| ie_int z : int_exact (VInt z) z
| ie_enum e z : is_int_enum e = true -> int_exact (VEnum e z) z
| ie_uint w er z : int_exact (VUInt w er (VInt z)) z
| ie_uint_enum w e z :
    is_mask_enum e = false -> int_exact (VUInt w (Some e) (VEnum e z)) z.

(** The Python value obtained by decoding integer [z] in a field with
    [enum_ref = er]. *)
Definition decoded_int (er : option eid) (z : Z) : pyval :=
  match er with
  | None => VInt z
  | Some e => if is_mask_enum e then VMask e z else VEnum e z
  end.

(** Values accepted in a field with [enum_ref = er]: any integer, but the
    members only for an enumeration. *)
Definition allowed_int (er : option eid) (z : Z) : Prop :=
  match er with
  | None => True
  | Some e => is_mask_enum e = true \/ is_member e z = true
  end.

(** Strings. *)
Definition ascii_text (s : text) : Prop := Forall (fun c => 0 <= c < 128) s.

(** A hexadecimal digit character (either case) and its value. *)
Inductive hex_digit : Z -> Z -> Prop :=
| hd_dec d : 0 <= d <= 9 -> hex_digit (48 + d) d
| hd_low d : 10 <= d <= 15 -> hex_digit (87 + d) d
| hd_up d : 10 <= d <= 15 -> hex_digit (55 + d) d.

(** One or two hexadecimal digits and the byte they denote. *)
Inductive hex_byte : text -> Z -> Prop :=
| hb1 c d : hex_digit c d -> hex_byte [c] d
| hb2 c1 d1 c2 d2 :
    hex_digit c1 d1 -> hex_digit c2 d2 -> hex_byte [c1; c2] (16 * d1 + d2).

(** Colon-separated hexadecimal bytes. *)
Definition hex_text (s : text) (bs : bytes) : Prop :=
  exists parts, s = join colon parts /\ Forall2 hex_byte parts bs.

(** Canonical text of a byte in hexadecimal: two lower-case digits. *)
Definition hex2 (b : Z) : text := fixed_digits 16 2 b.
Definition hex_canonical (bs : bytes) : text := join colon (map hex2 bs).

(** Dotted decimal. *)
Definition dotted (bs : bytes) : text := join dot (map str_dec bs).

(** ** Structures *)

Definition field_names (c : cid) : list string := map fst (class_attrs c).

(** Instance attributes that are declared fields. *)
Definition own (c : cid) (attrs : list (string * pyval)) : list (string * pyval) :=
  filter (fun p => is_class_attr c (fst p)) attrs.

(** The instance has every declared field, in declaration order. *)
Definition complete (c : cid) (attrs : list (string * pyval)) : Prop :=
  map fst (own c attrs) = field_names c.
Definition values (c : cid) (attrs : list (string * pyval)) : list pyval :=
  map snd (own c attrs).

(** An object whose dictionary holds the declared fields, in order. *)
Definition mk (c : cid) (outs : list pyval) : pyval := VObj c (combine (field_names c) outs).

(** Attribute names of a new instance. *)
Definition start_keys (c : cid) : list string :=
  match new_instance c with Some (VObj _ a) => map fst a | _ => [] end.

(** 16-bit number at position [p] of the encoding. *)
Definition u16_at (p : nat) (bs : bytes) (z : Z) : Prop :=
  exists b1 b2, bs = b1 ++ be_encode 2 z ++ b2 /\ List.length b1 = p /\ 0 <= z < 65536.

(** ** Type codes (OpenFlow 1.3, sections 7.2.4, 7.3.5.5.2, 7.3.4.5; OpenFlow
    1.0, section 5.2.4) *)

Definition typed_root (f : typed_family) : cid :=
  match f with
  | TInstruction => Instruction04
  | TProperty => Property04
  | TMeterBand => MeterBandHeader04
  end.

Definition typed_table (f : typed_family) : list (Z * cid) :=
  match f with
  | TInstruction =>
      [(1, InstructionGotoTable04); (2, InstructionWriteMetadata04);
       (3, InstructionWriteAction04); (4, InstructionApplyAction04);
       (5, InstructionClearAction04); (6, InstructionMeter04)]
  | TProperty =>
      [(0, InstructionsProperty04); (1, InstructionsProperty04);
       (2, NextTablesProperty04); (3, NextTablesProperty04);
       (4, ActionsProperty04); (5, ActionsProperty04);
       (6, ActionsProperty04); (7, ActionsProperty04);
       (8, OxmProperty04); (10, OxmProperty04); (12, OxmProperty04);
       (13, OxmProperty04); (14, OxmProperty04); (15, OxmProperty04)]
  | TMeterBand =>
      [(1, MeterBandDrop04); (2, MeterBandDscpRemark04)]
  end.

Definition action01_table : list (Z * cid) :=
  [(0, ActionOutput01); (1, ActionVlanVid01); (2, ActionVlanPCP01);
   (3, ActionStripVlan01); (4, ActionDLAddr01); (5, ActionDLAddr01);
   (6, ActionNWAddr01); (7, ActionNWAddr01); (8, ActionNWTos01);
   (9, ActionTPPort01); (10, ActionTPPort01); (11, ActionEnqueue01);
   (0xffff, ActionVendorHeader01)].

Definition action04_table : list (Z * cid) :=
  [(0, ActionOutput04); (11, ActionCopyTTLOut04); (12, ActionCopyTTLIn04);
   (15, ActionSetMPLSTTL04); (16, ActionDecMPLSTTL04); (17, ActionPush04);
   (18, ActionPopVLAN04); (19, ActionPush04); (20, ActionPopMPLS04);
   (21, ActionSetQueue04); (22, ActionGroup04); (23, ActionSetNWTTL04);
   (24, ActionDecNWTTL04); (25, ActionSetField04); (26, ActionPush04);
   (27, ActionPopPBB04); (0xffff, ActionExperimenter04)].

(** ** The relations *)

Inductive enc : nat -> delim -> bool -> pyval -> pyval -> bytes -> pyval -> Prop :=
(* an unsigned integer of [w] bytes *)
| e_uint n w er d iv z :
    (0 < w)%nat ->
    (iv <> VNone /\ int_value iv z) \/ (iv = VNone /\ int_value (VUInt w er d) z) ->
    0 <= z < ulimit w -> allowed_int er z ->
    enc (S n) SD true (VUInt w er d) iv (be_encode w z) (VUInt w er (decoded_int er z))
(* padding, whatever the attribute holds *)
| e_pad n len iv :
    enc (S n) SD true (VPad len) iv (repeat 0 len) (VPad len)
(* text shorter than the field, NUL filled *)
| e_char n len d iv s pad :
    iv = VStr s \/ iv = VChar len (VStr s) \/ (iv = VNone /\ d = VStr s) ->
    ascii_text s -> rstrip 0 s = s ->
    len = (List.length s + pad)%nat -> (0 < pad)%nat ->
    enc (S n) SD true (VChar len d) iv (s ++ repeat 0 pad) (VChar len (VStr s))
| e_ip n d m iv m' b1 b2 b3 b4 :
    let s := dotted [b1; b2; b3; b4] in
    iv = VStr s \/ iv = VIP (VStr s) m' \/ (iv = VNone /\ d = VStr s) ->
    wf_bytes [b1; b2; b3; b4] ->
    enc (S n) SD true (VIP d m) iv [b1; b2; b3; b4] (VIP (VStr s) m)
| e_hw n d iv s b1 b2 b3 b4 b5 b6 :
    let bs := [b1; b2; b3; b4; b5; b6] in
    iv = VStr s \/ iv = VHW (VStr s) \/ (iv = VNone /\ d = VStr s) ->
    hex_text s bs ->
    enc (S n) SD true (VHW d) iv bs (VHW (VStr (hex_canonical bs)))
| e_hw_zero n d iv :
    iv = VInt 0 \/ iv = VHW (VInt 0) ->
    enc (S n) SD true (VHW d) iv [0; 0; 0; 0; 0; 0]
        (VHW (VStr (hex_canonical [0; 0; 0; 0; 0; 0])))
| e_dpid n d iv s bs :
    iv = VStr s \/ iv = VDPID (VStr s) \/ (iv = VNone /\ d = VStr s) ->
    hex_text s bs -> List.length bs = 8%nat ->
    enc (S n) SD true (VDPID d) iv bs (VDPID (VStr (hex_canonical bs)))
(* raw bytes up to the end *)
| e_bin n d iv bs :
    iv <> VNone -> enc_payload (S n) iv bs ->
    enc (S n) TAIL true (VBin d) iv bs (VBin (VBytes bs))
| e_bin_default n d bs :
    enc_payload (S n) d bs ->
    enc (S n) TAIL true (VBin d) VNone bs (VBin (VBytes bs))
(* a structure *)
| e_obj n k c cattrs attrs bs out :
    enc_obj n k true c (VObj c attrs) bs out -> map fst cattrs = start_keys c ->
    (match kind c with KBucket | KAction04 | KSetField04 => false | _ => true end) = true ->
    enc n k true (VObj c cattrs) (VObj c attrs) bs out
| e_obj_default n k c cattrs bs out :
    enc_obj n k true c (VObj c cattrs) bs out -> map fst cattrs = start_keys c ->
    (match kind c with KBucket | KAction04 | KSetField04 => false | _ => true end) = true ->
    enc n k true (VObj c cattrs) VNone bs out
(* a sequence of structures up to the end *)
| e_list n lc pc lc' pc' items bs outs :
    lc <> CFixedTypeList -> subclass lc CFixedTypeList = true ->
    enc_items n pc items bs outs ->
    enc (S n) TAIL true (VList lc pc []) (VList lc' pc' items) bs (VList CFixedTypeList pc outs)
| e_list_plain n pc lc' pc' items bs outs :
    subclass lc' CFixedTypeList = true ->
    enc_items n pc items bs outs ->
    enc (S n) TAIL (match items with [] => true | _ => false end)
        (VList CFixedTypeList pc []) (VList lc' pc' items) bs (VList CFixedTypeList pc outs)
| e_list_none n lc pc :
    subclass lc CFixedTypeList = true ->
    enc (S n) TAIL true (VList lc pc []) VNone [] (VList CFixedTypeList pc [])

(** What a BinaryData field may hold: bytes, nothing, or an object that is
    carried by its own encoding. *)
with enc_payload : nat -> pyval -> bytes -> Prop :=
| p_bytes n bs : enc_payload n (VBytes bs) bs
| p_none n : enc_payload n VNone []
| p_bin n v bs : enc_payload n v bs -> enc_payload (S n) (VBin v) bs
| p_obj n k c attrs bs out :
    enc_obj n k true c (VObj c attrs) bs out -> enc_payload n (VObj c attrs) bs

(** Fields one after the other, only the last of which may extend to the end. *)
with enc_fields : nat -> delim -> bool -> list (string * pyval) -> list pyval ->
                  bytes -> list pyval -> Prop :=
| f_nil n : enc_fields n SD true [] [] [] []
| f_last n sz name cv iv bs out :
    enc n TAIL sz cv iv bs out ->
    enc_fields n TAIL sz [(name, cv)] [iv] bs [out]
| f_cons n k sz name cv iv b1 out fs ivs b2 outs :
    enc n SD true cv iv b1 out ->
    enc_fields n k sz fs ivs b2 outs ->
    enc_fields n k sz ((name, cv) :: fs) (iv :: ivs) (b1 ++ b2) (out :: outs)

(** Structures one after the other, only the last of which may extend to the
    end. *)
with enc_items : nat -> cid -> list pyval -> bytes -> list pyval -> Prop :=
| i_nil n pc : enc_items n pc [] [] []
| i_last n k pc v bs out :
    enc_obj n k true pc v bs out -> bs <> [] -> enc_items n pc [v] bs [out]
| i_cons n pc v b1 out vs b2 outs :
    enc_obj n SD true pc v b1 out -> b1 <> [] ->
    enc_items n pc vs b2 outs ->
    enc_items n pc (v :: vs) (b1 ++ b2) (out :: outs)

(** [enc_obj n k sz base v bs out]: object [v], of class [base] or of a class
    selected by a type code, where an object of class [base] is expected. *)
with enc_obj : nat -> delim -> bool -> cid -> pyval -> bytes -> pyval -> Prop :=
(* a structure is the sequence of its fields *)
| o_plain n k sz c attrs bs outs :
    kind c = KStruct \/ kind c = KMatch01 ->
    complete c attrs ->
    enc_fields n k sz (class_attrs c) (values c attrs) bs outs ->
    enc_obj (S n) k sz c (VObj c attrs) bs (mk c outs)
(* a structure with its own total length at position [pos], which the sender
   either must have set ([upd = false]) or is computed *)
| o_len n k pos (upd : bool) c attrs bs outs :
    kind c = KLen pos upd ->
    complete c attrs ->
    enc_fields n k true (class_attrs c)
      (values c (if upd then set_attr "length" (VInt (zlen bs)) attrs else attrs)) bs outs ->
    u16_at pos bs (zlen bs) ->
    enc_obj (S n) SD true c (VObj c attrs) bs (mk c outs)
(* type code at 0, total length at 2 *)
| o_typed n k f t c attrs bs outs :
    In (t, c) (typed_table f) ->
    complete c attrs ->
    enc_fields n k true (class_attrs c)
      (values c (match f with TMeterBand => attrs
                 | _ => set_attr "length" (VInt (zlen bs)) attrs end)) bs outs ->
    u16_at 0 bs t -> u16_at 2 bs (zlen bs) ->
    enc_obj (S n) SD true (typed_root f) (VObj c attrs) bs (mk c outs)
(* OpenFlow 1.0 action: type code at 0 *)
| o_action01 n t c attrs bs outs :
    In (t, c) action01_table ->
    complete c attrs ->
    enc_fields n SD true (class_attrs c) (values c attrs) bs outs ->
    u16_at 0 bs t ->
    enc_obj (S n) SD true ActionHeader01 (VObj c attrs) bs (mk c outs)
(* OpenFlow 1.3 action: type code at 0, total length, a multiple of 8, at 2 *)
| o_action04 n k t c attrs bs outs :
    In (t, c) action04_table -> c <> ActionSetField04 ->
    complete c attrs ->
    enc_fields n k true (class_attrs c) (values c attrs) bs outs ->
    u16_at 0 bs t -> u16_at 2 bs (zlen bs) -> zlen bs mod 8 = 0 ->
    enc_obj (S n) SD true ActionHeader04 (VObj c attrs) bs (mk c outs)
(* set-field action: one OXM TLV, zero padded to a multiple of 8 *)
| o_setfield n attrs fattrs body outs pad :
    let bs := body ++ repeat 0 pad in
    complete ActionSetField04 attrs ->
    get_attr "field" attrs = Some (VObj OxmTLV04 fattrs) ->
    enc_fields n SD true (class_attrs ActionSetField04)
      (values ActionSetField04 (set_attr "length" (VInt (zlen bs)) attrs)) body outs ->
    u16_at 0 body 25 ->
    zlen bs mod 8 = 0 -> (pad < 8)%nat ->
    enc_obj (S n) SD true ActionHeader04 (VObj ActionSetField04 attrs) bs (mk ActionSetField04 outs)
(* OXM TLV: class, field code and mask bit, payload length, payload *)
| o_oxm n attrs ic cl ifd f im m ipv payload :
    complete OxmTLV04 attrs ->
    get_attr "oxm_class" attrs = Some ic -> int_exact ic cl ->
    is_member E_OxmClass04 cl = true ->
    get_attr "oxm_field" attrs = Some ifd -> int_exact ifd f ->
    (if cl =? 0x8000 then is_member E_OxmOfbMatchField04 f = true
     else 0 <= f <= 127 /\ exists z, ifd = VInt z) ->
    get_attr "oxm_hasmask" attrs = Some im -> int_exact im m ->
    get_attr "oxm_value" attrs = Some ipv ->
    enc_payload (S n) ipv payload -> zlen payload <= 255 ->
    (forall b, In b payload -> is_byte b) ->
    enc_obj (S (S n)) SD true OxmTLV04 (VObj OxmTLV04 attrs)
      (be_encode 2 cl ++ [2 * f + m mod 2] ++ [zlen payload] ++ payload)
      (VObj OxmTLV04
         [("oxm_class", VUInt 2 (Some E_OxmClass04) (VEnum E_OxmClass04 cl));
          ("oxm_field_and_mask", VUInt 1 None (VInt (2 * f + m mod 2)));
          ("oxm_length", VUInt 1 None (VInt (zlen payload)));
          ("oxm_value", VBytes payload);
          ("oxm_field", if cl =? 0x8000 then VEnum E_OxmOfbMatchField04 f else VInt f);
          ("oxm_hasmask", VInt (m mod 2))])
(* OpenFlow 1.3 match: type, unpadded length, TLVs, zero padding to 8 *)
| o_match04 n k attrs body outs pad :
    let bs := body ++ repeat 0 pad in
    complete Match04 attrs ->
    enc_fields n k true (class_attrs Match04)
      (values Match04 (set_attr "length" (VInt (zlen body)) attrs)) body outs ->
    zlen bs mod 8 = 0 -> (pad < 8)%nat ->
    enc_obj (S n) SD true Match04 (VObj Match04 attrs) bs (mk Match04 outs)
(* bucket of a group: the sender sets the total length *)
| o_bucket n k sz attrs il bs outs :
    complete Bucket04 attrs ->
    get_attr "length" attrs = Some il -> int_exact il (zlen bs) ->
    enc_fields n k sz (class_attrs Bucket04) (values Bucket04 attrs) bs outs ->
    enc_obj (S n) SD true Bucket04 (VObj Bucket04 attrs) bs (mk Bucket04 outs).

Scheme enc_ind' := Minimality for enc Sort Prop
with enc_payload_ind' := Minimality for enc_payload Sort Prop
with enc_fields_ind' := Minimality for enc_fields Sort Prop
with enc_items_ind' := Minimality for enc_items Sort Prop
with enc_obj_ind' := Minimality for enc_obj Sort Prop.
Combined Scheme enc_mut from enc_ind', enc_payload_ind', enc_fields_ind', enc_items_ind', enc_obj_ind'.
