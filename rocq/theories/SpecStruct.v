(** Vocabulary for the variable-length structures of OpenFlow 1.3 (OXM TLVs,
    matches, set-field actions), for lists and for type codes, independent of
    the pack, unpack and get_size functions of the model. *)
From Coq Require Import ZArith List Bool String.
From Verif Require Import Base PyText Ids PyVal Classes Interp Utils Spec SpecMsg SpecBasic SpecNet.
Import ListNotations.
Open Scope string_scope.
Open Scope list_scope.
Open Scope Z_scope.

(** ** OXM TLVs (OpenFlow 1.3, section 7.2.3) *)

Record oxm : Type := mk_oxm { ox_class : Z; ox_field : Z; ox_mask : Z; ox_value : bytes }.

(** OFPXMC_NXM_0, OFPXMC_NXM_1, OFPXMC_OPENFLOW_BASIC, OFPXMC_EXPERIMENTER. *)
Definition oxm_classes : list Z := [0; 1; 0x8000; 0xffff].
(** Field numbers: OFPXMT_OFB_IN_PORT (0) to OFPXMT_OFB_IPV6_EXTHDR (39) in the
    basic class, seven bits in the others. *)
Definition oxm_field_ok (cls f : Z) : Prop :=
  if cls =? 0x8000 then 0 <= f <= 39 else 0 <= f <= 127.
Definition oxm_ok (t : oxm) : Prop :=
  In (ox_class t) oxm_classes /\ oxm_field_ok (ox_class t) (ox_field t) /\
  (ox_mask t = 0 \/ ox_mask t = 1) /\ wf_bytes (ox_value t) /\ zlen (ox_value t) <= 255.

(** Class, field number and mask bit, payload length, payload. *)
Definition oxm_wire (t : oxm) : bytes :=
  two (ox_class t) ++ [2 * ox_field t + ox_mask t; zlen (ox_value t)] ++ ox_value t.

(** Attribute [name] holds an object or number that [p] accepts. *)
Definition attr_is (attrs : list (string * pyval)) (name : string) (p : pyval -> Prop) : Prop :=
  exists v, get_attr name attrs = Some v /\ p v.

(** The object [v] is an OxmTLV with the contents [t]; the computed fields
    oxm_field_and_mask and oxm_length are not constrained. *)
Definition oxm_holds (v : pyval) (t : oxm) : Prop :=
  exists attrs, v = VObj OxmTLV04 attrs /\ complete OxmTLV04 attrs /\
    attr_is attrs "oxm_class" (fun x => int_exact x (ox_class t)) /\
    attr_is attrs "oxm_field" (fun x => int_exact x (ox_field t) /\
                                        (ox_class t <> 0x8000 -> x = VInt (ox_field t))) /\
    attr_is attrs "oxm_hasmask" (fun x => int_exact x (ox_mask t)) /\
    attr_is attrs "oxm_value" (fun x => x = VBytes (ox_value t) \/ x = VBin (VBytes (ox_value t))).

(** What is read from a buffer of four or more bytes. *)
Definition oxm_parse (b : bytes) : oxm :=
  mk_oxm (place_value (firstn 2 b)) (nth 2 b 0 / 2) (nth 2 b 0 mod 2)
         (firstn (Z.to_nat (nth 3 b 0)) (skipn 4 b)).

(** ** Padding to eight bytes *)

(** Zero bytes up to the next multiple of eight. *)
Definition pad8 (len : Z) : bytes := repeat 0 (Z.to_nat ((- len) mod 8)).

(** ** Matches (section 7.2.3.1) *)

Definition match_wire (mt : Z) (ts : list oxm) : bytes :=
  let tlvs := flat_map oxm_wire ts in
  two mt ++ two (4 + zlen tlvs) ++ tlvs ++ pad8 (4 + zlen tlvs).

(** OFPMT_STANDARD (0) or OFPMT_OXM (1), well-formed TLVs, a 16-bit length. *)
Definition match_ok (mt : Z) (ts : list oxm) : Prop :=
  (mt = 0 \/ mt = 1) /\ Forall oxm_ok ts /\ 4 + zlen (flat_map oxm_wire ts) < 65536.

Definition match_holds (v : pyval) (mt : Z) (ts : list oxm) : Prop :=
  exists attrs, v = VObj Match04 attrs /\ complete Match04 attrs /\
    attr_is attrs "match_type" (fun x => int_exact x mt) /\
    attr_is attrs "oxm_match_fields" (fun x =>
      exists lc pc items, x = VList lc pc items /\ Forall2 oxm_holds items ts).

(** ** Set-field actions (section 7.2.5) *)

Definition setfield_wire (t : oxm) : bytes :=
  let len := 4 + zlen (oxm_wire t) in
  two 25 ++ two (len + zlen (pad8 len)) ++ oxm_wire t ++ pad8 len.

Definition setfield_holds (v : pyval) (t : oxm) : Prop :=
  exists attrs, v = VObj ActionSetField04 attrs /\ complete ActionSetField04 attrs /\
    attr_is attrs "action_type" (fun x => int_exact x 25) /\
    attr_is attrs "field" (fun x => oxm_holds x t).

(** ** Elements of a list, by their type code *)

(** The class of an element with type code [t] where [root] is expected:
    OpenFlow 1.0, section 5.2.4; OpenFlow 1.3, sections 7.2.4, 7.2.5, 7.3.4.5
    and 7.3.5.5.2. *)
Definition coded (root : cid) : option (list (Z * cid)) :=
  match root with
  | ActionHeader01 => Some action01_table
  | ActionHeader04 => Some action04_table
  | Instruction04 => Some (typed_table TInstruction)
  | Property04 => Some (typed_table TProperty)
  | MeterBandHeader04 => Some (typed_table TMeterBand)
  | _ => None
  end.
Definition in_table (tbl : list (Z * cid)) (t : Z) : Prop := exists c, In (t, c) tbl.

(** The class of an element with type code [t]: the one of the table; other
    codes are only accepted in OpenFlow 1.0 actions, which stay plain headers,
    and for the experimenter table-feature properties. *)
Definition element_class (root : cid) (tbl : list (Z * cid)) (t : Z) (c : cid) : Prop :=
  In (t, c) tbl \/
  (~ in_table tbl t /\
   ((root = ActionHeader01 /\ c = ActionHeader01) \/
    (root = Property04 /\ (t = 0xfffe \/ t = 0xffff) /\ c = OxmProperty04))).

(** The elements found in [b] from position [o] on, each at the end of the
    previous one, with the class of the 16-bit code at its position. *)
Inductive elements (root : cid) (tbl : list (Z * cid)) (b : bytes) : nat -> list pyval -> Prop :=
| el_end o : (List.length b <= o)%nat -> elements root tbl b o []
| el_next o c attrs s rest :
    (o < List.length b)%nat ->
    element_class root tbl (place_value (slice o (o + 2) b)) c ->
    get_size (VObj c attrs) = Ok s -> 0 < s ->
    elements root tbl b (o + Z.to_nat s) rest ->
    elements root tbl b o (VObj c attrs :: rest).

(** Size of an OpenFlow 1.0 action (section 5.2.4). *)
Definition action01_length (c : cid) : Z :=
  match c with ActionDLAddr01 | ActionEnqueue01 => 16 | _ => 8 end.

(** Well-formed elements one after the other: an element of the class of its
    code, and of its declared length (bytes 2 and 3) or, in OpenFlow 1.0, of
    the length of its class. *)
Inductive coded_elements (root : cid) (tbl : list (Z * cid)) : bytes -> list pyval -> Prop :=
| ce_nil : coded_elements root tbl [] []
| ce_cons b t c attrs rest vs :
    In (t, c) tbl -> big_endian 2 t (slice 0 2 b) ->
    (root <> ActionHeader01 -> big_endian 2 (zlen b) (slice 2 4 b)) ->
    (root = ActionHeader01 -> zlen b = action01_length c) ->
    get_size (VObj c attrs) = Ok (zlen b) ->
    coded_elements root tbl rest vs ->
    coded_elements root tbl (b ++ rest) (VObj c attrs :: vs).

(** ** PacketOut *)

(** The integer the comparison operators see. *)
Inductive number : pyval -> Z -> Prop :=
| nm_int z : number (VInt z) z
| nm_enum e z : is_int_enum e = true -> number (VEnum e z) z
| nm_uint w er x z :
    x = VInt z \/ (exists e, x = VEnum e z) \/ (exists e, x = VMask e z) -> number (VUInt w er x) z.

Definition four (z : Z) : bytes := two (z / 65536) ++ two (z mod 65536).

(** Fields after the header: OpenFlow 1.0, section 5.3.6; OpenFlow 1.3,
    section 7.3.7. *)
Definition packet_out_wire (v : of_version) (buffer port : Z) (actions data : bytes) : bytes :=
  match v with
  | V01 => four buffer ++ two port ++ two (zlen actions) ++ actions ++ data
  | V04 => four buffer ++ four port ++ two (zlen actions) ++ repeat 0 6%nat ++ actions ++ data
  end.

(** ** Statistics messages *)

Definition stats_version (f : stats_family) : of_version :=
  match f with FStatsRequest | FStatsReply => V01 | _ => V04 end.
Definition stats_code (f : stats_family) : Z :=
  match f with
  | FStatsRequest => 16 | FStatsReply => 17 | FMultipartRequest => 18 | FMultipartReply => 19
  end.
(** Type, flags, in OpenFlow 1.3 four bytes of padding, body. *)
Definition stats_wire (f : stats_family) (t flags : Z) (body : bytes) : bytes :=
  two t ++ two flags ++
  (match f with FStatsRequest | FStatsReply => [] | _ => [0; 0; 0; 0] end) ++ body.
(** Requests of OpenFlow 1.3 have the one flag OFPMPF_REQ_MORE. *)
Definition stats_flags_ok (f : stats_family) (flags : Z) : Prop :=
  match f with FMultipartRequest => flags = 0 \/ flags = 1 | _ => 0 <= flags < 65536 end.
