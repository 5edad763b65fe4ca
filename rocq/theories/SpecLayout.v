(** Specification of the layout of structures (C13).

    [carried cv iv bs]: a field declared as [cv] and holding [iv] contributes
    the bytes [bs].  Integers are given by their digits; addresses, text and
    objects inside a structure by their own encoding, which is the subject of
    C04 to C08 and, for the objects, of C13 again.  [openflow_layout] is
    written from the C structures of the OpenFlow 1.0.0 and 1.3 specifications,
    with the field names of the library. *)
From Coq Require Import ZArith List Bool String.
From Verif Require Import Base PyText Ids PyVal Classes Interp SpecBasic SpecMutation.
Import ListNotations.
Open Scope string_scope.
Open Scope list_scope.
Open Scope Z_scope.

(** The integer a value stands for: an int, an enumeration member, or a basic
    type holding one of these or a bit mask. *)
Inductive plain_int : pyval -> Z -> Prop :=
| pi_int z : plain_int (VInt z) z
| pi_enum e z : plain_int (VEnum e z) z.
Inductive held : pyval -> pyval -> Prop :=
| h_uint x w er : held x (VUInt w er x)
| h_char x n : held x (VChar n x)
| h_ip x m : held x (VIP x m)
| h_hw x : held x (VHW x)
| h_dpid x : held x (VDPID x)
| h_bin x : held x (VBin x).
Definition stands_for (v : pyval) (z : Z) : Prop :=
  plain_int v z \/ exists x, held x v /\ (plain_int x z \/ exists e, x = VMask e z).

(** The value used for a field: its own, or the default when it is None. *)
Definition or_default (d iv : pyval) : pyval := match iv with VNone => d | _ => iv end.

(** The objects in nested lists, in order. *)
Inductive leaf_list : pyval -> list pyval -> Prop :=
| ll_list lc pc items ls : Forall2 leaf_list items ls -> leaf_list (VList lc pc items) (List.concat ls)
| ll_leaf v : (forall lc pc items, v <> VList lc pc items) -> leaf_list v [v].

(** The encodings of objects, one after the other. *)
Definition encodings (items : list pyval) (bs : bytes) : Prop :=
  exists parts, Forall2 (fun x b => pack x = Ok b) items parts /\ bs = List.concat parts.

Inductive carried : pyval -> pyval -> bytes -> Prop :=
| k_uint w er d iv z bs :
    stands_for (match iv with VNone => VUInt w er d | _ => iv end) z -> big_endian w z bs ->
    carried (VUInt w er d) iv bs
| k_pad n iv : carried (VPad n) iv (repeat 0 n)
| k_char n d iv bs :
    pack (match iv with VChar _ _ => iv | _ => VChar n (or_default d iv) end) = Ok bs -> carried (VChar n d) iv bs
| k_ip d m iv bs :
    pack (match iv with VIP _ _ => iv | _ => VIP (or_default d iv) m end) = Ok bs -> carried (VIP d m) iv bs
| k_hw d iv bs :
    pack (match iv with VHW _ => iv | _ => VHW (or_default d iv) end) = Ok bs -> carried (VHW d) iv bs
| k_dpid d iv bs :
    pack (match iv with VDPID _ => iv | _ => VDPID (or_default d iv) end) = Ok bs -> carried (VDPID d) iv bs
| k_bytes d iv bs : or_default d iv = VBytes bs -> carried (VBin d) iv bs
| k_nothing d iv : or_default d iv = VNone -> carried (VBin d) iv []
| k_object d iv bs : pack (or_default d iv) = Ok bs -> carried (VBin d) iv bs
| k_objects d lc pc items l bs :
    leaf_list (VList lc pc items) l -> encodings l bs -> carried (VBin d) (VList lc pc items) bs
| k_struct c cattrs iv bs :
    subclass (class_of (or_default (VObj c cattrs) iv)) c = true \/ c = OxmTLV04 ->
    pack (or_default (VObj c cattrs) iv) = Ok bs -> carried (VObj c cattrs) iv bs
| k_list lc pc ci lc' pc' items l bs :
    leaf_list (VList lc' pc' items) l -> encodings l bs -> carried (VList lc pc ci) (VList lc' pc' items) bs
| k_empty lc pc ci iv : iv = VNone \/ iv = VBytes [] \/ iv = VStr [] -> carried (VList lc pc ci) iv []
| k_itemless lc pc ci c attrs : class_attrs c = [] -> carried (VList lc pc ci) (VObj c attrs) [].

(** The part of one attribute of an object of class [c].  Computed attributes
    hold some number; the header of a message is encoded with a new length. *)
Definition part_of (c : cid) (attrs : list (string * pyval)) (f : string * pyval) (bs : bytes) : Prop :=
  exists iv, get_attr (fst f) attrs = Some iv /\
  if computed c (fst f) then exists w er d z, snd f = VUInt w er d /\ big_endian w z bs
  else carried (snd f) iv bs \/
       fst f = "header" /\ exists hc h z, iv = VObj hc h /\ pack (VObj hc (set_attr "length" (VInt z) h)) = Ok bs.

(** Structures that are filled with zeros up to a multiple of 8. *)
Definition is_filled (c : cid) : Prop := c = Match04 \/ subclass c ActionSetField04 = true.

(** ** Layouts *)

(** Lists are objects of list classes, other objects are not; and a text
    attribute that is a Char has the declared length, here and in the objects
    inside. *)
Fixpoint regular (v : pyval) : bool :=
  match v with
  | VObj c attrs =>
      negb (subclass c CList) &&
      forallb (fun p => match get_attr (fst p) (class_attrs c), snd p with
                        | Some (VChar n _), VChar n' _ => Nat.eqb n n'
                        | _, _ => true
                        end && regular (snd p)) attrs
  | VList lc _ items => subclass lc CList && forallb regular items
  | VBin x => regular x
  | _ => true
  end.

(** Field, width; in order, up to the first field of variable size; and the
    number of bytes up to there. *)
Definition openflow_layout (c : cid) : option (list (string * nat) * nat) :=
  match c with
  (* OpenFlow 1.0.0 *)
  | Header01 => Some ([("version", 1); ("message_type", 1); ("length", 2); ("xid", 4)], 8)
  | Match01 => Some ([("wildcards", 4); ("in_port", 2); ("dl_src", 6); ("dl_dst", 6); ("dl_vlan", 2); ("dl_vlan_pcp", 1);
      ("pad1", 1); ("dl_type", 2); ("nw_tos", 1); ("nw_proto", 1); ("pad2", 2); ("nw_src", 4); ("nw_dst", 4);
      ("tp_src", 2); ("tp_dst", 2)], 40)
  | PhyPort01 => Some ([("port_no", 2); ("hw_addr", 6); ("name", 16); ("config", 4); ("state", 4); ("curr", 4);
      ("advertised", 4); ("supported", 4); ("peer", 4)], 48)
  (* a header of 4 bytes in front of every action *)
  | ActionHeader01 => Some ([("action_type", 2); ("length", 2)], 4)
  | QueuePropHeader01 => Some ([("queue_property", 2); ("length", 2); ("pad", 4)], 8)
  | QueuePropMinRate01 => Some ([("prop_header", 8); ("rate", 2); ("pad", 6)], 16)
  | PacketQueue01 => Some ([("queue_id", 4); ("length", 2); ("pad", 2)], 8)
  | ActionOutput01 => Some ([("action_type", 2); ("length", 2); ("port", 2); ("max_length", 2)], 8)
  | ActionStripVlan01 => Some ([("action_type", 2); ("length", 2); ("pad", 4)], 8)
  | ActionEnqueue01 => Some ([("action_type", 2); ("length", 2); ("port", 2); ("pad", 6); ("queue_id", 4)], 16)
  | ActionVlanVid01 => Some ([("action_type", 2); ("length", 2); ("vlan_id", 2); ("pad2", 2)], 8)
  | ActionVlanPCP01 => Some ([("action_type", 2); ("length", 2); ("vlan_pcp", 1); ("pad", 3)], 8)
  | ActionDLAddr01 => Some ([("action_type", 2); ("length", 2); ("dl_addr", 6); ("pad", 6)], 16)
  | ActionNWAddr01 => Some ([("action_type", 2); ("length", 2); ("nw_addr", 4)], 8)
  | ActionNWTos01 => Some ([("action_type", 2); ("length", 2); ("nw_tos", 1); ("pad", 3)], 8)
  | ActionTPPort01 => Some ([("action_type", 2); ("length", 2); ("tp_port", 2); ("pad", 2)], 8)
  | ActionVendorHeader01 => Some ([("action_type", 2); ("length", 2); ("vendor", 4)], 8)
  | BarrierReply01 | BarrierRequest01 | FeaturesRequest01 | GetConfigRequest01 | Hello01 | EchoRequest01 | EchoReply01 =>
      Some ([("header", 8)], 8)
  | ErrorMsg01 => Some ([("header", 8); ("error_type", 2); ("code", 2)], 12)
  | SwitchConfig01 | GetConfigReply01 | SetConfig01 => Some ([("header", 8); ("flags", 2); ("miss_send_len", 2)], 12)
  | SwitchFeatures01 | FeaturesReply01 => Some ([("header", 8); ("datapath_id", 8); ("n_buffers", 4); ("n_tables", 1);
      ("pad", 3); ("capabilities", 4); ("actions", 4)], 32)
  | PortMod01 => Some ([("header", 8); ("port_no", 2); ("hw_addr", 6); ("config", 4); ("mask", 4); ("advertise", 4);
      ("pad", 4)], 32)
  | QueueGetConfigRequest01 => Some ([("header", 8); ("port", 2); ("pad", 2)], 12)
  | QueueGetConfigReply01 => Some ([("header", 8); ("port", 2); ("pad", 6)], 16)
  | FlowMod01 => Some ([("header", 8); ("match", 40); ("cookie", 8); ("command", 2); ("idle_timeout", 2);
      ("hard_timeout", 2); ("priority", 2); ("buffer_id", 4); ("out_port", 2); ("flags", 2)], 72)
  | PacketOut01 => Some ([("header", 8); ("buffer_id", 4); ("in_port", 2); ("actions_len", 2)], 16)
  | PacketIn01 => Some ([("header", 8); ("buffer_id", 4); ("total_len", 2); ("in_port", 2); ("reason", 1); ("pad", 1)], 18)
  | FlowRemoved01 => Some ([("header", 8); ("match", 40); ("cookie", 8); ("priority", 2); ("reason", 1); ("pad", 1);
      ("duration_sec", 4); ("duration_nsec", 4); ("idle_timeout", 2); ("pad2", 2); ("packet_count", 8);
      ("byte_count", 8)], 88)
  | PortStatus01 => Some ([("header", 8); ("reason", 1); ("pad", 7); ("desc", 48)], 64)
  | StatsRequest01 | StatsReply01 => Some ([("header", 8); ("body_type", 2); ("flags", 2)], 12)
  | VendorHeader01 => Some ([("header", 8); ("vendor", 4)], 12)
  | DescStats01 => Some ([("mfr_desc", 256); ("hw_desc", 256); ("sw_desc", 256); ("serial_num", 32); ("dp_desc", 256)], 1056)
  | FlowStatsRequest01 | AggregateStatsRequest01 => Some ([("match", 40); ("table_id", 1); ("pad", 1); ("out_port", 2)], 44)
  | FlowStats01 => Some ([("length", 2); ("table_id", 1); ("pad", 1); ("match", 40); ("duration_sec", 4);
      ("duration_nsec", 4); ("priority", 2); ("idle_timeout", 2); ("hard_timeout", 2); ("pad2", 6); ("cookie", 8);
      ("packet_count", 8); ("byte_count", 8)], 88)
  | AggregateStatsReply01 => Some ([("packet_count", 8); ("byte_count", 8); ("flow_count", 4); ("pad", 4)], 24)
  | TableStats01 => Some ([("table_id", 1); ("pad", 3); ("name", 32); ("wildcards", 4); ("max_entries", 4);
      ("active_count", 4); ("count_lookup", 8); ("count_matched", 8)], 64)
  | PortStatsRequest01 => Some ([("port_no", 2); ("pad", 6)], 8)
  | PortStats01 => Some ([("port_no", 2); ("pad", 6); ("rx_packets", 8); ("tx_packets", 8); ("rx_bytes", 8); ("tx_bytes", 8);
      ("rx_dropped", 8); ("tx_dropped", 8); ("rx_errors", 8); ("tx_errors", 8); ("rx_frame_err", 8); ("rx_over_err", 8);
      ("rx_crc_err", 8); ("collisions", 8)], 104)
  | QueueStatsRequest01 => Some ([("port_no", 2); ("pad", 2); ("queue_id", 4)], 8)
  | QueueStats01 => Some ([("port_no", 2); ("pad", 2); ("queue_id", 4); ("tx_bytes", 8); ("tx_packets", 8);
      ("tx_errors", 8)], 32)
  | VendorStats01 => Some ([("vendor", 4)], 4)
  (* OpenFlow 1.3 *)
  | Header04 => Some ([("version", 1); ("message_type", 1); ("length", 2); ("xid", 4)], 8)
  | Port04 => Some ([("port_no", 4); ("pad", 4); ("hw_addr", 6); ("pad2", 2); ("name", 16); ("config", 4); ("state", 4);
      ("curr", 4); ("advertised", 4); ("supported", 4); ("peer", 4); ("curr_speed", 4); ("max_speed", 4)], 64)
  | QueuePropHeader04 => Some ([("queue_property", 2); ("length", 2); ("pad", 4)], 8)
  | QueuePropMinRate04 | QueuePropMaxRate04 => Some ([("prop_header", 8); ("rate", 2); ("pad", 6)], 16)
  | QueuePropExperimenter04 => Some ([("prop_header", 8); ("experimenter", 4); ("pad", 4)], 16)
  | PacketQueue04 => Some ([("queue_id", 4); ("port", 4); ("length", 2); ("pad", 6)], 16)
  | Match04 => Some ([("match_type", 2); ("length", 2)], 4)
  | OxmTLV04 => Some ([("oxm_class", 2); ("oxm_field_and_mask", 1); ("oxm_length", 1)], 4)
  | OxmExperimenterHeader04 => Some ([("oxm_header", 4); ("experimenter", 4)], 8)
  | Instruction04 => Some ([("instruction_type", 2); ("length", 2)], 4)
  | InstructionGotoTable04 => Some ([("instruction_type", 2); ("length", 2); ("table_id", 1); ("pad", 3)], 8)
  | InstructionWriteMetadata04 => Some ([("instruction_type", 2); ("length", 2); ("pad", 4); ("metadata", 8);
      ("metadata_mask", 8)], 24)
  | InstructionWriteAction04 | InstructionApplyAction04 | InstructionClearAction04 =>
      Some ([("instruction_type", 2); ("length", 2); ("pad", 4)], 8)
  | InstructionMeter04 => Some ([("instruction_type", 2); ("length", 2); ("meter_id", 4)], 8)
  | ActionHeader04 => Some ([("action_type", 2); ("length", 2)], 4)
  | ActionOutput04 => Some ([("action_type", 2); ("length", 2); ("port", 4); ("max_length", 2); ("pad", 6)], 16)
  | ActionGroup04 => Some ([("action_type", 2); ("length", 2); ("group_id", 4)], 8)
  | ActionSetQueue04 => Some ([("action_type", 2); ("length", 2); ("queue_id", 4)], 8)
  | ActionSetMPLSTTL04 => Some ([("action_type", 2); ("length", 2); ("mpls_ttl", 1); ("pad", 3)], 8)
  | ActionSetNWTTL04 => Some ([("action_type", 2); ("length", 2); ("nw_ttl", 1); ("pad", 3)], 8)
  | ActionDecMPLSTTL04 | ActionCopyTTLIn04 | ActionCopyTTLOut04 | ActionPopVLAN04 | ActionPopPBB04 | ActionDecNWTTL04 =>
      Some ([("action_type", 2); ("length", 2); ("pad", 4)], 8)
  | ActionPush04 | ActionPopMPLS04 => Some ([("action_type", 2); ("length", 2); ("ethertype", 2); ("pad", 2)], 8)
  | ActionSetField04 => Some ([("action_type", 2); ("length", 2)], 4)
  | ActionExperimenter04 => Some ([("action_type", 2); ("length", 2); ("experimenter", 4)], 8)
  | BarrierReply04 | BarrierRequest04 | FeaturesRequest04 | GetConfigRequest04 | GetAsyncRequest04 | Hello04
  | EchoRequest04 | EchoReply04 => Some ([("header", 8)], 8)
  | HelloElemHeader04 => Some ([("element_type", 2); ("length", 2)], 4)
  | ErrorMsg04 => Some ([("header", 8); ("error_type", 2); ("code", 2)], 12)
  | ErrorExperimenterMsg04 => Some ([("header", 8); ("error_type", 2); ("exp_type", 2); ("experimenter", 4)], 16)
  | ExperimenterHeader04 => Some ([("header", 8); ("experimenter", 4); ("exp_type", 4)], 16)
  | SwitchFeatures04 | FeaturesReply04 => Some ([("header", 8); ("datapath_id", 8); ("n_buffers", 4); ("n_tables", 1);
      ("auxiliary_id", 1); ("pad", 2); ("capabilities", 4); ("reserved", 4)], 32)
  | SwitchConfig04 | GetConfigReply04 | SetConfig04 => Some ([("header", 8); ("flags", 2); ("miss_send_len", 2)], 12)
  | TableMod04 => Some ([("header", 8); ("table_id", 1); ("pad", 3); ("config", 4)], 16)
  | FlowMod04 => Some ([("header", 8); ("cookie", 8); ("cookie_mask", 8); ("table_id", 1); ("command", 1);
      ("idle_timeout", 2); ("hard_timeout", 2); ("priority", 2); ("buffer_id", 4); ("out_port", 4); ("out_group", 4);
      ("flags", 2); ("pad", 2)], 48)
  | GroupMod04 => Some ([("header", 8); ("command", 2); ("group_type", 1); ("pad", 1); ("group_id", 4)], 16)
  | Bucket04 => Some ([("length", 2); ("weight", 2); ("watch_port", 4); ("watch_group", 4); ("pad", 4)], 16)
  | PortMod04 => Some ([("header", 8); ("port_no", 4); ("pad", 4); ("hw_addr", 6); ("pad2", 2); ("config", 4); ("mask", 4);
      ("advertise", 4); ("pad3", 4)], 40)
  | MeterMod04 => Some ([("header", 8); ("command", 2); ("flags", 2); ("meter_id", 4)], 16)
  | MeterBandHeader04 => Some ([("band_type", 2); ("length", 2); ("rate", 4); ("burst_size", 4)], 12)
  | MeterBandDrop04 => Some ([("band_type", 2); ("length", 2); ("rate", 4); ("burst_size", 4); ("pad", 4)], 16)
  | MeterBandDscpRemark04 => Some ([("band_type", 2); ("length", 2); ("rate", 4); ("burst_size", 4); ("prec_level", 1);
      ("pad", 3)], 16)
  | MeterBandExperimenter04 => Some ([("band_type", 2); ("length", 2); ("rate", 4); ("burst_size", 4);
      ("experimenter", 4)], 16)
  | MultipartRequest04 | MultipartReply04 => Some ([("header", 8); ("multipart_type", 2); ("flags", 2); ("pad", 4)], 16)
  | Desc04 => Some ([("mfr_desc", 256); ("hw_desc", 256); ("sw_desc", 256); ("serial_num", 32); ("dp_desc", 256)], 1056)
  | FlowStatsRequest04 | AggregateStatsRequest04 => Some ([("table_id", 1); ("pad", 3); ("out_port", 4); ("out_group", 4);
      ("pad2", 4); ("cookie", 8); ("cookie_mask", 8)], 32)
  | FlowStats04 => Some ([("length", 2); ("table_id", 1); ("pad", 1); ("duration_sec", 4); ("duration_nsec", 4);
      ("priority", 2); ("idle_timeout", 2); ("hard_timeout", 2); ("flags", 2); ("pad2", 4); ("cookie", 8);
      ("packet_count", 8); ("byte_count", 8)], 48)
  | AggregateStatsReply04 => Some ([("packet_count", 8); ("byte_count", 8); ("flow_count", 4); ("pad", 4)], 24)
  | TableStats04 => Some ([("table_id", 1); ("pad", 3); ("active_count", 4); ("lookup_count", 8); ("matched_count", 8)], 24)
  | TableFeatures04 => Some ([("length", 2); ("table_id", 1); ("pad", 5); ("name", 32); ("metadata_match", 8);
      ("metadata_write", 8); ("config", 4); ("max_entries", 4)], 64)
  | Property04 | InstructionsProperty04 | NextTablesProperty04 | ActionsProperty04 | OxmProperty04 =>
      Some ([("property_type", 2); ("length", 2)], 4)
  | PortStatsRequest04 => Some ([("port_no", 4); ("pad", 4)], 8)
  | PortStats04 => Some ([("port_no", 4); ("pad", 4); ("rx_packets", 8); ("tx_packets", 8); ("rx_bytes", 8); ("tx_bytes", 8);
      ("rx_dropped", 8); ("tx_dropped", 8); ("rx_errors", 8); ("tx_errors", 8); ("rx_frame_err", 8); ("rx_over_err", 8);
      ("rx_crc_err", 8); ("collisions", 8); ("duration_sec", 4); ("duration_nsec", 4)], 112)
  | QueueStatsRequest04 => Some ([("port_no", 4); ("queue_id", 4)], 8)
  | QueueStats04 => Some ([("port_no", 4); ("queue_id", 4); ("tx_bytes", 8); ("tx_packets", 8); ("tx_errors", 8);
      ("duration_sec", 4); ("duration_nsec", 4)], 40)
  | GroupStatsRequest04 => Some ([("group_id", 4); ("pad", 4)], 8)
  | GroupStats04 => Some ([("length", 2); ("pad", 2); ("group_id", 4); ("ref_count", 4); ("pad2", 4); ("packet_count", 8);
      ("byte_count", 8); ("duration_sec", 4); ("duration_nsec", 4)], 40)
  | BucketCounter04 => Some ([("packet_count", 8); ("byte_count", 8)], 16)
  | GroupDescStats04 => Some ([("length", 2); ("group_type", 1); ("pad", 1); ("group_id", 4)], 8)
  | GroupFeatures04 => Some ([("types", 4); ("capabilities", 4); ("max_groups1", 4); ("max_groups2", 4); ("max_groups3", 4);
      ("max_groups4", 4); ("actions1", 4); ("actions2", 4); ("actions3", 4); ("actions4", 4)], 40)
  | MeterMultipartRequest04 => Some ([("meter_id", 4); ("pad", 4)], 8)
  | MeterStats04 => Some ([("meter_id", 4); ("length", 2); ("pad", 6); ("flow_count", 4); ("packet_in_count", 8);
      ("byte_in_count", 8); ("duration_sec", 4); ("duration_nsec", 4)], 40)
  | BandStats04 => Some ([("packet_band_count", 8); ("byte_band_count", 8)], 16)
  | MeterConfig04 => Some ([("length", 2); ("flags", 2); ("meter_id", 4)], 8)
  | MeterFeatures04 => Some ([("max_meter", 4); ("band_types", 4); ("capabilities", 4); ("max_bands", 1); ("max_color", 1);
      ("pad", 2)], 16)
  | ExperimenterMultipartHeader04 => Some ([("experimenter", 4); ("exp_type", 4)], 8)
  | QueueGetConfigRequest04 | QueueGetConfigReply04 => Some ([("header", 8); ("port", 4); ("pad", 4)], 16)
  | PacketOut04 => Some ([("header", 8); ("buffer_id", 4); ("in_port", 4); ("actions_len", 2); ("pad", 6)], 24)
  | RoleBaseMessage04 | RoleRequest04 | RoleReply04 => Some ([("header", 8); ("role", 4); ("pad", 4); ("generation_id", 8)], 24)
  | AsyncConfig04 | GetAsyncReply04 | SetAsync04 => Some ([("header", 8); ("packet_in_mask1", 4); ("packet_in_mask2", 4);
      ("port_status_mask1", 4); ("port_status_mask2", 4); ("flow_removed_mask1", 4); ("flow_removed_mask2", 4)], 32)
  | PacketIn04 => Some ([("header", 8); ("buffer_id", 4); ("total_len", 2); ("reason", 1); ("table_id", 1); ("cookie", 8)], 24)
  | FlowRemoved04 => Some ([("header", 8); ("cookie", 8); ("priority", 2); ("reason", 1); ("table_id", 1);
      ("duration_sec", 4); ("duration_nsec", 4); ("idle_timeout", 2); ("hard_timeout", 2); ("packet_count", 8);
      ("byte_count", 8)], 48)
  | PortStatus04 => Some ([("header", 8); ("reason", 1); ("pad", 7); ("desc", 64)], 80)
  | _ => None
  end%nat.

(** Field [name] at offset [off] with [w] bytes. *)
Fixpoint placed (off : nat) (l : list (string * nat)) (name : string) (at_ w : nat) : Prop :=
  match l with
  | [] => False
  | (n, k) :: tl => (n = name /\ at_ = off /\ w = k) \/ placed (off + k) tl name at_ w
  end.
