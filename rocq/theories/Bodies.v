(** Name, module and class body of the classes of the tables.
    Generated by tools/gen_meta.py from the source text (parsed, not run).

    A body is the sequence of its assignments and function definitions; the
    right-hand side is [Some] object for GenericType and GenericStruct
    instances and [None] for anything else. *)
From Coq Require Import ZArith List String.
From Verif Require Import Base PyText Ids PyVal Classes.
Import ListNotations.
Open Scope string_scope.
Open Scope nat_scope.
Open Scope Z_scope.
Local Arguments VUInt w%nat er v.
Local Arguments VPad n%nat.
Local Arguments VChar len%nat v.

(** __name__ and __module__; the others are outside the versioned packages. *)
Definition class_place (c : cid) : string * string :=
  match c with
  | ListOfActions01 => ("ListOfActions", "pyof.v0x01.common.action")
  | ListOfPhyPorts01 => ("ListOfPhyPorts", "pyof.v0x01.common.phy_port")
  | ListOfProperties01 => ("ListOfProperties", "pyof.v0x01.common.queue")
  | ListOfQueues01 => ("ListOfQueues", "pyof.v0x01.common.queue")
  | ListOfActions04 => ("ListOfActions", "pyof.v0x04.common.action")
  | ListOfInstruction04 => ("ListOfInstruction", "pyof.v0x04.common.flow_instructions")
  | OxmMatchFields04 => ("OxmMatchFields", "pyof.v0x04.common.flow_match")
  | ListOfOxmHeader04 => ("ListOfOxmHeader", "pyof.v0x04.common.flow_match")
  | ListOfPorts04 => ("ListOfPorts", "pyof.v0x04.common.port")
  | ListOfProperties04 => ("ListOfProperties", "pyof.v0x04.common.queue")
  | ListOfQueues04 => ("ListOfQueues", "pyof.v0x04.common.queue")
  | ListOfBucketCounter04 => ("ListOfBucketCounter", "pyof.v0x04.controller2switch.common")
  | ListOfProperty04 => ("ListOfProperty", "pyof.v0x04.controller2switch.common")
  | ListOfBuckets04 => ("ListOfBuckets", "pyof.v0x04.controller2switch.group_mod")
  | ListOfMeterBandHeader04 => ("ListOfMeterBandHeader", "pyof.v0x04.controller2switch.meter_mod")
  | ListOfBandStats04 => ("ListOfBandStats", "pyof.v0x04.controller2switch.multipart_reply")
  | ListOfHelloElements04 => ("ListOfHelloElements", "pyof.v0x04.symmetric.hello")
  | Header01 => ("Header", "pyof.v0x01.common.header")
  | ErrorMsg01 => ("ErrorMsg", "pyof.v0x01.asynchronous.error_msg")
  | Match01 => ("Match", "pyof.v0x01.common.flow_match")
  | FlowRemoved01 => ("FlowRemoved", "pyof.v0x01.asynchronous.flow_removed")
  | PacketIn01 => ("PacketIn", "pyof.v0x01.asynchronous.packet_in")
  | PhyPort01 => ("PhyPort", "pyof.v0x01.common.phy_port")
  | PortStatus01 => ("PortStatus", "pyof.v0x01.asynchronous.port_status")
  | ActionHeader01 => ("ActionHeader", "pyof.v0x01.common.action")
  | ActionOutput01 => ("ActionOutput", "pyof.v0x01.common.action")
  | ActionStripVlan01 => ("ActionStripVlan", "pyof.v0x01.common.action")
  | ActionEnqueue01 => ("ActionEnqueue", "pyof.v0x01.common.action")
  | ActionVlanVid01 => ("ActionVlanVid", "pyof.v0x01.common.action")
  | ActionVlanPCP01 => ("ActionVlanPCP", "pyof.v0x01.common.action")
  | ActionDLAddr01 => ("ActionDLAddr", "pyof.v0x01.common.action")
  | ActionNWAddr01 => ("ActionNWAddr", "pyof.v0x01.common.action")
  | ActionNWTos01 => ("ActionNWTos", "pyof.v0x01.common.action")
  | ActionTPPort01 => ("ActionTPPort", "pyof.v0x01.common.action")
  | ActionVendorHeader01 => ("ActionVendorHeader", "pyof.v0x01.common.action")
  | QueuePropHeader01 => ("QueuePropHeader", "pyof.v0x01.common.queue")
  | PacketQueue01 => ("PacketQueue", "pyof.v0x01.common.queue")
  | QueuePropMinRate01 => ("QueuePropMinRate", "pyof.v0x01.common.queue")
  | BarrierReply01 => ("BarrierReply", "pyof.v0x01.controller2switch.barrier_reply")
  | BarrierRequest01 => ("BarrierRequest", "pyof.v0x01.controller2switch.barrier_request")
  | SwitchConfig01 => ("SwitchConfig", "pyof.v0x01.controller2switch.common")
  | AggregateStatsReply01 => ("AggregateStatsReply", "pyof.v0x01.controller2switch.common")
  | AggregateStatsRequest01 => ("AggregateStatsRequest", "pyof.v0x01.controller2switch.common")
  | DescStats01 => ("DescStats", "pyof.v0x01.controller2switch.common")
  | FlowStats01 => ("FlowStats", "pyof.v0x01.controller2switch.common")
  | FlowStatsRequest01 => ("FlowStatsRequest", "pyof.v0x01.controller2switch.common")
  | PortStats01 => ("PortStats", "pyof.v0x01.controller2switch.common")
  | PortStatsRequest01 => ("PortStatsRequest", "pyof.v0x01.controller2switch.common")
  | QueueStats01 => ("QueueStats", "pyof.v0x01.controller2switch.common")
  | QueueStatsRequest01 => ("QueueStatsRequest", "pyof.v0x01.controller2switch.common")
  | TableStats01 => ("TableStats", "pyof.v0x01.controller2switch.common")
  | VendorStats01 => ("VendorStats", "pyof.v0x01.controller2switch.common")
  | SwitchFeatures01 => ("SwitchFeatures", "pyof.v0x01.controller2switch.features_reply")
  | FeaturesReply01 => ("FeaturesReply", "pyof.v0x01.controller2switch.features_reply")
  | FeaturesRequest01 => ("FeaturesRequest", "pyof.v0x01.controller2switch.features_request")
  | FlowMod01 => ("FlowMod", "pyof.v0x01.controller2switch.flow_mod")
  | GetConfigReply01 => ("GetConfigReply", "pyof.v0x01.controller2switch.get_config_reply")
  | GetConfigRequest01 => ("GetConfigRequest", "pyof.v0x01.controller2switch.get_config_request")
  | PacketOut01 => ("PacketOut", "pyof.v0x01.controller2switch.packet_out")
  | PortMod01 => ("PortMod", "pyof.v0x01.controller2switch.port_mod")
  | QueueGetConfigReply01 => ("QueueGetConfigReply", "pyof.v0x01.controller2switch.queue_get_config_reply")
  | QueueGetConfigRequest01 => ("QueueGetConfigRequest", "pyof.v0x01.controller2switch.queue_get_config_request")
  | SetConfig01 => ("SetConfig", "pyof.v0x01.controller2switch.set_config")
  | StatsReply01 => ("StatsReply", "pyof.v0x01.controller2switch.stats_reply")
  | StatsRequest01 => ("StatsRequest", "pyof.v0x01.controller2switch.stats_request")
  | EchoReply01 => ("EchoReply", "pyof.v0x01.symmetric.echo_reply")
  | EchoRequest01 => ("EchoRequest", "pyof.v0x01.symmetric.echo_request")
  | Hello01 => ("Hello", "pyof.v0x01.symmetric.hello")
  | VendorHeader01 => ("VendorHeader", "pyof.v0x01.symmetric.vendor_header")
  | Header04 => ("Header", "pyof.v0x04.common.header")
  | ErrorMsg04 => ("ErrorMsg", "pyof.v0x04.asynchronous.error_msg")
  | ErrorExperimenterMsg04 => ("ErrorExperimenterMsg", "pyof.v0x04.asynchronous.error_msg")
  | OxmTLV04 => ("OxmTLV", "pyof.v0x04.common.flow_match")
  | Match04 => ("Match", "pyof.v0x04.common.flow_match")
  | FlowRemoved04 => ("FlowRemoved", "pyof.v0x04.asynchronous.flow_removed")
  | PacketIn04 => ("PacketIn", "pyof.v0x04.asynchronous.packet_in")
  | Port04 => ("Port", "pyof.v0x04.common.port")
  | PortStatus04 => ("PortStatus", "pyof.v0x04.asynchronous.port_status")
  | ActionHeader04 => ("ActionHeader", "pyof.v0x04.common.action")
  | ActionExperimenter04 => ("ActionExperimenter", "pyof.v0x04.common.action")
  | ActionGroup04 => ("ActionGroup", "pyof.v0x04.common.action")
  | ActionDecMPLSTTL04 => ("ActionDecMPLSTTL", "pyof.v0x04.common.action")
  | ActionSetMPLSTTL04 => ("ActionSetMPLSTTL", "pyof.v0x04.common.action")
  | ActionCopyTTLIn04 => ("ActionCopyTTLIn", "pyof.v0x04.common.action")
  | ActionCopyTTLOut04 => ("ActionCopyTTLOut", "pyof.v0x04.common.action")
  | ActionPopVLAN04 => ("ActionPopVLAN", "pyof.v0x04.common.action")
  | ActionPopPBB04 => ("ActionPopPBB", "pyof.v0x04.common.action")
  | ActionDecNWTTL04 => ("ActionDecNWTTL", "pyof.v0x04.common.action")
  | ActionSetNWTTL04 => ("ActionSetNWTTL", "pyof.v0x04.common.action")
  | ActionOutput04 => ("ActionOutput", "pyof.v0x04.common.action")
  | ActionPopMPLS04 => ("ActionPopMPLS", "pyof.v0x04.common.action")
  | ActionPush04 => ("ActionPush", "pyof.v0x04.common.action")
  | ActionSetField04 => ("ActionSetField", "pyof.v0x04.common.action")
  | ActionSetQueue04 => ("ActionSetQueue", "pyof.v0x04.common.action")
  | Instruction04 => ("Instruction", "pyof.v0x04.common.flow_instructions")
  | InstructionApplyAction04 => ("InstructionApplyAction", "pyof.v0x04.common.flow_instructions")
  | InstructionClearAction04 => ("InstructionClearAction", "pyof.v0x04.common.flow_instructions")
  | InstructionGotoTable04 => ("InstructionGotoTable", "pyof.v0x04.common.flow_instructions")
  | InstructionMeter04 => ("InstructionMeter", "pyof.v0x04.common.flow_instructions")
  | InstructionWriteAction04 => ("InstructionWriteAction", "pyof.v0x04.common.flow_instructions")
  | InstructionWriteMetadata04 => ("InstructionWriteMetadata", "pyof.v0x04.common.flow_instructions")
  | OxmExperimenterHeader04 => ("OxmExperimenterHeader", "pyof.v0x04.common.flow_match")
  | QueuePropHeader04 => ("QueuePropHeader", "pyof.v0x04.common.queue")
  | PacketQueue04 => ("PacketQueue", "pyof.v0x04.common.queue")
  | QueuePropExperimenter04 => ("QueuePropExperimenter", "pyof.v0x04.common.queue")
  | QueuePropMaxRate04 => ("QueuePropMaxRate", "pyof.v0x04.common.queue")
  | QueuePropMinRate04 => ("QueuePropMinRate", "pyof.v0x04.common.queue")
  | BarrierReply04 => ("BarrierReply", "pyof.v0x04.controller2switch.barrier_reply")
  | BarrierRequest04 => ("BarrierRequest", "pyof.v0x04.controller2switch.barrier_request")
  | Bucket04 => ("Bucket", "pyof.v0x04.controller2switch.common")
  | BucketCounter04 => ("BucketCounter", "pyof.v0x04.controller2switch.common")
  | AsyncConfig04 => ("AsyncConfig", "pyof.v0x04.controller2switch.common")
  | RoleBaseMessage04 => ("RoleBaseMessage", "pyof.v0x04.controller2switch.common")
  | SwitchConfig04 => ("SwitchConfig", "pyof.v0x04.controller2switch.common")
  | ExperimenterMultipartHeader04 => ("ExperimenterMultipartHeader", "pyof.v0x04.controller2switch.common")
  | Property04 => ("Property", "pyof.v0x04.controller2switch.common")
  | InstructionsProperty04 => ("InstructionsProperty", "pyof.v0x04.controller2switch.common")
  | NextTablesProperty04 => ("NextTablesProperty", "pyof.v0x04.controller2switch.common")
  | ActionsProperty04 => ("ActionsProperty", "pyof.v0x04.controller2switch.common")
  | OxmProperty04 => ("OxmProperty", "pyof.v0x04.controller2switch.common")
  | TableFeatures04 => ("TableFeatures", "pyof.v0x04.controller2switch.common")
  | SwitchFeatures04 => ("SwitchFeatures", "pyof.v0x04.controller2switch.features_reply")
  | FeaturesReply04 => ("FeaturesReply", "pyof.v0x04.controller2switch.features_reply")
  | FeaturesRequest04 => ("FeaturesRequest", "pyof.v0x04.controller2switch.features_request")
  | FlowMod04 => ("FlowMod", "pyof.v0x04.controller2switch.flow_mod")
  | GetAsyncReply04 => ("GetAsyncReply", "pyof.v0x04.controller2switch.get_async_reply")
  | GetAsyncRequest04 => ("GetAsyncRequest", "pyof.v0x04.controller2switch.get_async_request")
  | GetConfigReply04 => ("GetConfigReply", "pyof.v0x04.controller2switch.get_config_reply")
  | GetConfigRequest04 => ("GetConfigRequest", "pyof.v0x04.controller2switch.get_config_request")
  | GroupMod04 => ("GroupMod", "pyof.v0x04.controller2switch.group_mod")
  | MeterBandHeader04 => ("MeterBandHeader", "pyof.v0x04.controller2switch.meter_mod")
  | MeterMod04 => ("MeterMod", "pyof.v0x04.controller2switch.meter_mod")
  | MeterBandDrop04 => ("MeterBandDrop", "pyof.v0x04.controller2switch.meter_mod")
  | MeterBandDscpRemark04 => ("MeterBandDscpRemark", "pyof.v0x04.controller2switch.meter_mod")
  | MeterBandExperimenter04 => ("MeterBandExperimenter", "pyof.v0x04.controller2switch.meter_mod")
  | MultipartReply04 => ("MultipartReply", "pyof.v0x04.controller2switch.multipart_reply")
  | AggregateStatsReply04 => ("AggregateStatsReply", "pyof.v0x04.controller2switch.multipart_reply")
  | Desc04 => ("Desc", "pyof.v0x04.controller2switch.multipart_reply")
  | FlowStats04 => ("FlowStats", "pyof.v0x04.controller2switch.multipart_reply")
  | PortStats04 => ("PortStats", "pyof.v0x04.controller2switch.multipart_reply")
  | QueueStats04 => ("QueueStats", "pyof.v0x04.controller2switch.multipart_reply")
  | GroupDescStats04 => ("GroupDescStats", "pyof.v0x04.controller2switch.multipart_reply")
  | GroupFeatures04 => ("GroupFeatures", "pyof.v0x04.controller2switch.multipart_reply")
  | GroupStats04 => ("GroupStats", "pyof.v0x04.controller2switch.multipart_reply")
  | MeterConfig04 => ("MeterConfig", "pyof.v0x04.controller2switch.multipart_reply")
  | MeterFeatures04 => ("MeterFeatures", "pyof.v0x04.controller2switch.multipart_reply")
  | BandStats04 => ("BandStats", "pyof.v0x04.controller2switch.multipart_reply")
  | MeterStats04 => ("MeterStats", "pyof.v0x04.controller2switch.multipart_reply")
  | TableStats04 => ("TableStats", "pyof.v0x04.controller2switch.multipart_reply")
  | MultipartRequest04 => ("MultipartRequest", "pyof.v0x04.controller2switch.multipart_request")
  | AggregateStatsRequest04 => ("AggregateStatsRequest", "pyof.v0x04.controller2switch.multipart_request")
  | FlowStatsRequest04 => ("FlowStatsRequest", "pyof.v0x04.controller2switch.multipart_request")
  | PortStatsRequest04 => ("PortStatsRequest", "pyof.v0x04.controller2switch.multipart_request")
  | QueueStatsRequest04 => ("QueueStatsRequest", "pyof.v0x04.controller2switch.multipart_request")
  | GroupStatsRequest04 => ("GroupStatsRequest", "pyof.v0x04.controller2switch.multipart_request")
  | MeterMultipartRequest04 => ("MeterMultipartRequest", "pyof.v0x04.controller2switch.multipart_request")
  | PacketOut04 => ("PacketOut", "pyof.v0x04.controller2switch.packet_out")
  | PortMod04 => ("PortMod", "pyof.v0x04.controller2switch.port_mod")
  | QueueGetConfigReply04 => ("QueueGetConfigReply", "pyof.v0x04.controller2switch.queue_get_config_reply")
  | QueueGetConfigRequest04 => ("QueueGetConfigRequest", "pyof.v0x04.controller2switch.queue_get_config_request")
  | RoleReply04 => ("RoleReply", "pyof.v0x04.controller2switch.role_reply")
  | RoleRequest04 => ("RoleRequest", "pyof.v0x04.controller2switch.role_request")
  | SetAsync04 => ("SetAsync", "pyof.v0x04.controller2switch.set_async")
  | SetConfig04 => ("SetConfig", "pyof.v0x04.controller2switch.set_config")
  | TableMod04 => ("TableMod", "pyof.v0x04.controller2switch.table_mod")
  | EchoReply04 => ("EchoReply", "pyof.v0x04.symmetric.echo_reply")
  | EchoRequest04 => ("EchoRequest", "pyof.v0x04.symmetric.echo_request")
  | ExperimenterHeader04 => ("ExperimenterHeader", "pyof.v0x04.symmetric.experimenter")
  | HelloElemHeader04 => ("HelloElemHeader", "pyof.v0x04.symmetric.hello")
  | Hello04 => ("Hello", "pyof.v0x04.symmetric.hello")
  | CInt | CObject | CNone | CStr | CBytes | CList | CEnumMember => ("", "builtins")
  | CGenericType | CGenericStruct | CGenericMessage | CMaskObj => ("", "pyof.foundation.base")
  | _ => ("", "pyof.foundation.basic_types")
  end.

(** First base and body, in source order. *)
Definition class_body (c : cid) : option (cid * list (string * option pyval)) :=
  match c with
  | Header01 => (* pyof/v0x01/common/header.py:66-95 *)
      Some (CGenericStruct, [("version", Some (VUInt 1 None (VInt 1)));
        ("message_type", Some (VUInt 1 (Some E_Type01) VNone));
        ("length", Some (VUInt 2 None VNone));
        ("xid", Some (VUInt 4 None VNone));
        ("__init__", None);
        ("__str__", None);
        ("__repr__", None)])
  | ErrorMsg01 => (* pyof/v0x01/asynchronous/error_msg.py:178-247 *)
      Some (CGenericMessage, [("header", Some (VObj Header01 [("version", VUInt 1 None (VInt 1)); ("message_type", VEnum E_Type01 1); ("length", VNone); ("xid", VNone)]));
        ("error_type", Some (VUInt 2 (Some E_ErrorType01) VNone));
        ("code", Some (VUInt 2 None VNone));
        ("data", Some (VBin VNone));
        ("__init__", None);
        ("pack", None);
        ("unpack", None)])
  | Match01 => (* pyof/v0x01/common/flow_match.py:66-203 *)
      Some (CGenericStruct, [("wildcards", Some (VUInt 4 (Some E_FlowWildCards01) (VInt 4194303)));
        ("in_port", Some (VUInt 2 None (VInt 0)));
        ("dl_src", Some (VHW (VStr (txt "00:00:00:00:00:00"))));
        ("dl_dst", Some (VHW (VStr (txt "00:00:00:00:00:00"))));
        ("dl_vlan", Some (VUInt 2 None (VInt 0)));
        ("dl_vlan_pcp", Some (VUInt 1 None (VInt 0)));
        ("pad1", Some (VPad 1));
        ("dl_type", Some (VUInt 2 None (VInt 0)));
        ("nw_tos", Some (VUInt 1 None (VInt 0)));
        ("nw_proto", Some (VUInt 1 None (VInt 0)));
        ("pad2", Some (VPad 2));
        ("nw_src", Some (VIP (VStr (txt "0.0.0.0")) 0));
        ("nw_dst", Some (VIP (VStr (txt "0.0.0.0")) 0));
        ("tp_src", Some (VUInt 2 None (VInt 0)));
        ("tp_dst", Some (VUInt 2 None (VInt 0)));
        ("__init__", None);
        ("__setattr__", None);
        ("unpack", None);
        ("fill_wildcards", None)])
  | FlowRemoved01 => (* pyof/v0x01/asynchronous/flow_removed.py:29-80 *)
      Some (CGenericMessage, [("header", Some (VObj Header01 [("version", VUInt 1 None (VInt 1)); ("message_type", VEnum E_Type01 11); ("length", VNone); ("xid", VNone)]));
        ("match", Some (new_Match01));
        ("cookie", Some (VUInt 8 None VNone));
        ("priority", Some (VUInt 2 None VNone));
        ("reason", Some (VUInt 1 (Some E_FlowRemovedReason01) VNone));
        ("pad", Some (VPad 1));
        ("duration_sec", Some (VUInt 4 None VNone));
        ("duration_nsec", Some (VUInt 4 None VNone));
        ("idle_timeout", Some (VUInt 2 None VNone));
        ("pad2", Some (VPad 2));
        ("packet_count", Some (VUInt 8 None VNone));
        ("byte_count", Some (VUInt 8 None VNone));
        ("__init__", None)])
  | PacketIn01 => (* pyof/v0x01/asynchronous/packet_in.py:32-67 *)
      Some (CGenericMessage, [("header", Some (VObj Header01 [("version", VUInt 1 None (VInt 1)); ("message_type", VEnum E_Type01 10); ("length", VNone); ("xid", VNone)]));
        ("buffer_id", Some (VUInt 4 None VNone));
        ("total_len", Some (VUInt 2 None VNone));
        ("in_port", Some (VUInt 2 None VNone));
        ("reason", Some (VUInt 1 (Some E_PacketInReason01) VNone));
        ("pad", Some (VPad 1));
        ("data", Some (VBin VNone));
        ("__init__", None)])
  | PhyPort01 => (* pyof/v0x01/common/phy_port.py:131-186 *)
      Some (CGenericStruct, [("port_no", Some (VUInt 2 None VNone));
        ("hw_addr", Some (VHW (VStr (txt "00:00:00:00:00:00"))));
        ("name", Some (VChar 16 VNone));
        ("config", Some (VUInt 4 (Some E_PortConfig01) VNone));
        ("state", Some (VUInt 4 (Some E_PortState01) VNone));
        ("curr", Some (VUInt 4 (Some E_PortFeatures01) VNone));
        ("advertised", Some (VUInt 4 (Some E_PortFeatures01) VNone));
        ("supported", Some (VUInt 4 (Some E_PortFeatures01) VNone));
        ("peer", Some (VUInt 4 (Some E_PortFeatures01) VNone));
        ("__init__", None)])
  | PortStatus01 => (* pyof/v0x01/asynchronous/port_status.py:32-53 *)
      Some (CGenericMessage, [("header", Some (VObj Header01 [("version", VUInt 1 None (VInt 1)); ("message_type", VEnum E_Type01 12); ("length", VNone); ("xid", VNone)]));
        ("reason", Some (VUInt 1 (Some E_PortReason01) VNone));
        ("pad", Some (VPad 7));
        ("desc", Some (new_PhyPort01));
        ("__init__", None)])
  | ActionHeader01 => (* pyof/v0x01/common/action.py:55-106 *)
      Some (CGenericStruct, [("action_type", Some (VUInt 2 (Some E_ActionType01) VNone));
        ("length", Some (VUInt 2 None VNone));
        ("_allowed_types", None);
        ("__init__", None);
        ("unpack", None);
        ("get_allowed_types", None)])
  | ActionOutput01 => (* pyof/v0x01/common/action.py:109-134 *)
      Some (ActionHeader01, [("port", Some (VUInt 2 None VNone));
        ("max_length", Some (VUInt 2 None VNone));
        ("_allowed_types", None);
        ("__init__", None)])
  | ActionStripVlan01 => (* pyof/v0x01/common/action.py:137-153 *)
      Some (ActionHeader01, [("pad", Some (VPad 4));
        ("_allowed_types", None);
        ("__init__", None)])
  | ActionEnqueue01 => (* pyof/v0x01/common/action.py:156-182 *)
      Some (ActionHeader01, [("port", Some (VUInt 2 None VNone));
        ("pad", Some (VPad 6));
        ("queue_id", Some (VUInt 4 None VNone));
        ("_allowed_types", None);
        ("__init__", None)])
  | ActionVlanVid01 => (* pyof/v0x01/common/action.py:185-206 *)
      Some (ActionHeader01, [("vlan_id", Some (VUInt 2 None VNone));
        ("pad2", Some (VPad 2));
        ("_allowed_types", None);
        ("__init__", None)])
  | ActionVlanPCP01 => (* pyof/v0x01/common/action.py:209-228 *)
      Some (ActionHeader01, [("vlan_pcp", Some (VUInt 1 None VNone));
        ("pad", Some (VPad 3));
        ("_allowed_types", None);
        ("__init__", None)])
  | ActionDLAddr01 => (* pyof/v0x01/common/action.py:231-251 *)
      Some (ActionHeader01, [("dl_addr", Some (VHW (VStr (txt "00:00:00:00:00:00"))));
        ("pad", Some (VPad 6));
        ("_allowed_types", None);
        ("__init__", None)])
  | ActionNWAddr01 => (* pyof/v0x01/common/action.py:254-271 *)
      Some (ActionHeader01, [("nw_addr", Some (VUInt 4 None VNone));
        ("_allowed_types", None);
        ("__init__", None)])
  | ActionNWTos01 => (* pyof/v0x01/common/action.py:274-297 *)
      Some (ActionHeader01, [("nw_tos", Some (VUInt 1 None VNone));
        ("pad", Some (VPad 3));
        ("_allowed_types", None);
        ("__init__", None)])
  | ActionTPPort01 => (* pyof/v0x01/common/action.py:300-319 *)
      Some (ActionHeader01, [("tp_port", Some (VUInt 2 None VNone));
        ("pad", Some (VPad 2));
        ("_allowed_types", None);
        ("__init__", None)])
  | ActionVendorHeader01 => (* pyof/v0x01/common/action.py:322-341 *)
      Some (ActionHeader01, [("vendor", Some (VUInt 4 None VNone));
        ("_allowed_types", None);
        ("__init__", None)])
  | QueuePropHeader01 => (* pyof/v0x01/common/queue.py:49-67 *)
      Some (CGenericStruct, [("queue_property", Some (VUInt 2 (Some E_QueueProperties01) VNone));
        ("length", Some (VUInt 2 None VNone));
        ("pad", Some (VPad 4));
        ("__init__", None)])
  | PacketQueue01 => (* pyof/v0x01/common/queue.py:70-91 *)
      Some (CGenericStruct, [("queue_id", Some (VUInt 4 None VNone));
        ("length", Some (VUInt 2 None VNone));
        ("pad", Some (VPad 2));
        ("properties", Some (VList ListOfProperties01 QueuePropHeader01 []));
        ("__init__", None)])
  | QueuePropMinRate01 => (* pyof/v0x01/common/queue.py:94-110 *)
      Some (CGenericStruct, [("prop_header", Some (VObj QueuePropHeader01 [("queue_property", VEnum E_QueueProperties01 1); ("length", VInt 16); ("pad", VPad 4)]));
        ("rate", Some (VUInt 2 None VNone));
        ("pad", Some (VPad 6));
        ("__init__", None)])
  | BarrierReply01 => (* pyof/v0x01/controller2switch/barrier_reply.py:15-21 *)
      Some (CGenericMessage, [("header", Some (VObj Header01 [("version", VUInt 1 None (VInt 1)); ("message_type", VEnum E_Type01 19); ("length", VNone); ("xid", VNone)]))])
  | BarrierRequest01 => (* pyof/v0x01/controller2switch/barrier_request.py:15-21 *)
      Some (CGenericMessage, [("header", Some (VObj Header01 [("version", VUInt 1 None (VInt 1)); ("message_type", VEnum E_Type01 18); ("length", VNone); ("xid", VNone)]))])
  | SwitchConfig01 => (* pyof/v0x01/controller2switch/common.py:69-93 *)
      Some (CGenericMessage, [("header", Some (new_Header01));
        ("flags", Some (VUInt 2 (Some E_ConfigFlag01) VNone));
        ("miss_send_len", Some (VUInt 2 None VNone));
        ("__init__", None);
        ("__repr__", None)])
  | AggregateStatsReply01 => (* pyof/v0x01/controller2switch/common.py:96-116 *)
      Some (CGenericStruct, [("packet_count", Some (VUInt 8 None VNone));
        ("byte_count", Some (VUInt 8 None VNone));
        ("flow_count", Some (VUInt 4 None VNone));
        ("pad", Some (VPad 4));
        ("__init__", None)])
  | AggregateStatsRequest01 => (* pyof/v0x01/controller2switch/common.py:119-141 *)
      Some (CGenericStruct, [("match", Some (new_Match01));
        ("table_id", Some (VUInt 1 None VNone));
        ("pad", Some (VPad 1));
        ("out_port", Some (VUInt 2 None VNone));
        ("__init__", None)])
  | DescStats01 => (* pyof/v0x01/controller2switch/common.py:144-173 *)
      Some (CGenericStruct, [("mfr_desc", Some (VChar 256 VNone));
        ("hw_desc", Some (VChar 256 VNone));
        ("sw_desc", Some (VChar 256 VNone));
        ("serial_num", Some (VChar 32 VNone));
        ("dp_desc", Some (VChar 256 VNone));
        ("__init__", None)])
  | FlowStats01 => (* pyof/v0x01/controller2switch/common.py:176-246 *)
      Some (CGenericStruct, [("length", Some (VUInt 2 None VNone));
        ("table_id", Some (VUInt 1 None VNone));
        ("pad", Some (VPad 1));
        ("match", Some (new_Match01));
        ("duration_sec", Some (VUInt 4 None VNone));
        ("duration_nsec", Some (VUInt 4 None VNone));
        ("priority", Some (VUInt 2 None VNone));
        ("idle_timeout", Some (VUInt 2 None VNone));
        ("hard_timeout", Some (VUInt 2 None VNone));
        ("pad2", Some (VPad 6));
        ("cookie", Some (VUInt 8 None VNone));
        ("packet_count", Some (VUInt 8 None VNone));
        ("byte_count", Some (VUInt 8 None VNone));
        ("actions", Some (VList ListOfActions01 ActionHeader01 []));
        ("__init__", None);
        ("unpack", None)])
  | FlowStatsRequest01 => (* pyof/v0x01/controller2switch/common.py:249-273 *)
      Some (CGenericStruct, [("match", Some (new_Match01));
        ("table_id", Some (VUInt 1 None VNone));
        ("pad", Some (VPad 1));
        ("out_port", Some (VUInt 2 None VNone));
        ("__init__", None)])
  | PortStats01 => (* pyof/v0x01/controller2switch/common.py:276-339 *)
      Some (CGenericStruct, [("port_no", Some (VUInt 2 None VNone));
        ("pad", Some (VPad 6));
        ("rx_packets", Some (VUInt 8 None VNone));
        ("tx_packets", Some (VUInt 8 None VNone));
        ("rx_bytes", Some (VUInt 8 None VNone));
        ("tx_bytes", Some (VUInt 8 None VNone));
        ("rx_dropped", Some (VUInt 8 None VNone));
        ("tx_dropped", Some (VUInt 8 None VNone));
        ("rx_errors", Some (VUInt 8 None VNone));
        ("tx_errors", Some (VUInt 8 None VNone));
        ("rx_frame_err", Some (VUInt 8 None VNone));
        ("rx_over_err", Some (VUInt 8 None VNone));
        ("rx_crc_err", Some (VUInt 8 None VNone));
        ("collisions", Some (VUInt 8 None VNone));
        ("__init__", None)])
  | PortStatsRequest01 => (* pyof/v0x01/controller2switch/common.py:342-359 *)
      Some (CGenericStruct, [("port_no", Some (VUInt 2 None VNone));
        ("pad", Some (VPad 6));
        ("__init__", None)])
  | QueueStats01 => (* pyof/v0x01/controller2switch/common.py:362-390 *)
      Some (CGenericStruct, [("port_no", Some (VUInt 2 None VNone));
        ("pad", Some (VPad 2));
        ("queue_id", Some (VUInt 4 None VNone));
        ("tx_bytes", Some (VUInt 8 None VNone));
        ("tx_packets", Some (VUInt 8 None VNone));
        ("tx_errors", Some (VUInt 8 None VNone));
        ("__init__", None)])
  | QueueStatsRequest01 => (* pyof/v0x01/controller2switch/common.py:393-411 *)
      Some (CGenericStruct, [("port_no", Some (VUInt 2 None VNone));
        ("pad", Some (VPad 2));
        ("queue_id", Some (VUInt 4 None VNone));
        ("__init__", None)])
  | TableStats01 => (* pyof/v0x01/controller2switch/common.py:414-450 *)
      Some (CGenericStruct, [("table_id", Some (VUInt 1 None VNone));
        ("pad", Some (VPad 3));
        ("name", Some (VChar 32 VNone));
        ("wildcards", Some (VUInt 4 (Some E_FlowWildCards01) VNone));
        ("max_entries", Some (VUInt 4 None VNone));
        ("active_count", Some (VUInt 4 None VNone));
        ("count_lookup", Some (VUInt 8 None VNone));
        ("count_matched", Some (VUInt 8 None VNone));
        ("__init__", None)])
  | VendorStats01 => (* pyof/v0x01/controller2switch/common.py:453-468 *)
      Some (CGenericStruct, [("vendor", Some (VUInt 4 None VNone));
        ("body", Some (VBin VNone));
        ("__init__", None)])
  | SwitchFeatures01 => (* pyof/v0x01/controller2switch/features_reply.py:36-76 *)
      Some (CGenericMessage, [("header", Some (VObj Header01 [("version", VUInt 1 None (VInt 1)); ("message_type", VEnum E_Type01 6); ("length", VNone); ("xid", VNone)]));
        ("datapath_id", Some (VDPID VNone));
        ("n_buffers", Some (VUInt 4 None VNone));
        ("n_tables", Some (VUInt 1 None VNone));
        ("pad", Some (VPad 3));
        ("capabilities", Some (VUInt 4 (Some E_Capabilities01) VNone));
        ("actions", Some (VUInt 4 (Some E_ActionType01) VNone));
        ("ports", Some (VList ListOfPhyPorts01 PhyPort01 []));
        ("__init__", None)])
  | FeaturesReply01 => (* pyof/v0x01/controller2switch/features_reply.py:79-80 *)
      Some (SwitchFeatures01, [])
  | FeaturesRequest01 => (* pyof/v0x01/controller2switch/features_request.py:11-18 *)
      Some (CGenericMessage, [("header", Some (VObj Header01 [("version", VUInt 1 None (VInt 1)); ("message_type", VEnum E_Type01 5); ("length", VNone); ("xid", VNone)]))])
  | FlowMod01 => (* pyof/v0x01/controller2switch/flow_mod.py:49-101 *)
      Some (CGenericMessage, [("header", Some (VObj Header01 [("version", VUInt 1 None (VInt 1)); ("message_type", VEnum E_Type01 14); ("length", VNone); ("xid", VNone)]));
        ("match", Some (new_Match01));
        ("cookie", Some (VUInt 8 None VNone));
        ("command", Some (VUInt 2 (Some E_FlowModCommand01) VNone));
        ("idle_timeout", Some (VUInt 2 None VNone));
        ("hard_timeout", Some (VUInt 2 None VNone));
        ("priority", Some (VUInt 2 None VNone));
        ("buffer_id", Some (VUInt 4 None VNone));
        ("out_port", Some (VUInt 2 (Some E_Port01) VNone));
        ("flags", Some (VUInt 2 (Some E_FlowModFlags01) VNone));
        ("actions", Some (VList ListOfActions01 ActionHeader01 []));
        ("__init__", None)])
  | GetConfigReply01 => (* pyof/v0x01/controller2switch/get_config_reply.py:13-27 *)
      Some (SwitchConfig01, [("__init__", None)])
  | GetConfigRequest01 => (* pyof/v0x01/controller2switch/get_config_request.py:11-14 *)
      Some (CGenericMessage, [("header", Some (VObj Header01 [("version", VUInt 1 None (VInt 1)); ("message_type", VEnum E_Type01 7); ("length", VNone); ("xid", VNone)]))])
  | PacketOut01 => (* pyof/v0x01/controller2switch/packet_out.py:20-129 *)
      Some (CGenericMessage, [("header", Some (VObj Header01 [("version", VUInt 1 None (VInt 1)); ("message_type", VEnum E_Type01 13); ("length", VNone); ("xid", VNone)]));
        ("buffer_id", Some (VUInt 4 None VNone));
        ("in_port", Some (VUInt 2 None VNone));
        ("actions_len", Some (VUInt 2 None VNone));
        ("actions", Some (VList ListOfActions01 ActionHeader01 []));
        ("data", Some (VBin VNone));
        ("__init__", None);
        ("validate", None);
        ("is_valid", None);
        ("pack", None);
        ("unpack", None);
        ("_update_actions_len", None);
        ("_validate_in_port", None)])
  | PortMod01 => (* pyof/v0x01/controller2switch/port_mod.py:18-52 *)
      Some (CGenericMessage, [("header", Some (VObj Header01 [("version", VUInt 1 None (VInt 1)); ("message_type", VEnum E_Type01 15); ("length", VNone); ("xid", VNone)]));
        ("port_no", Some (VUInt 2 None VNone));
        ("hw_addr", Some (VHW (VStr (txt "00:00:00:00:00:00"))));
        ("config", Some (VUInt 4 (Some E_PortConfig01) VNone));
        ("mask", Some (VUInt 4 (Some E_PortConfig01) VNone));
        ("advertise", Some (VUInt 4 (Some E_PortFeatures01) VNone));
        ("pad", Some (VPad 4));
        ("__init__", None)])
  | QueueGetConfigReply01 => (* pyof/v0x01/controller2switch/queue_get_config_reply.py:17-38 *)
      Some (CGenericMessage, [("header", Some (VObj Header01 [("version", VUInt 1 None (VInt 1)); ("message_type", VEnum E_Type01 21); ("length", VNone); ("xid", VNone)]));
        ("port", Some (VUInt 2 (Some E_Port01) VNone));
        ("pad", Some (VPad 6));
        ("queues", Some (VList ListOfQueues01 PacketQueue01 []));
        ("__init__", None)])
  | QueueGetConfigRequest01 => (* pyof/v0x01/controller2switch/queue_get_config_request.py:16-32 *)
      Some (CGenericMessage, [("header", Some (VObj Header01 [("version", VUInt 1 None (VInt 1)); ("message_type", VEnum E_Type01 20); ("length", VNone); ("xid", VNone)]));
        ("port", Some (VUInt 2 (Some E_Port01) VNone));
        ("pad", Some (VPad 2));
        ("__init__", None)])
  | SetConfig01 => (* pyof/v0x01/controller2switch/set_config.py:14-28 *)
      Some (SwitchConfig01, [("__init__", None)])
  | StatsReply01 => (* pyof/v0x01/controller2switch/stats_reply.py:12-101 *)
      Some (CGenericMessage, [("header", Some (VObj Header01 [("version", VUInt 1 None (VInt 1)); ("message_type", VEnum E_Type01 17); ("length", VNone); ("xid", VNone)]));
        ("body_type", Some (VUInt 2 (Some E_StatsType01) VNone));
        ("flags", Some (VUInt 2 None VNone));
        ("body", Some (VBin VNone));
        ("__init__", None);
        ("pack", None);
        ("unpack", None);
        ("_unpack_body", None);
        ("_get_body_instance", None);
        ("_get_body_class", None)])
  | StatsRequest01 => (* pyof/v0x01/controller2switch/stats_request.py:18-77 *)
      Some (CGenericMessage, [("header", Some (VObj Header01 [("version", VUInt 1 None (VInt 1)); ("message_type", VEnum E_Type01 16); ("length", VNone); ("xid", VNone)]));
        ("body_type", Some (VUInt 2 (Some E_StatsType01) VNone));
        ("flags", Some (VUInt 2 None VNone));
        ("body", Some (VBin VNone));
        ("__init__", None);
        ("pack", None);
        ("unpack", None);
        ("_get_body_class", None)])
  | EchoReply01 => (* pyof/v0x01/symmetric/echo_reply.py:16-33 *)
      Some (CGenericMessage, [("header", Some (VObj Header01 [("version", VUInt 1 None (VInt 1)); ("message_type", VEnum E_Type01 3); ("length", VInt 8); ("xid", VNone)]));
        ("data", Some (VBin VNone));
        ("__init__", None)])
  | EchoRequest01 => (* pyof/v0x01/symmetric/echo_request.py:16-33 *)
      Some (CGenericMessage, [("header", Some (VObj Header01 [("version", VUInt 1 None (VInt 1)); ("message_type", VEnum E_Type01 2); ("length", VInt 8); ("xid", VNone)]));
        ("data", Some (VBin VNone));
        ("__init__", None)])
  | Hello01 => (* pyof/v0x01/symmetric/hello.py:16-23 *)
      Some (CGenericMessage, [("header", Some (VObj Header01 [("version", VUInt 1 None (VInt 1)); ("message_type", VEnum E_Type01 0); ("length", VInt 8); ("xid", VNone)]));
        ("elements", Some (VBin VNone))])
  | VendorHeader01 => (* pyof/v0x01/symmetric/vendor_header.py:16-38 *)
      Some (CGenericMessage, [("header", Some (VObj Header01 [("version", VUInt 1 None (VInt 1)); ("message_type", VEnum E_Type01 4); ("length", VNone); ("xid", VNone)]));
        ("vendor", Some (VUInt 4 None VNone));
        ("data", Some (VBin VNone));
        ("__init__", None)])
  | Header04 => (* pyof/v0x04/common/header.py:83-108 *)
      Some (CGenericStruct, [("version", Some (VUInt 1 None (VInt 4)));
        ("message_type", Some (VUInt 1 (Some E_Type04) VNone));
        ("length", Some (VUInt 2 None VNone));
        ("xid", Some (VUInt 4 None VNone));
        ("__init__", None);
        ("__repr__", None)])
  | ErrorMsg04 => (* pyof/v0x04/asynchronous/error_msg.py:441-478 *)
      Some (CGenericMessage, [("header", Some (VObj Header04 [("version", VUInt 1 None (VInt 4)); ("message_type", VEnum E_Type04 1); ("length", VNone); ("xid", VNone)]));
        ("error_type", Some (VUInt 2 (Some E_ErrorType04) VNone));
        ("code", Some (VUInt 2 None VNone));
        ("data", Some (VBin VNone));
        ("__init__", None);
        ("unpack", None)])
  | ErrorExperimenterMsg04 => (* pyof/v0x04/asynchronous/error_msg.py:481-520 *)
      Some (CGenericMessage, [("header", Some (VObj Header04 [("version", VUInt 1 None (VInt 4)); ("message_type", VEnum E_Type04 1); ("length", VNone); ("xid", VNone)]));
        ("error_type", Some (VUInt 2 (Some E_ErrorType04) (VEnum E_ErrorType04 65535)));
        ("exp_type", Some (VUInt 2 None VNone));
        ("experimenter", Some (VUInt 4 None VNone));
        ("data", Some (VBin VNone));
        ("__init__", None);
        ("unpack", None)])
  | OxmTLV04 => (* pyof/v0x04/common/flow_match.py:185-301 *)
      Some (CGenericStruct, [("oxm_class", Some (VUInt 2 (Some E_OxmClass04) VNone));
        ("oxm_field_and_mask", Some (VUInt 1 None VNone));
        ("oxm_length", Some (VUInt 1 None VNone));
        ("oxm_value", Some (VBin VNone));
        ("__init__", None);
        ("unpack", None);
        ("_unpack_oxm_field", None);
        ("_update_length", None);
        ("pack", None);
        ("_get_oxm_field_int", None)])
  | Match04 => (* pyof/v0x04/common/flow_match.py:320-413 *)
      Some (CGenericStruct, [("match_type", Some (VUInt 2 (Some E_MatchType04) VNone));
        ("length", Some (VUInt 2 None VNone));
        ("oxm_match_fields", Some (VList OxmMatchFields04 OxmTLV04 []));
        ("__init__", None);
        ("_update_match_length", None);
        ("pack", None);
        ("_complete_last_byte", None);
        ("get_size", None);
        ("unpack", None);
        ("get_field", None)])
  | FlowRemoved04 => (* pyof/v0x04/asynchronous/flow_removed.py:30-95 *)
      Some (CGenericMessage, [("header", Some (VObj Header04 [("version", VUInt 1 None (VInt 4)); ("message_type", VEnum E_Type04 11); ("length", VNone); ("xid", VNone)]));
        ("cookie", Some (VUInt 8 None VNone));
        ("priority", Some (VUInt 2 None VNone));
        ("reason", Some (VUInt 1 (Some E_FlowRemovedReason04) VNone));
        ("table_id", Some (VUInt 1 None VNone));
        ("duration_sec", Some (VUInt 4 None VNone));
        ("duration_nsec", Some (VUInt 4 None VNone));
        ("idle_timeout", Some (VUInt 2 None VNone));
        ("hard_timeout", Some (VUInt 2 None VNone));
        ("packet_count", Some (VUInt 8 None VNone));
        ("byte_count", Some (VUInt 8 None VNone));
        ("match", Some (new_Match04));
        ("__init__", None)])
  | PacketIn04 => (* pyof/v0x04/asynchronous/packet_in.py:34-101 *)
      Some (CGenericMessage, [("header", Some (VObj Header04 [("version", VUInt 1 None (VInt 4)); ("message_type", VEnum E_Type04 10); ("length", VNone); ("xid", VNone)]));
        ("buffer_id", Some (VUInt 4 None VNone));
        ("total_len", Some (VUInt 2 None VNone));
        ("reason", Some (VUInt 1 (Some E_PacketInReason04) VNone));
        ("table_id", Some (VUInt 1 None VNone));
        ("cookie", Some (VUInt 8 None VNone));
        ("match", Some (new_Match04));
        ("pad", Some (VPad 2));
        ("data", Some (VBin VNone));
        ("__init__", None);
        ("in_port", None)])
  | Port04 => (* pyof/v0x04/common/port.py:169-233 *)
      Some (CGenericStruct, [("port_no", Some (VUInt 4 None VNone));
        ("pad", Some (VPad 4));
        ("hw_addr", Some (VHW (VStr (txt "00:00:00:00:00:00"))));
        ("pad2", Some (VPad 2));
        ("name", Some (VChar 16 VNone));
        ("config", Some (VUInt 4 (Some E_PortConfig04) VNone));
        ("state", Some (VUInt 4 (Some E_PortState04) VNone));
        ("curr", Some (VUInt 4 (Some E_PortFeatures04) VNone));
        ("advertised", Some (VUInt 4 (Some E_PortFeatures04) VNone));
        ("supported", Some (VUInt 4 (Some E_PortFeatures04) VNone));
        ("peer", Some (VUInt 4 (Some E_PortFeatures04) VNone));
        ("curr_speed", Some (VUInt 4 None VNone));
        ("max_speed", Some (VUInt 4 None VNone));
        ("__init__", None)])
  | PortStatus04 => (* pyof/v0x04/asynchronous/port_status.py:31-54 *)
      Some (CGenericMessage, [("header", Some (VObj Header04 [("version", VUInt 1 None (VInt 4)); ("message_type", VEnum E_Type04 12); ("length", VNone); ("xid", VNone)]));
        ("reason", Some (VUInt 1 (Some E_PortReason04) VNone));
        ("pad", Some (VPad 7));
        ("desc", Some (new_Port04));
        ("__init__", None)])
  | ActionHeader04 => (* pyof/v0x04/common/action.py:80-150 *)
      Some (CGenericStruct, [("action_type", Some (VUInt 2 (Some E_ActionType04) VNone));
        ("length", Some (VUInt 2 None VNone));
        ("_allowed_types", None);
        ("__init__", None);
        ("get_size", None);
        ("unpack", None);
        ("get_allowed_types", None)])
  | ActionExperimenter04 => (* pyof/v0x04/common/action.py:153-173 *)
      Some (ActionHeader04, [("experimenter", Some (VUInt 4 None VNone));
        ("body", Some (VBin VNone));
        ("_allowed_types", None);
        ("__init__", None)])
  | ActionGroup04 => (* pyof/v0x04/common/action.py:176-192 *)
      Some (ActionHeader04, [("group_id", Some (VUInt 4 None VNone));
        ("_allowed_types", None);
        ("__init__", None)])
  | ActionDecMPLSTTL04 => (* pyof/v0x04/common/action.py:195-204 *)
      Some (ActionHeader04, [("pad", Some (VPad 4));
        ("_allowed_types", None);
        ("__init__", None)])
  | ActionSetMPLSTTL04 => (* pyof/v0x04/common/action.py:207-222 *)
      Some (ActionHeader04, [("mpls_ttl", Some (VUInt 1 None VNone));
        ("pad", Some (VPad 3));
        ("_allowed_types", None);
        ("__init__", None)])
  | ActionCopyTTLIn04 => (* pyof/v0x04/common/action.py:225-234 *)
      Some (ActionHeader04, [("pad", Some (VPad 4));
        ("_allowed_types", None);
        ("__init__", None)])
  | ActionCopyTTLOut04 => (* pyof/v0x04/common/action.py:237-246 *)
      Some (ActionHeader04, [("pad", Some (VPad 4));
        ("_allowed_types", None);
        ("__init__", None)])
  | ActionPopVLAN04 => (* pyof/v0x04/common/action.py:249-258 *)
      Some (ActionHeader04, [("pad", Some (VPad 4));
        ("_allowed_types", None);
        ("__init__", None)])
  | ActionPopPBB04 => (* pyof/v0x04/common/action.py:261-270 *)
      Some (ActionHeader04, [("pad", Some (VPad 4));
        ("_allowed_types", None);
        ("__init__", None)])
  | ActionDecNWTTL04 => (* pyof/v0x04/common/action.py:273-282 *)
      Some (ActionHeader04, [("pad", Some (VPad 4));
        ("_allowed_types", None);
        ("__init__", None)])
  | ActionSetNWTTL04 => (* pyof/v0x04/common/action.py:285-300 *)
      Some (ActionHeader04, [("nw_ttl", Some (VUInt 1 None VNone));
        ("pad", Some (VPad 3));
        ("_allowed_types", None);
        ("__init__", None)])
  | ActionOutput04 => (* pyof/v0x04/common/action.py:303-332 *)
      Some (ActionHeader04, [("port", Some (VUInt 4 None VNone));
        ("max_length", Some (VUInt 2 None VNone));
        ("pad", Some (VPad 6));
        ("_allowed_types", None);
        ("__init__", None);
        ("__repr__", None)])
  | ActionPopMPLS04 => (* pyof/v0x04/common/action.py:335-350 *)
      Some (ActionHeader04, [("ethertype", Some (VUInt 2 None VNone));
        ("pad", Some (VPad 2));
        ("_allowed_types", None);
        ("__init__", None)])
  | ActionPush04 => (* pyof/v0x04/common/action.py:353-371 *)
      Some (ActionHeader04, [("ethertype", Some (VUInt 2 None VNone));
        ("pad", Some (VPad 2));
        ("_allowed_types", None);
        ("__init__", None)])
  | ActionSetField04 => (* pyof/v0x04/common/action.py:374-418 *)
      Some (ActionHeader04, [("field", Some (new_OxmTLV04));
        ("_allowed_types", None);
        ("__init__", None);
        ("__repr__", None);
        ("pack", None);
        ("_update_length", None);
        ("_complete_last_byte", None)])
  | ActionSetQueue04 => (* pyof/v0x04/common/action.py:421-435 *)
      Some (ActionHeader04, [("queue_id", Some (VUInt 4 None VNone));
        ("_allowed_types", None);
        ("__init__", None)])
  | Instruction04 => (* pyof/v0x04/common/flow_instructions.py:56-119 *)
      Some (CGenericStruct, [("instruction_type", Some (VUInt 2 (Some E_InstructionType04) VNone));
        ("length", Some (VUInt 2 None VNone));
        ("__init__", None);
        ("pack", None);
        ("update_length", None);
        ("unpack", None)])
  | InstructionApplyAction04 => (* pyof/v0x04/common/flow_instructions.py:122-142 *)
      Some (Instruction04, [("pad", Some (VPad 4));
        ("actions", Some (VList ListOfActions04 ActionHeader04 []));
        ("__init__", None)])
  | InstructionClearAction04 => (* pyof/v0x04/common/flow_instructions.py:145-164 *)
      Some (Instruction04, [("pad", Some (VPad 4));
        ("actions", Some (VList ListOfActions04 ActionHeader04 []));
        ("__init__", None)])
  | InstructionGotoTable04 => (* pyof/v0x04/common/flow_instructions.py:167-183 *)
      Some (Instruction04, [("table_id", Some (VUInt 1 None VNone));
        ("pad", Some (VPad 3));
        ("__init__", None)])
  | InstructionMeter04 => (* pyof/v0x04/common/flow_instructions.py:186-202 *)
      Some (Instruction04, [("meter_id", Some (VUInt 4 None VNone));
        ("__init__", None)])
  | InstructionWriteAction04 => (* pyof/v0x04/common/flow_instructions.py:205-225 *)
      Some (Instruction04, [("pad", Some (VPad 4));
        ("actions", Some (VList ListOfActions04 ActionHeader04 []));
        ("__init__", None)])
  | InstructionWriteMetadata04 => (* pyof/v0x04/common/flow_instructions.py:228-247 *)
      Some (Instruction04, [("pad", Some (VPad 4));
        ("metadata", Some (VUInt 8 None VNone));
        ("metadata_mask", Some (VUInt 8 None VNone));
        ("__init__", None)])
  | OxmExperimenterHeader04 => (* pyof/v0x04/common/flow_match.py:416-435 *)
      Some (CGenericStruct, [("oxm_header", Some (VUInt 4 (Some E_OxmClass04) (VEnum E_OxmClass04 65535)));
        ("experimenter", Some (VUInt 4 None VNone));
        ("__init__", None)])
  | QueuePropHeader04 => (* pyof/v0x04/common/queue.py:34-54 *)
      Some (CGenericStruct, [("queue_property", Some (VUInt 2 (Some E_QueueProperties04) VNone));
        ("length", Some (VUInt 2 None VNone));
        ("pad", Some (VPad 4));
        ("__init__", None)])
  | PacketQueue04 => (* pyof/v0x04/common/queue.py:75-103 *)
      Some (CGenericStruct, [("queue_id", Some (VUInt 4 None VNone));
        ("port", Some (VUInt 4 None VNone));
        ("length", Some (VUInt 2 None VNone));
        ("pad", Some (VPad 6));
        ("properties", Some (VList ListOfProperties04 QueuePropHeader04 []));
        ("__init__", None)])
  | QueuePropExperimenter04 => (* pyof/v0x04/common/queue.py:124-147 *)
      Some (CGenericStruct, [("prop_header", Some (VObj QueuePropHeader04 [("queue_property", VEnum E_QueueProperties04 65535); ("length", VInt 16); ("pad", VPad 4)]));
        ("experimenter", Some (VUInt 4 None VNone));
        ("pad", Some (VPad 4));
        ("data", Some (VBin VNone));
        ("__init__", None)])
  | QueuePropMaxRate04 => (* pyof/v0x04/common/queue.py:150-167 *)
      Some (CGenericStruct, [("prop_header", Some (VObj QueuePropHeader04 [("queue_property", VEnum E_QueueProperties04 2); ("length", VInt 16); ("pad", VPad 4)]));
        ("rate", Some (VUInt 2 None VNone));
        ("pad", Some (VPad 6));
        ("__init__", None)])
  | QueuePropMinRate04 => (* pyof/v0x04/common/queue.py:170-187 *)
      Some (CGenericStruct, [("prop_header", Some (VObj QueuePropHeader04 [("queue_property", VEnum E_QueueProperties04 1); ("length", VInt 16); ("pad", VPad 4)]));
        ("rate", Some (VUInt 2 None VNone));
        ("pad", Some (VPad 6));
        ("__init__", None)])
  | BarrierReply04 => (* pyof/v0x04/controller2switch/barrier_reply.py:15-21 *)
      Some (CGenericMessage, [("header", Some (VObj Header04 [("version", VUInt 1 None (VInt 4)); ("message_type", VEnum E_Type04 21); ("length", VNone); ("xid", VNone)]))])
  | BarrierRequest04 => (* pyof/v0x04/controller2switch/barrier_request.py:15-21 *)
      Some (CGenericMessage, [("header", Some (VObj Header04 [("version", VUInt 1 None (VInt 4)); ("message_type", VEnum E_Type04 20); ("length", VNone); ("xid", VNone)]))])
  | Bucket04 => (* pyof/v0x04/controller2switch/common.py:193-249 *)
      Some (CGenericStruct, [("length", Some (VUInt 2 None VNone));
        ("weight", Some (VUInt 2 None VNone));
        ("watch_port", Some (VUInt 4 None VNone));
        ("watch_group", Some (VUInt 4 None VNone));
        ("pad", Some (VPad 4));
        ("actions", Some (VList CFixedTypeList ActionHeader04 []));
        ("__init__", None);
        ("__repr__", None);
        ("unpack", None);
        ("get_size", None)])
  | BucketCounter04 => (* pyof/v0x04/controller2switch/common.py:252-270 *)
      Some (CGenericStruct, [("packet_count", Some (VUInt 8 None VNone));
        ("byte_count", Some (VUInt 8 None VNone));
        ("__init__", None)])
  | AsyncConfig04 => (* pyof/v0x04/controller2switch/common.py:293-351 *)
      Some (CGenericMessage, [("header", Some (new_Header04));
        ("packet_in_mask1", Some (VUInt 4 (Some E_PacketInReason04) VNone));
        ("packet_in_mask2", Some (VUInt 4 (Some E_PacketInReason04) VNone));
        ("port_status_mask1", Some (VUInt 4 (Some E_PortReason04) VNone));
        ("port_status_mask2", Some (VUInt 4 (Some E_PortReason04) VNone));
        ("flow_removed_mask1", Some (VUInt 4 (Some E_FlowRemovedReason04) VNone));
        ("flow_removed_mask2", Some (VUInt 4 (Some E_FlowRemovedReason04) VNone));
        ("__init__", None)])
  | RoleBaseMessage04 => (* pyof/v0x04/controller2switch/common.py:354-378 *)
      Some (CGenericMessage, [("header", Some (new_Header04));
        ("role", Some (VUInt 4 (Some E_ControllerRole04) VNone));
        ("pad", Some (VPad 4));
        ("generation_id", Some (VUInt 8 None VNone));
        ("__init__", None)])
  | SwitchConfig04 => (* pyof/v0x04/controller2switch/common.py:381-402 *)
      Some (CGenericMessage, [("header", Some (new_Header04));
        ("flags", Some (VUInt 2 (Some E_ConfigFlag04) VNone));
        ("miss_send_len", Some (VUInt 2 None VNone));
        ("__init__", None)])
  | ExperimenterMultipartHeader04 => (* pyof/v0x04/controller2switch/common.py:407-426 *)
      Some (CGenericStruct, [("experimenter", Some (VUInt 4 None VNone));
        ("exp_type", Some (VUInt 4 None VNone));
        ("__init__", None)])
  | Property04 => (* pyof/v0x04/controller2switch/common.py:429-483 *)
      Some (CGenericStruct, [("property_type", Some (VUInt 2 (Some E_TableFeaturePropType04) VNone));
        ("length", Some (VUInt 2 None (VInt 4)));
        ("__init__", None);
        ("pack", None);
        ("unpack", None);
        ("update_length", None)])
  | InstructionsProperty04 => (* pyof/v0x04/controller2switch/common.py:486-509 *)
      Some (Property04, [("instruction_ids", Some (VList ListOfInstruction04 Instruction04 []));
        ("__init__", None)])
  | NextTablesProperty04 => (* pyof/v0x04/controller2switch/common.py:512-536 *)
      Some (Property04, [("next_table_ids", Some (VList ListOfInstruction04 Instruction04 []));
        ("__init__", None)])
  | ActionsProperty04 => (* pyof/v0x04/controller2switch/common.py:539-565 *)
      Some (Property04, [("action_ids", Some (VList ListOfActions04 ActionHeader04 []));
        ("__init__", None)])
  | OxmProperty04 => (* pyof/v0x04/controller2switch/common.py:568-595 *)
      Some (Property04, [("oxm_ids", Some (VList ListOfOxmHeader04 OxmTLV04 []));
        ("__init__", None)])
  | TableFeatures04 => (* pyof/v0x04/controller2switch/common.py:614-706 *)
      Some (CGenericStruct, [("length", Some (VUInt 2 None VNone));
        ("table_id", Some (VUInt 1 None VNone));
        ("pad", Some (VPad 5));
        ("name", Some (VChar 32 VNone));
        ("metadata_match", Some (VUInt 8 None VNone));
        ("metadata_write", Some (VUInt 8 None VNone));
        ("config", Some (VUInt 4 None VNone));
        ("max_entries", Some (VUInt 4 None VNone));
        ("properties", Some (VList ListOfProperty04 Property04 []));
        ("__init__", None);
        ("pack", None);
        ("update_length", None);
        ("unpack", None)])
  | SwitchFeatures04 => (* pyof/v0x04/controller2switch/features_reply.py:36-80 *)
      Some (CGenericMessage, [("header", Some (VObj Header04 [("version", VUInt 1 None (VInt 4)); ("message_type", VEnum E_Type04 6); ("length", VNone); ("xid", VNone)]));
        ("datapath_id", Some (VDPID VNone));
        ("n_buffers", Some (VUInt 4 None VNone));
        ("n_tables", Some (VUInt 1 None VNone));
        ("auxiliary_id", Some (VUInt 1 None VNone));
        ("pad", Some (VPad 2));
        ("capabilities", Some (VUInt 4 (Some E_Capabilities04) VNone));
        ("reserved", Some (VUInt 4 None VNone));
        ("__init__", None)])
  | FeaturesReply04 => (* pyof/v0x04/controller2switch/features_reply.py:83-84 *)
      Some (SwitchFeatures04, [])
  | FeaturesRequest04 => (* pyof/v0x04/controller2switch/features_request.py:11-18 *)
      Some (CGenericMessage, [("header", Some (VObj Header04 [("version", VUInt 1 None (VInt 4)); ("message_type", VEnum E_Type04 5); ("length", VNone); ("xid", VNone)]))])
  | FlowMod04 => (* pyof/v0x04/controller2switch/flow_mod.py:52-121 *)
      Some (CGenericMessage, [("header", Some (VObj Header04 [("version", VUInt 1 None (VInt 4)); ("message_type", VEnum E_Type04 14); ("length", VNone); ("xid", VNone)]));
        ("cookie", Some (VUInt 8 None VNone));
        ("cookie_mask", Some (VUInt 8 None VNone));
        ("table_id", Some (VUInt 1 None VNone));
        ("command", Some (VUInt 1 (Some E_FlowModCommand04) VNone));
        ("idle_timeout", Some (VUInt 2 None VNone));
        ("hard_timeout", Some (VUInt 2 None VNone));
        ("priority", Some (VUInt 2 None VNone));
        ("buffer_id", Some (VUInt 4 None VNone));
        ("out_port", Some (VUInt 4 None VNone));
        ("out_group", Some (VUInt 4 None VNone));
        ("flags", Some (VUInt 2 (Some E_FlowModFlags04) VNone));
        ("pad", Some (VPad 2));
        ("match", Some (new_Match04));
        ("instructions", Some (VList ListOfInstruction04 Instruction04 []));
        ("__init__", None)])
  | GetAsyncReply04 => (* pyof/v0x04/controller2switch/get_async_reply.py:17-46 *)
      Some (AsyncConfig04, [("__init__", None)])
  | GetAsyncRequest04 => (* pyof/v0x04/controller2switch/get_async_request.py:13-21 *)
      Some (CGenericMessage, [("header", Some (VObj Header04 [("version", VUInt 1 None (VInt 4)); ("message_type", VEnum E_Type04 26); ("length", VNone); ("xid", VNone)]))])
  | GetConfigReply04 => (* pyof/v0x04/controller2switch/get_config_reply.py:13-27 *)
      Some (SwitchConfig04, [("__init__", None)])
  | GetConfigRequest04 => (* pyof/v0x04/controller2switch/get_config_request.py:11-14 *)
      Some (CGenericMessage, [("header", Some (VObj Header04 [("version", VUInt 1 None (VInt 4)); ("message_type", VEnum E_Type04 7); ("length", VNone); ("xid", VNone)]))])
  | GroupMod04 => (* pyof/v0x04/controller2switch/group_mod.py:66-98 *)
      Some (CGenericMessage, [("header", Some (VObj Header04 [("version", VUInt 1 None (VInt 4)); ("message_type", VEnum E_Type04 15); ("length", VNone); ("xid", VNone)]));
        ("command", Some (VUInt 2 (Some E_GroupModCommand04) VNone));
        ("group_type", Some (VUInt 1 None VNone));
        ("pad", Some (VPad 1));
        ("group_id", Some (VUInt 4 None VNone));
        ("buckets", Some (VList ListOfBuckets04 Bucket04 []));
        ("__init__", None);
        ("__repr__", None)])
  | MeterBandHeader04 => (* pyof/v0x04/controller2switch/meter_mod.py:70-117 *)
      Some (CGenericStruct, [("band_type", Some (VUInt 2 (Some E_MeterBandType04) VNone));
        ("length", Some (VUInt 2 None VNone));
        ("rate", Some (VUInt 4 None VNone));
        ("burst_size", Some (VUInt 4 None VNone));
        ("__init__", None);
        ("update_length", None);
        ("unpack", None)])
  | MeterMod04 => (* pyof/v0x04/controller2switch/meter_mod.py:120-145 *)
      Some (CGenericMessage, [("header", Some (VObj Header04 [("version", VUInt 1 None (VInt 4)); ("message_type", VEnum E_Type04 29); ("length", VNone); ("xid", VNone)]));
        ("command", Some (VUInt 2 (Some E_MeterModCommand04) VNone));
        ("flags", Some (VUInt 2 (Some E_MeterFlags04) VNone));
        ("meter_id", Some (VUInt 4 None VNone));
        ("bands", Some (VList CFixedTypeList MeterBandHeader04 []));
        ("__init__", None)])
  | MeterBandDrop04 => (* pyof/v0x04/controller2switch/meter_mod.py:148-160 *)
      Some (MeterBandHeader04, [("pad", Some (VPad 4));
        ("__init__", None)])
  | MeterBandDscpRemark04 => (* pyof/v0x04/controller2switch/meter_mod.py:163-178 *)
      Some (MeterBandHeader04, [("prec_level", Some (VUInt 1 None VNone));
        ("pad", Some (VPad 3));
        ("__init__", None)])
  | MeterBandExperimenter04 => (* pyof/v0x04/controller2switch/meter_mod.py:181-196 *)
      Some (MeterBandHeader04, [("experimenter", Some (VUInt 4 None VNone));
        ("__init__", None)])
  | MultipartReply04 => (* pyof/v0x04/controller2switch/multipart_reply.py:55-173 *)
      Some (CGenericMessage, [("header", Some (VObj Header04 [("version", VUInt 1 None (VInt 4)); ("message_type", VEnum E_Type04 19); ("length", VNone); ("xid", VNone)]));
        ("multipart_type", Some (VUInt 2 (Some E_MultipartType04) VNone));
        ("flags", Some (VUInt 2 None VNone));
        ("pad", Some (VPad 4));
        ("body", Some (VBin VNone));
        ("__init__", None);
        ("pack", None);
        ("unpack", None);
        ("_unpack_body", None);
        ("_get_body_instance", None)])
  | AggregateStatsReply04 => (* pyof/v0x04/controller2switch/multipart_reply.py:178-202 *)
      Some (CGenericStruct, [("packet_count", Some (VUInt 8 None VNone));
        ("byte_count", Some (VUInt 8 None VNone));
        ("flow_count", Some (VUInt 4 None VNone));
        ("pad", Some (VPad 4));
        ("__init__", None)])
  | Desc04 => (* pyof/v0x04/controller2switch/multipart_reply.py:205-240 *)
      Some (CGenericStruct, [("mfr_desc", Some (VChar 256 VNone));
        ("hw_desc", Some (VChar 256 VNone));
        ("sw_desc", Some (VChar 256 VNone));
        ("serial_num", Some (VChar 32 VNone));
        ("dp_desc", Some (VChar 256 VNone));
        ("__init__", None)])
  | FlowStats04 => (* pyof/v0x04/controller2switch/multipart_reply.py:243-313 *)
      Some (CGenericStruct, [("length", Some (VUInt 2 None VNone));
        ("table_id", Some (VUInt 1 None VNone));
        ("pad", Some (VPad 1));
        ("duration_sec", Some (VUInt 4 None VNone));
        ("duration_nsec", Some (VUInt 4 None VNone));
        ("priority", Some (VUInt 2 None VNone));
        ("idle_timeout", Some (VUInt 2 None VNone));
        ("hard_timeout", Some (VUInt 2 None VNone));
        ("flags", Some (VUInt 2 None VNone));
        ("pad2", Some (VPad 4));
        ("cookie", Some (VUInt 8 None VNone));
        ("packet_count", Some (VUInt 8 None VNone));
        ("byte_count", Some (VUInt 8 None VNone));
        ("match", Some (new_Match04));
        ("instructions", Some (VList ListOfInstruction04 Instruction04 []));
        ("__init__", None);
        ("unpack", None)])
  | PortStats04 => (* pyof/v0x04/controller2switch/multipart_reply.py:316-388 *)
      Some (CGenericStruct, [("port_no", Some (VUInt 4 None VNone));
        ("pad", Some (VPad 4));
        ("rx_packets", Some (VUInt 8 None VNone));
        ("tx_packets", Some (VUInt 8 None VNone));
        ("rx_bytes", Some (VUInt 8 None VNone));
        ("tx_bytes", Some (VUInt 8 None VNone));
        ("rx_dropped", Some (VUInt 8 None VNone));
        ("tx_dropped", Some (VUInt 8 None VNone));
        ("rx_errors", Some (VUInt 8 None VNone));
        ("tx_errors", Some (VUInt 8 None VNone));
        ("rx_frame_err", Some (VUInt 8 None VNone));
        ("rx_over_err", Some (VUInt 8 None VNone));
        ("rx_crc_err", Some (VUInt 8 None VNone));
        ("collisions", Some (VUInt 8 None VNone));
        ("duration_sec", Some (VUInt 4 None VNone));
        ("duration_nsec", Some (VUInt 4 None VNone));
        ("__init__", None)])
  | QueueStats04 => (* pyof/v0x04/controller2switch/multipart_reply.py:391-426 *)
      Some (CGenericStruct, [("port_no", Some (VUInt 4 None VNone));
        ("queue_id", Some (VUInt 4 None VNone));
        ("tx_bytes", Some (VUInt 8 None VNone));
        ("tx_packets", Some (VUInt 8 None VNone));
        ("tx_errors", Some (VUInt 8 None VNone));
        ("duration_sec", Some (VUInt 4 None VNone));
        ("duration_nsec", Some (VUInt 4 None VNone));
        ("__init__", None)])
  | GroupDescStats04 => (* pyof/v0x04/controller2switch/multipart_reply.py:429-454 *)
      Some (CGenericStruct, [("length", Some (VUInt 2 None VNone));
        ("group_type", Some (VUInt 1 None VNone));
        ("pad", Some (VPad 1));
        ("group_id", Some (VUInt 4 None VNone));
        ("buckets", Some (VList CFixedTypeList Bucket04 []));
        ("__init__", None)])
  | GroupFeatures04 => (* pyof/v0x04/controller2switch/multipart_reply.py:457-494 *)
      Some (CGenericStruct, [("types", Some (VUInt 4 None VNone));
        ("capabilities", Some (VUInt 4 (Some E_GroupCapabilities04) VNone));
        ("max_groups1", Some (VUInt 4 None VNone));
        ("max_groups2", Some (VUInt 4 None VNone));
        ("max_groups3", Some (VUInt 4 None VNone));
        ("max_groups4", Some (VUInt 4 None VNone));
        ("actions1", Some (VUInt 4 None VNone));
        ("actions2", Some (VUInt 4 None VNone));
        ("actions3", Some (VUInt 4 None VNone));
        ("actions4", Some (VUInt 4 None VNone));
        ("__init__", None)])
  | GroupStats04 => (* pyof/v0x04/controller2switch/multipart_reply.py:497-538 *)
      Some (CGenericStruct, [("length", Some (VUInt 2 None VNone));
        ("pad", Some (VPad 2));
        ("group_id", Some (VUInt 4 None VNone));
        ("ref_count", Some (VUInt 4 None VNone));
        ("pad2", Some (VPad 4));
        ("packet_count", Some (VUInt 8 None VNone));
        ("byte_count", Some (VUInt 8 None VNone));
        ("duration_sec", Some (VUInt 4 None VNone));
        ("duration_nsec", Some (VUInt 4 None VNone));
        ("bucket_stats", Some (VList ListOfBucketCounter04 BucketCounter04 []));
        ("__init__", None)])
  | MeterConfig04 => (* pyof/v0x04/controller2switch/multipart_reply.py:541-573 *)
      Some (CGenericStruct, [("length", Some (VUInt 2 None VNone));
        ("flags", Some (VUInt 2 (Some E_MeterFlags04) VNone));
        ("meter_id", Some (VUInt 4 None VNone));
        ("bands", Some (VList ListOfMeterBandHeader04 MeterBandHeader04 []));
        ("__init__", None)])
  | MeterFeatures04 => (* pyof/v0x04/controller2switch/multipart_reply.py:576-604 *)
      Some (CGenericStruct, [("max_meter", Some (VUInt 4 None VNone));
        ("band_types", Some (VUInt 4 (Some E_MeterBandType04) VNone));
        ("capabilities", Some (VUInt 4 (Some E_MeterFlags04) VNone));
        ("max_bands", Some (VUInt 1 None VNone));
        ("max_color", Some (VUInt 1 None VNone));
        ("pad", Some (VPad 2));
        ("__init__", None)])
  | BandStats04 => (* pyof/v0x04/controller2switch/multipart_reply.py:607-626 *)
      Some (CGenericStruct, [("packet_band_count", Some (VUInt 8 None VNone));
        ("byte_band_count", Some (VUInt 8 None VNone));
        ("__init__", None)])
  | MeterStats04 => (* pyof/v0x04/controller2switch/multipart_reply.py:645-719 *)
      Some (CGenericStruct, [("meter_id", Some (VUInt 4 None VNone));
        ("length", Some (VUInt 2 None VNone));
        ("pad", Some (VPad 6));
        ("flow_count", Some (VUInt 4 None VNone));
        ("packet_in_count", Some (VUInt 8 None VNone));
        ("byte_in_count", Some (VUInt 8 None VNone));
        ("duration_sec", Some (VUInt 4 None VNone));
        ("duration_nsec", Some (VUInt 4 None VNone));
        ("band_stats", Some (VList ListOfBandStats04 BandStats04 []));
        ("__init__", None);
        ("update_length", None);
        ("pack", None);
        ("unpack", None)])
  | TableStats04 => (* pyof/v0x04/controller2switch/multipart_reply.py:722-748 *)
      Some (CGenericStruct, [("table_id", Some (VUInt 1 None VNone));
        ("pad", Some (VPad 3));
        ("active_count", Some (VUInt 4 None VNone));
        ("lookup_count", Some (VUInt 8 None VNone));
        ("matched_count", Some (VUInt 8 None VNone));
        ("__init__", None)])
  | MultipartRequest04 => (* pyof/v0x04/controller2switch/multipart_request.py:42-156 *)
      Some (CGenericMessage, [("header", Some (VObj Header04 [("version", VUInt 1 None (VInt 4)); ("message_type", VEnum E_Type04 18); ("length", VNone); ("xid", VNone)]));
        ("multipart_type", Some (VUInt 2 (Some E_MultipartType04) VNone));
        ("flags", Some (VUInt 2 (Some E_MultipartRequestFlags04) VNone));
        ("pad", Some (VPad 4));
        ("body", Some (VBin VNone));
        ("__init__", None);
        ("pack", None);
        ("unpack", None);
        ("_unpack_body", None);
        ("_get_body_instance", None)])
  | AggregateStatsRequest04 => (* pyof/v0x04/controller2switch/multipart_request.py:159-206 *)
      Some (CGenericStruct, [("table_id", Some (VUInt 1 None VNone));
        ("pad", Some (VPad 3));
        ("out_port", Some (VUInt 4 None VNone));
        ("out_group", Some (VUInt 4 None VNone));
        ("pad2", Some (VPad 4));
        ("cookie", Some (VUInt 8 None VNone));
        ("cookie_mask", Some (VUInt 8 None VNone));
        ("match", Some (new_Match04));
        ("__init__", None)])
  | FlowStatsRequest04 => (* pyof/v0x04/controller2switch/multipart_request.py:209-247 *)
      Some (CGenericStruct, [("table_id", Some (VUInt 1 None VNone));
        ("pad", Some (VPad 3));
        ("out_port", Some (VUInt 4 None VNone));
        ("out_group", Some (VUInt 4 None VNone));
        ("pad2", Some (VPad 4));
        ("cookie", Some (VUInt 8 None VNone));
        ("cookie_mask", Some (VUInt 8 None VNone));
        ("match", Some (new_Match04));
        ("__init__", None)])
  | PortStatsRequest04 => (* pyof/v0x04/controller2switch/multipart_request.py:250-267 *)
      Some (CGenericStruct, [("port_no", Some (VUInt 4 None VNone));
        ("pad", Some (VPad 4));
        ("__init__", None)])
  | QueueStatsRequest04 => (* pyof/v0x04/controller2switch/multipart_request.py:270-286 *)
      Some (CGenericStruct, [("port_no", Some (VUInt 4 None VNone));
        ("queue_id", Some (VUInt 4 None VNone));
        ("__init__", None)])
  | GroupStatsRequest04 => (* pyof/v0x04/controller2switch/multipart_request.py:289-305 *)
      Some (CGenericStruct, [("group_id", Some (VUInt 4 None VNone));
        ("pad", Some (VPad 4));
        ("__init__", None)])
  | MeterMultipartRequest04 => (* pyof/v0x04/controller2switch/multipart_request.py:308-329 *)
      Some (CGenericStruct, [("meter_id", Some (VUInt 4 None VNone));
        ("pad", Some (VPad 4));
        ("__init__", None)])
  | PacketOut04 => (* pyof/v0x04/controller2switch/packet_out.py:20-127 *)
      Some (CGenericMessage, [("header", Some (VObj Header04 [("version", VUInt 1 None (VInt 4)); ("message_type", VEnum E_Type04 13); ("length", VNone); ("xid", VNone)]));
        ("buffer_id", Some (VUInt 4 None VNone));
        ("in_port", Some (VUInt 4 None VNone));
        ("actions_len", Some (VUInt 2 None VNone));
        ("pad", Some (VPad 6));
        ("actions", Some (VList ListOfActions04 ActionHeader04 []));
        ("data", Some (VBin VNone));
        ("__init__", None);
        ("validate", None);
        ("is_valid", None);
        ("pack", None);
        ("unpack", None);
        ("_update_actions_len", None);
        ("_validate_in_port", None)])
  | PortMod04 => (* pyof/v0x04/controller2switch/port_mod.py:18-55 *)
      Some (CGenericMessage, [("header", Some (VObj Header04 [("version", VUInt 1 None (VInt 4)); ("message_type", VEnum E_Type04 16); ("length", VNone); ("xid", VNone)]));
        ("port_no", Some (VUInt 4 None VNone));
        ("pad", Some (VPad 4));
        ("hw_addr", Some (VHW (VStr (txt "00:00:00:00:00:00"))));
        ("pad2", Some (VPad 2));
        ("config", Some (VUInt 4 (Some E_PortConfig04) VNone));
        ("mask", Some (VUInt 4 (Some E_PortConfig04) VNone));
        ("advertise", Some (VUInt 4 (Some E_PortFeatures04) VNone));
        ("pad3", Some (VPad 4));
        ("__init__", None)])
  | QueueGetConfigReply04 => (* pyof/v0x04/controller2switch/queue_get_config_reply.py:17-42 *)
      Some (CGenericMessage, [("header", Some (VObj Header04 [("version", VUInt 1 None (VInt 4)); ("message_type", VEnum E_Type04 8); ("length", VNone); ("xid", VNone)]));
        ("port", Some (VUInt 4 (Some E_PortNo04) VNone));
        ("pad", Some (VPad 4));
        ("queues", Some (VList ListOfQueues04 PacketQueue04 []));
        ("__init__", None)])
  | QueueGetConfigRequest04 => (* pyof/v0x04/controller2switch/queue_get_config_request.py:16-34 *)
      Some (CGenericMessage, [("header", Some (VObj Header04 [("version", VUInt 1 None (VInt 4)); ("message_type", VEnum E_Type04 7); ("length", VNone); ("xid", VNone)]));
        ("port", Some (VUInt 4 (Some E_PortNo04) VNone));
        ("pad", Some (VPad 4));
        ("__init__", None)])
  | RoleReply04 => (* pyof/v0x04/controller2switch/role_reply.py:17-32 *)
      Some (RoleBaseMessage04, [("__init__", None)])
  | RoleRequest04 => (* pyof/v0x04/controller2switch/role_request.py:16-33 *)
      Some (RoleBaseMessage04, [("__init__", None)])
  | SetAsync04 => (* pyof/v0x04/controller2switch/set_async.py:18-48 *)
      Some (AsyncConfig04, [("__init__", None)])
  | SetConfig04 => (* pyof/v0x04/controller2switch/set_config.py:15-30 *)
      Some (SwitchConfig04, [("__init__", None)])
  | TableMod04 => (* pyof/v0x04/controller2switch/table_mod.py:21-43 *)
      Some (CGenericMessage, [("header", Some (VObj Header04 [("version", VUInt 1 None (VInt 4)); ("message_type", VEnum E_Type04 17); ("length", VNone); ("xid", VNone)]));
        ("table_id", Some (VUInt 1 None VNone));
        ("pad", Some (VPad 3));
        ("config", Some (VUInt 4 None VNone));
        ("__init__", None)])
  | EchoReply04 => (* pyof/v0x04/symmetric/echo_reply.py:16-33 *)
      Some (CGenericMessage, [("header", Some (VObj Header04 [("version", VUInt 1 None (VInt 4)); ("message_type", VEnum E_Type04 3); ("length", VInt 8); ("xid", VNone)]));
        ("data", Some (VBin VNone));
        ("__init__", None)])
  | EchoRequest04 => (* pyof/v0x04/symmetric/echo_request.py:16-33 *)
      Some (CGenericMessage, [("header", Some (VObj Header04 [("version", VUInt 1 None (VInt 4)); ("message_type", VEnum E_Type04 2); ("length", VInt 8); ("xid", VNone)]));
        ("data", Some (VBin VNone));
        ("__init__", None)])
  | ExperimenterHeader04 => (* pyof/v0x04/symmetric/experimenter.py:16-52 *)
      Some (CGenericMessage, [("header", Some (VObj Header04 [("version", VUInt 1 None (VInt 4)); ("message_type", VEnum E_Type04 4); ("length", VNone); ("xid", VNone)]));
        ("experimenter", Some (VUInt 4 None VNone));
        ("exp_type", Some (VUInt 4 None VNone));
        ("data", Some (VBin VNone));
        ("__init__", None)])
  | HelloElemHeader04 => (* pyof/v0x04/symmetric/hello.py:29-88 *)
      Some (CGenericStruct, [("element_type", Some (VUInt 2 None VNone));
        ("length", Some (VUInt 2 None VNone));
        ("content", Some (VBin VNone));
        ("__init__", None);
        ("pack", None);
        ("update_length", None);
        ("unpack", None)])
  | Hello04 => (* pyof/v0x04/symmetric/hello.py:107-127 *)
      Some (CGenericMessage, [("header", Some (VObj Header04 [("version", VUInt 1 None (VInt 4)); ("message_type", VEnum E_Type04 0); ("length", VNone); ("xid", VNone)]));
        ("elements", Some (VList ListOfHelloElements04 HelloElemHeader04 []));
        ("__init__", None)])
  | _ => None
  end.
