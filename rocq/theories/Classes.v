(** Class tables of /repo/pyof/v0x01 and /repo/pyof/v0x04.
    Generated by tools/gen_tables.py from the source text (parsed, not run).

    For each enumeration: its kind and members.  For each struct class: the
    class attributes in order ([MetaStruct], base.py:272-353, puts inherited
    attributes first) and the object that the constructor called without
    arguments builds.  Simplification: GenericMessage.__init__
    (base.py:764-767) draws a random xid; the default instances hold 0. *)
From Coq Require Import ZArith List String.
From Verif Require Import Base PyText Ids PyVal.
Import ListNotations.
Open Scope string_scope.
Open Scope nat_scope.
Open Scope Z_scope.
Local Arguments VUInt w%nat er v.
Local Arguments VPad n%nat.
Local Arguments VChar len%nat v.

Definition enum_def (e : eid) : enum_kind :=
  match e with
  | E_ErrorType01 => (* pyof/v0x01/asynchronous/error_msg.py:19-52 *)
      EInt [("OFPET_HELLO_FAILED", 0); ("OFPET_BAD_REQUEST", 1); ("OFPET_BAD_ACTION", 2); ("OFPET_FLOW_MOD_FAILED", 3); ("OFPET_PORT_MOD_FAILED", 4); ("OFPET_QUEUE_OP_FAILED", 5)]
  | E_GenericFailedCode01 => (* pyof/v0x01/asynchronous/error_msg.py:55-62 *)
      EInt [("GENERIC_ERROR", 0)]
  | E_HelloFailedCode01 => (* pyof/v0x01/asynchronous/error_msg.py:65-74 *)
      EInt [("OFPHFC_INCOMPATIBLE", 0); ("OFPHFC_EPERM", 1)]
  | E_BadRequestCode01 => (* pyof/v0x01/asynchronous/error_msg.py:77-101 *)
      EInt [("OFPBRC_BAD_VERSION", 0); ("OFPBRC_BAD_TYPE", 1); ("OFPBRC_BAD_STAT", 2); ("OFPBRC_BAD_VENDOR", 3); ("OFPBRC_BAD_SUBTYPE", 4); ("OFPBRC_EPERM", 5); ("OFPBRC_BAD_LEN", 6); ("OFPBRC_BUFFER_EMPTY", 7); ("OFPBRC_BUFFER_UNKNOWN", 8)]
  | E_BadActionCode01 => (* pyof/v0x01/asynchronous/error_msg.py:104-127 *)
      EInt [("OFPBAC_BAD_TYPE", 0); ("OFPBAC_BAD_LEN", 1); ("OFPBAC_BAD_VENDOR", 2); ("OFPBAC_BAD_VENDOR_TYPE", 3); ("OFPBAC_BAD_OUT_PORT", 4); ("OFPBAC_BAD_ARGUMENT", 5); ("OFPBAC_EPERM", 6); ("OFPBAC_TOO_MANY", 7); ("OFPBAC_BAD_QUEUE", 8)]
  | E_FlowModFailedCode01 => (* pyof/v0x01/asynchronous/error_msg.py:130-147 *)
      EInt [("OFPFMFC_ALL_TABLES_FULL", 0); ("OFPFMFC_OVERLAP", 1); ("OFPFMFC_EPERM", 2); ("OFPFMFC_BAD_EMERG_TIMEOUT", 3); ("OFPFMFC_BAD_COMMAND", 4); ("OFPFMFC_UNSUPPORTED", 5)]
  | E_PortModFailedCode01 => (* pyof/v0x01/asynchronous/error_msg.py:150-159 *)
      EInt [("OFPPMFC_BAD_PORT", 0); ("OFPPMFC_BAD_HW_ADDR", 1)]
  | E_QueueOpFailedCode01 => (* pyof/v0x01/asynchronous/error_msg.py:162-173 *)
      EInt [("OFPQOFC_BAD_PORT", 0); ("OFPQOFC_BAD_QUEUE", 1); ("OFPQOFC_EPERM", 2)]
  | E_FlowRemovedReason01 => (* pyof/v0x01/asynchronous/flow_removed.py:17-25 *)
      EInt [("OFPRR_IDLE_TIMEOUT", 0); ("OFPRR_HARD_TIMEOUT", 1); ("OFPRR_DELETE", 2)]
  | E_PacketInReason01 => (* pyof/v0x01/asynchronous/packet_in.py:20-26 *)
      EInt [("OFPR_NO_MATCH", 0); ("OFPR_ACTION", 1)]
  | E_PortReason01 => (* pyof/v0x01/asynchronous/port_status.py:19-27 *)
      EInt [("OFPPR_ADD", 0); ("OFPPR_DELETE", 1); ("OFPPR_MODIFY", 2)]
  | E_ActionType01 => (* pyof/v0x01/common/action.py:21-49 *)
      EMask [("OFPAT_OUTPUT", 0); ("OFPAT_SET_VLAN_VID", 1); ("OFPAT_SET_VLAN_PCP", 2); ("OFPAT_STRIP_VLAN", 3); ("OFPAT_SET_DL_SRC", 4); ("OFPAT_SET_DL_DST", 5); ("OFPAT_SET_NW_SRC", 6); ("OFPAT_SET_NW_DST", 7); ("OFPAT_SET_NW_TOS", 8); ("OFPAT_SET_TP_SRC", 9); ("OFPAT_SET_TP_DST", 10); ("OFPAT_ENQUEUE", 11); ("OFPAT_VENDOR", 65535)]
  | E_FlowWildCards01 => (* pyof/v0x01/common/flow_match.py:15-60 *)
      EMask [("OFPFW_IN_PORT", 1); ("OFPFW_DL_VLAN", 2); ("OFPFW_DL_SRC", 4); ("OFPFW_DL_DST", 8); ("OFPFW_DL_TYPE", 16); ("OFPFW_NW_PROTO", 32); ("OFPFW_TP_SRC", 64); ("OFPFW_TP_DST", 128); ("OFPFW_NW_SRC_SHIFT", 8); ("OFPFW_NW_SRC_BITS", 6); ("OFPFW_NW_SRC_MASK", 16128); ("OFPFW_NW_SRC_ALL", 8192); ("OFPFW_NW_DST_SHIFT", 14); ("OFPFW_NW_DST_BITS", 6); ("OFPFW_NW_DST_MASK", 1032192); ("OFPFW_NW_DST_ALL", 524288); ("OFPFW_DL_VLAN_PCP", 1048576); ("OFPFW_NW_TOS", 2097152); ("OFPFW_ALL", 4194303)]
  | E_Type01 => (* pyof/v0x01/common/header.py:18-60 *)
      EInt [("OFPT_HELLO", 0); ("OFPT_ERROR", 1); ("OFPT_ECHO_REQUEST", 2); ("OFPT_ECHO_REPLY", 3); ("OFPT_VENDOR", 4); ("OFPT_FEATURES_REQUEST", 5); ("OFPT_FEATURES_REPLY", 6); ("OFPT_GET_CONFIG_REQUEST", 7); ("OFPT_GET_CONFIG_REPLY", 8); ("OFPT_SET_CONFIG", 9); ("OFPT_PACKET_IN", 10); ("OFPT_FLOW_REMOVED", 11); ("OFPT_PORT_STATUS", 12); ("OFPT_PACKET_OUT", 13); ("OFPT_FLOW_MOD", 14); ("OFPT_PORT_MOD", 15); ("OFPT_STATS_REQUEST", 16); ("OFPT_STATS_REPLY", 17); ("OFPT_BARRIER_REQUEST", 18); ("OFPT_BARRIER_REPLY", 19); ("OFPT_QUEUE_GET_CONFIG_REQUEST", 20); ("OFPT_QUEUE_GET_CONFIG_REPLY", 21)]
  | E_Port01 => (* pyof/v0x01/common/phy_port.py:18-44 *)
      EInt [("OFPP_MAX", 65280); ("OFPP_IN_PORT", 65528); ("OFPP_TABLE", 65529); ("OFPP_NORMAL", 65530); ("OFPP_FLOOD", 65531); ("OFPP_ALL", 65532); ("OFPP_CONTROLLER", 65533); ("OFPP_LOCAL", 65534); ("OFPP_NONE", 65535)]
  | E_PortConfig01 => (* pyof/v0x01/common/phy_port.py:47-67 *)
      EMask [("OFPPC_PORT_DOWN", 1); ("OFPPC_NO_STP", 2); ("OFPPC_NO_RECV", 4); ("OFPPC_NO_RECV_STP", 8); ("OFPPC_FLOOD", 16); ("OFPPC_NO_FWD", 32); ("OFPPC_NO_PACKET_IN", 64)]
  | E_PortFeatures01 => (* pyof/v0x01/common/phy_port.py:70-101 *)
      EMask [("OFPPF_10MB_HD", 1); ("OFPPF_10MB_FD", 2); ("OFPPF_100MB_HD", 4); ("OFPPF_100MB_FD", 8); ("OFPPF_1GB_HD", 16); ("OFPPF_1GB_FD", 32); ("OFPPF_10GB_FD", 64); ("OFPPF_COPPER", 128); ("OFPPF_FIBER", 256); ("OFPPF_AUTONEG", 512); ("OFPPF_PAUSE", 1024); ("OFPPF_PAUSE_ASYM", 2048)]
  | E_PortState01 => (* pyof/v0x01/common/phy_port.py:104-125 *)
      EMask [("OFPPS_LINK_DOWN", 1); ("OFPPS_STP_LISTEN", 0); ("OFPPS_STP_LEARN", 256); ("OFPPS_STP_FORWARD", 512); ("OFPPS_STP_BLOCK", 768)]
  | E_QueueProperties01 => (* pyof/v0x01/common/queue.py:19-25 *)
      EInt [("OFPQT_NONE", 0); ("OFPQT_MIN_RATE", 1)]
  | E_ConfigFlag01 => (* pyof/v0x01/controller2switch/common.py:28-37 *)
      EInt [("OFPC_FRAG_NORMAL", 0); ("OFPC_FRAG_DROP", 1); ("OFPC_FRAG_REASM", 2); ("OFPC_FRAG_MASK", 3)]
  | E_StatsType01 => (* pyof/v0x01/controller2switch/common.py:40-63 *)
      EInt [("OFPST_DESC", 0); ("OFPST_FLOW", 1); ("OFPST_AGGREGATE", 2); ("OFPST_TABLE", 3); ("OFPST_PORT", 4); ("OFPST_QUEUE", 5); ("OFPST_VENDOR", 65535)]
  | E_Capabilities01 => (* pyof/v0x01/controller2switch/features_reply.py:13-31 *)
      EMask [("OFPC_FLOW_STATS", 1); ("OFPC_TABLE_STATS", 2); ("OFPC_PORT_STATS", 4); ("OFPC_STP", 8); ("OFPC_RESERVED", 16); ("OFPC_IP_REASM", 32); ("OFPC_QUEUE_STATS", 64); ("OFPC_ARP_MATCH_IP", 128)]
  | E_FlowModCommand01 => (* pyof/v0x01/controller2switch/flow_mod.py:22-34 *)
      EInt [("OFPFC_ADD", 0); ("OFPFC_MODIFY", 1); ("OFPFC_MODIFY_STRICT", 2); ("OFPFC_DELETE", 3); ("OFPFC_DELETE_STRICT", 4)]
  | E_FlowModFlags01 => (* pyof/v0x01/controller2switch/flow_mod.py:37-45 *)
      EMask [("OFPFF_SEND_FLOW_REM", 1); ("OFPFF_CHECK_OVERLAP", 2); ("OFPFF_EMERG", 4)]
  | E_GenericFailedCode04 => (* pyof/v0x04/asynchronous/error_msg.py:24-31 *)
      EInt [("GENERIC_ERROR", 0)]
  | E_BadActionCode04 => (* pyof/v0x04/asynchronous/error_msg.py:34-72 *)
      EInt [("OFPBAC_BAD_TYPE", 0); ("OFPBAC_BAD_LEN", 1); ("OFPBAC_BAD_EXPERIMENTER", 2); ("OFPBAC_BAD_EXP_TYPE", 3); ("OFPBAC_BAD_OUT_PORT", 4); ("OFPBAC_BAD_ARGUMENT", 5); ("OFPBAC_EPERM", 6); ("OFPBAC_TOO_MANY", 7); ("OFPBAC_BAD_QUEUE", 8); ("OFPBAC_BAD_OUT_GROUP", 9); ("OFPBAC_MATCH_INCONSISTENT", 10); ("OFPBAC_UNSUPPORTED_ORDER", 11); ("OFPBAC_BAD_TAG", 12); ("OFPBAC_BAD_SET_TYPE", 13); ("OFPBAC_BAD_SET_LEN", 14); ("OFPBAC_BAD_SET_ARGUMENT", 15)]
  | E_BadInstructionCode04 => (* pyof/v0x04/asynchronous/error_msg.py:75-98 *)
      EInt [("OFPBIC_UNKNOWN_INST", 0); ("OFPBIC_UNSUP_INST", 1); ("OFPBIC_BAD_TABLE_ID", 2); ("OFPBIC_UNSUP_METADATA", 3); ("OFPBIC_UNSUP_METADATA_MASK", 4); ("OFPBIC_BAD_EXPERIMENTER", 5); ("OFPBIC_BAD_EXP_TYPE", 6); ("OFPBIC_BAD_LEN", 7); ("OFPBIC_EPERM", 8)]
  | E_BadMatchCode04 => (* pyof/v0x04/asynchronous/error_msg.py:101-133 *)
      EInt [("OFPBMC_BAD_TYPE", 0); ("OFPBMC_BAD_LEN", 1); ("OFPBMC_BAD_TAG", 2); ("OFPBMC_BAD_DL_ADDR_MASK", 3); ("OFPBMC_BAD_NW_ADDR_MASK", 4); ("OFPBMC_BAD_WILDCARDS", 5); ("OFPBMC_BAD_FIELD", 6); ("OFPBMC_BAD_VALUE", 7); ("OFPBMC_BAD_MASK", 8); ("OFPBMC_BAD_PREREQ", 9); ("OFPBMC_DUP_FIELD", 10); ("OFPBMC_EPERM", 11)]
  | E_BadRequestCode04 => (* pyof/v0x04/asynchronous/error_msg.py:136-170 *)
      EInt [("OFPBRC_BAD_VERSION", 0); ("OFPBRC_BAD_TYPE", 1); ("OFPBRC_BAD_MULTIPART", 2); ("OFPBRC_BAD_EXPERIMENTER", 3); ("OFPBRC_BAD_EXP_TYPE", 4); ("OFPBRC_EPERM", 5); ("OFPBRC_BAD_LEN", 6); ("OFPBRC_BUFFER_EMPTY", 7); ("OFPBRC_BUFFER_UNKNOWN", 8); ("OFPBRC_BAD_TABLE_ID", 9); ("OFPBRC_IS_SLAVE", 10); ("OFPBRC_BAD_PORT", 11); ("OFPBRC_BAD_PACKET", 12); ("OFPBRC_MULTIPART_BUFFER_OVERFLOW", 13)]
  | E_ErrorType04 => (* pyof/v0x04/asynchronous/error_msg.py:173-232 *)
      EInt [("OFPET_HELLO_FAILED", 0); ("OFPET_BAD_REQUEST", 1); ("OFPET_BAD_ACTION", 2); ("OFPET_BAD_INSTRUCTION", 3); ("OFPET_BAD_MATCH", 4); ("OFPET_FLOW_MOD_FAILED", 5); ("OFPET_GROUP_MOD_FAILED", 6); ("OFPET_PORT_MOD_FAILED", 7); ("OFPET_TABLE_MOD_FAILED", 8); ("OFPET_QUEUE_OP_FAILED", 9); ("OFPET_SWITCH_CONFIG_FAILED", 10); ("OFPET_ROLE_REQUEST_FAILED", 11); ("OFPET_METER_MOD_FAILED", 12); ("OFPET_TABLE_FEATURES_FAILED", 13); ("OFPET_EXPERIMENTER", 65535)]
  | E_FlowModFailedCode04 => (* pyof/v0x04/asynchronous/error_msg.py:235-256 *)
      EInt [("OFPFMFC_UNKNOWN", 0); ("OFPFMFC_TABLE_FULL", 1); ("OFPFMFC_BAD_TABLE_ID", 2); ("OFPFMFC_OVERLAP", 3); ("OFPFMFC_EPERM", 4); ("OFPFMFC_BAD_TIMEOUT", 5); ("OFPFMFC_BAD_COMMAND", 6); ("OFPFMFC_BAD_FLAGS", 7)]
  | E_GroupModFailedCode04 => (* pyof/v0x04/asynchronous/error_msg.py:259-296 *)
      EInt [("FPGMFC_GROUP_EXISTS", 0); ("OFPGMFC_INVALID_GROUP", 1); ("OFPGMFC_WEIGHT_UNSUPPORTED", 2); ("OFPGMFC_OUT_OF_GROUPS", 3); ("OFPGMFC_OUT_OF_BUCKETS", 4); ("OFPGMFC_CHAINING_UNSUPPORTED", 5); ("OFPGMFC_WATCH_UNSUPPORTED", 6); ("OFPGMFC_LOOP", 7); ("OFPGMFC_UNKNOWN_GROUP", 8); ("OFPGMFC_CHAINED_GROUP", 9); ("OFPGMFC_BAD_TYPE", 10); ("OFPGMFC_BAD_COMMAND", 11); ("OFPGMFC_BAD_BUCKET", 12); ("OFPGMFC_BAD_WATCH", 13); ("OFPGMFC_EPERM", 14)]
  | E_HelloFailedCode04 => (* pyof/v0x04/asynchronous/error_msg.py:299-308 *)
      EInt [("OFPHFC_INCOMPATIBLE", 0); ("OFPHFC_EPERM", 1)]
  | E_MeterModFailedCode04 => (* pyof/v0x04/asynchronous/error_msg.py:311-342 *)
      EInt [("OFPMMFC_UNKNOWN", 0); ("OFPMMFC_METER_EXISTS", 1); ("OFPMMFC_INVALID_METER", 2); ("OFPMMFC_UNKNOWN_METER", 3); ("OFPMMFC_BAD_COMMAND", 4); ("OFPMMFC_BAD_FLAGS", 5); ("OFPMMFC_BAD_RATE", 6); ("OFPMMFC_BAD_BURST", 7); ("OFPMMFC_BAD_BAND", 8); ("OFPMMFC_BAD_BAND_VALUE", 9); ("OFPMMFC_OUT_OF_METERS", 10); ("OFPMMFC_OUT_OF_BANDS", 11)]
  | E_PortModFailedCode04 => (* pyof/v0x04/asynchronous/error_msg.py:345-360 *)
      EInt [("OFPPMFC_BAD_PORT", 0); ("OFPPMFC_BAD_HW_ADDR", 1); ("OFPPMFC_BAD_CONFIG", 2); ("OFPPMFC_BAD_ADVERTISE", 3); ("OFPPMFC_EPERM", 4)]
  | E_QueueOpFailedCode04 => (* pyof/v0x04/asynchronous/error_msg.py:363-374 *)
      EInt [("OFPQOFC_BAD_PORT", 0); ("OFPQOFC_BAD_QUEUE", 1); ("OFPQOFC_EPERM", 2)]
  | E_RoleRequestFailedCode04 => (* pyof/v0x04/asynchronous/error_msg.py:377-388 *)
      EInt [("OFPRRFC_STALE", 0); ("OFPRRFC_UNSUP", 1); ("OFPRRFC_BAD_ROLE", 2)]
  | E_SwitchConfigFailedCode04 => (* pyof/v0x04/asynchronous/error_msg.py:391-402 *)
      EInt [("OFPSCFC_BAD_FLAGS", 0); ("OFPSCFC_BAD_LEN", 1); ("OFPQCFC_EPERM", 2)]
  | E_TableFeaturesFailedCode04 => (* pyof/v0x04/asynchronous/error_msg.py:405-422 *)
      EInt [("OFPTFFC_BAD_TABLE", 0); ("OFPTFFC_BAD_METADATA", 1); ("OFPTFFC_BAD_TYPE", 2); ("OFPTFFC_BAD_LEN", 3); ("OFPTFFC_BAD_ARGUMENT", 4); ("OFPTFFC_EPERM", 5)]
  | E_TableModFailedCode04 => (* pyof/v0x04/asynchronous/error_msg.py:425-436 *)
      EInt [("OFPTMFC_BAD_TABLE", 0); ("OFPTMFC_BAD_CONFIG", 1); ("OFPTMFC_EPERM", 2)]
  | E_FlowRemovedReason04 => (* pyof/v0x04/asynchronous/flow_removed.py:16-26 *)
      EInt [("OFPRR_IDLE_TIMEOUT", 0); ("OFPRR_HARD_TIMEOUT", 1); ("OFPRR_DELETE", 2); ("OFPRR_GROUP_DELETE", 3)]
  | E_PacketInReason04 => (* pyof/v0x04/asynchronous/packet_in.py:20-28 *)
      EInt [("OFPR_NO_MATCH", 0); ("OFPR_ACTION", 1); ("OFPR_INVALID_TTL", 2)]
  | E_PortReason04 => (* pyof/v0x04/asynchronous/port_status.py:18-26 *)
      EInt [("OFPPR_ADD", 0); ("OFPPR_DELETE", 1); ("OFPPR_MODIFY", 2)]
  | E_ActionType04 => (* pyof/v0x04/common/action.py:24-60 *)
      EInt [("OFPAT_OUTPUT", 0); ("OFPAT_COPY_TTL_OUT", 11); ("OFPAT_COPY_TTL_IN", 12); ("OFPAT_SET_MPLS_TTL", 15); ("OFPAT_DEC_MPLS_TTL", 16); ("OFPAT_PUSH_VLAN", 17); ("OFPAT_POP_VLAN", 18); ("OFPAT_PUSH_MPLS", 19); ("OFPAT_POP_MPLS", 20); ("OFPAT_SET_QUEUE", 21); ("OFPAT_GROUP", 22); ("OFPAT_SET_NW_TTL", 23); ("OFPAT_DEC_NW_TTL", 24); ("OFPAT_SET_FIELD", 25); ("OFPAT_PUSH_PBB", 26); ("OFPAT_POP_PBB", 27); ("OFPAT_EXPERIMENTER", 65535)]
  | E_ControllerMaxLen04 => (* pyof/v0x04/common/action.py:63-74 *)
      EInt [("OFPCML_MAX", 65509); ("OFPCML_NO_BUFFER", 65535)]
  | E_InstructionType04 => (* pyof/v0x04/common/flow_instructions.py:28-51 *)
      EInt [("OFPIT_GOTO_TABLE", 1); ("OFPIT_WRITE_METADATA", 2); ("OFPIT_WRITE_ACTIONS", 3); ("OFPIT_APPLY_ACTIONS", 4); ("OFPIT_CLEAR_ACTIONS", 5); ("OFPIT_METER", 6); ("OFPIT_EXPERIMENTER", 65535)]
  | E_Ipv6ExtHdrFlags04 => (* pyof/v0x04/common/flow_match.py:21-41 *)
      EPlain [("OFPIEH_NONEXT", 1); ("OFPIEH_ESP", 2); ("OFPIEH_AUTH", 4); ("OFPIEH_DEST", 8); ("OFPIEH_FRAG", 16); ("OFPIEH_ROUTER", 32); ("OFPIEH_HOP", 64); ("OFPIEH_UNREP", 128); ("OFPIEH_UNSEQ", 256)]
  | E_OxmOfbMatchField04 => (* pyof/v0x04/common/flow_match.py:44-132 *)
      EInt [("OFPXMT_OFB_IN_PORT", 0); ("OFPXMT_OFB_IN_PHY_PORT", 1); ("OFPXMT_OFB_METADATA", 2); ("OFPXMT_OFB_ETH_DST", 3); ("OFPXMT_OFB_ETH_SRC", 4); ("OFPXMT_OFB_ETH_TYPE", 5); ("OFPXMT_OFB_VLAN_VID", 6); ("OFPXMT_OFB_VLAN_PCP", 7); ("OFPXMT_OFB_IP_DSCP", 8); ("OFPXMT_OFB_IP_ECN", 9); ("OFPXMT_OFB_IP_PROTO", 10); ("OFPXMT_OFB_IPV4_SRC", 11); ("OFPXMT_OFB_IPV4_DST", 12); ("OFPXMT_OFB_TCP_SRC", 13); ("OFPXMT_OFB_TCP_DST", 14); ("OFPXMT_OFB_UDP_SRC", 15); ("OFPXMT_OFB_UDP_DST", 16); ("OFPXMT_OFB_SCTP_SRC", 17); ("OFPXMT_OFB_SCTP_DST", 18); ("OFPXMT_OFB_ICMPV4_TYPE", 19); ("OFPXMT_OFB_ICMPV4_CODE", 20); ("OFPXMT_OFB_ARP_OP", 21); ("OFPXMT_OFB_ARP_SPA", 22); ("OFPXMT_OFB_ARP_TPA", 23); ("OFPXMT_OFB_ARP_SHA", 24); ("OFPXMT_OFB_ARP_THA", 25); ("OFPXMT_OFB_IPV6_SRC", 26); ("OFPXMT_OFB_IPV6_DST", 27); ("OFPXMT_OFB_IPV6_FLABEL", 28); ("OFPXMT_OFB_ICMPV6_TYPE", 29); ("OFPXMT_OFB_ICMPV6_CODE", 30); ("OFPXMT_OFB_IPV6_ND_TARGET", 31); ("OFPXMT_OFB_IPV6_ND_SLL", 32); ("OFPXMT_OFB_IPV6_ND_TLL", 33); ("OFPXMT_OFB_MPLS_LABEL", 34); ("OFPXMT_OFB_MPLS_TC", 35); ("OFPXMT_OFP_MPLS_BOS", 36); ("OFPXMT_OFB_PBB_ISID", 37); ("OFPXMT_OFB_TUNNEL_ID", 38); ("OFPXMT_OFB_IPV6_EXTHDR", 39)]
  | E_MatchType04 => (* pyof/v0x04/common/flow_match.py:135-148 *)
      EInt [("OFPMT_STANDARD", 0); ("OFPMT_OXM", 1)]
  | E_OxmClass04 => (* pyof/v0x04/common/flow_match.py:151-167 *)
      EInt [("OFPXMC_NXM_0", 0); ("OFPXMC_NXM_1", 1); ("OFPXMC_OPENFLOW_BASIC", 32768); ("OFPXMC_EXPERIMENTER", 65535)]
  | E_VlanId04 => (* pyof/v0x04/common/flow_match.py:170-180 *)
      EInt [("OFPVID_PRESENT", 4096); ("OFPVID_NONE", 0)]
  | E_Type04 => (* pyof/v0x04/common/header.py:18-77 *)
      EInt [("OFPT_HELLO", 0); ("OFPT_ERROR", 1); ("OFPT_ECHO_REQUEST", 2); ("OFPT_ECHO_REPLY", 3); ("OFPT_EXPERIMENTER", 4); ("OFPT_FEATURES_REQUEST", 5); ("OFPT_FEATURES_REPLY", 6); ("OFPT_GET_CONFIG_REQUEST", 7); ("OFPT_GET_CONFIG_REPLY", 8); ("OFPT_SET_CONFIG", 9); ("OFPT_PACKET_IN", 10); ("OFPT_FLOW_REMOVED", 11); ("OFPT_PORT_STATUS", 12); ("OFPT_PACKET_OUT", 13); ("OFPT_FLOW_MOD", 14); ("OFPT_GROUP_MOD", 15); ("OFPT_PORT_MOD", 16); ("OFPT_TABLE_MOD", 17); ("OFPT_MULTIPART_REQUEST", 18); ("OFPT_MULTIPART_REPLY", 19); ("OFPT_BARRIER_REQUEST", 20); ("OFPT_BARRIER_REPLY", 21); ("OFPT_QUEUE_GET_CONFIG_REQUEST", 22); ("OFPT_QUEUE_GET_CONFIG_REPLY", 23); ("OFPT_ROLE_REQUEST", 24); ("OFPT_ROLE_REPLY", 25); ("OFPT_GET_ASYNC_REQUEST", 26); ("OFPT_GET_ASYNC_REPLY", 27); ("OFPT_SET_ASYNC", 28); ("OFPT_METER_MOD", 29)]
  | E_PortNo04 => (* pyof/v0x04/common/port.py:18-47 *)
      EInt [("OFPP_MAX", 4294967040); ("OFPP_IN_PORT", 4294967288); ("OFPP_TABLE", 4294967289); ("OFPP_NORMAL", 4294967290); ("OFPP_FLOOD", 4294967291); ("OFPP_ALL", 4294967292); ("OFPP_CONTROLLER", 4294967293); ("OFPP_LOCAL", 4294967294); ("OFPP_ANY", 4294967295)]
  | E_PortConfig04 => (* pyof/v0x04/common/port.py:50-80 *)
      EMask [("OFPPC_PORT_DOWN", 1); ("OFPPC_NO_RECV", 4); ("OFPPC_NO_FWD", 32); ("OFPPC_NO_PACKET_IN", 64)]
  | E_PortFeatures04 => (* pyof/v0x04/common/port.py:83-138 *)
      EMask [("OFPPF_10MB_HD", 1); ("OFPPF_10MB_FD", 2); ("OFPPF_100MB_HD", 4); ("OFPPF_100MB_FD", 8); ("OFPPF_1GB_HD", 16); ("OFPPF_1GB_FD", 32); ("OFPPF_10GB_FD", 64); ("OFPPF_40GB_FD", 128); ("OFPPF_100GB_FD", 256); ("OFPPF_1TB_FD", 512); ("OFPPF_OTHER", 1024); ("OFPPF_COPPER", 2048); ("OFPPF_FIBER", 4096); ("OFPPF_AUTONEG", 8192); ("OFPPF_PAUSE", 16384); ("OFPPF_PAUSE_ASYM", 32768)]
  | E_PortState04 => (* pyof/v0x04/common/port.py:141-164 *)
      EMask [("OFPPS_LINK_DOWN", 1); ("OFPPS_BLOCKED", 2); ("OFPPS_LIVE", 4)]
  | E_QueueProperties04 => (* pyof/v0x04/common/queue.py:20-28 *)
      EInt [("OFPQT_MIN_RATE", 1); ("OFPQT_MAX_RATE", 2); ("OFPQT_EXPERIMENTER", 65535)]
  | E_ConfigFlag04 => (* pyof/v0x04/controller2switch/common.py:30-39 *)
      EInt [("OFPC_FRAG_NORMAL", 0); ("OFPC_FRAG_DROP", 1); ("OFPC_FRAG_REASM", 2); ("OFPC_FRAG_MASK", 3)]
  | E_ControllerRole04 => (* pyof/v0x04/controller2switch/common.py:42-52 *)
      EInt [("OFPCR_ROLE_NOCHANGE", 0); ("OFPCR_ROLE_EQUAL", 1); ("OFPCR_ROLE_MASTER", 2); ("OFPCR_ROLE_SLAVE", 3)]
  | E_TableFeaturePropType04 => (* pyof/v0x04/controller2switch/common.py:55-105 *)
      EInt [("OFPTFPT_INSTRUCTIONS", 0); ("OFPTFPT_INSTRUCTIONS_MISS", 1); ("OFPTFPT_NEXT_TABLES", 2); ("OFPTFPT_NEXT_TABLES_MISS", 3); ("OFPTFPT_WRITE_ACTIONS", 4); ("OFPTFPT_WRITE_ACTIONS_MISS", 5); ("OFPTFPT_APPLY_ACTIONS", 6); ("OFPTFPT_APPLY_ACTIONS_MISS", 7); ("OFPTFPT_MATCH", 8); ("OFPTFPT_WILDCARDS", 10); ("OFPTFPT_WRITE_SETFIELD", 12); ("OFPTFPT_WRITE_SETFIELD_MISS", 13); ("OFPTFPT_APPLY_SETFIELD", 14); ("OFPTFPT_APPLY_SETFIELD_MISS", 15); ("OFPTFPT_EXPERIMENTER", 65534); ("OFPTFPT_EXPERIMENTER_MISS", 65535)]
  | E_MultipartType04 => (* pyof/v0x04/controller2switch/common.py:108-188 *)
      EInt [("OFPMP_DESC", 0); ("OFPMP_FLOW", 1); ("OFPMP_AGGREGATE", 2); ("OFPMP_TABLE", 3); ("OFPMP_PORT_STATS", 4); ("OFPMP_QUEUE", 5); ("OFPMP_GROUP", 6); ("OFPMP_GROUP_DESC", 7); ("OFPMP_GROUP_FEATURES", 8); ("OFPMP_METER", 9); ("OFPMP_METER_CONFIG", 10); ("OFPMP_METER_FEATURES", 11); ("OFPMP_TABLE_FEATURES", 12); ("OFPMP_PORT_DESC", 13); ("OFPMP_EXPERIMENTER", 65535)]
  | E_Capabilities04 => (* pyof/v0x04/controller2switch/features_reply.py:15-31 *)
      EMask [("OFPC_FLOW_STATS", 1); ("OFPC_TABLE_STATS", 2); ("OFPC_PORT_STATS", 4); ("OFPC_GROUP_STATS", 8); ("OFPC_IP_REASM", 32); ("OFPC_QUEUE_STATS", 64); ("OFPC_PORT_BLOCKED", 256)]
  | E_FlowModCommand04 => (* pyof/v0x04/controller2switch/flow_mod.py:21-33 *)
      EInt [("OFPFC_ADD", 0); ("OFPFC_MODIFY", 1); ("OFPFC_MODIFY_STRICT", 2); ("OFPFC_DELETE", 3); ("OFPFC_DELETE_STRICT", 4)]
  | E_FlowModFlags04 => (* pyof/v0x04/controller2switch/flow_mod.py:36-48 *)
      EMask [("OFPFF_SEND_FLOW_REM", 1); ("OFPFF_CHECK_OVERLAP", 2); ("OFPFF_RESET_COUNTS", 4); ("OFPFF_NO_PKT_COUNTS", 8); ("OFPFF_NO_BYT_COUNTS", 16)]
  | E_Group04 => (* pyof/v0x04/controller2switch/group_mod.py:14-24 *)
      EInt [("OFPG_MAX", 4294967040); ("OFPG_ALL", 4294967292); ("OFPG_ANY", 4294967295)]
  | E_GroupModCommand04 => (* pyof/v0x04/controller2switch/group_mod.py:27-35 *)
      EInt [("OFPGC_ADD", 0); ("OFPGC_MODIFY", 1); ("OFPGC_DELETE", 2)]
  | E_GroupType04 => (* pyof/v0x04/controller2switch/group_mod.py:38-48 *)
      EInt [("OFPGT_ALL", 0); ("OFPGT_SELECT", 1); ("OFPGT_INDIRECT", 2); ("OFPGT_FF", 3)]
  | E_Meter04 => (* pyof/v0x04/controller2switch/meter_mod.py:14-26 *)
      EInt [("OFPM_MAX", 4294901760); ("OFPM_SLOWPATH", 4294967293); ("OFPM_CONTROLLER", 4294967294); ("OFPM_ALL", 4294967295)]
  | E_MeterModCommand04 => (* pyof/v0x04/controller2switch/meter_mod.py:29-37 *)
      EInt [("OFPMC_ADD", 0); ("OFPMC_MODIFY", 1); ("OFPMC_DELETE", 2)]
  | E_MeterFlags04 => (* pyof/v0x04/controller2switch/meter_mod.py:40-50 *)
      EMask [("OFPMF_KBPS", 1); ("OFPMF_PKTPS", 2); ("OFPMF_BURST", 4); ("OFPMF_STATS", 8)]
  | E_MeterBandType04 => (* pyof/v0x04/controller2switch/meter_mod.py:53-67 *)
      EInt [("OFPMBT_DROP", 1); ("OFPMBT_DSCP_REMARK", 2); ("OFPMBT_EXPERIMENTER", 65535)]
  | E_MultipartReplyFlags04 => (* pyof/v0x04/controller2switch/multipart_reply.py:33-37 *)
      EPlain [("OFPMPF_REPLY_MORE", 1)]
  | E_GroupCapabilities04 => (* pyof/v0x04/controller2switch/multipart_reply.py:40-50 *)
      EMask [("OFPGFC_SELECT_WEIGHT", 1); ("OFPGFC_SELECT_LIVENESS", 2); ("OFPGFC_CHAINING", 4); ("OFPGFC_CHAINING_CHECKS", 8)]
  | E_MultipartRequestFlags04 => (* pyof/v0x04/controller2switch/multipart_request.py:29-36 *)
      EPlain [("OFPMPF_REQ_NONE", 0); ("OFPMPF_REQ_MORE", 1)]
  | E_Table04 => (* pyof/v0x04/controller2switch/table_mod.py:11-18 *)
      EInt [("OFPTT_MAX", 254); ("OFPTT_ALL", 255)]
  | E_HelloElemType04 => (* pyof/v0x04/symmetric/hello.py:19-23 *)
      EInt [("OFPHET_VERSIONBITMAP", 1)]
  end.

(* pyof/v0x01/common/header.py:66-95 *)
Definition attrs_Header01 : list (string * pyval) :=
  [("version", VUInt 1 None (VInt 1));
   ("message_type", VUInt 1 (Some E_Type01) VNone);
   ("length", VUInt 2 None VNone);
   ("xid", VUInt 4 None VNone)].
Definition new_Header01 : pyval :=
  VObj Header01 [("version", VUInt 1 None (VInt 1)); ("message_type", VNone); ("length", VNone); ("xid", VNone)].
(* pyof/v0x01/asynchronous/error_msg.py:178-247 *)
Definition attrs_ErrorMsg01 : list (string * pyval) :=
  [("header", VObj Header01 [("version", VUInt 1 None (VInt 1)); ("message_type", VEnum E_Type01 1); ("length", VNone); ("xid", VNone)]);
   ("error_type", VUInt 2 (Some E_ErrorType01) VNone);
   ("code", VUInt 2 None VNone);
   ("data", VBin VNone)].
Definition new_ErrorMsg01 : pyval :=
  VObj ErrorMsg01 [("header", VObj Header01 [("version", VUInt 1 None (VInt 1)); ("message_type", VEnum E_Type01 1); ("length", VNone); ("xid", VInt 0)]); ("error_type", VNone); ("code", VNone); ("data", VBytes [])].
(* pyof/v0x01/common/flow_match.py:66-203 *)
Definition attrs_Match01 : list (string * pyval) :=
  [("wildcards", VUInt 4 (Some E_FlowWildCards01) (VInt 4194303));
   ("in_port", VUInt 2 None (VInt 0));
   ("dl_src", VHW (VStr (txt "00:00:00:00:00:00")));
   ("dl_dst", VHW (VStr (txt "00:00:00:00:00:00")));
   ("dl_vlan", VUInt 2 None (VInt 0));
   ("dl_vlan_pcp", VUInt 1 None (VInt 0));
   ("pad1", VPad 1);
   ("dl_type", VUInt 2 None (VInt 0));
   ("nw_tos", VUInt 1 None (VInt 0));
   ("nw_proto", VUInt 1 None (VInt 0));
   ("pad2", VPad 2);
   ("nw_src", VIP (VStr (txt "0.0.0.0")) 0);
   ("nw_dst", VIP (VStr (txt "0.0.0.0")) 0);
   ("tp_src", VUInt 2 None (VInt 0));
   ("tp_dst", VUInt 2 None (VInt 0))].
Definition new_Match01 : pyval :=
  VObj Match01 [("wildcards", VInt 3678463); ("in_port", VUInt 2 None (VInt 0)); ("dl_src", VHW (VStr (txt "00:00:00:00:00:00"))); ("dl_dst", VHW (VStr (txt "00:00:00:00:00:00"))); ("dl_vlan", VUInt 2 None (VInt 0)); ("dl_vlan_pcp", VUInt 1 None (VInt 0)); ("pad1", VPad 1); ("dl_type", VUInt 2 None (VInt 0)); ("nw_tos", VUInt 1 None (VInt 0)); ("nw_proto", VUInt 1 None (VInt 0)); ("pad2", VPad 2); ("nw_src", VIP (VStr (txt "0.0.0.0")) 0); ("nw_dst", VIP (VStr (txt "0.0.0.0")) 0); ("tp_src", VUInt 2 None (VInt 0)); ("tp_dst", VUInt 2 None (VInt 0))].
(* pyof/v0x01/asynchronous/flow_removed.py:29-80 *)
Definition attrs_FlowRemoved01 : list (string * pyval) :=
  [("header", VObj Header01 [("version", VUInt 1 None (VInt 1)); ("message_type", VEnum E_Type01 11); ("length", VNone); ("xid", VNone)]);
   ("match", new_Match01);
   ("cookie", VUInt 8 None VNone);
   ("priority", VUInt 2 None VNone);
   ("reason", VUInt 1 (Some E_FlowRemovedReason01) VNone);
   ("pad", VPad 1);
   ("duration_sec", VUInt 4 None VNone);
   ("duration_nsec", VUInt 4 None VNone);
   ("idle_timeout", VUInt 2 None VNone);
   ("pad2", VPad 2);
   ("packet_count", VUInt 8 None VNone);
   ("byte_count", VUInt 8 None VNone)].
Definition new_FlowRemoved01 : pyval :=
  VObj FlowRemoved01 [("header", VObj Header01 [("version", VUInt 1 None (VInt 1)); ("message_type", VEnum E_Type01 11); ("length", VNone); ("xid", VInt 0)]); ("match", VNone); ("cookie", VNone); ("priority", VNone); ("reason", VNone); ("pad", VPad 1); ("duration_sec", VNone); ("duration_nsec", VNone); ("idle_timeout", VNone); ("pad2", VPad 2); ("packet_count", VNone); ("byte_count", VNone)].
(* pyof/v0x01/asynchronous/packet_in.py:32-67 *)
Definition attrs_PacketIn01 : list (string * pyval) :=
  [("header", VObj Header01 [("version", VUInt 1 None (VInt 1)); ("message_type", VEnum E_Type01 10); ("length", VNone); ("xid", VNone)]);
   ("buffer_id", VUInt 4 None VNone);
   ("total_len", VUInt 2 None VNone);
   ("in_port", VUInt 2 None VNone);
   ("reason", VUInt 1 (Some E_PacketInReason01) VNone);
   ("pad", VPad 1);
   ("data", VBin VNone)].
Definition new_PacketIn01 : pyval :=
  VObj PacketIn01 [("header", VObj Header01 [("version", VUInt 1 None (VInt 1)); ("message_type", VEnum E_Type01 10); ("length", VNone); ("xid", VInt 0)]); ("buffer_id", VInt 4294967295); ("total_len", VNone); ("in_port", VNone); ("reason", VNone); ("pad", VPad 1); ("data", VBytes [])].
(* pyof/v0x01/common/phy_port.py:131-186 *)
Definition attrs_PhyPort01 : list (string * pyval) :=
  [("port_no", VUInt 2 None VNone);
   ("hw_addr", VHW (VStr (txt "00:00:00:00:00:00")));
   ("name", VChar 16 VNone);
   ("config", VUInt 4 (Some E_PortConfig01) VNone);
   ("state", VUInt 4 (Some E_PortState01) VNone);
   ("curr", VUInt 4 (Some E_PortFeatures01) VNone);
   ("advertised", VUInt 4 (Some E_PortFeatures01) VNone);
   ("supported", VUInt 4 (Some E_PortFeatures01) VNone);
   ("peer", VUInt 4 (Some E_PortFeatures01) VNone)].
Definition new_PhyPort01 : pyval :=
  VObj PhyPort01 [("port_no", VNone); ("hw_addr", VNone); ("name", VNone); ("config", VInt 0); ("state", VInt 0); ("curr", VInt 0); ("advertised", VInt 0); ("supported", VInt 0); ("peer", VInt 0)].
(* pyof/v0x01/asynchronous/port_status.py:32-53 *)
Definition attrs_PortStatus01 : list (string * pyval) :=
  [("header", VObj Header01 [("version", VUInt 1 None (VInt 1)); ("message_type", VEnum E_Type01 12); ("length", VNone); ("xid", VNone)]);
   ("reason", VUInt 1 (Some E_PortReason01) VNone);
   ("pad", VPad 7);
   ("desc", new_PhyPort01)].
Definition new_PortStatus01 : pyval :=
  VObj PortStatus01 [("header", VObj Header01 [("version", VUInt 1 None (VInt 1)); ("message_type", VEnum E_Type01 12); ("length", VNone); ("xid", VInt 0)]); ("reason", VNone); ("pad", VPad 7); ("desc", VNone)].
(* pyof/v0x01/common/action.py:55-106 *)
Definition attrs_ActionHeader01 : list (string * pyval) :=
  [("action_type", VUInt 2 (Some E_ActionType01) VNone);
   ("length", VUInt 2 None VNone)].
Definition new_ActionHeader01 : pyval :=
  VObj ActionHeader01 [("action_type", VNone); ("length", VNone)].
(* pyof/v0x01/common/action.py:109-134 *)
Definition attrs_ActionOutput01 : list (string * pyval) :=
  [("action_type", VUInt 2 (Some E_ActionType01) VNone);
   ("length", VUInt 2 None VNone);
   ("port", VUInt 2 None VNone);
   ("max_length", VUInt 2 None VNone)].
Definition new_ActionOutput01 : pyval :=
  VObj ActionOutput01 [("action_type", VInt 0); ("length", VInt 8); ("port", VNone); ("max_length", VInt 65535)].
(* pyof/v0x01/common/action.py:137-153 *)
Definition attrs_ActionStripVlan01 : list (string * pyval) :=
  [("action_type", VUInt 2 (Some E_ActionType01) VNone);
   ("length", VUInt 2 None VNone);
   ("pad", VPad 4)].
Definition new_ActionStripVlan01 : pyval :=
  VObj ActionStripVlan01 [("action_type", VInt 3); ("length", VInt 8); ("pad", VPad 4)].
(* pyof/v0x01/common/action.py:156-182 *)
Definition attrs_ActionEnqueue01 : list (string * pyval) :=
  [("action_type", VUInt 2 (Some E_ActionType01) VNone);
   ("length", VUInt 2 None VNone);
   ("port", VUInt 2 None VNone);
   ("pad", VPad 6);
   ("queue_id", VUInt 4 None VNone)].
Definition new_ActionEnqueue01 : pyval :=
  VObj ActionEnqueue01 [("action_type", VInt 11); ("length", VInt 16); ("port", VNone); ("pad", VPad 6); ("queue_id", VNone)].
(* pyof/v0x01/common/action.py:185-206 *)
Definition attrs_ActionVlanVid01 : list (string * pyval) :=
  [("action_type", VUInt 2 (Some E_ActionType01) VNone);
   ("length", VUInt 2 None VNone);
   ("vlan_id", VUInt 2 None VNone);
   ("pad2", VPad 2)].
Definition new_ActionVlanVid01 : pyval :=
  VObj ActionVlanVid01 [("action_type", VInt 1); ("length", VInt 8); ("vlan_id", VNone); ("pad2", VPad 2)].
(* pyof/v0x01/common/action.py:209-228 *)
Definition attrs_ActionVlanPCP01 : list (string * pyval) :=
  [("action_type", VUInt 2 (Some E_ActionType01) VNone);
   ("length", VUInt 2 None VNone);
   ("vlan_pcp", VUInt 1 None VNone);
   ("pad", VPad 3)].
Definition new_ActionVlanPCP01 : pyval :=
  VObj ActionVlanPCP01 [("action_type", VInt 2); ("length", VInt 8); ("vlan_pcp", VNone); ("pad", VPad 3)].
(* pyof/v0x01/common/action.py:231-251 *)
Definition attrs_ActionDLAddr01 : list (string * pyval) :=
  [("action_type", VUInt 2 (Some E_ActionType01) VNone);
   ("length", VUInt 2 None VNone);
   ("dl_addr", VHW (VStr (txt "00:00:00:00:00:00")));
   ("pad", VPad 6)].
Definition new_ActionDLAddr01 : pyval :=
  VObj ActionDLAddr01 [("action_type", VNone); ("length", VInt 16); ("dl_addr", VNone); ("pad", VPad 6)].
(* pyof/v0x01/common/action.py:254-271 *)
Definition attrs_ActionNWAddr01 : list (string * pyval) :=
  [("action_type", VUInt 2 (Some E_ActionType01) VNone);
   ("length", VUInt 2 None VNone);
   ("nw_addr", VUInt 4 None VNone)].
Definition new_ActionNWAddr01 : pyval :=
  VObj ActionNWAddr01 [("action_type", VNone); ("length", VInt 8); ("nw_addr", VNone)].
(* pyof/v0x01/common/action.py:274-297 *)
Definition attrs_ActionNWTos01 : list (string * pyval) :=
  [("action_type", VUInt 2 (Some E_ActionType01) VNone);
   ("length", VUInt 2 None VNone);
   ("nw_tos", VUInt 1 None VNone);
   ("pad", VPad 3)].
Definition new_ActionNWTos01 : pyval :=
  VObj ActionNWTos01 [("action_type", VNone); ("length", VInt 8); ("nw_tos", VNone); ("pad", VPad 3)].
(* pyof/v0x01/common/action.py:300-319 *)
Definition attrs_ActionTPPort01 : list (string * pyval) :=
  [("action_type", VUInt 2 (Some E_ActionType01) VNone);
   ("length", VUInt 2 None VNone);
   ("tp_port", VUInt 2 None VNone);
   ("pad", VPad 2)].
Definition new_ActionTPPort01 : pyval :=
  VObj ActionTPPort01 [("action_type", VNone); ("length", VInt 8); ("tp_port", VNone); ("pad", VPad 2)].
(* pyof/v0x01/common/action.py:322-341 *)
Definition attrs_ActionVendorHeader01 : list (string * pyval) :=
  [("action_type", VUInt 2 (Some E_ActionType01) VNone);
   ("length", VUInt 2 None VNone);
   ("vendor", VUInt 4 None VNone)].
Definition new_ActionVendorHeader01 : pyval :=
  VObj ActionVendorHeader01 [("action_type", VInt 65535); ("length", VNone); ("vendor", VNone)].
(* pyof/v0x01/common/queue.py:49-67 *)
Definition attrs_QueuePropHeader01 : list (string * pyval) :=
  [("queue_property", VUInt 2 (Some E_QueueProperties01) VNone);
   ("length", VUInt 2 None VNone);
   ("pad", VPad 4)].
Definition new_QueuePropHeader01 : pyval :=
  VObj QueuePropHeader01 [("queue_property", VNone); ("length", VNone); ("pad", VPad 4)].
(* pyof/v0x01/common/queue.py:70-91 *)
Definition attrs_PacketQueue01 : list (string * pyval) :=
  [("queue_id", VUInt 4 None VNone);
   ("length", VUInt 2 None VNone);
   ("pad", VPad 2);
   ("properties", VList ListOfProperties01 QueuePropHeader01 [])].
Definition new_PacketQueue01 : pyval :=
  VObj PacketQueue01 [("queue_id", VNone); ("length", VNone); ("pad", VPad 2); ("properties", VList CList CObject [])].
(* pyof/v0x01/common/queue.py:94-110 *)
Definition attrs_QueuePropMinRate01 : list (string * pyval) :=
  [("prop_header", VObj QueuePropHeader01 [("queue_property", VEnum E_QueueProperties01 1); ("length", VInt 16); ("pad", VPad 4)]);
   ("rate", VUInt 2 None VNone);
   ("pad", VPad 6)].
Definition new_QueuePropMinRate01 : pyval :=
  VObj QueuePropMinRate01 [("prop_header", VObj QueuePropHeader01 [("queue_property", VEnum E_QueueProperties01 1); ("length", VInt 16); ("pad", VPad 4)]); ("rate", VNone); ("pad", VPad 6)].
(* pyof/v0x01/controller2switch/barrier_reply.py:15-21 *)
Definition attrs_BarrierReply01 : list (string * pyval) :=
  [("header", VObj Header01 [("version", VUInt 1 None (VInt 1)); ("message_type", VEnum E_Type01 19); ("length", VNone); ("xid", VNone)])].
Definition new_BarrierReply01 : pyval :=
  VObj BarrierReply01 [("header", VObj Header01 [("version", VUInt 1 None (VInt 1)); ("message_type", VEnum E_Type01 19); ("length", VNone); ("xid", VInt 0)])].
(* pyof/v0x01/controller2switch/barrier_request.py:15-21 *)
Definition attrs_BarrierRequest01 : list (string * pyval) :=
  [("header", VObj Header01 [("version", VUInt 1 None (VInt 1)); ("message_type", VEnum E_Type01 18); ("length", VNone); ("xid", VNone)])].
Definition new_BarrierRequest01 : pyval :=
  VObj BarrierRequest01 [("header", VObj Header01 [("version", VUInt 1 None (VInt 1)); ("message_type", VEnum E_Type01 18); ("length", VNone); ("xid", VInt 0)])].
(* pyof/v0x01/controller2switch/common.py:69-93 *)
Definition attrs_SwitchConfig01 : list (string * pyval) :=
  [("header", new_Header01);
   ("flags", VUInt 2 (Some E_ConfigFlag01) VNone);
   ("miss_send_len", VUInt 2 None VNone)].
Definition new_SwitchConfig01 : pyval :=
  VObj SwitchConfig01 [("header", VObj Header01 [("version", VUInt 1 None (VInt 1)); ("message_type", VNone); ("length", VNone); ("xid", VInt 0)]); ("flags", VNone); ("miss_send_len", VNone)].
(* pyof/v0x01/controller2switch/common.py:96-116 *)
Definition attrs_AggregateStatsReply01 : list (string * pyval) :=
  [("packet_count", VUInt 8 None VNone);
   ("byte_count", VUInt 8 None VNone);
   ("flow_count", VUInt 4 None VNone);
   ("pad", VPad 4)].
Definition new_AggregateStatsReply01 : pyval :=
  VObj AggregateStatsReply01 [("packet_count", VNone); ("byte_count", VNone); ("flow_count", VNone); ("pad", VPad 4)].
(* pyof/v0x01/controller2switch/common.py:119-141 *)
Definition attrs_AggregateStatsRequest01 : list (string * pyval) :=
  [("match", new_Match01);
   ("table_id", VUInt 1 None VNone);
   ("pad", VPad 1);
   ("out_port", VUInt 2 None VNone)].
Definition new_AggregateStatsRequest01 : pyval :=
  VObj AggregateStatsRequest01 [("match", new_Match01); ("table_id", VInt 255); ("pad", VPad 1); ("out_port", VEnum E_Port01 65535)].
(* pyof/v0x01/controller2switch/common.py:144-173 *)
Definition attrs_DescStats01 : list (string * pyval) :=
  [("mfr_desc", VChar 256 VNone);
   ("hw_desc", VChar 256 VNone);
   ("sw_desc", VChar 256 VNone);
   ("serial_num", VChar 32 VNone);
   ("dp_desc", VChar 256 VNone)].
Definition new_DescStats01 : pyval :=
  VObj DescStats01 [("mfr_desc", VNone); ("hw_desc", VNone); ("sw_desc", VNone); ("serial_num", VNone); ("dp_desc", VNone)].
(* pyof/v0x01/controller2switch/common.py:176-246 *)
Definition attrs_FlowStats01 : list (string * pyval) :=
  [("length", VUInt 2 None VNone);
   ("table_id", VUInt 1 None VNone);
   ("pad", VPad 1);
   ("match", new_Match01);
   ("duration_sec", VUInt 4 None VNone);
   ("duration_nsec", VUInt 4 None VNone);
   ("priority", VUInt 2 None VNone);
   ("idle_timeout", VUInt 2 None VNone);
   ("hard_timeout", VUInt 2 None VNone);
   ("pad2", VPad 6);
   ("cookie", VUInt 8 None VNone);
   ("packet_count", VUInt 8 None VNone);
   ("byte_count", VUInt 8 None VNone);
   ("actions", VList ListOfActions01 ActionHeader01 [])].
Definition new_FlowStats01 : pyval :=
  VObj FlowStats01 [("length", VNone); ("table_id", VNone); ("pad", VPad 1); ("match", VNone); ("duration_sec", VNone); ("duration_nsec", VNone); ("priority", VNone); ("idle_timeout", VNone); ("hard_timeout", VNone); ("pad2", VPad 6); ("cookie", VNone); ("packet_count", VNone); ("byte_count", VNone); ("actions", VList CList CObject [])].
(* pyof/v0x01/controller2switch/common.py:249-273 *)
Definition attrs_FlowStatsRequest01 : list (string * pyval) :=
  [("match", new_Match01);
   ("table_id", VUInt 1 None VNone);
   ("pad", VPad 1);
   ("out_port", VUInt 2 None VNone)].
Definition new_FlowStatsRequest01 : pyval :=
  VObj FlowStatsRequest01 [("match", new_Match01); ("table_id", VInt 255); ("pad", VPad 1); ("out_port", VEnum E_Port01 65535)].
(* pyof/v0x01/controller2switch/common.py:276-339 *)
Definition attrs_PortStats01 : list (string * pyval) :=
  [("port_no", VUInt 2 None VNone);
   ("pad", VPad 6);
   ("rx_packets", VUInt 8 None VNone);
   ("tx_packets", VUInt 8 None VNone);
   ("rx_bytes", VUInt 8 None VNone);
   ("tx_bytes", VUInt 8 None VNone);
   ("rx_dropped", VUInt 8 None VNone);
   ("tx_dropped", VUInt 8 None VNone);
   ("rx_errors", VUInt 8 None VNone);
   ("tx_errors", VUInt 8 None VNone);
   ("rx_frame_err", VUInt 8 None VNone);
   ("rx_over_err", VUInt 8 None VNone);
   ("rx_crc_err", VUInt 8 None VNone);
   ("collisions", VUInt 8 None VNone)].
Definition new_PortStats01 : pyval :=
  VObj PortStats01 [("port_no", VNone); ("pad", VPad 6); ("rx_packets", VNone); ("tx_packets", VNone); ("rx_bytes", VNone); ("tx_bytes", VNone); ("rx_dropped", VNone); ("tx_dropped", VNone); ("rx_errors", VNone); ("tx_errors", VNone); ("rx_frame_err", VNone); ("rx_over_err", VNone); ("rx_crc_err", VNone); ("collisions", VNone)].
(* pyof/v0x01/controller2switch/common.py:342-359 *)
Definition attrs_PortStatsRequest01 : list (string * pyval) :=
  [("port_no", VUInt 2 None VNone);
   ("pad", VPad 6)].
Definition new_PortStatsRequest01 : pyval :=
  VObj PortStatsRequest01 [("port_no", VEnum E_Port01 65535); ("pad", VPad 6)].
(* pyof/v0x01/controller2switch/common.py:362-390 *)
Definition attrs_QueueStats01 : list (string * pyval) :=
  [("port_no", VUInt 2 None VNone);
   ("pad", VPad 2);
   ("queue_id", VUInt 4 None VNone);
   ("tx_bytes", VUInt 8 None VNone);
   ("tx_packets", VUInt 8 None VNone);
   ("tx_errors", VUInt 8 None VNone)].
Definition new_QueueStats01 : pyval :=
  VObj QueueStats01 [("port_no", VNone); ("pad", VPad 2); ("queue_id", VNone); ("tx_bytes", VNone); ("tx_packets", VNone); ("tx_errors", VNone)].
(* pyof/v0x01/controller2switch/common.py:393-411 *)
Definition attrs_QueueStatsRequest01 : list (string * pyval) :=
  [("port_no", VUInt 2 None VNone);
   ("pad", VPad 2);
   ("queue_id", VUInt 4 None VNone)].
Definition new_QueueStatsRequest01 : pyval :=
  VObj QueueStatsRequest01 [("port_no", VNone); ("pad", VPad 2); ("queue_id", VNone)].
(* pyof/v0x01/controller2switch/common.py:414-450 *)
Definition attrs_TableStats01 : list (string * pyval) :=
  [("table_id", VUInt 1 None VNone);
   ("pad", VPad 3);
   ("name", VChar 32 VNone);
   ("wildcards", VUInt 4 (Some E_FlowWildCards01) VNone);
   ("max_entries", VUInt 4 None VNone);
   ("active_count", VUInt 4 None VNone);
   ("count_lookup", VUInt 8 None VNone);
   ("count_matched", VUInt 8 None VNone)].
Definition new_TableStats01 : pyval :=
  VObj TableStats01 [("table_id", VNone); ("pad", VPad 3); ("name", VNone); ("wildcards", VNone); ("max_entries", VNone); ("active_count", VNone); ("count_lookup", VNone); ("count_matched", VNone)].
(* pyof/v0x01/controller2switch/common.py:453-468 *)
Definition attrs_VendorStats01 : list (string * pyval) :=
  [("vendor", VUInt 4 None VNone);
   ("body", VBin VNone)].
Definition new_VendorStats01 : pyval :=
  VObj VendorStats01 [("vendor", VNone); ("body", VBytes [])].
(* pyof/v0x01/controller2switch/features_reply.py:36-76 *)
Definition attrs_SwitchFeatures01 : list (string * pyval) :=
  [("header", VObj Header01 [("version", VUInt 1 None (VInt 1)); ("message_type", VEnum E_Type01 6); ("length", VNone); ("xid", VNone)]);
   ("datapath_id", VDPID VNone);
   ("n_buffers", VUInt 4 None VNone);
   ("n_tables", VUInt 1 None VNone);
   ("pad", VPad 3);
   ("capabilities", VUInt 4 (Some E_Capabilities01) VNone);
   ("actions", VUInt 4 (Some E_ActionType01) VNone);
   ("ports", VList ListOfPhyPorts01 PhyPort01 [])].
Definition new_SwitchFeatures01 : pyval :=
  VObj SwitchFeatures01 [("header", VObj Header01 [("version", VUInt 1 None (VInt 1)); ("message_type", VEnum E_Type01 6); ("length", VNone); ("xid", VInt 0)]); ("datapath_id", VNone); ("n_buffers", VNone); ("n_tables", VNone); ("pad", VPad 3); ("capabilities", VNone); ("actions", VNone); ("ports", VList CList CObject [])].
(* pyof/v0x01/controller2switch/features_reply.py:79-80 *)
Definition attrs_FeaturesReply01 : list (string * pyval) :=
  [("header", VObj Header01 [("version", VUInt 1 None (VInt 1)); ("message_type", VEnum E_Type01 6); ("length", VNone); ("xid", VNone)]);
   ("datapath_id", VDPID VNone);
   ("n_buffers", VUInt 4 None VNone);
   ("n_tables", VUInt 1 None VNone);
   ("pad", VPad 3);
   ("capabilities", VUInt 4 (Some E_Capabilities01) VNone);
   ("actions", VUInt 4 (Some E_ActionType01) VNone);
   ("ports", VList ListOfPhyPorts01 PhyPort01 [])].
Definition new_FeaturesReply01 : pyval :=
  VObj FeaturesReply01 [("header", VObj Header01 [("version", VUInt 1 None (VInt 1)); ("message_type", VEnum E_Type01 6); ("length", VNone); ("xid", VInt 0)]); ("datapath_id", VNone); ("n_buffers", VNone); ("n_tables", VNone); ("pad", VPad 3); ("capabilities", VNone); ("actions", VNone); ("ports", VList CList CObject [])].
(* pyof/v0x01/controller2switch/features_request.py:11-18 *)
Definition attrs_FeaturesRequest01 : list (string * pyval) :=
  [("header", VObj Header01 [("version", VUInt 1 None (VInt 1)); ("message_type", VEnum E_Type01 5); ("length", VNone); ("xid", VNone)])].
Definition new_FeaturesRequest01 : pyval :=
  VObj FeaturesRequest01 [("header", VObj Header01 [("version", VUInt 1 None (VInt 1)); ("message_type", VEnum E_Type01 5); ("length", VNone); ("xid", VInt 0)])].
(* pyof/v0x01/controller2switch/flow_mod.py:49-101 *)
Definition attrs_FlowMod01 : list (string * pyval) :=
  [("header", VObj Header01 [("version", VUInt 1 None (VInt 1)); ("message_type", VEnum E_Type01 14); ("length", VNone); ("xid", VNone)]);
   ("match", new_Match01);
   ("cookie", VUInt 8 None VNone);
   ("command", VUInt 2 (Some E_FlowModCommand01) VNone);
   ("idle_timeout", VUInt 2 None VNone);
   ("hard_timeout", VUInt 2 None VNone);
   ("priority", VUInt 2 None VNone);
   ("buffer_id", VUInt 4 None VNone);
   ("out_port", VUInt 2 (Some E_Port01) VNone);
   ("flags", VUInt 2 (Some E_FlowModFlags01) VNone);
   ("actions", VList ListOfActions01 ActionHeader01 [])].
Definition new_FlowMod01 : pyval :=
  VObj FlowMod01 [("header", VObj Header01 [("version", VUInt 1 None (VInt 1)); ("message_type", VEnum E_Type01 14); ("length", VNone); ("xid", VInt 0)]); ("match", new_Match01); ("cookie", VInt 0); ("command", VNone); ("idle_timeout", VInt 0); ("hard_timeout", VInt 0); ("priority", VInt 0); ("buffer_id", VInt 4294967295); ("out_port", VEnum E_Port01 65535); ("flags", VInt 1); ("actions", VList CList CObject [])].
(* pyof/v0x01/controller2switch/get_config_reply.py:13-27 *)
Definition attrs_GetConfigReply01 : list (string * pyval) :=
  [("header", new_Header01);
   ("flags", VUInt 2 (Some E_ConfigFlag01) VNone);
   ("miss_send_len", VUInt 2 None VNone)].
Definition new_GetConfigReply01 : pyval :=
  VObj GetConfigReply01 [("header", VObj Header01 [("version", VUInt 1 None (VInt 1)); ("message_type", VEnum E_Type01 8); ("length", VNone); ("xid", VInt 0)]); ("flags", VNone); ("miss_send_len", VNone)].
(* pyof/v0x01/controller2switch/get_config_request.py:11-14 *)
Definition attrs_GetConfigRequest01 : list (string * pyval) :=
  [("header", VObj Header01 [("version", VUInt 1 None (VInt 1)); ("message_type", VEnum E_Type01 7); ("length", VNone); ("xid", VNone)])].
Definition new_GetConfigRequest01 : pyval :=
  VObj GetConfigRequest01 [("header", VObj Header01 [("version", VUInt 1 None (VInt 1)); ("message_type", VEnum E_Type01 7); ("length", VNone); ("xid", VInt 0)])].
(* pyof/v0x01/controller2switch/packet_out.py:20-129 *)
Definition attrs_PacketOut01 : list (string * pyval) :=
  [("header", VObj Header01 [("version", VUInt 1 None (VInt 1)); ("message_type", VEnum E_Type01 13); ("length", VNone); ("xid", VNone)]);
   ("buffer_id", VUInt 4 None VNone);
   ("in_port", VUInt 2 None VNone);
   ("actions_len", VUInt 2 None VNone);
   ("actions", VList ListOfActions01 ActionHeader01 []);
   ("data", VBin VNone)].
Definition new_PacketOut01 : pyval :=
  VObj PacketOut01 [("header", VObj Header01 [("version", VUInt 1 None (VInt 1)); ("message_type", VEnum E_Type01 13); ("length", VNone); ("xid", VInt 0)]); ("buffer_id", VInt 4294967295); ("in_port", VEnum E_Port01 65535); ("actions_len", VUInt 2 None VNone); ("actions", VList CList CObject []); ("data", VBytes [])].
(* pyof/v0x01/controller2switch/port_mod.py:18-52 *)
Definition attrs_PortMod01 : list (string * pyval) :=
  [("header", VObj Header01 [("version", VUInt 1 None (VInt 1)); ("message_type", VEnum E_Type01 15); ("length", VNone); ("xid", VNone)]);
   ("port_no", VUInt 2 None VNone);
   ("hw_addr", VHW (VStr (txt "00:00:00:00:00:00")));
   ("config", VUInt 4 (Some E_PortConfig01) VNone);
   ("mask", VUInt 4 (Some E_PortConfig01) VNone);
   ("advertise", VUInt 4 (Some E_PortFeatures01) VNone);
   ("pad", VPad 4)].
Definition new_PortMod01 : pyval :=
  VObj PortMod01 [("header", VObj Header01 [("version", VUInt 1 None (VInt 1)); ("message_type", VEnum E_Type01 15); ("length", VNone); ("xid", VInt 0)]); ("port_no", VNone); ("hw_addr", VNone); ("config", VNone); ("mask", VNone); ("advertise", VNone); ("pad", VPad 4)].
(* pyof/v0x01/controller2switch/queue_get_config_reply.py:17-38 *)
Definition attrs_QueueGetConfigReply01 : list (string * pyval) :=
  [("header", VObj Header01 [("version", VUInt 1 None (VInt 1)); ("message_type", VEnum E_Type01 21); ("length", VNone); ("xid", VNone)]);
   ("port", VUInt 2 (Some E_Port01) VNone);
   ("pad", VPad 6);
   ("queues", VList ListOfQueues01 PacketQueue01 [])].
Definition new_QueueGetConfigReply01 : pyval :=
  VObj QueueGetConfigReply01 [("header", VObj Header01 [("version", VUInt 1 None (VInt 1)); ("message_type", VEnum E_Type01 21); ("length", VNone); ("xid", VInt 0)]); ("port", VNone); ("pad", VPad 6); ("queues", VList CList CObject [])].
(* pyof/v0x01/controller2switch/queue_get_config_request.py:16-32 *)
Definition attrs_QueueGetConfigRequest01 : list (string * pyval) :=
  [("header", VObj Header01 [("version", VUInt 1 None (VInt 1)); ("message_type", VEnum E_Type01 20); ("length", VNone); ("xid", VNone)]);
   ("port", VUInt 2 (Some E_Port01) VNone);
   ("pad", VPad 2)].
Definition new_QueueGetConfigRequest01 : pyval :=
  VObj QueueGetConfigRequest01 [("header", VObj Header01 [("version", VUInt 1 None (VInt 1)); ("message_type", VEnum E_Type01 20); ("length", VNone); ("xid", VInt 0)]); ("port", VNone); ("pad", VPad 2)].
(* pyof/v0x01/controller2switch/set_config.py:14-28 *)
Definition attrs_SetConfig01 : list (string * pyval) :=
  [("header", new_Header01);
   ("flags", VUInt 2 (Some E_ConfigFlag01) VNone);
   ("miss_send_len", VUInt 2 None VNone)].
Definition new_SetConfig01 : pyval :=
  VObj SetConfig01 [("header", VObj Header01 [("version", VUInt 1 None (VInt 1)); ("message_type", VEnum E_Type01 9); ("length", VNone); ("xid", VInt 0)]); ("flags", VNone); ("miss_send_len", VNone)].
(* pyof/v0x01/controller2switch/stats_reply.py:12-101 *)
Definition attrs_StatsReply01 : list (string * pyval) :=
  [("header", VObj Header01 [("version", VUInt 1 None (VInt 1)); ("message_type", VEnum E_Type01 17); ("length", VNone); ("xid", VNone)]);
   ("body_type", VUInt 2 (Some E_StatsType01) VNone);
   ("flags", VUInt 2 None VNone);
   ("body", VBin VNone)].
Definition new_StatsReply01 : pyval :=
  VObj StatsReply01 [("header", VObj Header01 [("version", VUInt 1 None (VInt 1)); ("message_type", VEnum E_Type01 17); ("length", VNone); ("xid", VInt 0)]); ("body_type", VNone); ("flags", VNone); ("body", VBytes [])].
(* pyof/v0x01/controller2switch/stats_request.py:18-77 *)
Definition attrs_StatsRequest01 : list (string * pyval) :=
  [("header", VObj Header01 [("version", VUInt 1 None (VInt 1)); ("message_type", VEnum E_Type01 16); ("length", VNone); ("xid", VNone)]);
   ("body_type", VUInt 2 (Some E_StatsType01) VNone);
   ("flags", VUInt 2 None VNone);
   ("body", VBin VNone)].
Definition new_StatsRequest01 : pyval :=
  VObj StatsRequest01 [("header", VObj Header01 [("version", VUInt 1 None (VInt 1)); ("message_type", VEnum E_Type01 16); ("length", VNone); ("xid", VInt 0)]); ("body_type", VNone); ("flags", VInt 0); ("body", VBytes [])].
(* pyof/v0x01/symmetric/echo_reply.py:16-33 *)
Definition attrs_EchoReply01 : list (string * pyval) :=
  [("header", VObj Header01 [("version", VUInt 1 None (VInt 1)); ("message_type", VEnum E_Type01 3); ("length", VInt 8); ("xid", VNone)]);
   ("data", VBin VNone)].
Definition new_EchoReply01 : pyval :=
  VObj EchoReply01 [("header", VObj Header01 [("version", VUInt 1 None (VInt 1)); ("message_type", VEnum E_Type01 3); ("length", VInt 8); ("xid", VInt 0)]); ("data", VNone)].
(* pyof/v0x01/symmetric/echo_request.py:16-33 *)
Definition attrs_EchoRequest01 : list (string * pyval) :=
  [("header", VObj Header01 [("version", VUInt 1 None (VInt 1)); ("message_type", VEnum E_Type01 2); ("length", VInt 8); ("xid", VNone)]);
   ("data", VBin VNone)].
Definition new_EchoRequest01 : pyval :=
  VObj EchoRequest01 [("header", VObj Header01 [("version", VUInt 1 None (VInt 1)); ("message_type", VEnum E_Type01 2); ("length", VInt 8); ("xid", VInt 0)]); ("data", VNone)].
(* pyof/v0x01/symmetric/hello.py:16-23 *)
Definition attrs_Hello01 : list (string * pyval) :=
  [("header", VObj Header01 [("version", VUInt 1 None (VInt 1)); ("message_type", VEnum E_Type01 0); ("length", VInt 8); ("xid", VNone)]);
   ("elements", VBin VNone)].
Definition new_Hello01 : pyval :=
  VObj Hello01 [("header", VObj Header01 [("version", VUInt 1 None (VInt 1)); ("message_type", VEnum E_Type01 0); ("length", VInt 8); ("xid", VInt 0)]); ("elements", VBin VNone)].
(* pyof/v0x01/symmetric/vendor_header.py:16-38 *)
Definition attrs_VendorHeader01 : list (string * pyval) :=
  [("header", VObj Header01 [("version", VUInt 1 None (VInt 1)); ("message_type", VEnum E_Type01 4); ("length", VNone); ("xid", VNone)]);
   ("vendor", VUInt 4 None VNone);
   ("data", VBin VNone)].
Definition new_VendorHeader01 : pyval :=
  VObj VendorHeader01 [("header", VObj Header01 [("version", VUInt 1 None (VInt 1)); ("message_type", VEnum E_Type01 4); ("length", VNone); ("xid", VInt 0)]); ("vendor", VNone); ("data", VNone)].
(* pyof/v0x04/common/header.py:83-108 *)
Definition attrs_Header04 : list (string * pyval) :=
  [("version", VUInt 1 None (VInt 4));
   ("message_type", VUInt 1 (Some E_Type04) VNone);
   ("length", VUInt 2 None VNone);
   ("xid", VUInt 4 None VNone)].
Definition new_Header04 : pyval :=
  VObj Header04 [("version", VUInt 1 None (VInt 4)); ("message_type", VNone); ("length", VNone); ("xid", VNone)].
(* pyof/v0x04/asynchronous/error_msg.py:441-478 *)
Definition attrs_ErrorMsg04 : list (string * pyval) :=
  [("header", VObj Header04 [("version", VUInt 1 None (VInt 4)); ("message_type", VEnum E_Type04 1); ("length", VNone); ("xid", VNone)]);
   ("error_type", VUInt 2 (Some E_ErrorType04) VNone);
   ("code", VUInt 2 None VNone);
   ("data", VBin VNone)].
Definition new_ErrorMsg04 : pyval :=
  VObj ErrorMsg04 [("header", VObj Header04 [("version", VUInt 1 None (VInt 4)); ("message_type", VEnum E_Type04 1); ("length", VNone); ("xid", VInt 0)]); ("error_type", VNone); ("code", VNone); ("data", VBytes [])].
(* pyof/v0x04/asynchronous/error_msg.py:481-520 *)
Definition attrs_ErrorExperimenterMsg04 : list (string * pyval) :=
  [("header", VObj Header04 [("version", VUInt 1 None (VInt 4)); ("message_type", VEnum E_Type04 1); ("length", VNone); ("xid", VNone)]);
   ("error_type", VUInt 2 (Some E_ErrorType04) (VEnum E_ErrorType04 65535));
   ("exp_type", VUInt 2 None VNone);
   ("experimenter", VUInt 4 None VNone);
   ("data", VBin VNone)].
Definition new_ErrorExperimenterMsg04 : pyval :=
  VObj ErrorExperimenterMsg04 [("header", VObj Header04 [("version", VUInt 1 None (VInt 4)); ("message_type", VEnum E_Type04 1); ("length", VNone); ("xid", VInt 0)]); ("error_type", VUInt 2 (Some E_ErrorType04) (VEnum E_ErrorType04 65535)); ("exp_type", VNone); ("experimenter", VNone); ("data", VBytes [])].
(* pyof/v0x04/common/flow_match.py:185-301 *)
Definition attrs_OxmTLV04 : list (string * pyval) :=
  [("oxm_class", VUInt 2 (Some E_OxmClass04) VNone);
   ("oxm_field_and_mask", VUInt 1 None VNone);
   ("oxm_length", VUInt 1 None VNone);
   ("oxm_value", VBin VNone)].
Definition new_OxmTLV04 : pyval :=
  VObj OxmTLV04 [("oxm_class", VEnum E_OxmClass04 32768); ("oxm_field_and_mask", VNone); ("oxm_length", VNone); ("oxm_value", VNone); ("oxm_field", VNone); ("oxm_hasmask", VInt 0)].
(* pyof/v0x04/common/flow_match.py:320-413 *)
Definition attrs_Match04 : list (string * pyval) :=
  [("match_type", VUInt 2 (Some E_MatchType04) VNone);
   ("length", VUInt 2 None VNone);
   ("oxm_match_fields", VList OxmMatchFields04 OxmTLV04 [])].
Definition new_Match04 : pyval :=
  VObj Match04 [("match_type", VEnum E_MatchType04 1); ("length", VInt 4); ("oxm_match_fields", VList OxmMatchFields04 OxmTLV04 [])].
(* pyof/v0x04/asynchronous/flow_removed.py:30-95 *)
Definition attrs_FlowRemoved04 : list (string * pyval) :=
  [("header", VObj Header04 [("version", VUInt 1 None (VInt 4)); ("message_type", VEnum E_Type04 11); ("length", VNone); ("xid", VNone)]);
   ("cookie", VUInt 8 None VNone);
   ("priority", VUInt 2 None VNone);
   ("reason", VUInt 1 (Some E_FlowRemovedReason04) VNone);
   ("table_id", VUInt 1 None VNone);
   ("duration_sec", VUInt 4 None VNone);
   ("duration_nsec", VUInt 4 None VNone);
   ("idle_timeout", VUInt 2 None VNone);
   ("hard_timeout", VUInt 2 None VNone);
   ("packet_count", VUInt 8 None VNone);
   ("byte_count", VUInt 8 None VNone);
   ("match", new_Match04)].
Definition new_FlowRemoved04 : pyval :=
  VObj FlowRemoved04 [("header", VObj Header04 [("version", VUInt 1 None (VInt 4)); ("message_type", VEnum E_Type04 11); ("length", VNone); ("xid", VInt 0)]); ("cookie", VNone); ("priority", VNone); ("reason", VNone); ("table_id", VNone); ("duration_sec", VNone); ("duration_nsec", VNone); ("idle_timeout", VNone); ("hard_timeout", VNone); ("packet_count", VNone); ("byte_count", VNone); ("match", VNone)].
(* pyof/v0x04/asynchronous/packet_in.py:34-101 *)
Definition attrs_PacketIn04 : list (string * pyval) :=
  [("header", VObj Header04 [("version", VUInt 1 None (VInt 4)); ("message_type", VEnum E_Type04 10); ("length", VNone); ("xid", VNone)]);
   ("buffer_id", VUInt 4 None VNone);
   ("total_len", VUInt 2 None VNone);
   ("reason", VUInt 1 (Some E_PacketInReason04) VNone);
   ("table_id", VUInt 1 None VNone);
   ("cookie", VUInt 8 None VNone);
   ("match", new_Match04);
   ("pad", VPad 2);
   ("data", VBin VNone)].
Definition new_PacketIn04 : pyval :=
  VObj PacketIn04 [("header", VObj Header04 [("version", VUInt 1 None (VInt 4)); ("message_type", VEnum E_Type04 10); ("length", VNone); ("xid", VInt 0)]); ("buffer_id", VNone); ("total_len", VNone); ("reason", VNone); ("table_id", VNone); ("cookie", VNone); ("match", VNone); ("pad", VPad 2); ("data", VBytes [])].
(* pyof/v0x04/common/port.py:169-233 *)
Definition attrs_Port04 : list (string * pyval) :=
  [("port_no", VUInt 4 None VNone);
   ("pad", VPad 4);
   ("hw_addr", VHW (VStr (txt "00:00:00:00:00:00")));
   ("pad2", VPad 2);
   ("name", VChar 16 VNone);
   ("config", VUInt 4 (Some E_PortConfig04) VNone);
   ("state", VUInt 4 (Some E_PortState04) VNone);
   ("curr", VUInt 4 (Some E_PortFeatures04) VNone);
   ("advertised", VUInt 4 (Some E_PortFeatures04) VNone);
   ("supported", VUInt 4 (Some E_PortFeatures04) VNone);
   ("peer", VUInt 4 (Some E_PortFeatures04) VNone);
   ("curr_speed", VUInt 4 None VNone);
   ("max_speed", VUInt 4 None VNone)].
Definition new_Port04 : pyval :=
  VObj Port04 [("port_no", VNone); ("pad", VPad 4); ("hw_addr", VNone); ("pad2", VPad 2); ("name", VNone); ("config", VNone); ("state", VNone); ("curr", VNone); ("advertised", VNone); ("supported", VNone); ("peer", VNone); ("curr_speed", VNone); ("max_speed", VNone)].
(* pyof/v0x04/asynchronous/port_status.py:31-54 *)
Definition attrs_PortStatus04 : list (string * pyval) :=
  [("header", VObj Header04 [("version", VUInt 1 None (VInt 4)); ("message_type", VEnum E_Type04 12); ("length", VNone); ("xid", VNone)]);
   ("reason", VUInt 1 (Some E_PortReason04) VNone);
   ("pad", VPad 7);
   ("desc", new_Port04)].
Definition new_PortStatus04 : pyval :=
  VObj PortStatus04 [("header", VObj Header04 [("version", VUInt 1 None (VInt 4)); ("message_type", VEnum E_Type04 12); ("length", VNone); ("xid", VInt 0)]); ("reason", VNone); ("pad", VPad 7); ("desc", VNone)].
(* pyof/v0x04/common/action.py:80-150 *)
Definition attrs_ActionHeader04 : list (string * pyval) :=
  [("action_type", VUInt 2 (Some E_ActionType04) VNone);
   ("length", VUInt 2 None VNone)].
Definition new_ActionHeader04 : pyval :=
  VObj ActionHeader04 [("action_type", VNone); ("length", VNone)].
(* pyof/v0x04/common/action.py:153-173 *)
Definition attrs_ActionExperimenter04 : list (string * pyval) :=
  [("action_type", VUInt 2 (Some E_ActionType04) VNone);
   ("length", VUInt 2 None VNone);
   ("experimenter", VUInt 4 None VNone);
   ("body", VBin VNone)].
Definition new_ActionExperimenter04 : pyval :=
  VObj ActionExperimenter04 [("action_type", VEnum E_ActionType04 65535); ("length", VNone); ("experimenter", VNone); ("body", VNone)].
(* pyof/v0x04/common/action.py:176-192 *)
Definition attrs_ActionGroup04 : list (string * pyval) :=
  [("action_type", VUInt 2 (Some E_ActionType04) VNone);
   ("length", VUInt 2 None VNone);
   ("group_id", VUInt 4 None VNone)].
Definition new_ActionGroup04 : pyval :=
  VObj ActionGroup04 [("action_type", VEnum E_ActionType04 22); ("length", VInt 8); ("group_id", VNone)].
(* pyof/v0x04/common/action.py:195-204 *)
Definition attrs_ActionDecMPLSTTL04 : list (string * pyval) :=
  [("action_type", VUInt 2 (Some E_ActionType04) VNone);
   ("length", VUInt 2 None VNone);
   ("pad", VPad 4)].
Definition new_ActionDecMPLSTTL04 : pyval :=
  VObj ActionDecMPLSTTL04 [("action_type", VEnum E_ActionType04 16); ("length", VInt 8); ("pad", VPad 4)].
(* pyof/v0x04/common/action.py:207-222 *)
Definition attrs_ActionSetMPLSTTL04 : list (string * pyval) :=
  [("action_type", VUInt 2 (Some E_ActionType04) VNone);
   ("length", VUInt 2 None VNone);
   ("mpls_ttl", VUInt 1 None VNone);
   ("pad", VPad 3)].
Definition new_ActionSetMPLSTTL04 : pyval :=
  VObj ActionSetMPLSTTL04 [("action_type", VEnum E_ActionType04 15); ("length", VInt 8); ("mpls_ttl", VNone); ("pad", VPad 3)].
(* pyof/v0x04/common/action.py:225-234 *)
Definition attrs_ActionCopyTTLIn04 : list (string * pyval) :=
  [("action_type", VUInt 2 (Some E_ActionType04) VNone);
   ("length", VUInt 2 None VNone);
   ("pad", VPad 4)].
Definition new_ActionCopyTTLIn04 : pyval :=
  VObj ActionCopyTTLIn04 [("action_type", VEnum E_ActionType04 12); ("length", VInt 8); ("pad", VPad 4)].
(* pyof/v0x04/common/action.py:237-246 *)
Definition attrs_ActionCopyTTLOut04 : list (string * pyval) :=
  [("action_type", VUInt 2 (Some E_ActionType04) VNone);
   ("length", VUInt 2 None VNone);
   ("pad", VPad 4)].
Definition new_ActionCopyTTLOut04 : pyval :=
  VObj ActionCopyTTLOut04 [("action_type", VEnum E_ActionType04 11); ("length", VInt 8); ("pad", VPad 4)].
(* pyof/v0x04/common/action.py:249-258 *)
Definition attrs_ActionPopVLAN04 : list (string * pyval) :=
  [("action_type", VUInt 2 (Some E_ActionType04) VNone);
   ("length", VUInt 2 None VNone);
   ("pad", VPad 4)].
Definition new_ActionPopVLAN04 : pyval :=
  VObj ActionPopVLAN04 [("action_type", VEnum E_ActionType04 18); ("length", VInt 8); ("pad", VPad 4)].
(* pyof/v0x04/common/action.py:261-270 *)
Definition attrs_ActionPopPBB04 : list (string * pyval) :=
  [("action_type", VUInt 2 (Some E_ActionType04) VNone);
   ("length", VUInt 2 None VNone);
   ("pad", VPad 4)].
Definition new_ActionPopPBB04 : pyval :=
  VObj ActionPopPBB04 [("action_type", VEnum E_ActionType04 27); ("length", VInt 8); ("pad", VPad 4)].
(* pyof/v0x04/common/action.py:273-282 *)
Definition attrs_ActionDecNWTTL04 : list (string * pyval) :=
  [("action_type", VUInt 2 (Some E_ActionType04) VNone);
   ("length", VUInt 2 None VNone);
   ("pad", VPad 4)].
Definition new_ActionDecNWTTL04 : pyval :=
  VObj ActionDecNWTTL04 [("action_type", VEnum E_ActionType04 24); ("length", VInt 8); ("pad", VPad 4)].
(* pyof/v0x04/common/action.py:285-300 *)
Definition attrs_ActionSetNWTTL04 : list (string * pyval) :=
  [("action_type", VUInt 2 (Some E_ActionType04) VNone);
   ("length", VUInt 2 None VNone);
   ("nw_ttl", VUInt 1 None VNone);
   ("pad", VPad 3)].
Definition new_ActionSetNWTTL04 : pyval :=
  VObj ActionSetNWTTL04 [("action_type", VEnum E_ActionType04 23); ("length", VInt 8); ("nw_ttl", VNone); ("pad", VPad 3)].
(* pyof/v0x04/common/action.py:303-332 *)
Definition attrs_ActionOutput04 : list (string * pyval) :=
  [("action_type", VUInt 2 (Some E_ActionType04) VNone);
   ("length", VUInt 2 None VNone);
   ("port", VUInt 4 None VNone);
   ("max_length", VUInt 2 None VNone);
   ("pad", VPad 6)].
Definition new_ActionOutput04 : pyval :=
  VObj ActionOutput04 [("action_type", VEnum E_ActionType04 0); ("length", VInt 16); ("port", VNone); ("max_length", VEnum E_ControllerMaxLen04 65535); ("pad", VPad 6)].
(* pyof/v0x04/common/action.py:335-350 *)
Definition attrs_ActionPopMPLS04 : list (string * pyval) :=
  [("action_type", VUInt 2 (Some E_ActionType04) VNone);
   ("length", VUInt 2 None VNone);
   ("ethertype", VUInt 2 None VNone);
   ("pad", VPad 2)].
Definition new_ActionPopMPLS04 : pyval :=
  VObj ActionPopMPLS04 [("action_type", VEnum E_ActionType04 20); ("length", VNone); ("ethertype", VNone); ("pad", VPad 2)].
(* pyof/v0x04/common/action.py:353-371 *)
Definition attrs_ActionPush04 : list (string * pyval) :=
  [("action_type", VUInt 2 (Some E_ActionType04) VNone);
   ("length", VUInt 2 None VNone);
   ("ethertype", VUInt 2 None VNone);
   ("pad", VPad 2)].
Definition new_ActionPush04 : pyval :=
  VObj ActionPush04 [("action_type", VNone); ("length", VInt 8); ("ethertype", VNone); ("pad", VPad 2)].
(* pyof/v0x04/common/action.py:374-418 *)
Definition attrs_ActionSetField04 : list (string * pyval) :=
  [("action_type", VUInt 2 (Some E_ActionType04) VNone);
   ("length", VUInt 2 None VNone);
   ("field", new_OxmTLV04)].
Definition new_ActionSetField04 : pyval :=
  VObj ActionSetField04 [("action_type", VEnum E_ActionType04 25); ("length", VNone); ("field", new_OxmTLV04)].
(* pyof/v0x04/common/action.py:421-435 *)
Definition attrs_ActionSetQueue04 : list (string * pyval) :=
  [("action_type", VUInt 2 (Some E_ActionType04) VNone);
   ("length", VUInt 2 None VNone);
   ("queue_id", VUInt 4 None VNone)].
Definition new_ActionSetQueue04 : pyval :=
  VObj ActionSetQueue04 [("action_type", VEnum E_ActionType04 21); ("length", VInt 8); ("queue_id", VNone)].
(* pyof/v0x04/common/flow_instructions.py:56-119 *)
Definition attrs_Instruction04 : list (string * pyval) :=
  [("instruction_type", VUInt 2 (Some E_InstructionType04) VNone);
   ("length", VUInt 2 None VNone)].
Definition new_Instruction04 : pyval :=
  VObj Instruction04 [("instruction_type", VNone); ("length", VUInt 2 None VNone)].
(* pyof/v0x04/common/flow_instructions.py:122-142 *)
Definition attrs_InstructionApplyAction04 : list (string * pyval) :=
  [("instruction_type", VUInt 2 (Some E_InstructionType04) VNone);
   ("length", VUInt 2 None VNone);
   ("pad", VPad 4);
   ("actions", VList ListOfActions04 ActionHeader04 [])].
Definition new_InstructionApplyAction04 : pyval :=
  VObj InstructionApplyAction04 [("instruction_type", VEnum E_InstructionType04 4); ("length", VUInt 2 None VNone); ("pad", VPad 4); ("actions", VList CList CObject [])].
(* pyof/v0x04/common/flow_instructions.py:145-164 *)
Definition attrs_InstructionClearAction04 : list (string * pyval) :=
  [("instruction_type", VUInt 2 (Some E_InstructionType04) VNone);
   ("length", VUInt 2 None VNone);
   ("pad", VPad 4);
   ("actions", VList ListOfActions04 ActionHeader04 [])].
Definition new_InstructionClearAction04 : pyval :=
  VObj InstructionClearAction04 [("instruction_type", VEnum E_InstructionType04 5); ("length", VUInt 2 None VNone); ("pad", VPad 4); ("actions", VList CList CObject [])].
(* pyof/v0x04/common/flow_instructions.py:167-183 *)
Definition attrs_InstructionGotoTable04 : list (string * pyval) :=
  [("instruction_type", VUInt 2 (Some E_InstructionType04) VNone);
   ("length", VUInt 2 None VNone);
   ("table_id", VUInt 1 None VNone);
   ("pad", VPad 3)].
Definition new_InstructionGotoTable04 : pyval :=
  VObj InstructionGotoTable04 [("instruction_type", VEnum E_InstructionType04 1); ("length", VUInt 2 None VNone); ("table_id", VEnum E_Meter04 4294967295); ("pad", VPad 3)].
(* pyof/v0x04/common/flow_instructions.py:186-202 *)
Definition attrs_InstructionMeter04 : list (string * pyval) :=
  [("instruction_type", VUInt 2 (Some E_InstructionType04) VNone);
   ("length", VUInt 2 None VNone);
   ("meter_id", VUInt 4 None VNone)].
Definition new_InstructionMeter04 : pyval :=
  VObj InstructionMeter04 [("instruction_type", VEnum E_InstructionType04 6); ("length", VUInt 2 None VNone); ("meter_id", VEnum E_Meter04 4294967295)].
(* pyof/v0x04/common/flow_instructions.py:205-225 *)
Definition attrs_InstructionWriteAction04 : list (string * pyval) :=
  [("instruction_type", VUInt 2 (Some E_InstructionType04) VNone);
   ("length", VUInt 2 None VNone);
   ("pad", VPad 4);
   ("actions", VList ListOfActions04 ActionHeader04 [])].
Definition new_InstructionWriteAction04 : pyval :=
  VObj InstructionWriteAction04 [("instruction_type", VEnum E_InstructionType04 3); ("length", VUInt 2 None VNone); ("pad", VPad 4); ("actions", VList CList CObject [])].
(* pyof/v0x04/common/flow_instructions.py:228-247 *)
Definition attrs_InstructionWriteMetadata04 : list (string * pyval) :=
  [("instruction_type", VUInt 2 (Some E_InstructionType04) VNone);
   ("length", VUInt 2 None VNone);
   ("pad", VPad 4);
   ("metadata", VUInt 8 None VNone);
   ("metadata_mask", VUInt 8 None VNone)].
Definition new_InstructionWriteMetadata04 : pyval :=
  VObj InstructionWriteMetadata04 [("instruction_type", VEnum E_InstructionType04 2); ("length", VUInt 2 None VNone); ("pad", VPad 4); ("metadata", VInt 0); ("metadata_mask", VInt 0)].
(* pyof/v0x04/common/flow_match.py:416-435 *)
Definition attrs_OxmExperimenterHeader04 : list (string * pyval) :=
  [("oxm_header", VUInt 4 (Some E_OxmClass04) (VEnum E_OxmClass04 65535));
   ("experimenter", VUInt 4 None VNone)].
Definition new_OxmExperimenterHeader04 : pyval :=
  VObj OxmExperimenterHeader04 [("oxm_header", VUInt 4 (Some E_OxmClass04) (VEnum E_OxmClass04 65535)); ("experimenter", VNone)].
(* pyof/v0x04/common/queue.py:34-54 *)
Definition attrs_QueuePropHeader04 : list (string * pyval) :=
  [("queue_property", VUInt 2 (Some E_QueueProperties04) VNone);
   ("length", VUInt 2 None VNone);
   ("pad", VPad 4)].
Definition new_QueuePropHeader04 : pyval :=
  VObj QueuePropHeader04 [("queue_property", VNone); ("length", VNone); ("pad", VPad 4)].
(* pyof/v0x04/common/queue.py:75-103 *)
Definition attrs_PacketQueue04 : list (string * pyval) :=
  [("queue_id", VUInt 4 None VNone);
   ("port", VUInt 4 None VNone);
   ("length", VUInt 2 None VNone);
   ("pad", VPad 6);
   ("properties", VList ListOfProperties04 QueuePropHeader04 [])].
Definition new_PacketQueue04 : pyval :=
  VObj PacketQueue04 [("queue_id", VNone); ("port", VNone); ("length", VNone); ("pad", VPad 6); ("properties", VList CList CObject [])].
(* pyof/v0x04/common/queue.py:124-147 *)
Definition attrs_QueuePropExperimenter04 : list (string * pyval) :=
  [("prop_header", VObj QueuePropHeader04 [("queue_property", VEnum E_QueueProperties04 65535); ("length", VInt 16); ("pad", VPad 4)]);
   ("experimenter", VUInt 4 None VNone);
   ("pad", VPad 4);
   ("data", VBin VNone)].
Definition new_QueuePropExperimenter04 : pyval :=
  VObj QueuePropExperimenter04 [("prop_header", VObj QueuePropHeader04 [("queue_property", VEnum E_QueueProperties04 65535); ("length", VInt 16); ("pad", VPad 4)]); ("experimenter", VNone); ("pad", VPad 4); ("data", VNone)].
(* pyof/v0x04/common/queue.py:150-167 *)
Definition attrs_QueuePropMaxRate04 : list (string * pyval) :=
  [("prop_header", VObj QueuePropHeader04 [("queue_property", VEnum E_QueueProperties04 2); ("length", VInt 16); ("pad", VPad 4)]);
   ("rate", VUInt 2 None VNone);
   ("pad", VPad 6)].
Definition new_QueuePropMaxRate04 : pyval :=
  VObj QueuePropMaxRate04 [("prop_header", VObj QueuePropHeader04 [("queue_property", VEnum E_QueueProperties04 2); ("length", VInt 16); ("pad", VPad 4)]); ("rate", VNone); ("pad", VPad 6)].
(* pyof/v0x04/common/queue.py:170-187 *)
Definition attrs_QueuePropMinRate04 : list (string * pyval) :=
  [("prop_header", VObj QueuePropHeader04 [("queue_property", VEnum E_QueueProperties04 1); ("length", VInt 16); ("pad", VPad 4)]);
   ("rate", VUInt 2 None VNone);
   ("pad", VPad 6)].
Definition new_QueuePropMinRate04 : pyval :=
  VObj QueuePropMinRate04 [("prop_header", VObj QueuePropHeader04 [("queue_property", VEnum E_QueueProperties04 1); ("length", VInt 16); ("pad", VPad 4)]); ("rate", VNone); ("pad", VPad 6)].
(* pyof/v0x04/controller2switch/barrier_reply.py:15-21 *)
Definition attrs_BarrierReply04 : list (string * pyval) :=
  [("header", VObj Header04 [("version", VUInt 1 None (VInt 4)); ("message_type", VEnum E_Type04 21); ("length", VNone); ("xid", VNone)])].
Definition new_BarrierReply04 : pyval :=
  VObj BarrierReply04 [("header", VObj Header04 [("version", VUInt 1 None (VInt 4)); ("message_type", VEnum E_Type04 21); ("length", VNone); ("xid", VInt 0)])].
(* pyof/v0x04/controller2switch/barrier_request.py:15-21 *)
Definition attrs_BarrierRequest04 : list (string * pyval) :=
  [("header", VObj Header04 [("version", VUInt 1 None (VInt 4)); ("message_type", VEnum E_Type04 20); ("length", VNone); ("xid", VNone)])].
Definition new_BarrierRequest04 : pyval :=
  VObj BarrierRequest04 [("header", VObj Header04 [("version", VUInt 1 None (VInt 4)); ("message_type", VEnum E_Type04 20); ("length", VNone); ("xid", VInt 0)])].
(* pyof/v0x04/controller2switch/common.py:193-249 *)
Definition attrs_Bucket04 : list (string * pyval) :=
  [("length", VUInt 2 None VNone);
   ("weight", VUInt 2 None VNone);
   ("watch_port", VUInt 4 None VNone);
   ("watch_group", VUInt 4 None VNone);
   ("pad", VPad 4);
   ("actions", VList CFixedTypeList ActionHeader04 [])].
Definition new_Bucket04 : pyval :=
  VObj Bucket04 [("length", VNone); ("weight", VNone); ("watch_port", VNone); ("watch_group", VNone); ("pad", VPad 4); ("actions", VNone)].
(* pyof/v0x04/controller2switch/common.py:252-270 *)
Definition attrs_BucketCounter04 : list (string * pyval) :=
  [("packet_count", VUInt 8 None VNone);
   ("byte_count", VUInt 8 None VNone)].
Definition new_BucketCounter04 : pyval :=
  VObj BucketCounter04 [("packet_count", VNone); ("byte_count", VNone)].
(* pyof/v0x04/controller2switch/common.py:293-351 *)
Definition attrs_AsyncConfig04 : list (string * pyval) :=
  [("header", new_Header04);
   ("packet_in_mask1", VUInt 4 (Some E_PacketInReason04) VNone);
   ("packet_in_mask2", VUInt 4 (Some E_PacketInReason04) VNone);
   ("port_status_mask1", VUInt 4 (Some E_PortReason04) VNone);
   ("port_status_mask2", VUInt 4 (Some E_PortReason04) VNone);
   ("flow_removed_mask1", VUInt 4 (Some E_FlowRemovedReason04) VNone);
   ("flow_removed_mask2", VUInt 4 (Some E_FlowRemovedReason04) VNone)].
Definition new_AsyncConfig04 : pyval :=
  VObj AsyncConfig04 [("header", VObj Header04 [("version", VUInt 1 None (VInt 4)); ("message_type", VNone); ("length", VNone); ("xid", VInt 0)]); ("packet_in_mask1", VNone); ("packet_in_mask2", VNone); ("port_status_mask1", VNone); ("port_status_mask2", VNone); ("flow_removed_mask1", VNone); ("flow_removed_mask2", VNone)].
(* pyof/v0x04/controller2switch/common.py:354-378 *)
Definition attrs_RoleBaseMessage04 : list (string * pyval) :=
  [("header", new_Header04);
   ("role", VUInt 4 (Some E_ControllerRole04) VNone);
   ("pad", VPad 4);
   ("generation_id", VUInt 8 None VNone)].
Definition new_RoleBaseMessage04 : pyval :=
  VObj RoleBaseMessage04 [("header", VObj Header04 [("version", VUInt 1 None (VInt 4)); ("message_type", VNone); ("length", VNone); ("xid", VInt 0)]); ("role", VNone); ("pad", VPad 4); ("generation_id", VNone)].
(* pyof/v0x04/controller2switch/common.py:381-402 *)
Definition attrs_SwitchConfig04 : list (string * pyval) :=
  [("header", new_Header04);
   ("flags", VUInt 2 (Some E_ConfigFlag04) VNone);
   ("miss_send_len", VUInt 2 None VNone)].
Definition new_SwitchConfig04 : pyval :=
  VObj SwitchConfig04 [("header", VObj Header04 [("version", VUInt 1 None (VInt 4)); ("message_type", VNone); ("length", VNone); ("xid", VInt 0)]); ("flags", VEnum E_ConfigFlag04 0); ("miss_send_len", VEnum E_ControllerMaxLen04 65535)].
(* pyof/v0x04/controller2switch/common.py:407-426 *)
Definition attrs_ExperimenterMultipartHeader04 : list (string * pyval) :=
  [("experimenter", VUInt 4 None VNone);
   ("exp_type", VUInt 4 None VNone)].
Definition new_ExperimenterMultipartHeader04 : pyval :=
  VObj ExperimenterMultipartHeader04 [("experimenter", VNone); ("exp_type", VNone)].
(* pyof/v0x04/controller2switch/common.py:429-483 *)
Definition attrs_Property04 : list (string * pyval) :=
  [("property_type", VUInt 2 (Some E_TableFeaturePropType04) VNone);
   ("length", VUInt 2 None (VInt 4))].
Definition new_Property04 : pyval :=
  VObj Property04 [("property_type", VNone); ("length", VUInt 2 None (VInt 4))].
(* pyof/v0x04/controller2switch/common.py:486-509 *)
Definition attrs_InstructionsProperty04 : list (string * pyval) :=
  [("property_type", VUInt 2 (Some E_TableFeaturePropType04) VNone);
   ("length", VUInt 2 None (VInt 4));
   ("instruction_ids", VList ListOfInstruction04 Instruction04 [])].
Definition new_InstructionsProperty04 : pyval :=
  VObj InstructionsProperty04 [("property_type", VEnum E_TableFeaturePropType04 0); ("length", VInt 4); ("instruction_ids", VList CList CObject [])].
(* pyof/v0x04/controller2switch/common.py:512-536 *)
Definition attrs_NextTablesProperty04 : list (string * pyval) :=
  [("property_type", VUInt 2 (Some E_TableFeaturePropType04) VNone);
   ("length", VUInt 2 None (VInt 4));
   ("next_table_ids", VList ListOfInstruction04 Instruction04 [])].
Definition new_NextTablesProperty04 : pyval :=
  VObj NextTablesProperty04 [("property_type", VEnum E_TableFeaturePropType04 2); ("length", VInt 4); ("next_table_ids", VList ListOfInstruction04 Instruction04 [])].
(* pyof/v0x04/controller2switch/common.py:539-565 *)
Definition attrs_ActionsProperty04 : list (string * pyval) :=
  [("property_type", VUInt 2 (Some E_TableFeaturePropType04) VNone);
   ("length", VUInt 2 None (VInt 4));
   ("action_ids", VList ListOfActions04 ActionHeader04 [])].
Definition new_ActionsProperty04 : pyval :=
  VObj ActionsProperty04 [("property_type", VEnum E_TableFeaturePropType04 4); ("length", VInt 4); ("action_ids", VList ListOfActions04 ActionHeader04 [])].
(* pyof/v0x04/controller2switch/common.py:568-595 *)
Definition attrs_OxmProperty04 : list (string * pyval) :=
  [("property_type", VUInt 2 (Some E_TableFeaturePropType04) VNone);
   ("length", VUInt 2 None (VInt 4));
   ("oxm_ids", VList ListOfOxmHeader04 OxmTLV04 [])].
Definition new_OxmProperty04 : pyval :=
  VObj OxmProperty04 [("property_type", VEnum E_TableFeaturePropType04 8); ("length", VInt 4); ("oxm_ids", VList ListOfOxmHeader04 OxmTLV04 [])].
(* pyof/v0x04/controller2switch/common.py:614-706 *)
Definition attrs_TableFeatures04 : list (string * pyval) :=
  [("length", VUInt 2 None VNone);
   ("table_id", VUInt 1 None VNone);
   ("pad", VPad 5);
   ("name", VChar 32 VNone);
   ("metadata_match", VUInt 8 None VNone);
   ("metadata_write", VUInt 8 None VNone);
   ("config", VUInt 4 None VNone);
   ("max_entries", VUInt 4 None VNone);
   ("properties", VList ListOfProperty04 Property04 [])].
Definition new_TableFeatures04 : pyval :=
  VObj TableFeatures04 [("length", VInt 64); ("table_id", VEnum E_Table04 255); ("pad", VPad 5); ("name", VStr (txt "")); ("metadata_match", VInt 18446744073709551615); ("metadata_write", VInt 18446744073709551615); ("config", VInt 0); ("max_entries", VInt 0); ("properties", VList ListOfProperty04 Property04 [])].
(* pyof/v0x04/controller2switch/features_reply.py:36-80 *)
Definition attrs_SwitchFeatures04 : list (string * pyval) :=
  [("header", VObj Header04 [("version", VUInt 1 None (VInt 4)); ("message_type", VEnum E_Type04 6); ("length", VNone); ("xid", VNone)]);
   ("datapath_id", VDPID VNone);
   ("n_buffers", VUInt 4 None VNone);
   ("n_tables", VUInt 1 None VNone);
   ("auxiliary_id", VUInt 1 None VNone);
   ("pad", VPad 2);
   ("capabilities", VUInt 4 (Some E_Capabilities04) VNone);
   ("reserved", VUInt 4 None VNone)].
Definition new_SwitchFeatures04 : pyval :=
  VObj SwitchFeatures04 [("header", VObj Header04 [("version", VUInt 1 None (VInt 4)); ("message_type", VEnum E_Type04 6); ("length", VNone); ("xid", VInt 0)]); ("datapath_id", VNone); ("n_buffers", VNone); ("n_tables", VNone); ("auxiliary_id", VNone); ("pad", VPad 2); ("capabilities", VNone); ("reserved", VNone)].
(* pyof/v0x04/controller2switch/features_reply.py:83-84 *)
Definition attrs_FeaturesReply04 : list (string * pyval) :=
  [("header", VObj Header04 [("version", VUInt 1 None (VInt 4)); ("message_type", VEnum E_Type04 6); ("length", VNone); ("xid", VNone)]);
   ("datapath_id", VDPID VNone);
   ("n_buffers", VUInt 4 None VNone);
   ("n_tables", VUInt 1 None VNone);
   ("auxiliary_id", VUInt 1 None VNone);
   ("pad", VPad 2);
   ("capabilities", VUInt 4 (Some E_Capabilities04) VNone);
   ("reserved", VUInt 4 None VNone)].
Definition new_FeaturesReply04 : pyval :=
  VObj FeaturesReply04 [("header", VObj Header04 [("version", VUInt 1 None (VInt 4)); ("message_type", VEnum E_Type04 6); ("length", VNone); ("xid", VInt 0)]); ("datapath_id", VNone); ("n_buffers", VNone); ("n_tables", VNone); ("auxiliary_id", VNone); ("pad", VPad 2); ("capabilities", VNone); ("reserved", VNone)].
(* pyof/v0x04/controller2switch/features_request.py:11-18 *)
Definition attrs_FeaturesRequest04 : list (string * pyval) :=
  [("header", VObj Header04 [("version", VUInt 1 None (VInt 4)); ("message_type", VEnum E_Type04 5); ("length", VNone); ("xid", VNone)])].
Definition new_FeaturesRequest04 : pyval :=
  VObj FeaturesRequest04 [("header", VObj Header04 [("version", VUInt 1 None (VInt 4)); ("message_type", VEnum E_Type04 5); ("length", VNone); ("xid", VInt 0)])].
(* pyof/v0x04/controller2switch/flow_mod.py:52-121 *)
Definition attrs_FlowMod04 : list (string * pyval) :=
  [("header", VObj Header04 [("version", VUInt 1 None (VInt 4)); ("message_type", VEnum E_Type04 14); ("length", VNone); ("xid", VNone)]);
   ("cookie", VUInt 8 None VNone);
   ("cookie_mask", VUInt 8 None VNone);
   ("table_id", VUInt 1 None VNone);
   ("command", VUInt 1 (Some E_FlowModCommand04) VNone);
   ("idle_timeout", VUInt 2 None VNone);
   ("hard_timeout", VUInt 2 None VNone);
   ("priority", VUInt 2 None VNone);
   ("buffer_id", VUInt 4 None VNone);
   ("out_port", VUInt 4 None VNone);
   ("out_group", VUInt 4 None VNone);
   ("flags", VUInt 2 (Some E_FlowModFlags04) VNone);
   ("pad", VPad 2);
   ("match", new_Match04);
   ("instructions", VList ListOfInstruction04 Instruction04 [])].
Definition new_FlowMod04 : pyval :=
  VObj FlowMod04 [("header", VObj Header04 [("version", VUInt 1 None (VInt 4)); ("message_type", VEnum E_Type04 14); ("length", VNone); ("xid", VInt 0)]); ("cookie", VInt 0); ("cookie_mask", VInt 0); ("table_id", VInt 0); ("command", VNone); ("idle_timeout", VInt 0); ("hard_timeout", VInt 0); ("priority", VInt 0); ("buffer_id", VInt 4294967295); ("out_port", VEnum E_PortNo04 4294967295); ("out_group", VEnum E_Group04 4294967295); ("flags", VInt 1); ("pad", VPad 2); ("match", new_Match04); ("instructions", VList ListOfInstruction04 Instruction04 [])].
(* pyof/v0x04/controller2switch/get_async_reply.py:17-46 *)
Definition attrs_GetAsyncReply04 : list (string * pyval) :=
  [("header", new_Header04);
   ("packet_in_mask1", VUInt 4 (Some E_PacketInReason04) VNone);
   ("packet_in_mask2", VUInt 4 (Some E_PacketInReason04) VNone);
   ("port_status_mask1", VUInt 4 (Some E_PortReason04) VNone);
   ("port_status_mask2", VUInt 4 (Some E_PortReason04) VNone);
   ("flow_removed_mask1", VUInt 4 (Some E_FlowRemovedReason04) VNone);
   ("flow_removed_mask2", VUInt 4 (Some E_FlowRemovedReason04) VNone)].
Definition new_GetAsyncReply04 : pyval :=
  VObj GetAsyncReply04 [("header", VObj Header04 [("version", VUInt 1 None (VInt 4)); ("message_type", VEnum E_Type04 27); ("length", VNone); ("xid", VInt 0)]); ("packet_in_mask1", VNone); ("packet_in_mask2", VNone); ("port_status_mask1", VNone); ("port_status_mask2", VNone); ("flow_removed_mask1", VNone); ("flow_removed_mask2", VNone)].
(* pyof/v0x04/controller2switch/get_async_request.py:13-21 *)
Definition attrs_GetAsyncRequest04 : list (string * pyval) :=
  [("header", VObj Header04 [("version", VUInt 1 None (VInt 4)); ("message_type", VEnum E_Type04 26); ("length", VNone); ("xid", VNone)])].
Definition new_GetAsyncRequest04 : pyval :=
  VObj GetAsyncRequest04 [("header", VObj Header04 [("version", VUInt 1 None (VInt 4)); ("message_type", VEnum E_Type04 26); ("length", VNone); ("xid", VInt 0)])].
(* pyof/v0x04/controller2switch/get_config_reply.py:13-27 *)
Definition attrs_GetConfigReply04 : list (string * pyval) :=
  [("header", new_Header04);
   ("flags", VUInt 2 (Some E_ConfigFlag04) VNone);
   ("miss_send_len", VUInt 2 None VNone)].
Definition new_GetConfigReply04 : pyval :=
  VObj GetConfigReply04 [("header", VObj Header04 [("version", VUInt 1 None (VInt 4)); ("message_type", VEnum E_Type04 8); ("length", VNone); ("xid", VInt 0)]); ("flags", VNone); ("miss_send_len", VNone)].
(* pyof/v0x04/controller2switch/get_config_request.py:11-14 *)
Definition attrs_GetConfigRequest04 : list (string * pyval) :=
  [("header", VObj Header04 [("version", VUInt 1 None (VInt 4)); ("message_type", VEnum E_Type04 7); ("length", VNone); ("xid", VNone)])].
Definition new_GetConfigRequest04 : pyval :=
  VObj GetConfigRequest04 [("header", VObj Header04 [("version", VUInt 1 None (VInt 4)); ("message_type", VEnum E_Type04 7); ("length", VNone); ("xid", VInt 0)])].
(* pyof/v0x04/controller2switch/group_mod.py:66-98 *)
Definition attrs_GroupMod04 : list (string * pyval) :=
  [("header", VObj Header04 [("version", VUInt 1 None (VInt 4)); ("message_type", VEnum E_Type04 15); ("length", VNone); ("xid", VNone)]);
   ("command", VUInt 2 (Some E_GroupModCommand04) VNone);
   ("group_type", VUInt 1 None VNone);
   ("pad", VPad 1);
   ("group_id", VUInt 4 None VNone);
   ("buckets", VList ListOfBuckets04 Bucket04 [])].
Definition new_GroupMod04 : pyval :=
  VObj GroupMod04 [("header", VObj Header04 [("version", VUInt 1 None (VInt 4)); ("message_type", VEnum E_Type04 15); ("length", VNone); ("xid", VInt 0)]); ("command", VNone); ("group_type", VNone); ("pad", VPad 1); ("group_id", VNone); ("buckets", VNone)].
(* pyof/v0x04/controller2switch/meter_mod.py:70-117 *)
Definition attrs_MeterBandHeader04 : list (string * pyval) :=
  [("band_type", VUInt 2 (Some E_MeterBandType04) VNone);
   ("length", VUInt 2 None VNone);
   ("rate", VUInt 4 None VNone);
   ("burst_size", VUInt 4 None VNone)].
Definition new_MeterBandHeader04 : pyval :=
  VObj MeterBandHeader04 [("band_type", VNone); ("length", VInt 12); ("rate", VNone); ("burst_size", VNone)].
(* pyof/v0x04/controller2switch/meter_mod.py:120-145 *)
Definition attrs_MeterMod04 : list (string * pyval) :=
  [("header", VObj Header04 [("version", VUInt 1 None (VInt 4)); ("message_type", VEnum E_Type04 29); ("length", VNone); ("xid", VNone)]);
   ("command", VUInt 2 (Some E_MeterModCommand04) VNone);
   ("flags", VUInt 2 (Some E_MeterFlags04) VNone);
   ("meter_id", VUInt 4 None VNone);
   ("bands", VList CFixedTypeList MeterBandHeader04 [])].
Definition new_MeterMod04 : pyval :=
  VObj MeterMod04 [("header", VObj Header04 [("version", VUInt 1 None (VInt 4)); ("message_type", VEnum E_Type04 29); ("length", VNone); ("xid", VInt 0)]); ("command", VNone); ("flags", VNone); ("meter_id", VNone); ("bands", VNone)].
(* pyof/v0x04/controller2switch/meter_mod.py:148-160 *)
Definition attrs_MeterBandDrop04 : list (string * pyval) :=
  [("band_type", VUInt 2 (Some E_MeterBandType04) VNone);
   ("length", VUInt 2 None VNone);
   ("rate", VUInt 4 None VNone);
   ("burst_size", VUInt 4 None VNone);
   ("pad", VPad 4)].
Definition new_MeterBandDrop04 : pyval :=
  VObj MeterBandDrop04 [("band_type", VEnum E_MeterBandType04 1); ("length", VInt 16); ("rate", VNone); ("burst_size", VNone); ("pad", VPad 4)].
(* pyof/v0x04/controller2switch/meter_mod.py:163-178 *)
Definition attrs_MeterBandDscpRemark04 : list (string * pyval) :=
  [("band_type", VUInt 2 (Some E_MeterBandType04) VNone);
   ("length", VUInt 2 None VNone);
   ("rate", VUInt 4 None VNone);
   ("burst_size", VUInt 4 None VNone);
   ("prec_level", VUInt 1 None VNone);
   ("pad", VPad 3)].
Definition new_MeterBandDscpRemark04 : pyval :=
  VObj MeterBandDscpRemark04 [("band_type", VEnum E_MeterBandType04 2); ("length", VInt 16); ("rate", VNone); ("burst_size", VNone); ("prec_level", VNone); ("pad", VPad 3)].
(* pyof/v0x04/controller2switch/meter_mod.py:181-196 *)
Definition attrs_MeterBandExperimenter04 : list (string * pyval) :=
  [("band_type", VUInt 2 (Some E_MeterBandType04) VNone);
   ("length", VUInt 2 None VNone);
   ("rate", VUInt 4 None VNone);
   ("burst_size", VUInt 4 None VNone);
   ("experimenter", VUInt 4 None VNone)].
Definition new_MeterBandExperimenter04 : pyval :=
  VObj MeterBandExperimenter04 [("band_type", VEnum E_MeterBandType04 65535); ("length", VInt 16); ("rate", VNone); ("burst_size", VNone); ("experimenter", VNone)].
(* pyof/v0x04/controller2switch/multipart_reply.py:55-173 *)
Definition attrs_MultipartReply04 : list (string * pyval) :=
  [("header", VObj Header04 [("version", VUInt 1 None (VInt 4)); ("message_type", VEnum E_Type04 19); ("length", VNone); ("xid", VNone)]);
   ("multipart_type", VUInt 2 (Some E_MultipartType04) VNone);
   ("flags", VUInt 2 None VNone);
   ("pad", VPad 4);
   ("body", VBin VNone)].
Definition new_MultipartReply04 : pyval :=
  VObj MultipartReply04 [("header", VObj Header04 [("version", VUInt 1 None (VInt 4)); ("message_type", VEnum E_Type04 19); ("length", VNone); ("xid", VInt 0)]); ("multipart_type", VNone); ("flags", VNone); ("pad", VPad 4); ("body", VBytes [])].
(* pyof/v0x04/controller2switch/multipart_reply.py:178-202 *)
Definition attrs_AggregateStatsReply04 : list (string * pyval) :=
  [("packet_count", VUInt 8 None VNone);
   ("byte_count", VUInt 8 None VNone);
   ("flow_count", VUInt 4 None VNone);
   ("pad", VPad 4)].
Definition new_AggregateStatsReply04 : pyval :=
  VObj AggregateStatsReply04 [("packet_count", VNone); ("byte_count", VNone); ("flow_count", VNone); ("pad", VPad 4)].
(* pyof/v0x04/controller2switch/multipart_reply.py:205-240 *)
Definition attrs_Desc04 : list (string * pyval) :=
  [("mfr_desc", VChar 256 VNone);
   ("hw_desc", VChar 256 VNone);
   ("sw_desc", VChar 256 VNone);
   ("serial_num", VChar 32 VNone);
   ("dp_desc", VChar 256 VNone)].
Definition new_Desc04 : pyval :=
  VObj Desc04 [("mfr_desc", VNone); ("hw_desc", VNone); ("sw_desc", VNone); ("serial_num", VNone); ("dp_desc", VNone)].
(* pyof/v0x04/controller2switch/multipart_reply.py:243-313 *)
Definition attrs_FlowStats04 : list (string * pyval) :=
  [("length", VUInt 2 None VNone);
   ("table_id", VUInt 1 None VNone);
   ("pad", VPad 1);
   ("duration_sec", VUInt 4 None VNone);
   ("duration_nsec", VUInt 4 None VNone);
   ("priority", VUInt 2 None VNone);
   ("idle_timeout", VUInt 2 None VNone);
   ("hard_timeout", VUInt 2 None VNone);
   ("flags", VUInt 2 None VNone);
   ("pad2", VPad 4);
   ("cookie", VUInt 8 None VNone);
   ("packet_count", VUInt 8 None VNone);
   ("byte_count", VUInt 8 None VNone);
   ("match", new_Match04);
   ("instructions", VList ListOfInstruction04 Instruction04 [])].
Definition new_FlowStats04 : pyval :=
  VObj FlowStats04 [("length", VNone); ("table_id", VNone); ("pad", VPad 1); ("duration_sec", VNone); ("duration_nsec", VNone); ("priority", VNone); ("idle_timeout", VNone); ("hard_timeout", VNone); ("flags", VNone); ("pad2", VPad 4); ("cookie", VNone); ("packet_count", VNone); ("byte_count", VNone); ("match", VNone); ("instructions", VList CList CObject [])].
(* pyof/v0x04/controller2switch/multipart_reply.py:316-388 *)
Definition attrs_PortStats04 : list (string * pyval) :=
  [("port_no", VUInt 4 None VNone);
   ("pad", VPad 4);
   ("rx_packets", VUInt 8 None VNone);
   ("tx_packets", VUInt 8 None VNone);
   ("rx_bytes", VUInt 8 None VNone);
   ("tx_bytes", VUInt 8 None VNone);
   ("rx_dropped", VUInt 8 None VNone);
   ("tx_dropped", VUInt 8 None VNone);
   ("rx_errors", VUInt 8 None VNone);
   ("tx_errors", VUInt 8 None VNone);
   ("rx_frame_err", VUInt 8 None VNone);
   ("rx_over_err", VUInt 8 None VNone);
   ("rx_crc_err", VUInt 8 None VNone);
   ("collisions", VUInt 8 None VNone);
   ("duration_sec", VUInt 4 None VNone);
   ("duration_nsec", VUInt 4 None VNone)].
Definition new_PortStats04 : pyval :=
  VObj PortStats04 [("port_no", VNone); ("pad", VPad 4); ("rx_packets", VNone); ("tx_packets", VNone); ("rx_bytes", VNone); ("tx_bytes", VNone); ("rx_dropped", VNone); ("tx_dropped", VNone); ("rx_errors", VNone); ("tx_errors", VNone); ("rx_frame_err", VNone); ("rx_over_err", VNone); ("rx_crc_err", VNone); ("collisions", VNone); ("duration_sec", VNone); ("duration_nsec", VNone)].
(* pyof/v0x04/controller2switch/multipart_reply.py:391-426 *)
Definition attrs_QueueStats04 : list (string * pyval) :=
  [("port_no", VUInt 4 None VNone);
   ("queue_id", VUInt 4 None VNone);
   ("tx_bytes", VUInt 8 None VNone);
   ("tx_packets", VUInt 8 None VNone);
   ("tx_errors", VUInt 8 None VNone);
   ("duration_sec", VUInt 4 None VNone);
   ("duration_nsec", VUInt 4 None VNone)].
Definition new_QueueStats04 : pyval :=
  VObj QueueStats04 [("port_no", VNone); ("queue_id", VNone); ("tx_bytes", VNone); ("tx_packets", VNone); ("tx_errors", VNone); ("duration_sec", VNone); ("duration_nsec", VNone)].
(* pyof/v0x04/controller2switch/multipart_reply.py:429-454 *)
Definition attrs_GroupDescStats04 : list (string * pyval) :=
  [("length", VUInt 2 None VNone);
   ("group_type", VUInt 1 None VNone);
   ("pad", VPad 1);
   ("group_id", VUInt 4 None VNone);
   ("buckets", VList CFixedTypeList Bucket04 [])].
Definition new_GroupDescStats04 : pyval :=
  VObj GroupDescStats04 [("length", VNone); ("group_type", VNone); ("pad", VPad 1); ("group_id", VNone); ("buckets", VNone)].
(* pyof/v0x04/controller2switch/multipart_reply.py:457-494 *)
Definition attrs_GroupFeatures04 : list (string * pyval) :=
  [("types", VUInt 4 None VNone);
   ("capabilities", VUInt 4 (Some E_GroupCapabilities04) VNone);
   ("max_groups1", VUInt 4 None VNone);
   ("max_groups2", VUInt 4 None VNone);
   ("max_groups3", VUInt 4 None VNone);
   ("max_groups4", VUInt 4 None VNone);
   ("actions1", VUInt 4 None VNone);
   ("actions2", VUInt 4 None VNone);
   ("actions3", VUInt 4 None VNone);
   ("actions4", VUInt 4 None VNone)].
Definition new_GroupFeatures04 : pyval :=
  VObj GroupFeatures04 [("types", VNone); ("capabilities", VNone); ("max_groups1", VNone); ("max_groups2", VNone); ("max_groups3", VNone); ("max_groups4", VNone); ("actions1", VNone); ("actions2", VNone); ("actions3", VNone); ("actions4", VNone)].
(* pyof/v0x04/controller2switch/multipart_reply.py:497-538 *)
Definition attrs_GroupStats04 : list (string * pyval) :=
  [("length", VUInt 2 None VNone);
   ("pad", VPad 2);
   ("group_id", VUInt 4 None VNone);
   ("ref_count", VUInt 4 None VNone);
   ("pad2", VPad 4);
   ("packet_count", VUInt 8 None VNone);
   ("byte_count", VUInt 8 None VNone);
   ("duration_sec", VUInt 4 None VNone);
   ("duration_nsec", VUInt 4 None VNone);
   ("bucket_stats", VList ListOfBucketCounter04 BucketCounter04 [])].
Definition new_GroupStats04 : pyval :=
  VObj GroupStats04 [("length", VNone); ("pad", VPad 2); ("group_id", VNone); ("ref_count", VNone); ("pad2", VPad 4); ("packet_count", VNone); ("byte_count", VNone); ("duration_sec", VNone); ("duration_nsec", VNone); ("bucket_stats", VNone)].
(* pyof/v0x04/controller2switch/multipart_reply.py:541-573 *)
Definition attrs_MeterConfig04 : list (string * pyval) :=
  [("length", VUInt 2 None VNone);
   ("flags", VUInt 2 (Some E_MeterFlags04) VNone);
   ("meter_id", VUInt 4 None VNone);
   ("bands", VList ListOfMeterBandHeader04 MeterBandHeader04 [])].
Definition new_MeterConfig04 : pyval :=
  VObj MeterConfig04 [("length", VUInt 2 None VNone); ("flags", VInt 8); ("meter_id", VNone); ("bands", VList CList CObject [])].
(* pyof/v0x04/controller2switch/multipart_reply.py:576-604 *)
Definition attrs_MeterFeatures04 : list (string * pyval) :=
  [("max_meter", VUInt 4 None VNone);
   ("band_types", VUInt 4 (Some E_MeterBandType04) VNone);
   ("capabilities", VUInt 4 (Some E_MeterFlags04) VNone);
   ("max_bands", VUInt 1 None VNone);
   ("max_color", VUInt 1 None VNone);
   ("pad", VPad 2)].
Definition new_MeterFeatures04 : pyval :=
  VObj MeterFeatures04 [("max_meter", VNone); ("band_types", VNone); ("capabilities", VNone); ("max_bands", VNone); ("max_color", VNone); ("pad", VPad 2)].
(* pyof/v0x04/controller2switch/multipart_reply.py:607-626 *)
Definition attrs_BandStats04 : list (string * pyval) :=
  [("packet_band_count", VUInt 8 None VNone);
   ("byte_band_count", VUInt 8 None VNone)].
Definition new_BandStats04 : pyval :=
  VObj BandStats04 [("packet_band_count", VNone); ("byte_band_count", VNone)].
(* pyof/v0x04/controller2switch/multipart_reply.py:645-719 *)
Definition attrs_MeterStats04 : list (string * pyval) :=
  [("meter_id", VUInt 4 None VNone);
   ("length", VUInt 2 None VNone);
   ("pad", VPad 6);
   ("flow_count", VUInt 4 None VNone);
   ("packet_in_count", VUInt 8 None VNone);
   ("byte_in_count", VUInt 8 None VNone);
   ("duration_sec", VUInt 4 None VNone);
   ("duration_nsec", VUInt 4 None VNone);
   ("band_stats", VList ListOfBandStats04 BandStats04 [])].
Definition new_MeterStats04 : pyval :=
  VObj MeterStats04 [("meter_id", VNone); ("length", VInt 40); ("pad", VPad 6); ("flow_count", VNone); ("packet_in_count", VNone); ("byte_in_count", VNone); ("duration_sec", VNone); ("duration_nsec", VNone); ("band_stats", VList CList CObject [])].
(* pyof/v0x04/controller2switch/multipart_reply.py:722-748 *)
Definition attrs_TableStats04 : list (string * pyval) :=
  [("table_id", VUInt 1 None VNone);
   ("pad", VPad 3);
   ("active_count", VUInt 4 None VNone);
   ("lookup_count", VUInt 8 None VNone);
   ("matched_count", VUInt 8 None VNone)].
Definition new_TableStats04 : pyval :=
  VObj TableStats04 [("table_id", VNone); ("pad", VPad 3); ("active_count", VNone); ("lookup_count", VNone); ("matched_count", VNone)].
(* pyof/v0x04/controller2switch/multipart_request.py:42-156 *)
Definition attrs_MultipartRequest04 : list (string * pyval) :=
  [("header", VObj Header04 [("version", VUInt 1 None (VInt 4)); ("message_type", VEnum E_Type04 18); ("length", VNone); ("xid", VNone)]);
   ("multipart_type", VUInt 2 (Some E_MultipartType04) VNone);
   ("flags", VUInt 2 (Some E_MultipartRequestFlags04) VNone);
   ("pad", VPad 4);
   ("body", VBin VNone)].
Definition new_MultipartRequest04 : pyval :=
  VObj MultipartRequest04 [("header", VObj Header04 [("version", VUInt 1 None (VInt 4)); ("message_type", VEnum E_Type04 18); ("length", VNone); ("xid", VInt 0)]); ("multipart_type", VNone); ("flags", VInt 0); ("pad", VPad 4); ("body", VBytes [])].
(* pyof/v0x04/controller2switch/multipart_request.py:159-206 *)
Definition attrs_AggregateStatsRequest04 : list (string * pyval) :=
  [("table_id", VUInt 1 None VNone);
   ("pad", VPad 3);
   ("out_port", VUInt 4 None VNone);
   ("out_group", VUInt 4 None VNone);
   ("pad2", VPad 4);
   ("cookie", VUInt 8 None VNone);
   ("cookie_mask", VUInt 8 None VNone);
   ("match", new_Match04)].
Definition new_AggregateStatsRequest04 : pyval :=
  VObj AggregateStatsRequest04 [("table_id", VEnum E_Table04 255); ("pad", VPad 3); ("out_port", VEnum E_PortNo04 4294967295); ("out_group", VEnum E_Group04 4294967295); ("pad2", VPad 4); ("cookie", VInt 0); ("cookie_mask", VInt 0); ("match", new_Match04)].
(* pyof/v0x04/controller2switch/multipart_request.py:209-247 *)
Definition attrs_FlowStatsRequest04 : list (string * pyval) :=
  [("table_id", VUInt 1 None VNone);
   ("pad", VPad 3);
   ("out_port", VUInt 4 None VNone);
   ("out_group", VUInt 4 None VNone);
   ("pad2", VPad 4);
   ("cookie", VUInt 8 None VNone);
   ("cookie_mask", VUInt 8 None VNone);
   ("match", new_Match04)].
Definition new_FlowStatsRequest04 : pyval :=
  VObj FlowStatsRequest04 [("table_id", VEnum E_Table04 255); ("pad", VPad 3); ("out_port", VEnum E_PortNo04 4294967295); ("out_group", VEnum E_Group04 4294967295); ("pad2", VPad 4); ("cookie", VInt 0); ("cookie_mask", VInt 0); ("match", new_Match04)].
(* pyof/v0x04/controller2switch/multipart_request.py:250-267 *)
Definition attrs_PortStatsRequest04 : list (string * pyval) :=
  [("port_no", VUInt 4 None VNone);
   ("pad", VPad 4)].
Definition new_PortStatsRequest04 : pyval :=
  VObj PortStatsRequest04 [("port_no", VEnum E_PortNo04 4294967295); ("pad", VPad 4)].
(* pyof/v0x04/controller2switch/multipart_request.py:270-286 *)
Definition attrs_QueueStatsRequest04 : list (string * pyval) :=
  [("port_no", VUInt 4 None VNone);
   ("queue_id", VUInt 4 None VNone)].
Definition new_QueueStatsRequest04 : pyval :=
  VObj QueueStatsRequest04 [("port_no", VEnum E_PortNo04 4294967295); ("queue_id", VInt 4294967295)].
(* pyof/v0x04/controller2switch/multipart_request.py:289-305 *)
Definition attrs_GroupStatsRequest04 : list (string * pyval) :=
  [("group_id", VUInt 4 None VNone);
   ("pad", VPad 4)].
Definition new_GroupStatsRequest04 : pyval :=
  VObj GroupStatsRequest04 [("group_id", VEnum E_Group04 4294967292); ("pad", VPad 4)].
(* pyof/v0x04/controller2switch/multipart_request.py:308-329 *)
Definition attrs_MeterMultipartRequest04 : list (string * pyval) :=
  [("meter_id", VUInt 4 None VNone);
   ("pad", VPad 4)].
Definition new_MeterMultipartRequest04 : pyval :=
  VObj MeterMultipartRequest04 [("meter_id", VEnum E_Meter04 4294967295); ("pad", VPad 4)].
(* pyof/v0x04/controller2switch/packet_out.py:20-127 *)
Definition attrs_PacketOut04 : list (string * pyval) :=
  [("header", VObj Header04 [("version", VUInt 1 None (VInt 4)); ("message_type", VEnum E_Type04 13); ("length", VNone); ("xid", VNone)]);
   ("buffer_id", VUInt 4 None VNone);
   ("in_port", VUInt 4 None VNone);
   ("actions_len", VUInt 2 None VNone);
   ("pad", VPad 6);
   ("actions", VList ListOfActions04 ActionHeader04 []);
   ("data", VBin VNone)].
Definition new_PacketOut04 : pyval :=
  VObj PacketOut04 [("header", VObj Header04 [("version", VUInt 1 None (VInt 4)); ("message_type", VEnum E_Type04 13); ("length", VNone); ("xid", VInt 0)]); ("buffer_id", VInt 4294967295); ("in_port", VEnum E_PortNo04 4294967293); ("actions_len", VUInt 2 None VNone); ("pad", VPad 6); ("actions", VList CList CObject []); ("data", VBytes [])].
(* pyof/v0x04/controller2switch/port_mod.py:18-55 *)
Definition attrs_PortMod04 : list (string * pyval) :=
  [("header", VObj Header04 [("version", VUInt 1 None (VInt 4)); ("message_type", VEnum E_Type04 16); ("length", VNone); ("xid", VNone)]);
   ("port_no", VUInt 4 None VNone);
   ("pad", VPad 4);
   ("hw_addr", VHW (VStr (txt "00:00:00:00:00:00")));
   ("pad2", VPad 2);
   ("config", VUInt 4 (Some E_PortConfig04) VNone);
   ("mask", VUInt 4 (Some E_PortConfig04) VNone);
   ("advertise", VUInt 4 (Some E_PortFeatures04) VNone);
   ("pad3", VPad 4)].
Definition new_PortMod04 : pyval :=
  VObj PortMod04 [("header", VObj Header04 [("version", VUInt 1 None (VInt 4)); ("message_type", VEnum E_Type04 16); ("length", VNone); ("xid", VInt 0)]); ("port_no", VNone); ("pad", VPad 4); ("hw_addr", VNone); ("pad2", VPad 2); ("config", VNone); ("mask", VNone); ("advertise", VNone); ("pad3", VPad 4)].
(* pyof/v0x04/controller2switch/queue_get_config_reply.py:17-42 *)
Definition attrs_QueueGetConfigReply04 : list (string * pyval) :=
  [("header", VObj Header04 [("version", VUInt 1 None (VInt 4)); ("message_type", VEnum E_Type04 8); ("length", VNone); ("xid", VNone)]);
   ("port", VUInt 4 (Some E_PortNo04) VNone);
   ("pad", VPad 4);
   ("queues", VList ListOfQueues04 PacketQueue04 [])].
Definition new_QueueGetConfigReply04 : pyval :=
  VObj QueueGetConfigReply04 [("header", VObj Header04 [("version", VUInt 1 None (VInt 4)); ("message_type", VEnum E_Type04 8); ("length", VNone); ("xid", VInt 0)]); ("port", VNone); ("pad", VPad 4); ("queues", VList CList CObject [])].
(* pyof/v0x04/controller2switch/queue_get_config_request.py:16-34 *)
Definition attrs_QueueGetConfigRequest04 : list (string * pyval) :=
  [("header", VObj Header04 [("version", VUInt 1 None (VInt 4)); ("message_type", VEnum E_Type04 7); ("length", VNone); ("xid", VNone)]);
   ("port", VUInt 4 (Some E_PortNo04) VNone);
   ("pad", VPad 4)].
Definition new_QueueGetConfigRequest04 : pyval :=
  VObj QueueGetConfigRequest04 [("header", VObj Header04 [("version", VUInt 1 None (VInt 4)); ("message_type", VEnum E_Type04 7); ("length", VNone); ("xid", VInt 0)]); ("port", VNone); ("pad", VPad 4)].
(* pyof/v0x04/controller2switch/role_reply.py:17-32 *)
Definition attrs_RoleReply04 : list (string * pyval) :=
  [("header", new_Header04);
   ("role", VUInt 4 (Some E_ControllerRole04) VNone);
   ("pad", VPad 4);
   ("generation_id", VUInt 8 None VNone)].
Definition new_RoleReply04 : pyval :=
  VObj RoleReply04 [("header", VObj Header04 [("version", VUInt 1 None (VInt 4)); ("message_type", VEnum E_Type04 25); ("length", VNone); ("xid", VInt 0)]); ("role", VEnum E_ControllerRole04 0); ("pad", VPad 4); ("generation_id", VInt 18446744073709551615)].
(* pyof/v0x04/controller2switch/role_request.py:16-33 *)
Definition attrs_RoleRequest04 : list (string * pyval) :=
  [("header", new_Header04);
   ("role", VUInt 4 (Some E_ControllerRole04) VNone);
   ("pad", VPad 4);
   ("generation_id", VUInt 8 None VNone)].
Definition new_RoleRequest04 : pyval :=
  VObj RoleRequest04 [("header", VObj Header04 [("version", VUInt 1 None (VInt 4)); ("message_type", VEnum E_Type04 24); ("length", VNone); ("xid", VInt 0)]); ("role", VNone); ("pad", VPad 4); ("generation_id", VNone)].
(* pyof/v0x04/controller2switch/set_async.py:18-48 *)
Definition attrs_SetAsync04 : list (string * pyval) :=
  [("header", new_Header04);
   ("packet_in_mask1", VUInt 4 (Some E_PacketInReason04) VNone);
   ("packet_in_mask2", VUInt 4 (Some E_PacketInReason04) VNone);
   ("port_status_mask1", VUInt 4 (Some E_PortReason04) VNone);
   ("port_status_mask2", VUInt 4 (Some E_PortReason04) VNone);
   ("flow_removed_mask1", VUInt 4 (Some E_FlowRemovedReason04) VNone);
   ("flow_removed_mask2", VUInt 4 (Some E_FlowRemovedReason04) VNone)].
Definition new_SetAsync04 : pyval :=
  VObj SetAsync04 [("header", VObj Header04 [("version", VUInt 1 None (VInt 4)); ("message_type", VEnum E_Type04 28); ("length", VNone); ("xid", VInt 0)]); ("packet_in_mask1", VNone); ("packet_in_mask2", VNone); ("port_status_mask1", VNone); ("port_status_mask2", VNone); ("flow_removed_mask1", VNone); ("flow_removed_mask2", VNone)].
(* pyof/v0x04/controller2switch/set_config.py:15-30 *)
Definition attrs_SetConfig04 : list (string * pyval) :=
  [("header", new_Header04);
   ("flags", VUInt 2 (Some E_ConfigFlag04) VNone);
   ("miss_send_len", VUInt 2 None VNone)].
Definition new_SetConfig04 : pyval :=
  VObj SetConfig04 [("header", VObj Header04 [("version", VUInt 1 None (VInt 4)); ("message_type", VEnum E_Type04 9); ("length", VNone); ("xid", VInt 0)]); ("flags", VEnum E_ConfigFlag04 0); ("miss_send_len", VEnum E_ControllerMaxLen04 65535)].
(* pyof/v0x04/controller2switch/table_mod.py:21-43 *)
Definition attrs_TableMod04 : list (string * pyval) :=
  [("header", VObj Header04 [("version", VUInt 1 None (VInt 4)); ("message_type", VEnum E_Type04 17); ("length", VNone); ("xid", VNone)]);
   ("table_id", VUInt 1 None VNone);
   ("pad", VPad 3);
   ("config", VUInt 4 None VNone)].
Definition new_TableMod04 : pyval :=
  VObj TableMod04 [("header", VObj Header04 [("version", VUInt 1 None (VInt 4)); ("message_type", VEnum E_Type04 17); ("length", VNone); ("xid", VInt 0)]); ("table_id", VEnum E_Table04 255); ("pad", VPad 3); ("config", VInt 3)].
(* pyof/v0x04/symmetric/echo_reply.py:16-33 *)
Definition attrs_EchoReply04 : list (string * pyval) :=
  [("header", VObj Header04 [("version", VUInt 1 None (VInt 4)); ("message_type", VEnum E_Type04 3); ("length", VInt 8); ("xid", VNone)]);
   ("data", VBin VNone)].
Definition new_EchoReply04 : pyval :=
  VObj EchoReply04 [("header", VObj Header04 [("version", VUInt 1 None (VInt 4)); ("message_type", VEnum E_Type04 3); ("length", VInt 8); ("xid", VInt 0)]); ("data", VBytes [])].
(* pyof/v0x04/symmetric/echo_request.py:16-33 *)
Definition attrs_EchoRequest04 : list (string * pyval) :=
  [("header", VObj Header04 [("version", VUInt 1 None (VInt 4)); ("message_type", VEnum E_Type04 2); ("length", VInt 8); ("xid", VNone)]);
   ("data", VBin VNone)].
Definition new_EchoRequest04 : pyval :=
  VObj EchoRequest04 [("header", VObj Header04 [("version", VUInt 1 None (VInt 4)); ("message_type", VEnum E_Type04 2); ("length", VInt 8); ("xid", VInt 0)]); ("data", VBytes [])].
(* pyof/v0x04/symmetric/experimenter.py:16-52 *)
Definition attrs_ExperimenterHeader04 : list (string * pyval) :=
  [("header", VObj Header04 [("version", VUInt 1 None (VInt 4)); ("message_type", VEnum E_Type04 4); ("length", VNone); ("xid", VNone)]);
   ("experimenter", VUInt 4 None VNone);
   ("exp_type", VUInt 4 None VNone);
   ("data", VBin VNone)].
Definition new_ExperimenterHeader04 : pyval :=
  VObj ExperimenterHeader04 [("header", VObj Header04 [("version", VUInt 1 None (VInt 4)); ("message_type", VEnum E_Type04 4); ("length", VNone); ("xid", VInt 0)]); ("experimenter", VNone); ("exp_type", VNone); ("data", VBytes [])].
(* pyof/v0x04/symmetric/hello.py:29-88 *)
Definition attrs_HelloElemHeader04 : list (string * pyval) :=
  [("element_type", VUInt 2 None VNone);
   ("length", VUInt 2 None VNone);
   ("content", VBin VNone)].
Definition new_HelloElemHeader04 : pyval :=
  VObj HelloElemHeader04 [("element_type", VNone); ("length", VNone); ("content", VBytes [])].
(* pyof/v0x04/symmetric/hello.py:107-127 *)
Definition attrs_Hello04 : list (string * pyval) :=
  [("header", VObj Header04 [("version", VUInt 1 None (VInt 4)); ("message_type", VEnum E_Type04 0); ("length", VNone); ("xid", VNone)]);
   ("elements", VList ListOfHelloElements04 HelloElemHeader04 [])].
Definition new_Hello04 : pyval :=
  VObj Hello04 [("header", VObj Header04 [("version", VUInt 1 None (VInt 4)); ("message_type", VEnum E_Type04 0); ("length", VNone); ("xid", VInt 0)]); ("elements", VNone)].

Definition class_attrs (c : cid) : list (string * pyval) :=
  match c with
  | Header01 => attrs_Header01
  | ErrorMsg01 => attrs_ErrorMsg01
  | Match01 => attrs_Match01
  | FlowRemoved01 => attrs_FlowRemoved01
  | PacketIn01 => attrs_PacketIn01
  | PhyPort01 => attrs_PhyPort01
  | PortStatus01 => attrs_PortStatus01
  | ActionHeader01 => attrs_ActionHeader01
  | ActionOutput01 => attrs_ActionOutput01
  | ActionStripVlan01 => attrs_ActionStripVlan01
  | ActionEnqueue01 => attrs_ActionEnqueue01
  | ActionVlanVid01 => attrs_ActionVlanVid01
  | ActionVlanPCP01 => attrs_ActionVlanPCP01
  | ActionDLAddr01 => attrs_ActionDLAddr01
  | ActionNWAddr01 => attrs_ActionNWAddr01
  | ActionNWTos01 => attrs_ActionNWTos01
  | ActionTPPort01 => attrs_ActionTPPort01
  | ActionVendorHeader01 => attrs_ActionVendorHeader01
  | QueuePropHeader01 => attrs_QueuePropHeader01
  | PacketQueue01 => attrs_PacketQueue01
  | QueuePropMinRate01 => attrs_QueuePropMinRate01
  | BarrierReply01 => attrs_BarrierReply01
  | BarrierRequest01 => attrs_BarrierRequest01
  | SwitchConfig01 => attrs_SwitchConfig01
  | AggregateStatsReply01 => attrs_AggregateStatsReply01
  | AggregateStatsRequest01 => attrs_AggregateStatsRequest01
  | DescStats01 => attrs_DescStats01
  | FlowStats01 => attrs_FlowStats01
  | FlowStatsRequest01 => attrs_FlowStatsRequest01
  | PortStats01 => attrs_PortStats01
  | PortStatsRequest01 => attrs_PortStatsRequest01
  | QueueStats01 => attrs_QueueStats01
  | QueueStatsRequest01 => attrs_QueueStatsRequest01
  | TableStats01 => attrs_TableStats01
  | VendorStats01 => attrs_VendorStats01
  | SwitchFeatures01 => attrs_SwitchFeatures01
  | FeaturesReply01 => attrs_FeaturesReply01
  | FeaturesRequest01 => attrs_FeaturesRequest01
  | FlowMod01 => attrs_FlowMod01
  | GetConfigReply01 => attrs_GetConfigReply01
  | GetConfigRequest01 => attrs_GetConfigRequest01
  | PacketOut01 => attrs_PacketOut01
  | PortMod01 => attrs_PortMod01
  | QueueGetConfigReply01 => attrs_QueueGetConfigReply01
  | QueueGetConfigRequest01 => attrs_QueueGetConfigRequest01
  | SetConfig01 => attrs_SetConfig01
  | StatsReply01 => attrs_StatsReply01
  | StatsRequest01 => attrs_StatsRequest01
  | EchoReply01 => attrs_EchoReply01
  | EchoRequest01 => attrs_EchoRequest01
  | Hello01 => attrs_Hello01
  | VendorHeader01 => attrs_VendorHeader01
  | Header04 => attrs_Header04
  | ErrorMsg04 => attrs_ErrorMsg04
  | ErrorExperimenterMsg04 => attrs_ErrorExperimenterMsg04
  | OxmTLV04 => attrs_OxmTLV04
  | Match04 => attrs_Match04
  | FlowRemoved04 => attrs_FlowRemoved04
  | PacketIn04 => attrs_PacketIn04
  | Port04 => attrs_Port04
  | PortStatus04 => attrs_PortStatus04
  | ActionHeader04 => attrs_ActionHeader04
  | ActionExperimenter04 => attrs_ActionExperimenter04
  | ActionGroup04 => attrs_ActionGroup04
  | ActionDecMPLSTTL04 => attrs_ActionDecMPLSTTL04
  | ActionSetMPLSTTL04 => attrs_ActionSetMPLSTTL04
  | ActionCopyTTLIn04 => attrs_ActionCopyTTLIn04
  | ActionCopyTTLOut04 => attrs_ActionCopyTTLOut04
  | ActionPopVLAN04 => attrs_ActionPopVLAN04
  | ActionPopPBB04 => attrs_ActionPopPBB04
  | ActionDecNWTTL04 => attrs_ActionDecNWTTL04
  | ActionSetNWTTL04 => attrs_ActionSetNWTTL04
  | ActionOutput04 => attrs_ActionOutput04
  | ActionPopMPLS04 => attrs_ActionPopMPLS04
  | ActionPush04 => attrs_ActionPush04
  | ActionSetField04 => attrs_ActionSetField04
  | ActionSetQueue04 => attrs_ActionSetQueue04
  | Instruction04 => attrs_Instruction04
  | InstructionApplyAction04 => attrs_InstructionApplyAction04
  | InstructionClearAction04 => attrs_InstructionClearAction04
  | InstructionGotoTable04 => attrs_InstructionGotoTable04
  | InstructionMeter04 => attrs_InstructionMeter04
  | InstructionWriteAction04 => attrs_InstructionWriteAction04
  | InstructionWriteMetadata04 => attrs_InstructionWriteMetadata04
  | OxmExperimenterHeader04 => attrs_OxmExperimenterHeader04
  | QueuePropHeader04 => attrs_QueuePropHeader04
  | PacketQueue04 => attrs_PacketQueue04
  | QueuePropExperimenter04 => attrs_QueuePropExperimenter04
  | QueuePropMaxRate04 => attrs_QueuePropMaxRate04
  | QueuePropMinRate04 => attrs_QueuePropMinRate04
  | BarrierReply04 => attrs_BarrierReply04
  | BarrierRequest04 => attrs_BarrierRequest04
  | Bucket04 => attrs_Bucket04
  | BucketCounter04 => attrs_BucketCounter04
  | AsyncConfig04 => attrs_AsyncConfig04
  | RoleBaseMessage04 => attrs_RoleBaseMessage04
  | SwitchConfig04 => attrs_SwitchConfig04
  | ExperimenterMultipartHeader04 => attrs_ExperimenterMultipartHeader04
  | Property04 => attrs_Property04
  | InstructionsProperty04 => attrs_InstructionsProperty04
  | NextTablesProperty04 => attrs_NextTablesProperty04
  | ActionsProperty04 => attrs_ActionsProperty04
  | OxmProperty04 => attrs_OxmProperty04
  | TableFeatures04 => attrs_TableFeatures04
  | SwitchFeatures04 => attrs_SwitchFeatures04
  | FeaturesReply04 => attrs_FeaturesReply04
  | FeaturesRequest04 => attrs_FeaturesRequest04
  | FlowMod04 => attrs_FlowMod04
  | GetAsyncReply04 => attrs_GetAsyncReply04
  | GetAsyncRequest04 => attrs_GetAsyncRequest04
  | GetConfigReply04 => attrs_GetConfigReply04
  | GetConfigRequest04 => attrs_GetConfigRequest04
  | GroupMod04 => attrs_GroupMod04
  | MeterBandHeader04 => attrs_MeterBandHeader04
  | MeterMod04 => attrs_MeterMod04
  | MeterBandDrop04 => attrs_MeterBandDrop04
  | MeterBandDscpRemark04 => attrs_MeterBandDscpRemark04
  | MeterBandExperimenter04 => attrs_MeterBandExperimenter04
  | MultipartReply04 => attrs_MultipartReply04
  | AggregateStatsReply04 => attrs_AggregateStatsReply04
  | Desc04 => attrs_Desc04
  | FlowStats04 => attrs_FlowStats04
  | PortStats04 => attrs_PortStats04
  | QueueStats04 => attrs_QueueStats04
  | GroupDescStats04 => attrs_GroupDescStats04
  | GroupFeatures04 => attrs_GroupFeatures04
  | GroupStats04 => attrs_GroupStats04
  | MeterConfig04 => attrs_MeterConfig04
  | MeterFeatures04 => attrs_MeterFeatures04
  | BandStats04 => attrs_BandStats04
  | MeterStats04 => attrs_MeterStats04
  | TableStats04 => attrs_TableStats04
  | MultipartRequest04 => attrs_MultipartRequest04
  | AggregateStatsRequest04 => attrs_AggregateStatsRequest04
  | FlowStatsRequest04 => attrs_FlowStatsRequest04
  | PortStatsRequest04 => attrs_PortStatsRequest04
  | QueueStatsRequest04 => attrs_QueueStatsRequest04
  | GroupStatsRequest04 => attrs_GroupStatsRequest04
  | MeterMultipartRequest04 => attrs_MeterMultipartRequest04
  | PacketOut04 => attrs_PacketOut04
  | PortMod04 => attrs_PortMod04
  | QueueGetConfigReply04 => attrs_QueueGetConfigReply04
  | QueueGetConfigRequest04 => attrs_QueueGetConfigRequest04
  | RoleReply04 => attrs_RoleReply04
  | RoleRequest04 => attrs_RoleRequest04
  | SetAsync04 => attrs_SetAsync04
  | SetConfig04 => attrs_SetConfig04
  | TableMod04 => attrs_TableMod04
  | EchoReply04 => attrs_EchoReply04
  | EchoRequest04 => attrs_EchoRequest04
  | ExperimenterHeader04 => attrs_ExperimenterHeader04
  | HelloElemHeader04 => attrs_HelloElemHeader04
  | Hello04 => attrs_Hello04
  | _ => []
  end.

(** The object built by the constructor without arguments. *)
Definition new_instance (c : cid) : option pyval :=
  match c with
  | Header01 => Some new_Header01
  | ErrorMsg01 => Some new_ErrorMsg01
  | Match01 => Some new_Match01
  | FlowRemoved01 => Some new_FlowRemoved01
  | PacketIn01 => Some new_PacketIn01
  | PhyPort01 => Some new_PhyPort01
  | PortStatus01 => Some new_PortStatus01
  | ActionHeader01 => Some new_ActionHeader01
  | ActionOutput01 => Some new_ActionOutput01
  | ActionStripVlan01 => Some new_ActionStripVlan01
  | ActionEnqueue01 => Some new_ActionEnqueue01
  | ActionVlanVid01 => Some new_ActionVlanVid01
  | ActionVlanPCP01 => Some new_ActionVlanPCP01
  | ActionDLAddr01 => Some new_ActionDLAddr01
  | ActionNWAddr01 => Some new_ActionNWAddr01
  | ActionNWTos01 => Some new_ActionNWTos01
  | ActionTPPort01 => Some new_ActionTPPort01
  | ActionVendorHeader01 => Some new_ActionVendorHeader01
  | QueuePropHeader01 => Some new_QueuePropHeader01
  | PacketQueue01 => Some new_PacketQueue01
  | QueuePropMinRate01 => Some new_QueuePropMinRate01
  | BarrierReply01 => Some new_BarrierReply01
  | BarrierRequest01 => Some new_BarrierRequest01
  | SwitchConfig01 => Some new_SwitchConfig01
  | AggregateStatsReply01 => Some new_AggregateStatsReply01
  | AggregateStatsRequest01 => Some new_AggregateStatsRequest01
  | DescStats01 => Some new_DescStats01
  | FlowStats01 => Some new_FlowStats01
  | FlowStatsRequest01 => Some new_FlowStatsRequest01
  | PortStats01 => Some new_PortStats01
  | PortStatsRequest01 => Some new_PortStatsRequest01
  | QueueStats01 => Some new_QueueStats01
  | QueueStatsRequest01 => Some new_QueueStatsRequest01
  | TableStats01 => Some new_TableStats01
  | VendorStats01 => Some new_VendorStats01
  | SwitchFeatures01 => Some new_SwitchFeatures01
  | FeaturesReply01 => Some new_FeaturesReply01
  | FeaturesRequest01 => Some new_FeaturesRequest01
  | FlowMod01 => Some new_FlowMod01
  | GetConfigReply01 => Some new_GetConfigReply01
  | GetConfigRequest01 => Some new_GetConfigRequest01
  | PacketOut01 => Some new_PacketOut01
  | PortMod01 => Some new_PortMod01
  | QueueGetConfigReply01 => Some new_QueueGetConfigReply01
  | QueueGetConfigRequest01 => Some new_QueueGetConfigRequest01
  | SetConfig01 => Some new_SetConfig01
  | StatsReply01 => Some new_StatsReply01
  | StatsRequest01 => Some new_StatsRequest01
  | EchoReply01 => Some new_EchoReply01
  | EchoRequest01 => Some new_EchoRequest01
  | Hello01 => Some new_Hello01
  | VendorHeader01 => Some new_VendorHeader01
  | Header04 => Some new_Header04
  | ErrorMsg04 => Some new_ErrorMsg04
  | ErrorExperimenterMsg04 => Some new_ErrorExperimenterMsg04
  | OxmTLV04 => Some new_OxmTLV04
  | Match04 => Some new_Match04
  | FlowRemoved04 => Some new_FlowRemoved04
  | PacketIn04 => Some new_PacketIn04
  | Port04 => Some new_Port04
  | PortStatus04 => Some new_PortStatus04
  | ActionHeader04 => Some new_ActionHeader04
  | ActionExperimenter04 => Some new_ActionExperimenter04
  | ActionGroup04 => Some new_ActionGroup04
  | ActionDecMPLSTTL04 => Some new_ActionDecMPLSTTL04
  | ActionSetMPLSTTL04 => Some new_ActionSetMPLSTTL04
  | ActionCopyTTLIn04 => Some new_ActionCopyTTLIn04
  | ActionCopyTTLOut04 => Some new_ActionCopyTTLOut04
  | ActionPopVLAN04 => Some new_ActionPopVLAN04
  | ActionPopPBB04 => Some new_ActionPopPBB04
  | ActionDecNWTTL04 => Some new_ActionDecNWTTL04
  | ActionSetNWTTL04 => Some new_ActionSetNWTTL04
  | ActionOutput04 => Some new_ActionOutput04
  | ActionPopMPLS04 => Some new_ActionPopMPLS04
  | ActionPush04 => Some new_ActionPush04
  | ActionSetField04 => Some new_ActionSetField04
  | ActionSetQueue04 => Some new_ActionSetQueue04
  | Instruction04 => Some new_Instruction04
  | InstructionApplyAction04 => Some new_InstructionApplyAction04
  | InstructionClearAction04 => Some new_InstructionClearAction04
  | InstructionGotoTable04 => Some new_InstructionGotoTable04
  | InstructionMeter04 => Some new_InstructionMeter04
  | InstructionWriteAction04 => Some new_InstructionWriteAction04
  | InstructionWriteMetadata04 => Some new_InstructionWriteMetadata04
  | OxmExperimenterHeader04 => Some new_OxmExperimenterHeader04
  | QueuePropHeader04 => Some new_QueuePropHeader04
  | PacketQueue04 => Some new_PacketQueue04
  | QueuePropExperimenter04 => Some new_QueuePropExperimenter04
  | QueuePropMaxRate04 => Some new_QueuePropMaxRate04
  | QueuePropMinRate04 => Some new_QueuePropMinRate04
  | BarrierReply04 => Some new_BarrierReply04
  | BarrierRequest04 => Some new_BarrierRequest04
  | Bucket04 => Some new_Bucket04
  | BucketCounter04 => Some new_BucketCounter04
  | AsyncConfig04 => Some new_AsyncConfig04
  | RoleBaseMessage04 => Some new_RoleBaseMessage04
  | SwitchConfig04 => Some new_SwitchConfig04
  | ExperimenterMultipartHeader04 => Some new_ExperimenterMultipartHeader04
  | Property04 => Some new_Property04
  | InstructionsProperty04 => Some new_InstructionsProperty04
  | NextTablesProperty04 => Some new_NextTablesProperty04
  | ActionsProperty04 => Some new_ActionsProperty04
  | OxmProperty04 => Some new_OxmProperty04
  | TableFeatures04 => Some new_TableFeatures04
  | SwitchFeatures04 => Some new_SwitchFeatures04
  | FeaturesReply04 => Some new_FeaturesReply04
  | FeaturesRequest04 => Some new_FeaturesRequest04
  | FlowMod04 => Some new_FlowMod04
  | GetAsyncReply04 => Some new_GetAsyncReply04
  | GetAsyncRequest04 => Some new_GetAsyncRequest04
  | GetConfigReply04 => Some new_GetConfigReply04
  | GetConfigRequest04 => Some new_GetConfigRequest04
  | GroupMod04 => Some new_GroupMod04
  | MeterBandHeader04 => Some new_MeterBandHeader04
  | MeterMod04 => Some new_MeterMod04
  | MeterBandDrop04 => Some new_MeterBandDrop04
  | MeterBandDscpRemark04 => Some new_MeterBandDscpRemark04
  | MeterBandExperimenter04 => Some new_MeterBandExperimenter04
  | MultipartReply04 => Some new_MultipartReply04
  | AggregateStatsReply04 => Some new_AggregateStatsReply04
  | Desc04 => Some new_Desc04
  | FlowStats04 => Some new_FlowStats04
  | PortStats04 => Some new_PortStats04
  | QueueStats04 => Some new_QueueStats04
  | GroupDescStats04 => Some new_GroupDescStats04
  | GroupFeatures04 => Some new_GroupFeatures04
  | GroupStats04 => Some new_GroupStats04
  | MeterConfig04 => Some new_MeterConfig04
  | MeterFeatures04 => Some new_MeterFeatures04
  | BandStats04 => Some new_BandStats04
  | MeterStats04 => Some new_MeterStats04
  | TableStats04 => Some new_TableStats04
  | MultipartRequest04 => Some new_MultipartRequest04
  | AggregateStatsRequest04 => Some new_AggregateStatsRequest04
  | FlowStatsRequest04 => Some new_FlowStatsRequest04
  | PortStatsRequest04 => Some new_PortStatsRequest04
  | QueueStatsRequest04 => Some new_QueueStatsRequest04
  | GroupStatsRequest04 => Some new_GroupStatsRequest04
  | MeterMultipartRequest04 => Some new_MeterMultipartRequest04
  | PacketOut04 => Some new_PacketOut04
  | PortMod04 => Some new_PortMod04
  | QueueGetConfigReply04 => Some new_QueueGetConfigReply04
  | QueueGetConfigRequest04 => Some new_QueueGetConfigRequest04
  | RoleReply04 => Some new_RoleReply04
  | RoleRequest04 => Some new_RoleRequest04
  | SetAsync04 => Some new_SetAsync04
  | SetConfig04 => Some new_SetConfig04
  | TableMod04 => Some new_TableMod04
  | EchoReply04 => Some new_EchoReply04
  | EchoRequest04 => Some new_EchoRequest04
  | ExperimenterHeader04 => Some new_ExperimenterHeader04
  | HelloElemHeader04 => Some new_HelloElemHeader04
  | Hello04 => Some new_Hello04
  | ListOfActions01 => Some (VList ListOfActions01 ActionHeader01 [])   (* pyof/v0x01/common/action.py:344-357 *)
  | ListOfPhyPorts01 => Some (VList ListOfPhyPorts01 PhyPort01 [])   (* pyof/v0x01/common/phy_port.py:189-206 *)
  | ListOfProperties01 => Some (VList ListOfProperties01 QueuePropHeader01 [])   (* pyof/v0x01/common/queue.py:31-46 *)
  | ListOfQueues01 => Some (VList ListOfQueues01 PacketQueue01 [])   (* pyof/v0x01/common/queue.py:113-128 *)
  | ListOfActions04 => Some (VList ListOfActions04 ActionHeader04 [])   (* pyof/v0x04/common/action.py:438-451 *)
  | ListOfInstruction04 => Some (VList ListOfInstruction04 Instruction04 [])   (* pyof/v0x04/common/flow_instructions.py:250-263 *)
  | OxmMatchFields04 => Some (VList OxmMatchFields04 OxmTLV04 [])   (* pyof/v0x04/common/flow_match.py:304-317 *)
  | ListOfOxmHeader04 => Some (VList ListOfOxmHeader04 OxmTLV04 [])   (* pyof/v0x04/common/flow_match.py:438-452 *)
  | ListOfPorts04 => Some (VList ListOfPorts04 Port04 [])   (* pyof/v0x04/common/port.py:236-253 *)
  | ListOfProperties04 => Some (VList ListOfProperties04 QueuePropHeader04 [])   (* pyof/v0x04/common/queue.py:57-72 *)
  | ListOfQueues04 => Some (VList ListOfQueues04 PacketQueue04 [])   (* pyof/v0x04/common/queue.py:106-121 *)
  | ListOfBucketCounter04 => Some (VList ListOfBucketCounter04 BucketCounter04 [])   (* pyof/v0x04/controller2switch/common.py:273-286 *)
  | ListOfProperty04 => Some (VList ListOfProperty04 Property04 [])   (* pyof/v0x04/controller2switch/common.py:598-611 *)
  | ListOfBuckets04 => Some (VList ListOfBuckets04 Bucket04 [])   (* pyof/v0x04/controller2switch/group_mod.py:51-63 *)
  | ListOfMeterBandHeader04 => Some (VList ListOfMeterBandHeader04 MeterBandHeader04 [])   (* pyof/v0x04/controller2switch/meter_mod.py:199-211 *)
  | ListOfBandStats04 => Some (VList ListOfBandStats04 BandStats04 [])   (* pyof/v0x04/controller2switch/multipart_reply.py:629-642 *)
  | ListOfHelloElements04 => Some (VList ListOfHelloElements04 HelloElemHeader04 [])   (* pyof/v0x04/symmetric/hello.py:91-104 *)
  | CUBInt8 => Some (VUInt 1 None VNone)
  | CUBInt16 => Some (VUInt 2 None VNone)
  | CUBInt32 => Some (VUInt 4 None VNone)
  | CUBInt64 => Some (VUInt 8 None VNone)
  | _ => None
  end.

(** Base class (first base) of each class; [None] at the top. *)
Definition class_base (c : cid) : option cid :=
  match c with
  | ListOfActions01 => Some CFixedTypeList
  | ListOfPhyPorts01 => Some CFixedTypeList
  | ListOfProperties01 => Some CFixedTypeList
  | ListOfQueues01 => Some CFixedTypeList
  | ListOfActions04 => Some CFixedTypeList
  | ListOfInstruction04 => Some CFixedTypeList
  | OxmMatchFields04 => Some CFixedTypeList
  | ListOfOxmHeader04 => Some CFixedTypeList
  | ListOfPorts04 => Some CFixedTypeList
  | ListOfProperties04 => Some CFixedTypeList
  | ListOfQueues04 => Some CFixedTypeList
  | ListOfBucketCounter04 => Some CFixedTypeList
  | ListOfProperty04 => Some CFixedTypeList
  | ListOfBuckets04 => Some CFixedTypeList
  | ListOfMeterBandHeader04 => Some CFixedTypeList
  | ListOfBandStats04 => Some CFixedTypeList
  | ListOfHelloElements04 => Some CFixedTypeList
  | Header01 => Some CGenericStruct
  | ErrorMsg01 => Some CGenericMessage
  | Match01 => Some CGenericStruct
  | FlowRemoved01 => Some CGenericMessage
  | PacketIn01 => Some CGenericMessage
  | PhyPort01 => Some CGenericStruct
  | PortStatus01 => Some CGenericMessage
  | ActionHeader01 => Some CGenericStruct
  | ActionOutput01 => Some ActionHeader01
  | ActionStripVlan01 => Some ActionHeader01
  | ActionEnqueue01 => Some ActionHeader01
  | ActionVlanVid01 => Some ActionHeader01
  | ActionVlanPCP01 => Some ActionHeader01
  | ActionDLAddr01 => Some ActionHeader01
  | ActionNWAddr01 => Some ActionHeader01
  | ActionNWTos01 => Some ActionHeader01
  | ActionTPPort01 => Some ActionHeader01
  | ActionVendorHeader01 => Some ActionHeader01
  | QueuePropHeader01 => Some CGenericStruct
  | PacketQueue01 => Some CGenericStruct
  | QueuePropMinRate01 => Some CGenericStruct
  | BarrierReply01 => Some CGenericMessage
  | BarrierRequest01 => Some CGenericMessage
  | SwitchConfig01 => Some CGenericMessage
  | AggregateStatsReply01 => Some CGenericStruct
  | AggregateStatsRequest01 => Some CGenericStruct
  | DescStats01 => Some CGenericStruct
  | FlowStats01 => Some CGenericStruct
  | FlowStatsRequest01 => Some CGenericStruct
  | PortStats01 => Some CGenericStruct
  | PortStatsRequest01 => Some CGenericStruct
  | QueueStats01 => Some CGenericStruct
  | QueueStatsRequest01 => Some CGenericStruct
  | TableStats01 => Some CGenericStruct
  | VendorStats01 => Some CGenericStruct
  | SwitchFeatures01 => Some CGenericMessage
  | FeaturesReply01 => Some SwitchFeatures01
  | FeaturesRequest01 => Some CGenericMessage
  | FlowMod01 => Some CGenericMessage
  | GetConfigReply01 => Some SwitchConfig01
  | GetConfigRequest01 => Some CGenericMessage
  | PacketOut01 => Some CGenericMessage
  | PortMod01 => Some CGenericMessage
  | QueueGetConfigReply01 => Some CGenericMessage
  | QueueGetConfigRequest01 => Some CGenericMessage
  | SetConfig01 => Some SwitchConfig01
  | StatsReply01 => Some CGenericMessage
  | StatsRequest01 => Some CGenericMessage
  | EchoReply01 => Some CGenericMessage
  | EchoRequest01 => Some CGenericMessage
  | Hello01 => Some CGenericMessage
  | VendorHeader01 => Some CGenericMessage
  | Header04 => Some CGenericStruct
  | ErrorMsg04 => Some CGenericMessage
  | ErrorExperimenterMsg04 => Some CGenericMessage
  | OxmTLV04 => Some CGenericStruct
  | Match04 => Some CGenericStruct
  | FlowRemoved04 => Some CGenericMessage
  | PacketIn04 => Some CGenericMessage
  | Port04 => Some CGenericStruct
  | PortStatus04 => Some CGenericMessage
  | ActionHeader04 => Some CGenericStruct
  | ActionExperimenter04 => Some ActionHeader04
  | ActionGroup04 => Some ActionHeader04
  | ActionDecMPLSTTL04 => Some ActionHeader04
  | ActionSetMPLSTTL04 => Some ActionHeader04
  | ActionCopyTTLIn04 => Some ActionHeader04
  | ActionCopyTTLOut04 => Some ActionHeader04
  | ActionPopVLAN04 => Some ActionHeader04
  | ActionPopPBB04 => Some ActionHeader04
  | ActionDecNWTTL04 => Some ActionHeader04
  | ActionSetNWTTL04 => Some ActionHeader04
  | ActionOutput04 => Some ActionHeader04
  | ActionPopMPLS04 => Some ActionHeader04
  | ActionPush04 => Some ActionHeader04
  | ActionSetField04 => Some ActionHeader04
  | ActionSetQueue04 => Some ActionHeader04
  | Instruction04 => Some CGenericStruct
  | InstructionApplyAction04 => Some Instruction04
  | InstructionClearAction04 => Some Instruction04
  | InstructionGotoTable04 => Some Instruction04
  | InstructionMeter04 => Some Instruction04
  | InstructionWriteAction04 => Some Instruction04
  | InstructionWriteMetadata04 => Some Instruction04
  | OxmExperimenterHeader04 => Some CGenericStruct
  | QueuePropHeader04 => Some CGenericStruct
  | PacketQueue04 => Some CGenericStruct
  | QueuePropExperimenter04 => Some CGenericStruct
  | QueuePropMaxRate04 => Some CGenericStruct
  | QueuePropMinRate04 => Some CGenericStruct
  | BarrierReply04 => Some CGenericMessage
  | BarrierRequest04 => Some CGenericMessage
  | Bucket04 => Some CGenericStruct
  | BucketCounter04 => Some CGenericStruct
  | AsyncConfig04 => Some CGenericMessage
  | RoleBaseMessage04 => Some CGenericMessage
  | SwitchConfig04 => Some CGenericMessage
  | ExperimenterMultipartHeader04 => Some CGenericStruct
  | Property04 => Some CGenericStruct
  | InstructionsProperty04 => Some Property04
  | NextTablesProperty04 => Some Property04
  | ActionsProperty04 => Some Property04
  | OxmProperty04 => Some Property04
  | TableFeatures04 => Some CGenericStruct
  | SwitchFeatures04 => Some CGenericMessage
  | FeaturesReply04 => Some SwitchFeatures04
  | FeaturesRequest04 => Some CGenericMessage
  | FlowMod04 => Some CGenericMessage
  | GetAsyncReply04 => Some AsyncConfig04
  | GetAsyncRequest04 => Some CGenericMessage
  | GetConfigReply04 => Some SwitchConfig04
  | GetConfigRequest04 => Some CGenericMessage
  | GroupMod04 => Some CGenericMessage
  | MeterBandHeader04 => Some CGenericStruct
  | MeterMod04 => Some CGenericMessage
  | MeterBandDrop04 => Some MeterBandHeader04
  | MeterBandDscpRemark04 => Some MeterBandHeader04
  | MeterBandExperimenter04 => Some MeterBandHeader04
  | MultipartReply04 => Some CGenericMessage
  | AggregateStatsReply04 => Some CGenericStruct
  | Desc04 => Some CGenericStruct
  | FlowStats04 => Some CGenericStruct
  | PortStats04 => Some CGenericStruct
  | QueueStats04 => Some CGenericStruct
  | GroupDescStats04 => Some CGenericStruct
  | GroupFeatures04 => Some CGenericStruct
  | GroupStats04 => Some CGenericStruct
  | MeterConfig04 => Some CGenericStruct
  | MeterFeatures04 => Some CGenericStruct
  | BandStats04 => Some CGenericStruct
  | MeterStats04 => Some CGenericStruct
  | TableStats04 => Some CGenericStruct
  | MultipartRequest04 => Some CGenericMessage
  | AggregateStatsRequest04 => Some CGenericStruct
  | FlowStatsRequest04 => Some CGenericStruct
  | PortStatsRequest04 => Some CGenericStruct
  | QueueStatsRequest04 => Some CGenericStruct
  | GroupStatsRequest04 => Some CGenericStruct
  | MeterMultipartRequest04 => Some CGenericStruct
  | PacketOut04 => Some CGenericMessage
  | PortMod04 => Some CGenericMessage
  | QueueGetConfigReply04 => Some CGenericMessage
  | QueueGetConfigRequest04 => Some CGenericMessage
  | RoleReply04 => Some RoleBaseMessage04
  | RoleRequest04 => Some RoleBaseMessage04
  | SetAsync04 => Some AsyncConfig04
  | SetConfig04 => Some SwitchConfig04
  | TableMod04 => Some CGenericMessage
  | EchoReply04 => Some CGenericMessage
  | EchoRequest04 => Some CGenericMessage
  | ExperimenterHeader04 => Some CGenericMessage
  | HelloElemHeader04 => Some CGenericStruct
  | Hello04 => Some CGenericMessage
  | CGenericMessage => Some CGenericStruct
  | CTypeList => Some CList
  | CFixedTypeList => Some CTypeList
  | CUBInt8 | CUBInt16 | CUBInt32 | CUBInt64 | CUBIntOther | CPad | CChar
  | CIPAddress | CHWAddress | CDPID | CBinaryData => Some CGenericType
  | CObject => None
  | _ => Some CObject
  end.

(** Item class of the list classes. *)
Definition list_item (c : cid) : option cid :=
  match c with
  | ListOfActions01 => Some ActionHeader01
  | ListOfPhyPorts01 => Some PhyPort01
  | ListOfProperties01 => Some QueuePropHeader01
  | ListOfQueues01 => Some PacketQueue01
  | ListOfActions04 => Some ActionHeader04
  | ListOfInstruction04 => Some Instruction04
  | OxmMatchFields04 => Some OxmTLV04
  | ListOfOxmHeader04 => Some OxmTLV04
  | ListOfPorts04 => Some Port04
  | ListOfProperties04 => Some QueuePropHeader04
  | ListOfQueues04 => Some PacketQueue04
  | ListOfBucketCounter04 => Some BucketCounter04
  | ListOfProperty04 => Some Property04
  | ListOfBuckets04 => Some Bucket04
  | ListOfMeterBandHeader04 => Some MeterBandHeader04
  | ListOfBandStats04 => Some BandStats04
  | ListOfHelloElements04 => Some HelloElemHeader04
  | _ => None
  end.

(** Subclasses of the v0x01 ActionHeader in definition order with their
    _allowed_types (pyof/v0x01/common/action.py). *)
Definition action_classes_01 : list (cid * list Z) :=
  [(ActionOutput01, [0]);
   (ActionStripVlan01, [3]);
   (ActionEnqueue01, [11]);
   (ActionVlanVid01, [1]);
   (ActionVlanPCP01, [2]);
   (ActionDLAddr01, [4; 5]);
   (ActionNWAddr01, [6; 7]);
   (ActionNWTos01, [8]);
   (ActionTPPort01, [9; 10]);
   (ActionVendorHeader01, [65535])].
(** Subclasses of the v0x04 ActionHeader in definition order with their
    _allowed_types (pyof/v0x04/common/action.py). *)
Definition action_classes_04 : list (cid * list Z) :=
  [(ActionExperimenter04, [65535]);
   (ActionGroup04, [22]);
   (ActionDecMPLSTTL04, [16]);
   (ActionSetMPLSTTL04, [15]);
   (ActionCopyTTLIn04, [12]);
   (ActionCopyTTLOut04, [11]);
   (ActionPopVLAN04, [18]);
   (ActionPopPBB04, [27]);
   (ActionDecNWTTL04, [24]);
   (ActionSetNWTTL04, [23]);
   (ActionOutput04, [0]);
   (ActionPopMPLS04, [20]);
   (ActionPush04, [17; 19; 26]);
   (ActionSetField04, [25]);
   (ActionSetQueue04, [21])].

(** MESSAGE_TYPES, pyof/v0x01/common/utils.py:40-63. *)
Definition message_types_01 : list (Z * cid) :=
  [(0, Hello01);
   (1, ErrorMsg01);
   (2, EchoRequest01);
   (3, EchoReply01);
   (4, VendorHeader01);
   (5, FeaturesRequest01);
   (6, FeaturesReply01);
   (7, GetConfigRequest01);
   (8, GetConfigReply01);
   (9, SetConfig01);
   (10, PacketIn01);
   (11, FlowRemoved01);
   (12, PortStatus01);
   (13, PacketOut01);
   (14, FlowMod01);
   (15, PortMod01);
   (16, StatsRequest01);
   (17, StatsReply01);
   (18, BarrierRequest01);
   (19, BarrierReply01);
   (20, QueueGetConfigRequest01);
   (21, QueueGetConfigReply01)].
(** MESSAGE_TYPES, pyof/v0x04/common/utils.py:48-107. *)
Definition message_types_04 : list (Z * cid) :=
  [(0, Hello04);
   (1, ErrorMsg04);
   (2, EchoRequest04);
   (3, EchoReply04);
   (4, ExperimenterHeader04);
   (5, FeaturesRequest04);
   (6, FeaturesReply04);
   (7, GetConfigRequest04);
   (8, GetConfigReply04);
   (9, SetConfig04);
   (10, PacketIn04);
   (11, FlowRemoved04);
   (12, PortStatus04);
   (13, PacketOut04);
   (14, FlowMod04);
   (15, GroupMod04);
   (16, PortMod04);
   (17, TableMod04);
   (19, MultipartReply04);
   (18, MultipartRequest04);
   (20, BarrierRequest04);
   (21, BarrierReply04);
   (22, QueueGetConfigRequest04);
   (23, QueueGetConfigReply04);
   (24, RoleRequest04);
   (25, RoleReply04);
   (26, GetAsyncRequest04);
   (27, GetAsyncReply04);
   (28, SetAsync04);
   (29, MeterMod04)].
