(** Specification of the OpenFlow constants (C49).

    The enumerations of openflow.h as printed in the OpenFlow 1.0.0 and 1.3.0
    specifications, in the notation of C: an enumerator without a value is one
    more than the enumerator before it, the first one is 0.  [c_values] gives
    the numbers. *)
From Coq Require Import ZArith List Bool String.
From Verif Require Import Ids PyVal Classes.
Import ListNotations.
Open Scope string_scope.
Open Scope list_scope.
Open Scope Z_scope.

Inductive enumerator : Type :=
| N (name : string)              (* name,       *)
| V (name : string) (z : Z)      (* name = z,   *)
| B (name : string) (k : Z).     (* name = 1 << k, *)

Fixpoint c_numbers (next : Z) (l : list enumerator) : list (string * Z) :=
  match l with
  | [] => []
  | N s :: tl => (s, next) :: c_numbers (next + 1) tl
  | V s z :: tl => (s, z) :: c_numbers (z + 1) tl
  | B s k :: tl => (s, 2 ^ k) :: c_numbers (2 ^ k + 1) tl
  end.
Definition c_values (l : list enumerator) : list (string * Z) := c_numbers 0 l.

(** The enumerations; [None] for names the standard does not have. *)
Definition openflow_enum (e : eid) : option (list enumerator) :=
  match e with
  (* OpenFlow 1.0.0 *)
  | E_Type01 => Some (* ofp_type *)
      [N "OFPT_HELLO"; N "OFPT_ERROR"; N "OFPT_ECHO_REQUEST"; N "OFPT_ECHO_REPLY"; N "OFPT_VENDOR";
       N "OFPT_FEATURES_REQUEST"; N "OFPT_FEATURES_REPLY"; N "OFPT_GET_CONFIG_REQUEST"; N "OFPT_GET_CONFIG_REPLY";
       N "OFPT_SET_CONFIG"; N "OFPT_PACKET_IN"; N "OFPT_FLOW_REMOVED"; N "OFPT_PORT_STATUS"; N "OFPT_PACKET_OUT";
       N "OFPT_FLOW_MOD"; N "OFPT_PORT_MOD"; N "OFPT_STATS_REQUEST"; N "OFPT_STATS_REPLY"; N "OFPT_BARRIER_REQUEST";
       N "OFPT_BARRIER_REPLY"; N "OFPT_QUEUE_GET_CONFIG_REQUEST"; N "OFPT_QUEUE_GET_CONFIG_REPLY"]
  | E_Port01 => Some (* ofp_port *)
      [V "OFPP_MAX" 0xff00; V "OFPP_IN_PORT" 0xfff8; V "OFPP_TABLE" 0xfff9; V "OFPP_NORMAL" 0xfffa;
       V "OFPP_FLOOD" 0xfffb; V "OFPP_ALL" 0xfffc; V "OFPP_CONTROLLER" 0xfffd; V "OFPP_LOCAL" 0xfffe;
       V "OFPP_NONE" 0xffff]
  | E_PortConfig01 => Some (* ofp_port_config *)
      [B "OFPPC_PORT_DOWN" 0; B "OFPPC_NO_STP" 1; B "OFPPC_NO_RECV" 2; B "OFPPC_NO_RECV_STP" 3;
       B "OFPPC_NO_FLOOD" 4; B "OFPPC_NO_FWD" 5; B "OFPPC_NO_PACKET_IN" 6]
  | E_PortState01 => Some (* ofp_port_state: the STP state is a 2 bit field at bit 8 *)
      [B "OFPPS_LINK_DOWN" 0; V "OFPPS_STP_LISTEN" (0 * 2 ^ 8); V "OFPPS_STP_LEARN" (1 * 2 ^ 8);
       V "OFPPS_STP_FORWARD" (2 * 2 ^ 8); V "OFPPS_STP_BLOCK" (3 * 2 ^ 8); V "OFPPS_STP_MASK" (3 * 2 ^ 8)]
  | E_PortFeatures01 => Some (* ofp_port_features *)
      [B "OFPPF_10MB_HD" 0; B "OFPPF_10MB_FD" 1; B "OFPPF_100MB_HD" 2; B "OFPPF_100MB_FD" 3; B "OFPPF_1GB_HD" 4;
       B "OFPPF_1GB_FD" 5; B "OFPPF_10GB_FD" 6; B "OFPPF_COPPER" 7; B "OFPPF_FIBER" 8; B "OFPPF_AUTONEG" 9;
       B "OFPPF_PAUSE" 10; B "OFPPF_PAUSE_ASYM" 11]
  | E_QueueProperties01 => Some [V "OFPQT_NONE" 0; N "OFPQT_MIN_RATE"]
  | E_FlowWildCards01 => Some (* ofp_flow_wildcards *)
      [B "OFPFW_IN_PORT" 0; B "OFPFW_DL_VLAN" 1; B "OFPFW_DL_SRC" 2; B "OFPFW_DL_DST" 3; B "OFPFW_DL_TYPE" 4;
       B "OFPFW_NW_PROTO" 5; B "OFPFW_TP_SRC" 6; B "OFPFW_TP_DST" 7;
       V "OFPFW_NW_SRC_SHIFT" 8; V "OFPFW_NW_SRC_BITS" 6; V "OFPFW_NW_SRC_MASK" ((2 ^ 6 - 1) * 2 ^ 8);
       V "OFPFW_NW_SRC_ALL" (32 * 2 ^ 8);
       V "OFPFW_NW_DST_SHIFT" 14; V "OFPFW_NW_DST_BITS" 6; V "OFPFW_NW_DST_MASK" ((2 ^ 6 - 1) * 2 ^ 14);
       V "OFPFW_NW_DST_ALL" (32 * 2 ^ 14);
       B "OFPFW_DL_VLAN_PCP" 20; B "OFPFW_NW_TOS" 21; V "OFPFW_ALL" (2 ^ 22 - 1)]
  | E_ActionType01 => Some (* ofp_action_type *)
      [N "OFPAT_OUTPUT"; N "OFPAT_SET_VLAN_VID"; N "OFPAT_SET_VLAN_PCP"; N "OFPAT_STRIP_VLAN"; N "OFPAT_SET_DL_SRC";
       N "OFPAT_SET_DL_DST"; N "OFPAT_SET_NW_SRC"; N "OFPAT_SET_NW_DST"; N "OFPAT_SET_NW_TOS"; N "OFPAT_SET_TP_SRC";
       N "OFPAT_SET_TP_DST"; N "OFPAT_ENQUEUE"; V "OFPAT_VENDOR" 0xffff]
  | E_Capabilities01 => Some (* ofp_capabilities *)
      [B "OFPC_FLOW_STATS" 0; B "OFPC_TABLE_STATS" 1; B "OFPC_PORT_STATS" 2; B "OFPC_STP" 3; B "OFPC_RESERVED" 4;
       B "OFPC_IP_REASM" 5; B "OFPC_QUEUE_STATS" 6; B "OFPC_ARP_MATCH_IP" 7]
  | E_ConfigFlag01 => Some (* ofp_config_flags *)
      [V "OFPC_FRAG_NORMAL" 0; V "OFPC_FRAG_DROP" 1; V "OFPC_FRAG_REASM" 2; V "OFPC_FRAG_MASK" 3]
  | E_FlowModCommand01 => Some (* ofp_flow_mod_command *)
      [N "OFPFC_ADD"; N "OFPFC_MODIFY"; N "OFPFC_MODIFY_STRICT"; N "OFPFC_DELETE"; N "OFPFC_DELETE_STRICT"]
  | E_FlowModFlags01 => Some (* ofp_flow_mod_flags *)
      [B "OFPFF_SEND_FLOW_REM" 0; B "OFPFF_CHECK_OVERLAP" 1; B "OFPFF_EMERG" 2]
  | E_StatsType01 => Some (* ofp_stats_types *)
      [N "OFPST_DESC"; N "OFPST_FLOW"; N "OFPST_AGGREGATE"; N "OFPST_TABLE"; N "OFPST_PORT"; N "OFPST_QUEUE";
       V "OFPST_VENDOR" 0xffff]
  | E_PacketInReason01 => Some [N "OFPR_NO_MATCH"; N "OFPR_ACTION"]
  | E_FlowRemovedReason01 => Some [N "OFPRR_IDLE_TIMEOUT"; N "OFPRR_HARD_TIMEOUT"; N "OFPRR_DELETE"]
  | E_PortReason01 => Some [N "OFPPR_ADD"; N "OFPPR_DELETE"; N "OFPPR_MODIFY"]
  | E_ErrorType01 => Some (* ofp_error_type *)
      [N "OFPET_HELLO_FAILED"; N "OFPET_BAD_REQUEST"; N "OFPET_BAD_ACTION"; N "OFPET_FLOW_MOD_FAILED";
       N "OFPET_PORT_MOD_FAILED"; N "OFPET_QUEUE_OP_FAILED"]
  | E_HelloFailedCode01 => Some [N "OFPHFC_INCOMPATIBLE"; N "OFPHFC_EPERM"]
  | E_BadRequestCode01 => Some
      [N "OFPBRC_BAD_VERSION"; N "OFPBRC_BAD_TYPE"; N "OFPBRC_BAD_STAT"; N "OFPBRC_BAD_VENDOR"; N "OFPBRC_BAD_SUBTYPE";
       N "OFPBRC_EPERM"; N "OFPBRC_BAD_LEN"; N "OFPBRC_BUFFER_EMPTY"; N "OFPBRC_BUFFER_UNKNOWN"]
  | E_BadActionCode01 => Some
      [N "OFPBAC_BAD_TYPE"; N "OFPBAC_BAD_LEN"; N "OFPBAC_BAD_VENDOR"; N "OFPBAC_BAD_VENDOR_TYPE"; N "OFPBAC_BAD_OUT_PORT";
       N "OFPBAC_BAD_ARGUMENT"; N "OFPBAC_EPERM"; N "OFPBAC_TOO_MANY"; N "OFPBAC_BAD_QUEUE"]
  | E_FlowModFailedCode01 => Some
      [N "OFPFMFC_ALL_TABLES_FULL"; N "OFPFMFC_OVERLAP"; N "OFPFMFC_EPERM"; N "OFPFMFC_BAD_EMERG_TIMEOUT";
       N "OFPFMFC_BAD_COMMAND"; N "OFPFMFC_UNSUPPORTED"]
  | E_PortModFailedCode01 => Some [N "OFPPMFC_BAD_PORT"; N "OFPPMFC_BAD_HW_ADDR"]
  | E_QueueOpFailedCode01 => Some [N "OFPQOFC_BAD_PORT"; N "OFPQOFC_BAD_QUEUE"; N "OFPQOFC_EPERM"]
  | E_GenericFailedCode01 => None
  (* OpenFlow 1.3.0 *)
  | E_Type04 => Some (* ofp_type *)
      [V "OFPT_HELLO" 0; V "OFPT_ERROR" 1; V "OFPT_ECHO_REQUEST" 2; V "OFPT_ECHO_REPLY" 3; V "OFPT_EXPERIMENTER" 4;
       V "OFPT_FEATURES_REQUEST" 5; V "OFPT_FEATURES_REPLY" 6; V "OFPT_GET_CONFIG_REQUEST" 7;
       V "OFPT_GET_CONFIG_REPLY" 8; V "OFPT_SET_CONFIG" 9; V "OFPT_PACKET_IN" 10; V "OFPT_FLOW_REMOVED" 11;
       V "OFPT_PORT_STATUS" 12; V "OFPT_PACKET_OUT" 13; V "OFPT_FLOW_MOD" 14; V "OFPT_GROUP_MOD" 15;
       V "OFPT_PORT_MOD" 16; V "OFPT_TABLE_MOD" 17; V "OFPT_MULTIPART_REQUEST" 18; V "OFPT_MULTIPART_REPLY" 19;
       V "OFPT_BARRIER_REQUEST" 20; V "OFPT_BARRIER_REPLY" 21; V "OFPT_QUEUE_GET_CONFIG_REQUEST" 22;
       V "OFPT_QUEUE_GET_CONFIG_REPLY" 23; V "OFPT_ROLE_REQUEST" 24; V "OFPT_ROLE_REPLY" 25;
       V "OFPT_GET_ASYNC_REQUEST" 26; V "OFPT_GET_ASYNC_REPLY" 27; V "OFPT_SET_ASYNC" 28; V "OFPT_METER_MOD" 29]
  | E_PortConfig04 => Some (* ofp_port_config *)
      [B "OFPPC_PORT_DOWN" 0; B "OFPPC_NO_RECV" 2; B "OFPPC_NO_FWD" 5; B "OFPPC_NO_PACKET_IN" 6]
  | E_PortState04 => Some [B "OFPPS_LINK_DOWN" 0; B "OFPPS_BLOCKED" 1; B "OFPPS_LIVE" 2]
  | E_PortNo04 => Some (* ofp_port_no *)
      [V "OFPP_MAX" 0xffffff00; V "OFPP_IN_PORT" 0xfffffff8; V "OFPP_TABLE" 0xfffffff9; V "OFPP_NORMAL" 0xfffffffa;
       V "OFPP_FLOOD" 0xfffffffb; V "OFPP_ALL" 0xfffffffc; V "OFPP_CONTROLLER" 0xfffffffd; V "OFPP_LOCAL" 0xfffffffe;
       V "OFPP_ANY" 0xffffffff]
  | E_PortFeatures04 => Some (* ofp_port_features *)
      [B "OFPPF_10MB_HD" 0; B "OFPPF_10MB_FD" 1; B "OFPPF_100MB_HD" 2; B "OFPPF_100MB_FD" 3; B "OFPPF_1GB_HD" 4;
       B "OFPPF_1GB_FD" 5; B "OFPPF_10GB_FD" 6; B "OFPPF_40GB_FD" 7; B "OFPPF_100GB_FD" 8; B "OFPPF_1TB_FD" 9;
       B "OFPPF_OTHER" 10; B "OFPPF_COPPER" 11; B "OFPPF_FIBER" 12; B "OFPPF_AUTONEG" 13; B "OFPPF_PAUSE" 14;
       B "OFPPF_PAUSE_ASYM" 15]
  | E_QueueProperties04 => Some [V "OFPQT_MIN_RATE" 1; V "OFPQT_MAX_RATE" 2; V "OFPQT_EXPERIMENTER" 0xffff]
  | E_MatchType04 => Some [V "OFPMT_STANDARD" 0; V "OFPMT_OXM" 1]
  | E_OxmClass04 => Some
      [V "OFPXMC_NXM_0" 0x0000; V "OFPXMC_NXM_1" 0x0001; V "OFPXMC_OPENFLOW_BASIC" 0x8000; V "OFPXMC_EXPERIMENTER" 0xffff]
  | E_OxmOfbMatchField04 => Some (* oxm_ofb_match_fields *)
      [V "OFPXMT_OFB_IN_PORT" 0; N "OFPXMT_OFB_IN_PHY_PORT"; N "OFPXMT_OFB_METADATA"; N "OFPXMT_OFB_ETH_DST";
       N "OFPXMT_OFB_ETH_SRC"; N "OFPXMT_OFB_ETH_TYPE"; N "OFPXMT_OFB_VLAN_VID"; N "OFPXMT_OFB_VLAN_PCP";
       N "OFPXMT_OFB_IP_DSCP"; N "OFPXMT_OFB_IP_ECN"; N "OFPXMT_OFB_IP_PROTO"; N "OFPXMT_OFB_IPV4_SRC";
       N "OFPXMT_OFB_IPV4_DST"; N "OFPXMT_OFB_TCP_SRC"; N "OFPXMT_OFB_TCP_DST"; N "OFPXMT_OFB_UDP_SRC";
       N "OFPXMT_OFB_UDP_DST"; N "OFPXMT_OFB_SCTP_SRC"; N "OFPXMT_OFB_SCTP_DST"; N "OFPXMT_OFB_ICMPV4_TYPE";
       N "OFPXMT_OFB_ICMPV4_CODE"; N "OFPXMT_OFB_ARP_OP"; N "OFPXMT_OFB_ARP_SPA"; N "OFPXMT_OFB_ARP_TPA";
       N "OFPXMT_OFB_ARP_SHA"; N "OFPXMT_OFB_ARP_THA"; N "OFPXMT_OFB_IPV6_SRC"; N "OFPXMT_OFB_IPV6_DST";
       N "OFPXMT_OFB_IPV6_FLABEL"; N "OFPXMT_OFB_ICMPV6_TYPE"; N "OFPXMT_OFB_ICMPV6_CODE"; N "OFPXMT_OFB_IPV6_ND_TARGET";
       N "OFPXMT_OFB_IPV6_ND_SLL"; N "OFPXMT_OFB_IPV6_ND_TLL"; N "OFPXMT_OFB_MPLS_LABEL"; N "OFPXMT_OFB_MPLS_TC";
       N "OFPXMT_OFP_MPLS_BOS"; N "OFPXMT_OFB_PBB_ISID"; N "OFPXMT_OFB_TUNNEL_ID"; N "OFPXMT_OFB_IPV6_EXTHDR"]
  | E_VlanId04 => Some [V "OFPVID_PRESENT" 0x1000; V "OFPVID_NONE" 0x0000]
  | E_Ipv6ExtHdrFlags04 => Some
      [B "OFPIEH_NONEXT" 0; B "OFPIEH_ESP" 1; B "OFPIEH_AUTH" 2; B "OFPIEH_DEST" 3; B "OFPIEH_FRAG" 4; B "OFPIEH_ROUTER" 5;
       B "OFPIEH_HOP" 6; B "OFPIEH_UNREP" 7; B "OFPIEH_UNSEQ" 8]
  | E_InstructionType04 => Some
      [V "OFPIT_GOTO_TABLE" 1; V "OFPIT_WRITE_METADATA" 2; V "OFPIT_WRITE_ACTIONS" 3; V "OFPIT_APPLY_ACTIONS" 4;
       V "OFPIT_CLEAR_ACTIONS" 5; V "OFPIT_METER" 6; V "OFPIT_EXPERIMENTER" 0xffff]
  | E_ActionType04 => Some (* ofp_action_type *)
      [V "OFPAT_OUTPUT" 0; V "OFPAT_COPY_TTL_OUT" 11; V "OFPAT_COPY_TTL_IN" 12; V "OFPAT_SET_MPLS_TTL" 15;
       V "OFPAT_DEC_MPLS_TTL" 16; V "OFPAT_PUSH_VLAN" 17; V "OFPAT_POP_VLAN" 18; V "OFPAT_PUSH_MPLS" 19;
       V "OFPAT_POP_MPLS" 20; V "OFPAT_SET_QUEUE" 21; V "OFPAT_GROUP" 22; V "OFPAT_SET_NW_TTL" 23;
       V "OFPAT_DEC_NW_TTL" 24; V "OFPAT_SET_FIELD" 25; V "OFPAT_PUSH_PBB" 26; V "OFPAT_POP_PBB" 27;
       V "OFPAT_EXPERIMENTER" 0xffff]
  | E_ControllerMaxLen04 => Some [V "OFPCML_MAX" 0xffe5; V "OFPCML_NO_BUFFER" 0xffff]
  | E_Capabilities04 => Some
      [B "OFPC_FLOW_STATS" 0; B "OFPC_TABLE_STATS" 1; B "OFPC_PORT_STATS" 2; B "OFPC_GROUP_STATS" 3; B "OFPC_IP_REASM" 5;
       B "OFPC_QUEUE_STATS" 6; B "OFPC_PORT_BLOCKED" 8]
  | E_ConfigFlag04 => Some
      [V "OFPC_FRAG_NORMAL" 0; B "OFPC_FRAG_DROP" 0; B "OFPC_FRAG_REASM" 1; V "OFPC_FRAG_MASK" 3]
  | E_Table04 => Some [V "OFPTT_MAX" 0xfe; V "OFPTT_ALL" 0xff]
  | E_FlowModCommand04 => Some
      [V "OFPFC_ADD" 0; V "OFPFC_MODIFY" 1; V "OFPFC_MODIFY_STRICT" 2; V "OFPFC_DELETE" 3; V "OFPFC_DELETE_STRICT" 4]
  | E_FlowModFlags04 => Some
      [B "OFPFF_SEND_FLOW_REM" 0; B "OFPFF_CHECK_OVERLAP" 1; B "OFPFF_RESET_COUNTS" 2; B "OFPFF_NO_PKT_COUNTS" 3;
       B "OFPFF_NO_BYT_COUNTS" 4]
  | E_GroupModCommand04 => Some [V "OFPGC_ADD" 0; V "OFPGC_MODIFY" 1; V "OFPGC_DELETE" 2]
  | E_GroupType04 => Some [V "OFPGT_ALL" 0; V "OFPGT_SELECT" 1; V "OFPGT_INDIRECT" 2; V "OFPGT_FF" 3]
  | E_Group04 => Some [V "OFPG_MAX" 0xffffff00; V "OFPG_ALL" 0xfffffffc; V "OFPG_ANY" 0xffffffff]
  | E_Meter04 => Some
      [V "OFPM_MAX" 0xffff0000; V "OFPM_SLOWPATH" 0xfffffffd; V "OFPM_CONTROLLER" 0xfffffffe; V "OFPM_ALL" 0xffffffff]
  | E_MeterModCommand04 => Some [N "OFPMC_ADD"; N "OFPMC_MODIFY"; N "OFPMC_DELETE"]
  | E_MeterFlags04 => Some [B "OFPMF_KBPS" 0; B "OFPMF_PKTPS" 1; B "OFPMF_BURST" 2; B "OFPMF_STATS" 3]
  | E_MeterBandType04 => Some [V "OFPMBT_DROP" 1; V "OFPMBT_DSCP_REMARK" 2; V "OFPMBT_EXPERIMENTER" 0xffff]
  | E_MultipartType04 => Some (* ofp_multipart_types *)
      [V "OFPMP_DESC" 0; V "OFPMP_FLOW" 1; V "OFPMP_AGGREGATE" 2; V "OFPMP_TABLE" 3; V "OFPMP_PORT_STATS" 4;
       V "OFPMP_QUEUE" 5; V "OFPMP_GROUP" 6; V "OFPMP_GROUP_DESC" 7; V "OFPMP_GROUP_FEATURES" 8; V "OFPMP_METER" 9;
       V "OFPMP_METER_CONFIG" 10; V "OFPMP_METER_FEATURES" 11; V "OFPMP_TABLE_FEATURES" 12; V "OFPMP_PORT_DESC" 13;
       V "OFPMP_EXPERIMENTER" 0xffff]
  | E_MultipartRequestFlags04 => Some [B "OFPMPF_REQ_MORE" 0]
  | E_MultipartReplyFlags04 => Some [B "OFPMPF_REPLY_MORE" 0]
  | E_TableFeaturePropType04 => Some (* ofp_table_feature_prop_type *)
      [V "OFPTFPT_INSTRUCTIONS" 0; V "OFPTFPT_INSTRUCTIONS_MISS" 1; V "OFPTFPT_NEXT_TABLES" 2;
       V "OFPTFPT_NEXT_TABLES_MISS" 3; V "OFPTFPT_WRITE_ACTIONS" 4; V "OFPTFPT_WRITE_ACTIONS_MISS" 5;
       V "OFPTFPT_APPLY_ACTIONS" 6; V "OFPTFPT_APPLY_ACTIONS_MISS" 7; V "OFPTFPT_MATCH" 8; V "OFPTFPT_WILDCARDS" 10;
       V "OFPTFPT_WRITE_SETFIELD" 12; V "OFPTFPT_WRITE_SETFIELD_MISS" 13; V "OFPTFPT_APPLY_SETFIELD" 14;
       V "OFPTFPT_APPLY_SETFIELD_MISS" 15; V "OFPTFPT_EXPERIMENTER" 0xfffe; V "OFPTFPT_EXPERIMENTER_MISS" 0xffff]
  | E_GroupCapabilities04 => Some
      [B "OFPGFC_SELECT_WEIGHT" 0; B "OFPGFC_SELECT_LIVENESS" 1; B "OFPGFC_CHAINING" 2; B "OFPGFC_CHAINING_CHECKS" 3]
  | E_ControllerRole04 => Some
      [V "OFPCR_ROLE_NOCHANGE" 0; V "OFPCR_ROLE_EQUAL" 1; V "OFPCR_ROLE_MASTER" 2; V "OFPCR_ROLE_SLAVE" 3]
  | E_PacketInReason04 => Some [V "OFPR_NO_MATCH" 0; V "OFPR_ACTION" 1; V "OFPR_INVALID_TTL" 2]
  | E_FlowRemovedReason04 => Some
      [V "OFPRR_IDLE_TIMEOUT" 0; V "OFPRR_HARD_TIMEOUT" 1; V "OFPRR_DELETE" 2; V "OFPRR_GROUP_DELETE" 3]
  | E_PortReason04 => Some [V "OFPPR_ADD" 0; V "OFPPR_DELETE" 1; V "OFPPR_MODIFY" 2]
  | E_ErrorType04 => Some (* ofp_error_type *)
      [V "OFPET_HELLO_FAILED" 0; V "OFPET_BAD_REQUEST" 1; V "OFPET_BAD_ACTION" 2; V "OFPET_BAD_INSTRUCTION" 3;
       V "OFPET_BAD_MATCH" 4; V "OFPET_FLOW_MOD_FAILED" 5; V "OFPET_GROUP_MOD_FAILED" 6; V "OFPET_PORT_MOD_FAILED" 7;
       V "OFPET_TABLE_MOD_FAILED" 8; V "OFPET_QUEUE_OP_FAILED" 9; V "OFPET_SWITCH_CONFIG_FAILED" 10;
       V "OFPET_ROLE_REQUEST_FAILED" 11; V "OFPET_METER_MOD_FAILED" 12; V "OFPET_TABLE_FEATURES_FAILED" 13;
       V "OFPET_EXPERIMENTER" 0xffff]
  | E_HelloFailedCode04 => Some [V "OFPHFC_INCOMPATIBLE" 0; V "OFPHFC_EPERM" 1]
  | E_BadRequestCode04 => Some
      [V "OFPBRC_BAD_VERSION" 0; V "OFPBRC_BAD_TYPE" 1; V "OFPBRC_BAD_MULTIPART" 2; V "OFPBRC_BAD_EXPERIMENTER" 3;
       V "OFPBRC_BAD_EXP_TYPE" 4; V "OFPBRC_EPERM" 5; V "OFPBRC_BAD_LEN" 6; V "OFPBRC_BUFFER_EMPTY" 7;
       V "OFPBRC_BUFFER_UNKNOWN" 8; V "OFPBRC_BAD_TABLE_ID" 9; V "OFPBRC_IS_SLAVE" 10; V "OFPBRC_BAD_PORT" 11;
       V "OFPBRC_BAD_PACKET" 12; V "OFPBRC_MULTIPART_BUFFER_OVERFLOW" 13]
  | E_BadActionCode04 => Some
      [V "OFPBAC_BAD_TYPE" 0; V "OFPBAC_BAD_LEN" 1; V "OFPBAC_BAD_EXPERIMENTER" 2; V "OFPBAC_BAD_EXP_TYPE" 3;
       V "OFPBAC_BAD_OUT_PORT" 4; V "OFPBAC_BAD_ARGUMENT" 5; V "OFPBAC_EPERM" 6; V "OFPBAC_TOO_MANY" 7;
       V "OFPBAC_BAD_QUEUE" 8; V "OFPBAC_BAD_OUT_GROUP" 9; V "OFPBAC_MATCH_INCONSISTENT" 10;
       V "OFPBAC_UNSUPPORTED_ORDER" 11; V "OFPBAC_BAD_TAG" 12; V "OFPBAC_BAD_SET_TYPE" 13; V "OFPBAC_BAD_SET_LEN" 14;
       V "OFPBAC_BAD_SET_ARGUMENT" 15]
  | E_BadInstructionCode04 => Some
      [V "OFPBIC_UNKNOWN_INST" 0; V "OFPBIC_UNSUP_INST" 1; V "OFPBIC_BAD_TABLE_ID" 2; V "OFPBIC_UNSUP_METADATA" 3;
       V "OFPBIC_UNSUP_METADATA_MASK" 4; V "OFPBIC_BAD_EXPERIMENTER" 5; V "OFPBIC_BAD_EXP_TYPE" 6;
       V "OFPBIC_BAD_LEN" 7; V "OFPBIC_EPERM" 8]
  | E_BadMatchCode04 => Some
      [V "OFPBMC_BAD_TYPE" 0; V "OFPBMC_BAD_LEN" 1; V "OFPBMC_BAD_TAG" 2; V "OFPBMC_BAD_DL_ADDR_MASK" 3;
       V "OFPBMC_BAD_NW_ADDR_MASK" 4; V "OFPBMC_BAD_WILDCARDS" 5; V "OFPBMC_BAD_FIELD" 6; V "OFPBMC_BAD_VALUE" 7;
       V "OFPBMC_BAD_MASK" 8; V "OFPBMC_BAD_PREREQ" 9; V "OFPBMC_DUP_FIELD" 10; V "OFPBMC_EPERM" 11]
  | E_FlowModFailedCode04 => Some
      [V "OFPFMFC_UNKNOWN" 0; V "OFPFMFC_TABLE_FULL" 1; V "OFPFMFC_BAD_TABLE_ID" 2; V "OFPFMFC_OVERLAP" 3;
       V "OFPFMFC_EPERM" 4; V "OFPFMFC_BAD_TIMEOUT" 5; V "OFPFMFC_BAD_COMMAND" 6; V "OFPFMFC_BAD_FLAGS" 7]
  | E_GroupModFailedCode04 => Some
      [V "OFPGMFC_GROUP_EXISTS" 0; V "OFPGMFC_INVALID_GROUP" 1; V "OFPGMFC_WEIGHT_UNSUPPORTED" 2;
       V "OFPGMFC_OUT_OF_GROUPS" 3; V "OFPGMFC_OUT_OF_BUCKETS" 4; V "OFPGMFC_CHAINING_UNSUPPORTED" 5;
       V "OFPGMFC_WATCH_UNSUPPORTED" 6; V "OFPGMFC_LOOP" 7; V "OFPGMFC_UNKNOWN_GROUP" 8; V "OFPGMFC_CHAINED_GROUP" 9;
       V "OFPGMFC_BAD_TYPE" 10; V "OFPGMFC_BAD_COMMAND" 11; V "OFPGMFC_BAD_BUCKET" 12; V "OFPGMFC_BAD_WATCH" 13;
       V "OFPGMFC_EPERM" 14]
  | E_PortModFailedCode04 => Some
      [V "OFPPMFC_BAD_PORT" 0; V "OFPPMFC_BAD_HW_ADDR" 1; V "OFPPMFC_BAD_CONFIG" 2; V "OFPPMFC_BAD_ADVERTISE" 3;
       V "OFPPMFC_EPERM" 4]
  | E_TableModFailedCode04 => Some [V "OFPTMFC_BAD_TABLE" 0; V "OFPTMFC_BAD_CONFIG" 1; V "OFPTMFC_EPERM" 2]
  | E_QueueOpFailedCode04 => Some [V "OFPQOFC_BAD_PORT" 0; V "OFPQOFC_BAD_QUEUE" 1; V "OFPQOFC_EPERM" 2]
  | E_SwitchConfigFailedCode04 => Some [V "OFPSCFC_BAD_FLAGS" 0; V "OFPSCFC_BAD_LEN" 1; V "OFPSCFC_EPERM" 2]
  | E_RoleRequestFailedCode04 => Some [V "OFPRRFC_STALE" 0; V "OFPRRFC_UNSUP" 1; V "OFPRRFC_BAD_ROLE" 2]
  | E_MeterModFailedCode04 => Some
      [V "OFPMMFC_UNKNOWN" 0; V "OFPMMFC_METER_EXISTS" 1; V "OFPMMFC_INVALID_METER" 2; V "OFPMMFC_UNKNOWN_METER" 3;
       V "OFPMMFC_BAD_COMMAND" 4; V "OFPMMFC_BAD_FLAGS" 5; V "OFPMMFC_BAD_RATE" 6; V "OFPMMFC_BAD_BURST" 7;
       V "OFPMMFC_BAD_BAND" 8; V "OFPMMFC_BAD_BAND_VALUE" 9; V "OFPMMFC_OUT_OF_METERS" 10; V "OFPMMFC_OUT_OF_BANDS" 11]
  | E_TableFeaturesFailedCode04 => Some
      [V "OFPTFFC_BAD_TABLE" 0; V "OFPTFFC_BAD_METADATA" 1; V "OFPTFFC_BAD_TYPE" 2; V "OFPTFFC_BAD_LEN" 3;
       V "OFPTFFC_BAD_ARGUMENT" 4; V "OFPTFFC_EPERM" 5]
  | E_HelloElemType04 => Some [V "OFPHET_VERSIONBITMAP" 1]
  | E_GenericFailedCode04 => None
  end.

(** [name] is the constant [z] of the standard. *)
Definition standard (e : eid) (name : string) (z : Z) : Prop :=
  exists l, openflow_enum e = Some l /\ In (name, z) (c_values l).

(** The constants whose name in the library is not the name in the standard
    (same value), and the ones that only one of them has. *)
Definition misnamed : list (eid * string * string) :=
  [(E_PortConfig01, "OFPPC_FLOOD", "OFPPC_NO_FLOOD");
   (E_GroupModFailedCode04, "FPGMFC_GROUP_EXISTS", "OFPGMFC_GROUP_EXISTS");
   (E_SwitchConfigFailedCode04, "OFPQCFC_EPERM", "OFPSCFC_EPERM")].
Definition only_library : list (eid * string) :=
  [(E_GenericFailedCode01, "GENERIC_ERROR"); (E_GenericFailedCode04, "GENERIC_ERROR");
   (E_MultipartRequestFlags04, "OFPMPF_REQ_NONE")].
Definition only_standard : list (eid * string) := [(E_PortState01, "OFPPS_STP_MASK")].

(** [name] is declared with the value [z] in the library. *)
Definition member (e : eid) (name : string) (z : Z) : Prop :=
  exists l, In (name, z) l /\ (enum_def e = EInt l \/ enum_def e = EPlain l \/ enum_def e = EMask l).
