(** Identifiers of the classes and enumerations of /repo/pyof.
    Generated by tools/gen_tables.py from the source text (parsed, not run). *)
From Coq Require Import ZArith List String PArith.
Import ListNotations.
Open Scope Z_scope.

(** Enumerations and bit masks. *)
Inductive eid : Set :=
| E_ErrorType01   (* pyof/v0x01/asynchronous/error_msg.py:19-52 *)
| E_GenericFailedCode01   (* pyof/v0x01/asynchronous/error_msg.py:55-62 *)
| E_HelloFailedCode01   (* pyof/v0x01/asynchronous/error_msg.py:65-74 *)
| E_BadRequestCode01   (* pyof/v0x01/asynchronous/error_msg.py:77-101 *)
| E_BadActionCode01   (* pyof/v0x01/asynchronous/error_msg.py:104-127 *)
| E_FlowModFailedCode01   (* pyof/v0x01/asynchronous/error_msg.py:130-147 *)
| E_PortModFailedCode01   (* pyof/v0x01/asynchronous/error_msg.py:150-159 *)
| E_QueueOpFailedCode01   (* pyof/v0x01/asynchronous/error_msg.py:162-173 *)
| E_FlowRemovedReason01   (* pyof/v0x01/asynchronous/flow_removed.py:17-25 *)
| E_PacketInReason01   (* pyof/v0x01/asynchronous/packet_in.py:20-26 *)
| E_PortReason01   (* pyof/v0x01/asynchronous/port_status.py:19-27 *)
| E_ActionType01   (* pyof/v0x01/common/action.py:21-49 *)
| E_FlowWildCards01   (* pyof/v0x01/common/flow_match.py:15-60 *)
| E_Type01   (* pyof/v0x01/common/header.py:18-60 *)
| E_Port01   (* pyof/v0x01/common/phy_port.py:18-44 *)
| E_PortConfig01   (* pyof/v0x01/common/phy_port.py:47-67 *)
| E_PortFeatures01   (* pyof/v0x01/common/phy_port.py:70-101 *)
| E_PortState01   (* pyof/v0x01/common/phy_port.py:104-125 *)
| E_QueueProperties01   (* pyof/v0x01/common/queue.py:19-25 *)
| E_ConfigFlag01   (* pyof/v0x01/controller2switch/common.py:28-37 *)
| E_StatsType01   (* pyof/v0x01/controller2switch/common.py:40-63 *)
| E_Capabilities01   (* pyof/v0x01/controller2switch/features_reply.py:13-31 *)
| E_FlowModCommand01   (* pyof/v0x01/controller2switch/flow_mod.py:22-34 *)
| E_FlowModFlags01   (* pyof/v0x01/controller2switch/flow_mod.py:37-45 *)
| E_GenericFailedCode04   (* pyof/v0x04/asynchronous/error_msg.py:24-31 *)
| E_BadActionCode04   (* pyof/v0x04/asynchronous/error_msg.py:34-72 *)
| E_BadInstructionCode04   (* pyof/v0x04/asynchronous/error_msg.py:75-98 *)
| E_BadMatchCode04   (* pyof/v0x04/asynchronous/error_msg.py:101-133 *)
| E_BadRequestCode04   (* pyof/v0x04/asynchronous/error_msg.py:136-170 *)
| E_ErrorType04   (* pyof/v0x04/asynchronous/error_msg.py:173-232 *)
| E_FlowModFailedCode04   (* pyof/v0x04/asynchronous/error_msg.py:235-256 *)
| E_GroupModFailedCode04   (* pyof/v0x04/asynchronous/error_msg.py:259-296 *)
| E_HelloFailedCode04   (* pyof/v0x04/asynchronous/error_msg.py:299-308 *)
| E_MeterModFailedCode04   (* pyof/v0x04/asynchronous/error_msg.py:311-342 *)
| E_PortModFailedCode04   (* pyof/v0x04/asynchronous/error_msg.py:345-360 *)
| E_QueueOpFailedCode04   (* pyof/v0x04/asynchronous/error_msg.py:363-374 *)
| E_RoleRequestFailedCode04   (* pyof/v0x04/asynchronous/error_msg.py:377-388 *)
| E_SwitchConfigFailedCode04   (* pyof/v0x04/asynchronous/error_msg.py:391-402 *)
| E_TableFeaturesFailedCode04   (* pyof/v0x04/asynchronous/error_msg.py:405-422 *)
| E_TableModFailedCode04   (* pyof/v0x04/asynchronous/error_msg.py:425-436 *)
| E_FlowRemovedReason04   (* pyof/v0x04/asynchronous/flow_removed.py:16-26 *)
| E_PacketInReason04   (* pyof/v0x04/asynchronous/packet_in.py:20-28 *)
| E_PortReason04   (* pyof/v0x04/asynchronous/port_status.py:18-26 *)
| E_ActionType04   (* pyof/v0x04/common/action.py:24-60 *)
| E_ControllerMaxLen04   (* pyof/v0x04/common/action.py:63-74 *)
| E_InstructionType04   (* pyof/v0x04/common/flow_instructions.py:28-51 *)
| E_Ipv6ExtHdrFlags04   (* pyof/v0x04/common/flow_match.py:21-41 *)
| E_OxmOfbMatchField04   (* pyof/v0x04/common/flow_match.py:44-132 *)
| E_MatchType04   (* pyof/v0x04/common/flow_match.py:135-148 *)
| E_OxmClass04   (* pyof/v0x04/common/flow_match.py:151-167 *)
| E_VlanId04   (* pyof/v0x04/common/flow_match.py:170-180 *)
| E_Type04   (* pyof/v0x04/common/header.py:18-77 *)
| E_PortNo04   (* pyof/v0x04/common/port.py:18-47 *)
| E_PortConfig04   (* pyof/v0x04/common/port.py:50-80 *)
| E_PortFeatures04   (* pyof/v0x04/common/port.py:83-138 *)
| E_PortState04   (* pyof/v0x04/common/port.py:141-164 *)
| E_QueueProperties04   (* pyof/v0x04/common/queue.py:20-28 *)
| E_ConfigFlag04   (* pyof/v0x04/controller2switch/common.py:30-39 *)
| E_ControllerRole04   (* pyof/v0x04/controller2switch/common.py:42-52 *)
| E_TableFeaturePropType04   (* pyof/v0x04/controller2switch/common.py:55-105 *)
| E_MultipartType04   (* pyof/v0x04/controller2switch/common.py:108-188 *)
| E_Capabilities04   (* pyof/v0x04/controller2switch/features_reply.py:15-31 *)
| E_FlowModCommand04   (* pyof/v0x04/controller2switch/flow_mod.py:21-33 *)
| E_FlowModFlags04   (* pyof/v0x04/controller2switch/flow_mod.py:36-48 *)
| E_Group04   (* pyof/v0x04/controller2switch/group_mod.py:14-24 *)
| E_GroupModCommand04   (* pyof/v0x04/controller2switch/group_mod.py:27-35 *)
| E_GroupType04   (* pyof/v0x04/controller2switch/group_mod.py:38-48 *)
| E_Meter04   (* pyof/v0x04/controller2switch/meter_mod.py:14-26 *)
| E_MeterModCommand04   (* pyof/v0x04/controller2switch/meter_mod.py:29-37 *)
| E_MeterFlags04   (* pyof/v0x04/controller2switch/meter_mod.py:40-50 *)
| E_MeterBandType04   (* pyof/v0x04/controller2switch/meter_mod.py:53-67 *)
| E_MultipartReplyFlags04   (* pyof/v0x04/controller2switch/multipart_reply.py:33-37 *)
| E_GroupCapabilities04   (* pyof/v0x04/controller2switch/multipart_reply.py:40-50 *)
| E_MultipartRequestFlags04   (* pyof/v0x04/controller2switch/multipart_request.py:29-36 *)
| E_Table04   (* pyof/v0x04/controller2switch/table_mod.py:11-18 *)
| E_HelloElemType04   (* pyof/v0x04/symmetric/hello.py:19-23 *)
.

(** Classes: Python built-ins and basic types, list classes, structs. *)
Inductive cid : Set :=
| CObject   (* object *)
| CInt   (* int *)
| CNone   (* NoneType *)
| CStr   (* str *)
| CBytes   (* bytes *)
| CEnumMember   (* any Enum member *)
| CMaskObj   (* any GenericBitMask instance *)
| CUBInt8   (* UBInt8 *)
| CUBInt16   (* UBInt16 *)
| CUBInt32   (* UBInt32 *)
| CUBInt64   (* UBInt64 *)
| CUBIntOther   (* other UBInt widths *)
| CPad   (* Pad *)
| CChar   (* Char *)
| CIPAddress   (* IPAddress *)
| CHWAddress   (* HWAddress *)
| CDPID   (* DPID *)
| CBinaryData   (* BinaryData *)
| CGenericType   (* GenericType *)
| CGenericStruct   (* GenericStruct *)
| CGenericMessage   (* GenericMessage *)
| CList   (* list *)
| CTypeList   (* TypeList *)
| CFixedTypeList   (* FixedTypeList *)
| ListOfActions01   (* pyof/v0x01/common/action.py:344-357 *)
| ListOfPhyPorts01   (* pyof/v0x01/common/phy_port.py:189-206 *)
| ListOfProperties01   (* pyof/v0x01/common/queue.py:31-46 *)
| ListOfQueues01   (* pyof/v0x01/common/queue.py:113-128 *)
| ListOfActions04   (* pyof/v0x04/common/action.py:438-451 *)
| ListOfInstruction04   (* pyof/v0x04/common/flow_instructions.py:250-263 *)
| OxmMatchFields04   (* pyof/v0x04/common/flow_match.py:304-317 *)
| ListOfOxmHeader04   (* pyof/v0x04/common/flow_match.py:438-452 *)
| ListOfPorts04   (* pyof/v0x04/common/port.py:236-253 *)
| ListOfProperties04   (* pyof/v0x04/common/queue.py:57-72 *)
| ListOfQueues04   (* pyof/v0x04/common/queue.py:106-121 *)
| ListOfBucketCounter04   (* pyof/v0x04/controller2switch/common.py:273-286 *)
| ListOfProperty04   (* pyof/v0x04/controller2switch/common.py:598-611 *)
| ListOfBuckets04   (* pyof/v0x04/controller2switch/group_mod.py:51-63 *)
| ListOfMeterBandHeader04   (* pyof/v0x04/controller2switch/meter_mod.py:199-211 *)
| ListOfBandStats04   (* pyof/v0x04/controller2switch/multipart_reply.py:629-642 *)
| ListOfHelloElements04   (* pyof/v0x04/symmetric/hello.py:91-104 *)
| Header01   (* pyof/v0x01/common/header.py:66-95 *)
| ErrorMsg01   (* pyof/v0x01/asynchronous/error_msg.py:178-247 *)
| Match01   (* pyof/v0x01/common/flow_match.py:66-203 *)
| FlowRemoved01   (* pyof/v0x01/asynchronous/flow_removed.py:29-80 *)
| PacketIn01   (* pyof/v0x01/asynchronous/packet_in.py:32-67 *)
| PhyPort01   (* pyof/v0x01/common/phy_port.py:131-186 *)
| PortStatus01   (* pyof/v0x01/asynchronous/port_status.py:32-53 *)
| ActionHeader01   (* pyof/v0x01/common/action.py:55-106 *)
| ActionOutput01   (* pyof/v0x01/common/action.py:109-134 *)
| ActionStripVlan01   (* pyof/v0x01/common/action.py:137-153 *)
| ActionEnqueue01   (* pyof/v0x01/common/action.py:156-182 *)
| ActionVlanVid01   (* pyof/v0x01/common/action.py:185-206 *)
| ActionVlanPCP01   (* pyof/v0x01/common/action.py:209-228 *)
| ActionDLAddr01   (* pyof/v0x01/common/action.py:231-251 *)
| ActionNWAddr01   (* pyof/v0x01/common/action.py:254-271 *)
| ActionNWTos01   (* pyof/v0x01/common/action.py:274-297 *)
| ActionTPPort01   (* pyof/v0x01/common/action.py:300-319 *)
| ActionVendorHeader01   (* pyof/v0x01/common/action.py:322-341 *)
| QueuePropHeader01   (* pyof/v0x01/common/queue.py:49-67 *)
| PacketQueue01   (* pyof/v0x01/common/queue.py:70-91 *)
| QueuePropMinRate01   (* pyof/v0x01/common/queue.py:94-110 *)
| BarrierReply01   (* pyof/v0x01/controller2switch/barrier_reply.py:15-21 *)
| BarrierRequest01   (* pyof/v0x01/controller2switch/barrier_request.py:15-21 *)
| SwitchConfig01   (* pyof/v0x01/controller2switch/common.py:69-93 *)
| AggregateStatsReply01   (* pyof/v0x01/controller2switch/common.py:96-116 *)
| AggregateStatsRequest01   (* pyof/v0x01/controller2switch/common.py:119-141 *)
| DescStats01   (* pyof/v0x01/controller2switch/common.py:144-173 *)
| FlowStats01   (* pyof/v0x01/controller2switch/common.py:176-246 *)
| FlowStatsRequest01   (* pyof/v0x01/controller2switch/common.py:249-273 *)
| PortStats01   (* pyof/v0x01/controller2switch/common.py:276-339 *)
| PortStatsRequest01   (* pyof/v0x01/controller2switch/common.py:342-359 *)
| QueueStats01   (* pyof/v0x01/controller2switch/common.py:362-390 *)
| QueueStatsRequest01   (* pyof/v0x01/controller2switch/common.py:393-411 *)
| TableStats01   (* pyof/v0x01/controller2switch/common.py:414-450 *)
| VendorStats01   (* pyof/v0x01/controller2switch/common.py:453-468 *)
| SwitchFeatures01   (* pyof/v0x01/controller2switch/features_reply.py:36-76 *)
| FeaturesReply01   (* pyof/v0x01/controller2switch/features_reply.py:79-80 *)
| FeaturesRequest01   (* pyof/v0x01/controller2switch/features_request.py:11-18 *)
| FlowMod01   (* pyof/v0x01/controller2switch/flow_mod.py:49-101 *)
| GetConfigReply01   (* pyof/v0x01/controller2switch/get_config_reply.py:13-27 *)
| GetConfigRequest01   (* pyof/v0x01/controller2switch/get_config_request.py:11-14 *)
| PacketOut01   (* pyof/v0x01/controller2switch/packet_out.py:20-129 *)
| PortMod01   (* pyof/v0x01/controller2switch/port_mod.py:18-52 *)
| QueueGetConfigReply01   (* pyof/v0x01/controller2switch/queue_get_config_reply.py:17-38 *)
| QueueGetConfigRequest01   (* pyof/v0x01/controller2switch/queue_get_config_request.py:16-32 *)
| SetConfig01   (* pyof/v0x01/controller2switch/set_config.py:14-28 *)
| StatsReply01   (* pyof/v0x01/controller2switch/stats_reply.py:12-101 *)
| StatsRequest01   (* pyof/v0x01/controller2switch/stats_request.py:18-77 *)
| EchoReply01   (* pyof/v0x01/symmetric/echo_reply.py:16-33 *)
| EchoRequest01   (* pyof/v0x01/symmetric/echo_request.py:16-33 *)
| Hello01   (* pyof/v0x01/symmetric/hello.py:16-23 *)
| VendorHeader01   (* pyof/v0x01/symmetric/vendor_header.py:16-38 *)
| Header04   (* pyof/v0x04/common/header.py:83-108 *)
| ErrorMsg04   (* pyof/v0x04/asynchronous/error_msg.py:441-478 *)
| ErrorExperimenterMsg04   (* pyof/v0x04/asynchronous/error_msg.py:481-520 *)
| OxmTLV04   (* pyof/v0x04/common/flow_match.py:185-301 *)
| Match04   (* pyof/v0x04/common/flow_match.py:320-413 *)
| FlowRemoved04   (* pyof/v0x04/asynchronous/flow_removed.py:30-95 *)
| PacketIn04   (* pyof/v0x04/asynchronous/packet_in.py:34-101 *)
| Port04   (* pyof/v0x04/common/port.py:169-233 *)
| PortStatus04   (* pyof/v0x04/asynchronous/port_status.py:31-54 *)
| ActionHeader04   (* pyof/v0x04/common/action.py:80-150 *)
| ActionExperimenter04   (* pyof/v0x04/common/action.py:153-173 *)
| ActionGroup04   (* pyof/v0x04/common/action.py:176-192 *)
| ActionDecMPLSTTL04   (* pyof/v0x04/common/action.py:195-204 *)
| ActionSetMPLSTTL04   (* pyof/v0x04/common/action.py:207-222 *)
| ActionCopyTTLIn04   (* pyof/v0x04/common/action.py:225-234 *)
| ActionCopyTTLOut04   (* pyof/v0x04/common/action.py:237-246 *)
| ActionPopVLAN04   (* pyof/v0x04/common/action.py:249-258 *)
| ActionPopPBB04   (* pyof/v0x04/common/action.py:261-270 *)
| ActionDecNWTTL04   (* pyof/v0x04/common/action.py:273-282 *)
| ActionSetNWTTL04   (* pyof/v0x04/common/action.py:285-300 *)
| ActionOutput04   (* pyof/v0x04/common/action.py:303-332 *)
| ActionPopMPLS04   (* pyof/v0x04/common/action.py:335-350 *)
| ActionPush04   (* pyof/v0x04/common/action.py:353-371 *)
| ActionSetField04   (* pyof/v0x04/common/action.py:374-418 *)
| ActionSetQueue04   (* pyof/v0x04/common/action.py:421-435 *)
| Instruction04   (* pyof/v0x04/common/flow_instructions.py:56-119 *)
| InstructionApplyAction04   (* pyof/v0x04/common/flow_instructions.py:122-142 *)
| InstructionClearAction04   (* pyof/v0x04/common/flow_instructions.py:145-164 *)
| InstructionGotoTable04   (* pyof/v0x04/common/flow_instructions.py:167-183 *)
| InstructionMeter04   (* pyof/v0x04/common/flow_instructions.py:186-202 *)
| InstructionWriteAction04   (* pyof/v0x04/common/flow_instructions.py:205-225 *)
| InstructionWriteMetadata04   (* pyof/v0x04/common/flow_instructions.py:228-247 *)
| OxmExperimenterHeader04   (* pyof/v0x04/common/flow_match.py:416-435 *)
| QueuePropHeader04   (* pyof/v0x04/common/queue.py:34-54 *)
| PacketQueue04   (* pyof/v0x04/common/queue.py:75-103 *)
| QueuePropExperimenter04   (* pyof/v0x04/common/queue.py:124-147 *)
| QueuePropMaxRate04   (* pyof/v0x04/common/queue.py:150-167 *)
| QueuePropMinRate04   (* pyof/v0x04/common/queue.py:170-187 *)
| BarrierReply04   (* pyof/v0x04/controller2switch/barrier_reply.py:15-21 *)
| BarrierRequest04   (* pyof/v0x04/controller2switch/barrier_request.py:15-21 *)
| Bucket04   (* pyof/v0x04/controller2switch/common.py:193-249 *)
| BucketCounter04   (* pyof/v0x04/controller2switch/common.py:252-270 *)
| AsyncConfig04   (* pyof/v0x04/controller2switch/common.py:293-351 *)
| RoleBaseMessage04   (* pyof/v0x04/controller2switch/common.py:354-378 *)
| SwitchConfig04   (* pyof/v0x04/controller2switch/common.py:381-402 *)
| ExperimenterMultipartHeader04   (* pyof/v0x04/controller2switch/common.py:407-426 *)
| Property04   (* pyof/v0x04/controller2switch/common.py:429-483 *)
| InstructionsProperty04   (* pyof/v0x04/controller2switch/common.py:486-509 *)
| NextTablesProperty04   (* pyof/v0x04/controller2switch/common.py:512-536 *)
| ActionsProperty04   (* pyof/v0x04/controller2switch/common.py:539-565 *)
| OxmProperty04   (* pyof/v0x04/controller2switch/common.py:568-595 *)
| TableFeatures04   (* pyof/v0x04/controller2switch/common.py:614-706 *)
| SwitchFeatures04   (* pyof/v0x04/controller2switch/features_reply.py:36-80 *)
| FeaturesReply04   (* pyof/v0x04/controller2switch/features_reply.py:83-84 *)
| FeaturesRequest04   (* pyof/v0x04/controller2switch/features_request.py:11-18 *)
| FlowMod04   (* pyof/v0x04/controller2switch/flow_mod.py:52-121 *)
| GetAsyncReply04   (* pyof/v0x04/controller2switch/get_async_reply.py:17-46 *)
| GetAsyncRequest04   (* pyof/v0x04/controller2switch/get_async_request.py:13-21 *)
| GetConfigReply04   (* pyof/v0x04/controller2switch/get_config_reply.py:13-27 *)
| GetConfigRequest04   (* pyof/v0x04/controller2switch/get_config_request.py:11-14 *)
| GroupMod04   (* pyof/v0x04/controller2switch/group_mod.py:66-98 *)
| MeterBandHeader04   (* pyof/v0x04/controller2switch/meter_mod.py:70-117 *)
| MeterMod04   (* pyof/v0x04/controller2switch/meter_mod.py:120-145 *)
| MeterBandDrop04   (* pyof/v0x04/controller2switch/meter_mod.py:148-160 *)
| MeterBandDscpRemark04   (* pyof/v0x04/controller2switch/meter_mod.py:163-178 *)
| MeterBandExperimenter04   (* pyof/v0x04/controller2switch/meter_mod.py:181-196 *)
| MultipartReply04   (* pyof/v0x04/controller2switch/multipart_reply.py:55-173 *)
| AggregateStatsReply04   (* pyof/v0x04/controller2switch/multipart_reply.py:178-202 *)
| Desc04   (* pyof/v0x04/controller2switch/multipart_reply.py:205-240 *)
| FlowStats04   (* pyof/v0x04/controller2switch/multipart_reply.py:243-313 *)
| PortStats04   (* pyof/v0x04/controller2switch/multipart_reply.py:316-388 *)
| QueueStats04   (* pyof/v0x04/controller2switch/multipart_reply.py:391-426 *)
| GroupDescStats04   (* pyof/v0x04/controller2switch/multipart_reply.py:429-454 *)
| GroupFeatures04   (* pyof/v0x04/controller2switch/multipart_reply.py:457-494 *)
| GroupStats04   (* pyof/v0x04/controller2switch/multipart_reply.py:497-538 *)
| MeterConfig04   (* pyof/v0x04/controller2switch/multipart_reply.py:541-573 *)
| MeterFeatures04   (* pyof/v0x04/controller2switch/multipart_reply.py:576-604 *)
| BandStats04   (* pyof/v0x04/controller2switch/multipart_reply.py:607-626 *)
| MeterStats04   (* pyof/v0x04/controller2switch/multipart_reply.py:645-719 *)
| TableStats04   (* pyof/v0x04/controller2switch/multipart_reply.py:722-748 *)
| MultipartRequest04   (* pyof/v0x04/controller2switch/multipart_request.py:42-156 *)
| AggregateStatsRequest04   (* pyof/v0x04/controller2switch/multipart_request.py:159-206 *)
| FlowStatsRequest04   (* pyof/v0x04/controller2switch/multipart_request.py:209-247 *)
| PortStatsRequest04   (* pyof/v0x04/controller2switch/multipart_request.py:250-267 *)
| QueueStatsRequest04   (* pyof/v0x04/controller2switch/multipart_request.py:270-286 *)
| GroupStatsRequest04   (* pyof/v0x04/controller2switch/multipart_request.py:289-305 *)
| MeterMultipartRequest04   (* pyof/v0x04/controller2switch/multipart_request.py:308-329 *)
| PacketOut04   (* pyof/v0x04/controller2switch/packet_out.py:20-127 *)
| PortMod04   (* pyof/v0x04/controller2switch/port_mod.py:18-55 *)
| QueueGetConfigReply04   (* pyof/v0x04/controller2switch/queue_get_config_reply.py:17-42 *)
| QueueGetConfigRequest04   (* pyof/v0x04/controller2switch/queue_get_config_request.py:16-34 *)
| RoleReply04   (* pyof/v0x04/controller2switch/role_reply.py:17-32 *)
| RoleRequest04   (* pyof/v0x04/controller2switch/role_request.py:16-33 *)
| SetAsync04   (* pyof/v0x04/controller2switch/set_async.py:18-48 *)
| SetConfig04   (* pyof/v0x04/controller2switch/set_config.py:15-30 *)
| TableMod04   (* pyof/v0x04/controller2switch/table_mod.py:21-43 *)
| EchoReply04   (* pyof/v0x04/symmetric/echo_reply.py:16-33 *)
| EchoRequest04   (* pyof/v0x04/symmetric/echo_request.py:16-33 *)
| ExperimenterHeader04   (* pyof/v0x04/symmetric/experimenter.py:16-52 *)
| HelloElemHeader04   (* pyof/v0x04/symmetric/hello.py:29-88 *)
| Hello04   (* pyof/v0x04/symmetric/hello.py:107-127 *)
.

Definition cid_num (c : cid) : positive :=
  match c with
  | CObject => 1
  | CInt => 2
  | CNone => 3
  | CStr => 4
  | CBytes => 5
  | CEnumMember => 6
  | CMaskObj => 7
  | CUBInt8 => 8
  | CUBInt16 => 9
  | CUBInt32 => 10
  | CUBInt64 => 11
  | CUBIntOther => 12
  | CPad => 13
  | CChar => 14
  | CIPAddress => 15
  | CHWAddress => 16
  | CDPID => 17
  | CBinaryData => 18
  | CGenericType => 19
  | CGenericStruct => 20
  | CGenericMessage => 21
  | CList => 22
  | CTypeList => 23
  | CFixedTypeList => 24
  | ListOfActions01 => 25
  | ListOfPhyPorts01 => 26
  | ListOfProperties01 => 27
  | ListOfQueues01 => 28
  | ListOfActions04 => 29
  | ListOfInstruction04 => 30
  | OxmMatchFields04 => 31
  | ListOfOxmHeader04 => 32
  | ListOfPorts04 => 33
  | ListOfProperties04 => 34
  | ListOfQueues04 => 35
  | ListOfBucketCounter04 => 36
  | ListOfProperty04 => 37
  | ListOfBuckets04 => 38
  | ListOfMeterBandHeader04 => 39
  | ListOfBandStats04 => 40
  | ListOfHelloElements04 => 41
  | Header01 => 42
  | ErrorMsg01 => 43
  | Match01 => 44
  | FlowRemoved01 => 45
  | PacketIn01 => 46
  | PhyPort01 => 47
  | PortStatus01 => 48
  | ActionHeader01 => 49
  | ActionOutput01 => 50
  | ActionStripVlan01 => 51
  | ActionEnqueue01 => 52
  | ActionVlanVid01 => 53
  | ActionVlanPCP01 => 54
  | ActionDLAddr01 => 55
  | ActionNWAddr01 => 56
  | ActionNWTos01 => 57
  | ActionTPPort01 => 58
  | ActionVendorHeader01 => 59
  | QueuePropHeader01 => 60
  | PacketQueue01 => 61
  | QueuePropMinRate01 => 62
  | BarrierReply01 => 63
  | BarrierRequest01 => 64
  | SwitchConfig01 => 65
  | AggregateStatsReply01 => 66
  | AggregateStatsRequest01 => 67
  | DescStats01 => 68
  | FlowStats01 => 69
  | FlowStatsRequest01 => 70
  | PortStats01 => 71
  | PortStatsRequest01 => 72
  | QueueStats01 => 73
  | QueueStatsRequest01 => 74
  | TableStats01 => 75
  | VendorStats01 => 76
  | SwitchFeatures01 => 77
  | FeaturesReply01 => 78
  | FeaturesRequest01 => 79
  | FlowMod01 => 80
  | GetConfigReply01 => 81
  | GetConfigRequest01 => 82
  | PacketOut01 => 83
  | PortMod01 => 84
  | QueueGetConfigReply01 => 85
  | QueueGetConfigRequest01 => 86
  | SetConfig01 => 87
  | StatsReply01 => 88
  | StatsRequest01 => 89
  | EchoReply01 => 90
  | EchoRequest01 => 91
  | Hello01 => 92
  | VendorHeader01 => 93
  | Header04 => 94
  | ErrorMsg04 => 95
  | ErrorExperimenterMsg04 => 96
  | OxmTLV04 => 97
  | Match04 => 98
  | FlowRemoved04 => 99
  | PacketIn04 => 100
  | Port04 => 101
  | PortStatus04 => 102
  | ActionHeader04 => 103
  | ActionExperimenter04 => 104
  | ActionGroup04 => 105
  | ActionDecMPLSTTL04 => 106
  | ActionSetMPLSTTL04 => 107
  | ActionCopyTTLIn04 => 108
  | ActionCopyTTLOut04 => 109
  | ActionPopVLAN04 => 110
  | ActionPopPBB04 => 111
  | ActionDecNWTTL04 => 112
  | ActionSetNWTTL04 => 113
  | ActionOutput04 => 114
  | ActionPopMPLS04 => 115
  | ActionPush04 => 116
  | ActionSetField04 => 117
  | ActionSetQueue04 => 118
  | Instruction04 => 119
  | InstructionApplyAction04 => 120
  | InstructionClearAction04 => 121
  | InstructionGotoTable04 => 122
  | InstructionMeter04 => 123
  | InstructionWriteAction04 => 124
  | InstructionWriteMetadata04 => 125
  | OxmExperimenterHeader04 => 126
  | QueuePropHeader04 => 127
  | PacketQueue04 => 128
  | QueuePropExperimenter04 => 129
  | QueuePropMaxRate04 => 130
  | QueuePropMinRate04 => 131
  | BarrierReply04 => 132
  | BarrierRequest04 => 133
  | Bucket04 => 134
  | BucketCounter04 => 135
  | AsyncConfig04 => 136
  | RoleBaseMessage04 => 137
  | SwitchConfig04 => 138
  | ExperimenterMultipartHeader04 => 139
  | Property04 => 140
  | InstructionsProperty04 => 141
  | NextTablesProperty04 => 142
  | ActionsProperty04 => 143
  | OxmProperty04 => 144
  | TableFeatures04 => 145
  | SwitchFeatures04 => 146
  | FeaturesReply04 => 147
  | FeaturesRequest04 => 148
  | FlowMod04 => 149
  | GetAsyncReply04 => 150
  | GetAsyncRequest04 => 151
  | GetConfigReply04 => 152
  | GetConfigRequest04 => 153
  | GroupMod04 => 154
  | MeterBandHeader04 => 155
  | MeterMod04 => 156
  | MeterBandDrop04 => 157
  | MeterBandDscpRemark04 => 158
  | MeterBandExperimenter04 => 159
  | MultipartReply04 => 160
  | AggregateStatsReply04 => 161
  | Desc04 => 162
  | FlowStats04 => 163
  | PortStats04 => 164
  | QueueStats04 => 165
  | GroupDescStats04 => 166
  | GroupFeatures04 => 167
  | GroupStats04 => 168
  | MeterConfig04 => 169
  | MeterFeatures04 => 170
  | BandStats04 => 171
  | MeterStats04 => 172
  | TableStats04 => 173
  | MultipartRequest04 => 174
  | AggregateStatsRequest04 => 175
  | FlowStatsRequest04 => 176
  | PortStatsRequest04 => 177
  | QueueStatsRequest04 => 178
  | GroupStatsRequest04 => 179
  | MeterMultipartRequest04 => 180
  | PacketOut04 => 181
  | PortMod04 => 182
  | QueueGetConfigReply04 => 183
  | QueueGetConfigRequest04 => 184
  | RoleReply04 => 185
  | RoleRequest04 => 186
  | SetAsync04 => 187
  | SetConfig04 => 188
  | TableMod04 => 189
  | EchoReply04 => 190
  | EchoRequest04 => 191
  | ExperimenterHeader04 => 192
  | HelloElemHeader04 => 193
  | Hello04 => 194
  end.
Definition eid_num (e : eid) : positive :=
  match e with
  | E_ErrorType01 => 1
  | E_GenericFailedCode01 => 2
  | E_HelloFailedCode01 => 3
  | E_BadRequestCode01 => 4
  | E_BadActionCode01 => 5
  | E_FlowModFailedCode01 => 6
  | E_PortModFailedCode01 => 7
  | E_QueueOpFailedCode01 => 8
  | E_FlowRemovedReason01 => 9
  | E_PacketInReason01 => 10
  | E_PortReason01 => 11
  | E_ActionType01 => 12
  | E_FlowWildCards01 => 13
  | E_Type01 => 14
  | E_Port01 => 15
  | E_PortConfig01 => 16
  | E_PortFeatures01 => 17
  | E_PortState01 => 18
  | E_QueueProperties01 => 19
  | E_ConfigFlag01 => 20
  | E_StatsType01 => 21
  | E_Capabilities01 => 22
  | E_FlowModCommand01 => 23
  | E_FlowModFlags01 => 24
  | E_GenericFailedCode04 => 25
  | E_BadActionCode04 => 26
  | E_BadInstructionCode04 => 27
  | E_BadMatchCode04 => 28
  | E_BadRequestCode04 => 29
  | E_ErrorType04 => 30
  | E_FlowModFailedCode04 => 31
  | E_GroupModFailedCode04 => 32
  | E_HelloFailedCode04 => 33
  | E_MeterModFailedCode04 => 34
  | E_PortModFailedCode04 => 35
  | E_QueueOpFailedCode04 => 36
  | E_RoleRequestFailedCode04 => 37
  | E_SwitchConfigFailedCode04 => 38
  | E_TableFeaturesFailedCode04 => 39
  | E_TableModFailedCode04 => 40
  | E_FlowRemovedReason04 => 41
  | E_PacketInReason04 => 42
  | E_PortReason04 => 43
  | E_ActionType04 => 44
  | E_ControllerMaxLen04 => 45
  | E_InstructionType04 => 46
  | E_Ipv6ExtHdrFlags04 => 47
  | E_OxmOfbMatchField04 => 48
  | E_MatchType04 => 49
  | E_OxmClass04 => 50
  | E_VlanId04 => 51
  | E_Type04 => 52
  | E_PortNo04 => 53
  | E_PortConfig04 => 54
  | E_PortFeatures04 => 55
  | E_PortState04 => 56
  | E_QueueProperties04 => 57
  | E_ConfigFlag04 => 58
  | E_ControllerRole04 => 59
  | E_TableFeaturePropType04 => 60
  | E_MultipartType04 => 61
  | E_Capabilities04 => 62
  | E_FlowModCommand04 => 63
  | E_FlowModFlags04 => 64
  | E_Group04 => 65
  | E_GroupModCommand04 => 66
  | E_GroupType04 => 67
  | E_Meter04 => 68
  | E_MeterModCommand04 => 69
  | E_MeterFlags04 => 70
  | E_MeterBandType04 => 71
  | E_MultipartReplyFlags04 => 72
  | E_GroupCapabilities04 => 73
  | E_MultipartRequestFlags04 => 74
  | E_Table04 => 75
  | E_HelloElemType04 => 76
  end.
Definition all_cids : list cid :=
  [CObject; CInt; CNone; CStr; CBytes; CEnumMember; CMaskObj; CUBInt8; CUBInt16; CUBInt32; CUBInt64; CUBIntOther; CPad; CChar; CIPAddress; CHWAddress; CDPID; CBinaryData; CGenericType; CGenericStruct; CGenericMessage; CList; CTypeList; CFixedTypeList; ListOfActions01; ListOfPhyPorts01; ListOfProperties01; ListOfQueues01; ListOfActions04; ListOfInstruction04; OxmMatchFields04; ListOfOxmHeader04; ListOfPorts04; ListOfProperties04; ListOfQueues04; ListOfBucketCounter04; ListOfProperty04; ListOfBuckets04; ListOfMeterBandHeader04; ListOfBandStats04; ListOfHelloElements04; Header01; ErrorMsg01; Match01; FlowRemoved01; PacketIn01; PhyPort01; PortStatus01; ActionHeader01; ActionOutput01; ActionStripVlan01; ActionEnqueue01; ActionVlanVid01; ActionVlanPCP01; ActionDLAddr01; ActionNWAddr01; ActionNWTos01; ActionTPPort01; ActionVendorHeader01; QueuePropHeader01; PacketQueue01; QueuePropMinRate01; BarrierReply01; BarrierRequest01; SwitchConfig01; AggregateStatsReply01; AggregateStatsRequest01; DescStats01; FlowStats01; FlowStatsRequest01; PortStats01; PortStatsRequest01; QueueStats01; QueueStatsRequest01; TableStats01; VendorStats01; SwitchFeatures01; FeaturesReply01; FeaturesRequest01; FlowMod01; GetConfigReply01; GetConfigRequest01; PacketOut01; PortMod01; QueueGetConfigReply01; QueueGetConfigRequest01; SetConfig01; StatsReply01; StatsRequest01; EchoReply01; EchoRequest01; Hello01; VendorHeader01; Header04; ErrorMsg04; ErrorExperimenterMsg04; OxmTLV04; Match04; FlowRemoved04; PacketIn04; Port04; PortStatus04; ActionHeader04; ActionExperimenter04; ActionGroup04; ActionDecMPLSTTL04; ActionSetMPLSTTL04; ActionCopyTTLIn04; ActionCopyTTLOut04; ActionPopVLAN04; ActionPopPBB04; ActionDecNWTTL04; ActionSetNWTTL04; ActionOutput04; ActionPopMPLS04; ActionPush04; ActionSetField04; ActionSetQueue04; Instruction04; InstructionApplyAction04; InstructionClearAction04; InstructionGotoTable04; InstructionMeter04; InstructionWriteAction04; InstructionWriteMetadata04; OxmExperimenterHeader04; QueuePropHeader04; PacketQueue04; QueuePropExperimenter04; QueuePropMaxRate04; QueuePropMinRate04; BarrierReply04; BarrierRequest04; Bucket04; BucketCounter04; AsyncConfig04; RoleBaseMessage04; SwitchConfig04; ExperimenterMultipartHeader04; Property04; InstructionsProperty04; NextTablesProperty04; ActionsProperty04; OxmProperty04; TableFeatures04; SwitchFeatures04; FeaturesReply04; FeaturesRequest04; FlowMod04; GetAsyncReply04; GetAsyncRequest04; GetConfigReply04; GetConfigRequest04; GroupMod04; MeterBandHeader04; MeterMod04; MeterBandDrop04; MeterBandDscpRemark04; MeterBandExperimenter04; MultipartReply04; AggregateStatsReply04; Desc04; FlowStats04; PortStats04; QueueStats04; GroupDescStats04; GroupFeatures04; GroupStats04; MeterConfig04; MeterFeatures04; BandStats04; MeterStats04; TableStats04; MultipartRequest04; AggregateStatsRequest04; FlowStatsRequest04; PortStatsRequest04; QueueStatsRequest04; GroupStatsRequest04; MeterMultipartRequest04; PacketOut04; PortMod04; QueueGetConfigReply04; QueueGetConfigRequest04; RoleReply04; RoleRequest04; SetAsync04; SetConfig04; TableMod04; EchoReply04; EchoRequest04; ExperimenterHeader04; HelloElemHeader04; Hello04].
Definition all_eids : list eid :=
  [E_ErrorType01; E_GenericFailedCode01; E_HelloFailedCode01; E_BadRequestCode01; E_BadActionCode01; E_FlowModFailedCode01; E_PortModFailedCode01; E_QueueOpFailedCode01; E_FlowRemovedReason01; E_PacketInReason01; E_PortReason01; E_ActionType01; E_FlowWildCards01; E_Type01; E_Port01; E_PortConfig01; E_PortFeatures01; E_PortState01; E_QueueProperties01; E_ConfigFlag01; E_StatsType01; E_Capabilities01; E_FlowModCommand01; E_FlowModFlags01; E_GenericFailedCode04; E_BadActionCode04; E_BadInstructionCode04; E_BadMatchCode04; E_BadRequestCode04; E_ErrorType04; E_FlowModFailedCode04; E_GroupModFailedCode04; E_HelloFailedCode04; E_MeterModFailedCode04; E_PortModFailedCode04; E_QueueOpFailedCode04; E_RoleRequestFailedCode04; E_SwitchConfigFailedCode04; E_TableFeaturesFailedCode04; E_TableModFailedCode04; E_FlowRemovedReason04; E_PacketInReason04; E_PortReason04; E_ActionType04; E_ControllerMaxLen04; E_InstructionType04; E_Ipv6ExtHdrFlags04; E_OxmOfbMatchField04; E_MatchType04; E_OxmClass04; E_VlanId04; E_Type04; E_PortNo04; E_PortConfig04; E_PortFeatures04; E_PortState04; E_QueueProperties04; E_ConfigFlag04; E_ControllerRole04; E_TableFeaturePropType04; E_MultipartType04; E_Capabilities04; E_FlowModCommand04; E_FlowModFlags04; E_Group04; E_GroupModCommand04; E_GroupType04; E_Meter04; E_MeterModCommand04; E_MeterFlags04; E_MeterBandType04; E_MultipartReplyFlags04; E_GroupCapabilities04; E_MultipartRequestFlags04; E_Table04; E_HelloElemType04].
Definition cid_eqb (a b : cid) : bool := Pos.eqb (cid_num a) (cid_num b).
Definition eid_eqb (a b : eid) : bool := Pos.eqb (eid_num a) (eid_num b).
