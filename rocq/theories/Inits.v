(** The constructors of the structure classes.
    Generated by tools/gen_init.py from the source text (parsed, not run).

    [init_code c] is the __init__ written in the body of [c]: its parameters
    with their defaults, and its statements; [None] when the class inherits
    it.  Match of OpenFlow 1.0 takes any keywords, see Construct.v. *)
From Coq Require Import ZArith List String.
From Verif Require Import Base PyText Ids PyVal Classes.
Import ListNotations.
Open Scope string_scope.
Open Scope list_scope.
Open Scope nat_scope.
Open Scope Z_scope.

Inductive iexpr : Type :=
| XArg (n : string)                    (* n *)
| XConst (v : pyval)                   (* a constant, or a constructor without arguments *)
| XIfNone (n : string) (v : pyval)     (* v if n is None else n *)
| XOr (n : string) (v : pyval).        (* n or v;  n if n else v *)
Inductive istmt : Type :=
| ISuper (pos : list iexpr) (kw : list (string * iexpr))   (* super().__init__( ... ) *)
| ISet (n : string) (e : iexpr)                            (* self.n = e *)
| IHeader (n : string) (e : iexpr)                         (* self.header.n = e *)
| IUpdateLength                                            (* self.update_length() *)
| IMatchLength.                                            (* self._update_match_length() *)

Definition init_code (c : cid) : option (list (string * pyval) * list istmt) :=
  match c with
  | Header01 => (* pyof/v0x01/common/header.py:74-85 *)
      Some ([("message_type", VNone);
        ("length", VNone);
        ("xid", VNone)],
        [ISuper [] [];
         ISet "message_type" (XArg "message_type");
         ISet "length" (XArg "length");
         ISet "xid" (XArg "xid")])
  | ErrorMsg01 => (* pyof/v0x01/asynchronous/error_msg.py:190-202 *)
      Some ([("xid", VNone);
        ("error_type", VNone);
        ("code", VNone);
        ("data", VBytes [])],
        [ISuper [XArg "xid"] [];
         ISet "error_type" (XArg "error_type");
         ISet "code" (XArg "code");
         ISet "data" (XArg "data")])
  | FlowRemoved01 => (* pyof/v0x01/asynchronous/flow_removed.py:52-80 *)
      Some ([("xid", VNone);
        ("match", VNone);
        ("cookie", VNone);
        ("priority", VNone);
        ("reason", VNone);
        ("duration_sec", VNone);
        ("duration_nsec", VNone);
        ("idle_timeout", VNone);
        ("packet_count", VNone);
        ("byte_count", VNone)],
        [ISuper [XArg "xid"] [];
         ISet "match" (XArg "match");
         ISet "cookie" (XArg "cookie");
         ISet "priority" (XArg "priority");
         ISet "reason" (XArg "reason");
         ISet "duration_sec" (XArg "duration_sec");
         ISet "duration_nsec" (XArg "duration_nsec");
         ISet "idle_timeout" (XArg "idle_timeout");
         ISet "packet_count" (XArg "packet_count");
         ISet "byte_count" (XArg "byte_count")])
  | PacketIn01 => (* pyof/v0x01/asynchronous/packet_in.py:45-67 *)
      Some ([("xid", VNone);
        ("buffer_id", VInt 4294967295);
        ("total_len", VNone);
        ("in_port", VNone);
        ("reason", VNone);
        ("data", VBytes [])],
        [ISuper [XArg "xid"] [];
         ISet "buffer_id" (XArg "buffer_id");
         ISet "total_len" (XArg "total_len");
         ISet "in_port" (XArg "in_port");
         ISet "reason" (XArg "reason");
         ISet "data" (XArg "data")])
  | PhyPort01 => (* pyof/v0x01/common/phy_port.py:156-186 *)
      Some ([("port_no", VNone);
        ("hw_addr", VNone);
        ("name", VNone);
        ("config", VInt 0);
        ("state", VInt 0);
        ("curr", VInt 0);
        ("advertised", VInt 0);
        ("supported", VInt 0);
        ("peer", VInt 0)],
        [ISuper [] [];
         ISet "port_no" (XArg "port_no");
         ISet "hw_addr" (XArg "hw_addr");
         ISet "name" (XArg "name");
         ISet "config" (XArg "config");
         ISet "state" (XArg "state");
         ISet "curr" (XArg "curr");
         ISet "advertised" (XArg "advertised");
         ISet "supported" (XArg "supported");
         ISet "peer" (XArg "peer")])
  | PortStatus01 => (* pyof/v0x01/asynchronous/port_status.py:42-53 *)
      Some ([("xid", VNone);
        ("reason", VNone);
        ("desc", VNone)],
        [ISuper [XArg "xid"] [];
         ISet "reason" (XArg "reason");
         ISet "desc" (XArg "desc")])
  | ActionHeader01 => (* pyof/v0x01/common/action.py:67-77 *)
      Some ([("action_type", VNone);
        ("length", VNone)],
        [ISuper [] [];
         ISet "action_type" (XArg "action_type");
         ISet "length" (XArg "length")])
  | ActionOutput01 => (* pyof/v0x01/common/action.py:124-134 *)
      Some ([("port", VNone);
        ("max_length", VInt 65535)],
        [ISuper [] [("action_type", XConst (VInt 0)); ("length", XConst (VInt 8))];
         ISet "port" (XArg "port");
         ISet "max_length" (XArg "max_length")])
  | ActionStripVlan01 => (* pyof/v0x01/common/action.py:148-153 *)
      Some ([],
        [ISuper [] [("action_type", XConst (VInt 3)); ("length", XConst (VInt 8))]])
  | ActionEnqueue01 => (* pyof/v0x01/common/action.py:173-182 *)
      Some ([("port", VNone);
        ("queue_id", VNone)],
        [ISuper [] [("action_type", XConst (VInt 11)); ("length", XConst (VInt 16))];
         ISet "port" (XArg "port");
         ISet "queue_id" (XArg "queue_id")])
  | ActionVlanVid01 => (* pyof/v0x01/common/action.py:199-206 *)
      Some ([("vlan_id", VNone)],
        [ISuper [] [("action_type", XConst (VInt 1)); ("length", XConst (VInt 8))];
         ISet "vlan_id" (XArg "vlan_id")])
  | ActionVlanPCP01 => (* pyof/v0x01/common/action.py:218-228 *)
      Some ([("vlan_pcp", VNone)],
        [ISuper [] [("action_type", XConst (VInt 2)); ("length", XConst (VInt 8))];
         ISet "vlan_pcp" (XArg "vlan_pcp")])
  | ActionDLAddr01 => (* pyof/v0x01/common/action.py:240-251 *)
      Some ([("action_type", VNone);
        ("dl_addr", VNone)],
        [ISuper [XArg "action_type"] [("length", XConst (VInt 16))];
         ISet "dl_addr" (XArg "dl_addr")])
  | ActionNWAddr01 => (* pyof/v0x01/common/action.py:261-271 *)
      Some ([("action_type", VNone);
        ("nw_addr", VNone)],
        [ISuper [XArg "action_type"] [("length", XConst (VInt 8))];
         ISet "nw_addr" (XArg "nw_addr")])
  | ActionNWTos01 => (* pyof/v0x01/common/action.py:287-297 *)
      Some ([("action_type", VNone);
        ("nw_tos", VNone)],
        [ISuper [XArg "action_type"] [("length", XConst (VInt 8))];
         ISet "nw_tos" (XArg "nw_tos")])
  | ActionTPPort01 => (* pyof/v0x01/common/action.py:309-319 *)
      Some ([("action_type", VNone);
        ("tp_port", VNone)],
        [ISuper [XArg "action_type"] [("length", XConst (VInt 8))];
         ISet "tp_port" (XArg "tp_port")])
  | ActionVendorHeader01 => (* pyof/v0x01/common/action.py:332-341 *)
      Some ([("length", VNone);
        ("vendor", VNone)],
        [ISuper [] [("action_type", XConst (VInt 65535)); ("length", XArg "length")];
         ISet "vendor" (XArg "vendor")])
  | QueuePropHeader01 => (* pyof/v0x01/common/queue.py:57-67 *)
      Some ([("queue_property", VNone);
        ("length", VNone)],
        [ISuper [] [];
         ISet "queue_property" (XArg "queue_property");
         ISet "length" (XArg "length")])
  | PacketQueue01 => (* pyof/v0x01/common/queue.py:79-91 *)
      Some ([("queue_id", VNone);
        ("length", VNone);
        ("properties", VNone)],
        [ISuper [] [];
         ISet "queue_id" (XArg "queue_id");
         ISet "length" (XArg "length");
         ISet "properties" (XIfNone "properties" (VList CList CObject []))])
  | QueuePropMinRate01 => (* pyof/v0x01/common/queue.py:103-110 *)
      Some ([("rate", VNone)],
        [ISuper [] [];
         ISet "rate" (XArg "rate")])
  | SwitchConfig01 => (* pyof/v0x01/controller2switch/common.py:76-87 *)
      Some ([("xid", VNone);
        ("flags", VNone);
        ("miss_send_len", VNone)],
        [ISuper [XArg "xid"] [];
         ISet "flags" (XArg "flags");
         ISet "miss_send_len" (XArg "miss_send_len")])
  | AggregateStatsReply01 => (* pyof/v0x01/controller2switch/common.py:105-116 *)
      Some ([("packet_count", VNone);
        ("byte_count", VNone);
        ("flow_count", VNone)],
        [ISuper [] [];
         ISet "packet_count" (XArg "packet_count");
         ISet "byte_count" (XArg "byte_count");
         ISet "flow_count" (XArg "flow_count")])
  | AggregateStatsRequest01 => (* pyof/v0x01/controller2switch/common.py:128-141 *)
      Some ([("match", new_Match01);
        ("table_id", VInt 255);
        ("out_port", VEnum E_Port01 65535)],
        [ISuper [] [];
         ISet "match" (XArg "match");
         ISet "table_id" (XArg "table_id");
         ISet "out_port" (XArg "out_port")])
  | DescStats01 => (* pyof/v0x01/controller2switch/common.py:157-173 *)
      Some ([("mfr_desc", VNone);
        ("hw_desc", VNone);
        ("sw_desc", VNone);
        ("serial_num", VNone);
        ("dp_desc", VNone)],
        [ISuper [] [];
         ISet "mfr_desc" (XArg "mfr_desc");
         ISet "hw_desc" (XArg "hw_desc");
         ISet "sw_desc" (XArg "sw_desc");
         ISet "serial_num" (XArg "serial_num");
         ISet "dp_desc" (XArg "dp_desc")])
  | FlowStats01 => (* pyof/v0x01/controller2switch/common.py:196-231 *)
      Some ([("length", VNone);
        ("table_id", VNone);
        ("match", VNone);
        ("duration_sec", VNone);
        ("duration_nsec", VNone);
        ("priority", VNone);
        ("idle_timeout", VNone);
        ("hard_timeout", VNone);
        ("cookie", VNone);
        ("packet_count", VNone);
        ("byte_count", VNone);
        ("actions", VNone)],
        [ISuper [] [];
         ISet "length" (XArg "length");
         ISet "table_id" (XArg "table_id");
         ISet "match" (XArg "match");
         ISet "duration_sec" (XArg "duration_sec");
         ISet "duration_nsec" (XArg "duration_nsec");
         ISet "priority" (XArg "priority");
         ISet "idle_timeout" (XArg "idle_timeout");
         ISet "hard_timeout" (XArg "hard_timeout");
         ISet "cookie" (XArg "cookie");
         ISet "packet_count" (XArg "packet_count");
         ISet "byte_count" (XArg "byte_count");
         ISet "actions" (XIfNone "actions" (VList CList CObject []))])
  | FlowStatsRequest01 => (* pyof/v0x01/controller2switch/common.py:258-273 *)
      Some ([("match", VNone);
        ("table_id", VInt 255);
        ("out_port", VEnum E_Port01 65535)],
        [ISuper [] [];
         ISet "match" (XIfNone "match" new_Match01);
         ISet "table_id" (XArg "table_id");
         ISet "out_port" (XArg "out_port")])
  | PortStats01 => (* pyof/v0x01/controller2switch/common.py:298-339 *)
      Some ([("port_no", VNone);
        ("rx_packets", VNone);
        ("tx_packets", VNone);
        ("rx_bytes", VNone);
        ("tx_bytes", VNone);
        ("rx_dropped", VNone);
        ("tx_dropped", VNone);
        ("rx_errors", VNone);
        ("tx_errors", VNone);
        ("rx_frame_err", VNone);
        ("rx_over_err", VNone);
        ("rx_crc_err", VNone);
        ("collisions", VNone)],
        [ISuper [] [];
         ISet "port_no" (XArg "port_no");
         ISet "rx_packets" (XArg "rx_packets");
         ISet "tx_packets" (XArg "tx_packets");
         ISet "rx_bytes" (XArg "rx_bytes");
         ISet "tx_bytes" (XArg "tx_bytes");
         ISet "rx_dropped" (XArg "rx_dropped");
         ISet "tx_dropped" (XArg "tx_dropped");
         ISet "rx_errors" (XArg "rx_errors");
         ISet "tx_errors" (XArg "tx_errors");
         ISet "rx_frame_err" (XArg "rx_frame_err");
         ISet "rx_over_err" (XArg "rx_over_err");
         ISet "rx_crc_err" (XArg "rx_crc_err");
         ISet "collisions" (XArg "collisions")])
  | PortStatsRequest01 => (* pyof/v0x01/controller2switch/common.py:349-359 *)
      Some ([("port_no", VEnum E_Port01 65535)],
        [ISuper [] [];
         ISet "port_no" (XArg "port_no")])
  | QueueStats01 => (* pyof/v0x01/controller2switch/common.py:373-390 *)
      Some ([("port_no", VNone);
        ("queue_id", VNone);
        ("tx_bytes", VNone);
        ("tx_packets", VNone);
        ("tx_errors", VNone)],
        [ISuper [] [];
         ISet "port_no" (XArg "port_no");
         ISet "queue_id" (XArg "queue_id");
         ISet "tx_bytes" (XArg "tx_bytes");
         ISet "tx_packets" (XArg "tx_packets");
         ISet "tx_errors" (XArg "tx_errors")])
  | QueueStatsRequest01 => (* pyof/v0x01/controller2switch/common.py:401-411 *)
      Some ([("port_no", VNone);
        ("queue_id", VNone)],
        [ISuper [] [];
         ISet "port_no" (XArg "port_no");
         ISet "queue_id" (XArg "queue_id")])
  | TableStats01 => (* pyof/v0x01/controller2switch/common.py:427-450 *)
      Some ([("table_id", VNone);
        ("name", VNone);
        ("wildcards", VNone);
        ("max_entries", VNone);
        ("active_count", VNone);
        ("count_lookup", VNone);
        ("count_matched", VNone)],
        [ISuper [] [];
         ISet "table_id" (XArg "table_id");
         ISet "name" (XArg "name");
         ISet "wildcards" (XArg "wildcards");
         ISet "max_entries" (XArg "max_entries");
         ISet "active_count" (XArg "active_count");
         ISet "count_lookup" (XArg "count_lookup");
         ISet "count_matched" (XArg "count_matched")])
  | VendorStats01 => (* pyof/v0x01/controller2switch/common.py:459-468 *)
      Some ([("vendor", VNone);
        ("body", VBytes [])],
        [ISuper [] [];
         ISet "vendor" (XArg "vendor");
         ISet "body" (XArg "body")])
  | SwitchFeatures01 => (* pyof/v0x01/controller2switch/features_reply.py:55-76 *)
      Some ([("xid", VNone);
        ("datapath_id", VNone);
        ("n_buffers", VNone);
        ("n_tables", VNone);
        ("capabilities", VNone);
        ("actions", VNone);
        ("ports", VNone)],
        [ISuper [XArg "xid"] [];
         ISet "datapath_id" (XArg "datapath_id");
         ISet "n_buffers" (XArg "n_buffers");
         ISet "n_tables" (XArg "n_tables");
         ISet "capabilities" (XArg "capabilities");
         ISet "actions" (XArg "actions");
         ISet "ports" (XIfNone "ports" (VList CList CObject []))])
  | FlowMod01 => (* pyof/v0x01/controller2switch/flow_mod.py:64-101 *)
      Some ([("xid", VNone);
        ("match", VNone);
        ("cookie", VInt 0);
        ("command", VNone);
        ("idle_timeout", VInt 0);
        ("hard_timeout", VInt 0);
        ("priority", VInt 0);
        ("buffer_id", VInt 4294967295);
        ("out_port", VEnum E_Port01 65535);
        ("flags", VInt 1);
        ("actions", VNone)],
        [ISuper [XArg "xid"] [];
         ISet "match" (XOr "match" new_Match01);
         ISet "cookie" (XArg "cookie");
         ISet "command" (XArg "command");
         ISet "idle_timeout" (XArg "idle_timeout");
         ISet "hard_timeout" (XArg "hard_timeout");
         ISet "priority" (XArg "priority");
         ISet "buffer_id" (XArg "buffer_id");
         ISet "out_port" (XArg "out_port");
         ISet "flags" (XArg "flags");
         ISet "actions" (XOr "actions" (VList CList CObject []))])
  | GetConfigReply01 => (* pyof/v0x01/controller2switch/get_config_reply.py:16-27 *)
      Some ([("xid", VNone);
        ("flags", VNone);
        ("miss_send_len", VNone)],
        [ISuper [XArg "xid"; XArg "flags"; XArg "miss_send_len"] [];
         IHeader "message_type" (XConst (VEnum E_Type01 8))])
  | PacketOut01 => (* pyof/v0x01/controller2switch/packet_out.py:31-51 *)
      Some ([("xid", VNone);
        ("buffer_id", VInt 4294967295);
        ("in_port", VEnum E_Port01 65535);
        ("actions", VNone);
        ("data", VBytes [])],
        [ISuper [XArg "xid"] [];
         ISet "buffer_id" (XArg "buffer_id");
         ISet "in_port" (XArg "in_port");
         ISet "actions" (XIfNone "actions" (VList CList CObject []));
         ISet "data" (XArg "data")])
  | PortMod01 => (* pyof/v0x01/controller2switch/port_mod.py:30-52 *)
      Some ([("xid", VNone);
        ("port_no", VNone);
        ("hw_addr", VNone);
        ("config", VNone);
        ("mask", VNone);
        ("advertise", VNone)],
        [ISuper [XArg "xid"] [];
         ISet "port_no" (XArg "port_no");
         ISet "hw_addr" (XArg "hw_addr");
         ISet "config" (XArg "config");
         ISet "mask" (XArg "mask");
         ISet "advertise" (XArg "advertise")])
  | QueueGetConfigReply01 => (* pyof/v0x01/controller2switch/queue_get_config_reply.py:26-38 *)
      Some ([("xid", VNone);
        ("port", VNone);
        ("queues", VNone)],
        [ISuper [XArg "xid"] [];
         ISet "port" (XArg "port");
         ISet "queues" (XIfNone "queues" (VList CList CObject []))])
  | QueueGetConfigRequest01 => (* pyof/v0x01/controller2switch/queue_get_config_request.py:24-32 *)
      Some ([("xid", VNone);
        ("port", VNone)],
        [ISuper [XArg "xid"] [];
         ISet "port" (XArg "port")])
  | SetConfig01 => (* pyof/v0x01/controller2switch/set_config.py:17-28 *)
      Some ([("xid", VNone);
        ("flags", VNone);
        ("miss_send_len", VNone)],
        [ISuper [XArg "xid"; XArg "flags"; XArg "miss_send_len"] [];
         IHeader "message_type" (XConst (VEnum E_Type01 9))])
  | StatsReply01 => (* pyof/v0x01/controller2switch/stats_reply.py:21-33 *)
      Some ([("xid", VNone);
        ("body_type", VNone);
        ("flags", VNone);
        ("body", VBytes [])],
        [ISuper [XArg "xid"] [];
         ISet "body_type" (XArg "body_type");
         ISet "flags" (XArg "flags");
         ISet "body" (XArg "body")])
  | StatsRequest01 => (* pyof/v0x01/controller2switch/stats_request.py:27-39 *)
      Some ([("xid", VNone);
        ("body_type", VNone);
        ("flags", VInt 0);
        ("body", VBytes [])],
        [ISuper [XArg "xid"] [];
         ISet "body_type" (XArg "body_type");
         ISet "flags" (XArg "flags");
         ISet "body" (XArg "body")])
  | EchoReply01 => (* pyof/v0x01/symmetric/echo_reply.py:25-33 *)
      Some ([("xid", VNone);
        ("data", VNone)],
        [ISuper [XArg "xid"] [];
         ISet "data" (XArg "data")])
  | EchoRequest01 => (* pyof/v0x01/symmetric/echo_request.py:25-33 *)
      Some ([("xid", VNone);
        ("data", VNone)],
        [ISuper [XArg "xid"] [];
         ISet "data" (XArg "data")])
  | VendorHeader01 => (* pyof/v0x01/symmetric/vendor_header.py:26-38 *)
      Some ([("xid", VNone);
        ("vendor", VNone);
        ("data", VNone)],
        [ISuper [XArg "xid"] [];
         ISet "vendor" (XArg "vendor");
         ISet "data" (XArg "data")])
  | Header04 => (* pyof/v0x04/common/header.py:91-104 *)
      Some ([("message_type", VNone);
        ("length", VNone);
        ("xid", VNone)],
        [ISuper [] [];
         ISet "message_type" (XArg "message_type");
         ISet "length" (XArg "length");
         ISet "xid" (XArg "xid")])
  | ErrorMsg04 => (* pyof/v0x04/asynchronous/error_msg.py:456-472 *)
      Some ([("xid", VNone);
        ("error_type", VNone);
        ("code", VNone);
        ("data", VBytes [])],
        [ISuper [XArg "xid"] [];
         ISet "error_type" (XArg "error_type");
         ISet "code" (XArg "code");
         ISet "data" (XArg "data")])
  | ErrorExperimenterMsg04 => (* pyof/v0x04/asynchronous/error_msg.py:501-515 *)
      Some ([("xid", VNone);
        ("exp_type", VNone);
        ("experimenter", VNone);
        ("data", VBytes [])],
        [ISuper [XArg "xid"] [];
         ISet "exp_type" (XArg "exp_type");
         ISet "experimenter" (XArg "experimenter");
         ISet "data" (XArg "data")])
  | OxmTLV04 => (* pyof/v0x04/common/flow_match.py:193-212 *)
      Some ([("oxm_class", VEnum E_OxmClass04 32768);
        ("oxm_field", VNone);
        ("oxm_hasmask", VInt 0);
        ("oxm_value", VNone)],
        [ISuper [] [];
         ISet "oxm_class" (XArg "oxm_class");
         ISet "oxm_field_and_mask" (XConst VNone);
         ISet "oxm_length" (XConst VNone);
         ISet "oxm_value" (XArg "oxm_value");
         ISet "oxm_field" (XArg "oxm_field");
         ISet "oxm_hasmask" (XArg "oxm_hasmask")])
  | Match04 => (* pyof/v0x04/common/flow_match.py:338-354 *)
      Some ([("match_type", VEnum E_MatchType04 1);
        ("oxm_match_fields", VNone)],
        [ISuper [] [];
         ISet "match_type" (XArg "match_type");
         ISet "oxm_match_fields" (XOr "oxm_match_fields" (VList OxmMatchFields04 OxmTLV04 []));
         IMatchLength])
  | FlowRemoved04 => (* pyof/v0x04/asynchronous/flow_removed.py:62-95 *)
      Some ([("xid", VNone);
        ("cookie", VNone);
        ("priority", VNone);
        ("reason", VNone);
        ("table_id", VNone);
        ("duration_sec", VNone);
        ("duration_nsec", VNone);
        ("idle_timeout", VNone);
        ("hard_timeout", VNone);
        ("packet_count", VNone);
        ("byte_count", VNone);
        ("match", VNone)],
        [ISuper [XArg "xid"] [];
         ISet "cookie" (XArg "cookie");
         ISet "priority" (XArg "priority");
         ISet "reason" (XArg "reason");
         ISet "table_id" (XArg "table_id");
         ISet "duration_sec" (XArg "duration_sec");
         ISet "duration_nsec" (XArg "duration_nsec");
         ISet "idle_timeout" (XArg "idle_timeout");
         ISet "hard_timeout" (XArg "hard_timeout");
         ISet "packet_count" (XArg "packet_count");
         ISet "byte_count" (XArg "byte_count");
         ISet "match" (XArg "match")])
  | PacketIn04 => (* pyof/v0x04/asynchronous/packet_in.py:58-85 *)
      Some ([("xid", VNone);
        ("buffer_id", VNone);
        ("total_len", VNone);
        ("reason", VNone);
        ("table_id", VNone);
        ("cookie", VNone);
        ("match", VNone);
        ("data", VBytes [])],
        [ISuper [XArg "xid"] [];
         ISet "buffer_id" (XArg "buffer_id");
         ISet "total_len" (XArg "total_len");
         ISet "reason" (XArg "reason");
         ISet "table_id" (XArg "table_id");
         ISet "cookie" (XArg "cookie");
         ISet "match" (XArg "match");
         ISet "data" (XArg "data")])
  | Port04 => (* pyof/v0x04/common/port.py:200-233 *)
      Some ([("port_no", VNone);
        ("hw_addr", VNone);
        ("name", VNone);
        ("config", VNone);
        ("state", VNone);
        ("curr", VNone);
        ("advertised", VNone);
        ("supported", VNone);
        ("peer", VNone);
        ("curr_speed", VNone);
        ("max_speed", VNone)],
        [ISuper [] [];
         ISet "port_no" (XArg "port_no");
         ISet "hw_addr" (XArg "hw_addr");
         ISet "name" (XArg "name");
         ISet "config" (XArg "config");
         ISet "state" (XArg "state");
         ISet "curr" (XArg "curr");
         ISet "advertised" (XArg "advertised");
         ISet "supported" (XArg "supported");
         ISet "peer" (XArg "peer");
         ISet "curr_speed" (XArg "curr_speed");
         ISet "max_speed" (XArg "max_speed")])
  | PortStatus04 => (* pyof/v0x04/asynchronous/port_status.py:43-54 *)
      Some ([("xid", VNone);
        ("reason", VNone);
        ("desc", VNone)],
        [ISuper [XArg "xid"] [];
         ISet "reason" (XArg "reason");
         ISet "desc" (XArg "desc")])
  | ActionHeader04 => (* pyof/v0x04/common/action.py:99-109 *)
      Some ([("action_type", VNone);
        ("length", VNone)],
        [ISuper [] [];
         ISet "action_type" (XArg "action_type");
         ISet "length" (XArg "length")])
  | ActionExperimenter04 => (* pyof/v0x04/common/action.py:161-173 *)
      Some ([("length", VNone);
        ("experimenter", VNone);
        ("body", VNone)],
        [ISuper [] [("action_type", XConst (VEnum E_ActionType04 65535))];
         ISet "length" (XArg "length");
         ISet "experimenter" (XArg "experimenter");
         ISet "body" (XArg "body")])
  | ActionGroup04 => (* pyof/v0x04/common/action.py:183-192 *)
      Some ([("group_id", VNone)],
        [ISuper [] [("action_type", XConst (VEnum E_ActionType04 22)); ("length", XConst (VInt 8))];
         ISet "group_id" (XArg "group_id")])
  | ActionDecMPLSTTL04 => (* pyof/v0x04/common/action.py:202-204 *)
      Some ([],
        [ISuper [] [("action_type", XConst (VEnum E_ActionType04 16)); ("length", XConst (VInt 8))]])
  | ActionSetMPLSTTL04 => (* pyof/v0x04/common/action.py:215-222 *)
      Some ([("mpls_ttl", VNone)],
        [ISuper [] [("action_type", XConst (VEnum E_ActionType04 15)); ("length", XConst (VInt 8))];
         ISet "mpls_ttl" (XArg "mpls_ttl")])
  | ActionCopyTTLIn04 => (* pyof/v0x04/common/action.py:232-234 *)
      Some ([],
        [ISuper [] [("action_type", XConst (VEnum E_ActionType04 12)); ("length", XConst (VInt 8))]])
  | ActionCopyTTLOut04 => (* pyof/v0x04/common/action.py:244-246 *)
      Some ([],
        [ISuper [] [("action_type", XConst (VEnum E_ActionType04 11)); ("length", XConst (VInt 8))]])
  | ActionPopVLAN04 => (* pyof/v0x04/common/action.py:256-258 *)
      Some ([],
        [ISuper [] [("action_type", XConst (VEnum E_ActionType04 18)); ("length", XConst (VInt 8))]])
  | ActionPopPBB04 => (* pyof/v0x04/common/action.py:268-270 *)
      Some ([],
        [ISuper [] [("action_type", XConst (VEnum E_ActionType04 27)); ("length", XConst (VInt 8))]])
  | ActionDecNWTTL04 => (* pyof/v0x04/common/action.py:280-282 *)
      Some ([],
        [ISuper [] [("action_type", XConst (VEnum E_ActionType04 24)); ("length", XConst (VInt 8))]])
  | ActionSetNWTTL04 => (* pyof/v0x04/common/action.py:293-300 *)
      Some ([("nw_ttl", VNone)],
        [ISuper [] [("action_type", XConst (VEnum E_ActionType04 23)); ("length", XConst (VInt 8))];
         ISet "nw_ttl" (XArg "nw_ttl")])
  | ActionOutput04 => (* pyof/v0x04/common/action.py:319-329 *)
      Some ([("port", VNone);
        ("max_length", VEnum E_ControllerMaxLen04 65535)],
        [ISuper [] [("action_type", XConst (VEnum E_ActionType04 0)); ("length", XConst (VInt 16))];
         ISet "port" (XArg "port");
         ISet "max_length" (XArg "max_length")])
  | ActionPopMPLS04 => (* pyof/v0x04/common/action.py:343-350 *)
      Some ([("ethertype", VNone)],
        [ISuper [] [("action_type", XConst (VEnum E_ActionType04 20))];
         ISet "ethertype" (XArg "ethertype")])
  | ActionPush04 => (* pyof/v0x04/common/action.py:362-371 *)
      Some ([("action_type", VNone);
        ("ethertype", VNone)],
        [ISuper [XArg "action_type"] [("length", XConst (VInt 8))];
         ISet "ethertype" (XArg "ethertype")])
  | ActionSetField04 => (* pyof/v0x04/common/action.py:381-392 *)
      Some ([("field", VNone)],
        [ISuper [] [("action_type", XConst (VEnum E_ActionType04 25))];
         ISet "field" (XIfNone "field" new_OxmTLV04)])
  | ActionSetQueue04 => (* pyof/v0x04/common/action.py:428-435 *)
      Some ([("queue_id", VNone)],
        [ISuper [] [("action_type", XConst (VEnum E_ActionType04 21)); ("length", XConst (VInt 8))];
         ISet "queue_id" (XArg "queue_id")])
  | Instruction04 => (* pyof/v0x04/common/flow_instructions.py:67-74 *)
      Some ([("instruction_type", VNone)],
        [ISuper [] [];
         ISet "instruction_type" (XArg "instruction_type")])
  | InstructionApplyAction04 => (* pyof/v0x04/common/flow_instructions.py:134-142 *)
      Some ([("actions", VNone)],
        [ISuper [XConst (VEnum E_InstructionType04 4)] [];
         ISet "actions" (XOr "actions" (VList CList CObject []))])
  | InstructionClearAction04 => (* pyof/v0x04/common/flow_instructions.py:156-164 *)
      Some ([("actions", VNone)],
        [ISuper [XConst (VEnum E_InstructionType04 5)] [];
         ISet "actions" (XOr "actions" (VList CList CObject []))])
  | InstructionGotoTable04 => (* pyof/v0x04/common/flow_instructions.py:175-183 *)
      Some ([("table_id", VEnum E_Meter04 4294967295)],
        [ISuper [XConst (VEnum E_InstructionType04 1)] [];
         ISet "table_id" (XArg "table_id")])
  | InstructionMeter04 => (* pyof/v0x04/common/flow_instructions.py:195-202 *)
      Some ([("meter_id", VEnum E_Meter04 4294967295)],
        [ISuper [XConst (VEnum E_InstructionType04 6)] [];
         ISet "meter_id" (XArg "meter_id")])
  | InstructionWriteAction04 => (* pyof/v0x04/common/flow_instructions.py:217-225 *)
      Some ([("actions", VNone)],
        [ISuper [XConst (VEnum E_InstructionType04 3)] [];
         ISet "actions" (XOr "actions" (VList CList CObject []))])
  | InstructionWriteMetadata04 => (* pyof/v0x04/common/flow_instructions.py:238-247 *)
      Some ([("metadata", VInt 0);
        ("metadata_mask", VInt 0)],
        [ISuper [XConst (VEnum E_InstructionType04 2)] [];
         ISet "metadata" (XArg "metadata");
         ISet "metadata_mask" (XArg "metadata_mask")])
  | OxmExperimenterHeader04 => (* pyof/v0x04/common/flow_match.py:426-435 *)
      Some ([("experimenter", VNone)],
        [ISuper [] [];
         ISet "experimenter" (XArg "experimenter")])
  | QueuePropHeader04 => (* pyof/v0x04/common/queue.py:44-54 *)
      Some ([("queue_property", VNone);
        ("length", VNone)],
        [ISuper [] [];
         ISet "queue_property" (XArg "queue_property");
         ISet "length" (XArg "length")])
  | PacketQueue04 => (* pyof/v0x04/common/queue.py:89-103 *)
      Some ([("queue_id", VNone);
        ("port", VNone);
        ("length", VNone);
        ("properties", VNone)],
        [ISuper [] [];
         ISet "queue_id" (XArg "queue_id");
         ISet "port" (XArg "port");
         ISet "length" (XArg "length");
         ISet "properties" (XIfNone "properties" (VList CList CObject []))])
  | QueuePropExperimenter04 => (* pyof/v0x04/common/queue.py:137-147 *)
      Some ([("experimenter", VNone);
        ("data", VNone)],
        [ISuper [] [];
         ISet "experimenter" (XArg "experimenter");
         ISet "data" (XArg "data")])
  | QueuePropMaxRate04 => (* pyof/v0x04/common/queue.py:160-167 *)
      Some ([("rate", VNone)],
        [ISuper [] [];
         ISet "rate" (XArg "rate")])
  | QueuePropMinRate04 => (* pyof/v0x04/common/queue.py:180-187 *)
      Some ([("rate", VNone)],
        [ISuper [] [];
         ISet "rate" (XArg "rate")])
  | Bucket04 => (* pyof/v0x04/controller2switch/common.py:203-225 *)
      Some ([("length", VNone);
        ("weight", VNone);
        ("watch_port", VNone);
        ("watch_group", VNone);
        ("actions", VNone)],
        [ISuper [] [];
         ISet "length" (XArg "length");
         ISet "weight" (XArg "weight");
         ISet "watch_port" (XArg "watch_port");
         ISet "watch_group" (XArg "watch_group");
         ISet "actions" (XArg "actions")])
  | BucketCounter04 => (* pyof/v0x04/controller2switch/common.py:260-270 *)
      Some ([("packet_count", VNone);
        ("byte_count", VNone)],
        [ISuper [] [];
         ISet "packet_count" (XArg "packet_count");
         ISet "byte_count" (XArg "byte_count")])
  | AsyncConfig04 => (* pyof/v0x04/controller2switch/common.py:318-351 *)
      Some ([("xid", VNone);
        ("packet_in_mask1", VNone);
        ("packet_in_mask2", VNone);
        ("port_status_mask1", VNone);
        ("port_status_mask2", VNone);
        ("flow_removed_mask1", VNone);
        ("flow_removed_mask2", VNone)],
        [ISuper [XArg "xid"] [];
         ISet "packet_in_mask1" (XArg "packet_in_mask1");
         ISet "packet_in_mask2" (XArg "packet_in_mask2");
         ISet "port_status_mask1" (XArg "port_status_mask1");
         ISet "port_status_mask2" (XArg "port_status_mask2");
         ISet "flow_removed_mask1" (XArg "flow_removed_mask1");
         ISet "flow_removed_mask2" (XArg "flow_removed_mask2")])
  | RoleBaseMessage04 => (* pyof/v0x04/controller2switch/common.py:367-378 *)
      Some ([("xid", VNone);
        ("role", VNone);
        ("generation_id", VNone)],
        [ISuper [XArg "xid"] [];
         ISet "role" (XArg "role");
         ISet "generation_id" (XArg "generation_id")])
  | SwitchConfig04 => (* pyof/v0x04/controller2switch/common.py:389-402 *)
      Some ([("xid", VNone);
        ("flags", VEnum E_ConfigFlag04 0);
        ("miss_send_len", VEnum E_ControllerMaxLen04 65535)],
        [ISuper [XArg "xid"] [];
         ISet "flags" (XArg "flags");
         ISet "miss_send_len" (XArg "miss_send_len")])
  | ExperimenterMultipartHeader04 => (* pyof/v0x04/controller2switch/common.py:414-426 *)
      Some ([("experimenter", VNone);
        ("exp_type", VNone)],
        [ISuper [] [];
         ISet "experimenter" (XArg "experimenter");
         ISet "exp_type" (XArg "exp_type")])
  | Property04 => (* pyof/v0x04/controller2switch/common.py:438-447 *)
      Some ([("property_type", VNone)],
        [ISuper [] [];
         ISet "property_type" (XArg "property_type")])
  | InstructionsProperty04 => (* pyof/v0x04/controller2switch/common.py:496-509 *)
      Some ([("property_type", VEnum E_TableFeaturePropType04 0);
        ("instruction_ids", VNone)],
        [ISuper [] [("property_type", XArg "property_type")];
         ISet "instruction_ids" (XOr "instruction_ids" (VList CList CObject []));
         IUpdateLength])
  | NextTablesProperty04 => (* pyof/v0x04/controller2switch/common.py:522-536 *)
      Some ([("property_type", VEnum E_TableFeaturePropType04 2);
        ("next_table_ids", VNone)],
        [ISuper [XArg "property_type"] [];
         ISet "next_table_ids" (XIfNone "next_table_ids" (VList ListOfInstruction04 Instruction04 []));
         IUpdateLength])
  | ActionsProperty04 => (* pyof/v0x04/controller2switch/common.py:551-565 *)
      Some ([("property_type", VEnum E_TableFeaturePropType04 4);
        ("action_ids", VNone)],
        [ISuper [XArg "property_type"] [];
         ISet "action_ids" (XOr "action_ids" (VList ListOfActions04 ActionHeader04 []));
         IUpdateLength])
  | OxmProperty04 => (* pyof/v0x04/controller2switch/common.py:582-595 *)
      Some ([("property_type", VEnum E_TableFeaturePropType04 8);
        ("oxm_ids", VNone)],
        [ISuper [XArg "property_type"] [];
         ISet "oxm_ids" (XIfNone "oxm_ids" (VList ListOfOxmHeader04 OxmTLV04 []));
         IUpdateLength])
  | TableFeatures04 => (* pyof/v0x04/controller2switch/common.py:638-674 *)
      Some ([("table_id", VEnum E_Table04 255);
        ("name", VStr (txt ""));
        ("metadata_match", VInt 18446744073709551615);
        ("metadata_write", VInt 18446744073709551615);
        ("config", VInt 0);
        ("max_entries", VInt 0);
        ("properties", VNone)],
        [ISuper [] [];
         ISet "table_id" (XArg "table_id");
         ISet "name" (XArg "name");
         ISet "metadata_match" (XArg "metadata_match");
         ISet "metadata_write" (XArg "metadata_write");
         ISet "config" (XArg "config");
         ISet "max_entries" (XArg "max_entries");
         ISet "properties" (XIfNone "properties" (VList ListOfProperty04 Property04 []));
         IUpdateLength])
  | SwitchFeatures04 => (* pyof/v0x04/controller2switch/features_reply.py:58-80 *)
      Some ([("xid", VNone);
        ("datapath_id", VNone);
        ("n_buffers", VNone);
        ("n_tables", VNone);
        ("auxiliary_id", VNone);
        ("capabilities", VNone);
        ("reserved", VNone)],
        [ISuper [XArg "xid"] [];
         ISet "datapath_id" (XArg "datapath_id");
         ISet "n_buffers" (XArg "n_buffers");
         ISet "n_tables" (XArg "n_tables");
         ISet "auxiliary_id" (XArg "auxiliary_id");
         ISet "capabilities" (XArg "capabilities");
         ISet "reserved" (XArg "reserved")])
  | FlowMod04 => (* pyof/v0x04/controller2switch/flow_mod.py:73-121 *)
      Some ([("xid", VNone);
        ("cookie", VInt 0);
        ("cookie_mask", VInt 0);
        ("table_id", VInt 0);
        ("command", VNone);
        ("idle_timeout", VInt 0);
        ("hard_timeout", VInt 0);
        ("priority", VInt 0);
        ("buffer_id", VInt 4294967295);
        ("out_port", VEnum E_PortNo04 4294967295);
        ("out_group", VEnum E_Group04 4294967295);
        ("flags", VInt 1);
        ("match", VNone);
        ("instructions", VNone)],
        [ISuper [XArg "xid"] [];
         ISet "cookie" (XArg "cookie");
         ISet "cookie_mask" (XArg "cookie_mask");
         ISet "table_id" (XArg "table_id");
         ISet "command" (XArg "command");
         ISet "idle_timeout" (XArg "idle_timeout");
         ISet "hard_timeout" (XArg "hard_timeout");
         ISet "priority" (XArg "priority");
         ISet "buffer_id" (XArg "buffer_id");
         ISet "out_port" (XArg "out_port");
         ISet "out_group" (XArg "out_group");
         ISet "flags" (XArg "flags");
         ISet "match" (XIfNone "match" new_Match04);
         ISet "instructions" (XOr "instructions" (VList ListOfInstruction04 Instruction04 []))])
  | GetAsyncReply04 => (* pyof/v0x04/controller2switch/get_async_reply.py:23-46 *)
      Some ([("xid", VNone);
        ("packet_in_mask1", VNone);
        ("packet_in_mask2", VNone);
        ("port_status_mask1", VNone);
        ("port_status_mask2", VNone);
        ("flow_removed_mask1", VNone);
        ("flow_removed_mask2", VNone)],
        [ISuper [XArg "xid"; XArg "packet_in_mask1"; XArg "packet_in_mask2"; XArg "port_status_mask1"; XArg "port_status_mask2"; XArg "flow_removed_mask1"; XArg "flow_removed_mask2"] [];
         IHeader "message_type" (XConst (VEnum E_Type04 27))])
  | GetConfigReply04 => (* pyof/v0x04/controller2switch/get_config_reply.py:16-27 *)
      Some ([("xid", VNone);
        ("flags", VNone);
        ("miss_send_len", VNone)],
        [ISuper [XArg "xid"; XArg "flags"; XArg "miss_send_len"] [];
         IHeader "message_type" (XConst (VEnum E_Type04 8))])
  | GroupMod04 => (* pyof/v0x04/controller2switch/group_mod.py:77-93 *)
      Some ([("xid", VNone);
        ("command", VNone);
        ("group_type", VNone);
        ("group_id", VNone);
        ("buckets", VNone)],
        [ISuper [XArg "xid"] [];
         ISet "command" (XArg "command");
         ISet "group_type" (XArg "group_type");
         ISet "group_id" (XArg "group_id");
         ISet "buckets" (XArg "buckets")])
  | MeterBandHeader04 => (* pyof/v0x04/controller2switch/meter_mod.py:78-90 *)
      Some ([("band_type", VNone);
        ("rate", VNone);
        ("burst_size", VNone)],
        [ISuper [] [];
         ISet "band_type" (XArg "band_type");
         ISet "rate" (XArg "rate");
         ISet "burst_size" (XArg "burst_size");
         IUpdateLength])
  | MeterMod04 => (* pyof/v0x04/controller2switch/meter_mod.py:129-145 *)
      Some ([("xid", VNone);
        ("command", VNone);
        ("flags", VNone);
        ("meter_id", VNone);
        ("bands", VNone)],
        [ISuper [XArg "xid"] [];
         ISet "command" (XArg "command");
         ISet "flags" (XArg "flags");
         ISet "meter_id" (XArg "meter_id");
         ISet "bands" (XArg "bands")])
  | MeterBandDrop04 => (* pyof/v0x04/controller2switch/meter_mod.py:153-160 *)
      Some ([("rate", VNone);
        ("burst_size", VNone)],
        [ISuper [XConst (VEnum E_MeterBandType04 1); XArg "rate"; XArg "burst_size"] []])
  | MeterBandDscpRemark04 => (* pyof/v0x04/controller2switch/meter_mod.py:169-178 *)
      Some ([("rate", VNone);
        ("burst_size", VNone);
        ("prec_level", VNone)],
        [ISuper [XConst (VEnum E_MeterBandType04 2); XArg "rate"; XArg "burst_size"] [];
         ISet "prec_level" (XArg "prec_level")])
  | MeterBandExperimenter04 => (* pyof/v0x04/controller2switch/meter_mod.py:186-196 *)
      Some ([("rate", VNone);
        ("burst_size", VNone);
        ("experimenter", VNone)],
        [ISuper [XConst (VEnum E_MeterBandType04 65535); XArg "rate"; XArg "burst_size"] [];
         ISet "experimenter" (XArg "experimenter")])
  | MultipartReply04 => (* pyof/v0x04/controller2switch/multipart_reply.py:73-86 *)
      Some ([("xid", VNone);
        ("multipart_type", VNone);
        ("flags", VNone);
        ("body", VBytes [])],
        [ISuper [XArg "xid"] [];
         ISet "multipart_type" (XArg "multipart_type");
         ISet "flags" (XArg "flags");
         ISet "body" (XArg "body")])
  | AggregateStatsReply04 => (* pyof/v0x04/controller2switch/multipart_reply.py:190-202 *)
      Some ([("packet_count", VNone);
        ("byte_count", VNone);
        ("flow_count", VNone)],
        [ISuper [] [];
         ISet "packet_count" (XArg "packet_count");
         ISet "byte_count" (XArg "byte_count");
         ISet "flow_count" (XArg "flow_count")])
  | Desc04 => (* pyof/v0x04/controller2switch/multipart_reply.py:223-240 *)
      Some ([("mfr_desc", VNone);
        ("hw_desc", VNone);
        ("sw_desc", VNone);
        ("serial_num", VNone);
        ("dp_desc", VNone)],
        [ISuper [] [];
         ISet "mfr_desc" (XArg "mfr_desc");
         ISet "hw_desc" (XArg "hw_desc");
         ISet "sw_desc" (XArg "sw_desc");
         ISet "serial_num" (XArg "serial_num");
         ISet "dp_desc" (XArg "dp_desc")])
  | FlowStats04 => (* pyof/v0x04/controller2switch/multipart_reply.py:264-299 *)
      Some ([("length", VNone);
        ("table_id", VNone);
        ("duration_sec", VNone);
        ("duration_nsec", VNone);
        ("priority", VNone);
        ("idle_timeout", VNone);
        ("hard_timeout", VNone);
        ("flags", VNone);
        ("cookie", VNone);
        ("packet_count", VNone);
        ("byte_count", VNone);
        ("match", VNone);
        ("instructions", VNone)],
        [ISuper [] [];
         ISet "length" (XArg "length");
         ISet "table_id" (XArg "table_id");
         ISet "duration_sec" (XArg "duration_sec");
         ISet "duration_nsec" (XArg "duration_nsec");
         ISet "priority" (XArg "priority");
         ISet "idle_timeout" (XArg "idle_timeout");
         ISet "hard_timeout" (XArg "hard_timeout");
         ISet "flags" (XArg "flags");
         ISet "cookie" (XArg "cookie");
         ISet "packet_count" (XArg "packet_count");
         ISet "byte_count" (XArg "byte_count");
         ISet "match" (XArg "match");
         ISet "instructions" (XOr "instructions" (VList CList CObject []))])
  | PortStats04 => (* pyof/v0x04/controller2switch/multipart_reply.py:340-388 *)
      Some ([("port_no", VNone);
        ("rx_packets", VNone);
        ("tx_packets", VNone);
        ("rx_bytes", VNone);
        ("tx_bytes", VNone);
        ("rx_dropped", VNone);
        ("tx_dropped", VNone);
        ("rx_errors", VNone);
        ("tx_errors", VNone);
        ("rx_frame_err", VNone);
        ("rx_over_err", VNone);
        ("rx_crc_err", VNone);
        ("collisions", VNone);
        ("duration_sec", VNone);
        ("duration_nsec", VNone)],
        [ISuper [] [];
         ISet "port_no" (XArg "port_no");
         ISet "rx_packets" (XArg "rx_packets");
         ISet "tx_packets" (XArg "tx_packets");
         ISet "rx_bytes" (XArg "rx_bytes");
         ISet "tx_bytes" (XArg "tx_bytes");
         ISet "rx_dropped" (XArg "rx_dropped");
         ISet "tx_dropped" (XArg "tx_dropped");
         ISet "rx_errors" (XArg "rx_errors");
         ISet "tx_errors" (XArg "tx_errors");
         ISet "rx_frame_err" (XArg "rx_frame_err");
         ISet "rx_over_err" (XArg "rx_over_err");
         ISet "rx_crc_err" (XArg "rx_crc_err");
         ISet "collisions" (XArg "collisions");
         ISet "duration_sec" (XArg "duration_sec");
         ISet "duration_nsec" (XArg "duration_nsec")])
  | QueueStats04 => (* pyof/v0x04/controller2switch/multipart_reply.py:402-426 *)
      Some ([("port_no", VNone);
        ("queue_id", VNone);
        ("tx_bytes", VNone);
        ("tx_packets", VNone);
        ("tx_errors", VNone);
        ("duration_sec", VNone);
        ("duration_nsec", VNone)],
        [ISuper [] [];
         ISet "port_no" (XArg "port_no");
         ISet "queue_id" (XArg "queue_id");
         ISet "tx_bytes" (XArg "tx_bytes");
         ISet "tx_packets" (XArg "tx_packets");
         ISet "tx_errors" (XArg "tx_errors");
         ISet "duration_sec" (XArg "duration_sec");
         ISet "duration_nsec" (XArg "duration_nsec")])
  | GroupDescStats04 => (* pyof/v0x04/controller2switch/multipart_reply.py:439-454 *)
      Some ([("length", VNone);
        ("group_type", VNone);
        ("group_id", VNone);
        ("buckets", VNone)],
        [ISuper [] [];
         ISet "length" (XArg "length");
         ISet "group_type" (XArg "group_type");
         ISet "group_id" (XArg "group_id");
         ISet "buckets" (XArg "buckets")])
  | GroupFeatures04 => (* pyof/v0x04/controller2switch/multipart_reply.py:471-494 *)
      Some ([("types", VNone);
        ("capabilities", VNone);
        ("max_groups1", VNone);
        ("max_groups2", VNone);
        ("max_groups3", VNone);
        ("max_groups4", VNone);
        ("actions1", VNone);
        ("actions2", VNone);
        ("actions3", VNone);
        ("actions4", VNone)],
        [ISuper [] [];
         ISet "types" (XArg "types");
         ISet "capabilities" (XArg "capabilities");
         ISet "max_groups1" (XArg "max_groups1");
         ISet "max_groups2" (XArg "max_groups2");
         ISet "max_groups3" (XArg "max_groups3");
         ISet "max_groups4" (XArg "max_groups4");
         ISet "actions1" (XArg "actions1");
         ISet "actions2" (XArg "actions2");
         ISet "actions3" (XArg "actions3");
         ISet "actions4" (XArg "actions4")])
  | GroupStats04 => (* pyof/v0x04/controller2switch/multipart_reply.py:513-538 *)
      Some ([("length", VNone);
        ("group_id", VNone);
        ("ref_count", VNone);
        ("packet_count", VNone);
        ("byte_count", VNone);
        ("duration_sec", VNone);
        ("duration_nsec", VNone);
        ("bucket_stats", VNone)],
        [ISuper [] [];
         ISet "length" (XArg "length");
         ISet "group_id" (XArg "group_id");
         ISet "ref_count" (XArg "ref_count");
         ISet "packet_count" (XArg "packet_count");
         ISet "byte_count" (XArg "byte_count");
         ISet "duration_sec" (XArg "duration_sec");
         ISet "duration_nsec" (XArg "duration_nsec");
         ISet "bucket_stats" (XArg "bucket_stats")])
  | MeterConfig04 => (* pyof/v0x04/controller2switch/multipart_reply.py:556-573 *)
      Some ([("flags", VInt 8);
        ("meter_id", VNone);
        ("bands", VNone)],
        [ISuper [] [];
         ISet "flags" (XArg "flags");
         ISet "meter_id" (XArg "meter_id");
         ISet "bands" (XOr "bands" (VList CList CObject []))])
  | MeterFeatures04 => (* pyof/v0x04/controller2switch/multipart_reply.py:586-604 *)
      Some ([("max_meter", VNone);
        ("band_types", VNone);
        ("capabilities", VNone);
        ("max_bands", VNone);
        ("max_color", VNone)],
        [ISuper [] [];
         ISet "max_meter" (XArg "max_meter");
         ISet "band_types" (XArg "band_types");
         ISet "capabilities" (XArg "capabilities");
         ISet "max_bands" (XArg "max_bands");
         ISet "max_color" (XArg "max_color")])
  | BandStats04 => (* pyof/v0x04/controller2switch/multipart_reply.py:616-626 *)
      Some ([("packet_band_count", VNone);
        ("byte_band_count", VNone)],
        [ISuper [] [];
         ISet "packet_band_count" (XArg "packet_band_count");
         ISet "byte_band_count" (XArg "byte_band_count")])
  | MeterStats04 => (* pyof/v0x04/controller2switch/multipart_reply.py:661-685 *)
      Some ([("meter_id", VNone);
        ("flow_count", VNone);
        ("packet_in_count", VNone);
        ("byte_in_count", VNone);
        ("duration_sec", VNone);
        ("duration_nsec", VNone);
        ("band_stats", VNone)],
        [ISuper [] [];
         ISet "meter_id" (XArg "meter_id");
         ISet "flow_count" (XArg "flow_count");
         ISet "packet_in_count" (XArg "packet_in_count");
         ISet "byte_in_count" (XArg "byte_in_count");
         ISet "duration_sec" (XArg "duration_sec");
         ISet "duration_nsec" (XArg "duration_nsec");
         ISet "band_stats" (XOr "band_stats" (VList CList CObject []));
         IUpdateLength])
  | TableStats04 => (* pyof/v0x04/controller2switch/multipart_reply.py:732-748 *)
      Some ([("table_id", VNone);
        ("active_count", VNone);
        ("lookup_count", VNone);
        ("matched_count", VNone)],
        [ISuper [] [];
         ISet "table_id" (XArg "table_id");
         ISet "active_count" (XArg "active_count");
         ISet "lookup_count" (XArg "lookup_count");
         ISet "matched_count" (XArg "matched_count")])
  | MultipartRequest04 => (* pyof/v0x04/controller2switch/multipart_request.py:60-72 *)
      Some ([("xid", VNone);
        ("multipart_type", VNone);
        ("flags", VInt 0);
        ("body", VBytes [])],
        [ISuper [XArg "xid"] [];
         ISet "multipart_type" (XArg "multipart_type");
         ISet "flags" (XArg "flags");
         ISet "body" (XArg "body")])
  | AggregateStatsRequest04 => (* pyof/v0x04/controller2switch/multipart_request.py:182-206 *)
      Some ([("table_id", VEnum E_Table04 255);
        ("out_port", VEnum E_PortNo04 4294967295);
        ("out_group", VEnum E_Group04 4294967295);
        ("cookie", VInt 0);
        ("cookie_mask", VInt 0);
        ("match", VNone)],
        [ISuper [] [];
         ISet "table_id" (XArg "table_id");
         ISet "out_port" (XArg "out_port");
         ISet "out_group" (XArg "out_group");
         ISet "cookie" (XArg "cookie");
         ISet "cookie_mask" (XArg "cookie_mask");
         ISet "match" (XIfNone "match" new_Match04)])
  | FlowStatsRequest04 => (* pyof/v0x04/controller2switch/multipart_request.py:222-247 *)
      Some ([("table_id", VEnum E_Table04 255);
        ("out_port", VEnum E_PortNo04 4294967295);
        ("out_group", VEnum E_Group04 4294967295);
        ("cookie", VInt 0);
        ("cookie_mask", VInt 0);
        ("match", VNone)],
        [ISuper [] [];
         ISet "table_id" (XArg "table_id");
         ISet "out_port" (XArg "out_port");
         ISet "out_group" (XArg "out_group");
         ISet "cookie" (XArg "cookie");
         ISet "cookie_mask" (XArg "cookie_mask");
         ISet "match" (XIfNone "match" new_Match04)])
  | PortStatsRequest04 => (* pyof/v0x04/controller2switch/multipart_request.py:257-267 *)
      Some ([("port_no", VEnum E_PortNo04 4294967295)],
        [ISuper [] [];
         ISet "port_no" (XArg "port_no")])
  | QueueStatsRequest04 => (* pyof/v0x04/controller2switch/multipart_request.py:276-286 *)
      Some ([("port_no", VEnum E_PortNo04 4294967295);
        ("queue_id", VInt 4294967295)],
        [ISuper [] [];
         ISet "port_no" (XArg "port_no");
         ISet "queue_id" (XArg "queue_id")])
  | GroupStatsRequest04 => (* pyof/v0x04/controller2switch/multipart_request.py:297-305 *)
      Some ([("group_id", VEnum E_Group04 4294967292)],
        [ISuper [] [];
         ISet "group_id" (XArg "group_id")])
  | MeterMultipartRequest04 => (* pyof/v0x04/controller2switch/multipart_request.py:321-329 *)
      Some ([("meter_id", VEnum E_Meter04 4294967295)],
        [ISuper [] [];
         ISet "meter_id" (XArg "meter_id")])
  | PacketOut04 => (* pyof/v0x04/controller2switch/packet_out.py:39-61 *)
      Some ([("xid", VNone);
        ("buffer_id", VInt 4294967295);
        ("in_port", VEnum E_PortNo04 4294967293);
        ("actions", VNone);
        ("data", VBytes [])],
        [ISuper [XArg "xid"] [];
         ISet "buffer_id" (XArg "buffer_id");
         ISet "in_port" (XArg "in_port");
         ISet "actions" (XIfNone "actions" (VList CList CObject []));
         ISet "data" (XArg "data")])
  | PortMod04 => (* pyof/v0x04/controller2switch/port_mod.py:32-55 *)
      Some ([("xid", VNone);
        ("port_no", VNone);
        ("hw_addr", VNone);
        ("config", VNone);
        ("mask", VNone);
        ("advertise", VNone)],
        [ISuper [XArg "xid"] [];
         ISet "port_no" (XArg "port_no");
         ISet "hw_addr" (XArg "hw_addr");
         ISet "config" (XArg "config");
         ISet "mask" (XArg "mask");
         ISet "advertise" (XArg "advertise")])
  | QueueGetConfigReply04 => (* pyof/v0x04/controller2switch/queue_get_config_reply.py:30-42 *)
      Some ([("xid", VNone);
        ("port", VNone);
        ("queues", VNone)],
        [ISuper [XArg "xid"] [];
         ISet "port" (XArg "port");
         ISet "queues" (XIfNone "queues" (VList CList CObject []))])
  | QueueGetConfigRequest04 => (* pyof/v0x04/controller2switch/queue_get_config_request.py:26-34 *)
      Some ([("xid", VNone);
        ("port", VNone)],
        [ISuper [XArg "xid"] [];
         ISet "port" (XArg "port")])
  | RoleReply04 => (* pyof/v0x04/controller2switch/role_reply.py:20-32 *)
      Some ([("xid", VNone);
        ("role", VEnum E_ControllerRole04 0);
        ("generation_id", VInt 18446744073709551615)],
        [ISuper [XArg "xid"; XArg "role"; XArg "generation_id"] [];
         IHeader "message_type" (XConst (VEnum E_Type04 25))])
  | RoleRequest04 => (* pyof/v0x04/controller2switch/role_request.py:23-33 *)
      Some ([("xid", VNone);
        ("role", VNone);
        ("generation_id", VNone)],
        [ISuper [XArg "xid"; XArg "role"; XArg "generation_id"] [];
         IHeader "message_type" (XConst (VEnum E_Type04 24))])
  | SetAsync04 => (* pyof/v0x04/controller2switch/set_async.py:25-48 *)
      Some ([("xid", VNone);
        ("packet_in_mask1", VNone);
        ("packet_in_mask2", VNone);
        ("port_status_mask1", VNone);
        ("port_status_mask2", VNone);
        ("flow_removed_mask1", VNone);
        ("flow_removed_mask2", VNone)],
        [ISuper [XArg "xid"; XArg "packet_in_mask1"; XArg "packet_in_mask2"; XArg "port_status_mask1"; XArg "port_status_mask2"; XArg "flow_removed_mask1"; XArg "flow_removed_mask2"] [];
         IHeader "message_type" (XConst (VEnum E_Type04 28))])
  | SetConfig04 => (* pyof/v0x04/controller2switch/set_config.py:18-30 *)
      Some ([("xid", VNone);
        ("flags", VEnum E_ConfigFlag04 0);
        ("miss_send_len", VEnum E_ControllerMaxLen04 65535)],
        [ISuper [XArg "xid"; XArg "flags"; XArg "miss_send_len"] [];
         IHeader "message_type" (XConst (VEnum E_Type04 9))])
  | TableMod04 => (* pyof/v0x04/controller2switch/table_mod.py:30-43 *)
      Some ([("xid", VNone);
        ("table_id", VEnum E_Table04 255);
        ("config", VInt 3)],
        [ISuper [XArg "xid"] [];
         ISet "table_id" (XArg "table_id");
         ISet "config" (XArg "config")])
  | EchoReply04 => (* pyof/v0x04/symmetric/echo_reply.py:25-33 *)
      Some ([("xid", VNone);
        ("data", VBytes [])],
        [ISuper [XArg "xid"] [];
         ISet "data" (XArg "data")])
  | EchoRequest04 => (* pyof/v0x04/symmetric/echo_request.py:25-33 *)
      Some ([("xid", VNone);
        ("data", VBytes [])],
        [ISuper [XArg "xid"] [];
         ISet "data" (XArg "data")])
  | ExperimenterHeader04 => (* pyof/v0x04/symmetric/experimenter.py:39-52 *)
      Some ([("xid", VNone);
        ("experimenter", VNone);
        ("exp_type", VNone);
        ("data", VBytes [])],
        [ISuper [XArg "xid"] [];
         ISet "experimenter" (XArg "experimenter");
         ISet "exp_type" (XArg "exp_type");
         ISet "data" (XArg "data")])
  | HelloElemHeader04 => (* pyof/v0x04/symmetric/hello.py:36-47 *)
      Some ([("element_type", VNone);
        ("length", VNone);
        ("content", VBytes [])],
        [ISuper [] [];
         ISet "element_type" (XArg "element_type");
         ISet "length" (XArg "length");
         ISet "content" (XArg "content")])
  | Hello04 => (* pyof/v0x04/symmetric/hello.py:119-127 *)
      Some ([("xid", VNone);
        ("elements", VNone)],
        [ISuper [XArg "xid"] [];
         ISet "elements" (XArg "elements")])
  | _ => None
  end.
