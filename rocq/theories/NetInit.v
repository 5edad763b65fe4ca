(** The constructors of network_types.py as they are called with keyword
    arguments: [None] stands for an argument that is not given, and the
    default value of the signature takes its place.  A keyword that is not in
    the signature (TypeError) is not represented. *)
From Coq Require Import ZArith List Bool String.
From Verif Require Import Base PyText Ids PyVal Classes Interp Addr NetTypes.
Import ListNotations.
Open Scope string_scope.
Open Scope list_scope.
Open Scope Z_scope.

Definition given {A} (o : option A) (default : A) : A :=
  match o with Some x => x | None => default end.

(** ARP.__init__, network_types.py:79-110. EtherType is an IntEnum. *)
Definition arp_new (htype ptype hlen plen oper sha spa tha tpa : option pyval) : dict :=
  arp_init (given htype (VInt 1)) (given ptype (VInt ET_IPV4)) (given hlen (VInt 6)) (given plen (VInt 4))
           (given oper (VInt 1)) (given sha (VStr (txt "00:00:00:00:00:00"))) (given spa (VStr (txt "0.0.0.0")))
           (given tha (VStr (txt "00:00:00:00:00:00"))) (given tpa (VStr (txt "0.0.0.0"))).

(** Ethernet.__init__, lines 263-282: a missing list of VLANs is an empty
    ListOfVLAN. *)
Definition eth_new (destination source : option pyval) (vlans : option (list vlan))
           (ether_type data : option pyval) : ethernet :=
  mk_eth (given destination VNone) (given source VNone) (given vlans []) (given ether_type VNone)
         (given data (VBytes [])).

(** GenericTLV.__init__, lines 350-360: a value that is None is BinaryData(). *)
Definition or_empty (v : pyval) : pyval := match v with VNone => VBin VNone | _ => v end.
Definition tlv_new (tlv_type : option Z) (value : option pyval) : tlv :=
  Tlv (given tlv_type 127) (or_empty (given value VNone)).

(** TLVWithSubType.__init__, lines 723-734. *)
Definition sub_tlv_new (tlv_type sub_type : option Z) (sub_value : option pyval) : tlv :=
  SubTlv (given tlv_type 1) (given sub_type 7)
         (or_empty (given sub_value VNone)).

(** [lldp = LLDP()], a struct without a constructor of its own: its attributes
    are copies of the class attributes (base.py:500-503); then perhaps [lldp.chassis_id.sub_value = c],
    [lldp.port_id.sub_value = p] and [lldp.ttl = GenericTLV(3, t)]. *)
Definition set_sub_value (v : pyval) (x : tlv) : tlv :=
  match x with SubTlv t st _ => SubTlv t st v | Tlv t old => Tlv t old end.
Definition lldp_new (chassis port ttl : option pyval) : lldp :=
  let p := lldp_default in
  mk_lldp (match chassis with Some v => set_sub_value v (l_chassis p) | None => l_chassis p end)
          (match port with Some v => set_sub_value v (l_port p) | None => l_port p end)
          (match ttl with Some v => tlv_new (Some 3) (Some v) | None => l_ttl p end)
          (l_end p).

(** IPv4.__init__, lines 491-528. *)
Definition ipv4_new (version ihl dscp ecn length identification flags offset ttl protocol checksum : option Z)
           (source destination : option pyval) (options data : option bytes) : ipv4 :=
  mk_ipv4 (given version 4) (given ihl 5) (given dscp 0) (given ecn 0) (given length 0) (given identification 0)
          (given flags 0) (given offset 0) (given ttl 255) (given protocol 0) (given checksum 0)
          (given source (VStr (txt "0.0.0.0"))) (given destination (VStr (txt "0.0.0.0")))
          (given options []) (given data []).

(** IPv6.__init__, lines 642-668. *)
Definition ipv6_new (version tclass flabel length next_header hop_limit : option Z)
           (source destination : option text) (data : option bytes) : res ipv6p :=
  ipv6_init (given version 6) (given tclass 0) (given flabel 0) (given length 0) (given next_header 0)
            (given hop_limit 255) (given source (txt "0:0:0:0:0:0:0:0")) (given destination (txt "0:0:0:0:0:0:0:0"))
            (given data []).
