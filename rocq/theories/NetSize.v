(** get_size() of the network packets, pyof/foundation/network_types.py. *)
From Coq Require Import ZArith List Bool String.
From Verif Require Import Base PyText Ids PyVal Classes Interp Addr NetTypes.
Import ListNotations.
Open Scope list_scope.
Open Scope Z_scope.

(** GenericStruct.get_size() of ARP and IPv4, base.py:677-679. *)
Definition arp_size (a : dict) : res Z := net_size arp_fields a.
Definition ipv4_size (p : ipv4) : res Z := net_size ipv4_fields (ipv4_dict p).

(** The same for Ethernet; [ListOfVLAN().get_size(vlans)] makes a ListOfVLAN of
    the tags and adds up their sizes, basic_types.py:706-730. *)
Definition eth_size (f : ethernet) : res Z :=
  do d <- size1 get_size hw_attr (e_destination f);
  do s <- size1 get_size hw_attr (e_source f);
  do v <- sumM vlan_size (e_vlans f);
  do t <- size1 get_size type_attr (e_ether_type f);
  do x <- size1 get_size data_attr (e_data f);
  Ok (d + s + v + t + x).

(** [class_value.get_size(instance_value)], network_types.py:438-448: with a
    value that is no instance of its class the class attribute gives its own
    size. *)
Definition tlv_size1 (cv iv : tlv) : res Z :=
  match cv, iv with
  | SubTlv _ _ _, Tlv _ _ => tlv_size cv
  | _, _ => tlv_size iv
  end.
Definition lldp_size (p : lldp) : res Z :=
  do a <- tlv_size1 (l_chassis lldp_default) (l_chassis p);
  do b <- tlv_size1 (l_port lldp_default) (l_port p);
  do c <- tlv_size1 (l_ttl lldp_default) (l_ttl p);
  do d <- tlv_size1 (l_end lldp_default) (l_end p);
  Ok (a + b + c + d).

(** IPv6, lines 615-640: UBInt32, UBInt16, twice UBInt8, twice IPv6Address
    (basic_types.py:442-454: 16) and data, which is bytes. *)
Definition ipv6_size (p : ipv6p) : res Z :=
  do a <- get_size (VUInt 4 None VNone);
  do b <- get_size (VUInt 2 None VNone);
  do c <- get_size (VUInt 1 None VNone);
  do d <- get_size (VUInt 1 None VNone);
  do x <- size1 get_size data_attr (VBytes (s_data p));
  Ok (a + b + c + d + 16 + 16 + x).
