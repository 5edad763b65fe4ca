(** Theorems: C70 (get_size() of a network packet is the size of its encoding). *)
From Coq Require Import ZArith List Bool String.
From Verif Require Import Base PyText Ids PyVal Classes Interp Addr NetTypes NetSize NetSizeFacts.
Import ListNotations.
Open Scope string_scope.
Open Scope list_scope.
Open Scope Z_scope.

(** Fixed headers: the size does not depend on the values of the fields. *)
Theorem c70_arp : forall h p hl pl o sha spa tha tpa, arp_size (arp_init h p hl pl o sha spa tha tpa) = Ok 28 /\
  forall bs, arp_pack (arp_init h p hl pl o sha spa tha tpa) = Ok bs -> zlen bs = 28.
Proof. split; [apply arp_size_any|apply arp_sized]. Qed.
Print Assumptions c70_arp.

Theorem c70_ipv4 : forall p, ipv4_size p = Ok (20 + zlen (i_options p) + zlen (i_data p)) /\
  forall bs, snd (ipv4_pack p) = Ok bs -> ipv4_size p = Ok (zlen bs).
Proof. split; [apply ipv4_size_any|apply ipv4_sized]. Qed.
Print Assumptions c70_ipv4.

Theorem c70_ipv6 : forall p, ipv6_size p = Ok (40 + zlen (s_data p)) /\
  forall bs, snd (ipv6_pack p) = Ok bs -> ipv6_size p = Ok (zlen bs).
Proof. split; [apply ipv6_size_any|apply ipv6_sized]. Qed.
Print Assumptions c70_ipv6.

(** A tag is four bytes, or none when it has no fields. *)
Theorem c70_vlan_partial : forall v, vlan_size v = Ok 4 /\
  forall bs, snd (vlan_pack v) = Ok bs -> bs = [] /\ vl_pcp v = None /\ vl_cfi v = None /\ vl_vid v = None \/ zlen bs = 4.
Proof. split; [apply vlan_size_any|apply vlan_sized]. Qed.
Print Assumptions c70_vlan_partial.

(** A frame: tags with fields, and data whose own size is right. *)
Theorem c70_ethernet_partial : forall f bs, Forall (fun v => vl_pcp v <> None \/ vl_cfi v <> None \/ vl_vid v <> None) (e_vlans f) ->
  (forall b, pack (e_data f) = Ok b -> get_size (e_data f) = Ok (zlen b)) -> snd (eth_pack f) = Ok bs -> eth_size f = Ok (zlen bs).
Proof. exact eth_sized. Qed.
Print Assumptions c70_ethernet_partial.

Theorem c70_tlv : forall x bs, tlv_pack x = Ok bs -> tlv_size x = Ok (zlen bs).
Proof. exact tlv_sized. Qed.
Print Assumptions c70_tlv.

Theorem c70_lldp : forall p bs, lldp_pack p = Ok bs -> lldp_size p = Ok (zlen bs).
Proof. exact lldp_sized. Qed.
Print Assumptions c70_lldp.

(** A tag without fields is written as nothing but counted as four bytes, also
    in a frame; a packet that cannot be written has a size all the same. *)
Theorem c70_size_refuted :
  (exists f bs, snd (eth_pack f) = Ok bs /\ eth_size f = Ok (zlen bs + 4)) /\
  (exists p, lldp_pack p = Err PackException /\ exists n, lldp_size p = Ok n).
Proof.
  split.
  - exists (mk_eth (VInt 0) (VInt 0) [vlan_init None None None] (VInt 0x0800) (VBytes [1; 2])). eexists. split; vm_compute; reflexivity.
  - exists (mk_lldp (Tlv 1 (VBin (VBytes [7; 1]))) (SubTlv 2 7 (VBin VNone)) (Tlv 3 (VBin VNone)) (Tlv 0 (VBin VNone))). split; [vm_compute; reflexivity|]. eexists. vm_compute. reflexivity.
Qed.
Print Assumptions c70_size_refuted.

Example c70_case :
  eth_size (mk_eth (VStr (txt "00:00:00:00:00:01")) (VInt 0) [vlan_init (Some 1) None (Some 7)] (VInt 0x0800) (VBytes [1; 2])) = Ok 20 /\
  (exists bs, snd (eth_pack (mk_eth (VStr (txt "00:00:00:00:00:01")) (VInt 0) [vlan_init (Some 1) None (Some 7)] (VInt 0x0800) (VBytes [1; 2]))) = Ok bs /\ zlen bs = 20) /\
  lldp_size (mk_lldp (SubTlv 1 7 (VBin (VBytes [1; 2; 3]))) (SubTlv 2 7 (VBin VNone)) (Tlv 3 (VUInt 2 None (VInt 120))) (Tlv 0 (VBin VNone))) = Ok 15.
Proof. split; [vm_compute; reflexivity|]. split; [eexists; split; vm_compute; reflexivity|vm_compute; reflexivity]. Qed.
