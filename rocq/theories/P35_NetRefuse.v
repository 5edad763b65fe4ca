(** Theorems: C68 (when pack() of a network packet fails, and with which exception). *)
From Coq Require Import ZArith List Bool String.
From Verif Require Import Base PyText Ids PyVal Classes Interp Addr NetTypes SpecBasic SpecMutation SpecLayout SpecReject SpecNetRefuse NetRefuseFacts.
Import ListNotations.
Open Scope string_scope.
Open Scope list_scope.
Open Scope Z_scope.

Theorem c68_arp : forall htype ptype hlen plen oper sha spa tha tpa e,
  arp_pack (arp_init htype ptype hlen plen oper sha spa tha tpa) = Err e <-> arp_raises htype ptype hlen plen oper sha spa tha tpa e.
Proof. exact arp_refused. Qed.
Print Assumptions c68_arp.

Theorem c68_vlan : forall v e, snd (vlan_pack v) = Err e <-> tag_raises v e.
Proof. exact tag_refused. Qed.
Print Assumptions c68_vlan.

Theorem c68_ethernet : forall f e, snd (eth_pack f) = Err e <-> ethernet_raises f e.
Proof. exact ethernet_refused. Qed.
Print Assumptions c68_ethernet.

Theorem c68_tlv : forall x e, tlv_pack x = Err e <-> some_tlv_raises x e.
Proof. exact tlv_refused. Qed.
Print Assumptions c68_tlv.

Theorem c68_lldp : forall p e, lldp_pack p = Err e <-> lldp_raises p e.
Proof. exact lldp_refused. Qed.
Print Assumptions c68_lldp.

Theorem c68_ipv4 : forall p e, snd (ipv4_pack p) = Err e <-> ipv4_raises p e.
Proof. exact ipv4_refused. Qed.
Print Assumptions c68_ipv4.

Theorem c68_ipv6 : forall p e, snd (ipv6_pack p) = Err e <-> ipv6_raises p e.
Proof. exact ipv6_refused. Qed.
Print Assumptions c68_ipv6.

(** A VLAN identifier beyond its twelve bits is not refused: it is written over
    the other two fields. *)
Theorem c68_vlan_refuted : exists v w, vl_vid v = Some 8193 /\ vl_vid w = Some 1 /\ snd (vlan_pack v) = snd (vlan_pack w) /\
  exists b, snd (vlan_pack v) = Ok b.
Proof. exists (vlan_init None None (Some 8193)), (vlan_init (Some 1) None (Some 1)). vm_compute. repeat split. eexists. reflexivity. Qed.
Print Assumptions c68_vlan_refuted.

(** Cases: one wrong value after the other, the first one decides. *)
Example c68_case_vlan :
  snd (vlan_pack (vlan_init (Some 8) None None)) = Err PackException /\
  snd (vlan_pack (vlan_init (Some 7) (Some 16) None)) = Err PackException /\
  snd (vlan_pack (vlan_init (Some 7) (Some 1) (Some (-1)))) = Err PackException /\
  snd (vlan_pack (vlan_init (Some 7) (Some 1) (Some 4095))) = Ok [129; 0; 255; 255] /\
  snd (vlan_pack (vlan_init None None None)) = Ok [].
Proof. vm_compute. repeat split. Qed.
Definition case_arp (htype ptype oper sha spa : pyval) : res bytes :=
  arp_pack (arp_init htype ptype (VInt 6) (VInt 4) oper sha spa (VStr (txt "00:00:00:00:00:00")) (VStr (txt "0.0.0.0"))).
Example c68_case_arp :
  case_arp (VInt 2) (VInt 2048) (VInt 70000) (VInt 0) (VInt 1) = Err ValidationError /\
  case_arp (VInt 1) (VInt 2048) (VInt 70000) (VInt 1) (VInt 1) = Err PackException /\
  case_arp (VInt 1) (VInt 2048) (VInt 1) (VBytes [1]) (VInt 1) = Err TypeError /\
  case_arp (VInt 1) (VInt 2048) (VInt 1) (VInt 0) (VInt 1) = Err AttributeError /\
  case_arp (VInt 1) (VInt 2048) (VInt 1) (VInt 0) (VStr (txt "1.2.3.x")) = Err ValueError.
Proof. vm_compute. repeat split. Qed.
Example c68_case_ethernet :
  snd (eth_pack (mk_eth (VInt 0) (VStr (txt "1:2:3:4:5")) [vlan_init (Some 8) None None] VNone (VInt 3))) = Err PackException /\
  snd (eth_pack (mk_eth (VInt 0) (VInt 0) [vlan_init None None None; vlan_init (Some 8) None None] (VInt 1) (VInt 3))) = Err PackException /\
  snd (eth_pack (mk_eth (VInt 0) (VInt 0) [vlan_init None None None] VNone (VInt 3))) = Err PackException /\
  snd (eth_pack (mk_eth (VInt 0) (VInt 0) [vlan_init None None None] (VInt 1) (VInt 3))) = Err ValueError.
Proof. vm_compute. repeat split. Qed.
Example c68_case_lldp :
  lldp_pack (mk_lldp (Tlv 1 (VBin VNone)) (SubTlv 2 300 (VInt 1)) (Tlv 3 (VInt 1)) (Tlv 0 (VBin VNone))) = Err PackException /\
  lldp_pack (mk_lldp (SubTlv 1 7 (VBin VNone)) (SubTlv 2 7 (VInt 1)) (Tlv 3 (VInt 1)) (Tlv 0 (VBin VNone))) = Err AttributeError /\
  lldp_pack (mk_lldp (SubTlv 1 7 (VBin VNone)) (SubTlv 2 7 (VBin VNone)) (Tlv 3 (VUInt 2 None (VInt 65536))) (Tlv 0 (VInt 1))) = Err PackException.
Proof. vm_compute. repeat split. Qed.
Definition case_ipv4 (version ecn ttl : Z) (source : pyval) : res bytes :=
  snd (ipv4_pack (mk_ipv4 version 5 0 ecn 0 0 0 0 ttl 17 0 source (VStr (txt "10.0.0.1")) [] [])).
Example c68_case_ipv4 :
  snd (ipv4_pack (mk_ipv4 4 5 0 0 0 0 0 0 1 17 0 (VStr (txt "1.2.3")) (VStr (txt "10.0.0.x")) [] [])) = Err ValueError /\
  case_ipv4 16 0 1 (VStr (txt "1.2.3")) = Err IndexError /\
  case_ipv4 16 0 1 (VStr (txt "1.2.3.x")) = Err ValueError /\
  case_ipv4 16 0 1 (VInt 3) = Err AttributeError /\
  case_ipv4 16 0 1 (VStr (txt "1.2.3.4")) = Err PackException /\
  case_ipv4 4 256 1 (VStr (txt "1.2.3.4")) = Err PackException /\
  case_ipv4 4 255 256 (VStr (txt "1.2.3.4")) = Err PackException /\
  case_ipv4 4 255 255 (VStr (txt "1.2.3.256")) = Err PackException /\
  exists b, case_ipv4 4 255 255 (VStr (txt "1.2.3.4")) = Ok b.
Proof. vm_compute. repeat split. eexists. reflexivity. Qed.
Definition case_ipv6 (version tclass : Z) (source : text) : res bytes :=
  snd (ipv6_pack (mk_ipv6p version tclass 0 0 59 64 (A6Str source) (A6Str (txt "0:0:0:0:0:0:0:1")) [])).
Example c68_case_ipv6 :
  case_ipv6 16 0 (txt "1:2:3") = Err PackException /\
  case_ipv6 6 4096 (txt "x") = Err PackException /\
  case_ipv6 6 0 (txt "x") = Err ValueError /\
  case_ipv6 6 0 (txt "1:2:3") = Err PackException /\
  exists b, case_ipv6 6 255 (txt "1:2:3:4:5:6:7:ffff/64") = Ok b.
Proof. vm_compute. repeat split. eexists. reflexivity. Qed.
