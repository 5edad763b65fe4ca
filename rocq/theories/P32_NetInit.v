(** C66: packets made without naming every field. *)
From Coq Require Import ZArith List Bool String.
From Verif Require Import Base PyText Ids PyVal Classes Interp Addr Spec SpecBasic NetTypes SpecNet
  NetInit SpecNetInit NetInitFacts.
Import ListNotations.
Open Scope string_scope.
Open Scope list_scope.
Open Scope Z_scope.

Theorem c66_arp : forall h p hl pl o sha spa tha tpa zhl zpl zo bsha bspa btha btpa,
  or_else int_exact h 1 1 -> or_else int_exact p 0x0800 0x0800 ->
  or_else (int_of 1) hl zhl 6 -> or_else (int_of 1) pl zpl 4 -> or_else (int_of 2) o zo 1 ->
  or_else mac_of sha bsha [0; 0; 0; 0; 0; 0] -> or_else ip_of spa bspa [0; 0; 0; 0] ->
  or_else mac_of tha btha [0; 0; 0; 0; 0; 0] -> or_else ip_of tpa btpa [0; 0; 0; 0] ->
  arp_pack (arp_new h p hl pl o sha spa tha tpa) = Ok (arp_wire zhl zpl zo bsha bspa btha btpa).
Proof. exact arp_built. Qed.
Print Assumptions c66_arp.

(** The type must be given; every other argument may be left out. *)
Theorem c66_ethernet : forall d s vs ls t x dst src ty data,
  or_else mac_or_none d dst [0; 0; 0; 0; 0; 0] -> or_else mac_or_none s src [0; 0; 0; 0; 0; 0] ->
  or_else (Forall2 tags_of) vs ls [] -> int_of 2 t ty -> or_else data_of x data [] ->
  snd (eth_pack (eth_new d s vs (Some t) x)) = Ok (frame dst src (List.concat ls) ty data).
Proof. exact eth_built. Qed.
Print Assumptions c66_ethernet.

Theorem c66_tlv : forall ty v t value,
  or_else (@eq Z) ty t 127 -> or_else tlv_arg v value [] -> 0 <= t <= 127 -> zlen value <= 511 ->
  carries (tlv_new ty v) t value.
Proof. exact tlv_built. Qed.
Print Assumptions c66_tlv.

Theorem c66_sub_tlv : forall ty st v t s rest,
  or_else (@eq Z) ty t 1 -> or_else (@eq Z) st s 7 -> or_else tlv_arg v rest [] ->
  0 <= t <= 127 -> is_byte s -> zlen rest <= 510 ->
  carries (sub_tlv_new ty st v) t (s :: rest).
Proof. exact sub_tlv_built. Qed.
Print Assumptions c66_sub_tlv.

Theorem c66_lldp : forall c p t vc vp vt,
  or_else value_of c vc [] -> or_else value_of p vp [] -> or_else tlv_arg t vt [0; 120] ->
  zlen vc <= 510 -> zlen vp <= 510 -> zlen vt <= 511 ->
  lldp_pack (lldp_new c p t) = Ok (tlv_wire 1 (7 :: vc) ++ tlv_wire 2 (7 :: vp) ++ tlv_wire 3 vt ++ [0; 0]).
Proof. exact lldp_built. Qed.
Print Assumptions c66_lldp.

(** The length and the checksum that are given do not matter. *)
Theorem c66_ipv4 : forall version dscp ecn length ident flags offset ttl proto sum0 s d options data
    zv zd ze zi zf zo zt zp src dst k opts payload,
  or_else (@eq Z) version zv 4 -> or_else (@eq Z) dscp zd 0 -> or_else (@eq Z) ecn ze 0 ->
  or_else (@eq Z) ident zi 0 -> or_else (@eq Z) flags zf 0 -> or_else (@eq Z) offset zo 0 ->
  or_else (@eq Z) ttl zt 255 -> or_else (@eq Z) proto zp 0 ->
  0 <= zv <= 15 -> 0 <= zd <= 63 -> 0 <= ze <= 3 -> 0 <= zi <= 65535 -> 0 <= zf <= 7 -> 0 <= zo <= 8191 ->
  0 <= zt <= 255 -> 0 <= zp <= 255 ->
  or_else ip_text s src [0; 0; 0; 0] -> or_else ip_text d dst [0; 0; 0; 0] ->
  or_else (@eq bytes) options opts [] -> or_else (@eq bytes) data payload [] ->
  wf_bytes opts -> wf_bytes payload -> zlen opts = 4 * k -> 0 <= k <= 10 -> 20 + 4 * k + zlen payload <= 65535 ->
  exists sum, 0 <= sum < 65535 /\
    let bs := [zv * 16 + (5 + k); zd * 4 + ze] ++ two (20 + 4 * k + zlen payload) ++ two zi ++ two (zf * 8192 + zo)
              ++ [zt; zp] ++ two sum ++ src ++ dst ++ opts ++ payload in
    snd (ipv4_pack (ipv4_new version None dscp ecn length ident flags offset ttl proto sum0 s d options data)) = Ok bs /\
    oc_sum (words_of (firstn 20 bs)) = 65535.
Proof. exact ipv4_built. Qed.
Print Assumptions c66_ipv4.

Theorem c66_ipv6 : forall version tclass flabel length nh hl s d data zv zc zf zn zh src dst payload,
  or_else (@eq Z) version zv 6 -> or_else (@eq Z) tclass zc 0 -> or_else (@eq Z) flabel zf 0 ->
  or_else (@eq Z) nh zn 0 -> or_else (@eq Z) hl zh 255 ->
  0 <= zv <= 15 -> 0 <= zc <= 255 -> 0 <= zf <= 1048575 -> 0 <= zn <= 255 -> 0 <= zh <= 255 ->
  or_else ip6_text s src [0; 0; 0; 0; 0; 0; 0; 0] -> or_else ip6_text d dst [0; 0; 0; 0; 0; 0; 0; 0] ->
  or_else (@eq bytes) data payload [] -> wf_bytes payload -> zlen payload <= 65535 ->
  exists p, ipv6_new version tclass flabel length nh hl s d data = Ok p /\
    snd (ipv6_pack p) = Ok (two ((zv * 268435456 + zc * 1048576 + zf) / 65536)
      ++ two ((zv * 268435456 + zc * 1048576 + zf) mod 65536) ++ two (zlen payload) ++ [zn; zh]
      ++ words src ++ words dst ++ payload).
Proof. exact ipv6_built. Qed.
Print Assumptions c66_ipv6.

(** The attributes of the object before it is packed, the length and the
    checksum included. *)
Theorem c66_ipv4_attributes : forall version ihl dscp ecn length ident flags offset ttl proto sum0 s d options data,
  let p := ipv4_new version ihl dscp ecn length ident flags offset ttl proto sum0 s d options data in
  or_else (@eq Z) version (i_version p) 4 /\ or_else (@eq Z) ihl (i_ihl p) 5 /\
  or_else (@eq Z) dscp (i_dscp p) 0 /\ or_else (@eq Z) ecn (i_ecn p) 0 /\
  or_else (@eq Z) length (i_length p) 0 /\ or_else (@eq Z) ident (i_identification p) 0 /\
  or_else (@eq Z) flags (i_flags p) 0 /\ or_else (@eq Z) offset (i_offset p) 0 /\
  or_else (@eq Z) ttl (i_ttl p) 255 /\ or_else (@eq Z) proto (i_protocol p) 0 /\
  or_else (@eq Z) sum0 (i_checksum p) 0 /\
  or_else (@eq pyval) s (i_source p) (VStr (txt "0.0.0.0")) /\
  or_else (@eq pyval) d (i_destination p) (VStr (txt "0.0.0.0")) /\
  or_else (@eq bytes) options (i_options p) [] /\ or_else (@eq bytes) data (i_data p) [].
Proof. exact ipv4_attributes. Qed.
Print Assumptions c66_ipv4_attributes.

Theorem c66_ipv6_attributes : forall version tclass flabel length nh hl s d data p,
  ipv6_new version tclass flabel length nh hl s d data = Ok p ->
  or_else (@eq Z) version (s_version p) 6 /\ or_else (@eq Z) tclass (s_tclass p) 0 /\
  or_else (@eq Z) flabel (s_flabel p) 0 /\ or_else (@eq Z) length (s_length p) 0 /\
  or_else (@eq Z) nh (s_next_header p) 0 /\ or_else (@eq Z) hl (s_hop_limit p) 255 /\
  or_else (@eq bytes) data (s_data p) [].
Proof. exact ipv6_attributes. Qed.
Print Assumptions c66_ipv6_attributes.

(** ARP(sha=..., spa=..., tpa=...): a request. *)
Example c66_case_arp :
  arp_pack (arp_new None None None None None (Some (VStr (txt "00:11:22:33:44:55"))) (Some (VStr (txt "10.0.0.1")))
    None (Some (VStr (txt "10.0.0.2"))))
  = Ok [0; 1; 8; 0; 6; 4; 0; 1; 0x00; 0x11; 0x22; 0x33; 0x44; 0x55; 10; 0; 0; 1; 0; 0; 0; 0; 0; 0; 10; 0; 0; 2] /\
  arp_pack (arp_new None None None None None None None None None)
  = Ok [0; 1; 8; 0; 6; 4; 0; 1; 0; 0; 0; 0; 0; 0; 0; 0; 0; 0; 0; 0; 0; 0; 0; 0; 0; 0; 0; 0].
Proof. split; vm_compute; reflexivity. Qed.
(** Ethernet without a type does not pack. *)
Example c66_case_ethernet :
  snd (eth_pack (eth_new None None None (Some (VInt 0x88cc)) None)) = Ok (repeat 0 12 ++ [0x88; 0xcc]) /\
  snd (eth_pack (eth_new None None None None None)) = Err PackException.
Proof. split; vm_compute; reflexivity. Qed.
Example c66_case_lldp :
  lldp_pack (lldp_new (Some (VBin (VBytes [1; 2]))) (Some (VUInt 4 None (VInt 9))) None)
  = Ok [2; 3; 7; 1; 2; 4; 5; 7; 0; 0; 0; 9; 6; 2; 0; 120; 0; 0] /\
  lldp_pack (lldp_new None None None) = Ok [2; 1; 7; 4; 1; 7; 6; 2; 0; 120; 0; 0] /\
  tlv_pack (tlv_new None None) = Ok [254; 0] /\ tlv_pack (sub_tlv_new None None None) = Ok [2; 1; 7].
Proof. split; [|split; [|split] ]; vm_compute; reflexivity. Qed.
Example c66_case_ip :
  snd (ipv4_pack (ipv4_new None None None None (Some 7) None None None None None (Some 9)
    (Some (VStr (txt "10.0.0.1"))) None None (Some [5])))
  = Ok [0x45; 0; 0; 21; 0; 0; 0; 0; 255; 0; 0xb1; 0xe8; 10; 0; 0; 1; 0; 0; 0; 0; 5] /\
  (do p <- ipv6_new None None None (Some 7) None None None (Some (txt "ff02::1")) None; snd (ipv6_pack p))
  = Ok ([0x60; 0; 0; 0; 0; 0; 0; 255] ++ repeat 0 16 ++ [0xff; 2] ++ repeat 0 13 ++ [1]).
Proof. split; vm_compute; reflexivity. Qed.
