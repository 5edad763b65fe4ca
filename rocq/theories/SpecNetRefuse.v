(** When pack() of a network packet fails, and with which exception (C68).

    [first_of steps e]: the first of the steps that fails does so with [e].
    What int(text, base) and str.split of Python give is taken from their model
    (PyText.v). *)
From Coq Require Import ZArith List Bool String.
From Verif Require Import Base PyText Ids PyVal Classes Interp Addr NetTypes SpecBasic SpecMutation SpecLayout SpecReject.
Import ListNotations.
Open Scope string_scope.
Open Scope list_scope.
Open Scope Z_scope.

Fixpoint first_of (steps : list (exn -> Prop)) (e : exn) : Prop :=
  match steps with
  | [] => False
  | s :: rest => s e \/ (forall e', ~ s e') /\ first_of rest e
  end.
(** A step that needs [ok] and raises [x] without it. *)
Definition needs (ok : Prop) (x e : exn) : Prop := ~ ok /\ e = x.
Definition below (n z : Z) : Prop := 0 <= z < n.

(** Values of fields: 16-bit and 8-bit numbers, addresses and data. *)
Definition no_u16 (v : pyval) : exn -> Prop := refused (VUInt 2 None VNone) v.
Definition no_u8 (v : pyval) : exn -> Prop := refused (VUInt 1 None VNone) v.
Definition no_hw (v : pyval) : exn -> Prop := refused (VHW (VStr (txt "00:00:00:00:00:00"))) v.
Definition no_ip (v : pyval) : exn -> Prop := refused (VIP (VStr (txt "0.0.0.0")) 32) v.
Definition no_data (v : pyval) : exn -> Prop := refused (VBin VNone) v.

(** ARP: only Ethernet and IPv4; then the fields in order. *)
Definition is_number (x : pyval) (k : Z) : Prop := number x k /\ forall e z, x = VEnum e z -> int_enumeration e.
Definition arp_raises (htype ptype hlen plen oper sha spa tha tpa : pyval) : exn -> Prop :=
  first_of [needs (is_number htype 1 /\ is_number ptype 0x0800) ValidationError; no_u16 htype; no_u16 ptype; no_u8 hlen; no_u8 plen; no_u16 oper;
            no_hw sha; no_ip spa; no_hw tha; no_ip tpa].

(** VLAN: nothing is written for a tag without fields.  The three numbers are
    put together before their size is looked at. *)
Definition tag_raises (v : vlan) (e : exn) : Prop :=
  (vl_pcp v <> None \/ vl_cfi v <> None \/ vl_vid v <> None) /\
  first_of [refused (VUInt 2 None (VInt 0x8100)) (vl_tpid v);
            needs (below 8 (or0 (vl_pcp v)) /\ below 16 (or0 (vl_cfi v)) /\ below 65536 (or0 (vl_vid v))) PackException] e.

Definition ethernet_raises (f : ethernet) : exn -> Prop :=
  first_of ([no_hw (e_destination f); no_hw (e_source f)] ++ map tag_raises (e_vlans f) ++ [no_u16 (e_ether_type f); no_data (e_data f)]).

(** TLVs of LLDP: what the value raises (the type and the length are cut to
    their bits). *)
Definition value_raises (v : pyval) (e : exn) : Prop := no_object v = true /\ e = AttributeError \/ no_object v = false /\ pack v = Err e.
Definition some_tlv_raises (x : tlv) : exn -> Prop :=
  match x with
  | Tlv _ v => value_raises v
  | SubTlv _ st v => first_of [needs (below 256 st) PackException; value_raises v]
  end.
(** Chassis and port must be TLVs with a sub type. *)
Definition sub_tlv_raises (x : tlv) : exn -> Prop :=
  match x with Tlv _ _ => fun e => e = PackException | SubTlv _ _ _ => some_tlv_raises x end.
Definition lldp_raises (p : lldp) : exn -> Prop :=
  first_of [sub_tlv_raises (l_chassis p); sub_tlv_raises (l_port p); some_tlv_raises (l_ttl p); some_tlv_raises (l_end p)].

(** IPv4: both addresses are read for the checksum before anything is written;
    all the parts must be numbers, then there must be four parts at least. *)
Inductive no_octets : pyval -> exn -> Prop :=
| no_text_bytes b : no_octets (VBytes b) TypeError
| no_text x : (forall s, x <> VStr s) -> (forall b, x <> VBytes b) -> no_octets x AttributeError
| no_part s : some_part_no_number 10 (split dot s) -> no_octets (VStr s) ValueError.
Definition too_few (v : pyval) (e : exn) : Prop :=
  exists s zs, v = VStr s /\ numbers 10 (split dot s) zs /\ (List.length zs < 4)%nat /\ e = IndexError.
Definition words_of (p : ipv4) : Z := i_ihl p + zlen (i_options p) / 4.
Definition ipv4_raises (p : ipv4) : exn -> Prop :=
  first_of [no_octets (i_source p); no_octets (i_destination p); too_few (i_source p); too_few (i_destination p);
            needs (below 16 (i_version p) /\ below 256 (words_of p)) PackException;
            needs (below 64 (i_dscp p) /\ below 256 (i_ecn p)) PackException;
            needs (below 65536 (4 * words_of p + zlen (i_data p))) PackException;
            needs (below 65536 (i_identification p)) PackException;
            needs (below 8 (i_flags p) /\ below 65536 (i_offset p)) PackException;
            needs (below 256 (i_ttl p)) PackException; needs (below 256 (i_protocol p)) PackException;
            no_ip (i_source p); no_ip (i_destination p)].

(** IPv6: the numbers of the first word are put together before their size is
    looked at; the addresses must be eight groups. *)
Definition no_groups (s : text) (e : exn) : Prop :=
  exists t, before_slash s t /\
    (some_part_no_number 16 (split colon t) /\ e = ValueError \/
     exists zs, numbers 16 (split colon t) zs /\ ~ (List.length zs = 8%nat /\ Forall (below 65536) zs) /\ e = PackException).
Definition address_text (a : addr6) : text := match a with A6Obj x => ip6_value x | A6Str s => s end.
Definition ipv6_raises (p : ipv6p) : exn -> Prop :=
  first_of [needs (below 16 (s_version p) /\ below 4096 (s_tclass p) /\ below (2 ^ 32) (s_flabel p)) PackException;
            needs (zlen (s_data p) < 65536) PackException;
            needs (below 256 (s_next_header p)) PackException; needs (below 256 (s_hop_limit p)) PackException;
            no_groups (address_text (s_source p)); no_groups (address_text (s_destination p))].
