(** Vocabulary for the properties of the network packet classes. *)
From Coq Require Import ZArith List Bool String.
From Verif Require Import Base PyText Ids PyVal Classes Interp Addr Spec SpecBasic NetTypes.
Import ListNotations.
Open Scope string_scope.
Open Scope list_scope.
Open Scope Z_scope.

(** Integer [z] (not None), in a field of [w] bytes. *)
Definition int_of (w : nat) (v : pyval) (z : Z) : Prop :=
  v <> VNone /\ int_value v z /\ fits w z.

(** MAC and IPv4 address arguments: text or an address object. *)
Definition mac_of (v : pyval) (bs : bytes) : Prop :=
  List.length bs = 6%nat /\ exists s, hex_text s bs /\ (v = VStr s \/ v = VHW (VStr s)).
Definition ip_of (v : pyval) (bs : bytes) : Prop :=
  List.length bs = 4%nat /\ wf_bytes bs /\
  (v = VStr (dotted_dec bs) \/ exists m, v = VIP (VStr (dotted_dec bs)) m).
(** Payload arguments. *)
Definition data_of (v : pyval) (bs : bytes) : Prop :=
  v = VBytes bs \/ v = VBin (VBytes bs) \/ (bs = [] /\ (v = VNone \/ v = VBin VNone)).

(** The objects obtained by decoding. *)
Definition got_int (w : nat) (z : Z) : pyval := VUInt w None (VInt z).
Definition got_mac (bs : bytes) : pyval := VHW (VStr (colon_hex bs)).
Definition got_ip (bs : bytes) : pyval := VIP (VStr (dotted_dec bs)) 32.
Definition got_data (bs : bytes) : pyval := VBin (VBytes bs).

(** High and low byte. *)
Definition two (z : Z) : bytes := [z / 256; z mod 256].

(** RFC 826 for Ethernet and IPv4. *)
Definition arp_wire (hlen plen oper : Z) (sha spa tha tpa : bytes) : bytes :=
  [0; 1; 8; 0; hlen; plen] ++ two oper ++ sha ++ spa ++ tha ++ tpa.

(** The object decoded from an ARP packet, and the reading of any 28 bytes. *)
Definition arp_got (htype ptype hlen plen oper : Z) (sha spa tha tpa : bytes) : dict :=
  arp_init (got_int 2 htype) (got_int 2 ptype) (got_int 1 hlen) (got_int 1 plen) (got_int 2 oper)
           (got_mac sha) (got_ip spa) (got_mac tha) (got_ip tpa).
Definition arp_parse (bs : bytes) : dict :=
  arp_got (place_value (slice 0 2 bs)) (place_value (slice 2 4 bs)) (place_value (slice 4 5 bs))
    (place_value (slice 5 6 bs)) (place_value (slice 6 8 bs)) (slice 8 14 bs) (slice 14 18 bs)
    (slice 18 24 bs) (slice 24 28 bs).

(** 802.1Q tags: protocol id, priority, canonical format bit, VLAN id. *)
Record tag : Type := mk_tag { t_tpid : Z; t_pcp : Z; t_cfi : Z; t_vid : Z }.
Definition tag_ok (t : tag) : Prop :=
  (t_tpid t = 0x8100 \/ t_tpid t = 0x88a8) /\
  0 <= t_pcp t <= 7 /\ 0 <= t_cfi t <= 1 /\ 0 <= t_vid t <= 4095.
Definition tag_wire (t : tag) : bytes :=
  two (t_tpid t) ++ two (t_pcp t * 8192 + t_cfi t * 4096 + t_vid t).

(** A VLAN object with at least one field set denotes a tag, unset fields
    being zero; with none set it denotes no tag. *)
Definition unset0 (o : option Z) (z : Z) : Prop := o = Some z \/ (o = None /\ z = 0).
Definition absent (v : vlan) : Prop := vl_pcp v = None /\ vl_cfi v = None /\ vl_vid v = None.
Definition tags_of (v : vlan) (l : list tag) : Prop :=
  (absent v /\ l = []) \/
  (~ absent v /\ exists t, l = [t] /\ tag_ok t /\ vl_tpid v = VInt (t_tpid t) /\
     unset0 (vl_pcp v) (t_pcp t) /\ unset0 (vl_cfi v) (t_cfi t) /\ unset0 (vl_vid v) (t_vid t)).
(** The VLAN object decoded from a tag. *)
Definition got_vlan (t : tag) : vlan :=
  mk_vlan (VInt (t_tpid t)) (VUInt 2 None (VInt (t_pcp t * 8192 + t_cfi t * 4096 + t_vid t)))
          (Some (t_pcp t)) (Some (t_cfi t)) (Some (t_vid t)).

(** A VLAN object after pack(): unset fields are zero and [_tci] is set. *)
Definition tci_of (t : tag) : Z := t_pcp t * 8192 + t_cfi t * 4096 + t_vid t.
Definition touched (v : vlan) (t : tag) : vlan :=
  mk_vlan (vl_tpid v) (VInt (tci_of t)) (Some (t_pcp t)) (Some (t_cfi t)) (Some (t_vid t)).

(** Ethernet II frame. *)
Definition frame (dst src : bytes) (tags : list tag) (ty : Z) (data : bytes) : bytes :=
  dst ++ src ++ flat_map tag_wire tags ++ two ty ++ data.

(** The object decoded from a frame. *)
Definition eth_got (dst src : bytes) (tags : list tag) (ty : Z) (data : bytes) : ethernet :=
  mk_eth (got_mac dst) (got_mac src) (map got_vlan tags) (got_int 2 ty) (got_data data).

(** One's complement addition of 16-bit words, RFC 1071. *)
Definition oc_add (a b : Z) : Z := if a + b <? 65536 then a + b else a + b - 65535.
Fixpoint oc_sum (l : list Z) : Z :=
  match l with [] => 0 | x :: tl => oc_add x (oc_sum tl) end.
(** The 16-bit words of a byte string. *)
Fixpoint words_of (bs : bytes) : list Z :=
  match bs with a :: b :: tl => (a * 256 + b) :: words_of tl | _ => [] end.

(** IPv4 header fields in range, RFC 791. *)
Definition ipv4_ok (p : ipv4) (src dst : bytes) : Prop :=
  0 <= i_version p <= 15 /\ 0 <= i_dscp p <= 63 /\ 0 <= i_ecn p <= 3 /\
  0 <= i_identification p <= 65535 /\ 0 <= i_flags p <= 7 /\ 0 <= i_offset p <= 8191 /\
  0 <= i_ttl p <= 255 /\ 0 <= i_protocol p <= 255 /\
  ip_of (i_source p) src /\ ip_of (i_destination p) dst /\
  (exists s, i_source p = VStr s) /\ (exists s, i_destination p = VStr s) /\
  wf_bytes (i_options p) /\ wf_bytes (i_data p).
Definition ipv4_wire (p : ipv4) (ihl total sum : Z) (src dst : bytes) : bytes :=
  [i_version p * 16 + ihl; i_dscp p * 4 + i_ecn p] ++ two total ++ two (i_identification p)
  ++ two (i_flags p * 8192 + i_offset p) ++ [i_ttl p; i_protocol p] ++ two sum ++ src ++ dst
  ++ i_options p ++ i_data p.

(** The object packed, with the attributes that pack() computes. *)
Definition ipv4_after (p : ipv4) (ihl total sum : Z) : ipv4 :=
  mk_ipv4 (i_version p) ihl (i_dscp p) (i_ecn p) total (i_identification p) (i_flags p) (i_offset p)
          (i_ttl p) (i_protocol p) sum (i_source p) (i_destination p) (i_options p) (i_data p).
(** Reading of any 20 bytes or more. *)
Definition ipv4_parse (bs : bytes) : ipv4 :=
  let b := fun n => nth n bs 0 in
  let w := fun n => b n * 256 + b (S n) in
  let n := (if 5 <? b 0%nat mod 16 then Z.to_nat ((b 0%nat mod 16 - 5) * 4) else O) in
  mk_ipv4 (b 0%nat / 16) (b 0%nat mod 16) (b 1%nat / 4) (b 1%nat mod 4) (w 2%nat) (w 4%nat)
    (w 6%nat / 8192) (w 6%nat mod 8192) (b 8%nat) (b 9%nat) (w 10%nat)
    (VStr (dotted_dec (slice 12 16 bs))) (VStr (dotted_dec (slice 16 20 bs)))
    (firstn n (skipn 20 bs)) (skipn n (skipn 20 bs)).

(** An IPv6 address attribute denoting eight 16-bit groups: a text of eight
    groups, an address object holding one, or an address object built from a
    text with [::]. *)
Definition ip6_groups (a : addr6) (zs : list Z) : Prop :=
  List.length zs = 8%nat /\ Forall is_word zs /\
  ((exists parts, Forall2 hex_numeral parts zs /\
      (a = A6Str (separated 58 parts) \/ exists m, a = A6Obj (mk_ipv6 (separated 58 parts) m))) \/
   exists left_ right_ zl zr nm x,
     Forall2 hex_numeral left_ zl /\ Forall2 hex_numeral right_ zr /\
     (List.length zl + List.length zr <= 7)%nat /\
     zs = zl ++ repeat 0 (8 - (List.length zl + List.length zr)) ++ zr /\
     ip6_init (separated 58 left_ ++ [58; 58] ++ separated 58 right_) nm = Ok x /\ a = A6Obj x).
Definition got_ip6 (zs : list Z) : addr6 := A6Str (separated 58 (map hex_quad zs)).

(** IPv6 header fields in range, RFC 8200. *)
Definition ipv6_ok (p : ipv6p) (src dst : list Z) : Prop :=
  0 <= s_version p <= 15 /\ 0 <= s_tclass p <= 255 /\ 0 <= s_flabel p <= 1048575 /\
  0 <= s_next_header p <= 255 /\ 0 <= s_hop_limit p <= 255 /\
  ip6_groups (s_source p) src /\ ip6_groups (s_destination p) dst /\ wf_bytes (s_data p).
Definition ipv6_wire (p : ipv6p) (src dst : list Z) : bytes :=
  let w := s_version p * 268435456 + s_tclass p * 1048576 + s_flabel p in
  two (w / 65536) ++ two (w mod 65536) ++ two (zlen (s_data p))
  ++ [s_next_header p; s_hop_limit p] ++ words src ++ words dst ++ s_data p.

(** The object after pack(), and the one decoded. *)
Definition ipv6_after (p : ipv6p) : ipv6p :=
  mk_ipv6p (s_version p) (s_tclass p) (s_flabel p) (zlen (s_data p)) (s_next_header p) (s_hop_limit p)
           (s_source p) (s_destination p) (s_data p).
Definition ipv6_got (p : ipv6p) (src dst : list Z) : ipv6p :=
  mk_ipv6p (s_version p) (s_tclass p) (s_flabel p) (zlen (s_data p)) (s_next_header p) (s_hop_limit p)
           (got_ip6 src) (got_ip6 dst) (s_data p).

(** LLDP TLVs: type in 7 bits, length in 9 bits, value. *)
Definition tlv_wire (t : Z) (value : bytes) : bytes := two (t * 512 + zlen value) ++ value.
(** A value object: binary data or an unsigned integer. *)
Definition value_of (v : pyval) (bs : bytes) : Prop :=
  v = VBin (VBytes bs) \/ (v = VBin VNone /\ bs = []) \/
  exists w z, v = VUInt w None (VInt z) /\ (0 < w)%nat /\ big_endian w z bs.
(** [carries x t value]: object [x] denotes the TLV of this type and value. *)
Definition carries (x : tlv) (t : Z) (value : bytes) : Prop :=
  0 <= t <= 127 /\ zlen value <= 511 /\
  match x with
  | Tlv t' v => t' = t /\ value_of v value
  | SubTlv t' st sv => t' = t /\ exists rest, value = st :: rest /\ is_byte st /\ value_of sv rest
  end.
(** What unpack makes of it, for an object of the same class. *)
Definition got_tlv (x : tlv) (t : Z) (value : bytes) : tlv :=
  match x with
  | Tlv _ _ => Tlv t (got_data value)
  | SubTlv _ _ _ => SubTlv t (hd 0 value) (got_data (tl value))
  end.
Definition is_sub (x : tlv) : bool := match x with SubTlv _ _ _ => true | Tlv _ _ => false end.
