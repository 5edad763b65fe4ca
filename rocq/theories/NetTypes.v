(** Model of pyof/foundation/network_types.py: ARP, VLAN, Ethernet,
    GenericTLV, TLVWithSubType, LLDP, IPv4 and IPv6.

    Members of EtherType (an IntEnum, lines 22-57) are represented by their
    integers.  Objects whose attributes are all handed to the class attributes
    are dictionaries, as in [Interp]; the others are records. *)
From Coq Require Import ZArith List Bool String.
From Verif Require Import Base PyText Ids PyVal Classes Interp Addr.
Import ListNotations.
Open Scope string_scope.
Open Scope list_scope.
Open Scope Z_scope.

Definition dict := list (string * pyval).

Definition ET_IPV4 : Z := 0x0800.
Definition ET_VLAN : Z := 0x8100.
Definition ET_QINQ : Z := 0x88a8.

(** GenericStruct.pack() and get_size() for a class with these attributes,
    base.py:567-718 (as [struct_pack], [struct_size] and [zip_attrs] of
    Interp). *)
Definition net_zip (fields attrs : dict) : list (pyval * pyval) :=
  combine (map snd fields)
    (map snd (filter (fun p => existsb (fun q => String.eqb (fst q) (fst p)) fields) attrs)).
Definition net_pack (fields attrs : dict) : res bytes :=
  concatM (fun p => pack1 pack (fst p) (snd p)) (net_zip fields attrs).
Definition net_size (fields attrs : dict) : res Z :=
  sumM (fun p => size1 get_size (fst p) (snd p)) (net_zip fields attrs).
(** GenericStruct.unpack, base.py:720-733. *)
Definition net_unpack (fields attrs : dict) (buff : bytes) (off : nat) : res dict :=
  do r <- unpack_fields unpack get_size fields attrs buff off; Ok (fst r).

(** [x.value] of an attribute that unpack has just set to a UBInt: None when
    the buffer was empty.  The operators [>>] and [&] on None raise
    TypeError. *)
Definition field_value (name : string) (attrs : dict) : res pyval :=
  do x <- attr_or_error name attrs;
  match dot_value x with Some v => Ok v | None => Err AttributeError end.
Definition field_int (name : string) (attrs : dict) : res Z :=
  do v <- field_value name attrs;
  match as_int v with Some z => Ok z | None => Err TypeError end.

(** ** ARP, network_types.py:60-132 *)

Definition arp_fields : dict :=
  [("htype", VUInt 2 None VNone); ("ptype", VUInt 2 None VNone);
   ("hlen", VUInt 1 None VNone); ("plen", VUInt 1 None VNone);
   ("oper", VUInt 2 None VNone);
   ("sha", VHW (VStr (txt "00:00:00:00:00:00"))); ("spa", VIP (VStr (txt "0.0.0.0")) 32);
   ("tha", VHW (VStr (txt "00:00:00:00:00:00"))); ("tpa", VIP (VStr (txt "0.0.0.0")) 32)].

(** ARP.__init__, lines 79-110. *)
Definition arp_init (htype ptype hlen plen oper sha spa tha tpa : pyval) : dict :=
  [("htype", htype); ("ptype", ptype); ("hlen", hlen); ("plen", plen); ("oper", oper);
   ("sha", sha); ("spa", spa); ("tha", tha); ("tpa", tpa)].

(** [v == z] for an integer [z]: GenericType.__eq__ compares [value]
    (base.py:71-76), everything else that is not an integer differs. *)
Definition equals_int (v : pyval) (z : Z) : bool :=
  match v with
  | VEnum _ _ => match as_int v with Some y => y =? z | None => false end
  | _ => match dot_value v with
         | Some x => match as_int x with Some y => y =? z | None => false end
         | None => match as_int v with Some y => y =? z | None => false end
         end
  end.

(** ARP.is_valid, lines 111-113. *)
Definition arp_valid (a : dict) : res bool :=
  do h <- attr_or_error "htype" a;
  if equals_int h 1
  then do p <- attr_or_error "ptype" a; Ok (equals_int p ET_IPV4)
  else Ok false.

(** GenericStruct.pack with ARP.is_valid, base.py:699-714. *)
Definition arp_pack (a : dict) : res bytes :=
  do ok <- arp_valid a;
  if ok then net_pack arp_fields a else Err ValidationError.

(** ARP.unpack, lines 115-132. *)
Definition arp_unpack (a : dict) (buff : bytes) (off : nat) : res dict :=
  do a' <- net_unpack arp_fields a buff off;
  do ok <- arp_valid a';
  if ok then Ok a' else Err UnpackException.

(** ** VLAN, network_types.py:135-221 *)

(** [pcp], [cfi], [vid] are None or an int. *)
Record vlan : Type := mk_vlan
  { vl_tpid : pyval; vl_tci : pyval;
    vl_pcp : option Z; vl_cfi : option Z; vl_vid : option Z }.

Definition vlan_fields : dict :=
  [("tpid", VUInt 2 None (VInt ET_VLAN)); ("_tci", VUInt 2 None VNone)].
Definition vlan_dict (v : vlan) : dict := [("tpid", vl_tpid v); ("_tci", vl_tci v)].

(** VLAN.__init__, lines 144-162. *)
Definition vlan_init (pcp cfi vid : option Z) : vlan :=
  mk_vlan (VInt ET_VLAN) (VUInt 2 None VNone) pcp cfi vid.

Definition or0 (o : option Z) : Z := match o with Some z => z | None => 0 end.

(** VLAN.pack(), lines 164-186; also returns the object as it is left. *)
Definition vlan_pack (v : vlan) : vlan * res bytes :=
  match vl_pcp v, vl_cfi v, vl_vid v with
  | None, None, None => (v, Ok [])
  | p, c, i =>
      let tci := Z.lor (Z.lor (Z.shiftl (or0 p) 13) (Z.shiftl (or0 c) 12)) (or0 i) in
      let v' := mk_vlan (vl_tpid v) (VInt tci) (Some (or0 p)) (Some (or0 c)) (Some (or0 i)) in
      (v', net_pack vlan_fields (vlan_dict v'))
  end.

(** GenericStruct.get_size: both attributes are UBInt16. *)
Definition vlan_size (v : vlan) : res Z := net_size vlan_fields (vlan_dict v).

(** VLAN.unpack, lines 193-221, with _validate, lines 188-191. [tpid.value]
    is never None: the class attribute has a value. *)
Definition vlan_unpack (v : vlan) (buff : bytes) (off : nat) : res vlan :=
  do a <- net_unpack vlan_fields (vlan_dict v) buff off;
  do tpid <- field_int "tpid" a;
  if tpid =? 0 then
    do tci <- attr_or_error "_tci" a;
    Ok (mk_vlan (VInt ET_VLAN) tci None None None)
  else if (tpid =? ET_VLAN) || (tpid =? ET_QINQ) then
    do raw <- attr_or_error "_tci" a;
    do tci <- field_int "_tci" a;
    Ok (mk_vlan (VInt tpid) raw (Some (Z.shiftr tci 13)) (Some (Z.land (Z.shiftr tci 12) 1))
                (Some (Z.land tci 4095)))
  else Err UnpackException.

(** ** Ethernet, network_types.py:240-334 *)

(** [vlans] is a ListOfVLAN (constructor: lines 230-237), a FixedTypeList or a
    Python list of VLAN objects: packing and measuring visit the items in each case
    (basic_types.py:661-730). *)
Record ethernet : Type := mk_eth
  { e_destination : pyval; e_source : pyval; e_vlans : list vlan;
    e_ether_type : pyval; e_data : pyval }.

Definition hw_attr : pyval := VHW (VStr (txt "00:00:00:00:00:00")).
Definition type_attr : pyval := VUInt 2 None VNone.
Definition data_attr : pyval := VBin VNone.

(** TypeList.pack over VLAN items, basic_types.py:676-685; the items as they
    are left and the bytes. An exception stops the loop. *)
Fixpoint vlans_pack (l : list vlan) : list vlan * res bytes :=
  match l with
  | [] => ([], Ok [])
  | v :: tl =>
      match vlan_pack v with
      | (v', Ok b) => let r := vlans_pack tl in
                      (v' :: fst r, do bs <- snd r; Ok (b ++ bs))
      | (v', Err e) => (v' :: tl, Err e)
      end
  end.

(** GenericStruct.pack of Ethernet, base.py:699-714: destination, source,
    vlans, ether_type, data. *)
Definition eth_pack (e : ethernet) : ethernet * res bytes :=
  match (do d <- pack1 pack hw_attr (e_destination e);
         do s <- pack1 pack hw_attr (e_source e); Ok (d ++ s)) with
  | Err x => (e, Err x)
  | Ok head =>
      let vs := vlans_pack (e_vlans e) in
      (mk_eth (e_destination e) (e_source e) (fst vs) (e_ether_type e) (e_data e),
       do v <- snd vs;
       do t <- pack1 pack type_attr (e_ether_type e);
       do d <- pack1 pack data_attr (e_data e);
       Ok (head ++ v ++ t ++ d))
  end.

(** The two-byte slice equals 81 00 or 88 a8. *)
Definition is_tag (x y : Z) : bool :=
  ((x =? 0x81) && (y =? 0x00)) || ((x =? 0x88) && (y =? 0xa8)).

(** The while loop of _get_vlan_length, lines 293-304, from position 12 on. *)
Fixpoint tag_bytes (b : bytes) : nat :=
  match b with
  | x :: y :: z :: w :: tl => if is_tag x y then (4 + tag_bytes tl)%nat else O
  | x :: y :: _ => if is_tag x y then 4%nat else O
  | _ => O
  end.
Definition vlan_length (buff : bytes) : nat := tag_bytes (skipn 12 buff).

(** TypeList.unpack of a list of VLAN, basic_types.py:688-703. Each item takes
    4 bytes; [k] bounds the number of turns. *)
Fixpoint vlans_unpack (k : nat) (buff : bytes) (begin : nat) : res (list vlan) :=
  if Nat.ltb begin (List.length buff) then
    match k with
    | O => Err OutOfFuel
    | S k' =>
        do v <- vlan_unpack (vlan_init None None None) buff begin;
        do s <- vlan_size v;
        do l <- vlans_unpack k' buff (begin + Z.to_nat s);
        Ok (v :: l)
    end
  else Ok [].

(** Ethernet.unpack, lines 306-334. *)
Definition eth_unpack (buff : bytes) (off : nat) : res ethernet :=
  let vl := vlan_length buff in
  do d <- unpack hw_attr buff off;
  do ds <- get_size d;
  let b1 := (off + Z.to_nat ds)%nat in
  do s <- unpack hw_attr buff b1;
  do ss <- get_size s;
  let b2 := (b1 + Z.to_nat ss)%nat in
  let part := slice b2 (b2 + vl) buff in
  do vs <- vlans_unpack (List.length part) part 0;
  do vsz <- sumM vlan_size vs;
  let b3 := (b2 + Z.to_nat vsz)%nat in
  do t <- unpack type_attr buff b3;
  do ts <- get_size t;
  let b4 := (b3 + Z.to_nat ts)%nat in
  do x <- unpack data_attr buff b4;
  do _ <- get_size x;
  Ok (mk_eth d s vs t x).

(** ** TLVs, network_types.py:337-448 and 715-770 *)

(** GenericTLV has [tlv_type] (an int) and [_value]; TLVWithSubType has
    [tlv_type], [sub_type] (an int) and [sub_value] (lines 723-734). *)
Inductive tlv : Type :=
| Tlv (t : Z) (v : pyval)
| SubTlv (t st : Z) (sv : pyval).

(** [x.pack()] of any object. *)
Definition call_pack (x : pyval) : res bytes :=
  if has_pack x then pack x else Err AttributeError.

(** value.pack(), lines 362-371 and 737-746. *)
Definition tlv_value (x : tlv) : res bytes :=
  match x with
  | Tlv _ v => call_pack v
  | SubTlv _ st sv =>
      do a <- uint_struct 1 (VInt st); do b <- call_pack sv; Ok (a ++ b)
  end.
Definition tlv_type (x : tlv) : Z := match x with Tlv t _ | SubTlv t _ _ => t end.

(** GenericTLV.pack(), lines 398-416, with header, lines 383-396. *)
Definition tlv_pack (x : tlv) : res bytes :=
  do v <- tlv_value x;
  do h <- uint_struct 2 (VInt (Z.lor (Z.shiftl (Z.land (tlv_type x) 127) 9) (Z.land (zlen v) 511)));
  Ok (h ++ v).

(** GenericTLV.get_size(), lines 438-448. *)
Definition tlv_size (x : tlv) : res Z := do v <- tlv_value x; Ok (2 + zlen v).

(** GenericTLV.unpack, lines 417-436, and TLVWithSubType.unpack, lines
    748-770; [x] tells the class of the object. *)
Definition tlv_unpack (x : tlv) (buff : bytes) (off : nat) : res tlv :=
  do h <- recast StructError UnpackException (struct_unpack_u 2 (slice off (off + 2) buff) 0);
  let t := Z.shiftr h 9 in
  let len := Z.to_nat (Z.land h 511) in
  let b := (off + 2)%nat in
  let e := (b + len)%nat in
  match x with
  | Tlv _ _ => Ok (Tlv t (VBin (VBytes (slice b e buff))))
  | SubTlv _ _ _ =>
      do st <- recast StructError UnpackException
                 (struct_unpack_u 1 (slice b (b + 1) buff) 0);
      Ok (SubTlv t st (VBin (VBytes (slice (b + 1) e buff))))
  end.

(** ** LLDP, network_types.py:773-792 *)

Record lldp : Type := mk_lldp
  { l_chassis : tlv; l_port : tlv; l_ttl : tlv; l_end : tlv }.

(** The class attributes, lines 783-792. *)
Definition lldp_default : lldp :=
  mk_lldp (SubTlv 1 7 (VBin VNone)) (SubTlv 2 7 (VBin VNone))
          (Tlv 3 (VUInt 2 None (VInt 120))) (Tlv 0 (VBin VNone)).

(** [class_value.pack(instance_value)], lines 398-416: a TLVWithSubType
    attribute refuses a plain GenericTLV. *)
Definition tlv_pack1 (cv iv : tlv) : res bytes :=
  match cv, iv with
  | SubTlv _ _ _, Tlv _ _ => Err PackException
  | _, _ => tlv_pack iv
  end.

Definition lldp_pack (p : lldp) : res bytes :=
  do a <- tlv_pack1 (l_chassis lldp_default) (l_chassis p);
  do b <- tlv_pack1 (l_port lldp_default) (l_port p);
  do c <- tlv_pack1 (l_ttl lldp_default) (l_ttl p);
  do d <- tlv_pack1 (l_end lldp_default) (l_end p);
  Ok (a ++ b ++ c ++ d).

(** GenericStruct.unpack, base.py:720-733 and 645-658: an empty buffer leaves
    the class attributes. *)
Definition lldp_attr (cv : tlv) (buff : bytes) (begin : nat) : res (tlv * nat) :=
  match buff with
  | [] => Ok (cv, begin)
  | _ => do x <- tlv_unpack cv buff begin; do s <- tlv_size x; Ok (x, (begin + Z.to_nat s)%nat)
  end.
Definition lldp_unpack (buff : bytes) (off : nat) : res lldp :=
  do a <- lldp_attr (l_chassis lldp_default) buff off;
  do b <- lldp_attr (l_port lldp_default) buff (snd a);
  do c <- lldp_attr (l_ttl lldp_default) buff (snd b);
  do d <- lldp_attr (l_end lldp_default) buff (snd c);
  Ok (mk_lldp (fst a) (fst b) (fst c) (fst d)).

(** ** IPv4, network_types.py:451-612 *)

(** The numeric attributes are ints; source and destination are str or other
    objects; options and data are bytes.  [_version_ihl], [_dscp_ecn] and
    [_flags_offset] are overwritten by pack and unpack and are not part of
    the record. *)
Record ipv4 : Type := mk_ipv4
  { i_version : Z; i_ihl : Z; i_dscp : Z; i_ecn : Z; i_length : Z; i_identification : Z;
    i_flags : Z; i_offset : Z; i_ttl : Z; i_protocol : Z; i_checksum : Z;
    i_source : pyval; i_destination : pyval; i_options : bytes; i_data : bytes }.

Definition ipv4_fields : dict :=
  [("_version_ihl", VUInt 1 None VNone); ("_dscp_ecn", VUInt 1 None VNone);
   ("length", VUInt 2 None VNone); ("identification", VUInt 2 None VNone);
   ("_flags_offset", VUInt 2 None VNone); ("ttl", VUInt 1 None VNone);
   ("protocol", VUInt 1 None VNone); ("checksum", VUInt 2 None VNone);
   ("source", VIP (VStr (txt "0.0.0.0")) 32); ("destination", VIP (VStr (txt "0.0.0.0")) 32);
   ("options", VBin VNone); ("data", VBin VNone)].

(** [[int(octet) for octet in s.split(".")]], lines 533-535. *)
Definition octets (v : pyval) : res (list Z) :=
  match v with
  | VStr s => mapM (py_int 10) (split dot s)
  | VBytes _ => Err TypeError
  | _ => Err AttributeError
  end.
(** The items 0 to 3, lines 536-539. *)
Definition first_four (zs : list Z) : res (Z * Z * Z * Z) :=
  match zs with
  | a :: b :: c :: d :: _ => Ok (a, b, c, d)
  | _ => Err IndexError
  end.

(** The while loop of _update_checksum, lines 546-548; [k] bounds the number
    of turns. *)
Fixpoint fold_carry (k : nat) (s : Z) : res Z :=
  if 65535 <? s then
    match k with
    | O => Err OutOfFuel
    | S k' => fold_carry k' (Z.land s 65535 + Z.shiftr s 16)
    end
  else Ok s.

(** Attributes set by pack() before super().pack(), lines 561-573. *)
Definition ipv4_prepare (p : ipv4) : ipv4 :=
  let ihl := match i_options p with
             | [] => i_ihl p
             | o => i_ihl p + zlen o / 4
             end in
  mk_ipv4 (i_version p) ihl (i_dscp p) (i_ecn p) (ihl * 4 + zlen (i_data p))
          (i_identification p) (i_flags p) (i_offset p) (i_ttl p) (i_protocol p) (i_checksum p)
          (i_source p) (i_destination p) (i_options p) (i_data p).
Definition version_ihl (p : ipv4) : Z := Z.lor (Z.shiftl (i_version p) 4) (i_ihl p).
Definition dscp_ecn (p : ipv4) : Z := Z.lor (Z.shiftl (i_dscp p) 2) (i_ecn p).
Definition flags_offset (p : ipv4) : Z := Z.lor (Z.shiftl (i_flags p) 13) (i_offset p).

(** _update_checksum, lines 531-550. *)
Definition ipv4_checksum (p : ipv4) : res Z :=
  do sl <- octets (i_source p);
  do dl <- octets (i_destination p);
  do s <- first_four sl;
  do d <- first_four dl;
  let '(s0, s1, s2, s3) := s in
  let '(d0, d1, d2, d3) := d in
  let block_sum :=
    Z.lor (Z.shiftl (version_ihl p) 8) (dscp_ecn p) + i_length p + i_identification p
    + flags_offset p + Z.lor (Z.shiftl (i_ttl p) 8) (i_protocol p)
    + (Z.shiftl s0 8 + s1) + (Z.shiftl s2 8 + s3) + (Z.shiftl d0 8 + d1) + (Z.shiftl d2 8 + d3) in
  do r <- fold_carry (S (Z.to_nat (Z.log2 block_sum))) block_sum;
  Ok (Z.land (Z.lnot r) 65535).

Definition set_checksum (p : ipv4) (z : Z) : ipv4 :=
  mk_ipv4 (i_version p) (i_ihl p) (i_dscp p) (i_ecn p) (i_length p) (i_identification p)
          (i_flags p) (i_offset p) (i_ttl p) (i_protocol p) z
          (i_source p) (i_destination p) (i_options p) (i_data p).

Definition ipv4_dict (p : ipv4) : dict :=
  [("_version_ihl", VInt (version_ihl p)); ("_dscp_ecn", VInt (dscp_ecn p));
   ("length", VInt (i_length p)); ("identification", VInt (i_identification p));
   ("_flags_offset", VInt (flags_offset p)); ("ttl", VInt (i_ttl p));
   ("protocol", VInt (i_protocol p)); ("checksum", VInt (i_checksum p));
   ("source", i_source p); ("destination", i_destination p);
   ("options", VBytes (i_options p)); ("data", VBytes (i_data p))].

(** IPv4.pack(), lines 552-575: the object as it is left and the bytes. *)
Definition ipv4_pack (p : ipv4) : ipv4 * res bytes :=
  let q := ipv4_prepare p in
  match ipv4_checksum q with
  | Err e => (q, Err e)
  | Ok z => let q := set_checksum q z in (q, net_pack ipv4_fields (ipv4_dict q))
  end.

(** IPv4.unpack, lines 577-612. *)
Definition ipv4_unpack (buff : bytes) (off : nat) : res ipv4 :=
  do a <- net_unpack ipv4_fields ipv4_fields buff off;
  do vi <- field_int "_version_ihl" a;
  do de <- field_int "_dscp_ecn" a;
  do length <- field_int "length" a;
  do ident <- field_int "identification" a;
  do fo <- field_int "_flags_offset" a;
  do ttl <- field_int "ttl" a;
  do proto <- field_int "protocol" a;
  do sum <- field_int "checksum" a;
  do src <- field_value "source" a;
  do dst <- field_value "destination" a;
  do rest <- field_value "options" a;
  match rest with
  | VBytes rest =>
      let ihl := Z.land vi 15 in
      let n := if 5 <? ihl then Z.to_nat ((ihl - 5) * 4) else O in
      Ok (mk_ipv4 (Z.shiftr vi 4) ihl (Z.shiftr de 2) (Z.land de 3) length ident
            (Z.shiftr fo 13) (Z.land fo 8191) ttl proto sum src dst (firstn n rest) (skipn n rest))
  | _ => Err TypeError
  end.

(** ** IPv6, network_types.py:615-712 *)

(** An address attribute: an IPv6Address object (as set by __init__) or a str
    (as set by unpack). *)
Inductive addr6 : Type := A6Obj (a : ipv6) | A6Str (s : text).
Definition a6_pack (a : addr6) : res bytes :=
  match a with A6Obj a => ip6_pack a | A6Str s => ip6_bytes s end.

Record ipv6p : Type := mk_ipv6p
  { s_version : Z; s_tclass : Z; s_flabel : Z; s_length : Z; s_next_header : Z;
    s_hop_limit : Z; s_source : addr6; s_destination : addr6; s_data : bytes }.

(** IPv6.__init__, lines 642-670. *)
Definition ipv6_init (version tclass flabel length next_header hop_limit : Z)
           (source destination : text) (data : bytes) : res ipv6p :=
  do s <- ip6_init source None;
  do d <- ip6_init destination None;
  Ok (mk_ipv6p version tclass flabel length next_header hop_limit (A6Obj s) (A6Obj d) data).

(** IPv6.pack(), lines 672-687: the object as it is left and the bytes. *)
Definition ipv6_pack (p : ipv6p) : ipv6p * res bytes :=
  let q := mk_ipv6p (s_version p) (s_tclass p) (s_flabel p) (zlen (s_data p)) (s_next_header p)
                    (s_hop_limit p) (s_source p) (s_destination p) (s_data p) in
  let word := Z.lor (Z.lor (Z.shiftl (s_version p) 28) (Z.shiftl (s_tclass p) 20)) (s_flabel p) in
  (q, do a <- uint_struct 4 (VInt word);
      do b <- uint_struct 2 (VInt (s_length q));
      do c <- uint_struct 1 (VInt (s_next_header q));
      do d <- uint_struct 1 (VInt (s_hop_limit q));
      do s <- a6_pack (s_source q);
      do t <- a6_pack (s_destination q);
      Ok (a ++ b ++ c ++ d ++ s ++ t ++ s_data q)).

(** The class attribute IPv6Address(), basic_types.py:358-381. *)
Definition ip6_default : ipv6 := mk_ipv6 (txt "0000:0000:0000:0000:0000:0000:0000:0000") 128.

(** IPv6.unpack, lines 689-712 with base.py:645-658; the operators on None
    raise TypeError when the buffer is empty. *)
Definition ipv6_unpack (buff : bytes) (off : nat) : res ipv6p :=
  match buff with
  | [] => Err TypeError
  | _ =>
      do w <- recast StructError UnpackException (struct_unpack_u 4 buff off);
      do len <- recast StructError UnpackException (struct_unpack_u 2 buff (off + 4));
      do nh <- recast StructError UnpackException (struct_unpack_u 1 buff (off + 6));
      do hl <- recast StructError UnpackException (struct_unpack_u 1 buff (off + 7));
      do s <- ip6_unpack ip6_default buff (off + 8);
      do d <- ip6_unpack ip6_default buff (off + 24);
      Ok (mk_ipv6p (Z.shiftr w 28) (Z.land (Z.shiftr w 20) 255) (Z.land w 1048575) len nh hl
            (A6Str (ip6_value s)) (A6Str (ip6_value d)) (skipn (off + 40) buff))
  end.
