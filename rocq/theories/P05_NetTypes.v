(** C29 to C35 and C47: the packet classes of network_types.py. *)
From Coq Require Import ZArith List Bool String.
From Verif Require Import Base PyText Ids PyVal Classes Interp Addr Spec SpecBasic NetTypes SpecNet
  UnpackTotal NetFacts NetFacts2.
Import ListNotations.
Open Scope string_scope.
Open Scope list_scope.
Open Scope Z_scope.

(** ** C29: VLAN *)

(** A VLAN object with some field set packs to its tag. *)
Theorem c29_pack : forall v t, tags_of v [t] ->
  vlan_pack v = (touched v t, Ok (tag_wire t)).
Proof. exact vlan_pack_tag. Qed.
Print Assumptions c29_pack.

(** The tag is decoded at any offset of any buffer, by any VLAN object. *)
Theorem c29_unpack : forall old pre t suf, tag_ok t ->
  vlan_unpack old (pre ++ tag_wire t ++ suf) (List.length pre) = Ok (got_vlan t).
Proof. exact vlan_decode. Qed.
Print Assumptions c29_unpack.

(** What any four bytes decode to. *)
Theorem c29_any_bytes : forall old pre a b c d suf, is_byte a -> is_byte b -> is_byte c -> is_byte d ->
  let tpid := a * 256 + b in let tci := c * 256 + d in
  vlan_unpack old (pre ++ [a; b; c; d] ++ suf) (List.length pre) =
  if tpid =? 0 then Ok (mk_vlan (VInt 0x8100) (got_int 2 tci) None None None)
  else if (tpid =? 0x8100) || (tpid =? 0x88a8)
  then Ok (mk_vlan (VInt tpid) (got_int 2 tci)
             (Some (tci / 8192)) (Some (tci / 4096 mod 2)) (Some (tci mod 4096)))
  else Err UnpackException.
Proof. exact vlan_any. Qed.
Print Assumptions c29_any_bytes.

Definition case_vlan : vlan := vlan_init None None (Some 5).
Example c29_case :
  tags_of case_vlan [mk_tag 0x8100 0 0 5] /\ snd (vlan_pack case_vlan) = Ok [0x81; 0; 0; 5] /\
  snd (vlan_pack (vlan_init (Some 7) (Some 1) (Some 4095))) = Ok [0x81; 0; 0xff; 0xff].
Proof.
  split; [|split; reflexivity]. right. split; [intros (_ & _ & H); discriminate H|].
  exists (mk_tag 0x8100 0 0 5). split; [reflexivity|].
  split; [unfold tag_ok; cbn; repeat split; auto; discriminate|]. cbn. unfold unset0. auto 10.
Qed.

(** A VLAN object with no field set packs to nothing, but its size is 4. *)
Theorem c29_size_refuted : exists v, snd (vlan_pack v) = Ok [] /\ vlan_size v = Ok 4.
Proof. exists (vlan_init None None None). split; vm_compute; reflexivity. Qed.
Print Assumptions c29_size_refuted.

(** ** C30: Ethernet *)

Theorem c30_roundtrip : forall d s vs ls t x dst src ty data,
  mac_of d dst -> mac_of s src -> Forall2 tags_of vs ls -> int_of 2 t ty ->
  ty <> 0x8100 -> ty <> 0x88a8 -> data_of x data ->
  exists bs, snd (eth_pack (mk_eth d s vs t x)) = Ok bs /\ bs = frame dst src (List.concat ls) ty data /\
  eth_unpack bs 0 = Ok (eth_got dst src (List.concat ls) ty data).
Proof. exact eth_roundtrip. Qed.
Print Assumptions c30_roundtrip.

Definition case_eth : ethernet :=
  mk_eth (VStr (txt "00:11:22:33:44:55")) (VStr (txt "66:77:88:99:aa:bb"))
         [vlan_init (Some 1) None (Some 100); vlan_init None None None; vlan_init None (Some 1) (Some 7)]
         (VInt 0x800) (VBytes [1; 2; 3]).
Example c30_case :
  snd (eth_pack case_eth)
  = Ok [0x00; 0x11; 0x22; 0x33; 0x44; 0x55; 0x66; 0x77; 0x88; 0x99; 0xaa; 0xbb;
        0x81; 0; 0x20; 100; 0x81; 0; 0x10; 7; 8; 0; 1; 2; 3].
Proof. vm_compute. reflexivity. Qed.

(** At a nonzero offset the tags are looked for at the wrong place. *)
Theorem c30_offset_refuted : exists pre dst src tag ty data,
  tag_ok tag /\
  eth_unpack (frame dst src [tag] ty data) 0 = Ok (eth_got dst src [tag] ty data) /\
  eth_unpack (pre ++ frame dst src [tag] ty data) (List.length pre) <> Ok (eth_got dst src [tag] ty data).
Proof.
  exists [0], [0; 0; 0; 0; 0; 1], [0; 0; 0; 0; 0; 2], (mk_tag 0x8100 0 0 5), 0x800, [9; 9].
  split; [unfold tag_ok; cbn; repeat split; auto; discriminate|].
  split; [vm_compute; reflexivity|vm_compute; discriminate].
Qed.
Print Assumptions c30_offset_refuted.

(** ** C31: ARP *)

Theorem c31_roundtrip : forall h p hl pl o sha spa tha tpa zhl zpl zo bsha bspa btha btpa,
  int_exact h 1 -> int_exact p 0x0800 -> int_of 1 hl zhl -> int_of 1 pl zpl -> int_of 2 o zo ->
  mac_of sha bsha -> ip_of spa bspa -> mac_of tha btha -> ip_of tpa btpa ->
  let bs := arp_wire zhl zpl zo bsha bspa btha btpa in
  List.length bs = 28%nat /\
  arp_pack (arp_init h p hl pl o sha spa tha tpa) = Ok bs /\
  forall old pre suf, (exists a1 a2 a3 a4 a5 a6 a7 a8 a9, old = arp_init a1 a2 a3 a4 a5 a6 a7 a8 a9) ->
    arp_unpack old (pre ++ bs ++ suf) (List.length pre)
    = Ok (arp_got 1 0x0800 zhl zpl zo bsha bspa btha btpa).
Proof. exact arp_roundtrip. Qed.
Print Assumptions c31_roundtrip.

Theorem c31_pack_refuses : forall h p hl pl o sha spa tha tpa zh zp,
  int_exact h zh -> int_exact p zp -> ~ (zh = 1 /\ zp = 0x0800) ->
  arp_pack (arp_init h p hl pl o sha spa tha tpa) = Err ValidationError.
Proof. exact arp_refuses. Qed.
Print Assumptions c31_pack_refuses.

(** Any 28 bytes: read field by field, or refused for another protocol. *)
Theorem c31_any_bytes : forall old pre bs suf,
  (exists a1 a2 a3 a4 a5 a6 a7 a8 a9, old = arp_init a1 a2 a3 a4 a5 a6 a7 a8 a9) ->
  wf_bytes bs -> List.length bs = 28%nat ->
  arp_unpack old (pre ++ bs ++ suf) (List.length pre)
  = if (place_value (slice 0 2 bs) =? 1) && (place_value (slice 2 4 bs) =? 0x0800)
    then Ok (arp_parse bs) else Err UnpackException.
Proof. exact arp_any. Qed.
Print Assumptions c31_any_bytes.

Theorem c31_short : forall old buff off,
  (exists a1 a2 a3 a4 a5 a6 a7 a8 a9, old = arp_init a1 a2 a3 a4 a5 a6 a7 a8 a9) ->
  (List.length buff < off + 28)%nat -> arp_unpack old buff off = Err UnpackException.
Proof. exact arp_short. Qed.
Print Assumptions c31_short.

Example c31_case :
  arp_pack (arp_init (VInt 1) (VInt 0x800) (VInt 6) (VInt 4) (VInt 2)
    (VStr (txt "00:11:22:33:44:55")) (VStr (txt "10.0.0.1")) (VStr (txt "66:77:88:99:aa:bb")) (VStr (txt "10.0.0.2")))
  = Ok [0; 1; 8; 0; 6; 4; 0; 2; 0x00; 0x11; 0x22; 0x33; 0x44; 0x55; 10; 0; 0; 1;
        0x66; 0x77; 0x88; 0x99; 0xaa; 0xbb; 10; 0; 0; 2].
Proof. vm_compute. reflexivity. Qed.

(** ** C32, C33: IPv4 *)

(** Without options: [20 + payload] bytes, checksum, round trip at any
    offset; the object after pack() is the one that is decoded. *)
Theorem c32_roundtrip : forall p src dst, ipv4_ok p src dst -> i_ihl p = 5 -> i_options p = [] ->
  20 + zlen (i_data p) <= 65535 ->
  let total := 20 + zlen (i_data p) in
  exists sum, 0 <= sum < 65535 /\
    let bs := ipv4_wire p 5 total sum src dst in
    ipv4_pack p = (ipv4_after p 5 total sum, Ok bs) /\ zlen bs = total /\
    oc_sum (words_of (firstn 20 bs)) = 65535 /\
    forall pre, ipv4_unpack (pre ++ bs) (List.length pre) = Ok (ipv4_after p 5 total sum).
Proof. exact ipv4_plain. Qed.
Print Assumptions c32_roundtrip.

(** With up to ten words of options: the same, except that the sum covers the
    first ten words only. *)
Theorem c32_options_partial : forall p src dst k,
  ipv4_ok p src dst -> i_ihl p = 5 -> zlen (i_options p) = 4 * k -> 0 <= k <= 10 ->
  20 + 4 * k + zlen (i_data p) <= 65535 ->
  let total := 20 + 4 * k + zlen (i_data p) in
  exists sum, 0 <= sum < 65535 /\
    let bs := ipv4_wire p (5 + k) total sum src dst in
    ipv4_pack p = (ipv4_after p (5 + k) total sum, Ok bs) /\ zlen bs = total /\
    oc_sum (words_of (firstn 20 bs)) = 65535 /\
    forall pre, ipv4_unpack (pre ++ bs) (List.length pre) = Ok (ipv4_after p (5 + k) total sum).
Proof. exact ipv4_roundtrip. Qed.
Print Assumptions c32_options_partial.

Theorem c32_any_bytes : forall pre bs, wf_bytes bs -> (20 <= List.length bs)%nat ->
  ipv4_unpack (pre ++ bs) (List.length pre) = Ok (ipv4_parse bs).
Proof. exact ipv4_any. Qed.
Print Assumptions c32_any_bytes.

Theorem c32_short : forall buff off, buff <> [] -> (List.length buff < off + 20)%nat ->
  ipv4_unpack buff off = Err UnpackException.
Proof. exact ipv4_short. Qed.
Print Assumptions c32_short.

Definition case_ipv4 (options : bytes) : ipv4 :=
  mk_ipv4 4 5 10 1 0 0x1234 2 100 64 17 0 (VStr (txt "10.0.0.1")) (VStr (txt "192.168.1.254")) options [1; 2; 3].
Lemma case_ipv4_ok options : wf_bytes options -> ipv4_ok (case_ipv4 options) [10; 0; 0; 1] [192; 168; 1; 254].
Proof.
  intros W. unfold ipv4_ok, case_ipv4, ip_of.
  cbn [i_version i_dscp i_ecn i_identification i_flags i_offset i_ttl i_protocol i_source i_destination i_options i_data].
  do 8 (split; [split; discriminate|]).
  do 2 (split; [split; [reflexivity|split; [apply wf_bytesb_ok; reflexivity|left; reflexivity] ]|]).
  do 2 (split; [eexists; reflexivity|]). split; [exact W|apply wf_bytesb_ok; reflexivity].
Qed.
Example c32_case :
  ipv4_ok (case_ipv4 []) [10; 0; 0; 1] [192; 168; 1; 254] /\
  snd (ipv4_pack (case_ipv4 []))
  = Ok [0x45; 0x29; 0; 23; 0x12; 0x34; 0x40; 100; 64; 17; 0x5b; 0x6e; 10; 0; 0; 1; 192; 168; 1; 254; 1; 2; 3].
Proof. split; [exact (case_ipv4_ok [] (Forall_nil _))|vm_compute; reflexivity]. Qed.

(** With options the sum of the whole header is not 0xFFFF. *)
Theorem c32_checksum_refuted : exists p src dst bs, ipv4_ok p src dst /\ i_ihl p = 5 /\
  zlen (i_options p) = 4 /\ snd (ipv4_pack p) = Ok bs /\ oc_sum (words_of (firstn 24 bs)) <> 65535.
Proof.
  exists (case_ipv4 [1; 2; 3; 4]), [10; 0; 0; 1], [192; 168; 1; 254]. eexists.
  split; [apply case_ipv4_ok, wf_bytesb_ok; reflexivity|]. split; [reflexivity|]. split; [reflexivity|].
  split; [vm_compute; reflexivity|vm_compute; discriminate].
Qed.
Print Assumptions c32_checksum_refuted.

(** Without options pack() can be called any number of times. *)
Theorem c33_repeat_partial : forall p n, i_options p = [] ->
  ipv4_pack (Nat.iter n (fun q => fst (ipv4_pack q)) p) = ipv4_pack p.
Proof. exact ipv4_repeat_any. Qed.
Print Assumptions c33_repeat_partial.

(** With options every call lengthens the header. *)
Theorem c33_repeat_refuted : exists p src dst bs bs', ipv4_ok p src dst /\ i_ihl p = 5 /\
  snd (ipv4_pack p) = Ok bs /\ snd (ipv4_pack (fst (ipv4_pack p))) = Ok bs' /\ bs <> bs'.
Proof.
  exists (case_ipv4 [1; 2; 3; 4]), [10; 0; 0; 1], [192; 168; 1; 254]. eexists. eexists.
  split; [apply case_ipv4_ok, wf_bytesb_ok; reflexivity|]. split; [reflexivity|].
  split; [vm_compute; reflexivity|]. split; [vm_compute; reflexivity|]. discriminate.
Qed.
Print Assumptions c33_repeat_refuted.

(** ** C34: IPv6 *)

Theorem c34_roundtrip : forall p src dst, ipv6_ok p src dst -> zlen (s_data p) <= 65535 ->
  ipv6_pack p = (ipv6_after p, Ok (ipv6_wire p src dst)) /\
  zlen (ipv6_wire p src dst) = 40 + zlen (s_data p) /\
  forall pre, ipv6_unpack (pre ++ ipv6_wire p src dst) (List.length pre) = Ok (ipv6_got p src dst).
Proof. exact ipv6_roundtrip. Qed.
Print Assumptions c34_roundtrip.

Theorem c34_too_long : forall p src dst, ipv6_ok p src dst -> 65535 < zlen (s_data p) ->
  snd (ipv6_pack p) = Err PackException.
Proof. exact ipv6_too_long. Qed.
Print Assumptions c34_too_long.

Theorem c34_any_bytes : forall pre bs, wf_bytes bs -> (40 <= List.length bs)%nat ->
  exists src dst, List.length src = 8%nat /\ Forall is_word src /\ words src = slice 8 24 bs /\
    List.length dst = 8%nat /\ Forall is_word dst /\ words dst = slice 24 40 bs /\
    let w := place_value (slice 0 4 bs) in
    ipv6_unpack (pre ++ bs) (List.length pre)
    = Ok (mk_ipv6p (w / 268435456) (w / 1048576 mod 256) (w mod 1048576) (place_value (slice 4 6 bs))
            (place_value (slice 6 7 bs)) (place_value (slice 7 8 bs)) (got_ip6 src) (got_ip6 dst) (skipn 40 bs)).
Proof. exact ipv6_any. Qed.
Print Assumptions c34_any_bytes.

Theorem c34_short : forall buff off, buff <> [] -> (List.length buff < off + 40)%nat ->
  ipv6_unpack buff off = Err UnpackException.
Proof. exact ipv6_short. Qed.
Print Assumptions c34_short.

Definition case_ipv6 : ipv6p :=
  mk_ipv6p 6 0x12 0x34567 0 17 64 (A6Obj (mk_ipv6 (txt "fe80:0:0:0:0:0:0:1") 128))
           (A6Str (txt "ff02:0000:0000:0000:0000:0000:0000:0002")) [7; 8].
Example c34_case :
  exists bs, snd (ipv6_pack case_ipv6) = Ok bs /\ firstn 10 bs = [0x61; 0x23; 0x45; 0x67; 0; 2; 17; 64; 0xfe; 0x80] /\
    ipv6_unpack bs 0 = Ok (mk_ipv6p 6 0x12 0x34567 2 17 64
      (A6Str (txt "fe80:0000:0000:0000:0000:0000:0000:0001"))
      (A6Str (txt "ff02:0000:0000:0000:0000:0000:0000:0002")) [7; 8]).
Proof. eexists. split; [vm_compute; reflexivity|]. split; vm_compute; reflexivity. Qed.

(** ** C35: LLDP *)

Theorem c35_tlv : forall x t value, carries x t value ->
  tlv_pack x = Ok (tlv_wire t value) /\ tlv_size x = Ok (2 + zlen value).
Proof. exact tlv_packs. Qed.
Print Assumptions c35_tlv.

Theorem c35_tlv_unpack : forall x x0 t value pre suf, carries x t value -> is_sub x0 = is_sub x ->
  tlv_unpack x0 (pre ++ tlv_wire t value ++ suf) (List.length pre) = Ok (got_tlv x t value).
Proof. exact tlv_decodes. Qed.
Print Assumptions c35_tlv_unpack.

Theorem c35_lldp : forall a b c d ta tb tc td va vb vc vd pre suf,
  carries a ta va -> carries b tb vb -> carries c tc vc -> carries d td vd ->
  is_sub a = true -> is_sub b = true -> is_sub c = false -> is_sub d = false ->
  let bs := tlv_wire ta va ++ tlv_wire tb vb ++ tlv_wire tc vc ++ tlv_wire td vd in
  lldp_pack (mk_lldp a b c d) = Ok bs /\
  lldp_unpack (pre ++ bs ++ suf) (List.length pre)
  = Ok (mk_lldp (got_tlv a ta va) (got_tlv b tb vb) (got_tlv c tc vc) (got_tlv d td vd)).
Proof. exact lldp_roundtrip. Qed.
Print Assumptions c35_lldp.

Example c35_case :
  carries (SubTlv 1 7 (VBin (VBytes [9; 9]))) 1 [7; 9; 9] /\
  carries (Tlv 3 (VUInt 2 None (VInt 180))) 3 [0; 180] /\
  tlv_pack (SubTlv 1 7 (VBin (VBytes [9; 9]))) = Ok [2; 3; 7; 9; 9] /\
  tlv_pack (Tlv 3 (VUInt 2 None (VInt 180))) = Ok [6; 2; 0; 180].
Proof.
  split; [|split; [|split; vm_compute; reflexivity] ].
  - split; [split; discriminate|]. split; [discriminate|]. split; [reflexivity|]. exists [9; 9].
    split; [reflexivity|]. split; [split; [discriminate|reflexivity]|]. left. reflexivity.
  - split; [split; discriminate|]. split; [discriminate|]. split; [reflexivity|]. right. right.
    exists 2%nat, 180. split; [reflexivity|]. split; [apply le_S, le_n|].
    split; [reflexivity|]. split; [apply wf_bytesb_ok; reflexivity|reflexivity].
Qed.

(** A value of 512 bytes is packed with length 0, without an error. *)
Theorem c35_too_long_refuted : exists x value bs, x = Tlv 5 (VBin (VBytes value)) /\ zlen value = 512 /\
  tlv_pack x = Ok bs /\ tlv_unpack x bs 0 = Ok (Tlv 5 (VBin (VBytes []))).
Proof.
  exists (Tlv 5 (VBin (VBytes (repeat 0 512)))), (repeat 0 512). eexists.
  split; [reflexivity|]. split; [reflexivity|]. split; [vm_compute; reflexivity|vm_compute; reflexivity].
Qed.
Print Assumptions c35_too_long_refuted.

(** A TLV whose value is cut short is accepted. *)
Theorem c35_truncated_refuted : exists value bs n, (n < List.length bs)%nat /\
  tlv_pack (Tlv 5 (VBin (VBytes value))) = Ok bs /\
  tlv_unpack (Tlv 127 (VBin VNone)) (firstn n bs) 0 = Ok (Tlv 5 (VBin (VBytes (firstn 1 value)))) /\
  firstn 1 value <> value.
Proof.
  exists [1; 2; 3], [10; 3; 1; 2; 3], 3%nat. split; [repeat constructor|].
  split; [vm_compute; reflexivity|]. split; [vm_compute; reflexivity|discriminate].
Qed.
Print Assumptions c35_truncated_refuted.

(** ** C47: packing again *)

Theorem c47_vlan : forall v n, vlan_pack (Nat.iter n (fun q => fst (vlan_pack q)) v) = vlan_pack v.
Proof. exact vlan_repeat_any. Qed.
Print Assumptions c47_vlan.
Theorem c47_ethernet : forall e n, eth_pack (Nat.iter n (fun q => fst (eth_pack q)) e) = eth_pack e.
Proof. exact eth_repeat_any. Qed.
Print Assumptions c47_ethernet.
Theorem c47_ipv6 : forall p n, ipv6_pack (Nat.iter n (fun q => fst (ipv6_pack q)) p) = ipv6_pack p.
Proof. exact ipv6_repeat_any. Qed.
Print Assumptions c47_ipv6.
Example c47_case : vlan_pack (fst (vlan_pack case_vlan)) = vlan_pack case_vlan /\ fst (vlan_pack case_vlan) <> case_vlan.
Proof. split; [vm_compute; reflexivity|discriminate]. Qed.
