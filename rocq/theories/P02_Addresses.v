(** C04-C08: hardware, IPv4 and IPv6 addresses, datapath ids, strings. *)
From Coq Require Import ZArith List Bool String.
From Verif Require Import Base PyText Ids PyVal Classes Interp Spec SpecBasic Addr AddrFacts.
Import ListNotations.
Open Scope string_scope.
Open Scope list_scope.
Open Scope Z_scope.

(** ** C04 *)

Theorem c04_hw_roundtrip : forall old pre bs suf, wf_bytes bs -> List.length bs = 6%nat ->
  unpack (VHW old) (pre ++ bs ++ suf) (List.length pre) = Ok (VHW (VStr (colon_hex bs))) /\
  pack (VHW (VStr (colon_hex bs))) = Ok bs /\ get_size (VHW (VStr (colon_hex bs))) = Ok 6.
Proof. exact hw_roundtrip. Qed.
Print Assumptions c04_hw_roundtrip.

(** Text made of hexadecimal groups packs to the values of the groups, or is
    refused when there are not six of them or one exceeds 255. *)
Theorem c04_hw_groups : forall parts zs,
  Forall2 hex_numeral parts zs -> parts <> [] ->
  pack (VHW (VStr (separated 58 parts)))
  = if Nat.eqb (List.length zs) 6 && forallb (fun z => z <? 256) zs then Ok zs else Err PackException.
Proof. exact hw_text_pack. Qed.
Print Assumptions c04_hw_groups.

Theorem c04_hw_short : forall old buff off, (List.length buff < off + 6)%nat ->
  unpack (VHW old) buff off = Err UnpackException.
Proof. exact hw_short. Qed.
Print Assumptions c04_hw_short.

Example c04_case :
  pack (VHW (VStr (txt "0:1a:2B:3c:04:ff"))) = Ok [0; 26; 43; 60; 4; 255] /\
  unpack (VHW VNone) [9; 0; 26; 43; 60; 4; 255; 9] 1 = Ok (VHW (VStr (txt "00:1a:2b:3c:04:ff"))) /\
  colon_hex [0; 26; 43; 60; 4; 255] = txt "00:1a:2b:3c:04:ff" /\
  pack (VHW (VStr (txt "0:1:2:3:4:100"))) = Err PackException /\
  pack (VHW (VStr (txt "0:1:2:3:4"))) = Err PackException /\
  hex_numeral (txt "2B") 43.
Proof.
  repeat split; try reflexivity.
  apply (num_more 16 hex_digit_of [50] 2 66 11).
  - constructor. left. repeat split; discriminate.
  - right. repeat split; try discriminate. right. reflexivity.
Qed.

(** ** C05 *)

Theorem c05_ip_roundtrip : forall old m pre bs suf, wf_bytes bs -> List.length bs = 4%nat ->
  unpack (VIP old m) (pre ++ bs ++ suf) (List.length pre) = Ok (VIP (VStr (dotted_dec bs)) m) /\
  (forall m', pack (VIP (VStr (dotted_dec bs)) m') = Ok bs) /\
  (forall m' q, pack (VIP (VStr (dotted_dec bs ++ 47 :: q)) m') = Ok bs).
Proof. exact ip_roundtrip. Qed.
Print Assumptions c05_ip_roundtrip.

Theorem c05_ip_octets : forall s r parts zs,
  Forall2 dec_numeral parts zs -> parts <> [] -> s = separated 46 parts ->
  pack (VIP (VStr s) r)
  = (if Nat.eqb (List.length zs) 4 && forallb (fun z => z <? 256) zs then Ok zs else Err PackException) /\
  forall q, pack (VIP (VStr (s ++ 47 :: q)) r) = pack (VIP (VStr s) r).
Proof. exact ip_text. Qed.
Print Assumptions c05_ip_octets.

Theorem c05_ip_construct : forall bs t n nm, wf_bytes bs -> dec_numeral t n ->
  ip_init (dotted_dec bs ++ 47 :: t) nm = Ok (VIP (VStr (dotted_dec bs)) n) /\
  ip_init (dotted_dec bs) nm
  = Ok (VIP (VStr (dotted_dec bs)) (match nm with Some m => m | None => 32 end)).
Proof. exact ip_construct. Qed.
Print Assumptions c05_ip_construct.

Theorem c05_ip_short : forall old m buff off, (List.length buff < off + 4)%nat ->
  unpack (VIP old m) buff off = Err UnpackException.
Proof. exact ip_short. Qed.
Print Assumptions c05_ip_short.

Example c05_case :
  dotted_dec [192; 168; 0; 1] = txt "192.168.0.1" /\
  pack (VIP (VStr (txt "192.168.0.1/24")) 24) = Ok [192; 168; 0; 1] /\
  ip_init (txt "10.0.0.0/8") None = Ok (VIP (VStr (txt "10.0.0.0")) 8) /\
  pack (VIP (VStr (txt "192.168.0.256")) 32) = Err PackException /\
  pack (VIP (VStr (txt "192.168.0")) 32) = Err PackException /\
  dec_numeral (txt "24") 24.
Proof.
  repeat split; try reflexivity.
  apply (num_more 10 dec_digit_of [50] 2 52 4).
  - constructor. repeat split; discriminate.
  - repeat split; discriminate.
Qed.

(** ** C06 *)

Theorem c06_ip6_roundtrip : forall a pre bs suf, wf_bytes bs -> List.length bs = 16%nat ->
  exists b zs, List.length zs = 8%nat /\ Forall is_word zs /\ words zs = bs /\
    ip6_unpack a (pre ++ bs ++ suf) (List.length pre) = Ok b /\
    ip6_value b = separated 58 (map hex_quad zs) /\ ip6_netmask b = ip6_netmask a /\
    ip6_pack b = Ok bs.
Proof. exact ip6_unpack_any. Qed.
Print Assumptions c06_ip6_roundtrip.

(** One '::' anywhere stands for the missing zero groups. *)
Theorem c06_ip6_double_colon : forall left_ right_ zl zr nm,
  Forall2 hex_numeral left_ zl -> Forall2 hex_numeral right_ zr ->
  (List.length left_ + List.length right_ <= 7)%nat ->
  Forall is_word (zl ++ zr) ->
  exists a, ip6_init (separated 58 left_ ++ [58; 58] ++ separated 58 right_) nm = Ok a /\
    ip6_netmask a = (match nm with Some m => m | None => 128 end) /\
    ip6_pack a = Ok (words (zl ++ repeat 0 (8 - (List.length zl + List.length zr)) ++ zr)).
Proof. exact ip6_double_colon. Qed.
Print Assumptions c06_ip6_double_colon.

(** Without '::' exactly eight groups of 16 bits are accepted. *)
Theorem c06_ip6_groups : forall parts zs,
  Forall2 hex_numeral parts zs -> parts <> [] ->
  ip6_pack (mk_ipv6 (separated 58 parts) 128)
  = if Nat.eqb (List.length zs) 8 && forallb (fun z => z <? 65536) zs
    then Ok (words zs) else Err PackException.
Proof. exact ip6_eight_groups. Qed.
Print Assumptions c06_ip6_groups.

Theorem c06_ip6_short : forall a buff off, (List.length buff < off + 16)%nat ->
  ip6_unpack a buff off = Err UnpackException.
Proof. exact ip6_short. Qed.
Print Assumptions c06_ip6_short.

Example c06_case :
  (do a <- ip6_init (txt "fe80::1:20/64") None; ip6_pack a)
  = Ok [254; 128; 0; 0; 0; 0; 0; 0; 0; 0; 0; 0; 0; 1; 0; 32] /\
  (do a <- ip6_init (txt "::") None; ip6_pack a) = Ok (repeat 0 16) /\
  (do a <- ip6_init (txt "1::") None; ip6_pack a) = Ok ([0; 1] ++ repeat 0 14) /\
  (do a <- ip6_init (txt "::1") None; ip6_pack a) = Ok (repeat 0 15 ++ [1]) /\
  (do a <- ip6_unpack (mk_ipv6 [] 128) [254; 128; 0; 0; 0; 0; 0; 0; 0; 0; 0; 0; 0; 1; 0; 32] 0;
   Ok (ip6_value a)) = Ok (txt "fe80:0000:0000:0000:0000:0000:0001:0020").
Proof. repeat split; reflexivity. Qed.

(** ** C07 *)

Theorem c07_dpid_roundtrip : forall old pre bs suf, wf_bytes bs -> List.length bs = 8%nat ->
  unpack (VDPID old) (pre ++ bs ++ suf) (List.length pre) = Ok (VDPID (VStr (colon_hex bs))) /\
  pack (VDPID (VStr (colon_hex bs))) = Ok bs /\ get_size (VDPID (VStr (colon_hex bs))) = Ok 8.
Proof. exact dpid_roundtrip. Qed.
Print Assumptions c07_dpid_roundtrip.

Example c07_case :
  unpack (VDPID VNone) [9; 0; 1; 2; 3; 4; 5; 6; 255; 9] 1
  = Ok (VDPID (VStr (txt "00:01:02:03:04:05:06:ff"))) /\
  pack (VDPID (VStr (txt "00:01:02:03:04:05:06:ff"))) = Ok [0; 1; 2; 3; 4; 5; 6; 255].
Proof. split; reflexivity. Qed.

(** ** C08 *)

Theorem c08_char_layout : forall len s, (0 < len)%nat -> ascii_text s ->
  let kept := firstn (len - 1) s in
  pack (VChar len (VStr s)) = Ok (kept ++ repeat 0 (len - List.length kept)).
Proof. exact char_pack_exact. Qed.
Print Assumptions c08_char_layout.

Theorem c08_char_length : forall len s bs, (0 < len)%nat -> ascii_text s ->
  pack (VChar len (VStr s)) = Ok bs ->
  List.length bs = len /\ nth (len - 1) bs 1 = 0 /\
  firstn (Nat.min (len - 1) (List.length s)) bs = firstn (len - 1) s.
Proof. exact char_last. Qed.
Print Assumptions c08_char_length.

Theorem c08_char_roundtrip : forall len s old pre suf,
  (List.length s < len)%nat -> ascii_text s -> (forall t, s <> t ++ [0]) ->
  pack (VChar len (VStr s)) = Ok (s ++ repeat 0 (len - List.length s)) /\
  unpack (VChar len old) (pre ++ (s ++ repeat 0 (len - List.length s)) ++ suf) (List.length pre)
  = Ok (VChar len (VStr s)).
Proof. exact char_roundtrip. Qed.
Print Assumptions c08_char_roundtrip.

(** Also a field filled to its end, without a final NUL, is read. *)
Theorem c08_char_decode : forall len old pre s k suf,
  ascii_text s -> (forall t, s <> t ++ [0]) -> len = (List.length s + k)%nat ->
  unpack (VChar len old) (pre ++ (s ++ repeat 0 k) ++ suf) (List.length pre) = Ok (VChar len (VStr s)).
Proof. exact char_decode. Qed.
Print Assumptions c08_char_decode.

Example c08_case :
  pack (VChar 6 (VStr (txt "eth0"))) = Ok [101; 116; 104; 48; 0; 0] /\
  pack (VChar 4 (VStr (txt "eth0"))) = Ok [101; 116; 104; 0] /\
  unpack (VChar 6 VNone) [1; 101; 116; 104; 48; 0; 0; 2] 1 = Ok (VChar 6 (VStr (txt "eth0"))) /\
  ascii_text (txt "eth0").
Proof.
  repeat split; try reflexivity.
  repeat (constructor; [split; [discriminate|reflexivity]|]). constructor.
Qed.
