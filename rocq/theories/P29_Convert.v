(** C63: numbers and texts made from values, broadcast addresses, hashes of
    frames and names of bit masks. *)
From Coq Require Import ZArith List Bool String.
From Verif Require Import Base PyText Ids PyVal Classes Interp NetTypes Operators Convert SpecBasic SpecMatch SpecLayout SpecConvert ConvertFacts.
Import ListNotations.
Open Scope string_scope.
Open Scope list_scope.
Open Scope Z_scope.

(** int() of an integer field is the number it packs to, unless a bit mask or
    a member of a plain Enum is kept: then TypeError.  Partial: the claim
    without the exception is refuted below. *)
Theorem c63_int_packed_partial : forall w er x bs, pack (VUInt w er x) = Ok bs ->
  (not_a_number x -> to_int (VUInt w er x) = Err TypeError) /\
  (~ not_a_number x -> to_int (VUInt w er x) = Ok (place_value bs)).
Proof. exact int_packed. Qed.
Print Assumptions c63_int_packed_partial.

Theorem c63_int_unpacked_partial : forall w er old pre bs suf v, wf_bytes bs -> List.length bs = w ->
  unpack (VUInt w er old) (pre ++ bs ++ suf) (List.length pre) = Ok v ->
  (number_field er -> to_int v = Ok (place_value bs)) /\ (~ number_field er -> to_int v = Err TypeError).
Proof. exact int_unpacked. Qed.
Print Assumptions c63_int_unpacked_partial.

Theorem c63_int_refuted : exists v bs,
  unpack (VUInt 4 (Some E_PortConfig01) VNone) bs 0 = Ok v /\ pack v = Ok bs /\ to_int v = Err TypeError.
Proof.
  eexists _, [0; 0; 0; 1]. split; [vm_compute; reflexivity|]. split; [vm_compute; reflexivity|reflexivity].
Qed.
Print Assumptions c63_int_refuted.

(** str() of an integer field or of a bit mask is its shortest decimal numeral. *)
Theorem c63_text_number : forall v z,
  (exists w er, v = VUInt w er (VInt z)) \/ (exists e, v = VMask e z) \/ (exists w er e, v = VUInt w er (VMask e z)) ->
  exists t, to_str v = Some (Ok t) /\ dec_item z t.
Proof. exact text_number. Qed.
Print Assumptions c63_text_number.

(** str() of a decoded address is its usual text. *)
Theorem c63_text_address : forall old m pre bs suf, wf_bytes bs ->
  (forall v, List.length bs = 4%nat -> unpack (VIP old m) (pre ++ bs ++ suf) (List.length pre) = Ok v -> to_str v = Some (Ok (dotted_dec bs))) /\
  (forall v, List.length bs = 6%nat -> unpack (VHW old) (pre ++ bs ++ suf) (List.length pre) = Ok v -> to_str v = Some (Ok (colon_hex bs))) /\
  (forall v, List.length bs = 8%nat -> unpack (VDPID old) (pre ++ bs ++ suf) (List.length pre) = Ok v -> to_str v = Some (Ok (colon_hex bs))).
Proof. exact address_text. Qed.
Print Assumptions c63_text_address.

(** int() of a text or of bytes is the decimal number written there, after a
    minus sign or not. *)
Theorem c63_int_text : forall w er t z, dec_numeral t z ->
  to_int (VUInt w er (VStr t)) = Ok z /\ to_int (VUInt w er (VBytes t)) = Ok z /\
  to_int (VUInt w er (VStr (45 :: t))) = Ok (- z) /\ to_int (VUInt w er (VBytes (45 :: t))) = Ok (- z).
Proof. exact int_text. Qed.
Print Assumptions c63_int_text.
(** str() of what holds a text is that text, of what holds None "None", but
    not for a datapath id. *)
Theorem c63_text_held : forall v,
  (held VNone v -> v <> VDPID VNone -> to_str v = Some (Ok (txt "None"))) /\
  (forall s, held (VStr s) v -> to_str v = Some (Ok s)).
Proof. exact text_held. Qed.
Print Assumptions c63_text_held.
(** str() raises TypeError for a datapath id that holds anything but a text,
    one made without arguments for instance. *)
Theorem c63_text_dpid : forall y, (forall s, y <> VStr s) -> to_str (VDPID y) = Some (Err TypeError).
Proof. exact dpid_text. Qed.
Print Assumptions c63_text_dpid.
(** str() of padding is as many zeros as it has bytes. *)
Theorem c63_text_pad : forall n, exists t, to_str (VPad n) = Some (Ok t) /\ List.length t = n /\ Forall (fun c => c = 48) t.
Proof. exact pad_text. Qed.
Print Assumptions c63_text_pad.

Example c63_text_case :
  to_int (VUInt 2 None (VStr (txt " 40 "))) = Ok 40 /\ to_int (VUInt 2 None VNone) = Err TypeError /\
  to_str (VUInt 2 None (VInt 65535)) = Some (Ok (txt "65535")) /\ to_str (VUInt 2 None (VInt (-20))) = Some (Ok (txt "-20")) /\
  to_str (VDPID VNone) = Some (Err TypeError) /\ to_str (VHW VNone) = Some (Ok (txt "None")) /\ to_str (VPad 3) = Some (Ok (txt "000")).
Proof. repeat split; vm_compute; reflexivity. Qed.

(** A decoded hardware address is a broadcast exactly when its six bytes are
    all ones; a text taken for one packs to them.  Partial: not every text that
    packs to them is taken for one. *)
Theorem c63_broadcast_unpacked : forall old pre bs suf v, wf_bytes bs -> List.length bs = 6%nat ->
  unpack (VHW old) (pre ++ bs ++ suf) (List.length pre) = Ok v -> (is_broadcast v = true <-> bs = everyone).
Proof. exact broadcast_unpacked. Qed.
Print Assumptions c63_broadcast_unpacked.
Theorem c63_broadcast_partial : forall s, is_broadcast (VHW (VStr s)) = true -> pack (VHW (VStr s)) = Ok everyone.
Proof. exact broadcast_text. Qed.
Print Assumptions c63_broadcast_partial.
(** Nothing but that text is one. *)
Theorem c63_broadcast_held : forall x, (forall y, ~ held y x) -> is_broadcast (VHW x) = true <-> x = VStr (txt "ff:ff:ff:ff:ff:ff").
Proof. exact broadcast_held. Qed.
Print Assumptions c63_broadcast_held.
Theorem c63_broadcast_refuted : exists s, pack (VHW (VStr s)) = Ok everyone /\ is_broadcast (VHW (VStr s)) = false.
Proof. exists (txt "FF:FF:FF:FF:FF:FF"). split; vm_compute; reflexivity. Qed.
Print Assumptions c63_broadcast_refuted.

(** The hash of a frame is that of its bytes: of the bytes it was decoded
    from, the same for frames that pack to the same bytes, and the same however
    often it is asked for; with a hash without collisions, frames with the same
    hash pack to the same bytes. *)
Theorem c63_hash_unpacked : forall hash bs e, wf_bytes bs -> eth_unpack bs 0 = Ok e -> snd (get_hash hash e) = Ok (hash bs).
Proof. exact hash_unpacked. Qed.
Print Assumptions c63_hash_unpacked.
Theorem c63_hash_same : forall hash e1 e2, snd (eth_pack e1) = snd (eth_pack e2) -> snd (get_hash hash e1) = snd (get_hash hash e2).
Proof. exact hash_same. Qed.
Print Assumptions c63_hash_same.
Theorem c63_hash_repeat : forall hash e n, get_hash hash (Nat.iter n (fun q => fst (get_hash hash q)) e) = get_hash hash e.
Proof. exact hash_repeat. Qed.
Print Assumptions c63_hash_repeat.
Theorem c63_hash_apart : forall hash e1 e2 h, (forall a b, hash a = hash b -> a = b) ->
  snd (get_hash hash e1) = Ok h -> snd (get_hash hash e2) = Ok h -> snd (eth_pack e1) = snd (eth_pack e2).
Proof. exact hash_apart. Qed.
Print Assumptions c63_hash_apart.

(** dir() of a bit mask class lists every member, which is an attribute of the
    class, and besides them only what the metaclass and the class define. *)
Theorem c63_dir : forall meta own e name members, enum_def e = EMask members ->
  (In name (map fst members) -> In name (class_dir meta own e) /\ exists z, class_member e name = Ok z /\ In (name, z) members) /\
  (In name (class_dir meta own e) -> In name meta \/ In name own \/ In name (map fst members)).
Proof. exact dir_members. Qed.
Print Assumptions c63_dir.

Example c63_dir_case : In "OFPPC_PORT_DOWN" (class_dir [] ["_enum"] E_PortConfig01) /\
  class_member E_PortConfig01 "OFPPC_PORT_DOWN" = Ok 1 /\ class_member E_PortConfig01 "OFPPC_DOWN" = Err KeyError.
Proof. repeat split; [vm_compute; intuition|vm_compute; reflexivity..]. Qed.
