(** C01, C02, C03: unsigned integers and enumerated fields. *)
From Coq Require Import ZArith List Bool String.
From Verif Require Import Base PyText Ids PyVal Classes Interp SpecBasic IntFacts.
Import ListNotations.
Open Scope string_scope.
Open Scope list_scope.
Open Scope Z_scope.

(** C01: any integer that fits is written as its base-256 digits and read back
    at any offset of any buffer. *)
Theorem c01_uint_roundtrip : forall w z, (0 < w)%nat -> fits w z ->
  exists bs, pack (VUInt w None (VInt z)) = Ok bs /\ big_endian w z bs /\
    get_size (VUInt w None (VInt z)) = Ok (Z.of_nat w) /\
    forall old pre suf,
      unpack (VUInt w None old) (pre ++ bs ++ suf) (List.length pre) = Ok (VUInt w None (VInt z)).
Proof. exact uint_pack_unpack. Qed.
Print Assumptions c01_uint_roundtrip.

(** C01, other direction: any bytes decode to their value and encode back. *)
Theorem c01_uint_decode : forall w old pre bs suf,
  wf_bytes bs -> List.length bs = w ->
  unpack (VUInt w None old) (pre ++ bs ++ suf) (List.length pre)
  = Ok (VUInt w None (VInt (place_value bs))) /\
  fits w (place_value bs) /\
  pack (VUInt w None (VInt (place_value bs))) = Ok bs.
Proof. exact uint_unpack_value. Qed.
Print Assumptions c01_uint_decode.

Example c01_case :
  pack (VUInt 4 None (VInt 0x01020304)) = Ok [1; 2; 3; 4] /\
  unpack (VUInt 2 None VNone) [9; 1; 44; 7] 1 = Ok (VUInt 2 None (VInt 300)) /\
  fits 4 0x01020304 /\ ~ fits 2 65536.
Proof. repeat split; try reflexivity; try discriminate. intros [_ H]. discriminate H. Qed.

(** C02: values that do not fit are refused by pack(), both for the object's
    own value and for a value stored in a struct. *)
Theorem c02_pack_refuses : forall w er x,
  scalar x -> ~ (exists z, x = VInt z /\ fits w z) ->
  pack (VUInt w er x) = Err PackException.
Proof. exact uint_pack_refuses. Qed.
Print Assumptions c02_pack_refuses.

Theorem c02_field_refuses : forall w er d x,
  scalar x -> x <> VNone -> ~ (exists z, x = VInt z /\ fits w z) ->
  pack1 (pack0 FUEL) (VUInt w er d) x = Err PackException.
Proof. exact uint_field_refuses. Qed.
Print Assumptions c02_field_refuses.

Theorem c02_short_buffer : forall w er old buff off,
  (List.length buff < off + w)%nat -> (0 < w)%nat ->
  unpack (VUInt w er old) buff off = Err UnpackException.
Proof. exact uint_unpack_short. Qed.
Print Assumptions c02_short_buffer.

Example c02_case :
  pack (VUInt 1 None (VInt 256)) = Err PackException /\
  pack (VUInt 1 None (VInt (-1))) = Err PackException /\
  pack (VUInt 2 None VNone) = Err PackException /\
  pack (VUInt 2 None (VStr (txt "7"))) = Err PackException /\
  unpack (VUInt 4 None VNone) [1; 2; 3; 4] 1 = Err UnpackException.
Proof. repeat split; reflexivity. Qed.

(** C03: an Enum field accepts exactly the declared members. *)
Theorem c03_enum_exact : forall w e old pre bs suf,
  wf_bytes bs -> List.length bs = w -> ~ bit_mask_class e ->
  let buff := pre ++ bs ++ suf in
  (declared e (place_value bs) /\
   unpack (VUInt w (Some e) old) buff (List.length pre)
   = Ok (VUInt w (Some e) (VEnum e (place_value bs)))) \/
  (~ declared e (place_value bs) /\
   unpack (VUInt w (Some e) old) buff (List.length pre) = Err UnpackException).
Proof. exact enum_unpack_exact. Qed.
Print Assumptions c03_enum_exact.

(** C03: a GenericBitMask field accepts every value and keeps all bits. *)
Theorem c03_mask_total : forall w e old pre bs suf,
  wf_bytes bs -> List.length bs = w -> bit_mask_class e ->
  unpack (VUInt w (Some e) old) (pre ++ bs ++ suf) (List.length pre)
  = Ok (VUInt w (Some e) (VMask e (place_value bs))) /\
  pack (VUInt w (Some e) (VMask e (place_value bs))) = Ok bs.
Proof. exact mask_unpack_total. Qed.
Print Assumptions c03_mask_total.

Theorem c03_member_packs : forall w e z,
  ~ bit_mask_class e -> declared e z -> fits w z ->
  exists bs, pack (VUInt w (Some e) (VEnum e z)) = Ok bs /\ big_endian w z bs.
Proof. exact member_packs. Qed.
Print Assumptions c03_member_packs.

Example c03_case :
  unpack (VUInt 2 (Some E_ActionType04) VNone) [0; 25] 0
  = Ok (VUInt 2 (Some E_ActionType04) (VEnum E_ActionType04 25)) /\
  unpack (VUInt 2 (Some E_ActionType04) VNone) [0; 1] 0 = Err UnpackException /\
  unpack (VUInt 4 (Some E_PortConfig04) VNone) [128; 0; 0; 3] 0
  = Ok (VUInt 4 (Some E_PortConfig04) (VMask E_PortConfig04 0x80000003)) /\
  bit_mask_class E_PortConfig04 /\ ~ bit_mask_class E_ActionType04.
Proof.
  repeat split; try reflexivity.
  - eexists. reflexivity.
  - intros [l H]. discriminate H.
Qed.
