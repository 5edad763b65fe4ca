(** C36 to C41: equality of structures, operators of the integers, bit masks,
    is_valid and 128-bit integers. *)
From Coq Require Import ZArith List Bool String.
From Verif Require Import Base PyText Ids PyVal Classes Interp Operators Spec SpecBasic SpecSame SpecOps
  Ref Witness TopFacts OperatorsFacts.
Import ListNotations.
Open Scope string_scope.
Open Scope list_scope.
Open Scope Z_scope.

(** C36: equality of structures that pack is equality of their encodings. *)
Theorem c36_eq_bytes : forall a b x y,
  pack a = Ok x -> has_pack b = true -> pack b = Ok y ->
  exists r, struct_eq a b = Ok r /\ (r = true <-> x = y).
Proof. exact struct_eq_spec. Qed.
Print Assumptions c36_eq_bytes.

Theorem c36_reflexive : forall c attrs x, pack (VObj c attrs) = Ok x ->
  struct_eq (VObj c attrs) (VObj c attrs) = Ok true.
Proof. exact struct_eq_refl. Qed.
Print Assumptions c36_reflexive.

Theorem c36_symmetric : forall c1 a1 c2 a2,
  struct_eq (VObj c1 a1) (VObj c2 a2) = Ok true -> struct_eq (VObj c2 a2) (VObj c1 a1) = Ok true.
Proof. exact struct_eq_sym. Qed.
Print Assumptions c36_symmetric.

Theorem c36_transitive : forall c1 a1 c2 a2 c3 a3,
  struct_eq (VObj c1 a1) (VObj c2 a2) = Ok true -> struct_eq (VObj c2 a2) (VObj c3 a3) = Ok true ->
  struct_eq (VObj c1 a1) (VObj c3 a3) = Ok true.
Proof. exact struct_eq_trans. Qed.
Print Assumptions c36_transitive.

(** Equal well-formed structures of one class have the same contents: they
    decode to one and the same object, which agrees with both. *)
Theorem c36_same_contents : forall n n' k k' sz sz' base a b bsa bsb outa outb,
  enc_obj n k sz base a bsa outa -> enc_obj n' k' sz' base b bsb outb -> bsa <> [] ->
  struct_eq a b = Ok true -> outa = outb /\ same_obj a outa /\ same_obj b outa.
Proof. exact struct_eq_decodes. Qed.
Print Assumptions c36_same_contents.

(** Comparing a structure with None or a number raises. *)
Theorem c36_other_raises : forall a b, has_pack b = false -> (exists x, pack a = Ok x) ->
  struct_eq a b = Err AttributeError.
Proof. exact struct_eq_other. Qed.
Print Assumptions c36_other_raises.

Example c36_case :
  let header t := VObj Header04
    [("version", VUInt 1 None (VInt 4)); ("message_type", VUInt 1 (Some E_Type04) t);
     ("length", VUInt 2 None (VInt 8)); ("xid", VInt 7)] in
  struct_eq (header (VInt 2)) (header (VEnum E_Type04 2)) = Ok true /\
  struct_eq (header (VInt 2)) (header (VInt 3)) = Ok false /\
  struct_eq (header (VInt 2)) VNone = Err AttributeError.
Proof. split; [|split]; vm_compute; reflexivity. Qed.

(** C37: a UBInt on the left of an integer. *)
Theorem c37_left : forall v a b, holds v a ->
  py_op BAdd v (VInt b) = Ok (VInt (a + b)) /\
  py_op BSub v (VInt b) = Ok (VInt (a - b)) /\
  py_op BOr v (VInt b) = Ok (VInt (Z.lor a b)) /\
  py_op BAnd v (VInt b) = Ok (VInt (Z.land a b)) /\
  py_op BXor v (VInt b) = Ok (VInt (Z.lxor a b)) /\
  (0 <= b -> py_op BShl v (VInt b) = Ok (VInt (a * 2 ^ b)) /\
             py_op BShr v (VInt b) = Ok (VInt (a / 2 ^ b))).
Proof. exact ops_left. Qed.
Print Assumptions c37_left.

(** On the right; partial: subtraction is missing, see [c37_sub_refuted]. *)
Theorem c37_right_partial : forall v a b, holds v a ->
  py_op BAdd (VInt b) v = Ok (VInt (b + a)) /\
  py_op BOr (VInt b) v = Ok (VInt (Z.lor b a)) /\
  py_op BAnd (VInt b) v = Ok (VInt (Z.land b a)) /\
  py_op BXor (VInt b) v = Ok (VInt (Z.lxor b a)).
Proof. exact ops_right. Qed.
Print Assumptions c37_right_partial.

Theorem c37_both_partial : forall v a u b, holds v a -> holds u b ->
  py_op BAdd v u = Ok (VInt (a + b)) /\
  py_op BOr v u = Ok (VInt (Z.lor a b)) /\
  py_op BAnd v u = Ok (VInt (Z.land a b)) /\
  py_op BXor v u = Ok (VInt (Z.lxor a b)).
Proof. exact ops_both. Qed.
Print Assumptions c37_both_partial.

(** Subtraction with a UBInt on the right gives the opposite number. *)
Theorem c37_sub_reversed : forall v a b, holds v a -> py_op BSub (VInt b) v = Ok (VInt (a - b)).
Proof. exact sub_reversed. Qed.
Print Assumptions c37_sub_reversed.

Theorem c37_sub_both_reversed : forall v a u b, holds v a -> holds u b ->
  py_op BSub v u = Ok (VInt (b - a)).
Proof. exact sub_both_reversed. Qed.
Print Assumptions c37_sub_both_reversed.

Theorem c37_sub_refuted :
  exists v a b, holds v a /\ py_op BSub (VInt b) v <> Ok (VInt (b - a)).
Proof.
  exists (VUInt 1 None (VInt 3)), 3, 10. split; [constructor|vm_compute; discriminate].
Qed.
Print Assumptions c37_sub_refuted.

Example c37_case :
  py_op BSub (VUInt 1 None (VInt 10)) (VInt 3) = Ok (VInt 7) /\
  py_op BSub (VInt 10) (VUInt 1 None (VInt 3)) = Ok (VInt (-7)) /\
  py_op BShl (VUInt 2 None (VInt 5)) (VInt 3) = Ok (VInt 40) /\
  py_op BShl (VInt 5) (VUInt 2 None (VInt 3)) = Err TypeError /\
  py_op BOr (VUInt 4 (Some E_PortConfig04) (VMask E_PortConfig04 5)) (VInt 2) = Ok (VInt 7).
Proof. repeat split; reflexivity. Qed.

(** C38: comparisons of a UBInt with an integer and of two UBInts.  Partial:
    two UBInts of one class must fit their width, and the value must be an
    integer or a member of an IntEnum. *)
Theorem c38_uint_int_partial : forall v a b, ordered v a ->
  (py_eq v (VInt b) = Ok (a =? b) /\ py_ne v (VInt b) = negb (a =? b) /\
   py_cmp CLt v (VInt b) = Ok (a <? b) /\ py_cmp CLe v (VInt b) = Ok (a <=? b) /\
   py_cmp CGt v (VInt b) = Ok (b <? a) /\ py_cmp CGe v (VInt b) = Ok (b <=? a)) /\
  (py_eq (VInt b) v = Ok (b =? a) /\ py_ne (VInt b) v = negb (b =? a) /\
   py_cmp CLt (VInt b) v = Ok (b <? a) /\ py_cmp CLe (VInt b) v = Ok (b <=? a) /\
   py_cmp CGt (VInt b) v = Ok (a <? b) /\ py_cmp CGe (VInt b) v = Ok (a <=? b)).
Proof. exact compare_uint_int. Qed.
Print Assumptions c38_uint_int_partial.

Theorem c38_uint_uint_partial : forall v a u b, ordered v a -> ordered u b ->
  (width_of v = width_of u -> fits (width_of v) a /\ fits (width_of u) b) ->
  py_eq v u = Ok (a =? b) /\ py_ne v u = negb (a =? b) /\
  py_cmp CLt v u = Ok (a <? b) /\ py_cmp CLe v u = Ok (a <=? b) /\
  py_cmp CGt v u = Ok (b <? a) /\ py_cmp CGe v u = Ok (b <=? a).
Proof. exact compare_uint_uint. Qed.
Print Assumptions c38_uint_uint_partial.

(** Two equal integers that do not fit cannot be compared. *)
Theorem c38_unfit_refuted :
  exists v, ordered v 300 /\ py_eq v v = Err PackException /\ py_ne v v = false.
Proof. exists (VUInt 1 None (VInt 300)). split; [constructor|split; vm_compute; reflexivity]. Qed.
Print Assumptions c38_unfit_refuted.

(** A received bit mask field is equal to and different from the number that
    was sent, and cannot be ordered. *)
Theorem c38_mask_field : forall w e old pre bs suf z, bit_mask_class e -> big_endian w z bs ->
  (0 < w)%nat ->
  exists v, unpack (VUInt w (Some e) old) (pre ++ bs ++ suf) (List.length pre) = Ok v /\
    py_eq v (VInt z) = Ok true /\ py_ne v (VInt z) = true /\ py_cmp CLt v (VInt z) = Err TypeError.
Proof. exact mask_field_compare. Qed.
Print Assumptions c38_mask_field.

Theorem c38_mask_refuted :
  exists v z, unpack (VUInt 4 (Some E_PortConfig04) VNone) [0; 0; 0; 1] 0 = Ok v /\ holds v z /\
    py_eq v (VInt z) = Ok true /\ py_ne v (VInt z) <> negb true.
Proof.
  exists (VUInt 4 (Some E_PortConfig04) (VMask E_PortConfig04 1)), 1.
  split; [vm_compute; reflexivity|]. split; [constructor; eexists; reflexivity|].
  split; [vm_compute; reflexivity|vm_compute; discriminate].
Qed.
Print Assumptions c38_mask_refuted.

Example c38_case :
  py_cmp CLt (VUInt 1 None (VInt 3)) (VUInt 2 None (VInt 400)) = Ok true /\
  py_eq (VUInt 1 None (VInt 3)) (VUInt 2 (Some E_Type04) (VEnum E_Type04 3)) = Ok true /\
  py_eq (VUInt 2 None (VInt 300)) (VUInt 2 None (VInt 44)) = Ok false /\
  py_cmp CGe (VInt 3) (VUInt 1 None (VInt 3)) = Ok true /\
  fits 2 300.
Proof. repeat split; try (vm_compute; reflexivity); discriminate. Qed.

(** C39.  Partial: [names] lists the selected names of its table; the table of
    an instance, however, is always empty. *)
Theorem c39_names_partial : forall l bits,
  exists names, names_in l (VInt bits) = Ok names /\ selected bits l names.
Proof. exact names_in_selected. Qed.
Print Assumptions c39_names_partial.

Theorem c39_names_empty : forall e bits, mask_names (mask_init e bits) = Ok [].
Proof. exact mask_names_empty. Qed.
Print Assumptions c39_names_empty.

Theorem c39_names_refuted :
  exists e bits members names, enum_def e = EMask members /\ selected bits members names /\
    mask_names (mask_init e (VInt bits)) <> Ok names.
Proof.
  destruct (names_in_selected (class_enum E_PortConfig04) 5) as (names & E & S1).
  exists E_PortConfig04, 5, (class_enum E_PortConfig04), names.
  split; [reflexivity|]. split; [exact S1|].
  replace names with ["OFPPC_PORT_DOWN"; "OFPPC_NO_RECV"] by (vm_compute in E; congruence).
  discriminate.
Qed.
Print Assumptions c39_names_refuted.

(** Reading a name of the class gives its declared value. *)
Theorem c39_class_member : forall e name z, bit_mask_class e ->
  (class_member e name = Ok z <-> exists members, enum_def e = EMask members /\ In (name, z) members).
Proof. exact class_member_declared. Qed.
Print Assumptions c39_class_member.

Example c39_case :
  mask_names (Mask E_PortConfig04 (VInt 68) (class_enum E_PortConfig04))
  = Ok ["OFPPC_NO_RECV"; "OFPPC_NO_PACKET_IN"] /\
  class_member E_PortConfig04 "OFPPC_NO_FWD" = Ok 32 /\
  class_member E_PortConfig04 "OFPPC_NOPE" = Err KeyError.
Proof. repeat split; reflexivity. Qed.

(** C40.  Partial: is_valid() is True exactly when pack() succeeds; when it
    does not, is_valid() raises instead of returning False. *)
Theorem c40_valid_partial : forall v, type_is_valid v = Ok true <-> exists bs, pack v = Ok bs.
Proof. exact is_valid_true. Qed.
Print Assumptions c40_valid_partial.

Theorem c40_never_false : forall w er x, type_is_valid (VUInt w er x) = Ok true \/
  type_is_valid (VUInt w er x) = Err PackException.
Proof. exact is_valid_raises. Qed.
Print Assumptions c40_never_false.

Theorem c40_valid_refuted :
  exists v, (forall bs, pack v <> Ok bs) /\ type_is_valid v <> Ok false.
Proof.
  exists (VUInt 1 None (VInt 256)). split; [|apply is_valid_never_false].
  intros bs. vm_compute. discriminate.
Qed.
Print Assumptions c40_valid_refuted.

Example c40_case :
  type_is_valid (VUInt 2 None (VInt 65535)) = Ok true /\
  type_is_valid (VUInt 2 None (VInt 65536)) = Err PackException.
Proof. split; vm_compute; reflexivity. Qed.

(** C41 is false: no 128-bit integer packs, and unpacking keeps the first two
    of the sixteen bytes. *)
Theorem c41_never_packs : forall er x, u128_pack er x = Err PackException.
Proof. exact u128_never_packs. Qed.
Print Assumptions c41_never_packs.

Theorem c41_unpack_first : forall pre a b bs suf, wf_bytes (a :: b :: bs) -> List.length bs = 14%nat ->
  u128_unpack (pre ++ (a :: b :: bs) ++ suf) (List.length pre) = Ok (VInt (a * 256 + b)).
Proof. exact u128_unpack_first. Qed.
Print Assumptions c41_unpack_first.

Theorem c41_roundtrip_refuted :
  exists v bs, fits 16 v /\ big_endian 16 v bs /\
    u128_pack None (VInt v) <> Ok bs /\ u128_unpack bs 0 <> Ok (VInt v).
Proof.
  exists 1, [0; 0; 0; 0; 0; 0; 0; 0; 0; 0; 0; 0; 0; 0; 0; 1].
  split; [split; [discriminate|reflexivity]|].
  split; [split; [reflexivity|split; [|reflexivity]]|split; vm_compute; discriminate].
  repeat constructor; discriminate.
Qed.
Print Assumptions c41_roundtrip_refuted.

Example c41_case :
  u128_unpack [9; 1; 44; 0; 0; 0; 0; 0; 0; 0; 0; 0; 0; 0; 0; 0; 0] 1 = Ok (VInt 300) /\
  u128_unpack [1; 44] 0 = Err UnpackException.
Proof. split; reflexivity. Qed.
