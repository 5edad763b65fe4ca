(** C49: the constants of the library are those of the OpenFlow standard.

    [standard e name z] (SpecConstants.v): openflow.h gives [name] the value
    [z]; [member e name z]: the library does. *)
From Coq Require Import ZArith List Bool String.
From Verif Require Import Base PyText Ids PyVal Classes Interp SpecBasic SpecConstants ConstantsFacts.
Import ListNotations.
Open Scope string_scope.
Open Scope list_scope.
Open Scope Z_scope.

(** Every constant of the library has the value of the standard.  Three have
    another name than in the standard, three are not in the standard. *)
Theorem c49_library_partial : forall e name z, member e name z ->
  In (e, name) only_library \/
  exists name', (name' = name \/ In (e, name, name') misnamed) /\ standard e name' z.
Proof. exact library_standard. Qed.
Print Assumptions c49_library_partial.

(** Every constant of the standard, in these enumerations, is in the library;
    one is not. *)
Theorem c49_standard_partial : forall e name z, standard e name z ->
  In (e, name) only_standard \/
  exists name', (name' = name \/ In (e, name', name) misnamed) /\ member e name' z.
Proof. exact standard_library. Qed.
Print Assumptions c49_standard_partial.

(** In every field of every structure that refers to an enumeration, every
    constant of the standard fits, is written as its number and is read back. *)
Theorem c49_fields : forall c field w e d name z,
  In (field, VUInt w (Some e) d) (class_attrs c) -> standard e name z ->
  exists bs v, big_endian w z bs /\ (v = VEnum e z \/ v = VMask e z) /\ pack (VUInt w (Some e) v) = Ok bs /\
    forall old pre suf, unpack (VUInt w (Some e) old) (pre ++ bs ++ suf) (List.length pre) = Ok (VUInt w (Some e) v).
Proof. exact standard_field. Qed.
Print Assumptions c49_fields.

(** OFPPC_NO_FLOOD of OpenFlow 1.0 does not exist in the library. *)
Theorem c49_names_refuted : exists e name z, standard e name z /\ forall z', ~ member e name z'.
Proof. exact names_refuted. Qed.
Print Assumptions c49_names_refuted.

Example c49_case :
  standard E_PortConfig01 "OFPPC_NO_FLOOD" 16 /\ member E_PortConfig01 "OFPPC_FLOOD" 16 /\
  standard E_Type01 "OFPT_BARRIER_REQUEST" 18 /\ standard E_Type04 "OFPT_BARRIER_REQUEST" 20 /\
  standard E_FlowWildCards01 "OFPFW_NW_DST_MASK" 0xfc000 /\ member E_FlowWildCards01 "OFPFW_NW_DST_MASK" 0xfc000 /\
  In ("band_type", VUInt 2 (Some E_MeterBandType04) VNone) (class_attrs MeterBandHeader04).
Proof. exact constants_case. Qed.
