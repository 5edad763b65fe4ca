(** C46: field lookup in an OpenFlow 1.3 match and the input port of a PacketIn. *)
From Coq Require Import ZArith List Bool String Lia.
From Verif Require Import Base PyText Ids PyVal Classes Interp Utils Access Spec SpecMsg SpecBasic SpecNet SpecStruct
  SpecAccess UnpackTotal AccessFacts.
Import ListNotations.
Open Scope string_scope.
Open Scope list_scope.
Open Scope Z_scope.

(** The value of the first TLV with that field number, whatever its class. *)
Theorem c46_get_field : forall m mt ts t z u,
  match_holds m mt ts -> plain_number t z -> first_tlv z ts u ->
  exists v, get_field m t = Ok v /\ value_bytes v (ox_value u).
Proof. exact get_field_first. Qed.
Print Assumptions c46_get_field.

Theorem c46_get_field_none : forall m mt ts t z,
  match_holds m mt ts -> plain_number t z -> (get_field m t = Ok VNone <-> no_tlv z ts).
Proof. exact get_field_none. Qed.
Print Assumptions c46_get_field_none.

(** A received PacketIn has the port of its first TLV with field number 0.
    Partial: the class of the TLV is not looked at, see c46_class_refuted. *)
Theorem c46_in_port_partial : forall buffer total reason table cookie mt ts data x u,
  0 <= buffer < 2 ^ 32 -> 0 <= total < 65536 -> 0 <= reason <= 2 -> 0 <= table < 256 -> 0 <= cookie < 2 ^ 64 ->
  match_ok mt ts -> wf_bytes data -> 0 <= x < 2 ^ 32 ->
  let body := packet_in_wire buffer total reason table cookie mt ts data in
  8 + zlen body < 65536 -> first_tlv 0 ts u ->
  exists p, unpack_packet (wire_header V04 10 (8 + zlen body) x ++ body) = Ok p /\
    in_port p = Ok (VInt (place_value (ox_value u))).
Proof. exact received_port. Qed.
Print Assumptions c46_in_port_partial.

(** Without such a TLV the property raises instead of giving None. *)
Theorem c46_missing : forall attrs m mt ts, get_attr "match" attrs = Some m -> match_holds m mt ts ->
  no_tlv 0 ts -> in_port (VObj PacketIn04 attrs) = Err TypeError.
Proof. exact in_port_missing. Qed.
Print Assumptions c46_missing.

Definition port_tlv : oxm := mk_oxm 0x8000 0 0 [0; 0; 1; 7].
Definition other_tlv : oxm := mk_oxm 0 0 0 [9; 9].

Example c46_case : match_ok 1 [mk_oxm 0x8000 5 0 [8; 0]; port_tlv] /\
  first_tlv 0 [mk_oxm 0x8000 5 0 [8; 0]; port_tlv] port_tlv /\
  (do p <- unpack_packet (wire_header V04 10 54 77 ++
      packet_in_wire 1 2 0 3 4 1 [mk_oxm 0x8000 5 0 [8; 0]; port_tlv] [1; 2; 3; 4]); in_port p) = Ok (VInt 263).
Proof.
  split; [|split].
  - split; [auto|]. split.
    + repeat apply Forall_cons; try apply Forall_nil; (split; [cbn; tauto|]); (split; [cbn; lia|]); (split; [cbn; tauto|]);
        (split; [apply wf_bytesb_ok; reflexivity|cbn; lia]).
    + vm_compute. reflexivity.
  - apply ft_later; [discriminate|]. constructor. reflexivity.
  - vm_compute. reflexivity.
Qed.

(** A TLV of another class with the same field number is taken for the port. *)
Theorem c46_class_refuted : exists ts, ts = [other_tlv; port_tlv] /\ match_ok 1 ts /\
  (do p <- unpack_packet (wire_header V04 10 54 77 ++ packet_in_wire 1 2 0 3 4 1 ts [1; 2; 3; 4]); in_port p)
  = Ok (VInt 2313).
Proof.
  eexists. split; [reflexivity|]. split.
  - split; [auto|]. split.
    + repeat apply Forall_cons; try apply Forall_nil; (split; [cbn; tauto|]); (split; [cbn; lia|]); (split; [cbn; tauto|]);
        (split; [apply wf_bytesb_ok; reflexivity|cbn; lia]).
    + vm_compute. reflexivity.
  - vm_compute. reflexivity.
Qed.
Print Assumptions c46_class_refuted.
