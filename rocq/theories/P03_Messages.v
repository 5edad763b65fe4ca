(** C09, C10, C11, C12: sizes, the header length and the round-trip of
    structures and messages.

    [enc_obj] and [enc_msg] are the wire relations of Spec.v and SpecMsg.v;
    [wf_struct] and [wf_message] are the boolean well-formedness tests that
    imply them; [same_msg] (SpecSame.v) compares the attributes of a received
    message with those of the message that was sent. *)
From Coq Require Import ZArith List Bool String.
From Verif Require Import Base PyText Ids PyVal Classes Interp Utils Spec SpecMsg SpecBasic SpecSame
  Ref Samples Witness MsgMain TopFacts.
Import ListNotations.
Open Scope string_scope.
Open Scope list_scope.
Open Scope Z_scope.

(** C09.  Partial: the structures with a non-empty list declared as a plain
    FixedTypeList are not well-formed here, see [c09_size_refuted]. *)
Theorem c09_struct_size_partial : forall n k base v bs out,
  enc_obj n k true base v bs out -> pack v = Ok bs /\ get_size v = Ok (zlen bs).
Proof. exact obj_pack_size. Qed.
Print Assumptions c09_struct_size_partial.

Theorem c09_wf_struct_size_partial : forall n base v, wf_struct n base v = true ->
  exists bs, pack v = Ok bs /\ get_size v = Ok (zlen bs).
Proof. exact wf_struct_size. Qed.
Print Assumptions c09_wf_struct_size_partial.

Theorem c09_message_size_partial : forall n v m, wf_message n v m = true ->
  exists bs, pack m = Ok bs /\ get_size m = Ok (zlen bs).
Proof. exact wf_message_size. Qed.
Print Assumptions c09_message_size_partial.

Example c09_case :
  wf_struct 20 MeterBandHeader04 drop_band = true /\ wf_struct 20 Bucket04 bucket = true /\
  get_size bucket = Ok 32 /\
  forall v t c, In (t, c) (openflow_types v) -> ~ misfiled v t ->
    exists attrs, wf_message 20 v (VObj c attrs) = true.
Proof.
  split; [vm_compute; reflexivity|]. split; [vm_compute; reflexivity|].
  split; [vm_compute; reflexivity|]. exact types_inhabited.
Qed.

(** The size of a MeterMod does not count its bands, that of a GroupDescStats
    not its buckets. *)
Theorem c09_size_refuted :
  (exists bs s, pack meter_mod = Ok bs /\ get_size meter_mod = Ok s /\ s <> zlen bs) /\
  (exists bs s, pack group_desc = Ok bs /\ get_size group_desc = Ok s /\ s <> zlen bs).
Proof. exact size_refuted. Qed.
Print Assumptions c09_size_refuted.

(** C10: bytes 2 and 3 hold the total length; longer messages are refused.
    Partial for the same reason as C09. *)
Theorem c10_header_length_partial : forall n v t x m bs out, enc_msg n v t x m bs out ->
  pack m = Ok bs /\ big_endian 2 (zlen bs) (slice 2 4 bs).
Proof. exact message_length. Qed.
Print Assumptions c10_header_length_partial.

Theorem c10_wf_header_length_partial : forall n v m, wf_message n v m = true ->
  exists bs, pack m = Ok bs /\ big_endian 2 (zlen bs) (slice 2 4 bs).
Proof. exact wf_message_length. Qed.
Print Assumptions c10_wf_header_length_partial.

Theorem c10_too_long : forall n v t x c attrs body outs,
  In (t, c) (openflow_types v) -> sendable v t x c attrs -> enc_body n v c attrs body outs ->
  65536 <= 8 + zlen body ->
  pack (VObj c attrs) = Err PackException /\ get_size (VObj c attrs) = Ok (8 + zlen body).
Proof. exact message_too_long. Qed.
Print Assumptions c10_too_long.

(** An EchoRequest with any number of data bytes. *)
Theorem c10_echo : forall x data, 0 <= x < 2 ^ 32 -> wf_bytes data ->
  let m := with_attrs new_EchoRequest04
             [("header", with_attrs new_Header04 [("message_type", VInt 2); ("xid", VInt x)]);
              ("data", VBytes data)] in
  if 8 + zlen data <? 65536
  then exists bs, pack m = Ok bs /\ big_endian 2 (zlen bs) (slice 2 4 bs) /\ zlen bs = 8 + zlen data
  else pack m = Err PackException.
Proof. exact echo_length. Qed.
Print Assumptions c10_echo.

Theorem c10_header_length_refuted :
  exists bs, pack meter_mod = Ok bs /\ ~ big_endian 2 (zlen bs) (slice 2 4 bs).
Proof. exact length_refuted. Qed.
Print Assumptions c10_header_length_refuted.

(** C11: OpenFlow 1.0 messages.  Partial: fields declared with an enumeration
    must hold a member of it, although ordinary port numbers are not. *)
Theorem c11_roundtrip_partial : forall n t x m bs out, enc_msg n V01 t x m bs out ->
  pack m = Ok bs /\ unpack_packet bs = Ok out /\ same_msg m out /\ pack out = Ok bs.
Proof. exact (fun n => message_roundtrip n V01). Qed.
Print Assumptions c11_roundtrip_partial.

Theorem c11_wf_roundtrip_partial : forall n m, wf_message n V01 m = true ->
  exists bs out, pack m = Ok bs /\ unpack_packet bs = Ok out /\ same_msg m out /\ pack out = Ok bs.
Proof. exact (fun n => wf_roundtrip n V01). Qed.
Print Assumptions c11_wf_roundtrip_partial.

Example c11_case : forall t c, In (t, c) (openflow_types V01) ->
  exists attrs, wf_message 20 V01 (VObj c attrs) = true.
Proof. exact types_inhabited01. Qed.

Theorem c11_roundtrip_refuted :
  exists bs, pack queue_request01 = Ok bs /\ unpack_packet bs = Err UnpackException.
Proof. exact queue01_refuted. Qed.
Print Assumptions c11_roundtrip_refuted.

(** C12: OpenFlow 1.3 messages.  Partial: as C11, and the two
    QueueGetConfig messages are created with the type code of another
    message. *)
Theorem c12_roundtrip_partial : forall n t x m bs out, enc_msg n V04 t x m bs out ->
  pack m = Ok bs /\ unpack_packet bs = Ok out /\ same_msg m out /\ pack out = Ok bs.
Proof. exact (fun n => message_roundtrip n V04). Qed.
Print Assumptions c12_roundtrip_partial.

Theorem c12_wf_roundtrip_partial : forall n m, wf_message n V04 m = true ->
  exists bs out, pack m = Ok bs /\ unpack_packet bs = Ok out /\ same_msg m out /\ pack out = Ok bs.
Proof. exact (fun n => wf_roundtrip n V04). Qed.
Print Assumptions c12_wf_roundtrip_partial.

Example c12_case : forall t c, In (t, c) (openflow_types V04) -> t <> 22 -> t <> 23 ->
  exists attrs, wf_message 20 V04 (VObj c attrs) = true.
Proof. exact types_inhabited04. Qed.

(** A QueueGetConfigRequest is received as a GetConfigRequest; a MeterMod with
    a band is not received. *)
Theorem c12_roundtrip_refuted :
  (exists bs a, pack queue_request04 = Ok bs /\ unpack_packet bs = Ok (VObj GetConfigRequest04 a)) /\
  (exists bs, pack meter_mod = Ok bs /\ unpack_packet bs = Err UnpackException).
Proof. exact queue04_refuted. Qed.
Print Assumptions c12_roundtrip_refuted.
