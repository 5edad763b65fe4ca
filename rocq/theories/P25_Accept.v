(** Packets that follow the standard are accepted (C58). *)
From Coq Require Import ZArith List Bool String.
From Verif Require Import Base PyText Ids PyVal Classes Interp Utils Spec SpecMsg SpecBasic SpecReencode SpecTidy SpecAccept AcceptThm TidyCases AcceptCases.
Import ListNotations.
Open Scope string_scope.
Open Scope list_scope.
Open Scope Z_scope.

(** C58.  A packet of less than 65536 bytes whose header gives its version, type
    and length, and whose body is laid out as the standard says, with declared
    numbers in the enumerated fields, is decoded, to the class of its type.
    Behind the fields of a message whose end is known, and behind a statistics
    body that is one structure, any bytes may follow.  Partial: text fields must
    be ASCII ending with a NUL, lists declared as plain FixedTypeList are covered
    only at the end of a message or as a statistics body, and two types are filed
    under each other's class; see also the two refutations below. *)
Theorem c58_accepted_partial : forall v t x c bs rest,
  In (t, c) (openflow_types v) -> ~ misfiled v t -> 0 <= x < 2 ^ 32 -> wf_bytes (bs ++ rest) -> 8 + zlen (bs ++ rest) < 65536 ->
  fit_message c bs rest ->
  exists attrs, unpack_packet (wire_header v t (8 + zlen (bs ++ rest)) x ++ bs ++ rest) = Ok (VObj c attrs) /\ ends_in_nul (VObj c attrs) = true.
Proof. exact accept. Qed.
Print Assumptions c58_accepted_partial.

(** What is decoded packs to the same packet with zeros for padding and without
    what followed the body. *)
Theorem c58_relayed_partial : forall v t x c bs bs' rest,
  In (t, c) (openflow_types v) -> ~ misfiled v t -> c <> QueueGetConfigRequest04 -> c <> QueueGetConfigReply04 -> 0 <= x < 2 ^ 32 ->
  wf_bytes (bs ++ rest) -> 8 + zlen (bs ++ rest) < 65536 -> fit_message c bs rest -> tidy_message c bs bs' rest ->
  exists m, unpack_packet (wire_header v t (8 + zlen (bs ++ rest)) x ++ bs ++ rest) = Ok m /\
            pack m = Ok (wire_header v t (8 + zlen bs) x ++ bs').
Proof. exact accept_resend. Qed.
Print Assumptions c58_relayed_partial.

(** Numbers that the standard defines and the library declares, but has no class
    for: a METER_MOD with an experimenter band ends in a KeyError. *)
Theorem c58_band_refuted : exists p, List.length p = 32%nat /\
  p = wire_header V04 29 32 9 ++ [0; 0; 0; 0; 0; 0; 0; 1] ++ [255; 255; 0; 16; 0; 0; 0; 10; 0; 0; 0; 1; 0; 0; 0; 0] /\
  declared E_MeterBandType04 65535 /\ unpack_packet p = Err KeyError.
Proof.
  eexists. split; [|split; [reflexivity|split; [|vm_compute; reflexivity] ] ]; [reflexivity|].
  eapply declared_known; [|left; reflexivity]. vm_compute. repeat (first [left; reflexivity | right]).
Qed.
Print Assumptions c58_band_refuted.
(** An error of the experimenter type is refused. *)
Theorem c58_error_refuted : exists p,
  p = wire_header V04 1 16 9 ++ [255; 255; 0; 1; 0; 0; 0; 5] /\ declared E_ErrorType04 65535 /\ unpack_packet p = Err UnpackException.
Proof.
  eexists. split; [reflexivity|split; [|vm_compute; reflexivity] ].
  eapply declared_known; [|left; reflexivity]. vm_compute. repeat (first [left; reflexivity | right]).
Qed.
Print Assumptions c58_error_refuted.

(** A FLOW_MOD with a match and a nested action, a PACKET_OUT with two actions, a
    statistics reply with two entries, a METER_MOD with two bands and an error;
    [x] is any byte. *)
Example c58_flow_mod_case : forall x, fit_message FlowMod04 (skipn 8 (flow_mod_packet x)) [] /\ tidy_message FlowMod04 (skipn 8 (flow_mod_packet x)) (skipn 8 (flow_mod_packet 0)) [].
Proof. exact (fun x => conj (flow_mod_fit x) (flow_mod_tidy x)). Qed.
Example c58_packet_out_case : forall x, fit_message PacketOut01 (skipn 8 (packet_out_packet x)) [].
Proof. exact packet_out_fit. Qed.
Example c58_flow_reply_case : forall x, fit_message MultipartReply04 (skipn 8 (flow_reply_packet x)) [].
Proof. exact flow_reply_fit. Qed.
Example c58_meter_mod_case : forall x, fit_message MeterMod04 (meter_bands x) [].
Proof. exact meter_mod_fit. Qed.
Example c58_error_case : forall data, fit_message ErrorMsg04 (be_encode 2 5 ++ be_encode 2 2 ++ data) [].
Proof. exact error_fit. Qed.
