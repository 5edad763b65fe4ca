(** Sending accepted packets again, with any nesting (C43). *)
From Coq Require Import ZArith List Bool String.
From Verif Require Import Base PyText Ids PyVal Classes Interp Utils Spec SpecMsg SpecReencode SpecTidy TidyThm TidyCases.
Import ListNotations.
Open Scope string_scope.
Open Scope list_scope.
Open Scope Z_scope.

(** C43 for messages with actions, matches, instructions, buckets, bands,
    properties and statistics of any number and nesting.  [bs] is the body, laid
    out as the standard says, [rest] whatever follows it: sent again, the packet
    keeps version, type and transaction id and has the body [bs'], which is [bs]
    with zeros for padding.  Partial: text fields must end with a NUL (see
    [c43_full_text_refuted]), two classes have another type (see
    [c43_type_refuted]), and non-empty lists declared as plain FixedTypeList are
    not in the grammar (see [c43_bands_refuted]). *)
Theorem c43_resend_partial : forall p c attrs bs bs' rest,
  wf_bytes p -> unpack_packet p = Ok (VObj c attrs) -> c <> QueueGetConfigRequest04 -> c <> QueueGetConfigReply04 ->
  ends_in_nul (VObj c attrs) = true -> skipn 8 p = bs ++ rest -> tidy_message c bs bs' rest ->
  exists p', pack (VObj c attrs) = Ok p' /\ same_header p p' /\ skipn 8 p' = bs'.
Proof. exact resend. Qed.
Print Assumptions c43_resend_partial.

(** So with zeros for padding and nothing behind the fields it comes back
    unchanged. *)
Theorem c43_resend_unchanged_partial : forall p c attrs bs,
  wf_bytes p -> unpack_packet p = Ok (VObj c attrs) -> c <> QueueGetConfigRequest04 -> c <> QueueGetConfigReply04 ->
  ends_in_nul (VObj c attrs) = true -> skipn 8 p = bs -> tidy_message c bs bs [] -> pack (VObj c attrs) = Ok p.
Proof. exact resend_same. Qed.
Print Assumptions c43_resend_unchanged_partial.

(** The length in a METER_MOD with a band that is sent again does not count the
    band. *)
Theorem c43_bands_refuted : exists p c attrs p', unpack_packet p = Ok (VObj c attrs) /\ pack (VObj c attrs) = Ok p' /\
  List.length p' = 32%nat /\ slice 2 4 p = [0; 32] /\ slice 2 4 p' = [0; 16].
Proof.
  destruct meter_mod_case as (attrs & U & _ & P). exists (meter_mod_packet 32), MeterMod04, attrs, (meter_mod_packet 16).
  split; [exact U|]. split; [exact P|]. repeat split; reflexivity.
Qed.
Print Assumptions c43_bands_refuted.

Example c43_flow_mod_case :
  (forall x, tidy_message FlowMod04 (skipn 8 (flow_mod_packet x)) (skipn 8 (flow_mod_packet 0)) []) /\ accepted_as (flow_mod_packet 9) (flow_mod_packet 0) FlowMod04.
Proof. exact (conj flow_mod_tidy flow_mod_case). Qed.
Example c43_packet_out_case :
  (forall x, tidy_message PacketOut01 (skipn 8 (packet_out_packet x)) (skipn 8 (packet_out_packet 0)) []) /\ accepted_as (packet_out_packet 9) (packet_out_packet 0) PacketOut01.
Proof. exact (conj packet_out_tidy packet_out_case). Qed.
Example c43_flow_reply_case :
  (forall x, tidy_message MultipartReply04 (skipn 8 (flow_reply_packet x)) (skipn 8 (flow_reply_packet 0)) []) /\ accepted_as (flow_reply_packet 9) (flow_reply_packet 0) MultipartReply04.
Proof. exact (conj flow_reply_tidy flow_reply_case). Qed.
