(** C43: sending an accepted packet again. *)
From Coq Require Import ZArith List Bool String.
From Verif Require Import Base PyText Ids PyVal Classes Interp Utils Spec SpecMsg SpecBasic SpecLayout SpecDecode SpecReencode
  ReencodeFacts2 ReencodeFacts3 ReencodeFacts4 ReencodeFacts5 ReencodeCases.
Import ListNotations.
Open Scope string_scope.
Open Scope list_scope.
Open Scope Z_scope.

(** Whatever bytes a packet has: if it is accepted, is a message whose fields
    all have a fixed size and reaches to their end, the message can be encoded
    again, and only padding and the bytes behind the fields are lost.  A text
    that fills its field is excluded, see [c43_full_text_refuted]. *)
Theorem c43_fixed : forall p c attrs l t,
  wf_bytes p -> unpack_packet p = Ok (VObj c attrs) -> openflow_layout c = Some (l, t) -> List.length l = List.length (class_attrs c) ->
  (list_sum (map snd l) <= List.length p)%nat -> c <> QueueGetConfigRequest04 -> c <> QueueGetConfigReply04 -> ends_in_nul (VObj c attrs) = true ->
  exists p', pack (VObj c attrs) = Ok p' /\ recoded c p (slice 8 (list_sum (map snd l)) p) p'.
Proof. exact reencode_fixed. Qed.
Print Assumptions c43_fixed.

(** The same when data up to the end follows the fields. *)
Theorem c43_data : forall p c attrs l t A nm d,
  wf_bytes p -> unpack_packet p = Ok (VObj c attrs) -> openflow_layout c = Some (l, t) -> special c = false ->
  class_attrs c = A ++ [(nm, VBin d)] -> List.length A = List.length l -> (list_sum (map snd l) <= List.length p)%nat ->
  c <> QueueGetConfigRequest04 -> c <> QueueGetConfigReply04 -> ends_in_nul (VObj c attrs) = true ->
  exists p', pack (VObj c attrs) = Ok p' /\ recoded c p (skipn 8 p) p'.
Proof. exact reencode_data. Qed.
Print Assumptions c43_data.

(** The messages these two are about. *)
Example c43_messages :
  filter (fun c => all_fixed c && negb (cid_eqb c QueueGetConfigRequest04)) messages =
    [FeaturesRequest01; GetConfigRequest01; GetConfigReply01; SetConfig01; FlowRemoved01; PortStatus01; PortMod01; BarrierRequest01; BarrierReply01; QueueGetConfigRequest01;
     FeaturesRequest04; FeaturesReply04; GetConfigRequest04; GetConfigReply04; SetConfig04; PortStatus04; PortMod04; TableMod04; BarrierRequest04; BarrierReply04;
     RoleRequest04; RoleReply04; GetAsyncRequest04; GetAsyncReply04; SetAsync04] /\
  filter then_data messages = [Hello01; EchoRequest01; EchoReply01; VendorHeader01; PacketIn01; EchoRequest04; EchoReply04; ExperimenterHeader04].
Proof. exact covered_messages. Qed.

(** Whole records up to the end: FEATURES_REPLY of OpenFlow 1.0. *)
Theorem c43_records : forall p c attrs l t A nm lc pc lr tr k,
  wf_bytes p -> unpack_packet p = Ok (VObj c attrs) -> openflow_layout c = Some (l, t) -> special c = false ->
  class_attrs c = A ++ [(nm, VList lc pc [])] -> lc <> CFixedTypeList -> subclass lc CFixedTypeList = true -> In pc fixed_records -> openflow_layout pc = Some (lr, tr) ->
  List.length A = List.length l -> List.length p = (list_sum (map snd l) + k * tr)%nat -> (8 < List.length p)%nat ->
  c <> QueueGetConfigRequest04 -> c <> QueueGetConfigReply04 -> ends_in_nul (VObj c attrs) = true ->
  exists p', pack (VObj c attrs) = Ok p' /\ recoded c p (skipn 8 p) p'.
Proof. exact reencode_records. Qed.
Print Assumptions c43_records.

Example c43_records_case : exists A lc, class_attrs FeaturesReply01 = A ++ [("ports", VList lc PhyPort01 [])] /\ lc <> CFixedTypeList /\ subclass lc CFixedTypeList = true /\
  In PhyPort01 fixed_records /\ option_map (fun q => List.length (fst q)) (openflow_layout FeaturesReply01) = Some (List.length A) /\ special FeaturesReply01 = false.
Proof. eexists (removelast (class_attrs FeaturesReply01)), _. split; [reflexivity|]. split; [discriminate|]. split; [reflexivity|]. split; [cbn; tauto|]. split; reflexivity. Qed.

(** Errors of the types that the standard gives codes for. *)
Theorem c43_error : forall v p attrs,
  wf_bytes p -> unpack_packet p = Ok (VObj (error_class v) attrs) -> (12 <= List.length p)%nat -> In (place_value (slice 8 10 p)) (map fst (error_codes v)) ->
  exists p', pack (VObj (error_class v) attrs) = Ok p' /\ recoded (error_class v) p (skipn 8 p) p'.
Proof. exact reencode_error. Qed.
Print Assumptions c43_error.

(** Statistics and multipart messages, when the body has whole records of a
    fixed size, one structure of a fixed size, or raw bytes. *)
Theorem c43_stats : forall f p attrs t form,
  wf_bytes p -> unpack_packet p = Ok (VObj (stats_class f) attrs) -> (stats_at f <= List.length p)%nat ->
  big_endian 2 t (slice 8 10 p) -> In (t, form) (stats_forms f) -> whole form (skipn (stats_at f) p) -> ends_in_nul (VObj (stats_class f) attrs) = true ->
  exists p', pack (VObj (stats_class f) attrs) = Ok p' /\ recoded_stats (stats_class f) (stats_at f) form p p'.
Proof. exact reencode_stats. Qed.
Print Assumptions c43_stats.

(** So a packet whose padding is zero and that ends with its fields comes back
    unchanged: clearing determines the bytes. *)
Theorem c43_unchanged : forall p m c p', wf_bytes p -> unpack_packet p = Ok m -> recoded c p (skipn 8 p) p' ->
  cleared_body (tl (class_attrs c)) (skipn 8 p) (skipn 8 p) -> p' = p.
Proof. exact recoded_same. Qed.
Print Assumptions c43_unchanged.

Theorem c43_stats_unchanged : forall p m f form p', wf_bytes p -> unpack_packet p = Ok m -> recoded_stats (stats_class f) (stats_at f) form p p' ->
  cleared_all (removelast (tl (class_attrs (stats_class f)))) (slice 8 (stats_at f) p) (slice 8 (stats_at f) p) ->
  cleared_form form (skipn (stats_at f) p) (skipn (stats_at f) p) -> p' = p.
Proof. exact recoded_stats_same. Qed.
Print Assumptions c43_stats_unchanged.

(** A name that fills its field comes back without its last character. *)
Theorem c43_full_text_refuted : exists p c attrs p', wf_bytes p /\ unpack_packet p = Ok (VObj c attrs) /\ pack (VObj c attrs) = Ok p' /\
  slice 32 48 p = repeat 97 16%nat /\ slice 32 48 p' = repeat 97 15%nat ++ [0].
Proof. exact full_name_refuted. Qed.
Print Assumptions c43_full_text_refuted.

(** Bytes behind the fields are dropped. *)
Theorem c43_behind_refuted : exists p c attrs p', wf_bytes p /\ unpack_packet p = Ok (VObj c attrs) /\ pack (VObj c attrs) = Ok p' /\
  List.length p = 9%nat /\ List.length p' = 8%nat.
Proof. exact behind_refuted. Qed.
Print Assumptions c43_behind_refuted.

(** A QUEUE_GET_CONFIG_REQUEST of OpenFlow 1.3 is sent again with another
    type. *)
Theorem c43_type_refuted : exists p c attrs p', wf_bytes p /\ unpack_packet p = Ok (VObj c attrs) /\ pack (VObj c attrs) = Ok p' /\ nth 1 p 0 = 22 /\ nth 1 p' 0 = 7.
Proof. exact type_changed. Qed.
Print Assumptions c43_type_refuted.

Example c43_echo_case : exists attrs, unpack_packet echo_packet = Ok (VObj EchoRequest04 attrs) /\ ends_in_nul (VObj EchoRequest04 attrs) = true /\
  pack (VObj EchoRequest04 attrs) = Ok echo_packet.
Proof. exact case_echo. Qed.
Example c43_status_case : exists attrs, unpack_packet (status_packet 5) = Ok (VObj PortStatus04 attrs) /\ ends_in_nul (VObj PortStatus04 attrs) = true /\
  pack (VObj PortStatus04 attrs) = Ok (status_packet 0).
Proof. exact case_status. Qed.
Example c43_stats_case : exists attrs p', unpack_packet port_stats_packet = Ok (VObj StatsReply01 attrs) /\ ends_in_nul (VObj StatsReply01 attrs) = true /\
  In (4, BList PortStats01) (stats_forms FStatsReply) /\ whole (BList PortStats01) (skipn 12 port_stats_packet) /\
  pack (VObj StatsReply01 attrs) = Ok p' /\ p' = [1; 17; 0; 116; 0; 0; 0; 2] ++ [0; 4; 0; 0] ++ [0; 3] ++ [0; 0; 0; 0; 0; 0] ++ repeat 1 96%nat.
Proof. exact case_port_stats. Qed.
Example c43_error_case : exists attrs, unpack_packet [1; 1; 0; 14; 0; 0; 0; 2; 0; 3; 0; 1; 5; 6] = Ok (VObj ErrorMsg01 attrs) /\
  In 3 (map fst (error_codes V01)) /\ pack (VObj ErrorMsg01 attrs) = Ok [1; 1; 0; 14; 0; 0; 0; 2; 0; 3; 0; 1; 5; 6].
Proof. exact case_error. Qed.
