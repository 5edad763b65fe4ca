(** C51: every field of a decoded object holds what its bytes stand for, at
    the offset of the OpenFlow standard.

    [openflow_layout] (SpecLayout.v) is transcribed from the standard; [reads]
    says what bytes stand for (SpecDecode.v). *)
From Coq Require Import ZArith List Bool String.
From Verif Require Import Base PyText Ids PyVal Classes Interp Utils Spec SpecMsg SpecBasic SpecLayout SpecDecode
  DecodeFacts DecodeFacts2 DecodeFacts3 DecodeCases.
Import ListNotations.
Open Scope string_scope.
Open Scope list_scope.
Open Scope Z_scope.

(** Structures, read at any offset of any buffer.  Partial: an empty buffer, or
    a length of 0 at its start, leaves the defaults (see
    [c51_zero_length_refuted]). *)
Theorem c51_structure_partial : forall c inst b off c' attrs l t,
  new_instance c = Some inst -> wf_bytes b -> something_to_read c' b off -> unpack inst b off = Ok (VObj c' attrs) ->
  openflow_layout c' = Some (l, t) -> (forall l', l <> ("header", 8%nat) :: l') ->
  forall name at_ w, placed 0 l name at_ w -> field_at c' attrs b name (off + at_) w.
Proof. exact decoded_fields. Qed.
Print Assumptions c51_structure_partial.

(** Messages.  Partial: a packet that is only a header leaves the defaults (see
    [c51_empty_refuted]). *)
Theorem c51_message_partial : forall p c attrs l t,
  wf_bytes p -> (8 < List.length p)%nat -> unpack_packet p = Ok (VObj c attrs) -> openflow_layout c = Some (("header", 8%nat) :: l, t) ->
  forall name at_ w, placed 8 l name at_ w ->
    exists d v, get_attr name (class_attrs c) = Some d /\ get_attr name attrs = Some v /\ message_reads name d (slice at_ (at_ + w) p) v.
Proof. exact message_decoded. Qed.
Print Assumptions c51_message_partial.

(** Data behind the fields of a message is all the rest of the packet. *)
Theorem c51_rest : forall p c attrs l t A nm d,
  wf_bytes p -> (8 < List.length p)%nat -> unpack_packet p = Ok (VObj c attrs) -> openflow_layout c = Some (l, t) ->
  (exists l', l = ("header", 8%nat) :: l') -> class_attrs c = A ++ [(nm, VBin d)] -> List.length A = List.length l -> nm <> "body" ->
  get_attr nm attrs = Some (VBin (VBytes (skipn (list_sum (map snd l)) p))).
Proof. exact message_rest. Qed.
Print Assumptions c51_rest.

(** Lists of anything: one object after the other up to the end. *)
Theorem c51_list : forall lc pc b off items a,
  wf_bytes b -> new_instance pc = Some (VObj pc a) -> unpack (VList lc pc []) b off = Ok (VList lc pc items) -> laid_out b off items.
Proof. exact list_laid. Qed.
Print Assumptions c51_list.

(** Lists of records of a fixed size: as many as there are, each at its
    multiple of the size. *)
Theorem c51_records : forall c lc b off items l t,
  In c fixed_records -> wf_bytes b -> unpack (VList lc c []) b off = Ok (VList lc c items) -> openflow_layout c = Some (l, t) ->
  (List.length b <= off + List.length items * t)%nat /\ (items = [] \/ (off + (List.length items - 1) * t < List.length b)%nat) /\
  forall i x, nth_error items i = Some x -> exists attrs, x = VObj c attrs /\
    forall name at_ w, placed 0 l name at_ w -> field_at c attrs b name (off + i * t + at_) w.
Proof. exact list_fields. Qed.
Print Assumptions c51_records.

(** The ports of a switch in OpenFlow 1.0. *)
Theorem c51_ports : forall p c attrs, wf_bytes p -> (8 < List.length p)%nat -> unpack_packet p = Ok (VObj c attrs) -> In c [FeaturesReply01; SwitchFeatures01] ->
  exists items, get_attr "ports" attrs = Some (VList CFixedTypeList PhyPort01 items) /\
    (List.length p <= 32 + List.length items * 48)%nat /\ (items = [] \/ (32 + (List.length items - 1) * 48 < List.length p)%nat) /\
    forall i x, nth_error items i = Some x -> exists at1, x = VObj PhyPort01 at1 /\
      forall l t name at_ w, openflow_layout PhyPort01 = Some (l, t) -> placed 0 l name at_ w -> field_at PhyPort01 at1 p name (32 + i * 48 + at_) w.
Proof. exact ports_decoded. Qed.
Print Assumptions c51_ports.

(** Statistics and multipart messages: the type is in bytes 8 and 9 and decides
    what the body is. *)
Theorem c51_stats_type : forall f p attrs, wf_bytes p -> (8 < List.length p)%nat -> unpack_packet p = Ok (VObj (stats_class f) attrs) ->
  exists t form, big_endian 2 t (slice 8 10 p) /\ In (t, form) (stats_forms f) /\ get_attr (stats_type_name f) attrs = Some (VEnum (stats_type_enum f) t).
Proof. exact stats_type. Qed.
Print Assumptions c51_stats_type.

Theorem c51_stats_list : forall f p attrs t c, wf_bytes p -> (8 < List.length p)%nat -> unpack_packet p = Ok (VObj (stats_class f) attrs) ->
  big_endian 2 t (slice 8 10 p) -> In (t, BList c) (stats_forms f) ->
  exists items, get_attr "body" attrs = Some (VList CFixedTypeList c items) /\ laid_out (skipn (stats_at f) p) 0 items.
Proof. exact stats_list. Qed.
Print Assumptions c51_stats_list.

Theorem c51_stats_struct : forall f p attrs t c, wf_bytes p -> (stats_at f < List.length p)%nat -> unpack_packet p = Ok (VObj (stats_class f) attrs) ->
  big_endian 2 t (slice 8 10 p) -> In (t, BStruct c) (stats_forms f) ->
  exists at1, get_attr "body" attrs = Some (VObj c at1) /\
    forall l u name at_ w, openflow_layout c = Some (l, u) -> placed 0 l name at_ w -> field_at c at1 p name (stats_at f + at_) w.
Proof. exact stats_struct. Qed.
Print Assumptions c51_stats_struct.

Theorem c51_stats_raw : forall f p attrs t, wf_bytes p -> (8 < List.length p)%nat -> unpack_packet p = Ok (VObj (stats_class f) attrs) ->
  big_endian 2 t (slice 8 10 p) -> In (t, BRaw) (stats_forms f) -> get_attr "body" attrs = Some (VBin (VBytes (skipn (stats_at f) p))).
Proof. exact stats_raw. Qed.
Print Assumptions c51_stats_raw.

(** A flow modification of eight bytes is accepted: its fields are not read
    from anywhere. *)
Theorem c51_empty_refuted : exists p c attrs l t name at_ w d v, wf_bytes p /\ unpack_packet p = Ok (VObj c attrs) /\
  openflow_layout c = Some (("header", 8%nat) :: l, t) /\ placed 8 l name at_ w /\ get_attr name (class_attrs c) = Some d /\ get_attr name attrs = Some v /\
  ~ message_reads name d (slice at_ (at_ + w) p) v.
Proof. exact empty_refuted. Qed.
Print Assumptions c51_empty_refuted.

(** An element of length 0 at the start of a buffer: nothing is read. *)
Theorem c51_zero_length_refuted : exists c inst b attrs l t name at_ w, new_instance c = Some inst /\ wf_bytes b /\ b <> [] /\ unpack inst b 0 = Ok (VObj c attrs) /\
  openflow_layout c = Some (l, t) /\ (forall l', l <> ("header", 8%nat) :: l') /\ placed 0 l name at_ w /\ ~ field_at c attrs b name at_ w.
Proof. exact zero_length_refuted. Qed.
Print Assumptions c51_zero_length_refuted.

(** A port status of OpenFlow 1.3, and the reply to a port description
    request with two ports. *)
Example c51_case : exists attrs, unpack_packet case_port_status = Ok (VObj PortStatus04 attrs) /\ (8 < List.length case_port_status)%nat /\
  get_attr "reason" attrs = Some (VUInt 1 (Some E_PortReason04) (VEnum E_PortReason04 2)).
Proof. eexists. split; [vm_compute; reflexivity|]. split; [vm_compute; repeat constructor|reflexivity]. Qed.
Example c51_list_case : exists attrs items, unpack_packet case_ports = Ok (VObj MultipartReply04 attrs) /\ In (13, BList Port04) (stats_forms FMultipartReply) /\
  big_endian 2 13 (slice 8 10 case_ports) /\ get_attr "body" attrs = Some (VList CFixedTypeList Port04 items) /\ List.length items = 2%nat.
Proof.
  eexists. eexists. split; [vm_compute; reflexivity|]. split; [cbn; tauto|]. split; [|split; reflexivity].
  split; [reflexivity|]. split; [|reflexivity]. vm_compute. repeat constructor; discriminate.
Qed.
Example c51_records_case : In Port04 fixed_records /\ In PhyPort01 fixed_records /\ In TableStats04 fixed_records.
Proof. cbn. tauto. Qed.
