(** Concrete objects for P06_Structures. *)
From Coq Require Import ZArith List Bool String Lia.
From Verif Require Import Base PyText Ids PyVal Classes Interp Utils Spec SpecMsg SpecSame SpecBasic SpecNet
  SpecStruct UnpackTotal Ref RefFacts.
Import ListNotations.
Open Scope string_scope.
Open Scope list_scope.
Open Scope Z_scope.

Lemma items_by_ref n pc items bs outs :
  ref_items (ref_obj n) pc items = Some (bs, outs) -> enc_items n pc items bs outs.
Proof. intros H. apply (ref_items_ok n (ref_obj n) pc items (ref_obj_ok n) (bs, outs) H). Qed.

(** Two OpenFlow 1.3 actions. *)
Definition case_output : pyval :=
  VObj ActionOutput04 [("action_type", VEnum E_ActionType04 0); ("length", VInt 16); ("port", VInt 7);
                       ("max_length", VEnum E_ControllerMaxLen04 65535); ("pad", VPad 6)].
Definition case_pop : pyval := VObj ActionPopVLAN04 [("action_type", VInt 18); ("length", VInt 8); ("pad", VPad 4)].
Definition case_actions : list pyval := [case_output; case_pop; case_output].
Definition case_action_bytes : bytes :=
  [0; 0; 0; 16; 0; 0; 0; 7; 255; 255; 0; 0; 0; 0; 0; 0; 0; 18; 0; 8; 0; 0; 0; 0;
   0; 0; 0; 16; 0; 0; 0; 7; 255; 255; 0; 0; 0; 0; 0; 0].
Lemma case_actions_enc : exists outs,
  enc_items 20 ActionHeader04 case_actions case_action_bytes outs.
Proof. eexists. apply items_by_ref. vm_compute. reflexivity. Qed.

(** A TLV, a match and a set-field action. *)
Definition case_oxm : oxm := mk_oxm 0x8000 3 1 [1; 2; 3; 4; 5; 6; 255; 255; 255; 255; 255; 255].
Definition case_tlv : pyval :=
  VObj OxmTLV04 [("oxm_class", VEnum E_OxmClass04 0x8000); ("oxm_field_and_mask", VUInt 1 None VNone);
                 ("oxm_length", VUInt 1 None VNone); ("oxm_value", VBytes (ox_value case_oxm));
                 ("oxm_field", VEnum E_OxmOfbMatchField04 3); ("oxm_hasmask", VInt 1)].
Lemma case_oxm_ok : oxm_ok case_oxm.
Proof.
  split; [cbn; tauto|]. split; [cbn; lia|]. split; [cbn; lia|]. split; [|cbn; lia].
  apply wf_bytesb_ok. vm_compute. reflexivity.
Qed.
Lemma case_tlv_holds : oxm_holds case_tlv case_oxm.
Proof.
  unfold oxm_holds, attr_is. eexists. split; [reflexivity|]. split; [reflexivity|].
  split; [eexists; split; [reflexivity|constructor; reflexivity]|].
  split; [eexists; split; [reflexivity|split; [constructor; reflexivity|intros H; elim H; reflexivity] ]|].
  split; [eexists; split; [reflexivity|constructor]|].
  eexists; split; [reflexivity|left; reflexivity].
Qed.
Definition case_match : pyval :=
  VObj Match04 [("match_type", VEnum E_MatchType04 1); ("length", VUInt 2 None VNone);
                ("oxm_match_fields", VList OxmMatchFields04 OxmTLV04 [case_tlv; case_tlv])].
Lemma case_match_holds : match_ok 1 [case_oxm; case_oxm] /\ match_holds case_match 1 [case_oxm; case_oxm].
Proof.
  pose proof case_oxm_ok. pose proof case_tlv_holds. split.
  - split; [tauto|]. split; [repeat constructor; apply H|cbn; lia].
  - eexists. split; [reflexivity|]. split; [reflexivity|].
    split; [eexists; split; [reflexivity|constructor; reflexivity]|].
    eexists; split; [reflexivity|]. eexists _, _, _. split; [reflexivity|]. auto.
Qed.
Definition case_setfield : pyval :=
  VObj ActionSetField04 [("action_type", VEnum E_ActionType04 25); ("length", VInt 8); ("field", case_tlv)].
Lemma case_setfield_holds : setfield_holds case_setfield case_oxm.
Proof.
  eexists. split; [reflexivity|]. split; [reflexivity|].
  split; [eexists; split; [reflexivity|constructor; reflexivity]|].
  eexists; split; [reflexivity|]. exact case_tlv_holds.
Qed.

(** A PacketOut with actions and data. *)
Definition case_out_attrs (port : pyval) : list (string * pyval) :=
  [("header", VObj Header04 [("version", VUInt 1 None (VInt 4)); ("message_type", VEnum E_Type04 13);
                             ("length", VNone); ("xid", VInt 77)]);
   ("buffer_id", VInt 0xffffffff); ("in_port", port); ("actions_len", VUInt 2 None VNone);
   ("pad", VPad 6); ("actions", VList ListOfActions04 ActionHeader04 case_actions);
   ("data", VBytes [0; 0; 0; 16; 1; 2; 3])].
Lemma case_out_sendable p : sendable V04 13 77 PacketOut04 (case_out_attrs p).
Proof.
  split; [reflexivity|]. eexists. split; [reflexivity|]. split; [reflexivity|].
  split; [eexists; split; [reflexivity|constructor]|].
  split; [eexists; split; [reflexivity|constructor]|].
  split; [eexists; split; [reflexivity|constructor]|]. change (2 ^ 32) with 4294967296. lia.
Qed.

(** Multipart replies with two entries. *)
Definition case_table (i : Z) : pyval :=
  VObj TableStats04 [("table_id", VInt i); ("pad", VPad 3); ("active_count", VInt 1); ("lookup_count", VInt 2);
                     ("matched_count", VInt 3)].
Definition case_group (i : Z) : pyval :=
  VObj GroupStats04 [("length", VInt 40); ("pad", VPad 2); ("group_id", VInt i); ("ref_count", VInt 1);
                     ("pad2", VPad 4); ("packet_count", VInt 1); ("byte_count", VInt 1);
                     ("duration_sec", VInt 1); ("duration_nsec", VInt 1); ("bucket_stats", VList CFixedTypeList BucketCounter04 [])].
Definition case_reply (t : Z) (body : pyval) : list (string * pyval) :=
  [("header", VObj Header04 [("version", VUInt 1 None (VInt 4)); ("message_type", VEnum E_Type04 19);
                             ("length", VNone); ("xid", VInt 77)]);
   ("multipart_type", VEnum E_MultipartType04 t); ("flags", VInt 0); ("pad", VPad 4); ("body", body)].
Lemma case_reply_sendable t b : sendable V04 19 77 MultipartReply04 (case_reply t b).
Proof.
  split; [reflexivity|]. eexists. split; [reflexivity|]. split; [reflexivity|].
  split; [eexists; split; [reflexivity|constructor]|].
  split; [eexists; split; [reflexivity|constructor]|].
  split; [eexists; split; [reflexivity|constructor]|]. change (2 ^ 32) with 4294967296. lia.
Qed.
Definition case_tables : list pyval := [case_table 1; case_table 2; case_table 9].
Lemma case_tables_enc : exists bs outs, enc_items 20 TableStats04 case_tables bs outs /\ zlen bs = 72.
Proof. eexists _, _. split; [apply items_by_ref; vm_compute; reflexivity|reflexivity]. Qed.

(** Two groups are not received: the first one takes the bytes of the second
    as its bucket counters. *)
Definition case_groups_bytes : bytes :=
  Eval vm_compute in
    match pack (VList CFixedTypeList GroupStats04 [case_group 1; case_group 2]) with Ok b => b | Err _ => [] end.
Lemma group_list_refuted : exists items bs, List.length items = 2%nat /\
  Forall (fun v => exists k b out, enc_obj 20 k true GroupStats04 v b out) items /\
  pack (VList CFixedTypeList GroupStats04 items) = Ok bs /\
  unpack (VList CFixedTypeList GroupStats04 []) bs 0 = Err UnpackException.
Proof.
  exists [case_group 1; case_group 2], case_groups_bytes. split; [reflexivity|]. split.
  - assert (G : forall v r, ref_obj 20 GroupStats04 v = Some (TAIL, true, fst r, snd r) ->
              exists k b out, enc_obj 20 k true GroupStats04 v b out).
    { intros v r E. exists TAIL, (fst r), (snd r). exact (ref_obj_ok 20 _ _ _ E). }
    constructor; [|constructor; [|constructor] ]; eapply (G _ (_, _)); vm_compute; reflexivity.
  - split; [vm_compute; reflexivity|vm_compute; reflexivity].
Qed.

Lemma group_reply_refuted : exists bs,
  pack (VObj MultipartReply04 (case_reply 6 (VList CFixedTypeList GroupStats04 [case_group 1; case_group 2]))) = Ok bs /\
  unpack_packet bs = Err UnpackException.
Proof. eexists. split; [vm_compute; reflexivity|vm_compute; reflexivity]. Qed.

(** Codes that are not treated as the specification says. *)
Lemma experimenter_refuted :
  (exists a, unpack (VList CFixedTypeList Property04 []) [0xff; 0xfe; 0; 4] 0
             = Ok (VList CFixedTypeList Property04 [VObj OxmProperty04 a])) /\
  unpack (VList CFixedTypeList MeterBandHeader04 []) [0xff; 0xff; 0; 16; 0; 0; 0; 1; 0; 0; 0; 1; 0; 0; 0; 2] 0
  = Err KeyError /\
  unpack (VList CFixedTypeList Instruction04 []) [0xff; 0xff; 0; 8; 0; 0; 0; 1] 0 = Err TypeError.
Proof. split; [eexists; vm_compute; reflexivity|]. split; vm_compute; reflexivity. Qed.

(** A TLV whose value is cut short is accepted. *)
Lemma oxm_truncated : exists b v, b = [0x80; 0; 6; 6; 1; 2] /\ unpack new_OxmTLV04 b 0 = Ok v /\
  exists a, v = VObj OxmTLV04 a /\ get_attr "oxm_value" a = Some (VBytes [1; 2]) /\
            get_attr "oxm_length" a = Some (VUInt 1 None (VInt 6)).
Proof. eexists _, _. split; [reflexivity|]. split; [vm_compute; reflexivity|]. eexists. repeat split. Qed.
