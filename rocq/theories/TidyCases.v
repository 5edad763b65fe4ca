(** Packets with non-zero padding sent again: cases for C43. *)
From Coq Require Import ZArith List Bool String Lia.
From Verif Require Import Base PyText Ids PyVal Classes Interp Utils Spec SpecMsg SpecBasic SpecLayout SpecStruct SpecReencode SpecTidy DecodeFacts2.
Import ListNotations.
Open Scope string_scope.
Open Scope list_scope.
Open Scope Z_scope.

(** OpenFlow 1.3 FLOW_MOD: a match on the ingress port, one action list; the
    bytes [x] are padding. *)
Definition flow_mod_packet (x : Z) : bytes :=
  [4; 14; 0; 88; 0; 0; 0; 9] ++
  [0; 0; 0; 0; 0; 0; 0; 1] ++ [0; 0; 0; 0; 0; 0; 0; 0] ++ [2] ++ [0] ++ [0; 10] ++ [0; 20] ++ [0; 3] ++ [255; 255; 255; 255] ++ [0; 0; 0; 5] ++ [255; 255; 255; 255] ++ [0; 1] ++ [x; x] ++
  ([0; 1] ++ [0; 12] ++ [128; 0; 0; 4; 0; 0; 0; 1]) ++ [x; x; x; x] ++
  ([0; 4] ++ [0; 24] ++ [x; x; x; x] ++ ([0; 0] ++ [0; 16] ++ [0; 0; 0; 2] ++ [0; 64] ++ [x; x; x; x; x; x])).
(** OpenFlow 1.0 PACKET_OUT with an output and a set-source action, and data. *)
Definition packet_out_packet (x : Z) : bytes :=
  [1; 13; 0; 43; 0; 0; 0; 9] ++ ([255; 255; 255; 255] ++ [0; 3] ++ [0; 24]) ++
  ([0; 0] ++ [0; 8] ++ [0; 2] ++ [0; 64]) ++ ([0; 4] ++ [0; 16] ++ [2; 0; 0; 0; 0; 7] ++ [x; x; x; x; x; x]) ++ [1; 2; 3].
(** OpenFlow 1.3 reply with two flow entries. *)
Definition flow_entry (x len cookie : Z) (acts : bytes) : bytes :=
  [0; len] ++ [1] ++ [x] ++ [0; 0; 0; 4] ++ [0; 0; 0; 5] ++ [0; 3] ++ [0; 10] ++ [0; 20] ++ [0; 1] ++ [x; x; x; x] ++ [0; 0; 0; 0; 0; 0; 0; cookie] ++
  [0; 0; 0; 0; 0; 0; 1; 0] ++ [0; 0; 0; 0; 0; 1; 0; 0] ++ ([0; 1] ++ [0; 4] ++ []) ++ [x; x; x; x] ++ acts.
Definition flow_reply_packet (x : Z) : bytes :=
  [4; 19; 0; 136; 0; 0; 0; 9] ++ ([0; 1] ++ [0; 0] ++ [x; x; x; x]) ++
  (flow_entry x 56 7 [] ++ flow_entry x 64 8 ([0; 1] ++ [0; 8] ++ [3] ++ [x; x; x])).

Lemma cut_field w k n d fs bs bs' : tidy SD d (firstn w bs) (firstn w bs') -> tidy_fields k fs (skipn w bs) (skipn w bs') -> tidy_fields k ((n, d) :: fs) bs bs'.
Proof. intros T1 T2. rewrite <- (firstn_skipn w bs), <- (firstn_skipn w bs'). apply tf_cons; assumption. Qed.
Lemma cut_item w pc bs bs' : tidy_obj SD pc (firstn w bs) (firstn w bs') -> firstn w bs <> [] -> tidy_items pc (skipn w bs) (skipn w bs') -> tidy_items pc bs bs'.
Proof. intros T1 N T2. rewrite <- (firstn_skipn w bs), <- (firstn_skipn w bs'). apply ti_cons; assumption. Qed.
Ltac cut_leaf :=
  match goal with
  | |- tidy_fields _ [] _ _ => apply tf_nil
  | |- tidy_fields _ ((_, VUInt ?w _ _) :: _) _ _ => apply (cut_field w); [apply td_same; reflexivity|]; cbn [firstn skipn]
  | |- tidy_fields _ ((_, VHW _) :: _) _ _ => apply (cut_field 6); [apply td_same; reflexivity|]; cbn [firstn skipn]
  | |- tidy_fields _ ((_, VPad ?w) :: _) _ _ => apply (cut_field w); [apply td_pad; reflexivity|]; cbn [firstn skipn]
  end.
Lemma one_item pc bs bs' : tidy_obj SD pc bs bs' -> bs <> [] -> tidy_items pc bs bs'.
Proof. apply ti_last. Qed.
Lemma u16_here p bs z : slice p (p + 2) bs = be_encode 2 z -> (p + 2 <= List.length bs)%nat -> 0 <= z < 65536 -> u16_at p bs z.
Proof.
  intros E L B. exists (firstn p bs), (skipn (p + 2) bs). split; [|split; [rewrite firstn_length; lia|exact B] ]. rewrite <- E. unfold slice.
  rewrite app_assoc. replace (firstn p bs) with (firstn p (firstn (p + 2) bs)) by (rewrite firstn_firstn; f_equal; lia). rewrite !firstn_skipn. reflexivity.
Qed.
Ltac u16 := apply u16_here; [reflexivity|cbn; lia|vm_compute; split; congruence].

Lemma flow_mod_tidy x : tidy_message FlowMod04 (skipn 8 (flow_mod_packet x)) (skipn 8 (flow_mod_packet 0)) [].
Proof.
  eapply (tm_fields TAIL); [reflexivity| |reflexivity]. unfold body_fields. change (class_attrs FlowMod04) with attrs_FlowMod04. unfold attrs_FlowMod04. cbn [tl flow_mod_packet app skipn].
  repeat cut_leaf. 
  apply (cut_field 16); cbn [firstn skipn].
  - apply td_struct. refine (to_match TAIL [0; 1; 0; 12; 128; 0; 0; 4; 0; 0; 0; 1] [0; 1; 0; 12; 128; 0; 0; 4; 0; 0; 0; 1] [x; x; x; x] _ _ _ _); [|u16|reflexivity|cbn; lia].
    change (class_attrs Match04) with attrs_Match04. unfold attrs_Match04. repeat cut_leaf. apply tf_last, td_list; [left; discriminate|]. apply one_item; [|discriminate].
    exact (to_oxm 128 0 0 [0; 0; 0; 1]).
  - apply tf_last, td_list; [left; discriminate|]. apply one_item; [|discriminate].
    eapply (to_coded TAIL Instruction04 _ 4 InstructionApplyAction04); [right; left; reflexivity|reflexivity|cbn; tauto|discriminate| |u16|u16|discriminate].
    change (class_attrs InstructionApplyAction04) with attrs_InstructionApplyAction04. unfold attrs_InstructionApplyAction04. repeat cut_leaf.
    apply tf_last, td_list; [left; discriminate|]. apply one_item; [|discriminate].
    eapply (to_coded SD ActionHeader04 _ 0 ActionOutput04); [left; reflexivity|reflexivity|cbn; tauto|discriminate| |u16|u16|reflexivity].
    change (class_attrs ActionOutput04) with attrs_ActionOutput04. unfold attrs_ActionOutput04. repeat cut_leaf.
Qed.
Lemma packet_out_tidy x : tidy_message PacketOut01 (skipn 8 (packet_out_packet x)) (skipn 8 (packet_out_packet 0)) [].
Proof.
  refine (tm_packet_out V01 [("buffer_id", VUInt 4 None VNone); ("in_port", VUInt 2 None VNone); ("actions_len", VUInt 2 None VNone)] ListOfActions01 ActionHeader01 (VBin VNone) (slice 8 16 (packet_out_packet x)) (slice 8 16 (packet_out_packet x)) (slice 16 40 (packet_out_packet x)) (slice 16 40 (packet_out_packet 0)) [1; 2; 3] eq_refl _ _ _ _);
    cbn [slice firstn skipn packet_out_packet app].
  - repeat cut_leaf.
  - u16.
  - apply (cut_item 8); [|discriminate|apply one_item; [|discriminate] ]; cbn [firstn skipn].
    + apply (to_action01 0 ActionOutput01); [cbn; tauto| |u16]. change (class_attrs ActionOutput01) with attrs_ActionOutput01. unfold attrs_ActionOutput01. repeat cut_leaf.
    + apply (to_action01 4 ActionDLAddr01); [cbn; tauto| |u16]. change (class_attrs ActionDLAddr01) with attrs_ActionDLAddr01. unfold attrs_ActionDLAddr01. repeat cut_leaf.
  - left. vm_compute. split; congruence.
Qed.
Lemma flow_reply_tidy x : tidy_message MultipartReply04 (skipn 8 (flow_reply_packet x)) (skipn 8 (flow_reply_packet 0)) [].
Proof.
  refine (tm_stats FMultipartReply [("multipart_type", VUInt 2 (Some E_MultipartType04) VNone); ("flags", VUInt 2 None VNone); ("pad", VPad 4)] (VBin VNone) 1 (BList FlowStats04) (slice 8 16 (flow_reply_packet x)) (slice 8 16 (flow_reply_packet 0)) (skipn 16 (flow_reply_packet x)) (skipn 16 (flow_reply_packet 0)) [] eq_refl _ _ _ _ (or_introl eq_refl));
    cbn [slice firstn skipn flow_reply_packet flow_entry app].
  - repeat cut_leaf.
  - u16.
  - cbn. tauto.
  - apply tb_list. apply (cut_item 56); [|discriminate|apply one_item; [|discriminate] ]; cbn [firstn skipn]; (apply (to_length TAIL _ 0); [reflexivity| |u16]).
    all: change (class_attrs FlowStats04) with attrs_FlowStats04; unfold attrs_FlowStats04; repeat cut_leaf; apply (cut_field 8); cbn [firstn skipn].
    1, 3: apply td_struct; refine (to_match TAIL [0; 1; 0; 4] [0; 1; 0; 4] [x; x; x; x] _ _ _ _); [|u16|reflexivity|cbn; lia];
      change (class_attrs Match04) with attrs_Match04; unfold attrs_Match04; repeat cut_leaf; apply tf_last, td_list; [left; discriminate|apply ti_nil].
    all: apply tf_last, td_list; [left; discriminate|].
    + apply ti_nil.
    + apply one_item; [|discriminate].
      eapply (to_coded SD Instruction04 _ 1 InstructionGotoTable04); [right; left; reflexivity|reflexivity|cbn; tauto|discriminate| |u16|u16|discriminate].
      change (class_attrs InstructionGotoTable04) with attrs_InstructionGotoTable04. unfold attrs_InstructionGotoTable04. repeat cut_leaf.
Qed.

Definition accepted_as (p p' : bytes) (c : cid) : Prop := exists attrs, unpack_packet p = Ok (VObj c attrs) /\ ends_in_nul (VObj c attrs) = true /\ pack (VObj c attrs) = Ok p'.
Ltac accepted := eexists; split; [vm_compute; reflexivity|split; vm_compute; reflexivity].
Lemma flow_mod_case : accepted_as (flow_mod_packet 9) (flow_mod_packet 0) FlowMod04.
Proof. accepted. Qed.
Lemma packet_out_case : accepted_as (packet_out_packet 9) (packet_out_packet 0) PacketOut01.
Proof. accepted. Qed.
Lemma flow_reply_case : accepted_as (flow_reply_packet 9) (flow_reply_packet 0) MultipartReply04.
Proof. accepted. Qed.

(** A METER_MOD with one band is sent again with a length that does not count
    the band. *)
Definition meter_mod_packet (len : Z) : bytes := [4; 29; 0; len; 0; 0; 0; 9; 0; 0; 0; 1; 0; 0; 0; 1; 0; 1; 0; 16; 0; 0; 0; 10; 0; 0; 0; 1; 0; 0; 0; 0].
Lemma meter_mod_case : accepted_as (meter_mod_packet 32) (meter_mod_packet 16) MeterMod04.
Proof. accepted. Qed.
