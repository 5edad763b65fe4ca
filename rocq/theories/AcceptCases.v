(** Packets that follow the standard: cases for C58. *)
From Coq Require Import ZArith List Bool String Lia.
From Verif Require Import Base PyText Ids PyVal Classes Interp Utils Spec SpecMsg SpecBasic SpecLayout SpecStruct SpecReencode SpecTidy SpecAccept DecodeFacts2 TidyCases.
Import ListNotations.
Open Scope string_scope.
Open Scope list_scope.
Open Scope Z_scope.

Lemma fit_cut w k n d fs bs : fit SD d (firstn w bs) -> fit_fields k fs (skipn w bs) -> fit_fields k ((n, d) :: fs) bs.
Proof. intros T1 T2. rewrite <- (firstn_skipn w bs). apply ff_cons; assumption. Qed.
Lemma fit_cut_item w pc bs : fit_obj SD pc (firstn w bs) -> firstn w bs <> [] -> fit_items pc (skipn w bs) -> fit_items pc bs.
Proof. intros T1 N T2. rewrite <- (firstn_skipn w bs). apply fi_cons; assumption. Qed.
Ltac known := first [exact I | left; eexists; reflexivity
  | right; eexists _, _; split; [|first [left; reflexivity | right; left; reflexivity | right; right; reflexivity] ]; vm_compute; repeat (first [left; reflexivity | right]) ].
Ltac fit_leaf :=
  match goal with
  | |- fit_fields _ [] _ => apply ff_nil
  | |- fit_fields _ ((_, VUInt ?w _ _) :: _) _ => apply (fit_cut w); [apply ft_leaf; [reflexivity|known]|]; cbn [firstn skipn]
  | |- fit_fields _ ((_, VHW _) :: _) _ => apply (fit_cut 6); [apply ft_leaf; [reflexivity|exact I]|]; cbn [firstn skipn]
  | |- fit_fields _ ((_, VPad ?w) :: _) _ => apply (fit_cut w); [apply ft_pad; reflexivity|]; cbn [firstn skipn]
  end.
Lemma declared_known e z name members : In (name, z) members -> (enum_def e = EInt members \/ enum_def e = EPlain members \/ enum_def e = EMask members) -> declared e z.
Proof. intros I E. exists name, members. auto. Qed.

Lemma flow_mod_fit x : fit_message FlowMod04 (skipn 8 (flow_mod_packet x)) [].
Proof.
  eapply (fm_fields TAIL); [reflexivity| |reflexivity]. unfold body_fields. change (class_attrs FlowMod04) with attrs_FlowMod04. unfold attrs_FlowMod04. cbn [tl flow_mod_packet app skipn].
  repeat fit_leaf. apply (fit_cut 16); cbn [firstn skipn].
  - apply ft_struct. refine (fo_match TAIL [0; 1; 0; 12; 128; 0; 0; 4; 0; 0; 0; 1] [x; x; x; x] _ _ _ _); [|u16|reflexivity|cbn; lia].
    change (class_attrs Match04) with attrs_Match04. unfold attrs_Match04. repeat fit_leaf. apply ff_last, ft_list; [left; discriminate|]. eapply fi_last; [|discriminate].
    apply (fo_oxm 128 0 0 [0; 0; 0; 1]). split.
    + eapply declared_known; [|right; left; reflexivity] || eapply declared_known; [|left; reflexivity]. vm_compute. repeat (first [left; reflexivity | right]).
    + intros _. eapply declared_known; [|left; reflexivity]. vm_compute. left. reflexivity.
  - apply ff_last, ft_list; [left; discriminate|]. eapply fi_last; [|discriminate].
    eapply (fo_coded TAIL Instruction04 _ 4 InstructionApplyAction04); [right; left; reflexivity|reflexivity|cbn; tauto|discriminate| |u16|u16|discriminate].
    change (class_attrs InstructionApplyAction04) with attrs_InstructionApplyAction04. unfold attrs_InstructionApplyAction04. repeat fit_leaf.
    apply ff_last, ft_list; [left; discriminate|]. eapply fi_last; [|discriminate].
    eapply (fo_coded SD ActionHeader04 _ 0 ActionOutput04); [left; reflexivity|reflexivity|cbn; tauto|discriminate| |u16|u16|reflexivity].
    change (class_attrs ActionOutput04) with attrs_ActionOutput04. unfold attrs_ActionOutput04. repeat fit_leaf.
Qed.
Lemma packet_out_fit x : fit_message PacketOut01 (skipn 8 (packet_out_packet x)) [].
Proof.
  refine (fm_packet_out V01 [("buffer_id", VUInt 4 None VNone); ("in_port", VUInt 2 None VNone); ("actions_len", VUInt 2 None VNone)] ListOfActions01 ActionHeader01 (VBin VNone) (slice 8 16 (packet_out_packet x)) (slice 16 40 (packet_out_packet x)) [1; 2; 3] eq_refl _ _ _);
    cbn [slice firstn skipn packet_out_packet app].
  - repeat fit_leaf.
  - u16.
  - apply (fit_cut_item 8); [|discriminate|eapply fi_last; [|discriminate] ]; cbn [firstn skipn].
    + apply (fo_action01 0 ActionOutput01); [cbn; tauto| |u16]. change (class_attrs ActionOutput01) with attrs_ActionOutput01. unfold attrs_ActionOutput01. repeat fit_leaf.
    + apply (fo_action01 4 ActionDLAddr01); [cbn; tauto| |u16]. change (class_attrs ActionDLAddr01) with attrs_ActionDLAddr01. unfold attrs_ActionDLAddr01. repeat fit_leaf.
Qed.
Lemma flow_reply_fit x : fit_message MultipartReply04 (skipn 8 (flow_reply_packet x)) [].
Proof.
  refine (fm_stats FMultipartReply [("multipart_type", VUInt 2 (Some E_MultipartType04) VNone); ("flags", VUInt 2 None VNone); ("pad", VPad 4)] (VBin VNone) 1 (BList FlowStats04) (slice 8 16 (flow_reply_packet x)) (skipn 16 (flow_reply_packet x)) [] eq_refl _ _ _ _ (or_introl eq_refl));
    cbn [slice firstn skipn flow_reply_packet flow_entry app].
  - repeat fit_leaf.
  - u16.
  - cbn. tauto.
  - apply fb_list. apply (fit_cut_item 56); [|discriminate|eapply fi_last; [|discriminate] ]; cbn [firstn skipn]; (apply (fo_length TAIL _ 0); [reflexivity| |u16]).
    all: change (class_attrs FlowStats04) with attrs_FlowStats04; unfold attrs_FlowStats04; repeat fit_leaf; apply (fit_cut 8); cbn [firstn skipn].
    1, 3: apply ft_struct; refine (fo_match TAIL [0; 1; 0; 4] [x; x; x; x] _ _ _ _); [|u16|reflexivity|cbn; lia];
      change (class_attrs Match04) with attrs_Match04; unfold attrs_Match04; repeat fit_leaf; apply ff_last, ft_list; [left; discriminate|apply fi_nil].
    all: apply ff_last, ft_list; [left; discriminate|].
    + apply fi_nil.
    + eapply fi_last; [|discriminate].
      eapply (fo_coded SD Instruction04 _ 1 InstructionGotoTable04); [right; left; reflexivity|reflexivity|cbn; tauto|discriminate| |u16|u16|discriminate].
      change (class_attrs InstructionGotoTable04) with attrs_InstructionGotoTable04. unfold attrs_InstructionGotoTable04. repeat fit_leaf.
Qed.
(** METER_MOD with a DROP band and a DSCP_REMARK band. *)
Definition meter_bands (x : Z) : bytes :=
  ([0; 0] ++ [0; 1] ++ [0; 0; 0; 1]) ++ ([0; 1] ++ [0; 16] ++ [0; 0; 0; 10] ++ [0; 0; 0; 1] ++ [x; x; x; x]) ++ ([0; 2] ++ [0; 16] ++ [0; 0; 0; 20] ++ [0; 0; 0; 2] ++ [1] ++ [x; x; x]).
Lemma meter_mod_fit x : fit_message MeterMod04 (meter_bands x) [].
Proof.
  refine (fm_list MeterMod04 _ "bands" CFixedTypeList MeterBandHeader04 [0; 0; 0; 1; 0; 0; 0; 1] (skipn 8 (meter_bands x)) eq_refl _ _ _ _); cbn [skipn meter_bands app].
  - instantiate (1 := [("command", VUInt 2 (Some E_MeterModCommand04) VNone); ("flags", VUInt 2 (Some E_MeterFlags04) VNone); ("meter_id", VUInt 4 None VNone)]). reflexivity.
  - repeat fit_leaf.
  - discriminate.
  - apply (fit_cut_item 16); [|discriminate|eapply fi_last; [|discriminate] ]; cbn [firstn skipn].
    + eapply (fo_coded SD MeterBandHeader04 _ 1 MeterBandDrop04); [cbn; tauto|reflexivity|cbn; tauto|discriminate| |u16|u16|discriminate].
      change (class_attrs MeterBandDrop04) with attrs_MeterBandDrop04. unfold attrs_MeterBandDrop04. repeat fit_leaf.
    + eapply (fo_coded SD MeterBandHeader04 _ 2 MeterBandDscpRemark04); [cbn; tauto|reflexivity|cbn; tauto|discriminate| |u16|u16|discriminate].
      change (class_attrs MeterBandDscpRemark04) with attrs_MeterBandDscpRemark04. unfold attrs_MeterBandDscpRemark04. repeat fit_leaf.
Qed.
Lemma error_fit data : fit_message ErrorMsg04 (be_encode 2 5 ++ be_encode 2 2 ++ data) [].
Proof.
  apply (fm_error V04 5 E_FlowModFailedCode04); [cbn; tauto|]. eapply declared_known; [|left; reflexivity]. vm_compute. repeat (first [left; reflexivity | right]).
Qed.
