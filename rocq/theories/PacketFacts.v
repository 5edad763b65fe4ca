(** Arbitrary packets: refusals, termination and witnesses. *)
From Coq Require Import ZArith List Bool String Lia ZifyBool.
From Verif Require Import Base PyText Ids PyVal Classes Interp Utils Spec SpecMsg SpecBasic
  BaseFacts ClassFacts FuelFacts Totality UnpackTotal MsgMain Samples DispatchFacts.
Import ListNotations.
Open Scope string_scope.
Open Scope list_scope.
Open Scope Z_scope.

Ltac wfb := apply wf_bytesb_ok; vm_compute; reflexivity.

Lemma unpack_refuses p : (forall b, p = VBytes b -> wf_bytes b) ->
  ~ (exists b, p = VBytes b /\ well_framed b) -> unpack_any p = Err UnpackException.
Proof.
  intros W N. destruct (validate_exact p W) as [[F _] D].
  destruct D as [D|D]; [exfalso; auto|].
  destruct p as [|z|s|b|e z|e z|w er y|k|l y|y m0|y|y|y|c a|lc pc its]; try reflexivity.
  cbn [validate_any] in D. cbn [unpack_any]. unfold unpack_packet. rewrite D. reflexivity.
Qed.

Lemma type_refuted : exists b c attrs hc h,
  wf_bytes b /\ unpack_packet b = Ok (VObj c attrs) /\
  get_attr "header" attrs = Some (VObj hc h) /\ nth 1 b 0 = 22 /\ holds h "message_type" 7.
Proof.
  exists [4; 22; 0; 16; 0; 0; 0; 1; 255; 255; 255; 255; 0; 0; 0; 0]. eexists _, _, _, _.
  split; [wfb|]. split; [vm_compute; reflexivity|]. split; [reflexivity|]. split; [reflexivity|].
  eexists. split; [vm_compute; reflexivity|constructor; reflexivity].
Qed.

Lemma instances_terminate c inst b o n :
  new_instance c = Some inst -> wf_bytes b -> (FUEL <= n)%nat ->
  unpack0 n inst b o = unpack inst b o /\ unpack inst b o <> Err OutOfFuel.
Proof.
  intros I W N. pose proof (instance_uok _ _ I) as U. split.
  - symmetry. apply unpack_of; [exact U|exact W|]. apply uok_unpack; assumption.
  - unfold unpack. apply uok_unpack; auto.
Qed.

Lemma encode_terminates v : pack v <> Err OutOfFuel /\ get_size v <> Err OutOfFuel.
Proof. split; [apply pack_never_out|apply get_size_never_out]. Qed.

(** The item classes of the lists of the library. *)
Definition list_items : list cid :=
  [PhyPort01; ActionHeader01; QueuePropHeader01; PacketQueue01; FlowStats01; TableStats01;
   PortStats01; QueueStats01; AggregateStatsReply01; VendorStats01;
   Port04; ActionHeader04; Instruction04; OxmTLV04; OxmExperimenterHeader04; QueuePropHeader04;
   PacketQueue04; Bucket04; BucketCounter04; Property04; MeterBandHeader04; BandStats04;
   HelloElemHeader04; FlowStats04; TableStats04; PortStats04; QueueStats04; GroupStats04;
   GroupDescStats04; MeterStats04; MeterConfig04; TableFeatures04;
   AggregateStatsReply04; GroupFeatures04; MeterFeatures04; ExperimenterMultipartHeader04].

Lemma list_items_uok pc : In pc list_items -> uok 11 (VList CFixedTypeList pc []) = true.
Proof.
  intros I. assert (G : forallb (fun pc => uok 11 (VList CFixedTypeList pc [])) list_items = true)
    by (vm_compute; reflexivity).
  rewrite forallb_forall in G. exact (G pc I).
Qed.

Lemma items_terminate lc pc b o : In pc list_items -> wf_bytes b ->
  unpack (VList lc pc []) b o <> Err OutOfFuel.
Proof.
  intros I W. unfold unpack. apply uok_unpack; [|exact W|auto].
  exact (list_items_uok pc I).
Qed.

Lemma termination_case :
  In Port04 list_items /\ wf_bytes (repeat 1 65%nat) /\ unpack (VList CFixedTypeList Port04 []) (repeat 1 65%nat) 0%nat = Err UnpackException.
Proof. split; [cbn; tauto|]. split; [wfb|vm_compute; reflexivity]. Qed.

Ltac framed := unfold well_framed; vm_compute; repeat split; discriminate.
Lemma leaks :
  (exists b, wf_bytes b /\ well_framed b /\ unpack_packet b = Err StructError) /\
  (exists b, wf_bytes b /\ well_framed b /\ unpack_packet b = Err GenericException) /\
  (exists b, wf_bytes b /\ well_framed b /\ unpack_packet b = Err TypeError) /\
  (exists b, wf_bytes b /\ well_framed b /\ unpack_packet b = Err KeyError).
Proof.
  split; [exists [1; 6; 0; 9; 0; 0; 0; 0; 0]|split; [|split] ].
  - split; [wfb|]. split; [framed|vm_compute; reflexivity].
  - exists [1; 12; 0; 26; 0; 0; 0; 0; 0; 0; 0; 0; 0; 0; 0; 0; 0; 1; 1; 2; 3; 4; 5; 6; 65; 66].
    split; [wfb|]. split; [framed|vm_compute; reflexivity].
  - exists [1; 16; 0; 13; 0; 0; 0; 0; 0; 0; 0; 0; 1].
    split; [wfb|]. split; [framed|vm_compute; reflexivity].
  - exists [4; 29; 0; 20; 0; 0; 0; 0; 0; 0; 0; 1; 0; 0; 0; 5; 255; 255; 0; 4].
    split; [wfb|]. split; [framed|vm_compute; reflexivity].
Qed.

Lemma reencode_refuted :
  (exists b m, wf_bytes b /\ unpack_packet b = Ok m /\ pack m = Err PackException) /\
  (exists b m b', wf_bytes b /\ unpack_packet b = Ok m /\ pack m = Ok b' /\ b' <> b).
Proof.
  split.
  - exists [1; 14; 0; 8; 0; 0; 0; 0]. eexists. split; [wfb|].
    split; [vm_compute; reflexivity|vm_compute; reflexivity].
  - exists [1; 5; 0; 9; 0; 0; 0; 0; 7]. eexists _, _. split; [wfb|].
    split; [vm_compute; reflexivity|]. split; [vm_compute; reflexivity|discriminate].
Qed.

Lemma reencode_partial n v t x m0 b out : enc_msg n v t x m0 b out ->
  exists m, unpack_packet b = Ok m /\ pack m = Ok b.
Proof.
  intros H. exists out. destruct (message_sound _ _ _ _ _ _ _ H) as (P & _ & U).
  split; [exact U|]. destruct (message_equal _ _ _ _ _ _ _ H) as [E _]. congruence.
Qed.
