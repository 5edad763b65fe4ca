(** Specification of the structures that say where they end (C14).

    [delimited c b]: the bytes [b] start with a complete structure of class
    [c], by the sizes of the OpenFlow 1.0.0 and 1.3 specifications or by the
    length field inside it.  A length of zero is left out (no structure is that
    short). *)
From Coq Require Import ZArith List Bool String.
From Verif Require Import Base PyText Ids PyVal Spec SpecLayout.
Import ListNotations.
Open Scope string_scope.
Open Scope list_scope.
Open Scope Z_scope.

(** Structures of one size. *)
Definition fixed_structs : list cid :=
  [Header01; Match01; PhyPort01; QueuePropHeader01; QueuePropMinRate01; AggregateStatsReply01;
   AggregateStatsRequest01; DescStats01; FlowStatsRequest01; PortStats01; PortStatsRequest01; QueueStats01;
   QueueStatsRequest01; TableStats01; Header04; Port04; OxmExperimenterHeader04; QueuePropHeader04;
   QueuePropMaxRate04; QueuePropMinRate04; BucketCounter04; ExperimenterMultipartHeader04; AggregateStatsReply04;
   Desc04; PortStats04; QueueStats04; GroupFeatures04; MeterFeatures04; BandStats04; TableStats04;
   PortStatsRequest04; QueueStatsRequest04; GroupStatsRequest04; MeterMultipartRequest04].

(** Structures with their length in a field, and where that field is. *)
Definition length_structs : list (cid * nat) :=
  [(HelloElemHeader04, 2); (FlowStats01, 0); (FlowStats04, 0); (TableFeatures04, 0); (MeterStats04, 4); (Bucket04, 0);
   (Instruction04, 2); (InstructionGotoTable04, 2); (InstructionWriteMetadata04, 2); (InstructionWriteAction04, 2);
   (InstructionApplyAction04, 2); (InstructionClearAction04, 2); (InstructionMeter04, 2);
   (Property04, 2); (InstructionsProperty04, 2); (NextTablesProperty04, 2); (ActionsProperty04, 2); (OxmProperty04, 2);
   (MeterBandHeader04, 2); (MeterBandDrop04, 2); (MeterBandDscpRemark04, 2); (MeterBandExperimenter04, 2);
   (ActionHeader04, 2); (ActionExperimenter04, 2); (ActionGroup04, 2); (ActionDecMPLSTTL04, 2); (ActionSetMPLSTTL04, 2);
   (ActionCopyTTLIn04, 2); (ActionCopyTTLOut04, 2); (ActionPopVLAN04, 2); (ActionPopPBB04, 2); (ActionDecNWTTL04, 2);
   (ActionSetNWTTL04, 2); (ActionOutput04, 2); (ActionPopMPLS04, 2); (ActionPush04, 2); (ActionSetField04, 2);
   (ActionSetQueue04, 2); (Match04, 2)]%nat.

(** Actions of OpenFlow 1.0: the type gives the size. *)
Definition actions_01 : list cid :=
  [ActionHeader01; ActionOutput01; ActionStripVlan01; ActionEnqueue01; ActionVlanVid01; ActionVlanPCP01;
   ActionDLAddr01; ActionNWAddr01; ActionNWTos01; ActionTPPort01; ActionVendorHeader01].

Inductive delimited : cid -> bytes -> Prop :=
| d_fixed c l t b : In c fixed_structs -> openflow_layout c = Some (l, t) -> (t <= List.length b)%nat -> delimited c b
| d_length c p b len : In (c, p) length_structs -> u16_at p b len -> 0 < len <= zlen b -> delimited c b
| d_action c ty c' l t b : In c actions_01 -> u16_at 0 b ty -> In (ty, c') action01_table ->
    openflow_layout c' = Some (l, t) -> (t <= List.length b)%nat -> delimited c b
(* class 2, field and mask 1, length 1 *)
| d_oxm x y z len value rest : List.length value = Z.to_nat len ->
    delimited OxmTLV04 ([x; y; z; len] ++ value ++ rest)
(* 32 bytes and a match, with its length in bytes 34 and 35 *)
| d_request c b len : c = FlowStatsRequest04 \/ c = AggregateStatsRequest04 -> u16_at 34 b len ->
    0 < len -> 32 + len <= zlen b -> delimited c b.
