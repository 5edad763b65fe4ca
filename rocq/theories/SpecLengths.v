(** Which structures carry a 16 bit length field of their own, where it is,
    and what it is when the structure is of constant size: OpenFlow 1.0.1
    sections 5.2.2, 5.2.4 and 5.3.5 and OpenFlow 1.3.5 sections 7.2.4, 7.2.5,
    7.3.4 and 7.3.5.  Specification for C50. *)
From Coq Require Import ZArith List.
From Verif Require Import Ids.
Import ListNotations.
Open Scope Z_scope.

(** Variable size: the length is computed when the structure is encoded. *)
Definition computed_lengths : list (cid * nat) :=
  [(InstructionApplyAction04, 2); (InstructionWriteAction04, 2); (InstructionClearAction04, 2); (InstructionGotoTable04, 2);
   (InstructionMeter04, 2); (InstructionWriteMetadata04, 2); (Instruction04, 2); (ActionSetField04, 2);
   (Property04, 2); (InstructionsProperty04, 2); (NextTablesProperty04, 2); (ActionsProperty04, 2); (OxmProperty04, 2);
   (TableFeatures04, 0); (MeterStats04, 4); (HelloElemHeader04, 2)]%nat.

(** Constant size: the number of bytes. *)
Definition constant_lengths : list (cid * Z) :=
  [(ActionOutput01, 8); (ActionVlanVid01, 8); (ActionVlanPCP01, 8); (ActionStripVlan01, 8); (ActionDLAddr01, 16); (ActionNWAddr01, 8);
   (ActionNWTos01, 8); (ActionTPPort01, 8); (ActionEnqueue01, 16);
   (ActionOutput04, 16); (ActionCopyTTLOut04, 8); (ActionCopyTTLIn04, 8); (ActionSetMPLSTTL04, 8); (ActionDecMPLSTTL04, 8);
   (ActionPush04, 8); (ActionPopVLAN04, 8); (ActionSetQueue04, 8); (ActionGroup04, 8); (ActionSetNWTTL04, 8);
   (ActionDecNWTTL04, 8); (ActionPopPBB04, 8);
   (MeterBandHeader04, 12); (MeterBandDrop04, 16); (MeterBandDscpRemark04, 16); (MeterBandExperimenter04, 16)].

(** The length is whatever the caller gives. *)
Definition given_lengths : list (cid * nat) :=
  [(ActionHeader01, 2); (ActionVendorHeader01, 2); (QueuePropHeader01, 2); (PacketQueue01, 4); (FlowStats01, 0);
   (ActionHeader04, 2); (ActionExperimenter04, 2); (ActionPopMPLS04, 2); (QueuePropHeader04, 2); (PacketQueue04, 8); (Bucket04, 0);
   (FlowStats04, 0); (GroupDescStats04, 0); (GroupStats04, 0); (MeterConfig04, 0)]%nat.

(** The length of these is C10 and C24. *)
Definition other_lengths : list cid := [Header01; Header04; Match04].
