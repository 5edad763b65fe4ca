(** What a decoded field holds, in terms of its bytes.  Specification for C51. *)
From Coq Require Import ZArith List Bool String.
From Verif Require Import Base PyText Ids PyVal Classes Interp Spec SpecMsg SpecBasic SpecLayout.
Import ListNotations.
Open Scope string_scope.
Open Scope list_scope.
Open Scope Z_scope.

(** [reads d bs v]: a field declared as [d] whose bytes are [bs] holds [v].
    Padding may be cut off at the end of the buffer. *)
Inductive reads : pyval -> bytes -> pyval -> Prop :=
| r_number w d z bs : big_endian w z bs -> reads (VUInt w None d) bs (VUInt w None (VInt z))
| r_member w e d z bs : big_endian w z bs -> declared e z -> ~ bit_mask_class e -> reads (VUInt w (Some e) d) bs (VUInt w (Some e) (VEnum e z))
| r_mask w e d z bs : big_endian w z bs -> bit_mask_class e -> reads (VUInt w (Some e) d) bs (VUInt w (Some e) (VMask e z))
| r_pad k bs : (List.length bs <= k)%nat -> reads (VPad k) bs (VPad k)
| r_text n d s k : ascii_text s -> (forall s', s <> s' ++ [0]) -> n = (List.length s + k)%nat ->
    reads (VChar n d) (s ++ repeat 0 k) (VChar n (VStr s))
| r_ip d m bs : wf_bytes bs -> List.length bs = 4%nat -> reads (VIP d m) bs (VIP (VStr (dotted_dec bs)) m)
| r_hw d bs : wf_bytes bs -> List.length bs = 6%nat -> reads (VHW d) bs (VHW (VStr (colon_hex bs)))
| r_dpid d bs : wf_bytes bs -> List.length bs = 8%nat -> reads (VDPID d) bs (VDPID (VStr (colon_hex bs)))
| r_struct c a l t bs attrs : openflow_layout c = Some (l, t) -> List.length l = List.length (class_attrs c) ->
    (forall name at_ w, placed 0 l name at_ w -> exists d v, get_attr name (class_attrs c) = Some d /\ get_attr name attrs = Some v /\
       reads d (slice at_ (at_ + w) bs) v) ->
    reads (VObj c a) bs (VObj c attrs).

(** Structures that are cut out of the buffer by the length they hold, and
    where it is. *)
Definition cut_by_length : list (cid * nat) :=
  [(InstructionApplyAction04, 2); (InstructionWriteAction04, 2); (InstructionClearAction04, 2); (InstructionGotoTable04, 2);
   (InstructionMeter04, 2); (InstructionWriteMetadata04, 2);
   (InstructionsProperty04, 2); (NextTablesProperty04, 2); (ActionsProperty04, 2); (OxmProperty04, 2);
   (MeterBandDrop04, 2); (MeterBandDscpRemark04, 2); (MeterBandExperimenter04, 2);
   (ActionHeader04, 2); (ActionOutput04, 2); (ActionCopyTTLOut04, 2); (ActionCopyTTLIn04, 2); (ActionSetMPLSTTL04, 2);
   (ActionDecMPLSTTL04, 2); (ActionPush04, 2); (ActionPopVLAN04, 2); (ActionPopMPLS04, 2); (ActionSetQueue04, 2); (ActionGroup04, 2);
   (ActionSetNWTTL04, 2); (ActionDecNWTTL04, 2); (ActionSetField04, 2); (ActionPopPBB04, 2); (ActionExperimenter04, 2);
   (HelloElemHeader04, 2); (TableFeatures04, 0); (FlowStats01, 0); (FlowStats04, 0); (Bucket04, 0); (MeterStats04, 4)]%nat.

(** Something is there to be read: the buffer is not empty, and a structure at
    its start that is cut by its length does not say 0. *)
Definition something_to_read (c : cid) (buff : bytes) (off : nat) : Prop :=
  buff <> [] /\ forall at_, off = O -> In (c, at_) cut_by_length -> slice at_ (at_ + 2) buff <> [0; 0].

(** Field [name] of a decoded structure, when its bytes start at [at_]. *)
Definition field_at (c : cid) (attrs : list (string * pyval)) (b : bytes) (name : string) (at_ w : nat) : Prop :=
  exists d v, get_attr name (class_attrs c) = Some d /\ get_attr name attrs = Some v /\ reads d (slice at_ (at_ + w) b) v.

(** The same for the fields of messages: type and code of errors, statistics
    and multipart messages are replaced by the members themselves. *)
Definition message_reads (name : string) (d : pyval) (bs : bytes) (v : pyval) : Prop :=
  reads d bs v \/
  In name ["code"; "multipart_type"; "body_type"] /\ exists w er d' e z, d = VUInt w er d' /\ big_endian w z bs /\ v = VEnum e z /\ declared e z.

(** Records of a fixed size, as they appear one after the other in lists. *)
Definition fixed_records : list cid :=
  [Match01; PhyPort01; QueuePropHeader01; AggregateStatsReply01; DescStats01; PortStats01; PortStatsRequest01; QueueStats01; QueueStatsRequest01;
   TableStats01; Port04; OxmExperimenterHeader04; QueuePropHeader04; BucketCounter04; ExperimenterMultipartHeader04; AggregateStatsReply04; Desc04;
   PortStats04; QueueStats04; GroupFeatures04; MeterFeatures04; BandStats04; TableStats04; PortStatsRequest04; QueueStatsRequest04;
   GroupStatsRequest04; MeterMultipartRequest04].

(** Objects laid out one after the other from offset [o] to the end of the
    buffer: each starts where the one before it ends, and its fields are at
    the offsets of the standard from there. *)
Inductive laid_out (b : bytes) : nat -> list pyval -> Prop :=
| lo_end o : (List.length b <= o)%nat -> laid_out b o []
| lo_next o c attrs n rest : (o < List.length b)%nat ->
    (something_to_read c b o -> forall l t name at_ w, openflow_layout c = Some (l, t) -> (forall l', l <> ("header", 8%nat) :: l') -> placed 0 l name at_ w ->
       field_at c attrs b name (o + at_) w) ->
    get_size (VObj c attrs) = Ok n -> laid_out b (o + Z.to_nat n) rest -> laid_out b o (VObj c attrs :: rest).

(** The body of a statistics or multipart message starts here. *)
Definition stats_at (f : stats_family) : nat := match f with FStatsRequest | FStatsReply => 12 | _ => 16 end.
