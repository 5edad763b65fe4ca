(** Specification of the constructors (C52).

    The parameters of a constructor are the fields of the structure in their
    order, preceded by the transaction id for a message, without padding and
    the fields that are not the caller's business: the type of a structure
    that has only one type, lengths, nested headers.  An argument is stored in
    the field of its name, everything else is as in an object made without
    arguments. *)
From Coq Require Import ZArith List Bool String.
From Verif Require Import Base PyText Ids PyVal Classes Interp Utils SpecMsg SpecMutation SpecLayout.
Import ListNotations.
Open Scope string_scope.
Open Scope list_scope.
Open Scope Z_scope.

(** Fields a caller does not give. *)
Definition not_given (c : cid) : list string :=
  match c with
  | Header01 | Header04 => ["version"]
  | ActionOutput01 | ActionStripVlan01 | ActionEnqueue01 | ActionVlanVid01 | ActionVlanPCP01
  | ActionGroup04 | ActionDecMPLSTTL04 | ActionSetMPLSTTL04 | ActionCopyTTLIn04 | ActionCopyTTLOut04 | ActionPopVLAN04 | ActionPopPBB04
  | ActionDecNWTTL04 | ActionSetNWTTL04 | ActionOutput04 | ActionPopMPLS04 | ActionSetField04 | ActionSetQueue04 => ["action_type"; "length"]
  | ActionDLAddr01 | ActionNWAddr01 | ActionNWTos01 | ActionTPPort01 | ActionPush04 => ["length"]
  | ActionVendorHeader01 | ActionExperimenter04 => ["action_type"]
  | InstructionApplyAction04 | InstructionClearAction04 | InstructionGotoTable04 | InstructionMeter04 | InstructionWriteAction04 | InstructionWriteMetadata04 =>
      ["instruction_type"; "length"]
  | MeterBandDrop04 | MeterBandDscpRemark04 | MeterBandExperimenter04 => ["band_type"; "length"]
  | Instruction04 | Property04 | InstructionsProperty04 | NextTablesProperty04 | ActionsProperty04 | OxmProperty04 | TableFeatures04
  | MeterBandHeader04 | MeterConfig04 | MeterStats04 | Match04 => ["length"]
  | QueuePropMinRate01 | QueuePropMinRate04 | QueuePropMaxRate04 | QueuePropExperimenter04 => ["prop_header"]
  | OxmExperimenterHeader04 => ["oxm_header"]
  | PacketOut01 | PacketOut04 => ["actions_len"]
  | Hello01 => ["elements"]
  | ErrorExperimenterMsg04 => ["error_type"]
  | _ => []
  end.

Definition is_message (c : cid) : bool := match class_attrs c with ("header", _) :: _ => true | _ => false end.
Definition is_field (c : cid) (f : string * pyval) : bool :=
  negb (String.eqb (fst f) "header" || match snd f with VPad _ => true | _ => false end || existsb (String.eqb (fst f)) (not_given c)).
Definition parameters (c : cid) : list string :=
  match c with
  | OxmTLV04 => ["oxm_class"; "oxm_field"; "oxm_hasmask"; "oxm_value"]
  | _ => (if is_message c then ["xid"] else []) ++ map fst (filter (is_field c) (class_attrs c))
  end.

(** Arguments: by position or by keyword. *)
Definition given (c : cid) (pos : list pyval) (kw : list (string * pyval)) (p : string) (v : pyval) : Prop :=
  (exists i, nth_error (parameters c) i = Some p /\ nth_error pos i = Some v) \/ In (p, v) kw.
Definition omitted (c : cid) (pos : list pyval) (kw : list (string * pyval)) (p : string) : Prop :=
  In p (parameters c) /\ forall v, ~ given c pos kw p v.

(** Not more arguments than parameters, only known names, none twice. *)
Definition callable (c : cid) (pos : list pyval) (kw : list (string * pyval)) : Prop :=
  (List.length pos <= List.length (parameters c))%nat /\ NoDup (map fst kw) /\ incl (map fst kw) (skipn (List.length pos) (parameters c)).

(** [reads o p x]: the argument [p] of the object [o] is [x]. *)
Definition reads (o : pyval) (p : string) (x : pyval) : Prop :=
  exists c attrs, o = VObj c attrs /\
  if is_message c && String.eqb p "xid"
  then exists hc h, get_attr "header" attrs = Some (VObj hc h) /\ get_attr "xid" h = Some x
  else get_attr p attrs = Some x.

(** Values that may stand for a missing argument. *)
Definition empty_value (v : pyval) : bool :=
  match v with
  | VNone | VInt 0 | VStr [] | VBytes [] | VEnum _ 0 | VList _ _ [] | VUInt 0 _ _ | VPad 0 | VChar 0 _ | VBin _ => true
  | _ => false
  end.

(** Fields for lists and objects, where no argument means a new one. *)
Definition container (c : cid) (p : string) : bool :=
  match get_attr p (class_attrs c) with Some (VList _ _ _) | Some (VObj _ _) => true | _ => false end.
(** Whether the argument itself is stored. *)
Definition kept_argument (c : cid) (p : string) (v : pyval) : bool :=
  if is_message c && String.eqb p "xid" then match v with VNone => false | _ => true end
  else negb (container c p && empty_value v).

(** The classes of structures and messages. *)
Definition structure (c : cid) : Prop := subclass c CGenericStruct = true /\ c <> CGenericMessage /\ c <> CGenericStruct.

(** A new object, but with the transaction id [x]. *)
Definition with_xid (x : pyval) (o : pyval) : pyval :=
  match o with
  | VObj c attrs => if is_message c then match get_attr "header" attrs with
                                         | Some (VObj hc h) => VObj c (set_attr "header" (VObj hc (set_attr "xid" x h)) attrs)
                                         | _ => o
                                         end else o
  | _ => o
  end.

(** Structures whose constructor asks for the size of an argument, which can
    fail. *)
Definition measures (c : cid) : bool :=
  match c with
  | FlowMod01 | FlowMod04 | InstructionApplyAction04 | InstructionClearAction04 | InstructionWriteAction04 | FlowStats04 | MeterConfig04
  | Match04 | InstructionsProperty04 | NextTablesProperty04 | ActionsProperty04 | OxmProperty04 | TableFeatures04
  | MeterBandHeader04 | MeterBandDrop04 | MeterBandDscpRemark04 | MeterBandExperimenter04 | MeterStats04 => true
  | _ => false
  end.

(** Structures whose constructor computes their length. *)
Definition computes_length (c : cid) : bool :=
  match c with
  | Match04 | InstructionsProperty04 | NextTablesProperty04 | ActionsProperty04 | OxmProperty04 | TableFeatures04
  | MeterBandHeader04 | MeterBandDrop04 | MeterBandDscpRemark04 | MeterBandExperimenter04 | MeterStats04 => true
  | _ => false
  end.

(** The type a class stands for, from the standard: its field and number.  For
    messages see SpecMsg.v. *)
Definition own_type (c : cid) : option (string * Z) :=
  match c with
  | ActionOutput01 => Some ("action_type", 0)
  | ActionVlanVid01 => Some ("action_type", 1)
  | ActionVlanPCP01 => Some ("action_type", 2)
  | ActionStripVlan01 => Some ("action_type", 3)
  | ActionEnqueue01 => Some ("action_type", 11)
  | ActionVendorHeader01 => Some ("action_type", 65535)
  | ActionOutput04 => Some ("action_type", 0)
  | ActionCopyTTLOut04 => Some ("action_type", 11)
  | ActionCopyTTLIn04 => Some ("action_type", 12)
  | ActionSetMPLSTTL04 => Some ("action_type", 15)
  | ActionDecMPLSTTL04 => Some ("action_type", 16)
  | ActionPopVLAN04 => Some ("action_type", 18)
  | ActionPopMPLS04 => Some ("action_type", 20)
  | ActionSetQueue04 => Some ("action_type", 21)
  | ActionGroup04 => Some ("action_type", 22)
  | ActionSetNWTTL04 => Some ("action_type", 23)
  | ActionDecNWTTL04 => Some ("action_type", 24)
  | ActionSetField04 => Some ("action_type", 25)
  | ActionPopPBB04 => Some ("action_type", 27)
  | ActionExperimenter04 => Some ("action_type", 65535)
  | InstructionGotoTable04 => Some ("instruction_type", 1)
  | InstructionWriteMetadata04 => Some ("instruction_type", 2)
  | InstructionWriteAction04 => Some ("instruction_type", 3)
  | InstructionApplyAction04 => Some ("instruction_type", 4)
  | InstructionClearAction04 => Some ("instruction_type", 5)
  | InstructionMeter04 => Some ("instruction_type", 6)
  | MeterBandDrop04 => Some ("band_type", 1)
  | MeterBandDscpRemark04 => Some ("band_type", 2)
  | MeterBandExperimenter04 => Some ("band_type", 65535)
  | _ => None
  end.

(** The length of the actions that state it: their bytes in the standard. *)
Definition own_length (c : cid) : option Z :=
  match c with
  | ActionOutput01 | ActionStripVlan01 | ActionVlanVid01 | ActionVlanPCP01 | ActionNWAddr01 | ActionNWTos01 | ActionTPPort01 => Some 8
  | ActionEnqueue01 | ActionDLAddr01 => Some 16
  | ActionOutput04 => Some 16
  | ActionGroup04 | ActionDecMPLSTTL04 | ActionSetMPLSTTL04 | ActionCopyTTLIn04 | ActionCopyTTLOut04 | ActionPopVLAN04 | ActionPopPBB04
  | ActionDecNWTTL04 | ActionSetNWTTL04 | ActionSetQueue04 | ActionPush04 => Some 8
  | _ => None
  end.

(** Arguments that can be the value of a field: complete objects, and text of
    the field's width where it is given as a [Char]. *)
Definition suits (c : cid) (p : string) (v : pyval) : bool :=
  built v && regular v &&
  match get_attr p (class_attrs c), v with
  | Some (VChar n _), VChar n' _ => Nat.eqb n n'
  | _, _ => true
  end.
