(** C09, C10: sizes and the header length of arbitrary objects, whatever
    their values, nested to any depth.

    [built] (SpecMutation.v) and [regular] (SpecLayout.v) describe objects as
    constructors make them; [measurable] (SpecSize.v) leaves out the shapes
    whose size the library gets wrong. *)
From Coq Require Import ZArith List Bool String.
From Verif Require Import Base PyText Ids PyVal Classes Interp SpecBasic SpecMutation SpecLayout SpecSize
  Witness SizeFacts SizeFacts2 SizeThm.
Import ListNotations.
Open Scope string_scope.
Open Scope list_scope.
Open Scope Z_scope.

(** C09: the reported size is the number of bytes.  Partial: without
    [measurable] this is false, see [c09_conditions_refuted]. *)
Theorem c09_any_size_partial : forall v bs s, built v = true -> regular v = true -> measurable v = true ->
  pack v = Ok bs -> get_size v = Ok s -> s = zlen bs.
Proof. exact size_is_length. Qed.
Print Assumptions c09_any_size_partial.

(** C10: bytes 2 and 3 of a message hold the number of its bytes. *)
Theorem c10_any_header_length_partial : forall c l t attrs hc h bs,
  openflow_layout c = Some (("header", 8%nat) :: l, t) ->
  built (VObj c attrs) = true -> regular (VObj c attrs) = true -> measurable (VObj c attrs) = true ->
  get_attr "header" attrs = Some (VObj hc h) -> pack (VObj c attrs) = Ok bs ->
  big_endian 2 (zlen bs) (slice 2 4 bs).
Proof. exact any_header_length. Qed.
Print Assumptions c10_any_header_length_partial.

(** Consequence: no message of more than 65535 bytes is ever encoded. *)
Theorem c10_any_too_long_partial : forall c l t attrs hc h bs,
  openflow_layout c = Some (("header", 8%nat) :: l, t) ->
  built (VObj c attrs) = true -> regular (VObj c attrs) = true -> measurable (VObj c attrs) = true ->
  get_attr "header" attrs = Some (VObj hc h) -> pack (VObj c attrs) = Ok bs ->
  zlen bs < 65536.
Proof. exact any_too_long. Qed.
Print Assumptions c10_any_too_long_partial.

(** Objects made by constructors without arguments satisfy the conditions. *)
Theorem c09_new : forall c v, new_instance c = Some v -> built v = true /\ regular v = true /\ measurable v = true.
Proof. exact new_fit. Qed.
Print Assumptions c09_new.

(** A FlowMod of OpenFlow 1.3 with a match and two actions. *)
Definition case_match : pyval :=
  with_attrs new_Match04
    [("oxm_match_fields",
      VList OxmMatchFields04 OxmTLV04 [with_attrs new_OxmTLV04 [("oxm_field", VInt 3); ("oxm_hasmask", VInt 0); ("oxm_value", VBytes [1; 2; 3])]])].
Definition case_flow_mod : pyval :=
  with_attrs new_FlowMod04
    [("command", VInt 0); ("match", case_match);
     ("instructions",
      VList ListOfInstruction04 Instruction04
        [with_attrs new_InstructionApplyAction04
           [("actions", VList ListOfActions04 ActionHeader04
              [output_action; with_attrs new_ActionSetField04
                 [("field", with_attrs new_OxmTLV04 [("oxm_field", VInt 3); ("oxm_hasmask", VInt 0); ("oxm_value", VBytes [1; 2; 3; 4; 5; 6])])]])]])].
Example c09_any_case : exists bs, built case_flow_mod = true /\ regular case_flow_mod = true /\ measurable case_flow_mod = true /\
  pack case_flow_mod = Ok bs /\ zlen bs = 104 /\ get_size case_flow_mod = Ok 104 /\ slice 2 4 bs = [0; 104].
Proof. eexists. split; [vm_compute; reflexivity|]. split; [vm_compute; reflexivity|]. split; [vm_compute; reflexivity|].
  split; [vm_compute; reflexivity|]. repeat split; vm_compute; reflexivity. Qed.

(** Every condition of [measurable] is needed: in each case the size is wrong
    and the object is built and regular.  A list declared as a plain
    FixedTypeList; an action that is not a multiple of 8 bytes long; a bucket
    whose length attribute is not its length; a Char of length 0; a list of
    integers of different widths. *)
Theorem c09_conditions_refuted :
  wrong_size meter_mod /\
  wrong_size (with_attrs new_ActionExperimenter04 [("length", VInt 9); ("experimenter", VInt 1); ("body", VBytes [7])]) /\
  wrong_size (with_attrs bucket [("length", VInt 16)]) /\
  wrong_size (VChar 0 (VStr (txt "a"))) /\
  wrong_size (VList ListOfActions04 ActionHeader04 [VUInt 1 None (VInt 1); VUInt 2 None (VInt 1)]).
Proof. exact conditions_refuted. Qed.
Print Assumptions c09_conditions_refuted.
