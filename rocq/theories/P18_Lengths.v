(** C50: structures state their own length.

    The classes, the places of the length fields and the constant lengths are
    listed in SpecLengths.v; [built], [regular] and [measurable] as in P17. *)
From Coq Require Import ZArith List Bool String.
From Verif Require Import Base PyText Ids PyVal Classes Interp SpecBasic SpecMutation SpecLayout SpecSize SpecLengths
  Witness LengthFacts.
Import ListNotations.
Open Scope string_scope.
Open Scope list_scope.
Open Scope Z_scope.

(** Structures of variable size: the field holds the number of bytes,
    whatever the attribute held before.  Partial: without [measurable] it is
    false, see [c50_computed_refuted]. *)
Theorem c50_computed_partial : forall c at_ attrs bs, In (c, at_) computed_lengths ->
  built (VObj c attrs) = true -> regular (VObj c attrs) = true -> measurable (VObj c attrs) = true -> pack (VObj c attrs) = Ok bs ->
  big_endian 2 (zlen bs) (slice at_ (at_ + 2) bs).
Proof. exact any_computed. Qed.
Print Assumptions c50_computed_partial.

(** Structures of constant size: the constructor sets the length, and every
    object that keeps it is of that length. *)
Theorem c50_constant : forall c z, In (c, z) constant_lengths ->
  (exists attrs, new_instance c = Some (VObj c attrs) /\ get_attr "length" attrs = Some (VInt z)) /\
  forall attrs bs, built (VObj c attrs) = true -> regular (VObj c attrs) = true -> get_attr "length" attrs = Some (VInt z) ->
    pack (VObj c attrs) = Ok bs -> zlen bs = z /\ big_endian 2 z (slice 2 4 bs).
Proof. exact any_constant. Qed.
Print Assumptions c50_constant.

(** Where the length is left to the caller it is written as given, and
    without one nothing is encoded. *)
Theorem c50_given : forall c at_ attrs bs, In (c, at_) given_lengths \/ (exists z, In (c, z) constant_lengths) /\ at_ = 2%nat ->
  built (VObj c attrs) = true -> regular (VObj c attrs) = true -> pack (VObj c attrs) = Ok bs ->
  get_attr "length" attrs <> Some VNone /\
  forall z, get_attr "length" attrs = Some (VInt z) -> big_endian 2 z (slice at_ (at_ + 2) bs).
Proof. exact any_given. Qed.
Print Assumptions c50_given.

(** The match of OpenFlow 1.3: type, length and fields, then zero bytes up to
    a multiple of eight, which the length does not count.  Partial: for
    [measurable] matches. *)
Theorem c50_match_partial : forall attrs bs,
  built (VObj Match04 attrs) = true -> regular (VObj Match04 attrs) = true -> measurable (VObj Match04 attrs) = true ->
  pack (VObj Match04 attrs) = Ok bs ->
  exists parts k, Forall2 (part_of Match04 attrs) (class_attrs Match04) parts /\ bs = (List.concat parts ++ repeat 0 k)%list /\
    (k < 8)%nat /\ zlen bs mod 8 = 0 /\ big_endian 2 (zlen (List.concat parts)) (slice 2 4 bs).
Proof. exact match_length. Qed.
Print Assumptions c50_match_partial.

(** No structure with a length is left out. *)
Theorem c50_all : forall c, get_attr "length" (class_attrs c) <> None ->
  In c (map fst computed_lengths ++ map fst constant_lengths ++ map fst given_lengths ++ other_lengths).
Proof. exact tables_complete. Qed.
Print Assumptions c50_all.

(** An instruction with one action: 24 bytes. *)
Definition case_apply : pyval :=
  with_attrs new_InstructionApplyAction04
    [("length", VInt 3); ("actions", VList ListOfActions04 ActionHeader04 [with_attrs new_ActionOutput04 [("port", VInt 1)]])].
Example c50_computed_case : exists bs, built case_apply = true /\ regular case_apply = true /\ measurable case_apply = true /\
  pack case_apply = Ok bs /\ zlen bs = 24 /\ slice 2 4 bs = [0; 24].
Proof. eexists. split; [vm_compute; reflexivity|]. split; [vm_compute; reflexivity|]. split; [vm_compute; reflexivity|].
  split; [vm_compute; reflexivity|]. split; vm_compute; reflexivity. Qed.
Example c50_constant_case : exists bs, built (with_attrs new_ActionEnqueue01 [("port", VInt 1); ("queue_id", VInt 2)]) = true /\
  regular (with_attrs new_ActionEnqueue01 [("port", VInt 1); ("queue_id", VInt 2)]) = true /\
  pack (with_attrs new_ActionEnqueue01 [("port", VInt 1); ("queue_id", VInt 2)]) = Ok bs /\ zlen bs = 16 /\ slice 2 4 bs = [0; 16].
Proof. eexists. split; [vm_compute; reflexivity|]. split; [vm_compute; reflexivity|]. split; [vm_compute; reflexivity|]. split; vm_compute; reflexivity. Qed.

(** An action of 9 bytes counts as 16 in the length of the instruction that
    holds it. *)
Definition odd_apply : pyval :=
  with_attrs new_InstructionApplyAction04
    [("actions", VList ListOfActions04 ActionHeader04
                   [with_attrs new_ActionExperimenter04 [("length", VInt 9); ("experimenter", VInt 1); ("body", VBytes [7])]])].
Theorem c50_computed_refuted : exists bs, built odd_apply = true /\ regular odd_apply = true /\ pack odd_apply = Ok bs /\ zlen bs = 17 /\ slice 2 4 bs = [0; 24].
Proof. eexists. split; [vm_compute; reflexivity|]. split; [vm_compute; reflexivity|]. split; [vm_compute; reflexivity|]. split; vm_compute; reflexivity. Qed.
Print Assumptions c50_computed_refuted.

(** Nothing compares a length given by the caller with the structure: a
    bucket that says 4 is 32 bytes long, a pop MPLS action says 0. *)
Theorem c50_given_refuted :
  (exists bs, built (with_attrs bucket [("length", VInt 4)]) = true /\ regular (with_attrs bucket [("length", VInt 4)]) = true /\
     pack (with_attrs bucket [("length", VInt 4)]) = Ok bs /\ slice 0 2 bs = [0; 4] /\ zlen bs = 32) /\
  (exists bs, built (with_attrs new_ActionPopMPLS04 [("length", VInt 0); ("ethertype", VInt 2048)]) = true /\
     regular (with_attrs new_ActionPopMPLS04 [("length", VInt 0); ("ethertype", VInt 2048)]) = true /\
     pack (with_attrs new_ActionPopMPLS04 [("length", VInt 0); ("ethertype", VInt 2048)]) = Ok bs /\ slice 2 4 bs = [0; 0] /\ zlen bs = 8).
Proof.
  split; eexists; (split; [vm_compute; reflexivity|]); (split; [vm_compute; reflexivity|]); (split; [vm_compute; reflexivity|]); split; vm_compute; reflexivity.
Qed.
Print Assumptions c50_given_refuted.
