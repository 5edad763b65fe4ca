(** Theorems: C45 (packing does not change what a message means). *)
From Coq Require Import ZArith List Bool String.
From Verif Require Import Base PyText Ids PyVal Classes Interp Mutation SpecMutation MutationFacts3.
Import ListNotations.
Open Scope string_scope.
Open Scope list_scope.
Open Scope Z_scope.

(** Every further call returns the same bytes. *)
Theorem c45_bytes : forall k v b, built v = true -> pack v = Ok b -> pack (Nat.iter k stored v) = Ok b.
Proof. exact (fun k v b B P => proj1 (pack_times k v b B P)). Qed.
Print Assumptions c45_bytes.

(** After any number of calls, nothing but computed attributes has changed. *)
Theorem c45_attributes : forall k v b, built v = true -> pack v = Ok b ->
  only_computed v (Nat.iter k stored v) /\ built (Nat.iter k stored v) = true.
Proof. exact (fun k v b B P => proj2 (pack_times k v b B P)). Qed.
Print Assumptions c45_attributes.

(** Nor has the size. *)
Theorem c45_size : forall k v b, built v = true -> pack v = Ok b -> get_size (Nat.iter k stored v) = get_size v.
Proof. exact (fun k v b B P => size_again _ _ B (proj1 (proj2 (pack_times k v b B P)))). Qed.
Print Assumptions c45_size.

(** Constructors without arguments make objects of this kind. *)
Theorem c45_new : forall c v, new_instance c = Some v -> built v = true.
Proof. exact new_built. Qed.
Print Assumptions c45_new.

(** A PacketOut with a set-field action: lengths are stored in the message, in
    the action and in the field of the action. *)
Definition case_field : pyval :=
  VObj OxmTLV04 [("oxm_class", VEnum E_OxmClass04 32768); ("oxm_field_and_mask", VNone); ("oxm_length", VNone);
                 ("oxm_value", VBytes [0; 80]); ("oxm_field", VEnum E_OxmOfbMatchField04 5); ("oxm_hasmask", VInt 0)].
Definition case_out : pyval :=
  VObj PacketOut04
    [("header", VObj Header04 [("version", VUInt 1 None (VInt 4)); ("message_type", VEnum E_Type04 13);
                               ("length", VNone); ("xid", VInt 9)]);
     ("buffer_id", VInt 4294967295); ("in_port", VInt 1); ("actions_len", VUInt 2 None VNone); ("pad", VPad 6);
     ("actions", VList CList CObject
        [VObj ActionSetField04 [("action_type", VEnum E_ActionType04 25); ("length", VUInt 2 None VNone); ("field", case_field)]]);
     ("data", VBytes [1; 2; 3])].
Example c45_case : built case_out = true /\ (exists b, pack case_out = Ok b /\ zlen b = 43) /\
  stored case_out <> case_out /\ stored (stored case_out) = stored case_out.
Proof.
  split; [vm_compute; reflexivity|]. split; [eexists; split; vm_compute; reflexivity|].
  split; [|vm_compute; reflexivity]. vm_compute. discriminate.
Qed.

(** A call that raises does change an attribute: the body of a StatsRequest
    stays packed when the message around it cannot be packed. *)
Theorem c45_failure_refuted : exists attrs body b e,
  built (VObj StatsRequest01 attrs) = true /\ get_attr "body" attrs = Some body /\ has_pack body = true /\
  pack (VObj StatsRequest01 attrs) = Err e /\ left_behind (VObj StatsRequest01 attrs) = Some ("body", VBytes b).
Proof.
  exists [("header", VObj Header01 [("version", VUInt 1 None (VInt 1)); ("message_type", VEnum E_Type01 16);
                                    ("length", VNone); ("xid", VInt (2 ^ 32))]);
          ("body_type", VEnum E_StatsType01 5); ("flags", VInt 0);
          ("body", VObj QueueStatsRequest01 [("port_no", VInt 1); ("pad", VPad 2); ("queue_id", VInt 7)])].
  do 3 eexists. repeat split; vm_compute; reflexivity.
Qed.
Print Assumptions c45_failure_refuted.
