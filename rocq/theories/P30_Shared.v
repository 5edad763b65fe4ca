(** Theorems: C64 (pack() does not look at the lengths it computes, so objects
    may be shared between messages). *)
From Coq Require Import ZArith List Bool String.
From Verif Require Import Base PyText Ids PyVal Classes Interp Mutation SpecMutation SpecShared SharedFacts StoredFacts P12_Mutation.
Import ListNotations.
Open Scope string_scope.
Open Scope list_scope.
Open Scope Z_scope.

(** Objects that differ only in computed attributes give the same bytes, or
    raise the same exception, and have the same size. *)
Theorem c64_independent : forall v v', built v = true -> up_to_lengths v v' -> pack v' = pack v /\ get_size v' = get_size v.
Proof. exact (fun v v' B U => conj (up_pack v v' B U) (up_size v v' B U)). Qed.
Print Assumptions c64_independent.

(** pack() changes only such attributes. *)
Theorem c64_stored : forall v b, built v = true -> pack v = Ok b -> up_to_lengths v (stored v) /\ built (stored v) = true.
Proof. exact (fun v b B _ => stored_up v B). Qed.
Print Assumptions c64_stored.

(** So packing other messages with the same objects in them changes nothing. *)
Theorem c64_shared : forall v v', built v = true -> touched v v' -> pack v' = pack v /\ get_size v' = get_size v.
Proof. exact touched_pack. Qed.
Print Assumptions c64_shared.

(** A message whose lengths the caller has set to nonsense. *)
Definition case_wrong : pyval :=
  VObj PacketOut04
    [("header", VObj Header04 [("version", VUInt 1 None (VInt 4)); ("message_type", VEnum E_Type04 13);
                               ("length", VBytes [7]); ("xid", VInt 9)]);
     ("buffer_id", VInt 4294967295); ("in_port", VInt 1); ("actions_len", VInt (-1)); ("pad", VPad 6);
     ("actions", VList CList CObject
        [VObj ActionSetField04 [("action_type", VEnum E_ActionType04 25); ("length", VInt 70000);
           ("field", VObj OxmTLV04 [("oxm_class", VEnum E_OxmClass04 32768); ("oxm_field_and_mask", VNone); ("oxm_length", VInt 99);
                 ("oxm_value", VBytes [0; 80]); ("oxm_field", VEnum E_OxmOfbMatchField04 5); ("oxm_hasmask", VInt 0)])]]);
     ("data", VBytes [1; 2; 3])].
Example c64_case : up_to_lengths case_out case_wrong /\ case_wrong <> case_out /\ exists b, pack case_wrong = Ok b /\ pack case_out = Ok b.
Proof.
  split; [|split; [discriminate|eexists; split; vm_compute; reflexivity]].
  repeat (first [apply sb_same | constructor; fail | apply sb_obj | apply sb_list | apply Forall2_cons | apply Forall2_nil |
    (split; [reflexivity|]); first [left; reflexivity | right]]).
Qed.

(** Two messages with one action: the second is packed after the first, and in
    between the action, and the header, have got lengths. *)
Definition case_action : pyval :=
  VObj ActionSetField04 [("action_type", VEnum E_ActionType04 25); ("length", VUInt 2 None VNone); ("field", case_field)].
Definition case_second (header action : pyval) : pyval :=
  VObj PacketOut04
    [("header", header); ("buffer_id", VInt 1); ("in_port", VInt 2); ("actions_len", VUInt 2 None VNone); ("pad", VPad 6);
     ("actions", VList CList CObject [action; action]); ("data", VBytes [])].
Definition case_header (l : pyval) : pyval :=
  VObj Header04 [("version", VUInt 1 None (VInt 4)); ("message_type", VEnum E_Type04 13); ("length", l); ("xid", VInt 9)].
Example c64_shared_case :
  touched (case_second (case_header VNone) case_action) (case_second (case_header (VInt 43)) (stored case_action)) /\
  stored case_action <> case_action /\
  exists b, pack (case_second (case_header (VInt 43)) (stored case_action)) = Ok b /\ zlen b = 56.
Proof.
  split; [|split; [vm_compute; discriminate|eexists; split; vm_compute; reflexivity]].
  destruct (pack case_action) as [b|] eqn:P; [|vm_compute in P; discriminate].
  assert (A : touched case_action (stored case_action)) by (eapply to_pack, P).
  apply to_then with (case_second (case_header (VInt 43)) case_action).
  { exact (to_header PacketOut04 [("header", case_header VNone); ("buffer_id", VInt 1); ("in_port", VInt 2); ("actions_len", VUInt 2 None VNone);
      ("pad", VPad 6); ("actions", VList CList CObject [case_action; case_action]); ("data", VBytes [])] Header04 _ 43 eq_refl eq_refl). }
  apply to_obj.
  repeat (apply Forall2_cons; [split; [reflexivity|]; cbn [snd]; try apply to_none|]); [|apply Forall2_nil].
  apply to_list. apply Forall2_cons; [exact A|]. apply Forall2_cons; [exact A|apply Forall2_nil].
Qed.

(** The exception: the length of a header that is packed by itself is not
    computed, so packing a message changes what its header packs to. *)
Theorem c64_header_refuted : exists m m' h h' b1 b2,
  built m = true /\ touched m m' /\
  (exists attrs, m = VObj Hello01 attrs /\ get_attr "header" attrs = Some h) /\
  (exists attrs, m' = VObj Hello01 attrs /\ get_attr "header" attrs = Some h') /\
  pack h = Ok b1 /\ pack h' = Ok b2 /\ b1 <> b2.
Proof.
  exists (VObj Hello01 [("header", VObj Header01 [("version", VUInt 1 None (VInt 1)); ("message_type", VEnum E_Type01 0); ("length", VInt 0); ("xid", VInt 9)]);
                        ("elements", VBytes [])]).
  do 5 eexists. split; [vm_compute; reflexivity|]. split; [eapply to_pack; vm_compute; reflexivity|].
  split; [eexists; split; vm_compute; reflexivity|]. split; [eexists; split; vm_compute; reflexivity|].
  split; [vm_compute; reflexivity|]. split; [vm_compute; reflexivity|]. discriminate.
Qed.
Print Assumptions c64_header_refuted.
