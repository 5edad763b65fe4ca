(** C14: unpacking a structure depends only on its own bytes.

    [delimited c b] (SpecWindow.v): [b] starts with a complete structure of
    class [c], by the sizes of the OpenFlow specifications or by the length
    field inside it. *)
From Coq Require Import ZArith List Bool String.
From Verif Require Import Base PyText Ids PyVal Classes Interp Spec SpecLayout SpecWindow WindowThm.
Import ListNotations.
Open Scope string_scope.
Open Scope list_scope.
Open Scope Z_scope.

(** Whatever comes before and after, the same object, or the same exception. *)
Theorem c14_window : forall c inst b pre suf, new_instance c = Some inst -> delimited c b -> wf_bytes (pre ++ b ++ suf) ->
  unpack inst (pre ++ b ++ suf) (List.length pre) = unpack inst b 0.
Proof. exact window. Qed.
Print Assumptions c14_window.

(** Every class but StatsRequest: only the bytes from the offset on matter. *)
Theorem c14_offsets : forall c inst pre pre' b, new_instance c = Some inst -> c <> StatsRequest01 -> pre <> [] -> pre' <> [] ->
  wf_bytes (pre ++ b) -> wf_bytes (pre' ++ b) ->
  unpack inst (pre ++ b) (List.length pre) = unpack inst (pre' ++ b) (List.length pre').
Proof. exact two_offsets. Qed.
Print Assumptions c14_offsets.

(** Cases: an ApplyActions instruction with an output action, a match with one
    TLV, a flow statistics request. *)
Definition case_apply : bytes := [0; 4; 0; 24; 0; 0; 0; 0;  0; 0; 0; 16; 0; 0; 0; 7; 0; 64; 0; 0; 0; 0; 0; 0].
Definition case_match : bytes := [0; 1; 0; 12;  128; 0; 0; 4; 0; 0; 0; 9;  0; 0; 0; 0].
Definition case_request : bytes :=
  [3; 0; 0; 0; 0; 0; 0; 5; 0; 0; 0; 6; 0; 0; 0; 0; 0; 0; 0; 0; 0; 0; 0; 1; 0; 0; 0; 0; 0; 0; 0; 2] ++ case_match.
Example c14_case_delimited : delimited Instruction04 case_apply /\ delimited Match04 case_match /\
  delimited FlowStatsRequest04 case_request /\ delimited OxmTLV04 [128; 0; 0; 4; 0; 0; 0; 9] /\
  delimited PortStatsRequest04 [0; 0; 0; 1; 0; 0; 0; 0] /\ delimited ActionHeader01 [0; 0; 0; 8; 0; 1; 0; 64].
Proof.
  repeat split.
  - apply (d_length _ 2%nat _ 24); [repeat (try (left; reflexivity); right)| |vm_compute; intuition discriminate].
    exists [0; 4], (skipn 4 case_apply). vm_compute. intuition discriminate.
  - apply (d_length _ 2%nat _ 12); [repeat (try (left; reflexivity); right)| |vm_compute; intuition discriminate].
    exists [0; 1], (skipn 4 case_match). vm_compute. intuition discriminate.
  - apply (d_request _ _ 12); [left; reflexivity| |reflexivity|vm_compute; discriminate].
    exists (firstn 34 case_request), (skipn 36 case_request). vm_compute. intuition discriminate.
  - exact (d_oxm 128 0 0 4 [0; 0; 0; 9] [] eq_refl).
  - eapply d_fixed; [repeat (try (left; reflexivity); right)|reflexivity|vm_compute; repeat constructor].
  - eapply (d_action _ 0); [left; reflexivity| |left; reflexivity|reflexivity|vm_compute; repeat constructor].
    exists [], [0; 8; 0; 1; 0; 64]. vm_compute. intuition discriminate.
Qed.
Example c14_case : unpack new_Instruction04 case_apply 0 =
  Ok (VObj InstructionApplyAction04
        [("instruction_type", VUInt 2 (Some E_InstructionType04) (VEnum E_InstructionType04 4));
         ("length", VUInt 2 None (VInt 24));
         ("pad", VPad 4);
         ("actions", VList CFixedTypeList ActionHeader04
            [VObj ActionOutput04
               [("action_type", VUInt 2 (Some E_ActionType04) (VEnum E_ActionType04 0)); ("length", VUInt 2 None (VInt 16));
                ("port", VUInt 4 None (VInt 7)); ("max_length", VUInt 2 None (VInt 64)); ("pad", VPad 6)]])]) /\
  unpack new_Instruction04 ([1; 2; 3] ++ case_apply ++ [4; 5]) 3 = unpack new_Instruction04 case_apply 0.
Proof. vm_compute. split; reflexivity. Qed.

(** A declared length of zero: at the start of the buffer nothing is read and
    the new object is returned; elsewhere an exception is raised. *)
Theorem c14_zero_length_refuted : exists b pre, u16_at 2 b 0 /\ pre <> [] /\
  (exists v, unpack new_Instruction04 b 0 = Ok v) /\
  unpack new_Instruction04 (pre ++ b) (List.length pre) = Err UnpackException.
Proof.
  exists [0; 1; 0; 0; 0; 0; 0; 0], [0]. split; [|split; [discriminate|split]].
  - exists [0; 1], [0; 0; 0; 0]. vm_compute. intuition discriminate.
  - eexists. vm_compute. reflexivity.
  - vm_compute. reflexivity.
Qed.
Print Assumptions c14_zero_length_refuted.

(** The length inside a queue or a group description does not delimit it: the
    list at its end takes whatever follows. *)
Theorem c14_length_ignored_refuted : exists b suf v, u16_at 8 b (zlen b) /\ wf_bytes (b ++ suf) /\
  unpack new_PacketQueue04 b 0 = Ok v /\ unpack new_PacketQueue04 (b ++ suf) 0 <> Ok v.
Proof.
  exists [0; 0; 0; 1; 0; 0; 0; 2; 0; 16; 0; 0; 0; 0; 0; 0], [0; 1; 0; 8; 0; 0; 0; 0]. eexists. split; [|split; [|split]].
  - exists [0; 0; 0; 1; 0; 0; 0; 2], [0; 0; 0; 0; 0; 0]. vm_compute. intuition discriminate.
  - repeat constructor; discriminate.
  - vm_compute. reflexivity.
  - vm_compute. discriminate.
Qed.
Print Assumptions c14_length_ignored_refuted.

(** StatsRequest.unpack reads from the start of the buffer whatever the offset. *)
Theorem c14_stats_request_refuted : exists b pre pre' v, pre <> [] /\ pre' <> [] /\
  unpack new_StatsRequest01 (pre ++ b) (List.length pre) = Ok v /\
  unpack new_StatsRequest01 (pre' ++ b) (List.length pre') <> Ok v.
Proof.
  exists [0; 0], [0; 3], [0; 0]. eexists. split; [discriminate|]. split; [discriminate|]. split; vm_compute; [reflexivity|discriminate].
Qed.
Print Assumptions c14_stats_request_refuted.
