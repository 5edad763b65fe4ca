(** Sizes: the statements of C09 and C10 about arbitrary objects. *)
From Coq Require Import ZArith List Bool String Lia.
From Verif Require Import Base PyText Ids PyVal Classes Interp SpecBasic SpecMutation SpecLayout SpecSize Witness
  ClassFacts BaseFacts IntFacts LayoutFacts MutationFacts3 SizeFacts SizeFacts2.
Import ListNotations.
Open Scope string_scope.
Open Scope list_scope.
Open Scope Z_scope.

Lemma any_header_length c l t attrs hc h bs : openflow_layout c = Some (("header", 8%nat) :: l, t) ->
  built (VObj c attrs) = true -> regular (VObj c attrs) = true -> measurable (VObj c attrs) = true ->
  get_attr "header" attrs = Some (VObj hc h) -> pack (VObj c attrs) = Ok bs ->
  big_endian 2 (zlen bs) (slice 2 4 bs).
Proof. intros E. apply header_is_length. unfold message_class. rewrite E. reflexivity. Qed.
Lemma any_too_long c l t attrs hc h bs : openflow_layout c = Some (("header", 8%nat) :: l, t) ->
  built (VObj c attrs) = true -> regular (VObj c attrs) = true -> measurable (VObj c attrs) = true ->
  get_attr "header" attrs = Some (VObj hc h) -> pack (VObj c attrs) = Ok bs -> zlen bs < 65536.
Proof.
  intros E B R M G P. pose proof (any_header_length c l t attrs hc h bs E B R M G P) as (L & W & <-).
  rewrite place_value_decode. pose proof (be_decode_bound _ W) as H. rewrite L in H. apply H.
Qed.
Lemma new_fit c v : new_instance c = Some v -> built v = true /\ regular v = true /\ measurable v = true.
Proof.
  assert (T : match new_instance c with Some v => built v && regular v && measurable v | None => true end = true) by (revert c; apply all_classes; vm_compute; reflexivity).
  intros E. rewrite E in T. rewrite !andb_true_iff in T. tauto.
Qed.
Lemma conditions_refuted :
  wrong_size meter_mod /\
  wrong_size (with_attrs new_ActionExperimenter04 [("length", VInt 9); ("experimenter", VInt 1); ("body", VBytes [7])]) /\
  wrong_size (with_attrs bucket [("length", VInt 16)]) /\
  wrong_size (VChar 0 (VStr (txt "a"))) /\
  wrong_size (VList ListOfActions04 ActionHeader04 [VUInt 1 None (VInt 1); VUInt 2 None (VInt 1)]).
Proof.
  unfold wrong_size. repeat split; try (vm_compute; reflexivity); (do 2 eexists; split; [vm_compute; reflexivity|]; split; [vm_compute; reflexivity|]; vm_compute; discriminate).
Qed.
