(** C51: cases and counterexamples. *)
From Coq Require Import ZArith List Bool String Lia.
From Verif Require Import Base PyText Ids PyVal Classes Interp Utils Spec SpecMsg SpecBasic SpecLayout SpecDecode.
Import ListNotations.
Open Scope string_scope.
Open Scope list_scope.
Open Scope Z_scope.

Definition case_port (n : Z) : bytes :=
  [0; 0; 0; n; 0; 0; 0; 0; 2; 0; 0; 0; 0; n; 0; 0] ++ [101; 116; 104; 48 + n] ++ repeat 0 12 ++
  [0; 0; 0; 1; 0; 0; 0; 4; 0; 0; 8; 64; 0; 0; 0; 0; 0; 0; 0; 0; 0; 0; 0; 0; 0; 0; 39; 16; 0; 0; 39; 16].
Definition case_port_status : bytes := [4; 12; 0; 80; 0; 0; 0; 7; 2; 0; 0; 0; 0; 0; 0; 0] ++ case_port 3.
Definition case_ports : bytes := [4; 19; 0; 144; 0; 0; 0; 7; 0; 13; 0; 0; 0; 0; 0; 0] ++ case_port 3 ++ case_port 4.

Lemma empty_refuted : exists p c attrs l t name at_ w d v, wf_bytes p /\ unpack_packet p = Ok (VObj c attrs) /\
  openflow_layout c = Some (("header", 8%nat) :: l, t) /\ placed 8 l name at_ w /\ get_attr name (class_attrs c) = Some d /\ get_attr name attrs = Some v /\
  ~ message_reads name d (slice at_ (at_ + w) p) v.
Proof.
  exists [4; 14; 0; 8; 0; 0; 0; 1]. do 4 eexists. exists "cookie", 8%nat, 8%nat. do 2 eexists.
  split; [repeat constructor; discriminate|]. split; [vm_compute; reflexivity|]. split; [reflexivity|]. split; [left; auto|]. split; [reflexivity|]. split; [reflexivity|].
  intros [R|(_ & w & er & d' & e & z & _ & _ & V & _)]; [inversion R|discriminate V].
Qed.
Lemma zero_length_refuted : exists c inst b attrs l t name at_ w, new_instance c = Some inst /\ wf_bytes b /\ b <> [] /\ unpack inst b 0 = Ok (VObj c attrs) /\
  openflow_layout c = Some (l, t) /\ (forall l', l <> ("header", 8%nat) :: l') /\ placed 0 l name at_ w /\ ~ field_at c attrs b name at_ w.
Proof.
  exists HelloElemHeader04. eexists. exists [0; 1; 0; 0; 1; 2; 3; 4]. do 3 eexists. exists "element_type", 0%nat, 2%nat.
  split; [reflexivity|]. split; [repeat constructor; discriminate|]. split; [discriminate|]. split; [vm_compute; reflexivity|]. split; [reflexivity|]. split; [discriminate|].
  split; [left; auto|]. intros (d & v & Gd & Gv & R). cbn in Gv. injection Gv as <-. inversion R.
Qed.
