(** Packets for C43. *)
From Coq Require Import ZArith List Bool String Lia.
From Verif Require Import Base PyText Ids PyVal Classes Interp Utils Spec SpecMsg SpecBasic SpecLayout SpecDecode SpecReencode BaseFacts ClassFacts DispatchFacts.
Import ListNotations.
Open Scope string_scope.
Open Scope list_scope.
Open Scope Z_scope.

(** Whether the fields of [c] all have a fixed size, and what comes behind
    them otherwise. *)
Definition sized_fields (c : cid) : option nat := match openflow_layout c with Some (l, _) => Some (List.length l) | None => None end.
Definition all_fixed (c : cid) : bool :=
  match sized_fields c with Some n => Nat.eqb n (List.length (class_attrs c)) | None => false end.
Definition then_data (c : cid) : bool :=
  match sized_fields c with
  | Some n => match skipn n (class_attrs c) with [(_, VBin _)] => negb (special c) | _ => false end
  | None => false
  end.
Definition messages : list cid := map snd (openflow_types V01 ++ openflow_types V04).

Lemma covered_messages :
  filter (fun c => all_fixed c && negb (cid_eqb c QueueGetConfigRequest04)) messages =
    [FeaturesRequest01; GetConfigRequest01; GetConfigReply01; SetConfig01; FlowRemoved01; PortStatus01; PortMod01; BarrierRequest01; BarrierReply01; QueueGetConfigRequest01;
     FeaturesRequest04; FeaturesReply04; GetConfigRequest04; GetConfigReply04; SetConfig04; PortStatus04; PortMod04; TableMod04; BarrierRequest04; BarrierReply04;
     RoleRequest04; RoleReply04; GetAsyncRequest04; GetAsyncReply04; SetAsync04] /\
  filter then_data messages = [Hello01; EchoRequest01; EchoReply01; VendorHeader01; PacketIn01; EchoRequest04; EchoReply04; ExperimenterHeader04].
Proof. split; vm_compute; reflexivity. Qed.

(** ECHO_REQUEST with data, and a PORT_STATUS of OpenFlow 1.3 with bits set in
    its padding. *)
Definition echo_packet : bytes := [4; 2; 0; 11; 0; 0; 0; 9; 104; 105; 33].
Definition port_bytes : bytes := [0; 0; 0; 7] ++ [0; 0; 0; 0] ++ [0; 1; 2; 171; 4; 5] ++ [0; 0] ++ [101; 116; 104] ++ repeat 0 13 ++ repeat 0 32.
Definition status_packet (pad : Z) : bytes := [4; 12; 0; 80; 0; 0; 0; 9] ++ [1] ++ [pad; 0; 0; 0; 0; 0; 0] ++ port_bytes.

Lemma case_echo : exists attrs, unpack_packet echo_packet = Ok (VObj EchoRequest04 attrs) /\ ends_in_nul (VObj EchoRequest04 attrs) = true /\ pack (VObj EchoRequest04 attrs) = Ok echo_packet.
Proof. eexists. split; [vm_compute; reflexivity|]. split; vm_compute; reflexivity. Qed.
Lemma case_status : exists attrs, unpack_packet (status_packet 5) = Ok (VObj PortStatus04 attrs) /\ ends_in_nul (VObj PortStatus04 attrs) = true /\
  pack (VObj PortStatus04 attrs) = Ok (status_packet 0).
Proof. eexists. split; [vm_compute; reflexivity|]. split; vm_compute; reflexivity. Qed.

Lemma wf_check b : forallb (fun x => (0 <=? x) && (x <? 256)) b = true -> wf_bytes b.
Proof.
  intros H. rewrite forallb_forall in H. apply Forall_forall. intros x I. apply H, andb_prop in I as [A B]. apply Z.leb_le in A. apply Z.ltb_lt in B. split; assumption.
Qed.

(** A text that fills its field loses its last character. *)
Definition full_name (last : Z) : bytes :=
  [4; 12; 0; 80; 0; 0; 0; 9] ++ [1] ++ repeat 0 7 ++ [0; 0; 0; 7] ++ [0; 0; 0; 0] ++ [0; 1; 2; 171; 4; 5] ++ [0; 0] ++ repeat 97 15 ++ [last] ++ repeat 0 32.
Lemma full_name_refuted : exists p c attrs p', wf_bytes p /\ unpack_packet p = Ok (VObj c attrs) /\ pack (VObj c attrs) = Ok p' /\
  slice 32 48 p = repeat 97 16%nat /\ slice 32 48 p' = repeat 97 15%nat ++ [0].
Proof.
  exists (full_name 97), PortStatus04. eexists. exists (full_name 0). split; [apply wf_check; vm_compute; reflexivity|]. split; [vm_compute; reflexivity|].
  split; [vm_compute; reflexivity|]. split; vm_compute; reflexivity.
Qed.

(** The bytes behind the fields of a message are dropped; so is a message type
    the class does not hold. *)
Lemma behind_refuted : exists p c attrs p', wf_bytes p /\ unpack_packet p = Ok (VObj c attrs) /\ pack (VObj c attrs) = Ok p' /\
  List.length p = 9%nat /\ List.length p' = 8%nat.
Proof.
  exists [4; 20; 0; 9; 0; 0; 0; 1; 7], BarrierRequest04. eexists _, _. split; [apply wf_check; vm_compute; reflexivity|]. split; [vm_compute; reflexivity|].
  split; [vm_compute; reflexivity|]. split; reflexivity.
Qed.
Lemma type_changed : exists p c attrs p', wf_bytes p /\ unpack_packet p = Ok (VObj c attrs) /\ pack (VObj c attrs) = Ok p' /\ nth 1 p 0 = 22 /\ nth 1 p' 0 = 7.
Proof.
  exists [4; 22; 0; 16; 0; 0; 0; 1; 255; 255; 255; 255; 0; 0; 0; 0], QueueGetConfigRequest04. eexists _, _. split; [apply wf_check; vm_compute; reflexivity|]. split; [vm_compute; reflexivity|].
  split; [vm_compute; reflexivity|]. split; vm_compute; reflexivity.
Qed.

(** The description reply of OpenFlow 1.0, and port statistics. *)
Definition port_stats_packet : bytes := [1; 17; 0; 116; 0; 0; 0; 2] ++ [0; 4; 0; 0] ++ [0; 3] ++ [9; 9; 9; 9; 9; 9] ++ repeat 1 96%nat.
Lemma case_port_stats : exists attrs p', unpack_packet port_stats_packet = Ok (VObj StatsReply01 attrs) /\ ends_in_nul (VObj StatsReply01 attrs) = true /\
  In (4, BList PortStats01) (stats_forms FStatsReply) /\ whole (BList PortStats01) (skipn 12 port_stats_packet) /\
  pack (VObj StatsReply01 attrs) = Ok p' /\ p' = [1; 17; 0; 116; 0; 0; 0; 2] ++ [0; 4; 0; 0] ++ [0; 3] ++ [0; 0; 0; 0; 0; 0] ++ repeat 1 96%nat.
Proof.
  eexists _, _. split; [vm_compute; reflexivity|]. split; [vm_compute; reflexivity|]. split; [cbn; tauto|].
  split; [right; split; [cbn; tauto|]; eexists _, _, 1%nat; split; reflexivity|]. split; vm_compute; reflexivity.
Qed.
Lemma case_error : exists attrs, unpack_packet [1; 1; 0; 14; 0; 0; 0; 2; 0; 3; 0; 1; 5; 6] = Ok (VObj ErrorMsg01 attrs) /\
  In 3 (map fst (error_codes V01)) /\ pack (VObj ErrorMsg01 attrs) = Ok [1; 1; 0; 14; 0; 0; 0; 2; 0; 3; 0; 1; 5; 6].
Proof. eexists. split; [vm_compute; reflexivity|]. split; [cbn; tauto|vm_compute; reflexivity]. Qed.
