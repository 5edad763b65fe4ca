(** C59 to C61: received network packets, what is accepted, what is sent again, what is raised. *)
From Coq Require Import ZArith List Bool String.
From Verif Require Import Base PyText Ids PyVal Classes Interp Addr Spec SpecBasic NetTypes SpecNet SpecNetRelay
  NetFacts NetFacts2 NetRelayFacts.
Import ListNotations.
Open Scope string_scope.
Open Scope list_scope.
Open Scope Z_scope.

(** ** C59: Ethernet frames *)

(** A byte string is a frame and decoded to its parts, or it is no frame and refused. *)
Theorem c59_ethernet : forall bs, wf_bytes bs ->
  (exists dst src tags ty data, frame_ok dst src tags ty data /\ bs = frame dst src tags ty data /\
     eth_unpack bs 0 = Ok (eth_got dst src tags ty data)) \/
  ((forall dst src tags ty data, frame_ok dst src tags ty data -> bs <> frame dst src tags ty data) /\
   eth_unpack bs 0 = Err UnpackException).
Proof. exact eth_any. Qed.
Print Assumptions c59_ethernet.

(** The parts of a frame are determined by its bytes. *)
Theorem c59_unique : forall dst src tags ty data dst' src' tags' ty' data',
  frame_ok dst src tags ty data -> frame_ok dst' src' tags' ty' data' ->
  frame dst src tags ty data = frame dst' src' tags' ty' data' ->
  dst = dst' /\ src = src' /\ tags = tags' /\ ty = ty' /\ data = data'.
Proof. exact frame_unique. Qed.
Print Assumptions c59_unique.

Definition case_frame : bytes :=
  [1; 2; 3; 4; 5; 6] ++ [7; 8; 9; 10; 11; 12] ++ [0x88; 0xa8; 0x20; 5] ++ [0x81; 0; 0; 6] ++ [8; 6] ++ [42].
Example c59_case :
  case_frame = frame [1; 2; 3; 4; 5; 6] [7; 8; 9; 10; 11; 12] [mk_tag 0x88a8 1 0 5; mk_tag 0x8100 0 0 6] 0x806 [42] /\
  eth_unpack case_frame 0
    = Ok (eth_got [1; 2; 3; 4; 5; 6] [7; 8; 9; 10; 11; 12] [mk_tag 0x88a8 1 0 5; mk_tag 0x8100 0 0 6] 0x806 [42]) /\
  eth_unpack (firstn 18 case_frame) 0 = Err UnpackException.
Proof. vm_compute. auto. Qed.

(** ** C60: an accepted packet is sent again *)

Theorem c60_ethernet : forall bs e, wf_bytes bs -> eth_unpack bs 0 = Ok e -> snd (eth_pack e) = Ok bs.
Proof. exact eth_relay. Qed.
Print Assumptions c60_ethernet.

Theorem c60_arp : forall old buff off a, is_arp old -> wf_bytes buff -> arp_unpack old buff off = Ok a ->
  (off + 28 <= List.length buff)%nat /\ arp_pack a = Ok (slice off (off + 28) buff).
Proof. exact arp_relay. Qed.
Print Assumptions c60_arp.

Theorem c60_vlan_partial : forall old buff off v, buff <> [] -> wf_bytes buff -> vlan_unpack old buff off = Ok v ->
  place_value (slice off (off + 2) buff) <> 0 -> snd (vlan_pack v) = Ok (slice off (off + 4) buff).
Proof. exact vlan_relay. Qed.
Print Assumptions c60_vlan_partial.

(** Without options the datagram is sent with its length and its checksum computed anew. *)
Theorem c60_ipv4_partial : forall pre bs p, wf_bytes bs -> ipv4_unpack (pre ++ bs) (List.length pre) = Ok p ->
  i_ihl p = 5 -> zlen bs <= 65535 ->
  exists sum, 0 <= sum < 65535 /\
    let out := slice 0 2 bs ++ two (zlen bs) ++ slice 4 10 bs ++ two sum ++ skipn 12 bs in
    snd (ipv4_pack p) = Ok out /\ oc_sum (words_of (firstn 20 out)) = 65535.
Proof. exact ipv4_relay. Qed.
Print Assumptions c60_ipv4_partial.

(** So it is unchanged if the two were right. *)
Theorem c60_ipv4_same_partial : forall pre bs p, wf_bytes bs -> ipv4_unpack (pre ++ bs) (List.length pre) = Ok p ->
  i_ihl p = 5 -> i_length p = zlen bs -> oc_sum (words_of (firstn 20 bs)) = 65535 -> i_checksum p <> 65535 ->
  snd (ipv4_pack p) = Ok bs.
Proof. exact ipv4_relay_same. Qed.
Print Assumptions c60_ipv4_same_partial.

Theorem c60_ipv6 : forall pre bs p, wf_bytes bs -> ipv6_unpack (pre ++ bs) (List.length pre) = Ok p ->
  zlen bs <= 40 + 65535 -> snd (ipv6_pack p) = Ok (slice 0 4 bs ++ two (zlen bs - 40) ++ skipn 6 bs).
Proof. exact ipv6_relay. Qed.
Print Assumptions c60_ipv6.

Theorem c60_ipv6_same : forall pre bs p, wf_bytes bs -> ipv6_unpack (pre ++ bs) (List.length pre) = Ok p ->
  s_length p = zlen bs - 40 -> snd (ipv6_pack p) = Ok bs.
Proof. exact ipv6_relay_same. Qed.
Print Assumptions c60_ipv6_same.

(** Four TLVs, the first two (which have a subtype) not empty. *)
Theorem c60_lldp_partial : forall ta tb tc td va vb vc vd pre suf,
  (forall t v, In (t, v) [(ta, va); (tb, vb); (tc, vc); (td, vd)] -> 0 <= t <= 127 /\ zlen v <= 511) ->
  va <> [] -> vb <> [] -> wf_bytes va -> wf_bytes vb ->
  let bs := tlv_wire ta va ++ tlv_wire tb vb ++ tlv_wire tc vc ++ tlv_wire td vd in
  exists p, lldp_unpack (pre ++ bs ++ suf) (List.length pre) = Ok p /\ lldp_pack p = Ok bs.
Proof. exact lldp_relay. Qed.
Print Assumptions c60_lldp_partial.

(** A tag of type 0 is accepted and sent as nothing. *)
Theorem c60_vlan_refuted : exists buff v, wf_bytes buff /\ buff <> [] /\
  vlan_unpack (vlan_init None None None) buff 0 = Ok v /\ snd (vlan_pack v) = Ok [] /\ List.length buff = 4%nat.
Proof.
  exists [0; 0; 1; 2]. eexists. split; [repeat constructor; cbn; discriminate|]. split; [discriminate|].
  split; [vm_compute; reflexivity|]. split; vm_compute; reflexivity.
Qed.
Print Assumptions c60_vlan_refuted.

(** A datagram with options, of right length and checksum, is sent with another checksum, which is wrong. *)
Theorem c60_ipv4_options_refuted : exists bs p out, wf_bytes bs /\ ipv4_unpack bs 0 = Ok p /\ i_ihl p = 6 /\
  i_length p = zlen bs /\ oc_sum (words_of (firstn 24 bs)) = 65535 /\
  snd (ipv4_pack p) = Ok out /\ out <> bs /\ oc_sum (words_of (firstn 24 out)) <> 65535.
Proof.
  exists [70; 0; 0; 24; 0; 1; 0; 0; 64; 17; 99; 209; 10; 0; 0; 1; 10; 0; 0; 2; 1; 1; 1; 0]. do 2 eexists.
  split; [repeat constructor; cbn; discriminate|]. split; [vm_compute; reflexivity|]. split; [reflexivity|].
  split; [reflexivity|]. split; [vm_compute; reflexivity|]. split; [vm_compute; reflexivity|].
  split; vm_compute; discriminate.
Qed.
Print Assumptions c60_ipv4_options_refuted.

(** An empty first TLV takes a byte of the next one for its subtype. *)
Theorem c60_lldp_refuted : exists bs p, wf_bytes bs /\
  bs = tlv_wire 1 [] ++ tlv_wire 2 [1; 3] ++ tlv_wire 3 [0; 120] ++ tlv_wire 0 [] /\
  lldp_unpack bs 0 = Ok p /\ lldp_pack p <> Ok bs.
Proof.
  do 2 eexists. split; [|split; [reflexivity|split; [vm_compute; reflexivity|vm_compute; discriminate] ] ].
  repeat constructor; cbn; discriminate.
Qed.
Print Assumptions c60_lldp_refuted.

Example c60_case :
  (do e <- eth_unpack case_frame 0; snd (eth_pack e)) = Ok case_frame /\
  (let bs := [69; 0; 0; 22; 0; 1; 0; 0; 64; 17; 102; 212; 10; 0; 0; 1; 10; 0; 0; 2; 7; 8] in
   (do p <- ipv4_unpack bs 0; snd (ipv4_pack p)) = Ok bs) /\
  (let bs := [0x60; 1; 2; 3; 0; 2; 59; 64] ++ map Z.of_nat (seq 1 32) ++ [7; 8] in
   (do p <- ipv6_unpack bs 0; snd (ipv6_pack p)) = Ok bs) /\
  (let bs := tlv_wire 1 [7; 1; 2] ++ tlv_wire 2 [7; 3] ++ tlv_wire 3 [0; 120] ++ tlv_wire 0 [] in
   (do p <- lldp_unpack bs 0; lldp_pack p) = Ok bs).
Proof. vm_compute. auto. Qed.

(** ** C61: the only exception *)

Theorem c61_ethernet : forall buff off, wf_bytes buff -> only_unpack (eth_unpack buff off).
Proof. exact eth_raises. Qed.
Print Assumptions c61_ethernet.
Theorem c61_arp : forall old buff off, is_arp old -> wf_bytes buff -> only_unpack (arp_unpack old buff off).
Proof. exact arp_only. Qed.
Print Assumptions c61_arp.
Theorem c61_vlan_partial : forall old buff off, buff <> [] -> wf_bytes buff -> only_unpack (vlan_unpack old buff off).
Proof. exact vlan_only. Qed.
Print Assumptions c61_vlan_partial.
Theorem c61_ipv4_partial : forall buff off, buff <> [] -> wf_bytes buff -> only_unpack (ipv4_unpack buff off).
Proof. exact ipv4_raises. Qed.
Print Assumptions c61_ipv4_partial.
Theorem c61_ipv6_partial : forall buff off, buff <> [] -> wf_bytes buff -> only_unpack (ipv6_unpack buff off).
Proof. exact ipv6_raises. Qed.
Print Assumptions c61_ipv6_partial.
Theorem c61_tlv : forall x buff off, only_unpack (tlv_unpack x buff off).
Proof. exact tlv_raises. Qed.
Print Assumptions c61_tlv.
Theorem c61_lldp : forall buff off, wf_bytes buff -> only_unpack (lldp_unpack buff off).
Proof. exact lldp_raises. Qed.
Print Assumptions c61_lldp.

(** An empty buffer raises something else. *)
Theorem c61_empty_refuted :
  (exists e, vlan_unpack (vlan_init None None None) [] 0 = Err e /\ e <> UnpackException) /\
  (exists e, ipv4_unpack [] 0 = Err e /\ e <> UnpackException) /\
  (exists e, ipv6_unpack [] 0 = Err e /\ e <> UnpackException).
Proof.
  split; [|split]; eexists; (split; [vm_compute; reflexivity|discriminate]).
Qed.
Print Assumptions c61_empty_refuted.

Example c61_case :
  eth_unpack [1; 2; 3] 0 = Err UnpackException /\ ipv4_unpack [69] 0 = Err UnpackException /\
  lldp_unpack [2] 0 = Err UnpackException /\ vlan_unpack (vlan_init None None None) [8; 0; 0; 0] 0 = Err UnpackException.
Proof. vm_compute. auto. Qed.
