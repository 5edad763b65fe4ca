(** Sizes of network packets: lemmas for C70. *)
From Coq Require Import ZArith List Bool String Lia.
From Verif Require Import Base BaseFacts PyText Ids PyVal Classes Interp Addr NetTypes NetSize SpecBasic SpecMutation SpecLayout SpecSize LayoutFacts SizeFacts.
Import ListNotations.
Open Scope list_scope.
Open Scope Z_scope.

Definition true_field (p : pyval * pyval) : Prop := forall b, pack1 pack (fst p) (snd p) = Ok b -> size1 get_size (fst p) (snd p) = Ok (zlen b).
Lemma sizes_add {A} (f : A -> res bytes) (g : A -> res Z) l : Forall (fun p => forall b, f p = Ok b -> g p = Ok (zlen b)) l ->
  forall bs, concatM f l = Ok bs -> sumM g l = Ok (zlen bs).
Proof.
  induction 1 as [|p l H _ IH]; intros bs E; cbn [concatM sumM] in *.
  - injection E as <-. reflexivity.
  - destruct (f p) as [b|] eqn:F; [|discriminate]. cbn [bind] in E. destruct (concatM f l) as [t|] eqn:T; [|discriminate]. cbn [bind] in E. injection E as <-.
    rewrite (H b eq_refl). cbn [bind]. rewrite (IH t eq_refl). cbn [bind]. rewrite zlen_app. reflexivity.
Qed.
Lemma uint_sized w d v : true_field (VUInt w None d, v).
Proof.
  intros b P. cbn [fst snd] in *. change (size1 get_size (VUInt w None d) v) with (get_size (VUInt w None d)).
  apply uint_carried in P. rewrite (size_ok 1 (VUInt w None d) (Z.of_nat w)); [|reflexivity]. unfold zlen. rewrite (carried_width _ _ _ _ P eq_refl); [reflexivity|]. destruct v; reflexivity.
Qed.
Lemma hw_sized d v : true_field (VHW d, v).
Proof.
  intros b P. cbn [fst snd] in *. change (size1 get_size (VHW d) v) with (get_size (VHW d)). rewrite (size_ok 1 (VHW d) 6) by reflexivity.
  assert (L : List.length b = 6%nat) by (change (hw_pack1 d v = Ok b) in P; unfold hw_pack1 in P; destruct v; eapply hw_len, P). unfold zlen. rewrite L. reflexivity.
Qed.
Lemma ip_sized d m v : true_field (VIP d m, v).
Proof.
  intros b P. cbn [fst snd] in *. change (size1 get_size (VIP d m) v) with (get_size (VIP d m)). rewrite (size_ok 1 (VIP d m) 4) by reflexivity.
  assert (L : List.length b = 4%nat) by (change (ip_pack1 d v = Ok b) in P; unfold ip_pack1 in P; destruct v; eapply ip_len, P). unfold zlen. rewrite L. reflexivity.
Qed.
Lemma bytes_sized x : true_field (VBin VNone, VBytes x).
Proof. intros b P. cbn [fst snd] in *. change (@Ok bytes x = Ok b) in P. injection P as ->. reflexivity. Qed.
Lemma data_sized v : (forall b, pack v = Ok b -> get_size v = Ok (zlen b)) -> true_field (VBin VNone, v).
Proof.
  intros H b P. cbn [fst snd] in *. assert (V : or_default VNone v = v) by (destruct v; reflexivity).
  change (bin_pack pack (or_default VNone v) = Ok b) in P. change (bin_size get_size (or_default VNone v) = Ok (zlen b)). rewrite V in *. unfold bin_pack, bin_size in *.
  destruct (has_pack v); [apply H, P|]. destruct v; try discriminate P; injection P as <-; reflexivity.
Qed.

Lemma arp_size_any h p hl pl o sha spa tha tpa : arp_size (arp_init h p hl pl o sha spa tha tpa) = Ok 28.
Proof. reflexivity. Qed.
Lemma arp_sized h p hl pl o sha spa tha tpa b : arp_pack (arp_init h p hl pl o sha spa tha tpa) = Ok b -> zlen b = 28.
Proof.
  unfold arp_pack. destruct (arp_valid _) as [[]|]; try discriminate. cbn [bind]. unfold net_pack. intros E.
  assert (X : sumM (fun p => size1 get_size (fst p) (snd p)) (net_zip arp_fields (arp_init h p hl pl o sha spa tha tpa)) = Ok (zlen b)).
  { eapply sizes_add; [|exact E]. cbn. repeat constructor; try apply uint_sized; try apply hw_sized; try apply ip_sized. }
  change (arp_size (arp_init h p hl pl o sha spa tha tpa) = Ok (zlen b)) in X. rewrite arp_size_any in X. congruence.
Qed.
Lemma vlan_size_any v : vlan_size v = Ok 4.
Proof. reflexivity. Qed.
Lemma vlan_sized v b : snd (vlan_pack v) = Ok b -> b = [] /\ vl_pcp v = None /\ vl_cfi v = None /\ vl_vid v = None \/ zlen b = 4.
Proof.
  intros E. assert (F : forall t c, net_pack vlan_fields [("tpid"%string, t); ("_tci"%string, c)] = Ok b -> zlen b = 4).
  { intros t c H. assert (X : sumM (fun p => size1 get_size (fst p) (snd p)) (net_zip vlan_fields [("tpid"%string, t); ("_tci"%string, c)]) = Ok (zlen b)).
    { eapply sizes_add; [|exact H]. cbn. repeat constructor; apply uint_sized. }
    change (Ok 4 = Ok (zlen b)) in X. congruence. }
  unfold vlan_pack in E. destruct (vl_pcp v), (vl_cfi v), (vl_vid v); cbn [snd] in E; try (right; eapply F; exact E).
  injection E as <-. left. auto.
Qed.
Lemma uint_struct_len w v b : uint_struct w v = Ok b -> zlen b = Z.of_nat w.
Proof.
  intros H. unfold uint_struct in H. destruct (as_int v); [|discriminate]. unfold struct_pack_u in H. destruct (_ && _); [|discriminate]. injection H as <-. unfold zlen. rewrite be_encode_length. reflexivity.
Qed.
Lemma tlv_sized x b : tlv_pack x = Ok b -> tlv_size x = Ok (zlen b).
Proof.
  unfold tlv_pack, tlv_size. destruct (tlv_value x) as [v|]; [|discriminate]. cbn [bind]. destruct (uint_struct 2 _) as [h|] eqn:U; [|discriminate]. cbn [bind]. intros [= <-].
  apply uint_struct_len in U. rewrite zlen_app, U. reflexivity.
Qed.
Lemma tlv1_sized cv x b : tlv_pack1 cv x = Ok b -> tlv_size1 cv x = Ok (zlen b).
Proof. destruct cv, x; cbn [tlv_pack1 tlv_size1]; try discriminate; apply tlv_sized. Qed.
Lemma lldp_sized p b : lldp_pack p = Ok b -> lldp_size p = Ok (zlen b).
Proof.
  unfold lldp_pack, lldp_size.
  destruct (tlv_pack1 (l_chassis lldp_default) _) as [b1|] eqn:E1; [|discriminate]. cbn [bind]. destruct (tlv_pack1 (l_port lldp_default) _) as [b2|] eqn:E2; [|discriminate]. cbn [bind].
  destruct (tlv_pack1 (l_ttl lldp_default) _) as [b3|] eqn:E3; [|discriminate]. cbn [bind]. destruct (tlv_pack1 (l_end lldp_default) _) as [b4|] eqn:E4; [|discriminate]. cbn [bind].
  intros [= <-]. rewrite (tlv1_sized _ _ _ E1), (tlv1_sized _ _ _ E2), (tlv1_sized _ _ _ E3), (tlv1_sized _ _ _ E4). cbn [bind]. rewrite !zlen_app. f_equal. lia.
Qed.
Lemma ipv4_size_any p : ipv4_size p = Ok (20 + zlen (i_options p) + zlen (i_data p)).
Proof.
  change (ipv4_size p) with (@Ok Z (1 + (1 + (2 + (2 + (2 + (1 + (1 + (2 + (4 + (4 + (zlen (i_options p) + (zlen (i_data p) + 0))))))))))))). f_equal. lia.
Qed.
Lemma ipv4_sized p b : snd (ipv4_pack p) = Ok b -> ipv4_size p = Ok (zlen b).
Proof.
  unfold ipv4_pack. destruct (ipv4_checksum _) as [z|]; [|discriminate]. cbn [snd]. set (q := set_checksum _ z). intros E.
  assert (X : ipv4_size q = Ok (zlen b)).
  { unfold ipv4_size, net_size. eapply sizes_add; [|exact E].
    change (net_zip ipv4_fields (ipv4_dict q)) with
    [(VUInt 1 None VNone, VInt (version_ihl q)); (VUInt 1 None VNone, VInt (dscp_ecn q)); (VUInt 2 None VNone, VInt (i_length q)); (VUInt 2 None VNone, VInt (i_identification q));
     (VUInt 2 None VNone, VInt (flags_offset q)); (VUInt 1 None VNone, VInt (i_ttl q)); (VUInt 1 None VNone, VInt (i_protocol q)); (VUInt 2 None VNone, VInt (i_checksum q));
     (VIP (VStr (txt "0.0.0.0")) 32, i_source q); (VIP (VStr (txt "0.0.0.0")) 32, i_destination q); (VBin VNone, VBytes (i_options q)); (VBin VNone, VBytes (i_data q))].
    repeat apply Forall_cons; try apply Forall_nil; try apply uint_sized; try apply ip_sized; apply bytes_sized. }
  rewrite ipv4_size_any in X |- *. exact X.
Qed.
Lemma ip6_len s b : ip6_bytes s = Ok b -> zlen b = 16.
Proof.
  unfold ip6_bytes. cbv zeta. destruct (mapM _ _); [|discriminate]. cbn [bind]. intros H. apply recast_ok, seq_len in H. unfold zlen. rewrite H. reflexivity.
Qed.
Lemma ipv6_size_any p : ipv6_size p = Ok (40 + zlen (s_data p)).
Proof. change (ipv6_size p) with (@Ok Z (4 + 2 + 1 + 1 + 16 + 16 + zlen (s_data p))). f_equal. Qed.
Lemma ipv6_sized p b : snd (ipv6_pack p) = Ok b -> ipv6_size p = Ok (zlen b).
Proof.
  rewrite ipv6_size_any. unfold ipv6_pack. cbn [snd s_length s_next_header s_hop_limit s_source s_destination s_data].
  assert (A : forall a x, a6_pack a = Ok x -> zlen x = 16) by (intros [a|s] x; apply ip6_len).
  destruct (uint_struct 4 _) as [b1|] eqn:E1; [|discriminate]. cbn [bind]. destruct (uint_struct 2 _) as [b2|] eqn:E2; [|discriminate]. cbn [bind].
  destruct (uint_struct 1 (VInt (s_next_header p))) as [b3|] eqn:E3; [|discriminate]. cbn [bind]. destruct (uint_struct 1 (VInt (s_hop_limit p))) as [b4|] eqn:E4; [|discriminate]. cbn [bind].
  destruct (a6_pack (s_source p)) as [b5|] eqn:E5; [|discriminate]. cbn [bind]. destruct (a6_pack (s_destination p)) as [b6|] eqn:E6; [|discriminate]. cbn [bind].
  intros [= <-]. apply A in E5, E6. apply uint_struct_len in E1, E2, E3, E4. rewrite !zlen_app, E1, E2, E3, E4, E5, E6. f_equal. lia.
Qed.
Lemma vlans_sized l b : Forall (fun v => vl_pcp v <> None \/ vl_cfi v <> None \/ vl_vid v <> None) l -> snd (vlans_pack l) = Ok b -> sumM vlan_size l = Ok (zlen b).
Proof.
  intros F. revert b. induction F as [|v l N F IH]; intros b E; cbn [vlans_pack sumM] in *.
  - injection E as <-. reflexivity.
  - pose proof (vlan_sized v) as V. destruct (vlan_pack v) as [v' [x|]]; [|discriminate]. cbn [snd] in *. destruct (snd (vlans_pack l)) as [y|] eqn:Y; [|discriminate]. cbn [bind] in E. injection E as <-.
    rewrite vlan_size_any. cbn [bind]. rewrite (IH y eq_refl). cbn [bind]. rewrite zlen_app. destruct (V x eq_refl) as [(_ & A & B & C)|V4]; [|rewrite V4; reflexivity].
    destruct N as [N|[N|N]]; contradiction.
Qed.
Lemma eth_sized f b : Forall (fun v => vl_pcp v <> None \/ vl_cfi v <> None \/ vl_vid v <> None) (e_vlans f) ->
  (forall b, pack (e_data f) = Ok b -> get_size (e_data f) = Ok (zlen b)) -> snd (eth_pack f) = Ok b -> eth_size f = Ok (zlen b).
Proof.
  intros F D E. unfold eth_pack, eth_size in *.
  destruct (pack1 pack hw_attr (e_destination f)) as [b1|] eqn:E1; [|discriminate]. cbn [bind] in E. destruct (pack1 pack hw_attr (e_source f)) as [b2|] eqn:E2; [|discriminate]. cbn [bind snd] in E.
  destruct (snd (vlans_pack (e_vlans f))) as [b3|] eqn:E3; [|discriminate]. cbn [bind] in E. destruct (pack1 pack type_attr (e_ether_type f)) as [b4|] eqn:E4; [|discriminate]. cbn [bind] in E.
  destruct (pack1 pack data_attr (e_data f)) as [b5|] eqn:E5; [|discriminate]. cbn [bind] in E. injection E as <-.
  pose proof (hw_sized _ _ _ E1) as S1. pose proof (hw_sized _ _ _ E2) as S2. pose proof (uint_sized _ _ _ _ E4) as S4. pose proof (data_sized _ D _ E5) as S5. cbn [fst snd] in S1, S2, S4, S5.
  unfold hw_attr, type_attr, data_attr. rewrite S1. cbn [bind]. rewrite S2. cbn [bind]. rewrite (vlans_sized _ _ F E3). cbn [bind]. rewrite S4. cbn [bind]. rewrite S5. cbn [bind]. rewrite !zlen_app. f_equal. lia.
Qed.
