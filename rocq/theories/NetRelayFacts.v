(** Facts about received network packets: what is accepted, and sending it again. *)
From Coq Require Import ZArith List Bool String Lia ZifyBool.
From Verif Require Import Base PyText Ids PyVal Classes Interp Addr Spec SpecBasic NetTypes SpecNet BaseFacts TextFacts LeafFacts
  IntFacts AddrFacts NetFacts NetFacts2 SpecNetRelay.
Import ListNotations.
Open Scope string_scope.
Open Scope list_scope.
Open Scope Z_scope.
Ltac Zify.zify_post_hook ::= Z.div_mod_to_equations.

(** ** Short input *)

Lemma net_short fields attrs ws buff off :
  Forall2 (fun p w => leaf_width (snd p) w /\ (0 < w)%nat) fields ws -> fields <> [] -> buff <> [] ->
  (List.length buff < off + list_sum ws)%nat ->
  unpack_fields unpack get_size fields attrs buff off = Err UnpackException.
Proof.
  intros F N NE L. destruct (Nat.le_gt_cases off (List.length buff)) as [O|O].
  - apply (fields_short fields ws); assumption.
  - destruct fields as [|[n cv] tl]; [congruence|]. inversion F as [|? w ? ws' [LW P] F']; subst.
    cbn [unpack_fields]. destruct buff as [|b0 bt] eqn:EB; [congruence|]. rewrite <- EB in *.
    destruct (leaf_step cv w buff off LW) as [SH _]. rewrite SH; [reflexivity|lia|exact P].
Qed.

Lemma vlan_short v buff off : buff <> [] -> (List.length buff < off + 4)%nat ->
  vlan_unpack v buff off = Err UnpackException.
Proof.
  intros NE L. unfold vlan_unpack, net_unpack.
  rewrite (net_short vlan_fields _ [2; 2]%nat); [reflexivity| |discriminate|exact NE|exact L].
  unfold vlan_fields. repeat (constructor; [split; [constructor|lia]|]). constructor.
Qed.

(** ** Ethernet *)

Lemma tag_of_bytes' a b c d : is_tag a b = true -> is_byte c -> is_byte d ->
  let t := mk_tag (a * 256 + b) ((c * 256 + d) / 8192) ((c * 256 + d) / 4096 mod 2) ((c * 256 + d) mod 4096) in
  tag_ok t /\ tag_wire t = [a; b; c; d].
Proof.
  intros T C D. unfold is_byte in *.
  cbn zeta.
  assert (AB : (a = 0x81 /\ b = 0) \/ (a = 0x88 /\ b = 0xa8)) by (unfold is_tag in T; lia).
  assert (R : (c * 256 + d) / 8192 * 8192 + (c * 256 + d) / 4096 mod 2 * 4096 + (c * 256 + d) mod 4096 = c * 256 + d).
  { replace 8192 with (4096 * 2) at 1 by reflexivity. rewrite <- Z.div_div by lia.
    pose proof (Z.div_mod (c * 256 + d) 4096). pose proof (Z.div_mod ((c * 256 + d) / 4096) 2). lia. }
  split.
  - unfold tag_ok. cbn [t_tpid t_pcp t_cfi t_vid].
    pose proof (Z.mod_pos_bound (c * 256 + d) 4096). pose proof (Z.mod_pos_bound ((c * 256 + d) / 4096) 2).
    split; [destruct AB as [[-> ->]|[-> ->] ]; [left|right]; reflexivity|].
    split; [|lia]. split; [apply Z.div_pos; lia|]. assert ((c * 256 + d) / 8192 < 8) by (apply Z.div_lt_upper_bound; lia). lia.
  - unfold tag_wire, two. cbn [t_tpid t_pcp t_cfi t_vid app]. rewrite R.
    rewrite !Z.div_add_l, !(Z.add_comm (_ * 256)), !Z_mod_plus_full by lia.
    rewrite (Z.div_small b 256), (Z.mod_small b 256), (Z.div_small d 256), (Z.mod_small d 256) by lia.
    rewrite !Z.add_0_r. reflexivity.
Qed.

Lemma tag_of_bytes a b c d : is_tag a b = true -> is_byte c -> is_byte d ->
  exists t, tag_ok t /\ tag_wire t = [a; b; c; d].
Proof. intros T C D. eexists. apply (tag_of_bytes' a b c d T C D). Qed.

(** The bytes behind the addresses: complete tags, then the rest. *)
Inductive after_tags : bytes -> nat -> Prop :=
| at_short x : (List.length x < 2)%nat -> after_tags x 0
| at_type a b data : is_tag a b = false -> after_tags (a :: b :: data) 0
| at_cut a b z : is_tag a b = true -> (List.length z < 2)%nat -> after_tags (a :: b :: z) 4.

Lemma cut_tags n : forall rest, (List.length rest <= n)%nat -> wf_bytes rest ->
  exists tags x k, Forall tag_ok tags /\ rest = flat_map tag_wire tags ++ x /\ after_tags x k /\
    tag_bytes rest = (4 * List.length tags + k)%nat.
Proof.
  induction n as [|n IH]; intros rest L W.
  - destruct rest; [|cbn in L; lia]. exists [], [], 0%nat. repeat split; try constructor. cbn. lia.
  - destruct rest as [|a [|b z] ].
    + exists [], [], 0%nat. repeat split; try constructor. cbn. lia.
    + exists [], [a], 0%nat. repeat split; try constructor. cbn. lia.
    + destruct (is_tag a b) eqn:T.
      2:{ exists [], (a :: b :: z), 0%nat. split; [constructor|]. split; [reflexivity|]. split; [constructor; exact T|].
          destruct z as [|c [|d z] ]; cbn [tag_bytes]; rewrite T; reflexivity. }
      destruct z as [|c [|d z] ].
      * exists [], [a; b], 4%nat. split; [constructor|]. split; [reflexivity|]. split; [constructor; [exact T|cbn; lia]|].
        cbn [tag_bytes]. rewrite T. reflexivity.
      * exists [], [a; b; c], 4%nat. split; [constructor|]. split; [reflexivity|]. split; [constructor; [exact T|cbn; lia]|].
        cbn [tag_bytes]. rewrite T. reflexivity.
      * inversion W as [|? ? A W1]; subst. inversion W1 as [|? ? B W2]; subst. inversion W2 as [|? ? C W3]; subst.
        inversion W3 as [|? ? D W4]; subst.
        destruct (IH z ltac:(cbn in L; lia) W4) as (tags & x & k & F & E & AT & TB).
        destruct (tag_of_bytes a b c d T C D) as (t & TO & TW).
        exists (t :: tags), x, k. split; [constructor; assumption|]. split.
        { cbn [flat_map]. rewrite TW, <- app_assoc, <- E. reflexivity. }
        split; [exact AT|]. cbn [tag_bytes]. rewrite T, TB. cbn [List.length]. lia.
Qed.

Lemma vlans_unpack_cut x : x <> [] -> (List.length x < 4)%nat -> forall tags, Forall tag_ok tags -> forall k pre,
  (List.length tags < k)%nat ->
  vlans_unpack k (pre ++ flat_map tag_wire tags ++ x) (List.length pre) = Err UnpackException.
Proof.
  intros NX LX. induction 1 as [|t tags T F IH]; intros k pre K.
  - destruct k as [|k]; [cbn in K; lia|]. cbn [flat_map app vlans_unpack].
    rewrite (proj2 (Nat.ltb_lt _ _)) by (rewrite app_length; destruct x; [congruence|cbn [List.length]; lia]).
    rewrite vlan_short; [reflexivity| |rewrite app_length; lia].
    intros E. apply app_eq_nil in E. tauto.
  - cbn [List.length] in K. destruct k as [|k]; [lia|]. cbn [vlans_unpack flat_map].
    destruct (tag_wire_4 t T) as (a & b & c & d & E & _).
    rewrite (proj2 (Nat.ltb_lt _ _)) by (rewrite E, !app_length; cbn [List.length]; lia).
    rewrite <- app_assoc. rewrite vlan_decode by exact T. cbn [bind]. rewrite got_vlan_size. cbn [bind].
    replace (List.length pre + Z.to_nat 4)%nat with (List.length (pre ++ tag_wire t))
      by (rewrite app_length, E; cbn [List.length]; lia).
    rewrite app_assoc, IH by lia. reflexivity.
Qed.

Lemma eth_head buff : (12 <= List.length buff)%nat ->
  exists d s, unpack hw_attr buff 0 = Ok d /\ get_size d = Ok 6 /\ unpack hw_attr buff 6 = Ok s /\ get_size s = Ok 6.
Proof.
  intros L. destruct (proj2 (leaf_step hw_attr 6 buff 0 (lw_hw _)) ltac:(lia)) as (d & D & SD).
  destruct (proj2 (leaf_step hw_attr 6 buff 6 (lw_hw _)) ltac:(lia)) as (s & S & SS). exists d, s. auto.
Qed.

Lemma eth_refused bs : wf_bytes bs ->
  (exists dst src tags ty data, frame_ok dst src tags ty data /\ bs = frame dst src tags ty data) \/
  eth_unpack bs 0 = Err UnpackException.
Proof.
  intros W. destruct (Nat.lt_ge_cases (List.length bs) 12) as [L|L].
  - right. unfold eth_unpack. destruct (leaf_step hw_attr 6 bs 0 (lw_hw _)) as [SH OK]. cbn [deepcopy hw_attr] in *.
    destruct (Nat.lt_ge_cases (List.length bs) 6) as [L6|L6].
    + change hw_attr with (VHW (VStr (txt "00:00:00:00:00:00"))). rewrite SH by lia. reflexivity.
    + destruct (OK ltac:(lia)) as (d & D & SD). change hw_attr with (VHW (VStr (txt "00:00:00:00:00:00"))).
      rewrite D. cbn [bind]. rewrite SD. cbn [bind]. change (0 + Z.to_nat (Z.of_nat 6))%nat with 6%nat.
      destruct (leaf_step hw_attr 6 bs 6 (lw_hw _)) as [SH2 _]. cbn [deepcopy hw_attr] in SH2. rewrite SH2 by lia. reflexivity.
  - destruct (wf_cut 12 bs W L) as (h & rest & E & LH & WH & WR & _ & _).
    destruct (wf_cut 6 h WH ltac:(lia)) as (dst & src & E' & LD & WD & WS & _ & _).
    assert (LS : List.length src = 6%nat) by (rewrite E', app_length in LH; lia).
    destruct (cut_tags _ rest (le_n _) WR) as (tags & x & k & F & ER & AT & TB).
    assert (EB : bs = dst ++ src ++ flat_map tag_wire tags ++ x) by (rewrite E, E', ER, <- app_assoc; reflexivity).
    destruct AT as [x LX|a b data T|a b z T LZ].
    + right. destruct (eth_head bs L) as (d & s & U1 & S1 & U2 & S2). unfold eth_unpack.
      rewrite U1. cbn [bind]. rewrite S1. cbn [bind]. change (0 + Z.to_nat 6)%nat with 6%nat.
      rewrite U2. cbn [bind]. rewrite S2. cbn [bind]. change (6 + Z.to_nat 6)%nat with 12%nat.
      assert (VL : vlan_length bs = (4 * List.length tags)%nat).
      { unfold vlan_length. rewrite E, skipn_app_exact by lia. rewrite TB. lia. }
      rewrite VL.
      assert (SL : slice 12 (12 + 4 * List.length tags) bs = flat_map tag_wire tags).
      { rewrite EB, app_assoc. apply slice_mid; rewrite app_length; [lia|]. rewrite tags_len. lia. }
      rewrite SL, (vlans_unpack_tags tags F _ []) by (rewrite tags_len; lia).
      cbn [bind]. rewrite sum_sizes. cbn [bind].
      destruct (leaf_step type_attr 2 bs (12 + Z.to_nat (4 * zlen tags)) (lw_int _ _)) as [SH _].
      cbn [deepcopy type_attr] in SH. change type_attr with (VUInt 2 None VNone). rewrite SH; [reflexivity| |lia].
      rewrite EB, !app_length, tags_len. unfold zlen. lia.
    + left. exists dst, src, tags, (a * 256 + b), data.
      assert (WX : wf_bytes (a :: b :: data)). { rewrite ER in WR. apply Forall_app in WR. tauto. }
      apply Forall_cons_iff in WX as (A & WX). apply Forall_cons_iff in WX as (B & W2). pose proof A as A'. pose proof B as B'. unfold is_byte in A', B'.
      split.
      { unfold frame_ok. unfold is_tag in T. repeat (split; [assumption || lia|]). assumption. }
      unfold frame. rewrite two_pair by assumption. exact EB.
    + right. destruct (eth_head bs L) as (d & s & U1 & S1 & U2 & S2). unfold eth_unpack.
      rewrite U1. cbn [bind]. rewrite S1. cbn [bind]. change (0 + Z.to_nat 6)%nat with 6%nat.
      rewrite U2. cbn [bind]. rewrite S2. cbn [bind]. change (6 + Z.to_nat 6)%nat with 12%nat.
      assert (VL : vlan_length bs = (4 * List.length tags + 4)%nat).
      { unfold vlan_length. rewrite E, skipn_app_exact by lia. exact TB. }
      rewrite VL.
      assert (SL : slice 12 (12 + (4 * List.length tags + 4)) bs = flat_map tag_wire tags ++ a :: b :: z).
      { unfold slice. rewrite E, <- ER. rewrite firstn_all2; [apply skipn_app_exact; lia|].
        rewrite app_length, LH, ER, app_length, tags_len. cbn [List.length]. lia. }
      rewrite SL. rewrite (vlans_unpack_cut (a :: b :: z) ltac:(discriminate) ltac:(cbn; lia) tags F _ []); [reflexivity|].
      rewrite app_length, tags_len. cbn [List.length]. lia.
Qed.

Lemma eth_any bs : wf_bytes bs ->
  (exists dst src tags ty data, frame_ok dst src tags ty data /\ bs = frame dst src tags ty data /\
     eth_unpack bs 0 = Ok (eth_got dst src tags ty data)) \/
  ((forall dst src tags ty data, frame_ok dst src tags ty data -> bs <> frame dst src tags ty data) /\
   eth_unpack bs 0 = Err UnpackException).
Proof.
  intros W. assert (D : forall dst src tags ty data, frame_ok dst src tags ty data ->
    eth_unpack (frame dst src tags ty data) 0 = Ok (eth_got dst src tags ty data)).
  { intros dst src tags ty data (A & B & C & E & F & G & H & I & J). apply eth_decodes; assumption. }
  destruct (eth_refused bs W) as [(dst & src & tags & ty & data & O & ->)|U].
  - left. exists dst, src, tags, ty, data. auto.
  - right. split; [|exact U]. intros dst src tags ty data O E. rewrite E, (D _ _ _ _ _ O) in U. discriminate U.
Qed.

Lemma got_mac_of bs : wf_bytes bs -> List.length bs = 6%nat -> mac_of (got_mac bs) bs.
Proof.
  intros W L. split; [exact L|]. exists (colon_hex bs). split; [|right; reflexivity].
  rewrite (colon_hex_canonical bs W). apply hex_canonical_text, W.
Qed.

Lemma got_tags tags : Forall tag_ok tags -> Forall2 tags_of (map got_vlan tags) (map (fun t => [t]) tags).
Proof.
  induction 1 as [|t tags T F IH]; [constructor|]. cbn [map]. constructor; [|exact IH]. right.
  split; [intros (_ & _ & X); discriminate X|]. exists t. split; [reflexivity|]. split; [exact T|]. cbn. unfold unset0. auto 10.
Qed.

Lemma concat_single {A} (l : list A) : List.concat (map (fun t => [t]) l) = l.
Proof. induction l as [|a l IH]; [reflexivity|]. cbn. rewrite IH. reflexivity. Qed.

Lemma got_int_of w z : (0 < w)%nat -> fits w z -> int_of w (got_int w z) z.
Proof.
  intros P F. split; [discriminate|]. split; [|exact F]. unfold got_int. eauto using int_value.
Qed.

Lemma eth_relay bs e : wf_bytes bs -> eth_unpack bs 0 = Ok e -> snd (eth_pack e) = Ok bs.
Proof.
  intros W U. destruct (eth_any bs W) as [(dst & src & tags & ty & data & O & E & U')|(_ & U')]; [|congruence].
  rewrite U in U'. injection U' as ->. destruct O as (A & B & C & D & F & G & H & I & J). unfold eth_got.
  rewrite (eth_packs _ _ _ (map (fun t => [t]) tags) _ _ dst src ty data).
  - rewrite concat_single, E. reflexivity.
  - apply got_mac_of; assumption.
  - apply got_mac_of; assumption.
  - apply got_tags, F.
  - apply got_int_of; [lia|apply fits2; lia].
  - right. left. reflexivity.
Qed.

(** ** ARP *)

Lemma got_ip_of bs : wf_bytes bs -> List.length bs = 4%nat -> ip_of (got_ip bs) bs.
Proof. intros W L. split; [exact L|]. split; [exact W|]. right. eexists. reflexivity. Qed.

Lemma arp_relay_28 bs : wf_bytes bs -> List.length bs = 28%nat ->
  place_value (slice 0 2 bs) = 1 -> place_value (slice 2 4 bs) = 0x0800 -> arp_pack (arp_parse bs) = Ok bs.
Proof.
  intros W L P1 P2.
  destruct (wf_cut 2 bs W ltac:(lia)) as (h & r & E & Lh & Wh & Wr & _). rewrite E, app_length in L.
  destruct (wf_cut 2 r Wr ltac:(lia)) as (p & r1 & E1 & Lp & Wp & Wr1 & _). rewrite E1, app_length in L.
  destruct (wf_cut 1 r1 Wr1 ltac:(lia)) as (hl & r2 & E2 & Lhl & Whl & Wr2 & _). rewrite E2, app_length in L.
  destruct (wf_cut 1 r2 Wr2 ltac:(lia)) as (pl & r3 & E3 & Lpl & Wpl & Wr3 & _). rewrite E3, app_length in L.
  destruct (wf_cut 2 r3 Wr3 ltac:(lia)) as (o & r4 & E4 & Lo & Wo & Wr4 & _). rewrite E4, app_length in L.
  destruct (wf_cut 6 r4 Wr4 ltac:(lia)) as (a & r5 & E5 & La & Wa & Wr5 & _). rewrite E5, app_length in L.
  destruct (wf_cut 4 r5 Wr5 ltac:(lia)) as (b & r6 & E6 & Lb & Wb & Wr6 & _). rewrite E6, app_length in L.
  destruct (wf_cut 6 r6 Wr6 ltac:(lia)) as (c & d & E7 & Lc & Wc & Wd & _). rewrite E7, app_length in L.
  assert (Ld : List.length d = 4%nat) by lia.
  subst r r1 r2 r3 r4 r5 r6.
  assert (SL : forall n m (x y z : bytes), n = List.length x -> m = List.length (x ++ y) -> slice n m (x ++ y ++ z) = y).
  { intros n m x y z -> ->. rewrite app_length. apply slice_mid; reflexivity. }
  assert (S0 : slice 0 2 bs = h) by (rewrite E; apply (SL _ _ []); cbn; lia).
  assert (S1 : slice 2 4 bs = p) by (rewrite E; apply SL; rewrite ?app_length; lia).
  assert (S2 : slice 4 5 bs = hl) by (rewrite E, app_assoc; apply SL; rewrite ?app_length; lia).
  assert (S3 : slice 5 6 bs = pl) by (rewrite E, (app_assoc h), (app_assoc (h ++ p)); apply SL; rewrite ?app_length; lia).
  assert (S4 : slice 6 8 bs = o).
  { rewrite E, (app_assoc h), (app_assoc (h ++ p)), (app_assoc ((h ++ p) ++ hl)). apply SL; rewrite ?app_length; lia. }
  assert (S5 : slice 8 14 bs = a).
  { rewrite E, (app_assoc h), (app_assoc (h ++ p)), (app_assoc ((h ++ p) ++ hl)), (app_assoc (((h ++ p) ++ hl) ++ pl)).
    apply SL; rewrite ?app_length; lia. }
  assert (S6 : slice 14 18 bs = b).
  { rewrite E, (app_assoc h), (app_assoc (h ++ p)), (app_assoc ((h ++ p) ++ hl)), (app_assoc (((h ++ p) ++ hl) ++ pl)),
      (app_assoc ((((h ++ p) ++ hl) ++ pl) ++ o)). apply SL; rewrite ?app_length; lia. }
  assert (S7 : slice 18 24 bs = c).
  { rewrite E, (app_assoc h), (app_assoc (h ++ p)), (app_assoc ((h ++ p) ++ hl)), (app_assoc (((h ++ p) ++ hl) ++ pl)),
      (app_assoc ((((h ++ p) ++ hl) ++ pl) ++ o)), (app_assoc (((((h ++ p) ++ hl) ++ pl) ++ o) ++ a)).
    apply SL; rewrite ?app_length; lia. }
  assert (S8 : slice 24 28 bs = d).
  { rewrite E. replace (h ++ p ++ hl ++ pl ++ o ++ a ++ b ++ c ++ d) with ((h ++ p ++ hl ++ pl ++ o ++ a ++ b ++ c) ++ d ++ [])
      by (rewrite app_nil_r, <- !app_assoc; reflexivity). apply SL; rewrite ?app_length; lia. }
  unfold arp_parse. rewrite S0, S1, S2, S3, S4, S5, S6, S7, S8. rewrite S0 in P1. rewrite S1 in P2. rewrite P1, P2.
  assert (PV : forall x n, wf_bytes x -> List.length x = n -> fits n (place_value x) /\ x = be_encode n (place_value x)).
  { intros x n Wx Lx. subst n. rewrite place_value_decode. split.
    - unfold fits. rewrite <- ulimit_pow. apply be_decode_bound, Wx.
    - symmetry. apply be_encode_decode, Wx. }
  destruct (PV h 2%nat Wh Lh) as [_ Eh]. destruct (PV p 2%nat Wp Lp) as [_ Ep]. rewrite P1 in Eh. rewrite P2 in Ep.
  destruct (PV hl 1%nat Whl Lhl) as [Fhl Ehl]. destruct (PV pl 1%nat Wpl Lpl) as [Fpl Epl]. destruct (PV o 2%nat Wo Lo) as [Fo Eo].
  unfold arp_got.
  destruct (arp_roundtrip (got_int 2 1) (got_int 2 2048) (got_int 1 (place_value hl)) (got_int 1 (place_value pl))
    (got_int 2 (place_value o)) (got_mac a) (got_ip b) (got_mac c) (got_ip d)
    (place_value hl) (place_value pl) (place_value o) a b c d) as (_ & -> & _).
  - constructor.
  - constructor.
  - apply got_int_of; [lia|exact Fhl].
  - apply got_int_of; [lia|exact Fpl].
  - apply got_int_of; [lia|exact Fo].
  - apply got_mac_of; assumption.
  - apply got_ip_of; assumption.
  - apply got_mac_of; assumption.
  - apply got_ip_of; assumption.
  - f_equal. rewrite E. unfold arp_wire.
    rewrite be1 in Ehl by (apply fits1, Fhl). rewrite be1 in Epl by (apply fits1, Fpl). rewrite be2 in Eo by (apply fits2, Fo).
    rewrite Eh, Ep. rewrite <- Eo. rewrite Ehl at 2. rewrite Epl at 2. reflexivity.
Qed.

Lemma window buff off n : wf_bytes buff -> (off + n <= List.length buff)%nat ->
  exists pre bs suf, buff = pre ++ bs ++ suf /\ List.length pre = off /\ List.length bs = n /\ wf_bytes bs /\
    slice off (off + n) buff = bs.
Proof.
  intros W L. destruct (wf_cut off buff W ltac:(lia)) as (pre & r & E & Lp & _ & Wr & _). rewrite E, app_length in L.
  destruct (wf_cut n r Wr ltac:(lia)) as (bs & suf & E' & Lb & Wb & _). exists pre, bs, suf.
  rewrite E, E'. split; [reflexivity|]. split; [exact Lp|]. split; [exact Lb|]. split; [exact Wb|].
  apply slice_mid; lia.
Qed.

Lemma arp_relay old buff off a : is_arp old -> wf_bytes buff -> arp_unpack old buff off = Ok a ->
  (off + 28 <= List.length buff)%nat /\ arp_pack a = Ok (slice off (off + 28) buff).
Proof.
  intros O W U. destruct (Nat.lt_ge_cases (List.length buff) (off + 28)) as [L|L].
  - rewrite (arp_short old buff off O L) in U. discriminate U.
  - split; [exact L|]. destruct (window buff off 28 W L) as (pre & bs & suf & E & <- & Lb & Wb & ->).
    rewrite E, (arp_any old pre bs suf O Wb Lb) in U.
    destruct ((place_value (slice 0 2 bs) =? 1) && (place_value (slice 2 4 bs) =? 0x0800)) eqn:C; [|discriminate U].
    injection U as <-. apply arp_relay_28; [exact Wb|exact Lb|lia|lia].
Qed.

Lemma arp_raises old buff off e : is_arp old -> wf_bytes buff -> arp_unpack old buff off = Err e -> e = UnpackException.
Proof.
  intros O W U. destruct (Nat.lt_ge_cases (List.length buff) (off + 28)) as [L|L].
  - rewrite (arp_short old buff off O L) in U. congruence.
  - destruct (window buff off 28 W L) as (pre & bs & suf & E & <- & Lb & Wb & _).
    rewrite E, (arp_any old pre bs suf O Wb Lb) in U. destruct (_ && _); congruence.
Qed.

(** ** VLAN *)

Lemma vlan_step old buff off : buff <> [] -> wf_bytes buff ->
  vlan_unpack old buff off = Err UnpackException \/
  exists v, vlan_unpack old buff off = Ok v /\ vlan_size v = Ok 4 /\ (off + 4 <= List.length buff)%nat /\
    let tpid := place_value (slice off (off + 2) buff) in
    (tpid = 0 /\ snd (vlan_pack v) = Ok []) \/
    ((tpid = 0x8100 \/ tpid = 0x88a8) /\ snd (vlan_pack v) = Ok (slice off (off + 4) buff)).
Proof.
  intros NE W. destruct (Nat.lt_ge_cases (List.length buff) (off + 4)) as [L|L]; [left; apply vlan_short; assumption|].
  destruct (window buff off 4 W L) as (pre & bs & suf & E & <- & Lb & Wb & ->).
  destruct bs as [|a [|b [|c [|d [|? ?] ] ] ] ]; try discriminate Lb.
  apply Forall_cons_iff in Wb as (A & Wb). apply Forall_cons_iff in Wb as (B & Wb). apply Forall_cons_iff in Wb as (C & Wb).
  apply Forall_cons_iff in Wb as (D & _).
  assert (SL : slice (List.length pre) (List.length pre + 2) buff = [a; b]).
  { rewrite E. change ([a; b; c; d] ++ suf) with ([a; b] ++ [c; d] ++ suf). apply slice_mid; reflexivity. }
  rewrite SL, place2. pose proof (vlan_any old pre a b c d suf A B C D) as V. rewrite <- E in V. cbn zeta in V. rewrite V.
  destruct (a * 256 + b =? 0) eqn:Z0.
  - right. eexists. split; [reflexivity|]. split; [reflexivity|]. split; [exact L|]. left. split; [lia|reflexivity].
  - destruct ((a * 256 + b =? 33024) || (a * 256 + b =? 34984)) eqn:T; [|left; reflexivity].
    right. eexists. split; [reflexivity|]. split; [reflexivity|]. split; [exact L|]. right. split; [lia|].
    assert (IT : is_tag a b = true) by (unfold is_tag, is_byte in *; lia).
    set (t := mk_tag (a * 256 + b) ((c * 256 + d) / 8192) ((c * 256 + d) / 4096 mod 2) ((c * 256 + d) mod 4096)).
    destruct (tag_of_bytes' a b c d IT C D) as (TO & TW). fold t in TO, TW.
    rewrite (vlan_pack_tag _ t); [rewrite TW; reflexivity|]. right.
    split; [intros (_ & _ & X); discriminate X|]. exists t. split; [reflexivity|]. split; [exact TO|]. cbn. unfold unset0. auto 10.
Qed.

Lemma vlan_raises old buff off e : buff <> [] -> wf_bytes buff -> vlan_unpack old buff off = Err e -> e = UnpackException.
Proof. intros NE W U. destruct (vlan_step old buff off NE W) as [E|(v & E & _)]; congruence. Qed.

Lemma vlan_relay old buff off v : buff <> [] -> wf_bytes buff -> vlan_unpack old buff off = Ok v ->
  place_value (slice off (off + 2) buff) <> 0 -> snd (vlan_pack v) = Ok (slice off (off + 4) buff).
Proof.
  intros NE W U N. destruct (vlan_step old buff off NE W) as [E|(v' & E & _ & _ & C)]; [congruence|].
  rewrite U in E. injection E as <-. destruct C as [(C & _)|(_ & C)]; [contradiction|exact C].
Qed.

(** ** Exceptions of Ethernet at any offset *)

Lemma vlans_raises k : forall buff off e, wf_bytes buff -> (List.length buff - off < 4 * k)%nat \/ (List.length buff <= off)%nat ->
  vlans_unpack k buff off = Err e -> e = UnpackException.
Proof.
  induction k as [|k IH]; intros buff off e W L U.
  - cbn [vlans_unpack] in U. destruct (Nat.ltb off (List.length buff)) eqn:C; [|discriminate U]. apply Nat.ltb_lt in C. lia.
  - cbn [vlans_unpack] in U. destruct (Nat.ltb off (List.length buff)) eqn:C; [|discriminate U]. apply Nat.ltb_lt in C.
    assert (NE : buff <> []) by (intros ->; cbn in C; lia).
    destruct (vlan_step (vlan_init None None None) buff off NE W) as [E|(v & E & S & G & _)]; rewrite E in U; cbn [bind] in U; [congruence|].
    rewrite S in U. cbn [bind] in U. change (Z.to_nat 4) with 4%nat in U.
    destruct (vlans_unpack k buff (off + 4)) as [l|e'] eqn:R; cbn [bind] in U; [discriminate U|].
    injection U as <-. apply (IH buff (off + 4)%nat e' W); [lia|exact R].
Qed.

Lemma vlans_sizes k : forall buff off l, wf_bytes buff -> vlans_unpack k buff off = Ok l -> Forall (fun v => vlan_size v = Ok 4) l.
Proof.
  induction k as [|k IH]; intros buff off l W U; cbn [vlans_unpack] in U; destruct (Nat.ltb off (List.length buff)) eqn:C;
    try (injection U as <-; constructor); try discriminate U.
  apply Nat.ltb_lt in C. assert (NE : buff <> []) by (intros ->; cbn in C; lia).
  destruct (vlan_step (vlan_init None None None) buff off NE W) as [E|(v & E & S & G & _)]; rewrite E in U; cbn [bind] in U; [discriminate U|].
  rewrite S in U. cbn [bind] in U. destruct (vlans_unpack k buff (off + Z.to_nat 4)) as [l'|] eqn:R; cbn [bind] in U; [|discriminate U].
  injection U as <-. constructor; [exact S|]. eapply IH; eauto.
Qed.

Lemma sizes_sum l : Forall (fun v => vlan_size v = Ok 4) l -> exists z, sumM vlan_size l = Ok z.
Proof.
  induction 1 as [|v l S F (z & IH)]; [eexists; reflexivity|]. cbn [sumM]. rewrite S, IH. eexists. reflexivity.
Qed.

Lemma leaf_cases cv w buff off : leaf_width cv w -> (0 < w)%nat -> deepcopy cv = cv ->
  unpack cv buff off = Err UnpackException \/ exists out, unpack cv buff off = Ok out /\ get_size out = Ok (Z.of_nat w).
Proof.
  intros H P E. destruct (leaf_step cv w buff off H) as [S O]. rewrite E in S, O.
  destruct (Nat.lt_ge_cases (List.length buff) (off + w)); auto.
Qed.

Lemma slice_wf a b (buff : bytes) : wf_bytes buff -> wf_bytes (slice a b buff).
Proof. intros W. unfold slice. apply wf_bytes_skipn, wf_bytes_firstn, W. Qed.

Lemma data_reads buff off : exists x n, unpack data_attr buff off = Ok x /\ get_size x = Ok n.
Proof. exists (VBin (VBytes (skipn off buff))), (zlen (skipn off buff)). split; reflexivity. Qed.

Lemma only_bind {A B} (r : res A) (f : A -> res B) :
  only_unpack r -> (forall a, r = Ok a -> only_unpack (f a)) -> only_unpack (bind r f).
Proof. intros R F e. destruct r as [a|x]; cbn [bind]; [apply F; reflexivity|intros E; apply R; congruence]. Qed.
Lemma only_ok {A} (r : res A) a : r = Ok a -> only_unpack r.
Proof. intros -> e E. discriminate E. Qed.
Lemma only_leaf cv w buff off : leaf_width cv w -> (0 < w)%nat -> deepcopy cv = cv -> only_unpack (unpack cv buff off).
Proof.
  intros H P D. destruct (leaf_cases cv w buff off H P D) as [E|(o & E & _)]; rewrite E; [intros e X; congruence|apply (only_ok _ o eq_refl)].
Qed.
Lemma only_size cv w buff off out : leaf_width cv w -> (0 < w)%nat -> deepcopy cv = cv -> unpack cv buff off = Ok out ->
  only_unpack (get_size out).
Proof.
  intros H P D U. destruct (leaf_cases cv w buff off H P D) as [E|(o & E & S)]; [congruence|].
  assert (o = out) as <- by congruence. apply (only_ok _ _ S).
Qed.

Lemma eth_raises buff off : wf_bytes buff -> only_unpack (eth_unpack buff off).
Proof.
  intros W. unfold eth_unpack.
  apply only_bind; [apply (only_leaf _ 6); [constructor|lia|reflexivity]|intros d D].
  apply only_bind; [apply (only_size hw_attr 6 buff off); [constructor|lia|reflexivity|exact D]|intros ds _]. cbn zeta.
  apply only_bind; [apply (only_leaf _ 6); [constructor|lia|reflexivity]|intros s S].
  apply only_bind; [eapply (only_size hw_attr 6 buff); [constructor|lia|reflexivity|exact S]|intros ss _].
  set (b2 := (off + Z.to_nat ds + Z.to_nat ss)%nat).
  set (part := slice b2 (b2 + vlan_length buff) buff). assert (WP : wf_bytes part) by (apply slice_wf, W).
  apply only_bind; [intros e V; apply (vlans_raises (List.length part) part 0 e WP); [lia|exact V]|intros vs V].
  apply only_bind; [destruct (sizes_sum vs (vlans_sizes _ _ _ _ WP V)) as (z & Z); apply (only_ok _ _ Z)|intros vsz _].
  apply only_bind; [apply (only_leaf _ 2); [constructor|lia|reflexivity]|intros t T].
  apply only_bind; [eapply (only_size type_attr 2 buff); [constructor|lia|reflexivity|exact T]|intros ts _].
  match goal with |- context [unpack data_attr buff ?b] => destruct (data_reads buff b) as (x & n & E3 & S3); rewrite E3 end.
  cbn [bind]. rewrite S3. cbn [bind]. eapply only_ok. reflexivity.
Qed.

(** ** IPv4 *)

Lemma suffix_cut buff off : wf_bytes buff -> (off <= List.length buff)%nat ->
  buff = firstn off buff ++ skipn off buff /\ List.length (firstn off buff) = off /\ wf_bytes (skipn off buff).
Proof.
  intros W L. split; [symmetry; apply firstn_skipn|]. split; [rewrite firstn_length; lia|apply wf_bytes_skipn, W].
Qed.

Lemma ipv4_raises buff off : buff <> [] -> wf_bytes buff -> only_unpack (ipv4_unpack buff off).
Proof.
  intros NE W. destruct (Nat.lt_ge_cases (List.length buff) (off + 20)) as [L|L].
  - intros e E. rewrite (ipv4_short buff off NE L) in E. congruence.
  - destruct (suffix_cut buff off W ltac:(lia)) as (E & LP & WS).
    pose proof (ipv4_any (firstn off buff) (skipn off buff) WS ltac:(rewrite skipn_length; lia)) as U.
    rewrite LP, <- E in U. eapply only_ok. exact U.
Qed.

Lemma ipv6_raises buff off : buff <> [] -> wf_bytes buff -> only_unpack (ipv6_unpack buff off).
Proof.
  intros NE W. destruct (Nat.lt_ge_cases (List.length buff) (off + 40)) as [L|L].
  - intros e E. rewrite (ipv6_short buff off NE L) in E. congruence.
  - destruct (suffix_cut buff off W ltac:(lia)) as (E & LP & WS).
    destruct (ipv6_any (firstn off buff) (skipn off buff) WS) as (src & dst & _ & _ & _ & _ & _ & _ & U); [rewrite skipn_length; lia|].
    cbn zeta in U. rewrite LP, <- E in U. eapply only_ok. exact U.
Qed.

Lemma fields_of_ipv4 pre bs p : wf_bytes bs -> ipv4_unpack (pre ++ bs) (List.length pre) = Ok p ->
  (20 <= List.length bs)%nat /\ p = ipv4_parse bs.
Proof.
  intros W U. destruct (Nat.lt_ge_cases (List.length bs) 20) as [L|L].
  - destruct (pre ++ bs) as [|x l] eqn:NE.
    + apply app_eq_nil in NE as [-> ->]. vm_compute in U. discriminate U.
    + rewrite <- NE in *. rewrite ipv4_short in U; [discriminate U|rewrite NE; discriminate|rewrite app_length; lia].
  - split; [exact L|]. rewrite (ipv4_any pre bs W L) in U. congruence.
Qed.

Lemma twenty (bs : bytes) : (20 <= List.length bs)%nat -> exists a0 a1 a2 a3 a4 a5 a6 a7 a8 a9 b0 b1 b2 b3 b4 b5 b6 b7 b8 b9 rest,
  bs = [a0; a1; a2; a3; a4; a5; a6; a7; a8; a9; b0; b1; b2; b3; b4; b5; b6; b7; b8; b9] ++ rest.
Proof.
  intros L. do 20 (destruct bs as [|? bs]; [cbn in L; lia|]). repeat eexists.
Qed.

Lemma word_pair a b : is_byte a -> is_byte b -> is_word (a * 256 + b).
Proof. unfold is_byte, is_word. lia. Qed.

Lemma ipv4_relay_5 bs : wf_bytes bs -> (20 <= List.length bs)%nat -> nth 0 bs 0 mod 16 = 5 -> zlen bs <= 65535 ->
  exists sum, 0 <= sum < 65535 /\
    let out := slice 0 2 bs ++ two (zlen bs) ++ slice 4 10 bs ++ two sum ++ skipn 12 bs in
    snd (ipv4_pack (ipv4_parse bs)) = Ok out /\ oc_sum (words_of (firstn 20 out)) = 65535.
Proof.
  intros W L I T. destruct (twenty bs L) as (a0 & a1 & a2 & a3 & a4 & a5 & a6 & a7 & a8 & a9 & b0 & b1 & b2 & b3 & b4 & b5 & b6 & b7 & b8 & b9 & rest & E).
  assert (B : Forall is_byte [a0; a1; a2; a3; a4; a5; a6; a7; a8; a9; b0; b1; b2; b3; b4; b5; b6; b7; b8; b9] /\ wf_bytes rest).
  { rewrite E in W. apply Forall_app in W. exact W. }
  destruct B as [B WR]. rewrite Forall_forall in B. cbn [In] in B.
  assert (A0 := B a0 ltac:(tauto)). assert (A1 := B a1 ltac:(tauto)). assert (A4 := B a4 ltac:(tauto)). assert (A5 := B a5 ltac:(tauto)).
  assert (A6 := B a6 ltac:(tauto)). assert (A7 := B a7 ltac:(tauto)). assert (A8 := B a8 ltac:(tauto)). assert (A9 := B a9 ltac:(tauto)).
  assert (W1 : wf_bytes [b2; b3; b4; b5]) by (repeat (constructor; [apply B; tauto|]); constructor).
  assert (W2 : wf_bytes [b6; b7; b8; b9]) by (repeat (constructor; [apply B; tauto|]); constructor). clear B.
  set (p := ipv4_parse bs).
  assert (P0 : p = mk_ipv4 (a0 / 16) 5 (a1 / 4) (a1 mod 4) (a2 * 256 + a3) (a4 * 256 + a5) ((a6 * 256 + a7) / 8192)
    ((a6 * 256 + a7) mod 8192) a8 a9 (b0 * 256 + b1) (VStr (dotted_dec [b2; b3; b4; b5])) (VStr (dotted_dec [b6; b7; b8; b9])) [] rest).
  { unfold p, ipv4_parse. cbn zeta. rewrite I. rewrite E. reflexivity. }
  assert (LB : zlen bs = 20 + zlen rest) by (rewrite E; unfold zlen; rewrite app_length; cbn [List.length]; lia).
  unfold is_byte in *.
  destruct (ipv4_plain p [b2; b3; b4; b5] [b6; b7; b8; b9]) as (sum & SU & PK & _ & OC & _).
  - rewrite P0. unfold ipv4_ok. cbn [i_version i_dscp i_ecn i_identification i_flags i_offset i_ttl i_protocol i_source i_destination i_options i_data].
    repeat (split; [lia|]).
    split; [split; [reflexivity|split; [exact W1|left; reflexivity] ]|].
    split; [split; [reflexivity|split; [exact W2|left; reflexivity] ]|].
    split; [eexists; reflexivity|]. split; [eexists; reflexivity|]. split; [constructor|exact WR].
  - rewrite P0. reflexivity.
  - rewrite P0. reflexivity.
  - rewrite P0. cbn [i_data]. lia.
  - exists sum. split; [exact SU|]. cbn zeta in *.
    assert (X : ipv4_wire p 5 (20 + zlen (i_data p)) sum [b2; b3; b4; b5] [b6; b7; b8; b9]
      = slice 0 2 bs ++ two (zlen bs) ++ slice 4 10 bs ++ two sum ++ skipn 12 bs).
    { rewrite LB. rewrite E at 1 2 3. rewrite P0. unfold ipv4_wire.
      cbn [i_version i_dscp i_ecn i_identification i_flags i_offset i_ttl i_protocol i_source i_destination i_options i_data].
      change (slice 0 2 _) with [a0; a1]. change (slice 4 10 _) with [a4; a5; a6; a7; a8; a9].
      cbn [skipn app]. rewrite E in I. cbn [nth app] in I.
      replace (a0 / 16 * 16 + 5) with a0 by lia. replace (a1 / 4 * 4 + a1 mod 4) with a1 by lia.
      replace ((a6 * 256 + a7) / 8192 * 8192 + (a6 * 256 + a7) mod 8192) with (a6 * 256 + a7) by lia.
      rewrite !two_pair by (unfold is_byte; lia). reflexivity. }
    rewrite X in PK, OC. split; [rewrite PK; reflexivity|exact OC].
Qed.

Lemma ipv4_relay pre bs p : wf_bytes bs -> ipv4_unpack (pre ++ bs) (List.length pre) = Ok p -> i_ihl p = 5 -> zlen bs <= 65535 ->
  exists sum, 0 <= sum < 65535 /\
    let out := slice 0 2 bs ++ two (zlen bs) ++ slice 4 10 bs ++ two sum ++ skipn 12 bs in
    snd (ipv4_pack p) = Ok out /\ oc_sum (words_of (firstn 20 out)) = 65535.
Proof.
  intros W U I T. destruct (fields_of_ipv4 pre bs p W U) as (L & ->). apply ipv4_relay_5; assumption.
Qed.

Lemma ipv4_relay_same pre bs p : wf_bytes bs -> ipv4_unpack (pre ++ bs) (List.length pre) = Ok p -> i_ihl p = 5 ->
  i_length p = zlen bs -> oc_sum (words_of (firstn 20 bs)) = 65535 -> i_checksum p <> 65535 -> snd (ipv4_pack p) = Ok bs.
Proof.
  intros W U I TL OC NS. destruct (fields_of_ipv4 pre bs p W U) as (L & ->).
  assert (BN : forall n, (n < 20)%nat -> is_byte (nth n bs 0)) by (intros n N; apply (proj1 (Forall_forall _ _) W); apply nth_In; lia).
  assert (T : zlen bs <= 65535).
  { rewrite <- TL. unfold ipv4_parse. cbn [i_length]. pose proof (BN 2%nat ltac:(lia)). pose proof (BN 3%nat ltac:(lia)). unfold is_byte in *. lia. }
  destruct (ipv4_relay_5 bs W L I T) as (sum & SU & PK & OC'). cbn zeta in *. rewrite PK. f_equal.
  destruct (twenty bs L) as (a0 & a1 & a2 & a3 & a4 & a5 & a6 & a7 & a8 & a9 & b0 & b1 & b2 & b3 & b4 & b5 & b6 & b7 & b8 & b9 & rest & E).
  assert (A2 := BN 2%nat ltac:(lia)). assert (A3 := BN 3%nat ltac:(lia)). assert (B0 := BN 10%nat ltac:(lia)). assert (B1 := BN 11%nat ltac:(lia)).
  assert (TL' : a2 * 256 + a3 = zlen bs) by (rewrite <- TL, E; reflexivity).
  assert (NS' : b0 * 256 + b1 <> 65535) by (intros X; apply NS; rewrite E; exact X).
  assert (WB : Forall is_byte (firstn 20 bs)) by (apply wf_bytes_firstn, W).
  rewrite <- TL' in OC'. rewrite <- TL'. rewrite E in *.
  change (firstn 20 _) with [a0; a1; a2; a3; a4; a5; a6; a7; a8; a9; b0; b1; b2; b3; b4; b5; b6; b7; b8; b9] in WB, OC.
  change (slice 0 2 _) with [a0; a1] in *. change (slice 4 10 _) with [a4; a5; a6; a7; a8; a9] in *.
  cbn [nth app] in A2, A3, B0, B1. rewrite (two_pair a2 a3 A2 A3) in *.
  cbn [skipn app] in *. unfold two in *. cbn [firstn app words_of] in *.
  assert (ES : sum / 256 * 256 + sum mod 256 = sum) by lia. rewrite ES in OC'.
  set (hd5 := [a0 * 256 + a1; a2 * 256 + a3; a4 * 256 + a5; a6 * 256 + a7; a8 * 256 + a9]).
  set (tl4 := [b2 * 256 + b3; b4 * 256 + b5; b6 * 256 + b7; b8 * 256 + b9]).
  change (oc_sum (hd5 ++ (b0 * 256 + b1) :: tl4) = 65535) in OC. change (oc_sum (hd5 ++ sum :: tl4) = 65535) in OC'.
  assert (F1 : Forall is_word (hd5 ++ (b0 * 256 + b1) :: tl4) /\ Forall is_word (hd5 ++ sum :: tl4)).
  { assert (IS : is_word sum) by (unfold is_word; lia).
    do 20 (apply Forall_cons_iff in WB as (? & WB)). unfold hd5, tl4. cbn [app].
    split; repeat (constructor; [first [exact IS|apply word_pair; assumption]|]); constructor. }
  destruct F1 as [F1 F2].
  destruct (oc_sum_ok _ F1) as (_ & _ & (q1 & Q1) & _). destruct (oc_sum_ok _ F2) as (_ & _ & (q2 & Q2) & _).
  assert (ZS : forall x, zsum (hd5 ++ x :: tl4) = zsum (hd5 ++ 0 :: tl4) + x) by (intros x; unfold hd5, tl4, zsum; cbn [app fold_right]; lia).
  rewrite ZS in Q1, Q2. rewrite OC in Q1. rewrite OC' in Q2. unfold is_byte in B0, B1.
  clear - Q1 Q2 B0 B1 SU NS'.
  assert (EQ : sum = b0 * 256 + b1) by lia.
  replace (sum / 256) with b0 by lia. replace (sum mod 256) with b1 by lia. reflexivity.
Qed.

(** ** IPv6 *)

Lemma ok_inj A (x y : A) : Ok x = Ok y -> x = y.
Proof. congruence. Qed.

Lemma fields_of_ipv6 pre bs p : wf_bytes bs -> ipv6_unpack (pre ++ bs) (List.length pre) = Ok p -> (40 <= List.length bs)%nat.
Proof.
  intros W U. destruct (Nat.lt_ge_cases (List.length bs) 40) as [L|L]; [|exact L].
  destruct (pre ++ bs) as [|x l] eqn:NE.
  - apply app_eq_nil in NE as [-> ->]. discriminate U.
  - rewrite <- NE in *. rewrite ipv6_short in U; [discriminate U|rewrite NE; discriminate|rewrite app_length; lia].
Qed.

Lemma hex_char_numeral z : 0 <= z < 65536 -> hex_numeral (hex_quad z) z.
Proof.
  intros H. unfold hex_quad.
  assert (HD : forall d, 0 <= d < 16 -> hex_digit_of (hex_char d) d).
  { intros d D. unfold hex_digit_of, hex_char. destruct (d <? 10) eqn:C; lia. }
  assert (ZE : z = 16 * (16 * (16 * (z / 4096) + z / 256 mod 16) + z / 16 mod 16) + z mod 16) by lia.
  rewrite ZE at 5.
  unfold hex_numeral.
  apply (num_more 16 hex_digit_of [_; _; _]); [|apply HD; lia].
  apply (num_more 16 hex_digit_of [_; _]); [|apply HD; lia].
  apply (num_more 16 hex_digit_of [_]); [|apply HD; lia].
  constructor. apply HD; lia.
Qed.

Lemma got_ip6_groups zs : List.length zs = 8%nat -> Forall is_word zs -> ip6_groups (got_ip6 zs) zs.
Proof.
  intros L F. split; [exact L|]. split; [exact F|]. left. exists (map hex_quad zs). split; [|left; reflexivity].
  clear L. induction F as [|z zs Z F IH]; [constructor|]. cbn [map]. constructor; [apply hex_char_numeral; exact Z|exact IH].
Qed.

Lemma ipv6_relay pre bs p : wf_bytes bs -> ipv6_unpack (pre ++ bs) (List.length pre) = Ok p -> zlen bs <= 40 + 65535 ->
  snd (ipv6_pack p) = Ok (slice 0 4 bs ++ two (zlen bs - 40) ++ skipn 6 bs).
Proof.
  intros W U T. pose proof (fields_of_ipv6 pre bs p W U) as L.
  destruct (ipv6_any pre bs W L) as (src & dst & L1 & F1 & E1 & L2 & F2 & E2 & U').
  cbn zeta in U'. rewrite U in U'. apply ok_inj in U'. rewrite U'. clear p U U'.
  destruct (wf_cut 4 bs W ltac:(lia)) as (a & r & -> & La & Wa & Wr & _). rewrite app_length in L.
  destruct (wf_cut 2 r Wr ltac:(lia)) as (b & r1 & -> & Lb & Wb & Wr1 & _). rewrite app_length in L.
  destruct (wf_cut 1 r1 Wr1 ltac:(lia)) as (c & r2 & -> & Lc & Wc & Wr2 & _). rewrite app_length in L.
  destruct (wf_cut 1 r2 Wr2 ltac:(lia)) as (d & r3 & -> & Ld & Wd & Wr3 & _). rewrite app_length in L.
  destruct (wf_cut 16 r3 Wr3 ltac:(lia)) as (s & r4 & -> & Ls & Ws & Wr4 & _). rewrite app_length in L.
  destruct (wf_cut 16 r4 Wr4 ltac:(lia)) as (t & data & -> & Lt & Wt & Wdata & _).
  assert (SL : forall n m (x y z : bytes), n = List.length x -> m = List.length (x ++ y) -> slice n m (x ++ y ++ z) = y).
  { intros n m x y z -> ->. rewrite app_length. apply slice_mid; reflexivity. }
  set (buff := a ++ b ++ c ++ d ++ s ++ t ++ data) in *.
  assert (X0 : slice 0 4 buff = a) by (apply (SL _ _ [] a); cbn; lia).
  assert (X2 : slice 6 7 buff = c) by (unfold buff; rewrite app_assoc; apply SL; rewrite ?app_length; lia).
  assert (X3 : slice 7 8 buff = d).
  { unfold buff. rewrite (app_assoc a), (app_assoc (a ++ b)). apply SL; rewrite ?app_length; lia. }
  assert (X4 : slice 8 24 buff = s).
  { unfold buff. rewrite (app_assoc a), (app_assoc (a ++ b)), (app_assoc ((a ++ b) ++ c)). apply SL; rewrite ?app_length; lia. }
  assert (X5 : slice 24 40 buff = t).
  { unfold buff. rewrite (app_assoc a), (app_assoc (a ++ b)), (app_assoc ((a ++ b) ++ c)), (app_assoc (((a ++ b) ++ c) ++ d)).
    apply SL; rewrite ?app_length; lia. }
  assert (X6 : skipn 40 buff = data).
  { unfold buff. rewrite !app_assoc. apply skipn_app_exact. rewrite ?app_length. lia. }
  assert (X7 : skipn 6 buff = c ++ d ++ s ++ t ++ data).
  { unfold buff. rewrite (app_assoc a). apply skipn_app_exact. rewrite ?app_length. lia. }
  assert (LZ : zlen buff = 40 + zlen data).
  { unfold buff, zlen. rewrite !app_length. lia. }
  rewrite X4 in E1. rewrite X5 in E2. rewrite X0, X2, X3, X6, X7.
  assert (PV : forall x n, wf_bytes x -> List.length x = n -> fits n (place_value x) /\ x = be_encode n (place_value x)).
  { intros x n Wx Lx. subst n. rewrite place_value_decode. split.
    - unfold fits. rewrite <- ulimit_pow. apply be_decode_bound, Wx.
    - symmetry. apply be_encode_decode, Wx. }
  destruct (PV a 4%nat Wa La) as [Fa Ea]. destruct (PV c 1%nat Wc Lc) as [Fc Ec]. destruct (PV d 1%nat Wd Ld) as [Fd Ed].
  assert (Fa' : 0 <= place_value a < 2 ^ 32) by exact Fa. apply (proj1 (fits1 _)) in Fc, Fd.
  rewrite be1 in Ec by exact Fc. rewrite be1 in Ed by exact Fd. rewrite be4 in Ea by exact Fa'.
  change (2 ^ 32) with 4294967296 in Fa'. unfold is_byte in Fc, Fd.
  set (w := place_value a) in *.
  match goal with |- snd (ipv6_pack ?q) = _ => assert (R : ipv6_pack q = (ipv6_after q, Ok (ipv6_wire q src dst))) end.
  { apply ipv6_packs; [|cbn [s_data]; lia]. unfold ipv6_ok, is_byte. cbn [s_version s_tclass s_flabel s_next_header s_hop_limit s_source s_destination s_data].
    do 3 (split; [clear - Fa'; lia|]). split; [clear - Fc; lia|]. split; [clear - Fd; lia|]. split; [apply got_ip6_groups; assumption|]. split; [apply got_ip6_groups; assumption|exact Wdata]. }
  rewrite R. cbn [snd]. f_equal. unfold ipv6_wire. cbn [s_version s_tclass s_flabel s_next_header s_hop_limit s_source s_destination s_data].
  replace (w / 268435456 * 268435456 + w / 1048576 mod 256 * 1048576 + w mod 1048576) with w by lia.
  rewrite E1, E2. replace (zlen buff - 40) with (zlen data) by lia. rewrite Ea, <- app_assoc.
  cbn zeta. rewrite Ec at 2. rewrite Ed at 2. reflexivity.
Qed.

Lemma ipv6_relay_same pre bs p : wf_bytes bs -> ipv6_unpack (pre ++ bs) (List.length pre) = Ok p -> s_length p = zlen bs - 40 ->
  snd (ipv6_pack p) = Ok bs.
Proof.
  intros W U T. pose proof (fields_of_ipv6 pre bs p W U) as L.
  destruct (ipv6_any pre bs W L) as (src & dst & _ & _ & _ & _ & _ & _ & U'). cbn zeta in U'.
  rewrite U in U'. apply ok_inj in U'. rename U' into E. rewrite E in T. cbn [s_length] in T.
  assert (W4 : wf_bytes (slice 4 6 bs)) by (apply slice_wf, W).
  assert (L4 : List.length (slice 4 6 bs) = 2%nat) by (rewrite slice_length; lia).
  destruct (slice 4 6 bs) as [|x [|y [|? ?] ] ] eqn:S4; try discriminate L4.
  apply Forall_cons_iff in W4 as (X & W4). apply Forall_cons_iff in W4 as (Y & _). rewrite place2 in T.
  rewrite (ipv6_relay pre bs p W U) by (unfold is_byte in *; lia). f_equal.
  rewrite <- T, two_pair, <- S4 by assumption.
  clear - L. do 6 (destruct bs as [|? bs]; [cbn in L; lia|]). reflexivity.
Qed.

(** ** LLDP *)

Lemma only_head buff : only_unpack (recast StructError UnpackException (struct_unpack_u 2 buff 0)).
Proof. unfold struct_unpack_u. destruct (Nat.eqb _ _); cbn; intros e E; congruence. Qed.

Lemma struct1_byte buff z : wf_bytes buff -> struct_unpack_u 1 buff 0 = Ok z -> is_byte z.
Proof.
  intros W. unfold struct_unpack_u. destruct (Nat.eqb _ _) eqn:L; [|discriminate]. intros E. injection E as <-.
  apply Nat.eqb_eq in L. pose proof (be_decode_bound (slice 0 (0 + 1) buff) (slice_wf _ _ _ W)) as B. rewrite L in B. exact B.
Qed.

Lemma tlv_raises x buff off : only_unpack (tlv_unpack x buff off).
Proof.
  unfold tlv_unpack. apply only_bind; [apply only_head|intros h _]. destruct x as [t v|t st sv]; cbn zeta.
  - eapply only_ok. reflexivity.
  - apply only_bind; [|intros; eapply only_ok; reflexivity].
    unfold struct_unpack_u. destruct (Nat.eqb _ _); cbn; intros e E; congruence.
Qed.

Lemma tlv_sized x buff off y : wf_bytes buff -> tlv_unpack x buff off = Ok y -> only_unpack (tlv_size y).
Proof.
  intros W U. unfold tlv_unpack in U.
  destruct (recast StructError UnpackException (struct_unpack_u 2 (slice off (off + 2) buff) 0)) as [h|]; [|discriminate U].
  cbn [bind] in U. destruct x as [t v|t st sv]; cbn zeta in U.
  - injection U as <-. eapply only_ok. reflexivity.
  - destruct (struct_unpack_u 1 (slice (off + 2) (off + 2 + 1) buff) 0) as [z|e] eqn:S; [|destruct e; discriminate U].
    cbn [recast bind] in U. injection U as <-. apply struct1_byte in S; [|apply slice_wf, W].
    unfold tlv_size, tlv_value. apply fits1 in S. eapply only_ok.
    assert (X : uint_struct 1 (VInt z) = Ok (be_encode 1 z)).
    { destruct (leaf_of_enc 1 _ _ _ _ _ ltac:(unfold FUEL; lia) (enc_int 0 1 (VInt z) z VNone ltac:(lia) (int_of_int _ _ S))) as (P & _).
      exact P. }
    rewrite X. reflexivity.
Qed.

Lemma lldp_attr_raises cv buff off : wf_bytes buff -> only_unpack (lldp_attr cv buff off).
Proof.
  intros W. unfold lldp_attr. destruct buff as [|x l] eqn:E; [eapply only_ok; reflexivity|]. rewrite <- E in *.
  apply only_bind; [apply tlv_raises|intros y Y]. apply only_bind; [eapply tlv_sized; eauto|intros; eapply only_ok; reflexivity].
Qed.

Lemma lldp_raises buff off : wf_bytes buff -> only_unpack (lldp_unpack buff off).
Proof.
  intros W. unfold lldp_unpack. do 4 (apply only_bind; [apply lldp_attr_raises, W|intros ? _]). eapply only_ok. reflexivity.
Qed.

Lemma lldp_relay ta tb tc td va vb vc vd pre suf :
  (forall t v, In (t, v) [(ta, va); (tb, vb); (tc, vc); (td, vd)] -> 0 <= t <= 127 /\ zlen v <= 511) ->
  va <> [] -> vb <> [] -> wf_bytes va -> wf_bytes vb ->
  let bs := tlv_wire ta va ++ tlv_wire tb vb ++ tlv_wire tc vc ++ tlv_wire td vd in
  exists p, lldp_unpack (pre ++ bs ++ suf) (List.length pre) = Ok p /\ lldp_pack p = Ok bs.
Proof.
  intros H NA NB WA WB bs.
  destruct va as [|xa ra]; [congruence|]. destruct vb as [|xb rb]; [congruence|].
  apply Forall_cons_iff in WA as (XA & _). apply Forall_cons_iff in WB as (XB & _).
  destruct (lldp_roundtrip (SubTlv ta xa (VBin (VBytes ra))) (SubTlv tb xb (VBin (VBytes rb))) (Tlv tc (VBin (VBytes vc))) (Tlv td (VBin (VBytes vd)))
    ta tb tc td (xa :: ra) (xb :: rb) vc vd pre suf) as (P & U); try reflexivity.
  - destruct (H ta (xa :: ra)) as (A & B); [cbn; auto|]. split; [exact A|]. split; [exact B|]. split; [reflexivity|]. exists ra. split; [reflexivity|]. split; [exact XA|left; reflexivity].
  - destruct (H tb (xb :: rb)) as (A & B); [cbn; auto|]. split; [exact A|]. split; [exact B|]. split; [reflexivity|]. exists rb. split; [reflexivity|]. split; [exact XB|left; reflexivity].
  - destruct (H tc vc) as (A & B); [cbn; auto|]. split; [exact A|]. split; [exact B|]. split; [reflexivity|]. left; reflexivity.
  - destruct (H td vd) as (A & B); [cbn; auto|]. split; [exact A|]. split; [exact B|]. split; [reflexivity|]. left; reflexivity.
  - eexists. split; [exact U|]. exact P.
Qed.

(** ** A frame is read in one way *)

Lemma app_inj {A} (a : list A) : forall b c d, a ++ b = c ++ d -> List.length a = List.length c -> a = c /\ b = d.
Proof.
  induction a as [|x a IH]; intros b [|y c] d E L; cbn in *; try lia; auto.
  injection E as -> E. destruct (IH b c d E) as [-> ->]; [lia|]. auto.
Qed.

Lemma two_inj x y : 0 <= x < 65536 -> 0 <= y < 65536 -> two x = two y -> x = y.
Proof. unfold two. intros X Y E. injection E as A B. lia. Qed.

Lemma tag_wire_inj t t' : tag_ok t -> tag_ok t' -> tag_wire t = tag_wire t' -> t = t'.
Proof.
  destruct t as [a b c d], t' as [a' b' c' d']. unfold tag_ok, tag_wire. cbn [t_tpid t_pcp t_cfi t_vid].
  intros H H' E. apply app_inj in E as [E1 E2]; [|reflexivity].
  apply two_inj in E1; [|lia|lia]. apply two_inj in E2; [|lia|lia].
  f_equal; lia.
Qed.

Lemma tags_unique tags : forall tags' ty ty' (data data' : bytes), Forall tag_ok tags -> Forall tag_ok tags' ->
  0 <= ty < 65536 -> ty <> 0x8100 -> ty <> 0x88a8 -> 0 <= ty' < 65536 -> ty' <> 0x8100 -> ty' <> 0x88a8 ->
  flat_map tag_wire tags ++ two ty ++ data = flat_map tag_wire tags' ++ two ty' ++ data' ->
  tags = tags' /\ ty = ty' /\ data = data'.
Proof.
  assert (X : forall t l ty (data : bytes) r, tag_ok t -> 0 <= ty < 65536 -> ty <> 0x8100 -> ty <> 0x88a8 ->
    tag_wire t ++ flat_map tag_wire l ++ r = two ty ++ data -> False).
  { intros [a b c d] l ty data r T A B C E. unfold tag_ok in T. unfold tag_wire in E. cbn [t_tpid t_pcp t_cfi t_vid] in *.
    rewrite <- !app_assoc in E. apply app_inj in E as [E _]; [|reflexivity]. apply two_inj in E; lia. }
  induction tags as [|t tags IH]; intros [|t' tags'] ty ty' data data' F F' A B C A' B' C' E; cbn [flat_map app] in E.
  - apply app_inj in E as [E ->]; [|reflexivity]. apply two_inj in E; [|lia|lia]. auto.
  - exfalso. apply Forall_cons_iff in F' as [T _]. rewrite <- app_assoc in E. symmetry in E. exact (X t' _ ty _ _ T A B C E).
  - exfalso. apply Forall_cons_iff in F as [T _]. rewrite <- app_assoc in E. exact (X t _ ty' _ _ T A' B' C' E).
  - apply Forall_cons_iff in F as [T F]. apply Forall_cons_iff in F' as [T' F']. rewrite <- !app_assoc in E.
    apply app_inj in E as [E1 E2]; [|reflexivity]. apply tag_wire_inj in E1; [|assumption|assumption].
    destruct (IH tags' ty ty' data data') as (-> & -> & ->); auto. subst. auto.
Qed.

Lemma frame_unique dst src tags ty data dst' src' tags' ty' data' :
  frame_ok dst src tags ty data -> frame_ok dst' src' tags' ty' data' ->
  frame dst src tags ty data = frame dst' src' tags' ty' data' ->
  dst = dst' /\ src = src' /\ tags = tags' /\ ty = ty' /\ data = data'.
Proof.
  intros (A & B & C & D & F & G & H & I & J) (A' & B' & C' & D' & F' & G' & H' & I' & J') E. unfold frame in E.
  apply app_inj in E as [-> E]; [|congruence]. apply app_inj in E as [-> E]; [|congruence].
  destruct (tags_unique _ _ _ _ _ _ F F' G H I G' H' I' E) as (-> & -> & ->). auto.
Qed.

Lemma arp_only old buff off : is_arp old -> wf_bytes buff -> only_unpack (arp_unpack old buff off).
Proof. intros O W e E. exact (arp_raises old buff off e O W E). Qed.
Lemma vlan_only old buff off : buff <> [] -> wf_bytes buff -> only_unpack (vlan_unpack old buff off).
Proof. intros N W e E. exact (vlan_raises old buff off e N W E). Qed.
