(** Facts for P06_Structures. *)
From Coq Require Import ZArith List Bool String Lia ZifyBool.
From Verif Require Import Base PyText Ids PyVal Classes Interp Utils Spec SpecMsg SpecBasic SpecSame SpecNet
  SpecStruct BaseFacts ClassFacts StructFacts Soundness Closure FuelFacts Totality UnpackTotal IntFacts
  MsgFacts MsgBody MsgMain SameFacts DispatchFacts PacketFacts LeafFacts TopFacts NetFacts.
Import ListNotations.
Open Scope string_scope.
Open Scope list_scope.
Open Scope Z_scope.

(** ** Attributes of a complete object *)

Definition attr_of (attrs : list (string * pyval)) (n : string) : pyval :=
  match get_attr n attrs with Some v => v | None => VNone end.

Lemma map_get_attr (l : list (string * pyval)) : NoDup (map fst l) ->
  map snd l = map (attr_of l) (map fst l).
Proof.
  induction l as [|[k v] tl IH]; [reflexivity|]. cbn [map fst snd]. intros H. inversion H; subst.
  unfold attr_of at 1. cbn [get_attr]. rewrite String.eqb_refl. f_equal. rewrite IH by assumption.
  apply map_ext_in. intros n I. unfold attr_of. cbn [get_attr].
  destruct (String.eqb_spec k n); [subst; contradiction|reflexivity].
Qed.

Lemma values_get c attrs : complete c attrs ->
  values c attrs = map (attr_of attrs) (field_names c).
Proof.
  intros C. unfold values. rewrite map_get_attr.
  - unfold complete in C. rewrite C. apply map_ext_in. intros n I. unfold attr_of.
    rewrite get_own by exact I. reflexivity.
  - unfold complete in C. rewrite C. apply names_nodup.
Qed.

Lemma attr_set n x attrs : attr_of (set_attr n x attrs) n = x.
Proof. unfold attr_of. rewrite get_set_same. reflexivity. Qed.
Lemma attr_set_other n m x attrs : n <> m -> attr_of (set_attr m x attrs) n = attr_of attrs n.
Proof. intros H. unfold attr_of. rewrite get_set_other by exact H. reflexivity. Qed.
Lemma attr_of_get attrs n v : get_attr n attrs = Some v -> attr_of attrs n = v.
Proof. intros H. unfold attr_of. rewrite H. reflexivity. Qed.

Lemma int_exact_some v z : int_exact v z -> v <> VNone.
Proof. intros H E. subst. inversion H. Qed.

(** ** OXM TLVs *)

Lemma oxm_class_member cl : is_member E_OxmClass04 cl = true <-> In cl oxm_classes.
Proof.
  unfold oxm_classes. cbn [In]. split.
  - intros H. unfold is_member in H. apply existsb_exists in H as (p & I & E).
    apply Z.eqb_eq in E. subst. cbn in I. intuition; subst; cbn; auto.
  - intros [<- | [<- | [<- | [<- | []] ] ] ]; vm_compute; reflexivity.
Qed.

Lemma ofb_field_member f : is_member E_OxmOfbMatchField04 f = true <-> 0 <= f <= 39.
Proof.
  split.
  - intros H. unfold is_member in H. apply existsb_exists in H as (p & I & E).
    apply Z.eqb_eq in E. subst. cbn in I. intuition; subst; cbn; lia.
  - intros H. assert (G : forallb (fun n => is_member E_OxmOfbMatchField04 (Z.of_nat n)) (seq 0 40) = true)
      by (vm_compute; reflexivity).
    rewrite forallb_forall in G. specialize (G (Z.to_nat f)). rewrite Z2Nat.id in G by lia. apply G.
    apply in_seq. lia.
Qed.

(** The object a receiver obtains. *)
Definition oxm_out (t : oxm) : pyval :=
  VObj OxmTLV04
    [("oxm_class", VUInt 2 (Some E_OxmClass04) (VEnum E_OxmClass04 (ox_class t)));
     ("oxm_field_and_mask", VUInt 1 None (VInt (2 * ox_field t + ox_mask t)));
     ("oxm_length", VUInt 1 None (VInt (zlen (ox_value t))));
     ("oxm_value", VBytes (ox_value t));
     ("oxm_field", if ox_class t =? 0x8000 then VEnum E_OxmOfbMatchField04 (ox_field t)
                   else VInt (ox_field t));
     ("oxm_hasmask", VInt (ox_mask t))].

Lemma oxm_out_holds t : oxm_holds (oxm_out t) t.
Proof.
  eexists. split; [reflexivity|]. split; [reflexivity|].
  split; [eexists; split; [reflexivity|constructor; reflexivity]|].
  split.
  - eexists. split; [reflexivity|]. split.
    + destruct (ox_class t =? 0x8000); [apply ie_enum; reflexivity|apply ie_int].
    + intros N. apply Z.eqb_neq in N. rewrite N. reflexivity.
  - split; [eexists; split; [reflexivity|constructor]|].
    eexists. split; [reflexivity|]. left. reflexivity.
Qed.

Lemma oxm_class_word t : oxm_ok t -> 0 <= ox_class t < 65536.
Proof. intros (C & _). unfold oxm_classes in C. cbn [In] in C. lia. Qed.

Lemma oxm_bounds t : oxm_ok t -> 0 <= ox_field t <= 127 /\ 0 <= ox_mask t <= 1.
Proof.
  intros (_ & F & M & _). unfold oxm_field_ok in F. destruct (ox_class t =? 0x8000); lia.
Qed.

Lemma oxm_enc n v t : oxm_ok t -> oxm_holds v t ->
  enc_obj (S (S (S n))) SD true OxmTLV04 v (oxm_wire t) (oxm_out t).
Proof.
  intros OK (attrs & -> & C & (ic & G1 & E1) & (ifd & G2 & E2 & X2) & (im & G3 & E3) & (iv & G4 & E4)).
  pose proof (oxm_class_word t OK) as W. pose proof (oxm_bounds t OK) as [FB MB].
  destruct OK as (KC & KF & KM & KW & KL).
  assert (EM : ox_mask t = ox_mask t mod 2) by (destruct KM as [-> | ->]; reflexivity).
  unfold oxm_wire, oxm_out. rewrite <- be2 by exact W. rewrite EM.
  change (be_encode 2 (ox_class t) ++ [2 * ox_field t + ox_mask t mod 2; zlen (ox_value t)] ++ ox_value t)
    with (be_encode 2 (ox_class t) ++ [2 * ox_field t + ox_mask t mod 2] ++ [zlen (ox_value t)] ++ ox_value t).
  eapply o_oxm; try eassumption.
  - apply oxm_class_member. exact KC.
  - unfold oxm_field_ok in KF. destruct (Z.eqb_spec (ox_class t) 0x8000) as [E|NE].
    + apply ofb_field_member. exact KF.
    + split; [exact KF|]. exists (ox_field t). apply X2. exact NE.
  - destruct E4 as [-> | ->]; repeat constructor.
  - intros b I. unfold wf_bytes in KW. rewrite Forall_forall in KW. apply KW. exact I.
Qed.

Lemma oxm_wire_nonempty t : oxm_wire t <> [].
Proof. unfold oxm_wire, two. discriminate. Qed.

Lemma oxm_pack_ok v t : oxm_ok t -> oxm_holds v t ->
  pack v = Ok (oxm_wire t) /\ get_size v = Ok (zlen (oxm_wire t)).
Proof. intros OK H. eapply obj_pack_size. apply (oxm_enc 0); assumption. Qed.

Lemma oxm_unpack_ok t pre suf : oxm_ok t -> wf_bytes (pre ++ oxm_wire t ++ suf) ->
  exists v, unpack new_OxmTLV04 (pre ++ oxm_wire t ++ suf) (List.length pre) = Ok v /\ oxm_holds v t.
Proof.
  intros OK W. exists (oxm_out t). split; [|apply oxm_out_holds].
  eapply obj_unpack; [apply (oxm_enc 0); [exact OK|apply oxm_out_holds]|reflexivity|exact W|discriminate|].
  apply oxm_wire_nonempty.
Qed.

Lemma oxm_roundtrip v t pre suf : oxm_ok t -> oxm_holds v t -> wf_bytes pre -> wf_bytes suf ->
  pack v = Ok (oxm_wire t) /\ get_size v = Ok (zlen (oxm_wire t)) /\
  exists v', unpack new_OxmTLV04 (pre ++ oxm_wire t ++ suf) (List.length pre) = Ok v' /\ oxm_holds v' t.
Proof.
  intros OK H W1 W2. destruct (oxm_pack_ok v t OK H) as [P S]. split; [exact P|]. split; [exact S|].
  apply oxm_unpack_ok; [exact OK|]. unfold wf_bytes. rewrite !Forall_app. split; [exact W1|].
  split; [|exact W2].
  pose proof (oxm_class_word t OK). pose proof (oxm_bounds t OK). destruct OK as (_ & _ & _ & W & L).
  unfold oxm_wire, two. pose proof (zlen_nonneg (ox_value t)).
  repeat (apply Forall_cons; [unfold is_byte; lia|]). exact W.
Qed.

(** One integer field. *)
Lemma enc_number n w er d z : (0 < w)%nat -> 0 <= z < ulimit w -> allowed_int er z ->
  enc (S n) SD true (VUInt w er d) (VInt z) (be_encode w z) (VUInt w er (decoded_int er z)).
Proof. intros. apply e_uint; auto. left. split; [discriminate|constructor]. Qed.

Lemma oxm_read pre a b c d rest n attrs : wf_bytes [a; b; c; d] -> In (a * 256 + b) oxm_classes ->
  unpack_fields (unpack0 (S n)) (size0 (S n)) (class_attrs OxmTLV04) attrs
    (pre ++ [a; b; c; d] ++ rest) (List.length pre)
  = Ok (set_all (map fst (class_attrs OxmTLV04))
         [VUInt 2 (Some E_OxmClass04) (VEnum E_OxmClass04 (a * 256 + b)); VUInt 1 None (VInt c);
          VUInt 1 None (VInt d); VBin (VBytes rest)] attrs, (List.length pre + (4 + List.length rest))%nat).
Proof.
  intros W M.
  assert (WA : is_byte a /\ is_byte b /\ is_byte c /\ is_byte d).
  { unfold wf_bytes in W. rewrite Forall_forall in W. cbn [In] in W. split; [apply W; tauto|]. split; [apply W; tauto|]. split; apply W; tauto. }
  destruct WA as (A & B & C & D). 
  assert (E : enc_fields (S n) TAIL true (class_attrs OxmTLV04)
     [VInt (a * 256 + b); VInt c; VInt d; VBytes rest] ([a; b] ++ [c] ++ [d] ++ rest)
     [VUInt 2 (Some E_OxmClass04) (VEnum E_OxmClass04 (a * 256 + b)); VUInt 1 None (VInt c);
      VUInt 1 None (VInt d); VBin (VBytes rest)]).
  { rewrite <- (two_pair a b) by assumption. rewrite <- (be1 c) by exact C. rewrite <- (be1 d) by exact D.
    unfold is_byte in *. rewrite <- (be2 (a * 256 + b)) by lia.
    apply f_cons; [apply (enc_number n 2 (Some E_OxmClass04)); [lia| |]|].
    - change (ulimit 2) with 65536. lia.
    - right. apply oxm_class_member. exact M.
    - apply f_cons; [apply (enc_number n 1 None); [lia|change (ulimit 1) with 256; lia|exact I]|].
      apply f_cons; [apply (enc_number n 1 None); [lia|change (ulimit 1) with 256; lia|exact I]|].
      apply f_last. apply e_bin; [discriminate|constructor]. }
  apply (proj1 (proj2 (proj2 soundness))) in E.
  destruct E as (_ & _ & _ & _ & _ & U). specialize (U pre [] attrs (fun _ => eq_refl)).
  rewrite app_nil_r in U.
  apply U. intros X. apply app_eq_nil in X as [_ X]. discriminate.
Qed.

Lemma enum_refuses w e pre bs suf : List.length bs = w -> is_mask_enum e = false -> is_member e (be_decode bs) = false ->
  uint_unpack w (Some e) (pre ++ bs ++ suf) (List.length pre) = Err UnpackException.
Proof.
  intros L M N. unfold uint_unpack, struct_unpack_u. 
  replace (slice (List.length pre) (List.length pre + w) (pre ++ bs ++ suf)) with bs.
  - rewrite L, Nat.eqb_refl. cbn [bind]. unfold enum_call. unfold is_mask_enum in M. destruct (enum_def e); try discriminate; rewrite N; reflexivity.
  - symmetry. apply slice_mid; lia.
Qed.

Lemma oxm_any pre a b c d rest : wf_bytes [a; b; c; d] ->
  let t := mk_oxm (a * 256 + b) (c / 2) (c mod 2) (firstn (Z.to_nat d) rest) in
  unpack new_OxmTLV04 (pre ++ [a; b; c; d] ++ rest) (List.length pre)
  = if existsb (Z.eqb (ox_class t)) oxm_classes
    then if (ox_class t =? 0x8000) && negb (ox_field t <=? 39) then Err UnpackException
         else Ok (VObj OxmTLV04
    [("oxm_class", VUInt 2 (Some E_OxmClass04) (VEnum E_OxmClass04 (ox_class t)));
     ("oxm_field_and_mask", VUInt 1 None (VInt c));
     ("oxm_length", VUInt 1 None (VInt d));
     ("oxm_value", VBytes (ox_value t));
     ("oxm_field", if ox_class t =? 0x8000 then VEnum E_OxmOfbMatchField04 (ox_field t)
                   else VInt (ox_field t));
     ("oxm_hasmask", VInt (ox_mask t))])
    else Err UnpackException.
Proof.
  intros W t.
  assert (WA : is_byte a /\ is_byte b /\ is_byte c /\ is_byte d).
  { unfold wf_bytes in W. rewrite Forall_forall in W. cbn [In] in W. split; [apply W; tauto|]. split; [apply W; tauto|]. split; apply W; tauto. }
  destruct WA as (A & B & C & D).
  unfold new_OxmTLV04. rewrite unpack_object. 
  change (unpack_obj (unpack0 99) (size0 99) OxmTLV04) with (oxm_unpack (unpack0 99) (size0 99) OxmTLV04).
  unfold oxm_unpack. unfold t; cbn [ox_class ox_field ox_mask ox_value].
  destruct (existsb (Z.eqb (a * 256 + b)) oxm_classes) eqn:EM.
  - assert (M : In (a * 256 + b) oxm_classes).
    { apply existsb_exists in EM as (x & I & E). apply Z.eqb_eq in E. subst. exact I. }
    rewrite (oxm_read pre a b c d rest 98) by assumption.
    cbv beta iota delta [bind fst]. 
    set (at1 := set_all _ _ _).
    assert (E1 : attr_num "oxm_field_and_mask" at1 = Ok c) by reflexivity.
    assert (E2 : attr_num "oxm_class" at1 = Ok (a * 256 + b)) by reflexivity.
    assert (E3 : attr_num "oxm_length" at1 = Ok d) by reflexivity.
    rewrite E1, E2, E3.
    assert (SL : slice (List.length pre + 4) (List.length pre + 4 + Z.to_nat d) (pre ++ [a; b; c; d] ++ rest)
                 = firstn (Z.to_nat d) rest).
    { rewrite app_assoc. unfold slice. rewrite firstn_app.
      replace (List.length pre + 4 + Z.to_nat d - List.length (pre ++ [a; b; c; d]))%nat with (Z.to_nat d)
        by (rewrite app_length; cbn [List.length]; lia).
      rewrite firstn_all2 by (rewrite app_length; cbn [List.length]; lia).
      rewrite skipn_app. rewrite skipn_all2 by (rewrite app_length; cbn [List.length]; lia).
      replace (List.length pre + 4 - List.length (pre ++ [a; b; c; d]))%nat with O
        by (rewrite app_length; cbn [List.length]; lia). reflexivity. }
    rewrite SL. unfold is_byte in C.
    assert (LM : (if Z.land c 1 =? 1 then 1 else 0) = c mod 2).
    { change 1 with (Z.ones 1) at 1. rewrite Z.land_ones by lia. change (2 ^ 1) with 2.
      pose proof (Z.mod_pos_bound c 2 ltac:(lia)). destruct (Z.eqb_spec (c mod 2) 1); lia. }
    rewrite LM.
    destruct (Z.eqb_spec (a * 256 + b) 0x8000) as [E8|N8]; cbn [andb negb].
    + replace (a * 256 + b =? 32768) with true by lia.
      destruct (Z.leb_spec (c / 2) 39); cbn [negb].
      * assert (MM : is_member E_OxmOfbMatchField04 (c / 2) = true) by (apply ofb_field_member; lia).
        unfold enum_call. cbn [enum_def]. rewrite MM. reflexivity.
      * assert (MM : is_member E_OxmOfbMatchField04 (c / 2) = false).
        { destruct (is_member E_OxmOfbMatchField04 (c / 2)) eqn:E; auto. apply ofb_field_member in E. lia. }
        unfold enum_call. cbn [enum_def]. rewrite MM. reflexivity.
    + replace (a * 256 + b =? 32768) with false by lia. reflexivity.
  - change (class_attrs OxmTLV04) with attrs_OxmTLV04. unfold attrs_OxmTLV04. rewrite unpack_fields_cons by (intros X; apply app_eq_nil in X as [_ X]; discriminate).
    change (unpack0 99 (deepcopy (VUInt 2 (Some E_OxmClass04) VNone))) with (uint_unpack 2 (Some E_OxmClass04)).
    change ([a; b; c; d] ++ rest) with ([a; b] ++ [c; d] ++ rest).
    rewrite enum_refuses; [reflexivity|reflexivity|reflexivity|].
    rewrite <- place_value_decode, place2.
    destruct (is_member E_OxmClass04 (a * 256 + b)) eqn:E; auto. apply oxm_class_member in E.
    assert (existsb (Z.eqb (a * 256 + b)) oxm_classes = true)
      by (apply existsb_exists; eexists; split; [exact E|apply Z.eqb_refl]). congruence.
Qed.

Lemma uint_unpack_outcome w er b o :
  (exists x, uint_unpack w er b o = Ok (VUInt w er x) /\ (o + w <= List.length b \/ w = 0)%nat) \/
  uint_unpack w er b o = Err UnpackException.
Proof.
  unfold uint_unpack, struct_unpack_u.
  destruct (Nat.eqb_spec (List.length (slice o (o + w) b)) w) as [E|E]; [|right; reflexivity].
  cbn [bind].
  assert (L : (o + w <= List.length b \/ w = 0)%nat).
  { rewrite slice_length in E. lia. }
  destruct er as [e|]; [|left; eexists; split; [reflexivity|exact L] ].
  unfold enum_call. destruct (enum_def e); try (destruct (is_member e _));
    try (right; reflexivity); left; eexists; (split; [reflexivity|exact L]).
Qed.

Lemma oxm_short b o : b <> [] -> (List.length b < o + 4)%nat ->
  unpack new_OxmTLV04 b o = Err UnpackException.
Proof.
  intros N S. unfold new_OxmTLV04. rewrite unpack_object.
  change (unpack_obj (unpack0 99) (size0 99) OxmTLV04) with (oxm_unpack (unpack0 99) (size0 99) OxmTLV04).
  unfold oxm_unpack. change (class_attrs OxmTLV04) with attrs_OxmTLV04. unfold attrs_OxmTLV04.
  rewrite unpack_fields_cons by exact N.
  change (unpack0 99 (deepcopy (VUInt 2 (Some E_OxmClass04) VNone))) with (uint_unpack 2 (Some E_OxmClass04)).
  destruct (uint_unpack_outcome 2 (Some E_OxmClass04) b o) as [(x & -> & L)| ->]; [|reflexivity].
  cbv beta iota delta [bind].
  change (size0 99 (VUInt 2 (Some E_OxmClass04) x)) with (Ok 2). cbv beta iota.
  change (o + Z.to_nat 2)%nat with (o + 2)%nat. rewrite unpack_fields_cons by exact N.
  change (unpack0 99 (deepcopy (VUInt 1 None VNone))) with (uint_unpack 1 None).
  destruct (uint_unpack_outcome 1 None b (o + 2)) as [(y & -> & L2)| ->]; [|reflexivity].
  cbv beta iota delta [bind].
  change (size0 99 (VUInt 1 None y)) with (Ok 1). cbv beta iota.
  change (o + 2 + Z.to_nat 1)%nat with (o + 2 + 1)%nat. rewrite unpack_fields_cons by exact N.
  change (unpack0 99 (deepcopy (VUInt 1 None VNone))) with (uint_unpack 1 None).
  destruct (uint_unpack_outcome 1 None b (o + 2 + 1)) as [(z & -> & L3)| ->]; [|reflexivity].
  lia.
Qed.

Lemma skipn_plus {A} (l : list A) : forall m n, skipn (m + n) l = skipn n (skipn m l).
Proof.
  induction l as [|x l IH]; intros m n; [rewrite !skipn_nil; reflexivity|].
  destruct m; [reflexivity|]. cbn [Nat.add skipn]. apply IH.
Qed.

Lemma cut4 (b : bytes) o : wf_bytes b -> (o + 4 <= List.length b)%nat ->
  exists a1 a2 a3 a4, skipn o b = [a1; a2; a3; a4] ++ skipn (o + 4) b /\ wf_bytes [a1; a2; a3; a4].
Proof.
  intros W L. assert (LS : (4 <= List.length (skipn o b))%nat) by (rewrite skipn_length; lia).
  assert (WS : wf_bytes (skipn o b)).
  { unfold wf_bytes. rewrite <- (firstn_skipn o b) in W. apply Forall_app in W. apply W. }
  assert (ES : skipn (o + 4) b = skipn 4 (skipn o b)) by apply skipn_plus.
  rewrite ES. destruct (skipn o b) as [|a1 [|a2 [|a3 [|a4 r] ] ] ]; cbn [List.length] in LS; try lia.
  exists a1, a2, a3, a4. split; [reflexivity|].
  change (a1 :: a2 :: a3 :: a4 :: r) with ([a1; a2; a3; a4] ++ r) in WS. apply Forall_app in WS. apply WS.
Qed.

(** What unpack() does with any four or more bytes. *)
Lemma oxm_unpack_any b o : wf_bytes b -> (o + 4 <= List.length b)%nat ->
  let t := oxm_parse (skipn o b) in
  (In (ox_class t) oxm_classes -> oxm_field_ok (ox_class t) (ox_field t) ->
   exists v, unpack new_OxmTLV04 b o = Ok v /\ oxm_holds v t) /\
  (~ (In (ox_class t) oxm_classes /\ oxm_field_ok (ox_class t) (ox_field t)) ->
   unpack new_OxmTLV04 b o = Err UnpackException).
Proof.
  intros W L. destruct (cut4 b o W L) as (a1 & a2 & a3 & a4 & E & W4).
  assert (LP : List.length (firstn o b) = o) by (apply firstn_length_le; lia).
  pose proof (oxm_any (firstn o b) a1 a2 a3 a4 (skipn (o + 4) b) W4) as U. rewrite LP in U.
  rewrite <- E, firstn_skipn in U. rewrite E. set (r := skipn (o + 4) b) in *.
  assert (TE : oxm_parse ([a1; a2; a3; a4] ++ r)
               = mk_oxm (a1 * 256 + a2) (a3 / 2) (a3 mod 2) (firstn (Z.to_nat a4) r)).
  { unfold oxm_parse. cbn [firstn app nth skipn]. rewrite place2. reflexivity. }
  rewrite TE. cbv zeta in U |- *. set (t := mk_oxm _ _ _ _) in *.
  assert (W3 : 0 <= ox_field t <= 127).
  { unfold wf_bytes in W4. rewrite Forall_forall in W4. specialize (W4 a3). cbn [In] in W4.
    assert (is_byte a3) by tauto. unfold is_byte in *. subst t. cbn [ox_field]. lia. }
  destruct (existsb (Z.eqb (ox_class t)) oxm_classes) eqn:EM.
  - assert (M : In (ox_class t) oxm_classes).
    { apply existsb_exists in EM as (x & I & EX). apply Z.eqb_eq in EX. rewrite EX. exact I. }
    destruct ((ox_class t =? 0x8000) && negb (ox_field t <=? 39)) eqn:EF.
    + split; [|intros _; exact U]. intros _ F. exfalso. unfold oxm_field_ok in F.
      apply andb_prop in EF as [E8 EF]. rewrite E8 in F. lia.
    + split.
      * intros _ _. eexists. split; [exact U|]. eexists. split; [reflexivity|]. split; [reflexivity|].
        split; [eexists; split; [reflexivity|constructor; reflexivity]|]. split.
        -- eexists. split; [reflexivity|]. split.
           ++ destruct (ox_class t =? 0x8000); [apply ie_enum; reflexivity|apply ie_int].
           ++ intros N. apply Z.eqb_neq in N. rewrite N. reflexivity.
        -- split; [eexists; split; [reflexivity|constructor]|].
           eexists. split; [reflexivity|]. left. reflexivity.
      * intros N. exfalso. apply N. split; [exact M|]. unfold oxm_field_ok.
        destruct (ox_class t =? 0x8000); cbn [andb] in EF; lia.
  - split; [|intros _; exact U]. intros I. exfalso.
    assert (existsb (Z.eqb (ox_class t)) oxm_classes = true)
      by (apply existsb_exists; eexists; split; [exact I|apply Z.eqb_refl]). congruence.
Qed.

Lemma exact_as_int v z : int_exact v z -> as_int v = Some z \/ as_int v = None.
Proof. intros H. destruct H; cbn [as_int]; rewrite ?H; auto. Qed.

Lemma match_basic {A} (a b : A) z : z <> 32768 -> match z with 32768 => a | _ => b end = b.
Proof.
  intros N. destruct z as [|p|p]; try reflexivity.
  do 16 (destruct p as [p|p|]; try reflexivity). contradiction.
Qed.

Lemma oxm_refuses attrs cls field cl f :
  get_attr "oxm_class" attrs = Some cls -> int_exact cls cl ->
  get_attr "oxm_field" attrs = Some field -> int_exact field f ->
  (if cl =? 0x8000 then ~ 0 <= f <= 39 else 127 < f) ->
  pack (VObj OxmTLV04 attrs) = Err PackException.
Proof.
  intros G1 E1 G2 E2 B. unfold pack.
  change FUEL with (S 99). rewrite Nat.add_succ_l, pack0_obj. unfold pack_obj.
  change (kind OxmTLV04) with KOxmTLV. cbv beta iota. unfold oxm_pack, attr_or_error. rewrite G1. cbn [bind].
  rewrite G2. cbn [bind]. unfold oxm_field_int. rewrite (int_exact_num _ _ E1).
  destruct (Z.eqb_spec cl 0x8000) as [->|N].
  - rewrite (int_exact_num _ _ E2).
    destruct (is_member E_OxmOfbMatchField04 f) eqn:M; [apply ofb_field_member in M; contradiction|reflexivity].
  - assert (X : (match as_int field with Some z => if 127 <? z then Err ValueError else Ok z | None => Err ValueError end)
                = (Err ValueError : res Z)).
    { destruct (exact_as_int _ _ E2) as [-> | ->]; [|reflexivity].
      replace (127 <? f) with true by lia. reflexivity. }
    rewrite (match_basic _ _ _ N), X. reflexivity.
Qed.

(** ** Matches *)

Lemma oxm_items n items ts : Forall oxm_ok ts -> Forall2 oxm_holds items ts ->
  enc_items (S (S (S n))) OxmTLV04 items (flat_map oxm_wire ts) (map oxm_out ts).
Proof.
  intros OK F. induction F as [|v t vs ts H F IH]; [constructor|].
  inversion OK; subst. cbn [flat_map map]. apply i_cons; [apply oxm_enc; assumption|apply oxm_wire_nonempty|].
  apply IH. assumption.
Qed.

Lemma pad8_mod n : 0 <= n -> (n + zlen (pad8 n)) mod 8 = 0 /\ (List.length (pad8 n) < 8)%nat.
Proof.
  intros H. unfold zlen, pad8. rewrite repeat_length.
  pose proof (Z.mod_pos_bound (- n) 8 ltac:(lia)) as B. split; [|lia].
  rewrite Z2Nat.id by lia. rewrite Zplus_mod_idemp_r. replace (n + - n) with 0 by lia. reflexivity.
Qed.

Definition match_out (mt : Z) (ts : list oxm) : pyval :=
  mk Match04 [VUInt 2 (Some E_MatchType04) (VEnum E_MatchType04 mt);
              VUInt 2 None (VInt (4 + zlen (flat_map oxm_wire ts)));
              VList CFixedTypeList OxmTLV04 (map oxm_out ts)].

Lemma match_out_holds mt ts : match_holds (match_out mt ts) mt ts.
Proof.
  eexists. split; [reflexivity|]. split; [reflexivity|].
  split; [eexists; split; [reflexivity|constructor; reflexivity]|].
  eexists. split; [reflexivity|]. eexists _, _, _. split; [reflexivity|].
  induction ts as [|t ts IH]; [constructor|]. cbn [map]. constructor; [apply oxm_out_holds|exact IH].
Qed.

Lemma match_enc n v mt ts : match_ok mt ts -> match_holds v mt ts ->
  enc_obj (S (S (S (S (S n))))) SD true Match04 v (match_wire mt ts) (match_out mt ts).
Proof.
  intros (MT & OK & L) (attrs & -> & C & (x & G1 & E1) & (y & G2 & lc & pc & items & -> & F)).
  pose proof (oxm_items n _ _ OK F) as EI.
  unfold match_wire, match_out. cbv zeta. set (tlvs := flat_map oxm_wire ts) in *.
  pose proof (zlen_nonneg tlvs) as NN.
  replace (two mt ++ two (4 + zlen tlvs) ++ tlvs ++ pad8 (4 + zlen tlvs))
    with ((two mt ++ two (4 + zlen tlvs) ++ tlvs) ++ pad8 (4 + zlen tlvs)) by (rewrite <- !app_assoc; reflexivity).
  destruct (pad8_mod (4 + zlen tlvs) ltac:(lia)) as [P8 PL].
  unfold pad8. unfold pad8 in P8, PL. set (pad := Z.to_nat _) in *.
  assert (ZB : zlen (two mt ++ two (4 + zlen tlvs) ++ tlvs) = 4 + zlen tlvs).
  { rewrite !zlen_app. change (zlen (two mt)) with 2. change (zlen (two (4 + zlen tlvs))) with 2. lia. }
  eapply (o_match04 _ TAIL).
  - exact C.
  - rewrite values_get by (apply complete_set; [exact C|cbn; tauto]).
    rewrite ZB. change (field_names Match04) with ["match_type"; "length"; "oxm_match_fields"]. cbn [map].
    rewrite (attr_set_other "match_type") by discriminate. rewrite attr_set.
    rewrite (attr_set_other "oxm_match_fields") by discriminate.
    rewrite (attr_of_get _ _ _ G1), (attr_of_get _ _ _ G2).
    rewrite <- !be2 by lia. change (class_attrs Match04) with attrs_Match04.
    apply f_cons; [|apply f_cons].
    + apply e_uint with (er := Some E_MatchType04); [lia| | |].
      * left. apply int_exact_value in E1. tauto.
      * change (ulimit 2) with 65536. lia.
      * right. destruct MT as [-> | ->]; vm_compute; reflexivity.
    + apply enc_number with (er := None); [lia| |exact I]. change (ulimit 2) with 65536. lia.
    + apply f_last. apply e_list; [discriminate|vm_compute; reflexivity|exact EI].
  - rewrite zlen_app, ZB. exact P8.
  - rewrite repeat_length in PL. exact PL.
Qed.

Lemma match_wire_nonempty mt ts : match_wire mt ts <> [].
Proof. unfold match_wire, two. discriminate. Qed.

Lemma oxm_wire_wf t : oxm_ok t -> wf_bytes (oxm_wire t).
Proof.
  intros OK. pose proof (oxm_class_word t OK). pose proof (oxm_bounds t OK). destruct OK as (_ & _ & _ & W & L).
  unfold oxm_wire, two. pose proof (zlen_nonneg (ox_value t)).
  repeat (apply Forall_cons; [unfold is_byte; lia|]). exact W.
Qed.
Lemma pad8_wf n : wf_bytes (pad8 n).
Proof. unfold pad8, wf_bytes. apply Forall_forall. intros x I. apply repeat_spec in I. subst. unfold is_byte. lia. Qed.
Lemma two_wf z : is_word z -> wf_bytes (two z).
Proof. unfold is_word, two. intros H. repeat constructor; unfold is_byte; lia. Qed.
Lemma tlvs_wf ts : Forall oxm_ok ts -> wf_bytes (flat_map oxm_wire ts).
Proof.
  induction 1 as [|t ts H _ IH]; [constructor|]. cbn [flat_map]. apply Forall_app. split; [apply oxm_wire_wf, H|exact IH].
Qed.
Lemma match_wire_wf mt ts : match_ok mt ts -> wf_bytes (match_wire mt ts).
Proof.
  intros (MT & OK & L). unfold match_wire. cbv zeta. pose proof (zlen_nonneg (flat_map oxm_wire ts)).
  unfold wf_bytes. rewrite !Forall_app. split; [apply two_wf; unfold is_word; lia|].
  split; [apply two_wf; unfold is_word; lia|]. split; [apply tlvs_wf, OK|apply pad8_wf].
Qed.

Lemma match_length mt ts : zlen (match_wire mt ts) mod 8 = 0.
Proof.
  unfold match_wire. cbv zeta. set (tlvs := flat_map oxm_wire ts). pose proof (zlen_nonneg tlvs).
  rewrite !zlen_app. change (zlen (two mt)) with 2. change (zlen (two (4 + zlen tlvs))) with 2.
  destruct (pad8_mod (4 + zlen tlvs) ltac:(lia)) as [P8 _].
  replace (2 + (2 + (zlen tlvs + zlen (pad8 (4 + zlen tlvs))))) with (4 + zlen tlvs + zlen (pad8 (4 + zlen tlvs))) by lia.
  exact P8.
Qed.

Lemma match_roundtrip v mt ts pre suf : match_ok mt ts -> match_holds v mt ts -> wf_bytes pre -> wf_bytes suf ->
  pack v = Ok (match_wire mt ts) /\ get_size v = Ok (zlen (match_wire mt ts)) /\
  zlen (match_wire mt ts) mod 8 = 0 /\
  exists v', unpack new_Match04 (pre ++ match_wire mt ts ++ suf) (List.length pre) = Ok v' /\
             match_holds v' mt ts.
Proof.
  intros OK H W1 W2. destruct (obj_pack_size _ _ _ _ _ _ (match_enc 0 v mt ts OK H)) as [P S].
  split; [exact P|]. split; [exact S|]. split; [apply match_length|].
  exists (match_out mt ts). split; [|apply match_out_holds].
  eapply obj_unpack; [apply (match_enc 0 v mt ts OK H)|reflexivity| |discriminate|apply match_wire_nonempty].
  unfold wf_bytes. rewrite !Forall_app. split; [exact W1|]. split; [apply match_wire_wf, OK|exact W2].
Qed.

Lemma match_too_long v mt ts : mt = 0 \/ mt = 1 -> Forall oxm_ok ts -> match_holds v mt ts ->
  65536 <= 4 + zlen (flat_map oxm_wire ts) -> pack v = Err PackException.
Proof.
  intros MT OK (attrs & -> & C & (x & G1 & E1) & (y & G2 & lc & pc & items & -> & F)) L.
  pose proof (oxm_items 0 _ _ OK F) as EI. set (tlvs := flat_map oxm_wire ts) in *.
  assert (VL : forall z, values Match04 (set_attr "length" (VInt z) attrs) = [x; VInt z; VList lc pc items]).
  { intros z. rewrite values_get by (apply complete_set; [exact C|cbn; tauto]).
    change (field_names Match04) with ["match_type"; "length"; "oxm_match_fields"]. cbn [map].
    rewrite (attr_set_other "match_type") by discriminate. rewrite attr_set.
    rewrite (attr_set_other "oxm_match_fields") by discriminate.
    rewrite (attr_of_get _ _ _ G1), (attr_of_get _ _ _ G2). reflexivity. }
  assert (EX : enc 4 SD true (VUInt 2 (Some E_MatchType04) VNone) x (be_encode 2 mt)
             (VUInt 2 (Some E_MatchType04) (decoded_int (Some E_MatchType04) mt))).
  { apply e_uint; [lia| | |].
    - left. apply int_exact_value in E1. tauto.
    - change (ulimit 2) with 65536. lia.
    - right. destruct MT as [-> | ->]; vm_compute; reflexivity. }
  assert (EF : enc_fields 4 TAIL true (class_attrs Match04) [x; VInt 0; VList lc pc items]
                 (be_encode 2 mt ++ be_encode 2 0 ++ tlvs)
                 [VUInt 2 (Some E_MatchType04) (decoded_int (Some E_MatchType04) mt);
                  VUInt 2 None (decoded_int None 0); VList CFixedTypeList OxmTLV04 (map oxm_out ts)]).
  { change (class_attrs Match04) with attrs_Match04.
    apply f_cons; [exact EX|apply f_cons].
    + apply enc_number with (er := None); [lia| |exact I]. change (ulimit 2) with 65536. lia.
    + apply f_last. apply e_list; [discriminate|vm_compute; reflexivity|exact EI]. }
  apply soundness in EF as (_ & _ & _ & SZ & _). specialize (SZ eq_refl).
  apply soundness in EX as (PX & _).
  assert (SS : struct_size (size0 4) Match04 attrs = Ok (4 + zlen tlvs)).
  { rewrite <- (struct_size_set (size0 4) Match04 "length" (VInt 0) attrs 2 None VNone C eq_refl).
    unfold struct_size. rewrite zip_attrs_values, VL. rewrite SZ. rewrite !zlen_app.
    unfold zlen at 1 2. rewrite !be_encode_length. f_equal. lia. }
  assert (R : pack0 5 (VObj Match04 attrs) = Err PackException).
  { rewrite pack0_obj. unfold pack_obj. change (kind Match04) with KMatch04. cbv beta iota. unfold match04_pack.
    rewrite SS. cbn [bind]. cbv zeta. rewrite struct_pack_eq by discriminate. rewrite VL.
    change (map snd (class_attrs Match04))
      with [VUInt 2 (Some E_MatchType04) VNone; VUInt 2 None VNone; VList OxmMatchFields04 OxmTLV04 []].
    cbn [combine concatM fst snd]. rewrite PX. cbn [bind].
    cbn [pack1]. unfold uint_pack1, uint_struct. cbn [dot_value as_int]. unfold struct_pack_u.
    replace (4 + zlen tlvs <? ulimit 2) with false by (symmetry; apply Z.ltb_ge; exact L).
    rewrite andb_false_r. reflexivity. }
  rewrite (pack_of 5); [exact R|rewrite R; discriminate].
Qed.

(** ** Set-field actions *)

Definition setfield_out (t : oxm) : pyval :=
  mk ActionSetField04
    [VUInt 2 (Some E_ActionType04) (VEnum E_ActionType04 25);
     VUInt 2 None (VInt (zlen (setfield_wire t))); oxm_out t].

Lemma setfield_out_holds t : setfield_holds (setfield_out t) t.
Proof.
  eexists. split; [reflexivity|]. split; [reflexivity|].
  split; [eexists; split; [reflexivity|constructor; reflexivity]|].
  eexists. split; [reflexivity|]. apply oxm_out_holds.
Qed.

Lemma setfield_length t : zlen (setfield_wire t) mod 8 = 0 /\
  zlen (setfield_wire t) = 4 + zlen (oxm_wire t) + zlen (pad8 (4 + zlen (oxm_wire t))).
Proof.
  unfold setfield_wire. cbv zeta. set (b := oxm_wire t). pose proof (zlen_nonneg b).
  rewrite !zlen_app. change (zlen (two 25)) with 2. set (p := pad8 (4 + zlen b)).
  change (zlen (two (4 + zlen b + zlen p))) with 2.
  destruct (pad8_mod (4 + zlen b) ltac:(lia)) as [P8 _]. fold p in P8.
  replace (2 + (2 + (zlen b + zlen p))) with (4 + zlen b + zlen p) by lia.
  split; [exact P8|reflexivity].
Qed.

Lemma setfield_bound t : oxm_ok t -> 0 <= zlen (setfield_wire t) < 65536.
Proof.
  intros OK. pose proof (zlen_nonneg (setfield_wire t)). destruct (setfield_length t) as [_ E].
  pose proof (zlen_nonneg (oxm_wire t)).
  destruct (pad8_mod (4 + zlen (oxm_wire t)) ltac:(lia)) as [_ PL].
  assert (zlen (oxm_wire t) = 4 + zlen (ox_value t)).
  { unfold oxm_wire. rewrite !zlen_app. change (zlen (two (ox_class t))) with 2.
    change (zlen [2 * ox_field t + ox_mask t; zlen (ox_value t)]) with 2. lia. }
  destruct OK as (_ & _ & _ & _ & L). unfold zlen in E at 3. lia.
Qed.

Lemma setfield_enc n v t : oxm_ok t -> setfield_holds v t ->
  enc_obj (S (S (S (S n)))) SD true ActionHeader04 v (setfield_wire t) (setfield_out t).
Proof.
  intros OK (attrs & -> & C & (x & G1 & E1) & (y & G2 & OH)).
  pose proof (setfield_bound t OK) as SB.
  pose proof (oxm_enc n y t OK OH) as EO.
  destruct OH as (fattrs & -> & OH).
  destruct (setfield_length t) as [L8 LE].
  assert (SW : setfield_wire t = (two 25 ++ two (zlen (setfield_wire t)) ++ oxm_wire t)
                 ++ pad8 (4 + zlen (oxm_wire t))).
  { rewrite LE. unfold setfield_wire. cbv zeta. rewrite <- !app_assoc. reflexivity. }
  unfold setfield_out. set (len := zlen (setfield_wire t)) in *.
  pose proof (zlen_nonneg (oxm_wire t)) as NN.
  destruct (pad8_mod (4 + zlen (oxm_wire t)) ltac:(lia)) as [_ PL].
  rewrite SW. unfold pad8 in *. set (pad := Z.to_nat _) in *.
  rewrite repeat_length in PL.
  assert (LB : zlen ((two 25 ++ two len ++ oxm_wire t) ++ repeat 0 pad) = len).
  { rewrite <- SW. reflexivity. }
  eapply o_setfield.
  - exact C.
  - exact G2.
  - rewrite LB. rewrite values_get by (apply complete_set; [exact C|cbn; tauto]).
    change (field_names ActionSetField04) with ["action_type"; "length"; "field"]. cbn [map].
    rewrite (attr_set_other "action_type") by discriminate. rewrite attr_set.
    rewrite (attr_set_other "field") by discriminate.
    rewrite (attr_of_get _ _ _ G1), (attr_of_get _ _ _ G2).
    rewrite <- !be2 by lia. change (class_attrs ActionSetField04) with attrs_ActionSetField04.
    rewrite <- (app_nil_r (oxm_wire t)).
    apply f_cons; [|apply f_cons; [|apply f_cons; [|constructor]]].
    + apply e_uint with (er := Some E_ActionType04); [lia| | |].
      * left. apply int_exact_value in E1. tauto.
      * change (ulimit 2) with 65536. lia.
      * right. vm_compute; reflexivity.
    + apply enc_number with (er := None); [lia| |exact I]. change (ulimit 2) with 65536. lia.
    + unfold new_OxmTLV04. apply e_obj; [exact EO|reflexivity|reflexivity].
  - exists [], (two len ++ oxm_wire t). split; [reflexivity|]. split; [reflexivity|lia].
  - rewrite LB. exact L8.
  - exact PL.
Qed.

Lemma setfield_wf t : oxm_ok t -> wf_bytes (setfield_wire t).
Proof.
  intros OK. pose proof (setfield_bound t OK) as SB. destruct (setfield_length t) as [_ LE]. rewrite LE in SB.
  unfold setfield_wire. cbv zeta. unfold wf_bytes. rewrite !Forall_app.
  split; [apply two_wf; unfold is_word; lia|]. split; [apply two_wf; unfold is_word; lia|].
  split; [apply oxm_wire_wf, OK|apply pad8_wf].
Qed.

Lemma setfield_roundtrip v t pre suf : oxm_ok t -> setfield_holds v t -> wf_bytes pre -> wf_bytes suf ->
  pack v = Ok (setfield_wire t) /\ get_size v = Ok (zlen (setfield_wire t)) /\
  zlen (setfield_wire t) mod 8 = 0 /\ big_endian 2 (zlen (setfield_wire t)) (slice 2 4 (setfield_wire t)) /\
  exists v', unpack new_ActionHeader04 (pre ++ setfield_wire t ++ suf) (List.length pre) = Ok v' /\
             setfield_holds v' t.
Proof.
  intros OK H W1 W2. destruct (obj_pack_size _ _ _ _ _ _ (setfield_enc 0 v t OK H)) as [P S].
  split; [exact P|]. split; [exact S|]. destruct (setfield_length t) as [L8 LE]. split; [exact L8|]. split.
  - pose proof (setfield_bound t OK) as SB. rewrite LE in SB |- *.
    unfold setfield_wire. cbv zeta. set (z := 4 + zlen (oxm_wire t) + _) in *.
    replace (slice 2 4 _) with (two z) by reflexivity.
    rewrite <- be2 by lia. apply big_endian_encode. apply fits2. lia.
  - exists (setfield_out t). split; [|apply setfield_out_holds].
    eapply obj_unpack; [apply (setfield_enc 0 v t OK H)|reflexivity| |discriminate|].
    + unfold wf_bytes. rewrite !Forall_app. split; [exact W1|]. split; [apply setfield_wf, OK|exact W2].
    + unfold setfield_wire, two. discriminate.
Qed.

(** ** Lists *)

Lemma pack0_has_pack n v b : pack0 n v = Ok b -> has_pack v = true.
Proof.
  destruct n; [discriminate|].
  destruct v; try reflexivity; try (intros H; discriminate).
  intros H. cbn [has_pack]. destruct (cid_eqb lc CList) eqn:E; [|reflexivity].
  cbn [pack0] in H. rewrite E in H. discriminate.
Qed.
Lemma pack_has_pack v b : pack v = Ok b -> has_pack v = true.
Proof. unfold pack. apply pack0_has_pack. Qed.

Lemma concatM_ok {A} (f : A -> res bytes) l bs : concatM f l = Ok bs <->
  exists bss, Forall2 (fun x b => f x = Ok b) l bss /\ bs = List.concat bss.
Proof.
  revert bs. induction l as [|x l IH]; intros bs; cbn [concatM].
  - split.
    + intros H. injection H as <-. exists []. split; [constructor|reflexivity].
    + intros (bss & F & ->). inversion F. reflexivity.
  - destruct (f x) as [b|e] eqn:E; cbn [bind].
    + destruct (concatM f l) as [r|e] eqn:R; cbn [bind].
      * split.
        -- intros H. injection H as <-. destruct (proj1 (IH r) eq_refl) as (bss & F & ->).
           exists (b :: bss). split; [constructor; assumption|reflexivity].
        -- intros (bss & F & ->). inversion F as [|? y ? ys FX FL]; subst.
           assert (y = b) by congruence. subst y. f_equal. cbn [List.concat]. f_equal.
           assert (Ok r = Ok (List.concat ys)) by (apply IH; eauto). congruence.
      * split; [discriminate|]. intros (bss & F & ->). inversion F as [|? y ? ys FX FL]; subst.
        assert (Err e = Ok (List.concat ys)) by (apply IH; eauto). discriminate.
    + split; [discriminate|]. intros (bss & F & ->). inversion F. congruence.
Qed.

Lemma item_pack n v items : In v items -> (FUEL + list_max (map height items) <= n)%nat ->
  pack0 n v = pack v.
Proof.
  intros I L. symmetry. apply pack_of. apply (pack_total (height v)); [lia|].
  pose proof (list_max_in height items v I). unfold FUEL, CFUEL in *. lia.
Qed.

Lemma Forall2_imp {A B} (P Q : A -> B -> Prop) l m :
  (forall a b, In a l -> P a b -> Q a b) -> Forall2 P l m -> Forall2 Q l m.
Proof.
  intros H F. induction F as [|a b l m X F IH]; constructor.
  - apply H; [left; reflexivity|exact X].
  - apply IH. intros a' b' I. apply H. right. exact I.
Qed.

Lemma list_pack lc pc items bs : lc <> CList ->
  (pack (VList lc pc items) = Ok bs <->
   exists bss, Forall2 (fun v b => pack v = Ok b) items bss /\ bs = List.concat bss).
Proof.
  intros N.
  assert (E : pack (VList lc pc items)
     = concatM (fun x => if has_pack x then pack0 (FUEL + list_max (map height items)) x else Err AttributeError) items).
  { unfold pack. cbn [height]. rewrite Nat.add_succ_r. apply pack0_list. exact N. }
  rewrite E. rewrite concatM_ok. split; intros (bss & F & ->); exists bss; (split; [|reflexivity]);
    revert F; apply Forall2_imp; intros v b I H.
  - destruct (has_pack v); [|discriminate]. rewrite <- (item_pack _ v items I (Nat.le_refl _)). exact H.
  - rewrite (pack_has_pack v b H). rewrite (item_pack _ v items I (Nat.le_refl _)). exact H.
Qed.

Lemma items_length n pc items bs outs : enc_items n pc items bs outs -> List.length outs = List.length items.
Proof. induction 1; cbn [List.length]; lia. Qed.

Lemma list_unpack n lc pc items bs outs pre : enc_items n pc items bs outs -> In pc list_items ->
  wf_bytes (pre ++ bs) ->
  unpack (VList lc pc []) (pre ++ bs) (List.length pre) = Ok (VList lc pc outs).
Proof.
  intros H I W. apply soundness in H as (_ & _ & _ & _ & _ & _ & _ & U).
  specialize (U pre (S (List.length (pre ++ bs))) ltac:(rewrite app_length; lia)).
  assert (R : unpack0 (S n) (VList lc pc []) (pre ++ bs) (List.length pre) = Ok (VList lc pc outs)).
  { cbn [unpack0]. rewrite U. reflexivity. }
  rewrite (unpack_of _ _ _ (S n)); [exact R|exact (list_items_uok pc I)|exact W|rewrite R; discriminate].
Qed.

Lemma list_roundtrip n lc pc items bs outs pre : enc_items n pc items bs outs -> In pc list_items ->
  lc <> CList -> wf_bytes (pre ++ bs) ->
  pack (VList lc pc items) = Ok bs /\ get_size (VList lc pc items) = Ok (zlen bs) /\
  unpack (VList lc pc []) (pre ++ bs) (List.length pre) = Ok (VList lc pc outs) /\
  List.length outs = List.length items /\ Forall2 same_obj items outs /\
  pack (VList lc pc outs) = Ok bs.
Proof.
  intros H I N W. pose proof (list_unpack n lc pc items bs outs pre H I W) as U.
  pose proof (items_length _ _ _ _ _ H) as L. pose proof (items_same _ _ _ _ _ H) as SM.
  assert (PK : forall vs, enc_items n pc vs bs outs ->
     pack (VList lc pc vs) = Ok bs /\ get_size (VList lc pc vs) = Ok (zlen bs)).
  { intros vs E. apply soundness in E as (OF & _ & _ & _ & P & SZ & _).
    assert (R : pack0 (S n) (VList lc pc vs) = Ok bs) by (rewrite pack0_list by exact N; exact P).
    assert (R2 : size0 (S n) (VList lc pc vs) = Ok (zlen bs)) by (rewrite (size0_list n lc pc vs pc N OF); exact SZ).
    rewrite (pack_of (S n)), (size_of (S n)) by congruence. auto. }
  destruct (PK items H) as [P SZ]. split; [exact P|]. split; [exact SZ|]. split; [exact U|].
  split; [exact L|]. split; [exact SM|]. apply PK. apply closure in H. apply H.
Qed.

(** ** Elements by type code *)

(** Width of a field whose size is fixed. *)
Definition fixed_width (cv : pyval) : option Z :=
  match cv with
  | VUInt w _ _ => Some (Z.of_nat w)
  | VPad k => Some (Z.of_nat k)
  | VChar len _ => Some (Z.of_nat len)
  | VIP _ _ => Some 4
  | VHW _ => Some 6
  | VDPID _ => Some 8
  | _ => None
  end.
Lemma enc_width n k sz cv iv bs out w : enc n k sz cv iv bs out -> fixed_width cv = Some w -> zlen bs = w.
Proof.
  intros H E. destruct H; cbn [fixed_width] in E; try discriminate; injection E as <-; unfold zlen.
  - rewrite be_encode_length. reflexivity.
  - rewrite repeat_length. reflexivity.
  - rewrite app_length, repeat_length. lia.
  - reflexivity.
  - reflexivity.
  - reflexivity.
  - lia.
Qed.
Fixpoint fixed_widths (fs : list (string * pyval)) : option Z :=
  match fs with
  | [] => Some 0
  | (_, cv) :: tl => match fixed_width cv, fixed_widths tl with Some a, Some b => Some (a + b) | _, _ => None end
  end.
Lemma fields_width n k sz fs vals bs outs w : enc_fields n k sz fs vals bs outs ->
  fixed_widths fs = Some w -> zlen bs = w.
Proof.
  intros H. revert w. induction H as [n|n sz name cv iv bs out E|n k sz name cv iv b1 out fs ivs b2 outs E _ IH];
    cbn [fixed_widths]; intros w FW.
  - injection FW as <-. reflexivity.
  - destruct (fixed_width cv) eqn:X; [|discriminate]. injection FW as <-. rewrite Z.add_0_r. eapply enc_width; eassumption.
  - destruct (fixed_width cv) as [a|] eqn:X; [|discriminate]. destruct (fixed_widths fs) as [b|]; [|discriminate].
    injection FW as <-. rewrite zlen_app, (IH b eq_refl). rewrite (enc_width _ _ _ _ _ _ _ _ E X). reflexivity.
Qed.

Lemma u16_slice p bs z : u16_at p bs z -> big_endian 2 z (slice p (p + 2) bs).
Proof.
  intros (b1 & b2 & -> & L & B).
  rewrite (slice_mid b1 (be_encode 2 z) b2) by (rewrite ?be_encode_length; lia).
  apply big_endian_encode. unfold fits. exact B.
Qed.
Lemma u16_app p bs z suf : u16_at p bs z -> u16_at p (bs ++ suf) z.
Proof.
  intros (b1 & b2 & -> & L & B). exists b1, (b2 ++ suf). rewrite <- !app_assoc. auto.
Qed.

Lemma int_value_int a z : int_value (VInt a) z -> a = z.
Proof. intros H. inversion H. reflexivity. Qed.

(** What is known of a well-formed element. *)
Definition element_ok (root : cid) (tbl : list (Z * cid)) (bs : bytes) (out : pyval) : Prop :=
  exists t c attrs, out = VObj c attrs /\ In (t, c) tbl /\ big_endian 2 t (slice 0 2 bs) /\
    (root <> ActionHeader01 -> big_endian 2 (zlen bs) (slice 2 4 bs)) /\
    (root = ActionHeader01 -> zlen bs = action01_length c).

Lemma coded_element n k sz root tbl v bs out : enc_obj n k sz root v bs out -> coded root = Some tbl ->
  element_ok root tbl bs out.
Proof.
  intros H T.
  destruct H as [n k sz c attrs bs outs K C F|n k pos upd c attrs bs outs K C F U
    |n k f t c attrs bs outs I C F U0 U2|n t c attrs bs outs I C F U0
    |n k t c attrs bs outs I NS C F U0 U2 M8
    |n attrs fattrs body outs pad bs' C G F U0 M8 PL
    |n attrs ic cl ifd f im m ipv payload C G1 X1 M1 G2 X2 M2 G3 X3 G4 PB PL PW
    |n k attrs body outs pad bs' C F M8 PL
    |n k sz attrs il bs outs C G1 X1 F].
  - exfalso. assert (Q : (match coded c with Some _ => match kind c with KStruct | KMatch01 => false | _ => true end | None => true end) = true).
    { clear. revert c. apply all_classes. vm_compute. reflexivity. }
    rewrite T in Q. destruct K as [-> | ->] in Q; discriminate.
  - exfalso. assert (Q : (match coded c with Some _ => match kind c with KLen _ _ => false | _ => true end | None => true end) = true).
    { clear. revert c. apply all_classes. vm_compute. reflexivity. }
    rewrite T, K in Q. discriminate.
  - assert (tbl = typed_table f) by (destruct f; injection T as <-; reflexivity). subst tbl.
    exists t, c. eexists. split; [reflexivity|]. split; [exact I|]. split; [exact (u16_slice _ _ _ U0)|].
    split; [intros _; exact (u16_slice _ _ _ U2)|]. intros E. destruct f; discriminate.
  - injection T as <-. exists t, c. eexists. split; [reflexivity|]. split; [exact I|].
    split; [exact (u16_slice _ _ _ U0)|]. split; [congruence|]. intros _.
    assert (Q : forallb (fun p => match fixed_widths (class_attrs (snd p)) with
                                   | Some w => w =? action01_length (snd p) | None => false end) action01_table = true)
      by (vm_compute; reflexivity).
    rewrite forallb_forall in Q. specialize (Q _ I). cbn [snd] in Q.
    destruct (fixed_widths (class_attrs c)) eqn:FW; [|discriminate]. apply Z.eqb_eq in Q. subst.
    exact (fields_width _ _ _ _ _ _ _ _ F FW).
  - injection T as <-. exists t, c. eexists. split; [reflexivity|]. split; [exact I|].
    split; [exact (u16_slice _ _ _ U0)|]. split; [intros _; exact (u16_slice _ _ _ U2)|discriminate].
  - injection T as <-. exists 25, ActionSetField04. eexists. split; [reflexivity|]. split; [cbn; tauto|].
    split; [apply (u16_slice 0), u16_app, U0|]. split; [|discriminate]. intros _.
    apply (u16_slice 2). subst bs'. apply u16_app.
    rewrite values_get in F by (apply complete_set; [exact C|cbn; tauto]).
    change (field_names ActionSetField04) with ["action_type"; "length"; "field"] in F. cbn [map] in F.
    rewrite (attr_set_other "action_type") in F by discriminate. rewrite attr_set in F.
    rewrite (attr_set_other "field") in F by discriminate.
    change (class_attrs ActionSetField04) with attrs_ActionSetField04 in F. unfold attrs_ActionSetField04 in F.
    inversion F as [| |? ? ? ? ? ? b1 ? ? ? b2 ? E1 F2]; subst.
    inversion F2 as [| |? ? ? ? ? ? b3 ? ? ? b4 ? E2 F3]; subst.
    inversion E2 as [? ? ? ? ? z Hw [[_ Hv]|[X _]] Hz Ha| | | | | | | | | | | | |]; subst; [|discriminate].
    apply int_value_int in Hv. rewrite Hv. exists b1, b4. split; [reflexivity|]. split; [|exact Hz].
    apply enc_width with (w := 2) in E1; [|reflexivity]. unfold zlen in E1. lia.
  - discriminate.
  - discriminate.
  - discriminate.
Qed.

Lemma coded_lists n root tbl items bs outs : coded root = Some tbl ->
  enc_items n root items bs outs -> coded_elements root tbl bs outs.
Proof.
  intros T H. induction H as [n pc|n k pc v bs out E NE|n pc v b1 out vs b2 outs E NE H IH].
  - constructor.
  - rewrite <- (app_nil_r bs). destruct (coded_element _ _ _ _ _ _ _ _ E T) as (t & c & a & -> & I & B0 & B2 & L).
    apply ce_cons with (t := t); auto; [|constructor].
    exact (obj_size _ _ _ _ _ _ (obj_stable _ _ _ _ _ _ _ E)).
  - destruct (coded_element _ _ _ _ _ _ _ _ E T) as (t & c & a & -> & I & B0 & B2 & L).
    apply ce_cons with (t := t); auto.
    exact (obj_size _ _ _ _ _ _ (obj_stable _ _ _ _ _ _ _ E)).
Qed.

(** Any buffer. *)
Lemma uint_unpack_inv w er b o t : uint_unpack w er b o = Ok t ->
  let z := place_value (slice o (o + w) b) in
  t = VUInt w er (decoded_int er z) /\ allowed_int er z.
Proof.
  intros H z. subst z. rewrite place_value_decode. unfold uint_unpack, struct_unpack_u in H.
  destruct (Nat.eqb (List.length (slice o (o + w) b)) w); [|discriminate]. cbn [bind] in H.
  destruct er as [e|]; cbn [decoded_int allowed_int].
  - unfold enum_call, is_mask_enum in *.
    destruct (enum_def e); try (destruct (is_member e _) eqn:M; [|discriminate]); injection H as <-; auto.
  - injection H as <-. auto.
Qed.

Lemma structure_inv rec size c attrs b o v : unpack_structure rec size c attrs b o = Ok v ->
  exists attrs', v = VObj c attrs'.
Proof.
  unfold unpack_structure. destruct (unpack_fields _ _ _ _ _ _) as [r|]; [|discriminate].
  intros H. injection H as <-. eauto.
Qed.

Lemma member_in e z : is_member e z = true -> In z (enum_values (enum_def e)).
Proof. unfold is_member. intros H. apply existsb_exists in H as (x & I & E). apply Z.eqb_eq in E. subst. exact I. Qed.

Definition in_tableb (tbl : list (Z * cid)) (t : Z) : bool := existsb (fun p => fst p =? t) tbl.
Lemma in_tableb_false tbl t : in_tableb tbl t = false -> ~ in_table tbl t.
Proof.
  intros H (c & I). unfold in_tableb in H.
  assert (existsb (fun p => fst p =? t) tbl = true) by (apply existsb_exists; exists (t, c); split; [exact I|apply Z.eqb_refl]).
  congruence.
Qed.
Lemma in_pair (tbl : list (Z * cid)) t c : existsb (fun p => (fst p =? t) && cid_eqb (snd p) c) tbl = true -> In (t, c) tbl.
Proof.
  intros H. apply existsb_exists in H as ([t' c'] & I & E). cbn [fst snd] in E. apply andb_prop in E as [E1 E2].
  apply Z.eqb_eq in E1. apply cid_eqb_eq in E2. subst. exact I.
Qed.

Lemma action01_element z : element_class ActionHeader01 action01_table z (action_class ActionHeader01 action_classes_01 z).
Proof.
  destruct (in_tableb action01_table z) eqn:E.
  - left. unfold in_tableb in E. apply existsb_exists in E as ([t c] & I & E). cbn [fst] in E. apply Z.eqb_eq in E. subst t.
    pose proof (action01_table_ok _ _ I) as K. unfold action01_ok in K.
    apply andb_prop in K as [K _]. apply andb_prop in K as [K _]. apply andb_prop in K as [K _]. apply cid_eqb_eq in K. rewrite K. exact I.
  - right. split; [apply in_tableb_false, E|]. left. split; [reflexivity|].
    cbn [in_tableb action01_table existsb fst] in E. unfold in_tableb, action01_table in E. cbn [existsb fst] in E.
    unfold action_classes_01. cbn [action_class existsb].
    repeat match goal with |- context [?a =? ?b] => destruct (Z.eqb_spec a b); [lia|]; cbn [orb] end. reflexivity.
Qed.

Lemma action04_element z : is_member E_ActionType04 z = true ->
  In (z, action_class ActionHeader04 action_classes_04 z) action04_table.
Proof.
  intros M. apply member_in in M.
  assert (Q : forallb (fun z => existsb (fun p => (fst p =? z) && cid_eqb (snd p) (action_class ActionHeader04 action_classes_04 z)) action04_table)
                (enum_values (enum_def E_ActionType04)) = true) by (vm_compute; reflexivity).
  rewrite forallb_forall in Q. apply in_pair, Q, M.
Qed.

Lemma typed_element f z c : is_member (family_enum f) z = true -> find_class f z = Ok c ->
  element_class (typed_root f) (typed_table f) z c.
Proof.
  intros M F. apply member_in in M.
  assert (Q : forallb (fun z => match find_class f z with
      | Ok c => existsb (fun p => (fst p =? z) && cid_eqb (snd p) c) (typed_table f) ||
                (cid_eqb (typed_root f) Property04 && negb (in_tableb (typed_table f) z) &&
                 ((z =? 0xfffe) || (z =? 0xffff)) && cid_eqb c OxmProperty04)
      | Err _ => true end) (enum_values (enum_def (family_enum f))) = true) by (destruct f; vm_compute; reflexivity).
  rewrite forallb_forall in Q. specialize (Q z M). rewrite F in Q.
  apply orb_prop in Q as [Q|Q]; [left; apply in_pair, Q|].
  apply andb_prop in Q as [Q Q4]. apply andb_prop in Q as [Q Q3]. apply andb_prop in Q as [Q1 Q2].
  right. split; [apply in_tableb_false; destruct (in_tableb (typed_table f) z); [discriminate|reflexivity]|].
  right. apply cid_eqb_eq in Q1, Q4. split; [exact Q1|]. split; [lia|exact Q4].
Qed.

Lemma bind_ok_inv {A B} (r : res A) (f : A -> res B) y : (do x <- r; f x) = Ok y -> exists x, r = Ok x /\ f x = Ok y.
Proof. destruct r; cbn [bind]; [eauto|discriminate]. Qed.

Lemma root_item n root tbl a b o v : coded root = Some tbl ->
  unpack0 n (VObj root a) b o = Ok v ->
  exists c attrs, v = VObj c attrs /\ element_class root tbl (place_value (slice o (o + 2) b)) c.
Proof.
  intros T H. destruct n; [discriminate|]. rewrite unpack0_obj in H.
  assert (R : In root [ActionHeader01; ActionHeader04; Instruction04; Property04; MeterBandHeader04]).
  { destruct root; try discriminate; cbn; tauto. }
  assert (TY : forall f, root = typed_root f -> typed_unpack (unpack0 n) (size0 n) f a b o = Ok v ->
     exists c attrs, v = VObj c attrs /\ element_class root tbl (place_value (slice o (o + 2) b)) c).
  { intros f -> U. assert (tbl = typed_table f) by (destruct f; injection T as <-; reflexivity). subst tbl.
    unfold typed_unpack in U.
    apply bind_ok_inv in U as (t & E1 & U). apply bind_ok_inv in U as (tz & E2 & U).
    apply bind_ok_inv in U as (c' & E3 & U). apply bind_ok_inv in U as (l & E4 & U).
    apply bind_ok_inv in U as (len & E5 & U). apply structure_inv in U as (attrs' & ->).
    apply uint_unpack_inv in E1 as (-> & AL). set (z := place_value _) in *.
    assert (MK : is_mask_enum (family_enum f) = false) by (destruct f; reflexivity).
    assert (tz = z).
    { cbn [decoded_int] in E2. rewrite MK in E2. unfold num_of, generic_value in E2. destruct f; cbn in E2; congruence. }
    subst tz. cbn [allowed_int] in AL. rewrite MK in AL. destruct AL as [AL|AL]; [discriminate|].
    exists c', attrs'. split; [reflexivity|]. apply typed_element; assumption. }
  cbn [In] in R. destruct R as [<- | [<- | [<- | [<- | [<- | []] ] ] ] ].
  - injection T as <-. change (unpack_obj (unpack0 n) (size0 n) ActionHeader01 a b o)
      with (action01_unpack (unpack0 n) (size0 n) ActionHeader01 a b o) in H. unfold action01_unpack in H.
    apply bind_ok_inv in H as (t & E1 & H). apply bind_ok_inv in H as (tz & E2 & H).
    apply structure_inv in H as (attrs' & ->). apply uint_unpack_inv in E1 as (-> & _).
    set (z := place_value _) in *. assert (tz = z) by (cbn in E2; congruence). subst tz.
    eexists _, _. split; [reflexivity|]. apply action01_element.
  - injection T as <-. change (unpack_obj (unpack0 n) (size0 n) ActionHeader04 a b o)
      with (action04_unpack (unpack0 n) (size0 n) ActionHeader04 a b o) in H. unfold action04_unpack in H.
    apply bind_ok_inv in H as (t & E1 & H). apply bind_ok_inv in H as (l & E4 & H).
    apply bind_ok_inv in H as (tz & E2 & H). apply bind_ok_inv in H as (len & E3 & H).
    apply structure_inv in H as (attrs' & ->). apply uint_unpack_inv in E1 as (-> & AL).
    set (z := place_value _) in *. assert (tz = z) by (cbn in E2; congruence). subst tz.
    destruct AL as [AL|AL]; [discriminate|].
    eexists _, _. split; [reflexivity|]. left. apply action04_element, AL.
  - apply (TY TInstruction eq_refl). exact H.
  - apply (TY TProperty eq_refl). exact H.
  - apply (TY TMeterBand eq_refl). exact H.
Qed.

Lemma root_new root tbl : coded root = Some tbl ->
  exists a, new_instance root = Some (VObj root a) /\ uok 11 (VObj root a) = true /\ root <> CNone /\
    listable root = true /\ forallb (positive_class root) (targets root) = true /\
    forall t c, element_class root tbl t c -> subclass c root = true.
Proof.
  intros T.
  assert (R : In root [ActionHeader01; ActionHeader04; Instruction04; Property04; MeterBandHeader04]).
  { destruct root; try discriminate; cbn; tauto. }
  assert (NI : exists a, new_instance root = Some (VObj root a)).
  { cbn [In] in R. destruct R as [<- | [<- | [<- | [<- | [<- | []] ] ] ] ]; eexists; reflexivity. }
  destruct NI as (a & NI). exists a. split; [exact NI|]. split; [eapply instance_uok; exact NI|].
  split; [intros E; subst; discriminate|].
  assert (G : forallb (fun c => listable c && forallb (positive_class c) (targets c))
      [ActionHeader01; ActionHeader04; Instruction04; Property04; MeterBandHeader04] = true) by (vm_compute; reflexivity).
  rewrite forallb_forall in G. specialize (G root R). apply andb_prop in G as [G1 G2].
  split; [exact G1|]. split; [exact G2|]. intros t c [I|(_ & [[-> ->]|(-> & _ & ->)])].
  - assert (Q : forallb (fun r => match coded r with
        | Some tb => forallb (fun p => subclass (snd p) r) tb | None => true end)
      [ActionHeader01; ActionHeader04; Instruction04; Property04; MeterBandHeader04] = true) by (vm_compute; reflexivity).
    rewrite forallb_forall in Q. specialize (Q root R). rewrite T in Q. rewrite forallb_forall in Q.
    exact (Q _ I).
  - reflexivity.
  - reflexivity.
Qed.

Lemma item_elements root tbl b : coded root = Some tbl -> wf_bytes b ->
  forall k o l, unpack_items (unpack0 99) (size0 99) root k b o = Ok l -> elements root tbl b o l.
Proof.
  intros T W. destruct (root_new root tbl T) as (a & NI & UO & NN & LS & PC & SUB).
  induction k as [|k IH]; intros o l H; cbn [unpack_items] in H.
  - destruct (Nat.ltb_spec o (List.length b)) as [L|L]; [discriminate|]. injection H as <-. constructor. exact L.
  - destruct (Nat.ltb_spec o (List.length b)) as [L|L]; [|injection H as <-; constructor; exact L].
    rewrite NI in H. apply bind_ok_inv in H as (v & U & H). apply bind_ok_inv in H as (l0 & CI & H).
    apply bind_ok_inv in H as (s & SZ & H). apply bind_ok_inv in H as (rest & R & H). injection H as <-.
    destruct (root_item 99 root tbl a b o v T U) as (c & attrs & -> & EC).
    cbn [flat] in CI. cbn [check_items] in CI. rewrite cid_eqb_neq in CI by exact NN. cbn [class_of] in CI.
    rewrite (SUB _ _ EC) in CI. cbn [check_items bind] in CI. injection CI as <-. cbn [app].
    assert (GD : good (VObj c attrs) = true).
    { pose proof (unpack_total 11 (VObj root a) 99 b o UO W ltac:(unfold CFUEL; lia)) as S.
      rewrite U in S. apply S. reflexivity. }
    assert (P : 1 <= s) by (exact (item_pos 97 root a b o _ 99 s W LS PC U GD SZ)).
    apply el_next with (s := s); [exact L|exact EC| |lia|exact (IH _ _ R)].
    rewrite (size_of 99); [exact SZ|rewrite SZ; discriminate].
Qed.

Lemma unpack0_list n lc pc items b o : unpack0 (S n) (VList lc pc items) b o
  = (do l <- unpack_items (unpack0 n) (size0 n) pc (S (List.length b)) b o; Ok (VList lc pc (items ++ l))).
Proof. reflexivity. Qed.
Lemma unpack_list lc pc items b o : unpack (VList lc pc items) b o
  = (do l <- unpack_items (unpack0 99) (size0 99) pc (S (List.length b)) b o; Ok (VList lc pc (items ++ l))).
Proof. unfold unpack. rewrite FUEL_S. apply unpack0_list. Qed.

Lemma list_elements root tbl lc b o r : coded root = Some tbl -> wf_bytes b ->
  unpack (VList lc root []) b o = Ok r ->
  exists items, r = VList lc root items /\ elements root tbl b o items.
Proof.
  intros T W H. rewrite unpack_list in H.
  apply bind_ok_inv in H as (l & E & H). injection H as <-. exists l. split; [reflexivity|].
  eapply item_elements; eassumption.
Qed.
