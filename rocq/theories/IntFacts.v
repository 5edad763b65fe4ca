(** Facts about the integer types, stated with [SpecBasic]. *)
From Coq Require Import ZArith List Bool String Lia ZifyBool.
From Verif Require Import Base BaseFacts PyText TextFacts Ids PyVal Classes Interp Spec SpecBasic
  ClassFacts LeafFacts.
Import ListNotations.
Open Scope string_scope.
Open Scope list_scope.
Open Scope Z_scope.

Lemma ulimit_pow w : ulimit w = 2 ^ (8 * Z.of_nat w).
Proof. unfold ulimit. rewrite Z.pow_mul_r by lia. reflexivity. Qed.

Lemma place_value_decode bs : place_value bs = be_decode bs.
Proof.
  induction bs as [|b bs IH]; auto. rewrite be_decode_cons, ulimit_pow. cbn [place_value]. lia.
Qed.

Lemma big_endian_encode w z : fits w z -> big_endian w z (be_encode w z).
Proof.
  unfold fits. rewrite <- ulimit_pow. intros H. repeat split.
  - apply be_encode_length.
  - apply be_encode_wf.
  - rewrite place_value_decode. apply be_decode_encode. exact H.
Qed.

Lemma big_endian_unique w z bs : big_endian w z bs -> bs = be_encode w z /\ fits w z.
Proof.
  intros (L & W & V). rewrite place_value_decode in V. subst.
  split; [symmetry; apply be_encode_decode; exact W|].
  unfold fits. rewrite <- ulimit_pow. apply be_decode_bound, W.
Qed.

Lemma uint_pack_unpack w z : (0 < w)%nat -> fits w z ->
  exists bs, pack (VUInt w None (VInt z)) = Ok bs /\ big_endian w z bs /\
    get_size (VUInt w None (VInt z)) = Ok (Z.of_nat w) /\
    forall old pre suf,
      unpack (VUInt w None old) (pre ++ bs ++ suf) (List.length pre) = Ok (VUInt w None (VInt z)).
Proof.
  intros Hw Hz. pose proof Hz as Hu. unfold fits in Hu. rewrite <- ulimit_pow in Hu.
  exists (be_encode w z). split; [|split; [|split] ].
  - change (uint_struct w (VInt z) = Ok (be_encode w z)). apply uint_struct_ok, Hu.
  - apply big_endian_encode, Hz.
  - reflexivity.
  - intros old pre suf. change (unpack (VUInt w None old)) with (uint_unpack w None).
    rewrite uint_unpack_mid; auto. exact I.
Qed.

Lemma uint_unpack_value w old pre bs suf :
  wf_bytes bs -> List.length bs = w ->
  unpack (VUInt w None old) (pre ++ bs ++ suf) (List.length pre)
  = Ok (VUInt w None (VInt (place_value bs))) /\
  fits w (place_value bs) /\
  pack (VUInt w None (VInt (place_value bs))) = Ok bs.
Proof.
  intros W L.
  assert (H : big_endian w (place_value bs) bs) by (repeat split; auto).
  apply big_endian_unique in H as [E F]. pose proof F as F'. unfold fits in F'. rewrite <- ulimit_pow in F'.
  split; [|split].
  - change (unpack (VUInt w None old)) with (uint_unpack w None).
    rewrite E at 1. rewrite uint_unpack_mid; [reflexivity|exact F'|exact I].
  - exact F.
  - change (uint_struct w (VInt (place_value bs)) = Ok bs). rewrite E at 2. apply uint_struct_ok, F'.
Qed.

Lemma uint_pack_refuses w er x :
  scalar x -> ~ (exists z, x = VInt z /\ fits w z) ->
  pack (VUInt w er x) = Err PackException.
Proof.
  intros S N. change (uint_struct w (generic_value er x) = Err PackException).
  assert (G : generic_value er x = x).
  { unfold generic_value. destruct S, er as [e|]; auto; destruct (enum_def e); auto. }
  rewrite G. unfold uint_struct. destruct S; try reflexivity.
  cbn [as_int]. unfold struct_pack_u. rewrite ulimit_pow.
  destruct ((0 <=? z) && (z <? 2 ^ (8 * Z.of_nat w))) eqn:E; [|reflexivity].
  exfalso. apply N. exists z. split; auto. unfold fits. lia.
Qed.

Lemma uint_field_refuses w er d x :
  scalar x -> x <> VNone -> ~ (exists z, x = VInt z /\ fits w z) ->
  pack1 (pack0 FUEL) (VUInt w er d) x = Err PackException.
Proof.
  intros S X N. cbn [pack1]. unfold uint_pack1, uint_struct.
  destruct S; try contradiction; try reflexivity.
  cbn [dot_value as_int]. unfold struct_pack_u. rewrite ulimit_pow.
  destruct ((0 <=? z) && (z <? 2 ^ (8 * Z.of_nat w))) eqn:E; [|reflexivity].
  exfalso. apply N. exists z. split; auto. unfold fits. lia.
Qed.

Lemma uint_unpack_short w er old buff off :
  (List.length buff < off + w)%nat -> (0 < w)%nat ->
  unpack (VUInt w er old) buff off = Err UnpackException.
Proof.
  intros H Hw. change (unpack (VUInt w er old)) with (uint_unpack w er).
  unfold uint_unpack, struct_unpack_u. rewrite slice_length.
  replace (Nat.eqb (Nat.min (off + w) (List.length buff) - off) w) with false; [reflexivity|].
  symmetry. apply Nat.eqb_neq. lia.
Qed.

Lemma declared_member e z : declared e z <-> is_member e z = true.
Proof.
  unfold declared, is_member, enum_values. rewrite existsb_exists. split.
  - intros (n & l & HI & D). exists z. split; [|apply Z.eqb_refl].
    change z with (snd (n, z)).
    destruct D as [-> | [-> | ->] ]; apply in_map; exact HI.
  - intros (x & HI & E). apply Z.eqb_eq in E. subst x.
    destruct (enum_def e) as [l|l|l]; apply in_map_iff in HI as ((n & y) & E & HI); cbn in E; subst y;
      exists n, l; auto.
Qed.

Lemma bit_mask_iff e : bit_mask_class e <-> is_mask_enum e = true.
Proof.
  unfold bit_mask_class, is_mask_enum. split.
  - intros (l & ->). reflexivity.
  - destruct (enum_def e); try discriminate. eauto.
Qed.

Lemma enum_unpack_exact w e old pre bs suf :
  wf_bytes bs -> List.length bs = w -> ~ bit_mask_class e ->
  let buff := pre ++ bs ++ suf in
  (declared e (place_value bs) /\
   unpack (VUInt w (Some e) old) buff (List.length pre)
   = Ok (VUInt w (Some e) (VEnum e (place_value bs)))) \/
  (~ declared e (place_value bs) /\
   unpack (VUInt w (Some e) old) buff (List.length pre) = Err UnpackException).
Proof.
  intros W L M buff. change (unpack (VUInt w (Some e) old)) with (uint_unpack w (Some e)).
  assert (H : big_endian w (place_value bs) bs) by (repeat split; auto).
  apply big_endian_unique in H as [E F]. unfold fits in F. rewrite <- ulimit_pow in F.
  rewrite bit_mask_iff in M. apply not_true_is_false in M.
  destruct (is_member e (place_value bs)) eqn:D.
  - left. split; [apply declared_member, D|]. unfold buff. rewrite E at 1.
    rewrite uint_unpack_mid; [|exact F|right; exact D]. cbn [decoded_int]. rewrite M. reflexivity.
  - right. split; [rewrite declared_member; congruence|]. unfold buff, uint_unpack, struct_unpack_u.
    rewrite slice_mid with (mid := bs) by lia. rewrite L, Nat.eqb_refl. cbn [bind].
    rewrite <- place_value_decode. unfold enum_call.
    unfold is_mask_enum in M. destruct (enum_def e) eqn:K; try discriminate; rewrite D; reflexivity.
Qed.

Lemma mask_unpack_total w e old pre bs suf :
  wf_bytes bs -> List.length bs = w -> bit_mask_class e ->
  unpack (VUInt w (Some e) old) (pre ++ bs ++ suf) (List.length pre)
  = Ok (VUInt w (Some e) (VMask e (place_value bs))) /\
  pack (VUInt w (Some e) (VMask e (place_value bs))) = Ok bs.
Proof.
  intros W L M. change (unpack (VUInt w (Some e) old)) with (uint_unpack w (Some e)).
  assert (H : big_endian w (place_value bs) bs) by (repeat split; auto).
  apply big_endian_unique in H as [E F]. unfold fits in F. rewrite <- ulimit_pow in F.
  rewrite bit_mask_iff in M. split.
  - rewrite E at 1. rewrite uint_unpack_mid; [|exact F|left; exact M]. cbn [decoded_int]. rewrite M. reflexivity.
  - change (uint_struct w (generic_value (Some e) (VMask e (place_value bs))) = Ok bs).
    rewrite generic_mask by exact M. rewrite E at 2. apply uint_struct_ok, F.
Qed.

Lemma member_packs w e z :
  ~ bit_mask_class e -> declared e z -> fits w z ->
  exists bs, pack (VUInt w (Some e) (VEnum e z)) = Ok bs /\ big_endian w z bs.
Proof.
  intros M D F. exists (be_encode w z). split; [|apply big_endian_encode, F].
  rewrite bit_mask_iff in M. apply not_true_is_false in M.
  change (uint_struct w (generic_value (Some e) (VEnum e z)) = Ok (be_encode w z)).
  rewrite generic_enum by exact M. apply uint_struct_ok. rewrite ulimit_pow. exact F.
Qed.
