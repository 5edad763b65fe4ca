(** Reading TLVs from any bytes: lemmas for C69. *)
From Coq Require Import ZArith List Bool String Lia.
From Verif Require Import Base BaseFacts PyText Ids PyVal Classes Interp NetTypes SpecBasic SpecNet SpecLldp.
Import ListNotations.
Open Scope list_scope.
Open Scope Z_scope.

Lemma slice_pre {A} (pre bs : list A) i j : slice (List.length pre + i) (List.length pre + j) (pre ++ bs) = slice i j bs.
Proof.
  unfold slice. rewrite firstn_app_2, skipn_app.
  replace (List.length pre + i - List.length pre)%nat with i by lia. rewrite skipn_all2 by lia. reflexivity.
Qed.
Lemma byte_pair a b : 0 <= a < 256 -> 0 <= b < 256 -> be_decode [a; b] = 256 * a + b.
Proof. intros. unfold be_decode. cbn [be_decode_acc]. lia. Qed.
Lemma reads_fun sub bs x k y l : reads sub bs x k -> reads sub bs y l -> x = y /\ k = l.
Proof.
  intros H G. destruct H as [a b rest t n value E L V|a b st rest t n value E L V]; inversion G as [a' b' rest' t' n' value' E' L' V'|a' b' st' rest' t' n' value' E' L' V']; subst;
    assert (t = t' /\ n = n') as [-> ->] by lia; auto.
Qed.
Lemma tlv_any x pre bs : wf_bytes bs ->
  (exists y k, reads (is_sub x) bs y k /\ tlv_unpack x (pre ++ bs) (List.length pre) = Ok y /\ tlv_size y = Ok (Z.of_nat k) /\ (k <= List.length bs)%nat) \/
  ((forall y k, ~ reads (is_sub x) bs y k) /\ tlv_unpack x (pre ++ bs) (List.length pre) = Err UnpackException).
Proof.
  intros W. unfold tlv_unpack. cbv zeta.
  assert (E0 : slice (List.length pre) (List.length pre + 2) (pre ++ bs) = firstn 2 bs).
  { pose proof (slice_pre pre bs 0 2) as H. rewrite Nat.add_0_r in H. exact H. }
  rewrite E0. clear E0.
  destruct bs as [|a [|b rest]].
  - right. split; [intros y k H; inversion H|]. cbn. reflexivity.
  - right. split; [intros y k H; inversion H|]. cbn. reflexivity.
  - pose proof (Forall_inv W) as A. pose proof (Forall_inv (Forall_inv_tail W)) as B. cbn beta in A, B.
    assert (U : struct_unpack_u 2 (firstn 2 (a :: b :: rest)) 0 = Ok (256 * a + b)).
    { unfold struct_unpack_u, slice. cbn [firstn Nat.add skipn List.length Nat.eqb]. rewrite byte_pair by (unfold is_byte in *; lia). reflexivity. }
    rewrite U. cbn [recast bind]. set (h := 256 * a + b).
    assert (Hn : 256 * a + b = 512 * Z.shiftr h 9 + Z.of_nat (Z.to_nat (Z.land h 511)) /\ (Z.to_nat (Z.land h 511) < 512)%nat).
    { rewrite Z.shiftr_div_pow2 by lia. change 511 with (Z.ones 9). rewrite Z.land_ones by lia.
      pose proof (Z.mod_pos_bound h (2 ^ 9) ltac:(lia)). pose proof (Z.div_mod h (2 ^ 9) ltac:(lia)). fold h. lia. }
    destruct Hn as [E L]. set (t := Z.shiftr h 9) in *. set (n := Z.to_nat (Z.land h 511)) in *.
    destruct x as [tx v|tx st sv]; cbn [is_sub].
    + left. do 2 eexists. split; [exact (reads_plain a b rest t n _ E L eq_refl)|]. 
      replace (slice (List.length pre + 2) (List.length pre + 2 + n) (pre ++ a :: b :: rest)) with (firstn n rest)
        by (rewrite <- Nat.add_assoc, slice_pre; reflexivity).
      split; [reflexivity|]. split; [|cbn [List.length]; rewrite firstn_length; lia].
      unfold tlv_size, tlv_value, call_pack. cbn [has_pack is_generic_type orb]. change (pack (VBin (VBytes (firstn n rest)))) with (@Ok bytes (firstn n rest)). cbn [bind]. unfold zlen. f_equal. lia.
    + replace (slice (List.length pre + 2) (List.length pre + 2 + 1) (pre ++ a :: b :: rest)) with (firstn 1 rest)
        by (rewrite <- Nat.add_assoc, slice_pre; reflexivity).
      destruct rest as [|s rest].
      { right. split; [intros y k H; inversion H|]. reflexivity. }
      pose proof (Forall_inv (Forall_inv_tail (Forall_inv_tail W))) as Bs. cbn beta in Bs.
      left. do 2 eexists. split; [exact (reads_sub a b s rest t n _ E L eq_refl)|].
      replace (slice (List.length pre + 2 + 1) (List.length pre + 2 + n) (pre ++ a :: b :: s :: rest)) with (firstn (n - 1) rest).
      2:{ rewrite <- !Nat.add_assoc, slice_pre. unfold slice. destruct n as [|n]; cbn; [|rewrite Nat.sub_0_r]; reflexivity. }
      replace (struct_unpack_u 1 (firstn 1 (s :: rest)) 0) with (@Ok Z s) by (unfold struct_unpack_u, slice; cbn [firstn Nat.add skipn List.length Nat.eqb]; f_equal; unfold be_decode; cbn [be_decode_acc]; lia).
      split; [reflexivity|]. split; [|cbn [List.length]; rewrite firstn_length; lia].
      unfold tlv_size, tlv_value, call_pack. cbn [has_pack is_generic_type orb]. change (pack (VBin (VBytes (firstn (n - 1) rest)))) with (@Ok bytes (firstn (n - 1) rest)).
      assert (P : uint_struct 1 (VInt s) = Ok [s]).
      { unfold uint_struct, as_int, struct_pack_u. change (ulimit 1) with 256. unfold is_byte in Bs. replace ((0 <=? s) && (s <? 256)) with true by lia. cbn [recast]. f_equal. cbn [be_encode]. change (256 ^ Z.of_nat 0) with 1. rewrite Z.div_1_r, Z.mod_small by lia. reflexivity. }
      rewrite P. cbn [bind]. unfold zlen. rewrite app_length. cbn [List.length]. f_equal. lia.
Qed.
Lemma attr_any cv pre bs k : wf_bytes bs -> pre ++ bs <> [] -> (k <= List.length bs)%nat ->
  (exists y l, reads (is_sub cv) (skipn k bs) y l /\ lldp_attr cv (pre ++ bs) (List.length pre + k) = Ok (y, (List.length pre + (k + l))%nat) /\ (k + l <= List.length bs)%nat) \/
  ((forall y l, ~ reads (is_sub cv) (skipn k bs) y l) /\ lldp_attr cv (pre ++ bs) (List.length pre + k) = Err UnpackException).
Proof.
  intros W N K. assert (Q : pre ++ bs = (pre ++ firstn k bs) ++ skipn k bs) by (rewrite <- app_assoc, firstn_skipn; reflexivity).
  assert (L : (List.length pre + k)%nat = List.length (pre ++ firstn k bs)) by (rewrite app_length, firstn_length; lia).
  assert (Wk : wf_bytes (skipn k bs)).
  { unfold wf_bytes in *. rewrite <- (firstn_skipn k bs) in W. apply Forall_app in W. apply W. }
  assert (A : lldp_attr cv (pre ++ bs) (List.length pre + k) =
    do x <- tlv_unpack cv (pre ++ bs) (List.length pre + k); do s <- tlv_size x; Ok (x, (List.length pre + k + Z.to_nat s)%nat)).
  { unfold lldp_attr. destruct (pre ++ bs); [destruct (N eq_refl)|reflexivity]. }
  rewrite A. rewrite Q, L. destruct (tlv_any cv (pre ++ firstn k bs) (skipn k bs) Wk) as [(y & l & R & U & Sz & Lk)|[R U]]; rewrite U; cbn [bind].
  - left. exists y, l. split; [exact R|]. rewrite Sz. cbn [bind]. rewrite Nat2Z.id. rewrite skipn_length in Lk. rewrite <- L. split; [|lia]. do 2 f_equal. lia.
  - right. split; [exact R|reflexivity].
Qed.
Lemma lldp_any pre bs : wf_bytes bs -> pre ++ bs <> [] ->
  (exists p, reads_lldp bs p /\ lldp_unpack (pre ++ bs) (List.length pre) = Ok p) \/
  ((forall p, ~ reads_lldp bs p) /\ lldp_unpack (pre ++ bs) (List.length pre) = Err UnpackException).
Proof.
  intros W N. unfold lldp_unpack.
  destruct (attr_any (l_chassis lldp_default) pre bs 0 W N ltac:(lia)) as [(x & i & R1 & U1 & K1)|[R1 U1]]; rewrite Nat.add_0_r in U1; rewrite U1; cbn [bind fst snd].
  2:{ right. split; [|reflexivity]. intros p H. inversion H; subst. eapply R1. eassumption. }
  destruct (attr_any (l_port lldp_default) pre bs (0 + i) W N K1) as [(y & j & R2 & U2 & K2)|[R2 U2]]; rewrite U2; cbn [bind fst snd].
  2:{ right. split; [|reflexivity]. intros p H. inversion H as [x' i' y' j' z' k' w' l' H1 H2 H3 H4]; subst. destruct (reads_fun _ _ _ _ _ _ R1 H1) as [-> ->]. eapply R2. eassumption. }
  destruct (attr_any (l_ttl lldp_default) pre bs (0 + i + j) W N K2) as [(z & k & R3 & U3 & K3)|[R3 U3]]; rewrite U3; cbn [bind fst snd].
  2:{ right. split; [|reflexivity]. intros p H. inversion H as [x' i' y' j' z' k' w' l' H1 H2 H3 H4]; subst. destruct (reads_fun _ _ _ _ _ _ R1 H1) as [-> ->]. destruct (reads_fun _ _ _ _ _ _ R2 H2) as [-> ->]. eapply R3. eassumption. }
  destruct (attr_any (l_end lldp_default) pre bs (0 + i + j + k) W N K3) as [(w & l & R4 & U4 & K4)|[R4 U4]]; rewrite U4; cbn [bind fst snd].
  2:{ right. split; [|reflexivity]. intros p H. inversion H as [x' i' y' j' z' k' w' l' H1 H2 H3 H4]; subst. destruct (reads_fun _ _ _ _ _ _ R1 H1) as [-> ->]. destruct (reads_fun _ _ _ _ _ _ R2 H2) as [-> ->]. destruct (reads_fun _ _ _ _ _ _ R3 H3) as [-> ->]. eapply R4. eassumption. }
  left. eexists. split; [|reflexivity]. econstructor; eassumption.
Qed.
