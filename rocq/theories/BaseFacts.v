(** Lemmas about [Base]. *)
From Coq Require Import ZArith List Bool Lia ZifyBool.
From Verif Require Import Base.
Import ListNotations.
Open Scope Z_scope.

Lemma ulimit_S w : ulimit (S w) = 256 * ulimit w.
Proof.
  unfold ulimit. rewrite Nat2Z.inj_succ, Z.pow_succ_r by lia. reflexivity.
Qed.

Lemma ulimit_pos w : 0 < ulimit w.
Proof. unfold ulimit. apply Z.pow_pos_nonneg; lia. Qed.

Lemma be_encode_length w z : length (be_encode w z) = w.
Proof. induction w; cbn; congruence. Qed.

Lemma be_encode_wf w z : wf_bytes (be_encode w z).
Proof.
  induction w; cbn [be_encode]; constructor; auto.
  unfold is_byte. apply Z.mod_pos_bound. lia.
Qed.

Lemma be_decode_acc_shift acc bs :
  be_decode_acc acc bs = acc * ulimit (length bs) + be_decode bs.
Proof.
  unfold be_decode. revert acc. induction bs as [|b bs IH]; intros acc.
  - cbn. unfold ulimit. cbn. lia.
  - cbn [be_decode_acc length]. rewrite IH, (IH (0 * 256 + b)), ulimit_S. lia.
Qed.

Lemma be_decode_cons b bs : be_decode (b :: bs) = b * ulimit (length bs) + be_decode bs.
Proof. unfold be_decode. cbn [be_decode_acc]. rewrite be_decode_acc_shift. unfold be_decode. lia. Qed.

Lemma be_decode_app a b : be_decode (a ++ b) = be_decode a * ulimit (length b) + be_decode b.
Proof.
  induction a as [|x a IH].
  - cbn [app]. unfold be_decode at 2. cbn. lia.
  - cbn [app]. rewrite !be_decode_cons, IH, app_length.
    replace (ulimit (length a + length b)) with (ulimit (length a) * ulimit (length b)).
    + ring.
    + unfold ulimit. rewrite Nat2Z.inj_add, Z.pow_add_r by lia. reflexivity.
Qed.

Lemma be_decode_bound bs : wf_bytes bs -> 0 <= be_decode bs < ulimit (length bs).
Proof.
  induction 1 as [|b bs Hb _ IH].
  - cbn. unfold ulimit. cbn. lia.
  - rewrite be_decode_cons. cbn [length]. rewrite ulimit_S. unfold is_byte in Hb.
    pose proof (ulimit_pos (length bs)). nia.
Qed.

Lemma be_encode_mod w z : be_encode w (z mod ulimit w) = be_encode w z.
Proof.
  assert (G : forall v, (v <= w)%nat -> be_encode v (z mod ulimit w) = be_encode v z).
  { induction v as [|v IHv]; intros Hv; cbn [be_encode]; auto.
    rewrite IHv by lia. f_equal.
    unfold ulimit.
    replace (Z.of_nat w) with (Z.of_nat (w - S v) + Z.of_nat (S v)) by lia.
    rewrite Z.pow_add_r by lia. rewrite Nat2Z.inj_succ, Z.pow_succ_r by lia.
    set (P := 256 ^ Z.of_nat v). set (Q := 256 ^ Z.of_nat (w - S v)).
    assert (0 < P) by (apply Z.pow_pos_nonneg; lia).
    assert (0 < Q) by (apply Z.pow_pos_nonneg; lia).
    replace (Q * (256 * P)) with (P * (256 * Q)) by ring.
    rewrite Z.rem_mul_r by lia.
    replace (z mod P + P * ((z / P) mod (256 * Q)))
      with (((z / P) mod (256 * Q)) * P + z mod P) by ring.
    rewrite Z.div_add_l by lia.
    rewrite (Z.div_small (z mod P)) by (apply Z.mod_pos_bound; lia).
    rewrite Z.add_0_r.
    rewrite Z.rem_mul_r by lia.
    rewrite (Z.mul_comm 256 (_ mod Q)).
    rewrite Z.mod_add by lia. apply Z.mod_mod. lia. }
  apply G. lia.
Qed.

Lemma be_decode_encode_mod w z : be_decode (be_encode w z) = z mod ulimit w.
Proof.
  induction w as [|w IH].
  - cbn. unfold ulimit. cbn. rewrite Z.mod_1_r. reflexivity.
  - cbn [be_encode]. rewrite be_decode_cons, be_encode_length, IH, ulimit_S.
    unfold ulimit. set (P := 256 ^ Z.of_nat w).
    assert (0 < P) by (apply Z.pow_pos_nonneg; lia).
    replace (256 * P) with (P * 256) by ring.
    rewrite (Z.rem_mul_r z P 256) by lia. ring.
Qed.

Lemma be_decode_encode w z : 0 <= z < ulimit w -> be_decode (be_encode w z) = z.
Proof. intros. rewrite be_decode_encode_mod. apply Z.mod_small. lia. Qed.

Lemma be_encode_decode bs : wf_bytes bs -> be_encode (length bs) (be_decode bs) = bs.
Proof.
  induction 1 as [|b bs Hb Hbs IH]; auto.
  cbn [length be_encode]. rewrite be_decode_cons.
  pose proof (be_decode_bound _ Hbs) as B. pose proof (ulimit_pos (length bs)) as P.
  unfold is_byte in Hb. f_equal.
  - unfold ulimit in *. rewrite Z.div_add_l by lia.
    rewrite (Z.div_small (be_decode bs)) by lia. rewrite Z.add_0_r. apply Z.mod_small. lia.
  - rewrite <- (be_encode_mod _ (_ + _)).
    rewrite (Z.add_comm (b * _)), Z.mod_add by lia.
    rewrite be_encode_mod. exact IH.
Qed.

Lemma be_encode_inj w a b :
  0 <= a < ulimit w -> 0 <= b < ulimit w -> be_encode w a = be_encode w b -> a = b.
Proof.
  intros Ha Hb H. rewrite <- (be_decode_encode w a Ha), H. apply be_decode_encode. exact Hb.
Qed.

(** ** Slices *)

Lemma zlen_app {A} (a b : list A) : zlen (a ++ b) = zlen a + zlen b.
Proof. unfold zlen. rewrite app_length. lia. Qed.
Lemma zlen_nil {A} : zlen (@nil A) = 0.
Proof. reflexivity. Qed.
Lemma zlen_cons {A} (x : A) l : zlen (x :: l) = 1 + zlen l.
Proof. unfold zlen. cbn [length]. lia. Qed.
Lemma zlen_nonneg {A} (l : list A) : 0 <= zlen l.
Proof. unfold zlen. lia. Qed.
Lemma zlen_repeat {A} (x : A) n : zlen (repeat x n) = Z.of_nat n.
Proof. unfold zlen. rewrite repeat_length. reflexivity. Qed.
Lemma zlen_be w z : zlen (be_encode w z) = Z.of_nat w.
Proof. unfold zlen. rewrite be_encode_length. reflexivity. Qed.
Lemma zlen_to_nat {A} (l : list A) : Z.to_nat (zlen l) = length l.
Proof. unfold zlen. lia. Qed.

Lemma firstn_length_app {A} (a b : list A) : firstn (length a) (a ++ b) = a.
Proof. rewrite firstn_app, firstn_all, Nat.sub_diag. cbn. apply app_nil_r. Qed.
Lemma skipn_length_app {A} (a b : list A) : skipn (length a) (a ++ b) = b.
Proof. rewrite skipn_app, skipn_all, Nat.sub_diag. reflexivity. Qed.

Lemma firstn_app_exact {A} (n : nat) (a b : list A) : n = length a -> firstn n (a ++ b) = a.
Proof. intros ->. apply firstn_length_app. Qed.
Lemma skipn_app_exact {A} (n : nat) (a b : list A) : n = length a -> skipn n (a ++ b) = b.
Proof. intros ->. apply skipn_length_app. Qed.

Lemma slice_mid {A} (pre mid suf : list A) b e :
  b = length pre -> e = (length pre + length mid)%nat ->
  slice b e (pre ++ mid ++ suf) = mid.
Proof.
  intros -> ->. unfold slice. rewrite app_assoc.
  rewrite firstn_app_exact by (rewrite app_length; lia).
  apply skipn_length_app.
Qed.

Lemma slice_length {A} b e (l : list A) :
  length (slice b e l) = (Nat.min e (length l) - b)%nat.
Proof. unfold slice. rewrite skipn_length, firstn_length. reflexivity. Qed.

Lemma slice_app_l {A} b e (l r : list A) :
  (e <= length l)%nat -> slice b e (l ++ r) = slice b e l.
Proof.
  intros. unfold slice. rewrite firstn_app.
  replace (e - length l)%nat with 0%nat by lia. cbn. rewrite app_nil_r. reflexivity.
Qed.

Lemma slice_shift {A} (pre l : list A) b e :
  slice (length pre + b) (length pre + e) (pre ++ l) = slice b e l.
Proof.
  unfold slice. rewrite firstn_app.
  replace (length pre + e - length pre)%nat with e by lia.
  rewrite firstn_all2 by lia.
  rewrite skipn_app. rewrite skipn_all2 by lia. cbn.
  f_equal. lia.
Qed.

Lemma wf_bytes_app a b : wf_bytes (a ++ b) <-> wf_bytes a /\ wf_bytes b.
Proof. apply Forall_app. Qed.
Lemma wf_bytes_skipn n b : wf_bytes b -> wf_bytes (skipn n b).
Proof.
  intros H. rewrite <- (firstn_skipn n b) in H. apply wf_bytes_app in H. tauto.
Qed.
Lemma wf_bytes_firstn n b : wf_bytes b -> wf_bytes (firstn n b).
Proof.
  intros H. rewrite <- (firstn_skipn n b) in H. apply wf_bytes_app in H. tauto.
Qed.
Lemma wf_bytes_slice b e l : wf_bytes l -> wf_bytes (slice b e l).
Proof. intros. apply wf_bytes_skipn, wf_bytes_firstn, H. Qed.
Lemma wf_zeros n : wf_bytes (repeat 0 n).
Proof. induction n; constructor; auto. unfold is_byte. lia. Qed.

(** ** struct *)

Lemma struct_pack_u_ok w z : 0 <= z < ulimit w -> struct_pack_u w z = Ok (be_encode w z).
Proof.
  intros H. unfold struct_pack_u.
  replace ((0 <=? z) && (z <? ulimit w)) with true by lia. reflexivity.
Qed.

Lemma struct_pack_u_inv w z bs :
  struct_pack_u w z = Ok bs -> 0 <= z < ulimit w /\ bs = be_encode w z.
Proof.
  unfold struct_pack_u.
  destruct ((0 <=? z) && (z <? ulimit w)) eqn:E; intros H; inversion H; subst. split; [lia|reflexivity].
Qed.

Lemma struct_unpack_u_mid w pre bs suf :
  length bs = w -> struct_unpack_u w (pre ++ bs ++ suf) (length pre) = Ok (be_decode bs).
Proof.
  intros H. unfold struct_unpack_u.
  rewrite slice_mid with (mid := bs) by lia. rewrite H, Nat.eqb_refl. reflexivity.
Qed.

Lemma struct_pack_us_ok w l :
  Forall (fun z => 0 <= z < ulimit w) l -> struct_pack_us w l = Ok (flat_map (be_encode w) l).
Proof.
  induction 1 as [|z l Hz _ IH]; auto.
  cbn [struct_pack_us flat_map]. rewrite struct_pack_u_ok by exact Hz. cbn [bind].
  rewrite IH. reflexivity.
Qed.

Lemma be1 b : is_byte b -> be_encode 1 b = [b].
Proof.
  unfold is_byte. intros. cbn. rewrite Z.div_1_r, Z.mod_small by lia. reflexivity.
Qed.

Lemma flat_be1 bs : wf_bytes bs -> flat_map (be_encode 1) bs = bs.
Proof.
  induction 1 as [|b bs Hb _ IH]; auto. cbn [flat_map]. rewrite be1, IH by exact Hb. reflexivity.
Qed.

Lemma struct_pack_seq1_ok n bs :
  wf_bytes bs -> length bs = n -> struct_pack_seq 1 n bs = Ok bs.
Proof.
  intros H L. unfold struct_pack_seq. rewrite L, Nat.eqb_refl.
  rewrite struct_pack_us_ok.
  - rewrite flat_be1 by exact H. reflexivity.
  - exact H.
Qed.

Lemma be_groups1 bs : wf_bytes bs -> be_groups 1 (length bs) bs = bs.
Proof.
  induction 1 as [|b bs Hb _ IH]; auto.
  cbn [length be_groups firstn skipn]. rewrite IH. f_equal.
Qed.

Lemma struct_unpack_seq1_ok bs :
  wf_bytes bs -> struct_unpack_seq 1 (length bs) bs = Ok bs.
Proof.
  intros H. unfold struct_unpack_seq. rewrite Nat.mul_1_l, Nat.eqb_refl.
  rewrite be_groups1 by exact H. reflexivity.
Qed.

Lemma bind_ok {A B} (r : res A) (f : A -> res B) b :
  bind r f = Ok b -> exists a, r = Ok a /\ f a = Ok b.
Proof. destruct r; cbn; intros; [eauto|discriminate]. Qed.
