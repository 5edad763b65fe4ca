(** Packets without padding bits come back unchanged: lemmas for C43. *)
From Coq Require Import ZArith List Bool String Lia.
From Verif Require Import Base PyText Ids PyVal Classes Interp Utils Spec SpecMsg SpecBasic SpecLayout SpecDecode SpecReencode ClassFacts BaseFacts IntFacts DispatchFacts DecodeFacts2
  ReencodeFacts ReencodeFacts2 ReencodeFacts3 ReencodeFacts4.
Import ListNotations.
Open Scope string_scope.
Open Scope list_scope.
Open Scope Z_scope.

Lemma prefix_eq {A} (b1 b2 r1 r2 : list A) : b1 ++ r1 = b2 ++ r2 -> List.length b1 = List.length b2 -> b1 = b2 /\ r1 = r2.
Proof.
  revert b2. induction b1 as [|x b1 IH]; intros [|y b2] H L; try discriminate L; [auto|]. injection H as <- H. destruct (IH b2 H) as [-> ->]; [cbn in L; lia|auto].
Qed.
Lemma cleared_once :
  (forall d b1 b1', cleared d b1 b1' -> forall b2 b2' r1 r2, cleared d b2 b2' -> b1 ++ r1 = b2 ++ r2 -> b1 = b2 /\ b1' = b2') /\
  (forall A b1 b1', cleared_all A b1 b1' -> forall b2 b2' r1 r2, cleared_all A b2 b2' -> b1 ++ r1 = b2 ++ r2 -> b1 = b2 /\ b1' = b2').
Proof.
  apply (cleared_both (fun d b1 b1' _ => forall b2 b2' r1 r2, cleared d b2 b2' -> b1 ++ r1 = b2 ++ r2 -> b1 = b2 /\ b1' = b2')
                      (fun A b1 b1' _ => forall b2 b2' r1 r2, cleared_all A b2 b2' -> b1 ++ r1 = b2 ++ r2 -> b1 = b2 /\ b1' = b2')).
  - intros d bs K b2 b2' r1 r2 H E. inversion H; subst; try discriminate K. destruct (prefix_eq _ _ _ _ E) as [-> _]; [congruence|auto].
  - intros k bs L b2 b2' r1 r2 H E. inversion H; subst; try discriminate. destruct (prefix_eq _ _ _ _ E) as [-> _]; [congruence|auto].
  - intros c a bs bs' _ IH b2 b2' r1 r2 H E. inversion H; subst; try discriminate. eapply IH; eassumption.
  - intros b2 b2' r1 r2 H E. inversion H; subst. auto.
  - intros n d fs b1 b1' b2 b2' _ IH1 _ IH2 b3 b3' r1 r2 H E. inversion H as [|? ? ? c1 c1' c2 c2' H1 H2]; subst. rewrite <- !app_assoc in E.
    destruct (IH1 _ _ _ _ H1 E) as [-> ->]. apply app_inv_head in E. destruct (IH2 _ _ _ _ H2 E) as [-> ->]. auto.
Qed.
Lemma all_once A b b1 b2 : cleared_all A b b1 -> cleared_all A b b2 -> b1 = b2.
Proof. intros H1 H2. exact (proj2 (proj2 cleared_once _ _ _ H1 _ _ [] [] H2 eq_refl)). Qed.
Lemma records_once c b b1 : cleared_records c b b1 -> forall b2, cleared_records c b b2 -> b1 = b2.
Proof.
  induction 1 as [|x x' y y' C R IH]; intros b2 H.
  - apply records_keep in H as [L _]. destruct b2; [reflexivity|discriminate L].
  - inversion H as [E|z z' w w' C2 R2 E]; subst.
    + assert (x = [] /\ y = []) as [-> ->] by (destruct x, y; try discriminate; auto). apply (proj2 cleared_keep) in C as [L1 _]. apply records_keep in R as [L2 _].
      destruct x', y'; try discriminate; reflexivity.
    + destruct (proj2 cleared_once _ _ _ C _ _ _ _ C2 (eq_sym E)) as [-> ->]. apply app_inv_head in E. subst w. rewrite (IH _ R2). reflexivity.
Qed.
Lemma not_data A n d b b' : ~ cleared_all (A ++ [(n, VBin d)]) b b'.
Proof.
  revert b b'. induction A as [|[m e] A IH]; intros b b' H; cbn [app] in H; inversion H; subst; [|eapply IH; eassumption].
  match goal with X : cleared (VBin _) _ _ |- _ => inversion X; discriminate end.
Qed.
Lemma not_records A n lc pc i b b' : ~ cleared_all (A ++ [(n, VList lc pc i)]) b b'.
Proof.
  revert b b'. induction A as [|[m e] A IH]; intros b b' H; cbn [app] in H; inversion H; subst; [|eapply IH; eassumption].
  match goal with X : cleared (VList _ _ _) _ _ |- _ => inversion X; discriminate end.
Qed.
Lemma body_once A b b1 b2 : cleared_body A b b1 -> cleared_body A b b2 -> b1 = b2.
Proof.
  intros H1 H2. destruct H1 as [A bs bs' C|A n d bs bs' r C|A n lc pc i bs bs' r r' C R].
  - inversion H2 as [A1 c1 c1' C1|A1 n1 d1 c1 c1' r1 C1|A1 n1 lc1 pc1 i1 c1 c1' r1 r1' C1 R1]; subst; [eapply all_once; eassumption| |]; exfalso.
    + eapply not_data; exact C.
    + eapply not_records; exact C.
  - inversion H2 as [A1 c1 c1' C1|A1 n1 d1 c1 c1' r1 C1 EA EB|A1 n1 lc1 pc1 i1 c1 c1' r1 r1' C1 R1 EA]; subst.
    + exfalso. eapply not_data; exact C1.
    + apply app_inj_tail in EA as [-> [= -> ->]]. destruct (proj2 cleared_once _ _ _ C _ _ _ _ C1 (eq_sym EB)) as [-> ->]. apply app_inv_head in EB. subst. reflexivity.
    + apply app_inj_tail in EA as [_ X]. discriminate X.
  - inversion H2 as [A1 c1 c1' C1|A1 n1 d1 c1 c1' r1 C1 EA EB|A1 n1 lc1 pc1 i1 c1 c1' r1 r1' C1 R1 EA EB]; subst.
    + exfalso. eapply not_records; exact C1.
    + apply app_inj_tail in EA as [_ X]. discriminate X.
    + apply app_inj_tail in EA as [-> [= -> -> -> ->]]. destruct (proj2 cleared_once _ _ _ C _ _ _ _ C1 (eq_sym EB)) as [-> ->]. apply app_inv_head in EB. subst.
      f_equal. eapply records_once; eassumption.
Qed.
Lemma form_once form b b2 : cleared_form form b b2 -> cleared_form form b b -> b2 = b.
Proof.
  intros H1 H2. destruct H1 as [c b b' R|c b b' r C|b]; [inversion H2; subst; eapply records_once; eassumption| |reflexivity].
  inversion H2 as [|c1 b1 b1' r1 C1 Ec E1 E2|]; subst. pose proof (proj2 cleared_keep _ _ _ C1) as [L _]. rewrite !app_length in L.
  assert (Lr : List.length (b ++ r) = List.length (b1 ++ r1)) by (rewrite E1; reflexivity). rewrite !app_length in Lr.
  destruct (proj2 cleared_once _ _ _ C _ _ _ _ C1 (eq_sym E1)) as [-> ->]. reflexivity.
Qed.

Lemma header_back p p' : wf_bytes p -> well_framed p -> same_header p p' -> skipn 8 p' = skipn 8 p -> p' = p.
Proof.
  intros Wf ((L8 & _) & Lf & _) (H2 & Hl & H4) S8. unfold zlen in *.
  assert (L : (8 <= List.length p')%nat).
  { assert (X : List.length (slice 4 8 p') = 4%nat) by (rewrite H4, slice_length; lia). rewrite slice_length in X. lia. }
  assert (Lp : List.length p' = List.length p).
  { apply (f_equal (@List.length Z)) in S8. rewrite !skipn_length in S8. lia. }
  assert (H3 : slice 2 4 p' = slice 2 4 p).
  { rewrite Lp, <- Lf in Hl. apply big_encode in Hl as [<- _]. rewrite place_value_decode. pose proof (be_encode_decode (slice 2 4 p)) as X. rewrite slice_length in X.
    replace (Nat.min 4 (List.length p) - 2)%nat with 2%nat in X by lia. apply X. apply DecodeFacts.slice_wf, Wf. }
  destruct p as [|a0 [|a1 [|a2 [|a3 [|a4 [|a5 [|a6 [|a7 q]]]]]]]]; cbn [List.length] in L8; try lia.
  destruct p' as [|c0 [|c1 [|c2 [|c3 [|c4 [|c5 [|c6 [|c7 q']]]]]]]]; cbn [List.length] in L; try lia.
  cbn in H2, H3, H4, S8. injection H2 as -> ->. injection H3 as -> ->. injection H4 as -> -> -> ->. subst q'. reflexivity.
Qed.
Lemma accepted_framed p m : wf_bytes p -> unpack_packet p = Ok m -> well_framed p.
Proof.
  intros Wf U. assert (V : validate_any (VBytes p) = Ok tt).
  { unfold unpack_packet in U. apply bind_ok in U as (u & V & _). destruct u. exact V. }
  apply validate_exact in V as (b & [= <-] & Wr); [exact Wr|]. intros b [= <-]. exact Wf.
Qed.
Lemma recoded_same p m c p' : wf_bytes p -> unpack_packet p = Ok m -> recoded c p (skipn 8 p) p' -> cleared_body (tl (class_attrs c)) (skipn 8 p) (skipn 8 p) -> p' = p.
Proof.
  intros Wf U (Sh & Cb) Cs. apply header_back; [exact Wf|eapply accepted_framed; eassumption|exact Sh|]. eapply body_once; eassumption.
Qed.
Lemma split_skip {A} k (p : list A) : (8 <= k)%nat -> skipn 8 p = slice 8 k p ++ skipn k p.
Proof. intros L. replace k with (8 + (k - 8))%nat by lia. rewrite slice_body. rewrite <- skip_skip. symmetry. apply firstn_skipn. Qed.
Lemma recoded_stats_same p m f form p' : wf_bytes p -> unpack_packet p = Ok m -> recoded_stats (stats_class f) (stats_at f) form p p' ->
  cleared_all (removelast (tl (class_attrs (stats_class f)))) (slice 8 (stats_at f) p) (slice 8 (stats_at f) p) -> cleared_form form (skipn (stats_at f) p) (skipn (stats_at f) p) -> p' = p.
Proof.
  intros Wf U (Sh & C1 & C2) D1 D2. apply header_back; [exact Wf|eapply accepted_framed; eassumption|exact Sh|].
  assert (L : (8 <= stats_at f)%nat) by (destruct f; cbn; lia).
  rewrite !(split_skip (stats_at f)) by exact L. f_equal; [eapply all_once; eassumption|eapply form_once; eassumption].
Qed.
