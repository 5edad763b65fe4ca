(** Well-formed bytes come back from the decoder and encoder: matches, buckets
    and the combined theorem for C57. *)
From Coq Require Import ZArith List Bool String Lia.
From Verif Require Import Base PyText Ids PyVal Classes Interp Utils Spec SpecMsg SpecBasic SpecLayout SpecDecode SpecStruct SpecReencode SpecTidy ClassFacts BaseFacts TextFacts IntFacts LeafFacts
  AddrFacts StructFacts Soundness Closure StructThm RaisesFacts DispatchFacts NetFacts2 FuelFacts MutationFacts LayoutFacts WindowFacts LengthFacts DecodeFacts DecodeFacts2 ReencodeFacts ReencodeFacts2 TidyFacts TidyFacts2.
Import ListNotations.
Open Scope string_scope.
Open Scope list_scope.
Open Scope Z_scope.

(** ** OpenFlow 1.3 matches *)
Lemma uint_slice w er b o b2 o2 : slice o (o + w) b = slice o2 (o2 + w) b2 -> uint_unpack w er b o = uint_unpack w er b2 o2.
Proof. intros H. unfold uint_unpack, struct_unpack_u. rewrite H. reflexivity. Qed.
Lemma front_slice p w (pre body x y : bytes) : (p + w <= List.length body)%nat ->
  slice (List.length pre + p) (List.length pre + p + w) (pre ++ body ++ x) = slice (List.length pre + p) (List.length pre + p + w) (pre ++ body ++ y).
Proof.
  intros L. assert (G : forall z, pre ++ body ++ z = (pre ++ firstn p body) ++ firstn w (skipn p body) ++ (skipn (p + w) body ++ z)).
  { intros z. rewrite <- app_assoc. f_equal. rewrite <- (firstn_skipn p body) at 1. rewrite <- app_assoc. f_equal. rewrite <- (firstn_skipn w (skipn p body)) at 1. rewrite <- app_assoc, skip_skip. reflexivity. }
  rewrite !G. rewrite !slice_mid; try reflexivity; rewrite ?app_length, !firstn_length, ?skipn_length; lia.
Qed.
Lemma O_match k body body' pad : tidy_fields k (class_attrs Match04) body body' -> T_fields k (class_attrs Match04) body body' -> same_len body body' ->
  u16_at 2 body (zlen body) -> zlen (body ++ pad) mod 8 = 0 -> (List.length pad < 8)%nat -> T_obj SD Match04 (body ++ pad) (body' ++ repeat 0 (List.length pad)).
Proof.
  intros Td T [Ln _] Hu M8 Lp m a pre suf v _ NE Wf Ka U Nul. destruct m as [|m]; [discriminate|]. rewrite <- app_assoc in Wf, U, NE.
  rewrite unpack0_obj in U. unfold unpack_obj in U. change (kind Match04) with KMatch04 in U. unfold match04_unpack in U.
  pose proof (u16_nonempty _ _ _ Hu) as H2. assert (H4 : (4 <= List.length body)%nat) by (destruct Hu as (x & y & -> & L & _); rewrite !app_length, be_encode_length; lia).
  assert (NE' : pre ++ body ++ [] <> []) by (apply nonempty_app; lia).
  assert (Wf' : wf_bytes (pre ++ body ++ [])) by (rewrite app_nil_r; rewrite app_assoc in Wf; apply Forall_app in Wf as [Wf _]; exact Wf).
  assert (U' : (do x <- unpack_fields (unpack0 m) (size0 m) (class_attrs Match04) a (pre ++ body ++ []) (List.length pre); Ok (VObj Match04 (fst x))) = Ok v).
  { change (class_attrs Match04) with attrs_Match04 in *. unfold attrs_Match04 in *.
    change (removelast _) with [("match_type", VUInt 2 (Some E_MatchType04) VNone); ("length", VUInt 2 None VNone)] in U.
    apply bind_ok in U as (r & R & U). rewrite unpack_fields_cons in R by exact NE. apply bind_ok in R as (x1 & X1 & R). apply bind_ok in R as (s1 & S1 & R).
    rewrite unpack_fields_cons in R by exact NE. apply bind_ok in R as (x2 & X2 & R). apply bind_ok in R as (s2 & S2 & R). cbn [unpack_fields] in R. injection R as <-.
    destruct m as [|m]; [discriminate|]. cbn [deepcopy unpack0] in X1, X2.
    pose proof X1 as I1. apply uint_unpack_inv in I1 as [E1 _]. rewrite E1 in S1. cbn [size0] in S1. injection S1 as <-.
    change (Z.to_nat 2) with 2%nat in *. rewrite (uint_unpack_u16 None _ _ _ pre (pad ++ suf) Hu I) in X2. injection X2 as <-. cbn [size0] in S2. injection S2 as <-.
    change (Z.to_nat 2) with 2%nat in *. cbn [fst snd] in U. unfold attr_num, attr_or_error in U. rewrite get_set_same in U. cbn [bind] in U.
    change (num_of (VUInt 2 None (VInt (zlen body)))) with (@Ok Z (zlen body)) in U. cbn [bind] in U. rewrite firstn_mid in U.
    rewrite unpack_fields_cons by exact NE'. cbn [deepcopy unpack0].
    rewrite (uint_slice _ _ _ _ (pre ++ body ++ pad ++ suf) (List.length pre)) by (pose proof (front_slice 0 2 pre body [] (pad ++ suf) ltac:(lia)) as Q; rewrite !Nat.add_0_r in Q; exact Q).
    rewrite X1. cbn [bind]. rewrite E1 at 1. cbn [size0 bind]. change (Z.to_nat (Z.of_nat 2)) with 2%nat.
    rewrite unpack_fields_cons by exact NE'. cbn [deepcopy unpack0]. rewrite (uint_unpack_u16 None _ _ _ pre [] Hu I). cbn [bind size0]. change (Z.to_nat (Z.of_nat 2)) with 2%nat. exact U. }
  rewrite kind_not_oxm in Ka by discriminate. rewrite (prefix_self (map fst a)) in Ka. symmetry in Ka.
  destruct (S_struct k Match04 body body' m a [] pre [] v T Ka (fun _ => eq_refl) NE' Wf' U' Nul) as (N & vals & -> & L & E).
  pose proof (front_kept _ _ _ _ 4 Td ltac:(reflexivity)) as F4.
  assert (Hu' : u16_at 2 body' (zlen body')) by (rewrite (zlen_len body' body) by congruence; eapply u16_front; [exact Hu|exact F4]).
  exists (S N). eapply o_match04; [apply complete_mk, L|apply (enc_own_length _ _ Match04 _ _ 2 _ eq_refl L E Hu')| |exact Lp].
  replace (zlen (body' ++ repeat 0 (List.length pad))) with (zlen (body ++ pad)) by (unfold zlen; rewrite !app_length, repeat_length; lia). exact M8.
Qed.

(** ** Buckets *)
Lemma enc_fields_last N sz nm d v b2 o A : enc N TAIL sz d v b2 o -> forall vals bs outs, enc_fields N SD true A vals bs outs ->
  enc_fields N TAIL sz (A ++ [(nm, d)]) (vals ++ [v]) (bs ++ b2) (outs ++ [o]).
Proof.
  intros Ev. induction A as [|[n0 d0] A IH]; intros vals bs outs E.
  - inversion E; subst. cbn [app]. apply f_last. exact Ev.
  - inversion E as [|? ? ? ? iv ? out X|? ? ? ? ? iv b1 out fs ivs b3 outs' X Y]; subst. cbn [app]. rewrite <- app_assoc. apply f_cons; [exact X|]. apply IH. exact Y.
Qed.
Lemma O_bucket b1 b1' b2 b2' : tidy_fields SD (removelast (class_attrs Bucket04)) b1 b1' -> T_fields SD (removelast (class_attrs Bucket04)) b1 b1' -> same_len b1 b1' -> T_items ActionHeader04 b2 b2' -> same_len b2 b2' ->
  u16_at 0 (b1 ++ b2) (zlen (b1 ++ b2)) -> T_obj SD Bucket04 (b1 ++ b2) (b1' ++ b2').
Proof.
  intros Td T [Ln _] TI [Ln2 _] Hu m a pre suf v _ NE Wf Ka U Nul. destruct m as [|m]; [discriminate|]. rewrite unpack0_bucket in U by reflexivity.
  pose proof (uint_unpack_u16 None _ _ _ pre suf Hu I) as U0. rewrite Nat.add_0_r in U0. rewrite U0 in U. cbn [bind] in U. rewrite num_of_decoded in U. cbn [bind] in U. rewrite firstn_mid in U.
  pose proof (u16_nonempty _ _ _ Hu) as HL. assert (NE' : pre ++ (b1 ++ b2) ++ [] <> []) by (apply nonempty_app; lia).
  assert (Wf' : wf_bytes (pre ++ (b1 ++ b2) ++ [])) by (rewrite app_nil_r; rewrite app_assoc in Wf; apply Forall_app in Wf as [Wf _]; exact Wf). clear U0 NE Wf.
  rewrite app_nil_r in U, NE', Wf'.
  change (class_attrs Bucket04) with (removelast (class_attrs Bucket04) ++ [("actions", VList CFixedTypeList ActionHeader04 [])]) in U.
  rewrite unpack_fields_app in U. apply bind_ok in U as (x & U & X). apply bind_ok in U as (r & R & U). injection X as <-.
  assert (Nf : nul_in (removelast (class_attrs Bucket04)) (fst r)).
  { intros nm w In_ G. eapply (nul_attr Bucket04 (fst x)); [exact Nul|]. 
    assert (Nm : ~ In nm (map fst [("actions", VList CFixedTypeList ActionHeader04 [])])) by (cbn [map fst In]; intros [<-|[] ]; cbn in In_; intuition discriminate).
    rewrite (unpack_fields_keep _ _ nm _ Nm _ _ _ _ U). exact G. }
  destruct (T m pre b2 a r ltac:(discriminate) NE' Wf' ltac:(reflexivity) ltac:(cbn; repeat constructor; cbn; intuition discriminate) R Nf) as (N & vals & -> & L & E). cbn [fst snd] in U.
  rewrite unpack_fields_cons in U by exact NE'. apply bind_ok in U as (w & Uw & U). apply bind_ok in U as (s & _ & U). cbn [unpack_fields] in U. injection U as <-. cbn [fst] in *.
  destruct m as [|m]; [discriminate|]. cbn [deepcopy map unpack0] in Uw. change (cid_eqb ActionHeader04 CNone) with false in Uw. cbn [orb] in Uw.
  rewrite <- app_length, app_assoc in Uw. apply bind_ok in Uw as (l & Uw & X). injection X as <-. cbn [app] in *.
  assert (Nl : ends_in_nul (VList CFixedTypeList ActionHeader04 l) = true) by (eapply nul_attr; [exact Nul|apply get_set_same]).
  rewrite app_assoc in Wf'. destruct (TI m _ (pre ++ b1) l CFixedTypeList Wf' Uw Nl) as (N2 & E2).
  set (vs := vals ++ [VList CFixedTypeList ActionHeader04 l]). assert (Lv : List.length vs = List.length (class_attrs Bucket04)) by (unfold vs; rewrite app_length, L; reflexivity).
  assert (Ev : VObj Bucket04 (set_attr "actions" (VList CFixedTypeList ActionHeader04 l) (set_all (map fst (removelast (class_attrs Bucket04))) vals a)) = mk Bucket04 vs).
  { unfold mk. f_equal. rewrite <- (set_all_fresh (field_names Bucket04) vs a []); [|apply class_names_nodup|exact Lv|rewrite Ka, app_nil_r; reflexivity].
    unfold vs. do 5 (destruct vals as [|? vals]; [discriminate L|]). destruct vals; [reflexivity|discriminate L]. }
  set (ob := VObj Bucket04 _) in Ev. change (exists N0, enc_obj N0 SD true Bucket04 ob (b1' ++ b2') ob). rewrite Ev. set (sz := match l with [] => true | _ => false end).
  assert (Ef : enc_fields (S (max N N2)) TAIL sz (class_attrs Bucket04) vs (b1' ++ b2') vs).
  { change (class_attrs Bucket04) with (removelast (class_attrs Bucket04) ++ [("actions", VList CFixedTypeList ActionHeader04 [])]). destruct enc_deeper as (_ & _ & Df & Di & _).
    apply enc_fields_last; [|eapply Df; [exact E|lia] ]. apply (e_list_plain _ ActionHeader04 CFixedTypeList ActionHeader04 l b2' l); [reflexivity|].
    eapply Di; [exact E2|lia]. }
  assert (Hu' : u16_at 0 (b1' ++ b2') (zlen (b1' ++ b2'))).
  { rewrite (zlen_len (b1' ++ b2') (b1 ++ b2)) by (rewrite !app_length; lia). eapply u16_front; [exact Hu|]. pose proof (front_kept _ _ _ _ 2 Td eq_refl) as F2.
    assert (L2 : (2 <= List.length b1)%nat). { inversion Td as [|? ? ? ? Y|? ? ? ? y ? z ? Y]; subst; inversion Y as [? ? Kw| | | |]; subst. cbn in Kw. injection Kw as Kw. rewrite app_length. lia. }
    rewrite !firstn_app. cbn [Nat.add]. rewrite F2, Ln. replace (2 - List.length b1)%nat with O by lia. reflexivity. }
  destruct (number_value (class_attrs Bucket04) _ _ _ _ _ 0 "length" _ eq_refl (class_names_nodup Bucket04) Ef Hu') as (G & _).
  exists (S (S (max N N2))). eapply (o_bucket _ TAIL sz); [apply complete_mk, Lv|exact G|constructor|rewrite values_mk by exact Lv; exact Ef].
Qed.

(** ** Together *)
Theorem tidy_codes :
  (forall k d bs bs', tidy k d bs bs' -> T_val k d bs bs') /\ (forall k A bs bs', tidy_fields k A bs bs' -> T_fields k A bs bs') /\
  (forall pc bs bs', tidy_items pc bs bs' -> T_items pc bs bs') /\ (forall k c bs bs', tidy_obj k c bs bs' -> T_obj k c bs bs').
Proof.
  destruct tidy_len as (L1 & L2 & L3 & L4).
  assert (Ne : forall k c bs bs', tidy_obj k c bs bs' -> class_attrs c <> []).
  { intros k c bs bs' H. assert (G : forallb (fun c => negb (Nat.eqb (List.length (class_attrs c)) 0)) plain_structures = true) by (vm_compute; reflexivity). rewrite forallb_forall in G.
    inversion H; subst; try discriminate.
    - intros E. match goal with I : In _ plain_structures |- _ => apply G in I; rewrite E in I; discriminate I end.
    - intros E. match goal with I : length_at _ = Some _ |- _ => destruct c; try discriminate I; discriminate E end.
    - match goal with I : coded_04 _ |- _ => destruct I as [<-|[<-|[<-|[<-|[] ] ] ] ]; discriminate end. }
  apply tidy_all; intros.
  - apply T_same. assumption.
  - apply T_pad.
  - apply T_data.
  - apply T_struct. assumption.
  - apply T_list; assumption.
  - apply T_nil.
  - apply T_last; eauto.
  - apply T_cons; eauto.
  - apply I_nil.
  - eapply I_last; eauto.
  - eapply I_cons; eauto.
  - eapply O_plain; eauto.
  - eapply O_length; eauto.
  - eapply O_action01; eauto.
  - eapply O_coded; eauto.
  - eapply O_set_field; eauto.
  - apply O_oxm.
  - eapply O_match; eauto.
  - eapply O_bucket; eauto.
Qed.
