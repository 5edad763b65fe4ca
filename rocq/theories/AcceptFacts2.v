(** Packets that follow the standard are accepted: structures, for C58. *)
From Coq Require Import ZArith List Bool String Lia.
From Verif Require Import Base PyText Ids PyVal Classes Interp Utils Spec SpecMsg SpecBasic SpecLayout SpecDecode SpecStruct SpecReencode SpecTidy SpecAccept ClassFacts BaseFacts TextFacts IntFacts LeafFacts
  AddrFacts StructFacts Soundness Closure StructThm RaisesFacts DispatchFacts NetFacts2 FuelFacts MutationFacts LayoutFacts WindowFacts LengthFacts DecodeFacts DecodeFacts2 ReencodeFacts ReencodeFacts2 TidyFacts
  TidyFacts2 TidyFacts3 AcceptFacts.
Import ListNotations.
Open Scope string_scope.
Open Scope list_scope.
Open Scope Z_scope.

Lemma front_wf (pre bs suf : bytes) : wf_bytes (pre ++ bs ++ suf) -> wf_bytes (pre ++ bs ++ []).
Proof. intros Wf. rewrite app_nil_r. rewrite app_assoc in Wf. apply Forall_app in Wf as [Wf _]. exact Wf. Qed.
Lemma AO_plain k c bs bs' : In c plain_structures -> tidy_fields k (class_attrs c) bs bs' -> A_fields k (class_attrs c) bs -> A_obj k c bs.
Proof.
  intros I T A a pre suf Hs NE Wf Ka. destruct (plain_kind c I) as [K Sk]. rewrite Sk in Ka.
  assert (Kb : field_names c = map fst a ++ []) by (rewrite app_nil_r; congruence).
  destruct (A_structure k c bs bs' a [] pre suf T A Kb Hs NE Wf) as (m & v & U & Nul). destruct K as [K|[-> K]].
  - exists (S m), v. rewrite unpack0_struct by exact K. split; [exact U|exact Nul].
  - assert (Cw : exists d A, class_attrs Match01 = ("wildcards", VUInt 4 (Some E_FlowWildCards01) d) :: A /\ ~ In "wildcards" (map fst A)).
    { eexists _, _. split; [reflexivity|]. cbn. intuition discriminate. }
    destruct Cw as (d & A0 & Ea & Na). apply bind_ok in U as (x & U & X). injection X as <-. pose proof U as U'. rewrite Ea in U'.
    destruct (first_read m _ _ _ A0 NE Na _ _ _ U') as (w & Uw & Gw). rewrite leaf_copy in Uw by discriminate. destruct m as [|m]; [discriminate|]. cbn [unpack0] in Uw.
    exists (S (S m)), (VObj Match01 (fst x)). split; [|exact Nul]. rewrite unpack0_match01 by exact K. rewrite U. cbn [bind]. rewrite Uw. cbn [bind]. rewrite set_attr_same by exact Gw. reflexivity.
Qed.
Lemma AO_length k c p bs bs' : length_at c = Some p -> tidy_fields k (class_attrs c) bs bs' -> A_fields k (class_attrs c) bs -> u16_at p bs (zlen bs) -> A_obj SD c bs.
Proof.
  intros La T A Hu a pre suf _ NE Wf Ka. destruct (length_kind c p La) as ((upd & K) & _ & _). pose proof (u16_nonempty _ _ _ Hu) as HL.
  rewrite kind_not_oxm in Ka by (rewrite K; discriminate). rewrite (prefix_self (map fst a)) in Ka. symmetry in Ka.
  destruct (A_structure k c bs bs' a [] pre [] T A Ka (fun _ => eq_refl) ltac:(apply nonempty_app; lia) (front_wf _ _ _ Wf)) as (m & v & U & Nul).
  exists (S m), v. split; [|exact Nul]. rewrite (unpack0_len _ _ _ _ _ _ _ K). pose proof (uint_unpack_u16 None _ _ _ pre suf Hu Logic.I) as U2.
  assert (U1 : exists x, uint_unpack 2 None (pre ++ bs ++ suf) (match p with 4%nat => List.length pre | _ => (List.length pre + p)%nat end) = Ok x).
  { assert (p = 4%nat \/ (match p with 4%nat => List.length pre | _ => (List.length pre + p)%nat end) = (List.length pre + p)%nat) as [->|E]
      by (destruct p as [|[|[|[|[|] ] ] ] ]; auto).
    - destruct Hu as (x & y & Eb & L4 & _). destruct x as [|x1 [|x2 [|x3 [|x4 [|] ] ] ] ]; try discriminate L4. rewrite Eb. pose proof (mid_wf _ _ _ Wf) as Wb. rewrite Eb in Wb.
      change (pre ++ ([x1; x2; x3; x4] ++ be_encode 2 (zlen bs) ++ y) ++ suf) with (pre ++ [x1; x2] ++ ([x3; x4] ++ be_encode 2 (zlen bs) ++ y) ++ suf).
      rewrite (uint_reads 2 None VNone [x1; x2]); [eauto|reflexivity| |exact Logic.I]. inversion Wb as [|? ? W1 W2]; subst. inversion W2; subst. constructor; [assumption|constructor; [assumption|constructor] ].
    - rewrite E. eauto. }
  destruct U1 as (x & U1). rewrite U1. cbn [bind]. rewrite U2. cbn [bind]. rewrite num_of_decoded. cbn [bind]. rewrite firstn_mid. exact U.
Qed.
Lemma AO_action01 t c bs bs' : In (t, c) action01_table -> tidy_fields SD (class_attrs c) bs bs' -> A_fields SD (class_attrs c) bs -> u16_at 0 bs t -> A_obj SD ActionHeader01 bs.
Proof.
  intros HI T A Ht a pre suf _ NE Wf Ka. pose proof (action01_table_ok _ _ HI) as OK. unfold action01_ok in OK. repeat (apply andb_prop in OK as [OK ?]).
  rename H into PFX. apply cid_eqb_eq in OK. apply prefixb_ok in PFX as (r & PFX).
  assert (Kb : field_names c = map fst (set_attr "action_type" (VUInt 2 (Some E_ActionType01) (decoded_int (Some E_ActionType01) t)) a) ++ r).
  { rewrite set_attr_keys; rewrite Ka; [exact PFX|left; reflexivity]. }
  destruct (A_structure SD c bs bs' _ r pre suf T A Kb ltac:(discriminate) NE Wf) as (m & v & U & Nul). exists (S m), v. split; [|exact Nul].
  rewrite unpack0_action01 by reflexivity. pose proof (uint_unpack_u16 (Some E_ActionType01) _ _ _ pre suf Ht) as U0. rewrite Nat.add_0_r in U0. rewrite U0 by (left; reflexivity). cbn [bind].
  rewrite num_of_decoded. cbn [bind]. rewrite OK. exact U.
Qed.
Lemma A_typed f t c k bs bs' a pre suf : In (t, c) (typed_table f) -> tidy_fields k (class_attrs c) bs bs' -> A_fields k (class_attrs c) bs -> u16_at 0 bs t -> u16_at 2 bs (zlen bs) ->
  wf_bytes (pre ++ bs ++ suf) -> map fst a = start_keys (typed_root f) -> exists m v, unpack0 m (VObj (typed_root f) a) (pre ++ bs ++ suf) (List.length pre) = Ok v /\ ends_in_nul v = true.
Proof.
  intros HI T A Ht Hu Wf Ka.
  pose proof (typed_table_ok _ _ _ HI) as OK. unfold typed_ok in OK. repeat (apply andb_prop in OK as [OK ?]).
  rename H0 into PFX, H2 into KR, H5 into MEM. destruct (find_class f t) as [c'|] eqn:FC; [|discriminate]. apply cid_eqb_eq in OK. subst c'.
  assert (KRo : kind (typed_root f) = KTyped f) by (destruct f; reflexivity). apply prefixb_ok in PFX as (r & PFX).
  pose proof (u16_nonempty _ _ _ Hu) as HL. rewrite kind_not_oxm in Ka by (rewrite KRo; discriminate).
  destruct (A_structure k c bs bs' a r pre [] T A ltac:(rewrite Ka; exact PFX) (fun _ => eq_refl) ltac:(apply nonempty_app; lia) (front_wf _ _ _ Wf)) as (m & v & U & Nul).
  exists (S m), v. split; [|exact Nul]. rewrite (unpack0_typed _ _ _ _ _ _ KRo). pose proof (uint_unpack_u16 (Some (family_enum f)) _ _ _ pre suf Ht) as U0. rewrite Nat.add_0_r in U0.
  rewrite U0 by (right; exact MEM). cbn [bind]. rewrite num_of_decoded. cbn [bind]. rewrite FC. cbn [bind].
  rewrite (uint_unpack_u16 None _ _ _ pre suf Hu Logic.I). cbn [bind]. rewrite num_of_decoded. cbn [bind]. rewrite firstn_mid. exact U.
Qed.
Lemma A_action t c k bs bs' a pre suf len : In (t, c) action04_table -> tidy_fields k (class_attrs c) bs bs' -> A_fields k (class_attrs c) bs -> (k = TAIL -> len = zlen bs) -> zlen bs <= len ->
  len <= zlen (bs ++ suf) -> u16_at 0 bs t -> u16_at 2 bs len -> wf_bytes (pre ++ bs ++ suf) ->
  map fst a = start_keys ActionHeader04 -> exists m v, unpack0 m (VObj ActionHeader04 a) (pre ++ bs ++ suf) (List.length pre) = Ok v /\ ends_in_nul v = true.
Proof.
  intros HI T A Hk Lo Hi Ht Hu Wf Ka.
  pose proof (action04_table_ok _ _ HI) as OK. unfold action04_ok in OK. repeat (apply andb_prop in OK as [OK ?]).
  rename H into PFX, H2 into MEM. apply cid_eqb_eq in OK. apply prefixb_ok in PFX as (r & PFX).
  unfold zlen in *. rewrite app_length in Hi. pose proof (u16_nonempty _ _ _ Hu) as HL.
  assert (C : firstn (List.length pre + Z.to_nat len) (pre ++ bs ++ suf) = pre ++ bs ++ firstn (Z.to_nat len - List.length bs) suf).
  { rewrite firstn_app, firstn_all2 by lia. f_equal. rewrite firstn_app, firstn_all2 by lia. f_equal. f_equal. lia. }
  set (b := set_attr "length" (VUInt 2 None (decoded_int None len)) (set_attr "action_type" (VUInt 2 (Some E_ActionType04) (decoded_int (Some E_ActionType04) t)) a)).
  assert (Kb : field_names c = map fst b ++ r).
  { assert (B : map fst (set_attr "action_type" (VUInt 2 (Some E_ActionType04) (decoded_int (Some E_ActionType04) t)) a) = map fst a) by (apply set_attr_keys; rewrite Ka; left; reflexivity).
    unfold b. rewrite set_attr_keys; rewrite B, Ka; [exact PFX|]. right. left. reflexivity. }
  destruct (A_structure k c bs bs' b r pre (firstn (Z.to_nat len - List.length bs) suf) T A Kb) as (m & v & U & Nul).
  - intros ->. rewrite Hk by reflexivity. replace (Z.to_nat (Z.of_nat (List.length bs)) - List.length bs)%nat with O by lia. reflexivity.
  - apply nonempty_app. lia.
  - rewrite <- C. apply wf_bytes_firstn, Wf.
  - exists (S m), v. split; [|exact Nul]. rewrite unpack0_action04 by reflexivity. pose proof (uint_unpack_u16 (Some E_ActionType04) _ _ _ pre suf Ht) as U0. rewrite Nat.add_0_r in U0.
    rewrite U0 by (right; exact MEM). cbn [bind]. rewrite (uint_unpack_u16 None _ _ _ pre suf Hu Logic.I). cbn [bind]. rewrite !num_of_decoded. cbn [bind]. rewrite OK, C. exact U.
Qed.
Lemma AO_coded k root tbl t c bs bs' : coded_04 root -> coded root = Some tbl -> In (t, c) tbl -> tidy_fields k (class_attrs c) bs bs' -> A_fields k (class_attrs c) bs ->
  u16_at 0 bs t -> u16_at 2 bs (zlen bs) -> A_obj SD root bs.
Proof.
  intros R C HI T A Ht Hu a pre suf _ NE Wf Ka. destruct R as [<-|[<-|[<-|[<-|[] ] ] ] ]; injection C as <-.
  - apply (A_action t c k bs bs' a pre suf (zlen bs)); auto; [lia|rewrite zlen_app; unfold zlen; lia].
  - eapply (A_typed TInstruction); eassumption.
  - eapply (A_typed TProperty); eassumption.
  - eapply (A_typed TMeterBand); eassumption.
Qed.
Lemma AO_set_field body body' pad : tidy_fields SD (class_attrs ActionSetField04) body body' -> A_fields SD (class_attrs ActionSetField04) body ->
  u16_at 0 body 25 -> u16_at 2 body (zlen (body ++ pad)) -> A_obj SD ActionHeader04 (body ++ pad).
Proof.
  intros T A Ht Hu a pre suf _ NE Wf Ka. rewrite <- app_assoc in *.
  apply (A_action 25 ActionSetField04 SD body body' a pre (pad ++ suf) (zlen (body ++ pad))); auto; try discriminate; [cbn; tauto|unfold zlen; rewrite !app_length; lia..].
Qed.

(** ** Match fields, matches and buckets *)
Lemma AO_oxm h1 h2 h3 value : allowed_match h1 h2 h3 -> A_obj SD OxmTLV04 ([h1; h2; h3; zlen value] ++ value).
Proof.
  intros [A1 A2] a pre suf _ NE Wf Ka. pose proof (mid_wf _ _ _ Wf) as W. pose proof W as Wv. apply Forall_app in Wv as [_ Wv]. apply Forall_app in W as [W _].
  inversion W as [|? ? B1 W1]; subst. inversion W1 as [|? ? B2 W2]; subst. inversion W2 as [|? ? B3 W3]; subst. inversion W3 as [|? ? B4 _]; subst. unfold is_byte in *.
  pose proof (be_encode_decode [h1; h2] ltac:(constructor; [exact B1|constructor; [exact B2|constructor] ])) as Ec. cbn [List.length] in Ec.
  assert (Ed : be_decode [h1; h2] = 256 * h1 + h2) by (rewrite <- place_value_decode; cbn [place_value List.length]; change (256 ^ Z.of_nat 1) with 256; change (256 ^ Z.of_nat 0) with 1; lia).
  rewrite Ed in Ec. set (cl := 256 * h1 + h2) in *. apply declared_member in A1.
  set (w := [("oxm_class", VInt cl); ("oxm_field_and_mask", VNone); ("oxm_length", VNone); ("oxm_value", VBytes value); ("oxm_field", VInt (h3 / 2)); ("oxm_hasmask", VInt (h3 mod 2))]).
  assert (E : exists out, enc_obj 2 SD true OxmTLV04 (VObj OxmTLV04 w) ([h1; h2; h3; zlen value] ++ value) out /\ ends_in_nul out = true).
  { eexists. split. replace ([h1; h2; h3; zlen value] ++ value) with (be_encode 2 cl ++ [2 * (h3 / 2) + (h3 mod 2) mod 2] ++ [zlen value] ++ value).
    - eapply (o_oxm 0 w (VInt cl) cl (VInt (h3 / 2)) (h3 / 2) (VInt (h3 mod 2)) (h3 mod 2) (VBytes value) value); try (apply Forall_forall; exact Wv); try reflexivity; try constructor; auto; try lia.
      + destruct (Z.eqb_spec cl 0x8000); [apply declared_member; auto|]. split; [|eexists; reflexivity]. split; [apply Z.div_pos; lia|]. assert (h3 / 2 < 128) by (apply Z.div_lt_upper_bound; lia). lia.
    - rewrite Ec. rewrite Z.mod_mod by lia. rewrite <- Z.div_mod by lia. reflexivity.
    - destruct (cl =? 0x8000); reflexivity. }
  destruct E as (out & E & Nul). pose proof soundness as (_ & _ & _ & _ & Sd). pose proof (Sd _ _ _ _ _ _ _ E) as (_ & _ & _ & _ & _ & _ & Un).
  exists 2%nat, out. split; [exact (Un a pre suf Ka ltac:(discriminate) NE)|exact Nul].
Qed.
Lemma AO_match k body body' pad : tidy_fields k (class_attrs Match04) body body' -> A_fields k (class_attrs Match04) body -> u16_at 2 body (zlen body) -> A_obj SD Match04 (body ++ pad).
Proof.
  intros T A Hu a pre suf _ NE Wf Ka. rewrite <- app_assoc in *. pose proof (u16_nonempty _ _ _ Hu) as H2.
  assert (H4 : (4 <= List.length body)%nat) by (destruct Hu as (x & y & -> & L & _); rewrite !app_length, be_encode_length; lia).
  assert (NE' : pre ++ body ++ [] <> []) by (apply nonempty_app; lia).
  rewrite kind_not_oxm in Ka by discriminate. rewrite (prefix_self (map fst a)) in Ka. symmetry in Ka.
  destruct (A_structure k Match04 body body' a [] pre [] T A Ka (fun _ => eq_refl) NE' (front_wf _ _ _ Wf)) as (m & v & U & Nul). exists (S m), v. split; [|exact Nul].
  rewrite unpack0_obj. unfold unpack_obj. change (kind Match04) with KMatch04. unfold match04_unpack. change (class_attrs Match04) with attrs_Match04 in *. unfold attrs_Match04 in *.
  change (removelast _) with [("match_type", VUInt 2 (Some E_MatchType04) VNone); ("length", VUInt 2 None VNone)].
  apply bind_ok in U as (x & U & X). injection X as <-. rewrite unpack_fields_cons in U by exact NE'. apply bind_ok in U as (x1 & X1 & U). apply bind_ok in U as (s1 & S1 & U).
  rewrite unpack_fields_cons in U by exact NE'. apply bind_ok in U as (x2 & X2 & U). apply bind_ok in U as (s2 & S2 & U). destruct m as [|m]; [discriminate|].
  cbn [deepcopy unpack0] in X1, X2. pose proof X1 as I1. apply uint_unpack_inv in I1 as [E1 _]. rewrite E1 in S1. cbn [size0] in S1. injection S1 as <-.
  change (Z.to_nat 2) with 2%nat in *. rewrite (uint_unpack_u16 None _ _ _ pre [] Hu Logic.I) in X2. injection X2 as <-. cbn [size0] in S2. injection S2 as <-. change (Z.to_nat 2) with 2%nat in *.
  assert (R : unpack_fields (unpack0 (S m)) (size0 (S m)) [("match_type", VUInt 2 (Some E_MatchType04) VNone); ("length", VUInt 2 None VNone)] a (pre ++ body ++ pad ++ suf) (List.length pre)
     = Ok (set_attr "length" (VUInt 2 None (decoded_int None (zlen body))) (set_attr "match_type" x1 a), (List.length pre + 2 + 2)%nat)).
  { rewrite unpack_fields_cons by exact NE. cbn [deepcopy unpack0].
    rewrite (uint_slice _ _ _ _ (pre ++ body ++ []) (List.length pre)) by (pose proof (front_slice 0 2 pre body (pad ++ suf) [] ltac:(lia)) as Q; rewrite !Nat.add_0_r in Q; exact Q).
    rewrite X1. cbn [bind]. rewrite E1 at 1. cbn [size0 bind]. change (Z.to_nat (Z.of_nat 2)) with 2%nat.
    rewrite unpack_fields_cons by exact NE. cbn [deepcopy unpack0]. rewrite (uint_unpack_u16 None _ _ _ pre (pad ++ suf) Hu Logic.I). cbn [bind size0]. change (Z.to_nat (Z.of_nat 2)) with 2%nat. reflexivity. }
  rewrite R. cbn [bind fst snd]. unfold attr_num, attr_or_error. rewrite get_set_same. cbn [bind]. rewrite num_of_decoded. cbn [bind]. rewrite firstn_mid, app_nil_r in *.
  change (match get_attr "oxm_match_fields" _ with Some cv => [("oxm_match_fields", cv)] | None => [] end) with [("oxm_match_fields", VList OxmMatchFields04 OxmTLV04 [])].
  change (decoded_int None (zlen body)) with (VInt (zlen body)). rewrite U. reflexivity.
Qed.
Lemma items_size pc bs bs' m K pre items : tidy_items pc bs bs' -> wf_bytes (pre ++ bs) -> unpack_items (unpack0 m) (size0 m) pc K (pre ++ bs) (List.length pre) = Ok items ->
  ends_in_nul (VList CFixedTypeList pc items) = true -> exists N, size0 N (VList CFixedTypeList pc items) = Ok (zlen bs).
Proof.
  intros T Wf U Nul. destruct tidy_codes as (_ & _ & TI & _). destruct (TI _ _ _ T m K pre items CFixedTypeList Wf U Nul) as (N & E). exists (S N).
  pose proof (e_list_plain N pc CFixedTypeList pc items bs' items eq_refl E) as E2. pose proof soundness as (Sd & _). pose proof (Sd _ _ _ _ _ _ _ E2) as (_ & _ & _ & Sz & _).
  destruct tidy_len as (_ & _ & TL & _). destruct (TL _ _ _ T) as [Ln _]. rewrite Sz. f_equal. unfold zlen. rewrite Ln. reflexivity.
Qed.
Lemma nul_set nm w c a : ends_in_nul (VObj c a) = true -> ends_in_nul w = true -> ends_in_nul (VObj c (set_attr nm w a)) = true.
Proof.
  rewrite !nul_obj. intros H Hw. induction a as [|[n x] a IH]; cbn [set_attr forallb snd] in *; [rewrite Hw; reflexivity|]. apply andb_prop in H as [H1 H2].
  destruct (String.eqb n nm); cbn [forallb snd]; [rewrite Hw, H2; reflexivity|rewrite H1; apply IH, H2].
Qed.
Lemma AO_bucket b1 b1' b2 b2' : tidy_fields SD (removelast (class_attrs Bucket04)) b1 b1' -> A_fields SD (removelast (class_attrs Bucket04)) b1 -> tidy_items ActionHeader04 b2 b2' -> A_items ActionHeader04 b2 ->
  u16_at 0 (b1 ++ b2) (zlen (b1 ++ b2)) -> A_obj SD Bucket04 (b1 ++ b2).
Proof.
  intros T A T2 A2 Hu a pre suf _ NE Wf Ka. pose proof (u16_nonempty _ _ _ Hu) as HL.
  assert (NE' : pre ++ b1 ++ b2 <> []) by (rewrite <- (app_nil_r b2), (app_assoc b1); apply nonempty_app; lia).
  pose proof (front_wf _ _ _ Wf) as Wf'. rewrite app_nil_r in Wf'.
  destruct (A pre b2 a ltac:(discriminate) NE' Wf' eq_refl ltac:(cbn; repeat constructor; cbn; intuition discriminate)) as (m & r & U & Nul).
  destruct tidy_codes as (_ & TC & _). destruct (TC _ _ _ _ T m pre b2 a r ltac:(discriminate) NE' Wf' eq_refl ltac:(cbn; repeat constructor; cbn; intuition discriminate) U Nul) as (N & vals & -> & L & _).
  destruct (A2 (S (List.length (pre ++ b1 ++ b2))) (pre ++ b1) CFixedTypeList ltac:(rewrite <- app_assoc; exact Wf') ltac:(rewrite !app_length; lia)) as (m2 & items & U2 & Nul2). rewrite <- app_assoc in U2.
  destruct (items_size _ _ _ _ _ (pre ++ b1) _ T2 ltac:(rewrite <- app_assoc; exact Wf') ltac:(rewrite <- app_assoc; exact U2) Nul2) as (N2 & Sz).
  set (M := S (max m (max m2 N2))). set (w := VList CFixedTypeList ActionHeader04 items) in *.
  exists (S M), (VObj Bucket04 (set_attr "actions" w (set_all (map fst (removelast (class_attrs Bucket04))) vals a))). split.
  - rewrite unpack0_bucket by reflexivity. pose proof (uint_unpack_u16 None _ _ _ pre suf Hu Logic.I) as U0. rewrite Nat.add_0_r in U0. rewrite U0. cbn [bind]. rewrite num_of_decoded. cbn [bind]. rewrite firstn_mid, app_nil_r.
    change (class_attrs Bucket04) with (removelast (class_attrs Bucket04) ++ [("actions", VList CFixedTypeList ActionHeader04 [])]).
    rewrite unpack_fields_app, (fields_up _ M _ _ _ _ _ U) by (unfold M; lia). cbn [bind fst snd]. rewrite unpack_fields_cons by exact NE'.
    assert (Uw : unpack0 M (deepcopy (VList CFixedTypeList ActionHeader04 [])) (pre ++ b1 ++ b2) (List.length pre + List.length b1) = Ok w).
    { unfold M. cbn [deepcopy map]. change (cid_eqb CFixedTypeList CList) with false. cbv iota. rewrite StructThm.unpack0_list, <- app_length, (items_up _ (max m (max m2 N2)) _ _ _ _ _ U2) by lia. reflexivity. }
    rewrite Uw. cbn [bind]. rewrite (size_up _ M _ _ Sz) by (unfold M; lia). reflexivity.
  - set (vs := vals ++ [w]). assert (Lv : List.length vs = List.length (field_names Bucket04)) by (unfold vs; rewrite app_length, L; reflexivity).
    assert (Ev : set_attr "actions" w (set_all (map fst (removelast (class_attrs Bucket04))) vals a) = combine (field_names Bucket04) vs).
    { rewrite <- (set_all_fresh (field_names Bucket04) vs a []); [|apply class_names_nodup|exact Lv|rewrite Ka, app_nil_r; reflexivity].
      unfold vs. do 5 (destruct vals as [|? vals]; [discriminate L|]). destruct vals; [reflexivity|discriminate L]. }
    rewrite nul_obj, Ev. apply nul_values; [apply class_names_nodup|exact Lv|]. intros nm x J G. rewrite <- Ev in G.
    destruct (String.eqb_spec nm "actions") as [->|Nn]; [rewrite get_set_same in G; injection G as <-; exact Nul2|]. rewrite get_set_other in G by congruence.
    apply (Nul nm x); [|exact G]. cbn in J |- *. intuition congruence.
Qed.

(** ** Together *)
Theorem accepted :
  (forall k d bs, fit k d bs -> A_val k d bs) /\ (forall k A bs, fit_fields k A bs -> A_fields k A bs) /\
  (forall pc bs, fit_items pc bs -> A_items pc bs) /\ (forall k c bs, fit_obj k c bs -> A_obj k c bs).
Proof.
  destruct fit_tidy as (F1 & F2 & F3 & F4).
  assert (Ne : forall k c bs, fit_obj k c bs -> class_attrs c <> []).
  { intros k c bs H. assert (G : forallb (fun c => negb (Nat.eqb (List.length (class_attrs c)) 0)) plain_structures = true) by (vm_compute; reflexivity). rewrite forallb_forall in G.
    inversion H; subst; try discriminate.
    - intros E. match goal with I : In _ plain_structures |- _ => apply G in I; rewrite E in I; discriminate I end.
    - intros E. match goal with I : length_at _ = Some _ |- _ => destruct c; try discriminate I; discriminate E end.
    - match goal with I : coded_04 _ |- _ => destruct I as [<-|[<-|[<-|[<-|[] ] ] ] ]; discriminate end. }
  apply fit_all; intros; repeat match goal with
    | H : fit _ _ _ |- _ => pose proof (F1 _ _ _ H) as (? & ?); clear H
    | H : fit_fields _ _ _ |- _ => pose proof (F2 _ _ _ H) as (? & ?); clear H
    | H : fit_items _ _ |- _ => pose proof (F3 _ _ H) as (? & ?); clear H
    | H : fit_obj _ _ _ |- _ => pose proof (Ne _ _ _ H); pose proof (F4 _ _ _ H) as (? & ?); clear H
    end.
  - apply A_leaf; assumption.
  - apply A_pad.
  - apply A_data.
  - apply A_struct. assumption.
  - apply A_list. assumption.
  - apply A_nil.
  - eapply A_last; eassumption.
  - eapply A_cons; eassumption.
  - apply AI_nil.
  - eapply AI_last; eassumption.
  - eapply AI_cons; eassumption.
  - eapply AO_plain; eassumption.
  - eapply AO_length; eassumption.
  - eapply AO_action01; eassumption.
  - eapply AO_coded; eassumption.
  - eapply AO_set_field; eassumption.
  - apply AO_oxm. assumption.
  - eapply AO_match; eassumption.
  - eapply AO_bucket; eassumption.
Qed.
