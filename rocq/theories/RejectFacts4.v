(** Lemmas for C65: matches of 1.3 and their TLVs. *)
From Coq Require Import ZArith List Bool String Lia ZifyBool.
From Verif Require Import Base PyText Ids PyVal Classes Interp Utils Spec SpecBasic SpecMutation SpecLayout SpecMsg SpecReject
  ClassFacts IntFacts StructFacts LayoutFacts MutationFacts MsgBody FuelFacts Totality LayoutFacts RejectFacts RejectFacts2 SpecReject2 RejectFacts3.
Import ListNotations.
Open Scope string_scope.
Open Scope list_scope.
Open Scope Z_scope.

Definition taken_len (lc pc : cid) (a : pyval) : res Z := do items <- list_init get_size pc a; get_size (VList lc pc items).
Lemma no_items_size lc pc : lc <> CList -> get_size (VList lc pc []) = Ok 0.
Proof.
  intros N. rewrite (size_of 1); cbn [size0]; destruct (cid_eqb lc CList) eqn:E; try reflexivity; try discriminate; apply cid_eqb_eq in E; contradiction.
Qed.
Lemma taken_size_iff lc pc a r : lc <> CList -> pc <> CNone -> taken_size lc pc a r <-> r = taken_len lc pc a.
Proof.
  intros NC N. unfold taken_len. split.
  - intros [lc' pc' its l L F|lc' pc' its l L X|a' e NL T|a' NL T|a' NL T F|a' NL T F].
    + apply leaf_items in L. subst l. cbn [list_init].
      assert (C : check_items pc (flat_map flat its) = Ok (flat_map flat its)) by (apply check_items_ok; assumption). rewrite C. cbn [bind]. reflexivity.
    + apply leaf_items in L. subst l. cbn [list_init].
      destruct (check_either _ (flat_map flat its) N) as [[_ F]|[-> _]]; [destruct (not_both _ _ F X)|cbn [bind]; reflexivity].
    + apply truth_err in T. destruct a'; try (destruct (NL _ _ _ eq_refl)); unfold list_init; rewrite T; cbn [bind]; reflexivity.
    + apply truth_false in T. assert (E : list_init get_size pc a' = Ok []) by (destruct a'; try (destruct (NL _ _ _ eq_refl)); unfold list_init; rewrite T; reflexivity).
      rewrite E. cbn [bind]. rewrite no_items_size by exact NC. reflexivity.
    + apply truth_true in T.
      assert (E : list_init get_size pc a' = check_items pc [a']) by (destruct a'; try (destruct (NL _ _ _ eq_refl)); unfold list_init; rewrite T; reflexivity).
      rewrite E. assert (C : check_items pc [a'] = Ok [a']) by (apply check_items_ok; auto). rewrite C. cbn [bind]. reflexivity.
    + apply truth_true in T.
      assert (E : list_init get_size pc a' = check_items pc [a']) by (destruct a'; try (destruct (NL _ _ _ eq_refl)); unfold list_init; rewrite T; reflexivity).
      rewrite E. assert (C : check_items pc [a'] = Err WrongListItemType) by (apply check_items_err; auto). rewrite C. cbn [bind]. reflexivity.
  - intros ->.
    assert (D : (exists lc pc l, a = VList lc pc l) \/ not_list a) by (destruct a; first [left; do 3 eexists; reflexivity|right; intros ? ? ?; discriminate]).
    destruct D as [(lc' & pc' & its & ->)|NL].
    + cbn [list_init]. destruct (check_either _ (flat_map flat its) N) as [[-> F]|[-> X]]; cbn [bind];
        [eapply ts_items; [apply leaf_items; reflexivity|exact F]|eapply ts_wrong; [apply leaf_items; reflexivity|exact X]].
    + assert (E : list_init get_size pc a = do t <- truthy get_size a; if t then check_items pc [a] else Ok [])
        by (destruct a; try reflexivity; destruct (NL _ _ _ eq_refl)).
      rewrite E. destruct (truthy get_size a) as [[|]|e] eqn:T; cbn [bind].
      * apply truth_true in T. destruct (check_either _ [a] N) as [[-> F]|[-> X]]; cbn [bind].
        -- inversion F; subst. apply ts_one; assumption.
        -- apply ts_other; [assumption|exact T|]. inversion X as [? ? O|? ? O]; [assumption|inversion O].
      * rewrite no_items_size by exact NC. apply ts_none; [assumption|apply truth_false, T].
      * apply ts_no_truth; [assumption|apply truth_err, T].
Qed.

Lemma match_size attrs : get_size (VObj Match04 attrs) = do s <- struct_size get_size Match04 attrs; Ok (ceil8 s).
Proof.
  pose proof (size_fuel (VObj Match04 attrs)) as T. unfold get_size at 1. revert T. generalize (FUEL + height (VObj Match04 attrs))%nat as N.
  intros [|n] T; [destruct (T eq_refl)|]. rewrite size0_obj in *. change (kind Match04) with KMatch04 in *. cbn iota in *.
  destruct (le_struct_size (size0 n) get_size Match04 attrs (le_size n)) as [E|E]; [rewrite E in T; destruct (T eq_refl)|]. rewrite E. reflexivity.
Qed.
Lemma number_size w er x : get_size (VUInt w er x) = Ok (Z.of_nat w).
Proof. rewrite (size_of 1); [reflexivity|discriminate]. Qed.
Lemma mine_size attrs l : has_attributes Match04 attrs = true -> get_attr "oxm_match_fields" attrs = Some l ->
  struct_size get_size Match04 attrs = do r <- taken_len OxmMatchFields04 OxmTLV04 l; Ok (4 + r).
Proof.
  intros A L. pose proof (built_names Match04 attrs A) as M.
  rewrite <- (get_mine Match04 attrs "oxm_match_fields" eq_refl) in L.
  unfold struct_size, zip_attrs. change (filter (fun p => is_class_attr Match04 (fst p)) attrs) with (mine Match04 attrs).
  change (map fst (class_attrs Match04)) with ["match_type"; "length"; "oxm_match_fields"] in M.
  destruct (mine Match04 attrs) as [|[n1 v1] [|[n2 v2] [|[n3 v3] [|? ?]]]]; try discriminate M. cbn [map fst] in M. injection M as -> -> ->.
  cbn in L. injection L as ->.
  change (map snd (class_attrs Match04)) with (map snd attrs_Match04). unfold attrs_Match04. cbn [map snd combine sumM fst size1].
  rewrite !number_size. cbn [bind].
  assert (E : forall v, (match v with VNone => get_size (VList OxmMatchFields04 OxmTLV04 []) | _ => if cid_eqb OxmMatchFields04 CFixedTypeList then Ok 0 else taken_len OxmMatchFields04 OxmTLV04 v end)
     = taken_len OxmMatchFields04 OxmTLV04 v).
  { intros v. destruct v; try reflexivity. }
  unfold taken_len in *. rewrite E. destruct (list_init get_size OxmTLV04 l) as [its|e']; cbn [bind]; [|reflexivity].
  destruct (get_size (VList OxmMatchFields04 OxmTLV04 its)) as [n|e']; cbn [bind]; [f_equal; lia|reflexivity].
Qed.
Lemma match_refused attrs e : built (VObj Match04 attrs) = true -> pack (VObj Match04 attrs) = Err e <-> match_raises attrs e.
Proof.
  intros B. pose proof (built_has _ _ B) as A. destruct (there _ attrs "oxm_match_fields" B eq_refl) as (l & L).
  assert (A1 : forall n, has_attributes Match04 (set_attr "length" (VInt n) attrs) = true)
    by (intros n; apply has_set; [exact A|apply (attr_there Match04); [exact A|reflexivity]]).
  rewrite pack_object. change (pack_obj pack get_size get_size Match04 attrs) with (match04_pack pack get_size get_size Match04 attrs).
  unfold match04_pack. rewrite (mine_size attrs l A L).
  assert (Q : match_raises attrs e <-> match taken_len OxmMatchFields04 OxmTLV04 l with Err e' => e = e' | Ok n => first_refused Match04 (set_attr "length" (VInt (4 + n)) attrs) e end).
  { unfold match_raises. rewrite L. split.
    - intros (l0 & r & [= <-] & H & M). apply taken_size_iff in H; [|discriminate|discriminate]. subst r. exact M.
    - intros H. exists l, (taken_len OxmMatchFields04 OxmTLV04 l). split; [reflexivity|]. split; [apply taken_size_iff; [discriminate|discriminate|reflexivity]|exact H]. }
  rewrite Q. clear Q. destruct (taken_len OxmMatchFields04 OxmTLV04 l) as [n|e'] eqn:TL; cbn [bind]; [|split; [intros [= <-]|intros ->]; reflexivity].
  cbv zeta. rewrite <- (struct_refused Match04 _ e (A1 (4 + n)) ltac:(reflexivity)).
  destruct (struct_pack pack Match04 (set_attr "length" (VInt (4 + n)) attrs)) as [p|e'] eqn:SP; cbn [bind]; [|reflexivity].
  rewrite match_size, (mine_size _ l (A1 (4 + n))); [|rewrite StructFacts.get_set_other by discriminate; exact L].
  rewrite TL. cbn [bind]. split; discriminate.
Qed.

Lemma tlv_field_iff cls f z : oxm_field_int cls f = Ok z <-> tlv_field cls f z.
Proof.
  unfold oxm_field_int. pose proof (port_number_iff cls) as PC. pose proof (port_number_iff f) as PF.
  assert (D : num_of cls = Ok 32768 \/ num_of cls <> Ok 32768) by (destruct (num_of cls) as [c|]; [destruct (Z.eq_dec c 32768) as [->|]; [auto|right; congruence]|right; discriminate]).
  destruct D as [D|D].
  - rewrite D. pose proof (proj1 (PC 32768) D) as P. split.
    + destruct (num_of f) as [z'|] eqn:F; [|discriminate]. destruct (is_member E_OxmOfbMatchField04 z') eqn:M; [|discriminate]. intros [= ->].
      apply tf_basic; [exact P|apply PF; reflexivity|apply declared_member, M].
    + intros T. inversion T as [f' z' P0 F M Ef Ez|z' N G Ef Ez|e z' N I G Ef Ez]; [|contradiction|contradiction]. subst f' z'. apply PF in F. rewrite F. apply declared_member in M. rewrite M. reflexivity.
  - assert (E : (match num_of cls with Ok 32768 => match num_of f with Ok z => if is_member E_OxmOfbMatchField04 z then Ok z else Err ValueError | Err _ => Err ValueError end
       | _ => match as_int f with Some z => if 127 <? z then Err ValueError else Ok z | None => Err ValueError end end)
       = match as_int f with Some z => if 127 <? z then Err ValueError else Ok z | None => Err ValueError end).
    { destruct (num_of cls) as [[|p|p]|] eqn:Nc; try reflexivity. repeat (destruct p as [p|p|]; try reflexivity). destruct D. reflexivity. }
    rewrite E. clear E. assert (N : ~ port_number cls 32768) by (intros P; apply D, PC, P). split.
    + destruct f; cbn [as_int]; try discriminate.
      * destruct (127 <? z0) eqn:G; [discriminate|]. intros [= ->]. apply tf_int; [exact N|lia].
      * destruct (is_int_enum e) eqn:I; [|discriminate]. destruct (127 <? z0) eqn:G; [discriminate|]. intros [= ->].
        apply tf_member; [exact N|apply int_enum_iff, I|lia].
    + intros T. inversion T as [f' z' P0 F M Ef Ez|z' N0 G Ef Ez|e z' N0 I G Ef Ez]; [contradiction| |]; subst z'; cbn [as_int]; [|rewrite (proj2 (int_enum_iff e) I)];
        (destruct (127 <? z) eqn:H; [lia|reflexivity]).
Qed.
Lemma tlv_field_err cls f e : oxm_field_int cls f = Err e -> e = ValueError.
Proof.
  unfold oxm_field_int. intros H.
  assert (X : forall z : Z, (if 127 <? z then Err ValueError else Ok z) = Err e -> e = ValueError) by (intros z; destruct (127 <? z); congruence).
  assert (Y : forall z : Z, (if is_member E_OxmOfbMatchField04 z then Ok z else Err ValueError) = Err e -> e = ValueError) by (intros z; destruct (is_member _ z); congruence).
  destruct (num_of f) as [zf|]; destruct (as_int f) as [zg|];
    repeat match goal with H : (match ?x with _ => _ end) = Err e |- _ => first [exact (X _ H)|exact (Y _ H)|destruct x] end; congruence.
Qed.
Lemma tlv_refused attrs cls f flag val e : built (VObj OxmTLV04 attrs) = true ->
  get_attr "oxm_class" attrs = Some cls -> get_attr "oxm_field" attrs = Some f -> get_attr "oxm_hasmask" attrs = Some flag -> get_attr "oxm_value" attrs = Some val ->
  pack (VObj OxmTLV04 attrs) = Err e <-> tlv_raises attrs cls f flag val e.
Proof.
  intros B G1 G2 G3 G4. pose proof (built_has _ _ B) as A.
  rewrite pack_object. change (pack_obj pack get_size get_size OxmTLV04 attrs) with (oxm_pack pack OxmTLV04 attrs).
  unfold oxm_pack, attr_or_error, tlv_raises. rewrite G1, G2, G3, G4. cbn [bind]. rewrite <- bin_pack_own.
  pose proof (tlv_field_iff cls f) as FI. pose proof (tlv_field_err cls f) as FE. pose proof (port_number_iff flag) as PI.
  destruct (oxm_field_int cls f) as [z|e'].
  2:{ rewrite (FE e' eq_refl). change (recast ValueError PackException (@Err Z ValueError)) with (@Err Z PackException). cbn [bind]. split; [intros [= <-]; left; split; [intros z H; apply FI in H; discriminate|reflexivity]|].
      intros [[_ ->]|(z & H & _)]; [reflexivity|apply FI in H; discriminate]. }
  cbn [recast bind]. assert (Z1 : tlv_field cls f z) by (apply FI; reflexivity).
  assert (ZU : forall z', tlv_field cls f z' -> z' = z) by (intros z' H; apply FI in H; congruence).
  destruct (num_of flag) as [h|e'] eqn:Nf; cbn [bind].
  2:{ assert (X : e' = TypeError).
      { unfold num_of in Nf. destruct flag; cbn [as_int] in Nf; try (destruct (as_int _)); try (destruct (is_int_enum _)); try discriminate Nf; injection Nf; auto. }
      subst e'. split; [intros [= <-]; right; exists z; split; [exact Z1|]; left; split; [intros h H; apply PI in H; discriminate|reflexivity]|].
      intros [[H _]|(z' & _ & [[_ ->]|(h & H & _)])]; [destruct (H z Z1)|reflexivity|apply PI in H; discriminate]. }
  assert (H1 : port_number flag h) by (apply PI; reflexivity).
  assert (HU : forall h', port_number flag h' -> h' = h) by (intros h' H; apply PI in H; congruence).
  assert (E : z * 2 + Z.land h 1 = 2 * z + h mod 2) by (change 1 with (Z.ones 1); rewrite Z.land_ones by lia; change (2 ^ 1) with 2; lia).
  rewrite E. clear E.
  transitivity (pack (VBin val) = Err e \/ exists b, pack (VBin val) = Ok b /\
    first_refused OxmTLV04 (set_attr "oxm_length" (VInt (zlen b)) (set_attr "oxm_field_and_mask" (VInt (2 * z + h mod 2)) attrs)) e).
  - destruct (pack (VBin val)) as [b|e'] eqn:Pb; cbn [bind].
    + rewrite struct_refused; [|apply has_set; [apply has_set; [exact A|apply (attr_there OxmTLV04); [exact A|reflexivity]]|]|reflexivity].
      * split; [intros F; right; exists b; auto|]. intros [?|(b' & [= <-] & F)]; [discriminate|exact F].
      * rewrite StructFacts.get_set_other by discriminate. apply (attr_there OxmTLV04); [exact A|reflexivity].
    + split; [intros [= ->]; left; reflexivity|]. intros [?|(b & ? & _)]; [assumption|discriminate].
  - split; [intros F; right; exists z; split; [exact Z1|]; right; exists h; split; [exact H1|exact F]|].
    intros [[N _]|(z' & Z2 & [[N _]|(h' & H2 & F)])]; [destruct (N z Z1)|destruct (N h H1)|]. rewrite (ZU _ Z2), (HU _ H2) in F. exact F.
Qed.
