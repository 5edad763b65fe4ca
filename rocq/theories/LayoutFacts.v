(** Structures are their fields in order: lemmas for C13. *)
From Coq Require Import ZArith List Bool String Lia.
From Verif Require Import Base PyText Ids PyVal Classes Interp SpecBasic SpecMutation SpecLayout ClassFacts BaseFacts IntFacts
  StructFacts DispatchFacts FuelFacts Totality MutationFacts MutationFacts2 MutationFacts3.
Import ListNotations.
Open Scope string_scope.
Open Scope list_scope.
Open Scope Z_scope.

Lemma pk n v b : pack0 n v = Ok b -> pack v = Ok b.
Proof. intros H. rewrite (pack_of n); [exact H|]. rewrite H. discriminate. Qed.

Lemma int_no_pack z : pack (VInt z) = Err AttributeError.
Proof. rewrite (pack_of 1); [reflexivity|discriminate]. Qed.
Lemma str_no_pack s : pack (VStr s) = Err AttributeError.
Proof. rewrite (pack_of 1); [reflexivity|discriminate]. Qed.

(** ** Integers *)
Lemma uint_ok w v b : uint_struct w v = Ok b -> exists z, as_int v = Some z /\ big_endian w z b.
Proof.
  unfold uint_struct. destruct (as_int v) as [z|]; [|discriminate]. intros H. exists z. split; [reflexivity|].
  unfold struct_pack_u in H. destruct ((0 <=? z) && _) eqn:E; [|discriminate]. cbn in H. injection H as <-.
  apply big_endian_encode. unfold fits. apply andb_prop in E as [E1 E2]. apply Z.leb_le in E1. apply Z.ltb_lt in E2. rewrite ulimit_pow in E2. split; assumption.
Qed.
Lemma as_int_plain v z : as_int v = Some z -> plain_int v z.
Proof. destruct v; try discriminate; cbn; [intros [= ->]; constructor|]. destruct (is_int_enum e); [|discriminate]. intros [= ->]. constructor. Qed.
Lemma generic_plain er v z : as_int (generic_value er v) = Some z -> plain_int v z \/ exists e, v = VMask e z.
Proof.
  unfold generic_value. cbv zeta.
  assert (M : as_int (match v with VMask _ z => VInt z | _ => v end) = Some z -> plain_int v z \/ exists e, v = VMask e z).
  { destruct v; try (intros H; left; apply as_int_plain; exact H). cbn. intros [= ->]. right. eauto. }
  destruct er as [e|]; [|exact M]. destruct (enum_def e); try exact M;
    (destruct v; try (intros H; left; apply as_int_plain; exact H); destruct (eid_eqb _ _);
     [cbn; intros [= ->]; left; constructor|intros H; left; apply as_int_plain; exact H]).
Qed.
Lemma uint_carried w er d iv b : uint_pack1 w er d iv = Ok b -> carried (VUInt w er d) iv b.
Proof.
  unfold uint_pack1. intros H.
  assert (G : exists z, stands_for (match iv with VNone => VUInt w er d | _ => iv end) z /\ big_endian w z b).
  { assert (G0 : forall x er', held x (match iv with VNone => VUInt w er d | _ => iv end) -> uint_struct w (generic_value er' x) = Ok b ->
      exists z, stands_for (match iv with VNone => VUInt w er d | _ => iv end) z /\ big_endian w z b).
    { intros x er' Hh Hu. apply uint_ok in Hu as (z & Hz & Hb). exists z. split; [|exact Hb]. right. exists x. split; [exact Hh|]. eapply generic_plain, Hz. }
    assert (G1 : iv <> VNone -> uint_struct w iv = Ok b -> exists z, stands_for iv z /\ big_endian w z b).
    { intros _ Hu. apply uint_ok in Hu as (z & Hz & Hb). exists z. split; [left; apply as_int_plain, Hz|exact Hb]. }
    destruct iv; cbn [dot_value] in H; try (apply (G1 ltac:(discriminate) H)); try (eapply G0; [|exact H]; constructor).
    - apply uint_ok in H as (z' & [= <-] & Hb). eexists. split; [left; constructor|exact Hb].
    - apply uint_ok in H as (z' & Hz & Hb). exists z'. split; [|exact Hb]. right. eexists. split; [constructor|left; apply as_int_plain, Hz]. }
  destruct G as (z & Hs & Hb). exact (k_uint w er d iv z b Hs Hb).
Qed.
Lemma uint_some w er d iv b : uint_pack1 w er d iv = Ok b -> exists z, big_endian w z b.
Proof.
  intros H. apply uint_carried in H. inversion H; subst. eauto.
Qed.

(** ** Lists *)
Lemma leaf_flat h : forall v, (height v <= h)%nat -> leaf_list v (flat v).
Proof.
  induction h as [|h IH]; intros v L; destruct v as [| | | | | | | | | | | | | |lc pc l]; try (constructor; intros; discriminate); cbn [height] in L; [lia|].
  rewrite flat_list, flat_map_concat_map. constructor.
  assert (A : forall x, In x l -> leaf_list x (flat x)).
  { intros x I. apply IH. pose proof (list_max_in height l x I). lia. }
  clear - A. induction l as [|x l IH]; [constructor|]. constructor; [apply A; left; reflexivity|]. apply IH. intros y I. apply A. right. exact I.
Qed.
Lemma enc_app l l' b b' : encodings l b -> encodings l' b' -> encodings (l ++ l') (b ++ b').
Proof.
  intros (p & F & ->) (p' & F' & ->). exists (p ++ p')%list. split; [apply Forall2_app; assumption|]. rewrite concat_app. reflexivity.
Qed.
Lemma leaf_enc n : forall v b, pack0 n v = Ok b -> encodings (flat v) b.
Proof.
  induction n as [|n IH]; intros v b H; [discriminate|].
  assert (One : forall x c, pack0 (S n) x = Ok c -> encodings [x] c).
  { intros x c P. exists [c]. split; [constructor; [eapply pk, P|constructor]|]. cbn. rewrite app_nil_r. reflexivity. }
  destruct v as [| | | | | | | | | | | | | |lc pc items]; try (cbn [flat]; apply One; exact H).
  rewrite flat_list. cbn [pack0] in H. destruct (cid_eqb lc CList); [discriminate|].
  revert b H. induction items as [|x l IHl]; intros b H.
  - cbn in H. injection H as <-. exists []. split; [constructor|reflexivity].
  - cbn [concatM] in H. destruct (has_pack x) eqn:Hx; [|discriminate]. destruct (pack0 n x) as [b1|] eqn:P; [|discriminate].
    cbn [bind] in H. destruct (concatM _ l) as [b2|]; [|discriminate]. cbn [bind] in H. injection H as <-. cbn [flat_map].
    apply enc_app; [apply IH; assumption|]. apply IHl. reflexivity.
Qed.
Lemma flat_leaf h : forall v x, (height v <= h)%nat -> In x (flat v) -> flat x = [x].
Proof.
  induction h as [|h IH]; intros v x L I; destruct v as [| | | | | | | | | | | | | |lc pc l]; try (cbn in I; destruct I as [<-|[]]; reflexivity); cbn [height] in L; [lia|].
  rewrite flat_list in I. apply in_flat_map in I as (y & J & I). eapply (IH y); [|exact I]. pose proof (list_max_in height l y J). lia.
Qed.
Lemma flat_flat l : flat_map flat (flat_map flat l) = flat_map flat l.
Proof.
  assert (A : forall x, In x (flat_map flat l) -> flat x = [x]).
  { intros x I. apply in_flat_map in I as (y & J & I). eapply flat_leaf; [apply le_n|exact I]. }
  revert A. generalize (flat_map flat l) as k. induction k as [|x k IH]; intros A; [reflexivity|]. cbn [flat_map].
  rewrite (A x) by (left; reflexivity). cbn. f_equal. apply IH. intros y I. apply A. right. exact I.
Qed.

(** ** One attribute *)
Definition plain_class_attr (cv : pyval) : bool :=
  match cv with
  | VObj c _ => match kind c with KSetField04 => false | _ => true end
  | VList lc pc l => match l with [] => negb (cid_eqb lc CList) && subclass lc CList | _ => false end
  | _ => true
  end.
Lemma class_attr_plain c cv : In cv (map snd (class_attrs c)) -> plain_class_attr cv = true.
Proof.
  intros I. assert (H : forallb plain_class_attr (map snd (class_attrs c)) = true) by (revert c I; intros c _; revert c; apply all_classes; vm_compute; reflexivity).
  rewrite forallb_forall in H. apply H, I.
Qed.
Lemma list_class_attrs lc : subclass lc CList = true -> class_attrs lc = [] /\ kind lc = KStruct.
Proof.
  intros H.
  assert (T : implb (subclass lc CList) (match class_attrs lc, kind lc with [], KStruct => true | _, _ => false end) = true)
    by (clear H; revert lc; apply all_classes; vm_compute; reflexivity).
  rewrite H in T. cbn in T. destruct (class_attrs lc); [|discriminate]. destruct (kind lc); try discriminate. split; reflexivity.
Qed.

Lemma list_subclass lc x : subclass lc CList = true -> subclass x lc = true -> subclass x CList = true.
Proof.
  intros H G.
  assert (T : forallb (fun x => implb (subclass lc CList && subclass x lc) (subclass x CList)) all_cids = true)
    by (clear H G; revert lc; apply all_classes; vm_compute; reflexivity).
  pose proof (all_classes _ T x) as E. cbn beta in E. rewrite H, G in E. exact E.
Qed.

Lemma pack1_carried n c cv iv b : In cv (map snd (class_attrs c)) -> pack1 (pack0 n) cv iv = Ok b -> carried cv iv b.
Proof.
  intros I H. apply class_attr_plain in I.
  destruct cv as [| | | | | |w er d|k|len d|d msk|d|d|d|oc oa|lc pc items]; try discriminate H.
  - apply uint_carried, H.
  - cbn in H. injection H as <-. constructor.
  - apply k_char. apply (pk 1). destruct iv; exact H.
  - apply k_ip. apply (pk 1). destruct iv; exact H.
  - apply k_hw. apply (pk 1). destruct iv; exact H.
  - apply k_dpid. apply (pk 1). destruct iv; exact H.
  - unfold pack1, bin_pack in H. fold (or_default d iv) in H. destruct (has_pack (or_default d iv)).
    + apply k_object. eapply pk, H.
    + destruct (or_default d iv) eqn:E; try discriminate.
      * injection H as <-. apply k_nothing, E.
      * injection H as <-. apply k_bytes, E.
  - unfold pack1 in H. cbn in I.
    assert (X : (subclass (class_of (or_default (VObj oc oa) iv)) oc = true \/ oc = OxmTLV04) /\ pack0 n (or_default (VObj oc oa) iv) = Ok b).
    { assert (Refl : subclass oc oc = true) by (unfold subclass; cbn [subclass_fuel]; rewrite cid_eqb_refl; reflexivity).
      assert (Ox : kind oc = KOxmTLV -> oc = OxmTLV04).
      { intros E. assert (Tb : match kind oc with KOxmTLV => cid_eqb oc OxmTLV04 | _ => true end = true) by (clear; revert oc; apply all_classes; vm_compute; reflexivity).
        rewrite E in Tb. apply cid_eqb_eq, Tb. }
      destruct iv; cbn [or_default]; [split; [left; exact Refl|exact H]|..];
        (destruct (kind oc); try discriminate I;
         match type of H with (if ?x then _ else _) = _ => destruct x eqn:Sc; [|discriminate] end; (split; [first [left; reflexivity|left; exact Sc|right; apply Ox; reflexivity]|exact H])). }
    destruct X as (X & P). apply k_struct; [exact X|]. apply (pk n), P.
  - cbn [plain_class_attr] in I. destruct items; [|discriminate]. unfold pack1 in H.
    assert (Wl : iv <> VNone -> (forall c0 a, iv <> VObj c0 a) ->
      (if subclass (class_of iv) lc then pack0 n iv else if cid_eqb lc CFixedTypeList then Err TypeError
       else do items <- list_extend pc iv; pack0 n (VList lc pc items)) = Ok b ->
      subclass (class_of iv) lc = false -> carried (VList lc pc []) iv b).
    { intros _ No G Sc. rewrite Sc in G. destruct (cid_eqb lc CFixedTypeList); [discriminate|].
      destruct (list_extend pc iv) as [items|] eqn:E; [|discriminate]. cbn [bind] in G.
      unfold list_extend in E. destruct (iterate iv) as [its|] eqn:Ei; [|discriminate]. cbn [bind] in E.
      apply check_items_same in E. subst items.
      apply leaf_enc in G. rewrite flat_list, flat_flat in G.
      destruct iv as [| |l|l| | | | | | | | | | |lc' pc' l]; try discriminate Ei.
      - destruct l as [|x l]; [cbn in Ei; injection Ei as <-; destruct G as (p & F & ->); inversion F; subst; apply k_empty; auto|].
        cbn in Ei. injection Ei as <-. destruct G as (p & F & _). cbn [map flat_map flat app] in F. inversion F as [|? ? ? ? P]; subst. first [rewrite int_no_pack in P|rewrite str_no_pack in P]; discriminate P.
      - destruct l as [|x l]; [cbn in Ei; injection Ei as <-; destruct G as (p & F & ->); inversion F; subst; apply k_empty; auto|].
        cbn in Ei. injection Ei as <-. destruct G as (p & F & _). cbn [map flat_map flat app] in F. inversion F as [|? ? ? ? P]; subst. first [rewrite int_no_pack in P|rewrite str_no_pack in P]; discriminate P.
      - injection Ei as <-. rewrite <- (flat_list lc' pc') in G. eapply k_list; [eapply leaf_flat, le_n|exact G]. }
    apply andb_prop in I as [_ I].
    destruct iv as [| | | | | |w er x|k|len x|x msk|x|x|x|ic ia|lc' pc' its];
      [destruct n as [|n]; [discriminate H|]; cbn [pack0 concatM] in H; destruct (cid_eqb lc CList); [discriminate H|]; injection H as <-; apply k_empty; auto|..];
      (destruct (subclass _ lc) eqn:Sc; [pose proof (list_subclass lc _ I Sc) as Cl|first [apply Wl; [discriminate|discriminate|exact H|reflexivity]|idtac]]);
      try discriminate Cl.
    + exfalso. destruct w as [|[|[|[|[|[|[|[|[|]]]]]]]]]; discriminate Cl.
    + cbn [class_of] in Cl. destruct (list_class_attrs _ Cl) as (Ca & Ck). destruct n as [|n]; [discriminate H|]. change (pack_obj (pack0 n) (size0 n) (size0 (S n)) ic ia = Ok b) in H.
      unfold pack_obj in H. rewrite Ck in H. unfold struct_pack, is_valid in H. rewrite Ck in H. cbn [bind] in H. unfold zip_attrs in H. rewrite Ca in H.
      cbn in H. injection H as <-. apply k_itemless, Ca.
    + exfalso. cbn [class_of] in Sc. destruct (cid_eqb lc CFixedTypeList); [discriminate|]. discriminate H.
    + eapply k_list; [eapply leaf_flat, le_n|]. eapply leaf_enc, H.
Qed.

(** ** The attributes in order *)
Definition packs (n : nat) (attrs : list (string * pyval)) (f : string * pyval) (part : bytes) : Prop :=
  exists iv, get_attr (fst f) attrs = Some iv /\ pack1 (pack0 n) (snd f) iv = Ok part.

Lemma get_mine c attrs name : is_class_attr c name = true -> get_attr name (mine c attrs) = get_attr name attrs.
Proof.
  intros M. induction attrs as [|[k x] l IH]; [reflexivity|]. unfold mine in *. cbn [filter fst get_attr].
  destruct (String.eqb_spec k name) as [->|N]; [rewrite M; cbn [get_attr]; rewrite String.eqb_refl; reflexivity|].
  destruct (is_class_attr c k); [cbn [get_attr]; destruct (String.eqb_spec k name); [congruence|]|]; exact IH.
Qed.
Lemma in_class_attr c name cv : In (name, cv) (class_attrs c) -> is_class_attr c name = true.
Proof. intros I. unfold is_class_attr. apply existsb_exists. exists (name, cv). split; [exact I|apply String.eqb_refl]. Qed.

Lemma zip_parts n A : forall F b, NoDup (map fst A) -> map fst F = map fst A ->
  concatM (fun p => pack1 (pack0 n) (fst p) (snd p)) (combine (map snd A) (map snd F)) = Ok b ->
  exists parts, b = List.concat parts /\ Forall2 (packs n F) A parts.
Proof.
  induction A as [|[k cv] A IH]; intros F b D E H; destruct F as [|[k' x] F]; try discriminate E.
  - cbn in H. injection H as <-. exists []. split; [reflexivity|constructor].
  - cbn in E. injection E as -> E. inversion D as [|? ? N D']; subst. cbn [map combine fst snd concatM] in H.
    destruct (pack1 (pack0 n) cv x) as [b1|] eqn:P; [|discriminate]. cbn [bind] in H.
    destruct (concatM _ _) as [b2|] eqn:C; [|discriminate]. cbn [bind] in H. injection H as <-.
    destruct (IH F b2 D' E C) as (parts & -> & F2). exists (b1 :: parts). split; [reflexivity|]. constructor.
    + exists x. cbn [fst snd get_attr]. rewrite String.eqb_refl. split; [reflexivity|exact P].
    + eapply forall2_in; [|exact F2]. intros [m mv] part I (iv & G & Q). exists iv. split; [|exact Q]. cbn [fst get_attr].
      destruct (String.eqb_spec k m) as [->|]; [|exact G]. exfalso. apply N. apply in_map_iff. exists (m, mv). split; [reflexivity|exact I].
Qed.
Lemma struct_parts n c attrs b : has_attributes c attrs = true -> struct_pack (pack0 n) c attrs = Ok b ->
  exists parts, b = List.concat parts /\ Forall2 (packs n attrs) (class_attrs c) parts.
Proof.
  intros A H. unfold struct_pack in H. destruct (is_valid c attrs) as [[]|]; try discriminate. cbn [bind] in H.
  unfold zip_attrs in H. fold (mine c attrs) in H.
  destruct (zip_parts n (class_attrs c) (mine c attrs) b (class_names_nodup c) (built_names c attrs A) H) as (parts & E & F).
  exists parts. split; [exact E|]. eapply forall2_in; [|exact F]. intros [m mv] part I (iv & G & Q). exists iv. split; [|exact Q].
  rewrite <- G. symmetry. apply get_mine. eapply in_class_attr, I.
Qed.

(** ** Each kind of object *)
Lemma class_get c name cv : In (name, cv) (class_attrs c) -> get_attr name (class_attrs c) = Some cv.
Proof. apply get_attr_nodup, class_names_nodup. Qed.

Section Parts.
  Variables (n : nat) (c : cid) (attrs : list (string * pyval)).
  Hypothesis G : good c attrs.

  (** An attribute that is not changed before the loop. *)
  Lemma part_same name cv iv part : In (name, cv) (class_attrs c) -> get_attr name attrs = Some iv ->
    pack1 (pack0 n) cv iv = Ok part -> part_of c attrs (name, cv) part.
  Proof.
    intros I Ga P. exists iv. cbn [fst snd]. split; [exact Ga|]. destruct (computed c name) eqn:C.
    - destruct (computed_uint c name C (in_class_attr _ _ _ I)) as (w & er & d & E). unfold lookup in E. rewrite (class_get _ _ _ I) in E. subst cv.
      destruct (uint_some _ _ _ _ _ P) as (z & Hz). exists w, er, d, z. split; [reflexivity|exact Hz].
    - left. eapply pack1_carried; [|exact P]. apply in_map_iff. exists (name, cv). split; [reflexivity|exact I].
  Qed.
  Lemma part_computed name cv v part : In (name, cv) (class_attrs c) -> computed c name = true ->
    pack1 (pack0 n) cv v = Ok part -> part_of c attrs (name, cv) part.
  Proof.
    intros I C P. destruct (good_has c attrs name G (in_class_attr _ _ _ I)) as (iv & Ga). exists iv. cbn [fst snd]. rewrite C. split; [exact Ga|].
    destruct (computed_uint c name C (in_class_attr _ _ _ I)) as (w & er & d & E). unfold lookup in E. rewrite (class_get _ _ _ I) in E. subst cv.
    destruct (uint_some _ _ _ _ _ P) as (z & Hz). exists w, er, d, z. split; [reflexivity|exact Hz].
  Qed.

  (** The loop over the attributes [attrs'] packs parts of [attrs]. *)
  Definition packs_as (attrs' : list (string * pyval)) : Prop :=
    has_attributes c attrs' = true /\
    forall name cv iv part, In (name, cv) (class_attrs c) -> get_attr name attrs' = Some iv ->
      pack1 (pack0 n) cv iv = Ok part -> part_of c attrs (name, cv) part.
  Lemma packs_as_same : packs_as attrs.
  Proof. split; [apply G|]. exact part_same. Qed.
  Lemma packs_as_set name v attrs' : packs_as attrs' -> is_class_attr c name = true ->
    (forall cv part, In (name, cv) (class_attrs c) -> pack1 (pack0 n) cv v = Ok part -> part_of c attrs (name, cv) part) ->
    packs_as (set_attr name v attrs').
  Proof.
    intros (A & B) M H. split.
    - rewrite (has_attributes_names c attrs'); [exact A|]. apply set_names.
      assert (I : In name (map fst (mine c attrs'))).
      { rewrite (built_names _ _ A). unfold is_class_attr in M. apply existsb_exists in M as (q & J & E). apply String.eqb_eq in E. subst name. apply in_map, J. }
      intros E. clear - I E. apply in_map_iff in I as ([k x] & Ek & I). cbn in Ek. subst k. unfold mine in I. apply filter_In in I as (I & _).
      induction attrs' as [|[k y] l IH]; [destruct I|]. cbn in E. destruct (String.eqb_spec k name); [discriminate|]. destruct I as [[= -> ->]|I]; [congruence|]. apply IH; assumption.
    - intros m cv iv part I Ga P. destruct (string_dec m name) as [->|N].
      + rewrite get_set_same in Ga. injection Ga as <-. apply H; assumption.
      + rewrite get_set_other in Ga by exact N. eapply B; eassumption.
  Qed.
  Lemma struct_as attrs' b : packs_as attrs' -> struct_pack (pack0 n) c attrs' = Ok b ->
    exists parts, b = List.concat parts /\ Forall2 (part_of c attrs) (class_attrs c) parts.
  Proof.
    intros (A & B) H. destruct (struct_parts n c attrs' b A H) as (parts & E & F). exists parts. split; [exact E|].
    eapply forall2_in; [|exact F]. intros [name cv] part I (iv & Ga & P). eapply B; eassumption.
  Qed.
  Lemma message_as size attrs' b : packs_as attrs' -> get_attr "header" attrs' = get_attr "header" attrs ->
    message_pack (pack0 n) size c attrs' = Ok b ->
    exists parts, b = List.concat parts /\ Forall2 (part_of c attrs) (class_attrs c) parts.
  Proof.
    intros A Eh H. unfold message_pack in H. destruct (size _) as [s|]; [|discriminate]. cbn [bind] in H. unfold attr_or_error in H. rewrite Eh in H.
    destruct (get_attr "header" attrs) as [h|] eqn:Gh; [|discriminate]. cbn [bind] in H. destruct h as [| | | | | | | | | | | | |hc ha|]; try discriminate.
    eapply struct_as; [|exact H].
    destruct (is_class_attr c "header") eqn:M.
    - apply packs_as_set; [exact A|exact M|]. intros cv part I P. exists (VObj hc ha). cbn [fst snd]. split; [exact Gh|].
      destruct (computed c "header") eqn:C.
      + destruct (computed_uint c "header" C M) as (w & er & d & E). unfold lookup in E. rewrite (class_get _ _ _ I) in E. subst cv.
        destruct (uint_some _ _ _ _ _ P) as (z & Hz). exists w, er, d, z. split; [reflexivity|exact Hz].
      + right. split; [reflexivity|]. exists hc, ha, s. split; [reflexivity|]. pose proof (header_table_ok c) as T. unfold header_table in T.
        rewrite (class_get _ _ _ I) in T. destruct cv as [| | | | | | | | | | | | |kc ka|]; try discriminate. apply (pk n).
        destruct kc; try discriminate T; cbn [pack1] in P; (destruct (subclass _ _); [|discriminate]); exact P.
    - destruct A as (A1 & A2). split.
      + rewrite (has_attributes_names c attrs'); [exact A1|]. apply set_names. rewrite Eh. discriminate.
      + intros m cv iv part I Ga P. destruct (string_dec m "header") as [->|N]; [rewrite (in_class_attr _ _ _ I) in M; discriminate|].
        rewrite get_set_other in Ga by exact N. eapply A2; eassumption.
  Qed.
End Parts.

Definition attr_table (c : cid) : bool :=
  let own name := is_class_attr c name in
  let bin name := match get_attr name (class_attrs c) with Some (VBin _) => true | _ => false end in
  match kind c with
  | KLen _ true | KTyped TInstruction | KTyped TProperty => computed c "length" && own "length"
  | KSetField04 => computed c "length" && own "length" && subclass c ActionSetField04
  | KMatch04 => computed c "length" && own "length" && cid_eqb c Match04
  | KOxmTLV => computed c "oxm_length" && own "oxm_length" && computed c "oxm_field_and_mask" && own "oxm_field_and_mask"
  | KPacketOut01 | KPacketOut04 => computed c "actions_len" && own "actions_len"
  | KErrorMsg01 => bin "data" && negb (computed c "data")
  | KStatsRequest | KStatsReply | KMultipartRequest | KMultipartReply => bin "body" && negb (computed c "body")
  | _ => true
  end.
Lemma attr_table_ok c : attr_table c = true.
Proof. revert c. apply all_classes. vm_compute. reflexivity. Qed.
Lemma bin_attr c name : match get_attr name (class_attrs c) with Some (VBin _) => true | _ => false end = true ->
  is_class_attr c name = true /\ (forall cv, In (name, cv) (class_attrs c) -> exists d, cv = VBin d).
Proof.
  intros H. destruct (get_attr name (class_attrs c)) as [cv|] eqn:E; [|discriminate]. split.
  - apply get_attr_In in E. eapply in_class_attr, E.
  - intros cv' I. rewrite (class_get _ _ _ I) in E. injection E as ->. destruct cv; try discriminate. eauto.
Qed.

Lemma obj_parts n c attrs b : good c attrs -> pack0 (S n) (VObj c attrs) = Ok b ->
  exists parts k, b = (List.concat parts ++ repeat 0 k)%list /\ (is_filled c \/ k = O) /\
    Forall2 (part_of c attrs) (class_attrs c) parts.
Proof.
  intros G H. change (pack_obj (pack0 n) (size0 n) (size0 (S n)) c attrs = Ok b) in H.
  assert (W : (exists parts, b = List.concat parts /\ Forall2 (part_of c attrs) (class_attrs c) parts) ->
    exists parts k, b = (List.concat parts ++ repeat 0 k)%list /\ (is_filled c \/ k = O) /\ Forall2 (part_of c attrs) (class_attrs c) parts).
  { intros (parts & E & F). exists parts, O. cbn [repeat]. rewrite app_nil_r. auto. }
  pose proof (packs_as_same n c attrs G) as S0.
  pose proof (attr_table_ok c) as T. unfold attr_table in T. unfold pack_obj in H.
  assert (SetC : forall name v a, packs_as n c attrs a -> is_class_attr c name = true -> computed c name = true -> packs_as n c attrs (set_attr name v a)).
  { intros name v a A M C. apply packs_as_set; [exact A|exact M|]. intros cv part I P. eapply part_computed; eassumption. }
  assert (Len : forall s, computed c "length" && is_class_attr c "length" = true -> struct_pack (pack0 n) c (set_attr "length" (VInt s) attrs) = Ok b ->
    exists parts, b = List.concat parts /\ Forall2 (part_of c attrs) (class_attrs c) parts).
  { intros s Hc P. apply andb_prop in Hc as [C M]. eapply struct_as; [|exact P]. apply SetC; assumption. }
  (* an attribute replaced by its bytes *)
  assert (Swap : forall name d y b1 size, get_attr name attrs = Some d -> name <> "header" ->
    match get_attr name (class_attrs c) with Some (VBin _) => true | _ => false end && negb (computed c name) = true ->
    y = VBytes b1 \/ y = VBin (VBytes b1) -> (forall dflt, carried (VBin dflt) d b1) ->
    message_pack (pack0 n) size c (set_attr name y attrs) = Ok b ->
    exists parts, b = List.concat parts /\ Forall2 (part_of c attrs) (class_attrs c) parts).
  { intros name d y b1 size Gd Nh Hb Hy Hc P. apply andb_prop in Hb as [Hb Nc]. apply bin_attr in Hb as [M Hb]. apply negb_true_iff in Nc.
    eapply message_as; [| |exact P]; [|apply get_set_other; congruence].
    apply packs_as_set; [exact S0|exact M|]. intros cv part I Q. destruct (Hb cv I) as (dflt & ->).
    assert (part = b1).
    { destruct Hy as [-> | ->]; [injection Q as <-; reflexivity|]. destruct n as [|n']; [discriminate Q|]. injection Q as <-. reflexivity. }
    subst part. exists d. cbn [fst snd]. rewrite Nc. split; [exact Gd|left; apply Hc]. }
  assert (Obj : forall d b1, has_pack d = true -> pack0 n d = Ok b1 -> forall dflt, carried (VBin dflt) d b1).
  { intros d b1 Hp P dflt. apply k_object. apply (pk n). destruct d; try discriminate Hp; exact P. }
  assert (Msg : forall size, message_pack (pack0 n) size c attrs = Ok b ->
    exists parts, b = List.concat parts /\ Forall2 (part_of c attrs) (class_attrs c) parts).
  { intros size P. eapply message_as; [exact S0|reflexivity|exact P]. }
  assert (Pout : forall lc, computed c "actions_len" && is_class_attr c "actions_len" = true ->
    packet_out_pack (pack0 n) (size0 n) (size0 (S n)) lc c attrs = Ok b ->
    exists parts, b = List.concat parts /\ Forall2 (part_of c attrs) (class_attrs c) parts).
  { intros lc Hc P. apply andb_prop in Hc as [C M]. unfold packet_out_pack in P. destruct (attr_or_error "actions" attrs) as [acts|]; [|discriminate]. cbn [bind] in P.
    match type of P with bind ?r _ = _ => destruct r as [alen|]; [|discriminate] end. cbn [bind] in P.
    eapply message_as; [| |exact P]; [|apply get_set_other; discriminate]. apply SetC; assumption. }
  assert (Mp : forall reply, match get_attr "body" (class_attrs c) with Some (VBin _) => true | _ => false end && negb (computed c "body") = true ->
    multipart_pack (pack0 n) (size0 n) (size0 (S n)) reply c attrs = Ok b ->
    exists parts, b = List.concat parts /\ Forall2 (part_of c attrs) (class_attrs c) parts).
  { intros reply Hc P. unfold multipart_pack, attr_or_error in P. destruct (get_attr "body" attrs) as [body|] eqn:Gb; [|discriminate]. cbn [bind] in P.
    destruct (truthy (size0 n) body) as [[|]|]; cbn [bind] in P; [|apply (Msg _ P)|discriminate].
    assert (One : (if has_pack body then do b <- pack0 n body; message_pack (pack0 n) (size0 (S n)) c (set_attr "body" (VBytes b) attrs) else Err UnboundLocalError) = Ok b ->
      exists parts, b = List.concat parts /\ Forall2 (part_of c attrs) (class_attrs c) parts).
    { destruct (has_pack body) eqn:Hp; [|discriminate]. destruct (pack0 n body) as [b1|] eqn:P1; [|discriminate]. cbn [bind]. intros Q.
      eapply Swap; [exact Gb|discriminate|exact Hc|left; reflexivity|apply Obj; eassumption|exact Q]. }
    destruct body as [| | | | | | | | | | | | | |lc pc items]; try (apply One; exact P). clear One.
    destruct (get_attr "multipart_type" attrs) as [mt|]; [|discriminate]. cbn [bind] in P.
    destruct (body_instance reply mt) as [inst|]; [|discriminate]. cbn [bind] in P. destruct inst as [| | | | | | | | | | | | | |ilc ipc iits]; try discriminate.
    destruct (list_extend ipc (VList lc pc items)) as [its|] eqn:El; [|discriminate]. cbn [bind] in P.
    unfold list_extend in El. cbn [iterate bind] in El. apply check_items_same in El. subst its.
    destruct (pack0 n (VList ilc ipc (flat_map flat items))) as [b1|] eqn:P1; [|discriminate]. cbn [bind] in P.
    eapply Swap; [exact Gb|discriminate|exact Hc|left; reflexivity| |exact P].
    intros dflt. apply leaf_enc in P1. rewrite flat_list, flat_flat, <- (flat_list lc pc) in P1. eapply k_objects; [eapply leaf_flat, le_n|exact P1]. }
  assert (Stc : struct_pack (pack0 n) c attrs = Ok b -> exists parts, b = List.concat parts /\ Forall2 (part_of c attrs) (class_attrs c) parts).
  { intros P. eapply struct_as; [exact S0|exact P]. }
  destruct (kind c) as [| |pos [|]|[| |]| | | | | | | | | | | | | | | |] eqn:K.
  all: try (apply W, Stc, H).
  all: try (apply W; apply (Msg _ H)).
  all: try (apply W; apply (Pout _ T H)).
  all: try (apply W; apply (Mp _ T H)).
  all: try (destruct (size0 (S n) (VObj c attrs)) as [s|]; [|discriminate]; cbn [bind] in H; apply W, (Len s T H)).
  - (* ActionSetField *)
    apply andb_prop in T as [T Sb]. apply andb_prop in T as [C M].
    unfold setfield_pack in H. destruct (attr_or_error "field" attrs) as [f|]; [|discriminate]. cbn [bind] in H.
    match type of H with bind ?r _ = _ => destruct r as [fb|]; [|discriminate] end. cbn [bind] in H. cbv zeta in H.
    match type of H with bind ?r _ = _ => destruct r as [p|] eqn:P; [|discriminate] end. cbn [bind] in H. injection H as <-.
    apply struct_as with (attrs := attrs) in P as (parts & -> & F); [|apply SetC; assumption].
    eexists parts, _. split; [reflexivity|]. split; [left; right; exact Sb|exact F].
  - (* OxmTLV *)
    apply andb_prop in T as [T M2]. apply andb_prop in T as [T C2]. apply andb_prop in T as [C M].
    unfold oxm_pack in H.
    repeat match type of H with bind ?r _ = _ => destruct r; [|discriminate]; cbn [bind] in H end.
    apply W. eapply struct_as; [|exact H]. apply SetC; [|assumption|assumption]. apply SetC; assumption.
  - (* Match *)
    apply andb_prop in T as [T Sb]. apply andb_prop in T as [C M].
    unfold match04_pack in H. destruct (struct_size _ _ _) as [s|]; [|discriminate]. cbn [bind] in H. cbv zeta in H.
    match type of H with bind ?r _ = _ => destruct r as [p|] eqn:P; [|discriminate] end. cbn [bind] in H.
    match type of H with bind ?r _ = _ => destruct r as [pad|]; [|discriminate] end. cbn [bind] in H. injection H as <-.
    apply struct_as with (attrs := attrs) in P as (parts & -> & F); [|apply SetC; assumption].
    eexists parts, _. split; [reflexivity|]. split; [|exact F]. left. left. apply cid_eqb_eq, Sb.
  - (* ErrorMsg *)
    apply W. unfold error_pack01, attr_or_error in H. destruct (get_attr "data" attrs) as [d|] eqn:Gd; [|discriminate]. cbn [bind] in H.
    destruct d; try (apply (Msg _ H));
      (match type of H with (if ?x then _ else _) = _ => destruct x eqn:Hp; [|discriminate] end);
      (match type of H with bind ?r _ = _ => destruct r as [b1|] eqn:P1; [|discriminate] end); cbn [bind] in H;
      (eapply Swap; [exact Gd|discriminate|exact T|left; reflexivity|apply Obj; eassumption|exact H]).
  - (* StatsRequest *)
    apply W. unfold stats_request_pack, attr_or_error in H. destruct (get_attr "body" attrs) as [d|] eqn:Gd; [|discriminate]. cbn [bind] in H.
    destruct (has_pack d) eqn:Hp; [|apply (Msg _ H)].
    destruct (pack0 n d) as [b1|] eqn:P1; [|discriminate]. cbn [bind] in H.
    eapply Swap; [exact Gd|discriminate|exact T|left; reflexivity|apply Obj; eassumption|exact H].
  - (* StatsReply *)
    apply W. unfold stats_reply_pack, attr_or_error in H. destruct (get_attr "body" attrs) as [d|] eqn:Gd; [|discriminate]. cbn [bind] in H.
    destruct (truthy (size0 n) d) as [t|]; [|discriminate]. cbn [bind] in H. destruct (t && has_pack d) eqn:E; [|apply (Msg _ H)].
    apply andb_prop in E as [_ Hp]. destruct (pack0 n d) as [b1|] eqn:P1; [|discriminate]. cbn [bind] in H.
    eapply Swap; [exact Gd|discriminate|exact T|right; reflexivity|apply Obj; eassumption|exact H].
Qed.

Lemma in_order c attrs bs : built (VObj c attrs) = true -> pack (VObj c attrs) = Ok bs ->
  exists parts k, bs = (List.concat parts ++ repeat 0 k)%list /\ (is_filled c \/ k = O) /\
    Forall2 (part_of c attrs) (class_attrs c) parts.
Proof.
  intros B P. apply good_built in B. apply pack_eq in P. revert P. generalize (FUEL + height (VObj c attrs))%nat as N. intros [|n] P; [discriminate P|].
  exact (obj_parts n c attrs bs B P).
Qed.

(** ** Widths *)
Lemma be_len w z b : big_endian w z b -> List.length b = w.
Proof. intros (L & _). exact L. Qed.
Definition leaf_width (cv : pyval) : option nat :=
  match cv with
  | VUInt w _ _ => Some w
  | VPad k => Some k
  | VChar (S n) _ => Some (S n)
  | VIP _ _ => Some 4%nat
  | VHW _ => Some 6%nat
  | VDPID _ => Some 8%nat
  | _ => None
  end.
Lemma seq_len w n l b : struct_pack_seq w n l = Ok b -> List.length b = (w * n)%nat.
Proof.
  unfold struct_pack_seq. destruct (Nat.eqb_spec (List.length l) n) as [<-|]; [|discriminate]. revert b.
  induction l as [|z l IH]; intros b H; cbn [struct_pack_us] in H; [injection H as <-; cbn; lia|].
  destruct (struct_pack_u w z) as [b1|] eqn:E; [|discriminate]. cbn [bind] in H. destruct (struct_pack_us w l) as [b2|]; [|discriminate].
  cbn [bind] in H. injection H as <-. rewrite app_length, (IH b2 eq_refl). unfold struct_pack_u in E. destruct (_ && _); [|discriminate].
  injection E as <-. rewrite be_encode_length. cbn [List.length]. lia.
Qed.
Lemma recast_ok {A} x y (r : res A) a : recast x y r = Ok a -> r = Ok a.
Proof. destruct r as [|e]; cbn; [auto|]. destruct (exn_eqb e x); discriminate. Qed.
Lemma char_len n v b : char_bytes (S n) v = Ok b -> List.length b = S n.
Proof.
  unfold char_bytes. destruct v as [| |s| | | | | | | | | | | |]; try discriminate. destruct (forallb _ _); [|discriminate]. cbv zeta.
  remember (firstn (S n) (s ++ zeros (S n))%list) as p eqn:Ep. intros [= <-].
  rewrite app_length. cbn [List.length].
  assert (R : forall l : bytes, List.length (removelast l) = pred (List.length l)).
  { induction l as [|x [|y l] IH]; [reflexivity|reflexivity|]. change (S (List.length (removelast (y :: l))) = S (List.length l)). rewrite IH. reflexivity. }
  rewrite R, Ep, firstn_length, app_length. unfold zeros. rewrite repeat_length. lia.
Qed.
Lemma ip_len v b : ip_bytes v = Ok b -> List.length b = 4%nat.
Proof.
  unfold ip_bytes. destruct v; try discriminate. cbv zeta. destruct (mapM _ _); [|discriminate]. cbn [bind]. intros H.
  apply recast_ok, seq_len in H. exact H.
Qed.
Lemma hw_len v b : hw_bytes v = Ok b -> List.length b = 6%nat.
Proof.
  unfold hw_bytes. cbv zeta. destruct (if equals_zero v then _ else _); try discriminate. destruct (mapM _ _); [|discriminate]. cbn [bind]. intros H.
  apply recast_ok, seq_len in H. exact H.
Qed.
Lemma dpid_len v b : dpid_bytes v = Ok b -> List.length b = 8%nat.
Proof.
  unfold dpid_bytes. destruct v; try discriminate. destruct (mapM _ _); [|discriminate]. cbn [bind]. intros H. apply seq_len in H. exact H.
Qed.
Lemma pack1_step v b : pack v = Ok b -> pack0 1 v <> Err OutOfFuel -> pack0 1 v = Ok b.
Proof. intros H N. rewrite <- (pack_of 1 v N). exact H. Qed.

Definition same_char (cv iv : pyval) : bool :=
  match cv, iv with VChar n _, VChar n' _ => Nat.eqb n n' | _, _ => true end.
Lemma carried_width cv iv b w : carried cv iv b -> leaf_width cv = Some w -> same_char cv iv = true -> List.length b = w.
Proof.
  intros C L Sm. destruct C as [w0 er d iv z bs _ B|k iv|len d iv bs P|d m iv bs P|d iv bs P|d iv bs P| | | | | | | |]; try discriminate L; cbn in L.
  - injection L as <-. eapply be_len, B.
  - injection L as <-. apply repeat_length.
  - destruct len as [|len]; [discriminate|]. injection L as <-.
    assert (X : exists x, match iv with VChar _ _ => iv | _ => VChar (S len) (or_default d iv) end = VChar (S len) x).
    { destruct iv; try (eexists; reflexivity). cbn in Sm. destruct len0 as [|len']; [discriminate|]. apply Nat.eqb_eq in Sm. subst. eexists. reflexivity. }
    destruct X as (x & E). rewrite E in P. apply pack1_step in P; [|apply nf_char_pack1]. eapply char_len, P.
  - injection L as <-.
    assert (X : exists x m', match iv with VIP _ _ => iv | _ => VIP (or_default d iv) m end = VIP x m') by (destruct iv; do 2 eexists; reflexivity).
    destruct X as (x & m' & E). rewrite E in P. apply pack1_step in P; [|apply nf_ip_pack1]. eapply ip_len, P.
  - injection L as <-.
    assert (X : exists x, match iv with VHW _ => iv | _ => VHW (or_default d iv) end = VHW x) by (destruct iv; eexists; reflexivity).
    destruct X as (x & E). rewrite E in P. apply pack1_step in P; [|apply nf_hw_pack1]. eapply hw_len, P.
  - injection L as <-.
    assert (X : exists x, match iv with VDPID _ => iv | _ => VDPID (or_default d iv) end = VDPID x) by (destruct iv; eexists; reflexivity).
    destruct X as (x & E). rewrite E in P. apply pack1_step in P; [|apply nf_dpid_pack1]. eapply dpid_len, P.
Qed.
Lemma regular_attr c attrs name iv cv : regular (VObj c attrs) = true -> get_attr name attrs = Some iv ->
  get_attr name (class_attrs c) = Some cv -> same_char cv iv = true /\ regular iv = true.
Proof.
  cbn [regular]. intros H G K. apply andb_prop in H as [_ H]. rewrite forallb_forall in H. apply get_attr_In in G. specialize (H _ G). cbn [fst snd] in H.
  rewrite K in H. apply andb_prop in H as [H1 H2]. split; [|exact H2]. destruct cv; try reflexivity. destruct iv; try reflexivity. exact H1.
Qed.

(** Structures all of whose fields are basic. *)
Fixpoint widths (l : list (string * pyval)) : option nat :=
  match l with
  | [] => Some O
  | (_, cv) :: tl => match leaf_width cv, widths tl with Some a, Some b => Some (a + b)%nat | _, _ => None end
  end.
Lemma leaf_part c attrs name cv part w : regular (VObj c attrs) = true -> In (name, cv) (class_attrs c) -> leaf_width cv = Some w ->
  part_of c attrs (name, cv) part -> List.length part = w.
Proof.
  intros R I L (iv & G & P). cbn [fst snd] in *. destruct (regular_attr c attrs name iv cv R G (class_get _ _ _ I)) as (Sm & _).
  destruct (computed c name).
  - destruct P as (w' & er & d & z & -> & B). cbn in L. injection L as <-. eapply be_len, B.
  - destruct P as [P|(-> & _)]; [eapply carried_width; eassumption|].
    exfalso. pose proof (header_table_ok c) as T. unfold header_table in T. rewrite (class_get _ _ _ I) in T.
    destruct cv; try discriminate.
Qed.
Lemma flat_len c attrs bs w : built (VObj c attrs) = true -> regular (VObj c attrs) = true -> ~ is_filled c -> widths (class_attrs c) = Some w ->
  pack (VObj c attrs) = Ok bs -> List.length bs = w.
Proof.
  intros B R Nf W P. destruct (in_order c attrs bs B P) as (parts & k & -> & [F| ->] & Fp); [contradiction|]. cbn [repeat]. rewrite app_nil_r.
  assert (A : forall p part, In p (class_attrs c) -> part_of c attrs p part -> forall x, leaf_width (snd p) = Some x -> List.length part = x).
  { intros [name cv] part I Q x L. eapply leaf_part; eassumption. }
  revert A. clear - Fp W. revert w W. induction Fp as [|[name cv] part l parts Q F IH]; intros w W A; cbn in W; [injection W as <-; reflexivity|].
  destruct (leaf_width cv) as [x|] eqn:L; [|discriminate]. destruct (widths l) as [y|]; [|discriminate]. injection W as <-.
  cbn [List.concat]. rewrite app_length. rewrite (A _ _ (or_introl eq_refl) Q x L). rewrite (IH y eq_refl); [reflexivity|].
  intros p q I. apply A. right. exact I.
Qed.

(** Structures inside others: one class only, basic fields. *)
Definition nested_width (kc : cid) : option nat :=
  if forallb (fun x => implb (subclass x kc) (cid_eqb x kc)) all_cids && negb (subclass kc CList)
     && negb (cid_eqb kc Match04) && negb (subclass kc ActionSetField04) && negb (cid_eqb kc OxmTLV04)
     && negb (existsb (cid_eqb kc) [CNone; CInt; CStr; CBytes; CEnumMember; CMaskObj; CUBInt8; CUBInt16; CUBInt32; CUBInt64;
          CUBIntOther; CPad; CChar; CIPAddress; CHWAddress; CDPID; CBinaryData])
  then widths (class_attrs kc) else None.
Definition attr_width (cv : pyval) : option nat :=
  match cv with
  | VObj kc ka => if built cv && regular cv then nested_width kc else None
  | _ => leaf_width cv
  end.
Lemma nested_len kc w v bs : nested_width kc = Some w -> built v = true -> regular v = true -> subclass (class_of v) kc = true ->
  pack v = Ok bs -> List.length bs = w.
Proof.
  unfold nested_width. intros H B R Sc P.
  destruct (forallb _ all_cids) eqn:H1; [|discriminate]. destruct (subclass kc CList) eqn:H2; [discriminate|].
  destruct (cid_eqb kc Match04) eqn:H3; [discriminate|]. destruct (subclass kc ActionSetField04) eqn:H4; [discriminate|].
  destruct (cid_eqb kc OxmTLV04) eqn:H5; [discriminate|]. destruct (existsb _ _) eqn:H6; [discriminate|]. cbn in H.
  pose proof (all_classes _ H1 (class_of v)) as E. cbn beta in E. rewrite Sc in E. cbn in E. apply cid_eqb_eq in E.
  assert (Nb : ~ In kc [CNone; CInt; CStr; CBytes; CEnumMember; CMaskObj; CUBInt8; CUBInt16; CUBInt32; CUBInt64;
          CUBIntOther; CPad; CChar; CIPAddress; CHWAddress; CDPID; CBinaryData]).
  { intros I. assert (X : existsb (cid_eqb kc) [CNone; CInt; CStr; CBytes; CEnumMember; CMaskObj; CUBInt8; CUBInt16; CUBInt32; CUBInt64;
          CUBIntOther; CPad; CChar; CIPAddress; CHWAddress; CDPID; CBinaryData] = true) by (apply existsb_exists; exists kc; split; [exact I|apply cid_eqb_refl]). congruence. }
  destruct v as [| | | | | |w0 er x| | | | | | |c attrs|lc pc items]; cbn [class_of] in E;
    try (exfalso; apply Nb; rewrite <- E; cbn; tauto).
  - exfalso. apply Nb. rewrite <- E. destruct w0 as [|[|[|[|[|[|[|[|[|]]]]]]]]]; cbn; tauto.
  - subst c. eapply flat_len; try eassumption. intros [->|F]; [discriminate H3|congruence].
  - subst lc. cbn [regular] in R. apply andb_prop in R as [R _]. congruence.
Qed.

Lemma regular_set name z c attrs : regular (VObj c attrs) = true -> regular (VObj c (set_attr name (VInt z) attrs)) = true.
Proof.
  cbn [regular]. intros H. apply andb_prop in H as [H1 H2]. rewrite H1. cbn [andb]. rewrite forallb_forall in *. intros [k x] I. cbn [fst snd].
  apply set_attr_in in I as [->|I]; [|apply (H2 _ I)].
  destruct (get_attr k (class_attrs c)) as [[]|]; reflexivity.
Qed.
Lemma field_part c attrs name cv part w : built (VObj c attrs) = true -> regular (VObj c attrs) = true -> In (name, cv) (class_attrs c) ->
  attr_width cv = Some w -> part_of c attrs (name, cv) part -> List.length part = w.
Proof.
  intros B R I W P.
  assert (Lf : leaf_width cv = Some w -> List.length part = w) by (intros L; eapply leaf_part; eassumption).
  destruct cv as [| | | | | | | | | | | | |kc ka|]; try (apply Lf; exact W). clear Lf.
  unfold attr_width in W. destruct (built (VObj kc ka)) eqn:Bc; [|discriminate]. destruct (regular (VObj kc ka)) eqn:Rc; [|discriminate]. cbn [andb] in W.
  destruct P as (iv & G & P). cbn [fst snd] in *. apply good_built in B. destruct (good_get c attrs name iv B G) as (Bi & Hi).
  destruct (regular_attr c attrs name iv _ R G (class_get _ _ _ I)) as (_ & Ri).
  assert (Ox : kc <> OxmTLV04). { intros ->. unfold nested_width in W. rewrite (cid_eqb_refl OxmTLV04) in W. cbn [negb] in W. rewrite !andb_false_r in W. discriminate W. }
  destruct (computed c name); [destruct P as (w' & er & d & z & E & _); discriminate E|].
  destruct P as [P|(-> & hc & h & z & -> & P)].
  - inversion P as [| | | | | | | | | |c0 a0 iv0 bs0 Sc Pk| | |]; subst. destruct Sc as [Sc|Sc]; [|contradiction].
    eapply nested_len; [exact W| | |exact Sc|exact Pk]; destruct iv; cbn [or_default]; assumption.
  - pose proof (header_table_ok c) as T. unfold header_table in T. rewrite (class_get _ _ _ I) in T.
    unfold header_ok in Hi. cbn in Hi. apply good_built in Bi as Gi.
    assert (Hl : get_attr "length" h <> None).
    { assert (M : is_class_attr hc "length" = true) by (destruct hc; try discriminate Hi; reflexivity).
      destruct (good_has hc h "length" Gi M) as (x & ->). discriminate. }
    assert (Bh : built (VObj hc (set_attr "length" (VInt z) h)) = true) by (apply good_built, good_set; [exact Gi|exact Hl|reflexivity|reflexivity]).
    pose proof (regular_set "length" z hc h Ri) as Rh.
    assert (X : exists y, nested_width hc = Some y /\ y = w).
    { destruct hc; try discriminate Hi; destruct kc; try discriminate T; eexists; (split; [vm_compute; reflexivity|]); vm_compute in W; injection W as <-; reflexivity. }
    destruct X as (y & Wy & ->). eapply nested_len; [exact Wy|exact Bh|exact Rh| |exact P]. cbn [class_of]. destruct hc; try discriminate Hi; reflexivity.
Qed.

Fixpoint layout_ok (l : list (string * nat)) (A : list (string * pyval)) : bool :=
  match l, A with
  | [], _ => true
  | (n, k) :: l', (m, cv) :: A' =>
      String.eqb n m && match attr_width cv with Some x => Nat.eqb x k | None => false end && layout_ok l' A'
  | _, [] => false
  end.
Lemma layouts_ok c : match openflow_layout c with
                     | Some (l, t) => layout_ok l (class_attrs c) && Nat.eqb t (list_sum (map snd l)) &&
                                      (negb (Nat.eqb (List.length l) (List.length (class_attrs c))) ||
                                       negb (cid_eqb c Match04) && negb (subclass c ActionSetField04))
                     | None => true
                     end = true.
Proof. revert c. apply all_classes. vm_compute. reflexivity. Qed.

Lemma slice_here {A} (p x r : list A) : slice (List.length p) (List.length p + List.length x) (p ++ x ++ r)%list = x.
Proof. apply slice_mid; reflexivity. Qed.

Lemma placed_parts c attrs : forall l A parts (pre post : bytes), layout_ok l A = true ->
  (forall p, In p A -> In p (class_attrs c)) ->
  (forall name cv part w, In (name, cv) (class_attrs c) -> attr_width cv = Some w -> part_of c attrs (name, cv) part -> List.length part = w) ->
  Forall2 (part_of c attrs) A parts ->
  (list_sum (map snd l) <= List.length (List.concat parts))%nat /\
  (List.length l = List.length A -> List.length (List.concat parts) = list_sum (map snd l)) /\
  forall name at_ w, placed (List.length pre) l name at_ w ->
    exists cv, In (name, cv) A /\ part_of c attrs (name, cv) (slice at_ (at_ + w) (pre ++ List.concat parts ++ post)%list).
Proof.
  induction l as [|[n k] l IH]; intros A parts pre post L I Hw F.
  - cbn. split; [lia|]. split; [|intros ? ? ? []]. destruct A; [|discriminate]. inversion F. reflexivity.
  - destruct A as [|[m cv] A]; [discriminate|]. cbn [layout_ok] in L. apply andb_prop in L as [L L3]. apply andb_prop in L as [L1 L2].
    apply String.eqb_eq in L1. subst m. destruct (attr_width cv) as [x|] eqn:Wx; [|discriminate]. apply Nat.eqb_eq in L2. subst x.
    inversion F as [|? part ? parts' Q F']; subst. cbn [List.concat map snd list_sum fold_right].
    pose proof (Hw n cv part k (I _ (or_introl eq_refl)) Wx Q) as Lp.
    destruct (IH A parts' (pre ++ part)%list post L3 (fun p J => I p (or_intror J)) Hw F') as (S1 & S2 & S3).
    rewrite app_length. unfold list_sum in *. split; [lia|]. split; [cbn [List.length]; intros E; rewrite S2; lia|].
    intros name at_ w Pl. cbn [placed] in Pl. destruct Pl as [(<- & -> & ->)|Pl].
    + exists cv. split; [left; reflexivity|]. rewrite <- Lp, <- app_assoc. rewrite slice_here. exact Q.
    + rewrite app_length, Lp in S3. destruct (S3 name at_ w Pl) as (cv' & J & Q'). exists cv'. split; [right; exact J|].
      rewrite <- !app_assoc in Q'. rewrite <- app_assoc. exact Q'.
Qed.

Lemma layout c l t attrs bs : openflow_layout c = Some (l, t) -> built (VObj c attrs) = true -> regular (VObj c attrs) = true ->
  pack (VObj c attrs) = Ok bs ->
  (t <= List.length bs)%nat /\
  (List.length l = List.length (class_attrs c) -> List.length bs = t) /\
  forall name at_ w, placed 0 l name at_ w ->
    exists cv, get_attr name (class_attrs c) = Some cv /\ part_of c attrs (name, cv) (slice at_ (at_ + w) bs).
Proof.
  intros E B R P. pose proof (layouts_ok c) as T. rewrite E in T. apply andb_prop in T as [T T3]. apply andb_prop in T as [T1 T2]. apply Nat.eqb_eq in T2.
  destruct (in_order c attrs bs B P) as (parts & k & -> & Hk & F).
  destruct (placed_parts c attrs l (class_attrs c) parts [] (repeat 0 k) T1 (fun p J => J)
    (fun name cv part w I W Q => field_part c attrs name cv part w B R I W Q) F) as (S1 & S2 & S3). subst t.
  rewrite app_length. split; [lia|]. split.
  - intros El. rewrite El, Nat.eqb_refl in T3. cbn [negb orb] in T3. apply andb_prop in T3 as [U1 U2].
    destruct Hk as [[->|Hk]| ->]; [discriminate U1|rewrite Hk in U2; discriminate|]. cbn [repeat List.length]. rewrite (S2 El). lia.
  - intros name at_ w Pl. destruct (S3 name at_ w Pl) as (cv & I & Q). exists cv. split; [apply class_get, I|exact Q].
Qed.

Lemma new_regular c v : new_instance c = Some v -> regular v = true.
Proof.
  assert (T : match new_instance c with Some v => regular v | None => true end = true) by (revert c; apply all_classes; vm_compute; reflexivity).
  intros E. rewrite E in T. exact T.
Qed.

(** The header of a message. *)
Lemma header_layout hc : hc = Header01 \/ hc = Header04 ->
  openflow_layout hc = Some ([("version", 1); ("message_type", 1); ("length", 2); ("xid", 4)]%nat, 8%nat) /\ List.length (class_attrs hc) = 4%nat.
Proof. intros [-> | ->]; split; reflexivity. Qed.
Lemma slice_slice {A} a b n (l : list A) : (b <= n)%nat -> slice a b (slice 0 n l) = slice a b l.
Proof. intros H. unfold slice. cbn [skipn]. rewrite firstn_firstn. replace (Nat.min b n) with b by lia. reflexivity. Qed.
Lemma message_header c l t attrs hc h bs name at_ w : openflow_layout c = Some (("header", 8%nat) :: l, t) ->
  built (VObj c attrs) = true -> regular (VObj c attrs) = true -> get_attr "header" attrs = Some (VObj hc h) ->
  pack (VObj c attrs) = Ok bs ->
  placed 0 [("version", 1); ("message_type", 1); ("length", 2); ("xid", 4)]%nat name at_ w -> name <> "length" ->
  exists cv iv, get_attr name (class_attrs hc) = Some cv /\ get_attr name h = Some iv /\ carried cv iv (slice at_ (at_ + w) bs).
Proof.
  intros E B R G P Pl Nn. destruct (layout c _ _ attrs bs E B R P) as (Lt & _ & L).
  destruct (L "header" O 8%nat (or_introl (conj eq_refl (conj eq_refl eq_refl)))) as (cv & Gc & iv & G' & Q). cbn [fst snd] in *. rewrite G in G'. injection G' as <-.
  pose proof B as B0. apply good_built in B0. destruct (good_get c attrs _ _ B0 G) as (Bh & Hh).
  destruct (regular_attr c attrs _ _ _ R G Gc) as (_ & Rh).
  assert (Hc : hc = Header01 \/ hc = Header04) by (unfold header_ok in Hh; cbn in Hh; destruct hc; try discriminate; auto).
  pose proof (header_table_ok c) as T. unfold header_table in T. rewrite Gc in T. destruct cv as [| | | | | | | | | | | | |kc ka|]; try discriminate.
  assert (Nc : computed c "header" = false).
  { destruct (computed c "header") eqn:C; [|reflexivity]. apply get_attr_In in Gc. destruct (computed_uint c "header" C (in_class_attr _ _ _ Gc)) as (? & ? & ? & X).
    unfold lookup in X. rewrite (class_get _ _ _ Gc) in X. discriminate. }
  rewrite Nc in Q.
  assert (Hb : exists h', built (VObj hc h') = true /\ regular (VObj hc h') = true /\ pack (VObj hc h') = Ok (slice 0 8 bs) /\
    (forall m, m <> "length" -> get_attr m h' = get_attr m h)).
  { destruct Q as [Q|(_ & hc' & h' & z & [= <- <-] & Q)].
    - exists h. inversion Q; subst. auto.
    - exists (set_attr "length" (VInt z) h). apply good_built in Bh as Gh.
      assert (Hl : get_attr "length" h <> None).
      { assert (M : is_class_attr hc "length" = true) by (destruct Hc as [-> | ->]; reflexivity). destruct (good_has hc h "length" Gh M) as (x & ->). discriminate. }
      split; [apply good_built, good_set; [exact Gh|exact Hl|reflexivity|reflexivity]|]. split; [apply regular_set, Rh|]. split; [exact Q|].
      intros m Nm. apply get_set_other, Nm. }
  destruct Hb as (h' & Bh' & Rh' & Ph & Eh). destruct (header_layout hc Hc) as (El & Ll).
  destruct (layout hc _ _ h' _ El Bh' Rh' Ph) as (_ & _ & L'). destruct (L' name at_ w Pl) as (cv' & Gc' & iv' & Gi & Q'). cbn [fst snd] in *.
  exists cv', iv'. split; [exact Gc'|]. split; [rewrite <- (Eh name Nn); exact Gi|].
  assert (Hw : (at_ + w <= 8)%nat) by (cbn [placed] in Pl; lia). rewrite (slice_slice at_ (at_ + w) 8 bs Hw) in Q'.
  assert (Nh : computed hc name = false) by (destruct Hc as [-> | ->]; cbn [computed]; apply String.eqb_neq, Nn). rewrite Nh in Q'.
  destruct Q' as [Q'|(-> & _)]; [exact Q'|]. exfalso. destruct Hc as [-> | ->]; discriminate Gc'.
Qed.

Lemma layout_all c : class_attrs c <> [] -> openflow_layout c <> None.
Proof.
  assert (T : match class_attrs c, openflow_layout c with _ :: _, None => false | _, _ => true end = true) by (revert c; apply all_classes; vm_compute; reflexivity).
  intros H E. rewrite E in T. destruct (class_attrs c); [congruence|discriminate].
Qed.
