(** What pack() refuses: attributes and objects; lemmas for C65. *)
From Coq Require Import ZArith List Bool String Lia.
From Verif Require Import Base PyText Ids PyVal Classes Interp SpecBasic SpecMutation SpecLayout SpecReject ClassFacts BaseFacts IntFacts
  TextFacts AddrFacts StructFacts FuelFacts Totality MutationFacts MutationFacts2 MutationFacts3 LayoutFacts RejectFacts.
Import ListNotations.
Open Scope string_scope.
Open Scope list_scope.
Open Scope Z_scope.

(** ** One attribute *)
Lemma tlv_kind c : kind c = KOxmTLV <-> c = OxmTLV04.
Proof.
  split; [|intros ->; reflexivity]. intros K.
  assert (T : implb (match kind c with KOxmTLV => true | _ => false end) (cid_eqb c OxmTLV04) = true) by (clear K; revert c; apply all_classes; vm_compute; reflexivity).
  rewrite K in T. apply cid_eqb_eq, T.
Qed.
Definition item_class_ok (cv : pyval) : bool := match cv with VList lc pc _ => cid_eqb lc CFixedTypeList || negb (cid_eqb pc CNone) | _ => true end.
Lemma class_attr_items c cv : In cv (map snd (class_attrs c)) -> item_class_ok cv = true.
Proof.
  intros I. assert (H : forallb item_class_ok (map snd (class_attrs c)) = true) by (revert c I; intros c _; revert c; apply all_classes; vm_compute; reflexivity).
  rewrite forallb_forall in H. apply H, I.
Qed.
Definition real (cv : pyval) : bool :=
  match cv with VNone | VInt _ | VStr _ | VBytes _ | VEnum _ _ | VMask _ _ => false | _ => true end.
Lemma class_attr_real c cv : In cv (map snd (class_attrs c)) -> real cv = true.
Proof.
  intros I. assert (H : forallb real (map snd (class_attrs c)) = true) by (revert c I; intros c _; revert c; apply all_classes; vm_compute; reflexivity).
  rewrite forallb_forall in H. apply H, I.
Qed.
Lemma empty_list_pack lc pc : lc <> CList -> pack (VList lc pc []) = Ok [].
Proof. intros N. apply (pk 1). cbn [pack0 concatM]. destruct (cid_eqb lc CList) eqn:E; [apply cid_eqb_eq in E; congruence|reflexivity]. Qed.

Lemma pack1_refused c cv iv e : In cv (map snd (class_attrs c)) -> pack1 pack cv iv = Err e <-> refused cv iv e.
Proof.
  intros I. pose proof (class_attr_plain c cv I) as Pl. pose proof (class_attr_items c cv I) as It. pose proof (class_attr_real c cv I) as Re. clear I.
  destruct cv as [| | | | | |w er d|k|len d|d msk|d|d|d|oc oa|lc pc items]; try discriminate Re; cbn [pack1].
  - apply uint_refused.
  - split; [discriminate|]. intros H. inversion H.
  - apply char_refused.
  - apply ip_refused.
  - apply hw_refused.
  - apply dpid_refused.
  - apply raw_refused.
  - assert (D : iv = VNone \/ iv <> VNone) by (destruct iv; [left; reflexivity|right; discriminate..]). destruct D as [->|Nn].
    + split; [apply rf_default|]. intros H. inversion H; subst; first [assumption|congruence].
    + assert (E : (match iv with VNone => pack (VObj oc oa) | _ =>
          match kind oc with KOxmTLV => if has_pack iv then pack iv else Err AttributeError | KSetField04 => pack (VObj oc oa)
          | _ => if subclass (class_of iv) oc then pack iv else Err PackException end end) =
        (if cid_eqb oc OxmTLV04 then if has_pack iv then pack iv else Err AttributeError else if subclass (class_of iv) oc then pack iv else Err PackException)).
      { destruct (cid_eqb oc OxmTLV04) eqn:Eo.
        - apply cid_eqb_eq in Eo. subst. change (kind OxmTLV04) with KOxmTLV. destruct iv; [congruence|reflexivity..].
        - assert (Nk : kind oc <> KOxmTLV) by (intros K; apply tlv_kind in K; subst; discriminate). cbn [plain_class_attr] in Pl.
          destruct iv; [congruence|destruct (kind oc); first [reflexivity|congruence|discriminate]..]. }
      rewrite E. clear E. destruct (cid_eqb oc OxmTLV04) eqn:Eo.
      * apply cid_eqb_eq in Eo. subst. split.
        -- destruct (has_pack iv) eqn:Hp.
           ++ intros P. apply rf_tlv_object; [exact Nn|rewrite no_object_pack, Hp; reflexivity|exact P].
           ++ intros [= <-]. apply rf_tlv; [exact Nn|rewrite no_object_pack, Hp; reflexivity].
        -- intros H. inversion H; subst; try congruence; match goal with X : no_object _ = _ |- _ => rewrite no_object_pack in X end; destruct (has_pack iv); first [discriminate|reflexivity|assumption].
      * assert (No : oc <> OxmTLV04) by (intros ->; discriminate). split.
        -- destruct (subclass (class_of iv) oc) eqn:Sc; [intros P; apply rf_object; assumption|intros [= <-]; apply rf_class; assumption].
        -- intros H. inversion H; subst; try congruence; match goal with X : other_class _ _ |- _ => rewrite X | X : subclass _ _ = _ |- _ => rewrite X end; first [reflexivity|assumption].
  - cbn in Pl. destruct items; [|discriminate Pl]. apply andb_prop in Pl as [Nl Cl]. apply negb_true_iff in Nl.
    assert (Nl' : lc <> CList) by (intros ->; discriminate).
    assert (D : iv = VNone \/ iv <> VNone) by (destruct iv; [left; reflexivity|right; discriminate..]). destruct D as [->|Nn].
    + rewrite (empty_list_pack lc pc Nl'). split; [discriminate|]. intros H. inversion H; subst; try congruence; match goal with X : iterated VNone _ |- _ => inversion X end.
    + assert (E : (match iv with VNone => pack (VList lc pc []) | _ =>
          if subclass (class_of iv) lc then pack iv else if cid_eqb lc CFixedTypeList then Err TypeError
          else do items <- list_extend pc iv; pack (VList lc pc items) end) =
        (if subclass (class_of iv) lc then pack iv else if cid_eqb lc CFixedTypeList then Err TypeError
          else do items <- list_extend pc iv; pack (VList lc pc items))) by (destruct iv; [congruence|reflexivity..]).
      rewrite E. clear E. destruct (subclass (class_of iv) lc) eqn:Sc.
      * split; [intros P; apply rf_list; assumption|]. intros H. inversion H; subst; try (unfold other_class in *; congruence).
      * destruct (cid_eqb lc CFixedTypeList) eqn:Ef.
        -- apply cid_eqb_eq in Ef. subst. split; [intros [= <-]; apply rf_fixed; assumption|]. intros H. inversion H; subst; congruence.
        -- assert (Nf : lc <> CFixedTypeList) by (intros ->; discriminate).
           cbn [item_class_ok] in It. rewrite Ef in It. cbn [orb] in It. apply negb_true_iff in It. assert (Np : pc <> CNone) by (intros ->; discriminate).
           unfold list_extend. split.
           ++ destruct (iterate iv) as [its|e'] eqn:Ei; cbn [bind].
              ** destruct (check_items pc (flat_map flat its)) as [r|e'] eqn:Ec; cbn [bind].
                 --- intros P. apply check_items_same in Ec as Er. subst r. eapply rf_items; try eassumption.
                     +++ apply iterated_iff. exists its. split; [exact Ei|reflexivity].
                     +++ apply check_items_ok; assumption.
                 --- intros [= ->]. apply check_items_err in Ec as [-> Ex]; [|exact Np]. eapply rf_item; try eassumption. apply iterated_iff. exists its. split; [exact Ei|reflexivity].
              ** intros [= ->]. apply not_iterable_iff in Ei as [-> Ni]. apply rf_not_iterable; assumption.
           ++ intros H. inversion H; subst; try congruence.
              ** rewrite (proj2 (not_iterable_iff iv TypeError)) by (split; [reflexivity|assumption]). reflexivity.
              ** match goal with X : iterated _ _ |- _ => apply iterated_iff in X as (its & -> & ->) end. cbn [bind].
                 rewrite (proj2 (check_items_err pc _ WrongListItemType Np)) by (split; [reflexivity|assumption]). reflexivity.
              ** match goal with X : iterated _ _ |- _ => apply iterated_iff in X as (its & -> & ->) end. cbn [bind].
                 rewrite (proj1 (check_items_ok pc _ Np)) by assumption. assumption.
Qed.

(** ** The attributes in order *)
Lemma le_pack n : le_fun (pack0 n) pack.
Proof.
  intros v. destruct (pack0 n v) as [b|e] eqn:P; [right; rewrite (pack_of n), P; [reflexivity|rewrite P; discriminate]|].
  assert (D : e = OutOfFuel \/ e <> OutOfFuel) by (destruct e; first [left; reflexivity|right; discriminate]). destruct D as [->|N]; [left; reflexivity|]. right. rewrite (pack_of n), P; [reflexivity|rewrite P; congruence].
Qed.
Definition first_err (rec : pyval -> res bytes) (A : list (string * pyval)) (attrs : list (string * pyval)) (e : exn) : Prop :=
  exists before f after iv, A = before ++ f :: after /\
    Forall (fun g => exists v b, get_attr (fst g) attrs = Some v /\ pack1 rec (snd g) v = Ok b) before /\
    get_attr (fst f) attrs = Some iv /\ pack1 rec (snd f) iv = Err e.
Lemma zip_err rec A : forall F e, NoDup (map fst A) -> map fst F = map fst A ->
  concatM (fun p => pack1 rec (fst p) (snd p)) (combine (map snd A) (map snd F)) = Err e <-> first_err rec A F e.
Proof.
  induction A as [|[k cv] A IH]; intros F e D E; destruct F as [|[k' x] F]; try discriminate E.
  - cbn. split; [discriminate|]. intros ([|? ?] & f & after & iv & H & _); discriminate H.
  - cbn in E. injection E as -> E. inversion D as [|? ? N D']; subst. cbn [map combine fst snd concatM].
    assert (Sk : forall m mv, In (m, mv) A -> get_attr m ((k, x) :: F) = get_attr m F).
    { intros m mv I. cbn [get_attr]. destruct (String.eqb_spec k m) as [->|]; [|reflexivity]. exfalso. apply N. apply in_map_iff. exists (m, mv). split; [reflexivity|exact I]. }
    assert (G0 : get_attr k ((k, x) :: F) = Some x) by (cbn [get_attr]; rewrite String.eqb_refl; reflexivity).
    destruct (pack1 rec cv x) as [b1|e1] eqn:P; cbn [bind].
    + assert (Tail : first_err rec ((k, cv) :: A) ((k, x) :: F) e <-> first_err rec A F e).
      { split.
        - intros (before & f & after & iv & H & Hb & Hf & Hp). destruct before as [|g before]; cbn in H; injection H as <- H; subst.
          + cbn [fst snd] in *. rewrite G0 in Hf. congruence.
          + inversion Hb as [|? ? _ Hb']; subst. exists before, f, after, iv. split; [reflexivity|]. split; [|split; [|exact Hp]].
            * rewrite Forall_forall in *. intros [m mv] I. destruct (Hb' _ I) as (v & b & G & Q). exists v, b. split; [|exact Q]. rewrite <- G. symmetry. apply (Sk m mv). apply in_or_app. left. exact I.
            * rewrite <- Hf. destruct f as [m mv]. symmetry. apply (Sk m mv). apply in_or_app. right. left. reflexivity.
        - intros (before & f & after & iv & -> & Hb & Hf & Hp). exists ((k, cv) :: before), f, after, iv. split; [reflexivity|]. split; [|split; [|exact Hp]].
          + constructor; [exists x, b1; split; [exact G0|exact P]|]. rewrite Forall_forall in *. intros [m mv] I. destruct (Hb _ I) as (v & b & G & Q). exists v, b. split; [|exact Q].
            rewrite <- G. apply (Sk m mv). apply in_or_app. left. exact I.
          + rewrite <- Hf. destruct f as [m mv]. apply (Sk m mv). apply in_or_app. right. left. reflexivity. }
      rewrite Tail, <- (IH F e D' E). destruct (concatM _ _) as [b2|e2]; cbn [bind]; split; intros X; first [discriminate X|exact X].
    + split.
      * intros [= <-]. exists [], (k, cv), A, x. split; [reflexivity|]. split; [constructor|]. split; [exact G0|exact P].
      * intros (before & f & after & iv & H & Hb & Hf & Hp). destruct before as [|g before]; cbn in H; injection H as <- H; subst.
        -- cbn [fst snd] in *. rewrite G0 in Hf. injection Hf as <-. rewrite P in Hp. injection Hp as <-. reflexivity.
        -- inversion Hb as [|? ? (v & b & G & Q) _]; subst. cbn [fst snd] in *. rewrite G0 in G. congruence.
Qed.
Lemma refused_not c cv v : In cv (map snd (class_attrs c)) -> (exists b, pack1 pack cv v = Ok b) <-> forall e, ~ refused cv v e.
Proof.
  intros I. split.
  - intros [b P] e R. apply (pack1_refused c cv v e I) in R. congruence.
  - intros H. destruct (pack1 pack cv v) as [b|e] eqn:P; [eauto|]. exfalso. apply (H e), (pack1_refused c cv v e I), P.
Qed.
Lemma first_err_refused c attrs e : first_err pack (class_attrs c) attrs e <-> first_refused c attrs e.
Proof.
  unfold first_err, first_refused.
  split; intros (before & f & after & iv & H & Hb & Hf & Hp); exists before, f, after, iv; (split; [exact H|]);
    assert (If : In (snd f) (map snd (class_attrs c))) by (rewrite H; apply in_map, in_or_app; right; left; reflexivity);
    (split; [|split; [exact Hf|apply (pack1_refused c _ _ _ If), Hp]]);
    rewrite Forall_forall in *; intros g I; assert (Ig : In (snd g) (map snd (class_attrs c))) by (rewrite H; apply in_map, in_or_app; left; exact I).
  - destruct (Hb g I) as (v & b & G & Q). exists v. split; [exact G|]. apply (refused_not c (snd g) v Ig). eauto.
  - destruct (Hb g I) as (v & G & Q). apply (refused_not c (snd g) v Ig) in Q as [b Q]. eauto.
Qed.
Lemma struct_refused c attrs e : has_attributes c attrs = true -> is_valid c attrs = Ok true ->
  struct_pack pack c attrs = Err e <-> first_refused c attrs e.
Proof.
  intros A V. unfold struct_pack. rewrite V. cbn [bind]. unfold zip_attrs. fold (mine c attrs).
  rewrite (zip_err pack (class_attrs c) (mine c attrs) e (class_names_nodup c) (built_names c attrs A)), <- first_err_refused.
  assert (G : forall g, In g (class_attrs c) -> get_attr (fst g) (mine c attrs) = get_attr (fst g) attrs).
  { intros [m mv] I. apply get_mine. eapply in_class_attr, I. }
  unfold first_err. split; intros (before & f & after & iv & H & Hb & Hf & Hp); exists before, f, after, iv; (split; [exact H|]);
    assert (If : In f (class_attrs c)) by (rewrite H; apply in_or_app; right; left; reflexivity);
    (split; [|split; [rewrite <- Hf; first [apply G, If | symmetry; apply G, If]|exact Hp]]);
    rewrite Forall_forall in *; intros g I; destruct (Hb g I) as (v & b & Q & R); exists v, b; (split; [|exact R]); rewrite <- Q;
    assert (Ig : In g (class_attrs c)) by (rewrite H; apply in_or_app; left; exact I); first [apply G, Ig | symmetry; apply G, Ig].
Qed.
Lemma le_size n : le_fun (size0 n) get_size.
Proof.
  intros v. destruct (size0 n v) as [b|e] eqn:P; [right; rewrite (size_of n), P; [reflexivity|rewrite P; discriminate]|].
  assert (D : e = OutOfFuel \/ e <> OutOfFuel) by (destruct e; first [left; reflexivity|right; discriminate]). destruct D as [->|N]; [left; reflexivity|].
  right. rewrite (size_of n), P; [reflexivity|rewrite P; congruence].
Qed.
Lemma pack_object c attrs : pack (VObj c attrs) = pack_obj pack get_size get_size c attrs.
Proof.
  pose proof (pack_fuel (VObj c attrs)) as T. unfold pack at 1. revert T. generalize (FUEL + height (VObj c attrs))%nat as N. intros [|n] T; [destruct (T eq_refl)|].
  change (pack0 (S n) (VObj c attrs)) with (pack_obj (pack0 n) (size0 n) (size0 (S n)) c attrs) in *.
  destruct (le_pack_obj (pack0 n) pack (size0 n) get_size (size0 (S n)) get_size c (le_pack n) (le_size n) (le_size (S n)) attrs) as [E|E]; [destruct (T E)|].
  symmetry. exact E.
Qed.
Lemma built_has c attrs : built (VObj c attrs) = true -> has_attributes c attrs = true.
Proof. cbn [built]. intros B. apply andb_prop in B as [B _]. apply andb_prop in B as [B _]. exact B. Qed.
Lemma valid_unless c attrs : existsb (cid_eqb c) [PacketOut01; PacketOut04] = false -> is_valid c attrs = Ok true.
Proof.
  intros H. unfold is_valid.
  assert (T : implb (negb (existsb (cid_eqb c) [PacketOut01; PacketOut04])) (match kind c with KPacketOut01 | KPacketOut04 => false | _ => true end) = true) by (clear H; revert c; apply all_classes; vm_compute; reflexivity).
  rewrite H in T. destruct (kind c); first [reflexivity|discriminate T].
Qed.

Lemma attr_there c attrs n : has_attributes c attrs = true -> is_class_attr c n = true -> get_attr n attrs <> None.
Proof.
  intros A I. rewrite <- (get_mine c attrs n I). pose proof (built_names c attrs A) as M. unfold is_class_attr in I.
  assert (J : In n (map fst (mine c attrs))).
  { rewrite M. apply existsb_exists in I as (p & J & E). apply String.eqb_eq in E. subst. apply in_map, J. }
  clear - J. induction (mine c attrs) as [|[k x] l IH]; [destruct J|]. cbn [get_attr]. destruct (String.eqb_spec k n) as [->|N]; [discriminate|].
  apply IH. destruct J as [E|J]; [cbn in E; congruence|exact J].
Qed.
Lemma has_set c n x attrs : has_attributes c attrs = true -> get_attr n attrs <> None -> has_attributes c (set_attr n x attrs) = true.
Proof. intros A G. rewrite (has_attributes_names c attrs); [exact A|]. apply MutationFacts2.set_names, G. Qed.

Lemma fields_kind c : only_fields c = true -> existsb (cid_eqb c) [PacketOut01; PacketOut04] = false /\
  match kind c with KStruct | KLen _ false | KTyped TMeterBand | KAction01 | KAction04 | KMatch01 | KBucket => true | _ => false end = true.
Proof.
  intros H.
  assert (T : implb (only_fields c) (negb (existsb (cid_eqb c) [PacketOut01; PacketOut04]) &&
    match kind c with KStruct | KLen _ false | KTyped TMeterBand | KAction01 | KAction04 | KMatch01 | KBucket => true | _ => false end) = true) by (clear H; revert c; apply all_classes; vm_compute; reflexivity).
  rewrite H in T. cbn [implb] in T. apply andb_prop in T as [T1 T2]. apply negb_true_iff in T1. split; assumption.
Qed.
Lemma fields_refused c attrs e : built (VObj c attrs) = true -> only_fields c = true -> pack (VObj c attrs) = Err e <-> first_refused c attrs e.
Proof.
  intros B F. apply fields_kind in F as [V K]. rewrite pack_object, <- (struct_refused c attrs e (built_has c attrs B) (valid_unless c attrs V)).
  unfold pack_obj. destruct (kind c) as [| |p [|]|[]| | | | | | | | | | | | | | | |]; first [reflexivity|discriminate K].
Qed.
Lemma own_kind c : own_length c = true -> existsb (cid_eqb c) [PacketOut01; PacketOut04] = false /\
  match kind c with KLen _ true | KTyped TInstruction | KTyped TProperty => true | _ => false end = true.
Proof.
  intros H.
  assert (T : implb (own_length c) (negb (existsb (cid_eqb c) [PacketOut01; PacketOut04]) &&
    match kind c with KLen _ true | KTyped TInstruction | KTyped TProperty => true | _ => false end) = true) by (clear H; revert c; apply all_classes; vm_compute; reflexivity).
  rewrite H in T. cbn [implb] in T. apply andb_prop in T as [T1 T2]. apply negb_true_iff in T1. split; assumption.
Qed.
Lemma own_pack c attrs : own_length c = true -> pack (VObj c attrs) = do s <- get_size (VObj c attrs); struct_pack pack c (set_attr "length" (VInt s) attrs).
Proof.
  intros F. apply own_kind in F as [V K]. rewrite pack_object. unfold pack_obj. destruct (kind c) as [| |p [|]|[]| | | | | | | | | | | | | | | |]; first [reflexivity|discriminate K].
Qed.
Lemma own_refused c attrs s e : built (VObj c attrs) = true -> own_length c = true -> get_size (VObj c attrs) = Ok s ->
  pack (VObj c attrs) = Err e <-> first_refused c (set_attr "length" (VInt s) attrs) e.
Proof.
  intros B F G. rewrite (own_pack c attrs F), G. cbn [bind]. apply own_kind in F as [V K]. apply struct_refused; [|apply valid_unless, V].
  apply has_set; [apply built_has, B|]. apply (attr_there c); [apply built_has, B|].
  assert (T : implb (match kind c with KLen _ true | KTyped TInstruction | KTyped TProperty => true | _ => false end) (is_class_attr c "length") = true) by (clear; revert c; apply all_classes; vm_compute; reflexivity).
  rewrite K in T. exact T.
Qed.
Lemma header_kind c : only_header c = true -> existsb (cid_eqb c) [PacketOut01; PacketOut04] = false /\
  match kind c with KMessage | KErrorMsg04 | KErrorExp04 => true | _ => false end = true.
Proof.
  intros H.
  assert (T : implb (only_header c) (negb (existsb (cid_eqb c) [PacketOut01; PacketOut04]) &&
    match kind c with KMessage | KErrorMsg04 | KErrorExp04 => true | _ => false end) = true) by (clear H; revert c; apply all_classes; vm_compute; reflexivity).
  rewrite H in T. cbn [implb] in T. apply andb_prop in T as [T1 T2]. apply negb_true_iff in T1. split; assumption.
Qed.
Lemma header_pack c attrs : only_header c = true -> pack (VObj c attrs) = message_pack pack get_size c attrs.
Proof.
  intros F. apply header_kind in F as [V K]. rewrite pack_object. unfold pack_obj. destruct (kind c); first [reflexivity|discriminate K].
Qed.
Lemma message_refused c attrs hc h s e : built (VObj c attrs) = true -> only_header c = true -> get_attr "header" attrs = Some (VObj hc h) ->
  get_size (VObj c attrs) = Ok s ->
  pack (VObj c attrs) = Err e <-> first_refused c (set_attr "header" (VObj hc (set_attr "length" (VInt s) h)) attrs) e.
Proof.
  intros B F H G. rewrite (header_pack c attrs F). unfold message_pack, attr_or_error. rewrite G, H. cbn [bind]. apply header_kind in F as [V K].
  apply struct_refused; [|apply valid_unless, V]. apply has_set; [apply built_has, B|congruence].
Qed.
Lemma message_unsized c attrs e : only_header c = true -> get_size (VObj c attrs) = Err e -> pack (VObj c attrs) = Err e.
Proof. intros F G. rewrite (header_pack c attrs F). unfold message_pack. rewrite G. reflexivity. Qed.
Lemma own_unsized c attrs e : own_length c = true -> get_size (VObj c attrs) = Err e -> pack (VObj c attrs) = Err e.
Proof. intros F G. rewrite (own_pack c attrs F), G. reflexivity. Qed.
Lemma message_headless c attrs s : only_header c = true -> get_size (VObj c attrs) = Ok s ->
  (forall hc h, get_attr "header" attrs <> Some (VObj hc h)) -> pack (VObj c attrs) = Err AttributeError.
Proof.
  intros F G N. rewrite (header_pack c attrs F). unfold message_pack, attr_or_error. rewrite G. cbn [bind].
  destruct (get_attr "header" attrs) as [[| | | | | | | | | | | | |hc h|]|]; try reflexivity. exfalso. exact (N hc h eq_refl).
Qed.

(** ** Lists, basic types and other values *)
Lemma absent_refused v : no_object v = true -> pack v = Err AttributeError /\ get_size v = Err AttributeError.
Proof.
  intros H. destruct v as [| | | | | | | | | | | | | |lc pc l]; try discriminate H; try (split; [rewrite (pack_of 1)|rewrite (size_of 1)]; first [discriminate|reflexivity]).
  assert (E : lc = CList) by (apply cid_eqb_eq, H). subst. split; [rewrite (pack_of 1)|rewrite (size_of 1)]; first [discriminate|reflexivity].
Qed.
Lemma list_refused lc pc items e : pack (VList lc pc items) = Err e <-> lc = CList /\ e = AttributeError \/ lc <> CList /\ first_item items e.
Proof.
  destruct (cid_eqb lc CList) eqn:El.
  - apply cid_eqb_eq in El. subst. rewrite (pack_of 1); [|discriminate]. cbn. split; [intros [= <-]; auto|]. intros [[_ ->]|[N _]]; [reflexivity|congruence].
  - assert (N : lc <> CList) by (intros ->; discriminate).
    assert (C : pack (VList lc pc items) = concatM pack items).
    { pose proof (pack_fuel (VList lc pc items)) as T. unfold pack at 1. revert T. generalize (FUEL + height (VList lc pc items))%nat as k. intros [|n] T; [destruct (T eq_refl)|].
      cbn [pack0] in *. rewrite El in *.
      destruct (le_concatM (fun x => if has_pack x then pack0 n x else Err AttributeError) pack items) as [E|E]; [|destruct (T E)|symmetry; exact E].
      intros x. destruct (has_pack x) eqn:Hp; [apply le_pack|]. right. apply absent_refused. rewrite no_object_pack, Hp. reflexivity. }
    rewrite C. clear C. split.
    + intros H. right. split; [exact N|]. revert H. induction items as [|x l IH]; cbn [concatM]; [discriminate|].
      destruct (pack x) as [b|e'] eqn:P; cbn [bind].
      * destruct (concatM pack l) as [b2|e2]; cbn [bind]; [discriminate|]. intros H. destruct (IH H) as (before & y & after & -> & F & Q).
        exists (x :: before), y, after. split; [reflexivity|]. split; [constructor; [eauto|exact F]|exact Q].
      * intros [= <-]. exists [], x, l. split; [reflexivity|]. split; [constructor|exact P].
    + intros [[E _]|[_ (before & y & after & -> & F & Q)]]; [congruence|]. induction F as [|x before (b & P) F IH]; cbn [app concatM]; [rewrite Q; reflexivity|].
      rewrite P. cbn [bind]. rewrite IH. reflexivity.
Qed.
Lemma bin_pack_own x : pack (VBin x) = bin_pack pack x.
Proof.
  pose proof (pack_fuel (VBin x)) as T. unfold pack at 1. revert T. generalize (FUEL + height (VBin x))%nat as k. intros [|n] T; [destruct (T eq_refl)|].
  cbn [pack0] in *. destruct (le_bin_pack (pack0 n) pack x (le_pack n)) as [E|E]; [destruct (T E)|symmetry; exact E].
Qed.
Lemma basic_refused v e : basic v = true -> pack v = Err e <-> refused v VNone e.
Proof.
  assert (P : forall v r, pack0 1 v = r -> r <> Err OutOfFuel -> pack v = r) by (intros x r H N; rewrite (pack_of 1); [exact H|congruence]).
  destruct v as [| | | | | |w er d|k|len d|d msk|d|d|d| |]; try discriminate; intros _.
  - rewrite (P (VUInt w er d) (uint_pack1 w er d VNone) eq_refl (nf_uint_pack1 _ _ _ _)). apply uint_refused.
  - rewrite (P (VPad k) (Ok (zeros k)) eq_refl ltac:(discriminate)). split; [discriminate|]. intros H. inversion H.
  - rewrite (P (VChar len d) (char_pack1 len d VNone) eq_refl (nf_char_pack1 _ _ _)). apply char_refused.
  - rewrite (P (VIP d msk) (ip_pack1 d VNone) eq_refl (nf_ip_pack1 _ _)). apply ip_refused.
  - rewrite (P (VHW d) (hw_pack1 d VNone) eq_refl (nf_hw_pack1 _ _)). apply hw_refused.
  - rewrite (P (VDPID d) (dpid_pack1 d VNone) eq_refl (nf_dpid_pack1 _ _)). apply dpid_refused.
  - rewrite bin_pack_own. apply (raw_refused d VNone).
Qed.
Lemma message_outcome c attrs : built (VObj c attrs) = true -> only_header c = true ->
  match get_size (VObj c attrs), get_attr "header" attrs with
  | Err e, _ => pack (VObj c attrs) = Err e
  | Ok s, Some (VObj hc h) => forall e, pack (VObj c attrs) = Err e <->
      first_refused c (set_attr "header" (VObj hc (set_attr "length" (VInt s) h)) attrs) e
  | Ok _, _ => pack (VObj c attrs) = Err AttributeError
  end.
Proof.
  intros B F. destruct (get_size (VObj c attrs)) as [s|e] eqn:G; [|exact (message_unsized c attrs e F G)].
  pose proof (message_headless c attrs s F G) as N.
  destruct (get_attr "header" attrs) as [v|] eqn:H; [|apply N; discriminate].
  destruct v as [| | | | | | | | | | | | |hc h|]; try (apply N; discriminate). intros e. exact (message_refused c attrs hc h s e B F H G).
Qed.
Lemma refused_one c name cv iv e e' : In (name, cv) (class_attrs c) -> refused cv iv e -> refused cv iv e' -> e = e'.
Proof.
  intros I. assert (J : In cv (map snd (class_attrs c))) by (apply in_map_iff; exists (name, cv); auto).
  rewrite <- !(pack1_refused c cv iv _ J). congruence.
Qed.
Lemma refused_classes c : only_fields c || own_length c || only_header c ||
  existsb (cid_eqb c) [PacketOut01; PacketOut04; ErrorMsg01; StatsRequest01; StatsReply01; MultipartRequest04; MultipartReply04;
    OxmTLV04; Match04; ActionSetField04] = true.
Proof. revert c. apply all_classes. vm_compute. reflexivity. Qed.
Lemma own_outcome c attrs : built (VObj c attrs) = true -> own_length c = true ->
  match get_size (VObj c attrs) with
  | Err e => pack (VObj c attrs) = Err e
  | Ok s => forall e, pack (VObj c attrs) = Err e <-> first_refused c (set_attr "length" (VInt s) attrs) e
  end.
Proof.
  intros B F. destruct (get_size (VObj c attrs)) as [s|e] eqn:G; [intros e; exact (own_refused c attrs s e B F G)|exact (own_unsized c attrs e F G)].
Qed.
