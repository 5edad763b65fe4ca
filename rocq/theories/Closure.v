(** The wire relation is stable under decoding: what the receiver obtains is
    carried by the same bytes, and decodes to itself. *)
From Coq Require Import ZArith List Bool String Lia.
From Verif Require Import Base PyText Ids PyVal Classes Interp BaseFacts TextFacts Spec ClassFacts
  LeafFacts StructFacts Soundness.
Import ListNotations.
Open Scope string_scope.
Open Scope list_scope.
Open Scope Z_scope.

(** Values some of which have been replaced by their decoded form. *)
Inductive mixed : list pyval -> list pyval -> list pyval -> Prop :=
| mx_nil : mixed [] [] []
| mx_cons iv out iv' ivs outs ivs' :
    iv' = iv \/ iv' = out -> mixed ivs outs ivs' ->
    mixed (iv :: ivs) (out :: outs) (iv' :: ivs').

Lemma mixed_outs ivs outs : List.length ivs = List.length outs -> mixed ivs outs outs.
Proof.
  revert outs. induction ivs as [|i ivs IH]; intros [|o outs] L; try discriminate; constructor; auto.
Qed.
Lemma mixed_set n x names vals outs :
  In n names -> List.length vals = List.length names -> List.length outs = List.length names ->
  mixed (map snd (set_attr n x (combine names vals))) outs
        (map snd (set_attr n x (combine names outs))).
Proof.
  revert vals outs. induction names as [|k names IH]; intros [|v vals] [|o outs] I L1 L2; try discriminate.
  - destruct I.
  - cbn [combine set_attr]. destruct (String.eqb_spec k n).
    + cbn [map snd]. rewrite !combine_snd by (cbn in *; lia). constructor; auto.
      apply mixed_outs. cbn in *; lia.
    + cbn [map snd]. constructor; auto. apply IH; cbn in *; try lia.
      destruct I; [contradiction|assumption].
Qed.

Lemma combine_self {A B} (l : list (A * B)) : l = combine (map fst l) (map snd l).
Proof. induction l as [|[a b] l IH]; cbn; congruence. Qed.

Lemma mixed_values c attrs outs n x : complete c attrs -> In n (field_names c) ->
  List.length outs = List.length (class_attrs c) ->
  mixed (values c (set_attr n x attrs)) outs
        (values c (set_attr n x (combine (field_names c) outs))).
Proof.
  intros C I L. rewrite !values_set by auto using complete_mk. rewrite own_mk by assumption.
  rewrite (combine_self (own c attrs)), C.
  assert (LN : List.length (field_names c) = List.length (class_attrs c)) by apply map_length.
  apply mixed_set; auto; [|congruence].
  rewrite map_length, <- (map_length fst), C. reflexivity.
Qed.

Definition Q_enc n k sz cv iv bs out : Prop :=
  enc n k sz cv iv bs out /\ enc n k sz cv out bs out.
Definition Q_payload n v bs : Prop := enc_payload n v bs.
Definition Q_fields n k sz fs ivs bs outs : Prop :=
  enc_fields n k sz fs ivs bs outs /\
  List.length ivs = List.length fs /\ List.length outs = List.length fs /\
  forall ivs', mixed ivs outs ivs' -> enc_fields n k sz fs ivs' bs outs.
Definition Q_items n pc vs bs outs : Prop :=
  enc_items n pc vs bs outs /\ enc_items n pc outs bs outs /\
  List.length vs = List.length outs.
Definition Q_obj n k sz base v bs out : Prop :=
  enc_obj n k sz base v bs out /\ enc_obj n k sz base out bs out /\
  exists c a a', v = VObj c a /\ out = VObj c a'.

Lemma fields_outs n k sz fs ivs bs outs :
  Q_fields n k sz fs ivs bs outs -> enc_fields n k sz fs outs bs outs.
Proof. intros (_ & L1 & L2 & F). apply F. apply mixed_outs. congruence. Qed.

Lemma u16_inv n k sz w er d iv bs out z :
  enc n k sz (VUInt w er d) iv bs out -> int_exact iv z ->
  out = VUInt w er (decoded_int er z).
Proof.
  intros H I. apply uint_inv in H as (z' & _ & Hv & _ & _ & _ & -> & _).
  apply int_exact_value in I as (I & N). destruct Hv as [(_ & Hv)|(E & _)]; [|contradiction].
  rewrite (int_value_fun _ _ _ I Hv). reflexivity.
Qed.

Lemma oxm_out n k sz c cattrs attrs bs out :
  enc n k sz (VObj c cattrs) (VObj c attrs) bs out -> kind c = KOxmTLV -> exists a, out = VObj c a.
Proof.
  intros H K. inversion H; subst.
  match goal with E : enc_obj _ _ _ _ _ _ _ |- _ => inversion E; subst end; try (eexists; reflexivity).
Qed.

Lemma get_attr_names n c v : get_attr n (class_attrs c) = Some v -> In n (field_names c).
Proof. intros H. apply get_attr_in in H. exact H. Qed.

Lemma hex_wf s bs : hex_text s bs -> wf_bytes bs.
Proof.
  intros (parts & _ & F). induction F; constructor; eauto using hex_byte_wf.
Qed.

Ltac obj_shape := eexists _, _, _; split; reflexivity.

Lemma Q_plain n k sz c attrs bs outs :
  kind c = KStruct \/ kind c = KMatch01 -> complete c attrs ->
  Q_fields n k sz (class_attrs c) (values c attrs) bs outs ->
  Q_obj (S n) k sz c (VObj c attrs) bs (mk c outs).
Proof.
  intros K C F. pose proof F as (D & L1 & L2 & _). split; [|split].
  - apply o_plain; auto.
  - apply o_plain; auto using complete_mk. rewrite values_mk by assumption.
    eapply fields_outs; eauto.
  - obj_shape.
Qed.

Lemma Q_len n k pos (upd : bool) c attrs bs outs :
  kind c = KLen pos upd -> complete c attrs ->
  Q_fields n k true (class_attrs c)
    (values c (if upd then set_attr "length" (VInt (zlen bs)) attrs else attrs)) bs outs ->
  u16_at pos bs (zlen bs) ->
  Q_obj (S n) SD true c (VObj c attrs) bs (mk c outs).
Proof.
  intros K C F U. pose proof F as (D & L1 & L2 & M). split; [|split].
  - eapply o_len; eauto.
  - eapply o_len; eauto using complete_mk. destruct upd.
    + apply M. destruct (len_class_ok _ _ K) as (w & er & d & G).
      apply mixed_values; eauto using get_attr_names.
    + rewrite values_mk by assumption. eapply fields_outs; eauto.
  - obj_shape.
Qed.

Lemma Q_typed n k f t c attrs bs outs :
  In (t, c) (typed_table f) -> complete c attrs ->
  Q_fields n k true (class_attrs c)
    (values c (match f with TMeterBand => attrs
               | _ => set_attr "length" (VInt (zlen bs)) attrs end)) bs outs ->
  u16_at 0 bs t -> u16_at 2 bs (zlen bs) ->
  Q_obj (S n) SD true (typed_root f) (VObj c attrs) bs (mk c outs).
Proof.
  intros I C F U1 U2. pose proof F as (D & L1 & L2 & M). split; [|split].
  - eapply o_typed; eauto.
  - eapply o_typed; eauto using complete_mk.
    assert (G : exists v, get_attr "length" (class_attrs c) = Some v).
    { apply typed_table_ok in I. unfold typed_ok in I. rewrite !andb_true_iff in I.
      destruct I as (_ & I). destruct (get_attr "length" (class_attrs c)); eauto; discriminate. }
    destruct G as (v & G). apply get_attr_names in G.
    destruct f; try (apply M; apply mixed_values; now eauto).
    rewrite values_mk by assumption. eapply fields_outs; eauto.
  - obj_shape.
Qed.

Lemma Q_action01 n t c attrs bs outs :
  In (t, c) action01_table -> complete c attrs ->
  Q_fields n SD true (class_attrs c) (values c attrs) bs outs ->
  u16_at 0 bs t ->
  Q_obj (S n) SD true ActionHeader01 (VObj c attrs) bs (mk c outs).
Proof.
  intros K C F U. pose proof F as (D & L1 & L2 & _). split; [|split].
  - eapply o_action01; eauto.
  - eapply o_action01; eauto using complete_mk. rewrite values_mk by assumption.
    eapply fields_outs; eauto.
  - obj_shape.
Qed.

Lemma Q_action04 n k t c attrs bs outs :
  In (t, c) action04_table -> c <> ActionSetField04 -> complete c attrs ->
  Q_fields n k true (class_attrs c) (values c attrs) bs outs ->
  u16_at 0 bs t -> u16_at 2 bs (zlen bs) -> zlen bs mod 8 = 0 ->
  Q_obj (S n) SD true ActionHeader04 (VObj c attrs) bs (mk c outs).
Proof.
  intros K N C F U V W. pose proof F as (D & L1 & L2 & _). split; [|split].
  - eapply o_action04; eauto.
  - eapply o_action04; eauto using complete_mk. rewrite values_mk by assumption.
    eapply fields_outs; eauto.
  - obj_shape.
Qed.

Lemma Q_setfield n attrs fattrs body outs pad :
  let bs := body ++ repeat 0 pad in
  complete ActionSetField04 attrs ->
  get_attr "field" attrs = Some (VObj OxmTLV04 fattrs) ->
  Q_fields n SD true (class_attrs ActionSetField04)
    (values ActionSetField04 (set_attr "length" (VInt (zlen bs)) attrs)) body outs ->
  u16_at 0 body 25 ->
  zlen bs mod 8 = 0 -> (pad < 8)%nat ->
  Q_obj (S n) SD true ActionHeader04 (VObj ActionSetField04 attrs) bs (mk ActionSetField04 outs).
Proof.
  intros bs C GF F U W P. pose proof F as (D & L1 & L2 & M). split; [|split].
  - eapply o_setfield; eauto.
  - assert (G : exists fa, get_attr "field" (combine (field_names ActionSetField04) outs)
                           = Some (VObj OxmTLV04 fa)).
    { rewrite values_set in D by (auto; right; left; reflexivity).
      rewrite <- (get_own ActionSetField04) in GF by (right; right; left; reflexivity).
      pose proof C as C'. unfold complete in C'.
      destruct (own ActionSetField04 attrs) as [|[k1 v1] [|[k2 v2] [|[k3 v3] [|] ] ] ]; try discriminate.
      cbn in C'. injection C' as -> -> ->. cbn in GF. injection GF as ->.
      cbn [set_attr String.eqb Ascii.eqb Bool.eqb map snd] in D.
      cbn [class_attrs attrs_ActionSetField04] in D.
      apply fields_inv in D as (iv1 & ivs1 & b1 & r1 & o1 & outs1 & EV1 & EB1 & EO1 & D1 & D).
      apply fields_inv in D as (iv2 & ivs2 & b2 & r2 & o2 & outs2 & EV2 & EB2 & EO2 & D2 & D).
      apply fields_inv1 in D as (iv3 & o3 & EV3 & EO3 & D3).
      rewrite EV2 in EV1. rewrite EV3 in EV1. injection EV1 as <- <- <-.
      apply oxm_out in D3 as (a & ->); [|reflexivity]. subst. exists a. reflexivity. }
    destruct G as (fa & G). eapply o_setfield; eauto using complete_mk.
    apply M. apply mixed_values; auto. right; left; reflexivity.
  - obj_shape.
Qed.

Lemma Q_match04 n k attrs body outs pad :
  let bs := body ++ repeat 0 pad in
  complete Match04 attrs ->
  Q_fields n k true (class_attrs Match04)
    (values Match04 (set_attr "length" (VInt (zlen body)) attrs)) body outs ->
  zlen bs mod 8 = 0 -> (pad < 8)%nat ->
  Q_obj (S n) SD true Match04 (VObj Match04 attrs) bs (mk Match04 outs).
Proof.
  intros bs C F W P. pose proof F as (D & L1 & L2 & M). split; [|split].
  - eapply o_match04; eauto.
  - eapply o_match04; eauto using complete_mk.
    apply M. apply mixed_values; auto. right; left; reflexivity.
  - obj_shape.
Qed.

Lemma Q_bucket n k sz attrs il bs outs :
  complete Bucket04 attrs ->
  get_attr "length" attrs = Some il -> int_exact il (zlen bs) ->
  Q_fields n k sz (class_attrs Bucket04) (values Bucket04 attrs) bs outs ->
  Q_obj (S n) SD true Bucket04 (VObj Bucket04 attrs) bs (mk Bucket04 outs).
Proof.
  intros C G I F. pose proof F as (D & L1 & L2 & M). split; [|split].
  - eapply o_bucket; eauto.
  - assert (H : get_attr "length" (combine (field_names Bucket04) outs) = Some (VUInt 2 None (VInt (zlen bs)))).
    { rewrite <- (get_own Bucket04) in G by (left; reflexivity).
      unfold values in D. unfold complete in C.
      destruct (own Bucket04 attrs) as [|[k1 v1] tl]; try discriminate.
      cbn in C. injection C as -> C. cbn in G. injection G as ->.
      cbn [class_attrs attrs_Bucket04 map snd] in D.
      apply fields_inv in D as (iv1 & ivs1 & b1 & r1 & o1 & outs1 & EV1 & EB1 & EO1 & D1 & D).
      injection EV1 as <- _. eapply u16_inv in D1; eauto. subst. reflexivity. }
    eapply o_bucket; eauto using complete_mk; [constructor|].
    rewrite values_mk by assumption. eapply fields_outs; eauto.
  - obj_shape.
Qed.

Lemma Q_oxm n attrs ic cl ifd f im m ipv payload :
  complete OxmTLV04 attrs ->
  get_attr "oxm_class" attrs = Some ic -> int_exact ic cl ->
  is_member E_OxmClass04 cl = true ->
  get_attr "oxm_field" attrs = Some ifd -> int_exact ifd f ->
  (if cl =? 0x8000 then is_member E_OxmOfbMatchField04 f = true
   else 0 <= f <= 127 /\ exists z, ifd = VInt z) ->
  get_attr "oxm_hasmask" attrs = Some im -> int_exact im m ->
  get_attr "oxm_value" attrs = Some ipv ->
  enc_payload (S n) ipv payload -> zlen payload <= 255 ->
  (forall b, In b payload -> is_byte b) ->
  Q_obj (S (S n)) SD true OxmTLV04 (VObj OxmTLV04 attrs)
    (be_encode 2 cl ++ [2 * f + m mod 2] ++ [zlen payload] ++ payload)
    (VObj OxmTLV04
       [("oxm_class", VUInt 2 (Some E_OxmClass04) (VEnum E_OxmClass04 cl));
        ("oxm_field_and_mask", VUInt 1 None (VInt (2 * f + m mod 2)));
        ("oxm_length", VUInt 1 None (VInt (zlen payload)));
        ("oxm_value", VBytes payload);
        ("oxm_field", if cl =? 0x8000 then VEnum E_OxmOfbMatchField04 f else VInt f);
        ("oxm_hasmask", VInt (m mod 2))]).
Proof.
  intros C G1 I1 M1 G2 I2 M2 G3 I3 G4 D L B. split; [|split].
  - eapply o_oxm; eauto.
  - set (cls := VUInt 2 (Some E_OxmClass04) (VEnum E_OxmClass04 cl)).
    set (ff := if cl =? 0x8000 then VEnum E_OxmOfbMatchField04 f else VInt f).
    rewrite <- (Z.mod_mod m 2) by lia.
    eapply o_oxm with (ic := cls) (ifd := ff) (im := VInt ((m mod 2) mod 2)) (ipv := VBytes payload);
      try reflexivity; auto.
    + apply ie_uint_enum. reflexivity.
    + unfold ff. destruct (cl =? 0x8000); constructor. reflexivity.
    + unfold ff. destruct (cl =? 0x8000); auto. destruct M2. eauto.
    + rewrite Z.mod_mod by lia. constructor.
    + constructor.
  - obj_shape.
Qed.

Theorem closure :
  (forall n k sz cv iv bs out, enc n k sz cv iv bs out -> Q_enc n k sz cv iv bs out) /\
  (forall n v bs, enc_payload n v bs -> Q_payload n v bs) /\
  (forall n k sz fs ivs bs outs, enc_fields n k sz fs ivs bs outs -> Q_fields n k sz fs ivs bs outs) /\
  (forall n pc vs bs outs, enc_items n pc vs bs outs -> Q_items n pc vs bs outs) /\
  (forall n k sz base v bs out, enc_obj n k sz base v bs out -> Q_obj n k sz base v bs out).
Proof.
  apply enc_mut.
  - intros n w er d iv z Hw Hv Hz Ha. split; econstructor; eauto.
    left. split; [discriminate|apply decoded_int_value].
  - intros. split; constructor.
  - intros. split; econstructor; eauto.
  - intros. split; econstructor; eauto.
  - intros n d iv s b1 b2 b3 b4 b5 b6 bs Hv Hh. split; [eapply e_hw; eauto|].
    eapply e_hw; [right; left; reflexivity|]. apply hex_canonical_text. eapply hex_wf. exact Hh.
  - intros n d iv Hv. split; [apply e_hw_zero; auto|].
    eapply (e_hw n d _ _ 0 0 0 0 0 0); [right; left; reflexivity|]. apply hex_canonical_text.
    repeat constructor; lia.
  - intros n d iv s bs Hv Hh L. split; [eapply e_dpid; eauto|].
    eapply e_dpid; [right; left; reflexivity| |assumption]. apply hex_canonical_text. eapply hex_wf. exact Hh.
  - intros n d iv bs Hv D _. split; [econstructor; eauto|].
    apply e_bin; [discriminate|]. constructor. constructor.
  - intros n d bs D _. split; [apply e_bin_default; auto|].
    apply e_bin; [discriminate|]. constructor. constructor.
  - intros n k c cattrs attrs bs out D (_ & D' & c' & a & a' & E & ->) HK Hc. injection E as <- <-.
    split; [econstructor; eauto|]. apply e_obj; auto.
  - intros n k c cattrs bs out D (_ & D' & c' & a & a' & E & ->) HK Hc. injection E as <- <-.
    split; [apply e_obj_default; eauto|]. apply e_obj; auto.
  - intros n lc pc lc' pc' items bs outs N S D (_ & D' & _). split; [econstructor; eauto|].
    apply e_list; auto.
  - intros n pc lc' pc' items bs outs S D (_ & D' & L).
    split; [econstructor; eauto|].
    replace (match items with [] => true | _ => false end) with
      (match outs with [] => true | _ => false end)
      by (destruct items, outs; try discriminate; reflexivity).
    apply e_list_plain; auto.
  - intros n lc pc S. split; [constructor; auto|].
    destruct (cid_eqb lc CFixedTypeList) eqn:E.
    + apply cid_eqb_eq in E. subst. apply (e_list_plain n pc CFixedTypeList pc [] [] []); auto.
      constructor.
    + apply e_list; auto; [|constructor]. intros ->. rewrite cid_eqb_refl in E. discriminate.
  - intros. constructor.
  - intros. constructor.
  - intros. econstructor; eauto.
  - intros n k c attrs bs out D _. econstructor; eauto.
  - intros n. repeat split; auto; [constructor|]. intros ivs' M. inversion M. constructor.
  - intros n sz name cv iv bs out D (_ & D'). repeat split; auto; [constructor; auto|].
    intros ivs' M. inversion M as [|? ? ? ? ? ? E M']; subst. inversion M'; subst.
    destruct E as [-> | ->]; constructor; auto.
  - intros n k sz name cv iv b1 out fs ivs b2 outs D (_ & D') E (_ & L1 & L2 & F).
    repeat split; cbn; auto; [econstructor; eauto|].
    intros ivs' M. inversion M as [|? ? ? ? ? ? X M']; subst.
    destruct X as [-> | ->]; constructor; auto.
  - intros. repeat split; constructor.
  - intros n k pc v bs out D (_ & D' & _) N. split; [|split]; [eapply i_last; eauto..|]. reflexivity.
  - intros n pc v b1 out vs b2 outs D (_ & D' & _) N E (_ & E' & L).
    split; [|split]; [eapply i_cons; eauto..|]. cbn. congruence.
  - intros. eapply Q_plain; eauto.
  - intros. eapply Q_len; eauto.
  - intros. eapply Q_typed; eauto.
  - intros. eapply Q_action01; eauto.
  - intros. eapply Q_action04; eauto.
  - intros. eapply Q_setfield; eauto.
  - intros. eapply Q_oxm; eauto.
  - intros. eapply Q_match04; eauto.
  - intros. eapply Q_bucket; eauto.
Qed.
