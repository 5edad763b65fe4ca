(** The model implements the message layer of [SpecMsg]. *)
From Coq Require Import ZArith List Bool String Lia ZifyBool.
From Verif Require Import Base PyText Ids PyVal Classes Interp Utils Spec SpecMsg BaseFacts TextFacts
  ClassFacts LeafFacts StructFacts Soundness Closure FuelFacts Totality UnpackTotal.
Import ListNotations.
Open Scope string_scope.
Open Scope list_scope.
Open Scope Z_scope.

(** ** Header *)

Lemma int_value_not_none iv z : int_value iv z -> iv <> VNone.
Proof. intros H E. subst. inversion H. Qed.

Lemma ulimit1 : ulimit 1 = 256.
Proof. reflexivity. Qed.
Lemma enc_uint n w er d iv z : int_value iv z -> (0 < w)%nat -> 0 <= z < ulimit w -> allowed_int er z ->
  enc (S n) SD true (VUInt w er d) iv (be_encode w z) (VUInt w er (decoded_int er z)).
Proof. intros I W Z A. apply e_uint; auto. left. eauto using int_value_not_none. Qed.

Definition header_outs (v : of_version) (t len x : Z) : list pyval :=
  [VUInt 1 None (VInt (version_number v)); VUInt 1 (Some (type_enum v)) (VEnum (type_enum v) t);
   VUInt 2 None (VInt len); VUInt 4 None (VInt x)].

Lemma header_enc v t x len hattrs n :
  complete (header_class v) hattrs ->
  holds hattrs "version" (version_number v) -> holds hattrs "message_type" t ->
  holds hattrs "xid" x -> 0 <= x < 2 ^ 32 -> is_member (type_enum v) t = true -> 0 <= t < 256 ->
  0 <= len < 65536 ->
  enc_obj (S (S n)) SD true (header_class v)
    (VObj (header_class v) (set_attr "length" (VInt len) hattrs))
    (wire_header v t len x) (mk (header_class v) (header_outs v t len x)).
Proof.
  intros C (i1 & G1 & I1) (i2 & G2 & I2) (i3 & G3 & I3) Hx M Ht Hl.
  assert (N : forall name, In name ["version"; "message_type"; "length"; "xid"] ->
                           In name (field_names (header_class v))) by (destruct v; auto).
  apply o_plain.
  - destruct v; left; reflexivity.
  - apply complete_set; auto. apply N. cbn. auto.
  - rewrite values_set by (auto; apply N; cbn; auto).
    rewrite <- (get_own (header_class v)) in G1, G2, G3 by (apply N; cbn; auto).
    unfold complete in C.
    assert (FN : field_names (header_class v) = ["version"; "message_type"; "length"; "xid"])
      by (destruct v; reflexivity).
    rewrite FN in C.
    destruct (own (header_class v) hattrs) as [|[k1 v1] [|[k2 v2] [|[k3 v3] [|[k4 v4] [|] ] ] ] ]; try discriminate.
    cbn in C. injection C as -> -> -> ->. cbn in G1, G2, G3.
    injection G1 as ->. injection G2 as ->. injection G3 as ->.
    cbn [set_attr String.eqb Ascii.eqb Bool.eqb map snd].
    unfold wire_header. rewrite <- (app_nil_r (be_encode 4 x)).
    assert (A : allowed_int (Some (type_enum v)) t) by (right; exact M).
    assert (D : decoded_int (Some (type_enum v)) t = VEnum (type_enum v) t) by (destruct v; reflexivity).
    unfold header_outs. rewrite <- D.
    assert (CA : class_attrs (header_class v) =
      [("version", VUInt 1 None (VInt (version_number v)));
       ("message_type", VUInt 1 (Some (type_enum v)) VNone);
       ("length", VUInt 2 None VNone); ("xid", VUInt 4 None VNone)]) by (destruct v; reflexivity).
    rewrite CA. clear CA FN D N.
    apply f_cons.
    { apply (enc_uint n 1 None); [exact I1|lia| |exact I]. rewrite ulimit1. destruct v; cbn; lia. }
    apply f_cons.
    { apply (enc_uint n 1 (Some (type_enum v))); [exact I2|lia| |exact A]. rewrite ulimit1. lia. }
    apply f_cons.
    { apply (enc_uint n 2 None); [constructor|lia|rewrite ulimit2; lia|exact I]. }
    apply f_cons; [|apply f_nil].
    apply (enc_uint n 4 None); [exact I3|lia| |exact I]. change (ulimit 4) with (2 ^ 32). lia.
Qed.

(** ** Facts about the message classes *)

Definition class_facts (v : of_version) (t : Z) (c : cid) : Prop :=
  is_member (type_enum v) t = true /\ 0 <= t < 256 /\
  lookup_type t (message_types v) = Some c /\
  (exists h, class_attrs c = ("header", VObj (header_class v) h) :: body_fields c) /\
  message_fields c = body_fields c /\
  simple_size (kind c) = true /\
  (special c = false -> kind c = KMessage) /\
  (misfiled v t \/
   exists a l x, new_instance c =
     Some (VObj c (("header", VObj (header_class v)
                     [("version", VUInt 1 None (VInt (version_number v)));
                      ("message_type", VEnum (type_enum v) t); ("length", l); ("xid", x)]) :: a)) /\
     map fst a = map fst (body_fields c)).

Lemma message_class v t c : In (t, c) (openflow_types v) -> class_facts v t c.
Proof.
  intros I.
  assert (G : Forall (fun p => class_facts v (fst p) (snd p)) (openflow_types v)).
  { unfold openflow_types. destruct v.
    - repeat apply Forall_cons; try apply Forall_nil; unfold class_facts; cbn [fst snd];
        (split; [reflexivity|]); (split; [lia|]); (split; [reflexivity|]);
        (split; [eexists; reflexivity|]); (split; [reflexivity|]); (split; [reflexivity|]);
        (split; [intros; reflexivity || discriminate|]);
        right; eexists _, _, _; split; reflexivity.
    - repeat apply Forall_cons; try apply Forall_nil; unfold class_facts; cbn [fst snd];
        (split; [reflexivity|]); (split; [lia|]); (split; [reflexivity|]);
        (split; [eexists; reflexivity|]); (split; [reflexivity|]); (split; [reflexivity|]);
        (split; [intros; reflexivity || discriminate|]);
        first [right; eexists _, _, _; split; reflexivity
              |left; split; [reflexivity|lia] ]. }
  rewrite Forall_forall in G. exact (G _ I).
Qed.

(** ** Encoding *)

Lemma split_values v t c attrs : In (t, c) (openflow_types v) -> complete c attrs ->
  forall h, get_attr "header" attrs = Some h ->
  own c attrs = ("header", h) :: tl (own c attrs) /\
  values c attrs = h :: body_values c attrs /\
  forall h', values c (set_attr "header" h' attrs) = h' :: body_values c attrs /\
             complete c (set_attr "header" h' attrs).
Proof.
  intros I C h G. destruct (message_class _ _ _ I) as (_ & _ & _ & (hh & CA) & _).
  assert (N : In "header" (field_names c)) by (unfold field_names; rewrite CA; left; reflexivity).
  assert (E : own c attrs = ("header", h) :: tl (own c attrs)).
  { pose proof C as C'. unfold complete, field_names in C'. rewrite CA in C'.
    rewrite <- (get_own c) in G by exact N.
    destruct (own c attrs) as [|[k x] r]; [discriminate|]. cbn in C'. injection C' as -> _.
    cbn in G. injection G as ->. reflexivity. }
  split; [exact E|]. split.
  - unfold body_values, values. rewrite E. reflexivity.
  - intros h'. split; [|apply complete_set; auto].
    rewrite values_set by auto. rewrite E. cbn [set_attr String.eqb Ascii.eqb Bool.eqb map snd].
    unfold body_values, values. rewrite E. reflexivity.
Qed.

Lemma header_kind v : (match kind (header_class v) with KBucket | KAction04 | KSetField04 => false | _ => true end) = true.
Proof. destruct v; reflexivity. Qed.

(** A header whose length does not fit in 16 bits is refused. *)
Lemma header_refused v t x len hattrs n :
  complete (header_class v) hattrs ->
  holds hattrs "version" (version_number v) -> holds hattrs "message_type" t ->
  holds hattrs "xid" x -> 0 <= x < 2 ^ 32 -> is_member (type_enum v) t = true -> 0 <= t < 256 ->
  65536 <= len ->
  pack0 (S (S n)) (VObj (header_class v) (set_attr "length" (VInt len) hattrs)) = Err PackException.
Proof.
  intros C (i1 & G1 & I1) (i2 & G2 & I2) (i3 & G3 & I3) Hx M Ht Hl.
  assert (N : forall name, In name ["version"; "message_type"; "length"; "xid"] ->
                           In name (field_names (header_class v))) by (destruct v; auto).
  rewrite pack0_plain by (destruct v; reflexivity). unfold struct_pack.
  rewrite is_valid_plain by (destruct v; discriminate). cbn [bind].
  rewrite zip_attrs_values. rewrite values_set by (auto; apply N; cbn; auto).
  rewrite <- (get_own (header_class v)) in G1, G2, G3 by (apply N; cbn; auto).
  unfold complete in C.
  assert (FN : field_names (header_class v) = ["version"; "message_type"; "length"; "xid"])
    by (destruct v; reflexivity).
  rewrite FN in C.
  destruct (own (header_class v) hattrs) as [|[k1 v1] [|[k2 v2] [|[k3 v3] [|[k4 v4] [|] ] ] ] ]; try discriminate.
  cbn in C. injection C as -> -> -> ->. cbn in G1, G2, G3.
  injection G1 as ->. injection G2 as ->. injection G3 as ->.
  cbn [set_attr String.eqb Ascii.eqb Bool.eqb map snd].
  assert (CA : map snd (class_attrs (header_class v)) =
    [VUInt 1 None (VInt (version_number v)); VUInt 1 (Some (type_enum v)) VNone;
     VUInt 2 None VNone; VUInt 4 None VNone]) by (destruct v; reflexivity).
  rewrite CA. cbn [combine concatM fst snd].
  assert (E1 : enc (S n) SD true (VUInt 1 None (VInt (version_number v))) i1 (be_encode 1 (version_number v))
            (VUInt 1 None (decoded_int None (version_number v)))).
  { apply (enc_uint n 1 None); [exact I1|lia| |exact I]. rewrite ulimit1. destruct v; cbn; lia. }
  assert (E2 : enc (S n) SD true (VUInt 1 (Some (type_enum v)) VNone) i2 (be_encode 1 t)
            (VUInt 1 (Some (type_enum v)) (decoded_int (Some (type_enum v)) t))).
  { apply (enc_uint n 1 (Some (type_enum v))); [exact I2|lia| |right; exact M]. rewrite ulimit1. lia. }
  apply soundness in E1 as (P1 & _). apply soundness in E2 as (P2 & _).
  rewrite P1. cbn [bind]. rewrite P2. cbn [bind].
  cbn [pack1]. unfold uint_pack1, uint_struct. cbn [dot_value as_int]. unfold struct_pack_u.
  replace (len <? ulimit 2) with false by (symmetry; apply Z.ltb_ge; exact Hl).
  rewrite andb_false_r. reflexivity.
Qed.

(** What pack() of a message with body [body] gives. *)
Definition framed (v : of_version) (t x : Z) (body : bytes) : res bytes :=
  if 8 + zlen body <? 65536 then Ok (wire_header v t (8 + zlen body) x ++ body)
  else Err PackException.

Section Encode.
  Context (n : nat) (v : of_version) (t x : Z) (c : cid) (attrs : list (string * pyval)) (body : bytes).
  Hypothesis HI : In (t, c) (openflow_types v).
  Hypothesis HS : sendable v t x c attrs.
  Hypothesis HP : concatM (fun p => pack1 (pack0 (S (S n))) (fst p) (snd p))
                    (combine (map snd (body_fields c)) (body_values c attrs)) = Ok body.
  Hypothesis HZ : sumM (fun p => size1 (size0 (S (S n))) (fst p) (snd p))
                    (combine (map snd (body_fields c)) (body_values c attrs)) = Ok (zlen body).

  Lemma message_size_ok : size0 (S (S (S n))) (VObj c attrs) = Ok (8 + zlen body).
  Proof.
    destruct HS as (C & hattrs & G & HC & H1 & H2 & H3 & Hx).
    destruct (message_class _ _ _ HI) as (M & Ht & _ & (hh & CA) & _ & SZ & _).
    destruct (split_values _ _ _ _ HI C _ G) as (_ & EV & _).
    rewrite size0_simple by exact SZ. unfold struct_size. rewrite zip_attrs_values, EV, CA.
    cbn [map snd combine sumM fst].
    rewrite size1_obj by (apply obj_of_self || apply header_kind).
    rewrite size0_simple by (destruct v; reflexivity).
    assert (HE : enc_obj (S (S n)) SD true (header_class v)
       (VObj (header_class v) (set_attr "length" (VInt 0) hattrs)) (wire_header v t 0 x)
       (mk (header_class v) (header_outs v t 0 x))) by (apply header_enc; auto; lia).
    apply soundness in HE as (_ & _ & _ & _ & SH & _). specialize (SH eq_refl).
    rewrite size0_simple in SH by (destruct v; reflexivity).
    rewrite (struct_size_set _ _ "length" _ _ 2 None VNone) in SH by (auto; destruct v; reflexivity).
    rewrite SH. cbn [bind]. unfold wire_header. rewrite !zlen_app, !zlen_be.
    replace (Z.of_nat 1 + (Z.of_nat 1 + (Z.of_nat 2 + Z.of_nat 4))) with 8 by reflexivity.
    rewrite HZ. reflexivity.
  Qed.

  Lemma message_pack_ok :
    (forall h, is_valid c (set_attr "header" h attrs) = Ok true) ->
    message_pack (pack0 (S (S n))) (size0 (S (S (S n)))) c attrs
    = framed v t x body.
  Proof.
    intros HV. unfold message_pack. rewrite message_size_ok. cbn [bind].
    destruct HS as (C & hattrs & G & HC & H1 & H2 & H3 & Hx).
    destruct (message_class _ _ _ HI) as (M & Ht & _ & (hh & CA) & _).
    destruct (split_values _ _ _ _ HI C _ G) as (_ & _ & EV).
    unfold attr_or_error. rewrite G. cbn [bind]. unfold struct_pack. rewrite HV. cbn [bind].
    rewrite zip_attrs_values, (proj1 (EV _)), CA. cbn [map snd combine concatM fst].
    rewrite pack1_obj by (apply obj_of_self || apply header_kind).
    unfold framed. destruct (8 + zlen body <? 65536) eqn:HL.
    2:{ rewrite (header_refused v t x); auto. lia. }
    assert (HE : enc_obj (S (S n)) SD true (header_class v)
       (VObj (header_class v) (set_attr "length" (VInt (8 + zlen body)) hattrs))
       (wire_header v t (8 + zlen body) x)
       (mk (header_class v) (header_outs v t (8 + zlen body) x))).
    { apply header_enc; auto. pose proof (zlen_nonneg body). lia. }
    apply soundness in HE as (_ & _ & _ & PH & _). rewrite PH. cbn [bind]. rewrite HP. reflexivity.
  Qed.
End Encode.

(** ** Decoding *)

Lemma wire_header_length v t len x : List.length (wire_header v t len x) = 8%nat.
Proof. unfold wire_header. rewrite !app_length, !be_encode_length. reflexivity. Qed.
Lemma wire_header_wf v t len x : wf_bytes (wire_header v t len x).
Proof. unfold wire_header. rewrite !wf_bytes_app. auto using be_encode_wf. Qed.

Lemma header_size v : get_size (new_header v) = Ok 8.
Proof. destruct v; vm_compute; reflexivity. Qed.

Lemma header_unpack v t len x : 0 <= x < 2 ^ 32 -> is_member (type_enum v) t = true -> 0 <= t < 256 ->
  0 <= len < 65536 ->
  unpack (new_header v) (wire_header v t len x) 0 = Ok (mk (header_class v) (header_outs v t len x)).
Proof.
  intros Hx M Ht Hl.
  set (ha := [("version", VInt (version_number v)); ("message_type", VInt t); ("length", VNone); ("xid", VInt x)]).
  assert (HE : enc_obj 2 SD true (header_class v)
       (VObj (header_class v) (set_attr "length" (VInt len) ha)) (wire_header v t len x)
       (mk (header_class v) (header_outs v t len x))).
  { apply header_enc; auto; try (eexists; split; [reflexivity|constructor]). destruct v; reflexivity. }
  apply soundness in HE as (_ & _ & _ & _ & _ & _ & U).
  assert (E : exists a, new_header v = VObj (header_class v) a /\ map fst a = start_keys (header_class v)).
  { destruct v; eexists; split; reflexivity. }
  destruct E as (a & E & K).
  specialize (U a [] [] K (fun _ => eq_refl)). cbn [app List.length] in U. rewrite app_nil_r in U.
  rewrite <- E in U.
  assert (NE : wire_header v t len x <> []).
  { intros E0. apply (f_equal (@List.length Z)) in E0. rewrite wire_header_length in E0. discriminate. }
  specialize (U NE). rewrite <- U. apply unpack_of.
  - apply (instance_uok (header_class v)). destruct v; reflexivity.
  - apply wire_header_wf.
  - rewrite U. discriminate.
Qed.

Lemma unpack_message_ok v t x c body :
  In (t, c) (openflow_types v) -> ~ misfiled v t -> 0 <= x < 2 ^ 32 -> wf_bytes body ->
  8 + zlen body < 65536 ->
  let len := 8 + zlen body in
  exists a, map fst a = map fst (body_fields c) /\
    forall m out,
      unpack0 m (VObj c (("header", decoded_header v t len x) :: a)) body 0 = Ok out ->
      unpack_message v (wire_header v t len x ++ body) = Ok out.
Proof.
  intros I NM Hx W HL len.
  destruct (message_class _ _ _ I) as (M & Ht & LT & _ & _ & _ & _ & NI).
  destruct NI as [NI|(a & l & x0 & NI & KA)]; [contradiction|].
  exists a. split; [exact KA|]. intros m out U.
  unfold unpack_message. rewrite header_size. cbn [bind]. cbv zeta.
  change (Z.to_nat 8) with 8%nat.
  rewrite firstn_app_exact, skipn_app_exact by (rewrite wire_header_length; reflexivity).
  assert (Hl : 0 <= len < 65536) by (unfold len; pose proof (zlen_nonneg body); lia).
  pose proof (header_unpack v t len x Hx M Ht Hl) as HU. rewrite HU. cbn [bind].
  pose proof (header_fine v _ (wire_header_wf v t len x)) as HF. rewrite HU in HF.
  destruct HF as [_ HF]. specialize (HF _ eq_refl).
  assert (NM' : new_message_from_header v (mk (header_class v) (header_outs v t len x))
                = Ok (VObj c (("header", decoded_header v t len x) :: a))).
  { unfold new_message_from_header, new_message_from_message_type, mk, header_outs.
    assert (FN : field_names (header_class v) = ["version"; "message_type"; "length"; "xid"])
      by (destruct v; reflexivity).
    rewrite FN. unfold obj_attr, attr_or_error.
    cbn [combine get_attr String.eqb Ascii.eqb Bool.eqb bind].
    replace (type_code v (VUInt 1 (Some (type_enum v)) (VEnum (type_enum v) t))) with (@Ok Z t)
      by (destruct v; reflexivity).
    cbn [bind]. rewrite LT, NI. reflexivity. }
  rewrite NM'. cbn [bind].
  rewrite <- U. apply unpack_of.
  - eapply from_header_uok; [exact HF|exact NM'].
  - exact W.
  - rewrite U. discriminate.
Qed.

Lemma validate_ok v t x body : 0 <= t < 256 -> 8 + zlen body < 65536 ->
  validate_packet (wire_header v t (8 + zlen body) x ++ body) = Ok tt.
Proof.
  intros Ht HL. pose proof (zlen_nonneg body) as Z0. unfold validate_packet. cbv zeta.
  assert (L : zlen (wire_header v t (8 + zlen body) x ++ body) = 8 + zlen body).
  { rewrite zlen_app. unfold zlen at 1. rewrite wire_header_length. reflexivity. }
  rewrite L.
  replace ((8 + zlen body <? 8) || (65536 <? 8 + zlen body)) with false by lia.
  replace (slice 2 4 (wire_header v t (8 + zlen body) x ++ body)) with (be_encode 2 (8 + zlen body)).
  2: { unfold wire_header. rewrite <- !app_assoc. symmetry. rewrite app_assoc. apply slice_mid.
       - rewrite app_length, !be_encode_length. reflexivity.
       - rewrite app_length, !be_encode_length. reflexivity. }
  rewrite be_decode_encode by (rewrite ulimit2; lia). rewrite Z.eqb_refl. cbn [negb].
  destruct v; reflexivity.
Qed.

Lemma unpack_packet_ok v t x c body :
  In (t, c) (openflow_types v) -> ~ misfiled v t -> 0 <= x < 2 ^ 32 -> wf_bytes body ->
  8 + zlen body < 65536 ->
  let len := 8 + zlen body in
  exists a, map fst a = map fst (body_fields c) /\
    forall m out,
      unpack0 m (VObj c (("header", decoded_header v t len x) :: a)) body 0 = Ok out ->
      unpack_packet (wire_header v t len x ++ body) = Ok out.
Proof.
  intros I NM Hx W HL len. destruct (unpack_message_ok v t x c body I NM Hx W HL) as (a & KA & U).
  exists a. split; [exact KA|]. intros m out H.
  destruct (message_class _ _ _ I) as (_ & Ht & _).
  unfold unpack_packet. unfold len. rewrite validate_ok by assumption. cbn [bind].
  replace (hd 0 (wire_header v t (8 + zlen body) x ++ body)) with (version_number v) by (destruct v; reflexivity).
  replace (version_lib (version_number v)) with (Some v) by (destruct v; reflexivity).
  rewrite (U m out H). reflexivity.
Qed.
