(** Packet validation and the choice of the message class. *)
From Coq Require Import ZArith List Bool String Lia ZifyBool.
From Verif Require Import Base PyText Ids PyVal Classes Interp Utils Spec SpecMsg SpecBasic
  BaseFacts ClassFacts LeafFacts StructFacts Soundness FuelFacts Totality UnpackTotal MsgFacts IntFacts.
Import ListNotations.
Open Scope string_scope.
Open Scope list_scope.
Open Scope Z_scope.

(** ** validate_packet *)

Definition well_framed (b : bytes) : Prop :=
  8 <= zlen b <= 65535 /\ place_value (slice 2 4 b) = zlen b /\ 1 <= nth 0 b 0 <= 127.

Lemma hd_nth (b : bytes) : hd 0 b = nth 0 b 0.
Proof. destruct b; reflexivity. Qed.

Lemma slice24_bound b : wf_bytes b -> 0 <= be_decode (slice 2 4 b) < 65536.
Proof.
  intros W. pose proof (be_decode_bound _ (wf_bytes_slice 2 4 b W)) as B.
  assert (L : (List.length (slice 2 4 b) <= 2)%nat) by (rewrite slice_length; lia).
  assert (U : ulimit (List.length (slice 2 4 b)) <= ulimit 2).
  { unfold ulimit. apply Z.pow_le_mono_r; lia. }
  rewrite ulimit2 in U. lia.
Qed.

Lemma validate_exact p :
  (forall b, p = VBytes b -> wf_bytes b) ->
  (validate_any p = Ok tt <-> exists b, p = VBytes b /\ well_framed b) /\
  (validate_any p = Ok tt \/ validate_any p = Err UnpackException).
Proof.
  intros W.
  assert (X : forall q, q = p -> (match q with VBytes _ => False | _ => True end) ->
            (validate_any p = Ok tt <-> exists b, p = VBytes b /\ well_framed b) /\
            (validate_any p = Ok tt \/ validate_any p = Err UnpackException)).
  { intros q -> N. destruct p; try contradiction; split; auto;
      (split; [discriminate|intros (b0 & E & _); discriminate]). }
  destruct p as [|z|s|b|e z|e z|w er y|k|l y|y m0|y|y|y|c a|lc pc its];
    try (eapply X; [reflexivity|exact I]).
  clear X. specialize (W b eq_refl). pose proof (slice24_bound b W) as B.
  cbn [validate_any]. unfold validate_packet. cbv zeta. rewrite hd_nth.
  assert (Q : (exists b0, VBytes b = VBytes b0 /\ well_framed b0) <-> well_framed b).
  { split; [intros (b0 & E & F); injection E as ->; exact F|eauto]. }
  rewrite Q. clear Q. unfold well_framed. rewrite place_value_decode.
  destruct ((zlen b <? 8) || (65536 <? zlen b)) eqn:E1.
  { split; [split; [discriminate|lia]|auto]. }
  destruct (negb (zlen b =? be_decode (slice 2 4 b))) eqn:E2.
  { split; [split; [discriminate|lia]|auto]. }
  destruct ((nth 0 b 0 =? 0) || (128 <=? nth 0 b 0)) eqn:E3.
  { split; [split; [discriminate|lia]|auto]. }
  split; [|auto]. split; [intros _|reflexivity].
  assert (0 <= nth 0 b 0 < 256).
  { destruct b as [|b0 tl]; [cbn; lia|]. inversion W; subst. cbn [nth]. assumption. }
  lia.
Qed.

(** ** Messages keep their class and header while their body is decoded *)

Lemma get_set_other name name' x attrs : name <> name' ->
  get_attr name (set_attr name' x attrs) = get_attr name attrs.
Proof.
  intros N. induction attrs as [|[k v] tl IH]; cbn [set_attr get_attr].
  - destruct (String.eqb_spec name' name); [congruence|reflexivity].
  - destruct (String.eqb_spec k name').
    + subst. cbn [get_attr]. destruct (String.eqb_spec name' name); [congruence|reflexivity].
    + cbn [get_attr]. destruct (String.eqb k name); auto.
Qed.

Lemma unpack_fields_keep rec size name fields : ~ In name (map fst fields) ->
  forall attrs b o r, unpack_fields rec size fields attrs b o = Ok r ->
  get_attr name (fst r) = get_attr name attrs.
Proof.
  induction fields as [|[k cv] tl IH]; intros N attrs b o r H; cbn [unpack_fields] in H.
  - injection H as <-. reflexivity.
  - cbn [map fst In] in N. assert (N1 : name <> k) by (intros ->; apply N; auto).
    assert (N2 : ~ In name (map fst tl)) by (intros I; apply N; auto).
    destruct b as [|b0 bt].
    + apply IH in H; [|exact N2]. rewrite H. apply get_set_other, N1.
    + apply bind_ok in H as (a' & _ & H). apply bind_ok in H as (s & _ & H).
      apply IH in H; [|exact N2]. rewrite H. apply get_set_other, N1.
Qed.

Lemma packet_out_keep rec size name fields : ~ In name (map fst fields) ->
  forall attrs b o r, packet_out_fields rec size fields attrs b o = Ok r ->
  get_attr name r = get_attr name attrs.
Proof.
  induction fields as [|[k cv] tl IH]; intros N attrs b o r H; cbn [packet_out_fields] in H.
  - injection H as <-. reflexivity.
  - cbn [map fst In] in N. assert (N1 : name <> k) by (intros ->; apply N; auto).
    assert (N2 : ~ In name (map fst tl)) by (intros I; apply N; auto).
    cbv zeta in H. apply bind_ok in H as (a' & _ & H). apply bind_ok in H as (s & _ & H).
    apply IH in H; [|exact N2]. rewrite H. apply get_set_other, N1.
Qed.

Definition message_kind (k : ckind) : bool :=
  match k with
  | KMessage | KPacketOut01 | KPacketOut04 | KErrorMsg01 | KErrorMsg04 | KStatsRequest | KStatsReply
  | KMultipartRequest | KMultipartReply => true
  | _ => false
  end.

Lemma message_keeps rec size c attrs b o out :
  message_kind (kind c) = true -> ~ In "header" (map fst (message_fields c)) ->
  unpack_obj rec size c attrs b o = Ok out ->
  exists attrs', out = VObj c attrs' /\ get_attr "header" attrs' = get_attr "header" attrs.
Proof.
  intros K N H.
  assert (F : forall a1 b0 o0, unpack_message_fields rec size c attrs b0 o0 = Ok a1 ->
                get_attr "header" a1 = get_attr "header" attrs).
  { intros a1 b0 o0 E. unfold unpack_message_fields in E. apply bind_ok in E as (r & E & E').
    injection E' as <-. eapply unpack_fields_keep; eassumption. }
  unfold unpack_obj in H. destruct (kind c); try discriminate K.
  - apply bind_ok in H as (a1 & E & H). injection H as <-. eexists. split; [reflexivity|]. eauto.
  - apply bind_ok in H as (a1 & E & H). injection H as <-. eexists. split; [reflexivity|].
    eapply packet_out_keep; eassumption.
  - apply bind_ok in H as (a1 & E & H). injection H as <-. eexists. split; [reflexivity|].
    eapply packet_out_keep; eassumption.
  - unfold error_unpack in H. apply bind_ok in H as (a1 & E & H).
    apply bind_ok in H as (t & _ & H). apply bind_ok in H as (u & _ & H).
    apply bind_ok in H as (code & _ & H). apply bind_ok in H as (m & _ & H). injection H as <-.
    eexists. split; [reflexivity|]. rewrite get_set_other by discriminate. eauto.
  - unfold error_unpack in H. apply bind_ok in H as (a1 & E & H).
    apply bind_ok in H as (t & _ & H). apply bind_ok in H as (u & _ & H).
    apply bind_ok in H as (code & _ & H). apply bind_ok in H as (m & _ & H). injection H as <-.
    eexists. split; [reflexivity|]. rewrite get_set_other by discriminate. eauto.
  - unfold stats_request_unpack in H. apply bind_ok in H as (a1 & E & H).
    apply bind_ok in H as (t & _ & H). apply bind_ok in H as (u & _ & H).
    apply bind_ok in H as (bb & _ & H). apply bind_ok in H as (m & _ & H). injection H as <-.
    eexists. split; [reflexivity|]. rewrite !get_set_other by discriminate. eauto.
  - unfold stats_reply_unpack in H. apply bind_ok in H as (a1 & E & H).
    apply bind_ok in H as (t & _ & H). apply bind_ok in H as (u & _ & H).
    apply bind_ok in H as (bb & _ & H). apply bind_ok in H as (inst & _ & H).
    apply bind_ok in H as (m & _ & H). injection H as <-.
    eexists. split; [reflexivity|]. rewrite !get_set_other by discriminate. eauto.
  - unfold multipart_unpack in H. apply bind_ok in H as (a1 & E & H).
    apply bind_ok in H as (t & _ & H). apply bind_ok in H as (u & _ & H).
    apply bind_ok in H as (inst & _ & H).
    apply bind_ok in H as (bb & _ & H). apply bind_ok in H as (m & _ & H). injection H as <-.
    eexists. split; [reflexivity|]. rewrite !get_set_other by discriminate. eauto.
  - unfold multipart_unpack in H. apply bind_ok in H as (a1 & E & H).
    apply bind_ok in H as (t & _ & H). apply bind_ok in H as (u & _ & H).
    apply bind_ok in H as (inst & _ & H).
    apply bind_ok in H as (bb & _ & H). apply bind_ok in H as (m & _ & H). injection H as <-.
    eexists. split; [reflexivity|]. rewrite !get_set_other by discriminate. eauto.
Qed.

(** ** Header *)

Lemma header_refuses v b0 t tl : is_member (type_enum v) t = false -> wf_bytes (b0 :: t :: tl) ->
  unpack (new_header v) (b0 :: t :: tl) 0 = Err UnpackException.
Proof.
  intros M W.
  assert (E : unpack0 3 (new_header v) (b0 :: t :: tl) 0 = Err UnpackException).
  { assert (EC : enum_call (type_enum v) (be_decode [t]) = Err ValueError).
    { replace (be_decode [t]) with t by reflexivity. unfold enum_call. rewrite M. destruct v; reflexivity. }
    assert (U0 : forall d, unpack0 2 (VUInt 1 None d) (b0 :: t :: tl) 0 = Ok (VUInt 1 None (VInt (be_decode [b0]))))
      by reflexivity.
    assert (U1 : forall d, unpack0 2 (VUInt 1 (Some (type_enum v)) d) (b0 :: t :: tl) 1 = Err UnpackException).
    { intros d. change (uint_unpack 1 (Some (type_enum v)) (b0 :: t :: tl) 1 = Err UnpackException).
      unfold uint_unpack.
      replace (struct_unpack_u 1 (b0 :: t :: tl) 1) with (@Ok Z (be_decode [t])) by reflexivity.
      cbn [bind]. rewrite EC. reflexivity. }
    assert (SH : exists a, new_header v = VObj (header_class v) a) by (destruct v; eexists; reflexivity).
    destruct SH as (a & ->).
    change (unpack_obj (unpack0 2) (size0 2) (header_class v) a (b0 :: t :: tl) 0 = Err UnpackException).
    unfold unpack_obj. replace (kind (header_class v)) with KStruct by (destruct v; reflexivity).
    unfold unpack_structure.
    assert (CA : class_attrs (header_class v) =
      [("version", VUInt 1 None (VInt (version_number v)));
       ("message_type", VUInt 1 (Some (type_enum v)) VNone);
       ("length", VUInt 2 None VNone); ("xid", VUInt 4 None VNone)]) by (destruct v; reflexivity).
    rewrite CA. rewrite unpack_fields_cons by discriminate. cbn [deepcopy]. rewrite U0.
    cbn [bind]. replace (size0 2 (VUInt 1 None (VInt (be_decode [b0])))) with (@Ok Z 1) by reflexivity.
    cbn [bind]. rewrite unpack_fields_cons by discriminate. cbn [deepcopy].
    replace (0 + Z.to_nat 1)%nat with 1%nat by reflexivity. rewrite U1. reflexivity. }
  rewrite (unpack_of _ _ _ 3); [exact E| |exact W|rewrite E; discriminate].
  apply (instance_uok (header_class v)). destruct v; reflexivity.
Qed.

Lemma lookup_In t l c : lookup_type t l = Some c -> In (t, c) l.
Proof.
  induction l as [|[k d] tl IH]; cbn [lookup_type]; [discriminate|].
  destruct (Z.eqb_spec t k).
  - intros E. injection E as ->. subst. left. reflexivity.
  - intros H. right. auto.
Qed.
Lemma types_agree v t c : lookup_type t (message_types v) = Some c -> In (t, c) (openflow_types v).
Proof.
  intros H. apply lookup_In in H. revert H. destruct v; cbn [message_types openflow_types];
    unfold message_types_01, message_types_04; cbn [In]; tauto.
Qed.

(** ** Class of a decoded packet *)

Lemma unpack0_obj n c a b o : unpack0 (S n) (VObj c a) b o = unpack_obj (unpack0 n) (size0 n) c a b o.
Proof. reflexivity. Qed.
Lemma FUEL_S : FUEL = S 99.
Proof. reflexivity. Qed.
Lemma unpack_object c a b o : unpack (VObj c a) b o = unpack_obj (unpack0 99) (size0 99) c a b o.
Proof. unfold unpack. rewrite FUEL_S. apply unpack0_obj. Qed.

Lemma new_message_shape v t c : In (t, c) (openflow_types v) ->
  exists a h, new_instance c = Some (VObj c (("header", VObj (header_class v) h) :: a)) /\
    map fst h = ["version"; "message_type"; "length"; "xid"] /\
    get_attr "version" h = Some (VUInt 1 None (VInt (version_number v))) /\
    (~ misfiled v t -> get_attr "message_type" h = Some (VEnum (type_enum v) t)).
Proof.
  intros I.
  assert (G : Forall (fun p => let t := fst p in let c := snd p in
    exists a h, new_instance c = Some (VObj c (("header", VObj (header_class v) h) :: a)) /\
    map fst h = ["version"; "message_type"; "length"; "xid"] /\
    get_attr "version" h = Some (VUInt 1 None (VInt (version_number v))) /\
    (~ misfiled v t -> get_attr "message_type" h = Some (VEnum (type_enum v) t))) (openflow_types v)).
  { destruct v; cbn [openflow_types]; repeat apply Forall_cons; try apply Forall_nil; cbn [fst snd];
      eexists _, _; (split; [reflexivity|]); (split; [reflexivity|]); (split; [reflexivity|]);
      intros NM; (reflexivity || (exfalso; apply NM; split; [reflexivity|lia])). }
  rewrite Forall_forall in G. exact (G _ I).
Qed.

Lemma message_kind_ok v t c : In (t, c) (openflow_types v) ->
  message_kind (kind c) = true /\ ~ In "header" (map fst (message_fields c)).
Proof.
  intros I.
  assert (G : forallb (fun p => message_kind (kind (snd p)) &&
     negb (existsb (String.eqb "header") (map fst (message_fields (snd p))))) (openflow_types v) = true).
  { destruct v; vm_compute; reflexivity. }
  rewrite forallb_forall in G. specialize (G _ I). cbn [snd] in G. apply andb_prop in G as [G1 G2].
  split; [exact G1|]. intros J. apply negb_true_iff in G2.
  assert (T : existsb (String.eqb "header") (map fst (message_fields c)) = true).
  { apply existsb_exists. exists "header". split; [exact J|apply String.eqb_refl]. }
  congruence.
Qed.

Lemma version_lib_ok z v : version_lib z = Some v <-> z = version_number v.
Proof.
  split.
  - unfold version_lib. destruct z as [|p|p]; try discriminate.
    destruct p as [p|p|]; try discriminate; [|intros E; injection E as <-; reflexivity].
    destruct p as [p|p|]; try discriminate. destruct p as [p|p|]; try discriminate.
    intros E; injection E as <-; reflexivity.
  - intros ->. destruct v; reflexivity.
Qed.

Lemma unpack_message_eq v b : unpack_message v b =
  bind (unpack (new_header v) (firstn 8 b) 0)
       (fun h => bind (new_message_from_header v h) (fun m => unpack m (skipn 8 b) 0)).
Proof. unfold unpack_message. rewrite header_size. reflexivity. Qed.

(** The first eight bytes. *)
Lemma packet_header b v : wf_bytes b -> 8 <= zlen b -> nth 0 b 0 = version_number v ->
  let t := nth 1 b 0 in let len := place_value (slice 2 4 b) in let x := place_value (slice 4 8 b) in
  firstn 8 b = wire_header v t len x /\ 0 <= t < 256 /\ 0 <= len < 65536 /\ 0 <= x < 2 ^ 32.
Proof.
  intros W L V. cbv zeta. unfold zlen in L.
  destruct b as [|b0 [|b1 [|b2 [|b3 [|b4 [|b5 [|b6 [|b7 tl] ] ] ] ] ] ] ]; cbn [List.length] in L; try lia.
  cbn [nth] in *. change (slice 2 4 (b0 :: b1 :: b2 :: b3 :: b4 :: b5 :: b6 :: b7 :: tl)) with [b2; b3].
  change (slice 4 8 (b0 :: b1 :: b2 :: b3 :: b4 :: b5 :: b6 :: b7 :: tl)) with [b4; b5; b6; b7].
  rewrite !place_value_decode. subst b0.
  assert (W' : Forall is_byte [b1; b2; b3; b4; b5; b6; b7]).
  { unfold wf_bytes in W. rewrite Forall_forall in W. apply Forall_forall. intros y I. apply W. cbn in *. tauto. }
  assert (W23 : wf_bytes [b2; b3]).
  { rewrite Forall_forall in W'. apply Forall_forall. intros y I. apply W'. cbn in *. tauto. }
  assert (W47 : wf_bytes [b4; b5; b6; b7]).
  { rewrite Forall_forall in W'. apply Forall_forall. intros y I. apply W'. cbn in *. tauto. }
  assert (B1 : is_byte b1) by (rewrite Forall_forall in W'; apply W'; cbn; auto).
  pose proof (be_decode_bound _ W23) as B23. pose proof (be_decode_bound _ W47) as B47.
  cbn [List.length] in B23, B47. rewrite ulimit2 in B23. change (ulimit 4) with (2 ^ 32) in B47.
  unfold wire_header. rewrite (be1 b1) by exact B1.
  pose proof (be_encode_decode _ W23) as E1. cbn [List.length] in E1. rewrite E1.
  pose proof (be_encode_decode _ W47) as E2. cbn [List.length] in E2. rewrite E2.
  replace (be_encode 1 (version_number v)) with [version_number v] by (destruct v; reflexivity).
  repeat split; try (apply B1); try lia; reflexivity.
Qed.

Lemma packet_class b m : wf_bytes b -> unpack_packet b = Ok m ->
  exists v c attrs h,
    nth 0 b 0 = version_number v /\ In (nth 1 b 0, c) (openflow_types v) /\
    m = VObj c attrs /\ get_attr "header" attrs = Some (VObj (header_class v) h) /\
    holds h "version" (version_number v) /\
    holds h "xid" (place_value (slice 4 8 b)) /\
    holds h "length" (place_value (slice 2 4 b)) /\
    (~ misfiled v (nth 1 b 0) -> holds h "message_type" (nth 1 b 0)).
Proof.
  intros W H. unfold unpack_packet in H. apply bind_ok in H as (u & V & H).
  assert (F : well_framed b).
  { destruct (validate_exact (VBytes b)) as [[F _] _]; [intros b0 E; injection E as <-; exact W|].
    destruct F as (b0 & E & F); [cbn [validate_any]; destruct u; exact V|]. injection E as <-. exact F. }
  destruct F as ((L8 & _) & PL & _).
  destruct (version_lib (hd 0 b)) as [v|] eqn:VL; [|discriminate].
  apply version_lib_ok in VL. rewrite hd_nth in VL.
  destruct (unpack_message v b) as [m'|e] eqn:UM; cbn [recast] in H;
    [injection H as ->|destruct (exn_eqb e ValueError); discriminate].
  destruct (packet_header b v W L8 VL) as (FH & Ht & Hl & Hx). cbv zeta in *.
  rewrite unpack_message_eq, FH in UM.
  destruct (is_member (type_enum v) (nth 1 b 0)) eqn:M.
  2: { pose proof (wf_bytes_firstn 8 b W) as W8. rewrite FH in W8.
       assert (EH : exists tl, wire_header v (nth 1 b 0) (place_value (slice 2 4 b)) (place_value (slice 4 8 b))
                    = version_number v :: nth 1 b 0 :: tl).
       { eexists. unfold wire_header. rewrite (be1 (nth 1 b 0)) by exact Ht.
         replace (be_encode 1 (version_number v)) with [version_number v] by (destruct v; reflexivity).
         reflexivity. }
       destruct EH as (tl & EH). rewrite EH in UM, W8.
       rewrite (header_refuses v _ _ _ M W8) in UM. discriminate. }
  rewrite header_unpack in UM by assumption.
  apply bind_ok in UM as (hdr & EH & UM). injection EH as <-.
  apply bind_ok in UM as (msg & NM & UM).
  exists v. unfold new_message_from_header, new_message_from_message_type in NM.
  assert (FN : field_names (header_class v) = ["version"; "message_type"; "length"; "xid"])
      by (destruct v; reflexivity).
  unfold mk, header_outs in NM. rewrite FN in NM. unfold obj_attr, attr_or_error in NM.
  cbn [combine get_attr String.eqb Ascii.eqb Bool.eqb bind] in NM.
  replace (type_code v (VUInt 1 (Some (type_enum v)) (VEnum (type_enum v) (nth 1 b 0)))) with (@Ok Z (nth 1 b 0)) in NM
      by (destruct v; reflexivity).
  cbn [bind] in NM.
  destruct (lookup_type (nth 1 b 0) (message_types v)) as [c|] eqn:LT; [|discriminate].
  apply types_agree in LT. exists c.
  destruct (new_message_shape _ _ _ LT) as (a & h & NI & KH & GV & GT).
  rewrite NI in NM. cbn [bind] in NM. unfold set_header in NM.
  cbn [get_attr set_attr String.eqb Ascii.eqb Bool.eqb bind] in NM. injection NM as <-.
  rewrite unpack_object in UM.
  destruct (message_kind_ok _ _ _ LT) as [K NH].
  apply message_keeps in UM as (attrs' & -> & GH); [|exact K|exact NH].
  eexists attrs', _. split; [exact VL|]. split; [exact LT|]. split; [reflexivity|].
  split; [rewrite GH; reflexivity|].
  destruct h as [|[k1 v1] [|[k2 v2] [|[k3 v3] [|[k4 v4] [|] ] ] ] ]; try discriminate.
  cbn in KH. injection KH as -> -> -> ->. cbn in GV, GT. injection GV as ->.
  unfold holds. cbn [set_attr get_attr String.eqb Ascii.eqb Bool.eqb].
  split; [eexists; split; [reflexivity|constructor]|].
  split; [eexists; split; [reflexivity|constructor]|].
  split; [eexists; split; [reflexivity|constructor]|].
  intros N. specialize (GT N). injection GT as ->.
  eexists. split; [reflexivity|constructor].
Qed.

(** Unknown versions and types. *)
Lemma packet_unknown b : wf_bytes b ->
  (forall v c, nth 0 b 0 = version_number v -> ~ In (nth 1 b 0, c) (openflow_types v)) ->
  unpack_packet b = Err UnpackException.
Proof.
  intros W N. unfold unpack_packet.
  destruct (validate_exact (VBytes b)) as [[F _] D]; [intros b0 E; injection E as <-; exact W|].
  cbn [validate_any] in *. destruct D as [D|D]; [|rewrite D; reflexivity]. rewrite D. cbn [bind].
  destruct (F D) as (b0 & E & ((L8 & _) & _)). injection E as <-.
  destruct (version_lib (hd 0 b)) as [v|] eqn:VL; [|reflexivity].
  apply version_lib_ok in VL. rewrite hd_nth in VL.
  destruct (packet_header b v W L8 VL) as (FH & Ht & Hl & Hx). cbv zeta in *.
  rewrite unpack_message_eq, FH.
  destruct (is_member (type_enum v) (nth 1 b 0)) eqn:M.
  2: { pose proof (wf_bytes_firstn 8 b W) as W8. rewrite FH in W8.
       assert (EH : exists tl, wire_header v (nth 1 b 0) (place_value (slice 2 4 b)) (place_value (slice 4 8 b))
                    = version_number v :: nth 1 b 0 :: tl).
       { eexists. unfold wire_header. rewrite (be1 (nth 1 b 0)) by exact Ht.
         replace (be_encode 1 (version_number v)) with [version_number v] by (destruct v; reflexivity).
         reflexivity. }
       destruct EH as (tl & EH). rewrite EH in *.
       rewrite (header_refuses v _ _ _ M W8). reflexivity. }
  rewrite header_unpack by assumption. cbn [bind].
  unfold new_message_from_header, new_message_from_message_type.
  assert (FN : field_names (header_class v) = ["version"; "message_type"; "length"; "xid"])
      by (destruct v; reflexivity).
  unfold mk, header_outs. rewrite FN. unfold obj_attr, attr_or_error.
  cbn [combine get_attr String.eqb Ascii.eqb Bool.eqb bind].
  replace (type_code v (VUInt 1 (Some (type_enum v)) (VEnum (type_enum v) (nth 1 b 0)))) with (@Ok Z (nth 1 b 0))
      by (destruct v; reflexivity).
  cbn [bind].
  destruct (lookup_type (nth 1 b 0) (message_types v)) as [c|] eqn:LT; [|reflexivity].
  apply types_agree in LT. exfalso. exact (N v c VL LT).
Qed.
