(** Whole messages: the message relation is what the model does, and is stable
    under decoding. *)
From Coq Require Import ZArith List Bool String Lia ZifyBool.
From Verif Require Import Base PyText Ids PyVal Classes Interp Utils Spec SpecMsg BaseFacts TextFacts
  ClassFacts LeafFacts StructFacts Soundness Closure FuelFacts Totality UnpackTotal MsgFacts MsgBody.
Import ListNotations.
Open Scope string_scope.
Open Scope list_scope.
Open Scope Z_scope.

Lemma body_ok n v t x c attrs body outs :
  enc_body n v c attrs body outs ->
  In (t, c) (openflow_types v) -> sendable v t x c attrs ->
  B_body n v t x c attrs body outs.
Proof.
  intros H. destruct H; intros HI HS.
  - eapply B_fields; eauto.
  - eapply B_empty; eauto.
  - subst d2. eapply b_error_ok; eauto.
  - eapply b_packet_out_ok; eauto.
  - eapply b_stats_ok; eauto.
Qed.

Theorem message_sound n v t x m bs out : enc_msg n v t x m bs out ->
  pack m = Ok bs /\ get_size m = Ok (zlen bs) /\ unpack_packet bs = Ok out.
Proof.
  intros H. destruct H as [v t x c attrs body outs HI NM HS HB W HL].
  destruct (body_ok _ _ _ _ _ _ _ _ HB HI HS) as (P & Z & U).
  unfold framed in P. replace (8 + zlen body <? 65536) with true in P by lia. split; [|split].
  - erewrite pack_of; [exact P|]. rewrite P. discriminate.
  - erewrite size_of; [rewrite Z|rewrite Z; discriminate]. f_equal.
    rewrite zlen_app. unfold zlen at 2. rewrite wire_header_length. reflexivity.
  - assert (Hx : 0 <= x < 2 ^ 32) by (destruct HS as (_ & ha & _ & _ & _ & _ & _ & Hx); exact Hx).
    destruct (unpack_packet_ok v t x c body HI NM Hx W HL) as (a & KA & UP).
    eapply UP. apply U. exact KA.
Qed.

(** ** Stability *)

Lemma body_outs_length n v t x c attrs body outs :
  enc_body n v c attrs body outs -> In (t, c) (openflow_types v) -> sendable v t x c attrs ->
  List.length outs = List.length (body_fields c).
Proof.
  intros H HI HS. destruct H.
  - match goal with D : enc_fields _ _ _ _ _ _ _ |- _ => apply closure in D as (_ & _ & L & _) end. exact L.
  - apply map_length.
  - rewrite error_fields. reflexivity.
  - match goal with E : body_fields _ = _ |- _ => rewrite E end.
    match goal with D : enc_fields _ _ _ _ _ _ _ |- _ => apply closure in D as (_ & _ & L & _) end.
    rewrite !app_length, L. reflexivity.
  - match goal with E : body_fields _ = _ |- _ => rewrite E end.
    match goal with D : enc_fields _ _ _ _ _ _ _ |- _ => apply closure in D as (_ & _ & L & _) end.
    cbn [List.length] in *. rewrite !app_length. cbn [List.length]. lia.
Qed.

Lemma decoded_sendable v t len x c outs :
  In (t, c) (openflow_types v) -> 0 <= x < 2 ^ 32 ->
  List.length outs = List.length (body_fields c) ->
  let attrs := ("header", decoded_header v t len x) :: combine (map fst (body_fields c)) outs in
  sendable v t x c attrs /\ body_values c attrs = outs.
Proof.
  intros I Hx L attrs. destruct (message_class _ _ _ I) as (_ & _ & _ & (h & CA) & _).
  assert (E : attrs = combine (field_names c) (decoded_header v t len x :: outs)).
  { unfold field_names. rewrite CA. reflexivity. }
  assert (L' : List.length (decoded_header v t len x :: outs) = List.length (class_attrs c)).
  { rewrite CA. cbn [List.length]. congruence. }
  split; [split|].
  - rewrite E. apply complete_mk. exact L'.
  - eexists. split; [reflexivity|]. split; [destruct v; reflexivity|].
    repeat split; try lia; eexists; (split; [reflexivity|]); constructor.
  - unfold body_values. rewrite E, values_mk by exact L'. reflexivity.
Qed.

(** Messages that may have nothing after the header. *)
Definition bare (c : cid) : Prop :=
  body_fields c = [] \/
  (exists name d, body_fields c = [(name, VBin d)] /\ (d = VNone \/ d = VBytes [])) \/
  (exists name lc pc, body_fields c = [(name, VList lc pc [])] /\ lc <> CFixedTypeList /\
     subclass lc CFixedTypeList = true).
Definition starts_nonempty (c : cid) : Prop :=
  exists name cv rest, body_fields c = (name, cv) :: rest /\
    match cv with
    | VUInt _ _ _ | VDPID _ => True
    | VObj c' _ => c' = Match01
    | _ => False
    end.

Lemma bare_or_not v t c : In (t, c) (openflow_types v) -> special c = false -> bare c \/ starts_nonempty c.
Proof.
  intros I.
  assert (G : Forall (fun p => special (snd p) = false -> bare (snd p) \/ starts_nonempty (snd p)) (openflow_types v)).
  { unfold openflow_types. destruct v; repeat apply Forall_cons; try apply Forall_nil; cbn [snd];
      intros SP; try discriminate SP; clear SP;
      first [right; eexists _, _, _; split; [reflexivity|exact Logic.I || reflexivity]
            |left; left; reflexivity
            |left; right; left; eexists _, _; split; [reflexivity|tauto]
            |left; right; right; eexists _, _, _; split; [reflexivity|split; [discriminate|reflexivity]]]. }
  rewrite Forall_forall in G. exact (G _ I).
Qed.

Lemma be_nonempty w z : (0 < w)%nat -> be_encode w z <> [].
Proof.
  intros H E. apply (f_equal (@List.length Z)) in E. rewrite be_encode_length in E. cbn in E. lia.
Qed.

Lemma fields_inv_any n k sz nm cv fs vals bs outs :
  enc_fields n k sz ((nm, cv) :: fs) vals bs outs ->
  exists k' sz' iv ivs b1 b2 out, vals = iv :: ivs /\ bs = b1 ++ b2 /\ enc n k' sz' cv iv b1 out.
Proof.
  intros H. inversion H; subst.
  - eexists _, _, _, _, _, []. eexists. split; [reflexivity|]. split; [symmetry; apply app_nil_r|eassumption].
  - eexists _, _, _, _, _, _, _. split; [reflexivity|]. split; [reflexivity|eassumption].
Qed.

Lemma starts_bytes n k sz c vals bs outs : starts_nonempty c ->
  enc_fields n k sz (body_fields c) vals bs outs -> bs <> [].
Proof.
  intros (name & cv & rest & E & H) D. rewrite E in D.
  apply fields_inv_any in D as (k' & sz' & iv & ivs & b1 & b2 & out & _ & -> & D).
  assert (b1 <> []); [|destruct b1; [contradiction|discriminate] ].
  destruct cv; try contradiction.
  - apply uint_inv in D as (z & W & _ & _ & _ & -> & _). apply be_nonempty. exact W.
  - inversion D; subst. intros ->. discriminate.
  - subst c0.
    assert (G : forall m kk ss vv bb oo, enc_obj m kk ss Match01 vv bb oo -> bb <> []).
    { intros m kk ss vv bb oo O. inversion O; subst; try discriminate.
      - match goal with F : enc_fields _ _ _ _ _ _ _ |- _ => cbn [class_attrs attrs_Match01] in F;
          apply fields_inv in F as (i & r & b3 & b4 & o & s & _ & -> & _ & FF & _) end.
        apply uint_inv in FF as (z & W & _ & _ & _ & -> & _).
        pose proof (be_nonempty _ z W). destruct (be_encode 4 z); [contradiction|discriminate].
      - destruct f; discriminate. }
    inversion D; subst; eapply G; eassumption.
Qed.

Lemma stats_closed m form iv bb out : enc_stats m form iv bb out -> enc_stats m form out bb out.
Proof.
  intros H. destruct H.
  - eapply st_struct; [|assumption].
    match goal with D : enc_obj _ _ _ _ _ _ _ |- _ => apply closure in D as (_ & D & _); exact D end.
  - apply st_list; [reflexivity|].
    match goal with D : enc_items _ _ _ _ _ |- _ => apply closure in D as (_ & D & _); exact D end.
  - apply st_list; [reflexivity|]. eapply i_last; [|assumption].
    match goal with D : enc_obj _ _ _ _ _ _ _ |- _ => apply closure in D as (_ & D & _); exact D end.
  - apply st_list; [reflexivity|constructor].
  - apply st_raw.
  - apply st_raw.
Qed.

Lemma body_closed n v t x len c attrs body outs :
  enc_body n v c attrs body outs ->
  In (t, c) (openflow_types v) -> sendable v t x c attrs -> 0 <= x < 2 ^ 32 ->
  enc_body n v c (("header", decoded_header v t len x) :: combine (map fst (body_fields c)) outs) body outs.
Proof.
  intros H HI HS Hx. pose proof (body_outs_length _ _ _ _ _ _ _ _ H HI HS) as LO.
  destruct (decoded_sendable v t len x c outs HI Hx LO) as [DS BV].
  destruct H as [v k c attrs body outs SP D NE|v k c attrs outs SP D
    |v k attrs body er1 ty e d1 code d2 data D X IE M ->
    |v attrs ip p alen fs vals pb pouts lc pc aiv ab aout dcv div db dout GP X SP BF BV0 DF DA EL DD
    |v f attrs ti ty form vals fs pb tout pouts bcv biv bb bout VF GT TI BF BV0 DF ET IF ST].
  - eapply b_fields; [exact SP| |exact NE]. rewrite BV. apply closure in D. eapply fields_outs; exact D.
  - eapply (b_empty _ _ k _ _ (map (fun p => match deepcopy (snd p) with VBin _ => VBin (VBytes []) | y => y end) (body_fields c)));
      [exact SP|]. rewrite BV.
    destruct (bare_or_not _ _ _ HI SP) as [B|B]; [|apply (starts_bytes _ _ _ _ _ _ _ B) in D; congruence].
    destruct B as [B|[(name & d & B & Hd)|(name & lc & pc & B & NL & SC)] ]; rewrite B in *; cbn [map snd].
    + inversion D; subst. constructor.
    + inversion D; subst.
      * apply f_last. cbn [deepcopy].
        apply e_bin; [discriminate|]. constructor. destruct Hd as [-> | ->]; constructor.
      * match goal with E : enc _ SD _ (VBin _) _ _ _ |- _ => inversion E end.
    + inversion D; subst.
      * apply f_last. cbn [deepcopy map].
        match goal with E : enc _ _ _ (VList _ _ _) _ _ _ |- _ => inversion E; subst; try contradiction end.
        -- rewrite cid_eqb_neq by (apply fixed_not_list; exact SC). apply e_list; auto. constructor.
        -- rewrite cid_eqb_neq by (apply fixed_not_list; exact SC). apply e_list; auto. constructor.
      * match goal with E : enc _ SD _ (VList _ _ _) _ _ _ |- _ => inversion E end.
  - eapply (b_error n v k); [rewrite BV|exact X|exact IE|exact M|reflexivity].
    pose proof D as D0. apply closure in D0 as (_ & _ & _ & MX).
    rewrite error_fields in D.
    apply fields_inv in D as (i1 & r1 & b1 & b1' & o1 & s1 & V1 & -> & O1 & E1 & D).
    injection O1 as <- <-.
    apply fields_inv in D as (i2 & r2 & b2 & b3 & o2 & s2 & -> & -> & O2 & E2 & D).
    injection O2 as <- <-.
    apply fields_inv1 in D as (i3 & o3 & -> & O3 & E3). injection O3 as <-.
    rewrite error_fields. apply f_cons; [apply closure in E1; apply E1|].
    apply f_cons.
    + apply uint_inv in E2 as (z & W & _ & R & _ & -> & O & _). injection O as ->.
      apply (enc_uint _ 2 None); auto; [constructor|exact Logic.I].
    + destruct (bin_inv _ _ _ _ _ _ _ E3) as (-> & _). apply f_last. apply closure in E3. apply E3.
  - pose proof BF as BF1. rewrite out_fields in BF1. apply app_inj_len in BF1 as [<- BF1]; [|reflexivity].
    injection BF1 as <- <- <-.
    destruct (out_values v t x attrs (VInt alen) HI HS)
      as (fixed & a0 & d0 & BV1 & L0 & GA & HS' & fixed' & BV' & L' & NV).
    rewrite BV' in BV0. apply app_inj_len in BV0 as [<- BV0]; [|reflexivity]. injection BV0 as -> ->.
    set (attrs' := ("header", decoded_header v t len x) :: _) in *.
    destruct (out_values v t x attrs' (VInt alen) HI DS)
      as (fixed2 & a2 & d2 & BV2 & L2 & GA2 & HS2 & fixed3 & BV3 & L3 & NV3).
    rewrite BV in BV2. apply app_inj_len in BV2 as [<- E2]; [|reflexivity]. injection E2 as <- <-.
    (* the decoded port *)
    assert (PORT : exists w, get_attr "in_port" attrs' = Some (VUInt w None (VInt p))).
    { clear - DF BF GP X HI HS BV1 BV' L' L0.
      assert (N : In "in_port" (map fst (body_fields (out_class v)))) by (destruct v; cbn; tauto).
      assert (N2 : In "actions_len" (map fst (body_fields (out_class v)))) by (destruct v; cbn; tauto).
      rewrite (body_get _ _ _ _ _ _ HI HS N) in GP.
      destruct (body_set _ _ _ _ _ _ (VInt alen) HI HS N2) as [_ BS]. rewrite BV', BV1 in BS.
      rewrite BV1 in GP. unfold attrs'. rewrite out_fields in *.
      destruct v; cbn [out_fixed List.length map fst app] in *.
      - destruct fixed as [|? [|? [|? [|] ] ] ]; try discriminate L0.
        destruct fixed' as [|? [|? [|? [|] ] ] ]; try discriminate L'.
        cbn in BS, GP. injection BS as -> -> _. injection GP as ->.
        apply fields_inv in DF as (i1 & r1 & b1 & b1' & o1 & s1 & V1 & -> & -> & E1 & D).
        apply fields_inv in D as (i2 & r2 & b2 & b2' & o2 & s2 & V2 & -> & -> & E2 & D).
        injection V1 as <- V1. subst r1. injection V2 as <- _.
        rewrite (u16_inv _ _ _ _ _ _ _ _ _ _ E2 X). eexists. reflexivity.
      - destruct fixed as [|? [|? [|? [|? [|] ] ] ] ]; try discriminate L0.
        destruct fixed' as [|? [|? [|? [|? [|] ] ] ] ]; try discriminate L'.
        cbn in BS, GP. injection BS as -> -> _. injection GP as ->.
        apply fields_inv in DF as (i1 & r1 & b1 & b1' & o1 & s1 & V1 & -> & -> & E1 & D).
        apply fields_inv in D as (i2 & r2 & b2 & b2' & o2 & s2 & V2 & -> & -> & E2 & D).
        injection V1 as <- V1. subst r1. injection V2 as <- _.
        rewrite (u16_inv _ _ _ _ _ _ _ _ _ _ E2 X). eexists. reflexivity. }
    destruct PORT as (w & GP').
    eapply b_packet_out; [exact GP'|constructor|exact SP|exact BF|exact BV3| |apply closure in DA; apply DA|exact EL|apply closure in DD; apply DD].
    (* the fixed fields, with the number of action bytes set again *)
    pose proof DF as DF1. apply closure in DF1 as (_ & LV & LP & MX). apply MX.
    assert (N2 : In "actions_len" (map fst (body_fields (out_class v)))) by (destruct v; cbn; tauto).
    destruct (body_set _ _ _ _ _ _ (VInt alen) HI DS N2) as [_ BS]. rewrite BV, BV3 in BS.
    rewrite out_fields in BS. clear - BS NV LV LP L3.
    destruct v; cbn [out_fixed List.length map fst app] in *.
    + destruct fixed' as [|f1 [|f2 [|f3 [|] ] ] ]; try discriminate LV.
      destruct fixed3 as [|g1 [|g2 [|g3 [|] ] ] ]; try discriminate L3.
      destruct pouts as [|p1 [|p2 [|p3 [|] ] ] ]; try discriminate LP.
      cbn in BS, NV. injection NV as ->. injection BS as -> -> ->. repeat (apply mx_cons; [auto|]). apply mx_nil.
    + destruct fixed' as [|f1 [|f2 [|f3 [|f4 [|] ] ] ] ]; try discriminate LV.
      destruct fixed3 as [|g1 [|g2 [|g3 [|g4 [|] ] ] ] ]; try discriminate L3.
      destruct pouts as [|p1 [|p2 [|p3 [|p4 [|] ] ] ] ]; try discriminate LP.
      cbn in BS, NV. injection NV as ->. injection BS as -> -> -> ->. repeat (apply mx_cons; [auto|]). apply mx_nil.
  - eapply (b_stats n v f _ tout ty form (tout :: pouts) fs); try eassumption.
    + clear - BF. rewrite stats_fields in *. destruct f; reflexivity.
    + left. exact ET.
    + pose proof BF as BF1. rewrite stats_fields in BF1. apply app_inj_len in BF1 as [<- BF1]; [|reflexivity].
      assert (E : exists nm tl, stats_fixed f = (nm, VUInt 2 (Some (stats_type_enum f)) VNone) :: tl /\ tl <> []).
      { destruct f; eexists _, _; split; (reflexivity || discriminate). }
      destruct E as (nm & tl & E & NT). rewrite E in *. destruct tl as [|t2 tl]; [contradiction|].
      destruct (stats_forms_ok _ _ _ IF) as (MEM & RT & _).
      apply fields_inv in DF as (i1 & r1 & b1 & b1' & o1 & s1 & V1 & -> & O1 & E1 & D).
      injection O1 as <- <-. apply f_cons.
      * apply uint_inv in E1 as (z & W & _ & R & A & -> & O & n' & En). injection O as O.
        assert (z = ty).
        { rewrite ET in O. unfold decoded_int in O. rewrite stats_enum_plain in O. congruence. }
        subst z. rewrite ET. rewrite En. pose proof (stats_enum_plain f) as PL.
        replace (VEnum (stats_type_enum f) ty) with (decoded_int (Some (stats_type_enum f)) ty) at 2
          by (unfold decoded_int; rewrite PL; reflexivity).
        apply e_uint; auto. left. split; [discriminate|constructor].
      * apply closure in D. eapply fields_outs. exact D.
    + eapply stats_closed; exact ST.
Qed.

Theorem message_stable n v t x m bs out : enc_msg n v t x m bs out -> enc_msg n v t x out bs out.
Proof.
  intros H. destruct H as [v t x c attrs body outs HI NM HS HB W HL].
  assert (Hx : 0 <= x < 2 ^ 32) by (destruct HS as (_ & ha & _ & _ & _ & _ & _ & Hx); exact Hx).
  unfold decoded at 1. apply enc_message; auto.
  - apply (decoded_sendable v t _ x c outs HI Hx). eapply body_outs_length; eauto.
  - eapply body_closed; eauto.
Qed.

(** What was decoded is equal, in the sense of GenericStruct.__eq__, to what
    was sent. *)
Corollary message_equal n v t x m bs out : enc_msg n v t x m bs out ->
  pack out = pack m /\ get_size out = get_size m.
Proof.
  intros H. pose proof (message_stable _ _ _ _ _ _ _ H) as H'.
  apply message_sound in H as (-> & -> & _). apply message_sound in H' as (-> & -> & _). auto.
Qed.

(** A message of 65536 bytes or more is refused. *)
Theorem message_too_long n v t x c attrs body outs :
  In (t, c) (openflow_types v) -> sendable v t x c attrs -> enc_body n v c attrs body outs ->
  65536 <= 8 + zlen body ->
  pack (VObj c attrs) = Err PackException /\ get_size (VObj c attrs) = Ok (8 + zlen body).
Proof.
  intros HI HS HB HL. destruct (body_ok _ _ _ _ _ _ _ _ HB HI HS) as (P & Z & _).
  unfold framed in P. replace (8 + zlen body <? 65536) with false in P by lia. split.
  - erewrite pack_of; [exact P|]. rewrite P. discriminate.
  - erewrite size_of; [rewrite Z|rewrite Z; discriminate]. reflexivity.
Qed.
