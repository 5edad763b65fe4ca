(** The wire relations carry the contents of every field. *)
From Coq Require Import ZArith List Bool String Lia ZifyBool.
From Verif Require Import Base PyText Ids PyVal Classes Interp Utils BaseFacts TextFacts Spec SpecMsg SpecSame
  ClassFacts LeafFacts StructFacts Soundness Closure MsgFacts MsgBody MsgMain.
Import ListNotations.
Open Scope string_scope.
Open Scope list_scope.
Open Scope Z_scope.

Definition all_fields (_ : string) : bool := false.

Lemma same_fields_skip (skip skip' : string -> bool) fs ivs outs :
  (forall nm, skip nm = true -> skip' nm = true) -> same_fields skip fs ivs outs -> same_fields skip' fs ivs outs.
Proof.
  intros M H. induction H; constructor; auto.
  match goal with H : _ \/ _ |- _ => destruct H; [left; auto|right; auto] end.
Qed.

Lemma same_fields_set skip n x fs vals outs :
  skip n = true -> List.length vals = List.length fs ->
  same_fields all_fields fs (map snd (set_attr n x (combine (map fst fs) vals))) outs ->
  same_fields skip fs vals outs.
Proof.
  intros S. revert vals outs. induction fs as [|[nm cv] fs IH]; intros vals outs L H.
  - destruct vals; [|discriminate]. cbn in H. inversion H; subst; constructor.
  - destruct vals as [|v vals]; [discriminate|]. cbn [map fst combine set_attr] in H.
    destruct (String.eqb_spec nm n).
    + cbn [map snd] in H. inversion H; subst. constructor; [auto|].
      rewrite combine_snd in * by (rewrite map_length; cbn in L; lia).
      eapply same_fields_skip; [|eassumption]. discriminate.
    + cbn [map snd] in H. inversion H; subst. constructor.
      * match goal with H : _ \/ _ |- _ => destruct H; [discriminate|auto] end.
      * apply IH; [cbn in L; lia|assumption].
Qed.

Lemma same_fields_values skip c attrs x outs :
  skip "length" = true -> complete c attrs -> In "length" (field_names c) ->
  same_fields all_fields (class_attrs c) (values c (set_attr "length" x attrs)) outs ->
  same_fields skip (class_attrs c) (values c attrs) outs.
Proof.
  intros S C I H. rewrite values_set in H by auto.
  rewrite (combine_self (own c attrs)), C in H.
  eapply same_fields_set; [exact S| |exact H].
  unfold values. rewrite map_length, <- (map_length fst), C. unfold field_names. apply map_length.
Qed.

Definition T_enc (n : nat) (k : delim) (sz : bool) cv iv (bs : bytes) out : Prop := same cv iv out.
Definition T_payload (n : nat) v bs : Prop := enc_payload n v bs.
Definition T_fields (n : nat) (k : delim) (sz : bool) fs ivs (bs : bytes) outs : Prop :=
  same_fields all_fields fs ivs outs /\ List.length outs = List.length fs.
Definition T_items (n : nat) (pc : cid) vs (bs : bytes) outs : Prop := Forall2 same_obj vs outs.
Definition T_obj (n : nat) (k : delim) (sz : bool) (base : cid) v (bs : bytes) out : Prop := same_obj v out.

Lemma T_mk c attrs outs : complete c attrs -> List.length outs = List.length (class_attrs c) ->
  same_fields (computed c) (class_attrs c) (values c attrs) outs ->
  same_obj (VObj c attrs) (mk c outs).
Proof.
  intros C L S. apply so_fields; [exact C|apply complete_mk; exact L|].
  rewrite values_mk by exact L. exact S.
Qed.
Lemma T_plain c attrs outs : complete c attrs -> List.length outs = List.length (class_attrs c) ->
  same_fields all_fields (class_attrs c) (values c attrs) outs ->
  same_obj (VObj c attrs) (mk c outs).
Proof.
  intros C L S. apply T_mk; auto. eapply same_fields_skip; [|exact S]. discriminate.
Qed.
Lemma T_length c attrs x outs : complete c attrs -> List.length outs = List.length (class_attrs c) ->
  computed c "length" = true -> In "length" (field_names c) ->
  same_fields all_fields (class_attrs c) (values c (set_attr "length" x attrs)) outs ->
  same_obj (VObj c attrs) (mk c outs).
Proof. intros C L S I H. apply T_mk; auto. eapply same_fields_values; eauto. Qed.

Theorem contents :
  (forall n k sz cv iv bs out, enc n k sz cv iv bs out -> T_enc n k sz cv iv bs out) /\
  (forall n v bs, enc_payload n v bs -> T_payload n v bs) /\
  (forall n k sz fs ivs bs outs, enc_fields n k sz fs ivs bs outs -> T_fields n k sz fs ivs bs outs) /\
  (forall n pc vs bs outs, enc_items n pc vs bs outs -> T_items n pc vs bs outs) /\
  (forall n k sz base v bs out, enc_obj n k sz base v bs out -> T_obj n k sz base v bs out).
Proof.
  apply enc_mut; unfold T_enc, T_payload, T_fields, T_items, T_obj.
  - intros n w er d iv z Hw Hv Hz Ha. apply (sm_int _ _ _ _ z); [|apply decoded_int_value].
    destruct Hv as [(N & Hv)|(-> & Hv)]; [|exact Hv]. destruct iv; try exact Hv. contradiction.
  - intros. constructor.
  - intros n len d iv s pad Hv. intros. constructor.
    destruct Hv as [-> |[-> |(-> & ->)] ]; reflexivity.
  - intros n d m iv m' b1 b2 b3 b4 Hv W. constructor.
    destruct Hv as [-> |[-> |(-> & ->)] ]; reflexivity.
  - intros n d iv s b1 b2 b3 b4 b5 b6 Hv Hh. apply (sm_hw _ _ [b1; b2; b3; b4; b5; b6]).
    + apply (ad_text _ s); [|exact Hh]. destruct Hv as [-> |[-> |(-> & ->)] ]; reflexivity.
    + eapply ad_text; [reflexivity|]. apply hex_canonical_text. eapply hex_wf. exact Hh.
  - intros n d iv Hv. eapply sm_hw.
    + apply ad_zero. destruct Hv as [-> | ->]; cbn; auto.
    + eapply ad_text; [reflexivity|]. apply hex_canonical_text. repeat constructor; unfold is_byte; lia.
  - intros n d iv s bs Hv Hh L. apply (sm_dpid _ _ bs).
    + apply (ad_text _ s); [|exact Hh]. destruct Hv as [-> |[-> |(-> & ->)] ]; reflexivity.
    + eapply ad_text; [reflexivity|]. apply hex_canonical_text. eapply hex_wf. exact Hh.
  - intros n d iv bs N D _. apply (sm_bin (S n) _ _ bs); [|constructor].
    destruct iv; try exact D. contradiction.
  - intros n d bs D _. apply (sm_bin (S n) _ _ bs); [exact D|constructor].
  - intros. constructor. cbn [shown]. assumption.
  - intros. constructor. cbn [shown]. assumption.
  - intros. constructor. assumption.
  - intros. constructor. assumption.
  - intros. constructor.
  - intros. constructor.
  - intros. constructor.
  - intros. constructor. assumption.
  - intros. econstructor. eassumption.
  - intros. split; constructor.
  - intros. split; [|reflexivity]. constructor; [auto|constructor].
  - intros n k sz name cv iv b1 out fs ivs b2 outs _ S1 _ [S2 L]. split; [constructor; auto|cbn; congruence].
  - intros. constructor.
  - intros. constructor; [assumption|constructor].
  - intros. constructor; assumption.
  - intros n k sz c attrs bs outs K C D [S L]. apply T_plain; auto.
  - intros n k pos upd c attrs bs outs K C D [S L] U. destruct upd.
    + eapply T_length; eauto.
      * unfold computed. rewrite K. reflexivity.
      * destruct (len_class_ok _ _ K) as (w & er & d & G). eapply get_attr_names; exact G.
    + apply T_plain; auto.
  - intros n k f t c attrs bs outs I C D [S L] U1 U2.
    pose proof (typed_table_ok _ _ _ I) as OK.
    assert (G : In "length" (field_names c)).
    { unfold typed_ok in OK. rewrite !andb_true_iff in OK. destruct OK as (_ & OK).
      destruct (get_attr "length" (class_attrs c)) eqn:G; [|discriminate]. eapply get_attr_names; exact G. }
    destruct f.
    + eapply T_length; eauto. cbn [typed_table In] in I. clear - I.
      repeat destruct I as [I|I]; try contradiction; injection I as _ <-; reflexivity.
    + eapply T_length; eauto. cbn [typed_table In] in I. clear - I.
      repeat destruct I as [I|I]; try contradiction; injection I as _ <-; reflexivity.
    + apply T_plain; auto.
  - intros n t c attrs bs outs I C D [S L] U. apply T_plain; auto.
  - intros n k t c attrs bs outs I N C D [S L]. intros. apply T_plain; auto.
  - intros n attrs fattrs body outs pad C GF D [S L] U M P. eapply T_length; eauto. cbn. tauto.
  - intros n attrs ic cl ifd f im m ipv payload C G1 I1 M1 G2 I2 M2 G3 I3 G4 D _ B W.
    eapply (so_oxm (S n) _ _ ic cl ifd f im m ipv payload); eauto; try reflexivity;
      try (apply int_exact_value; assumption).
    + apply iv_uint_enum. reflexivity.
    + destruct (cl =? 32768); constructor.
    + constructor.
  - intros n k attrs body outs pad C D [S L] M P. eapply T_length; eauto. cbn. tauto.
  - intros n k sz attrs il bs outs C G I D [S L]. apply T_plain; auto.
Qed.

Lemma enc_same n k sz cv iv bs out : enc n k sz cv iv bs out -> same cv iv out.
Proof. apply contents. Qed.
Lemma fields_same n k sz fs ivs bs outs : enc_fields n k sz fs ivs bs outs -> same_fields all_fields fs ivs outs.
Proof. intros H. apply contents in H as [S _]. exact S. Qed.
Lemma items_same n pc vs bs outs : enc_items n pc vs bs outs -> Forall2 same_obj vs outs.
Proof. apply contents. Qed.
Lemma obj_same n k sz base v bs out : enc_obj n k sz base v bs out -> same_obj v out.
Proof. apply contents. Qed.

(** ** Messages *)

Lemma same_body_fields c fs ivs outs : same_fields all_fields fs ivs outs -> same_body c fs ivs outs.
Proof.
  induction fs as [|[nm cv] fs IH] in ivs, outs |- *; intros H; inversion H; subst; constructor; auto.
  match goal with H : _ \/ _ |- _ => destruct H; [discriminate|right; left; assumption] end.
Qed.
Lemma same_body_app c f1 i1 o1 f2 i2 o2 : same_body c f1 i1 o1 -> same_body c f2 i2 o2 ->
  same_body c (f1 ++ f2) (i1 ++ i2) (o1 ++ o2).
Proof. intros H1 H2. induction H1; cbn [app]; [exact H2|]. constructor; auto. Qed.

Lemma stats_same n form iv bb out : enc_stats n form iv bb out -> same_stats iv out.
Proof.
  intros H. destruct H.
  - apply ss_struct. eapply obj_same; eassumption.
  - apply ss_list. eapply items_same; eassumption.
  - apply ss_single. eapply obj_same; eassumption.
  - apply ss_nothing. assumption.
  - apply ss_nothing_raw. assumption.
  - apply ss_raw.
Qed.

Lemma same_body_set c n x fs vals outs :
  n = "actions_len" -> List.length vals = List.length fs ->
  same_body c fs (map snd (set_attr n x (combine (map fst fs) vals))) outs ->
  same_body c fs vals outs.
Proof.
  intros S. revert vals outs. induction fs as [|[nm cv] fs IH]; intros vals outs L H.
  - destruct vals; [|discriminate]. cbn in H. inversion H; subst; constructor.
  - destruct vals as [|v vals]; [discriminate|]. cbn [map fst combine set_attr] in H.
    destruct (String.eqb_spec nm n).
    + cbn [map snd] in H. inversion H; subst. constructor; [left; reflexivity|].
      rewrite combine_snd in * by (rewrite map_length; cbn in L; lia). assumption.
    + cbn [map snd] in H. inversion H; subst. constructor; auto.
Qed.

Lemma body_same n v t x c attrs body outs :
  enc_body n v c attrs body outs -> In (t, c) (openflow_types v) -> sendable v t x c attrs ->
  same_body c (body_fields c) (body_values c attrs) outs.
Proof.
  intros H HI HS.
  destruct H as [v k c attrs body outs SP D NE|v k c attrs outs SP D
    |v k attrs body er1 ty e d1 code d2 data D X IE M ->
    |v attrs ip p alen fs vals pb pouts lc pc aiv ab aout dcv div db dout GP X SP BF BV0 DF DA EL DD
    |v f attrs ti ty form vals fs pb tout pouts bcv biv bb bout VF GT TI BF BV0 DF ET IF ST].
  - apply same_body_fields. eapply fields_same; exact D.
  - destruct (bare_or_not _ _ _ HI SP) as [B|B]; [|apply (starts_bytes _ _ _ _ _ _ _ B) in D; congruence].
    destruct B as [B|[(name & d & B & Hd)|(name & lc & pc & B & NL & SC)] ]; rewrite B in *; cbn [map snd].
    + inversion D; subst. constructor.
    + inversion D; subst.
      * constructor; [|constructor]. right. left. cbn [deepcopy].
        match goal with E : enc _ _ _ (VBin _) _ _ _ |- _ => inversion E; subst end.
        -- apply (sm_bin (S (S n)) _ _ []); [|destruct Hd as [-> | ->]; constructor].
           destruct iv; try assumption. contradiction.
        -- eapply (sm_bin (S (S n)) _ _ []); [assumption|destruct Hd as [-> | ->]; constructor].
      * match goal with E : enc _ SD _ (VBin _) _ _ _ |- _ => inversion E end.
    + inversion D; subst.
      * constructor; [|constructor]. right. left. cbn [deepcopy map].
        rewrite cid_eqb_neq by (apply fixed_not_list; exact SC).
        match goal with E : enc _ _ _ (VList _ _ _) _ _ _ |- _ => inversion E; subst; try contradiction end.
        -- match goal with E : enc_items _ _ _ [] _ |- _ => inversion E; subst end.
           ++ apply sm_list. constructor.
           ++ congruence.
           ++ match goal with A : ?b ++ _ = [] |- _ => apply app_eq_nil in A as [-> ->] end. cbn in *. congruence.
        -- apply sm_list_none.
      * match goal with E : enc _ SD _ (VList _ _ _) _ _ _ |- _ => inversion E end.
  - apply fields_same in D. rewrite error_fields in *. generalize dependent (body_values (error_class v) attrs). intros bv D.
    repeat match goal with S : same_fields _ (_ :: _) _ _ |- _ => inversion S; subst; clear S
           | S : same_fields _ [] _ _ |- _ => inversion S; subst; clear S end.
    repeat match goal with S : all_fields _ = true \/ _ |- _ => destruct S as [S|S]; [discriminate|] end.
    constructor; [right; left; assumption|]. constructor; [|constructor; [right; left; assumption|constructor] ].
    right. right. right. split; [destruct v; auto|].
    match goal with S : same (VUInt 2 None _) _ _ |- _ => inversion S; subst end.
    match goal with S : int_value (VUInt 2 None (VInt code)) _ |- _ => inversion S; subst end.
    eexists. split; [eassumption|]. constructor.
  - assert (N2 : In "actions_len" (map fst (body_fields (out_class v)))) by (destruct v; cbn; tauto).
    destruct (body_set _ _ _ _ _ _ (VInt alen) HI HS N2) as [_ BS].
    eapply (same_body_set _ "actions_len" (VInt alen)); [reflexivity| |].
    + destruct HS as (C & _). unfold body_values, values, body_fields.
      assert (L : List.length (map snd (own (out_class v) attrs)) = List.length (class_attrs (out_class v))).
      { rewrite map_length, <- (map_length fst), C. apply map_length. }
      destruct (map snd (own (out_class v) attrs)), (class_attrs (out_class v)); cbn in *; congruence.
    + rewrite <- BS, BV0, BF. apply same_body_app; [apply same_body_fields; eapply fields_same; exact DF|].
      constructor; [right; left; eapply enc_same; exact DA|].
      constructor; [right; left; eapply enc_same; exact DD|constructor].
  - rewrite BF, BV0. apply fields_same in DF.
    inversion DF; subst. change (VEnum (stats_type_enum f) ty :: pouts ++ [bout])
      with ((VEnum (stats_type_enum f) ty :: pouts) ++ [bout]).
    apply same_body_app.
    + constructor; [|apply same_body_fields; assumption].
      match goal with S : all_fields _ = true \/ _ |- _ => destruct S as [S|S]; [discriminate|] end.
      right. right. right. split; [left; destruct f; reflexivity|].
      match goal with S : same _ _ (VUInt 2 _ _) |- _ => inversion S; subst end;
        [|match goal with O : same_obj _ (VUInt _ _ _) |- _ => inversion O end].
      exists z. split; [assumption|].
      match goal with S : int_value (VUInt 2 _ (VEnum _ _)) _ |- _ => inversion S; subst end. constructor.
    + constructor; [|constructor]. right. right. left. split; [destruct f; reflexivity|].
      split; [reflexivity|]. eapply stats_same; exact ST.
Qed.

Theorem message_same n v t x m bs out : enc_msg n v t x m bs out -> same_msg m out.
Proof.
  intros H. destruct H as [v t x c attrs body outs HI NM HS HB W HL].
  pose proof (body_same _ _ _ _ _ _ _ _ HB HI HS) as SB.
  pose proof (body_outs_length _ _ _ _ _ _ _ _ HB HI HS) as LO.
  pose proof HS as (C & h & Gh & Ch & Hv & Ht & Hx & Bx).
  destruct (decoded_sendable v t (8 + zlen body) x c outs HI Bx LO) as [(C' & h' & Gh' & Ch' & Hv' & Ht' & Hx' & _) BV].
  exists c, attrs, (("header", decoded_header v t (8 + zlen body) x) :: combine (map fst (body_fields c)) outs),
    (header_class v), h, h', (version_number v), t, x.
  unfold decoded. repeat split; auto. rewrite BV. exact SB.
Qed.
